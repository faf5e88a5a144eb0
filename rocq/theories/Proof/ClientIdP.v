(** [ClientId::new] accepts the identifiers of the standard. *)
From Verif Require Import Proof.Base Model.Prelude Model.Mqtt Spec.ClientId Proof.DnsNameP.

Lemma valid_char c : char_is_valid c = true <-> In c alphabet.
Proof.
  split.
  - intros H. unfold char_is_valid in H. assert (R : 0 <= c < 128) by lia.
    assert (F : forallb (fun c => negb (char_is_valid c) || existsb (Z.eqb c) alphabet) (zseq 0 128) = true) by (vm_compute; reflexivity).
    pose proof (zseq_all _ 128 0 F c ltac:(lia)) as G. cbv beta in G. unfold char_is_valid at 1 in G. rewrite H in G. cbn [negb orb] in G.
    apply existsb_exists in G. destruct G as (x & Hx & E). apply Z.eqb_eq in E. now subst.
  - intros H. assert (F : forallb char_is_valid alphabet = true) by (vm_compute; reflexivity).
    rewrite forallb_forall in F. now apply F.
Qed.
Lemma client_id_valid id x : client_id_new id = Some x <-> x = id /\ standard_id id.
Proof.
  unfold client_id_new, standard_id. pose proof (zlen_nonneg id).
  assert (V : forallb char_is_valid id = true <-> Forall (fun c => In c alphabet) id).
  { rewrite forallb_forall, Forall_forall. split; intros F c Hc; apply valid_char, F, Hc. }
  destruct (_ || _) eqn:E.
  - split; [discriminate|]. intros (_ & L & _). lia.
  - destruct (forallb char_is_valid id) eqn:F; split.
    + intros [= <-]. split; [reflexivity|]. split; [lia|]. now apply V.
    + intros (-> & _). reflexivity.
    + discriminate.
    + intros (_ & _ & G). apply V in G. discriminate.
Qed.
