(** The TLS client: histories. *)
From Verif Require Import Model.Prelude Model.Bus Model.Chip Model.Specifiers Model.LlBits Model.Ll Model.HlIo Model.HlTcp Model.Stream Model.TlsTypes Model.TlsBuf Model.TlsKeys Model.TlsHello
  Model.TlsRecord Model.TlsClient Spec.Hoare Spec.Cursor Spec.TlsSecrets Spec.TlsMessages Spec.TlsQueue Spec.TlsSession.
From Verif Require Import Proof.Base Proof.TlsLeafP Proof.TlsInvP.
Ltac Zify.zify_post_hook ::= idtac.

Section Hist.
Variables (cx : Crypto) (dbg : bool) (fuel : nat) (cf : tconfig).
Hypothesis (CX : crypto_ok cx) (CF : tconfig_ok cf).

Lemma init_inv R sn sp dst : inv cx cf R (tls_init cx sn sp dst cf).
Proof.
  pose proof (N_ok cf CF). destruct CF as (_ & _ & _ & _ & B). split; [|split; reflexivity]. unfold good, tls_init, tls_new. cbn. split; [reflexivity|]. split; [reflexivity|]. split; [reflexivity|]. apply bwf_from; [lia|exact B].
Qed.
Lemma call_leaf R c x : inv cx cf R c -> tcall_ok x -> (forall rng now, x = KProcess rng now -> R rng) -> lf (tcall_run cx dbg fuel c x) (fun y => inv cx cf R (snd y)).
Proof.
  intros H Hx HR. destruct x as [rng now|ops send|data|ops done]; cbn [tcall_run].
  - apply (lf_then _ _ _ _ (process_leaf cx dbg fuel cf R CX CF c rng now H (HR rng now eq_refl) Hx)). intros (r, c') (X & _). exact X.
  - apply (lf_then _ _ _ (fun w => match w with Ok _ => tc_state c = TConnected | Err _ => True end)).
    + unfold tls_writer. unfold tls_connected. destruct (tstate_eqb (tc_state c) TConnected) eqn:E; cbn [negb]; [|exact I]. apply tstate_eqb_ok in E. apply lf_seq. intros [w|]; cbn; auto.
    + intros [w|e] Hw; [|exact H]. apply lf_seq. intros y. destruct send; [|exact H]. unfold tls_writer_send. apply lf_bind, lf_unwrap. intros (key, nc) _. apply lf_seq. intros [u|e]; cbn [lf].
      * unfold increment_write. destruct (_ =? _); cbn [lf bind snd]; [exact I|]. destruct H as (G & S & T). split; [exact G|]. split; [|exact T]. cbn [tc_state tc_ks tc_set_ks]. apply istage_seqs; [exact S|congruence..].
      * cbn [bind lf snd fst]. destruct c; exact H.
  - apply lf_seq. intros r. exact H.
  - destruct (tls_reader c) as [r|]; [|exact H]. destruct (tr_ops r ops) as [(xs, r')|e| |]; try exact I. cbn [lf snd]. destruct done; [|exact H]. destruct H as ((G1 & G2 & G3 & W) & S & T).
    split; [unfold good; cbn; auto using bwf_done|]. exact (conj S T).
Qed.
Lemma history_inv sn sp dst h c : thistory cx dbg fuel (tls_init cx sn sp dst cf) h c -> forall R : Rng -> Prop, (forall rng, randoms h rng -> R rng) -> inv cx cf R c.
Proof.
  induction 1 as [|h c x a c' Hh IH Hx Hb]; intros R HR.
  - apply init_inv.
  - assert (inv cx cf R c) as Hc by (apply IH; intros rng (now & y & Hy); apply HR; exists now, y; apply in_or_app; now left).
    apply (lf_any _ _ _ Hb (call_leaf R c x Hc Hx ltac:(intros rng now ->; apply HR; exists now, a; apply in_or_app; right; now left)) (a, c') eq_refl).
Qed.
Lemma history_stage sn sp dst h c : thistory cx dbg fuel (tls_init cx sn sp dst cf) h c -> stage cx (randoms h) cf c.
Proof. intros H. apply inv_stage. apply (history_inv sn sp dst h c H). auto. Qed.
Lemma history_connected sn sp dst h c : thistory cx dbg fuel (tls_init cx sn sp dst cf) h c -> tls_connected c = true -> exists pre, established cx (randoms h) cf pre (tc_ks c).
Proof.
  intros H E. apply tstate_eqb_ok in E. pose proof (history_stage _ _ _ _ _ H) as S. unfold stage in S. rewrite E in S. exact S.
Qed.
Lemma history_process sn sp dst h c rng now r c' : thistory cx dbg fuel (tls_init cx sn sp dst cf) h c -> rng_ok rng -> any_bus (tls_process cx dbg fuel c rng now) (Done (r, c')) ->
  on_process cx cf (fun _ => True) now c (r, c').
Proof.
  intros H Hr Hb. assert (inv cx cf (fun _ => True) c) as Hc by (apply (history_inv sn sp dst h c H); auto).
  exact (lf_any _ _ _ Hb (process_leaf cx dbg fuel cf (fun _ => True) CX CF c rng now Hc I Hr) (r, c') eq_refl).
Qed.
Lemma process_data sn sp dst h c rng now r c' : thistory cx dbg fuel (tls_init cx sn sp dst cf) h c -> rng_ok rng -> any_bus (tls_process cx dbg fuel c rng now) (Done (r, c')) ->
  (r = Ok TApplicationData -> tls_connected c = true /\ tls_connected c' = true) /\
  (r = Ok THandshakeFinished -> tls_connected c' = true) /\
  (tls_connected c' = true -> tls_connected c = true \/ r = Ok THandshakeFinished).
Proof.
  intros H Hr Hb. destruct (history_process _ _ _ _ _ _ _ _ _ H Hr Hb) as (_ & P1 & P2). cbn [fst snd] in *. unfold tls_connected. rewrite !tstate_eqb_ok.
  split; [intros ->; exact P2|]. split; [intros ->; exact P2|exact P1].
Qed.
Lemma process_deadline sn sp dst h c rng now r c' : thistory cx dbg fuel (tls_init cx sn sp dst cf) h c -> rng_ok rng -> any_bus (tls_process cx dbg fuel c rng now) (Done (r, c')) ->
  match r with
  | Ok (TCallAfter k) => 0 <= k <= 10 /\ tc_timeout c' = Some (now + k - 10) /\ ((tc_state c' = tc_state c /\ tc_timeout c' = tc_timeout c) \/ k = 10)
  | Ok TNone => tls_connected c' = true
  | Err (EStateTimeout s) => s = tc_state c /\ exists t, tc_timeout c = Some t /\ 10 < now - t
  | _ => True
  end /\
  (forall t, tc_timeout c = Some t -> 10 < now - t -> tc_timeout c' = Some t -> r = Err EUnexpectedDisconnect).
Proof.
  intros H Hr Hb. pose proof (history_inv sn sp dst h c H (fun _ => True) (fun _ _ => I)) as (_ & _ & T). destruct (history_process _ _ _ _ _ _ _ _ _ H Hr Hb) as ((_ & _ & T') & P1 & P2). cbn [fst snd] in *. split.
  - destruct r as [[k| | | |]|[al|al| | |st|]]; auto; try tauto. unfold tls_connected. now rewrite tstate_eqb_ok.
  - intros t Et Ht Et'. rewrite Et, Et' in *.
    assert (tc_state c' = TReset \/ tc_state c' = TConnected -> r = Err EUnexpectedDisconnect) as X by (intros [E|E]; rewrite E in T'; discriminate T').
    destruct r as [[k| | | |]|[al|al| | |st|]]; auto; try (apply X; tauto).
    + destruct P2 as (Q1 & Q2 & [Q3|Q3]); [|subst k]; injection Q2 as Q2; lia.
    + destruct P2 as [(_ & Q)|Q]; [injection Q as ->; lia|auto].
    + destruct P2 as (_ & _ & Q & _). discriminate Q.
Qed.
End Hist.
