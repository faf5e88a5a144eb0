(** C54 is false without debug assertions: an unprotected record overwrites bytes that can be read. *)
From Verif Require Import Model.Prelude Model.Bus Model.Chip Model.Specifiers Model.Stream Spec.Hoare Spec.Cases Spec.Cursor Spec.TlsSecrets Spec.TlsMessages Spec.TlsProtect.
From Verif Require Import Proof.Base Proof.MqttMainP Proof.TlsCaseP Proof.TlsTalkP Proof.TlsForgeP.
From Verif Require Import Model.TlsTypes Model.TlsBuf Model.TlsKeys Model.TlsClient Spec.TlsQueue Spec.TlsCases Spec.TlsSession Spec.TlsWire Spec.TlsTalk Spec.TlsAuth Spec.TlsRelease.
Ltac Zify.zify_post_hook ::= idtac.

Lemma rtalk_eq c l a c' : a <> [] -> (answers_of (rtalk c l), client_of (rtalk c l)) = (a, c') -> exists h, rtalk c l = Some (h, c') /\ map snd h = a.
Proof. intros N E. destruct (rtalk c l) as [(h, c1)|]; cbn [answers_of client_of fst snd] in E; injection E as <- <-; [eauto|contradiction]. Qed.
Lemma rtalk_history c0 : forall l c h c', Forall (fun x => tcall_ok (fst x)) l -> rtalk c l = Some (h, c') -> forall h0, thistory case_cx false 1 c0 h0 c -> thistory case_cx false 1 c0 (h0 ++ h) c'.
Proof.
  induction l as [|(x, script) l IH]; intros c h c' Hl E h0 H; cbn [rtalk] in E.
  - injection E as <- <-. now rewrite app_nil_r.
  - apply Forall_cons_iff in Hl as (Hx & Hl). destruct (play (tcall_run case_cx false 1 c x) (script c)) as [(a, c1)| |] eqn:P; try discriminate E.
    destruct (rtalk c1 l) as [(h1, c2)|] eqn:T; [|discriminate E]. injection E as <- <-.
    change ((x, a) :: h1) with ([(x, a)] ++ h1). rewrite app_assoc. apply (IH c1 h1 c2 Hl T). eapply THCall; [exact H|exact Hx|]. now apply (play_done _ (script c)).
Qed.
Lemma release_greeted : exists h, rtalk talk_init release_greeting = Some (h, release_connected) /\
  map snd h = [NProcess (Ok (TCallAfter 10)); NProcess (Ok (TCallAfter 10)); NProcess (Ok (TCallAfter 10)); NProcess (Ok (TCallAfter 10)); NProcess (Ok THandshakeFinished)].
Proof. apply rtalk_eq; [discriminate|]. vm_compute. reflexivity. Qed.
Lemma release_filled : exists h, rtalk release_connected release_filling = Some (h, release_full) /\
  map snd h = [NProcess (Ok TApplicationData); NReader (Some [Stream.RData [7; 8; 9]]); NProcess (Ok TApplicationData); NProcess (Ok TNone); NProcess (Ok TNone); NProcess (Ok TNone)].
Proof. apply rtalk_eq; [discriminate|]. vm_compute. reflexivity. Qed.
Lemma release_history : exists h, thistory case_cx false 1 talk_init h release_full.
Proof.
  destruct release_greeted as (h & T & _). destruct release_filled as (h' & T' & _). eexists.
  eapply (rtalk_history talk_init release_filling release_connected); [|exact T'|].
  - unfold release_filling. apply Forall_cons; [exact talk_rng_ok|]. apply Forall_cons; [apply reader_ok; [|reflexivity]; apply Forall_cons; [cbn; lia|apply Forall_nil]|].
    repeat (apply Forall_cons || apply Forall_nil); exact talk_rng_ok.
  - apply (rtalk_history talk_init release_greeting talk_init h release_connected) with (h0 := []); [|exact T|constructor].
    repeat (apply Forall_cons || apply Forall_nil); exact talk_rng_ok.
Qed.
Definition bad_record : list Z := plaintext_record 22 [66; 65; 68].
Definition release_got : option (tans * list Z * list Z) :=
  match play (received (tcall_run case_cx false 1 release_full (KProcess talk_rng 115)) []) (release_reads bad_record) with Done (a, c, got) => Some (a, readable c, got) | _ => None end.
Lemma release_result : release_got = Some (NProcess (Ok TNone), [66; 65; 68; 251; 5; 6], bad_record).
Proof. vm_compute. reflexivity. Qed.
Lemma release_readable : readable release_full = [1; 0; 3; 251; 5; 6].
Proof. vm_compute. reflexivity. Qed.
Lemma not_authentic c seq data : zlen data = 6 -> ~ authentic case_cx c bad_record seq data.
Proof.
  intros L (t & pre & record & post & _ & E & O). apply opens_len in O. apply (f_equal zlen) in E. rewrite !zlen_app in E. change (zlen bad_record) with 8 in E.
  pose proof (zlen_nonneg pre). pose proof (zlen_nonneg post). lia.
Qed.
Lemma overwritten : exists h c x e c' got, thistory case_cx false 1 talk_init h c /\ tcall_ok x /\ tc_state c = TConnected /\
  any_bus (received (tcall_run case_cx false 1 c x) []) (Done (NProcess (Ok e), c', got)) /\ got = [22; 3; 3; 0; 3; 66; 65; 68] /\
  readable c = [1; 0; 3; 251; 5; 6] /\ readable c' = [66; 65; 68; 251; 5; 6] /\ ~ delivers case_cx c got c'.
Proof.
  destruct release_history as (h & H). pose proof release_result as E. unfold release_got in E.
  destruct (play _ _) as [((a, c'), got)| |] eqn:P; try discriminate E. injection E as -> Er ->.
  exists h, release_full, (KProcess talk_rng 115), TNone, c', bad_record. split; [exact H|]. split; [exact talk_rng_ok|]. split; [reflexivity|].
  split; [now apply (play_done _ (release_reads bad_record))|]. split; [reflexivity|]. split; [exact release_readable|]. split; [exact Er|].
  intros [D|[D|[(data & D & D')|D]]].
  - rewrite Er in D. discriminate.
  - rewrite Er, release_readable in D. discriminate.
  - rewrite Er, release_readable in D'. discriminate.
  - revert D. rewrite Er. now apply not_authentic.
Qed.
