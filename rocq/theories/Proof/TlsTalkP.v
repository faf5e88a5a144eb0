(** The conversation of the examples is a history. *)
From Verif Require Import Model.Prelude Model.Bus Model.Chip Model.Specifiers Model.TlsTypes Model.TlsBuf Model.TlsKeys Model.TlsClient
  Spec.Hoare Spec.Cases Spec.TlsSecrets Spec.TlsMessages Spec.TlsCases Spec.TlsQueue Spec.TlsSession Spec.TlsTalk.
From Verif Require Import Proof.Base Proof.MqttMainP Proof.TlsCaseP.
From Verif Require Import Model.TlsTypes Model.TlsHello Model.TlsClient Spec.TlsQueue Spec.TlsSession Spec.TlsTalk.

Lemma talk_eq c l a c' : a <> [] -> (answers_of (talk c l), client_of (talk c l)) = (a, c') -> exists h, talk c l = Some (h, c') /\ map snd h = a.
Proof. intros N E. destruct (talk c l) as [(h, c1)|]; cbn [answers_of client_of fst snd] in E; injection E as <- <-; [eauto|contradiction]. Qed.
Lemma talk_history c0 : forall l c h c', Forall (fun x => tcall_ok (fst x)) l -> talk c l = Some (h, c') -> forall h0, thistory case_cx true 1 c0 h0 c -> thistory case_cx true 1 c0 (h0 ++ h) c'.
Proof.
  induction l as [|(x, script) l IH]; intros c h c' Hl E h0 H; cbn [talk] in E.
  - injection E as <- <-. now rewrite app_nil_r.
  - apply Forall_cons_iff in Hl as (Hx & Hl). destruct (play (tcall_run case_cx true 1 c x) (script c)) as [(a, c1)| |] eqn:P; try discriminate E.
    destruct (talk c1 l) as [(h1, c2)|] eqn:T; [|discriminate E]. injection E as <- <-.
    change ((x, a) :: h1) with ([(x, a)] ++ h1). rewrite app_assoc. apply (IH c1 h1 c2 Hl T). eapply THCall; [exact H|exact Hx|]. now apply (play_done _ (script c)).
Qed.
Lemma talk_then c l l' h c1 h' c2 : talk c l = Some (h, c1) -> talk c1 l' = Some (h', c2) -> talk c (l ++ l') = Some (h ++ h', c2).
Proof.
  revert c h c1. induction l as [|(x, script) l IH]; intros c h c1 E E'; cbn [talk app] in *; [injection E as <- <-; exact E'|].
  destruct (play _ _) as [(a, c')| |]; try discriminate E. destruct (talk c' l) as [(h2, c3)|] eqn:T; [|discriminate E]. injection E as <- <-. now rewrite (IH _ _ _ T E').
Qed.
Lemma talk_rng_ok : rng_ok talk_rng.
Proof. unfold rng_ok. cbn [rg_random rg_public talk_rng]. split; [reflexivity|]. split; [|split; [reflexivity|]]; vm_compute; repeat constructor; discriminate. Qed.
Lemma talk_cf_ok : tconfig_ok talk_cf.
Proof.
  unfold tconfig_ok. cbn [cf_hostname cf_identity cf_psk cf_buf talk_cf]. repeat split; try (vm_compute; reflexivity).
  - left. vm_compute. reflexivity.
  - repeat constructor; lia.
  - repeat constructor; lia.
  - apply Forall_forall. intros x I. apply repeat_spec in I. subst x. unfold is_u8. lia.
Qed.
Lemma greeted_talk : exists h, talk talk_init to_greeted = Some (h, case_greeted) /\
  map snd h = [NProcess (Ok (TCallAfter 10)); NProcess (Ok (TCallAfter 10)); NProcess (Ok (TCallAfter 9)); NProcess (Ok (TCallAfter 10))].
Proof. apply talk_eq; [discriminate|]. vm_compute. reflexivity. Qed.
Lemma finished_talk : exists h, talk case_greeted to_finished = Some (h, case_connected) /\ map snd h = [NProcess (Ok (TCallAfter 10)); NProcess (Ok THandshakeFinished)].
Proof. apply talk_eq; [discriminate|]. vm_compute. reflexivity. Qed.
Lemma calls_ok : Forall (fun x => tcall_ok (fst x)) (to_greeted ++ to_finished).
Proof. repeat (apply Forall_cons || apply Forall_nil); exact talk_rng_ok. Qed.
Lemma greeted_history : exists h, thistory case_cx true 1 talk_init h case_greeted.
Proof.
  destruct greeted_talk as (h & T & _). exists ([] ++ h). apply (talk_history talk_init to_greeted talk_init); [|exact T|constructor].
  repeat (apply Forall_cons || apply Forall_nil); exact talk_rng_ok.
Qed.
Lemma connected_history : exists h, thistory case_cx true 1 talk_init h case_connected.
Proof.
  destruct greeted_talk as (h & T & _). destruct finished_talk as (h' & T' & _). exists ([] ++ (h ++ h')). apply (talk_history talk_init _ talk_init _ _ calls_ok); [|constructor]. now apply (talk_then _ _ _ _ case_greeted).
Qed.
(** A conversation after the handshake is the rest of a history. *)
Lemma end_history c0 h0 c l a st r w : thistory case_cx true 1 c0 h0 c -> Forall (fun x => tcall_ok (fst x)) l -> a <> [] -> talk_end c l = (a, st, r, w) ->
  exists h c', talk c l = Some (h, c') /\ thistory case_cx true 1 c0 (h0 ++ h) c' /\ map snd h = a /\ tc_state c' = st /\ ks_read_seq (tc_ks c') = r /\ ks_write_seq (tc_ks c') = w.
Proof.
  intros H Hl Na E. unfold talk_end in E. destruct (talk c l) as [(h, c')|] eqn:T; cbn [answers_of client_of fst snd] in E.
  - injection E as <- <- <- <-. exists h, c'. split; [reflexivity|]. split; [exact (talk_history c0 l c h c' Hl T h0 H)|auto].
  - injection E as <- _ _ _. contradiction.
Qed.
Lemma talk_calls : forall l c h c', talk c l = Some (h, c') -> map fst h = map fst l.
Proof.
  induction l as [|(x, s) l IH]; intros c h c' E; cbn [talk] in E; [now injection E as <- _|].
  destruct (play _ _) as [(a, c1)| |]; try discriminate E. destruct (talk c1 l) as [(h1, c2)|] eqn:T; [|discriminate E]. injection E as <- _. cbn [map fst]. f_equal. eauto.
Qed.
Lemma reader_ok ops done : Forall Cursor.cop_ok ops -> forallb Cursor.reader_op ops = true -> tcall_ok (KReader ops done).
Proof. exact (fun a b => conj a b). Qed.

(** C60: application data under the handshake keys, before Finished. *)
Lemma delivered_early : exists cf h c ops, crypto_ok case_cx /\ tconfig_ok cf /\
  thistory case_cx true 1 (tls_init case_cx Sn3 50000 ([10; 0; 0; 9], 443) cf) (h ++ [(KReader ops true, NReader (Some [Stream.RData [104; 105]]))]) c /\
  Forall (fun x => snd x <> NProcess (Ok THandshakeFinished)) h.
Proof.
  destruct greeted_talk as (h0 & T0 & A0).
  destruct (end_history talk_init h0 case_greeted
    [pcall 104 (fun c => record_reads (case_record (s_hs_traffic (transcript c)) 0 23 [104; 105]) ++ tx_reads); (KReader [Stream.ORead 10] true, fun _ => [])]
    [NProcess (Err (EClient (mkAlert 1 10))); NReader (Some [Stream.RData [104; 105]])] TWaitAlertSendOk 1 0) as (h & c & T & H & A & _).
  - apply (talk_history talk_init to_greeted talk_init h0 case_greeted) with (h0 := []); [|exact T0|constructor]. repeat (apply Forall_cons || apply Forall_nil); exact talk_rng_ok.
  - repeat (apply Forall_cons || apply Forall_nil); [exact talk_rng_ok|]. apply reader_ok; [|reflexivity]. repeat (apply Forall_cons || apply Forall_nil). cbn. lia.
  - discriminate.
  - vm_compute. reflexivity.
  - pose proof (talk_calls _ _ _ _ T) as Hc. destruct h as [|(x1, a1) [|(x2, a2) [|]]]; try discriminate A. cbn [map fst snd] in A, Hc. injection A as -> ->. injection Hc as -> ->.
    exists talk_cf, (h0 ++ [(KProcess talk_rng 104, NProcess (Err (EClient (mkAlert 1 10))))]), c, [Stream.ORead 10]. split; [exact case_cx_ok|]. split; [exact talk_cf_ok|].
    split; [rewrite <- app_assoc; exact H|]. apply Forall_app. split; [|repeat constructor; discriminate].
    apply Forall_forall. intros x I. apply (in_map snd) in I. rewrite A0 in I. cbn [In] in I. intros E. rewrite E in I. repeat destruct I as [I|I]; try discriminate I. contradiction.
Qed.

(** C64: KeyUpdate. *)
Lemma key_update_message cx c header reader hash now c' : hh_msg_type header = Some 24 -> recv_message cx c header reader hash now = TOk (Ok tt, c') ->
  c' = c \/ (exists s, ks_client_traffic (tc_ks c') = Some s /\ ks_server_traffic (tc_ks c') = Some s).
Proof.
  intros E H. unfold recv_message in H. rewrite E in H. change (24 =? ServerHello) with false in H. change (24 =? NewSessionTicket) with false in H. change (24 =? EncryptedExtensions) with false in H.
  change (24 =? Finished) with false in H. change (24 =? KeyUpdate) with true in H. cbn match in H.
  destruct (negb _); [discriminate H|]. destruct (negb _); [discriminate H|]. destruct (cr_next_u8 reader) as [(v, r)| | |]; cbn [h_try] in H; try discriminate H.
  destruct (key_update_request_try_from v) as [q|]; [|discriminate H]. destruct (q =? 0); injection H as <-; [now left|]. right. cbn [tc_ks tc_set_ks]. unfold update_traffic_secret, initialize_secrets. cbn [ks_client_traffic ks_server_traffic]. eauto.
Qed.
Definition update_calls : list (tcall * (TlsClient -> reads)) :=
  [pcall 110 (fun _ => record_reads (case_record case_server_secret 0 22 (hs_message 24 [1])))].
Definition secrets (c : TlsClient) : option (list Z) * option (list Z) := (ks_client_traffic (tc_ks c), ks_server_traffic (tc_ks c)).
Definition update_secret : list Z := Eval vm_compute in secret_of (fst (secrets (client_of (talk case_connected update_calls)))).
Lemma update_secrets : secrets (client_of (talk case_connected update_calls)) = (Some update_secret, Some update_secret).
Proof. vm_compute. reflexivity. Qed.
Lemma update_end : talk_end case_connected update_calls = ([NProcess (Ok TNone)], TConnected, 1, 0).
Proof. vm_compute. reflexivity. Qed.
Lemma update_wrong : update_secret <> next_secret case_cx case_server_secret.
Proof. vm_compute. discriminate. Qed.
Lemma update_ok : Forall (fun x => tcall_ok (fst x)) update_calls.
Proof. unfold update_calls. repeat (apply Forall_cons || apply Forall_nil); exact talk_rng_ok. Qed.
Lemma client_of_some c l h c' : talk c l = Some (h, c') -> client_of (talk c l) = c'.
Proof. intros ->. reflexivity. Qed.
Lemma key_update_case : exists h0 h c', thistory case_cx true 1 talk_init h0 case_connected /\ thistory case_cx true 1 talk_init (h0 ++ h) c' /\
  map snd h = [NProcess (Ok TNone)] /\ tc_state c' = TConnected /\ ks_read_seq (tc_ks c') = 1 /\
  ks_client_traffic (tc_ks c') = ks_server_traffic (tc_ks c') /\ ks_server_traffic (tc_ks c') <> Some (next_secret case_cx case_server_secret).
Proof.
  destruct connected_history as (h0 & H0).
  destruct (end_history talk_init h0 case_connected update_calls [NProcess (Ok TNone)] _ _ _ H0 update_ok ltac:(discriminate) update_end) as (h & c & T & H & A & S & R & _).
  exists h0, h, c. split; [exact H0|]. split; [exact H|]. split; [exact A|]. split; [exact S|]. split; [exact R|].
  pose proof update_secrets as E. rewrite (client_of_some _ _ _ _ T) in E. pose proof update_wrong as W. revert E W. generalize update_secret, (next_secret case_cx case_server_secret). clear. intros a b E W. unfold secrets in E. injection E as -> ->.
  split; [reflexivity|]. intros X. injection X as X. contradiction.
Qed.
(** The next record of a server that follows the RFC is taken for a forgery. *)
Lemma key_update_next : fst (fst (fst (talk_end case_connected
    [pcall 110 (fun _ => record_reads (case_record case_server_secret 0 22 (hs_message 24 [1])));
     pcall 111 (fun _ => record_reads (case_record (next_secret case_cx case_server_secret) 0 23 [104; 105]) ++ tx_reads)]))) =
  [NProcess (Ok TNone); NProcess (Err (EClient (mkAlert 1 20)))].
Proof. vm_compute. reflexivity. Qed.
