(** The TLS client: C48 (its part), C60, C62, C64, C68. *)
From Verif Require Import Model.Prelude Model.Bus Model.Chip Model.Specifiers Model.HlIo Model.Stream Model.TlsTypes Model.TlsBuf Model.TlsKeys Model.TlsHello Model.TlsClient
  Spec.Sock Spec.Hoare Spec.Cases Spec.Silent Spec.MqttMsg Spec.TlsSecrets Spec.TlsMessages Spec.TlsQueue Spec.TlsCases Spec.TlsProtect.
From Verif Require Import Model.TlsClient Spec.TlsSession Spec.TlsTalk Spec.TlsQuiet.
From Verif Require Proof.TlsHistP Proof.TlsQuietP Proof.TlsTalkP Proof.TlsCaseP.

(** C60: for every history of calls on a bus that answers anything, fails at any time, and every clock: a connected
    client has sent a ClientHello of its own and received ServerHello, EncryptedExtensions and a Finished with
    the right verify data, in this order; the traffic keys are derived from that exchange and the pre-shared key. *)
Theorem C60_connected : forall cx dbg fuel cf sn src_port dst h c, crypto_ok cx -> tconfig_ok cf ->
  thistory cx dbg fuel (tls_init cx sn src_port dst cf) h c -> tls_connected c = true ->
  exists pre, established cx (randoms h) cf pre (tc_ks c).
Proof. exact (fun cx dbg fuel cf sn sp dst h c CX CF => TlsHistP.history_connected cx dbg fuel cf CX CF sn sp dst h c). Qed.
Print Assumptions C60_connected.
(** [ApplicationData] is reported only by a client that was and stays connected, and the client becomes connected
    only when [HandshakeFinished] is reported. *)
Theorem C60_events : forall cx dbg fuel cf sn src_port dst h c rng now r c', crypto_ok cx -> tconfig_ok cf ->
  thistory cx dbg fuel (tls_init cx sn src_port dst cf) h c -> rng_ok rng -> any_bus (tls_process cx dbg fuel c rng now) (Done (r, c')) ->
  (r = Ok TApplicationData -> tls_connected c = true /\ tls_connected c' = true) /\
  (r = Ok THandshakeFinished -> tls_connected c' = true) /\
  (tls_connected c' = true -> tls_connected c = true \/ r = Ok THandshakeFinished).
Proof. exact (fun cx dbg fuel cf sn sp dst h c rng now r c' CX CF => TlsHistP.process_data cx dbg fuel cf CX CF sn sp dst h c rng now r c'). Qed.
Print Assumptions C60_events.
(** Sending: [NotConnected] without touching the bus. *)
Theorem C60_sending : forall cx c data, tls_connected c = false ->
  tls_writer c = Ret (Err ENotConnected) /\ tls_write_all cx c data = Ret (Err ENotConnected).
Proof. intros cx c data E. unfold tls_writer, tls_write_all. rewrite E. split; reflexivity. Qed.
Print Assumptions C60_sending.
(** [reader] does not look at the state: bytes of a record that came under the handshake keys are readable though
    the handshake never finished. *)
Theorem C60_delivered_refuted : exists cf h c ops, crypto_ok case_cx /\ tconfig_ok cf /\
  thistory case_cx true 1 (tls_init case_cx Sn3 50000 ([10; 0; 0; 9], 443) cf) (h ++ [(KReader ops true, NReader (Some [RData [104; 105]]))]) c /\
  Forall (fun x => snd x <> NProcess (Ok THandshakeFinished)) h.
Proof. exact TlsTalkP.delivered_early. Qed.
Print Assumptions C60_delivered_refuted.
(** A complete handshake with a server written from the RFC. *)
Example C60_case : crypto_ok case_cx /\ tconfig_ok talk_cf /\ rng_ok talk_rng /\
  (exists h, talk talk_init to_greeted = Some (h, case_greeted) /\
    map snd h = [NProcess (Ok (TCallAfter 10)); NProcess (Ok (TCallAfter 10)); NProcess (Ok (TCallAfter 9)); NProcess (Ok (TCallAfter 10))]) /\
  (exists h, talk case_greeted to_finished = Some (h, case_connected) /\ map snd h = [NProcess (Ok (TCallAfter 10)); NProcess (Ok THandshakeFinished)]) /\
  (exists h, thistory case_cx true 1 talk_init h case_connected) /\ tls_connected case_connected = true /\ tls_connected case_greeted = false.
Proof.
  split; [exact TlsCaseP.case_cx_ok|]. split; [exact TlsTalkP.talk_cf_ok|]. split; [exact TlsTalkP.talk_rng_ok|]. split; [exact TlsTalkP.greeted_talk|].
  split; [exact TlsTalkP.finished_talk|]. split; [exact TlsTalkP.connected_history|]. split; reflexivity.
Qed.

(** C68: in every state of every history the secrets are those of the key schedule of RFC 8446 for the messages
    exchanged, and a client that is not connecting or connected has no secrets of an earlier connection. *)
Theorem C68_key_schedule : forall cx dbg fuel cf sn src_port dst h c, crypto_ok cx -> tconfig_ok cf ->
  thistory cx dbg fuel (tls_init cx sn src_port dst cf) h c -> stage cx (randoms h) cf c.
Proof. exact (fun cx dbg fuel cf sn sp dst h c CX CF => TlsHistP.history_stage cx dbg fuel cf CX CF sn sp dst h c). Qed.
Print Assumptions C68_key_schedule.
Example C68_case : (exists h, thistory case_cx true 1 talk_init h case_greeted) /\ tc_state case_greeted = TWaitEncryptedExtensions /\
  ks_server_traffic (tc_ks case_greeted) = Some (s_hs_traffic (transcript case_greeted)) /\
  ks_server_traffic (tc_ks case_connected) = Some (s_ap_traffic (transcript case_connected)) /\
  case_client_secret <> case_server_secret.
Proof. split; [exact TlsTalkP.greeted_history|]. split; [reflexivity|]. split; [vm_compute; reflexivity|]. split; [vm_compute; reflexivity|vm_compute; discriminate]. Qed.

(** C48: a requested delay is at most 10 s and ends 10 s after the wait began; [None] is answered only when
    connected; a wait of more than 10 s is over after [process], except where it answers [UnexpectedDisconnect]
    (see C62). *)
Theorem C48_tls_bounded : forall cx dbg fuel cf sn src_port dst h c rng now r c', crypto_ok cx -> tconfig_ok cf ->
  thistory cx dbg fuel (tls_init cx sn src_port dst cf) h c -> rng_ok rng -> any_bus (tls_process cx dbg fuel c rng now) (Done (r, c')) ->
  match r with
  | Ok (TCallAfter k) => 0 <= k <= 10 /\ tc_timeout c' = Some (now + k - 10) /\ ((tc_state c' = tc_state c /\ tc_timeout c' = tc_timeout c) \/ k = 10)
  | Ok TNone => tls_connected c' = true
  | Err (EStateTimeout s) => s = tc_state c /\ exists t, tc_timeout c = Some t /\ 10 < now - t
  | _ => True
  end /\
  (forall t, tc_timeout c = Some t -> 10 < now - t -> tc_timeout c' = Some t -> r = Err EUnexpectedDisconnect).
Proof. exact (fun cx dbg fuel cf sn sp dst h c rng now r c' CX CF => TlsHistP.process_deadline cx dbg fuel cf CX CF sn sp dst h c rng now r c'). Qed.
Print Assumptions C48_tls_bounded.
(** With nothing on the line the wait ends: [twaits] is [StateTimeout] once more than 10 s have passed. *)
Theorem C48_tls_fires : forall cx dbg fuel c rng now ch sch, let s := c_sock ch (sn_raw (tc_sn c)) in twaiting (tc_state c) -> tclock_ok c now ->
  no_link_change (s_ir s) -> (tc_state c = TWaitAlertSendOk -> ~ ir_bit 4 (s_ir s)) -> rx_rsr s < 5 -> silent sch (sn_raw (tc_sn c)) ->
  exists x sch' ch', run (tls_process cx dbg fuel c rng now) sch ch = (Done x, sch', ch') /\ twaits c now x.
Proof. exact TlsQuietP.process_quiet. Qed.
Print Assumptions C48_tls_fires.
Definition case_tls_run (c : TlsClient) (now ir : Z) : outcome (res TError TEvent * TState) :=
  let ch := mkChip (fun _ => 0) (upd (c_sock (case_conn [])) 3 (sock_ev (c_sock (case_conn [22; 3; 3; 0]) 3) (EvIr ir))) in
  match fst (fst (run (tls_process case_cx true 5 c talk_rng now) [] ch)) with Done (r, c') => Done (r, tc_state c') | Panicked => Panicked | Diverged => Diverged end.
Example C48_tls_case : (exists h, thistory case_cx true 1 talk_init h case_greeted) /\ tc_timeout case_greeted = Some 103 /\
  case_tls_run case_greeted 113 0 = Done (Ok (TCallAfter 0), TWaitEncryptedExtensions) /\
  case_tls_run case_greeted 114 0 = Done (Err (EStateTimeout TWaitEncryptedExtensions), TSendDiscon) /\
  twaiting (tc_state case_greeted) /\ rx_rsr (c_sock (case_conn [22; 3; 3; 0]) 3) = 4.
Proof. split; [exact TlsTalkP.greeted_history|]. split; [reflexivity|]. split; [vm_compute; reflexivity|]. split; [vm_compute; reflexivity|]. split; [cbn; tauto|reflexivity]. Qed.

(** C62 is the other way round: a disconnect is unexpected exactly if the client waits for it, and then the client
    does not return to Reset; every other disconnect is reported as [Disconnect]. *)
Theorem C62_inverted_refuted : forall cx dbg fuel c rng now ch sch, let s := c_sock ch (sn_raw (tc_sn c)) in
  ir_bit 1 (s_ir s) -> ~ ir_bit 0 (s_ir s) -> silent sch (sn_raw (tc_sn c)) ->
  exists sch' ch', run (tls_process cx dbg fuel c rng now) sch ch =
    (Done (if tstate_eqb (tc_state c) TWaitDiscon then (Err EUnexpectedDisconnect, c) else (Ok TDisconnect, tls_reset cx c)), sch', ch').
Proof. exact TlsQuietP.process_discon. Qed.
Print Assumptions C62_inverted_refuted.
Example C62_case : case_tls_run case_connected 200 2 = Done (Ok TDisconnect, TReset) /\
  case_tls_run (set_state_with_timeout case_connected TWaitDiscon 199) 200 2 = Done (Err EUnexpectedDisconnect, TWaitDiscon) /\ ir_bit 1 2 /\ ~ ir_bit 0 2.
Proof. split; [vm_compute; reflexivity|]. split; [vm_compute; reflexivity|]. split; [reflexivity|discriminate]. Qed.

(** C64: after a KeyUpdate that is accepted the secrets have not changed, or both directions have the same secret. *)
Theorem C64_same_secret_refuted : forall cx c header reader hash now c', hh_msg_type header = Some 24 ->
  recv_message cx c header reader hash now = TOk (Ok tt, c') ->
  c' = c \/ (exists s, ks_client_traffic (tc_ks c') = Some s /\ ks_server_traffic (tc_ks c') = Some s).
Proof. exact TlsTalkP.key_update_message. Qed.
Print Assumptions C64_same_secret_refuted.
(** The secret of the server is not the next one, and the first record is expected with sequence number 1. *)
Theorem C64_next_secret_refuted : exists h0 h c', thistory case_cx true 1 talk_init h0 case_connected /\ thistory case_cx true 1 talk_init (h0 ++ h) c' /\
  map snd h = [NProcess (Ok TNone)] /\ tc_state c' = TConnected /\ ks_read_seq (tc_ks c') = 1 /\
  ks_client_traffic (tc_ks c') = ks_server_traffic (tc_ks c') /\ ks_server_traffic (tc_ks c') <> Some (next_secret case_cx case_server_secret).
Proof. exact TlsTalkP.key_update_case. Qed.
Print Assumptions C64_next_secret_refuted.
(** So the next record of a server that follows the RFC is taken for a forgery (bad_record_mac). *)
Example C64_case : ks_server_traffic (tc_ks case_connected) = Some case_server_secret /\ fst (fst (fst (talk_end case_connected
    [pcall 110 (fun _ => record_reads (case_record case_server_secret 0 22 (hs_message 24 [1])));
     pcall 111 (fun _ => record_reads (case_record (next_secret case_cx case_server_secret) 0 23 [104; 105]) ++ tx_reads)]))) =
  [NProcess (Ok TNone); NProcess (Err (EClient (mkAlert 1 20)))].
Proof. split; [reflexivity|exact TlsTalkP.key_update_next]. Qed.
