(** No server can crash the MQTT client over TLS: C92. *)
From Verif Require Import Model.Prelude Model.Bus Model.Chip Model.Specifiers Model.Stream Model.TlsTypes Model.TlsBuf Model.TlsKeys Model.Mqtt Model.TlsClient Model.MqttTls
  Spec.Hoare Spec.Cases Spec.TlsSecrets Spec.TlsQueue Spec.TlsCases Spec.TlsProtect Spec.TlsSession Spec.TlsTalk Spec.TlsQuiet Spec.TlsCrash Spec.MqttMsg Spec.MqttTlsMsg Spec.MqttTlsTalk Spec.MqttTlsCrash.
From Verif Require Proof.MqttTlsCrashP Proof.MqttTlsCrash2P Proof.MqttTlsCaseP Proof.TlsCaseP Proof.TlsTalkP.

(** C92: after any history, on a bus that answers anything and fails at any time, no call panics, whatever the messages that arrive are and whatever is
    read from them; and every call returns, except that [process] waits for the chip when it opens the socket.  The limits are those of [mt_within],
    and a connection has less than 2^64 - 1 records.
    Missing: [process] when application data was stored in the receive buffer before (there the statement is false, [C92_crash_refuted]); debug
    assertions, in this call. *)
Theorem C92_no_crash_partial : forall cx dbg fuel cf sn src_port dst h c x o, crypto_ok cx -> tconfig_ok cf ->
  mthistory cx dbg fuel (mt_init cx sn src_port dst cf) h c -> mtcall_ok x -> mt_within cf c x ->
  ks_read_seq (tc_ks (mt_tls c)) <> 2 ^ 64 - 1 -> ks_write_seq (tc_ks (mt_tls c)) <> 2 ^ 64 - 1 ->
  any_bus (mtcall_run cx false fuel c x) o -> o <> Panicked /\ (o = Diverged -> exists rng now ops fin, x = YProcess rng now ops fin /\ tc_state (mt_tls c) = TReset).
Proof. exact (fun cx dbg fuel cf sn src_port dst h c x o CX CF => MqttTlsCrashP.mt_no_crash cx fuel cf CX CF dbg sn src_port dst h c x o). Qed.
Print Assumptions C92_no_crash_partial.
(** The full statement is false: after the CONNACK was received, an unprotected record of four bytes makes [process] panic, with and without debug
    assertions. *)
Theorem C92_crash_refuted : exists h h' c, mthistory case_cx true 1 mtalk_init (h ++ h') c /\ map snd h' = [WProcess (Ok (SeenAck AConnAck)) [] (Ok tt)] /\ mt_is_connected c = true /\
  forall dbg, fst (fst (run (mtcall_run case_cx dbg 1 c (YProcess talk_rng 200 [] false)) [] (case_conn [22; 3; 3; 0; 4; 4; 0; 0; 5]))) = Panicked.
Proof. exact MqttTlsCrash2P.mt_crash. Qed.
Print Assumptions C92_crash_refuted.
(** The same record before the CONNACK: the client waits on.  The client meets the hypotheses. *)
Example C92_case : crypto_ok case_cx /\ tconfig_ok talk_cf /\ (exists h, mthistory case_cx true 1 mtalk_init h case_mt_waiting) /\ mtcall_ok (YProcess talk_rng 200 [] false) /\
  mt_within talk_cf case_mt_waiting (YProcess talk_rng 200 [] false) /\ tls_connected (mt_tls case_mt_waiting) = true /\ ks_read_seq (tc_ks (mt_tls case_mt_waiting)) = 0 /\
  exists c, fst (fst (run (mtcall_run case_cx false 1 case_mt_waiting (YProcess talk_rng 108 [] false)) [] (case_conn [22; 3; 3; 0; 4; 4; 0; 0; 5]))) = Done (WProcess (Ok (SeenCallAfter 7)) [] (Ok tt), c).
Proof.
  split; [exact TlsCaseP.case_cx_ok|]. split; [exact TlsTalkP.talk_cf_ok|]. split; [exact MqttTlsCaseP.waiting_history|]. split; [split; [exact TlsTalkP.talk_rng_ok|constructor]|].
  split; [exact MqttTlsCrash2P.mt_waiting_within|]. split; [reflexivity|]. split; [reflexivity|]. exact MqttTlsCrash2P.mt_waiting_runs.
Qed.
