(** No server can crash the TLS client: C84. *)
From Verif Require Import Model.Prelude Model.Bus Model.Chip Model.Specifiers Model.Stream Model.TlsTypes Model.TlsBuf Model.TlsKeys Model.TlsClient
  Spec.Hoare Spec.Cases Spec.TlsSecrets Spec.TlsQueue Spec.TlsCases Spec.TlsProtect Spec.TlsSession Spec.TlsTalk Spec.TlsQuiet Spec.TlsCrash.
From Verif Require Proof.TlsSafeHistP Proof.TlsCrashP Proof.TlsCaseP Proof.TlsTalkP.

(** C84: after any history, on a bus that answers anything and fails at any time, no call panics; and every call returns, except that [process]
    waits for the chip when it opens the socket.  The limits are those of [within], and a connection has less than 2^64 - 1 records.
    Missing: [process] on a connection that received application data (there the statement is false, [C84_crash_refuted]), or that waits for a new
    connection after one that did; debug assertions, in this call. *)
Theorem C84_no_crash_partial : forall cx dbg fuel cf sn src_port dst h c x o, crypto_ok cx -> tconfig_ok cf ->
  thistory cx dbg fuel (tls_init cx sn src_port dst cf) h c -> tcall_ok x -> within cf h c x ->
  ks_read_seq (tc_ks c) <> 2 ^ 64 - 1 -> ks_write_seq (tc_ks c) <> 2 ^ 64 - 1 ->
  any_bus (tcall_run cx false fuel c x) o -> o <> Panicked /\ (o = Diverged -> exists rng now, x = KProcess rng now /\ tc_state c = TReset).
Proof. exact (fun cx dbg fuel cf sn src_port dst h c x o CX CF => TlsSafeHistP.no_crash_call cx fuel cf CX CF dbg sn src_port dst h c x o). Qed.
Print Assumptions C84_no_crash_partial.
(** The full statement is false: after five bytes of application data were received and read, an unprotected record of four bytes makes [process]
    panic, with and without debug assertions. *)
Theorem C84_crash_refuted : exists h0 h c, thistory case_cx true 1 talk_init h0 case_connected /\ thistory case_cx true 1 talk_init (h0 ++ h) c /\ tls_connected c = true /\
  map snd h = [NProcess (Ok TApplicationData); NReader (Some [RData [1; 2; 3; 4; 5]])] /\
  forall dbg, fst (fst (run (tls_process case_cx dbg 1 c talk_rng 200) [] (case_conn [22; 3; 3; 0; 4; 4; 0; 0; 5]))) = Panicked.
Proof. exact TlsCrashP.crash. Qed.
Print Assumptions C84_crash_refuted.
(** The same record without the data before it, and a connected client that meets the hypotheses. *)
Example C84_case : crypto_ok case_cx /\ tconfig_ok talk_cf /\ (exists h, thistory case_cx true 1 talk_init h case_connected /\ within talk_cf h case_connected (KProcess talk_rng 200)) /\ tcall_ok (KProcess talk_rng 200) /\
  tls_connected case_connected = true /\ ks_read_seq (tc_ks case_connected) = 0 /\ ks_write_seq (tc_ks case_connected) = 0 /\
  fst (fst (run (tls_process case_cx false 1 case_connected talk_rng 200) [] (case_conn [22; 3; 3; 0; 4; 4; 0; 0; 5]))) = Done (Ok TNone, TlsCrashP.waiting_client).
Proof.
  split; [exact TlsCaseP.case_cx_ok|]. split; [exact TlsTalkP.talk_cf_ok|].
  split; [destruct TlsCrashP.quiet_history as (h & H & Q); exists h; split; [exact H|]; split; [vm_compute; discriminate|]; split; [exact I|]; split; [intros _; exact Q|discriminate]|].
  split; [exact TlsTalkP.talk_rng_ok|]. split; [reflexivity|]. split; [reflexivity|]. split; [reflexivity|]. exact TlsCrashP.waiting_run.
Qed.
