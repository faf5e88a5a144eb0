(** What the TLS client delivers: C54. *)
From Verif Require Import Model.Prelude Model.Bus Model.Chip Model.Specifiers Model.TlsTypes Model.TlsBuf Model.TlsKeys Model.TlsHello Model.TlsClient
  Spec.Cursor Spec.Hoare Spec.TlsSecrets Spec.TlsQueue Spec.TlsCases Spec.TlsSession Spec.TlsTalk Spec.TlsWire Spec.TlsAuth.
From Verif Require Proof.TlsAuthP Proof.TlsForgeP Proof.TlsReleaseP Proof.TlsCaseP Proof.TlsTalkP.

(** C54: for every history of calls on a bus that answers anything: what a call of [process] makes readable is the
    content of a record among the bytes it received, and the record passes the authentication under the server's
    traffic secret with the next record number; the other calls make nothing readable.
    Missing: builds without debug assertions (there the statement is false, [C54_release_refuted]); a call that fails while a part of a handshake message is
    pending (there the statement is false, [C54_fragment_refuted]). *)
Theorem C54_authentic_partial : forall cx fuel cf sn src_port dst h c x a c' got, crypto_ok cx -> tconfig_ok cf ->
  thistory cx true fuel (tls_init cx sn src_port dst cf) h c -> tcall_ok x ->
  any_bus (received (tcall_run cx true fuel c x) []) (Done (a, c', got)) ->
  match x with
  | KProcess _ _ => (fragment_pending c -> exists e, a = NProcess (Ok e)) -> delivers cx c got c'
  | _ => keeps c x a c'
  end.
Proof. exact TlsAuthP.auth_call. Qed.
Print Assumptions C54_authentic_partial.
(** [received] only adds the trace: it has the results of the program itself. *)
Theorem C54_received : forall A (p : prog A) a, any_bus p (Done a) -> exists got, any_bus (received p []) (Done (a, got)).
Proof. exact (fun A p a H => TlsAuthP.received_any p [] a H). Qed.
Print Assumptions C54_received.
(** The full statement is false: two bytes that came without protection in a handshake record are readable after
    the next record. *)
Theorem C54_fragment_refuted : exists h c x a c' got, thistory case_cx true 1 talk_init h c /\ tcall_ok x /\
  any_bus (received (tcall_run case_cx true 1 c x) []) (Done (a, c', got)) /\ readable c = [] /\ readable c' = [33; 0] /\ ~ delivers case_cx c got c'.
Proof. exact TlsForgeP.forged. Qed.
Print Assumptions C54_fragment_refuted.
(** Without debug assertions, a call that succeeds: unprotected handshake records fill the receive buffer, the next one is stored over
    application data that was authenticated and not yet read, and no error is reported.  The history and the call are those of a release build. *)
Theorem C54_release_refuted : exists h c x e c' got, thistory case_cx false 1 talk_init h c /\ tcall_ok x /\ tc_state c = TConnected /\
  any_bus (received (tcall_run case_cx false 1 c x) []) (Done (NProcess (Ok e), c', got)) /\ got = [22; 3; 3; 0; 3; 66; 65; 68] /\
  readable c = [1; 0; 3; 251; 5; 6] /\ readable c' = [66; 65; 68; 251; 5; 6] /\ ~ delivers case_cx c got c'.
Proof. exact TlsReleaseP.overwritten. Qed.
Print Assumptions C54_release_refuted.
(** A server sends "hi" to a connected client. *)
Example C54_case : crypto_ok case_cx /\ tconfig_ok talk_cf /\ (exists h, thistory case_cx true 1 talk_init h case_connected) /\
  readable case_connected = [] /\ b_contains_handshake_fragment (tc_rx case_connected) = false /\
  exists c', any_bus (received (tcall_run case_cx true 1 case_connected (KProcess talk_rng 111)) []) (Done (NProcess (Ok TApplicationData), c', case_record case_server_secret 0 23 [104; 105])) /\
    readable c' = [104; 105].
Proof.
  split; [exact TlsCaseP.case_cx_ok|]. split; [exact TlsTalkP.talk_cf_ok|]. split; [exact TlsTalkP.connected_history|]. split; [vm_compute; reflexivity|]. split; [vm_compute; reflexivity|].
  exact (TlsForgeP.shown_some _ _ _ _ TlsForgeP.hi_received).
Qed.
