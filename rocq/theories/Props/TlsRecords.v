(** The records a connected TLS client transmits: C49, C53. *)
From Verif Require Import Model.Prelude Model.Bus Model.Chip Model.Specifiers Model.HlIo Model.Stream Spec.Sock Spec.Hoare Spec.Cases Spec.TcpClient Spec.Cursor
  Spec.TlsSecrets Spec.TlsProtect.
From Verif Require Import Model.TlsTypes Model.TlsBuf Model.TlsKeys Model.TlsClient Spec.TlsSession Spec.TlsWire Spec.TlsTalk Spec.TlsCases.
From Verif Require Proof.TlsSentP Proof.TlsWireP Proof.TlsTalkP Proof.TlsCaseP.

(** C53: a session of a writer.  With less than 22 bytes free it fails and nothing is committed.  Otherwise the
    operations see a window of all the free space but 22 bytes, and sending puts exactly one protected record of the
    bytes before the final position behind what was to be transmitted, for every position in the transmit
    memory; a dropped writer commits nothing. *)
Theorem C53_writer : forall cx dbg fuel c traffic seq ch rd tx ops (fin : bool), crypto_ok cx -> writes_with c traffic seq -> seq < 2 ^ 64 - 1 ->
  tcp_view (c_sock ch (sn_raw (tc_sn c))) rd tx -> tx_bytes (c_sock ch (sn_raw (tc_sn c))) ->
  Forall cop_ok ops -> forallb writer_op ops = true -> Forall op_bytes ops ->
  ensures (tcall_run cx dbg fuel c (KWriter ops fin)) (sn_raw (tc_sn c)) ch (fun r s' =>
    tx_bytes s' /\
    ((r = (NWriter (Err internal_warning), c) /\ free_space (c_sock ch (sn_raw (tc_sn c))) < 22 /\ tcp_view s' rd tx) \/
     (exists w0 xs w pos, fst r = NWriter (Ok (xs, if fin then Some (Ok tt) else None)) /\ asteps w0 0 ops = (xs, w, pos) /\
        free_space (c_sock ch (sn_raw (tc_sn c))) <= zlen w0 + 22 /\ 0 <= pos <= zlen w /\
        writes_with (snd r) traffic (if fin then seq + 1 else seq) /\
        tcp_view s' rd (tx ++ if fin then protected_record cx traffic seq 23 (ztake pos w) else [])))).
Proof. exact TlsSentP.writer_call. Qed.
Print Assumptions C53_writer.
(** [write_all] sends the record of all the data, or nothing. *)
Theorem C53_write_all : forall cx dbg fuel c traffic seq ch rd tx data, crypto_ok cx -> writes_with c traffic seq -> seq < 2 ^ 64 ->
  tcp_view (c_sock ch (sn_raw (tc_sn c))) rd tx -> tx_bytes (c_sock ch (sn_raw (tc_sn c))) -> bytes_ok data -> zlen data <= 65518 ->
  ensures (tcall_run cx dbg fuel c (KWriteAll data)) (sn_raw (tc_sn c)) ch (fun r s' =>
    tx_bytes s' /\ snd r = c /\
    ((fst r = NWriteAll (Ok tt) /\ tcp_view s' rd (tx ++ protected_record cx traffic seq 23 data)) \/
     (fst r = NWriteAll (Err internal_warning) /\ free_space (c_sock ch (sn_raw (tc_sn c))) < zlen data + 22 /\ tcp_view s' rd tx))).
Proof. exact TlsSentP.write_all_call. Qed.
Print Assumptions C53_write_all.
(** More data than a length field can hold is a panic, before the bus is touched. *)
Theorem C53_write_all_long : forall cx dbg fuel c data, tls_connected c = true -> 65518 < zlen data -> tcall_run cx dbg fuel c (KWriteAll data) = Panic.
Proof. exact TlsSentP.write_all_long. Qed.
Print Assumptions C53_write_all_long.
(** The record is what a receiver expects: its length, and opening it gives the content and its type. *)
Theorem C53_opens : forall cx traffic seq ty content, crypto_ok cx -> 0 <= seq < 2 ^ 64 -> bytes_ok content -> is_u8 ty -> zlen content < 65519 ->
  zlen (protected_record cx traffic seq ty content) = zlen content + 22 /\ opens cx traffic seq (protected_record cx traffic seq ty content) = Some (content ++ [ty]).
Proof. exact TlsWireP.record_parts. Qed.
Print Assumptions C53_opens.

(** The client of C60 after its handshake, on a chip whose transmit pointer is near the wrap. *)
Example C53_hyp : crypto_ok case_cx /\ writes_with case_connected case_client_secret 0 /\ tcp_view (c_sock case_tcp 3) [] case_tcp_unsent /\
  tx_bytes (c_sock case_tcp 3) /\ free_space (c_sock case_tcp 3) = 2040 /\ (exists h, thistory case_cx true 1 talk_init h case_connected).
Proof.
  split; [exact TlsCaseP.case_cx_ok|]. split; [exact TlsSentP.case_writes|]. split; [exact TlsSentP.case_view|]. split; [exact TlsSentP.case_sock_bytes|].
  split; [exact TlsSentP.case_free|exact TlsTalkP.connected_history].
Qed.
Example C53_case :
  let data := zeros 30 ++ [104; 105; 33] in
  let '(o, _, ch) := run (tcall_run case_cx true 1 case_connected (KWriter [OWriteAll (9 :: data); OSeek (SStart 0); OWriteAll data] true)) [tick_of []; tick_of [EvTx 3]] case_tcp in
  match o with Done (a, c) => Some (a, ks_write_seq (tc_ks c)) | _ => None end = Some (NWriter (Ok ([RUnit; RUnit; RUnit], Some (Ok tt))), 1) /\
  tx_stream (c_sock ch 3) = case_tcp_unsent ++ case_record case_client_secret 0 23 data.
Proof. vm_compute. split; reflexivity. Qed.

(** C49: sessions of writers, in any number and with any operations, put records with consecutive numbers on the
    wire, one for every session that reports success. *)
Theorem C49_writers_partial : forall cx dbg fuel c traffic seq ch rd tx l, crypto_ok cx -> writes_with c traffic seq -> seq + zlen l < 2 ^ 64 ->
  tcp_view (c_sock ch (sn_raw (tc_sn c))) rd tx -> tx_bytes (c_sock ch (sn_raw (tc_sn c))) -> Forall is_session l ->
  ensures (tcalls_run cx dbg fuel c l) (sn_raw (tc_sn c)) ch (fun r s' =>
    exists contents, zlen contents = sent_count (fst r) /\ Forall (fun d => bytes_ok d /\ zlen d + 22 <= 16384) contents /\
      writes_with (snd r) traffic (seq + zlen contents) /\ tcp_view s' rd (tx ++ app_records cx traffic seq contents)).
Proof. exact TlsSentP.writer_calls. Qed.
Print Assumptions C49_writers_partial.
(** Different numbers have different nonces.  Missing: [write_all], see below. *)
Theorem C49_nonces : forall cx traffic i j, crypto_ok cx -> 0 <= i < 2 ^ 64 -> 0 <= j < 2 ^ 64 -> nonce cx traffic i = nonce cx traffic j -> i = j.
Proof. exact TlsWireP.nonce_inj. Qed.
Print Assumptions C49_nonces.
Example C49_hyp : Forall is_session [KWriter [OWriteAll [1; 2; 3]] true; KWriter [OWrite [7]; OSeek (SEnd 0)] false; KWriter [] true].
Proof. repeat constructor; unfold is_u8; try lia; discriminate. Qed.
Example C49_case :
  let '(o, _, ch) := run (tcalls_run case_cx true 1 case_connected [KWriter [OWriteAll [1; 2; 3]] true; KWriter [OWrite [7]; OSeek (SEnd 0)] false; KWriter [] true]) [] case_tcp in
  match o with Done (a, c) => Some (sent_count a, ks_write_seq (tc_ks c)) | _ => None end = Some (2, 2) /\
  tx_stream (c_sock ch 3) = case_tcp_unsent ++ case_record case_client_secret 0 23 [1; 2; 3] ++ case_record case_client_secret 1 23 [].
Proof. vm_compute. split; reflexivity. Qed.
(** The statement is false of [write_all]: any two messages are encrypted with one nonce. *)
Theorem C49_nonce_reuse_refuted : exists cx c traffic ch, (exists cf h, crypto_ok cx /\ tconfig_ok cf /\ thistory cx true 1 (tls_init cx Sn3 50000 ([10; 0; 0; 9], 443) cf) h c) /\
  writes_with c traffic 0 /\ tcp_view (c_sock ch 3) [] case_tcp_unsent /\
  forall d1 d2, bytes_ok d1 -> bytes_ok d2 -> zlen d1 + zlen d2 + 44 <= 2040 ->
  ensures (tcalls_run cx true 1 c [KWriteAll d1; KWriteAll d2]) 3 ch (fun r s' =>
    fst r = [NWriteAll (Ok tt); NWriteAll (Ok tt)] /\
    tx_stream s' = case_tcp_unsent ++ protected_record cx traffic 0 23 d1 ++ protected_record cx traffic 0 23 d2).
Proof.
  exists case_cx, case_connected, case_client_secret, case_tcp. destruct TlsTalkP.connected_history as (h & H).
  split; [exists talk_cf, h; split; [exact TlsCaseP.case_cx_ok|]; split; [exact TlsTalkP.talk_cf_ok|exact H]|].
  split; [exact TlsSentP.case_writes|]. split; [exact TlsSentP.case_view|]. exact TlsSentP.reuse.
Qed.
Print Assumptions C49_nonce_reuse_refuted.
