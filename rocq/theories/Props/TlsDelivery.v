(** What a TLS client makes of the records it receives: C61, C63, C69, C70, C71. *)
From Coq Require Import Lia.
From Verif Require Import Model.Prelude Model.Bus Model.Chip Model.Specifiers Model.TlsTypes Model.TlsBuf Model.TlsKeys Model.TlsHello Model.TlsClient
  Spec.Hoare Spec.Sock Spec.Cases Spec.TcpClient Spec.TlsSecrets Spec.MqttMsg Spec.TlsQueue Spec.TlsCases Spec.TlsProtect Spec.TlsSession Spec.TlsTalk Spec.TlsQuiet Spec.TlsAuth Spec.TlsWire Spec.TlsRx.
From Verif Require Proof.TlsRx5P Proof.TlsRx6P Proof.TlsCaseP Proof.TlsTalkP Proof.MqttMainP.

(** C69: a protected record of application data within the limits is delivered completely and in order behind what
    can be read already; exactly the record is taken from the stream, and the next record number is expected. *)
Theorem C69_delivered : forall cx dbg fuel c rng now ch rd tx ad t seq data, crypto_ok cx -> reads_with c t seq -> tc_state c = TConnected ->
  buffer_holds (tc_rx c) ad [] -> bytes_ok data -> zlen data <= buffer_size c - 39 -> zlen ad + zlen data + 2 <= buffer_size c ->
  arrived ch c rd tx (protected_record cx t seq 23 data) ->
  ensures_ir no_link_change (tls_process cx dbg fuel c rng now) (sn_raw (tc_sn c)) ch (fun x s' =>
    exists c', x = (Ok TApplicationData, c') /\ tc_state c' = TConnected /\ buffer_holds (tc_rx c') (ad ++ data) [] /\
      ks_server_traffic (tc_ks c') = Some t /\ ks_read_seq (tc_ks c') = seq + 1 /\
      ks_client_traffic (tc_ks c') = ks_client_traffic (tc_ks c) /\ ks_write_seq (tc_ks c') = ks_write_seq (tc_ks c) /\
      tcp_view s' (rd ++ protected_record cx t seq 23 data) tx).
Proof. exact (fun cx dbg fuel c rng now ch rd tx ad t seq data CX => TlsRx5P.delivered cx dbg fuel c rng now ch rd tx ad CX t seq data). Qed.
Print Assumptions C69_delivered.
(** A record that does not open under the keys and the number expected ends the connection with bad_record_mac, in
    every state that waits for records; nothing of it can be read. *)
Theorem C69_forged : forall cx dbg fuel c rng now ch rd tx ad t seq v body rest, crypto_ok cx -> reads_with c t seq -> listens c -> paired c ->
  buffer_holds (tc_rx c) ad rest -> zlen v = 2 -> bytes_ok v -> bytes_ok body -> 17 <= zlen body <= buffer_size c - 22 ->
  zlen ad + zlen rest + zlen body <= buffer_size c + 15 -> let record := record_header 23 v (zlen body) ++ body in
  opens cx t seq record = None -> arrived ch c rd tx record ->
  ensures_ir no_link_change (tls_process cx dbg fuel c rng now) (sn_raw (tc_sn c)) ch (gives_up cx c 20 (tx_room ch c) (rd ++ record) tx ad).
Proof. exact (fun cx dbg fuel c rng now ch rd tx ad t seq v body rest CX => TlsRx5P.forged cx dbg fuel c rng now ch rd tx ad CX t seq v body rest). Qed.
Print Assumptions C69_forged.
(** Application data before the end of the handshake is refused with unexpected_message; yet it can be read then,
    since [Client::reader] does not look at the state (C60). *)
Theorem C69_early : forall cx dbg fuel c rng now ch rd tx ad t seq data, crypto_ok cx -> reads_with c t seq -> listens c -> paired c -> tc_state c <> TConnected ->
  buffer_holds (tc_rx c) ad [] -> bytes_ok data -> zlen data <= buffer_size c - 39 -> zlen ad + zlen data + 2 <= buffer_size c ->
  arrived ch c rd tx (protected_record cx t seq 23 data) ->
  ensures_ir no_link_change (tls_process cx dbg fuel c rng now) (sn_raw (tc_sn c)) ch
    (gives_up cx c 10 (tx_room ch c) (rd ++ protected_record cx t seq 23 data) tx (ad ++ data)).
Proof. exact (fun cx dbg fuel c rng now ch rd tx ad t seq data CX => TlsRx5P.early cx dbg fuel c rng now ch rd tx ad CX t seq data). Qed.
Print Assumptions C69_early.
(** The hypothesis about the buffer holds in every state of a debug build: the bytes in front are those
    that can be read. *)
Theorem C69_buffer : forall cx fuel cf sn src_port dst h c, crypto_ok cx -> tconfig_ok cf -> thistory cx true fuel (tls_init cx sn src_port dst cf) h c ->
  exists rest, buffer_holds (tc_rx c) (readable c) rest.
Proof. exact TlsRx5P.history_buffer. Qed.
Print Assumptions C69_buffer.

(** The client of C60 after its handshake. *)
Example C69_hyp : crypto_ok case_cx /\ (exists h, thistory case_cx true 1 talk_init h case_connected) /\ reads_with case_connected case_server_secret 0 /\ tc_state case_connected = TConnected /\
  listens case_connected /\ paired case_connected /\ buffer_holds (tc_rx case_connected) [] [] /\ buffer_size case_connected = 1024 /\
  tcp_view (c_sock (case_conn [23; 3; 3; 0; 19; 1; 2]) 3) [] case_tcp_unsent /\ tx_bytes (c_sock (case_conn [23; 3; 3; 0; 19; 1; 2]) 3) /\
  unread (c_sock (case_conn [23; 3; 3; 0; 19; 1; 2]) 3) = [23; 3; 3; 0; 19; 1; 2].
Proof.
  split; [exact TlsCaseP.case_cx_ok|]. split; [exact TlsTalkP.connected_history|]. split; [exact TlsRx5P.case_reads|]. split; [reflexivity|]. split; [exact I|]. split; [exact TlsRx5P.case_paired|].
  split; [exact TlsRx5P.case_buffer|]. split; [reflexivity|]. split; [MqttMainP.case_tcp_view|]. split; [apply TlsRx5P.case_bytes|]. vm_compute. reflexivity.
Qed.
(** [process] on these unread bytes: the result, the state, what can be read, what is unread, what was sent. *)
Definition case_process (c : TlsClient) (received : list Z) : option (res TError TEvent * TState * list Z * list Z * list Z) :=
  let '(o, _, ch) := run (tls_process case_cx true 1 c talk_rng 111) [tick_of []; tick_of [EvRx [1]]; tick_of [EvTx 2]] (case_conn received) in
  match o with Done (r, c') => Some (r, tc_state c', readable c', unread (c_sock ch 3), zdrop (zlen case_tcp_unsent) (tx_stream (c_sock ch 3))) | _ => None end.
Definition broken (record : list Z) : list Z := removelast record ++ [Z.lxor 1 (last record 0)].
Example C69_case : let hi := case_record case_server_secret 0 23 [104; 105] in
  case_process case_connected (hi ++ [23; 3]) = Some (Ok TApplicationData, TConnected, [104; 105], [23; 3; 1], []) /\
  case_process case_connected (broken hi ++ [23; 3]) =
    Some (Err (EClient (mkAlert 1 20)), TWaitAlertSendOk, [], [23; 3; 1], case_record case_client_secret 0 21 [2; 20]).
Proof. vm_compute. split; reflexivity. Qed.

(** C63: a record whose length is above the size of the buffer less 22 is refused with record_overflow, before it has
    arrived completely. *)
Theorem C63_overflow : forall cx dbg fuel c rng now ch rd tx ad ty v len rest, crypto_ok cx -> listens c -> paired c -> buffer_holds (tc_rx c) ad rest ->
  In ty [20; 21; 22; 23] -> zlen v = 2 -> bytes_ok v -> buffer_size c - 22 < len -> 0 <= len < 65536 -> arrived ch c rd tx (record_header ty v len) ->
  ensures_ir no_link_change (tls_process cx dbg fuel c rng now) (sn_raw (tc_sn c)) ch (gives_up cx c 22 (tx_room ch c) rd tx ad).
Proof. exact (fun cx dbg fuel c rng now ch rd tx ad ty v len rest CX => TlsRx5P.too_large cx dbg fuel c rng now ch rd tx ad CX ty v len rest). Qed.
Print Assumptions C63_overflow.
(** So of the records with at most [record_size_limit] = [buffer_size - 22] bytes of inner plaintext (RFC 8449, content and
    type), which the ClientHello permits, the 16 largest are refused. *)
Theorem C63_within_limit_refuted : forall cx dbg fuel c rng now ch rd tx ad t seq data rest, crypto_ok cx -> reads_with c t seq -> listens c -> paired c ->
  buffer_holds (tc_rx c) ad rest -> bytes_ok data -> buffer_size c - 39 < zlen data -> zlen (data ++ [23]) <= RECORD_SIZE_LIMIT c ->
  arrived ch c rd tx (protected_record cx t seq 23 data) ->
  ensures_ir no_link_change (tls_process cx dbg fuel c rng now) (sn_raw (tc_sn c)) ch (gives_up cx c 22 (tx_room ch c) rd tx ad).
Proof. exact (fun cx dbg fuel c rng now ch rd tx ad t seq data rest CX => TlsRx5P.within_limit' cx dbg fuel c rng now ch rd tx ad CX t seq data rest). Qed.
Print Assumptions C63_within_limit_refuted.
(** A record that is small enough but does not fit behind what the buffer holds, [ad] which the application has not read
    and [rest] of a handshake message, ends the connection with internal_error; only its header has left the stream.
    So a server that keeps to the advertised limit loses a client that reads slowly.  The client takes blocks of 16
    bytes: the condition on [k] excludes that one of them ends one byte above the capacity, which a debug build answers
    with a panic ([C55_queue_refuted]). *)
Theorem C63_unread_refuted : forall cx dbg fuel c rng now ch rd tx ad t seq data rest, crypto_ok cx -> reads_with c t seq -> listens c -> paired c ->
  buffer_holds (tc_rx c) ad rest -> bytes_ok data -> zlen data <= buffer_size c - 39 -> buffer_size c - 1 < zlen ad + zlen rest + zlen (data ++ [23]) ->
  (forall k, 0 <= k -> zlen ad + zlen rest + Z.min (16 * k) (zlen (data ++ [23])) <> buffer_size c) ->
  arrived ch c rd tx (protected_record cx t seq 23 data) ->
  ensures_ir no_link_change (tls_process cx dbg fuel c rng now) (sn_raw (tc_sn c)) ch
    (gives_up cx c 80 (tx_room ch c) (rd ++ ztake 5 (protected_record cx t seq 23 data)) tx ad).
Proof. exact (fun cx dbg fuel c rng now ch rd tx ad t seq data rest CX => TlsRx6P.no_room cx dbg fuel c rng now ch rd tx ad CX t seq data rest). Qed.
Print Assumptions C63_unread_refuted.
(** With nothing unread in the buffer, all smaller records of application data are accepted.
    Missing: the 16 sizes of [C63_within_limit_refuted]; records that come while earlier data fill the buffer. *)
Theorem C63_accepted_partial : forall cx dbg fuel c rng now ch rd tx t seq data, crypto_ok cx -> reads_with c t seq -> tc_state c = TConnected ->
  buffer_holds (tc_rx c) [] [] -> bytes_ok data -> zlen (data ++ [23]) <= RECORD_SIZE_LIMIT c - 16 ->
  arrived ch c rd tx (protected_record cx t seq 23 data) ->
  ensures_ir no_link_change (tls_process cx dbg fuel c rng now) (sn_raw (tc_sn c)) ch (fun x s' =>
    exists c', x = (Ok TApplicationData, c') /\ buffer_holds (tc_rx c') data [] /\ tcp_view s' (rd ++ protected_record cx t seq 23 data) tx).
Proof. exact (fun cx dbg fuel c rng now ch rd tx t seq data CX => TlsRx5P.accepted cx dbg fuel c rng now ch rd tx CX t seq data). Qed.
Print Assumptions C63_accepted_partial.
(** The client of C69 with 1010 bytes in its buffer of 1024; a record of two bytes, and one of 20. *)
Definition case_full : TlsClient := tc_set_rx case_connected (mkBuf (repeat 7 1024) 0 1010 1010 1010).
Example C63_unread_case : buffer_holds (tc_rx case_full) (repeat 7 1010) [] /\ reads_with case_full case_server_secret 0 /\ paired case_full /\ listens case_full /\
  (forall k, 0 <= k -> 1010 + Z.min (16 * k) 21 <> buffer_size case_full) /\
  case_process case_full (case_record case_server_secret 0 23 [104; 105]) = Some (Ok TApplicationData, TConnected, repeat 7 1010 ++ [104; 105], [1], []) /\
  case_process case_full (case_record case_server_secret 0 23 (repeat 8 20)) =
    Some (Err (EClient (mkAlert 1 80)), TWaitAlertSendOk, repeat 7 1010, zdrop 5 (case_record case_server_secret 0 23 (repeat 8 20)) ++ [1], case_record case_client_secret 0 21 [2; 80]).
Proof.
  split; [exact TlsRx6P.case_full_holds|]. split; [exact TlsRx5P.case_reads|]. split; [exact TlsRx5P.case_paired|]. split; [exact I|]. split; [intros k Hk; change (buffer_size case_full) with 1024; lia|].
  split; vm_compute; reflexivity.
Qed.
Example C63_case : RECORD_SIZE_LIMIT case_connected = 1002 /\
  case_process case_connected ([23; 3; 3] ++ be16 1003) = Some (Err (EClient (mkAlert 1 22)), TWaitAlertSendOk, [], [23; 3; 3] ++ be16 1003 ++ [1], case_record case_client_secret 0 21 [2; 22]).
Proof. vm_compute. split; reflexivity. Qed.
(** C61: an alert without protection is reported with its level and description.
    Missing: protected alerts, which are not ([C61_protected_refuted]); unknown descriptions; an alert in the middle of a handshake message. *)
Theorem C61_plain_partial : forall cx dbg fuel c rng now ch rd tx ad v level description, listens c -> buffer_holds (tc_rx c) ad [] -> zlen v = 2 ->
  description_try_from description <> None -> 24 <= buffer_size c -> zlen ad + 3 <= buffer_size c -> arrived ch c rd tx (record_header 21 v 2 ++ [level; description]) ->
  ensures_ir no_link_change (tls_process cx dbg fuel c rng now) (sn_raw (tc_sn c)) ch (fun x s' =>
    exists c', x = (Err (EServer (mkAlert (if level =? 1 then 1 else 2) description)), c') /\ forgot c' /\ tcp_view s' (rd ++ record_header 21 v 2 ++ [level; description]) tx).
Proof. exact TlsRx5P.plain_alert. Qed.
Print Assumptions C61_plain_partial.
(** Every protected alert, also close_notify, is reported as a decode error of the client, and data that could be read are lost. *)
Theorem C61_protected_refuted : forall cx dbg fuel c rng now ch rd tx ad t seq level description, crypto_ok cx -> reads_with c t seq -> listens c ->
  buffer_holds (tc_rx c) ad [] -> is_u8 level -> is_u8 description -> 41 <= buffer_size c -> zlen ad + 4 <= buffer_size c ->
  arrived ch c rd tx (protected_record cx t seq 21 [level; description]) ->
  ensures_ir no_link_change (tls_process cx dbg fuel c rng now) (sn_raw (tc_sn c)) ch (fun x s' =>
    exists c', x = (Err (EClient (mkAlert 2 50)), c') /\ forgot c' /\ tcp_view s' (rd ++ protected_record cx t seq 21 [level; description]) tx).
Proof. exact (fun cx dbg fuel c rng now ch rd tx ad t seq level description CX => TlsRx5P.protected_alert cx dbg fuel c rng now ch rd tx ad CX t seq level description). Qed.
Print Assumptions C61_protected_refuted.
Example C61_case : case_process case_connected [21; 3; 3; 0; 2; 2; 40] = Some (Err (EServer (mkAlert 2 40)), TReset, [], [1], []) /\
  case_process case_connected (case_record case_server_secret 0 21 [1; 0]) = Some (Err (EClient (mkAlert 2 50)), TReset, [], [1], []).
Proof. vm_compute. split; reflexivity. Qed.

(** C70 is false: a record with padding, as RFC 8446 section 5.4 permits, is refused with decode_error: so is every
    record whose last byte of plaintext is not one of the four content types. *)
Theorem C70_padding_refuted : forall cx dbg fuel c rng now ch rd tx ad t seq v body rest m y, crypto_ok cx -> reads_with c t seq -> listens c -> paired c ->
  buffer_holds (tc_rx c) ad rest -> zlen v = 2 -> bytes_ok v -> bytes_ok body -> 17 <= zlen body <= buffer_size c - 22 ->
  zlen ad + zlen rest + zlen body <= buffer_size c + 15 -> let record := record_header 23 v (zlen body) ++ body in
  opens cx t seq record = Some (m ++ [y]) -> ~ In y [20; 21; 22; 23] -> arrived ch c rd tx record ->
  ensures_ir no_link_change (tls_process cx dbg fuel c rng now) (sn_raw (tc_sn c)) ch (gives_up cx c 50 (tx_room ch c) (rd ++ record) tx ad).
Proof. exact (fun cx dbg fuel c rng now ch rd tx ad t seq v body rest m y CX => TlsRx5P.unknown cx dbg fuel c rng now ch rd tx ad CX t seq v body rest m y). Qed.
Print Assumptions C70_padding_refuted.
(** "hi" of type application data with two bytes of padding: the content [104; 105; 23; 0] and the "type" 0. *)
Example C70_case : case_process case_connected (case_record case_server_secret 0 0 [104; 105; 23; 0]) =
  Some (Err (EClient (mkAlert 1 50)), TWaitAlertSendOk, [], [1], case_record case_client_secret 0 21 [2; 50]).
Proof. vm_compute. reflexivity. Qed.

(** C71: a change_cipher_spec record is skipped; [twaits] is the answer of a call with nothing to do. *)
Theorem C71_ccs_partial : forall cx dbg fuel c rng now ch rd tx ad v, listens c -> tc_state c <> TSendFinished -> tclock_ok c now -> buffer_holds (tc_rx c) ad [] -> zlen v = 2 ->
  23 <= buffer_size c -> zlen ad + 2 <= buffer_size c -> arrived ch c rd tx (record_header 20 v 1 ++ [1]) ->
  ensures_ir no_link_change (tls_process cx dbg fuel c rng now) (sn_raw (tc_sn c)) ch (fun x s' =>
    exists rx, buffer_holds rx ad [] /\ twaits (tc_set_rx c rx) now x /\ tcp_view s' (rd ++ record_header 20 v 1 ++ [1]) tx).
Proof. exact TlsRx5P.skips_ccs. Qed.
Print Assumptions C71_ccs_partial.
(** A connected client obeys an alert that came without protection: anyone who can put bytes into the TCP stream can
    make it forget the session and the data it has not handed out. *)
Theorem C71_connected_refuted : forall cx dbg fuel c rng now ch rd tx ad v level description, tc_state c = TConnected -> buffer_holds (tc_rx c) ad [] -> zlen v = 2 ->
  description_try_from description <> None -> 24 <= buffer_size c -> zlen ad + 3 <= buffer_size c -> arrived ch c rd tx (record_header 21 v 2 ++ [level; description]) ->
  ensures_ir no_link_change (tls_process cx dbg fuel c rng now) (sn_raw (tc_sn c)) ch (fun x s' =>
    exists c' e, x = (Err (EServer e), c') /\ forgot c').
Proof. exact TlsRx5P.plain_alert_connected. Qed.
Print Assumptions C71_connected_refuted.
Example C71_case : case_process case_connected [20; 3; 3; 0; 1; 1] = Some (Ok TNone, TConnected, [], [1], []) /\
  case_process case_greeted [20; 3; 3; 0; 1; 1] = Some (Ok (TCallAfter 2), TWaitEncryptedExtensions, [], [1], []) /\ tclock_ok case_greeted 111 /\ listens case_greeted.
Proof. split; [vm_compute; reflexivity|]. split; [vm_compute; reflexivity|]. split; [vm_compute; discriminate|exact I]. Qed.
