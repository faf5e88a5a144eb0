(** C104: a stream of protected records is delivered completely and in order, however it arrives. *)
From Coq Require Import Lia.
From Verif Require Import Model.Prelude Model.Bus Model.Chip Model.Specifiers Model.TlsTypes Model.TlsBuf Model.TlsKeys Model.TlsClient
  Spec.Hoare Spec.Sock Spec.Cases Spec.TcpClient Spec.TlsSecrets Spec.MqttMsg Spec.TlsCases Spec.TlsProtect Spec.TlsTalk Spec.TlsAuth Spec.TlsWire Spec.TlsRx Spec.TlsStream.
From Verif Require Proof.TlsStreamP Proof.TlsCaseP Proof.TlsRx5P Proof.MqttMainP.

(** The server sends the records of [datas], each of at most [room] bytes; they arrive in any pieces at any time, and
    what has arrived at the end is a part of them.  Then every call of [process] answers with nothing or with
    application data; what the application has read and what it can read is what was readable before followed by the
    content of the first records, one for each event; exactly these records were taken from the TCP stream; and
    the connection goes on with the next record. *)
Theorem C104_stream : forall cx dbg room c ch rd tx ad t seq datas rs got c' ch', crypto_ok cx -> uses cx dbg room c ch rs got c' ch' ->
  reads_with c t seq -> tc_state c = TConnected -> tc_timeout c = None -> buffer_holds (tc_rx c) ad [] -> seq + zlen datas < 2 ^ 64 - 1 ->
  Forall bytes_ok datas -> Forall (fun d => zlen d <= room) datas -> 0 <= room <= buffer_size c - 39 ->
  tcp_view (c_sock ch (sn_raw (tc_sn c))) rd tx -> tx_bytes (c_sock ch (sn_raw (tc_sn c))) ->
  receives ch' c rd (record_stream cx t seq datas) ->
  Forall (fun r => r = Ok TNone \/ r = Ok TApplicationData) rs /\ (deliveries rs <= length datas)%nat /\
  got ++ readable c' = ad ++ concat (firstn (deliveries rs) datas) /\
  tcp_view (c_sock ch' (sn_raw (tc_sn c))) (rd ++ record_stream cx t seq (firstn (deliveries rs) datas)) tx /\
  tc_state c' = TConnected /\ reads_with c' t (seq + Z.of_nat (deliveries rs)) /\ tc_sn c' = tc_sn c /\ tx_bytes (c_sock ch' (sn_raw (tc_sn c))).
Proof. exact TlsStreamP.streamed. Qed.
Print Assumptions C104_stream.
(** Nothing stays behind: a call that finds nothing to deliver, when everything has arrived, comes after all records were delivered. *)
Theorem C104_all : forall cx dbg room c ch rd tx ad t seq datas rs got c1 ch1 fuel rng now sch sch' c2 ch2, crypto_ok cx -> uses cx dbg room c ch rs got c1 ch1 ->
  reads_with c t seq -> tc_state c = TConnected -> tc_timeout c = None -> buffer_holds (tc_rx c) ad [] -> seq + zlen datas < 2 ^ 64 - 1 ->
  Forall bytes_ok datas -> Forall (fun d => zlen d <= room) datas -> 0 <= room <= buffer_size c - 39 ->
  tcp_view (c_sock ch (sn_raw (tc_sn c))) rd tx -> tx_bytes (c_sock ch (sn_raw (tc_sn c))) ->
  s_rxlog (c_sock ch1 (sn_raw (tc_sn c))) = rd ++ record_stream cx t seq datas ->
  zlen (readable c1) + room + 2 <= buffer_size c -> no_faults sch -> no_link_change (seen_ir sch ch1 (sn_raw (tc_sn c))) ->
  run (tls_process cx dbg fuel c1 rng now) sch ch1 = (Done (Ok TNone, c2), sch', ch2) -> got ++ readable c1 = ad ++ concat datas.
Proof. exact TlsStreamP.all_delivered. Qed.
Print Assumptions C104_all.

(** The client of C60 after its handshake; two records, of which ten bytes are there at first.  Between the second and
    the third call of [process] the application reads one byte.  [case_stream] are the two records with the code's
    AES, which is that of the standard by [C50_aes]. *)
Example C104_case : (exists c' ch', uses case_cx true 2 case_connected (case_conn (ztake 10 TlsStreamP.case_stream)) [Ok TNone; Ok TApplicationData; Ok TApplicationData] [104; 105; 33] c' ch' /\
    s_rxlog (c_sock ch' 3) = TlsStreamP.case_stream) /\
  TlsStreamP.case_stream = case_record case_server_secret 0 23 [104; 105] ++ case_record case_server_secret 1 23 [33] /\
  crypto_ok case_cx /\ reads_with case_connected case_server_secret 0 /\ tc_state case_connected = TConnected /\ tc_timeout case_connected = None /\
  buffer_holds (tc_rx case_connected) [] [] /\ buffer_size case_connected = 1024 /\
  tcp_view (c_sock (case_conn (ztake 10 TlsStreamP.case_stream)) 3) [] case_tcp_unsent /\ tx_bytes (c_sock (case_conn (ztake 10 TlsStreamP.case_stream)) 3).
Proof.
  split; [exact TlsStreamP.case_uses|]. split; [vm_compute; reflexivity|]. split; [exact TlsCaseP.case_cx_ok|]. split; [exact TlsRx5P.case_reads|]. split; [reflexivity|]. split; [reflexivity|].
  split; [exact TlsRx5P.case_buffer|]. split; [reflexivity|]. split; [MqttMainP.case_tcp_view|]. apply TlsRx5P.case_bytes.
Qed.
