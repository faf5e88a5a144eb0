(** C106: a stream of MQTT packets in TLS records is told to the application completely, once and in order, however it is cut. *)
From Coq Require Import Lia.
From Verif Require Import Model.Prelude Model.Bus Model.Chip Model.Specifiers Model.Mqtt Model.TlsTypes Model.TlsBuf Model.TlsKeys Model.TlsClient Model.MqttTls
  Spec.Hoare Spec.Sock Spec.Cases Spec.TcpClient Spec.TlsSecrets Spec.MqttMsg Spec.MqttStream Spec.TlsCases Spec.TlsProtect Spec.TlsTalk Spec.TlsAuth Spec.TlsWire Spec.TlsRx Spec.TlsStream
  Spec.MqttTlsMsg Spec.MqttTlsTalk Spec.MqttTlsStream.
From Verif Require Proof.MqttTlsStreamP Proof.TlsCaseP Proof.TlsRx5P Proof.MqttMainP.

(** The broker sends the packets of [ms] in the records of [datas], cut anywhere, each record of at most [room] bytes; [ad]
    was received before.  The records arrive in any pieces at any time, and what has arrived at the end is a part of
    them.  Then the calls that told something told of the first packets of [ms], one each and in order, with the parts of
    each message that were read; what is left in the buffer is what follows them in the first [j] records; exactly these
    records were taken from the TCP stream; and the client listens on. *)
Theorem C106_stream : forall cx dbg room c ch rd tx ad t seq datas ms l c' ch', crypto_ok cx -> mt_polls cx dbg (roomy room (buffer_size (mt_tls c))) c ch l c' ch' ->
  mt_listens c t seq ad -> seq + zlen datas < 2 ^ 64 - 1 -> Forall bytes_ok datas -> Forall (fun d => zlen d <= room) datas -> 0 <= room <= buffer_size (mt_tls c) - 39 ->
  tcp_view (c_sock ch (sn_raw (tc_sn (mt_tls c)))) rd tx -> tx_bytes (c_sock ch (sn_raw (tc_sn (mt_tls c)))) -> Forall message_ok ms -> ad ++ concat datas = message_stream ms ->
  receives ch' (mt_tls c) rd (record_stream cx t seq datas) ->
  let k := length (mt_news l) in (k <= length ms)%nat /\ Forall2 (fun p m => snd p = mt_tells m (fst p)) (mt_news l) (firstn k ms) /\
  (exists j, (j <= length datas)%nat /\ tcp_view (c_sock ch' (sn_raw (tc_sn (mt_tls c)))) (rd ++ record_stream cx t seq (firstn j datas)) tx /\
    mt_listens c' t (seq + Z.of_nat j) (readable (mt_tls c')) /\ message_stream (firstn k ms) ++ readable (mt_tls c') = ad ++ concat (firstn j datas)) /\
  tc_sn (mt_tls c') = tc_sn (mt_tls c) /\ buffer_size (mt_tls c') = buffer_size (mt_tls c) /\ tx_bytes (c_sock ch' (sn_raw (tc_sn (mt_tls c)))).
Proof. exact MqttTlsStreamP.streamed. Qed.
Print Assumptions C106_stream.
(** Nothing stays behind: when everything has arrived, as many calls as there are records and packets tell of all packets. *)
Theorem C106_all : forall cx dbg room c ch rd tx ad t seq datas ms l c' ch', crypto_ok cx -> mt_polls cx dbg (roomy room (buffer_size (mt_tls c))) c ch l c' ch' ->
  mt_listens c t seq ad -> seq + zlen datas < 2 ^ 64 - 1 -> Forall bytes_ok datas -> Forall (fun d => zlen d <= room) datas -> 0 <= room <= buffer_size (mt_tls c) - 39 ->
  tcp_view (c_sock ch (sn_raw (tc_sn (mt_tls c)))) rd tx -> tx_bytes (c_sock ch (sn_raw (tc_sn (mt_tls c)))) -> Forall message_ok ms -> ad ++ concat datas = message_stream ms ->
  s_rxlog (c_sock ch (sn_raw (tc_sn (mt_tls c)))) = rd ++ record_stream cx t seq datas -> receives ch' (mt_tls c) rd (record_stream cx t seq datas) ->
  (length datas + length ms <= length l)%nat -> Forall2 (fun p m => snd p = mt_tells m (fst p)) (mt_news l) ms.
Proof. exact MqttTlsStreamP.all_told. Qed.
Print Assumptions C106_all.
(** When each packet is sent in a record of its own, there is always room; the number of records taken is the number of packets
    told; and when everything has arrived, each call tells of a packet until all are told. *)
Theorem C106_own_records : forall cx dbg c ch rd tx t seq ms l c' ch', crypto_ok cx -> mt_polls cx dbg (fun _ => True) c ch l c' ch' -> mt_listens c t seq [] -> seq + zlen ms < 2 ^ 64 - 1 ->
  tcp_view (c_sock ch (sn_raw (tc_sn (mt_tls c)))) rd tx -> tx_bytes (c_sock ch (sn_raw (tc_sn (mt_tls c)))) -> Forall message_ok ms ->
  39 <= buffer_size (mt_tls c) -> Forall (fun m => zlen (message_bytes m) <= buffer_size (mt_tls c) - 39) ms -> receives ch' (mt_tls c) rd (record_stream cx t seq (map message_bytes ms)) ->
  let k := length (mt_news l) in (k <= length ms)%nat /\ Forall2 (fun p m => snd p = mt_tells m (fst p)) (mt_news l) (firstn k ms) /\
  tcp_view (c_sock ch' (sn_raw (tc_sn (mt_tls c)))) (rd ++ record_stream cx t seq (map message_bytes (firstn k ms))) tx /\ mt_listens c' t (seq + Z.of_nat k) [] /\
  (s_rxlog (c_sock ch (sn_raw (tc_sn (mt_tls c)))) = rd ++ record_stream cx t seq (map message_bytes ms) -> (length ms <= length l)%nat -> k = length ms).
Proof. exact MqttTlsStreamP.snug. Qed.
Print Assumptions C106_own_records.

(** The client of C76 after CONNACK.  A message and the answer to a subscription come in two records, the first of three
    bytes; ten bytes of it are there at first and the rest arrives during the second call.  [case_records] are the two records
    with the code's AES, which is that of the standard by [C50_aes]. *)
Example C106_case :
  (exists c' ch', mt_polls case_cx true (roomy 20 1024) case_mt_ready (case_conn (ztake 10 MqttTlsStreamP.case_records))
    [([], WProcess (Ok SeenNone) [] (Ok tt)); ([], WProcess (Ok SeenNone) [] (Ok tt)); ([PPayload 2; PTopic 9], WProcess (Ok (SeenPublish 2 3)) [Ok [1; 2]; Ok [97; 98]] (Ok tt));
     ([], WProcess (Ok (SeenAck (ASubAck 7 SA_NotAuthorized))) [] (Ok tt))] c' ch' /\ s_rxlog (c_sock ch' 3) = MqttTlsStreamP.case_records) /\
  MqttTlsStreamP.case_records = case_record mt_server_secret 1 23 (nth 0 MqttTlsStreamP.case_datas []) ++ case_record mt_server_secret 2 23 (nth 1 MqttTlsStreamP.case_datas []) /\
  MqttTlsStreamP.case_ms = [MsgPublish false [97; 98] [] [1; 2; 3]; MsgSubAck 7 [] 0x87] /\ map (@zlen Z) MqttTlsStreamP.case_datas = [3; 13] /\ [] ++ concat MqttTlsStreamP.case_datas = message_stream MqttTlsStreamP.case_ms /\
  crypto_ok case_cx /\ mt_listens case_mt_ready mt_server_secret 1 [] /\ Forall message_ok MqttTlsStreamP.case_ms /\ buffer_size (mt_tls case_mt_ready) = 1024 /\
  tcp_view (c_sock (case_conn (ztake 10 MqttTlsStreamP.case_records)) 3) [] case_tcp_unsent /\ tx_bytes (c_sock (case_conn (ztake 10 MqttTlsStreamP.case_records)) 3).
Proof.
  split; [exact MqttTlsStreamP.case_polls|]. split; [vm_compute; reflexivity|]. split; [reflexivity|]. split; [vm_compute; reflexivity|]. split; [vm_compute; reflexivity|]. split; [exact TlsCaseP.case_cx_ok|].
  split; [exact MqttTlsStreamP.case_listens|]. split; [exact MqttTlsStreamP.case_ms_ok|]. split; [reflexivity|]. split; [MqttMainP.case_tcp_view|]. apply TlsRx5P.case_bytes.
Qed.
(** The same packets in records of their own, all there at the start. *)
Example C106_own_case :
  (exists c' ch', mt_polls case_cx true (fun _ => True) case_mt_ready (case_conn MqttTlsStreamP.snug_records)
    [([PPayload 2; PTopic 9], WProcess (Ok (SeenPublish 2 3)) [Ok [1; 2]; Ok [97; 98]] (Ok tt)); ([], WProcess (Ok (SeenAck (ASubAck 7 SA_NotAuthorized))) [] (Ok tt))] c' ch' /\
    s_rxlog (c_sock ch' 3) = MqttTlsStreamP.snug_records) /\
  MqttTlsStreamP.snug_records = case_record mt_server_secret 1 23 (message_bytes (nth 0 MqttTlsStreamP.case_ms (MsgSubAck 0 [] 0))) ++ case_record mt_server_secret 2 23 (message_bytes (nth 1 MqttTlsStreamP.case_ms (MsgSubAck 0 [] 0))) /\
  Forall (fun m => zlen (message_bytes m) <= buffer_size (mt_tls case_mt_ready) - 39) MqttTlsStreamP.case_ms.
Proof.
  split; [exact MqttTlsStreamP.snug_polls|]. split; [vm_compute; reflexivity|]. repeat constructor; vm_compute; discriminate.
Qed.
