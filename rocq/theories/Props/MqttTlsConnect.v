(** C110: an MQTT client over TLS makes its connection however the answers of the server arrive. *)
From Coq Require Import Lia String.
From Verif Require Import Model.Prelude Model.Bus Model.Chip Model.Specifiers Model.Mqtt Model.TlsTypes Model.TlsBuf Model.TlsKeys Model.TlsClient Model.MqttTls
  Spec.Hoare Spec.Sock Spec.Cases Spec.TcpClient Spec.TlsSecrets Spec.TlsMessages Spec.MqttMsg Spec.MqttStream Spec.TlsCases Spec.TlsProtect Spec.TlsTalk Spec.TlsQueue Spec.TlsSession Spec.TlsWire Spec.TlsAuth Spec.TlsRx Spec.TlsStream Spec.TlsComplete Spec.TlsArrive
  Spec.MqttTlsMsg Spec.MqttTlsTalk Spec.MqttTlsStream Spec.MqttTlsConnect.
From Verif Require Proof.MqttTlsConnectP Proof.MqttTlsConnectCaseP Proof.TlsArriveCaseP Proof.TlsCaseP Proof.TlsRx5P Proof.MqttMainP.
Local Open Scope list_scope.

(** The client has sent its ClientHello; the server sends the three records of C109 and then anything, and the bytes arrive in any
    pieces at any time.  After any calls of [process] made in time, either [k] of the records were taken and every call has
    asked to be called again, or all three were taken and the last call has sent two records: the client's Finished of the TLS
    handshake and CONNECT, protected by the first key for application data.  No call has answered with an error, and the application
    does not see the end of the TLS handshake. *)
Theorem C110_connect : forall cx dbg c ch rd tx later dhs t0 hello extensions share key l c' ch', crypto_ok cx -> greeted cx (mt_tls c) dhs t0 -> mt_st c = mkST MInit None -> client_id_ok c ->
  server_hello hello share -> cx_sec1 cx share = Some key -> bytes_ok hello -> zlen (hs_message 2 hello) <= buffer_size (mt_tls c) - 22 ->
  encrypted_extensions extensions -> bytes_ok extensions -> zlen (hs_message 8 extensions) <= buffer_size (mt_tls c) - 39 -> 80 + zlen (mt_connect_of c) <= tx_room ch (mt_tls c) ->
  tcp_view (c_sock ch (sn_raw (tc_sn (mt_tls c)))) rd tx -> tx_bytes (c_sock ch (sn_raw (tc_sn (mt_tls c)))) ->
  let psk := tc_psk (mt_tls c) in let dhe := cx_dh cx dhs key in let records := flight cx psk dhe t0 hello extensions in let t3 := upto_finished cx psk dhe t0 hello extensions in
  let server := derive cx (master_secret cx psk dhe) "s ap traffic" t3 in let client := derive cx (master_secret cx psk dhe) "c ap traffic" t3 in
  mt_asks cx dbg mt_handshaking c ch l c' ch' -> receives ch' (mt_tls c) rd (concat records ++ later) ->
  mt_same c c' /\ tx_bytes (c_sock ch' (sn_raw (tc_sn (mt_tls c)))) /\
  ((exists k, (k < 3)%nat /\ stage cx psk dhe t0 hello extensions k dhs (mt_tls c') /\ mt_st c' = mkST MInit None /\ Forall mt_goes_on l /\ tcp_view (c_sock ch' (sn_raw (tc_sn (mt_tls c)))) (rd ++ concat (firstn k records)) tx) \/
   ((exists l0, l = l0 ++ [WProcess (Ok (SeenCallAfter 10)) [] (Ok tt)] /\ Forall mt_goes_on l0) /\ (exists since, mt_asked c' server 0 [] since) /\ writes_with (mt_tls c') client 1 /\
     tcp_view (c_sock ch' (sn_raw (tc_sn (mt_tls c)))) (rd ++ concat records) (tx ++ reply cx psk dhe t0 hello extensions ++ protected_record cx client 0 23 (mt_connect_of c)))).
Proof. exact MqttTlsConnectP.connects. Qed.
Print Assumptions C110_connect.
(** When all three records have arrived, at most three further calls send CONNECT. *)
Theorem C110_connect_all : forall cx dbg c ch rd tx later dhs t0 hello extensions share key l1 c1 ch1 l2 c2 ch2, crypto_ok cx -> greeted cx (mt_tls c) dhs t0 -> mt_st c = mkST MInit None -> client_id_ok c ->
  server_hello hello share -> cx_sec1 cx share = Some key -> bytes_ok hello -> zlen (hs_message 2 hello) <= buffer_size (mt_tls c) - 22 ->
  encrypted_extensions extensions -> bytes_ok extensions -> zlen (hs_message 8 extensions) <= buffer_size (mt_tls c) - 39 -> 80 + zlen (mt_connect_of c) <= tx_room ch (mt_tls c) ->
  tcp_view (c_sock ch (sn_raw (tc_sn (mt_tls c)))) rd tx -> tx_bytes (c_sock ch (sn_raw (tc_sn (mt_tls c)))) ->
  let records := flight cx (tc_psk (mt_tls c)) (cx_dh cx dhs key) t0 hello extensions in
  mt_asks cx dbg mt_handshaking c ch l1 c1 ch1 -> (exists more, s_rxlog (c_sock ch1 (sn_raw (tc_sn (mt_tls c)))) = rd ++ concat records ++ more) ->
  mt_asks cx dbg mt_handshaking c1 ch1 l2 c2 ch2 -> receives ch2 (mt_tls c) rd (concat records ++ later) -> (length l2 <= 3)%nat /\ (length l2 = 3%nat -> tc_state (mt_tls c2) = TConnected).
Proof. exact MqttTlsConnectP.connects_all. Qed.
Print Assumptions C110_connect_all.
(** CONNECT was sent at [since].  The server sends CONNACK with reason 0 and then anything, in records of at most [room] bytes, which arrive
    in any pieces.  After any calls made in time the first [j] records were taken, and either all calls have asked to be called
    again and CONNACK is not complete, or the last call has told of CONNACK and the client is connected; the bytes that
    follow CONNACK are kept.  When all have arrived before the first call, one call more than there are records is enough. *)
Theorem C110_connack : forall cx dbg room c ch rd tx ad t seq since flags props datas more l c' ch', crypto_ok cx -> mt_asks cx dbg (mt_awaiting room) c ch l c' ch' ->
  mt_asked c t seq ad since -> seq + zlen datas < 2 ^ 64 - 1 -> Forall bytes_ok datas -> Forall (fun d => zlen d <= room) datas -> 0 <= room <= buffer_size (mt_tls c) - 39 ->
  tcp_view (c_sock ch (sn_raw (tc_sn (mt_tls c)))) rd tx -> tx_bytes (c_sock ch (sn_raw (tc_sn (mt_tls c)))) -> zlen props < 125 -> ad ++ concat datas = connack_packet flags 0 props ++ more ->
  receives ch' (mt_tls c) rd (record_stream cx t seq datas) ->
  mt_same c c' /\ tx_bytes (c_sock ch' (sn_raw (tc_sn (mt_tls c)))) /\
  exists j, (j <= length datas)%nat /\ tcp_view (c_sock ch' (sn_raw (tc_sn (mt_tls c)))) (rd ++ record_stream cx t seq (firstn j datas)) tx /\
    ((Forall mt_goes_on l /\ mt_asked c' t (seq + Z.of_nat j) (ad ++ concat (firstn j datas)) since) \/
     ((exists l0, l = l0 ++ [WProcess (Ok (SeenAck AConnAck)) [] (Ok tt)] /\ Forall mt_goes_on l0) /\ mt_listens c' t (seq + Z.of_nat j) (readable (mt_tls c')) /\
       connack_packet flags 0 props ++ readable (mt_tls c') = ad ++ concat (firstn j datas))) /\
    (s_rxlog (c_sock ch (sn_raw (tc_sn (mt_tls c)))) = rd ++ record_stream cx t seq datas -> (length datas < length l)%nat -> mt_is_connected c' = true).
Proof. exact MqttTlsConnectP.accepted. Qed.
Print Assumptions C110_connack.
(** From the ClientHello to the packets: the server sends the three records and then CONNACK and the packets [ms], cut into
    records at will, and all arrive in any pieces.  The application is told of CONNACK and then of the packets completely, once and in
    order, and the client has sent its Finished, CONNECT and nothing else. *)
Theorem C110_session : forall cx dbg c ch rd tx dhs t0 hello extensions share key room flags props datas ms l1 c1 ch1 l2 c2 ch2 l3 c3 ch3, crypto_ok cx -> greeted cx (mt_tls c) dhs t0 -> mt_st c = mkST MInit None -> client_id_ok c ->
  server_hello hello share -> cx_sec1 cx share = Some key -> bytes_ok hello -> zlen (hs_message 2 hello) <= buffer_size (mt_tls c) - 22 ->
  encrypted_extensions extensions -> bytes_ok extensions -> zlen (hs_message 8 extensions) <= buffer_size (mt_tls c) - 39 -> 80 + zlen (mt_connect_of c) <= tx_room ch (mt_tls c) ->
  tcp_view (c_sock ch (sn_raw (tc_sn (mt_tls c)))) rd tx -> tx_bytes (c_sock ch (sn_raw (tc_sn (mt_tls c)))) ->
  zlen datas < 2 ^ 64 - 1 -> Forall bytes_ok datas -> Forall (fun d => zlen d <= room) datas -> 0 <= room <= buffer_size (mt_tls c) - 39 ->
  zlen props < 125 -> Forall message_ok ms -> concat datas = connack_packet flags 0 props ++ message_stream ms ->
  let psk := tc_psk (mt_tls c) in let dhe := cx_dh cx dhs key in let records := flight cx psk dhe t0 hello extensions in let t3 := upto_finished cx psk dhe t0 hello extensions in
  let server := derive cx (master_secret cx psk dhe) "s ap traffic" t3 in let client := derive cx (master_secret cx psk dhe) "c ap traffic" t3 in
  mt_asks cx dbg mt_handshaking c ch l1 c1 ch1 -> tc_state (mt_tls c1) = TConnected -> mt_asks cx dbg (mt_awaiting room) c1 ch1 l2 c2 ch2 -> mt_is_connected c2 = true ->
  mt_polls cx dbg (roomy room (buffer_size (mt_tls c2))) c2 ch2 l3 c3 ch3 -> receives ch3 (mt_tls c) rd (concat records ++ record_stream cx server 0 datas) ->
  (exists l, l1 = l ++ [WProcess (Ok (SeenCallAfter 10)) [] (Ok tt)] /\ Forall mt_goes_on l) /\ (exists l, l2 = l ++ [WProcess (Ok (SeenAck AConnAck)) [] (Ok tt)] /\ Forall mt_goes_on l) /\
  let k := length (mt_news l3) in (k <= length ms)%nat /\ Forall2 (fun p m => snd p = mt_tells m (fst p)) (mt_news l3) (firstn k ms) /\
  exists j, (j <= length datas)%nat /\ mt_listens c3 server (Z.of_nat j) (readable (mt_tls c3)) /\ connack_packet flags 0 props ++ message_stream (firstn k ms) ++ readable (mt_tls c3) = concat (firstn j datas) /\
    tcp_view (c_sock ch3 (sn_raw (tc_sn (mt_tls c)))) (rd ++ concat records ++ record_stream cx server 0 (firstn j datas)) (tx ++ reply cx psk dhe t0 hello extensions ++ protected_record cx client 0 23 (mt_connect_of c)).
Proof. exact MqttTlsConnectP.whole_session. Qed.
Print Assumptions C110_session.

(** The client of C76 after its ClientHello; the server sends the three records of C109 and two with CONNACK and SUBACK, which are cut
    inside CONNACK.  A hundred bytes are there at first and all others arrive during the second call.  [mt_stream] has the code's
    AES, which is that of the standard by [C50_aes]. *)
Definition case_begun : MqttTls := MqttTlsConnectCaseP.mt_client.
Definition case_arriving : chip := MqttTlsConnectCaseP.mt_chip.
Definition case_after (secs : Z) : mtans := WProcess (Ok (SeenCallAfter secs)) [] (Ok tt).
Definition case_connack : mtans := WProcess (Ok (SeenAck AConnAck)) [] (Ok tt).
Example C110_case :
  (exists c2 ch2 c4 ch4 c6 ch6 c7 ch7,
    mt_asks case_cx true mt_handshaking case_begun case_arriving [case_after 7; case_after 10] c2 ch2 /\ s_rxlog (c_sock ch2 3) = MqttTlsConnectCaseP.mt_stream /\
    mt_asks case_cx true mt_handshaking c2 ch2 [case_after 10; case_after 10] c4 ch4 /\
    mt_asks case_cx true mt_handshaking case_begun case_arriving [case_after 7; case_after 10; case_after 10; case_after 10] c4 ch4 /\ tc_state (mt_tls c4) = TConnected /\
    mt_asks case_cx true (mt_awaiting 20) c4 ch4 [case_after 9; case_connack] c6 ch6 /\ mt_is_connected c6 = true /\
    mt_polls case_cx true (roomy 20 (buffer_size (mt_tls c6))) c6 ch6 [([], WProcess (Ok (SeenAck (ASubAck 7 SA_NotAuthorized))) [] (Ok tt))] c7 ch7 /\ s_rxlog (c_sock ch7 3) = MqttTlsConnectCaseP.mt_stream) /\
  (let dhe := cx_dh case_cx [8; 8] (List.repeat 19 64) in let c := mt_tls case_begun in let t0 := transcript c in let sh := server_key case_cx (tc_psk c) dhe t0 TlsArriveCaseP.arrive_hello in
   let ap := derive case_cx (master_secret case_cx (tc_psk c) dhe) "s ap traffic" (upto_finished case_cx (tc_psk c) dhe t0 TlsArriveCaseP.arrive_hello (be16 0)) in
   MqttTlsConnectCaseP.mt_stream = plaintext_record 22 (hs_message 2 TlsArriveCaseP.arrive_hello) ++ case_record sh 0 22 (hs_message 8 (be16 0)) ++
     case_record sh 1 22 (finished case_cx sh (upto_extensions t0 TlsArriveCaseP.arrive_hello (be16 0))) ++ concat (map (fun p => case_record ap (fst p) 23 (snd p)) (combine [0; 1] MqttTlsConnectCaseP.mt_datas))) /\
  concat MqttTlsConnectCaseP.mt_datas = connack_packet 0 0 [] ++ message_stream [MsgSubAck 7 [] 0x87] /\ map zlen MqttTlsConnectCaseP.mt_datas = [3; 8] /\ message_ok (MsgSubAck 7 [] 0x87) /\
  crypto_ok case_cx /\ greeted case_cx (mt_tls case_begun) [8; 8] (transcript (mt_tls case_begun)) /\ mt_st case_begun = mkST MInit None /\ client_id_ok case_begun /\
  server_hello TlsArriveCaseP.arrive_hello server_share /\ cx_sec1 case_cx server_share = Some (List.repeat 19 64) /\
  zlen (hs_message 2 TlsArriveCaseP.arrive_hello) = 129 /\ buffer_size (mt_tls case_begun) = 1024 /\ encrypted_extensions (be16 0) /\ zlen (mt_connect_of case_begun) = 22 /\ tx_room case_arriving (mt_tls case_begun) = 2040 /\
  tcp_view (c_sock case_arriving 3) [] case_tcp_unsent /\ tx_bytes (c_sock case_arriving 3).
Proof.
  split; [exact MqttTlsConnectCaseP.mt_case|]. split; [vm_compute; reflexivity|]. split; [vm_compute; reflexivity|]. split; [vm_compute; reflexivity|].
  split; [vm_compute; repeat split; try discriminate; repeat constructor; discriminate|]. split; [exact TlsCaseP.case_cx_ok|]. split; [vm_compute; repeat split; discriminate|]. split; [reflexivity|].
  split; [intros i [= <-]; split; [vm_compute; discriminate|repeat constructor; discriminate]|].
  split; [exists (List.repeat 7 32), [ShVersion; ShKeyShare server_share; ShPsk], 85, []; vm_compute; repeat split; try discriminate; auto|]. split; [reflexivity|]. split; [reflexivity|]. split; [reflexivity|].
  split; [exists [], 0, []; vm_compute; repeat split; try discriminate; auto|]. split; [vm_compute; reflexivity|]. split; [vm_compute; reflexivity|]. split; [MqttMainP.case_tcp_view|]. apply TlsRx5P.case_bytes.
Qed.
