(** C109: a TLS handshake with a conforming server completes however its answers arrive. *)
From Coq Require Import Lia String.
From Verif Require Import Model.Prelude Model.Bus Model.Chip Model.Specifiers Model.TlsTypes Model.TlsBuf Model.TlsKeys Model.TlsClient
  Spec.Hoare Spec.Sock Spec.Cases Spec.TcpClient Spec.Silent Spec.TlsSecrets Spec.TlsMessages Spec.MqttMsg Spec.TlsCases Spec.TlsProtect Spec.TlsTalk Spec.TlsQueue Spec.TlsSession Spec.TlsWire Spec.TlsAuth Spec.TlsRx Spec.TlsStream Spec.TlsComplete Spec.TlsArrive.
From Verif Require Proof.TlsArriveP Proof.TlsOpenP Proof.TlsTalkP Proof.TlsArriveCaseP Proof.TlsCaseP Proof.TlsRx5P Proof.MqttMainP.
Local Open Scope list_scope.

(** The client has sent its ClientHello.  The server sends ServerHello, EncryptedExtensions and Finished in three records, and then
    anything; the bytes arrive in any pieces at any time, also while [process] runs.  Then, after any calls of [process] made in
    time, the client has taken the first [k] of the records and nothing else from the TCP stream, it is at stage [k] with the keys
    of the standard, and no call has answered with an error: all ask to be called again, except that the call that took the
    third record reports the end of the handshake, and that call has sent the client's Finished. *)
Theorem C109_handshake : forall cx dbg c ch rd tx later dhs t0 hello extensions share key rs c' ch', crypto_ok cx -> greeted cx c dhs t0 ->
  server_hello hello share -> cx_sec1 cx share = Some key -> bytes_ok hello -> zlen (hs_message 2 hello) <= buffer_size c - 22 ->
  encrypted_extensions extensions -> bytes_ok extensions -> zlen (hs_message 8 extensions) <= buffer_size c - 39 -> 58 <= tx_room ch c ->
  tcp_view (c_sock ch (sn_raw (tc_sn c))) rd tx -> tx_bytes (c_sock ch (sn_raw (tc_sn c))) ->
  let dhe := cx_dh cx dhs key in let records := flight cx (tc_psk c) dhe t0 hello extensions in
  handshakes cx dbg c ch rs c' ch' -> receives ch' c rd (concat records ++ later) ->
  exists k, (k <= 3)%nat /\ stage cx (tc_psk c) dhe t0 hello extensions k dhs c' /\ same_client c c' /\ tx_bytes (c_sock ch' (sn_raw (tc_sn c))) /\
    ((k < 3)%nat -> Forall goes_on rs /\ tcp_view (c_sock ch' (sn_raw (tc_sn c))) (rd ++ concat (firstn k records)) tx) /\
    (k = 3%nat -> (exists rs0, rs = rs0 ++ [Ok THandshakeFinished] /\ Forall goes_on rs0) /\ tc_timeout c' = None /\
      tcp_view (c_sock ch' (sn_raw (tc_sn c))) (rd ++ concat records) (tx ++ reply cx (tc_psk c) dhe t0 hello extensions) /\ tx_room ch c - 58 <= tx_room ch' c).
Proof. exact TlsArriveP.arrives. Qed.
Print Assumptions C109_handshake.
(** When all three records have arrived, at most three further calls end the handshake. *)
Theorem C109_all : forall cx dbg c ch rd tx later dhs t0 hello extensions share key rs1 c1 ch1 rs2 c2 ch2, crypto_ok cx -> greeted cx c dhs t0 ->
  server_hello hello share -> cx_sec1 cx share = Some key -> bytes_ok hello -> zlen (hs_message 2 hello) <= buffer_size c - 22 ->
  encrypted_extensions extensions -> bytes_ok extensions -> zlen (hs_message 8 extensions) <= buffer_size c - 39 -> 58 <= tx_room ch c ->
  tcp_view (c_sock ch (sn_raw (tc_sn c))) rd tx -> tx_bytes (c_sock ch (sn_raw (tc_sn c))) ->
  let dhe := cx_dh cx dhs key in let records := flight cx (tc_psk c) dhe t0 hello extensions in
  handshakes cx dbg c ch rs1 c1 ch1 -> (exists more, s_rxlog (c_sock ch1 (sn_raw (tc_sn c))) = rd ++ concat records ++ more) ->
  handshakes cx dbg c1 ch1 rs2 c2 ch2 -> receives ch2 c rd (concat records ++ later) -> (length rs2 <= 3)%nat /\ (length rs2 = 3%nat -> tc_state c2 = TConnected).
Proof. exact TlsArriveP.arrived_all. Qed.
Print Assumptions C109_all.
(** From the ClientHello to the data: the server sends the three records and then records of application data, and all
    arrive in any pieces.  The application gets the content of these records completely, once and in order. *)
Theorem C109_session : forall cx dbg c ch rd tx dhs t0 hello extensions share key rs1 c1 ch1 room datas rs2 got c2 ch2, crypto_ok cx -> greeted cx c dhs t0 ->
  server_hello hello share -> cx_sec1 cx share = Some key -> bytes_ok hello -> zlen (hs_message 2 hello) <= buffer_size c - 22 ->
  encrypted_extensions extensions -> bytes_ok extensions -> zlen (hs_message 8 extensions) <= buffer_size c - 39 -> 58 <= tx_room ch c ->
  tcp_view (c_sock ch (sn_raw (tc_sn c))) rd tx -> tx_bytes (c_sock ch (sn_raw (tc_sn c))) ->
  Forall bytes_ok datas -> Forall (fun d => zlen d <= room) datas -> 0 <= room <= buffer_size c - 39 -> zlen datas < 2 ^ 64 - 1 ->
  let dhe := cx_dh cx dhs key in let records := flight cx (tc_psk c) dhe t0 hello extensions in
  let traffic := derive cx (master_secret cx (tc_psk c) dhe) "s ap traffic" (upto_finished cx (tc_psk c) dhe t0 hello extensions) in
  handshakes cx dbg c ch rs1 c1 ch1 -> tc_state c1 = TConnected -> uses cx dbg room c1 ch1 rs2 got c2 ch2 -> receives ch2 c rd (concat records ++ record_stream cx traffic 0 datas) ->
  Forall (fun r => r = Ok TNone \/ r = Ok TApplicationData) rs2 /\ (deliveries rs2 <= length datas)%nat /\ got ++ readable c2 = concat (firstn (deliveries rs2) datas) /\
  tcp_view (c_sock ch2 (sn_raw (tc_sn c))) (rd ++ concat records ++ record_stream cx traffic 0 (firstn (deliveries rs2) datas)) (tx ++ reply cx (tc_psk c) dhe t0 hello extensions).
Proof. exact TlsArriveP.whole_session. Qed.
Print Assumptions C109_session.

(** The whole connection.  The connected interrupt is raised, and while [process] sends the ClientHello nothing else happens on
    the socket, as in C108.  Then the server's three records and its records of application data arrive in any pieces; the
    application gets the content of these records completely, once and in order, and the client has sent its ClientHello, its
    Finished and nothing else. *)
Theorem C109_connection : forall cx dbg fuel c rng now, crypto_ok cx -> connecting cx c -> rng_ok rng -> zlen (tc_hostname c) < 256 -> bytes_ok (tc_hostname c) -> bytes_ok (tc_identity c) ->
  let h := greeting c rng in zlen (hello_record h (zeros 32)) <= buffer_size c ->
  forall ch sch rd tx, let s := c_sock ch (sn_raw (tc_sn c)) in tcp_view s rd tx -> tx_bytes s -> zlen (unread s) < 5 ->
  ir_bit 0 (s_ir s) -> ~ ir_bit 1 (s_ir s) -> ~ ir_bit 3 (s_ir s) -> zlen (hello_record h (zeros 32)) + 58 <= tx_room ch c -> silent sch (sn_raw (tc_sn c)) ->
  exists c0 sch' ch0 b, run (tls_process cx dbg fuel c rng now) sch ch = (Done (Ok (TCallAfter 10), c0), sch', ch0) /\ b = psk_binder cx (tc_psk c) (up_to_binders (hello_message h b)) /\
  forall hello extensions share key, server_hello hello share -> cx_sec1 cx share = Some key -> bytes_ok hello -> zlen (hs_message 2 hello) <= buffer_size c - 22 ->
  encrypted_extensions extensions -> bytes_ok extensions -> zlen (hs_message 8 extensions) <= buffer_size c - 39 ->
  let dhe := cx_dh cx (rg_secret rng) key in let t0 := hello_message h b in let records := flight cx (tc_psk c) dhe t0 hello extensions in
  let traffic := derive cx (master_secret cx (tc_psk c) dhe) "s ap traffic" (upto_finished cx (tc_psk c) dhe t0 hello extensions) in
  forall room datas, Forall bytes_ok datas -> Forall (fun d => zlen d <= room) datas -> 0 <= room <= buffer_size c - 39 -> zlen datas < 2 ^ 64 - 1 ->
  forall rs1 c1 ch1 rs2 got c2 ch2, handshakes cx dbg c0 ch0 rs1 c1 ch1 -> tc_state c1 = TConnected -> uses cx dbg room c1 ch1 rs2 got c2 ch2 -> receives ch2 c rd (concat records ++ record_stream cx traffic 0 datas) ->
  Forall (fun r => r = Ok TNone \/ r = Ok TApplicationData) rs2 /\ (deliveries rs2 <= length datas)%nat /\ got ++ readable c2 = concat (firstn (deliveries rs2) datas) /\
  tcp_view (c_sock ch2 (sn_raw (tc_sn c))) (rd ++ concat records ++ record_stream cx traffic 0 (firstn (deliveries rs2) datas)) (tx ++ hello_record h b ++ reply cx (tc_psk c) dhe t0 hello extensions).
Proof. exact TlsOpenP.whole_connection. Qed.
Print Assumptions C109_connection.

(** The client of C60 after its ClientHello; the server sends the three records and one with two bytes of data, of which a
    hundred bytes are there at first and all others arrive during the second call.  [arrive_records] and [arrive_stream] have the
    code's AES, which is that of the standard by [C50_aes]. *)
Definition case_start : TlsClient := TlsArriveCaseP.arrive_client.
Definition case_arriving : chip := TlsArriveCaseP.arrive_chip.
Example C109_case :
  (exists c2 ch2 c4 ch4 c5 ch5,
    handshakes case_cx true case_start case_arriving [Ok (TCallAfter 7); Ok (TCallAfter 10)] c2 ch2 /\ s_rxlog (c_sock ch2 3) = TlsArriveCaseP.arrive_stream /\
    handshakes case_cx true c2 ch2 [Ok (TCallAfter 10); Ok THandshakeFinished] c4 ch4 /\
    handshakes case_cx true case_start case_arriving [Ok (TCallAfter 7); Ok (TCallAfter 10); Ok (TCallAfter 10); Ok THandshakeFinished] c4 ch4 /\ tc_state c4 = TConnected /\
    uses case_cx true 2 c4 ch4 [Ok TApplicationData] [] c5 ch5 /\ readable c5 = [104; 105] /\ s_rxlog (c_sock ch5 3) = TlsArriveCaseP.arrive_stream) /\
  (let dhe := cx_dh case_cx [8; 8] (List.repeat 19 64) in let t0 := transcript case_start in let sh := server_key case_cx (tc_psk case_start) dhe t0 TlsArriveCaseP.arrive_hello in
   TlsArriveCaseP.arrive_records = [plaintext_record 22 (hs_message 2 TlsArriveCaseP.arrive_hello); case_record sh 0 22 (hs_message 8 (be16 0));
     case_record sh 1 22 (finished case_cx sh (upto_extensions t0 TlsArriveCaseP.arrive_hello (be16 0)))] /\
   TlsArriveCaseP.arrive_stream = concat TlsArriveCaseP.arrive_records ++
     case_record (derive case_cx (master_secret case_cx (tc_psk case_start) dhe) "s ap traffic" (upto_finished case_cx (tc_psk case_start) dhe t0 TlsArriveCaseP.arrive_hello (be16 0))) 0 23 [104; 105]) /\
  crypto_ok case_cx /\ greeted case_cx case_start [8; 8] (transcript case_start) /\ server_hello TlsArriveCaseP.arrive_hello server_share /\ cx_sec1 case_cx server_share = Some (List.repeat 19 64) /\
  zlen (hs_message 2 TlsArriveCaseP.arrive_hello) = 129 /\ buffer_size case_start = 1024 /\ encrypted_extensions (be16 0) /\ tx_room case_arriving case_start = 2040 /\
  tcp_view (c_sock case_arriving 3) [] case_tcp_unsent /\ tx_bytes (c_sock case_arriving 3).
Proof.
  split; [exact TlsArriveCaseP.arrive_case|]. split; [vm_compute; split; reflexivity|]. split; [exact TlsCaseP.case_cx_ok|]. split; [vm_compute; repeat split; discriminate|].
  split; [exists (List.repeat 7 32), [ShVersion; ShKeyShare server_share; ShPsk], 85, []; vm_compute; repeat split; try discriminate; auto|]. split; [reflexivity|]. split; [reflexivity|]. split; [reflexivity|].
  split; [exists [], 0, []; vm_compute; repeat split; try discriminate; auto|]. split; [vm_compute; reflexivity|]. split; [MqttMainP.case_tcp_view|]. apply TlsRx5P.case_bytes.
Qed.
(** The same client when the connection is made; all bytes of the server arrive later. *)
Definition case_connecting : TlsClient := TlsArriveCaseP.open_client.
Definition case_made : chip := TlsArriveCaseP.open_chip.
Example C109_connection_case :
  (exists c0 ch0 c4 ch4 c5 ch5, run (tls_process case_cx true 1 case_connecting talk_rng 102) [] case_made = (Done (Ok (TCallAfter 10), c0), [], ch0) /\ transcript c0 = transcript case_start /\
    handshakes case_cx true c0 ch0 [Ok (TCallAfter 8); Ok (TCallAfter 10); Ok (TCallAfter 10); Ok THandshakeFinished] c4 ch4 /\ tc_state c4 = TConnected /\
    uses case_cx true 2 c4 ch4 [Ok TApplicationData] [] c5 ch5 /\ readable c5 = [104; 105] /\ s_rxlog (c_sock ch5 3) = TlsArriveCaseP.arrive_stream) /\
  crypto_ok case_cx /\ connecting case_cx case_connecting /\ rng_ok talk_rng /\ zlen (tc_hostname case_connecting) = 2 /\
  zlen (hello_record (greeting case_connecting talk_rng) (zeros 32)) = 239 /\ buffer_size case_connecting = 1024 /\ tx_room case_made case_connecting = 2040 /\
  tcp_view (c_sock case_made 3) [] case_tcp_unsent /\ tx_bytes (c_sock case_made 3) /\ unread (c_sock case_made 3) = [] /\ s_ir (c_sock case_made 3) = 1.
Proof.
  split; [exact TlsArriveCaseP.open_case|]. split; [exact TlsCaseP.case_cx_ok|]. split; [split; [reflexivity|split; [vm_compute; reflexivity|vm_compute; split; discriminate]]|]. split; [exact TlsTalkP.talk_rng_ok|]. split; [reflexivity|].
  split; [vm_compute; reflexivity|]. split; [reflexivity|]. split; [vm_compute; reflexivity|]. split; [MqttMainP.case_tcp_view|]. split; [apply TlsRx5P.case_bytes|]. split; reflexivity.
Qed.
