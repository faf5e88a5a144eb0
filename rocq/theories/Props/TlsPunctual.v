(** C111: an application that calls [process] no later than it is asked to is never told of a timeout while the server answers. *)
From Coq Require Import Lia String.
From Verif Require Import Model.Prelude Model.Bus Model.Chip Model.Specifiers Model.Mqtt Model.TlsTypes Model.TlsBuf Model.TlsKeys Model.TlsClient Model.MqttTls
  Spec.Hoare Spec.Sock Spec.Cases Spec.TcpClient Spec.TlsSecrets Spec.TlsMessages Spec.MqttMsg Spec.MqttStream Spec.TlsCases Spec.TlsProtect Spec.TlsTalk Spec.TlsQueue Spec.TlsSession Spec.TlsWire Spec.TlsAuth Spec.TlsRx Spec.TlsStream Spec.TlsComplete Spec.TlsArrive
  Spec.MqttTlsMsg Spec.MqttTlsTalk Spec.MqttTlsStream Spec.MqttTlsConnect Spec.TlsPunctual Spec.MqttTlsPunctual.
From Verif Require Proof.TlsPunctualP Proof.TlsPunctualCaseP Proof.MqttTlsPunctualP Proof.MqttTlsConnectCaseP Proof.TlsArriveCaseP.
Local Open Scope list_scope.

(** The delay that [process] asks for, in whatever state, ends ten seconds after the wait began. *)
Theorem C111_delay : forall cx dbg fuel c rng now sch ch secs c' sch' ch', run (tls_process cx dbg fuel c rng now) sch ch = (Done (Ok (TCallAfter secs), c'), sch', ch') -> secs <= 10 /\ tc_timeout c' = Some (now + secs - 10).
Proof. exact TlsPunctualP.asked. Qed.
Print Assumptions C111_delay.
(** The client sent its ClientHello at [since]; the server sends the three records of C109 and then anything, in any pieces.  Each call is
    made no later than the one before it asked for.  Then all calls are made in time in the sense of C109, which gives what they
    did; and none has answered with an error. *)
Theorem C111_tls : forall cx dbg c ch rd tx later dhs t0 hello extensions share key since l c' ch', crypto_ok cx -> greeted cx c dhs t0 -> tc_timeout c = Some since ->
  server_hello hello share -> cx_sec1 cx share = Some key -> bytes_ok hello -> zlen (hs_message 2 hello) <= buffer_size c - 22 ->
  encrypted_extensions extensions -> bytes_ok extensions -> zlen (hs_message 8 extensions) <= buffer_size c - 39 -> 58 <= tx_room ch c ->
  tcp_view (c_sock ch (sn_raw (tc_sn c))) rd tx -> tx_bytes (c_sock ch (sn_raw (tc_sn c))) ->
  punctual cx dbg since c ch l c' ch' -> receives ch' c rd (concat (flight cx (tc_psk c) (cx_dh cx dhs key) t0 hello extensions) ++ later) -> 
  handshakes cx dbg c ch (map snd l) c' ch' /\ (Forall goes_on (map snd l) \/ exists rs, map snd l = rs ++ [Ok THandshakeFinished] /\ Forall goes_on rs).
Proof. exact TlsPunctualP.punctual_answers. Qed.
Print Assumptions C111_tls.
(** The same for the MQTT client over TLS until CONNACK: the calls are those of C110, first those of [C110_connect] and then those of
    [C110_connack], and none has answered with an error. *)
Theorem C111_mqtt : forall cx dbg c ch rd tx dhs t0 hello extensions share key room flags props datas more since l c' ch', crypto_ok cx -> greeted cx (mt_tls c) dhs t0 -> tc_timeout (mt_tls c) = Some since -> mt_st c = mkST MInit None -> client_id_ok c ->
  server_hello hello share -> cx_sec1 cx share = Some key -> bytes_ok hello -> zlen (hs_message 2 hello) <= buffer_size (mt_tls c) - 22 ->
  encrypted_extensions extensions -> bytes_ok extensions -> zlen (hs_message 8 extensions) <= buffer_size (mt_tls c) - 39 -> 80 + zlen (mt_connect_of c) <= tx_room ch (mt_tls c) ->
  tcp_view (c_sock ch (sn_raw (tc_sn (mt_tls c)))) rd tx -> tx_bytes (c_sock ch (sn_raw (tc_sn (mt_tls c)))) ->
  zlen datas < 2 ^ 64 - 1 -> Forall bytes_ok datas -> Forall (fun d => zlen d <= room) datas -> 0 <= room <= buffer_size (mt_tls c) - 39 ->
  zlen props < 125 -> concat datas = connack_packet flags 0 props ++ more ->
  let psk := tc_psk (mt_tls c) in let dhe := cx_dh cx dhs key in
  let server := derive cx (master_secret cx psk dhe) "s ap traffic" (upto_finished cx psk dhe t0 hello extensions) in
  mt_punctual cx dbg room since c ch l c' ch' -> receives ch' (mt_tls c) rd (concat (flight cx psk dhe t0 hello extensions) ++ record_stream cx server 0 datas) ->
  exists l1 l2 c1 ch1, map snd l = l1 ++ l2 /\ mt_asks cx dbg mt_handshaking c ch l1 c1 ch1 /\ mt_asks cx dbg (mt_awaiting room) c1 ch1 l2 c' ch' /\ (l2 = [] \/ tc_state (mt_tls c1) = TConnected) /\
    (Forall mt_goes_on (map snd l) \/ exists l0, map snd l = l0 ++ [WProcess (Ok (SeenAck AConnAck)) [] (Ok tt)] /\ Forall mt_goes_on l0).
Proof. exact MqttTlsPunctualP.mt_punctual_answers. Qed.
Print Assumptions C111_mqtt.

(** The calls of the examples of C109 and C110, where the other hypotheses are shown; the ClientHello was sent at 101. *)
Example C111_case :
  (exists c4 ch4, punctual case_cx true 101 TlsArriveCaseP.arrive_client TlsArriveCaseP.arrive_chip
     [(104, Ok (TCallAfter 7)); (105, Ok (TCallAfter 10)); (106, Ok (TCallAfter 10)); (107, Ok THandshakeFinished)] c4 ch4 /\ tc_state c4 = TConnected) /\
  tc_timeout TlsArriveCaseP.arrive_client = Some 101 /\
  (let after secs := WProcess (Ok (SeenCallAfter secs)) [] (Ok tt) in
   exists c6 ch6, mt_punctual case_cx true 20 101 MqttTlsConnectCaseP.mt_client MqttTlsConnectCaseP.mt_chip
     [(104, after 7); (105, after 10); (106, after 10); (107, after 10); (108, after 9); (109, WProcess (Ok (SeenAck AConnAck)) [] (Ok tt))] c6 ch6 /\ mt_is_connected c6 = true) /\
  tc_timeout (mt_tls MqttTlsConnectCaseP.mt_client) = Some 101.
Proof. split; [exact TlsPunctualCaseP.in_time_case|]. split; [reflexivity|]. split; [exact MqttTlsConnectCaseP.mt_in_time|reflexivity]. Qed.
