(** The MQTT 5 client: C41 - C48, C67. *)
From Verif Require Import Model.Prelude Model.Bus Model.Chip Model.Specifiers Model.HlIo Model.HlTcp Model.Stream Model.Mqtt
  Spec.Sock Spec.Hoare Spec.TcpClient Spec.Cursor Spec.Cases Spec.Silent Spec.MqttMsg.
From Verif Require Proof.MqttVbiP Proof.MqttHistP Proof.MqttMainP.

(** A client on socket 3 in a state, waiting since a time; its next packet identifier is 65535. *)
Definition case_mqtt (st : MState) (since : option Z) : MqttClient := mkMqtt Sn3 50000 ([10; 0; 0; 9], 1883) (Some [99]) (mkST st since) 65534.
(** What a run answers, and the bytes then unread. *)
Definition case_run {A} (p : prog A) (received : list Z) : outcome A * list Z :=
  let x := run p [] (case_conn received) in (fst (fst x), unread (c_sock (snd x) 3)).

(** C41: every integer below 2^28 is encoded in at most four bytes, no encoding is shorter, and the decoder
    returns the integer and the length of the encoding whatever follows. *)
Theorem C41_round_trip : forall n rest, 0 <= n < 268435456 -> exists buf k, encode_variable_byte_integer n = Some (buf, k) /\ 1 <= k <= 4 /\
  vbi n (ztake k buf) /\ (forall l, vbi n l -> k <= zlen l) /\
  decode_variable_byte_integer (ztake k buf ++ rest) = Some (Ok (n, k)).
Proof. exact MqttMainP.round_trip. Qed.
Print Assumptions C41_round_trip.
(** Any other encoding of up to four bytes is understood too. *)
Theorem C41_decode : forall n l rest, vbi n l -> zlen l <= 4 -> decode_variable_byte_integer (l ++ rest) = Some (Ok (n, zlen l)).
Proof. exact MqttVbiP.decode_exact. Qed.
Print Assumptions C41_decode.
Theorem C41_truncated : forall n l k, vbi n l -> zlen l <= 4 -> 0 <= k < zlen l ->
  decode_variable_byte_integer (ztake k l) = Some (Err Fragment).
Proof. exact MqttMainP.truncated. Qed.
Print Assumptions C41_truncated.
Example C41_case : vbi 321 [193; 2] /\ decode_variable_byte_integer [193; 2; 9; 9] = Some (Ok (321, 2)) /\
  decode_variable_byte_integer [193] = Some (Err Fragment) /\ encode_variable_byte_integer 268435455 = Some ([255; 255; 255; 127], 4) /\
  vbi 5 [133; 128; 0].
Proof.
  repeat split; try (vm_compute; reflexivity).
  - apply (VMore 193 2); [lia|]. apply VLast. lia.
  - apply (VMore 133 0); [lia|]. apply (VMore 128 0); [lia|]. apply VLast. lia.
Qed.
(** Not so for over-long integers: a fifth byte overflows the decoder's arithmetic, and [process], which looks at
    four bytes, waits for ever instead of reporting a malformed packet. *)
Theorem C41_overlong_refuted : (exists l, zlen l = 5 /\ bytes_ok l /\ decode_variable_byte_integer l = None) /\
  exists received, serving (case_mqtt Ready None) 100 (case_conn received) [] case_tcp_unsent /\
    received = [0x30; 128; 128; 128; 128; 1] ++ zeros 100 /\
    case_run (mqtt_process false 5 (case_mqtt Ready None) 100) received = (Done (Ok MENone, case_mqtt Ready None), received).
Proof.
  split; [exists [128; 128; 128; 128; 16]; split; [reflexivity|]; split; [repeat constructor; discriminate|reflexivity]|].
  exists ([0x30; 128; 128; 128; 128; 1] ++ zeros 100). split; [|split; [reflexivity|vm_compute; reflexivity]].
  split; [discriminate|]. split; [exact I|]. split; MqttMainP.case_tcp_view.
Qed.
Print Assumptions C41_overlong_refuted.

(** C42: what the calls put on the stream; [sends] says that it is the whole packet, or nothing when the packet
    does not fit in the free space of the transmit buffer. *)
Theorem C42_publish : forall c topic payload ch rd tx, let n := sn_raw (mq_sn c) in
  mqtt_is_connected c = true -> tcp_view (c_sock ch n) rd tx ->
  ensures (mqtt_publish c topic payload) n ch
    (sends (room (c_sock ch n)) rd tx (publish_packet false topic [] payload) (Ok tt, c) (Err MOutOfMemory, c)).
Proof. exact MqttMainP.publish_run. Qed.
Print Assumptions C42_publish.
Theorem C42_subscribe : forall c filter ch rd tx, let n := sn_raw (mq_sn c) in
  mqtt_is_connected c = true -> is_u16 (mq_pkt_id c) -> tcp_view (c_sock ch n) rd tx ->
  filter <> [] -> zlen filter <= 65532 -> let c' := next_pkt_id c in
  ensures (mqtt_subscribe c filter) n ch
    (sends (room (c_sock ch n)) rd tx (subscribe_packet (mq_pkt_id c') filter) (Ok (mq_pkt_id c'), c') (Err MOutOfMemory, c')).
Proof. exact MqttMainP.subscribe_run. Qed.
Print Assumptions C42_subscribe.
Theorem C42_unsubscribe : forall c filter ch rd tx, let n := sn_raw (mq_sn c) in
  mqtt_is_connected c = true -> is_u16 (mq_pkt_id c) -> tcp_view (c_sock ch n) rd tx ->
  filter <> [] -> zlen filter <= 65533 -> let c' := next_pkt_id c in
  ensures (mqtt_unsubscribe c filter) n ch
    (sends (room (c_sock ch n)) rd tx (unsubscribe_packet (mq_pkt_id c') filter) (Ok (mq_pkt_id c'), c') (Err MOutOfMemory, c')).
Proof. exact MqttMainP.unsubscribe_run. Qed.
Print Assumptions C42_unsubscribe.
(** CONNECT is sent when the connected interrupt is seen. *)
Theorem C42_connect : forall dbg fuel c now ch rd tx, let s := c_sock ch (sn_raw (mq_sn c)) in serving c now ch rd tx ->
  (forall i, mq_client_id c = Some i -> zlen i <= 23) ->
  ensures_ir (fun v => ir_bit 0 v /\ ~ ir_bit 1 v) (mqtt_process dbg fuel c now) (sn_raw (mq_sn c)) ch
    (sends (room s) rd tx (connect_of c s) (Ok (MECallAfter 10), mq_set_timeout c WaitConAck now) (Err MOutOfMemory, c)).
Proof. exact MqttMainP.s_con. Qed.
Print Assumptions C42_connect.
(** The packets say what was asked: a receiver can cut the stream into packets and fields in one way only. *)
Theorem C42_packet : forall t f b t' f' b' r r', 0 <= f < 16 -> 0 <= f' < 16 -> zlen b < 268435456 -> zlen b' < 268435456 ->
  mpacket t f b ++ r = mpacket t' f' b' ++ r' -> t = t' /\ f = f' /\ b = b' /\ r = r'.
Proof. exact MqttMainP.packet_inj. Qed.
Print Assumptions C42_packet.
Theorem C42_string : forall a b r r', zlen a < 65536 -> zlen b < 65536 -> mstr a ++ r = mstr b ++ r' -> a = b /\ r = r'.
Proof. exact MqttMainP.mstr_inj. Qed.
Print Assumptions C42_string.
Theorem C42_message : forall t p t' p' r r', zlen t < 65536 -> zlen t' < 65536 -> zlen p < 65536 -> zlen p' < 65536 ->
  publish_packet false t [] p ++ r = publish_packet false t' [] p' ++ r' -> t = t' /\ p = p' /\ r = r'.
Proof. exact MqttMainP.publish_inj. Qed.
Print Assumptions C42_message.
(** The longest filters that a packet can carry make the calls panic, after which still nothing is sent. *)
Theorem C42_long_filter : forall c filter ch rd tx sch, let n := sn_raw (mq_sn c) in
  mqtt_is_connected c = true -> tcp_view (c_sock ch n) rd tx -> no_faults sch -> 65533 <= zlen filter <= 65535 ->
  exists sch' ch', run (mqtt_subscribe c filter) sch ch = (Panicked, sch', ch') /\ tcp_view (c_sock ch' n) rd tx.
Proof. exact MqttMainP.subscribe_panics. Qed.
Print Assumptions C42_long_filter.
Theorem C42_long_unsubscribe : forall c filter ch rd tx sch, let n := sn_raw (mq_sn c) in
  mqtt_is_connected c = true -> tcp_view (c_sock ch n) rd tx -> no_faults sch -> 65534 <= zlen filter <= 65535 ->
  exists sch' ch', run (mqtt_unsubscribe c filter) sch ch = (Panicked, sch', ch') /\ tcp_view (c_sock ch' n) rd tx.
Proof. exact MqttMainP.unsubscribe_panics. Qed.
Print Assumptions C42_long_unsubscribe.
Example C42_case : mqtt_is_connected (case_mqtt Ready None) = true /\ tcp_view (c_sock (case_conn []) 3) [] case_tcp_unsent /\
  room (c_sock (case_conn []) 3) = 2040 /\
  fst (fst (run (mqtt_subscribe (case_mqtt Ready None) [97; 47; 35]) [] (case_conn []))) = Done (Ok 65535, mkMqtt Sn3 50000 ([10; 0; 0; 9], 1883) (Some [99]) (mkST Ready None) 65535) /\
  subscribe_packet 65535 [97; 47; 35] = [0x82; 9; 255; 255; 0; 0; 3; 97; 47; 35; 0x24] /\
  fst (fst (run (mqtt_publish (case_mqtt Ready None) [116] (zeros 2036)) [] (case_conn []))) = Done (Err MOutOfMemory, case_mqtt Ready None) /\
  serving (case_mqtt WaitConInt (Some 95)) 100 (case_conn []) [] case_tcp_unsent /\
  fst (fst (run (mqtt_process true 5 (case_mqtt WaitConInt (Some 95)) 100) [tick_of [EvIr 1]] (case_conn []))) =
    Done (Ok (MECallAfter 10), case_mqtt WaitConAck (Some 100)) /\
  connect_of (case_mqtt WaitConInt (Some 95)) (c_sock (case_conn []) 3) =
    [0x10; 19; 0; 4; 77; 81; 84; 84; 5; 2; 3; 132; 5; 0x27; 0; 0; 8; 0; 0; 1; 99].
Proof.
  split; [reflexivity|]. split; [MqttMainP.case_tcp_view|]. split; [vm_compute; reflexivity|]. split; [vm_compute; reflexivity|]. split; [vm_compute; reflexivity|].
  split; [vm_compute; reflexivity|]. split; [|split; vm_compute; reflexivity].
  split; [discriminate|]. split; [cbn; lia|]. split; [MqttMainP.case_tcp_view|constructor].
Qed.

(** C43: a PUBLISH packet in the receive buffer is reported; every read of the topic or payload gives as much of
    it as the buffer of the read holds, in any order and number, [done] removes exactly the packet, and without
    [done] it stays.  Missing: properties of 128 bytes or more. *)
Theorem C43_publish_partial : forall dbg fuel c now ch rd tx retain topic props payload ops fin, let pkt := publish_packet retain topic props payload in
  serving c now ch rd tx -> next_is c ch pkt -> zlen props < 128 -> Forall pub_op_ok ops ->
  ensures_ir no_link_change (pub_session dbg fuel c now ops fin) (sn_raw (mq_sn c)) ch (fun x s' =>
    x = (Some (map (pub_answer topic payload) ops, Ok tt), c) /\ tcp_view s' (rd ++ (if fin then pkt else [])) tx).
Proof. exact MqttMainP.s_publish. Qed.
Print Assumptions C43_publish_partial.
Definition case_pub : list Z := publish_packet false [116; 47] [1; 1] [7; 8; 9].
Example C43_case : serving (case_mqtt Ready None) 100 (case_conn (case_pub ++ case_pub)) [] case_tcp_unsent /\
  next_is (case_mqtt Ready None) (case_conn (case_pub ++ case_pub)) case_pub /\
  case_run (pub_session true 5 (case_mqtt Ready None) 100 [PPayload 2; PTopic 9; PPayload 9] true) (case_pub ++ case_pub) =
    (Done (Some ([Ok [7; 8]; Ok [116; 47]; Ok [7; 8; 9]], Ok tt), case_mqtt Ready None), case_pub).
Proof.
  split; [split; [discriminate|]; split; [exact I|]; split; MqttMainP.case_tcp_view|]. split; [exists case_pub; vm_compute; reflexivity|vm_compute; reflexivity].
Qed.
(** The length of the properties is read as one byte, so with 130 bytes of them the payload starts with the last. *)
Theorem C43_properties_refuted : exists topic props payload, let pkt := publish_packet false topic props payload in
  serving (case_mqtt Ready None) 100 (case_conn pkt) [] case_tcp_unsent /\
  fst (case_run (pub_session false 5 (case_mqtt Ready None) 100 [PTopic 9; PPayload 9] true) pkt) =
    Done (Some ([Ok topic; Ok (5 :: payload)], Ok tt), case_mqtt Ready None).
Proof.
  exists [116; 47], (repeat 5 130), [7; 8; 9]. split; [|vm_compute; reflexivity].
  split; [discriminate|]. split; [exact I|]. split; MqttMainP.case_tcp_view.
Qed.
Print Assumptions C43_properties_refuted.

(** C44: the packet begun by the bytes [got] that have arrived when the call ends is not complete: nothing is
    reported and nothing is consumed. *)
Theorem C44_incomplete : forall dbg fuel c now ch rd tx t f body, serving c now ch rd tx -> 0 <= t < 16 -> 0 <= f < 16 -> zlen body <= 65535 ->
  ensures_ir no_link_change (mqtt_process dbg fuel c now) (sn_raw (mq_sn c)) ch (fun x s' =>
    forall got missing, s_rxlog s' = rd ++ got -> got ++ missing = mpacket t f body -> missing <> [] ->
    waits c now x /\ tcp_view s' rd tx).
Proof. exact MqttMainP.s_incomplete. Qed.
Print Assumptions C44_incomplete.
Example C44_case : serving (case_mqtt WaitConAck (Some 94)) 100 (case_conn (removelast case_pub)) [] case_tcp_unsent /\
  s_rxlog (c_sock (case_conn (removelast case_pub)) 3) ++ [9] = case_pub /\ case_pub = mpacket 3 0 [0; 2; 116; 47; 2; 1; 1; 7; 8; 9] /\
  case_run (mqtt_process true 5 (case_mqtt WaitConAck (Some 94)) 100) (removelast case_pub) =
    (Done (Ok (MECallAfter 4), case_mqtt WaitConAck (Some 94)), removelast case_pub) /\
  case_run (mqtt_process true 5 (case_mqtt WaitConAck (Some 94)) 105) (removelast case_pub) =
    (Done (Err (MStateTimeout WaitConAck), case_mqtt MInit None), removelast case_pub).
Proof.
  split; [split; [discriminate|]; split; [cbn; lia|]; split; MqttMainP.case_tcp_view|]. repeat split; vm_compute; reflexivity.
Qed.

(** C45: acknowledgements are reported with their contents and exactly removed.  Missing: CONNACK packets whose
    rest is 128 bytes or longer, property lengths above 127, more than one reason code. *)
Theorem C45_connack_partial : forall dbg fuel c now ch rd tx flags code props, st_state (mq_st c) = WaitConAck -> serving c now ch rd tx -> zlen props < 125 ->
  next_is c ch (connack_packet flags code props) ->
  ensures_ir no_link_change (mqtt_process dbg fuel c now) (sn_raw (mq_sn c)) ch (fun x s' =>
    tcp_view s' (rd ++ connack_packet flags code props) tx /\
    x = match meaning connack_codes code with
        | Some r => (Err (MConnAck r), mq_set_state c MInit)
        | None => if code =? 0 then (Ok MEConnAck, mq_set_state c Ready) else (Err MProtocol, mq_set_state c MInit)
        end).
Proof. exact MqttMainP.s_connack. Qed.
Print Assumptions C45_connack_partial.
Theorem C45_suback_partial : forall dbg fuel c now ch rd tx id code props r, serving c now ch rd tx -> is_u16 id -> zlen props < 128 ->
  next_is c ch (suback_packet id props [code]) -> meaning suback_codes code = Some r ->
  ensures_ir no_link_change (mqtt_process dbg fuel c now) (sn_raw (mq_sn c)) ch (fun x s' =>
    tcp_view s' (rd ++ suback_packet id props [code]) tx /\ x = (Ok (MESubAck id r), c)).
Proof. exact MqttMainP.s_suback. Qed.
Print Assumptions C45_suback_partial.
Theorem C45_unsuback_partial : forall dbg fuel c now ch rd tx id code props r, serving c now ch rd tx -> is_u16 id -> zlen props < 128 ->
  next_is c ch (unsuback_packet id props [code]) -> meaning unsuback_codes code = Some r ->
  ensures_ir no_link_change (mqtt_process dbg fuel c now) (sn_raw (mq_sn c)) ch (fun x s' =>
    tcp_view s' (rd ++ unsuback_packet id props [code]) tx /\ x = (Ok (MEUnSubAck id r), c)).
Proof. exact MqttMainP.s_unsuback. Qed.
Print Assumptions C45_unsuback_partial.
(** Packets of the other types are removed without an event. *)
Theorem C45_other : forall dbg fuel c now ch rd tx t f body, serving c now ch rd tx -> 0 <= t < 16 -> 0 <= f < 16 ->
  ~ In t [0; 2; 3; 9; 11] -> next_is c ch (mpacket t f body) ->
  ensures_ir no_link_change (mqtt_process dbg fuel c now) (sn_raw (mq_sn c)) ch (fun x s' => tcp_view s' (rd ++ mpacket t f body) tx /\ waits c now x).
Proof. exact MqttMainP.s_other. Qed.
Print Assumptions C45_other.
Example C45_case : let pkt := suback_packet 258 [31; 0; 1; 65] [0x87] in let ack := connack_packet 0 0x85 [18; 0; 1; 65] in
  serving (case_mqtt Ready None) 100 (case_conn (pkt ++ [0xD0; 0])) [] case_tcp_unsent /\ meaning suback_codes 0x87 = Some SA_NotAuthorized /\
  case_run (mqtt_process true 5 (case_mqtt Ready None) 100) (pkt ++ [0xD0; 0]) = (Done (Ok (MESubAck 258 SA_NotAuthorized), case_mqtt Ready None), [0xD0; 0]) /\
  serving (case_mqtt WaitConAck (Some 94)) 100 (case_conn (ack ++ [0xD0; 0])) [] case_tcp_unsent /\
  case_run (mqtt_process true 5 (case_mqtt WaitConAck (Some 94)) 100) (ack ++ [0xD0; 0]) =
    (Done (Err (MConnAck CR_ClientIdentifierNotValid), case_mqtt MInit None), [0xD0; 0]) /\
  mpacket 13 0 [] = [0xD0; 0] /\
  case_run (mqtt_process true 5 (case_mqtt Ready None) 100) ([0xD0; 0] ++ pkt) = (Done (Ok MENone, case_mqtt Ready None), pkt).
Proof.
  split; [split; [discriminate|]; split; [exact I|]; split; MqttMainP.case_tcp_view|]. split; [reflexivity|]. split; [vm_compute; reflexivity|].
  split; [split; [discriminate|]; split; [cbn; lia|]; split; MqttMainP.case_tcp_view|]. repeat split; vm_compute; reflexivity.
Qed.
(** A CONNACK with 125 bytes of properties leaves its last byte in the stream: the next packet is lost. *)
Theorem C45_connack_refuted : exists props next, let pkt := connack_packet 0 0 props in
  serving (case_mqtt WaitConAck (Some 94)) 100 (case_conn (pkt ++ next)) [] case_tcp_unsent /\
  case_run (mqtt_process false 5 (case_mqtt WaitConAck (Some 94)) 100) (pkt ++ next) = (Done (Ok MEConnAck, case_mqtt Ready None), 5 :: next).
Proof.
  exists (repeat 5 125), [0x90; 4; 0; 1; 0; 0]. split; [|vm_compute; reflexivity].
  split; [discriminate|]. split; [cbn; lia|]. split; MqttMainP.case_tcp_view.
Qed.
Print Assumptions C45_connack_refuted.
(** A SUBACK with two reason codes leaves the second in the stream, and with 130 bytes of properties reports
    one of those as the reason code. *)
Theorem C45_suback_refuted :
  (exists next, let pkt := suback_packet 258 [] [0x87; 1] in
    serving (case_mqtt Ready None) 100 (case_conn (pkt ++ next)) [] case_tcp_unsent /\
    case_run (mqtt_process false 5 (case_mqtt Ready None) 100) (pkt ++ next) = (Done (Ok (MESubAck 258 SA_NotAuthorized), case_mqtt Ready None), 1 :: next)) /\
  (exists props, let pkt := suback_packet 258 props [0x87] in
    serving (case_mqtt Ready None) 100 (case_conn pkt) [] case_tcp_unsent /\
    fst (case_run (mqtt_process false 5 (case_mqtt Ready None) 100) pkt) = Done (Ok (MESubAck 258 SA_QoS1), case_mqtt Ready None)).
Proof.
  split.
  - exists [0x90; 4; 0; 1; 0; 0]. split; [|vm_compute; reflexivity].
    split; [discriminate|]. split; [exact I|]. split; MqttMainP.case_tcp_view.
  - exists (repeat 1 130). split; [|vm_compute; reflexivity].
    split; [discriminate|]. split; [exact I|]. split; MqttMainP.case_tcp_view.
Qed.
Print Assumptions C45_suback_refuted.

(** C46: in every history of a client, the identifiers given out are not zero, and those of 65535 successive
    requests (failed ones included) are different. *)
Theorem C46_distinct : forall dbg fuel c0 h1 c1 h2 c, mq_pkt_id c0 = 1 -> mhistory dbg fuel c0 h1 c1 -> mhistory dbg fuel c1 h2 c ->
  Forall (fun id => 1 <= id <= 65535) (granted h2) /\ (zlen (requests h2) <= 65535 -> NoDup (granted h2)).
Proof. exact MqttMainP.ids_distinct. Qed.
Print Assumptions C46_distinct.
(** A history: the connection opens, CONNECT is sent, CONNACK arrives, requests, one with a failing bus, the
    connection is lost. *)
Example C46_case : exists h1 c1 h2 c, let c0 := mqtt_new Sn3 50000 ([10; 0; 0; 9], 1883) in
  mq_pkt_id c0 = 1 /\ st_state (mq_st c0) = MInit /\ mhistory false 5 c0 h1 c1 /\ mhistory false 5 c1 h2 c /\
  connected h1 = true /\ map snd h1 = [NProcess (Ok (MECallAfter 10)); NProcess (Ok (MECallAfter 10)); NProcess (Ok MEConnAck)] /\
  map snd h2 = [NSub (Ok 2); NSub (Err MOther); NSub (Ok 3); NProcess (Err MDisconnect)] /\ granted h2 = [2; 3] /\ zlen (requests h2) = 3.
Proof.
  eexists _, _, _, _. split; [reflexivity|]. split; [reflexivity|]. split; [|split].
  - eapply (MqttMainP.then_call (CProcess 102) [Some []; Some [0; 5]; Some [0]; Some [0x20; 3; 0; 0; 0]]).
    eapply (MqttMainP.then_call (CProcess 101) [Some [1]; Some [2]; Some [2]; Some [4; 0]]).
    eapply (MqttMainP.then_call (CProcess 100) [Some []; Some [0]; Some [0x13]]). apply HNil. all: [> vm_compute; reflexivity ..].
  - eapply (MqttMainP.then_call (CProcess 110) [Some [2]]). eapply (MqttMainP.then_call (CUnsubscribe [97]) [Some [8]; Some [8]]).
    eapply (MqttMainP.then_call (CSubscribe [97]) [@None (list Z)]). eapply (MqttMainP.then_call (CSubscribe [97]) [Some [8]; Some [8]]). apply HNil. all: [> vm_compute; reflexivity ..].
  - repeat split; reflexivity.
Qed.

(** C47: unless the handshake is complete, the calls return [NotConnected] without touching the bus, whatever
    happened before on whatever bus. *)
Theorem C47_not_connected : forall dbg fuel c0 h c, st_state (mq_st c0) = MInit -> mhistory dbg fuel c0 h c -> connected h = false ->
  (forall topic payload, mqtt_publish c topic payload = Ret (Err MNotConnected, c)) /\
  (forall filter, mqtt_subscribe c filter = Ret (Err MNotConnected, c)) /\
  (forall filter, mqtt_unsubscribe c filter = Ret (Err MNotConnected, c)).
Proof. exact MqttHistP.needs_handshake. Qed.
Print Assumptions C47_not_connected.
(** A lost connection ends it. *)
Theorem C47_disconnected : forall dbg fuel c now ch rd tx, serving c now ch rd tx ->
  ensures_ir (ir_bit 1) (mqtt_process dbg fuel c now) (sn_raw (mq_sn c)) ch (fun x s' => x = (Err MDisconnect, mq_set_state c MInit) /\ tcp_view s' rd tx).
Proof. exact MqttMainP.s_discon. Qed.
Print Assumptions C47_disconnected.
Theorem C47_timed_out : forall dbg fuel c now ch rd tx, serving c now ch rd tx ->
  ensures_ir (fun v => ir_bit 3 v /\ ~ ir_bit 0 v /\ ~ ir_bit 1 v) (mqtt_process dbg fuel c now) (sn_raw (mq_sn c)) ch
    (fun x s' => x = (Err MTcpTimeout, mq_set_state c MInit) /\ tcp_view s' rd tx).
Proof. exact MqttMainP.s_tcp_timeout. Qed.
Print Assumptions C47_timed_out.
Example C47_case : exists h c, mhistory false 5 (mqtt_new Sn3 50000 ([10; 0; 0; 9], 1883)) h c /\ connected h = false /\
  map snd h = [NProcess (Ok (MECallAfter 10)); NProcess (Ok (MECallAfter 10)); NProcess (Ok MEConnAck); NPublish (Ok tt);
    NProcess (Err MDisconnect); NPublish (Err MNotConnected)].
Proof.
  eexists _, _. split; [|split].
  - eapply (MqttMainP.then_call (CPublish [97] []) (@nil (option (list Z)))). eapply (MqttMainP.then_call (CProcess 110) [Some [2]]).
    eapply (MqttMainP.then_call (CPublish [97] []) [Some [8]; Some [8]]).
    eapply (MqttMainP.then_call (CProcess 102) [Some []; Some [0; 5]; Some [0]; Some [0x20; 3; 0; 0; 0]]).
    eapply (MqttMainP.then_call (CProcess 101) [Some [1]; Some [2]; Some [2]; Some [4; 0]]).
    eapply (MqttMainP.then_call (CProcess 100) [Some []; Some [0]; Some [0x13]]). apply HNil. all: [> vm_compute; reflexivity ..].
  - reflexivity.
  - reflexivity.
Qed.

(** C48: on whatever bus, a requested delay is at most 10 s and ends 10 s after the wait began, which is now for
    a new wait; no delay is requested only when nothing is waited for. *)
Theorem C48_bounded : forall dbg fuel c now r c', any_bus (mqtt_process dbg fuel c now) (Done (r, c')) ->
  match r with
  | Ok (MECallAfter k) => 0 <= k <= 10 /\ st_timeout (mq_st c') = Some (now + k - 10) /\
      (c' = c \/ (k = 10 /\ (st_state (mq_st c') = WaitConInt \/ st_state (mq_st c') = WaitConAck)))
  | Ok MENone => st_timeout (mq_st c) = None
  | _ => True
  end.
Proof. exact MqttMainP.process_deadline. Qed.
Print Assumptions C48_bounded.
(** With nothing on the line the wait ends: [waits] is [StateTimeout] once more than 10 s have passed. *)
Theorem C48_fires : forall dbg fuel c now ch sch, let s := c_sock ch (sn_raw (mq_sn c)) in st_state (mq_st c) <> MInit -> clock_ok c now ->
  no_link_change (s_ir s) -> rx_rsr s = 0 -> (dbg = true -> ~ In (s_sr s) [0x13; 0x22; 0x42]) -> silent sch (sn_raw (mq_sn c)) ->
  exists x sch' ch', run (mqtt_process dbg fuel c now) sch ch = (Done x, sch', ch') /\ waits c now x.
Proof. exact MqttMainP.s_silent. Qed.
Print Assumptions C48_fires.
Example C48_case : fst (case_run (mqtt_process true 5 (case_mqtt WaitConInt (Some 90)) 100) []) = Done (Ok (MECallAfter 0), case_mqtt WaitConInt (Some 90)) /\
  fst (case_run (mqtt_process true 5 (case_mqtt WaitConInt (Some 90)) 101) []) = Done (Err (MStateTimeout WaitConInt), case_mqtt MInit None) /\
  no_link_change (s_ir (c_sock (case_conn []) 3)) /\ rx_rsr (c_sock (case_conn []) 3) = 0 /\ silent [{| t_evs := [{| ev_sn := 2; ev_what := EvRx [1] |}]; t_fault := None |}] 3.
Proof.
  split; [vm_compute; reflexivity|]. split; [vm_compute; reflexivity|]. split; [repeat split; discriminate|]. split; [reflexivity|].
  repeat constructor; discriminate.
Qed.

(** C67: whatever the server sent, [process] and the reads of an event neither panic nor hang, and the stream
    stays intact: bytes are removed from its front, or the CONNECT packet is added to what is sent. *)
Theorem C67_any_bytes : forall dbg fuel c now ch rd tx ops fin, let s := c_sock ch (sn_raw (mq_sn c)) in serving c now ch rd tx ->
  (forall i, mq_client_id c = Some i -> zlen i <= 23) -> Forall pub_op_ok ops ->
  ensures (pub_session dbg fuel c now ops fin) (sn_raw (mq_sn c)) ch (fun _ s' => served rd tx (connect_of c s) s').
Proof. exact MqttMainP.s_any. Qed.
Print Assumptions C67_any_bytes.
Example C67_case : let junk := [0x30; 3; 255; 255; 1; 2; 3; 4] in serving (case_mqtt Ready None) 100 (case_conn junk) [] case_tcp_unsent /\
  case_run (pub_session true 5 (case_mqtt Ready None) 100 [PTopic 9] true) junk = (Done (None, case_mqtt Ready None), junk).
Proof. split; [split; [discriminate|]; split; [exact I|]; split; MqttMainP.case_tcp_view|vm_compute; reflexivity]. Qed.
