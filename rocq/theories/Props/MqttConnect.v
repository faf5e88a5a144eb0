(** C112: an MQTT client whose TCP connection is up sends CONNECT, is connected however CONNACK arrives, and then tells of the packets. *)
From Verif Require Import Model.Prelude Model.Bus Model.Chip Model.Specifiers Model.Mqtt Spec.Sock Spec.Hoare Spec.UdpClient Spec.TcpClient Spec.Calls Spec.Cases Spec.MqttMsg Spec.MqttStream Spec.MqttConnect.
From Verif Require Proof.MqttMainP Proof.MqttConnectP Spec.DhcpCases.

(** The broker answers CONNECT with success, [connack], and then sends [more]; what has arrived at the end is a part of that, in any pieces.
    The application polls no later than it was asked to.  Then every poll asks to be called again within the ten seconds, takes nothing
    from the stream and leaves the client as it was; except the last, if it connects the client: it tells so and takes CONNACK and nothing else. *)
Theorem C112_connack : forall dbg since c ch rd tx flags props more l c' ch' missing, let n := sn_raw (mq_sn c) in let connack := connack_packet flags 0 props in
  mq_punctual dbg since c ch l c' ch' -> mq_st c = mkST WaitConAck (Some since) -> tcp_view (c_sock ch n) rd tx -> zlen props < 125 -> bytes_ok (connack ++ more) ->
  s_rxlog (c_sock ch' n) ++ missing = rd ++ connack ++ more ->
  (Forall (asks_again since) l /\ c' = c /\ tcp_view (c_sock ch' n) rd tx) \/
  (exists l0 t, l = l0 ++ [(t, TldElse (Ok MEConnAck))] /\ Forall (asks_again since) l0 /\ since <= t <= since + 10 /\ c' = mq_set_state c Ready /\ tcp_view (c_sock ch' n) (rd ++ connack) tx).
Proof. exact MqttConnectP.connects. Qed.
Print Assumptions C112_connack.
(** Once CONNACK has arrived, one poll connects the client. *)
Theorem C112_arrived : forall dbg since c ch rd tx flags props more l c1 ch1 fuel now ops sch a sch' c2 ch2 missing,
  let n := sn_raw (mq_sn c) in let connack := connack_packet flags 0 props in
  mq_punctual dbg since c ch l c1 ch1 -> mq_st c = mkST WaitConAck (Some since) -> tcp_view (c_sock ch n) rd tx -> zlen props < 125 -> bytes_ok (connack ++ more) ->
  mqtt_is_connected c1 = false -> (exists got, s_rxlog (c_sock ch1 n) = rd ++ connack ++ got) -> s_rxlog (c_sock ch2 n) ++ missing = rd ++ connack ++ more ->
  mq_as_asked (last l (since, TldElse (Ok (MECallAfter 10)))) now -> no_faults sch -> no_link_change (seen_ir sch ch1 n) ->
  run (poll dbg fuel c1 now ops) sch ch1 = (Done (a, c2), sch', ch2) -> a = TldElse (Ok MEConnAck) /\ mqtt_is_connected c2 = true.
Proof. exact MqttConnectP.connects_now. Qed.
Print Assumptions C112_arrived.
(** And every call returns. *)
Theorem C112_returns : forall dbg since c ch rd tx flags props more l c1 ch1 fuel now sch missing,
  let n := sn_raw (mq_sn c) in let connack := connack_packet flags 0 props in
  mq_punctual dbg since c ch l c1 ch1 -> mq_st c = mkST WaitConAck (Some since) -> tcp_view (c_sock ch n) rd tx -> zlen props < 125 -> bytes_ok (connack ++ more) ->
  mqtt_is_connected c1 = false -> s_rxlog (c_sock ch1 n) ++ missing = rd ++ connack ++ more ->
  mq_as_asked (last l (since, TldElse (Ok (MECallAfter 10)))) now -> no_faults sch -> no_link_change (seen_ir sch ch1 n) ->
  exists x sch' ch2, run (mqtt_process dbg fuel c1 now) sch ch1 = (Done x, sch', ch2).
Proof. exact MqttConnectP.connect_returns. Qed.
Print Assumptions C112_returns.
(** The whole connection: the poll that finds the TCP connection up sends CONNECT and asks for the next within ten seconds; with
    polls that come no later than asked the client is connected by CONNACK; and the polls after that tell of the packets [ms], completely, once and in order. *)
Theorem C112_session : forall dbg fuel c now ops ch rd tx sch a sch' c0 ch0 flags props ms l1 c1 ch1 l2 c2 ch2 missing,
  let n := sn_raw (mq_sn c) in let connect := connect_of c (c_sock ch n) in let connack := connack_packet flags 0 props in
  serving c now ch rd tx -> (forall i, mq_client_id c = Some i -> zlen i <= 23) -> zlen connect <= room (c_sock ch n) -> is_u16 (mq_pkt_id c) ->
  zlen props < 125 -> bytes_ok connack -> Forall message_ok ms ->
  no_faults sch -> ir_bit 0 (seen_ir sch ch n) -> ~ ir_bit 1 (seen_ir sch ch n) -> run (poll dbg fuel c now ops) sch ch = (Done (a, c0), sch', ch0) ->
  mq_punctual dbg now c0 ch0 l1 c1 ch1 -> mqtt_is_connected c1 = true -> talks dbg c1 ch1 l2 c2 ch2 ->
  s_rxlog (c_sock ch2 n) ++ missing = rd ++ connack ++ message_stream ms ->
  a = TldElse (Ok (MECallAfter 10)) /\ tcp_view (c_sock ch0 n) rd (tx ++ connect) /\
  (exists l0 t, l1 = l0 ++ [(t, TldElse (Ok MEConnAck))] /\ Forall (asks_again now) l0 /\ now <= t <= now + 10 /\ tcp_view (c_sock ch1 n) (rd ++ connack) (tx ++ connect)) /\
  let k := length (news l2) in (k <= length ms)%nat /\ Forall2 (fun p m => snd p = tells m (fst p)) (news l2) (firstn k ms) /\
  (exists tx', tcp_view (c_sock ch2 n) (rd ++ connack ++ message_stream (firstn k ms)) tx') /\ mqtt_is_connected c2 = true.
Proof. exact MqttConnectP.session. Qed.
Print Assumptions C112_session.

(** And from the first call on: it opens the socket towards the server and asks for the next call within ten seconds; some time later the chip
    has established the connection.  [rd] and [tx] are what earlier connections of this socket had carried. *)
Theorem C112_from_start : forall dbg fuel0 c start ch sch0 a0 sch0' c0 ch0 ch1 fuel now ops sch a sch' c1 ch2 flags props ms l1 c2 ch3 l2 c3 ch4 missing,
  let n := sn_raw (mq_sn c) in let s := c_sock ch n in let rd := s_rxlog (c_sock ch0 n) in let tx := sent (c_sock ch0 n) in
  let connect := connect_of c (c_sock ch1 n) in let connack := connack_packet flags 0 props in
  st_state (mq_st c) = MInit -> is_u16 (mq_src_port c) -> addr_ok (mq_server c) -> sizes_ok s -> (forall i, mq_client_id c = Some i -> zlen i <= 23) -> is_u16 (mq_pkt_id c) ->
  no_faults sch0 -> run (mqtt_process dbg fuel0 c start) sch0 ch = (Done (a0, c0), sch0', ch0) ->
  only_events (c_sock ch0 n) (c_sock ch1 n) -> tcp_open (c_sock ch1 n) -> zlen connect <= room (c_sock ch1 n) -> start <= now ->
  zlen props < 125 -> bytes_ok connack -> Forall message_ok ms ->
  no_faults sch -> ir_bit 0 (seen_ir sch ch1 n) -> ~ ir_bit 1 (seen_ir sch ch1 n) -> run (poll dbg fuel c0 now ops) sch ch1 = (Done (a, c1), sch', ch2) ->
  mq_punctual dbg now c1 ch2 l1 c2 ch3 -> mqtt_is_connected c2 = true -> talks dbg c2 ch3 l2 c3 ch4 ->
  s_rxlog (c_sock ch4 n) ++ missing = rd ++ connack ++ message_stream ms ->
  a0 = Ok (MECallAfter 10) /\ configured (c_sock ch0 n) 1 (mq_src_port c) (mq_server c) /\ s_sr (c_sock ch0 n) = 0x15 /\
  a = TldElse (Ok (MECallAfter 10)) /\ tcp_view (c_sock ch2 n) rd (tx ++ connect) /\
  (exists l0 t, l1 = l0 ++ [(t, TldElse (Ok MEConnAck))] /\ Forall (asks_again now) l0 /\ now <= t <= now + 10 /\ tcp_view (c_sock ch3 n) (rd ++ connack) (tx ++ connect)) /\
  let k := length (news l2) in (k <= length ms)%nat /\ Forall2 (fun p m => snd p = tells m (fst p)) (news l2) (firstn k ms) /\
  (exists tx', tcp_view (c_sock ch4 n) (rd ++ connack ++ message_stream (firstn k ms)) tx') /\ mqtt_is_connected c3 = true.
Proof. exact MqttConnectP.from_start. Qed.
Print Assumptions C112_from_start.

(** Three bytes of CONNACK arrive during the first poll after CONNECT; the rest, and a message behind it, during the second, which comes
    at the last moment. *)
Example C112_case : let connack := connack_packet 0 0 [0x22; 0; 10; 0x21; 0; 20] in let ms := [MsgPublish false [116; 47] [1; 1] [7; 8; 9]] in
  let up := [tick_of [EvIr 1]] in
  (exists sch' c0 ch0 c1 ch1 c2 ch2,
    run (poll true 5 MqttConnectP.con_case 100 []) up (case_conn []) = (Done (TldElse (Ok (MECallAfter 10)), c0), sch', ch0) /\
    mq_punctual true 100 c0 ch0 [(105, TldElse (Ok (MECallAfter 5))); (110, TldElse (Ok MEConnAck))] c1 ch1 /\ mqtt_is_connected c1 = true /\
    talks true c1 ch1 [([PPayload 2], TldMessage [Ok [7; 8]] (Ok tt))] c2 ch2 /\
    s_rxlog (c_sock ch2 3) = connack ++ message_stream ms) /\
  serving MqttConnectP.con_case 100 (case_conn []) [] case_tcp_unsent /\ zlen (connect_of MqttConnectP.con_case (c_sock (case_conn []) 3)) <= room (c_sock (case_conn []) 3) /\
  seen_ir up (case_conn []) 3 = 1 /\ bytes_ok connack /\ Forall message_ok ms.
Proof.
  cbv zeta. split; [exact MqttConnectP.con_history|]. split; [exact MqttConnectP.con_serving|]. split; [vm_compute; discriminate|]. split; [reflexivity|].
  split; [repeat constructor; vm_compute; discriminate|exact MqttConnectP.con_ms_ok].
Qed.
(** The same from the first call on. *)
Example C112_case_start : let connack := connack_packet 0 0 [0x22; 0; 10; 0x21; 0; 20] in let ms := [MsgPublish false [116; 47] [1; 1] [7; 8; 9]] in
  let c := MqttConnectP.start_case in let up := [tick_of [EvIr 1]] in let established ch := chip_evs ch (t_evs (tick_of [EvCommit 5 6; EvConnected 77 88])) in
  (exists sch0' c0 ch0 sch' c1 ch2 c2 ch3 c3 ch4,
    run (mqtt_process false 9 c 95) DhcpCases.case_ticks case_udp = (Done (Ok (MECallAfter 10), c0), sch0', ch0) /\
    only_events (c_sock ch0 3) (c_sock (established ch0) 3) /\ tcp_open (c_sock (established ch0) 3) /\
    zlen (connect_of c (c_sock (established ch0) 3)) <= room (c_sock (established ch0) 3) /\ seen_ir up (established ch0) 3 = 1 /\
    run (poll false 5 c0 100 []) up (established ch0) = (Done (TldElse (Ok (MECallAfter 10)), c1), sch', ch2) /\
    mq_punctual false 100 c1 ch2 [(105, TldElse (Ok (MECallAfter 5))); (110, TldElse (Ok MEConnAck))] c2 ch3 /\ mqtt_is_connected c2 = true /\
    talks false c2 ch3 [([PPayload 2], TldMessage [Ok [7; 8]] (Ok tt))] c3 ch4 /\
    s_rxlog (c_sock ch4 3) = s_rxlog (c_sock ch0 3) ++ connack ++ message_stream ms) /\
  st_state (mq_st c) = MInit /\ is_u16 (mq_src_port c) /\ addr_ok (mq_server c) /\ sizes_ok (c_sock case_udp 3) /\ no_faults DhcpCases.case_ticks.
Proof.
  cbv zeta. split; [exact MqttConnectP.start_history|]. split; [reflexivity|]. split; [unfold is_u16; cbn; lia|].
  split; [vm_compute; repeat split; try discriminate; repeat constructor; discriminate|]. split; [split; vm_compute; auto|repeat constructor].
Qed.
