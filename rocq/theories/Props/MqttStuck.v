(** Packets that hold up the MQTT client: C102. *)
From Verif Require Import Model.Prelude Model.Bus Model.Chip Model.Specifiers Model.HlIo Model.HlTcp Model.Stream Model.Mqtt
  Spec.Sock Spec.Hoare Spec.TcpClient Spec.Cursor Spec.Cases Spec.MqttMsg Spec.MqttStuck.
From Verif Require Proof.MqttStuckP Proof.MqttMainP.

(** A client on socket 3 that is connected. *)
Definition case_ready : MqttClient := mkMqtt Sn3 50000 ([10; 0; 0; 9], 1883) (Some [99]) (mkST Ready None) 65534.

(** C102, full statement: whatever complete packet [x = mpacket t f body] is next in the stream, after
    [process], reads of the event and [done] it is out of the way.  It holds for the packets that the client
    understands. *)
Theorem C102_next_partial : forall dbg fuel c now ch rd tx x ops, serving c now ch rd tx -> next_is c ch x ->
  understood (st_state (mq_st c)) x -> Forall pub_op_ok ops ->
  ensures_ir no_link_change (pub_session dbg fuel c now ops true) (sn_raw (mq_sn c)) ch (fun y s' => passed rd tx x (snd y) s').
Proof. exact MqttStuckP.next_packet. Qed.
Print Assumptions C102_next_partial.
(** Others stay for good: each call of [process] gives the same answer, whatever arrives, and nothing behind
    them is ever looked at; there is no timeout. *)
Theorem C102_stuck : forall dbg c ch rd tx x r rs c' ch', mpolls dbg c ch rs c' ch' ->
  st_state (mq_st c) <> MInit -> tcp_view (c_sock ch (sn_raw (mq_sn c))) rd tx -> bytes_ok (unread (c_sock ch (sn_raw (mq_sn c)))) ->
  next_is c ch x -> blocks c x r ->
  Forall (fun a => a = r) rs /\ c' = c /\ tcp_view (c_sock ch' (sn_raw (mq_sn c))) rd tx /\ next_is c ch' x.
Proof. exact MqttStuckP.stuck. Qed.
Print Assumptions C102_stuck.
(** These calls do return. *)
Theorem C102_stuck_call : forall dbg fuel c now ch rd tx x r, serving c now ch rd tx -> next_is c ch x -> blocks c x r ->
  ensures_ir no_link_change (mqtt_process dbg fuel c now) (sn_raw (mq_sn c)) ch (fun y s' => y = (r, c) /\ tcp_view s' rd tx /\
    exists new, unread s' = x ++ new).
Proof. exact MqttStuckP.blocked_call. Qed.
Print Assumptions C102_stuck_call.
(** So the full statement is false: a second CONNACK, and a message behind it. *)
Definition case_again : list Z := connack_packet 0 0 [] ++ publish_packet false [116] [] [7].
Theorem C102_next_refuted : exists x more sch' ch', serving case_ready 100 (case_conn (x ++ more)) [] case_tcp_unsent /\
  next_is case_ready (case_conn (x ++ more)) x /\ x = mpacket 2 0 [0; 0; 0] /\
  run (pub_session false 5 case_ready 100 [PPayload 9] true) [] (case_conn (x ++ more)) = (Done (None, case_ready), sch', ch') /\
  unread (c_sock ch' 3) = x ++ more /\ ~ passed [] case_tcp_unsent x case_ready (c_sock ch' 3).
Proof.
  exists (connack_packet 0 0 []), (publish_packet false [116] [] [7]).
  destruct (run (pub_session false 5 case_ready 100 [PPayload 9] true) [] (case_conn (connack_packet 0 0 [] ++ publish_packet false [116] [] [7])))
    as ((o & sch') & ch') eqn:E. exists sch', ch'.
  assert (o = Done (None, case_ready)) as ->.
  { apply (f_equal (fun x => fst (fst x))) in E. cbn [fst] in E. rewrite <- E. vm_compute. reflexivity. }
  assert (unread (c_sock ch' 3) = case_again /\ s_rxlog (c_sock ch' 3) = case_again) as (U & L).
  { apply (f_equal snd) in E. cbn [snd] in E. rewrite <- E. split; vm_compute; reflexivity. }
  split; [split; [discriminate|]; split; [exact I|]; split; MqttMainP.case_tcp_view|].
  split; [exists (publish_packet false [116] [] [7]); vm_compute; reflexivity|]. split; [reflexivity|]. split; [reflexivity|].
  split; [exact U|]. intros [V|(_ & X)]; [|discriminate X]. pose proof (MqttRxP.view_log _ _ _ V) as W. rewrite U, L in W. discriminate W.
Qed.
Print Assumptions C102_next_refuted.
(** The packets of the three kinds that block, and two calls. *)
Example C102_case : blocks case_ready (mpacket 2 0 [0; 0; 0]) (Err MProtocol) /\
  blocks case_ready (mpacket 3 0 (two 20000 ++ [116])) (Err MDecode) /\ mpacket 3 0 (two 20000 ++ [116]) = [0x30; 3; 78; 32; 116] /\
  blocks case_ready (0x30 :: varint 20000) (Ok MENone) /\ 0x30 :: varint 20000 = [0x30; 160; 156; 1] /\
  understood Ready (suback_packet 7 [] [99]) /\
  exists ch', mpolls true case_ready (case_conn case_again) [Err MProtocol; Err MProtocol] case_ready ch'.
Proof.
  split; [apply BlConnAck; [discriminate|lia|vm_compute; discriminate]|]. split; [apply BlTopic; [lia|lia|vm_compute; discriminate]|].
  split; [vm_compute; reflexivity|]. split; [apply BlLong; [lia|lia|reflexivity]|]. split; [vm_compute; reflexivity|].
  split; [apply UnSubAck; [unfold is_u16; lia|vm_compute; reflexivity]|].
  destruct (run (mqtt_process true 5 case_ready 100) [] (case_conn case_again)) as ((o1 & sch1) & c1) eqn:E1.
  destruct (run (mqtt_process true 5 case_ready 101) [] c1) as ((o2 & sch2) & c2) eqn:E2.
  assert (c1 = snd (run (mqtt_process true 5 case_ready 100) [] (case_conn case_again))) as C1 by now rewrite E1.
  assert (o1 = Done (Err MProtocol, case_ready)) as ->.
  { apply (f_equal (fun x => fst (fst x))) in E1. cbn [fst] in E1. rewrite <- E1. vm_compute. reflexivity. }
  assert (o2 = Done (Err MProtocol, case_ready)) as ->.
  { apply (f_equal (fun x => fst (fst x))) in E2. cbn [fst] in E2. rewrite <- E2, C1. vm_compute. reflexivity. }
  exists c2. change [Err MProtocol; Err MProtocol] with (([] ++ [@Err merr mevent MProtocol]) ++ [@Err merr mevent MProtocol]).
  apply (MpCall true case_ready 5 101 [] _ _ case_ready c1 _ sch2); [|apply Forall_nil| |exact I|exact E2].
  - apply (MpCall true case_ready 5 100 [] _ _ case_ready (case_conn case_again) _ sch1); [apply MpNil|apply Forall_nil| |exact I|exact E1].
    repeat split; vm_compute; discriminate.
  - rewrite C1. repeat split; vm_compute; discriminate.
Qed.
