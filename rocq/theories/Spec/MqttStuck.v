(** Packets that the MQTT client gets past, and packets that hold it up. *)
From Verif Require Import Model.Prelude Model.Bus Model.Chip Model.Specifiers Model.Mqtt Spec.Sock Spec.Hoare Spec.TcpClient Spec.MqttMsg.

(** Whole packets that a client in state [s] understands or answers by starting over. *)
Inductive understood (s : MState) : list Z -> Prop :=
| UnPublish retain topic props payload : zlen props < 128 -> understood s (publish_packet retain topic props payload)
| UnConnAck flags code props : s = WaitConAck -> zlen props < 125 -> understood s (connack_packet flags code props)
| UnSubAck id props code : is_u16 id -> zlen props < 128 -> understood s (suback_packet id props [code])
| UnUnSubAck id props code : is_u16 id -> zlen props < 128 -> understood s (unsuback_packet id props [code])
| UnOther t f body : 0 <= t < 16 -> 0 <= f < 16 -> ~ In t [2; 3; 9; 11] -> understood s (mpacket t f body).

(** The packet [x] is out of the way: it was removed, or the client starts over with a new connection. *)
Definition passed (rd tx x : list Z) (c' : MqttClient) (s' : sock) : Prop :=
  tcp_view s' (rd ++ x) tx \/ (tcp_view s' rd tx /\ st_state (mq_st c') = MInit).

(** The first bytes [x] of the stream hold the client up, and this is what every call answers: CONNACK outside
    the handshake; PUBLISH with a topic that is longer than any receive buffer; a packet that is. *)
Inductive blocks (c : MqttClient) : list Z -> res merr mevent -> Prop :=
| BlConnAck f body : st_state (mq_st c) <> WaitConAck -> 0 <= f < 16 -> zlen body <= 65535 -> blocks c (mpacket 2 f body) (Err MProtocol)
| BlTopic f len rest : 0 <= f < 16 -> 16384 <= len < 65536 -> zlen rest <= 65533 -> blocks c (mpacket 3 f (two len ++ rest)) (Err MDecode)
| BlLong b len : 0 <= b < 256 -> 16384 <= len < 65536 -> st_timeout (mq_st c) = None -> blocks c (b :: varint len) (Ok MENone).

(** Calls of [process], again and again, while anything arrives but the link stays as it is. *)
Inductive mpolls (dbg : bool) (c : MqttClient) : chip -> list (res merr mevent) -> MqttClient -> chip -> Prop :=
| MpNil ch : mpolls dbg c ch [] c ch
| MpCall fuel now sch ch rs c1 ch1 r sch' c2 ch2 : mpolls dbg c ch rs c1 ch1 ->
    no_faults sch -> no_link_change (seen_ir sch ch1 (sn_raw (mq_sn c))) -> clock_ok c1 now ->
    run (mqtt_process dbg fuel c1 now) sch ch1 = (Done (r, c2), sch', ch2) -> mpolls dbg c ch (rs ++ [r]) c2 ch2.
