(** An MQTT client over TLS that makes its connection. *)
From Verif Require Import Model.Prelude Model.Bus Model.Chip Model.Specifiers Model.Mqtt Model.TlsTypes Model.TlsBuf Model.TlsKeys Model.TlsClient Model.MqttTls
  Spec.Hoare Spec.MqttMsg Spec.TlsRx Spec.TlsArrive Spec.MqttTlsMsg Spec.MqttTlsStream.

(** Calls of [process] on the client [c] that uses the chip [ch], none of which finds that the TCP connection was made or lost.
    [go] holds of the client and the clock before each call; the list has the answers. *)
Inductive mt_asks (cx : Crypto) (dbg : bool) (go : MqttTls -> Z -> Prop) (c : MqttTls) (ch : chip) : list mtans -> MqttTls -> chip -> Prop :=
| AkNil : mt_asks cx dbg go c ch [] c ch
| AkAsk l c1 ch1 fuel rng now ops sch a sch' c2 ch2 : mt_asks cx dbg go c ch l c1 ch1 -> go c1 now -> Forall pub_op_ok ops ->
    no_faults sch -> no_link_change (seen_ir sch ch1 (sn_raw (tc_sn (mt_tls c)))) ->
    run (mtcall_run cx dbg fuel c1 (YProcess rng now ops true)) sch ch1 = (Done (a, c2), sch', ch2) -> mt_asks cx dbg go c ch (l ++ [a]) c2 ch2.
(** The TLS handshake goes on, and the time for its next step is not over. *)
Definition mt_handshaking (c : MqttTls) (now : Z) : Prop := tc_state (mt_tls c) <> TConnected /\ in_time (mt_tls c) now.
(** CONNACK was not received, the time for it is not over, and there is room for a record of [room] bytes. *)
Definition mt_awaiting (room : Z) (c : MqttTls) (now : Z) : Prop :=
  mt_is_connected c = false /\ (forall since, st_timeout (mt_st c) = Some since -> since <= now <= since + 10) /\ roomy room (buffer_size (mt_tls c)) c.
(** The client waits for more. *)
Definition mt_goes_on (a : mtans) : Prop := a = WProcess (Ok SeenNone) [] (Ok tt) \/ exists secs, a = WProcess (Ok (SeenCallAfter secs)) [] (Ok tt) /\ 0 <= secs <= 10.
(** CONNECT was sent at [since]; only a part of a packet, [ad], waits in the buffer. *)
Definition mt_asked (c : MqttTls) (t : list Z) (seq : Z) (ad : list Z) (since : Z) : Prop :=
  mt_st c = mkST WaitConAck (Some since) /\ reads_with (mt_tls c) t seq /\ tc_state (mt_tls c) = TConnected /\ tc_timeout (mt_tls c) = None /\ buffer_holds (tc_rx (mt_tls c)) ad [].
(** Nothing that the client was given has changed. *)
Definition mt_same (c c' : MqttTls) : Prop :=
  tc_sn (mt_tls c') = tc_sn (mt_tls c) /\ buffer_size (mt_tls c') = buffer_size (mt_tls c) /\ mt_client_id c' = mt_client_id c /\ mt_pkt_id c' = mt_pkt_id c.
