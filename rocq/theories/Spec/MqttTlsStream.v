(** An MQTT client over TLS that receives a stream of packets. *)
From Verif Require Import Model.Prelude Model.Bus Model.Chip Model.Specifiers Model.Mqtt Model.TlsTypes Model.TlsBuf Model.TlsKeys Model.TlsClient Model.MqttTls
  Spec.Hoare Spec.MqttMsg Spec.MqttStream Spec.TlsAuth Spec.TlsRx Spec.TlsStream Spec.MqttTlsMsg.

(** Calls of [process] on the client [c] that uses the chip [ch], none of which finds that the connection was made or lost; of
    a message, the parts [ops] are read, then it is done.  [ok] holds of the client before each call. *)
Inductive mt_polls (cx : Crypto) (dbg : bool) (ok : MqttTls -> Prop) (c : MqttTls) (ch : chip) : list (list pub_op * mtans) -> MqttTls -> chip -> Prop :=
| PlNil : mt_polls cx dbg ok c ch [] c ch
| PlPoll l c1 ch1 fuel rng now ops sch a sch' c2 ch2 : mt_polls cx dbg ok c ch l c1 ch1 -> ok c1 -> Forall pub_op_ok ops ->
    no_faults sch -> no_link_change (seen_ir sch ch1 (sn_raw (tc_sn (mt_tls c)))) ->
    run (mtcall_run cx dbg fuel c1 (YProcess rng now ops true)) sch ch1 = (Done (a, c2), sch', ch2) -> mt_polls cx dbg ok c ch (l ++ [(ops, a)]) c2 ch2.
(** The call told nothing; the calls that told something. *)
Definition mt_nothing (a : mtans) : bool := match a with WProcess (Ok SeenNone) _ _ => true | _ => false end.
Definition mt_news (l : list (list pub_op * mtans)) : list (list pub_op * mtans) := filter (fun p => negb (mt_nothing (snd p))) l.
(** What the application is to be told about [m] when it reads [ops]. *)
Definition mt_tells (m : message) (ops : list pub_op) : mtans :=
  match m with
  | MsgPublish _ topic _ payload => WProcess (Ok (SeenPublish (zlen topic) (zlen payload))) (map (pub_answer topic payload) ops) (Ok tt)
  | MsgSubAck id _ code => WProcess (match meaning suback_codes code with Some r => Ok (SeenAck (ASubAck id r)) | None => Ok SeenNone end) [] (Ok tt)
  | MsgUnSubAck id _ code => WProcess (match meaning unsuback_codes code with Some r => Ok (SeenAck (AUnSubAck id r)) | None => Ok SeenNone end) [] (Ok tt)
  end.
(** There is room for [room] more bytes behind those not read yet. *)
Definition roomy (room size : Z) (c : MqttTls) : Prop := zlen (readable (mt_tls c)) + room + 2 <= size.
(** The client is connected, by TLS and by MQTT, and nothing but a part of a packet, [ad], waits in its buffer. *)
Definition mt_listens (c : MqttTls) (t : list Z) (seq : Z) (ad : list Z) : Prop :=
  mt_is_connected c = true /\ st_timeout (mt_st c) = None /\ reads_with (mt_tls c) t seq /\ tc_state (mt_tls c) = TConnected /\ tc_timeout (mt_tls c) = None /\
  buffer_holds (tc_rx (mt_tls c)) ad [].
