(** An MQTT client that receives a stream of packets while the application publishes and subscribes. *)
From Verif Require Import Model.Prelude Model.Bus Model.Chip Model.Specifiers Model.Mqtt Spec.Sock Spec.Hoare Spec.TcpClient Spec.MqttMsg.

(** What a broker sends to a client that is connected: messages, and the answers to the client's requests. *)
Inductive message : Type :=
| MsgPublish (retain : bool) (topic props payload : list Z)
| MsgSubAck (id : Z) (props : list Z) (code : Z)
| MsgUnSubAck (id : Z) (props : list Z) (code : Z).
Definition message_bytes (m : message) : list Z :=
  match m with
  | MsgPublish retain topic props payload => publish_packet retain topic props payload
  | MsgSubAck id props code => suback_packet id props [code]
  | MsgUnSubAck id props code => unsuback_packet id props [code]
  end.
Definition message_ok (m : message) : Prop :=
  bytes_ok (message_bytes m) /\ zlen (message_bytes m) <= 65536 /\
  match m with
  | MsgPublish _ _ props _ => zlen props < 128
  | MsgSubAck id props code => is_u16 id /\ zlen props < 128 /\ meaning suback_codes code <> None
  | MsgUnSubAck id props code => is_u16 id /\ zlen props < 128 /\ meaning unsuback_codes code <> None
  end.
Definition message_stream (ms : list message) : list Z := concat (map message_bytes ms).

(** [process]; of a message, the parts [ops] are read, then it is done. *)
Inductive told : Type :=
| TldNothing
| TldMessage (parts : list (res merr (list Z))) (d : res merr unit)
| TldSubAck (id : Z) (r : SubAckReasonCode)
| TldUnSubAck (id : Z) (r : UnSubAckReasonCode)
| TldElse (r : res merr mevent).
Definition poll (dbg : bool) (fuel : nat) (c : MqttClient) (now : Z) (ops : list pub_op) : prog (told * MqttClient) :=
  x <-- mqtt_process dbg fuel c now ;;
  match fst x with
  | Ok (MEPublish p) => y <-- pub_run p ops ;; d <-- pr_done (snd y) ;; Ret (TldMessage (fst y) d, snd x)
  | Ok (MESubAck id r) => Ret (TldSubAck id r, snd x)
  | Ok (MEUnSubAck id r) => Ret (TldUnSubAck id r, snd x)
  | Ok MENone => Ret (TldNothing, snd x)
  | r => Ret (TldElse r, snd x)
  end.
(** What the application is to be told about [m] when it reads [ops]. *)
Definition tells (m : message) (ops : list pub_op) : told :=
  match m with
  | MsgPublish _ topic _ payload => TldMessage (map (pub_answer topic payload) ops) (Ok tt)
  | MsgSubAck id _ code => match meaning suback_codes code with Some r => TldSubAck id r | None => TldNothing end
  | MsgUnSubAck id _ code => match meaning unsuback_codes code with Some r => TldUnSubAck id r | None => TldNothing end
  end.

(** Requests with filters that do not make the call panic ([C42_long_filter]). *)
Definition request_ok (x : mcall) : Prop :=
  match x with
  | CProcess _ => False
  | CPublish _ _ => True
  | CSubscribe f => f <> [] /\ zlen f <= 65532
  | CUnsubscribe f => f <> [] /\ zlen f <= 65533
  end.
(** Calls on the client [c] that uses the chip [ch], in any order: polls, none of which finds that the connection was made
    or lost, and requests.  The polls are listed with what they read and what they told. *)
Inductive talks (dbg : bool) (c : MqttClient) (ch : chip) : list (list pub_op * told) -> MqttClient -> chip -> Prop :=
| TkNil : talks dbg c ch [] c ch
| TkPoll l c1 ch1 fuel now ops sch a sch' c2 ch2 : talks dbg c ch l c1 ch1 -> Forall pub_op_ok ops ->
    no_faults sch -> no_link_change (seen_ir sch ch1 (sn_raw (mq_sn c))) ->
    run (poll dbg fuel c1 now ops) sch ch1 = (Done (a, c2), sch', ch2) -> talks dbg c ch (l ++ [(ops, a)]) c2 ch2
| TkRequest l c1 ch1 fuel x sch a sch' c2 ch2 : talks dbg c ch l c1 ch1 -> request_ok x -> no_faults sch ->
    run (mcall_run dbg fuel c1 x) sch ch1 = (Done (a, c2), sch', ch2) -> talks dbg c ch l c2 ch2.
(** The polls that told something. *)
Definition news (l : list (list pub_op * told)) : list (list pub_op * told) :=
  filter (fun p => match snd p with TldNothing => false | _ => true end) l.
