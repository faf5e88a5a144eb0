(** An MQTT client that waits for CONNACK, and an application that polls it when it was asked to. *)
From Verif Require Import Model.Prelude Model.Bus Model.Chip Model.Specifiers Model.Mqtt Spec.Sock Spec.Hoare Spec.TcpClient Spec.MqttMsg Spec.MqttStream.
Local Open Scope list_scope.

(** A poll at [now] is not too late for the answer [a] that the poll at [t] gave. *)
Definition mq_as_asked (last : Z * told) (now : Z) : Prop :=
  let '(t, a) := last in t <= now /\ match a with TldElse (Ok (MECallAfter secs)) => now <= t + secs | _ => True end.
(** Polls until the client is connected, with the time of each in front of what it told.  Each is made when the one before it
    asked for it; before the first there was a call at [since] that asked for the next within ten seconds.  No poll finds
    that the connection was made or lost. *)
Inductive mq_punctual (dbg : bool) (since : Z) (c : MqttClient) (ch : chip) : list (Z * told) -> MqttClient -> chip -> Prop :=
| PqNil : mq_punctual dbg since c ch [] c ch
| PqPoll l c1 ch1 fuel now ops sch a sch' c2 ch2 : mq_punctual dbg since c ch l c1 ch1 -> mqtt_is_connected c1 = false ->
    mq_as_asked (last l (since, TldElse (Ok (MECallAfter 10)))) now -> Forall pub_op_ok ops ->
    no_faults sch -> no_link_change (seen_ir sch ch1 (sn_raw (mq_sn c))) ->
    run (poll dbg fuel c1 now ops) sch ch1 = (Done (a, c2), sch', ch2) -> mq_punctual dbg since c ch (l ++ [(now, a)]) c2 ch2.
(** What a poll answers that leaves the client waiting: it asks to be called again before ten seconds have passed since [since]. *)
Definition asks_again (since : Z) (p : Z * told) : Prop :=
  since <= fst p <= since + 10 /\ snd p = TldElse (Ok (MECallAfter (since + 10 - fst p))).
