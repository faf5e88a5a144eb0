(** An application that calls [process] of the MQTT client over TLS when it was asked to. *)
From Verif Require Import Model.Prelude Model.Bus Model.Chip Model.Specifiers Model.Mqtt Model.TlsTypes Model.TlsBuf Model.TlsKeys Model.TlsClient Model.MqttTls
  Spec.Hoare Spec.MqttMsg Spec.TlsRx Spec.TlsArrive Spec.MqttTlsMsg Spec.MqttTlsStream Spec.MqttTlsConnect.
Local Open Scope list_scope.

(** A call at [now] is not too late for the answer [a] that the call at [t] gave. *)
Definition mt_as_asked (last : Z * mtans) (now : Z) : Prop :=
  let '(t, a) := last in t <= now /\ match a with WProcess (Ok (SeenCallAfter secs)) _ _ => now <= t + secs | _ => True end.
(** Calls of [process] until CONNACK was received, with the time of each in front of its answer.  Each is made when the one before
    it asked for it; before the first there was a call at [since] that asked for the next within ten seconds.  After the
    TLS handshake there is room for a record of [room] bytes. *)
Inductive mt_punctual (cx : Crypto) (dbg : bool) (room since : Z) (c : MqttTls) (ch : chip) : list (Z * mtans) -> MqttTls -> chip -> Prop :=
| PmNil : mt_punctual cx dbg room since c ch [] c ch
| PmProcess l c1 ch1 fuel rng now ops sch a sch' c2 ch2 : mt_punctual cx dbg room since c ch l c1 ch1 -> mt_is_connected c1 = false ->
    (tc_state (mt_tls c1) = TConnected -> roomy room (buffer_size (mt_tls c1)) c1) ->
    mt_as_asked (last l (since, WProcess (Ok (SeenCallAfter 10)) [] (Ok tt))) now -> Forall pub_op_ok ops -> no_faults sch -> no_link_change (seen_ir sch ch1 (sn_raw (tc_sn (mt_tls c)))) ->
    run (mtcall_run cx dbg fuel c1 (YProcess rng now ops true)) sch ch1 = (Done (a, c2), sch', ch2) -> mt_punctual cx dbg room since c ch (l ++ [(now, a)]) c2 ch2.
