(** What the statement about crashes of the MQTT client over TLS refers to. *)
From Verif Require Import Model.Prelude Model.Mqtt Model.TlsTypes Model.TlsBuf Model.TlsClient Model.MqttTls Spec.TlsSession Spec.TlsQuiet Spec.TlsCrash Spec.MqttTlsMsg.

(** A call within the limits: for [process], a clock that does not run backwards, room for the ClientHello, and a receive buffer in which no
    application data was stored when it can be now; for a filter, what a packet can hold. *)
Definition mt_within (cf : tconfig) (c : MqttTls) (x : mtcall) : Prop :=
  match x with
  | YProcess _ now _ _ => hello_room cf /\ tclock_ok (mt_tls c) now /\ (forall since, st_timeout (mt_st c) = Some since -> since <= now) /\
      (tls_connected (mt_tls c) = true \/ tc_state (mt_tls c) = TWaitConInt -> untouched (tc_rx (mt_tls c)))
  | YSubscribe f => zlen f <= 65532
  | YUnsubscribe f => zlen f <= 65533
  | YPublish _ _ | YClientId _ => True
  end.
