(** An application that calls [process] when it was asked to. *)
From Verif Require Import Model.Prelude Model.Bus Model.Chip Model.Specifiers Model.TlsTypes Model.TlsBuf Model.TlsKeys Model.TlsClient 
  Spec.Hoare Spec.MqttMsg Spec.TlsSecrets Spec.TlsMessages Spec.TlsProtect Spec.TlsQueue Spec.TlsSession Spec.TlsWire Spec.TlsRx Spec.TlsComplete.
Local Open Scope list_scope.

(** A call at [now] is not too late for the answer [r] that the call at [t] gave. *)
Definition as_asked (last : Z * res TError TEvent) (now : Z) : Prop :=
  let '(t, r) := last in t <= now /\ match r with Ok (TCallAfter secs) => now <= t + secs | _ => True end.
(** Calls of [process] as in [handshakes], with the time of each in front of its answer.  Each is made when the one before it asked for
    it; before the first there was a call at [since] that asked for the next within ten seconds. *)
Inductive punctual (cx : Crypto) (dbg : bool) (since : Z) (c : TlsClient) (ch : chip) : list (Z * res TError TEvent) -> TlsClient -> chip -> Prop :=
| PuNil : punctual cx dbg since c ch [] c ch
| PuProcess l c1 ch1 fuel rng now sch r sch' c2 ch2 : punctual cx dbg since c ch l c1 ch1 -> tc_state c1 <> TConnected -> as_asked (last l (since, Ok (TCallAfter 10))) now ->
    no_faults sch -> no_link_change (seen_ir sch ch1 (sn_raw (tc_sn c))) ->
    run (tls_process cx dbg fuel c1 rng now) sch ch1 = (Done (r, c2), sch', ch2) -> punctual cx dbg since c ch (l ++ [(now, r)]) c2 ch2.
