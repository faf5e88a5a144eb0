(** What the MQTT client over TLS sends. *)
From Verif Require Import Model.Prelude Model.Bus Model.Chip Model.Specifiers Model.Mqtt Spec.Sock Spec.Hoare Spec.TcpClient Spec.TlsSecrets Spec.MqttMsg.
From Verif Require Import Model.TlsTypes Model.TlsBuf Model.TlsKeys Model.TlsClient Model.MqttTls Spec.TlsProtect Spec.TlsSession Spec.TlsWire.

(** [packet] is sent whole in one record of application data and the client goes to [st'], or there is not enough room for it,
    nothing is sent and the client stays as it is. *)
Definition mt_sends {A} (cx : Crypto) (traffic : list Z) (seq : Z) (free : Z) (rd tx packet : list Z) (c : MqttTls) (st' : StateTimeout) (a : A)
    (x : res mterr A * MqttTls) (s' : sock) : Prop :=
  (exists t, x = (Ok a, mkMT t (mt_client_id c) st' (mt_pkt_id c)) /\ writes_with t traffic (seq + 1) /\ tc_rx t = tc_rx (mt_tls c) /\
    tcp_view s' rd (tx ++ protected_record cx traffic seq 23 packet)) \/
  ((x = (Err (MTErr MOutOfMemory), c) \/ x = (Err (MTClient (mkAlert 1 80)), c)) /\ free < zlen packet + 22 /\ tcp_view s' rd tx).
(** The CONNECT packet: the announced maximum packet size is the size of the buffer less 22. *)
Definition mt_connect_of (c : MqttTls) : list Z :=
  connect_packet (match mt_client_id c with Some i => i | None => [] end) (zlen (b_buf (tc_rx (mt_tls c))) - 22).

(** A client identifier of at most 23 bytes, or none. *)
Definition client_id_ok (c : MqttTls) : Prop := forall i, mt_client_id c = Some i -> zlen i <= 23 /\ bytes_ok i.

(** ** Calls *)
(** What the owner of an event sees of it: of a message the two lengths. *)
Inductive mtseen : Type := SeenCallAfter (secs : Z) | SeenPublish (topic_len payload_len : Z) | SeenAck (a : mack) | SeenNone.
Definition seen (e : mtevent) : mtseen :=
  match e with
  | TECallAfter k => SeenCallAfter k
  | TEPublish p => SeenPublish (tp_topic_len p) (tp_payload_len p)
  | TEAck a => SeenAck a
  | TENone => SeenNone
  end.
(** What the owner of a message does with it. *)
Fixpoint tp_run (p : TlsPublish) (ops : list pub_op) : tres (list (res merr (list Z)) * TlsPublish) :=
  match ops with
  | [] => TOk ([], p)
  | o :: r =>
      tbind (match o with PTopic n => tp_read_topic p n | PPayload n => tp_read_payload p n end) (fun x =>
      tbind (tp_run (snd x) r) (fun y => TOk (fst x :: fst y, snd y)))
  end.
(** [process] and, if it returns a message, reads from it and then [done] ([fin]) or drop; the other calls. *)
Inductive mtcall : Type :=
| YProcess (rng : Rng) (now : Z) (ops : list pub_op) (fin : bool)
| YPublish (topic payload : list Z)
| YSubscribe (filter : list Z)
| YUnsubscribe (filter : list Z)
| YClientId (id : list Z).
Inductive mtans : Type :=
| WProcess (r : res mterr mtseen) (got : list (res merr (list Z))) (fin : res merr unit)
| WPublish (r : res mterr unit)
| WSub (r : res mterr Z)
| WNone.
Definition mtcall_run (cx : Crypto) (dbg : bool) (fuel : nat) (c : MqttTls) (x : mtcall) : prog (mtans * MqttTls) :=
  match x with
  | YProcess rng now ops fin =>
      y <-- mt_process cx dbg fuel c rng now ;; let '(r, c) := y in
      match r with
      | Err e => Ret (WProcess (Err e) [] (Ok tt), c)
      | Ok (TEPublish p) =>
          lift (tp_run p ops) (fun z =>
          if fin then lift (tp_done c (snd z)) (fun d => Ret (WProcess (Ok (seen (TEPublish p))) (fst z) (fst d), snd d))
          else Ret (WProcess (Ok (seen (TEPublish p))) (fst z) (Ok tt), c))
      | Ok e => Ret (WProcess (Ok (seen e)) [] (Ok tt), c)
      end
  | YPublish t p => y <-- mt_publish cx c t p ;; Ret (WPublish (fst y), snd y)
  | YSubscribe f => y <-- mt_subscribe cx c f ;; Ret (WSub (fst y), snd y)
  | YUnsubscribe f => y <-- mt_unsubscribe cx c f ;; Ret (WSub (fst y), snd y)
  | YClientId id => Ret (WNone, mt_set_client_id c id)
  end.
Definition mtcall_ok (x : mtcall) : Prop :=
  match x with
  | YProcess rng _ ops _ => rng_ok rng /\ Forall pub_op_ok ops
  | YPublish t p => bytes_ok t /\ bytes_ok p
  | YSubscribe f | YUnsubscribe f => bytes_ok f
  | YClientId id => 1 <= zlen id <= 23 /\ bytes_ok id
  end.
Definition mt_init (cx : Crypto) (sn : Sn) (src_port : Z) (dst : list Z * Z) (cf : tconfig) : MqttTls :=
  mt_new cx sn src_port (cf_hostname cf) dst (cf_identity cf) (cf_psk cf) (cf_buf cf).
(** Calls that return, in order, on a bus that may answer anything and fail at any time. *)
Inductive mthistory (cx : Crypto) (dbg : bool) (fuel : nat) (c0 : MqttTls) : list (mtcall * mtans) -> MqttTls -> Prop :=
| YNil : mthistory cx dbg fuel c0 [] c0
| YCall h c x a c' : mthistory cx dbg fuel c0 h c -> mtcall_ok x -> any_bus (mtcall_run cx dbg fuel c x) (Done (a, c')) ->
    mthistory cx dbg fuel c0 (h ++ [(x, a)]) c'.
(** The packet identifiers that subscribe and unsubscribe returned, and those calls. *)
Definition mt_request (x : mtcall) : bool := match x with YSubscribe _ | YUnsubscribe _ => true | _ => false end.
Definition mt_requests (h : list (mtcall * mtans)) : list (mtcall * mtans) := filter (fun xa => mt_request (fst xa)) h.
Definition mt_nonempty (x : mtcall) : bool := match x with YSubscribe f | YUnsubscribe f => negb (zlen f =? 0) | _ => false end.
Fixpoint mt_granted (h : list (mtcall * mtans)) : list Z :=
  match h with
  | [] => []
  | (x, WSub (Ok id)) :: r => if mt_nonempty x then id :: mt_granted r else mt_granted r
  | _ :: r => mt_granted r
  end.

(** The calls of the TLS client a history consists of: [process] with the generator and time given to the MQTT client's [process],
    and sessions of a writer or a reader; [write_all] is not used. *)
Definition tunnel (x : tcall) : Prop := match x with KProcess _ _ | KReader _ _ => True | KWriter _ _ => is_session x | KWriteAll _ => False end.
Fixpoint tls_processed (h : list (tcall * tans)) : list (Rng * Z) :=
  match h with
  | [] => []
  | (KProcess rng now, _) :: r => (rng, now) :: tls_processed r
  | _ :: r => tls_processed r
  end.
Fixpoint mt_processed (h : list (mtcall * mtans)) : list (Rng * Z) :=
  match h with
  | [] => []
  | (YProcess rng now _ _, _) :: r => (rng, now) :: mt_processed r
  | _ :: r => mt_processed r
  end.
(** The answer is the event that a CONNACK was received. *)
Definition connack (a : mtans) : bool := match a with WProcess (Ok (SeenAck AConnAck)) _ _ => true | _ => false end.
(** In a history: a call reported a CONNACK; the TLS client reported the end of its handshake. *)
Definition connack_in (h : list (mtcall * mtans)) : Prop := exists x a, In (x, a) h /\ connack a = true.
Definition handshake_in (th : list (tcall * tans)) : Prop := exists rng now, In (KProcess rng now, NProcess (Ok THandshakeFinished)) th.
(** The answer reports a packet. *)
Definition reports (a : mtans) : bool := match a with WProcess (Ok (SeenAck _ | SeenPublish _ _)) _ _ => true | _ => false end.
(** A part of [w]; all bytes in an answer are. *)
Definition slice_of (w d : list Z) : Prop := exists i n, d = ztake n (zdrop i w).
Definition got_from (w : list Z) (l : list (res merr (list Z))) : Prop := Forall (fun r => match r with Ok d => slice_of w d | Err _ => True end) l.
Definition answer_from (w : list Z) (a : mtans) : Prop :=
  (reports a = true -> w <> []) /\ match a with WProcess _ got _ => got_from w got | _ => True end.

(** ** What [process] makes of bytes that can be read *)
(** The answer with nothing to report: the time until the next call, or the end of the wait. *)
Definition mt_waits (st : StateTimeout) (now : Z) (r : res mterr mtseen) (st' : StateTimeout) : Prop :=
  match st_timeout st with
  | None => r = Ok SeenNone /\ st' = st
  | Some since => since <= now /\
      ((now - since <= 10 /\ r = Ok (SeenCallAfter (10 - (now - since))) /\ st' = st) \/
       (10 < now - since /\ r = Err (MTErr (MStateTimeout (st_state st))) /\ st' = mkST MInit None))
  end.
(** [reaction st now ops fin w a w' st']: in the state [st], with [w] readable, the call returns [a]; then [w'] is readable and the
    state is [st'].  MQTT 5 packets, where the code supports them: see C43 and C45. *)
Inductive reaction (st : StateTimeout) (now : Z) (ops : list pub_op) (fin : bool) (w : list Z) : mtans -> list Z -> StateTimeout -> Prop :=
| ReactPublish retain topic props payload more : w = publish_packet retain topic props payload ++ more -> zlen props < 128 ->
    reaction st now ops fin w (WProcess (Ok (SeenPublish (zlen topic) (zlen payload))) (map (pub_answer topic payload) ops) (Ok tt)) (if fin then more else w) st
| ReactConnack flags code props more : w = connack_packet flags code props ++ more -> zlen props < 125 -> st_state st = WaitConAck ->
    reaction st now ops fin w
      (WProcess (match meaning connack_codes code with
                 | Some r => Err (MTErr (MConnAck r))
                 | None => if code =? 0 then Ok (SeenAck AConnAck) else Err (MTErr MProtocol)
                 end) [] (Ok tt)) more (mkST (if code =? 0 then Ready else MInit) None)
| ReactSuback id props code more r : w = suback_packet id props [code] ++ more -> is_u16 id -> zlen props < 128 -> meaning suback_codes code = Some r ->
    reaction st now ops fin w (WProcess (Ok (SeenAck (ASubAck id r))) [] (Ok tt)) more st
| ReactUnsuback id props code more r : w = unsuback_packet id props [code] ++ more -> is_u16 id -> zlen props < 128 -> meaning unsuback_codes code = Some r ->
    reaction st now ops fin w (WProcess (Ok (SeenAck (AUnSubAck id r))) [] (Ok tt)) more st
| ReactOther t f body more r st' : w = mpacket t f body ++ more -> 0 <= t < 16 -> 0 <= f < 16 -> ~ In t [0; 2; 3; 9; 11] -> mt_waits st now r st' ->
    reaction st now ops fin w (WProcess r [] (Ok tt)) more st'
| ReactIncomplete t f body missing r st' : w ++ missing = mpacket t f body -> missing <> [] -> 0 <= t < 16 -> 0 <= f < 16 -> zlen body <= 65535 -> mt_waits st now r st' ->
    reaction st now ops fin w (WProcess r [] (Ok tt)) w st'.
