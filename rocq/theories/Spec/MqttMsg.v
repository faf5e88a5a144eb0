(** MQTT 5 packets, and what a client makes of them. *)
From Verif Require Import Model.Prelude Model.Bus Model.Chip Model.Specifiers Model.HlIo Model.Mqtt Spec.Sock Spec.Hoare Spec.TcpClient Spec.Cursor.

(** ** Variable byte integers (MQTT 5, 1.5.5): seven bits per byte, least significant first, the top bit says
    that more bytes follow. *)
Inductive vbi : Z -> list Z -> Prop :=
| VLast b : 0 <= b < 128 -> vbi b [b]
| VMore b n l : 128 <= b < 256 -> vbi n l -> vbi (b - 128 + 128 * n) (b :: l).
(** The shortest one. *)
Definition varint (n : Z) : list Z :=
  if n <? 128 then [n]
  else if n <? 16384 then [n mod 128 + 128; n / 128]
  else if n <? 2097152 then [n mod 128 + 128; n / 128 mod 128 + 128; n / 16384]
  else [n mod 128 + 128; n / 128 mod 128 + 128; n / 16384 mod 128 + 128; n / 2097152].

(** ** Packets (MQTT 5, chapters 2 and 3) *)
Definition two (n : Z) : list Z := [n / 256; n mod 256].
Definition mstr (s : list Z) : list Z := two (zlen s) ++ s.
Definition mprops (p : list Z) : list Z := varint (zlen p) ++ p.
(** Packet type and flags in the first byte, the length of the rest, the rest. *)
Definition mpacket (ptype flags : Z) (body : list Z) : list Z := (16 * ptype + flags) :: varint (zlen body) ++ body.
(** 3.1: protocol MQTT 5, clean start, 15 minutes keep alive, the maximum packet size (property 0x27), the
    client identifier. *)
Definition connect_packet (client_id : list Z) (max_packet : Z) : list Z :=
  mpacket 1 0 (mstr [77; 81; 84; 84] ++ [5; 2] ++ two 900 ++ mprops ([0x27; 0; 0] ++ two max_packet) ++ mstr client_id).
(** 3.3 with quality of service 0; [retain] is the retain flag. *)
Definition publish_packet (retain : bool) (topic props payload : list Z) : list Z :=
  mpacket 3 (if retain then 1 else 0) (mstr topic ++ mprops props ++ payload).
(** 3.8 with one filter: quality of service 0, no local, no retained messages. *)
Definition subscribe_packet (id : Z) (filter : list Z) : list Z := mpacket 8 2 (two id ++ mprops [] ++ mstr filter ++ [0x24]).
(** 3.10 with one filter. *)
Definition unsubscribe_packet (id : Z) (filter : list Z) : list Z := mpacket 10 2 (two id ++ mprops [] ++ mstr filter).
(** 3.2, 3.9, 3.11. *)
Definition connack_packet (flags code : Z) (props : list Z) : list Z := mpacket 2 0 ([flags; code] ++ mprops props).
Definition suback_packet (id : Z) (props codes : list Z) : list Z := mpacket 9 0 (two id ++ mprops props ++ codes).
Definition unsuback_packet (id : Z) (props codes : list Z) : list Z := mpacket 11 0 (two id ++ mprops props ++ codes).

(** Reason codes of CONNACK (3.2.2.2), SUBACK (3.9.3) and UNSUBACK (3.11.3). *)
Definition connack_codes : list (Z * ConnectReasonCode) :=
  [(0x80, CR_UnspecifiedError); (0x81, CR_MalformedPacket); (0x82, CR_ProtocolError); (0x83, CR_ImplementationSpecificError);
   (0x84, CR_UnsupportedProtocolVersion); (0x85, CR_ClientIdentifierNotValid); (0x86, CR_BadUserNameOrPassword);
   (0x87, CR_NotAuthorized); (0x88, CR_ServerUnavailable); (0x89, CR_ServerBusy); (0x8A, CR_Banned);
   (0x8C, CR_BadAuthenticationMethod); (0x90, CR_TopicNameInvalid); (0x95, CR_PacketTooLarge); (0x97, CR_QuotaExceeded);
   (0x99, CR_PayloadFormatInvalid); (0x9A, CR_RetainNotSupported); (0x9B, CR_QoSNotSupported); (0x9C, CR_UseAnotherServer);
   (0x9D, CR_ServerMoved); (0x9F, CR_ConnectionRateExceeded)].
Definition suback_codes : list (Z * SubAckReasonCode) :=
  [(0x00, SA_QoS0); (0x01, SA_QoS1); (0x02, SA_QoS2); (0x80, SA_UnspecifiedError); (0x83, SA_ImplementationSpecificError);
   (0x87, SA_NotAuthorized); (0x8F, SA_TopicFilterInvalid); (0x91, SA_PacketIdentifierInUse); (0x97, SA_QuotaExceeded);
   (0x9E, SA_SharedSubscriptionsNotSupported); (0xA1, SA_SubscriptionIdentifiersNotSupported);
   (0xA2, SA_WildcardSubscriptionsNotSupported)].
Definition unsuback_codes : list (Z * UnSubAckReasonCode) :=
  [(0x00, UA_Success); (0x11, UA_NoSubscriptionExisted); (0x80, UA_UnspecifiedError); (0x83, UA_ImplementationSpecificError);
   (0x87, UA_NotAuthorized); (0x8F, UA_TopicFilterInvalid); (0x91, UA_PacketIdentifierInUse)].

Definition meaning {A} (codes : list (Z * A)) (code : Z) : option A :=
  match find (fun p => fst p =? code) codes with Some p => Some (snd p) | None => None end.

(** ** Calls on the client *)

(** The interrupt register of socket [n] as the first transaction of a run finds it. *)
Definition seen_ir (sch : list tick) (c : chip) (n : Z) : Z :=
  s_ir (c_sock (match sch with [] => c | t :: _ => chip_evs c (t_evs t) end) n).
(** Bits: CON 0, DISCON 1, TIMEOUT 3. *)
Definition ir_bit (k v : Z) : Prop := Z.testbit v k = true.
Definition no_link_change (v : Z) : Prop := ~ ir_bit 0 v /\ ~ ir_bit 1 v /\ ~ ir_bit 3 v.

(** [process] with nothing to handle: the time until the next call, or the end of the wait. *)
Definition waits (c : MqttClient) (now : Z) (x : res merr mevent * MqttClient) : Prop :=
  match st_timeout (mq_st c) with
  | None => x = (Ok MENone, c)
  | Some since =>
      (now - since <= 10 /\ x = (Ok (MECallAfter (10 - (now - since))), c)) \/
      (10 < now - since /\ x = (Err (MStateTimeout (st_state (mq_st c))), mq_set_state c MInit))
  end.
(** The clock has not gone backwards since the wait began. *)
Definition clock_ok (c : MqttClient) (now : Z) : Prop :=
  match st_timeout (mq_st c) with None => True | Some since => since <= now end.

(** For every schedule whose first transaction finds the interrupt register in [P]. *)
Definition ensures_ir {A} (P : Z -> Prop) (p : prog A) (n : Z) (c : chip) (Q : A -> sock -> Prop) : Prop :=
  forall sch, no_faults sch -> P (seen_ir sch c n) ->
  exists a sch' c', run p sch c = (Done a, sch', c') /\ Q a (c_sock c' n).

(** What the owner of a [Publish] event does with it. *)
Inductive pub_op : Type := PTopic (n : Z) | PPayload (n : Z).
Definition pub_op_ok (o : pub_op) : Prop := match o with PTopic n | PPayload n => 0 <= n end.
Fixpoint pub_run (p : PublishReader) (ops : list pub_op) : prog (list (res merr (list Z)) * PublishReader) :=
  match ops with
  | [] => Ret ([], p)
  | o :: r =>
      x <-- (match o with PTopic n => pr_read_topic p n | PPayload n => pr_read_payload p n end) ;;
      y <-- pub_run (snd x) r ;; Ret (fst x :: fst y, snd y)
  end.
(** [process]; if it returns a [Publish] event, reads from it, then [done] or drop. *)
Definition pub_session (dbg : bool) (fuel : nat) (c : MqttClient) (now : Z) (ops : list pub_op) (fin : bool) :
    prog (option (list (res merr (list Z)) * res merr unit) * MqttClient) :=
  x <-- mqtt_process dbg fuel c now ;;
  match fst x with
  | Ok (MEPublish p) =>
      y <-- pub_run p ops ;;
      d <-- (if fin then pr_done (snd y) else Ret (Ok tt)) ;;
      Ret (Some (fst y, d), snd x)
  | _ => Ret (None, snd x)
  end.
(** The buffer of [n] bytes receives the first bytes. *)
Definition pub_answer (topic payload : list Z) (o : pub_op) : res merr (list Z) :=
  Ok (match o with PTopic n => ztake n topic | PPayload n => ztake n payload end).

(** A packet is sent whole, or it does not fit in the free space and nothing is sent. *)
Definition sends {A} (room : Z) (rd tx packet : list Z) (ok failed : A) (x : A) (s' : sock) : Prop :=
  (x = ok /\ tcp_view s' rd (tx ++ packet)) \/ (x = failed /\ room < zlen packet /\ tcp_view s' rd tx).
(** The free space of the transmit buffer. *)
Definition room (s : sock) : Z := tx_size s - pending s.

(** The CONNECT packet of a client: the announced maximum packet size is the size of the receive buffer. *)
Definition connect_of (c : MqttClient) (s : sock) : list Z :=
  connect_packet (match mq_client_id c with Some i => i | None => [] end) (rx_size s).
(** Whatever was processed: some received bytes were removed from the stream, or CONNECT was sent. *)
Definition served (rd tx packet : list Z) (s' : sock) : Prop :=
  exists rd', tcp_view s' (rd ++ rd') tx \/ (rd' = [] /\ tcp_view s' rd (tx ++ packet)).

(** The client has opened its connection: bytes [rd] were taken from the stream so far and [tx] put on it, and
    the clock has not gone backwards. *)
Definition serving (c : MqttClient) (now : Z) (ch : chip) (rd tx : list Z) : Prop :=
  let s := c_sock ch (sn_raw (mq_sn c)) in
  st_state (mq_st c) <> MInit /\ clock_ok c now /\ tcp_view s rd tx /\ bytes_ok (unread s).
(** [x] is complete in the receive buffer. *)
Definition next_is (c : MqttClient) (ch : chip) (x : list Z) : Prop := exists more, unread (c_sock ch (sn_raw (mq_sn c))) = x ++ more.

(** ** Histories *)
Inductive mcall : Type :=
| CProcess (now : Z) | CPublish (topic payload : list Z) | CSubscribe (filter : list Z) | CUnsubscribe (filter : list Z).
Inductive mans : Type := NProcess (r : res merr mevent) | NPublish (r : res merr unit) | NSub (r : res merr Z).
Definition mcall_run (dbg : bool) (fuel : nat) (c : MqttClient) (x : mcall) : prog (mans * MqttClient) :=
  match x with
  | CProcess now => y <-- mqtt_process dbg fuel c now ;; Ret (NProcess (fst y), snd y)
  | CPublish t p => y <-- mqtt_publish c t p ;; Ret (NPublish (fst y), snd y)
  | CSubscribe f => y <-- mqtt_subscribe c f ;; Ret (NSub (fst y), snd y)
  | CUnsubscribe f => y <-- mqtt_unsubscribe c f ;; Ret (NSub (fst y), snd y)
  end.
(** Calls that return, in order, on a bus that may answer anything and fail at any time. *)
Inductive mhistory (dbg : bool) (fuel : nat) (c0 : MqttClient) : list (mcall * mans) -> MqttClient -> Prop :=
| HNil : mhistory dbg fuel c0 [] c0
| HCall h c x a c' : mhistory dbg fuel c0 h c -> any_bus (mcall_run dbg fuel c x) (Done (a, c')) ->
    mhistory dbg fuel c0 (h ++ [(x, a)]) c'.
(** The handshake is complete: CONNACK was reported, and since then neither the end of the connection nor the
    start of a new one.  In this state [process] asks for a later call only when it starts a new handshake. *)
Definition after_answer (up : bool) (a : mans) : bool :=
  match a with
  | NProcess (Ok MEConnAck) => true
  | NProcess (Ok (MECallAfter _)) => false
  | NProcess (Err (MDisconnect | MTcpTimeout | MStateTimeout _ | MConnAck _)) => false
  | _ => up
  end.
Definition connected (h : list (mcall * mans)) : bool := fold_left (fun up xa => after_answer up (snd xa)) h false.
(** The packet identifiers that subscribe and unsubscribe returned, and the number of those calls. *)
Definition is_request (x : mcall) : bool := match x with CSubscribe _ | CUnsubscribe _ => true | _ => false end.
Definition requests (h : list (mcall * mans)) : list (mcall * mans) := filter (fun xa => is_request (fst xa)) h.
Definition nonempty_filter (x : mcall) : bool := match x with CSubscribe f | CUnsubscribe f => negb (zlen f =? 0) | _ => false end.
Fixpoint granted (h : list (mcall * mans)) : list Z :=
  match h with
  | [] => []
  | (x, NSub (Ok id)) :: r => if nonempty_filter x then id :: granted r else granted r
  | _ :: r => granted r
  end.
