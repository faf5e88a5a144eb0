(** The MQTT client: mqtt/src (the client over TLS is in MqttTls.v). *)
From Verif Require Import Model.Prelude Model.Bus Model.Specifiers Model.LlBits Model.Ll Model.HlIo Model.HlCommon Model.HlTcp Model.Stream.

(** ** mqtt/src/data.rs *)

(** 5-10. *)
Inductive DeserError : Type := Fragment | Decode.
(** 15-37; outer [None]: an overflow of [u32], which panics when overflow checks are on. *)
Fixpoint decode_loop (buf : list Z) (multiplier value n_bytes : Z) : option (res DeserError (Z * Z)) :=
  match buf with
  | [] => Some (Err Fragment)
  | encoded_byte :: rest =>
      let n_bytes := n_bytes + 1 in
      let x := Z.land encoded_byte 0x7F * multiplier in
      if 4294967296 <=? x then None else
      let value := value + x in
      if 4294967296 <=? value then None else
      if 128 * 128 * 128 <? multiplier then Some (Err Decode) else
      if Z.land encoded_byte 0x80 =? 0 then Some (Ok (value, n_bytes))
      else decode_loop rest (multiplier * 128) value n_bytes
  end.
Definition decode_variable_byte_integer (buf : list Z) : option (res DeserError (Z * Z)) := decode_loop buf 1 0 0.
(** 39-58; [out]: the bytes stored so far, [None]: [buf[len]] is out of bounds.  One unit of [fuel] per
    iteration; 5 are enough because the fifth is out of bounds. *)
Fixpoint encode_loop (fuel : nat) (integer : Z) (out : list Z) : option (list Z * Z) :=
  match fuel with
  | O => None
  | S f =>
      if 4 <=? zlen out then None else
      let b := u8 (integer mod 128) in
      let integer := integer / 128 in
      let b := if 0 <? integer then Z.lor b 0x80 else b in
      let out := out ++ [b] in
      if integer =? 0 then Some (out ++ zeros (4 - length out), zlen out)
      else encode_loop f integer out
  end.
Definition encode_variable_byte_integer (integer : Z) : option (list Z * Z) := encode_loop 5 integer [].

(** ** mqtt/src/lib.rs *)

(** 105-126. *)
Inductive CtrlPkt : Type :=
| RESERVED | CONNECT | CONNACK | PUBLISH | PUBACK | PUBREC | PUBREL | PUBCOMP
| SUBSCRIBE | SUBACK | UNSUBSCRIBE | UNSUBACK | PINGREQ | PINGRESP | DISCONNECT | AUTH.
Definition ctrl_u8 (c : CtrlPkt) : Z :=
  match c with
  | RESERVED => 0x0 | CONNECT => 0x1 | CONNACK => 0x2 | PUBLISH => 0x3
  | PUBACK => 0x4 | PUBREC => 0x5 | PUBREL => 0x6 | PUBCOMP => 0x7
  | SUBSCRIBE => 0x8 | SUBACK => 0x9 | UNSUBSCRIBE => 0xA | UNSUBACK => 0xB
  | PINGREQ => 0xC | PINGRESP => 0xD | DISCONNECT => 0xE | AUTH => 0xF
  end.
Definition ctrl_all : list CtrlPkt :=
  [RESERVED; CONNECT; CONNACK; PUBLISH; PUBACK; PUBREC; PUBREL; PUBCOMP;
   SUBSCRIBE; SUBACK; UNSUBSCRIBE; UNSUBACK; PINGREQ; PINGRESP; DISCONNECT; AUTH].
(** 129-142. *)
Inductive MState : Type := MInit | WaitConInt | WaitConAck | Ready.
Definition mstate_eqb (a b : MState) : bool :=
  match a, b with
  | MInit, MInit | WaitConInt, WaitConInt | WaitConAck, WaitConAck | Ready, Ready => true
  | _, _ => false
  end.
(** 144-151. *)
Record StateTimeout : Type := mkST { st_state : MState; st_timeout : option Z }.
(** 154-156; the inner [None] is an underflow, which panics when overflow checks are on. *)
Definition st_elapsed (s : StateTimeout) (now : Z) : option (option Z) :=
  match st_timeout s with None => None | Some t => Some (if now <? t then None else Some (now - t)) end.
(** 177. *)
Definition TIMEOUT_SECS : Z := 10.
(** 179-185; [None]: the panic of the encoder. *)
Definition write_variable_byte_integer (integer : Z) : SM unit :=
  match encode_variable_byte_integer integer with
  | None => SPanic
  | Some (buf, len) => s_write_all (ztake len buf)
  end.
(** mqtt/src/connect.rs 6-52. *)
Inductive ConnectReasonCode : Type :=
| CR_UnspecifiedError | CR_MalformedPacket | CR_ProtocolError | CR_ImplementationSpecificError | CR_UnsupportedProtocolVersion
| CR_ClientIdentifierNotValid | CR_BadUserNameOrPassword | CR_NotAuthorized | CR_ServerUnavailable | CR_ServerBusy | CR_Banned
| CR_BadAuthenticationMethod | CR_TopicNameInvalid | CR_PacketTooLarge | CR_QuotaExceeded | CR_PayloadFormatInvalid
| CR_RetainNotSupported | CR_QoSNotSupported | CR_UseAnotherServer | CR_ServerMoved | CR_ConnectionRateExceeded.
Definition connect_code (c : ConnectReasonCode) : Z :=
  match c with
  | CR_UnspecifiedError => 0x80 | CR_MalformedPacket => 0x81 | CR_ProtocolError => 0x82
  | CR_ImplementationSpecificError => 0x83 | CR_UnsupportedProtocolVersion => 0x84
  | CR_ClientIdentifierNotValid => 0x85 | CR_BadUserNameOrPassword => 0x86 | CR_NotAuthorized => 0x87
  | CR_ServerUnavailable => 0x88 | CR_ServerBusy => 0x89 | CR_Banned => 0x8A
  | CR_BadAuthenticationMethod => 0x8C | CR_TopicNameInvalid => 0x90 | CR_PacketTooLarge => 0x95
  | CR_QuotaExceeded => 0x97 | CR_PayloadFormatInvalid => 0x99 | CR_RetainNotSupported => 0x9A
  | CR_QoSNotSupported => 0x9B | CR_UseAnotherServer => 0x9C | CR_ServerMoved => 0x9D
  | CR_ConnectionRateExceeded => 0x9F
  end.
Definition connect_all : list ConnectReasonCode :=
  [CR_UnspecifiedError; CR_MalformedPacket; CR_ProtocolError; CR_ImplementationSpecificError; CR_UnsupportedProtocolVersion;
   CR_ClientIdentifierNotValid; CR_BadUserNameOrPassword; CR_NotAuthorized; CR_ServerUnavailable; CR_ServerBusy; CR_Banned;
   CR_BadAuthenticationMethod; CR_TopicNameInvalid; CR_PacketTooLarge; CR_QuotaExceeded; CR_PayloadFormatInvalid;
   CR_RetainNotSupported; CR_QoSNotSupported; CR_UseAnotherServer; CR_ServerMoved; CR_ConnectionRateExceeded].
(** A Rust [match] whose arms compare the value with the discriminants in this order. *)
Definition match_code {A} (code : A -> Z) (all : list A) (v : Z) : res Z A :=
  match find (fun c => v =? code c) all with Some c => Ok c | None => Err v end.
(** mqtt/src/connect.rs 57-86. *)
Definition connect_try_from (v : Z) : res Z ConnectReasonCode := match_code connect_code connect_all v.
(** mqtt/src/subscribe.rs 11-93. *)
Inductive SubAckReasonCode : Type :=
| SA_QoS0 | SA_QoS1 | SA_QoS2 | SA_UnspecifiedError | SA_ImplementationSpecificError | SA_NotAuthorized | SA_TopicFilterInvalid
| SA_PacketIdentifierInUse | SA_QuotaExceeded | SA_SharedSubscriptionsNotSupported | SA_SubscriptionIdentifiersNotSupported
| SA_WildcardSubscriptionsNotSupported.
Definition suback_code (c : SubAckReasonCode) : Z :=
  match c with
  | SA_QoS0 => 0x00 | SA_QoS1 => 0x01 | SA_QoS2 => 0x02 | SA_UnspecifiedError => 0x80
  | SA_ImplementationSpecificError => 0x83 | SA_NotAuthorized => 0x87 | SA_TopicFilterInvalid => 0x8F
  | SA_PacketIdentifierInUse => 0x91 | SA_QuotaExceeded => 0x97 | SA_SharedSubscriptionsNotSupported => 0x9E
  | SA_SubscriptionIdentifiersNotSupported => 0xA1 | SA_WildcardSubscriptionsNotSupported => 0xA2
  end.
Definition suback_all : list SubAckReasonCode :=
  [SA_QoS0; SA_QoS1; SA_QoS2; SA_UnspecifiedError; SA_ImplementationSpecificError; SA_NotAuthorized; SA_TopicFilterInvalid;
   SA_PacketIdentifierInUse; SA_QuotaExceeded; SA_SharedSubscriptionsNotSupported; SA_SubscriptionIdentifiersNotSupported;
   SA_WildcardSubscriptionsNotSupported].
Definition suback_try_from (v : Z) : res Z SubAckReasonCode := match_code suback_code suback_all v.
(** mqtt/src/subscribe.rs 100-138. *)
Inductive UnSubAckReasonCode : Type :=
| UA_Success | UA_NoSubscriptionExisted | UA_UnspecifiedError | UA_ImplementationSpecificError | UA_NotAuthorized
| UA_TopicFilterInvalid | UA_PacketIdentifierInUse.
Definition unsuback_code (c : UnSubAckReasonCode) : Z :=
  match c with
  | UA_Success => 0x00 | UA_NoSubscriptionExisted => 0x11 | UA_UnspecifiedError => 0x80
  | UA_ImplementationSpecificError => 0x83 | UA_NotAuthorized => 0x87 | UA_TopicFilterInvalid => 0x8F
  | UA_PacketIdentifierInUse => 0x91
  end.
Definition unsuback_all : list UnSubAckReasonCode :=
  [UA_Success; UA_NoSubscriptionExisted; UA_UnspecifiedError; UA_ImplementationSpecificError; UA_NotAuthorized;
   UA_TopicFilterInvalid; UA_PacketIdentifierInUse].
Definition unsuback_try_from (v : Z) : res Z UnSubAckReasonCode := match_code unsuback_code unsuback_all v.

(** mqtt/src/lib.rs 226-262, without the two alerts of the TLS client. *)
Inductive merr : Type :=
| MStateTimeout (s : MState) | MDisconnect | MTcpTimeout | MDecode | MProtocol | MConnAck (c : ConnectReasonCode)
| MOutOfMemory | MNotConnected | MOther.
(** 265-272; [None] is [unreachable!()]. *)
Definition map_w5500 (e : err) : option merr :=
  match e with OutOfMemory => Some MOutOfMemory | UnexpectedEof => Some MDecode | Other => Some MOther | WouldBlock => None end.
(** 299-305. *)
Definition PROPERTY_LEN_LEN : Z := 1.
Definition FILTER_LEN_LEN : Z := 2.
Definition PACKET_ID_LEN : Z := 2.

(** ** mqtt/src/client_id.rs 32-51: the bytes of a valid id. *)
Definition char_is_valid (ch : Z) : bool :=
  ((65 <=? ch) && (ch <=? 90)) || ((97 <=? ch) && (ch <=? 122)) || ((48 <=? ch) && (ch <=? 57)).
Definition client_id_new (client_id : list Z) : option (list Z) :=
  if (zlen client_id =? 0) || (23 <? zlen client_id) then None
  else if forallb char_is_valid client_id then Some client_id else None.

(** ** Sending.  Each function is split before [writer.send()], which consumes the writer: the part here
    writes the packet. *)

(** mqtt/src/connect.rs 89-123.  [ClientId::len] is the length as a [u8]; [None]: overflow of [u8]. *)
Definition connect_head (client_id_len rx_max : Z) : list Z :=
  let KEEP_ALIVE := 15 * 60 in
  [u8 (Z.shiftl (ctrl_u8 CONNECT) 4); 18 + client_id_len; 0; 4; 77; 81; 84; 84; 5; 2;
   u8 (Z.shiftr KEEP_ALIVE 8); u8 KEEP_ALIVE; 5; 0x27; 0; 0; u8 (Z.shiftr rx_max 8); u8 rx_max; 0; client_id_len].
Definition write_connect (client_id : option (list Z)) (rx_max : Z) : SM unit :=
  let client_id_len := match client_id with Some id => u8 (zlen id) | None => 0 end in
  if 256 <=? 18 + client_id_len then SPanic else
  s_write_all (connect_head client_id_len rx_max) ~;;
  match client_id with Some id => s_write_all id | None => sret tt end.
(** mqtt/src/publish.rs 8-35. *)
Definition write_publish (topic payload : list Z) : SM unit :=
  let topic_len := len16 (zlen topic) in
  let payload_len := len16 (zlen payload) in
  let remaining_len := 2 + topic_len + 1 + payload_len in
  s_write_all [u8 (Z.shiftl (ctrl_u8 PUBLISH) 4)] ~;;
  write_variable_byte_integer remaining_len ~;;
  s_write_all (be16 topic_len) ~;;
  s_write_all (ztake topic_len topic) ~;;
  s_write_all [0] ~;;
  s_write_all (ztake payload_len payload).
(** mqtt/src/subscribe.rs 182-212; the additions are on [u16]. *)
Definition write_subscribe (filter : list Z) (pkt_id : Z) : SM unit :=
  let x := u16 (zlen filter) + FILTER_LEN_LEN in
  if 65536 <=? x then SPanic else
  let filter_len := x + 1 in
  if 65536 <=? filter_len then SPanic else
  let remaining_len := PACKET_ID_LEN + PROPERTY_LEN_LEN + filter_len in
  s_write_all [Z.lor (u8 (Z.shiftl (ctrl_u8 SUBSCRIBE) 4)) 2] ~;;
  write_variable_byte_integer remaining_len ~;;
  s_write_all [u8 (Z.shiftr pkt_id 8); u8 pkt_id; 0] ~;;
  s_write_all (be16 (len16 (zlen filter))) ~;;
  s_write_all filter ~;;
  s_write_all [0x24].
(** mqtt/src/subscribe.rs 228-249. *)
Definition write_unsubscribe (filter : list Z) (pkt_id : Z) : SM unit :=
  let filter_len := u16 (zlen filter) + FILTER_LEN_LEN in
  if 65536 <=? filter_len then SPanic else
  let remaining_len := PACKET_ID_LEN + PROPERTY_LEN_LEN + filter_len in
  s_write_all [Z.lor (u8 (Z.shiftl (ctrl_u8 UNSUBSCRIBE) 4)) 2] ~;;
  write_variable_byte_integer remaining_len ~;;
  s_write_all [u8 (Z.shiftr pkt_id 8); u8 pkt_id; 0] ~;;
  s_write_all (be16 (len16 (zlen filter))) ~;;
  s_write_all filter.

(** ** Receiving *)

(** mqtt/src/fixed_header.rs 7-18. *)
Record FixedHeader : Type := mkFH { fh_ctrl : CtrlPkt; fh_flags : Z; fh_remaining : Z; fh_len : Z }.
(** mqtt/src/fixed_header.rs 21-51; outer [None]: panic. *)
Definition header_deser (buf : list Z) : option (res DeserError FixedHeader) :=
  match buf with
  | [] => Some (Err Fragment)
  | byte0 :: rest =>
      match find (fun c => Z.shiftr byte0 4 =? ctrl_u8 c) ctrl_all with
      | None => None
      | Some ctrl =>
          match decode_variable_byte_integer rest with
          | None => None
          | Some (Err e) => Some (Err e)
          | Some (Ok (remaining_len, integer_len)) =>
              if 65536 <=? remaining_len then Some (Err Decode)
              else Some (Ok (mkFH ctrl (Z.land byte0 0xF) remaining_len (integer_len + 1)))
          end
      end
  end.

(** The events that need no reader. *)
Inductive mack : Type :=
| AConnAck
| ASubAck (pkt_id : Z) (code : SubAckReasonCode)
| AUnSubAck (pkt_id : Z) (code : UnSubAckReasonCode).
(** How [recv] ends, before a possible [reader.done()]. *)
Inductive rx_end : Type :=
| RxNone                                        (* [Ok(None)] *)
| RxErr (e : merr) (init : bool)                (* [Err(e)], after [set_state(State::Init)] if [init] *)
| RxDone (s : option MState) (r : res merr (option mack))
                                                (* [reader.done()?], then the state is set to [s], then [r] is returned *)
| RxPublish (topic_len topic_idx payload_len payload_idx : Z).

(** [f().map_err(Error::map_w5500)?] *)
Definition rx_try {A} (p : SM A) (k : A -> sprog rx_end) : sprog rx_end :=
  r <~~ p ;; match r with Ok a => k a | Err e => match map_w5500 e with Some m => SRet (RxErr m false) | None => SPanic end end.
(** [f()?] for the bus error type. *)
Definition rx_io {A} (p : SM A) (k : A -> sprog rx_end) : sprog rx_end :=
  r <~~ p ;; match r with Ok a => k a | Err _ => SRet (RxErr MOther false) end.
(** [x.try_into().unwrap_or(i16::MAX)] for [u16]. *)
Definition clamp_i16 (x : Z) : Z := Z.min x 32767.
Definition sat_sub16 (a b : Z) : Z := Z.max 0 (a - b).

(** mqtt/src/recv.rs 74-105 and 106-137: the two branches differ in the reason code. *)
Definition recv_sub {A} (try_from : Z -> res Z A) (event : Z -> A -> mack) : sprog rx_end :=
  rx_io (s_read 3) (fun buf =>
  if negb (zlen buf =? 3) then SRet (RxErr MDecode false) else
  let pkt_id := of_be16 (at_ buf 0) (at_ buf 1) in
  let property_len := at_ buf 2 in
  rx_try (if negb (property_len =? 0) then s_seek (SCurrent property_len) else sret tt) (fun _ =>
  rx_try (s_read_exact 1) (fun payload =>
  match try_from (at_ payload 0) with
  | Err _ => SRet (RxErr MProtocol true)
  | Ok code => SRet (RxDone None (Ok (Some (event pkt_id code))))
  end))).
(** mqtt/src/recv.rs 138-178. *)
Definition recv_publish (h : FixedHeader) : sprog rx_end :=
  rx_try (s_read_exact 2) (fun b =>
  let topic_len := of_be16 (at_ b 0) (at_ b 1) in
  topic_idx <~~ s_position ;;
  match topic_idx with
  | Err _ => SPanic
  | Ok topic_idx =>
      rx_try (s_seek (SCurrent (clamp_i16 topic_len))) (fun _ =>
      rx_try (s_read_exact 1) (fun p =>
      let property_len := at_ p 0 in
      rx_try (if negb (property_len =? 0) then s_seek (SCurrent property_len) else sret tt) (fun _ =>
      let payload_len := sat_sub16 (sat_sub16 (sat_sub16 (sat_sub16 (fh_remaining h) topic_len) 2) PROPERTY_LEN_LEN) property_len in
      payload_idx <~~ s_position ;;
      match payload_idx with
      | Err _ => SPanic
      | Ok payload_idx => SRet (RxPublish topic_len topic_idx payload_len payload_idx)
      end)))
  end).
(** mqtt/src/recv.rs 44-73. *)
Definition recv_connack (h : FixedHeader) (s : MState) : sprog rx_end :=
  if negb (mstate_eqb s WaitConAck) then SRet (RxErr MProtocol false) else
  rx_try (s_read_exact 2) (fun buf =>
  rx_try (s_seek (SStart (Z.min 65535 (fh_remaining h + 2)))) (fun _ =>
  SRet (match connect_try_from (at_ buf 1) with
        | Err 0 => RxDone (Some Ready) (Ok (Some AConnAck))
        | Ok code => RxDone (Some MInit) (Err (MConnAck code))
        | Err _ => RxDone (Some MInit) (Err MProtocol)
        end))).
(** mqtt/src/recv.rs 9-190. *)
Definition recv_pkt (s : MState) : sprog rx_end :=
  rx_io (s_read 5) (fun buf =>
  match header_deser buf with
  | None => SPanic
  | Some (Err Fragment) => SRet RxNone
  | Some (Err Decode) => SRet (RxErr MDecode true)
  | Some (Ok h) =>
      rx_try (s_seek (SStart (fh_len h))) (fun _ =>
      rem <~~ s_remain ;;
      match rem with
      | Err _ => SPanic
      | Ok rem =>
          if rem <? fh_remaining h then SRet RxNone else
          match fh_ctrl h with
          | RESERVED => SRet (RxErr MDecode true)
          | CONNACK => recv_connack h s
          | SUBACK => recv_sub suback_try_from ASubAck
          | UNSUBACK => recv_sub unsuback_try_from AUnSubAck
          | PUBLISH => recv_publish h
          | _ =>
              rx_try (s_seek (SCurrent (clamp_i16 (fh_remaining h)))) (fun _ =>
              SRet (RxDone None (Ok None)))
          end
      end)
  end).

(** mqtt/src/publish.rs 50-57, 73-109, over the TCP reader. *)
Record PublishReader : Type := mkPR { pr_reader : cursor; pr_topic_len : Z; pr_topic_idx : Z; pr_payload_len : Z; pr_payload_idx : Z }.
(** 73-82 and 85-94: reading [len] bytes at [idx] into a buffer of [n] bytes; the bytes read are returned. *)
Definition read_part (idx len n : Z) : SM (list Z) :=
  s_seek (SStart idx) ~;; s_read_exact (Z.min (len16 n) len).
(** An error of w5500-hl in a function with the error type of this crate. *)
Definition mq_err {A} (r : res err A) : option (res merr A) :=
  match r with Ok a => Some (Ok a) | Err e => match map_w5500 e with Some m => Some (Err m) | None => None end end.
Definition pr_read (idx len : Z) (p : PublishReader) (n : Z) : prog (res merr (list Z) * PublishReader) :=
  x <-- on_cursor (pr_reader p) (read_part idx len n) ;;
  match mq_err (fst x) with
  | None => Panic
  | Some r => Ret (r, mkPR (snd x) (pr_topic_len p) (pr_topic_idx p) (pr_payload_len p) (pr_payload_idx p))
  end.
Definition pr_read_topic (p : PublishReader) (n : Z) := pr_read (pr_topic_idx p) (pr_topic_len p) p n.
Definition pr_read_payload (p : PublishReader) (n : Z) := pr_read (pr_payload_idx p) (pr_payload_len p) p n.
(** 103-109; the addition is on [u16]. *)
Definition pr_done (p : PublishReader) : prog (res merr unit) :=
  if 65536 <=? pr_payload_idx p + pr_payload_len p then Panic else
  x <-- on_cursor (pr_reader p) (s_seek (SStart (pr_payload_idx p + pr_payload_len p))) ;;
  match mq_err (fst x) with
  | None => Panic
  | Some (Err e) => Ret (Err e)
  | Some (Ok _) => r <-- tcp_reader_done (snd x) ;; Ret (match r with Ok _ => Ok tt | Err _ => Err MOther end)
  end.

(** ** The client: mqtt/src/lib.rs *)

(** 195-220. *)
Inductive mevent : Type :=
| MECallAfter (secs : Z)
| MEPublish (p : PublishReader)
| MESubAck (pkt_id : Z) (code : SubAckReasonCode)
| MEUnSubAck (pkt_id : Z) (code : UnSubAckReasonCode)
| MEConnAck
| MENone.
(** 319-328. *)
Record MqttClient : Type := mkMqtt {
  mq_sn : Sn; mq_src_port : Z; mq_server : list Z * Z; mq_client_id : option (list Z); mq_st : StateTimeout; mq_pkt_id : Z }.
(** 356-368, 398-400. *)
Definition mqtt_new (sn : Sn) (src_port : Z) (server : list Z * Z) : MqttClient :=
  mkMqtt sn src_port server None (mkST MInit None) 1.
Definition set_client_id (c : MqttClient) (id : list Z) : MqttClient :=
  mkMqtt (mq_sn c) (mq_src_port c) (mq_server c) (Some id) (mq_st c) (mq_pkt_id c).
(** Assignments. *)
Definition mq_put (c : MqttClient) (s : StateTimeout) : MqttClient :=
  mkMqtt (mq_sn c) (mq_src_port c) (mq_server c) (mq_client_id c) s (mq_pkt_id c).
(** 158-173. *)
Definition mq_set_timeout (c : MqttClient) (s : MState) (now : Z) : MqttClient := mq_put c (mkST s (Some now)).
Definition mq_set_state (c : MqttClient) (s : MState) : MqttClient := mq_put c (mkST s None).
(** 402-405. *)
Definition next_pkt_id (c : MqttClient) : MqttClient :=
  mkMqtt (mq_sn c) (mq_src_port c) (mq_server c) (mq_client_id c) (mq_st c)
    (if mq_pkt_id c + 1 <? 65536 then mq_pkt_id c + 1 else 1).

(** A method with [&mut self]: the client is changed also when the method fails. *)
Definition QM (A : Type) : Type := prog (res merr A * MqttClient).
(** [w5500.f()?] for the bus error type. *)
Definition q_io {A B} (p : M A) (c : MqttClient) (f : A -> QM B) : QM B :=
  r <-- p ;; match r with Ok a => f a | Err _ => Ret (Err MOther, c) end.

(** 663-676. *)
Definition mqtt_tcp_connect (dbg : bool) (fuel : nat) (c : MqttClient) (now : Z) : QM Z :=
  q_io simr c (fun s =>
  q_io (set_simr (Z.lor (sn_bitmask (mq_sn c)) s)) c (fun _ =>
  q_io (set_sn_imr (mq_sn c) (SocketInterruptMask_mask_sendok SocketInterruptMask_RESET)) c (fun _ =>
  q_io (tcp_connect dbg fuel (mq_sn c) (mq_src_port c) (mq_server c)) c (fun _ =>
  Ret (Ok TIMEOUT_SECS, mq_set_timeout c WaitConInt now))))).
(** A writer, a packet and [send]: the end of [send_connect], [send_publish], ... with [map_w5500]. *)
Definition mqtt_send {A} (c c' : MqttClient) (p : SM unit) (a : A) (done : MqttClient) : QM A :=
  q_io (tx_writer (mq_sn c)) c (fun w =>
  x <-- on_cursor w p ;;
  match mq_err (fst x) with
  | None => Panic
  | Some (Err e) => Ret (Err e, c')
  | Some (Ok _) => r <-- cur_send (snd x) ;; match r with Ok _ => Ret (Ok a, done) | Err _ => Ret (Err MOther, c') end
  end).
(** 678-694; [BufferSize::default] is 2 KiB (ll/src/specifiers.rs 661-678). *)
Definition mqtt_send_connect (c : MqttClient) (now : Z) : QM Z :=
  q_io (sn_rxbuf_size (mq_sn c)) c (fun sz =>
  let rx_max := u16 (bufsize_in_bytes (match sz with Ok b => b | Err _ => KB2 end)) in
  mqtt_send c c (write_connect (mq_client_id c) rx_max) TIMEOUT_SECS (mq_set_timeout c WaitConAck now)).

(** 522-537: the end of [process]. *)
Definition mqtt_timeout (c : MqttClient) (now : Z) : QM mevent :=
  match st_elapsed (mq_st c) now with
  | Some None => Panic
  | Some (Some elapsed) =>
      if TIMEOUT_SECS <? elapsed then Ret (Err (MStateTimeout (st_state (mq_st c))), mq_set_state c MInit)
      else Ret (Ok (MECallAfter (Z.max 0 (TIMEOUT_SECS - elapsed))), c)
  | None => Ret (Ok MENone, c)
  end.
Definition mack_event (a : mack) : mevent :=
  match a with AConnAck => MEConnAck | ASubAck i x => MESubAck i x | AUnSubAck i x => MEUnSubAck i x end.
(** 511-520 with [recv]; [inl]: [process] returns, [inr]: it goes on. *)
Definition mqtt_recv (c : MqttClient) (reader : cursor) : prog ((res merr mevent + unit) * MqttClient) :=
  x <-- on_cursor reader (recv_pkt (st_state (mq_st c))) ;;
  match fst x with
  | RxNone => Ret (inr tt, c)
  | RxErr e init => Ret (inl (Err e), if init then mq_set_state c MInit else c)
  | RxDone s r =>
      d <-- tcp_reader_done (snd x) ;;
      match d with
      | Err _ => Ret (inl (Err MOther), c)
      | Ok _ =>
          let c := match s with Some s => mq_set_state c s | None => c end in
          match r with
          | Err e => Ret (inl (Err e), c)
          | Ok None => Ret (inr tt, c)
          | Ok (Some a) => Ret (inl (Ok (mack_event a)), c)
          end
      end
  | RxPublish tl ti pl pi => Ret (inl (Ok (MEPublish (mkPR (snd x) tl ti pl pi))), c)
  end.
(** 511-538. *)
Definition mqtt_rx (dbg : bool) (c : MqttClient) (now : Z) : QM mevent :=
  r <-- tcp_reader dbg (mq_sn c) ;;
  match r with
  | Ok reader =>
      x <-- mqtt_recv c reader ;;
      match fst x with inl r => Ret (r, snd x) | inr _ => mqtt_timeout (snd x) now end
  | Err WouldBlock => mqtt_timeout c now
  | Err Other => Ret (Err MOther, c)
  | Err _ => Panic
  end.
Definition mq_after (p : QM Z) : QM mevent :=
  x <-- p ;; Ret (match fst x with Ok n => Ok (MECallAfter n) | Err e => Err e end, snd x).
(** 472-538. *)
Definition mqtt_process (dbg : bool) (fuel : nat) (c : MqttClient) (now : Z) : QM mevent :=
  if mstate_eqb (st_state (mq_st c)) MInit then mq_after (mqtt_tcp_connect dbg fuel c now) else
  q_io (sn_ir (mq_sn c)) c (fun ir =>
  if SocketInterrupt_any_raised ir then
    q_io (set_sn_ir (mq_sn c) ir) c (fun _ =>
    if SocketInterrupt_discon_raised ir then Ret (Err MDisconnect, mq_set_state c MInit)
    else if SocketInterrupt_con_raised ir then mq_after (mqtt_send_connect c now)
    else if SocketInterrupt_timeout_raised ir then Ret (Err MTcpTimeout, mq_set_state c MInit)
    else mqtt_rx dbg c now)
  else mqtt_rx dbg c now).

(** 542-552. *)
Definition mqtt_is_connected (c : MqttClient) : bool := mstate_eqb (st_state (mq_st c)) Ready.
(** 583-592. *)
Definition mqtt_publish (c : MqttClient) (topic payload : list Z) : QM unit :=
  if negb (mqtt_is_connected c) then Ret (Err MNotConnected, c) else
  mqtt_send c c (write_publish topic payload) tt c.
(** 631-639 with mqtt/src/subscribe.rs 174-218: [next_pkt_id] runs after [tcp_writer] succeeded.  The writer
    is dropped for an empty filter. *)
Definition mqtt_subscribe (c : MqttClient) (filter : list Z) : QM Z :=
  if negb (mqtt_is_connected c) then Ret (Err MNotConnected, c) else
  let c' := next_pkt_id c in
  if zlen filter =? 0 then q_io (tx_writer (mq_sn c)) c (fun _ => Ret (Ok 0, c')) else
  mqtt_send c c' (write_subscribe filter (mq_pkt_id c')) (mq_pkt_id c') c'.
(** 653-661 with mqtt/src/subscribe.rs 220-255. *)
Definition mqtt_unsubscribe (c : MqttClient) (filter : list Z) : QM Z :=
  if negb (mqtt_is_connected c) then Ret (Err MNotConnected, c) else
  let c' := next_pkt_id c in
  if zlen filter =? 0 then q_io (tx_writer (mq_sn c)) c (fun _ => Ret (Ok 0, c')) else
  mqtt_send c c' (write_unsubscribe filter (mq_pkt_id c')) (mq_pkt_id c') c'.
