(** The MQTT client over TLS: mqtt/src/tls.rs.  Logging is not modelled. *)
From Verif Require Import Model.Prelude Model.Bus Model.Specifiers Model.HlIo Model.Stream Model.Mqtt.
From Verif Require Import Model.TlsTypes Model.TlsBuf Model.TlsKeys Model.TlsRecord Model.TlsClient.

(** tls/src/io.rs 368-381: [Seek::stream_position], [remain] (a [u16] subtraction) and [stream_len] of [TlsReader]. *)
Definition tr_ask (r : CircleReader) (q : ask) : tres Z :=
  match q with APos => TOk (cr_ptr r) | ARemain => usub (cr_len r) (cr_ptr r) | ALen => TOk (cr_len r) end.
(** Running generic code on a [TlsReader]. *)
Fixpoint on_circle {A} (r : CircleReader) (p : sprog A) : tres (A * CircleReader) :=
  match p with
  | SRet a => TOk (a, r)
  | SCall o k => tbind (tr_op r o) (fun x => on_circle (snd x) (k (fst x)))
  | SAsk q k => tbind (tr_ask r q) (fun z => on_circle r (k z))
  | SPanic => TPanic
  | SDiverge => TDiverge
  end.
(** Code that does not use the bus and has no alerts. *)
Definition lift {A B} (t : tres A) (k : A -> prog B) : prog B :=
  match t with TOk a => k a | TErr _ | TPanic => Panic | TDiverge => Diverge end.

(** mqtt/src/lib.rs 226-262 with the two alerts. *)
Inductive mterr : Type := MTErr (e : merr) | MTServer (a : Alert) | MTClient (a : Alert).
(** mqtt/src/publish.rs 50-57 with a [TlsReader]. *)
Record TlsPublish : Type := mkTP { tp_reader : CircleReader; tp_topic_len : Z; tp_topic_idx : Z; tp_payload_len : Z; tp_payload_idx : Z }.
(** mqtt/src/lib.rs 195-220 with a [TlsReader]. *)
Inductive mtevent : Type := TECallAfter (secs : Z) | TEPublish (p : TlsPublish) | TEAck (a : mack) | TENone.

(** 91-98 *)
Record MqttTls : Type := mkMT { mt_tls : TlsClient; mt_client_id : option (list Z); mt_st : StateTimeout; mt_pkt_id : Z }.
Definition mt_put (c : MqttTls) (t : TlsClient) : MqttTls := mkMT t (mt_client_id c) (mt_st c) (mt_pkt_id c).
Definition mt_set_st (c : MqttTls) (s : StateTimeout) : MqttTls := mkMT (mt_tls c) (mt_client_id c) s (mt_pkt_id c).
(** mqtt/src/lib.rs 170-173 *)
Definition mt_set_state (c : MqttTls) (s : MState) : MqttTls := mt_set_st c (mkST s None).
(** 161-163 *)
Definition mt_set_client_id (c : MqttTls) (id : list Z) : MqttTls := mkMT (mt_tls c) (Some id) (mt_st c) (mt_pkt_id c).
(** 165-168 *)
Definition mt_next_pkt_id (c : MqttTls) : MqttTls :=
  mkMT (mt_tls c) (mt_client_id c) (mt_st c) (if mt_pkt_id c + 1 <? 65536 then mt_pkt_id c + 1 else 1).

(** 76-85; [None] is [unreachable!()] *)
Definition map_tls_writer_err (e : TError) : option mterr :=
  match e with
  | EUnexpectedDisconnect | ETcpTimeout | EStateTimeout _ => None
  | EServer a => Some (MTServer a)
  | EClient a => Some (MTClient a)
  | ENotConnected => Some (MTErr MNotConnected)
  end.

Section Client.
Variables (cx : Crypto) (dbg : bool) (fuel : nat).
Definition NM (A : Type) : Type := prog (res mterr A * MqttTls).

(** 139-158 *)
Definition mt_new (sn : Sn) (src_port : Z) (hostname : list Z) (dst : list Z * Z) (identity psk rx : list Z) : MqttTls :=
  mkMT (tls_new cx sn src_port hostname dst identity psk rx) None (mkST MInit None) 1.

(** [self.tls.writer(w5500).map_err(map_tls_writer_err)?] and a packet ended with [send] or, without it, the dropped
    writer: the end of [publish], [subscribe], [unsubscribe] and [send_connect]. *)
Definition mt_send {A} (c : MqttTls) (p : option (SM unit)) (a : A) : NM A :=
  w <-- tls_writer (mt_tls c) ;;
  match w with
  | Err e => match map_tls_writer_err e with Some m => Ret (Err m, c) | None => Panic end
  | Ok w =>
      match p with
      | None => Ret (Ok a, c)
      | Some p =>
          x <-- on_cursor w p ;;
          match mq_err (fst x) with
          | None => Panic
          | Some (Err e) => Ret (Err (MTErr e), c)
          | Some (Ok _) =>
              r <-- tls_writer_send cx (snd x) (tc_ks (mt_tls c)) ;; let '(r, ks) := r in
              let c := mt_put c (tc_set_ks (mt_tls c) ks) in
              match r with Ok _ => Ret (Ok a, c) | Err _ => Ret (Err (MTErr MOther), c) end
          end
      end
  end.
(** 266-284; the subtraction is on [u16] *)
Definition mt_send_connect (c : MqttTls) (now : Z) : NM Z :=
  let n := u16 (b_N (tc_rx (mt_tls c))) in
  if n <? 22 then Panic else
  x <-- mt_send c (Some (write_connect (mt_client_id c) (n - 22))) TIMEOUT_SECS ;; let '(r, c) := x in
  match r with Ok a => Ret (Ok a, mt_set_st c (mkST WaitConAck (Some now))) | Err e => Ret (Err e, c) end.

(** 209-224 *)
Definition mt_timeout (c : MqttTls) (now : Z) : NM mtevent :=
  match st_elapsed (mt_st c) now with
  | Some None => Panic
  | Some (Some elapsed) =>
      if TIMEOUT_SECS <? elapsed then Ret (Err (MTErr (MStateTimeout (st_state (mt_st c)))), mt_set_state c MInit)
      else Ret (Ok (TECallAfter (Z.max 0 (TIMEOUT_SECS - elapsed))), c)
  | None => Ret (Ok TENone, c)
  end.
(** [TlsReader::done] *)
Definition mt_reader_done (c : MqttTls) (r : CircleReader) : MqttTls :=
  mt_put c (tc_set_rx (mt_tls c) (b_reader_done (tc_rx (mt_tls c)) r)).
(** 197-207 with mqtt/src/recv.rs 9-190 *)
Definition mt_rx (c : MqttTls) (now : Z) : NM mtevent :=
  match tls_reader (mt_tls c) with
  | None => mt_timeout c now
  | Some reader =>
      lift (on_circle reader (recv_pkt (st_state (mt_st c)))) (fun x =>
      match fst x with
      | RxNone => mt_timeout c now
      | RxErr e init => Ret (Err (MTErr e), if init then mt_set_state c MInit else c)
      | RxDone s r =>
          let c := mt_reader_done c (snd x) in
          let c := match s with Some s => mt_set_state c s | None => c end in
          match r with
          | Err e => Ret (Err (MTErr e), c)
          | Ok None => mt_timeout c now
          | Ok (Some a) => Ret (Ok (TEAck a), c)
          end
      | RxPublish tl ti pl pi => Ret (Ok (TEPublish (mkTP (snd x) tl ti pl pi)), c)
      end)
  end.
(** 171-225 *)
Definition mt_process (c : MqttTls) (rng : Rng) (now : Z) : NM mtevent :=
  x <-- tls_process cx dbg fuel (mt_tls c) rng now ;; let '(r, t) := x in
  let c := mt_put c t in
  match r with
  | Err (EServer a) => Ret (Err (MTServer a), c)
  | Err (EClient a) => Ret (Err (MTClient a), c)
  | Err EUnexpectedDisconnect => Ret (Err (MTErr MDisconnect), c)
  | Err ETcpTimeout => Ret (Err (MTErr MTcpTimeout), c)
  | Err (EStateTimeout _) => Ret (Err (MTErr (MStateTimeout WaitConAck)), c)
  | Err ENotConnected => Panic
  | Ok (TCallAfter after) => Ret (Ok (TECallAfter after), c)
  | Ok THandshakeFinished =>
      y <-- mt_send_connect c now ;; let '(r, c) := y in
      match r with Ok after => Ret (Ok (TECallAfter after), c) | Err e => Ret (Err e, c) end
  | Ok TDisconnect => Ret (Err (MTErr MDisconnect), c)
  | Ok TApplicationData | Ok TNone => mt_rx c now
  end.

(** 229-231 *)
Definition mt_is_connected (c : MqttTls) : bool := mstate_eqb (st_state (mt_st c)) Ready.
(** 234-242 *)
Definition mt_publish (c : MqttTls) (topic payload : list Z) : NM unit := mt_send c (Some (write_publish topic payload)) tt.
(** 245-253; [send_subscribe] drops the writer when the filter is empty *)
Definition mt_subscribe (c : MqttTls) (filter : list Z) : NM Z :=
  let c := mt_next_pkt_id c in
  if zlen filter =? 0 then mt_send c None 0 else mt_send c (Some (write_subscribe filter (mt_pkt_id c))) (mt_pkt_id c).
(** 256-264 *)
Definition mt_unsubscribe (c : MqttTls) (filter : list Z) : NM Z :=
  let c := mt_next_pkt_id c in
  if zlen filter =? 0 then mt_send c None 0 else mt_send c (Some (write_unsubscribe filter (mt_pkt_id c))) (mt_pkt_id c).

(** mqtt/src/publish.rs 73-94 with a [TlsReader]; a [None] inside is [unreachable!()] *)
Definition tp_read (idx len : Z) (p : TlsPublish) (n : Z) : tres (res merr (list Z) * TlsPublish) :=
  tbind (on_circle (tp_reader p) (read_part idx len n)) (fun x =>
  match mq_err (fst x) with
  | None => TPanic
  | Some r => TOk (r, mkTP (snd x) (tp_topic_len p) (tp_topic_idx p) (tp_payload_len p) (tp_payload_idx p))
  end).
Definition tp_read_topic (p : TlsPublish) (n : Z) := tp_read (tp_topic_idx p) (tp_topic_len p) p n.
Definition tp_read_payload (p : TlsPublish) (n : Z) := tp_read (tp_payload_idx p) (tp_payload_len p) p n.
(** 103-109; the addition is on [u16] *)
Definition tp_done (c : MqttTls) (p : TlsPublish) : tres (res merr unit * MqttTls) :=
  if 65536 <=? tp_payload_idx p + tp_payload_len p then TPanic else
  tbind (on_circle (tp_reader p) (s_seek (SStart (tp_payload_idx p + tp_payload_len p)))) (fun x =>
  match mq_err (fst x) with
  | None => TPanic
  | Some (Err e) => TOk (Err e, c)
  | Some (Ok _) => TOk (Ok tt, mt_reader_done c (snd x))
  end).
End Client.
