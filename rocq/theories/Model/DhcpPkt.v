(** dhcp/src/pkt.rs: DHCP messages, and dhcp/src/rand.rs. *)
From Verif Require Import Model.Prelude Model.Bus Model.Specifiers Model.HlIo Model.HlTcp Model.HlUdp Model.Stream.

(** dhcp/src/pkt.rs 12-38: the option codes that are used; the values are the discriminants. *)
Definition OPT_SUBNET_MASK : Z := 1.
Definition OPT_ROUTER : Z := 3.
Definition OPT_DNS : Z := 6.
Definition OPT_HOSTNAME : Z := 12.
Definition OPT_NTP : Z := 42.
Definition OPT_REQUESTED_IP : Z := 50.
Definition OPT_LEASE_TIME : Z := 51.
Definition OPT_MESSAGE_TYPE : Z := 53.
Definition OPT_SERVER_ID : Z := 54.
Definition OPT_PARAMETER_REQUEST : Z := 55.
Definition OPT_RENEWAL_TIME : Z := 58.
Definition OPT_REBINDING_TIME : Z := 59.
Definition OPT_CLIENT_ID : Z := 61.
Definition OPT_END : Z := 255.

(** dhcp/src/pkt.rs 51-74. *)
Inductive MsgType : Type := Discover | Offer | Request | Decline | Ack | Nak | Release | Inform.
Definition msg_type_u8 (m : MsgType) : Z :=
  match m with
  | Discover => 1 | Offer => 2 | Request => 3 | Decline => 4
  | Ack => 5 | Nak => 6 | Release => 7 | Inform => 8
  end.
(** dhcp/src/pkt.rs 79-91. *)
Definition msg_type_try_from (x : Z) : option MsgType :=
  if x =? 1 then Some Discover else if x =? 2 then Some Offer else if x =? 3 then Some Request
  else if x =? 4 then Some Decline else if x =? 5 then Some Ack else if x =? 6 then Some Nak
  else if x =? 7 then Some Release else if x =? 8 then Some Inform else None.

(** dhcp/src/pkt.rs 99-125. *)
Definition BOOTREQUEST : Z := 1.
Definition HTYPE_ETHERNET : Z := 1.
Definition HW_ADDR_LEN : Z := 6.

(** w5500_ll::net [Ipv4Addr::UNSPECIFIED] and [Ipv4Addr::BROADCAST]. *)
Definition IP_UNSPECIFIED : list Z := [0; 0; 0; 0].
Definition IP_BROADCAST : list Z := [255; 255; 255; 255].

(** ** Writing *)

(** dhcp/src/pkt.rs 164-272: each [set_*] seeks and writes. *)
Definition set_at (off : Z) (d : list Z) : SM unit := s_seek (SStart off) ~;; s_write_all d.

(** dhcp/src/pkt.rs 203-206: [(broadcast as u8) << 7]. *)
Definition dhcp_flags (broadcast : bool) : list Z := [if broadcast then 128 else 0; 0].

(** dhcp/src/pkt.rs 142-161, with the setters of 164-272 inlined in the order of the calls. *)
Definition prepare_message (mac : list Z) (xid : Z) : SM unit :=
  set_at 0 [BOOTREQUEST] ~;;
  set_at 1 [HTYPE_ETHERNET] ~;;
  set_at 2 [HW_ADDR_LEN] ~;;
  set_at 3 [0] ~;;
  set_at 4 (be32 xid) ~;;
  set_at 8 (be16 0) ~;;
  set_at 10 (dhcp_flags true) ~;;
  set_at 12 IP_UNSPECIFIED ~;;
  set_at 16 IP_UNSPECIFIED ~;;
  set_at 20 IP_UNSPECIFIED ~;;
  set_at 24 IP_UNSPECIFIED ~;;
  set_at 28 mac ~;; s_write_all (zeros 10) ~;;
  set_at 44 (zeros 64) ~;;
  set_at 108 (zeros 64) ~;; s_write_all (zeros 64) ~;;
  set_at 236 [0x63; 0x82; 0x53; 0x63] ~;;
  s_seek (SStart 240).

(** dhcp/src/pkt.rs 274-320. *)
Definition set_option_msg_type (m : MsgType) : SM unit := s_write_all [OPT_MESSAGE_TYPE; 1; msg_type_u8 m].
Definition set_option_client_id (mac : list Z) : SM unit :=
  s_write_all [OPT_CLIENT_ID; HW_ADDR_LEN + 1; HTYPE_ETHERNET] ~;; s_write_all mac.
(** [Hostname::len] is the length as a [u8]. *)
Definition set_option_hostname (hostname : list Z) : SM unit :=
  s_write_all [OPT_HOSTNAME; u8 (zlen hostname)] ~;; s_write_all hostname.
Definition set_option_parameter_request : SM unit :=
  s_write_all [OPT_PARAMETER_REQUEST; 6; OPT_SUBNET_MASK; OPT_ROUTER; OPT_DNS; OPT_RENEWAL_TIME;
    OPT_REBINDING_TIME; OPT_NTP].
Definition set_option_requested_ip (ip : list Z) : SM unit := s_write_all [OPT_REQUESTED_IP; 4] ~;; s_write_all ip.
Definition set_option_server_id (ip : list Z) : SM unit := s_write_all [OPT_SERVER_ID; 4] ~;; s_write_all ip.
Definition set_option_end : SM unit := s_write_all [OPT_END].

(** dhcp/src/pkt.rs 323-335. *)
Definition dhcp_discover (mac hostname : list Z) (xid : Z) : SM unit :=
  prepare_message mac xid ~;;
  set_option_msg_type Discover ~;;
  set_option_client_id mac ~;;
  set_option_hostname hostname ~;;
  set_option_end.
(** dhcp/src/pkt.rs 338-357. *)
Definition dhcp_request (mac ip hostname : list Z) (server_id : option (list Z)) (xid : Z) : SM unit :=
  prepare_message mac xid ~;;
  set_option_msg_type Request ~;;
  set_option_client_id mac ~;;
  set_option_hostname hostname ~;;
  set_option_parameter_request ~;;
  set_option_requested_ip ip ~;;
  match server_id with
  | Some sid => set_option_server_id sid ~;; set_option_end
  | None => set_option_end
  end.

(** dhcp/src/pkt.rs 360-373.  The serializer owns the writer: [on_cursor] returns the moved writer. *)
Definition send_dhcp_discover (dbg : bool) (sn : Sn) (mac hostname : list Z) (xid : Z)
    (broadcast_addr : list Z * Z) : M unit :=
  writer <- tx_writer sn ;;
  x <-- on_cursor writer (dhcp_discover mac hostname xid) ;;
  match fst x with
  | Err e => fail e
  | Ok _ => udp_writer_send_to dbg (snd x) broadcast_addr
  end.
(** dhcp/src/pkt.rs 375-389. *)
Definition send_dhcp_request (sn : Sn) (mac ip hostname : list Z) (server_id : option (list Z)) (xid : Z) : M unit :=
  writer <- tx_writer sn ;;
  x <-- on_cursor writer (dhcp_request mac ip hostname server_id xid) ;;
  match fst x with
  | Err e => fail e
  | Ok _ => cur_send (snd x)
  end.

(** ** Reading *)

(** dhcp/src/pkt.rs 392-404. *)
Record OptionLocation : Type := mkLoc { ol_option : Z; ol_ptr : Z; ol_len : Z }.
Definition loc_default : OptionLocation := mkLoc 0 0 0.

(** dhcp/src/pkt.rs 409, 416: the cache of a fresh [PktDe]. *)
Definition cache : Type := list OptionLocation.
Definition cache_new : cache := repeat loc_default 9.

(** A method of [PktDe]: it moves the reader and changes the cache, also when it fails. *)
Definition PD (A : Type) : Type := cache -> sprog (res err A * cache).
Definition pd_ret {A} (a : A) : PD A := fun k => SRet (Ok a, k).
Definition pd_bind {A B} (p : PD A) (f : A -> PD B) : PD B := fun k =>
  x <~~ p k ;; match fst x with Ok a => f a (snd x) | Err e => SRet (Err e, snd x) end.
(** A call on the reader only. *)
Definition pd_io {A} (p : SM A) : PD A := fun k => r <~~ p ;; SRet (r, k).
Declare Scope pd_scope.
Delimit Scope pd_scope with pd.
Notation "x <+ p ;; q" := (pd_bind p (fun x => q))
  (at level 61, p at next level, right associativity) : pd_scope.
Open Scope pd_scope.

(** dhcp/src/pkt.rs 423-428: despite its name, true iff the first byte is BOOTREQUEST. *)
Definition is_bootreply : PD bool :=
  _ <+ pd_io (s_seek (SStart 0)) ;;
  b <+ pd_io (s_read_exact 1) ;;
  pd_ret (at_ b 0 =? BOOTREQUEST).
(** dhcp/src/pkt.rs 430-435. *)
Definition pkt_xid : PD Z :=
  _ <+ pd_io (s_seek (SStart 4)) ;;
  b <+ pd_io (s_read_exact 4) ;;
  pd_ret (of_be32 (at_ b 0) (at_ b 1) (at_ b 2) (at_ b 3)).
(** dhcp/src/pkt.rs 440-445. *)
Definition yiaddr : PD (list Z) :=
  _ <+ pd_io (s_seek (SStart 16)) ;;
  pd_io (s_read_exact 4).

(** dhcp/src/pkt.rs 447-459: the first entry whose option is 0 is overwritten, if there is one. *)
Fixpoint cache_put (k : cache) (l : OptionLocation) : cache :=
  match k with
  | [] => []
  | e :: r => if ol_option e =? 0 then l :: r else e :: cache_put r l
  end.
Definition cache_insert (code len : Z) : PD unit := fun k =>
  SAsk APos (fun pos => SRet (Ok tt, cache_put k (mkLoc code pos len))).

(** dhcp/src/pkt.rs 466-478: [inl l] when an entry for the code is found, otherwise [inr start].
    The addition is on [u16]: [None] when it overflows. *)
Fixpoint cache_scan (k : cache) (code start : Z) : option (OptionLocation + Z) :=
  match k with
  | [] => Some (inr start)
  | l :: r =>
      if negb (ol_option l =? 0) then
        if ol_option l =? code then Some (inl l)
        else if 65535 <? ol_ptr l + ol_len l then None
        else cache_scan r code (ol_ptr l + ol_len l)
      else Some (inr start)
  end.

(** dhcp/src/pkt.rs 484-510.  One unit of [fuel] per iteration of the Rust [loop]. *)
Fixpoint option_loop (fuel : nat) (code : Z) : PD (option Z) :=
  match fuel with
  | O => fun _ => SDiverge
  | S f =>
      buf <+ pd_io (s_read 2) ;;
      if negb (zlen buf =? 2) then pd_ret None else
      let byte := at_ buf 0 in
      let len := at_ buf 1 in
      if byte =? 0xFF then pd_ret None
      else if byte =? 0 then
        if len =? 0 then option_loop f code
        else _ <+ pd_io (s_seek (SCurrent (-1))) ;; option_loop f code
      else if byte =? code then
        _ <+ cache_insert byte len ;; pd_ret (Some len)
      else
        _ <+ cache_insert byte len ;;
        _ <+ pd_io (s_seek (SCurrent len)) ;;
        option_loop f code
  end.

(** dhcp/src/pkt.rs 462-511.  The [u16] overflow panics in debug builds and wraps in release builds;
    it is modelled as a panic, and no packet in a socket buffer reaches it. *)
Definition seek_to_option (fuel : nat) (code : Z) : PD (option Z) := fun k =>
  match cache_scan k code 240 with
  | None => SPanic
  | Some (inl l) => (_ <+ pd_io (s_seek (SStart (ol_ptr l))) ;; pd_ret (Some (ol_len l))) k
  | Some (inr start) => (_ <+ pd_io (s_seek (SStart start)) ;; option_loop fuel code) k
  end.

(** dhcp/src/pkt.rs 513-532. *)
Definition find_option_fixed_size (fuel : nat) (n : Z) (code : Z) : PD (option (list Z)) :=
  o <+ seek_to_option fuel code ;;
  match o with
  | None => pd_ret None
  | Some size =>
      if negb (size =? n) then pd_ret None
      else b <+ pd_io (s_read_exact n) ;; pd_ret (Some b)
  end.
(** dhcp/src/pkt.rs 534-539. *)
Definition find_option_u32 (fuel : nat) (code : Z) : PD (option Z) :=
  o <+ find_option_fixed_size fuel 4 code ;;
  pd_ret (match o with Some b => Some (of_be32 (at_ b 0) (at_ b 1) (at_ b 2) (at_ b 3)) | None => None end).
(** dhcp/src/pkt.rs 541-546. *)
Definition find_option_ipv4 (fuel : nat) (code : Z) : PD (option (list Z)) := find_option_fixed_size fuel 4 code.
(** dhcp/src/pkt.rs 549-568. *)
Definition find_option_ipv4_list (fuel : nat) (code : Z) : PD (option (list Z)) :=
  o <+ seek_to_option fuel code ;;
  match o with
  | None => pd_ret None
  | Some size =>
      if negb (size mod 4 =? 0) || (size <? 4) then pd_ret None
      else b <+ pd_io (s_read_exact 4) ;; pd_ret (Some b)
  end.

(** dhcp/src/pkt.rs 571-618. *)
Definition subnet_mask (fuel : nat) : PD (option (list Z)) := find_option_ipv4 fuel OPT_SUBNET_MASK.
Definition pkt_dns (fuel : nat) : PD (option (list Z)) := find_option_ipv4_list fuel OPT_DNS.
Definition pkt_ntp (fuel : nat) : PD (option (list Z)) := find_option_ipv4_list fuel OPT_NTP.
Definition lease_time (fuel : nat) : PD (option Z) := find_option_u32 fuel OPT_LEASE_TIME.
Definition msg_type (fuel : nat) : PD (option MsgType) :=
  o <+ find_option_fixed_size fuel 1 OPT_MESSAGE_TYPE ;;
  pd_ret (match o with Some b => msg_type_try_from (at_ b 0) | None => None end).
Definition dhcp_server (fuel : nat) : PD (option (list Z)) := find_option_ipv4_list fuel OPT_SERVER_ID.
Definition rebinding_time (fuel : nat) : PD (option Z) := find_option_u32 fuel OPT_REBINDING_TIME.
Definition renewal_time (fuel : nat) : PD (option Z) := find_option_u32 fuel OPT_RENEWAL_TIME.

(** ** dhcp/src/rand.rs 6-27: the state is a [u64]; the new state and the [u32] drawn. *)
Definition rand_next_u32 (state : Z) : Z * Z :=
  let s := (state * 0xbb2efcec3c39611d + 0x7590ef39) mod 18446744073709551616 in
  let shift := 29 - s / 2305843009213693952 in
  (s, u32 (s / 2 ^ shift)).
