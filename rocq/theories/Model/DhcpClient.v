(** The DHCP client: dhcp/src/lib.rs. *)
From Verif Require Import Model.Prelude Model.Bus Model.Specifiers Model.LlBits Model.Ll Model.HlCommon Model.HlIo Model.HlUdp
  Model.Stream Model.DhcpPkt.

(** dhcp/src/lib.rs 46-52. *)
Definition DST_PORT : Z := 67.
Definition SRC_PORT : Z := 68.
Definition LINK_UP_TIMEOUT_SECS : Z := 1.

(** dhcp/src/lib.rs 59-72. *)
Inductive State : Type := Init | Selecting | Requesting | Bound | Renewing | Rebinding.
Definition state_eqb (a b : State) : bool :=
  match a, b with
  | Init, Init | Selecting, Selecting | Requesting, Requesting | Bound, Bound | Renewing, Renewing
  | Rebinding, Rebinding => true
  | _, _ => false
  end.

(** dhcp/src/lib.rs 113-150. *)
Record Client : Type := mkClient {
  cl_sn : Sn; cl_state : State; cl_state_timeout : option Z; cl_timeout : Z;
  cl_t1 : Z; cl_t2 : Z; cl_lease : Z; cl_lease_secs : Z; cl_server : option (list Z);
  cl_xid : Z; cl_rand : Z; cl_mac : list Z; cl_ip : list Z; cl_hostname : list Z;
  cl_dns : option (list Z); cl_ntp : option (list Z); cl_broadcast : list Z * Z; cl_port : Z }.

(** Assignments to fields. *)
Definition put_state (c : Client) (s : State) (t : option Z) : Client :=
  mkClient (cl_sn c) s t (cl_timeout c) (cl_t1 c) (cl_t2 c) (cl_lease c) (cl_lease_secs c) (cl_server c)
    (cl_xid c) (cl_rand c) (cl_mac c) (cl_ip c) (cl_hostname c) (cl_dns c) (cl_ntp c) (cl_broadcast c) (cl_port c).
Definition put_timeout (c : Client) (t : Z) : Client :=
  mkClient (cl_sn c) (cl_state c) (cl_state_timeout c) t (cl_t1 c) (cl_t2 c) (cl_lease c) (cl_lease_secs c) (cl_server c)
    (cl_xid c) (cl_rand c) (cl_mac c) (cl_ip c) (cl_hostname c) (cl_dns c) (cl_ntp c) (cl_broadcast c) (cl_port c).
Definition put_times (c : Client) (t1 t2 lease now : Z) : Client :=
  mkClient (cl_sn c) (cl_state c) (cl_state_timeout c) (cl_timeout c) t1 t2 lease now (cl_server c)
    (cl_xid c) (cl_rand c) (cl_mac c) (cl_ip c) (cl_hostname c) (cl_dns c) (cl_ntp c) (cl_broadcast c) (cl_port c).
Definition put_server (c : Client) (s : option (list Z)) : Client :=
  mkClient (cl_sn c) (cl_state c) (cl_state_timeout c) (cl_timeout c) (cl_t1 c) (cl_t2 c) (cl_lease c) (cl_lease_secs c) s
    (cl_xid c) (cl_rand c) (cl_mac c) (cl_ip c) (cl_hostname c) (cl_dns c) (cl_ntp c) (cl_broadcast c) (cl_port c).
Definition put_ip (c : Client) (ip : list Z) : Client :=
  mkClient (cl_sn c) (cl_state c) (cl_state_timeout c) (cl_timeout c) (cl_t1 c) (cl_t2 c) (cl_lease c) (cl_lease_secs c) (cl_server c)
    (cl_xid c) (cl_rand c) (cl_mac c) ip (cl_hostname c) (cl_dns c) (cl_ntp c) (cl_broadcast c) (cl_port c).
(** [self.xid = self.rand.next_u32()] *)
Definition next_xid (c : Client) : Client :=
  let '(st, xid) := rand_next_u32 (cl_rand c) in
  mkClient (cl_sn c) (cl_state c) (cl_state_timeout c) (cl_timeout c) (cl_t1 c) (cl_t2 c) (cl_lease c) (cl_lease_secs c) (cl_server c)
    xid st (cl_mac c) (cl_ip c) (cl_hostname c) (cl_dns c) (cl_ntp c) (cl_broadcast c) (cl_port c).
(** [Option::replace] when there is a new value. *)
Definition put_servers (c : Client) (dns ntp : option (list Z)) : Client :=
  mkClient (cl_sn c) (cl_state c) (cl_state_timeout c) (cl_timeout c) (cl_t1 c) (cl_t2 c) (cl_lease c) (cl_lease_secs c) (cl_server c)
    (cl_xid c) (cl_rand c) (cl_mac c) (cl_ip c) (cl_hostname c)
    (match dns with Some x => Some x | None => cl_dns c end) (match ntp with Some x => Some x | None => cl_ntp c end)
    (cl_broadcast c) (cl_port c).

(** dhcp/src/lib.rs 176-199. *)
Definition client_new (sn : Sn) (seed : Z) (mac hostname : list Z) : Client :=
  let '(st, xid) := rand_next_u32 seed in
  mkClient sn Init None 5 0 0 0 0 None xid st mac IP_UNSPECIFIED hostname None None (IP_BROADCAST, DST_PORT) SRC_PORT.
(** dhcp/src/lib.rs 228-230. *)
Definition set_timeout_secs (c : Client) (secs : Z) : Client := put_timeout c secs.
(** dhcp/src/lib.rs 255-260. *)
Definition has_lease (c : Client) : bool :=
  match cl_state c with Bound | Rebinding | Renewing => true | _ => false end.
(** dhcp/src/lib.rs 312-318. *)
Definition leased_ip (c : Client) : option (list Z) := if has_lease c then Some (cl_ip c) else None.

(** dhcp/src/lib.rs 268-276. *)
Definition setup_socket (dbg : bool) (fuel : nat) (c : Client) : M unit :=
  s <- simr ;;
  set_simr (Z.lor (sn_bitmask (cl_sn c)) s) ;;;
  set_sn_imr (cl_sn c) (SocketInterruptMask_unmask_recv SocketInterruptMask_ALL_MASKED) ;;;
  close (cl_sn c) ;;;
  set_sipr (cl_ip c) ;;;
  udp_bind dbg fuel (cl_sn c) (cl_port c).

(** dhcp/src/lib.rs 278-280: [monotonic_secs - to]; the inner [None] is an underflow, which panics
    when overflow checks are on.  Builds without overflow checks are modelled only where there is no
    underflow. *)
Definition timeout_elapsed_secs (c : Client) (now : Z) : option (option Z) :=
  match cl_state_timeout c with
  | None => None
  | Some t => Some (if now <? t then None else Some (now - t))
  end.
Definition sat_sub (a b : Z) : Z := Z.max 0 (a - b).
(** dhcp/src/lib.rs 282-294.  [None]: the underflow of [timeout_elapsed_secs]. *)
Definition next_call (c : Client) (now : Z) : option Z :=
  match timeout_elapsed_secs c now with
  | Some None => None
  | Some (Some elapsed) => Some (sat_sub (cl_timeout c) elapsed)
  | None =>
      let elapsed := sat_sub now (cl_lease_secs c) in
      Some (match cl_state c with
            | Bound => sat_sub (cl_t1 c) elapsed
            | Renewing => sat_sub (cl_t2 c) elapsed
            | _ => sat_sub (cl_lease c) elapsed
            end)
  end.
(** dhcp/src/lib.rs 296-310. *)
Definition set_state_with_timeout (c : Client) (s : State) (now : Z) : Client := put_state c s (Some now).
Definition set_state (c : Client) (s : State) : Client := put_state c s None.

(** A method with [&mut self]: the client is changed also when the method fails. *)
Definition CM (A : Type) : Type := prog (res err A * Client).
Definition c_ret {A} (a : A) (c : Client) : CM A := Ret (Ok a, c).
Definition c_fail {A} (e : err) (c : Client) : CM A := Ret (Err e, c).
Definition c_bind {A B} (p : CM A) (f : A -> Client -> CM B) : CM B :=
  x <-- p ;; match fst x with Ok a => f a (snd x) | Err e => Ret (Err e, snd x) end.
(** [w5500.f()?] *)
Definition c_io {A B} (p : M A) (c : Client) (f : A -> CM B) : CM B :=
  r <-- p ;; match r with Ok a => f a | Err e => Ret (Err e, c) end.

(** dhcp/src/lib.rs 571-593. *)
Definition discover (dbg : bool) (fuel : nat) (c : Client) (now : Z) : CM unit :=
  let c := next_xid (put_ip c IP_UNSPECIFIED) in
  c_io (set_sipr (cl_ip c)) c (fun _ =>
  c_io (udp_bind dbg fuel (cl_sn c) (cl_port c)) c (fun _ =>
  c_io (send_dhcp_discover dbg (cl_sn c) (cl_mac c) (cl_hostname c) (cl_xid c) (cl_broadcast c)) c (fun _ =>
  c_ret tt (set_state_with_timeout c Selecting now)))).
(** dhcp/src/lib.rs 595-608. *)
Definition request (c : Client) : CM unit :=
  let c := next_xid c in
  c_io (send_dhcp_request (cl_sn c) (cl_mac c) (cl_ip c) (cl_hostname c) (cl_server c) (cl_xid c)) c (fun _ =>
  c_ret tt c).

(** A [PktDe]: the reader and the option cache. *)
Definition pkt : Type := (cursor * cache)%type.
(** [pkt.f()?] *)
Definition c_pkt {A B} (p : PD A) (k : pkt) (c : Client) (f : A -> pkt -> CM B) : CM B :=
  x <-- on_cursor (fst k) (p (snd k)) ;;
  match fst (fst x) with Ok a => f a (snd x, snd (fst x)) | Err e => Ret (Err e, c) end.

(** dhcp/src/lib.rs 382-422. *)
Definition recv (dbg : bool) (sn : Sn) (xid : Z) : M (option pkt) :=
  r <-- udp_reader dbg sn ;;
  match r with
  | Err WouldBlock => ret None
  | Err e => fail e
  | Ok reader =>
      if cur_len (ur_inner reader) <? uh_len (ur_header reader) then ret None else
      x <-- on_cursor (ur_inner reader) (is_bootreply cache_new) ;;
      match fst (fst x) with
      | Err e => fail e
      | Ok true => ret None
      | Ok false =>
          y <-- on_cursor (snd x) (pkt_xid (snd (fst x))) ;;
          match fst (fst y) with
          | Err e => fail e
          | Ok recv_xid => if negb (recv_xid =? xid) then ret None else ret (Some (snd y, snd (fst y)))
          end
      end
  end.

(** What one iteration of the receive loop does next: go on, or [return Ok(delay)]. *)
Inductive flow : Type := Continue | Return (delay : Z).
(** [Ok(self.next_call(monotonic_secs))] *)
Definition c_return (c : Client) (now : Z) : CM flow :=
  match next_call c now with None => Panic | Some d => c_ret (Return d) c end.
Definition sat_mul7 (x : Z) : Z := Z.min (7 * x) 4294967295.

(** dhcp/src/lib.rs 469-509: the part of the ACK branch after [pkt.done()]. *)
Definition install (c : Client) (now : Z) (subnet gateway dns ntp : option (list Z)) : CM flow :=
  let finish :=
    (if state_eqb (cl_state c) Requesting then set_sipr (cl_ip c) else ret tt) in
  let last := c_io finish c (fun _ => c_ret Continue (set_state (put_servers c dns ntp) Bound)) in
  let gate :=
    match gateway with
    | Some g => c_io (set_gar g) c (fun _ => last)
    | None => if state_eqb (cl_state c) Renewing then last else c_return c now
    end in
  match subnet with
  | Some m => c_io (set_subr m) c (fun _ => gate)
  | None => if state_eqb (cl_state c) Renewing then gate else c_return c now
  end.
(** dhcp/src/lib.rs 436-510: [Some(MsgType::Ack)]. *)
Definition on_ack (fuel : nat) (c : Client) (now : Z) (k : pkt) : CM flow :=
  c_pkt (subnet_mask fuel) k c (fun subnet k =>
  c_pkt (dhcp_server fuel) k c (fun gateway k =>
  c_pkt (pkt_dns fuel) k c (fun dns k =>
  c_pkt (pkt_ntp fuel) k c (fun ntp k =>
  c_pkt (lease_time fuel) k c (fun lt k =>
  match lt with
  | None => c_return c now
  | Some lease =>
      c_pkt (renewal_time fuel) k c (fun rn k =>
      let renewal := match rn with Some x => x | None => lease / 2 end in
      c_pkt (rebinding_time fuel) k c (fun rb k =>
      let rebinding := match rb with Some x => x | None => sat_mul7 lease / 8 end in
      let c := put_times c (sat_sub renewal (renewal / 8)) (sat_sub rebinding (rebinding / 8)) (sat_sub lease (lease / 8)) now in
      c_io (udp_reader_done (fst k)) c (fun _ => install c now subnet gateway dns ntp)))
  end))))).
(** dhcp/src/lib.rs 425-530: the body of the receive loop. *)
Definition on_packet (dbg : bool) (fuel : nat) (c : Client) (now : Z) (k : pkt) : CM flow :=
  match cl_state c with
  | Selecting =>
      c_pkt yiaddr k c (fun ip k =>
      let c := put_ip c ip in
      c_pkt (dhcp_server fuel) k c (fun sid k =>
      let c := put_server c sid in
      c_io (udp_reader_done (fst k)) c (fun _ =>
      c_bind (request c) (fun _ c =>
      c_ret Continue (set_state_with_timeout c Requesting now)))))
  | Requesting | Renewing | Rebinding =>
      c_pkt (msg_type fuel) k c (fun mt k =>
      match mt with
      | Some Ack => on_ack fuel c now k
      | Some Nak => c_io (udp_reader_done (fst k)) c (fun _ => c_bind (discover dbg fuel c now) (fun _ c => c_ret Continue c))
      | Some _ => c_io (udp_reader_done (fst k)) c (fun _ => c_ret Continue c)
      | None => c_io (udp_reader_done (fst k)) c (fun _ => c_ret Continue c)
      end)
  | Init | Bound => c_io (udp_reader_done (fst k)) c (fun _ => c_ret Continue c)
  end.
(** dhcp/src/lib.rs 424-531: [while let Some(mut pkt) = recv(...)?].  One unit of [fuel] per iteration;
    [None]: the loop ended, [Some d]: the body returned. *)
Fixpoint recv_loop (dbg : bool) (fuel0 fuel : nat) (c : Client) (now : Z) : CM (option Z) :=
  match fuel with
  | O => Diverge
  | S f =>
      c_io (recv dbg (cl_sn c) (cl_xid c)) c (fun o =>
      match o with
      | None => c_ret None c
      | Some k =>
          c_bind (on_packet dbg fuel0 c now k) (fun fl c =>
          match fl with Return d => c_ret (Some d) c | Continue => recv_loop dbg fuel0 f c now end)
      end)
  end.
(** dhcp/src/lib.rs 533-566: timeouts. *)
Definition on_timer (dbg : bool) (fuel : nat) (c : Client) (now : Z) : CM unit :=
  match timeout_elapsed_secs c now with
  | Some None => Panic
  | Some (Some elapsed) => if cl_timeout c <? elapsed then discover dbg fuel c now else c_ret tt c
  | None =>
      match cl_state c with
      | Init => discover dbg fuel c now
      | Selecting | Requesting => c_ret tt c
      | _ =>
          let elapsed := u32 (now - cl_lease_secs c) in
          if cl_lease c <? elapsed then discover dbg fuel c now
          else if (cl_t2 c <? elapsed) && negb (state_eqb (cl_state c) Rebinding) then
            c_bind (request c) (fun _ c => c_ret tt (set_state c Rebinding))
          else if (cl_t1 c <? elapsed) && state_eqb (cl_state c) Bound then
            c_bind (request c) (fun _ c => c_ret tt (set_state c Renewing))
          else c_ret tt c
      end
  end.
(** dhcp/src/lib.rs 364-569.  The same [fuel] bounds every loop. *)
Definition process (dbg : bool) (fuel : nat) (c : Client) (now : Z) : CM Z :=
  c_io (sn_ir (cl_sn c)) c (fun ir =>
  c_io (if SocketInterrupt_any_raised ir then set_sn_ir (cl_sn c) ir else ret tt) c (fun _ =>
  c_io (if state_eqb (cl_state c) Init
        then p <- phycfgr ;; ret (match PhyCfg_lnk p with LinkUp => true | LinkDown => false end)
        else ret true) c (fun up =>
  if negb up then c_ret LINK_UP_TIMEOUT_SECS c else
  c_bind (recv_loop dbg fuel fuel c now) (fun o c =>
  match o with
  | Some d => c_ret d c
  | None =>
      c_bind (on_timer dbg fuel c now) (fun _ c =>
      match next_call c now with None => Panic | Some d => c_ret d c end)
  end)))).
