(** Every function of the [Common], [Tcp] and [Udp] traits and of the readers and writers, as one call
    on one socket.  Only success or failure of the result is kept. *)
From Verif Require Import Model.Prelude Model.Bus Model.Chip Model.Specifiers Model.HlIo Model.HlCommon
  Model.HlTcp Model.HlUdp Spec.Hoare Spec.Sock.

Inductive call : Type :=
(* Common *)
| KLocalAddr | KClose | KIsClosed | KIsTcp | KIsUdp
(* Tcp *)
| KConnect (port : Z) (a : list Z * Z) | KListen (port : Z) | KRead (n : Z) | KWrite (buf : list Z)
| KDisconnect | KTcpReader | KTcpWriter
(* Udp *)
| KBind (port : Z) | KRecvFrom (n : Z) | KPeekFrom (n : Z) | KPeekHeader | KSend (buf : list Z)
| KSendTo (buf : list Z) (a : list Z * Z) | KSendIfFree (buf : list Z)
| KSendToIfFree (buf : list Z) (a : list Z * Z) | KUdpReader | KUdpWriter
(* readers and writers *)
| KCurRead (c : cursor) (n : Z) | KCurReadExact (c : cursor) (n : Z) | KTcpDone (c : cursor)
| KUdpDone (c : cursor) | KCurWrite (c : cursor) (buf : list Z) | KCurWriteAll (c : cursor) (buf : list Z)
| KCurSend (c : cursor) | KCurSendTo (c : cursor) (a : list Z * Z).

(** The readers and writers belong to the socket. *)
Definition call_on (sn : Sn) (k : call) : Prop :=
  match k with
  | KCurRead c _ | KCurReadExact c _ | KTcpDone c | KUdpDone c | KCurWrite c _ | KCurWriteAll c _
  | KCurSend c | KCurSendTo c _ => cu_sn c = sn
  | _ => True
  end.

Definition unit_of {A} (p : M A) : M unit := p ;;; ret tt.

Definition call_run (dbg : bool) (fuel : nat) (sn : Sn) (k : call) : M unit :=
  match k with
  | KLocalAddr => unit_of (local_addr sn)
  | KClose => unit_of (close sn)
  | KIsClosed => unit_of (is_state_closed sn)
  | KIsTcp => unit_of (is_state_tcp sn)
  | KIsUdp => unit_of (is_state_udp sn)
  | KConnect port a => unit_of (tcp_connect dbg fuel sn port a)
  | KListen port => unit_of (tcp_listen dbg fuel sn port)
  | KRead n => unit_of (tcp_read dbg sn n)
  | KWrite buf => unit_of (tcp_write dbg sn buf)
  | KDisconnect => unit_of (tcp_disconnect dbg sn)
  | KTcpReader => unit_of (tcp_reader dbg sn)
  | KTcpWriter | KUdpWriter => unit_of (tx_writer sn)
  | KBind port => unit_of (udp_bind dbg fuel sn port)
  | KRecvFrom n => unit_of (udp_recv_from dbg sn n)
  | KPeekFrom n => unit_of (udp_peek_from dbg sn n)
  | KPeekHeader => unit_of (udp_peek_from_header dbg sn)
  | KSend buf => unit_of (udp_send dbg sn buf)
  | KSendTo buf a => unit_of (udp_send_to dbg sn buf a)
  | KSendIfFree buf => unit_of (udp_send_if_free dbg sn buf)
  | KSendToIfFree buf a => unit_of (udp_send_to_if_free dbg sn buf a)
  | KUdpReader => unit_of (udp_reader dbg sn)
  | KCurRead c n => unit_of (cur_read c n)
  | KCurReadExact c n => unit_of (cur_read_exact c n)
  | KTcpDone c => unit_of (tcp_reader_done c)
  | KUdpDone c => unit_of (udp_reader_done c)
  | KCurWrite c buf => unit_of (cur_write c buf)
  | KCurWriteAll c buf => unit_of (cur_write_all c buf)
  | KCurSend c => unit_of (cur_send c)
  | KCurSendTo c a => unit_of (udp_writer_send_to dbg c a)
  end.

(** A client that makes these calls whatever their results. *)
Fixpoint calls_run (dbg : bool) (fuel : nat) (sn : Sn) (ks : list call) : prog (list (res err unit)) :=
  match ks with
  | [] => Ret []
  | k :: r => x <-- call_run dbg fuel sn k ;; xs <-- calls_run dbg fuel sn r ;; Ret (x :: xs)
  end.

(** The events of a schedule that concern socket [m], in order. *)
Definition events_for (m : Z) (sch : list tick) : list sevent :=
  concat (map (fun t => map ev_what (filter (fun e => ev_sn e =? m) (t_evs t))) sch).

(** Calls with a polling loop and calls with a debug assertion. *)
Definition is_opening (k : call) : bool :=
  match k with KConnect _ _ | KListen _ | KBind _ => true | _ => false end.
Definition has_assertion (k : call) : bool :=
  match k with
  | KConnect _ _ | KListen _ | KBind _ | KRead _ | KWrite _ | KDisconnect | KTcpReader | KRecvFrom _
  | KPeekFrom _ | KPeekHeader | KSend _ | KSendTo _ _ | KSendIfFree _ | KSendToIfFree _ _ | KUdpReader
  | KCurSendTo _ _ => true
  | _ => false
  end.

(** The statuses in which the port of a socket does not count as taken. *)
Definition port_free (status : Z) : Prop := status = 0x00 \/ status = 0x1C \/ status = 0x1A.
Definition local_port (s : sock) : Z := of_word (s_reg s) 0x04.
(** Socket [s] holds [port] and will hold it whatever the network does. *)
Definition holds_port (s : sock) (port : Z) : Prop :=
  local_port s = port /\ forall s', only_events s s' -> ~ port_free (s_sr s').

(** [p dbg] is one of the three calls that open socket [sn] on local port [port]. *)
Definition opens (fuel : nat) (sn : Sn) (port : Z) (p : bool -> M unit) : Prop :=
  p = (fun dbg => udp_bind dbg fuel sn port) \/ p = (fun dbg => tcp_listen dbg fuel sn port) \/
  exists a, p = (fun dbg => tcp_connect dbg fuel sn port a).

(** A command as the chip saw it. *)
Definition command (cmd status mode port : Z) (dest : list Z * Z) : cmdrec :=
  {| cr_cmd := cmd; cr_sr := status; cr_mr := mode; cr_port := port;
     cr_dip := fst dest; cr_dport := snd dest |}.
(** [s'] has seen the commands of [s], a CLOSE and then exactly [l]. *)
Definition reopened (s s' : sock) (l : list cmdrec) : Prop :=
  exists c, cr_cmd c = 0x10 /\ s_cmdlog s' = s_cmdlog s ++ c :: l.
(** The configuration registers. *)
Definition configured (s : sock) (mode port : Z) (dest : list Z * Z) : Prop :=
  s_reg s 0x00 = mode /\ local_port s = port /\ (dest_ip s, dest_port s) = dest.
(** Legal buffer sizes. *)
Definition sizes_ok (s : sock) : Prop := size_ok (rx_size s) /\ size_ok (tx_size s).
