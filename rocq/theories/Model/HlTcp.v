(** hl/src/tcp.rs: the [Tcp] trait.  [dbg] is [cfg!(debug_assertions)], [fuel] bounds each polling
    loop. *)
From Verif Require Import Model.Prelude Model.Bus Model.Specifiers Model.LlAddr Model.LlBits Model.Ll
  Model.HlIo Model.HlCommon.

(** hl/src/tcp.rs 448-451 and the same assertion at 502-505, 560-563, 588-591. *)
Definition tcp_state_ok (sn : Sn) : M bool :=
  s <- sn_sr sn ;;
  ret (match s with Ok Udp | Ok Init | Ok Macraw => false | _ => true end).

(** hl/src/tcp.rs 306, 392: [SocketMode::DEFAULT.set_protocol(Protocol::Tcp)]. *)
Definition MODE_TCP : Z := SocketMode_set_protocol SocketMode_RESET PTcp.

(** hl/src/tcp.rs 294-317. *)
Definition tcp_connect (dbg : bool) (fuel : nat) (sn : Sn) (port : Z) (addr : list Z * Z) : M unit :=
  debug_assert dbg (port_is_unique sn port) ;;;
  set_sn_cr sn CClose ;;;
  poll_status fuel sn Closed ;;;
  set_sn_mr sn MODE_TCP ;;;
  set_sn_port sn port ;;;
  set_sn_cr sn COpen ;;;
  set_sn_dest sn addr ;;;
  poll_status fuel sn Init ;;;
  set_sn_cr sn CConnect.

(** hl/src/tcp.rs 381-401. *)
Definition tcp_listen (dbg : bool) (fuel : nat) (sn : Sn) (port : Z) : M unit :=
  debug_assert dbg (port_is_unique sn port) ;;;
  set_sn_cr sn CClose ;;;
  poll_status fuel sn Closed ;;;
  set_sn_mr sn MODE_TCP ;;;
  set_sn_port sn port ;;;
  set_sn_cr sn COpen ;;;
  poll_status fuel sn Init ;;;
  set_sn_cr sn CListen.

(** hl/src/tcp.rs 447-464.  [n] is [buf.len()]; the bytes stored in the buffer are returned, their
    number is the Rust return value. *)
Definition tcp_read (dbg : bool) (sn : Sn) (n : Z) : M (list Z) :=
  debug_assert dbg (tcp_state_ok sn) ;;;
  rsr <- sn_rx_rsr sn ;;
  let rx_bytes := Z.min rsr (len16 n) in
  if negb (rx_bytes =? 0) then
    ptr <- sn_rx_rd sn ;;
    d <- sn_rx_buf sn ptr rx_bytes ;;
    set_sn_rx_rd sn (wadd ptr rx_bytes) ;;;
    set_sn_cr sn CRecv ;;;
    ret d
  else ret [].

(** hl/src/tcp.rs 501-519. *)
Definition tcp_write (dbg : bool) (sn : Sn) (buf : list Z) : M Z :=
  debug_assert dbg (tcp_state_ok sn) ;;;
  let data_len := len16 (zlen buf) in
  free_size <- sn_tx_fsr sn ;;
  let tx_bytes := Z.min data_len free_size in
  if negb (tx_bytes =? 0) then
    ptr <- sn_tx_wr sn ;;
    set_sn_tx_buf sn ptr (ztake tx_bytes buf) ;;;
    set_sn_tx_wr sn (wadd ptr tx_bytes) ;;;
    set_sn_cr sn CSend ;;;
    ret tx_bytes
  else ret tx_bytes.

(** hl/src/tcp.rs 559-565. *)
Definition tcp_disconnect (dbg : bool) (sn : Sn) : M unit :=
  debug_assert dbg (tcp_state_ok sn) ;;;
  set_sn_cr sn CDisconnect.

(** hl/src/tcp.rs 584-607. *)
Definition tcp_reader (dbg : bool) (sn : Sn) : M cursor :=
  debug_assert dbg (tcp_state_ok sn) ;;;
  rsr <- sn_rx_rsr sn ;;
  if rsr =? 0 then fail WouldBlock
  else
    rd <- sn_rx_rd sn ;;
    ret (mkCur sn rd (wadd rd rsr) rd).

(** hl/src/tcp.rs 617-630; hl/src/udp.rs 810-823 (same text). *)
Definition tx_writer (sn : Sn) : M cursor :=
  p <- sn_tx_ptrs sn ;;
  ret (mkCur sn (txp_wr p) (wadd (txp_wr p) (txp_fsr p)) (txp_wr p)).
