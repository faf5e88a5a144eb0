(** hl/src/udp.rs: the [Udp] trait. *)
From Verif Require Import Model.Prelude Model.Bus Model.Specifiers Model.LlAddr Model.LlBits Model.Ll
  Model.HlIo Model.HlCommon Model.HlTcp.

(** hl/src/udp.rs 15-23. *)
Record UdpHeader : Type := { uh_origin : list Z * Z; uh_len : Z }.

(** hl/src/udp.rs 31. *)
Definition UDP_HEADER_LEN : Z := 8.

(** hl/src/udp.rs 35-43. *)
Definition udp_header_deser (b : list Z) : UdpHeader :=
  {| uh_origin := (ztake 4 b, of_be16 (at_ b 4) (at_ b 5)); uh_len := of_be16 (at_ b 6) (at_ b 7) |}.

(** hl/src/udp.rs 82-85. *)
Record UdpReader : Type := { ur_inner : cursor; ur_header : UdpHeader }.

(** hl/src/udp.rs 118-126. *)
Definition udp_reader_done (r : cursor) : M unit :=
  set_sn_rx_rd (cu_sn r) (cu_tail r) ;;;
  set_sn_cr (cu_sn r) CRecv ;;;
  ret tt.

(** hl/src/udp.rs 238 and the same assertion at 409, 491, 559, 683, 734, 771. *)
Definition udp_state_ok (sn : Sn) : M bool :=
  s <- sn_sr sn ;; ret (rstatus_eqb s (Ok Udp)).

(** hl/src/udp.rs 237-241. *)
Definition udp_writer_send_to (dbg : bool) (c : cursor) (addr : list Z * Z) : M unit :=
  debug_assert dbg (udp_state_ok (cu_sn c)) ;;;
  set_sn_dest (cu_sn c) addr ;;;
  cur_send c.

(** hl/src/udp.rs 339: [SocketMode::DEFAULT.set_protocol(Protocol::Udp)]. *)
Definition MODE_UDP : Z := SocketMode_set_protocol SocketMode_RESET PUdp.

(** hl/src/udp.rs 327-347. *)
Definition udp_bind (dbg : bool) (fuel : nat) (sn : Sn) (port : Z) : M unit :=
  debug_assert dbg (port_is_unique sn port) ;;;
  set_sn_cr sn CClose ;;;
  poll_status fuel sn Closed ;;;
  set_sn_port sn port ;;;
  set_sn_mr sn MODE_UDP ;;;
  set_sn_cr sn COpen ;;;
  poll_status fuel sn Udp ;;;
  ret tt.

(** hl/src/udp.rs 398-430.  [n] is [buf.len()]; the bytes stored in the buffer are returned. *)
Definition udp_recv_from (dbg : bool) (sn : Sn) (n : Z) : M (list Z * (list Z * Z)) :=
  rsr0 <- sn_rx_rsr sn ;;
  if rsr0 <? UDP_HEADER_LEN then fail WouldBlock else
  let rsr := rsr0 - UDP_HEADER_LEN in
  debug_assert dbg (udp_state_ok sn) ;;;
  ptr <- sn_rx_rd sn ;;
  hb <- sn_rx_buf sn ptr UDP_HEADER_LEN ;;
  let ptr := wadd ptr UDP_HEADER_LEN in
  let header := udp_header_deser hb in
  if rsr <? uh_len header then fail WouldBlock else
  let read_size := Z.min (uh_len header) (len16 n) in
  d <- (if negb (read_size =? 0) then sn_rx_buf sn ptr read_size else ret []) ;;
  let ptr := wadd ptr (uh_len header) in
  set_sn_rx_rd sn ptr ;;;
  set_sn_cr sn CRecv ;;;
  ret (d, uh_origin header).

(** hl/src/udp.rs 480-510. *)
Definition udp_peek_from (dbg : bool) (sn : Sn) (n : Z) : M (list Z * UdpHeader) :=
  rsr0 <- sn_rx_rsr sn ;;
  if rsr0 <? UDP_HEADER_LEN then fail WouldBlock else
  let rsr := rsr0 - UDP_HEADER_LEN in
  debug_assert dbg (udp_state_ok sn) ;;;
  ptr <- sn_rx_rd sn ;;
  hb <- sn_rx_buf sn ptr UDP_HEADER_LEN ;;
  let ptr := wadd ptr UDP_HEADER_LEN in
  let header := udp_header_deser hb in
  if rsr <? uh_len header then fail WouldBlock else
  let read_size := Z.min (uh_len header) (len16 n) in
  d <- (if negb (read_size =? 0) then sn_rx_buf sn ptr read_size else ret []) ;;
  ret (d, header).

(** hl/src/udp.rs 551-565. *)
Definition udp_peek_from_header (dbg : bool) (sn : Sn) : M UdpHeader :=
  rsr <- sn_rx_rsr sn ;;
  if rsr <? UDP_HEADER_LEN then fail WouldBlock else
  debug_assert dbg (udp_state_ok sn) ;;;
  ptr <- sn_rx_rd sn ;;
  hb <- sn_rx_buf sn ptr UDP_HEADER_LEN ;;
  ret (udp_header_deser hb).

(** hl/src/udp.rs 682-695. *)
Definition udp_send (dbg : bool) (sn : Sn) (buf : list Z) : M Z :=
  debug_assert dbg (udp_state_ok sn) ;;;
  let data_len := len16 (zlen buf) in
  free_size <- sn_tx_fsr sn ;;
  let tx_bytes := Z.min data_len free_size in
  if negb (tx_bytes =? 0) then
    ptr <- sn_tx_wr sn ;;
    set_sn_tx_buf sn ptr (ztake tx_bytes buf) ;;;
    set_sn_tx_wr sn (wadd ptr tx_bytes) ;;;
    set_sn_cr sn CSend ;;;
    ret tx_bytes
  else ret tx_bytes.

(** hl/src/udp.rs 599-602. *)
Definition udp_send_to (dbg : bool) (sn : Sn) (buf : list Z) (addr : list Z * Z) : M Z :=
  set_sn_dest sn addr ;;;
  udp_send dbg sn buf.

(** hl/src/udp.rs 733-748. *)
Definition udp_send_if_free (dbg : bool) (sn : Sn) (buf : list Z) : M Z :=
  debug_assert dbg (udp_state_ok sn) ;;;
  if 65535 <? zlen buf then ret 0 else
  let data_len := zlen buf in
  free_size <- sn_tx_fsr sn ;;
  if data_len <=? free_size then
    ptr <- sn_tx_wr sn ;;
    set_sn_tx_buf sn ptr buf ;;;
    set_sn_tx_wr sn (wadd ptr data_len) ;;;
    set_sn_cr sn CSend ;;;
    ret data_len
  else ret data_len.

(** hl/src/udp.rs 639-647. *)
Definition udp_send_to_if_free (dbg : bool) (sn : Sn) (buf : list Z) (addr : list Z * Z) : M Z :=
  set_sn_dest sn addr ;;;
  udp_send_if_free dbg sn buf.

(** hl/src/udp.rs 767-800. *)
Definition udp_reader (dbg : bool) (sn : Sn) : M UdpReader :=
  debug_assert dbg (udp_state_ok sn) ;;;
  rsr0 <- sn_rx_rsr sn ;;
  if rsr0 <? UDP_HEADER_LEN then fail WouldBlock else
  let rsr := rsr0 - UDP_HEADER_LEN in
  rd <- sn_rx_rd sn ;;
  hb <- sn_rx_buf sn rd UDP_HEADER_LEN ;;
  let header := udp_header_deser hb in
  let rsr_or_datagram_len := Z.min (uh_len header) rsr in
  let head := wadd rd UDP_HEADER_LEN in
  ret {| ur_inner := mkCur sn head (wadd head rsr_or_datagram_len) head; ur_header := header |}.
