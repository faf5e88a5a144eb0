(** hl/src/io.rs, and the readers and writers of hl/src/tcp.rs and hl/src/udp.rs. *)
From Verif Require Import Model.Prelude Model.Bus Model.Specifiers Model.LlAddr Model.Ll.

(** hl/src/io.rs 12-19. *)
Inductive SeekFrom : Type :=
| SStart (offset : Z)
| SEnd (offset : Z)
| SCurrent (offset : Z).

(** hl/src/io.rs 24-52. *)
Definition new_ptr (pos : SeekFrom) (ptr head tail : Z) : res err Z :=
  match pos with
  | SStart offset =>
      if wsub tail head <? offset then Err UnexpectedEof else Ok (wadd head offset)
  | SEnd offset =>
      if (0 <? offset) || (wsub tail head <? Z.abs offset) then Err UnexpectedEof
      else Ok (wadd tail offset)
  | SCurrent offset =>
      let max_pos := wsub tail ptr in
      let max_neg := wsub ptr head in
      if ((0 <? offset) && (max_pos <? Z.abs offset)) || ((offset <? 0) && (max_neg <? Z.abs offset))
      then Err UnexpectedEof else Ok (wadd ptr offset)
  end.

(** hl/src/tcp.rs 62-68 ([TcpReader]), 162-168 ([TcpWriter]) and hl/src/udp.rs 166-172
    ([UdpWriter]): all three have the same fields. *)
Record cursor : Type := mkCur { cu_sn : Sn; cu_head : Z; cu_tail : Z; cu_ptr : Z }.

Definition cur_at (c : cursor) (p : Z) : cursor := mkCur (cu_sn c) (cu_head c) (cu_tail c) p.

(** hl/src/tcp.rs 71-74, 171-174; hl/src/udp.rs 88-90, 175-178. *)
Definition cur_seek (c : cursor) (pos : SeekFrom) : res err cursor :=
  match new_ptr pos (cu_ptr c) (cu_head c) (cu_tail c) with
  | Ok p => Ok (cur_at c p)
  | Err e => Err e
  end.

(** [seek(pos)?] inside a fallible function. *)
Definition cur_seekM (c : cursor) (pos : SeekFrom) : M cursor := Ret (cur_seek c pos).

(** hl/src/tcp.rs 76-78, 176-178; hl/src/udp.rs 92-94, 180-182. *)
Definition cur_rewind (c : cursor) : cursor := cur_at c (cu_head c).

(** hl/src/tcp.rs 80-82, 180-182; hl/src/udp.rs 96-98, 184-186. *)
Definition cur_len (c : cursor) : Z := wsub (cu_tail c) (cu_head c).

(** hl/src/tcp.rs 84-86, 184-186; hl/src/udp.rs 100-102, 188-190. *)
Definition cur_pos (c : cursor) : Z := wsub (cu_ptr c) (cu_head c).

(** hl/src/tcp.rs 88-90, 188-190; hl/src/udp.rs 104-106, 192-194. *)
Definition cur_remain (c : cursor) : Z := wsub (cu_tail c) (cu_ptr c).

(** hl/src/tcp.rs 94-105 (and hl/src/udp.rs 110-112).  [n] is [buf.len()]; the filled part of the
    buffer is returned together with the advanced reader. *)
Definition cur_read (c : cursor) (n : Z) : M (list Z * cursor) :=
  let read_size := Z.min (cur_remain c) (len16 n) in
  if negb (read_size =? 0) then
    d <- sn_rx_buf (cu_sn c) (cu_ptr c) read_size ;;
    ret (d, cur_at c (wadd (cu_ptr c) read_size))
  else ret ([], c).

(** hl/src/tcp.rs 107-117 (and hl/src/udp.rs 114-116). *)
Definition cur_read_exact (c : cursor) (n : Z) : M (list Z * cursor) :=
  let buf_len := len16 n in
  let read_size := Z.min (cur_remain c) buf_len in
  if negb (read_size =? buf_len) then fail UnexpectedEof
  else
    d <- sn_rx_buf (cu_sn c) (cu_ptr c) n ;;
    ret (d, cur_at c (wadd (cu_ptr c) read_size)).

(** hl/src/tcp.rs 119-123. *)
Definition tcp_reader_done (c : cursor) : M unit :=
  set_sn_rx_rd (cu_sn c) (cu_ptr c) ;;;
  set_sn_cr (cu_sn c) CRecv ;;;
  ret tt.

(** hl/src/tcp.rs 194-205; hl/src/udp.rs 198-209 (same text). *)
Definition cur_write (c : cursor) (buf : list Z) : M (Z * cursor) :=
  let write_size := Z.min (cur_remain c) (len16 (zlen buf)) in
  if negb (write_size =? 0) then
    set_sn_tx_buf (cu_sn c) (cu_ptr c) (ztake write_size buf) ;;;
    ret (write_size, cur_at c (wadd (cu_ptr c) write_size))
  else ret (0, c).

(** hl/src/tcp.rs 207-217; hl/src/udp.rs 211-221 (same text). *)
Definition cur_write_all (c : cursor) (buf : list Z) : M cursor :=
  let buf_len := len16 (zlen buf) in
  let write_size := Z.min (cur_remain c) buf_len in
  if negb (write_size =? buf_len) then fail OutOfMemory
  else
    set_sn_tx_buf (cu_sn c) (cu_ptr c) buf ;;;
    ret (cur_at c (wadd (cu_ptr c) write_size)).

(** hl/src/tcp.rs 219-223; hl/src/udp.rs 223-227 (same text). *)
Definition cur_send (c : cursor) : M unit :=
  set_sn_tx_wr (cu_sn c) (cu_ptr c) ;;;
  set_sn_cr (cu_sn c) CSend ;;;
  ret tt.
