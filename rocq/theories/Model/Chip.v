(** A behavioural model of the W5500 as seen through the [Registers] trait.

    The chip is not part of /repo.  This file is the environment assumption under which the
    high-level theorems are stated: it follows the register documentation quoted in
    ll/src/lib.rs (doc comments of the accessors, lines 451-2905) and the W5500 datasheet.

    Simplifications, all of them part of the trusted base:
    - commands written to Sn_CR act at once and Sn_CR reads back 0, except that the status
      change of OPEN and CLOSE is delayed until the environment commits it ([EvCommit]);
    - the software reset bit of MR, SIR, PPPoE, wake-on-LAN, PHY state, ARP and MACRAW framing
      are plain storage;
    - timing exists only as the position of an event between two transactions. *)
From Verif Require Import Model.Prelude Model.Bus.

(** A SEND command accepted by the chip and not yet transmitted: destination and length. *)
Record txent : Type := { te_ip : list Z; te_port : Z; te_len : Z }.

(** What was put on the wire: destination and bytes. *)
Record frame : Type := { f_ip : list Z; f_port : Z; f_data : list Z }.

(** One executed command, with the registers that matter to it at that moment. *)
Record cmdrec : Type :=
  { cr_cmd : Z; cr_sr : Z; cr_mr : Z; cr_port : Z; cr_dip : list Z; cr_dport : Z }.

Record sock : Type := mkSock
  { s_reg : Z -> Z        (* plain storage registers, including Sn_TX_WR and Sn_RX_RD *)
  ; s_sr : Z              (* status *)
  ; s_pend : option Z     (* status to be entered by a pending OPEN or CLOSE *)
  ; s_ir : Z              (* interrupt flags *)
  ; s_txmem : Z -> Z
  ; s_rxmem : Z -> Z
  ; s_tx_rd : Z           (* transmit read pointer *)
  ; s_tx_cmd : Z          (* end of the data covered by SEND commands *)
  ; s_txq : list txent    (* accepted SEND commands not yet transmitted *)
  ; s_wire : list frame   (* everything transmitted so far *)
  ; s_rx_base : Z         (* end of the data released by RECV *)
  ; s_rx_wr : Z           (* receive write pointer *)
  ; s_rxlog : list Z      (* every byte ever stored in the receive buffer *)
  ; s_cmdlog : list cmdrec
  }.

Record chip : Type := mkChip { c_common : Z -> Z; c_sock : Z -> sock }.

Definition of_word (f : Z -> Z) (a : Z) : Z := of_be16 (f a) (f (a + 1)).

Definition tx_size (s : sock) : Z := 1024 * s_reg s 0x1F.
Definition rx_size (s : sock) : Z := 1024 * s_reg s 0x1E.
Definition tx_wr (s : sock) : Z := of_word (s_reg s) 0x24.
Definition rx_rd (s : sock) : Z := of_word (s_reg s) 0x28.
Definition dest_ip (s : sock) : list Z := [s_reg s 0x0C; s_reg s 0x0D; s_reg s 0x0E; s_reg s 0x0F].
Definition dest_port (s : sock) : Z := of_word (s_reg s) 0x10.

(** Sn_TX_FSR and Sn_RX_RSR. *)
Definition tx_fsr (s : sock) : Z := Z.max 0 (tx_size s - wsub (tx_wr s) (s_tx_rd s)).
Definition rx_rsr (s : sock) : Z := wsub (s_rx_wr s) (s_rx_base s).

(** A socket buffer is a ring: 16-bit pointers are reduced modulo the configured size. *)
Definition slot (size p : Z) : Z := (p mod 65536) mod size.
Definition ring (mem : Z -> Z) (size p n : Z) : list Z :=
  ztab n (fun i => mem (slot size (p + i))).
Fixpoint ring_write (mem : Z -> Z) (size p : Z) (l : list Z) : Z -> Z :=
  match l with
  | [] => mem
  | b :: r => ring_write (upd mem (slot size p) b) size (p + 1) r
  end.

Definition hi8 (v : Z) : Z := (v / 256) mod 256.
Definition lo8 (v : Z) : Z := v mod 256.

(** Reading one byte of the socket register block. *)
Definition sreg_rd (s : sock) (a : Z) : Z :=
  if a =? 0x01 then 0 else
  if a =? 0x02 then s_ir s else
  if a =? 0x03 then s_sr s else
  if a =? 0x20 then hi8 (tx_fsr s) else
  if a =? 0x21 then lo8 (tx_fsr s) else
  if a =? 0x22 then hi8 (s_tx_rd s) else
  if a =? 0x23 then lo8 (s_tx_rd s) else
  if a =? 0x26 then hi8 (rx_rsr s) else
  if a =? 0x27 then lo8 (rx_rsr s) else
  if a =? 0x2A then hi8 (s_rx_wr s) else
  if a =? 0x2B then lo8 (s_rx_wr s) else
  s_reg s a.

Definition with_reg (s : sock) (r : Z -> Z) : sock :=
  mkSock r (s_sr s) (s_pend s) (s_ir s) (s_txmem s) (s_rxmem s) (s_tx_rd s) (s_tx_cmd s) (s_txq s)
    (s_wire s) (s_rx_base s) (s_rx_wr s) (s_rxlog s) (s_cmdlog s).
Definition with_sr (s : sock) (v : Z) : sock :=
  mkSock (s_reg s) v (s_pend s) (s_ir s) (s_txmem s) (s_rxmem s) (s_tx_rd s) (s_tx_cmd s) (s_txq s)
    (s_wire s) (s_rx_base s) (s_rx_wr s) (s_rxlog s) (s_cmdlog s).
Definition with_pend (s : sock) (v : option Z) : sock :=
  mkSock (s_reg s) (s_sr s) v (s_ir s) (s_txmem s) (s_rxmem s) (s_tx_rd s) (s_tx_cmd s) (s_txq s)
    (s_wire s) (s_rx_base s) (s_rx_wr s) (s_rxlog s) (s_cmdlog s).
Definition with_ir (s : sock) (v : Z) : sock :=
  mkSock (s_reg s) (s_sr s) (s_pend s) v (s_txmem s) (s_rxmem s) (s_tx_rd s) (s_tx_cmd s) (s_txq s)
    (s_wire s) (s_rx_base s) (s_rx_wr s) (s_rxlog s) (s_cmdlog s).
Definition with_txmem (s : sock) (m : Z -> Z) : sock :=
  mkSock (s_reg s) (s_sr s) (s_pend s) (s_ir s) m (s_rxmem s) (s_tx_rd s) (s_tx_cmd s) (s_txq s)
    (s_wire s) (s_rx_base s) (s_rx_wr s) (s_rxlog s) (s_cmdlog s).
Definition with_rx (s : sock) (m : Z -> Z) (wr : Z) (log : list Z) : sock :=
  mkSock (s_reg s) (s_sr s) (s_pend s) (s_ir s) (s_txmem s) m (s_tx_rd s) (s_tx_cmd s) (s_txq s)
    (s_wire s) (s_rx_base s) wr log (s_cmdlog s).
Definition with_rx_base (s : sock) (b : Z) : sock :=
  mkSock (s_reg s) (s_sr s) (s_pend s) (s_ir s) (s_txmem s) (s_rxmem s) (s_tx_rd s) (s_tx_cmd s)
    (s_txq s) (s_wire s) b (s_rx_wr s) (s_rxlog s) (s_cmdlog s).
Definition with_tx (s : sock) (rd cmd : Z) (q : list txent) (w : list frame) : sock :=
  mkSock (s_reg s) (s_sr s) (s_pend s) (s_ir s) (s_txmem s) (s_rxmem s) rd cmd q w
    (s_rx_base s) (s_rx_wr s) (s_rxlog s) (s_cmdlog s).
Definition with_cmdlog (s : sock) (l : list cmdrec) : sock :=
  mkSock (s_reg s) (s_sr s) (s_pend s) (s_ir s) (s_txmem s) (s_rxmem s) (s_tx_rd s) (s_tx_cmd s)
    (s_txq s) (s_wire s) (s_rx_base s) (s_rx_wr s) (s_rxlog s) l.

(** All buffer pointers set to chip-chosen values (OPEN, connection establishment); transmit queue
    emptied. *)
Definition reset_ptrs (s : sock) (ptx prx : Z) : sock :=
  let p := ptx mod 65536 in
  let q := prx mod 65536 in
  let r := upd (upd (upd (upd (s_reg s) 0x24 (hi8 p)) 0x25 (lo8 p)) 0x28 (hi8 q)) 0x29 (lo8 q) in
  mkSock r (s_sr s) (s_pend s) (s_ir s) (s_txmem s) (s_rxmem s) p p []
    (s_wire s) q q (s_rxlog s) (s_cmdlog s).

(** Status after OPEN, from the protocol bits of Sn_MR. *)
Definition open_status (mr : Z) : Z :=
  let p := Z.land mr 0xF in
  if p =? 1 then 0x13 else if p =? 2 then 0x22 else if p =? 4 then 0x42 else 0x00.

(** Execution of a command written to Sn_CR. *)
Definition exec_cmd (s : sock) (v : Z) : sock :=
  let s := with_cmdlog s (s_cmdlog s ++
    [{| cr_cmd := v; cr_sr := s_sr s; cr_mr := s_reg s 0x00; cr_port := of_word (s_reg s) 0x04;
        cr_dip := dest_ip s; cr_dport := dest_port s |}]) in
  if v =? 0x01 then with_pend s (Some (open_status (s_reg s 0x00))) else
  if v =? 0x02 then (if s_sr s =? 0x13 then with_sr s 0x14 else s) else
  if v =? 0x04 then (if s_sr s =? 0x13 then with_sr s 0x15 else s) else
  if v =? 0x08 then (if s_sr s =? 0x17 then with_sr s 0x18 else
                     if s_sr s =? 0x1C then with_sr s 0x1D else s) else
  if v =? 0x10 then with_pend s (Some 0x00) else
  if v =? 0x20 then
    with_tx s (s_tx_rd s) (tx_wr s)
      (s_txq s ++ [{| te_ip := dest_ip s; te_port := dest_port s;
                      te_len := wsub (tx_wr s) (s_tx_cmd s) |}]) (s_wire s) else
  if v =? 0x40 then with_rx_base s (rx_rd s) else s.

(** Writing one byte of the socket register block. *)
Definition sreg_wr (s : sock) (a v : Z) : sock :=
  if a =? 0x01 then exec_cmd s v else
  if a =? 0x02 then with_ir s (Z.land (s_ir s) (255 - v)) else
  if (a =? 0x03) || (a =? 0x20) || (a =? 0x21) || (a =? 0x22) || (a =? 0x23) ||
     (a =? 0x26) || (a =? 0x27) || (a =? 0x2A) || (a =? 0x2B) then s else
  with_reg s (upd (s_reg s) a v).

(** Block select: common, socket registers, TX buffer, RX buffer. *)
Definition blk_sock (b : Z) : Z := b / 4.
Definition blk_kind (b : Z) : Z := b mod 4.

(** Access to one byte of a socket, [k] the block kind. *)
Definition sock_rd (s : sock) (k a : Z) : Z :=
  if k =? 1 then sreg_rd s a else
  if k =? 2 then s_txmem s (slot (tx_size s) a) else
  if k =? 3 then s_rxmem s (slot (rx_size s) a) else 0.
Definition sock_wr (s : sock) (k a v : Z) : sock :=
  if k =? 1 then sreg_wr s a v else
  if k =? 2 then with_txmem s (upd (s_txmem s) (slot (tx_size s) a) v) else
  if k =? 3 then with_rx s (upd (s_rxmem s) (slot (rx_size s) a) v) (s_rx_wr s) (s_rxlog s) else s.

(** Common registers that ignore writes: SIR, UIPR, UPORTR, VERSIONR.  The flags of IR (0x15) are
    cleared by writing ones. *)
Definition common_ro (a : Z) : bool :=
  (a =? 0x17) || ((0x28 <=? a) && (a <=? 0x2D)) || (a =? 0x39).

Definition chip_rd (c : chip) (b a : Z) : Z :=
  if b =? 0 then c_common c a else sock_rd (c_sock c (blk_sock b)) (blk_kind b) a.
Definition chip_wr (c : chip) (b a v : Z) : chip :=
  if b =? 0 then
    (if common_ro a then c
     else mkChip (upd (c_common c) a
                    (if a =? 0x15 then Z.land (c_common c a) (255 - v) else v)) (c_sock c))
  else mkChip (c_common c)
         (upd (c_sock c) (blk_sock b) (sock_wr (c_sock c (blk_sock b)) (blk_kind b) a v)).

(** A transaction accesses consecutive addresses, modulo 2^16. *)
Definition chip_rds (c : chip) (b a n : Z) : list Z :=
  ztab n (fun i => chip_rd c b ((a + i) mod 65536)).
Fixpoint chip_wrs (c : chip) (b a : Z) (l : list Z) : chip :=
  match l with
  | [] => c
  | v :: r => chip_wrs (chip_wr c b (a mod 65536) v) b (a + 1) r
  end.

(** Statuses of a connected TCP socket, with or without pending teardown. *)
Definition data_state (v : Z) : bool :=
  (v =? 0x17) || (v =? 0x18) || (v =? 0x1A) || (v =? 0x1B) || (v =? 0x1C) || (v =? 0x1D).
(** Statuses of a connection being established. *)
Definition opening_state (v : Z) : bool := (v =? 0x14) || (v =? 0x15) || (v =? 0x16).

Definition byteb (b : Z) : bool := (0 <=? b) && (b <? 256).

(** What the network and the chip may do to a socket between two transactions. *)
Inductive sevent : Type :=
| EvRx (seg : list Z)                               (* TCP data arrives *)
| EvUdp (ip : list Z) (port : Z) (data : list Z)    (* a datagram arrives *)
| EvTx (k : Z)                                      (* transmit from the head of the queue *)
| EvSr (v : Z)                                      (* TCP status change *)
| EvIr (v : Z)                                      (* interrupt flags raised *)
| EvConnected (ptx prx : Z)                         (* TCP connection established *)
| EvCommit (ptx prx : Z).                           (* OPEN or CLOSE takes effect *)

(** Store bytes in the receive buffer if they fit, else drop them. *)
Definition rx_store (s : sock) (l : list Z) : sock :=
  if zlen l <=? rx_size s - rx_rsr s then
    with_rx s (ring_write (s_rxmem s) (rx_size s) (s_rx_wr s) l)
      ((s_rx_wr s + zlen l) mod 65536) (s_rxlog s ++ l)
  else s.

(** The packet information header the chip puts in front of a datagram. *)
Definition udp_image (ip : list Z) (port : Z) (data : list Z) : list Z :=
  ip ++ be16 port ++ be16 (zlen data) ++ data.

Definition sock_ev (s : sock) (e : sevent) : sock :=
  match e with
  | EvRx seg =>
      if data_state (s_sr s) && forallb byteb seg then rx_store s seg else s
  | EvUdp ip port data =>
      if (s_sr s =? 0x22) && (zlen ip =? 4) && forallb byteb ip && (0 <=? port) && (port <? 65536)
         && forallb byteb data
      then rx_store s (udp_image ip port data) else s
  | EvTx k =>
      match s_txq s with
      | [] => s
      | t :: q =>
          let k := if s_sr s =? 0x22 then te_len t else Z.min (te_len t) (Z.max 0 k) in
          if (s_sr s =? 0x22) || (s_sr s =? 0x17) || (s_sr s =? 0x1C) then
            with_tx s ((s_tx_rd s + k) mod 65536) (s_tx_cmd s)
              (if k =? te_len t then q
               else {| te_ip := te_ip t; te_port := te_port t; te_len := te_len t - k |} :: q)
              (s_wire s ++ [{| f_ip := te_ip t; f_port := te_port t;
                               f_data := ring (s_txmem s) (tx_size s) (s_tx_rd s) k |}])
          else s
      end
  | EvSr v =>
      if (data_state (s_sr s) && (data_state v || (v =? 0x00))) ||
         (opening_state (s_sr s) && ((v =? 0x16) || (v =? 0x00)))
      then with_sr s v else s
  | EvIr v => if byteb v then with_ir s (Z.lor (s_ir s) v) else s
  | EvConnected ptx prx =>
      if opening_state (s_sr s) then with_sr (reset_ptrs s ptx prx) 0x17 else s
  | EvCommit ptx prx =>
      match s_pend s with
      | None => s
      | Some v => with_sr (with_pend (if v =? 0x00 then s else reset_ptrs s ptx prx) None) v
      end
  end.

Record event : Type := { ev_sn : Z; ev_what : sevent }.
Definition chip_ev (c : chip) (e : event) : chip :=
  mkChip (c_common c) (upd (c_sock c) (ev_sn e) (sock_ev (c_sock c (ev_sn e)) (ev_what e))).
Definition chip_evs (c : chip) (l : list event) : chip := fold_left chip_ev l c.

(** One transaction slot: the events before it, and whether the bus fails: [Some n] means that the
    transaction reports an error after [n] bytes had their effect. *)
Record tick : Type := { t_evs : list event; t_fault : option nat }.

Inductive outcome (A : Type) : Type :=
| Done (a : A)
| Panicked
| Diverged.
Arguments Done {A} a.
Arguments Panicked {A}.
Arguments Diverged {A}.

(** Running a program against the chip.  An exhausted schedule stands for no further events and no
    faults. *)
Fixpoint run {A} (p : prog A) (sch : list tick) (c : chip) : outcome A * list tick * chip :=
  match p with
  | Ret a => (Done a, sch, c)
  | Panic => (Panicked, sch, c)
  | Diverge => (Diverged, sch, c)
  | Rd a b n k =>
      match sch with
      | [] => run (k (Some (chip_rds c b a n))) [] c
      | t :: sch' =>
          let c1 := chip_evs c (t_evs t) in
          match t_fault t with
          | None => run (k (Some (chip_rds c1 b a n))) sch' c1
          | Some _ => run (k None) sch' c1
          end
      end
  | Wr a b d k =>
      match sch with
      | [] => run (k true) [] (chip_wrs c b a d)
      | t :: sch' =>
          let c1 := chip_evs c (t_evs t) in
          match t_fault t with
          | None => run (k true) sch' (chip_wrs c1 b a d)
          | Some m => run (k false) sch' (chip_wrs c1 b a (firstn m d))
          end
      end
  end.
