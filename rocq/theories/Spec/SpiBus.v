(** Specification: how a W5500 interprets the bytes on its SPI bus (W5500 datasheet, section 2,
    "SPI frame").  A frame is a two-byte address, a control byte (5 bits block, 1 bit write, 2 bits
    length mode: 0 = until chip select is released, 1/2/3 = 1/2/4 bytes) and data bytes at
    consecutive addresses modulo 2^16.  The device behind it is arbitrary: [rd] and [wr] may have any
    effect on its state. *)
From Verif Require Import Model.Prelude Model.Spi.

Record device (St : Type) : Type :=
  { dv_rd : St -> Z -> Z -> St * Z          (* state, block, address *)
  ; dv_wr : St -> Z -> Z -> Z -> St }.      (* state, block, address, byte *)
Arguments dv_rd {St}.
Arguments dv_wr {St}.

Inductive phase : Type :=
| PHead (got : list Z)
| PData (addr block : Z) (wr : bool) (rem : option Z).

Definition mode_len (om : Z) : option Z :=
  if om =? 0 then None else if om =? 1 then Some 1 else if om =? 2 then Some 2 else Some 4.

Definition next_phase (addr block : Z) (wr : bool) (rem : option Z) : phase :=
  match rem with
  | None => PData ((addr + 1) mod 65536) block wr None
  | Some n => if n <=? 1 then PHead [] else PData ((addr + 1) mod 65536) block wr (Some (n - 1))
  end.

(** One byte time: the byte on MOSI, and the resulting byte on MISO. *)
Definition clock {St} (d : device St) (p : phase) (s : St) (mosi : Z) : phase * St * Z :=
  match p with
  | PHead [a; b] =>
      (PData (a * 256 + b) (mosi / 8) (Z.testbit mosi 2) (mode_len (mosi mod 4)), s, 0)
  | PHead got => (PHead (got ++ [mosi]), s, 0)
  | PData addr block true rem => (next_phase addr block true rem, dv_wr d s block addr mosi, 0)
  | PData addr block false rem =>
      let '(s', v) := dv_rd d s block addr in (next_phase addr block false rem, s', v)
  end.

Fixpoint shift_out {St} (d : device St) (p : phase) (s : St) (l : list Z) : phase * St :=
  match l with
  | [] => (p, s)
  | b :: r => let '(p, s, _) := clock d p s b in shift_out d p s r
  end.

(** [fill] is whatever the host puts on MOSI while reading. *)
Fixpoint shift_in {St} (d : device St) (fill : Z) (p : phase) (s : St) (n : nat)
  : phase * St * list Z :=
  match n with
  | O => (p, s, [])
  | S n =>
      let '(p, s, v) := clock d p s fill in
      let '(p, s, l) := shift_in d fill p s n in (p, s, v :: l)
  end.

(** Effect of a sequence of SPI driver operations; the bytes read are concatenated. *)
Fixpoint spi_exec {St} (d : device St) (fill : Z) (p : phase) (s : St) (ops : list spi_op)
  : phase * St * list Z :=
  match ops with
  | [] => (p, s, [])
  | SWrite l :: r => let '(p, s) := shift_out d p s l in spi_exec d fill p s r
  | SRead n :: r =>
      let '(p, s, v) := shift_in d fill p s (Z.to_nat n) in
      let '(p, s, w) := spi_exec d fill p s r in (p, s, v ++ w)
  end.

(** Accessing consecutive addresses directly. *)
Fixpoint burst_rd {St} (d : device St) (s : St) (block addr : Z) (n : nat) : St * list Z :=
  match n with
  | O => (s, [])
  | S n =>
      let '(s, v) := dv_rd d s block addr in
      let '(s, l) := burst_rd d s block ((addr + 1) mod 65536) n in (s, v :: l)
  end.
Fixpoint burst_wr {St} (d : device St) (s : St) (block addr : Z) (l : list Z) : St :=
  match l with
  | [] => s
  | v :: r => burst_wr d (dv_wr d s block addr v) block ((addr + 1) mod 65536) r
  end.
