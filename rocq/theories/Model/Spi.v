(** SPI framing: ll/src/spi.rs, ll/src/eh1/vdm.rs and ll/src/eh1/fdm.rs.

    Bus errors are not represented in this file: both drivers return the first error of the SPI
    driver ([?]), see [Bus] for faults at the level of [Registers]. *)
From Verif Require Import Model.Prelude.

(** ll/src/spi.rs 4-18. *)
Inductive AccessMode : Type := ARead | AWrite.
Definition access_raw (m : AccessMode) : Z := match m with ARead => 0 | AWrite => 1 end.

(** [(block << 3) | ((mode as u8) << 2)] on [u8]. *)
Definition ctrl (block : Z) (m : AccessMode) : Z :=
  Z.lor (u8 (Z.shiftl block 3)) (u8 (Z.shiftl (access_raw m) 2)).

(** ll/src/spi.rs 39-46. *)
Definition vdm_header (addr block : Z) (m : AccessMode) : list Z :=
  [u8 (Z.shiftr addr 8); u8 addr; ctrl block m].
(** ll/src/spi.rs 64-70. *)
Definition fdm_header_1b (addr block : Z) (m : AccessMode) : list Z :=
  [u8 (Z.shiftr addr 8); u8 addr; Z.lor (ctrl block m) 1].
(** ll/src/spi.rs 88-94. *)
Definition fdm_header_2b (addr block : Z) (m : AccessMode) : list Z :=
  [u8 (Z.shiftr addr 8); u8 addr; Z.lor (ctrl block m) 2].
(** ll/src/spi.rs 112-118. *)
Definition fdm_header_4b (addr block : Z) (m : AccessMode) : list Z :=
  [u8 (Z.shiftr addr 8); u8 addr; Z.lor (ctrl block m) 3].

(** Operations of the SPI driver: [write(bytes)] and [read(buf)] with [buf.len() = n]. *)
Inductive spi_op : Type := SWrite (l : list Z) | SRead (n : Z).

(** eh1/vdm.rs 72-84: one chip-select framed transaction. *)
Definition vdm_read (addr block n : Z) : list spi_op :=
  [SWrite (vdm_header addr block ARead); SRead n].
(** eh1/vdm.rs 88-100. *)
Definition vdm_write (addr block : Z) (data : list Z) : list spi_op :=
  [SWrite (vdm_header addr block AWrite); SWrite data].

(** eh1/fdm.rs 73-97.  [chunks_exact_mut(4)], then the remainder in chunks of 2, then of 1.
    [fuel] bounds the number of chunks; [Z.to_nat n] chunks always suffice. *)
Fixpoint fdm_read_loop (fuel : nat) (addr block n : Z) : list spi_op :=
  match fuel with
  | O => []
  | S f =>
      if 4 <=? n then
        SWrite (fdm_header_4b addr block ARead) :: SRead 4 ::
        fdm_read_loop f (wadd addr 4) block (n - 4)
      else if 2 <=? n then
        SWrite (fdm_header_2b addr block ARead) :: SRead 2 ::
        fdm_read_loop f (wadd addr 2) block (n - 2)
      else if 1 <=? n then
        SWrite (fdm_header_1b addr block ARead) :: SRead 1 ::
        fdm_read_loop f (wadd addr 1) block (n - 1)
      else []
  end.
Definition fdm_read (addr block n : Z) : list spi_op := fdm_read_loop (Z.to_nat n) addr block n.

(** eh1/fdm.rs 101-125. *)
Fixpoint fdm_write_loop (fuel : nat) (addr block : Z) (data : list Z) : list spi_op :=
  match fuel with
  | O => []
  | S f =>
      match data with
      | a :: b :: c :: d :: r =>
          SWrite (fdm_header_4b addr block AWrite) :: SWrite [a; b; c; d] ::
          fdm_write_loop f (wadd addr 4) block r
      | a :: b :: r =>
          SWrite (fdm_header_2b addr block AWrite) :: SWrite [a; b] ::
          fdm_write_loop f (wadd addr 2) block r
      | a :: r =>
          SWrite (fdm_header_1b addr block AWrite) :: SWrite [a] ::
          fdm_write_loop f (wadd addr 1) block r
      | [] => []
      end
  end.
Definition fdm_write (addr block : Z) (data : list Z) : list spi_op :=
  fdm_write_loop (length data) addr block data.
