(** The implementations of the [Registers] trait with their failures: ll/src/eh0/ and ll/src/eh1/.

    A driver calls the SPI peripheral and the chip select pin, each of which may fail; [BTransaction] is
    [SpiDevice::transaction] of embedded-hal 1, which drives the chip select itself.  The buffer filled by [read] is
    returned; its contents after an error are not represented. *)
From Verif Require Import Model.Prelude Model.Spi.

Inductive bop : Type :=
| BLow | BHigh                    (* [OutputPin::set_low], [set_high] *)
| BWrite (l : list Z)             (* [spi.write] *)
| BTransfer (l : list Z)          (* [spi.transfer]: the bytes received replace those sent *)
| BRead (n : Z)                   (* [SpiBus::read] into a buffer of [n] bytes *)
| BTransaction (ops : list spi_op).

(** eh0/vdm.rs 27-33.  The other drivers return the error of the peripheral as it is: [ESpi]. *)
Inductive derr : Type := ESpi (e : Z) | EPin (e : Z).

Inductive drv (A : Type) : Type :=
| DRet (a : A)
| DOp (o : bop) (k : res Z (list Z) -> drv A)
| DPanic.
Arguments DRet {A} a.
Arguments DOp {A} o k.
Arguments DPanic {A}.
Fixpoint dbind {A B} (p : drv A) (f : A -> drv B) : drv B :=
  match p with DRet a => f a | DOp o k => DOp o (fun r => dbind (k r) f) | DPanic => DPanic end.

(** [op().map_err(wrap)?] *)
Definition d_try {A} (o : bop) (wrap : Z -> derr) (k : list Z -> drv (res derr A)) : drv (res derr A) :=
  DOp o (fun r => match r with Ok l => k l | Err e => DRet (Err (wrap e)) end).
(** [op().unwrap()] *)
Definition d_unwrap {A} (o : bop) (k : list Z -> drv A) : drv A :=
  DOp o (fun r => match r with Ok l => k l | Err _ => DPanic end).

(** eh0/vdm.rs 91-101. *)
Definition with_chip_enable {A} (f : drv (res derr A)) : drv (res derr A) :=
  d_try BLow EPin (fun _ =>
  dbind f (fun result =>
  d_try BHigh EPin (fun _ =>
  d_try BHigh EPin (fun _ => DRet result)))).
(** eh0/vdm.rs 115-122, 126-133. *)
Definition eh0_vdm_read (addr block : Z) (data : list Z) : drv (res derr (list Z)) :=
  with_chip_enable (d_try (BWrite (vdm_header addr block ARead)) ESpi (fun _ =>
    d_try (BTransfer data) ESpi (fun l => DRet (Ok l)))).
Definition eh0_vdm_write (addr block : Z) (data : list Z) : drv (res derr (list Z)) :=
  with_chip_enable (d_try (BWrite (vdm_header addr block AWrite)) ESpi (fun _ =>
    d_try (BWrite data) ESpi (fun _ => DRet (Ok [])))).

(** eh0/vdm_infallible_gpio.rs 91-100. *)
Definition with_chip_enable_gpio {A} (f : drv (res derr A)) : drv (res derr A) :=
  d_unwrap BLow (fun _ =>
  dbind f (fun result =>
  d_unwrap BHigh (fun _ =>
  d_unwrap BHigh (fun _ => DRet result)))).
(** eh0/vdm_infallible_gpio.rs 114-121, 125-132. *)
Definition eh0_gpio_read (addr block : Z) (data : list Z) : drv (res derr (list Z)) :=
  with_chip_enable_gpio (d_try (BWrite (vdm_header addr block ARead)) ESpi (fun _ =>
    d_try (BTransfer data) ESpi (fun l => DRet (Ok l)))).
Definition eh0_gpio_write (addr block : Z) (data : list Z) : drv (res derr (list Z)) :=
  with_chip_enable_gpio (d_try (BWrite (vdm_header addr block AWrite)) ESpi (fun _ =>
    d_try (BWrite data) ESpi (fun _ => DRet (Ok [])))).

(** eh0/vdm_infallible.rs 114-121, 125-132; the last [set_high] is the result. *)
Definition eh0_infallible_read (addr block : Z) (data : list Z) : drv (res derr (list Z)) :=
  d_unwrap BLow (fun _ => d_unwrap (BWrite (vdm_header addr block ARead)) (fun _ => d_unwrap (BTransfer data) (fun l =>
  d_unwrap BHigh (fun _ => d_try BHigh EPin (fun _ => DRet (Ok l)))))).
Definition eh0_infallible_write (addr block : Z) (data : list Z) : drv (res derr (list Z)) :=
  d_unwrap BLow (fun _ => d_unwrap (BWrite (vdm_header addr block AWrite)) (fun _ => d_unwrap (BWrite data) (fun _ =>
  d_unwrap BHigh (fun _ => d_try BHigh EPin (fun _ => DRet (Ok [])))))).

(** eh1/vdm.rs 72-84, 88-100. *)
Definition eh1_vdm_read (addr block : Z) (data : list Z) : drv (res derr (list Z)) :=
  d_try (BTransaction [SWrite (vdm_header addr block ARead); SRead (zlen data)]) ESpi (fun l => DRet (Ok l)).
Definition eh1_vdm_write (addr block : Z) (data : list Z) : drv (res derr (list Z)) :=
  d_try (BTransaction [SWrite (vdm_header addr block AWrite); SWrite data]) ESpi (fun _ => DRet (Ok [])).
(** eh1/vdm.rs 112-124, 127-139: the asynchronous twins, awaited. *)
Definition eha1_vdm_read (addr block : Z) (data : list Z) : drv (res derr (list Z)) :=
  d_try (BTransaction [SWrite (vdm_header addr block ARead); SRead (zlen data)]) ESpi (fun l => DRet (Ok l)).
Definition eha1_vdm_write (addr block : Z) (data : list Z) : drv (res derr (list Z)) :=
  d_try (BTransaction [SWrite (vdm_header addr block AWrite); SWrite data]) ESpi (fun _ => DRet (Ok [])).

(** One round of a loop over chunks: header, chunk. *)
Definition fdm_step (header : list Z) (o : bop) (k : list Z -> drv (res derr (list Z))) : drv (res derr (list Z)) :=
  d_try (BWrite header) ESpi (fun _ => d_try o ESpi k).
(** eh0/fdm.rs 78-102, and eh1/fdm.rs 73-97: [mk] is the call that reads into a chunk.  The loops run over chunks
    of 4, then over the remainder in chunks of 2, then of 1; [got] collects the chunks. *)
Fixpoint fdm_read_chunks (mk : list Z -> bop) (fuel : nat) (addr block : Z) (data got : list Z) : drv (res derr (list Z)) :=
  match fuel with
  | O => DRet (Ok got)
  | S f =>
      match data with
      | a :: b :: c :: d :: r =>
          fdm_step (fdm_header_4b addr block ARead) (mk [a; b; c; d]) (fun l => fdm_read_chunks mk f (wadd addr 4) block r (got ++ l))
      | a :: b :: r =>
          fdm_step (fdm_header_2b addr block ARead) (mk [a; b]) (fun l => fdm_read_chunks mk f (wadd addr 2) block r (got ++ l))
      | a :: r =>
          fdm_step (fdm_header_1b addr block ARead) (mk [a]) (fun l => fdm_read_chunks mk f (wadd addr 1) block r (got ++ l))
      | [] => DRet (Ok got)
      end
  end.
Definition eh0_fdm_read (addr block : Z) (data : list Z) : drv (res derr (list Z)) :=
  fdm_read_chunks BTransfer (length data) addr block data [].
Definition eh1_fdm_read (addr block : Z) (data : list Z) : drv (res derr (list Z)) :=
  fdm_read_chunks (fun chunk => BRead (zlen chunk)) (length data) addr block data [].
(** eh0/fdm.rs 106-130, eh1/fdm.rs 101-125: the same text. *)
Fixpoint fdm_write_chunks (fuel : nat) (addr block : Z) (data : list Z) : drv (res derr (list Z)) :=
  match fuel with
  | O => DRet (Ok [])
  | S f =>
      match data with
      | a :: b :: c :: d :: r =>
          fdm_step (fdm_header_4b addr block AWrite) (BWrite [a; b; c; d]) (fun _ => fdm_write_chunks f (wadd addr 4) block r)
      | a :: b :: r =>
          fdm_step (fdm_header_2b addr block AWrite) (BWrite [a; b]) (fun _ => fdm_write_chunks f (wadd addr 2) block r)
      | a :: r =>
          fdm_step (fdm_header_1b addr block AWrite) (BWrite [a]) (fun _ => fdm_write_chunks f (wadd addr 1) block r)
      | [] => DRet (Ok [])
      end
  end.
Definition eh0_fdm_write (addr block : Z) (data : list Z) : drv (res derr (list Z)) :=
  fdm_write_chunks (length data) addr block data.
Definition eh1_fdm_write (addr block : Z) (data : list Z) : drv (res derr (list Z)) :=
  fdm_write_chunks (length data) addr block data.
