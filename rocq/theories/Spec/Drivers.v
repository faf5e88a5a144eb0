(** The bus seen by a driver: a device behind the SPI bus (Spec/SpiBus.v) and its chip select line.  Every operation
    may fail, half done. *)
From Verif Require Import Model.Prelude Model.Bus Model.Chip Model.Spi Model.Drivers Spec.SpiBus.

(** The device, its place in the current frame, and whether it is selected. *)
Record wire (St : Type) : Type := mkWire { w_dev : St; w_phase : phase; w_low : bool }.
Arguments mkWire {St}.
Arguments w_dev {St}.
Arguments w_phase {St}.
Arguments w_low {St}.

(** A failing operation has sent or received [f_bytes] bytes; a failing pin has moved or not. *)
Record fault : Type := mkFault { f_err : Z; f_bytes : nat; f_moved : bool }.
(** Which operations fail: the position of the operation in the run, and the operation. *)
Definition faults : Type := nat -> bop -> option fault.
Definition no_fault : faults := fun _ _ => None.

(** The first [n] bytes of a sequence of operations. *)
Fixpoint cut (n : nat) (ops : list spi_op) : list spi_op :=
  match ops with
  | [] => []
  | SWrite l :: r => SWrite (firstn n l) :: cut (n - length l) r
  | SRead k :: r => SRead (Z.min k (Z.of_nat n)) :: cut (n - Z.to_nat k) r
  end.

Section Wire.
Context {St : Type} (d : device St) (fill : Z).

(** The falling edge of chip select starts a frame. *)
Definition select (w : wire St) : wire St := mkWire (w_dev w) (if w_low w then w_phase w else PHead []) true.
Definition release (w : wire St) : wire St := mkWire (w_dev w) (w_phase w) false.
(** A device that is not selected takes no part. *)
Fixpoint exchange (p : phase) (s : St) (l : list Z) : phase * St * list Z :=
  match l with
  | [] => (p, s, [])
  | b :: r => let '(p, s, v) := clock d p s b in let '(p, s, w) := exchange p s r in (p, s, v :: w)
  end.
Definition shift (w : wire St) (ops : list spi_op) : wire St * list Z :=
  if w_low w then let '(p, s, l) := spi_exec d fill (w_phase w) (w_dev w) ops in (mkWire s p true, l)
  else (w, flat_map (fun o => match o with SRead n => repeat fill (Z.to_nat n) | SWrite _ => [] end) ops).
Definition swap (w : wire St) (l : list Z) : wire St * list Z :=
  if w_low w then let '(p, s, m) := exchange (w_phase w) (w_dev w) l in (mkWire s p true, m) else (w, l).

Definition op_done (w : wire St) (o : bop) : wire St * list Z :=
  match o with
  | BLow => (select w, [])
  | BHigh => (release w, [])
  | BWrite l => shift w [SWrite l]
  | BTransfer l => swap w l
  | BRead n => shift w [SRead n]
  | BTransaction ops => let '(w, l) := shift (select w) ops in (release w, l)
  end.
(** [SpiDevice::transaction] releases the chip select also when it fails. *)
Definition op_failed (w : wire St) (o : bop) (f : fault) : wire St :=
  match o with
  | BLow => if f_moved f then select w else w
  | BHigh => if f_moved f then release w else w
  | BWrite l => fst (shift w (cut (f_bytes f) [SWrite l]))
  | BTransfer l => fst (swap w (firstn (f_bytes f) l))
  | BRead n => fst (shift w (cut (f_bytes f) [SRead n]))
  | BTransaction ops => release (fst (shift (select w) (cut (f_bytes f) ops)))
  end.

(** [None] is a panic; the operations that failed are listed. *)
Fixpoint drive {A} (p : drv A) (fs : faults) (i : nat) (w : wire St) : option A * wire St * list (bop * fault) :=
  match p with
  | DRet a => (Some a, w, [])
  | DPanic => (None, w, [])
  | DOp o k =>
      match fs i o with
      | None => let '(w, l) := op_done w o in drive (k (Ok l)) fs (S i) w
      | Some f => let '(a, w, e) := drive (k (Err (f_err f))) fs (S i) (op_failed w o f) in (a, w, (o, f) :: e)
      end
  end.
End Wire.

(** The next falling edge, or the next byte, starts a frame. *)
Definition ready {St} (w : wire St) : Prop := w_low w = false \/ w_phase w = PHead [].
(** A device that is always selected, between two frames. *)
Definition tied {St} (w : wire St) : Prop := w_low w = true /\ w_phase w = PHead [].

(** The read and write functions of the drivers that use chip select, and of those for a device that is always
    selected. *)
Definition driver : Type := Z -> Z -> list Z -> drv (res derr (list Z)).
Definition vdm_reads : list driver := [eh0_vdm_read; eh0_gpio_read; eh0_infallible_read; eh1_vdm_read; eha1_vdm_read].
Definition vdm_writes : list driver := [eh0_vdm_write; eh0_gpio_write; eh0_infallible_write; eh1_vdm_write; eha1_vdm_write].
Definition fdm_reads : list driver := [eh0_fdm_read; eh1_fdm_read].
Definition fdm_writes : list driver := [eh0_fdm_write; eh1_fdm_write].

(** What the caller is told about a failed operation. *)
Definition told (o : bop) (f : fault) : derr := match o with BLow | BHigh => EPin (f_err f) | _ => ESpi (f_err f) end.
(** The first [k] bytes of an access were read or written, the others were not touched. *)
Definition read_part {St} (d : device St) (s s' : St) (block addr : Z) (data : list Z) : Prop :=
  exists k, (k <= length data)%nat /\ s' = fst (burst_rd d s block addr k).
Definition written_part {St} (d : device St) (s s' : St) (block addr : Z) (data : list Z) : Prop :=
  exists k, (k <= length data)%nat /\ s' = burst_wr d s block addr (firstn k data).

(** Two programs that cannot be told apart: the same results and the same chip afterwards, whatever the chip does
    and whichever transactions fail. *)
Definition same {A} (p q : M A) : Prop := forall sch c, run p sch c = run q sch c.
