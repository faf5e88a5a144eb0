(** Specification of single-bit fields of an 8-bit register. *)
From Verif Require Import Model.Prelude.

(** [f] forces bit [k] to [b] and keeps the seven others. *)
Definition writes_bit (f : Z -> Z) (k : Z) (b : bool) : Prop :=
  forall r, is_u8 r ->
    is_u8 (f r) /\
    forall i, 0 <= i -> Z.testbit (f r) i = if i =? k then b else Z.testbit r i.

(** [g] reports bit [k]. *)
Definition reads_bit (g : Z -> bool) (k : Z) : Prop :=
  forall r, is_u8 r -> g r = Z.testbit r k.

(** [g] reports that bit [k] is clear. *)
Definition reads_nbit (g : Z -> bool) (k : Z) : Prop :=
  forall r, is_u8 r -> g r = negb (Z.testbit r k).

(** A flag at bit [k]: getter, setter and clearer. *)
Definition flag (k : Z) (get : Z -> bool) (set clr : Z -> Z) : Prop :=
  reads_bit get k /\ writes_bit set k true /\ writes_bit clr k false.
(** A mask bit: the interrupt is masked while the bit is clear. *)
Definition nflag (k : Z) (masked : Z -> bool) (unmask mask : Z -> Z) : Prop :=
  reads_nbit masked k /\ writes_bit unmask k true /\ writes_bit mask k false.
