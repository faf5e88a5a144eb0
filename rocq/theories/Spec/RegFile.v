(** Specification of plain storage registers: what writing and reading one means. *)
From Verif Require Import Model.Prelude Model.Bus Model.Specifiers Model.Chip.

(** [p] finishes without a bus error, returns [v] and leaves the chip as it was. *)
Definition reads {A} (p : M A) (c : chip) (v : A) : Prop :=
  run p [] c = (Done (Ok v), [], c).

(** The bytes of [f] from [lo] on are [img]. *)
Definition holds (f : Z -> Z) (lo : Z) (img : list Z) : Prop :=
  forall i, (i < length img)%nat -> f (lo + Z.of_nat i) = nth i img 0.

(** [f] and [f'] differ at most in the [n] bytes from [lo] on. *)
Definition same_outside (f f' : Z -> Z) (lo : Z) (n : nat) : Prop :=
  forall a, 0 <= a < 65536 -> a < lo \/ lo + Z.of_nat n <= a -> f' a = f a.

(** A common register of address [lo]: [set v] stores exactly the bytes [img v], [get] then returns
    the value, nothing else on the chip changes. *)
Definition common_reg {A B} (valid : A -> Prop) (set : A -> M unit) (get : M B) (val : A -> B)
    (lo : Z) (img : A -> list Z) : Prop :=
  forall c v, valid v ->
  exists c', run (set v) [] c = (Done (Ok tt), [], c') /\
    reads get c' (val v) /\
    holds (c_common c') lo (img v) /\
    same_outside (c_common c) (c_common c') lo (length (img v)) /\
    c_sock c' = c_sock c.

(** A read-only (for this accessor) common register: [get] decodes the [n] bytes at [lo]. *)
Definition common_get {B} (get : M B) (lo : Z) (n : nat) (dec : list Z -> B) : Prop :=
  forall c, reads get c (dec (map (fun i => c_common c (lo + Z.of_nat i)) (seq 0 n))).

(** The same for a register of socket [sn]: of the socket only the stored bytes change. *)
Definition sock_reg {A B} (valid : A -> Prop) (set : Sn -> A -> M unit) (get : Sn -> M B)
    (val : A -> B) (lo : Z) (img : A -> list Z) : Prop :=
  forall sn c v, valid v ->
  exists c' r, run (set sn v) [] c = (Done (Ok tt), [], c') /\
    reads (get sn) c' (val v) /\
    c_sock c' (sn_raw sn) = with_reg (c_sock c (sn_raw sn)) r /\
    holds r lo (img v) /\
    same_outside (s_reg (c_sock c (sn_raw sn))) r lo (length (img v)) /\
    (forall m, m <> sn_raw sn -> c_sock c' m = c_sock c m) /\
    c_common c' = c_common c.

(** A socket register that only the chip writes: [get] returns [f] of the socket state. *)
Definition sock_get {B} (get : Sn -> M B) (f : sock -> B) : Prop :=
  forall sn c, reads (get sn) c (f (c_sock c (sn_raw sn))).

Definition id_ {A} (x : A) : A := x.
Definition octets (n : nat) (l : list Z) : Prop := length l = n /\ bytes_ok l.
