(** Machine integers, bytes and byte lists, as used by every model file.

    Rust's fixed-width integers are represented by [Z]; the width is made explicit by the
    wrap functions below.  Slices and arrays are [list Z]. *)
From Coq Require Export ZArith List Bool Lia.
Export ListNotations.
Open Scope Z_scope.

(** [x as u8], [x as u16], [x as u32]: Rust truncating casts. *)
Definition u8 (z : Z) : Z := z mod 256.
Definition u16 (z : Z) : Z := z mod 65536.
Definition u32 (z : Z) : Z := z mod 4294967296.

Definition U16_MAX : Z := 65535.
Definition U32_MAX : Z := 4294967295.
Definition I16_MAX : Z := 32767.
Definition I16_MIN : Z := -32768.

(** [u16::wrapping_add], [u16::wrapping_sub], [u16::wrapping_add_signed]. *)
Definition wadd (a b : Z) : Z := (a + b) mod 65536.
Definition wsub (a b : Z) : Z := (a - b) mod 65536.

(** Range predicates of the Rust integer types. *)
Definition is_u8 (z : Z) : Prop := 0 <= z < 256.
Definition is_u16 (z : Z) : Prop := 0 <= z < 65536.
Definition is_u32 (z : Z) : Prop := 0 <= z < 4294967296.
Definition is_i16 (z : Z) : Prop := -32768 <= z < 32768.
Definition bytes_ok (l : list Z) : Prop := Forall is_u8 l.

(** Length, prefix and suffix of a slice with [Z] (usize/u16) arguments. *)
Definition zlen {A} (l : list A) : Z := Z.of_nat (length l).
Definition ztake {A} (n : Z) (l : list A) : list A := firstn (Z.to_nat n) l.
Definition zdrop {A} (n : Z) (l : list A) : list A := skipn (Z.to_nat n) l.

(** The list [f 0; f 1; ...; f (n-1)]. *)
Definition ztab (n : Z) (f : Z -> Z) : list Z :=
  map (fun i => f (Z.of_nat i)) (seq 0 (Z.to_nat n)).

(** [u16::to_be_bytes], [u32::to_be_bytes] and their inverses.  Input arrays have a static length
    in Rust; the accessor [at_] below is only applied within that length. *)
Definition at_ (l : list Z) (i : nat) : Z := nth i l 0.
Definition be16 (v : Z) : list Z := [ (v / 256) mod 256; v mod 256 ].
Definition be32 (v : Z) : list Z :=
  [ (v / 16777216) mod 256; (v / 65536) mod 256; (v / 256) mod 256; v mod 256 ].
Definition of_be16 (hi lo : Z) : Z := hi * 256 + lo.
Definition of_be32 (a b c d : Z) : Z := ((a * 256 + b) * 256 + c) * 256 + d.

(** [u16::try_from(len).unwrap_or(u16::MAX)]: length of a buffer clamped to u16. *)
Definition len16 (n : Z) : Z := if n <=? 65535 then n else 65535.

(** Rust's [Result]. *)
Inductive res (E A : Type) : Type :=
| Ok (a : A)
| Err (e : E).
Arguments Ok {E A} a.
Arguments Err {E A} e.

(** [l[i..i + d.len()].copy_from_slice(d)] for an in-range slice of an array. *)
Definition put (l : list Z) (i : Z) (d : list Z) : list Z := ztake i l ++ d ++ zdrop (i + zlen d) l.

(** [[0; n]]. *)
Definition zeros (n : nat) : list Z := repeat 0 n.

(** Function update. *)
Definition upd {A} (f : Z -> A) (k : Z) (v : A) : Z -> A :=
  fun x => if x =? k then v else f x.
