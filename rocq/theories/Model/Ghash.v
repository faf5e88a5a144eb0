(** GHASH: tls/src/crypto/aes/ghash.rs. *)
From Verif Require Import Model.Prelude.

(** Rust [<<] on [u32] and [u128] drops the bits shifted out. *)
Definition shl32 (x k : Z) : Z := u32 (Z.shiftl x k).
Definition u128 (x : Z) : Z := x mod 340282366920938463463374607431768211456.
Definition shl128 (x k : Z) : Z := u128 (Z.shiftl x k).
(** [u32::from_be_bytes], [u32::from_le_bytes], [u128::from_le_bytes], [u128::to_le_bytes]. *)
Definition of_be (l : list Z) : Z := fold_left (fun a b => a * 256 + b) l 0.
Definition of_le (l : list Z) : Z := of_be (rev l).
Definition to_le (n : nat) (v : Z) : list Z := map (fun i => Z.shiftr v (8 * Z.of_nat i) mod 256) (seq 0 n).

(** 14-21. *)
Definition mulx (block : list Z) : list Z :=
  let v := of_le block in
  let v_hi := Z.shiftr v 127 in
  let v := shl128 v 1 in
  let v := Z.lxor v (Z.lxor (Z.lxor (Z.lxor v_hi (shl128 v_hi 127)) (shl128 v_hi 126)) (shl128 v_hi 121)) in
  to_le 16 v.

(** 77-79. *)
Record U32x4 : Type := mkW { w0 : Z; w1 : Z; w2 : Z; w3 : Z }.
(** 26-32. *)
Record GHash : Type := mkGHash { gh_h : U32x4; gh_s : U32x4 }.
(** 36-51. *)
Definition ghash_new (h : list Z) : GHash :=
  let h := rev h in
  let h_polyval := mulx h in
  mkGHash
    (mkW (of_le (firstn 4 h_polyval)) (of_le (firstn 4 (skipn 4 h_polyval)))
         (of_le (firstn 4 (skipn 8 h_polyval))) (of_le (skipn 12 h_polyval)))
    (mkW 0 0 0 0).

(** 86-93. *)
Definition w_add (a b : U32x4) : U32x4 :=
  mkW (Z.lxor (w0 a) (w0 b)) (Z.lxor (w1 a) (w1 b)) (Z.lxor (w2 a) (w2 b)) (Z.lxor (w3 a) (w3 b)).

(** 209-230; [Wrapping] products. *)
Definition bmul32 (x y : Z) : Z :=
  let x0 := Z.land x 0x11111111 in
  let x1 := Z.land x 0x22222222 in
  let x2 := Z.land x 0x44444444 in
  let x3 := Z.land x 0x88888888 in
  let y0 := Z.land y 0x11111111 in
  let y1 := Z.land y 0x22222222 in
  let y2 := Z.land y 0x44444444 in
  let y3 := Z.land y 0x88888888 in
  let z0 := Z.lxor (Z.lxor (Z.lxor (u32 (x0 * y0)) (u32 (x1 * y3))) (u32 (x2 * y2))) (u32 (x3 * y1)) in
  let z1 := Z.lxor (Z.lxor (Z.lxor (u32 (x0 * y1)) (u32 (x1 * y0))) (u32 (x2 * y3))) (u32 (x3 * y2)) in
  let z2 := Z.lxor (Z.lxor (Z.lxor (u32 (x0 * y2)) (u32 (x1 * y1))) (u32 (x2 * y0))) (u32 (x3 * y3)) in
  let z3 := Z.lxor (Z.lxor (Z.lxor (u32 (x0 * y3)) (u32 (x1 * y2))) (u32 (x2 * y1))) (u32 (x3 * y0)) in
  let z0 := Z.land z0 0x11111111 in
  let z1 := Z.land z1 0x22222222 in
  let z2 := Z.land z2 0x44444444 in
  let z3 := Z.land z3 0x88888888 in
  Z.lor (Z.lor (Z.lor z0 z1) z2) z3.
(** 233-239; [rotate_right (16)] of 32 bits. *)
Definition rev32 (x : Z) : Z :=
  let x := Z.lor (shl32 (Z.land x 0x55555555) 1) (Z.land (Z.shiftr x 1) 0x55555555) in
  let x := Z.lor (shl32 (Z.land x 0x33333333) 2) (Z.land (Z.shiftr x 2) 0x33333333) in
  let x := Z.lor (shl32 (Z.land x 0x0f0f0f0f) 4) (Z.land (Z.shiftr x 4) 0x0f0f0f0f) in
  let x := Z.lor (shl32 (Z.land x 0x00ff00ff) 8) (Z.land (Z.shiftr x 8) 0x00ff00ff) in
  Z.lor (Z.land (Z.shiftr x 16) 0xFFFF) (shl32 (Z.land x 0xFFFF) 16).

(** 194-198: one iteration of the reduction for the word [lw]: what is added to words [i + 4] and [i + 3]. *)
Definition red_hi (lw : Z) : Z := Z.lxor (Z.lxor (Z.lxor lw (Z.shiftr lw 1)) (Z.shiftr lw 2)) (Z.shiftr lw 7).
Definition red_lo (lw : Z) : Z := Z.lxor (Z.lxor (shl32 lw 31) (shl32 lw 30)) (shl32 lw 25).
(** 117-201: the arrays [a], [b], [c], [zw] are written out element by element. *)
Definition w_mul (self rhs : U32x4) : U32x4 :=
  let hw0 := w0 self in let hw1 := w1 self in let hw2 := w2 self in let hw3 := w3 self in
  let yw0 := w0 rhs in let yw1 := w1 rhs in let yw2 := w2 rhs in let yw3 := w3 rhs in
  let hwr0 := rev32 hw0 in let hwr1 := rev32 hw1 in let hwr2 := rev32 hw2 in let hwr3 := rev32 hw3 in
  let a0 := yw0 in let a1 := yw1 in let a2 := yw2 in let a3 := yw3 in
  let a4 := Z.lxor a0 a1 in let a5 := Z.lxor a2 a3 in let a6 := Z.lxor a0 a2 in let a7 := Z.lxor a1 a3 in let a8 := Z.lxor a6 a7 in
  let a9 := rev32 yw0 in let a10 := rev32 yw1 in let a11 := rev32 yw2 in let a12 := rev32 yw3 in
  let a13 := Z.lxor a9 a10 in let a14 := Z.lxor a11 a12 in let a15 := Z.lxor a9 a11 in let a16 := Z.lxor a10 a12 in let a17 := Z.lxor a15 a16 in
  let b0 := hw0 in let b1 := hw1 in let b2 := hw2 in let b3 := hw3 in
  let b4 := Z.lxor b0 b1 in let b5 := Z.lxor b2 b3 in let b6 := Z.lxor b0 b2 in let b7 := Z.lxor b1 b3 in let b8 := Z.lxor b6 b7 in
  let b9 := hwr0 in let b10 := hwr1 in let b11 := hwr2 in let b12 := hwr3 in
  let b13 := Z.lxor b9 b10 in let b14 := Z.lxor b11 b12 in let b15 := Z.lxor b9 b11 in let b16 := Z.lxor b10 b12 in let b17 := Z.lxor b15 b16 in
  let c0 := bmul32 a0 b0 in let c1 := bmul32 a1 b1 in let c2 := bmul32 a2 b2 in let c3 := bmul32 a3 b3 in
  let c4 := bmul32 a4 b4 in let c5 := bmul32 a5 b5 in let c6 := bmul32 a6 b6 in let c7 := bmul32 a7 b7 in
  let c8 := bmul32 a8 b8 in let c9 := bmul32 a9 b9 in let c10 := bmul32 a10 b10 in let c11 := bmul32 a11 b11 in
  let c12 := bmul32 a12 b12 in let c13 := bmul32 a13 b13 in let c14 := bmul32 a14 b14 in let c15 := bmul32 a15 b15 in
  let c16 := bmul32 a16 b16 in let c17 := bmul32 a17 b17 in
  let c4 := Z.lxor c4 (Z.lxor c0 c1) in
  let c5 := Z.lxor c5 (Z.lxor c2 c3) in
  let c8 := Z.lxor c8 (Z.lxor c6 c7) in
  let c13 := Z.lxor c13 (Z.lxor c9 c10) in
  let c14 := Z.lxor c14 (Z.lxor c11 c12) in
  let c17 := Z.lxor c17 (Z.lxor c15 c16) in
  let z0 := c0 in
  let z1 := Z.lxor c4 (Z.shiftr (rev32 c9) 1) in
  let z2 := Z.lxor (Z.lxor (Z.lxor (Z.lxor c1 c0) c2) c6) (Z.shiftr (rev32 c13) 1) in
  let z3 := Z.lxor (Z.lxor (Z.lxor c4 c5) c8) (Z.shiftr (rev32 (Z.lxor (Z.lxor (Z.lxor c10 c9) c11) c15)) 1) in
  let z4 := Z.lxor (Z.lxor (Z.lxor (Z.lxor c2 c1) c3) c7) (Z.shiftr (rev32 (Z.lxor (Z.lxor c13 c14) c17)) 1) in
  let z5 := Z.lxor c5 (Z.shiftr (rev32 (Z.lxor (Z.lxor (Z.lxor c11 c10) c12) c16)) 1) in
  let z6 := Z.lxor c3 (Z.shiftr (rev32 c14) 1) in
  let z7 := Z.shiftr (rev32 c12) 1 in
  let z4 := Z.lxor z4 (red_hi z0) in let z3 := Z.lxor z3 (red_lo z0) in
  let z5 := Z.lxor z5 (red_hi z1) in let z4 := Z.lxor z4 (red_lo z1) in
  let z6 := Z.lxor z6 (red_hi z2) in let z5 := Z.lxor z5 (red_lo z2) in
  let z7 := Z.lxor z7 (red_hi z3) in let z6 := Z.lxor z6 (red_lo z3) in
  mkW z4 z5 z6 z7.

(** 54-62. *)
Definition ghash_update (g : GHash) (x : list Z) : GHash :=
  let x := mkW (of_be (skipn 12 x)) (of_be (firstn 4 (skipn 8 x))) (of_be (firstn 4 (skipn 4 x))) (of_be (firstn 4 x)) in
  mkGHash (gh_h g) (w_mul (w_add (gh_s g) x) (gh_h g)).
(** 65-74. *)
Definition ghash_finalize (g : GHash) : list Z :=
  be32 (w3 (gh_s g)) ++ be32 (w2 (gh_s g)) ++ be32 (w1 (gh_s g)) ++ be32 (w0 (gh_s g)).
