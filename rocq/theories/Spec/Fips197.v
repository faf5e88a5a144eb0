(** AES-128 encryption as FIPS 197 defines it. *)
From Verif Require Import Model.Prelude.

(** ** GF(2^8) (section 4): bit k of a byte is the coefficient of x^k. *)

(** The product of polynomials over GF(2); [n] bounds the number of bits of [a]. *)
Fixpoint clmul (n : nat) (a b : Z) : Z :=
  match n with
  | O => 0
  | S n => Z.lxor (if Z.odd a then b else 0) (2 * clmul n (a / 2) b)
  end.
(** The remainder modulo a polynomial [m] of degree [d] of one of degree below d + n. *)
Fixpoint polymod (n : nat) (d m a : Z) : Z :=
  match n with
  | O => a
  | S n => polymod n d m (if Z.testbit a (d + Z.of_nat n) then Z.lxor a (m * 2 ^ Z.of_nat n) else a)
  end.
(** Modulo x^8 + x^4 + x^3 + x + 1. *)
Definition gmul (a b : Z) : Z := polymod 8 8 0x11B (clmul 8 a b).
(** The inverse of [a], and 0 for 0: a^254. *)
Fixpoint gpow (a : Z) (n : nat) : Z := match n with O => 1 | S n => gmul a (gpow a n) end.
Definition ginv (a : Z) : Z := gpow a 254.

(** ** The S-box (5.1.1): the inverse followed by an affine map. *)
Definition affine_bit (b : Z) (i : Z) : bool :=
  let bit k := Z.testbit b (k mod 8) in
  xorb (xorb (xorb (xorb (xorb (bit i) (bit (i + 4))) (bit (i + 5))) (bit (i + 6))) (bit (i + 7))) (Z.testbit 0x63 i).
Definition fips_sbox (a : Z) : Z :=
  let b := ginv a in fold_right (fun i r => Z.b2z (affine_bit b i) + 2 * r) 0 [0; 1; 2; 3; 4; 5; 6; 7].

(** ** The state (3.4): row r, column c; input and output go column by column. *)
Definition state : Type := nat -> nat -> Z.
Definition to_state (b : list Z) : state := fun r c => nth (r + 4 * c) b 0.
Definition of_state (s : state) : list Z := flat_map (fun c => map (fun r => s r c) (seq 0 4)) (seq 0 4).

Definition SubBytes (s : state) : state := fun r c => fips_sbox (s r c).
Definition ShiftRows (s : state) : state := fun r c => s r ((c + r) mod 4)%nat.
(** 5.1.3: each column is multiplied by the matrix. *)
Definition mix_coeff (r k : nat) : Z := nth ((k + 4 - r) mod 4) [2; 3; 1; 1] 0.
Definition MixColumns (s : state) : state := fun r c =>
  fold_right Z.lxor 0 (map (fun k => gmul (mix_coeff r k) (s k c)) (seq 0 4)).

(** ** Key expansion (5.2): words are lists of four bytes. *)
Definition xor_list (a b : list Z) : list Z := map (fun p => Z.lxor (fst p) (snd p)) (combine a b).
Definition RotWord (w : list Z) : list Z := match w with a :: r => r ++ [a] | [] => [] end.
Definition SubWord (w : list Z) : list Z := map fips_sbox w.
(** Rcon[i] = x^(i-1). *)
Definition Rcon (i : nat) : list Z := [gpow 2 (i - 1); 0; 0; 0].
(** The words after [ws] (the latest first), numbered from [i]. *)
Fixpoint expand (n i : nat) (ws : list (list Z)) : list (list Z) :=
  match n with
  | O => ws
  | S n =>
      let temp := nth 0 ws [] in
      let temp := if (i mod 4 =? 0)%nat then xor_list (SubWord (RotWord temp)) (Rcon (i / 4)) else temp in
      expand n (S i) (xor_list (nth 3 ws []) temp :: ws)
  end.
Definition KeyExpansion (key : list Z) : list (list Z) :=
  rev (expand 40 4 [firstn 4 (skipn 12 key); firstn 4 (skipn 8 key); firstn 4 (skipn 4 key); firstn 4 key]).

(** ** Encryption (5.1) *)
Definition AddRoundKey (w : list (list Z)) (round : nat) (s : state) : state := fun r c =>
  Z.lxor (s r c) (nth r (nth (4 * round + c) w []) 0).
Definition cipher_round (w : list (list Z)) (s : state) (round : nat) : state :=
  AddRoundKey w round (MixColumns (ShiftRows (SubBytes s))).
Definition fips_cipher (key block : list Z) : list Z :=
  let w := KeyExpansion key in
  let s := AddRoundKey w 0 (to_state block) in
  let s := fold_left (cipher_round w) (seq 1 9) s in
  of_state (AddRoundKey w 10 (ShiftRows (SubBytes s))).
