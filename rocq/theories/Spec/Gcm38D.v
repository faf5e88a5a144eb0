(** NIST SP 800-38D on bytes: the block product, GHASH, GCTR and the authenticated encryption for a
    96-bit nonce.  Written from the standard. *)
From Verif Require Import Model.Prelude.

(** A block of 16 bytes as a number: the leftmost bit of the block is bit 127 of the number. *)
Fixpoint block_num (l : list Z) : Z :=
  match l with [] => 0 | b :: r => b * 2 ^ (8 * Z.of_nat (length r)) + block_num r end.
Fixpoint block_of (n : nat) (v : Z) : list Z :=
  match n with O => [] | S k => (v / 2 ^ (8 * Z.of_nat k)) mod 256 :: block_of k v end.

(** 6.3, algorithm 1: [V] is multiplied by the indeterminate; [R] is 11100001 followed by 120 zeros. *)
Definition R : Z := 0xE1000000000000000000000000000000.
Definition next_v (v : Z) : Z := if Z.testbit v 0 then Z.lxor (Z.shiftr v 1) R else Z.shiftr v 1.
(** The bits of [x] from bit [n - 1] down to bit 0. *)
Fixpoint product (n : nat) (x z v : Z) : Z :=
  match n with
  | O => z
  | S k => product k x (if Z.testbit x (Z.of_nat k) then Z.lxor z v else z) (next_v v)
  end.
Definition block_mul (x y : Z) : Z := product 128 x 0 y.
(** 6.4, algorithm 2. *)
Definition ghash_num (h : Z) (xs : list Z) : Z := fold_left (fun y x => block_mul (Z.lxor y x) h) xs 0.
Definition GHASH (h : list Z) (xs : list (list Z)) : list Z := block_of 16 (ghash_num (block_num h) (map block_num xs)).

Section GCM.
(** The block cipher under the key. *)
Variable ciph : list Z -> list Z.

(** Exclusive or of two strings; the result has the length of the shorter one. *)
Definition xor_str (a b : list Z) : list Z := map (fun p => Z.lxor (fst p) (snd p)) (combine a b).
(** 6.2: increment the rightmost 32 bits. *)
Definition inc32 (b : list Z) : list Z := firstn 12 b ++ block_of 4 ((block_num (skipn 12 b) + 1) mod 2 ^ 32).
(** 6.5, algorithm 3: the counter block for every block of the string, the last of which may be short. *)
Fixpoint gctr (n : nat) (cb x : list Z) : list Z :=
  match n with
  | O => []
  | S n => xor_str (firstn 16 x) (ciph cb) ++ gctr n (inc32 cb) (skipn 16 x)
  end.
Definition blocks_in (l : list Z) : nat := (length l + 15) / 16.
Definition GCTR (icb x : list Z) : list Z := gctr (blocks_in x) icb x.

(** Zero padding to a whole number of blocks, and the blocks. *)
Definition pad16 (l : list Z) : list Z := l ++ zeros ((16 - length l mod 16) mod 16).
Fixpoint split16 (n : nat) (l : list Z) : list (list Z) :=
  match n with O => [] | S n => firstn 16 l :: split16 n (skipn 16 l) end.
Definition blocks16 (l : list Z) : list (list Z) := split16 (blocks_in l) (pad16 l).

(** 7.1, algorithm 4, for a nonce of 96 bits and a tag of 128 bits. *)
Definition hash_subkey : list Z := ciph (zeros 16).
Definition J0 (iv : list Z) : list Z := iv ++ [0; 0; 0; 1].
Definition gcm_tag (iv aad c : list Z) : list Z :=
  let s := GHASH hash_subkey (blocks16 aad ++ blocks16 c ++ [block_of 8 (8 * zlen aad) ++ block_of 8 (8 * zlen c)]) in
  GCTR (J0 iv) s.
Definition gcm_encrypt (iv aad p : list Z) : list Z * list Z :=
  let c := GCTR (inc32 (J0 iv)) p in (c, gcm_tag iv aad c).
(** 7.2, algorithm 5: [None] is FAIL. *)
Definition gcm_decrypt (iv aad c t : list Z) : option (list Z) :=
  if list_eq_dec Z.eq_dec (gcm_tag iv aad c) t then Some (GCTR (inc32 (J0 iv)) c) else None.
End GCM.
