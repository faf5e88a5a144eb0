(** GHASH over blocks. *)
From Verif Require Import Model.Prelude Model.Ghash Spec.Gcm38D Proof.Base Proof.LinP Proof.GhashP.

(** ** Words and numbers *)
Definition words (v : Z) : U32x4 := mkW (u32 v) (u32 (Z.shiftr v 32)) (u32 (Z.shiftr v 64)) (u32 (Z.shiftr v 96)).
Definition joined (w : U32x4) : Z :=
  Z.lxor (Z.lxor (w0 w) (Z.shiftl (w1 w) 32)) (Z.lxor (Z.shiftl (w2 w) 64) (Z.shiftl (w3 w) 96)).
Definition mulx_num (v : Z) : Z :=
  let v_hi := Z.shiftr v 127 in
  let v := shl128 v 1 in
  Z.lxor v (Z.lxor (Z.lxor (Z.lxor v_hi (shl128 v_hi 127)) (shl128 v_hi 126)) (shl128 v_hi 121)).
Definition mul_num (x h : Z) : Z := joined (w_mul (words x) (words (mulx_num h))).

Lemma lin_shl128 f k : lin f -> lin (fun x => shl128 (f x) k).
Proof. intros H. unfold shl128, u128. apply (lin_mod (fun x => Z.shiftl (f x) k) 128); [lia|]. apply lin_shiftl, H. Qed.
Lemma red_hi_lin : lin red_hi.
Proof. unfold red_hi. repeat apply lin_lxor; try apply lin_shiftr; apply lin_id. Qed.
Lemma red_lo_lin : lin red_lo.
Proof. unfold red_lo. repeat apply lin_lxor; apply lin_shl32, lin_id. Qed.
Lemma lin_red_hi f : lin f -> lin (fun x => red_hi (f x)). Proof. apply lin_comp, red_hi_lin. Qed.
Lemma lin_red_lo f : lin f -> lin (fun x => red_lo (f x)). Proof. apply lin_comp, red_lo_lin. Qed.
Lemma mulx_lin : lin mulx_num.
Proof.
  unfold mulx_num. cbv zeta. repeat apply lin_lxor; repeat first [apply lin_shl128 | apply lin_shiftr]; apply lin_id.
Qed.
Lemma lin_mulx f : lin f -> lin (fun x => mulx_num (f x)). Proof. apply lin_comp, mulx_lin. Qed.
Ltac lins b := lazymatch goal with
  | |- lin (fun x => x) => exact lin_id
  | |- lin (fun x => Z.lxor (@?f x) (@?g x)) => refine (lin_lxor f g _ _); lins b
  | |- lin (fun x => red_hi (@?f x)) => refine (lin_red_hi f _); lins b
  | |- lin (fun x => red_lo (@?f x)) => refine (lin_red_lo f _); lins b
  | |- lin (fun x => rev32 (@?f x)) => refine (lin_rev32 f _); lins b
  | |- lin (fun x => mulx_num (@?f x)) => refine (lin_mulx f _); lins b
  | |- lin (fun x => u32 (@?f x)) => refine (lin_u32 f _); lins b
  | |- lin (fun x => Z.shiftr (@?f x) ?k) => refine (lin_shiftr f k _); lins b
  | |- lin (fun x => Z.shiftl (@?f x) ?k) => refine (lin_shiftl f k _); lins b
  | |- lin (fun x => bmul32 (@?f x) (@?g x)) =>
      match b with
      | true => refine (lin_bmul32_l f (g 0) _); lins b
      | false => refine (lin_bmul32_r g (f 0) _); lins b
      end
  end.
Lemma mul_num_l h : lin (fun x => mul_num x h).
Proof. unfold mul_num, joined, w_mul. cbv zeta. cbn [w0 w1 w2 w3 words]. lins false. Qed.
Lemma mul_num_r x : lin (fun h => mul_num x h).
Proof. unfold mul_num, joined, w_mul. cbv zeta. cbn [w0 w1 w2 w3 words]. lins true. Qed.

(** The block product is bilinear as well. *)
Lemma next_v_lin : lin next_v.
Proof.
  eapply lin_ext with (fun v => Z.lxor (Z.shiftr v 1) (if Z.testbit v 0 then R else 0)).
  - intros v. unfold next_v. destruct (Z.testbit v 0); [reflexivity|now rewrite Z.lxor_0_r].
  - apply lin_lxor; [apply lin_shiftr, lin_id|apply (lin_bit (fun v => v)), lin_id].
Qed.
Lemma product_x n : forall x x' z z' v, product n (Z.lxor x x') (Z.lxor z z') v = Z.lxor (product n x z v) (product n x' z' v).
Proof.
  induction n as [|n IH]; intros; cbn [product]; [reflexivity|]. rewrite <- IH. f_equal. rewrite Z.lxor_spec.
  destruct (Z.testbit x (Z.of_nat n)), (Z.testbit x' (Z.of_nat n)); cbn [xorb]; apply Z.bits_inj'; intros k _; rewrite !Z.lxor_spec;
    now destruct (Z.testbit z k), (Z.testbit z' k), (Z.testbit v k).
Qed.
Lemma product_v n : forall x z z' v v', product n x (Z.lxor z z') (Z.lxor v v') = Z.lxor (product n x z v) (product n x z' v').
Proof.
  induction n as [|n IH]; intros; cbn [product]; [reflexivity|]. rewrite <- IH, next_v_lin. f_equal.
  destruct (Z.testbit x (Z.of_nat n)); [apply lxor_swap|reflexivity].
Qed.
Lemma block_mul_l y : lin (fun x => block_mul x y).
Proof. intros x x'. exact (product_x 128 x x' 0 0 y). Qed.
Lemma block_mul_r x : lin (fun y => block_mul x y).
Proof. intros y y'. exact (product_v 128 x 0 0 y y'). Qed.

(** ** Products of two words *)
(** The words of the product of word [p] of one factor and word [q] of the other: the low and the high half. *)
Definition hi32 (a b : Z) : Z := Z.shiftr (rev32 (bmul32 (rev32 a) (rev32 b))) 1.
Lemma bmul32_0_l y : bmul32 0 y = 0. Proof. exact (lin_zero _ (bmul32_l y)). Qed.
Lemma bmul32_0_r x : bmul32 x 0 = 0. Proof. exact (lin_zero _ (bmul32_r x)). Qed.
Definition reduced (z : nat -> Z) : U32x4 :=
  let z4 := Z.lxor (z 4%nat) (red_hi (z 0%nat)) in let z3 := Z.lxor (z 3%nat) (red_lo (z 0%nat)) in
  let z5 := Z.lxor (z 5%nat) (red_hi (z 1%nat)) in let z4 := Z.lxor z4 (red_lo (z 1%nat)) in
  let z6 := Z.lxor (z 6%nat) (red_hi (z 2%nat)) in let z5 := Z.lxor z5 (red_lo (z 2%nat)) in
  let z7 := Z.lxor (z 7%nat) (red_hi z3) in let z6 := Z.lxor z6 (red_lo z3) in
  mkW z4 z5 z6 z7.
Definition one_word (p : nat) (a : Z) : U32x4 :=
  let f i := if (i =? p)%nat then a else 0 in mkW (f 0%nat) (f 1%nat) (f 2%nat) (f 3%nat).
Definition two_words (p : nat) (lo hi : Z) : nat -> Z := fun i => if (i =? p)%nat then lo else if (i =? S p)%nat then hi else 0.
Lemma one_by_one p q a b : (p < 4)%nat -> (q < 4)%nat ->
  w_mul (one_word p a) (one_word q b) = reduced (two_words (p + q) (bmul32 b a) (hi32 b a)).
Proof.
  intros Hp Hq. assert (rev32 0 = 0) as R0 by reflexivity.
  do 4 (destruct p as [|p]; [do 4 (destruct q as [|q]; [
    unfold w_mul, one_word, two_words, reduced, hi32; cbn [w0 w1 w2 w3 Nat.eqb Nat.add];
    rewrite ?R0, ?Z.lxor_0_r, ?Z.lxor_0_l, ?bmul32_0_l, ?bmul32_0_r, ?R0, ?Z.lxor_0_r, ?Z.lxor_0_l, ?Z.lxor_nilpotent, ?R0, ?Z.lxor_0_r, ?Z.lxor_0_l, ?Z.shiftr_0_l, ?Z.lxor_0_r, ?Z.lxor_0_l;
    reflexivity|]); lia|]); lia.
Qed.
Lemma words_pow i : (i < 128)%nat -> words (2 ^ Z.of_nat i) = one_word (i / 32) (2 ^ Z.of_nat (i mod 32)).
Proof.
  intros H. assert (forallb (fun i => let a := words (2 ^ Z.of_nat i) in let b := one_word (i / 32) (2 ^ Z.of_nat (i mod 32)) in
    (w0 a =? w0 b) && (w1 a =? w1 b) && (w2 a =? w2 b) && (w3 a =? w3 b)) (seq 0 128) = true) as T by (vm_compute; reflexivity).
  rewrite forallb_forall in T. specialize (T i ltac:(apply in_seq; lia)). cbv zeta in T.
  destruct (words _) as [a0 a1 a2 a3], (one_word _ _) as [c0 c1 c2 c3]. cbn [w0 w1 w2 w3] in T. rewrite !andb_true_iff, !Z.eqb_eq in T. destruct T as (((-> & ->) & ->) & ->). reflexivity.
Qed.
Lemma word_product i j : (i < 32)%nat -> (j < 32)%nat ->
  bmul32 (2 ^ Z.of_nat j) (2 ^ Z.of_nat i) = (if (i + j <? 32)%nat then 2 ^ Z.of_nat (i + j) else 0) /\
  hi32 (2 ^ Z.of_nat j) (2 ^ Z.of_nat i) = (if (i + j <? 32)%nat then 0 else 2 ^ Z.of_nat (i + j - 32)).
Proof.
  intros Hi Hj. assert (forallb (fun i => let a := 2 ^ Z.of_nat i in forallb (fun j => let b := 2 ^ Z.of_nat j in
    (bmul32 b a =? (if (i + j <? 32)%nat then 2 ^ Z.of_nat (i + j) else 0)) && (hi32 b a =? (if (i + j <? 32)%nat then 0 else 2 ^ Z.of_nat (i + j - 32))))
    (seq 0 32)) (seq 0 32) = true) as T by (vm_compute; reflexivity).
  rewrite forallb_forall in T. specialize (T i ltac:(apply in_seq; lia)). cbv zeta in T.
  rewrite forallb_forall in T. specialize (T j ltac:(apply in_seq; lia)). rewrite andb_true_iff, !Z.eqb_eq in T. exact T.
Qed.
(** What is left of the power [k] of the indeterminate. *)
Definition left_of (k : nat) : Z := joined (reduced (two_words (k / 32) (2 ^ Z.of_nat (k mod 32)) 0)).
Lemma word_carry n h : (n < 7)%nat -> reduced (two_words n 0 h) = reduced (two_words (S n) h 0).
Proof. intros H. do 7 (destruct n as [|n]; [reflexivity|]). lia. Qed.
Lemma power_product i j : (i < 128)%nat -> (j < 128)%nat -> joined (w_mul (words (2 ^ Z.of_nat i)) (words (2 ^ Z.of_nat j))) = left_of (i + j).
Proof.
  intros Hi Hj. rewrite !words_pow by assumption.
  assert (i / 32 < 4)%nat as P by (apply Nat.div_lt_upper_bound; lia). assert (j / 32 < 4)%nat as Q by (apply Nat.div_lt_upper_bound; lia).
  rewrite one_by_one by assumption.
  assert (i mod 32 < 32)%nat as P' by (apply Nat.mod_upper_bound; lia). assert (j mod 32 < 32)%nat as Q' by (apply Nat.mod_upper_bound; lia).
  destruct (word_product (i mod 32) (j mod 32) P' Q') as (-> & ->). unfold left_of.
  pose proof (Nat.div_mod i 32 ltac:(lia)) as Ei. pose proof (Nat.div_mod j 32 ltac:(lia)) as Ej.
  set (p := (i / 32)%nat) in *. set (q := (j / 32)%nat) in *. set (a := (i mod 32)%nat) in *. set (b := (j mod 32)%nat) in *. clearbody p q a b. subst i j.
  destruct (Nat.ltb_spec (a + b) 32).
  - replace (32 * p + a + (32 * q + b))%nat with (a + b + (p + q) * 32)%nat by lia.
    rewrite Nat.div_add, Nat.mod_add, (Nat.div_small (a + b)), Nat.mod_small by lia. reflexivity.
  - rewrite word_carry by lia. replace (32 * p + a + (32 * q + b))%nat with (a + b - 32 + (S (p + q)) * 32)%nat by lia.
    rewrite Nat.div_add, Nat.mod_add, (Nat.div_small (a + b - 32)), Nat.mod_small by lia. reflexivity.
Qed.

(** ** The same for the standard *)
Fixpoint times (n : nat) (v : Z) : Z := match n with O => v | S n => next_v (times n v) end.
Lemma times_next n v : times n (next_v v) = next_v (times n v). Proof. induction n; cbn [times]; congruence. Qed.
Lemma times_plus m n v : times (m + n) v = times m (times n v). Proof. induction m; cbn [times Nat.add]; congruence. Qed.
Lemma product_none n : forall x z v, (forall k, (k < n)%nat -> Z.testbit x (Z.of_nat k) = false) -> product n x z v = z.
Proof. induction n as [|n IH]; intros x z v H; cbn [product]; [reflexivity|]. rewrite H by lia. apply IH. intros k Hk. apply H. lia. Qed.
Lemma product_pow n : forall i z v, (i < n)%nat -> product n (2 ^ Z.of_nat i) z v = Z.lxor z (times (n - 1 - i) v).
Proof.
  induction n as [|n IH]; intros i z v H; [lia|]. cbn [product]. destruct (Nat.eq_dec i n) as [->|Ne].
  - rewrite Z.pow2_bits_true by lia. rewrite product_none by (intros; apply Z.pow2_bits_false; lia). replace (S n - 1 - n)%nat with O by lia. reflexivity.
  - rewrite Z.pow2_bits_false by lia. rewrite IH by lia. replace (S n - 1 - i)%nat with (S (n - 1 - i)) by lia. cbn [times]. now rewrite times_next.
Qed.
Lemma pow_times j : (j < 128)%nat -> 2 ^ Z.of_nat j = times (127 - j) (2 ^ 127).
Proof.
  intros H. assert (forall n, (n <= 127)%nat -> times n (2 ^ 127) = 2 ^ Z.of_nat (127 - n)) as E.
  { induction n as [|n IH]; intros Hn; [reflexivity|]. cbn [times]. rewrite IH by lia. unfold next_v. rewrite Z.pow2_bits_false by lia.
    rewrite Z.shiftr_div_pow2 by lia. replace (Z.of_nat (127 - n)) with (1 + Z.of_nat (127 - S n)) by lia. rewrite Z.pow_add_r by lia. rewrite Z.mul_comm. apply Z.div_mul. lia. }
  rewrite E by lia. f_equal. lia.
Qed.
Lemma power_block i j : (i < 128)%nat -> (j < 128)%nat -> block_mul (2 ^ Z.of_nat i) (2 ^ Z.of_nat j) = times (254 - i - j) (2 ^ 127).
Proof.
  intros Hi Hj. unfold block_mul. rewrite product_pow by lia. rewrite Z.lxor_0_l. rewrite (pow_times j) by lia. rewrite <- times_plus. f_equal. lia.
Qed.

Fixpoint iterates (n : nat) (v : Z) : list Z := match n with O => [] | S n => v :: iterates n (next_v v) end.
Lemma nth_iterates n : forall v k, (k < n)%nat -> nth k (iterates n v) 0 = times k v.
Proof.
  induction n as [|n IH]; intros v k H; [lia|]. destruct k; [reflexivity|]. cbn [iterates nth times]. rewrite IH by lia. apply times_next.
Qed.
Lemma left_times k : (k < 255)%nat -> left_of k = times (255 - k) (2 ^ 127).
Proof.
  intros H. assert (forallb (fun p => left_of (fst p) =? snd p) (combine (rev (seq 0 256)) (iterates 256 (2 ^ 127))) = true) as T by (vm_compute; reflexivity).
  rewrite forallb_forall in T. specialize (T (k, times (255 - k) (2 ^ 127))). apply Z.eqb_eq. apply T.
  assert (length (rev (seq 0 256)) = 256%nat) as L1 by reflexivity. assert (length (iterates 256 (2 ^ 127)) = 256%nat) as L2 by reflexivity.
  replace (k, times (255 - k) (2 ^ 127)) with (nth (255 - k) (combine (rev (seq 0 256)) (iterates 256 (2 ^ 127))) (0%nat, 0)).
  - apply nth_In. rewrite combine_length, L1, L2. lia.
  - rewrite combine_nth by (rewrite L1, L2; reflexivity). rewrite nth_iterates by lia. f_equal.
    rewrite rev_nth by (rewrite seq_length; lia). rewrite seq_length, seq_nth by lia. lia.
Qed.
Lemma mulx_pow j : (j < 127)%nat -> mulx_num (2 ^ Z.of_nat j) = 2 ^ Z.of_nat (S j).
Proof.
  intros H. assert (forallb (fun j => mulx_num (2 ^ Z.of_nat j) =? 2 ^ Z.of_nat (S j)) (seq 0 127) = true) as T by (vm_compute; reflexivity).
  rewrite forallb_forall in T. specialize (T j ltac:(apply in_seq; lia)). now apply Z.eqb_eq in T.
Qed.
Lemma times_lin n : lin (times n).
Proof. induction n as [|n IH]; [apply lin_id|]. cbn [times]. apply (lin_comp next_v (times n)); [apply next_v_lin|exact IH]. Qed.
Lemma wrap i : (i < 128)%nat ->
  Z.lxor (Z.lxor (Z.lxor (times (255 - i) (2 ^ 127)) (times (255 - (i + 127)) (2 ^ 127))) (times (255 - (i + 126)) (2 ^ 127))) (times (255 - (i + 121)) (2 ^ 127)) =
  times (127 - i) (2 ^ 127).
Proof.
  intros H. replace (255 - i)%nat with (127 - i + 128)%nat by lia. replace (255 - (i + 127))%nat with (127 - i + 1)%nat by lia.
  replace (255 - (i + 126))%nat with (127 - i + 2)%nat by lia. replace (255 - (i + 121))%nat with (127 - i + 7)%nat by lia.
  rewrite !(times_plus (127 - i)). rewrite <- !times_lin. apply (f_equal (times (127 - i))). vm_compute. reflexivity.
Qed.
Lemma mul_num_pow i j : (i < 128)%nat -> (j < 128)%nat -> mul_num (2 ^ Z.of_nat i) (2 ^ Z.of_nat j) = block_mul (2 ^ Z.of_nat i) (2 ^ Z.of_nat j).
Proof.
  intros Hi Hj. rewrite power_block by assumption. unfold mul_num. destruct (Nat.eq_dec j 127) as [->|Ne].
  - replace (254 - i - 127)%nat with (127 - i)%nat by lia. rewrite <- wrap by assumption.
    assert (mulx_num (2 ^ Z.of_nat 127) = Z.lxor (Z.lxor (Z.lxor (2 ^ Z.of_nat 0) (2 ^ Z.of_nat 127)) (2 ^ Z.of_nat 126)) (2 ^ Z.of_nat 121)) as -> by (vm_compute; reflexivity).
    assert (lin (fun g => joined (w_mul (words (2 ^ Z.of_nat i)) (words g)))) as L.
    { unfold joined, w_mul. cbv zeta. cbn [w0 w1 w2 w3 words]. lins true. }
    rewrite !L. rewrite !power_product by lia. rewrite !left_times by lia. now rewrite Nat.add_0_r.
  - rewrite mulx_pow by lia. rewrite power_product by lia. rewrite left_times by lia. f_equal. lia.
Qed.
Lemma mul_num_ok x h : 0 <= x < 2 ^ 128 -> 0 <= h < 2 ^ 128 -> mul_num x h = block_mul x h.
Proof.
  intros Hx Hh. apply (lin_basis (fun x => mul_num x h) (fun x => block_mul x h) 128); [apply mul_num_l|apply block_mul_l| |exact Hx].
  intros i Hi. apply (lin_basis (fun h => mul_num _ h) (fun h => block_mul _ h) 128); [apply mul_num_r|apply block_mul_r| |exact Hh].
  intros j Hj. now apply mul_num_pow.
Qed.
