(** The product of ghash.rs is the block product of SP 800-38D. *)
From Verif Require Import Model.Prelude Model.Ghash Spec.Gcm38D Proof.Base Proof.LinP.

(** ** The masked products *)
Definition M0 : Z := 0x11111111.
Definition M64 : Z := 0x1111111111111111.
Definition pick (b : bool) (c : Z) : Z := if b then c else 0.
Lemma pick_bit b c n : Z.testbit (pick b c) n = b && Z.testbit c n.
Proof. destruct b; [reflexivity|apply Z.bits_0]. Qed.
Definition mk8 (l : list bool) : Z :=
  fold_right Z.lxor 0 (map (fun p : nat * bool => pick (snd p) (2 ^ (4 * Z.of_nat (fst p)))) (combine (seq 0 8) l)).
Definition nib (x : Z) : list bool := map (fun i => Z.testbit x (4 * Z.of_nat i)) (seq 0 8).

Lemma below32 (P : Z -> Prop) : (forall n, (n < 32)%nat -> P (Z.of_nat n)) -> forall n, 0 <= n < 32 -> P n.
Proof. intros H n Hn. rewrite <- (Z2Nat.id n) by lia. apply H. lia. Qed.
Ltac upto n := do 32 (try (destruct n as [|n]; [|])).
Lemma mask_bits x : Z.land x M0 = mk8 (nib x).
Proof.
  apply Z.bits_inj'. intros n Hn. rewrite Z.land_spec. unfold mk8, nib. cbn [map seq combine fold_right fst snd].
  rewrite !Z.lxor_spec, !pick_bit, Z.bits_0. destruct (Z.lt_ge_cases n 32) as [H|H].
  - revert n Hn H. intros n Hn H. pattern n. apply below32; [|lia]. clear n Hn H. intros n Hn.
    do 32 (destruct n as [|n]; [vm_compute (Z.testbit M0 _); repeat match goal with |- context [Z.testbit (2 ^ ?a) ?b] => let v := eval vm_compute in (Z.testbit (2 ^ a) b) in change (Z.testbit (2 ^ a) b) with v end; rewrite ?andb_false_r, ?andb_true_r, ?xorb_false_r, ?xorb_false_l; reflexivity|]). lia.
  - assert (Z.testbit M0 n = false) as -> by (apply Z.bits_above_log2; [unfold M0; lia|change (Z.log2 M0) with 28; lia]).
    rewrite !Z.pow2_bits_false by (cbn; lia). now rewrite !andb_false_r.
Qed.

Definition table : list (list bool) :=
  fold_right (fun _ acc => map (cons true) acc ++ map (cons false) acc) [[]] (seq 0 8).
Lemma in_lists n (l : list bool) : length l = n ->
  In l (fold_right (fun _ acc => map (cons true) acc ++ map (cons false) acc) [[]] (seq 0 n)).
Proof.
  intros H. generalize 0%nat as s. revert l H. induction n as [|n IH]; intros l H s.
  - destruct l; [left; reflexivity|discriminate].
  - destruct l as [|b l]; [discriminate|]. cbn [seq fold_right]. apply in_or_app. destruct b; [left|right]; apply in_map; apply IH; cbn in H; lia.
Qed.
(** The carry-less product of two numbers with one bit in every four. *)
Definition carryless (x : Z) (y : Z) : Z :=
  fold_right Z.lxor 0 (map (fun i => if Z.testbit x (4 * Z.of_nat i) then Z.shiftl y (4 * Z.of_nat i) else 0) (seq 0 8)).
Lemma product_table : forallb (fun a => forallb (fun b => Z.land (mk8 a * mk8 b) M64 =? carryless (mk8 a) (mk8 b)) table) table = true.
Proof. vm_compute. reflexivity. Qed.
Lemma product_mask x y : Z.land (Z.land x M0 * Z.land y M0) M64 = carryless (Z.land x M0) (Z.land y M0).
Proof.
  rewrite !mask_bits. pose proof product_table as T. rewrite forallb_forall in T.
  specialize (T (nib x) (in_lists 8 (nib x) eq_refl)). rewrite forallb_forall in T.
  specialize (T (nib y) (in_lists 8 (nib y) eq_refl)). now apply Z.eqb_eq in T.
Qed.

Lemma land_shifted x j : 0 <= j -> Z.land x (Z.shiftl M0 j) = Z.shiftl (Z.land (Z.shiftr x j) M0) j.
Proof.
  intros Hj. apply Z.bits_inj'. intros n Hn. rewrite Z.land_spec, !Z.shiftl_spec, Z.land_spec by lia.
  destruct (Z.lt_ge_cases n j) as [H|H].
  - rewrite !(Z.testbit_neg_r _ (n - j)) by lia. apply andb_false_r.
  - rewrite Z.shiftr_spec by lia. now replace (n - j + j) with n by lia.
Qed.
(** One product of [bmul32] under the mask of the bits it contributes to. *)
Definition term (j l x y : Z) : Z :=
  Z.land (u32 (Z.land x (Z.shiftl M0 j) * Z.land y (Z.shiftl M0 l))) (Z.shiftl M0 ((j + l) mod 4)).
Definition term_cl (j l x y : Z) : Z :=
  Z.land (u32 (Z.shiftl (carryless (Z.land (Z.shiftr x j) M0) (Z.land (Z.shiftr y l) M0)) (j + l))) (Z.shiftl M0 ((j + l) mod 4)).
Lemma hole s n : 0 <= s < 8 -> 0 <= n < 32 ->
  Z.testbit (Z.shiftl M0 (s mod 4)) n && (s <=? n) = true -> Z.testbit M64 (n - s) = true.
Proof.
  intros Hs Hn.
  assert (forallb (fun s => forallb (fun n => implb (Z.testbit (Z.shiftl M0 (Z.of_nat s mod 4)) (Z.of_nat n) && (Z.of_nat s <=? Z.of_nat n))
    (Z.testbit M64 (Z.of_nat n - Z.of_nat s))) (seq 0 32)) (seq 0 8) = true) as T by (vm_compute; reflexivity).
  rewrite forallb_forall in T. specialize (T (Z.to_nat s) ltac:(apply in_seq; lia)). rewrite forallb_forall in T.
  specialize (T (Z.to_nat n) ltac:(apply in_seq; lia)). rewrite !Z2Nat.id in T by lia. intros H. rewrite H in T. exact T.
Qed.
Lemma u32_bits x n : 0 <= n -> Z.testbit (u32 x) n = (n <? 32) && Z.testbit x n.
Proof.
  intros H. unfold u32. change 4294967296 with (2 ^ 32). destruct (Z.ltb_spec n 32).
  - now rewrite Z.mod_pow2_bits_low by lia.
  - now rewrite Z.mod_pow2_bits_high by lia.
Qed.
Lemma term_ok j l x y : 0 <= j < 4 -> 0 <= l < 4 -> term j l x y = term_cl j l x y.
Proof.
  intros Hj Hl. unfold term, term_cl. rewrite (land_shifted x j), (land_shifted y l) by lia. rewrite <- product_mask.
  set (X := Z.land (Z.shiftr x j) M0). set (Y := Z.land (Z.shiftr y l) M0).
  replace (Z.shiftl X j * Z.shiftl Y l) with (Z.shiftl (X * Y) (j + l))
    by (rewrite !Z.shiftl_mul_pow2, Z.pow_add_r by lia; lia).
  apply Z.bits_inj'. intros n Hn. rewrite !Z.land_spec, !u32_bits, !Z.shiftl_spec, Z.land_spec by lia.
  destruct (Z.ltb_spec n 32); [|reflexivity].
  pose proof (hole (j + l) n ltac:(lia) ltac:(lia)) as Hh. rewrite Z.shiftl_spec in Hh by lia.
  destruct (Z.lt_ge_cases n (j + l)) as [Hlt|Hge].
  - rewrite (Z.testbit_neg_r _ (n - (j + l))) by lia. reflexivity.
  - replace (j + l <=? n) with true in Hh by lia. rewrite andb_true_r in Hh.
    destruct (Z.testbit M0 (n - (j + l) mod 4)); [rewrite Hh by reflexivity|]; now rewrite ?andb_false_r, ?andb_true_r.
Qed.

Lemma lin_u32 f : lin f -> lin (fun x => u32 (f x)).
Proof. intros H. apply (lin_mod f 32); [lia|exact H]. Qed.
Lemma lin_fold (fs : list (Z -> Z)) : Forall lin fs -> lin (fun x => fold_right Z.lxor 0 (map (fun f => f x) fs)).
Proof. induction 1; cbn [map fold_right]; [apply lin_0|]. now apply lin_lxor. Qed.
Lemma carryless_l y : lin (fun x => carryless x y).
Proof.
  unfold carryless. cbn [map seq fold_right]. repeat (apply lin_lxor; [apply (lin_bit (fun x => x)); apply lin_id|]). apply lin_0.
Qed.
Lemma carryless_r x : lin (fun y => carryless x y).
Proof.
  unfold carryless. cbn [map seq fold_right]. repeat (apply lin_lxor; [apply (lin_if _ (fun y => Z.shiftl y _)); apply lin_shiftl, lin_id|]). apply lin_0.
Qed.
Lemma term_l j l y : 0 <= j < 4 -> 0 <= l < 4 -> lin (fun x => term j l x y).
Proof.
  intros Hj Hl. apply lin_ext with (fun x => term_cl j l x y); [intros; now apply term_ok|].
  unfold term_cl. apply lin_land, lin_u32, lin_shiftl. apply (lin_comp (fun x => carryless x _)); [apply carryless_l|].
  apply lin_land, lin_shiftr, lin_id.
Qed.
Lemma term_r j l x : 0 <= j < 4 -> 0 <= l < 4 -> lin (fun y => term j l x y).
Proof.
  intros Hj Hl. apply lin_ext with (fun y => term_cl j l x y); [intros; now apply term_ok|].
  unfold term_cl. apply lin_land, lin_u32, lin_shiftl. apply (lin_comp (fun y => carryless _ y)); [apply carryless_r|].
  apply lin_land, lin_shiftr, lin_id.
Qed.
Lemma lor_disjoint a b m n : Z.land m n = 0 -> Z.lor (Z.land a m) (Z.land b n) = Z.lxor (Z.land a m) (Z.land b n).
Proof.
  intros H. apply Z.bits_inj'. intros k _. rewrite Z.lor_spec, Z.lxor_spec, !Z.land_spec.
  assert (Z.testbit m k && Z.testbit n k = false) as E by (rewrite <- Z.land_spec, H; apply Z.bits_0).
  destruct (Z.testbit a k), (Z.testbit b k), (Z.testbit m k), (Z.testbit n k); try reflexivity; discriminate.
Qed.
Lemma lor_land a b m n : Z.lxor (Z.land a m) (Z.land b n) = Z.land (Z.lxor (Z.land a m) (Z.land b n)) (Z.lor m n).
Proof.
  apply Z.bits_inj'. intros k _. rewrite Z.land_spec, Z.lor_spec, Z.lxor_spec, !Z.land_spec.
  now destruct (Z.testbit a k), (Z.testbit b k), (Z.testbit m k), (Z.testbit n k).
Qed.
Definition four (a b c d : Z) : Z := Z.lxor (Z.lxor (Z.lxor a b) c) d.
Lemma bmul32_terms x y : bmul32 x y =
  four (four (term 0 0 x y) (term 1 3 x y) (term 2 2 x y) (term 3 1 x y))
       (four (term 0 1 x y) (term 1 0 x y) (term 2 3 x y) (term 3 2 x y))
       (four (term 0 2 x y) (term 1 1 x y) (term 2 0 x y) (term 3 3 x y))
       (four (term 0 3 x y) (term 1 2 x y) (term 2 1 x y) (term 3 0 x y)).
Proof.
  unfold bmul32. cbv zeta. unfold four, term.
  change (Z.shiftl M0 0) with 0x11111111. change (Z.shiftl M0 1) with 0x22222222.
  change (Z.shiftl M0 2) with 0x44444444. change (Z.shiftl M0 3) with 0x88888888.
  change (Z.shiftl M0 ((0 + 0) mod 4)) with 0x11111111. change (Z.shiftl M0 ((1 + 3) mod 4)) with 0x11111111.
  change (Z.shiftl M0 ((2 + 2) mod 4)) with 0x11111111. change (Z.shiftl M0 ((3 + 1) mod 4)) with 0x11111111.
  change (Z.shiftl M0 ((0 + 1) mod 4)) with 0x22222222. change (Z.shiftl M0 ((1 + 0) mod 4)) with 0x22222222.
  change (Z.shiftl M0 ((2 + 3) mod 4)) with 0x22222222. change (Z.shiftl M0 ((3 + 2) mod 4)) with 0x22222222.
  change (Z.shiftl M0 ((0 + 2) mod 4)) with 0x44444444. change (Z.shiftl M0 ((1 + 1) mod 4)) with 0x44444444.
  change (Z.shiftl M0 ((2 + 0) mod 4)) with 0x44444444. change (Z.shiftl M0 ((3 + 3) mod 4)) with 0x44444444.
  change (Z.shiftl M0 ((0 + 3) mod 4)) with 0x88888888. change (Z.shiftl M0 ((1 + 2) mod 4)) with 0x88888888.
  change (Z.shiftl M0 ((2 + 1) mod 4)) with 0x88888888. change (Z.shiftl M0 ((3 + 0) mod 4)) with 0x88888888.
  rewrite <- !land_lxor_l.
  rewrite lor_disjoint by reflexivity. rewrite lor_land at 1. rewrite lor_disjoint by reflexivity. rewrite lor_land at 1.
  rewrite lor_disjoint by reflexivity. rewrite <- lor_land, <- lor_land. reflexivity.
Qed.
Ltac ranges := lia.
Lemma bmul32_l y : lin (fun x => bmul32 x y).
Proof. eapply lin_ext; [intros; apply bmul32_terms|]. unfold four. repeat apply lin_lxor; apply term_l; lia. Qed.
Lemma bmul32_r x : lin (fun y => bmul32 x y).
Proof. eapply lin_ext; [intros; apply bmul32_terms|]. unfold four. repeat apply lin_lxor; apply term_r; lia. Qed.
Lemma lin_bmul32_l f c : lin f -> lin (fun x => bmul32 (f x) c).
Proof. intros H. apply (lin_comp (fun x => bmul32 x c)); [apply bmul32_l|exact H]. Qed.
Lemma lin_bmul32_r f c : lin f -> lin (fun x => bmul32 c (f x)).
Proof. intros H. apply (lin_comp (fun x => bmul32 c x)); [apply bmul32_r|exact H]. Qed.

(** ** Bit reversal *)
Lemma lor_halves x k m : 0 <= k < 32 -> Z.land (u32 (Z.shiftl m k)) m = 0 ->
  Z.lor (shl32 (Z.land x m) k) (Z.land (Z.shiftr x k) m) = Z.lxor (shl32 (Z.land x m) k) (Z.land (Z.shiftr x k) m).
Proof.
  intros Hk H. apply Z.bits_inj'. intros n Hn. unfold shl32. rewrite Z.lor_spec, Z.lxor_spec, !u32_bits, !Z.shiftl_spec, !Z.land_spec by lia.
  assert (Z.testbit (Z.land (u32 (Z.shiftl m k)) m) n = false) as E by (rewrite H; apply Z.bits_0).
  rewrite Z.land_spec, u32_bits, Z.shiftl_spec in E by lia.
  destruct (n <? 32), (Z.testbit m (n - k)), (Z.testbit m n), (Z.testbit x (n - k)), (Z.testbit (Z.shiftr x k) n); try reflexivity; discriminate.
Qed.
Lemma lin_shl32 f k : lin f -> lin (fun x => shl32 (f x) k).
Proof. intros H. unfold shl32. apply lin_u32, lin_shiftl, H. Qed.
Lemma lin_half f k m : 0 <= k < 32 -> Z.land (u32 (Z.shiftl m k)) m = 0 -> lin f ->
  lin (fun x => Z.lor (shl32 (Z.land (f x) m) k) (Z.land (Z.shiftr (f x) k) m)).
Proof.
  intros Hk H Hf. eapply lin_ext; [intros; now apply lor_halves|]. apply lin_lxor.
  - apply lin_shl32, lin_land, Hf.
  - apply lin_land, lin_shiftr, Hf.
Qed.
Lemma rev32_lin : lin rev32.
Proof.
  unfold rev32. eapply lin_ext; [intros; apply Z.lor_comm|]. cbv zeta beta.
  repeat (apply lin_half; [lia|reflexivity|]). apply lin_id.
Qed.
Lemma lin_rev32 f : lin f -> lin (fun x => rev32 (f x)).
Proof. apply lin_comp, rev32_lin. Qed.
