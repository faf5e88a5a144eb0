(** Functions on integers that commute with exclusive or. *)
From Verif Require Import Model.Prelude Proof.Base.

Definition lin (f : Z -> Z) : Prop := forall x y, f (Z.lxor x y) = Z.lxor (f x) (f y).
Lemma lin_id : lin (fun x => x). Proof. intros x y. reflexivity. Qed.
Lemma lin_0 : lin (fun _ => 0). Proof. intros x y. reflexivity. Qed.
Lemma lxor_swap a b c d : Z.lxor (Z.lxor a b) (Z.lxor c d) = Z.lxor (Z.lxor a c) (Z.lxor b d).
Proof. rewrite !Z.lxor_assoc. f_equal. rewrite <- !Z.lxor_assoc. f_equal. apply Z.lxor_comm. Qed.
Lemma lin_lxor f g : lin f -> lin g -> lin (fun x => Z.lxor (f x) (g x)).
Proof. intros Hf Hg x y. rewrite Hf, Hg. apply lxor_swap. Qed.
Lemma lin_comp f g : lin f -> lin g -> lin (fun x => f (g x)).
Proof. intros Hf Hg x y. rewrite Hg. apply Hf. Qed.
Lemma land_lxor_l a b c : Z.land (Z.lxor a b) c = Z.lxor (Z.land a c) (Z.land b c).
Proof. apply Z.bits_inj'. intros n _. rewrite Z.land_spec, !Z.lxor_spec, !Z.land_spec. now destruct (Z.testbit a n), (Z.testbit b n), (Z.testbit c n). Qed.
Lemma lin_land f c : lin f -> lin (fun x => Z.land (f x) c).
Proof. intros Hf x y. rewrite Hf. apply land_lxor_l. Qed.
Lemma lin_shiftr f k : lin f -> lin (fun x => Z.shiftr (f x) k).
Proof. intros Hf x y. rewrite Hf. apply Z.shiftr_lxor. Qed.
Lemma lin_shiftl f k : lin f -> lin (fun x => Z.shiftl (f x) k).
Proof. intros Hf x y. rewrite Hf. apply Z.shiftl_lxor. Qed.
Lemma mod_lxor a b n : 0 <= n -> Z.lxor a b mod 2 ^ n = Z.lxor (a mod 2 ^ n) (b mod 2 ^ n).
Proof. intros H. rewrite <- !Z.land_ones by lia. apply land_lxor_l. Qed.
Lemma lin_mod f n : 0 <= n -> lin f -> lin (fun x => f x mod 2 ^ n).
Proof. intros Hn Hf x y. rewrite Hf. now apply mod_lxor. Qed.
Lemma lin_zero f : lin f -> f 0 = 0.
Proof. intros H. pose proof (H 0 0) as E. rewrite Z.lxor_0_r, Z.lxor_nilpotent in E. exact E. Qed.
(** A bit of the argument selects a number. *)
Lemma lin_bit f i c : lin f -> lin (fun x => if Z.testbit (f x) i then c else 0).
Proof.
  intros Hf x y. rewrite Hf, Z.lxor_spec. destruct (Z.testbit (f x) i), (Z.testbit (f y) i); cbn [xorb];
    now rewrite ?Z.lxor_nilpotent, ?Z.lxor_0_r, ?Z.lxor_0_l.
Qed.
Lemma lin_if (b : bool) f : lin f -> lin (fun x => if b then f x else 0).
Proof. intros Hf. destruct b; [exact Hf|apply lin_0]. Qed.
Lemma lin_ext f g : (forall x, f x = g x) -> lin g -> lin f.
Proof. intros E H x y. rewrite !E. apply H. Qed.

(** Two of them that agree on the powers of two agree. *)
Lemma lin_basis f g n : lin f -> lin g -> (forall i, (i < n)%nat -> f (2 ^ Z.of_nat i) = g (2 ^ Z.of_nat i)) ->
  forall x, 0 <= x < 2 ^ Z.of_nat n -> f x = g x.
Proof.
  intros Hf Hg. induction n as [|n IH]; intros Hb x Hx.
  - change (2 ^ Z.of_nat 0) with 1 in Hx. replace x with 0 by lia. now rewrite !lin_zero.
  - assert (x = Z.lxor (x mod 2 ^ Z.of_nat n) (if Z.testbit x (Z.of_nat n) then 2 ^ Z.of_nat n else 0)) as E.
    { apply Z.bits_inj'. intros k Hk. rewrite Z.lxor_spec.
      destruct (Z.lt_trichotomy k (Z.of_nat n)) as [H|[H|H]].
      - rewrite Z.mod_pow2_bits_low by lia. destruct (Z.testbit x (Z.of_nat n)).
        + rewrite Z.pow2_bits_false by lia. now rewrite xorb_false_r.
        + now rewrite Z.bits_0, xorb_false_r.
      - subst k. rewrite Z.mod_pow2_bits_high by lia. destruct (Z.testbit x (Z.of_nat n)).
        + now rewrite Z.pow2_bits_true by lia.
        + now rewrite Z.bits_0.
      - rewrite Z.mod_pow2_bits_high by lia.
        assert (Z.testbit x k = false) as ->.
        { rewrite Z.testbit_eqb by lia. replace (x / 2 ^ k) with 0; [reflexivity|]. symmetry. apply Z.div_small. split; [lia|].
          apply Z.lt_le_trans with (2 ^ Z.of_nat (S n)); [lia|]. apply Z.pow_le_mono_r; lia. }
        destruct (Z.testbit x (Z.of_nat n)).
        + now rewrite Z.pow2_bits_false by lia.
        + now rewrite Z.bits_0. }
    rewrite E, Hf, Hg. f_equal.
    + apply IH; [intros; apply Hb; lia|]. apply Z.mod_pos_bound. apply Z.pow_pos_nonneg; lia.
    + destruct (Z.testbit x (Z.of_nat n)); [apply Hb; lia|]. now rewrite !lin_zero.
Qed.
