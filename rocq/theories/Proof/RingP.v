(** Cyclic windows of a list. *)
From Verif Require Import Model.Prelude Proof.Base.

Definition zn (l : list Z) (i : Z) : Z := nth (Z.to_nat i) l 0.
Lemma zn_app l r i : 0 <= i -> zn (l ++ r) i = if i <? zlen l then zn l i else zn r (i - zlen l).
Proof.
  intros H. unfold zn. destruct (Z.ltb_spec i (zlen l)) as [L|L]; unfold zlen in *; [apply app_nth1; lia|].
  rewrite app_nth2 by lia. f_equal. lia.
Qed.
Lemma zn_zdrop n l i : 0 <= i -> 0 <= n -> zn (zdrop n l) i = zn l (n + i).
Proof.
  intros Hi Hn. unfold zn, zdrop. replace (Z.to_nat (n + i)) with (Z.to_nat n + Z.to_nat i)%nat by lia.
  generalize (Z.to_nat n) (Z.to_nat i). clear. intros n. revert l. induction n as [|n IH]; intros l k; [reflexivity|].
  destruct l; cbn [skipn nth Nat.add]; [now destruct k|apply IH].
Qed.
Lemma zn_ztake n l i : 0 <= i < n -> zn (ztake n l) i = zn l i.
Proof.
  intros Hi. unfold zn, ztake. assert (Z.to_nat i < Z.to_nat n)%nat as H by lia. revert H. generalize (Z.to_nat n) (Z.to_nat i). clear.
  intros n. revert l. induction n as [|n IH]; intros l k H; [lia|]. destruct l; cbn [firstn nth]; [now destruct k|]. destruct k; [reflexivity|]. apply IH. lia.
Qed.
Lemma zn_over l i : zlen l <= i -> zn l i = 0.
Proof. intros H. unfold zn, zlen in *. apply nth_overflow. lia. Qed.
Lemma zlen_put l i d : 0 <= i -> i + zlen d <= zlen l -> zlen (put l i d) = zlen l.
Proof. intros Hi Hl. pose proof (zlen_nonneg d). unfold put. rewrite !zlen_app, zlen_ztake, zlen_zdrop. lia. Qed.
Lemma zn_put l i d j : 0 <= i -> i + zlen d <= zlen l -> 0 <= j ->
  zn (put l i d) j = if (i <=? j) && (j <? i + zlen d) then zn d (j - i) else zn l j.
Proof.
  intros Hi Hl Hj. pose proof (zlen_nonneg d). unfold put. rewrite zn_app by lia. rewrite zlen_ztake. replace (Z.min (Z.max 0 i) (zlen l)) with i by lia.
  destruct (Z.ltb_spec j i).
  - rewrite zn_ztake by lia. destruct (Z.leb_spec i j); [lia|]. reflexivity.
  - destruct (Z.leb_spec i j); [|lia]. cbn [andb]. rewrite zn_app by lia. destruct (Z.ltb_spec (j - i) (zlen d)), (Z.ltb_spec j (i + zlen d)); try lia; try reflexivity.
    rewrite zn_zdrop by lia. f_equal. lia.
Qed.
Lemma zn_eq l r : zlen l = zlen r -> (forall i, 0 <= i < zlen l -> zn l i = zn r i) -> l = r.
Proof.
  intros Hl H. apply (nth_ext _ _ 0 0); [unfold zlen in Hl; lia|]. intros n Hn. specialize (H (Z.of_nat n)). unfold zn in H. rewrite Nat2Z.id in H. apply H. unfold zlen. lia.
Qed.
Lemma zn_ztab n f i : 0 <= i < n -> zn (ztab n f) i = f i.
Proof. intros H. unfold zn. rewrite nth_ztab by lia. f_equal. lia. Qed.

(** The [n] bytes from [h] on, around the end of the list. *)
Definition ring (l : list Z) (h n : Z) : list Z := ztab n (fun i => zn l ((h + i) mod zlen l)).
Lemma zlen_ring l h n : 0 <= n -> zlen (ring l h n) = n.
Proof. intros H. unfold ring. rewrite zlen_ztab. lia. Qed.
Lemma zn_ring l h n i : 0 <= i < n -> zn (ring l h n) i = zn l ((h + i) mod zlen l).
Proof. intros H. unfold ring. now rewrite zn_ztab. Qed.
Lemma mod_add2 h n i N : 0 < N -> (h + (n + i)) mod N = ((h + n) mod N + i) mod N.
Proof. intros H. rewrite Z.add_assoc. symmetry. apply Zplus_mod_idemp_l. Qed.
Lemma ring_app l h n m : 0 < zlen l -> 0 <= n -> 0 <= m -> ring l h (n + m) = ring l h n ++ ring l ((h + n) mod zlen l) m.
Proof.
  intros Hl Hn Hm. unfold ring. rewrite ztab_app by lia. f_equal. apply ztab_ext. intros i Hi. f_equal. now apply mod_add2.
Qed.
Lemma ring_split l h x y : 0 < zlen l -> ring l h (zlen x + zlen y) = x ++ y -> ring l h (zlen x) = x /\ ring l ((h + zlen x) mod zlen l) (zlen y) = y.
Proof.
  intros Hl H. pose proof (zlen_nonneg x). pose proof (zlen_nonneg y). rewrite ring_app in H by lia.
  assert (length (ring l h (zlen x)) = length x) as E by (pose proof (zlen_ring l h (zlen x) ltac:(lia)); unfold zlen in *; lia).
  revert H E. generalize (ring l h (zlen x)) (ring l ((h + zlen x) mod zlen l) (zlen y)). clear. intros u v H E.
  apply (f_equal (firstn (length x))) in H as H1. apply (f_equal (skipn (length x))) in H as H2.
  rewrite !firstn_app, E, !Nat.sub_diag, !firstn_O, !app_nil_r, firstn_all, <- E, firstn_all in H1.
  rewrite !skipn_app, E, !Nat.sub_diag, !skipn_O, skipn_all, <- E, skipn_all in H2. now split.
Qed.
(** Positions that are less than a turn away from the start. *)
Lemma mod_near h k N : 0 <= h < N -> 0 <= k < N -> (h + k) mod N = if h + k <? N then h + k else h + k - N.
Proof.
  intros Hh Hk. destruct (Z.ltb_spec (h + k) N); [apply Z.mod_small; lia|].
  replace (h + k) with ((h + k - N) + 1 * N) by lia. rewrite Z.mod_add by lia. rewrite Z.mod_small by lia. lia.
Qed.
Lemma ring_flat l h n : 0 <= h -> 0 <= n -> h + n <= zlen l -> ring l h n = ztake n (zdrop h l).
Proof.
  intros Hh Hn Hl. apply zn_eq; [rewrite zlen_ring, zlen_ztake, zlen_zdrop by lia; lia|]. intros i Hi. rewrite zlen_ring in Hi by lia.
  rewrite zn_ring, zn_ztake, zn_zdrop by lia. f_equal. apply Z.mod_small. lia.
Qed.
