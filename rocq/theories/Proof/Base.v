(** Basic lemmas about lists, words and rings. *)
From Coq Require Export ZifyBool ZifyNat ZifyN.
From Verif Require Export Model.Prelude.
Ltac Zify.zify_post_hook ::= Z.div_mod_to_equations.

(** ** Lists *)
Lemma zlen_nonneg {A} (l : list A) : 0 <= zlen l.
Proof. unfold zlen; lia. Qed.
Lemma zlen_nil {A} : zlen (@nil A) = 0.
Proof. reflexivity. Qed.
Lemma zlen_cons {A} (a : A) l : zlen (a :: l) = zlen l + 1.
Proof. unfold zlen; cbn [length]; lia. Qed.
Lemma zlen_app {A} (l r : list A) : zlen (l ++ r) = zlen l + zlen r.
Proof. unfold zlen; rewrite app_length; lia. Qed.
Lemma zlen_map {A B} (f : A -> B) l : zlen (map f l) = zlen l.
Proof. unfold zlen; now rewrite map_length. Qed.
Lemma zlen_ztab n f : zlen (ztab n f) = Z.max 0 n.
Proof. unfold ztab, zlen; rewrite map_length, seq_length; lia. Qed.
Lemma zlen_ztake {A} n (l : list A) : zlen (ztake n l) = Z.min (Z.max 0 n) (zlen l).
Proof. unfold ztake, zlen; rewrite firstn_length; lia. Qed.
Lemma zlen_zdrop {A} n (l : list A) : zlen (zdrop n l) = zlen l - Z.min (Z.max 0 n) (zlen l).
Proof. unfold zdrop, zlen; rewrite skipn_length; lia. Qed.
Lemma ztake_zdrop {A} n (l : list A) : ztake n l ++ zdrop n l = l.
Proof. apply firstn_skipn. Qed.
Lemma ztake_all {A} n (l : list A) : zlen l <= n -> ztake n l = l.
Proof. intros H; apply firstn_all2; unfold zlen in H; lia. Qed.
Lemma zdrop_all {A} n (l : list A) : zlen l <= n -> zdrop n l = [].
Proof. intros H; apply skipn_all2; unfold zlen in H; lia. Qed.
Lemma ztake_0 {A} (l : list A) : ztake 0 l = [].
Proof. reflexivity. Qed.
Lemma zdrop_0 {A} (l : list A) : zdrop 0 l = l.
Proof. reflexivity. Qed.
Lemma ztake_neg {A} n (l : list A) : n <= 0 -> ztake n l = [].
Proof. intros; unfold ztake; replace (Z.to_nat n) with O by lia; reflexivity. Qed.
Lemma zdrop_neg {A} n (l : list A) : n <= 0 -> zdrop n l = l.
Proof. intros; unfold zdrop; replace (Z.to_nat n) with O by lia; reflexivity. Qed.
Lemma ztake_app_l {A} n (l r : list A) : n <= zlen l -> ztake n (l ++ r) = ztake n l.
Proof.
  intros H; unfold ztake, zlen in *; rewrite firstn_app.
  replace (Z.to_nat n - length l)%nat with O by lia. cbn [firstn]. now rewrite app_nil_r.
Qed.
Lemma ztake_app_r {A} n (l r : list A) : zlen l <= n -> ztake n (l ++ r) = l ++ ztake (n - zlen l) r.
Proof.
  intros H; unfold ztake, zlen in *; rewrite firstn_app.
  rewrite firstn_all2 by lia. f_equal. f_equal. lia.
Qed.
Lemma zdrop_app_l {A} n (l r : list A) : n <= zlen l -> zdrop n (l ++ r) = zdrop n l ++ r.
Proof.
  intros H; unfold zdrop, zlen in *; rewrite skipn_app.
  replace (Z.to_nat n - length l)%nat with O by lia. reflexivity.
Qed.
Lemma zdrop_app_r {A} n (l r : list A) : zlen l <= n -> zdrop n (l ++ r) = zdrop (n - zlen l) r.
Proof.
  intros H; unfold zdrop, zlen in *; rewrite skipn_app.
  rewrite skipn_all2 by lia. cbn [app]. f_equal. lia.
Qed.
Lemma zdrop_zdrop {A} a b (l : list A) : 0 <= a -> 0 <= b -> zdrop a (zdrop b l) = zdrop (a + b) l.
Proof.
  intros; unfold zdrop.
  replace (Z.to_nat (a + b)) with (Z.to_nat b + Z.to_nat a)%nat by lia.
  generalize (Z.to_nat a), (Z.to_nat b). clear. intros x y. revert x l.
  induction y as [|y IH]; intros x l; [reflexivity|].
  destruct l; [now rewrite !skipn_nil|]. cbn [skipn Nat.add]. apply IH.
Qed.
Lemma ztake_ztake {A} a b (l : list A) : ztake a (ztake b l) = ztake (Z.min a b) l.
Proof.
  unfold ztake. rewrite firstn_firstn. f_equal. lia.
Qed.
Lemma zlen_0_nil {A} (l : list A) : zlen l = 0 -> l = [].
Proof. destruct l; [reflexivity|]. rewrite zlen_cons. pose proof (zlen_nonneg l). lia. Qed.
Lemma ztake_split {A} a b (l : list A) : 0 <= a -> 0 <= b ->
  ztake (a + b) l = ztake a l ++ ztake b (zdrop a l).
Proof.
  intros. unfold ztake, zdrop.
  replace (Z.to_nat (a + b)) with (Z.to_nat a + Z.to_nat b)%nat by lia.
  generalize (Z.to_nat a), (Z.to_nat b). clear. intros x y. revert l.
  induction x as [|x IH]; intros l; [reflexivity|].
  destruct l; [now rewrite !firstn_nil|]. cbn [firstn skipn Nat.add app]. now rewrite IH.
Qed.

Lemma bytes_ok_app l r : bytes_ok (l ++ r) <-> bytes_ok l /\ bytes_ok r.
Proof. apply Forall_app. Qed.
Lemma bytes_ok_ztake n l : bytes_ok l -> bytes_ok (ztake n l).
Proof.
  intros H. rewrite <- (ztake_zdrop n l) in H. apply bytes_ok_app in H. tauto.
Qed.
Lemma bytes_ok_zdrop n l : bytes_ok l -> bytes_ok (zdrop n l).
Proof.
  intros H. rewrite <- (ztake_zdrop n l) in H. apply bytes_ok_app in H. tauto.
Qed.

(** ** Tables *)
Lemma ztab_ext n f g : (forall i, 0 <= i < n -> f i = g i) -> ztab n f = ztab n g.
Proof.
  intros H. unfold ztab. apply map_ext_in. intros i Hi. apply in_seq in Hi. apply H. lia.
Qed.
Lemma ztab_app a b f : 0 <= a -> 0 <= b -> ztab (a + b) f = ztab a f ++ ztab b (fun i => f (a + i)).
Proof.
  intros. unfold ztab.
  replace (Z.to_nat (a + b)) with (Z.to_nat a + Z.to_nat b)%nat by lia.
  rewrite seq_app, map_app. f_equal.
  rewrite Nat.add_0_l.
  assert (forall k s, map (fun i => f (Z.of_nat i)) (seq (s + Z.to_nat a) k) =
                      map (fun i => f (a + Z.of_nat i)) (seq s k)) as E.
  { induction k as [|k IH]; intros s; [reflexivity|]. cbn [seq map]. f_equal.
    - f_equal. lia.
    - apply (IH (S s)). }
  apply (E (Z.to_nat b) O).
Qed.
Lemma ztab_0 f : ztab 0 f = [].
Proof. reflexivity. Qed.
Lemma ztab_neg n f : n <= 0 -> ztab n f = [].
Proof. intros; unfold ztab; replace (Z.to_nat n) with O by lia; reflexivity. Qed.
Lemma ztab_1 f : ztab 1 f = [f 0].
Proof. reflexivity. Qed.
Lemma ztab_S n f : 0 < n -> ztab n f = f 0 :: ztab (n - 1) (fun i => f (1 + i)).
Proof.
  intros. replace n with (1 + (n - 1)) at 1 by lia. rewrite ztab_app by lia. reflexivity.
Qed.
Lemma nth_ztab n f i d : (i < Z.to_nat n)%nat -> nth i (ztab n f) d = f (Z.of_nat i).
Proof.
  intros. unfold ztab.
  rewrite nth_indep with (d' := f (Z.of_nat 0)) by (rewrite map_length, seq_length; lia).
  rewrite (map_nth (fun i => f (Z.of_nat i))). now rewrite seq_nth by lia.
Qed.
Lemma at_ztab n f i : (i < Z.to_nat n)%nat -> at_ (ztab n f) i = f (Z.of_nat i).
Proof. apply nth_ztab. Qed.

Lemma list_eq_at (l r : list Z) :
  zlen l = zlen r -> (forall i, (i < length l)%nat -> at_ l i = at_ r i) -> l = r.
Proof.
  intros Hl H. apply nth_ext with (d := 0) (d' := 0); unfold zlen in *; [lia|exact H].
Qed.
Lemma ztab_at (l : list Z) : ztab (zlen l) (fun i => at_ l (Z.to_nat i)) = l.
Proof.
  apply list_eq_at.
  - rewrite zlen_ztab. pose proof (zlen_nonneg l). lia.
  - intros i Hi. assert (i < length l)%nat.
    { pose proof (zlen_ztab (zlen l) (fun i => at_ l (Z.to_nat i))). unfold zlen in *. lia. }
    rewrite at_ztab by (unfold zlen; lia). f_equal. lia.
Qed.

(** ** Words *)
Lemma of_be16_hi_lo v : 0 <= v < 65536 -> of_be16 ((v / 256) mod 256) (v mod 256) = v.
Proof. unfold of_be16; lia. Qed.
Lemma of_be16_range a b : is_u8 a -> is_u8 b -> is_u16 (of_be16 a b).
Proof. unfold is_u8, is_u16, of_be16; lia. Qed.
Lemma of_be32_be32 v : 0 <= v < 4294967296 ->
  of_be32 ((v / 16777216) mod 256) ((v / 65536) mod 256) ((v / 256) mod 256) (v mod 256) = v.
Proof. unfold of_be32; lia. Qed.
Lemma be16_of_be16 a b : is_u8 a -> is_u8 b -> be16 (of_be16 a b) = [a; b].
Proof.
  unfold is_u8, be16, of_be16; intros. repeat f_equal; lia.
Qed.
Lemma be32_of_be32 a b c d : is_u8 a -> is_u8 b -> is_u8 c -> is_u8 d ->
  be32 (of_be32 a b c d) = [a; b; c; d].
Proof.
  unfold is_u8, be32, of_be32; intros. repeat f_equal; lia.
Qed.
Lemma zlen_be16 v : zlen (be16 v) = 2.
Proof. reflexivity. Qed.
Lemma zlen_be32 v : zlen (be32 v) = 4.
Proof. reflexivity. Qed.
Lemma bytes_ok_be16 v : bytes_ok (be16 v).
Proof. unfold bytes_ok, be16, is_u8; repeat constructor; lia. Qed.
Lemma bytes_ok_be32 v : bytes_ok (be32 v).
Proof. unfold bytes_ok, be32, is_u8; repeat constructor; lia. Qed.

Lemma wsub_range a b : is_u16 (wsub a b).
Proof. unfold is_u16, wsub; lia. Qed.
Lemma wadd_range a b : is_u16 (wadd a b).
Proof. unfold is_u16, wadd; lia. Qed.

Lemma upd_same {A} (f : Z -> A) k v : upd f k v k = v.
Proof. unfold upd; now rewrite Z.eqb_refl. Qed.
Lemma upd_other {A} (f : Z -> A) k v x : x <> k -> upd f k v x = f x.
Proof. unfold upd; intros; destruct (Z.eqb_spec x k); [contradiction|reflexivity]. Qed.
