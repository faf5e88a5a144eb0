(** GHASH on bytes. *)
From Verif Require Import Model.Prelude Model.Ghash Spec.Gcm38D Proof.Base Proof.LinP Proof.GhashP Proof.Ghash2P.

(** ** Bytes *)
Definition byte16 (l : list Z) : Prop := length l = 16%nat /\ bytes_ok l.
Lemma of_be_acc l a : fold_left (fun a b => a * 256 + b) l a = a * 2 ^ (8 * Z.of_nat (length l)) + block_num l.
Proof.
  revert a. induction l as [|b l IH]; intros a; cbn [fold_left length block_num]; [change (2 ^ (8 * Z.of_nat 0)) with 1; lia|].
  rewrite IH. replace (8 * Z.of_nat (S (length l))) with (8 + 8 * Z.of_nat (length l)) by lia. rewrite Z.pow_add_r by lia.
  change (2 ^ 8) with 256. lia.
Qed.
Lemma of_be_num l : of_be l = block_num l.
Proof. unfold of_be. rewrite of_be_acc. lia. Qed.
Lemma block_num_app a b : block_num (a ++ b) = block_num a * 2 ^ (8 * Z.of_nat (length b)) + block_num b.
Proof. rewrite <- (of_be_num (a ++ b)). unfold of_be. rewrite fold_left_app. fold (of_be a). now rewrite of_be_acc, of_be_num. Qed.
Lemma block_num_range l : bytes_ok l -> 0 <= block_num l < 2 ^ (8 * Z.of_nat (length l)).
Proof.
  induction 1 as [|b l Hb Hl IH]; cbn [length block_num]; [cbn; lia|]. unfold is_u8 in Hb.
  replace (8 * Z.of_nat (S (length l))) with (8 + 8 * Z.of_nat (length l)) by lia. rewrite Z.pow_add_r by lia.
  change (2 ^ 8) with 256. nia.
Qed.
Lemma parts16 l : byte16 l -> exists a b c d, l = a ++ b ++ c ++ d /\
  (length a = 4 /\ length b = 4 /\ length c = 4 /\ length d = 4)%nat /\ bytes_ok a /\ bytes_ok b /\ bytes_ok c /\ bytes_ok d.
Proof.
  intros (Hn & Hb). do 16 (destruct l as [|? l]; [discriminate|]). destruct l; [|discriminate].
  exists [z; z0; z1; z2], [z3; z4; z5; z6], [z7; z8; z9; z10], [z11; z12; z13; z14].
  split; [reflexivity|]. split; [auto|]. repeat (inversion Hb as [|? ? ? Hb']; subst; clear Hb; rename Hb' into Hb).
  repeat split; repeat (constructor; [assumption|]); constructor.
Qed.
Lemma words_of a b c d : (0 <= a < 2 ^ 32) -> (0 <= b < 2 ^ 32) -> (0 <= c < 2 ^ 32) -> (0 <= d < 2 ^ 32) ->
  words (((a * 2 ^ 32 + b) * 2 ^ 32 + c) * 2 ^ 32 + d) = mkW d c b a.
Proof.
  intros. unfold words, u32. rewrite !Z.shiftr_div_pow2 by lia. change 4294967296 with (2 ^ 32).
  change (2 ^ 64) with (2 ^ 32 * 2 ^ 32). change (2 ^ 96) with (2 ^ 32 * 2 ^ 32 * 2 ^ 32).
  rewrite <- !Z.div_div by lia. rewrite !Z.div_add_l by lia. rewrite !(Z.div_small _ (2 ^ 32)) by lia. rewrite !Z.add_0_r.
  rewrite !Z.div_add_l by lia. rewrite !(Z.div_small _ (2 ^ 32)) by lia. rewrite !Z.add_0_r.
  rewrite !Z.div_add_l by lia. rewrite !(Z.div_small _ (2 ^ 32)) by lia. rewrite !Z.add_0_r.
  rewrite (Z.add_comm _ d), (Z.add_comm _ c), (Z.add_comm _ b), !Z.mod_add by lia. rewrite !Z.mod_small by lia. reflexivity.
Qed.
Lemma block16 l : byte16 l -> exists a b c d, l = a ++ b ++ c ++ d /\ (length a = 4 /\ length b = 4 /\ length c = 4 /\ length d = 4)%nat /\
  block_num l = ((block_num a * 2 ^ 32 + block_num b) * 2 ^ 32 + block_num c) * 2 ^ 32 + block_num d /\
  words (block_num l) = mkW (block_num d) (block_num c) (block_num b) (block_num a) /\ 0 <= block_num l < 2 ^ 128.
Proof.
  intros H. destruct (parts16 l H) as (a & b & c & d & E & (La & Lb & Lc & Ld) & Ha & Hb & Hc & Hd).
  exists a, b, c, d. split; [exact E|]. split; [auto|].
  assert (block_num l = ((block_num a * 2 ^ 32 + block_num b) * 2 ^ 32 + block_num c) * 2 ^ 32 + block_num d) as En.
  { subst l. rewrite !block_num_app, !app_length, La, Lb, Lc, Ld || rewrite !block_num_app, !app_length, Lb, Lc, Ld.
    change (2 ^ (8 * Z.of_nat (4 + (4 + 4)))) with (2 ^ 32 * 2 ^ 32 * 2 ^ 32). change (2 ^ (8 * Z.of_nat (4 + 4))) with (2 ^ 32 * 2 ^ 32).
    change (2 ^ (8 * Z.of_nat 4)) with (2 ^ 32). lia. }
  split; [exact En|].
  pose proof (block_num_range a Ha) as Ra. pose proof (block_num_range b Hb) as Rb. pose proof (block_num_range c Hc) as Rc. pose proof (block_num_range d Hd) as Rd.
  rewrite La in Ra. rewrite Lb in Rb. rewrite Lc in Rc. rewrite Ld in Rd. change (2 ^ (8 * Z.of_nat 4)) with (2 ^ 32) in *.
  split.
  - rewrite En. now apply words_of.
  - destruct H as (Hn & Hb'). pose proof (block_num_range l Hb') as R. rewrite Hn in R. exact R.
Qed.

Lemma to_le_words v : 0 <= v -> let l := to_le 16 v in
  mkW (of_le (firstn 4 l)) (of_le (firstn 4 (skipn 4 l))) (of_le (firstn 4 (skipn 8 l))) (of_le (skipn 12 l)) = words v.
Proof.
  intros Hv. assert (forall k, 0 <= k -> of_le (map (fun i => Z.shiftr v (k + 8 * Z.of_nat i) mod 256) (seq 0 4)) = u32 (Z.shiftr v k)) as H.
  { intros k Hk. unfold of_le. cbn [seq map rev app]. unfold of_be. cbn [fold_left]. unfold u32.
    rewrite <- !Z.shiftr_shiftr by lia. set (w := Z.shiftr v k). rewrite !Z.shiftr_div_pow2 by lia.
    change (2 ^ (8 * Z.of_nat 0)) with 1. change (2 ^ (8 * Z.of_nat 1)) with 256. change (2 ^ (8 * Z.of_nat 2)) with 65536.
    change (2 ^ (8 * Z.of_nat 3)) with 16777216. rewrite Z.div_1_r. lia. }
  cbv zeta. unfold words. f_equal.
  - exact (H 0 ltac:(lia)).
  - exact (H 32 ltac:(lia)).
  - exact (H 64 ltac:(lia)).
  - exact (H 96 ltac:(lia)).
Qed.
Lemma words_joined w : (0 <= w0 w < 2 ^ 32) -> (0 <= w1 w < 2 ^ 32) -> (0 <= w2 w < 2 ^ 32) -> (0 <= w3 w < 2 ^ 32) ->
  joined w = ((w3 w * 2 ^ 32 + w2 w) * 2 ^ 32 + w1 w) * 2 ^ 32 + w0 w.
Proof.
  intros H0 H1 H2 H3. assert (forall a b k, 0 <= k -> 0 <= a < 2 ^ k -> Z.lxor a (Z.shiftl b k) = a + b * 2 ^ k) as Hx.
  { intros a b k Hk Ha. rewrite <- Z.shiftl_mul_pow2 by lia. symmetry. apply Z.add_nocarry_lxor. apply Z.bits_inj'. intros n Hn.
    rewrite Z.land_spec, Z.shiftl_spec, Z.bits_0 by lia. destruct (Z.lt_ge_cases n k).
    - rewrite (Z.testbit_neg_r b) by lia. apply andb_false_r.
    - rewrite <- (Z.mod_small a (2 ^ k)) by lia. rewrite Z.mod_pow2_bits_high by lia. reflexivity. }
  unfold joined. rewrite Hx by lia.
  replace (Z.lxor (Z.shiftl (w2 w) 64) (Z.shiftl (w3 w) 96)) with (Z.shiftl (w2 w + w3 w * 2 ^ 32) 64).
  - rewrite Hx by lia. lia.
  - rewrite <- Hx by lia. rewrite Z.shiftl_lxor, Z.shiftl_shiftl by lia. reflexivity.
Qed.

(** ** 32-bit words *)
Definition w32 (x : Z) : Prop := 0 <= x < 2 ^ 32.
Lemma w32_iff x : w32 x <-> u32 x = x.
Proof. unfold w32, u32. change 4294967296 with (2 ^ 32). lia. Qed.
Lemma w32_u32 x : w32 (u32 x).
Proof. unfold w32, u32. change 4294967296 with (2 ^ 32). lia. Qed.
Lemma w32_lxor a b : w32 a -> w32 b -> w32 (Z.lxor a b).
Proof. rewrite !w32_iff. intros Ha Hb. rewrite (lin_u32 _ lin_id). now rewrite Ha, Hb. Qed.
Lemma w32_land a m : w32 m -> w32 (Z.land a m).
Proof.
  rewrite !w32_iff. intros H. apply Z.bits_inj'. intros n Hn. rewrite u32_bits, Z.land_spec by lia.
  destruct (Z.ltb_spec n 32); [reflexivity|]. cbn [andb]. symmetry. rewrite <- H, u32_bits by lia. replace (n <? 32) with false by lia. apply andb_false_r.
Qed.
Lemma w32_lor a b : w32 a -> w32 b -> w32 (Z.lor a b).
Proof.
  rewrite !w32_iff. intros Ha Hb. rewrite <- Ha, <- Hb. apply Z.bits_inj'. intros n Hn. rewrite u32_bits, Z.lor_spec, !u32_bits by lia.
  now destruct (n <? 32).
Qed.
Lemma w32_shiftr a k : 0 <= k -> w32 a -> w32 (Z.shiftr a k).
Proof.
  intros Hk H. unfold w32 in *. rewrite Z.shiftr_div_pow2 by lia. pose proof (Z.pow_pos_nonneg 2 k ltac:(lia) Hk).
  split; [apply Z.div_pos; lia|]. apply Z.le_lt_trans with a; [|lia]. apply Z.div_le_upper_bound; nia.
Qed.
Lemma w32_bmul32 x y : w32 (bmul32 x y).
Proof. unfold bmul32. cbv zeta. repeat apply w32_lor; apply w32_land; unfold w32; lia. Qed.
Lemma w32_rev32 x : w32 (rev32 x).
Proof. unfold rev32. cbv zeta. apply w32_lor; [apply w32_land; unfold w32; lia|apply w32_u32]. Qed.
Lemma w32_red_hi x : w32 x -> w32 (red_hi x).
Proof. intros H. unfold red_hi. repeat apply w32_lxor; try apply w32_shiftr; try lia; exact H. Qed.
Lemma w32_red_lo x : w32 (red_lo x).
Proof. unfold red_lo. repeat apply w32_lxor; apply w32_u32. Qed.
Definition w_ok (w : U32x4) : Prop := w32 (w0 w) /\ w32 (w1 w) /\ w32 (w2 w) /\ w32 (w3 w).
Ltac w32s := lazymatch goal with
  | |- w32 (Z.lxor _ _) => apply w32_lxor; w32s
  | |- w32 (red_hi _) => apply w32_red_hi; w32s
  | |- w32 (red_lo _) => apply w32_red_lo
  | |- w32 (rev32 _) => apply w32_rev32
  | |- w32 (bmul32 _ _) => apply w32_bmul32
  | |- w32 (Z.shiftr _ _) => apply w32_shiftr; [lia|w32s]
  | |- w32 (u32 _) => apply w32_u32
  end.
Lemma w_mul_ok a b : w_ok (w_mul a b).
Proof. unfold w_ok, w_mul. cbv zeta. cbn [w0 w1 w2 w3]. (split; [|split; [|split]]); w32s. Qed.
Lemma words_ok v : w_ok (words v).
Proof. unfold w_ok, words. cbn [w0 w1 w2 w3]. (split; [|split; [|split]]); w32s. Qed.
Lemma w_add_words a b : w_add (words a) (words b) = words (Z.lxor a b).
Proof.
  unfold w_add, words. cbn [w0 w1 w2 w3]. f_equal; symmetry.
  - apply (lin_u32 _ lin_id).
  - apply (lin_u32 _ (lin_shiftr _ 32 lin_id)).
  - apply (lin_u32 _ (lin_shiftr _ 64 lin_id)).
  - apply (lin_u32 _ (lin_shiftr _ 96 lin_id)).
Qed.
Lemma words_of_joined w : w_ok w -> words (joined w) = w /\ 0 <= joined w < 2 ^ 128.
Proof.
  intros (H0 & H1 & H2 & H3). unfold w32 in *. rewrite words_joined by assumption. split; [|lia].
  rewrite words_of by assumption. now destruct w.
Qed.
Lemma lxor_range a b : 0 <= a < 2 ^ 128 -> 0 <= b < 2 ^ 128 -> 0 <= Z.lxor a b < 2 ^ 128.
Proof.
  intros Ha Hb. replace (Z.lxor a b) with (Z.lxor a b mod 2 ^ 128); [lia|]. rewrite mod_lxor by lia. now rewrite !Z.mod_small by lia.
Qed.

(** ** The state *)
Definition state_is (g : GHash) (h y : Z) : Prop := gh_h g = words (mulx_num h) /\ gh_s g = words y /\ 0 <= y < 2 ^ 128 /\ 0 <= h < 2 ^ 128.
Lemma new_state h : byte16 h -> state_is (ghash_new h) (block_num h) 0.
Proof.
  intros H. destruct (block16 h H) as (_ & _ & _ & _ & _ & _ & _ & _ & R).
  split; [|split; [reflexivity|split; [lia|exact R]]].
  unfold ghash_new. cbn [gh_h]. 
  assert (mulx (rev h) = to_le 16 (mulx_num (block_num h))) as ->.
  { unfold mulx. replace (of_le (rev h)) with (block_num h); [reflexivity|]. unfold of_le. now rewrite rev_involutive, of_be_num. }
  apply to_le_words. unfold mulx_num. cbv zeta.
  assert (0 <= Z.shiftr (block_num h) 127) by (apply Z.shiftr_nonneg; lia).
  assert (forall a k, 0 <= shl128 a k) by (intros; unfold shl128, u128; apply Z.mod_pos_bound; lia).
  repeat (apply Z.lxor_nonneg; split; intros); auto.
Qed.
Lemma update_state g h y x : state_is g h y -> byte16 x -> state_is (ghash_update g x) h (block_mul (Z.lxor y (block_num x)) h).
Proof.
  intros (Hh & Hs & Hy & Hr) Hx. destruct (block16 x Hx) as (a & b & c & d & E & (La & Lb & Lc & Ld) & En & Ew & R).
  assert (skipn 12 x = d /\ firstn 4 (skipn 8 x) = c /\ firstn 4 (skipn 4 x) = b /\ firstn 4 x = a) as (E0 & E1 & E2 & E3).
  { clear - E La Lb Lc Ld. do 4 (destruct a as [|? a]; [discriminate|]). do 4 (destruct b as [|? b]; [discriminate|]).
    do 4 (destruct c as [|? c]; [discriminate|]). do 4 (destruct d as [|? d]; [discriminate|]).
    destruct a, b, c, d; try discriminate. subst x. repeat split. }
  unfold ghash_update. rewrite E0, E1, E2, E3, !of_be_num, <- Ew. unfold state_is. cbn [gh_h gh_s].
  rewrite Hs, Hh, w_add_words. pose proof (lxor_range _ _ Hy R) as Rl. rewrite <- mul_num_ok by assumption.
  unfold mul_num. destruct (words_of_joined (w_mul (words (Z.lxor y (block_num x))) (words (mulx_num h))) (w_mul_ok _ _)) as (-> & ?). auto.
Qed.
Lemma fold_sim {G Y X N} (S : G -> Y -> Prop) (B : X -> Prop) (u : G -> X -> G) (f : Y -> N -> Y) (num : X -> N) :
  (forall g y x, S g y -> B x -> S (u g x) (f y (num x))) ->
  forall xs g y, S g y -> Forall B xs -> S (fold_left u xs g) (fold_left f (map num xs) y).
Proof.
  intros Hs. induction xs as [|x xs IH]; intros g y Hg Hx; cbn [fold_left map]; [exact Hg|]. inversion Hx; subst. auto.
Qed.
Lemma updates_state xs g h y : state_is g h y -> Forall byte16 xs ->
  state_is (fold_left ghash_update xs g) h (fold_left (fun y x => block_mul (Z.lxor y x) h) (map block_num xs) y).
Proof.
  apply (fold_sim (fun g y => state_is g h y) byte16 ghash_update (fun y x => block_mul (Z.lxor y x) h) block_num).
  intros. now apply update_state.
Qed.
Lemma finalize_state g h y : state_is g h y -> ghash_finalize g = block_of 16 y.
Proof.
  intros (_ & E & Hy & _). unfold ghash_finalize. rewrite E. unfold words. cbn [w0 w1 w2 w3].
  assert (forall k, 0 <= k -> be32 (u32 (Z.shiftr y k)) = map (fun i => (y / 2 ^ (k + 8 * i)) mod 256) [3; 2; 1; 0]) as H.
  { intros k Hk. unfold be32, u32. cbn [map]. rewrite Z.shiftr_div_pow2 by lia. rewrite !(Z.pow_add_r 2 k) by lia.
    rewrite <- !Z.div_div by (apply Z.pow_nonzero || apply Z.pow_pos_nonneg; lia). set (w := y / 2 ^ k).
    change (2 ^ (8 * 3)) with 16777216. change (2 ^ (8 * 2)) with 65536. change (2 ^ (8 * 1)) with 256. change (2 ^ (8 * 0)) with 1.
    repeat (f_equal; try lia). }
  change (u32 y) with (u32 (Z.shiftr y 0)). rewrite !H by lia. reflexivity.
Qed.
Lemma ghash_ok h xs : byte16 h -> Forall byte16 xs -> ghash_finalize (fold_left ghash_update xs (ghash_new h)) = GHASH h xs.
Proof.
  intros Hh Hx. eapply finalize_state. apply updates_state; [apply new_state, Hh|exact Hx].
Qed.
