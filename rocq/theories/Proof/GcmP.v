(** gcm.rs computes SP 800-38D. *)
From Verif Require Import Model.Prelude Model.Aes Model.Ghash Model.Gcm Spec.GcmCalls Spec.Fips197 Spec.Gcm38D Proof.Base Proof.AesP Proof.LinP Proof.GhashP Proof.Ghash2P Proof.Ghash3P.

Local Opaque aes_encrypt_block aes_new ghash_update ghash_new fips_cipher.
Lemma zeros_bytes n : bytes_ok (zeros n).
Proof. induction n; cbn; constructor; [unfold is_u8; lia|assumption]. Qed.
Lemma zeros_length n : length (zeros n) = n.
Proof. unfold zeros. apply repeat_length. Qed.
Lemma padded_byte16 l : bytes_ok l -> (length l <= 16)%nat -> byte16 (padded l).
Proof.
  intros Hb Hl. unfold padded. split; [rewrite app_length, zeros_length; lia|]. apply Forall_app. split; [exact Hb|apply zeros_bytes].
Qed.
Lemma lxor_byte a b : is_u8 a -> is_u8 b -> is_u8 (Z.lxor a b).
Proof. exact (AesP.lxor_byte a b). Qed.
Lemma xor_with_str a b : xor_with a b = xor_str a b.
Proof. reflexivity. Qed.
Lemma xor_length a b : (length a <= length b)%nat -> length (xor_str a b) = length a.
Proof. intros H. unfold xor_str. rewrite map_length, combine_length. lia. Qed.
Lemma xor_bytes a b : bytes_ok a -> bytes_ok b -> bytes_ok (xor_str a b).
Proof.
  intros Ha. revert b. induction Ha as [|x a Hx Ha IH]; intros b Hb; [constructor|]. destruct Hb as [|y b Hy Hb]; [constructor|].
  constructor; [cbn [fst snd]; now apply lxor_byte|now apply IH].
Qed.
Lemma xor_app a b c d : length a = length c -> xor_str (a ++ b) (c ++ d) = xor_str a c ++ xor_str b d.
Proof.
  revert c. induction a as [|x a IH]; intros [|y c] H; try discriminate; [reflexivity|]. cbn in H. cbn. f_equal. apply IH. lia.
Qed.
Lemma xor_prefix a b c : (length a <= length c)%nat -> firstn (length a) (xor_str (a ++ b) c) = xor_str a c.
Proof.
  revert c. induction a as [|x a IH]; intros [|y c] H; try (cbn in H; lia); try reflexivity. cbn in *. f_equal. apply IH. lia.
Qed.
Lemma xor_twice a b : (length a <= length b)%nat -> xor_str (xor_str a b) b = a.
Proof.
  revert b. induction a as [|x a IH]; intros [|y b] H; try (cbn in H; lia); try reflexivity. cbn in *. f_equal; [|apply IH; lia].
  rewrite Z.lxor_assoc, Z.lxor_nilpotent. apply Z.lxor_0_r.
Qed.

(** ** Counter blocks *)
Definition ctr (nonce : list Z) (k : Z) : list Z := nonce ++ be32 k.
Lemma ctr_byte16 nonce k : length nonce = 12%nat -> bytes_ok nonce -> byte16 (ctr nonce k).
Proof.
  intros Hl Hb. unfold ctr. split; [rewrite app_length, Hl; reflexivity|]. apply Forall_app. split; [exact Hb|].
  unfold be32. repeat constructor; unfold is_u8; lia.
Qed.
Lemma ctr_J0 nonce : J0 nonce = ctr nonce 1.
Proof. reflexivity. Qed.
Lemma ctr_inc nonce k : length nonce = 12%nat -> 0 <= k < 2 ^ 32 - 1 -> inc32 (ctr nonce k) = ctr nonce (k + 1).
Proof.
  intros Hl Hk. unfold inc32, ctr. rewrite firstn_app, Hl, Nat.sub_diag, firstn_O, app_nil_r, firstn_all2 by lia.
  rewrite skipn_app, Hl, Nat.sub_diag, skipn_O, skipn_all2 by lia. f_equal. cbn [app].
  assert (block_num (be32 k) = k) as ->.
  { unfold be32. cbn [block_num length]. change (2 ^ (8 * Z.of_nat 3)) with 16777216. change (2 ^ (8 * Z.of_nat 2)) with 65536.
    change (2 ^ (8 * Z.of_nat 1)) with 256. change (2 ^ (8 * Z.of_nat 0)) with 1. lia. }
  rewrite Z.mod_small by lia. unfold be32, block_of. change (2 ^ (8 * Z.of_nat 3)) with 16777216. change (2 ^ (8 * Z.of_nat 2)) with 65536.
  change (2 ^ (8 * Z.of_nat 1)) with 256. change (2 ^ (8 * Z.of_nat 0)) with 1. now rewrite Z.div_1_r.
Qed.
Lemma increment_ok g nonce k : length nonce = 12%nat -> g_counter g = ctr nonce k -> 0 <= k < 65535 ->
  increment_counter g = Some (mkGcm (g_cipher g) (g_ghash g) (ctr nonce (k + 1)) (g_counter0_ct g) (g_data_len g)).
Proof.
  intros Hl Hc Hk. unfold increment_counter. rewrite Hc. unfold ctr. do 12 (destruct nonce as [|? nonce]; [discriminate|]). destruct nonce; [|discriminate].
  unfold be32. cbn [app set at_ nth]. unfold u8.
  destruct (Z.eqb_spec ((k mod 256 + 1) mod 256) 0) as [E|E].
  - destruct (Z.eqb_spec ((k / 256) mod 256) 255) as [E2|E2]; [lia|]. do 2 f_equal. repeat (f_equal; try lia).
  - do 2 f_equal. repeat (f_equal; try lia).
Qed.

Section WithKey.
Context (key nonce aad : list Z).
Hypothesis key_len : length key = 16%nat.
Hypothesis key_ok : bytes_ok key.
Hypothesis nonce_len : length nonce = 12%nat.
Hypothesis nonce_ok : bytes_ok nonce.
Hypothesis aad_len : length aad = 5%nat.
Hypothesis aad_ok : bytes_ok aad.

Definition E (b : list Z) : list Z := aes_encrypt_block (aes_new key) b.
Lemma E_ok b : byte16 b -> E b = fips_cipher key b /\ byte16 (E b).
Proof. intros (Hl & Hb). split; [now apply aes_ok|]. now apply aes_block. Qed.
Lemma E_ctr k : E (ctr nonce k) = fips_cipher key (ctr nonce k) /\ byte16 (E (ctr nonce k)).
Proof. apply E_ok. now apply ctr_byte16. Qed.

(** [cs] are the (padded) ciphertext blocks so far, [k] the last counter used, [n] the bytes so far. *)
Definition gcm_at (g : Aes128Gcm) (cs : list (list Z)) (k n : Z) : Prop :=
  g_cipher g = aes_new key /\ g_counter g = ctr nonce k /\ g_counter0_ct g = E (ctr nonce 1) /\
  g_ghash g = fold_left ghash_update (padded aad :: cs) (ghash_new (E (zeros 16))) /\ g_data_len g = n /\ Forall byte16 cs.
Lemma gcm_new_at : gcm_at (gcm_new key nonce aad) [] 1 0.
Proof.
  unfold gcm_at, gcm_new. cbv zeta. cbn [g_cipher g_counter g_counter0_ct g_ghash g_data_len fold_left]. unfold E.
  split; [reflexivity|]. split; [reflexivity|]. split; [reflexivity|]. split; [reflexivity|]. split; [reflexivity|constructor].
Qed.

Lemma inner_at g cs k n b : gcm_at g cs k n -> 0 <= k < 65535 -> exists g',
  crypt_block_inner g b = Some (g', xor_str b (E (ctr nonce (k + 1)))) /\ gcm_at g' cs (k + 1) n.
Proof.
  intros (H1 & H2 & H3 & H4 & H5 & H6) Hk. unfold crypt_block_inner. rewrite (increment_ok g nonce k) by assumption.
  eexists. cbn [g_cipher g_counter]. split; [rewrite H1; reflexivity|]. repeat split; assumption.
Qed.
Lemma update_at g cs k n c d : gcm_at g cs k n -> byte16 c -> gcm_at (gcm_update g c d) (cs ++ [c]) k (n + d).
Proof.
  intros (H1 & H2 & H3 & H4 & H5 & H6) Hc. unfold gcm_update. unfold gcm_at. cbn [g_cipher g_counter g_counter0_ct g_ghash g_data_len].
  rewrite H4, H5. repeat split; try assumption.
  - rewrite app_comm_cons, fold_left_app. reflexivity.
  - apply Forall_app. split; [assumption|]. constructor; [exact Hc|constructor].
Qed.
Lemma xor_byte16 b k : byte16 b -> byte16 (xor_str b (E (ctr nonce k))).
Proof.
  intros (Hl & Hb). destruct (E_ctr k) as (_ & (El & Eb)). split; [rewrite xor_length; lia|]. now apply xor_bytes.
Qed.
Lemma encrypt_block_at g cs k n b : gcm_at g cs k n -> 0 <= k < 65535 -> byte16 b ->
  let c := xor_str b (E (ctr nonce (k + 1))) in
  exists g', encrypt_block_inplace g b = Some (g', c) /\ gcm_at g' (cs ++ [c]) (k + 1) (n + 16).
Proof.
  intros Hg Hk Hb c. destruct (inner_at g cs k n b Hg Hk) as (g' & Ei & Hg'). unfold encrypt_block_inplace. rewrite Ei.
  eexists. split; [reflexivity|]. apply update_at; [exact Hg'|]. now apply xor_byte16.
Qed.
Lemma padded_xor r k : (length r <= 16)%nat ->
  ztake (zlen r) (xor_str (padded r) (E (ctr nonce k))) ++ zeros (16 - length r) = padded (xor_str r (E (ctr nonce k))).
Proof.
  intros Hr. destruct (E_ctr k) as (_ & (El & Eb)). unfold ztake, zlen. rewrite Nat2Z.id. unfold padded. rewrite xor_prefix by lia.
  now rewrite xor_length by lia.
Qed.
Lemma encrypt_remainder_at g cs k n r : gcm_at g cs k n -> 0 <= k < 65535 -> bytes_ok r -> (length r <= 16)%nat ->
  let c := xor_str r (E (ctr nonce (k + 1))) in
  exists g', encrypt_remainder_inplace g (padded r) (zlen r) = Some (g', padded c) /\ gcm_at g' (cs ++ [padded c]) (k + 1) (n + zlen r).
Proof.
  intros Hg Hk Hb Hr c. destruct (inner_at g cs k n (padded r) Hg Hk) as (g' & Ei & Hg'). unfold encrypt_remainder_inplace.
  replace (16 <? zlen r) with false by (unfold zlen; lia). rewrite Ei. replace (Z.to_nat (zlen r)) with (length r) by (unfold zlen; lia).
  rewrite padded_xor by exact Hr. eexists. split; [reflexivity|]. apply update_at; [exact Hg'|].
  destruct (E_ctr (k + 1)) as (_ & (El & Eb)). apply padded_byte16; [now apply xor_bytes|unfold c; rewrite xor_length; lia].
Qed.
(** A call of [decrypt_inplace] on at most one block. *)
Lemma decrypt_at g cs k n c : gcm_at g cs k n -> 0 <= k < 65535 -> bytes_ok c -> (1 <= length c <= 16)%nat ->
  exists g', decrypt_inplace g c = Some (g', xor_str c (E (ctr nonce (k + 1)))) /\ gcm_at g' (cs ++ [padded c]) (k + 1) (n + zlen c).
Proof.
  intros Hg Hk Hb Hc. destruct (E_ctr (k + 1)) as (_ & (El & Eb)). unfold decrypt_inplace.
  assert (forall g1 m, gcm_at g1 (cs ++ [padded c]) (k + 1) m ->
    gcm_at (mkGcm (g_cipher g1) (g_ghash g1) (g_counter g1) (g_counter0_ct g1) (g_data_len g1 + zlen c)) (cs ++ [padded c]) (k + 1) (m + zlen c)) as Hlen.
  { intros g1 m (H1 & H2 & H3 & H4 & H5 & H6). unfold gcm_at. cbn [g_cipher g_counter g_counter0_ct g_ghash g_data_len]. rewrite H5. repeat split; assumption. }
  destruct (Nat.eq_dec (length c) 16) as [E16|N16].
  - rewrite E16. change (16 / 16)%nat with 1%nat. cbn [decrypt_chunks]. rewrite firstn_all2 by lia.
    assert (padded c = c) as Ep by (unfold padded; rewrite E16; apply app_nil_r).
    pose proof (update_at g cs k n c 0 Hg (conj E16 Hb)) as Hu. destruct (inner_at _ _ _ _ c Hu Hk) as (g' & Ei & Hg').
    rewrite Ei. change (16 * 1)%nat with 16%nat. rewrite skipn_all2 by lia. rewrite app_nil_r. eexists. split; [reflexivity|].
    rewrite Z.add_0_r in Hg'. rewrite <- Ep in Hg' at 1. now apply Hlen.
  - rewrite Nat.div_small by lia. cbn [decrypt_chunks]. rewrite Nat.mul_0_r, skipn_O. destruct c as [|x c']; [cbn in Hc; lia|]. set (c := x :: c') in *.
    assert (byte16 (padded c)) as Hp by (apply padded_byte16; [exact Hb|lia]).
    pose proof (update_at g cs k n (padded c) 0 Hg Hp) as Hu. destruct (inner_at _ _ _ _ (padded c) Hu Hk) as (g' & Ei & Hg').
    rewrite Ei. eexists. split.
    + do 2 f_equal. cbn [app]. unfold padded at 1. apply xor_prefix. lia.
    + rewrite Z.add_0_r in Hg'. now apply Hlen.
Qed.

(** ** Whole strings: full blocks and a last one of 1 to 16 bytes *)
Fixpoint ctr_xor (k : Z) (bs : list (list Z)) : list (list Z) :=
  match bs with [] => [] | b :: r => xor_str b (E (ctr nonce (k + 1))) :: ctr_xor (k + 1) r end.
Lemma ctr_xor_app k a b : ctr_xor k (a ++ [b]) = ctr_xor k a ++ [xor_str b (E (ctr nonce (k + zlen a + 1)))].
Proof.
  revert k. induction a as [|x a IH]; intros k; cbn [app ctr_xor].
  - change (zlen (@nil (list Z))) with 0. now rewrite Z.add_0_r.
  - rewrite IH, zlen_cons. cbn [app]. replace (k + (zlen a + 1) + 1) with (k + 1 + zlen a + 1) by lia. reflexivity.
Qed.
Lemma ctr_xor_length k bs : length (ctr_xor k bs) = length bs.
Proof. revert k. induction bs; intros; cbn [ctr_xor length]; auto. Qed.
Lemma ctr_xor_byte16 bs : forall k, Forall byte16 bs -> Forall byte16 (ctr_xor k bs).
Proof. induction bs; intros k H; cbn [ctr_xor]; constructor; inversion H; subst; [now apply xor_byte16|auto]. Qed.
Lemma ctr_xor_twice bs : forall k, Forall byte16 bs -> ctr_xor k (ctr_xor k bs) = bs.
Proof.
  induction bs as [|b bs IH]; intros k H; cbn [ctr_xor]; [reflexivity|]. inversion H as [|? ? (Hl & Hb) H2]; subst. f_equal; [|now apply IH].
  destruct (E_ctr (k + 1)) as (_ & (El & _)). apply xor_twice. lia.
Qed.
Lemma gctr_blocks bs : forall k m y, Forall byte16 bs -> 0 <= k -> k + zlen bs < 2 ^ 32 - 1 ->
  gctr (fips_cipher key) (length bs + m) (ctr nonce (k + 1)) (concat bs ++ y) =
  concat (ctr_xor k bs) ++ gctr (fips_cipher key) m (ctr nonce (k + zlen bs + 1)) y.
Proof.
  induction bs as [|b bs IH]; intros k m y Hb H0 Hk.
  - cbn [length concat ctr_xor app Nat.add]. change (zlen (@nil (list Z))) with 0. now rewrite Z.add_0_r.
  - inversion Hb as [|? ? (Hl & Hbb) H2]; subst. rewrite zlen_cons in *. pose proof (zlen_nonneg bs). cbn [length concat ctr_xor Nat.add gctr]. rewrite <- app_assoc.
    rewrite firstn_app, skipn_app, Hl, Nat.sub_diag, firstn_O, skipn_O, app_nil_r, firstn_all2, skipn_all2 by lia. cbn [app].
    rewrite ctr_inc by (auto; lia). rewrite IH by (auto; lia). rewrite (proj1 (E_ctr (k + 1))), app_assoc. replace (k + (zlen bs + 1) + 1) with (k + 1 + zlen bs + 1) by lia. reflexivity.
Qed.
Lemma blocks_concat bs (r : list Z) : Forall byte16 bs -> (1 <= length r <= 16)%nat -> blocks_in (concat bs ++ r) = (length bs + 1)%nat /\
  length (concat bs ++ r) = (16 * length bs + length r)%nat.
Proof.
  intros Hb Hr. assert (length (concat bs) = 16 * length bs)%nat as L.
  { induction Hb as [|b bs (Hl & _) Hb IH]; cbn [concat length]; [reflexivity|]. rewrite app_length, IH, Hl. lia. }
  split; [|rewrite app_length; lia]. unfold blocks_in. rewrite app_length, L.
  replace (16 * length bs + length r + 15)%nat with ((length r + 15) + length bs * 16)%nat by lia. rewrite Nat.div_add by lia.
  replace ((length r + 15) / 16)%nat with 1%nat; [lia|]. apply (Nat.div_unique _ _ _ (length r - 1)); lia.
Qed.
Lemma gctr_one k y : (1 <= length y <= 16)%nat -> gctr (fips_cipher key) 1 (ctr nonce k) y = xor_str y (E (ctr nonce k)).
Proof. intros H. cbn [gctr]. rewrite firstn_all2 by lia. rewrite app_nil_r. now rewrite (proj1 (E_ctr k)). Qed.
Lemma GCTR_blocks bs r : Forall byte16 bs -> (1 <= length r <= 16)%nat -> zlen bs < 2 ^ 32 - 2 ->
  GCTR (fips_cipher key) (inc32 (J0 nonce)) (concat bs ++ r) = concat (ctr_xor 1 bs) ++ xor_str r (E (ctr nonce (zlen bs + 2))).
Proof.
  intros Hb Hr Hk. unfold GCTR. rewrite (proj1 (blocks_concat bs r Hb Hr)), ctr_J0, ctr_inc by (auto; lia).
  rewrite (gctr_blocks bs 1) by (auto; lia). rewrite gctr_one by exact Hr. replace (1 + zlen bs + 1) with (zlen bs + 2) by lia. reflexivity.
Qed.
Lemma split16_concat bs : forall m (y : list Z), Forall byte16 bs -> split16 (length bs + m) (concat bs ++ y) = bs ++ split16 m y.
Proof.
  induction bs as [|b bs IH]; intros m y Hb; [reflexivity|]. inversion Hb as [|? ? (Hl & _) H2]; subst. cbn [length concat Nat.add split16 app].
  rewrite <- app_assoc, firstn_app, skipn_app, Hl, Nat.sub_diag, firstn_O, skipn_O, app_nil_r, firstn_all2, skipn_all2 by lia. cbn [app].
  now rewrite IH.
Qed.
Lemma blocks16_concat cs r : Forall byte16 cs -> (1 <= length r <= 16)%nat -> blocks16 (concat cs ++ r) = cs ++ [padded r].
Proof.
  intros Hc Hr. destruct (blocks_concat cs r Hc Hr) as (E1 & E2). unfold blocks16, pad16. rewrite E1, E2, <- app_assoc, split16_concat by exact Hc.
  f_equal. cbn [split16]. f_equal. unfold padded.
  replace ((16 - (16 * length cs + length r) mod 16) mod 16)%nat with (16 - length r)%nat.
  - apply firstn_all2. rewrite app_length, zeros_length. lia.
  - replace (16 * length cs + length r)%nat with (length r + length cs * 16)%nat by lia. rewrite Nat.mod_add by lia.
    destruct (Nat.eq_dec (length r) 16) as [->|]; [reflexivity|]. rewrite (Nat.mod_small (length r)) by lia. rewrite Nat.mod_small; lia.
Qed.
Lemma be64_block v : be64 v = block_of 8 v.
Proof.
  unfold be64, be32, block_of, u32. cbn [app]. change (2 ^ (8 * Z.of_nat 7)) with 72057594037927936. change (2 ^ (8 * Z.of_nat 6)) with 281474976710656.
  change (2 ^ (8 * Z.of_nat 5)) with 1099511627776. change (2 ^ (8 * Z.of_nat 4)) with 4294967296.
  change (2 ^ (8 * Z.of_nat 3)) with 16777216. change (2 ^ (8 * Z.of_nat 2)) with 65536. change (2 ^ (8 * Z.of_nat 1)) with 256. change (2 ^ (8 * Z.of_nat 0)) with 1.
  rewrite Z.div_1_r. repeat (f_equal; try lia).
Qed.
Lemma block_of_byte16 v w : byte16 (block_of 8 v ++ block_of 8 w).
Proof. split; [reflexivity|]. unfold block_of. cbn [app]. repeat constructor; unfold is_u8; lia. Qed.
Lemma block_of_byte v : byte16 (block_of 16 v).
Proof. split; [reflexivity|]. unfold block_of. repeat constructor; unfold is_u8; apply Z.mod_pos_bound; lia. Qed.
Lemma finish_at g cs k n C : gcm_at g cs k n -> cs = blocks16 C -> n = zlen C ->
  gcm_finish g = gcm_tag (fips_cipher key) nonce aad C.
Proof.
  intros (H1 & H2 & H3 & H4 & H5 & H6) -> ->. unfold gcm_finish. rewrite H3, H4, H5, !be64_block.
  assert (byte16 (zeros 16)) as Hz by (split; [reflexivity|apply zeros_bytes]).
  assert (blocks16 aad = [padded aad]) as Ea.
  { pose proof (blocks16_concat [] aad ltac:(constructor) ltac:(rewrite aad_len; lia)) as E0. cbn [concat app] in E0. exact E0. }
  set (len := block_of 8 (AAD_LEN * 8) ++ block_of 8 (zlen C * 8)).
  change (ghash_update (fold_left ghash_update (padded aad :: blocks16 C) (ghash_new (E (zeros 16)))) len)
    with (fold_left ghash_update [len] (fold_left ghash_update (padded aad :: blocks16 C) (ghash_new (E (zeros 16))))).
  rewrite <- fold_left_app. rewrite ghash_ok.
  - unfold gcm_tag, hash_subkey. rewrite Ea. rewrite (proj1 (E_ok (zeros 16) Hz)). rewrite ctr_J0. unfold GCTR.
    replace (block_of 8 (8 * zlen aad) ++ block_of 8 (8 * zlen C)) with len.
    2:{ unfold len. do 2 f_equal; [|lia]. unfold zlen. rewrite aad_len. reflexivity. }
    cbn [app]. set (s := GHASH _ _). assert (byte16 s) as (Hs & _) by apply block_of_byte.
    unfold blocks_in. rewrite Hs. change ((16 + 15) / 16)%nat with 1%nat. rewrite gctr_one by lia. reflexivity.
  - apply E_ok, Hz.
  - cbn [app]. constructor; [apply padded_byte16; [exact aad_ok|rewrite aad_len; lia]|]. apply Forall_app. split; [exact H6|].
    constructor; [apply block_of_byte16|constructor].
Qed.

(** ** The calls on whole strings *)
Lemma skipn_plus {A} a b (l : list A) : skipn (a + b) l = skipn b (skipn a l).
Proof. revert l. induction a as [|a IH]; intros [|x l]; cbn [Nat.add skipn]; rewrite ?skipn_nil; auto. Qed.
Lemma encrypt_blocks_at bs : forall g cs k n, gcm_at g cs k n -> Forall byte16 bs -> 0 <= k -> k + zlen bs <= 65535 ->
  exists g', encrypt_blocks g bs = Some (g', ctr_xor k bs) /\ gcm_at g' (cs ++ ctr_xor k bs) (k + zlen bs) (n + 16 * zlen bs).
Proof.
  induction bs as [|b bs IH]; intros g cs k n Hg Hb H0 Hk; cbn [encrypt_blocks ctr_xor].
  - exists g. split; [reflexivity|]. change (zlen (@nil (list Z))) with 0. now rewrite app_nil_r, !Z.add_0_r.
  - inversion Hb; subst. rewrite zlen_cons in *. pose proof (zlen_nonneg bs).
    destruct (encrypt_block_at g cs k n b Hg ltac:(lia) ltac:(assumption)) as (g1 & -> & Hg1).
    destruct (IH g1 _ (k + 1) (n + 16) Hg1 ltac:(assumption) ltac:(lia) ltac:(lia)) as (g2 & -> & Hg2).
    exists g2. split; [reflexivity|]. rewrite <- app_assoc in Hg2. cbn [app] in Hg2.
    replace (k + (zlen bs + 1)) with (k + 1 + zlen bs) by lia. replace (n + 16 * (zlen bs + 1)) with (n + 16 + 16 * zlen bs) by lia. exact Hg2.
Qed.
Lemma zlen_concat bs (r : list Z) : Forall byte16 bs -> (1 <= length r <= 16)%nat -> zlen (concat bs ++ r) = 16 * zlen bs + zlen r.
Proof. intros Hb Hr. unfold zlen. rewrite (proj2 (blocks_concat bs r Hb Hr)). lia. Qed.
Lemma xor_ctr_len r k : (length r <= 16)%nat -> length (xor_str r (E (ctr nonce k))) = length r.
Proof. intros H. destruct (E_ctr k) as (_ & (El & _)). apply xor_length. lia. Qed.
Lemma xor_ctr_bytes r k : bytes_ok r -> bytes_ok (xor_str r (E (ctr nonce k))).
Proof. intros H. destruct (E_ctr k) as (_ & (_ & Eb)). now apply xor_bytes. Qed.
(** The state when full blocks and a last one have been hashed. *)
Lemma finish_stream g cs c k : gcm_at g (cs ++ [padded c]) k (16 * zlen cs + zlen c) -> Forall byte16 cs -> (1 <= length c <= 16)%nat ->
  gcm_finish g = gcm_tag (fips_cipher key) nonce aad (concat cs ++ c).
Proof.
  intros Hg Hc Hl. apply (finish_at g (cs ++ [padded c]) k (16 * zlen cs + zlen c)); [exact Hg| |].
  - symmetry. now apply blocks16_concat.
  - symmetry. now apply zlen_concat.
Qed.
Lemma encrypt_calls_ok bs r : Forall byte16 bs -> bytes_ok r -> (1 <= length r <= 16)%nat -> zlen bs < 65534 ->
  encrypt_calls key nonce aad bs r = Some (gcm_encrypt (fips_cipher key) nonce aad (concat bs ++ r)).
Proof.
  intros Hb Hr Hl Hn. unfold encrypt_calls, gcm_encrypt. cbv zeta. pose proof (zlen_nonneg bs).
  destruct (encrypt_blocks_at bs (gcm_new key nonce aad) [] 1 0 gcm_new_at Hb ltac:(lia) ltac:(lia)) as (g1 & -> & Hg1).
  destruct (encrypt_remainder_at g1 _ _ _ r Hg1 ltac:(lia) Hr ltac:(lia)) as (g2 & -> & Hg2). cbn [app] in Hg2.
  rewrite (GCTR_blocks bs r) by (auto; lia). replace (1 + zlen bs + 1) with (zlen bs + 2) in Hg2 by lia. replace (1 + zlen bs + 1) with (zlen bs + 2) by lia.
  set (c := xor_str r (E (ctr nonce (zlen bs + 2)))) in *.
  assert (length c = length r) as Lc by (apply xor_ctr_len; lia).
  assert (zlen (ctr_xor 1 bs) = zlen bs) as Lx by (unfold zlen; now rewrite ctr_xor_length).
  replace (0 + 16 * zlen bs + zlen r) with (16 * zlen (ctr_xor 1 bs) + zlen c) in Hg2 by (rewrite Lx; unfold zlen; lia).
  rewrite (finish_stream g2 _ _ _ Hg2) by (try apply ctr_xor_byte16; auto; lia).
  do 4 f_equal. unfold padded, ztake, zlen. rewrite Nat2Z.id, <- Lc, firstn_app, Nat.sub_diag, firstn_O, app_nil_r. now apply firstn_all2.
Qed.
Lemma decrypt_chunks_at bs : forall g cs k n y, gcm_at g cs k n -> Forall byte16 bs -> 0 <= k -> k + zlen bs <= 65535 ->
  exists g', decrypt_chunks (length bs) g (concat bs ++ y) = Some (g', concat (ctr_xor k bs)) /\ gcm_at g' (cs ++ bs) (k + zlen bs) n.
Proof.
  induction bs as [|b bs IH]; intros g cs k n y Hg Hb H0 Hk; cbn [decrypt_chunks length concat ctr_xor].
  - exists g. split; [reflexivity|]. change (zlen (@nil (list Z))) with 0. now rewrite app_nil_r, Z.add_0_r.
  - inversion Hb as [|? ? (Hl & Hbb) H2]; subst. rewrite zlen_cons in *. pose proof (zlen_nonneg bs). rewrite <- app_assoc.
    rewrite firstn_app, skipn_app, Hl, Nat.sub_diag, firstn_O, skipn_O, app_nil_r, firstn_all2, skipn_all2 by lia. cbn [app].
    pose proof (update_at g cs k n b 0 Hg (conj Hl Hbb)) as Hu. destruct (inner_at _ _ _ _ b Hu ltac:(lia)) as (g1 & -> & Hg1). rewrite Z.add_0_r in Hg1.
    destruct (IH g1 _ (k + 1) n y Hg1 ltac:(assumption) ltac:(lia) ltac:(lia)) as (g2 & -> & Hg2).
    exists g2. split; [reflexivity|]. rewrite <- app_assoc in Hg2. cbn [app] in Hg2.
    replace (k + (zlen bs + 1)) with (k + 1 + zlen bs) by lia. exact Hg2.
Qed.
Lemma split_blocks (l : list Z) : bytes_ok l -> exists bs r, l = concat bs ++ r /\ Forall byte16 bs /\ bytes_ok r /\ (length r < 16)%nat /\
  length bs = (length l / 16)%nat /\ skipn (16 * length bs) l = r.
Proof.
  remember (length l) as n eqn:En. revert l En. induction n as [n IH] using lt_wf_ind. intros l -> Hl.
  destruct (Nat.lt_ge_cases (length l) 16) as [H|H].
  - exists [], l. cbn [concat app length]. rewrite Nat.mul_0_r. rewrite (Nat.div_small _ _ H). repeat split; auto.
  - assert (bytes_ok (firstn 16 l) /\ bytes_ok (skipn 16 l)) as (B1 & B2) by (rewrite <- (firstn_skipn 16 l) in Hl; now apply Forall_app in Hl).
    destruct (IH (length (skipn 16 l))) with (l := skipn 16 l) as (bs & r & E1 & E2 & E3 & E4 & E5 & E6); [rewrite skipn_length; lia|reflexivity|exact B2|].
    exists (firstn 16 l :: bs), r. cbn [concat length]. rewrite <- app_assoc, <- E1, firstn_skipn. split; [reflexivity|].
    split; [constructor; [split; [apply firstn_length_le; lia|exact B1]|exact E2]|]. split; [exact E3|]. split; [exact E4|]. rewrite E5, skipn_length.
    split.
    + replace (length l) with ((length l - 16) + 1 * 16)%nat at 2 by lia. rewrite Nat.div_add by lia. lia.
    + rewrite <- E6 at 1. rewrite E5, skipn_length. clear - H. replace (16 * S ((length l - 16) / 16))%nat with (16 + 16 * ((length l - 16) / 16))%nat by lia. now rewrite skipn_plus.
Qed.
Lemma decrypt_call_ok C : bytes_ok C -> zlen C < 16 * 65534 -> exists g',
  decrypt_inplace (gcm_new key nonce aad) C = Some (g', GCTR (fips_cipher key) (inc32 (J0 nonce)) C) /\
  gcm_finish g' = gcm_tag (fips_cipher key) nonce aad C.
Proof.
  intros Hb Hn. unfold zlen in Hn. destruct (split_blocks C Hb) as (bs & r & E1 & E2 & E3 & E4 & E5 & E6). unfold decrypt_inplace. rewrite <- E5.
  assert (length C = 16 * length bs + length r)%nat as L.
  { rewrite E1, app_length. f_equal. clear - E2. induction E2 as [|b bs (Hl & _) H IH]; cbn [concat length]; [reflexivity|]. rewrite app_length, IH, Hl. lia. }
  destruct (decrypt_chunks_at bs (gcm_new key nonce aad) [] 1 0 r gcm_new_at E2 ltac:(lia) ltac:(unfold zlen; lia)) as (g1 & Ed & Hg1).
  rewrite <- E1 in Ed. rewrite Ed, E6. cbn [app] in Hg1.
  assert (forall g cs k m, gcm_at g cs k m ->
    gcm_at (mkGcm (g_cipher g) (g_ghash g) (g_counter g) (g_counter0_ct g) (g_data_len g + zlen C)) cs k (m + zlen C)) as Hlen.
  { intros g0 cs k m (H1 & H2 & H3 & H4 & H5 & H6). unfold gcm_at. cbn [g_cipher g_counter g_counter0_ct g_ghash g_data_len]. rewrite H5. repeat split; assumption. }
  destruct r as [|x r'].
  - exists (mkGcm (g_cipher g1) (g_ghash g1) (g_counter g1) (g_counter0_ct g1) (g_data_len g1 + zlen C)).
    specialize (Hlen _ _ _ _ Hg1). rewrite app_nil_r in E1.
    destruct bs as [|b0 bs0].
    + cbn [concat] in E1. subst C. split; [reflexivity|]. apply (finish_at _ [] (1 + 0) (0 + 0)); [exact Hlen|reflexivity|reflexivity].
    + destruct (exists_last (l := b0 :: bs0) ltac:(discriminate)) as (bs' & b & Eb). rewrite Eb in *. apply Forall_app in E2. destruct E2 as (E2 & E2b). inversion E2b as [|? ? (Lb & Bb) _]; subst.
      rewrite concat_app in *. cbn [concat] in *. rewrite app_nil_r in *.
      assert (padded b = b) as Pb by (unfold padded; rewrite Lb, Nat.sub_diag; apply app_nil_r).
      split.
      * do 2 f_equal. rewrite (GCTR_blocks bs' b) by (auto; rewrite (app_length bs') in L; cbn [length] in L; unfold zlen; lia).
        rewrite ctr_xor_app, concat_app. cbn [concat]. rewrite app_nil_r. replace (1 + zlen bs' + 1) with (zlen bs' + 2) by lia. reflexivity.
      * apply (finish_stream _ bs' b (1 + zlen (bs' ++ [b]))); [rewrite Pb|exact E2|lia].
        replace (16 * zlen bs' + zlen b) with (0 + zlen (concat bs' ++ b)); [exact Hlen|]. rewrite (zlen_concat bs' b E2 ltac:(lia)). lia.
  - set (r := x :: r') in *. assert (1 <= length r)%nat by (unfold r; cbn [length]; lia). clearbody r.
    pose proof (update_at g1 _ _ _ (padded r) 0 Hg1 (padded_byte16 r E3 ltac:(lia))) as Hu.
    destruct (inner_at _ _ _ _ (padded r) Hu ltac:(unfold zlen; lia)) as (g2 & -> & Hg2).
    eexists. split.
    + do 2 f_equal. rewrite E1 at 1. rewrite (GCTR_blocks bs r) by (auto; unfold zlen; lia). f_equal. replace (1 + zlen bs + 1) with (zlen bs + 2) by lia.
      destruct (E_ctr (zlen bs + 2)) as (_ & (El & _)). unfold padded. apply xor_prefix. lia.
    + specialize (Hlen _ _ _ _ Hg2). rewrite E1 at 2. apply (finish_stream _ bs r (1 + zlen bs + 1)); [|exact E2|lia].
      replace (16 * zlen bs + zlen r) with (0 + 0 + zlen C); [exact Hlen|]. rewrite E1 at 1. rewrite (zlen_concat bs r) by (auto; lia). lia.
Qed.
(** Decryption of the standard inverts its encryption. *)
Lemma last_block (P : list Z) : bytes_ok P -> P <> [] -> exists bs r, P = concat bs ++ r /\ Forall byte16 bs /\ bytes_ok r /\ (1 <= length r <= 16)%nat /\
  (length P = 16 * length bs + length r)%nat.
Proof.
  intros Hb Hn. destruct (split_blocks P Hb) as (bs & r & E1 & E2 & E3 & E4 & E5 & E6).
  destruct r as [|x r'].
  - rewrite app_nil_r in E1. destruct bs as [|b0 bs0]; [now subst|].
    destruct (exists_last (l := b0 :: bs0) ltac:(discriminate)) as (bs' & b & Eb). rewrite Eb in *. apply Forall_app in E2. destruct E2 as (E2 & E2b). inversion E2b as [|? ? (Lb & Bb) _]; subst.
    exists bs', b. rewrite concat_app. cbn [concat]. rewrite app_nil_r. split; [reflexivity|]. split; [exact E2|]. split; [exact Bb|]. split; [lia|].
    apply blocks_concat; [exact E2|lia].
  - exists bs, (x :: r'). split; [exact E1|]. split; [exact E2|]. split; [exact E3|]. split; [cbn [length] in *; lia|]. rewrite E1. apply blocks_concat; [exact E2|cbn [length] in *; lia].
Qed.
Lemma GCTR_bytes P : bytes_ok P -> zlen P < 16 * 65534 ->
  let C := GCTR (fips_cipher key) (inc32 (J0 nonce)) P in
  length C = length P /\ bytes_ok C /\ GCTR (fips_cipher key) (inc32 (J0 nonce)) C = P.
Proof.
  intros Hb Hn. unfold zlen in Hn. destruct P as [|x P'] eqn:EP; [repeat split; constructor|]. rewrite <- EP in *. assert (P <> []) as Hne by now rewrite EP. clear x P' EP.
  destruct (last_block P Hb Hne) as (bs & r & E1 & E2 & E3 & E4 & E5). cbv zeta. rewrite E1 at 1 3 4. rewrite (GCTR_blocks bs r) by (auto; unfold zlen; lia).
  pose proof (xor_ctr_len r (zlen bs + 2) ltac:(lia)) as Lx. pose proof (ctr_xor_byte16 bs 1 E2) as B1.
  assert (zlen (ctr_xor 1 bs) = zlen bs) as Lz by (unfold zlen; now rewrite ctr_xor_length).
  split; [|split].
  - rewrite (proj2 (blocks_concat _ _ B1 ltac:(rewrite Lx; lia))). rewrite ctr_xor_length. lia.
  - apply Forall_app. split; [|now apply xor_ctr_bytes]. apply Forall_concat. eapply Forall_impl; [|exact B1]. intros a (_ & Ha). exact Ha.
  - rewrite (GCTR_blocks _ _ B1) by (try (rewrite Lx; lia); rewrite Lz; unfold zlen; lia). rewrite Lz, ctr_xor_twice by exact E2. rewrite E1. f_equal.
    destruct (E_ctr (zlen bs + 2)) as (_ & (El & _)). apply xor_twice. lia.
Qed.
Lemma gcm_round_trip P : bytes_ok P -> zlen P < 16 * 65534 ->
  let (C, T) := gcm_encrypt (fips_cipher key) nonce aad P in gcm_decrypt (fips_cipher key) nonce aad C T = Some P.
Proof.
  intros Hb Hn. unfold gcm_encrypt, gcm_decrypt. cbv zeta. destruct (list_eq_dec _ _ _) as [_|H]; [|congruence].
  f_equal. now apply GCTR_bytes.
Qed.
Lemma decrypt_call_std C : bytes_ok C -> zlen C < 16 * 65534 ->
  exists g plain, decrypt_inplace (gcm_new key nonce aad) C = Some (g, plain) /\
    forall tag, gcm_decrypt (fips_cipher key) nonce aad C tag = if list_eq_dec Z.eq_dec (gcm_finish g) tag then Some plain else None.
Proof.
  intros Hb Hn. destruct (decrypt_call_ok C Hb Hn) as (g & H & F). exists g. eexists. split; [exact H|]. intros tag. unfold gcm_decrypt. now rewrite F.
Qed.
Lemma calls_inverse bs r c tag : Forall byte16 bs -> bytes_ok r -> (1 <= length r <= 16)%nat -> zlen bs < 65533 ->
  encrypt_calls key nonce aad bs r = Some (c, tag) ->
  length c = length (concat bs ++ r) /\
  exists g, decrypt_inplace (gcm_new key nonce aad) c = Some (g, concat bs ++ r) /\ gcm_finish g = tag.
Proof.
  intros Hb Hr Hl Hn. rewrite encrypt_calls_ok by (auto; lia). unfold gcm_encrypt. cbv zeta. intros [= <- <-].
  assert (bytes_ok (concat bs ++ r)) as Bp.
  { apply Forall_app. split; [|exact Hr]. apply Forall_concat. eapply Forall_impl; [|exact Hb]. intros a (_ & Ha). exact Ha. }
  assert (zlen (concat bs ++ r) < 16 * 65534) as Lp by (rewrite zlen_concat by auto; unfold zlen; unfold zlen in Hn; lia).
  destruct (GCTR_bytes _ Bp Lp) as (L & B & I). split; [exact L|].
  destruct (decrypt_call_ok _ B ltac:(unfold zlen in *; rewrite L; exact Lp)) as (g & H & F). exists g. rewrite I in H. now split.
Qed.
End WithKey.
