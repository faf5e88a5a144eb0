(** The cipher is FIPS 197's. *)
From Verif Require Export Proof.Base.
From Verif Require Import Model.Aes Spec.Fips197 Proof.DnsNameP.

Ltac byte_case f := intros; apply Z.eqb_eq; apply (zseq_all f 256 0); [vm_compute; reflexivity|unfold is_u8 in *; lia].
Lemma sbox_ok b : is_u8 b -> sbox b = fips_sbox b.
Proof. byte_case (fun b => sbox b =? fips_sbox b). Qed.
Lemma ginv_ok b : 0 < b < 256 -> gmul b (ginv b) = 1.
Proof. intros H. apply Z.eqb_eq. apply (zseq_all (fun b => gmul b (ginv b) =? 1) 255 1); [vm_compute; reflexivity|lia]. Qed.
Lemma fips_sbox_byte b : is_u8 b -> is_u8 (fips_sbox b).
Proof.
  intros H. rewrite <- sbox_ok by exact H. assert ((0 <=? sbox b) && (sbox b <? 256) = true) as E; [|unfold is_u8; lia].
  apply (zseq_all (fun b => (0 <=? sbox b) && (sbox b <? 256)) 256 0); [vm_compute; reflexivity|unfold is_u8 in *; lia].
Qed.
Lemma gmul1 b : is_u8 b -> gmul 1 b = b.
Proof. byte_case (fun b => gmul 1 b =? b). Qed.
Lemma gmul2 b : is_u8 b -> gmul 2 b = xtime b.
Proof. byte_case (fun b => gmul 2 b =? xtime b). Qed.
Lemma gmul3 b : is_u8 b -> gmul 3 b = Z.lxor (xtime b) b.
Proof. byte_case (fun b => gmul 3 b =? Z.lxor (xtime b) b). Qed.
Lemma xtime_byte b : is_u8 b -> is_u8 (xtime b).
Proof.
  intros H. assert ((0 <=? xtime b) && (xtime b <? 256) = true) as E; [|unfold is_u8; lia].
  apply (zseq_all (fun b => (0 <=? xtime b) && (xtime b <? 256)) 256 0); [vm_compute; reflexivity|unfold is_u8 in *; lia].
Qed.
Lemma lxor_byte a b : is_u8 a -> is_u8 b -> is_u8 (Z.lxor a b).
Proof.
  intros Ha Hb. unfold is_u8 in *. split; [apply Z.lxor_nonneg; lia|].
  destruct (Z.eqb_spec (Z.lxor a b) 0) as [->|]; [lia|].
  assert (0 <= Z.lxor a b) by (apply Z.lxor_nonneg; lia).
  apply Z.log2_lt_cancel. change (Z.log2 256) with 8.
  pose proof (Z.log2_lxor a b ltac:(lia) ltac:(lia)). assert (forall x, 0 <= x < 256 -> Z.log2 x < 8) as L.
  { intros x Hx. destruct (Z.eqb_spec x 0) as [->|]; [cbn; lia|]. apply Z.log2_lt_pow2; lia. }
  pose proof (L a Ha). pose proof (L b Hb). lia.
Qed.
Lemma xtime_lxor a b : is_u8 a -> is_u8 b -> xtime (Z.lxor a b) = Z.lxor (xtime a) (xtime b).
Proof.
  intros Ha Hb. apply Z.eqb_eq.
  pose proof (zseq_all (fun a => forallb (fun b => xtime (Z.lxor a b) =? Z.lxor (xtime a) (xtime b)) (zseq 0 256)) 256 0 ltac:(vm_compute; reflexivity) a ltac:(unfold is_u8 in *; lia)) as H.
  exact (zseq_all _ 256 0 H b ltac:(unfold is_u8 in *; lia)).
Qed.
Ltac xor_bits := apply Z.bits_inj'; intros ?n ?H; rewrite ?Z.lxor_spec, ?Z.bits_0;
  repeat match goal with |- context [Z.testbit ?x ?n] => destruct (Z.testbit x n) end; reflexivity.

(** ** States *)
Definition bytes_st (s : state) : Prop := forall r c, is_u8 (s r c).
Lemma of_state_eq s : of_state s = [s 0 0; s 1 0; s 2 0; s 3 0; s 0 1; s 1 1; s 2 1; s 3 1; s 0 2; s 1 2; s 2 2; s 3 2; s 0 3; s 1 3; s 2 3; s 3 3]%nat.
Proof. reflexivity. Qed.
Lemma sub_state s : bytes_st s -> sub_bytes (of_state s) = of_state (SubBytes s).
Proof.
  intros B. unfold sub_bytes. rewrite !of_state_eq. cbn [map]. unfold SubBytes. rewrite !sbox_ok by apply B. reflexivity.
Qed.
Lemma shift_state s : shift_rows (of_state s) = of_state (ShiftRows s).
Proof. reflexivity. Qed.
Lemma mix_one s a b c d : is_u8 a -> is_u8 b -> is_u8 c -> is_u8 d ->
  let tmp := Z.lxor (Z.lxor (Z.lxor a b) c) d in
  s = [Z.lxor a (Z.lxor (xtime (Z.lxor a b)) tmp); Z.lxor b (Z.lxor (xtime (Z.lxor b c)) tmp);
       Z.lxor c (Z.lxor (xtime (Z.lxor c d)) tmp); Z.lxor d (Z.lxor (xtime (Z.lxor d a)) tmp)] ->
  s = map (fun r => fold_right Z.lxor 0 (map (fun k => gmul (mix_coeff r k) (nth k [a; b; c; d] 0)) (seq 0 4))) (seq 0 4).
Proof.
  intros Ha Hb Hc Hd tmp ->. unfold mix_coeff. cbn [seq map fold_right nth Nat.add Nat.sub Nat.modulo Nat.divmod fst snd].
  rewrite !gmul1, !gmul2, !gmul3 by assumption. rewrite !xtime_lxor by assumption. unfold tmp.
  f_equal; [|f_equal; [|f_equal; [|f_equal]]]; xor_bits.
Qed.
Lemma mix_state s : bytes_st s -> mix_columns (of_state s) = of_state (MixColumns s).
Proof.
  intros B.
  assert (forall c, [MixColumns s 0 c; MixColumns s 1 c; MixColumns s 2 c; MixColumns s 3 c]%nat =
    let a := s 0%nat c in let b := s 1%nat c in let d := s 2%nat c in let e := s 3%nat c in let tmp := Z.lxor (Z.lxor (Z.lxor a b) d) e in
    [Z.lxor a (Z.lxor (xtime (Z.lxor a b)) tmp); Z.lxor b (Z.lxor (xtime (Z.lxor b d)) tmp);
     Z.lxor d (Z.lxor (xtime (Z.lxor d e)) tmp); Z.lxor e (Z.lxor (xtime (Z.lxor e a)) tmp)]) as M.
  { intros c. symmetry. apply (mix_one _ (s 0 c) (s 1 c) (s 2 c) (s 3 c))%nat; auto. }
  cbv zeta in M. assert (of_state (MixColumns s) = flat_map (fun c => [MixColumns s 0 c; MixColumns s 1 c; MixColumns s 2 c; MixColumns s 3 c]%nat) (seq 0 4)) as -> by reflexivity.
  cbn [seq flat_map]. rewrite (M 0%nat), (M 1%nat), (M 2%nat), (M 3%nat). rewrite of_state_eq. cbn [app]. reflexivity.
Qed.
Lemma mix_bytes s : bytes_st s -> bytes_st (MixColumns s).
Proof.
  intros B r c. unfold MixColumns. assert (forall k, is_u8 (gmul (mix_coeff r k) (s k c))) as G.
  { intros k. unfold mix_coeff. assert ((k + 4 - r) mod 4 < 4)%nat as L by (apply Nat.mod_upper_bound; lia).
    destruct ((k + 4 - r) mod 4)%nat as [|[|[|[|]]]]; cbn [nth]; [rewrite gmul2|rewrite gmul3|rewrite gmul1|rewrite gmul1|lia]; auto using xtime_byte, lxor_byte. }
  cbn [seq map fold_right]. repeat apply lxor_byte; auto. unfold is_u8; lia.
Qed.
Lemma sub_bytes_st s : bytes_st s -> bytes_st (SubBytes s).
Proof. intros B r c. apply fips_sbox_byte, B. Qed.
Lemma shift_bytes s : bytes_st s -> bytes_st (ShiftRows s).
Proof. intros B r c. apply B. Qed.

(** ** Key expansion *)
Definition word (w : list Z) : Prop := exists a b c d, w = [a; b; c; d] /\ is_u8 a /\ is_u8 b /\ is_u8 c /\ is_u8 d.
Lemma set_app p l i v : set (p ++ l) (length p + i) v = p ++ set l i v.
Proof. induction p as [|x p IH]; cbn; [reflexivity|]. now rewrite IH. Qed.
Lemma at_app p l i : at_ (p ++ l) (length p + i) = at_ l i.
Proof. unfold at_. rewrite app_nth2_plus. reflexivity. Qed.
Lemma concat_len (ws : list (list Z)) : Forall word ws -> length (concat ws) = (4 * length ws)%nat.
Proof.
  induction 1 as [|w ws (a & b & c & d & -> & _) _ IH]; [reflexivity|]. cbn [concat length]. rewrite app_length, IH. cbn [length]. lia.
Qed.
Lemma rcon_ok n : (1 <= n <= 10)%nat -> at_ RCON n = gpow 2 (n - 1).
Proof. intros H. do 11 (destruct n as [|n]; [try lia; reflexivity|]). lia. Qed.
Lemma gpow_byte n : (n <= 9)%nat -> is_u8 (gpow 2 n).
Proof. intros H. do 10 (destruct n as [|n]; [vm_compute; split; congruence|]). lia. Qed.
Lemma xor_word a b : word a -> word b -> word (xor_list a b).
Proof.
  intros (a0 & a1 & a2 & a3 & -> & ? & ? & ? & ?) (b0 & b1 & b2 & b3 & -> & ? & ? & ? & ?).
  exists (Z.lxor a0 b0), (Z.lxor a1 b1), (Z.lxor a2 b2), (Z.lxor a3 b3). split; [reflexivity|]. repeat split; apply lxor_byte; assumption.
Qed.
Definition temp_of (i : nat) (w : list Z) : list Z := if (i mod 4 =? 0)%nat then xor_list (SubWord (RotWord w)) (Rcon (i / 4)) else w.
Lemma temp_word i w : (4 <= i < 44)%nat -> word w -> word (temp_of i w).
Proof.
  intros Hi (a & b & c & d & -> & Ha & Hb & Hc & Hd). unfold temp_of. destruct (i mod 4 =? 0)%nat.
  - apply xor_word.
    + exists (fips_sbox b), (fips_sbox c), (fips_sbox d), (fips_sbox a). split; [reflexivity|]. repeat split; apply fips_sbox_byte; assumption.
    + exists (gpow 2 (i / 4 - 1)), 0, 0, 0. split; [reflexivity|]. split; [|unfold is_u8; lia].
      apply gpow_byte. assert (i / 4 < 11)%nat by (apply Nat.div_lt_upper_bound; lia). lia.
  - exists a, b, c, d. auto.
Qed.
Lemma expand_step i w0 w1 w2 w3 rest m : (4 <= i < 44)%nat -> Forall word (w0 :: w1 :: w2 :: w3 :: rest) -> length rest = (i - 4)%nat ->
  expand_word (concat (rev (w0 :: w1 :: w2 :: w3 :: rest)) ++ zeros (4 * S m)) i =
  concat (rev (xor_list w3 (temp_of i w0) :: w0 :: w1 :: w2 :: w3 :: rest)) ++ zeros (4 * m).
Proof.
  intros Hi F L. inversion F as [|? ? F0 Fa]; subst. inversion Fa as [|? ? F1 Fb]; subst. inversion Fb as [|? ? F2 Fc]; subst. inversion Fc as [|? ? F3 Fd]; subst.
  destruct F0 as (a0 & b0 & c0 & d0 & -> & A0 & B0 & C0 & D0). destruct F1 as (a1 & b1 & c1 & d1 & -> & _).
  destruct F2 as (a2 & b2 & c2 & d2 & -> & _). destruct F3 as (a3 & b3 & c3 & d3 & -> & _).
  set (P := concat (rev rest)). assert (length P = ((i - 4) * 4)%nat) as LP.
  { unfold P. rewrite concat_len by (apply Forall_rev; assumption). rewrite rev_length. lia. }
  assert (concat (rev ([a0; b0; c0; d0] :: [a1; b1; c1; d1] :: [a2; b2; c2; d2] :: [a3; b3; c3; d3] :: rest)) ++ zeros (4 * S m) =
    P ++ [a3; b3; c3; d3; a2; b2; c2; d2; a1; b1; c1; d1; a0; b0; c0; d0; 0; 0; 0; 0] ++ zeros (4 * m)) as ->.
  { cbn [rev]. rewrite !concat_app. cbn [concat]. rewrite !app_nil_r, <- !app_assoc. unfold P. f_equal.
    replace (4 * S m)%nat with (4 + 4 * m)%nat by lia. unfold zeros. rewrite repeat_app. reflexivity. }
  assert (concat (rev (xor_list [a3; b3; c3; d3] (temp_of i [a0; b0; c0; d0]) :: [a0; b0; c0; d0] :: [a1; b1; c1; d1] :: [a2; b2; c2; d2] :: [a3; b3; c3; d3] :: rest)) ++ zeros (4 * m) =
    P ++ [a3; b3; c3; d3; a2; b2; c2; d2; a1; b1; c1; d1; a0; b0; c0; d0] ++ xor_list [a3; b3; c3; d3] (temp_of i [a0; b0; c0; d0]) ++ zeros (4 * m)) as ->.
  { cbn [rev]. rewrite !concat_app. cbn [concat]. rewrite !app_nil_r, <- !app_assoc. reflexivity. }
  unfold expand_word. replace ((i - 1) * 4)%nat with (length P + 12)%nat by lia.
  replace ((i - NK) * 4)%nat with (length P) by (unfold NK; lia). replace (i * 4)%nat with (length P + 16)%nat by lia.
  replace (skipn (length P + 12) (P ++ [a3; b3; c3; d3; a2; b2; c2; d2; a1; b1; c1; d1; a0; b0; c0; d0; 0; 0; 0; 0] ++ zeros (4 * m)))
    with ([a0; b0; c0; d0; 0; 0; 0; 0] ++ zeros (4 * m)).
  2:{ rewrite skipn_app, skipn_all2 by lia. replace (length P + 12 - length P)%nat with 12%nat by lia. reflexivity. }
  change (firstn 4 ([a0; b0; c0; d0; 0; 0; 0; 0] ++ zeros (4 * m))) with [a0; b0; c0; d0].
  unfold temp_of. change NK with 4%nat. destruct (i mod 4 =? 0)%nat eqn:Em.
  - rewrite <- !Nat.add_assoc. repeat (rewrite ?at_app, ?set_app). cbn [set app at_ nth Nat.add SubWord RotWord map xor_list combine fst snd Rcon].
    rewrite rcon_ok. 2:{ apply Nat.eqb_eq in Em. assert (i / 4 < 11)%nat by (apply Nat.div_lt_upper_bound; lia). assert (1 <= i / 4)%nat by (apply Nat.div_le_lower_bound; lia). lia. }
    rewrite !sbox_ok by assumption. rewrite !Z.lxor_0_r. reflexivity.
  - rewrite <- !Nat.add_assoc. repeat (rewrite ?at_app, ?set_app). reflexivity.
Qed.
Lemma expand_loop n : forall i w0 w1 w2 w3 rest, (4 <= i)%nat -> (i + n <= 44)%nat -> Forall word (w0 :: w1 :: w2 :: w3 :: rest) -> length rest = (i - 4)%nat ->
  let ws := expand n i (w0 :: w1 :: w2 :: w3 :: rest) in
  fold_left expand_word (seq i n) (concat (rev (w0 :: w1 :: w2 :: w3 :: rest)) ++ zeros (4 * n)) = concat (rev ws) /\ Forall word ws /\ length ws = (i + n)%nat.
Proof.
  induction n as [|n IH]; intros i w0 w1 w2 w3 rest Hi Hn F L.
  - cbn [expand seq fold_left]. cbn zeta. change (zeros (4 * 0)) with (@nil Z). rewrite app_nil_r. cbn [length]. split; [reflexivity|]. split; [exact F|lia].
  - cbn [seq fold_left]. rewrite expand_step by (auto; lia). cbn [expand nth]. fold (temp_of i w0).
    assert (word (xor_list w3 (temp_of i w0))) as W.
    { inversion F as [|? ? F0 Fa]; subst. inversion Fa as [|? ? F1 Fb]; subst. inversion Fb as [|? ? F2 Fc]; subst. inversion Fc as [|? ? F3 Fd]; subst.
      apply xor_word; [assumption|]. apply temp_word; [lia|assumption]. }
    destruct (IH (S i) (xor_list w3 (temp_of i w0)) w0 w1 w2 (w3 :: rest)) as (E & F' & L'); [lia|lia|constructor; assumption|cbn [length]; lia|].
    rewrite E. split; [reflexivity|]. split; [exact F'|lia].
Qed.
Lemma list16 (l : list Z) : length l = 16%nat -> exists a0 a1 a2 a3 b0 b1 b2 b3 c0 c1 c2 c3 d0 d1 d2 d3,
  l = [a0; a1; a2; a3; b0; b1; b2; b3; c0; c1; c2; c3; d0; d1; d2; d3].
Proof.
  intros L. do 16 (destruct l as [|? l]; [discriminate L|]). destruct l; [|discriminate L]. repeat eexists.
Qed.
Lemma key_expansion_ok key : length key = 16%nat -> bytes_ok key ->
  key_expansion key = concat (KeyExpansion key) /\ Forall word (KeyExpansion key) /\ length (KeyExpansion key) = 44%nat.
Proof.
  intros L B. destruct (list16 key L) as (a0 & a1 & a2 & a3 & b0 & b1 & b2 & b3 & c0 & c1 & c2 & c3 & d0 & d1 & d2 & d3 & ->).
  assert (Forall word [[d0; d1; d2; d3]; [c0; c1; c2; c3]; [b0; b1; b2; b3]; [a0; a1; a2; a3]]) as F.
  { unfold bytes_ok in B. rewrite !Forall_cons_iff in B. repeat constructor; repeat eexists; tauto || (unfold is_u8 in *; lia). }
  destruct (expand_loop 40 4 [d0; d1; d2; d3] [c0; c1; c2; c3] [b0; b1; b2; b3] [a0; a1; a2; a3] [] ltac:(lia) ltac:(lia) F eq_refl) as (E & F' & L').
  unfold KeyExpansion. split; [|split; [apply Forall_rev; exact F'|rewrite rev_length; exact L']].
  etransitivity; [|exact E]. reflexivity.
Qed.
Lemma add_key_state key n s : length key = 16%nat -> bytes_ok key -> (n <= 10)%nat ->
  add_round_key (aes_new key) n (of_state s) = of_state (AddRoundKey (KeyExpansion key) n s).
Proof.
  intros L B Hn. destruct (key_expansion_ok key L B) as (E & F & LW). unfold aes_new.
  unfold add_round_key. rewrite !of_state_eq. cbn [round_key length combine seq map fst snd]. rewrite E.
  assert (forall r c, (r < 4)%nat -> (c < 4)%nat -> at_ (concat (KeyExpansion key)) (n * NB * 4 + (r + 4 * c)) = nth r (nth (4 * n + c) (KeyExpansion key) []) 0) as A.
  { intros r c Hr Hc. generalize dependent (KeyExpansion key). intros ws _ F LW. unfold NB.
    replace (n * 4 * 4 + (r + 4 * c))%nat with (4 * (4 * n + c) + r)%nat by lia.
    assert (4 * n + c < length ws)%nat as Hw by lia. clear LW Hn. generalize dependent (4 * n + c)%nat. intros k Hk. clear Hc.
    revert k Hk. induction F as [|w ws W F IH]; intros k Hk; [cbn in Hk; lia|]. destruct W as (a & b & c' & d & -> & _). destruct k as [|k].
    - cbn [concat]. unfold at_. rewrite app_nth1 by (cbn [length]; lia). cbn [Nat.mul Nat.add nth]. reflexivity.
    - cbn [concat nth]. unfold at_. rewrite app_nth2 by (cbn [length]; lia). cbn [length]. replace (4 * S k + r - 4)%nat with (4 * k + r)%nat by lia.
      apply IH. cbn [length] in Hk. lia. }
  unfold AddRoundKey.
  rewrite <- (A 0 0)%nat, <- (A 1 0)%nat, <- (A 2 0)%nat, <- (A 3 0)%nat, <- (A 0 1)%nat, <- (A 1 1)%nat, <- (A 2 1)%nat, <- (A 3 1)%nat,
    <- (A 0 2)%nat, <- (A 1 2)%nat, <- (A 2 2)%nat, <- (A 3 2)%nat, <- (A 0 3)%nat, <- (A 1 3)%nat, <- (A 2 3)%nat, <- (A 3 3)%nat by lia.
  reflexivity.
Qed.
Lemma add_key_bytes key n s : length key = 16%nat -> bytes_ok key -> bytes_st s -> bytes_st (AddRoundKey (KeyExpansion key) n s).
Proof.
  intros L B S r c. destruct (key_expansion_ok key L B) as (_ & F & LW). unfold AddRoundKey. apply lxor_byte; [apply S|].
  destruct (Nat.ltb_spec (4 * n + c) 44) as [H|H].
  - assert (word (nth (4 * n + c) (KeyExpansion key) [])) as (x & y & z & t & -> & ? & ? & ? & ?).
    { apply (proj1 (Forall_forall _ _) F). apply nth_In. lia. }
    destruct r as [|[|[|[|r]]]]; cbn [nth]; auto. destruct r; cbn; unfold is_u8; lia.
  - rewrite (nth_overflow (KeyExpansion key)) by lia. destruct r; cbn; unfold is_u8; lia.
Qed.

(** ** The cipher *)
Lemma round_state key r s : length key = 16%nat -> bytes_ok key -> (r <= 10)%nat -> bytes_st s ->
  aes_round (aes_new key) (of_state s) r = of_state (cipher_round (KeyExpansion key) s r) /\ bytes_st (cipher_round (KeyExpansion key) s r).
Proof.
  intros L B Hr S. unfold aes_round, cipher_round. rewrite (sub_state s S), (shift_state (SubBytes s)).
  assert (bytes_st (ShiftRows (SubBytes s))) as S2 by now apply shift_bytes, sub_bytes_st.
  rewrite (mix_state _ S2). split; [now apply add_key_state|]. apply add_key_bytes; auto. now apply mix_bytes.
Qed.
Lemma fold_cons {A B} (f : A -> B -> A) x l a : fold_left f (x :: l) a = fold_left f l (f a x).
Proof. reflexivity. Qed.
Lemma rounds_state key l : length key = 16%nat -> bytes_ok key -> Forall (fun r => (r <= 10)%nat) l -> forall s, bytes_st s ->
  fold_left (aes_round (aes_new key)) l (of_state s) = of_state (fold_left (cipher_round (KeyExpansion key)) l s) /\
  bytes_st (fold_left (cipher_round (KeyExpansion key)) l s).
Proof.
  intros L B F. induction F as [|r l Hr F IH]; intros s S.
  - cbn [fold_left]. split; [reflexivity|exact S].
  - destruct (round_state key r s L B Hr S) as (E & S2). rewrite !fold_cons, E. exact (IH _ S2).
Qed.
Lemma state_of_block b : length b = 16%nat -> bytes_ok b -> of_state (to_state b) = b /\ bytes_st (to_state b).
Proof.
  intros L B. split.
  - destruct (list16 b L) as (? & ? & ? & ? & ? & ? & ? & ? & ? & ? & ? & ? & ? & ? & ? & ? & ->). reflexivity.
  - intros r c. unfold to_state. now apply bytes_at.
Qed.
Lemma cipher_spec key block : length key = 16%nat -> bytes_ok key -> length block = 16%nat -> bytes_ok block -> exists s,
  bytes_st s /\ fips_cipher key block = of_state s /\ aes_encrypt_block (aes_new key) block = of_state s.
Proof.
  intros Lk Bk Lb Bb. destruct (state_of_block block Lb Bb) as (E & S). unfold aes_encrypt_block, fips_cipher. change (NR - 1)%nat with 9%nat. change NR with 10%nat. cbv zeta.
  assert (Forall (fun r => (r <= 10)%nat) (seq 1 9)) as F by (apply Forall_forall; intros r I; apply in_seq in I; lia).
  pose proof (add_key_bytes key 0 _ Lk Bk S) as S0. destruct (rounds_state key _ Lk Bk F _ S0) as (E9 & S9).
  pose proof (shift_bytes _ (sub_bytes_st _ S9)) as S10. eexists. split; [exact (add_key_bytes key 10 _ Lk Bk S10)|]. split; [reflexivity|].
  rewrite <- E at 1. rewrite (add_key_state key 0) by (auto; lia). rewrite E9, (sub_state _ S9), (shift_state (SubBytes _)). apply add_key_state; auto.
Qed.
Lemma aes_ok key block : length key = 16%nat -> bytes_ok key -> length block = 16%nat -> bytes_ok block ->
  aes_encrypt_block (aes_new key) block = fips_cipher key block.
Proof. intros Lk Bk Lb Bb. destruct (cipher_spec key block Lk Bk Lb Bb) as (s & _ & -> & ->). reflexivity. Qed.
Lemma aes_block key block : length key = 16%nat -> bytes_ok key -> length block = 16%nat -> bytes_ok block ->
  length (aes_encrypt_block (aes_new key) block) = 16%nat /\ bytes_ok (aes_encrypt_block (aes_new key) block).
Proof.
  intros Lk Bk Lb Bb. destruct (cipher_spec key block Lk Bk Lb Bb) as (s & S & _ & ->). rewrite of_state_eq.
  split; [reflexivity|]. repeat constructor; apply S.
Qed.
