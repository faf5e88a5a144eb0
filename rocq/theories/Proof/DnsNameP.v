(** DNS names: C25 and C26. *)
From Verif Require Export Proof.SprogP Proof.Utf8P Proof.HostnameP Model.Dns Spec.DnsMsg.

(** ** Substrings *)
Lemma has_bounds m p l : has m p l -> 0 <= p /\ p + zlen l <= zlen m.
Proof.
  intros (a & b & -> & <-). rewrite !zlen_app. pose proof (zlen_nonneg a). pose proof (zlen_nonneg b). lia.
Qed.
Lemma has_take m p l k : has m p l -> k = zlen l -> ztake k (zdrop p m) = l.
Proof. intros (a & b & -> & <-) ->. rewrite zdrop_exact. apply ztake_exact. Qed.
Lemma has_app m p l r : has m p (l ++ r) <-> has m p l /\ has m (p + zlen l) r.
Proof.
  split.
  - intros (a & b & -> & <-). split.
    + exists a, (r ++ b). now rewrite <- app_assoc.
    + exists (a ++ l), b. rewrite !zlen_app, <- !app_assoc. auto.
  - intros [(a & b & E & Ha) (a' & b' & E' & Ha')]. subst m.
    assert (a' = a ++ l) as ->.
    { apply (f_equal (ztake (p + zlen l))) in E'. rewrite app_assoc in E'.
      rewrite <- Ha, <- zlen_app in E'. rewrite ztake_exact in E'. rewrite zlen_app, Ha, <- Ha' in E'.
      now rewrite ztake_exact in E'. }
    rewrite <- app_assoc in E'. apply app_inv_head in E'. apply app_inv_head in E'. subst b.
    exists a, b'. rewrite <- app_assoc. auto.
Qed.
Lemma has_at m p l : 0 <= p -> zlen l = Z.max 0 (zlen l) -> p + zlen l <= zlen m -> ztake (zlen l) (zdrop p m) = l -> has m p l.
Proof.
  intros Hp _ Hl E. exists (ztake p m), (zdrop (p + zlen l) m). split; [|rewrite zlen_ztake; pose proof (zlen_nonneg l); lia].
  rewrite <- E at 1. rewrite <- (ztake_zdrop p m) at 1. f_equal.
  rewrite <- (ztake_zdrop (zlen l) (zdrop p m)) at 1. f_equal. rewrite zdrop_zdrop by (pose proof (zlen_nonneg l); lia). f_equal. lia.
Qed.
Lemma has_cons m p b l : has m p (b :: l) <-> has m p [b] /\ has m (p + 1) l.
Proof. change (b :: l) with ([b] ++ l). rewrite has_app. reflexivity. Qed.
Lemma has_byte m p b : has m p [b] -> at_ m (Z.to_nat p) = b.
Proof.
  intros (a & c & -> & <-). unfold at_, zlen. rewrite Nat2Z.id, app_nth2, Nat.sub_diag by lia. reflexivity.
Qed.
Lemma byte_has m p : 0 <= p < zlen m -> has m p [at_ m (Z.to_nat p)].
Proof.
  intros H. unfold zlen in H. destruct (nth_split m 0 (n := Z.to_nat p)) as (a & b & E & Ha); [lia|].
  exists a, b. split; [exact E|]. unfold zlen. lia.
Qed.
Lemma take_1 m p : 0 <= p < zlen m -> ztake 1 (zdrop p m) = [at_ m (Z.to_nat p)].
Proof. intros H. apply has_take; [now apply byte_has|reflexivity]. Qed.
Lemma take_2 m p : 0 <= p -> p + 1 < zlen m -> ztake 2 (zdrop p m) = [at_ m (Z.to_nat p); at_ m (Z.to_nat (p + 1))].
Proof.
  intros H1 H2. apply has_take; [|reflexivity]. apply has_cons. split; apply byte_has; lia.
Qed.
Lemma bytes_at m i : bytes_ok m -> is_u8 (at_ m i).
Proof.
  intros H. unfold at_. destruct (Nat.ltb_spec i (length m)).
  - eapply Forall_forall; [exact H|]. now apply nth_In.
  - rewrite nth_overflow by lia. unfold is_u8. lia.
Qed.

(** ** Bit masks *)
Fixpoint zseq (a : Z) (n : nat) : list Z := match n with O => [] | S n => a :: zseq (a + 1) n end.
Lemma zseq_all (f : Z -> bool) n : forall a, forallb f (zseq a n) = true -> forall z, a <= z < a + Z.of_nat n -> f z = true.
Proof.
  induction n as [|n IH]; intros a H z Hz; [lia|]. cbn [zseq forallb] in H. apply andb_true_iff in H. destruct H as [H1 H2].
  destruct (Z.eqb_spec z a) as [->|]; [exact H1|]. apply (IH (a + 1) H2). lia.
Qed.
Lemma ptr_mask s : 0 <= s < 65536 -> (Z.land s NAME_PTR_MASK =? 0) = (s <? 16384).
Proof.
  intros H. apply eqb_prop.
  apply (zseq_all (fun s => Bool.eqb (Z.land s NAME_PTR_MASK =? 0) (s <? 16384)) (Z.to_nat 65536) 0); [vm_compute; reflexivity|lia].
Qed.
Lemma ptr_value s : Z.land s 16383 = s mod 16384.
Proof. exact (Z.land_ones s 14 ltac:(lia)). Qed.
Lemma len_value b : Z.land b 63 = b mod 64.
Proof. exact (Z.land_ones b 6 ltac:(lia)). Qed.

Lemma zlen_put l i d : 0 <= i -> i + zlen d <= zlen l -> zlen (put l i d) = zlen l.
Proof. intros. unfold put. rewrite !zlen_app, zlen_ztake, zlen_zdrop. pose proof (zlen_nonneg d). lia. Qed.
Lemma take_put l i d : 0 <= i -> i + zlen d <= zlen l -> ztake (i + zlen d) (put l i d) = ztake i l ++ d.
Proof. apply ztake_overlay. Qed.

(** ** One iteration *)
Definition store (labels : list Z) (idx : Z) (x : list Z) : list Z * Z :=
  let '(l1, i1) := if negb (idx =? 0) then (if idx <? zlen labels then put labels idx [46] else labels, idx + 1)
                   else (labels, idx) in
  (if i1 + zlen x <=? zlen l1 then put l1 i1 x else l1, i1 + zlen x).

Section Iter.
Context (m : list Z) (Hm : bytes_ok m) (Hl : zlen m <= 65535).
Context (D : Prop) (Q : res err (list Z * Z * Z) -> list Z -> Z -> Prop).
Context (fuel : nat) (labels : list Z) (idx st p : Z).
Notation b := (at_ m (Z.to_nat p)).
Notation b1 := (at_ m (Z.to_nat (p + 1))).
Notation loop := (read_labels_loop).

Ltac ok := split; [cbn; try lia; exact I|reflexivity].
Ltac okz := split; [cbn; unfold is_u16, is_i16; try lia|reflexivity].

Lemma iter_eof : p = zlen m -> Q (Err UnexpectedEof) m p -> wpa rd_ok (loop (S fuel) labels idx st) m p D Q.
Proof.
  intros -> H. cbn [read_labels_loop]. apply wpa_read; [okz|].
  rewrite Z.sub_diag. change (Z.min 0 2) with 0. rewrite ztake_0, Z.add_0_r. cbn. exact H.
Qed.
Lemma iter_ptr : 0 <= p -> p + 1 < zlen m -> 64 <= b ->
  (let q := (b mod 64) * 256 + b1 in
   if q <=? zlen m then wpa rd_ok (loop fuel labels idx (if st =? 0 then p + 2 else st)) m q D Q
   else Q (Err UnexpectedEof) m (p + 2)) ->
  wpa rd_ok (loop (S fuel) labels idx st) m p D Q.
Proof.
  intros H1 H2 Hb H. cbn [read_labels_loop]. apply wpa_read; [okz|].
  replace (Z.min (zlen m - p) 2) with 2 by lia. rewrite take_2 by lia.
  pose proof (bytes_at m (Z.to_nat p) Hm) as B0. pose proof (bytes_at m (Z.to_nat (p + 1)) Hm) as B1. unfold is_u8 in *.
  cbn [zlen length Z.of_nat Z.eqb Pos.of_succ_nat Pos.succ Pos.eqb andb at_ nth]. unfold of_be16.
  rewrite ptr_mask by lia. destruct (Z.ltb_spec (b * 256 + b1) 16384); [lia|]. cbn [negb].
  rewrite ptr_value. replace ((b * 256 + b1) mod 16384) with ((b mod 64) * 256 + b1) by lia. cbn zeta in H.
  set (q := (b mod 64) * 256 + b1) in *. assert (0 <= q < 16384) by (unfold q; lia).
  apply wpa_bindM. destruct (st =? 0); cbn [s_position sret wpa aask]; (apply wpa_seek_start; [okz|lia|exact H]).
Qed.
Lemma iter_end : 0 <= p < zlen m -> (p + 1 < zlen m -> b < 64) -> b mod 64 = 0 ->
  Q (Ok (labels, idx, st)) m (if p + 1 <? zlen m then p + 1 else p) ->
  wpa rd_ok (loop (S fuel) labels idx st) m p D Q.
Proof.
  intros H1 Hb H2 H. cbn [read_labels_loop]. apply wpa_read; [okz|].
  pose proof (bytes_at m (Z.to_nat p) Hm) as B0. unfold is_u8 in *.
  destruct (Z.ltb_spec (p + 1) (zlen m)).
  - replace (Z.min (zlen m - p) 2) with 2 by lia. rewrite take_2 by lia.
    pose proof (bytes_at m (Z.to_nat (p + 1)) Hm) as B1. unfold is_u8 in *. specialize (Hb ltac:(lia)).
    cbn [zlen length Z.of_nat Z.eqb Pos.of_succ_nat Pos.succ Pos.eqb andb at_ nth]. unfold of_be16.
    rewrite ptr_mask by lia. destruct (Z.ltb_spec (b * 256 + b1) 16384); [|lia]. cbn [negb].
    apply wpa_seek_cur; [okz|]. replace (p + 2 + -1) with (p + 1) by lia.
    destruct (Z.leb_spec 0 (p + 1)), (Z.leb_spec (p + 1) (zlen m)); try lia. cbn [andb].
    rewrite len_value, H2. exact H.
  - replace (Z.min (zlen m - p) 2) with 1 by lia. rewrite take_1 by lia.
    cbn [zlen length Z.of_nat Z.eqb Pos.of_succ_nat Pos.succ Pos.eqb andb at_ nth].
    apply wpa_seek_cur; [okz|]. replace (p + 1 + -1) with p by lia.
    destruct (Z.leb_spec 0 p), (Z.leb_spec p (zlen m)); try lia. cbn [andb].
    rewrite len_value, H2. exact H.
Qed.
Lemma iter_label : 0 <= p < zlen m -> (p + 1 < zlen m -> b < 64) -> b mod 64 <> 0 -> 0 <= idx ->
  (let p1 := if p + 1 <? zlen m then p + 1 else p in
   let k := b mod 64 in
   if p1 + k <=? zlen m then
     let '(l2, i2) := store labels idx (ztake k (zdrop p1 m)) in
     zlen l2 = zlen labels -> wpa rd_ok (loop fuel l2 i2 st) m (p1 + k) D Q
   else Q (Err UnexpectedEof) m p1) ->
  wpa rd_ok (loop (S fuel) labels idx st) m p D Q.
Proof.
  intros H1 Hb H2 Hi H. cbn [read_labels_loop]. apply wpa_read; [okz|].
  pose proof (bytes_at m (Z.to_nat p) Hm) as B0. unfold is_u8 in *.
  set (p1 := if p + 1 <? zlen m then p + 1 else p) in *.
  assert (0 <= p1 <= zlen m) as Hp1 by (unfold p1; destruct (Z.ltb_spec (p + 1) (zlen m)); lia).
  match goal with |- wpa _ (if ?a then _ else if ?c && ?d then _ else sbindM _ ?f) _ ?pp _ _ =>
    assert (a = false /\ c && d = false /\ pp + -1 = p1 /\ at_ (ztake (Z.min (zlen m - p) 2) (zdrop p m)) 0 = b) as (Ea & Ec & Ep & Eb) end.
  { destruct (Z.ltb_spec (p + 1) (zlen m)).
    - replace (Z.min (zlen m - p) 2) with 2 by lia. rewrite take_2 by lia.
      pose proof (bytes_at m (Z.to_nat (p + 1)) Hm) as B1. unfold is_u8 in *. specialize (Hb ltac:(lia)).
      cbn [zlen length Z.of_nat Z.eqb Pos.of_succ_nat Pos.succ Pos.eqb andb at_ nth]. unfold of_be16.
      rewrite ptr_mask by lia. destruct (Z.ltb_spec (b * 256 + b1) 16384); [|lia].
      split; [reflexivity|]. split; [reflexivity|]. split; [unfold p1; lia|reflexivity].
    - replace (Z.min (zlen m - p) 2) with 1 by lia. rewrite take_1 by lia.
      split; [reflexivity|]. split; [reflexivity|]. split; [unfold p1; lia|reflexivity]. }
  rewrite Ea, Ec. apply wpa_seek_cur; [okz|]. rewrite Ep.
  destruct (Z.leb_spec 0 p1), (Z.leb_spec p1 (zlen m)); try lia. cbn [andb]. rewrite Eb, len_value.
  cbn zeta in H. set (k := b mod 64) in *. assert (0 < k < 64) by (unfold k in *; lia).
  destruct (Z.eqb_spec k 0); [lia|].
  destruct (if negb (idx =? 0) then (if idx <? zlen labels then put labels idx [46] else labels, idx + 1) else (labels, idx)) as [l1 i1] eqn:E1.
  assert (zlen l1 = zlen labels /\ 0 <= i1) as [L1 I1].
  { destruct (Z.eqb_spec idx 0); cbn [negb] in E1; [injection E1 as <- <-; auto|].
    destruct (Z.ltb_spec idx (zlen labels)); injection E1 as <- <-; [|lia].
    rewrite zlen_put; [lia|lia|]. change (zlen [46]) with 1. lia. }
  assert (p1 + k <= zlen m -> zlen (ztake k (zdrop p1 m)) = k) as Lk by (intros; rewrite zlen_ztake, zlen_zdrop; lia).
  apply wpa_bindM. destruct (Z.leb_spec (i1 + k) (zlen l1)).
  - apply wpa_read_exact; [okz|]. destruct (Z.leb_spec (p1 + k) (zlen m)) as [Hk|].
    + destruct (Z.leb_spec k (zlen m - p1)); [|lia]. cbn [wpa sret].
      unfold store in H. rewrite E1, Lk in H by lia. destruct (Z.leb_spec (i1 + k) (zlen l1)); [|lia].
      apply H. rewrite zlen_put; rewrite ?Lk; lia.
    + destruct (Z.leb_spec k (zlen m - p1)); [lia|]. exact H.
  - apply wpa_seek_cur; [okz|]. destruct (Z.leb_spec (p1 + k) (zlen m)) as [Hk|].
    + destruct (Z.leb_spec 0 (p1 + k)); [|lia]. cbn [wpa sret andb].
      unfold store in H. rewrite E1, Lk in H by lia. destruct (Z.leb_spec (i1 + k) (zlen l1)); [lia|]. now apply H.
    + rewrite andb_false_r. exact H.
Qed.
End Iter.

(** ** C25 *)
Lemma join_snoc acc x : acc <> [] -> join (acc ++ [x]) = join acc ++ 46 :: x.
Proof.
  intros H. induction acc as [|a acc IH]; [contradiction|]. destruct acc as [|a' acc].
  - reflexivity.
  - change (join (a :: a' :: acc)) with (a ++ dot :: join (a' :: acc)).
    change ((a :: a' :: acc) ++ [x]) with (a :: (a' :: acc) ++ [x]).
    change (join (a :: (a' :: acc) ++ [x])) with (a ++ dot :: join ((a' :: acc) ++ [x])).
    rewrite IH by discriminate. now rewrite <- app_assoc.
Qed.
Definition linv (labels : list Z) (acc : list (list Z)) (idx : Z) : Prop :=
  idx = zlen (join acc) /\ (idx <= zlen labels -> ztake idx labels = join acc) /\ Forall (fun l => 1 <= zlen l) acc.
Lemma linv_zero labels acc : linv labels acc 0 -> acc = [].
Proof.
  intros (H & _ & F). destruct acc as [|a acc]; [reflexivity|]. exfalso. pose proof (Forall_inv F) as Ha. cbn beta in Ha.
  destruct acc as [|a' acc]; [cbn [join] in H; lia|].
  change (join (a :: a' :: acc)) with (a ++ dot :: join (a' :: acc)) in H.
  rewrite zlen_app, zlen_cons in H. pose proof (zlen_nonneg (join (a' :: acc))). lia.
Qed.
Lemma linv_store labels acc idx x : linv labels acc idx -> 1 <= zlen x ->
  let '(l2, i2) := store labels idx x in linv l2 (acc ++ [x]) i2.
Proof.
  intros Hi Hx. pose proof Hi as (I1 & I2 & I3). unfold store.
  assert (Forall (fun l => 1 <= zlen l) (acc ++ [x])) as F by (apply Forall_app; auto).
  destruct (Z.eqb_spec idx 0) as [->|Hn]; cbn [negb].
  - rewrite (linv_zero _ _ Hi) in *. cbn [app].
    destruct (Z.leb_spec (0 + zlen x) (zlen labels)).
    + split; [reflexivity|]. split; [|exact F]. intros _. rewrite take_put by lia. reflexivity.
    + split; [reflexivity|]. split; [|exact F]. lia.
  - assert (acc <> []) as Ha by (intros ->; apply Hn; rewrite I1; reflexivity).
    pose proof (zlen_nonneg (join acc)).
    assert (forall i, i = idx + 1 + zlen x -> i = zlen (join (acc ++ [x]))) as Hj.
    { intros i ->. rewrite join_snoc by exact Ha. rewrite zlen_app, zlen_cons. lia. }
    destruct (Z.ltb_spec idx (zlen labels)).
    + assert (zlen (put labels idx [46]) = zlen labels) as Lp by (apply zlen_put; [lia|change (zlen [46]) with 1; lia]).
      rewrite Lp. destruct (Z.leb_spec (idx + 1 + zlen x) (zlen labels)).
      * split; [now apply Hj|]. split; [|exact F]. intros _. rewrite take_put by lia.
        change (idx + 1) with (idx + zlen [46]). rewrite take_put by (change (zlen [46]) with 1; lia).
        rewrite I2 by lia. rewrite join_snoc by exact Ha. now rewrite <- app_assoc.
      * split; [now apply Hj|]. split; [|exact F]. rewrite Lp. lia.
    + destruct (Z.leb_spec (idx + 1 + zlen x) (zlen labels)); [lia|].
      split; [now apply Hj|]. split; [lia|exact F].
Qed.

Lemma name_bounds m p ls e : name_at m p ls e -> 0 <= p < e /\ e <= zlen m.
Proof.
  induction 1 as [p H|p l ls e Hl H _ IH|p hi lo ls e Hh Hlo H _ IH].
  - apply has_bounds in H. change (zlen [0]) with 1 in H. lia.
  - apply has_bounds in H. lia.
  - apply has_bounds in H. change (zlen [hi; lo]) with 2 in H. lia.
Qed.

Lemma loop_name m p ls e : bytes_ok m -> zlen m <= 65535 -> name_at m p ls e ->
  exists f0, forall fuel, (f0 <= fuel)%nat -> forall labels acc idx st, linv labels acc idx -> 0 <= st ->
  wpa rd_ok (read_labels_loop fuel labels idx st) m p False (fun r w pos => w = m /\
    exists labels' idx' st', r = Ok (labels', idx', st') /\ linv labels' (acc ++ ls) idx' /\ zlen labels' = zlen labels /\
    if st =? 0 then st' = e \/ (st' = 0 /\ (e < zlen m -> pos = e)) else st' = st).
Proof.
  intros Hm Hz. induction 1 as [p H|p l ls e Hl H Hn IH|p hi lo ls e Hh Hlo H Hn IH].
  - exists 1%nat. intros fuel Hf labels acc idx st Hi Hs. destruct fuel as [|fuel]; [lia|].
    pose proof (has_bounds _ _ _ H) as Hb. change (zlen [0]) with 1 in Hb. pose proof (has_byte _ _ _ H) as B.
    apply iter_end; auto; rewrite ?B; try lia.
    split; [reflexivity|]. exists labels, idx, st. split; [reflexivity|]. rewrite app_nil_r. split; [exact Hi|]. split; [reflexivity|].
    destruct (Z.eqb_spec st 0); [|reflexivity]. right. split; [assumption|]. destruct (Z.ltb_spec (p + 1) (zlen m)); lia.
  - destruct IH as (f0 & IH). exists (S f0). intros fuel Hf labels acc idx st Hi Hs. destruct fuel as [|fuel]; [lia|].
    pose proof (has_bounds _ _ _ H) as Hb. rewrite zlen_cons in Hb. apply has_cons in H. destruct H as [H0 H1].
    pose proof (has_byte _ _ _ H0) as B.
    assert (0 <= idx) by (destruct Hi as (-> & _); apply zlen_nonneg).
    apply iter_label; auto; rewrite ?B; try lia.
    destruct (Z.ltb_spec (p + 1) (zlen m)); [|lia]. rewrite Z.mod_small by lia. cbn zeta.
    destruct (Z.leb_spec (p + 1 + zlen l) (zlen m)); [|lia].
    rewrite (has_take _ _ _ _ H1 eq_refl).
    pose proof (linv_store labels acc idx l Hi ltac:(lia)) as Hi'.
    destruct (store labels idx l) as [l2 i2]. intros L2.
    eapply wpa_conseq; [apply (IH fuel ltac:(lia) l2 (acc ++ [l]) i2 st); auto|].
    intros r w pos (-> & labels' & idx' & st' & -> & J1 & J2 & J3). split; [reflexivity|].
    exists labels', idx', st'. split; [reflexivity|]. rewrite <- app_assoc in J1. split; [exact J1|]. split; [congruence|exact J3].
  - destruct IH as (f0 & IH). exists (S f0). intros fuel Hf labels acc idx st Hi Hs. destruct fuel as [|fuel]; [lia|].
    pose proof (has_bounds _ _ _ H) as Hb. change (zlen [hi; lo]) with 2 in Hb. apply has_cons in H. destruct H as [H0 H1].
    pose proof (has_byte _ _ _ H0) as B. pose proof (has_byte _ _ _ H1) as B1.
    apply iter_ptr; auto; rewrite ?B, ?B1; try lia.
    replace (hi mod 64 * 256 + lo) with ((hi - 192) * 256 + lo) by lia.
    pose proof (name_bounds _ _ _ _ Hn). cbn zeta. destruct (Z.leb_spec ((hi - 192) * 256 + lo) (zlen m)); [|lia].
    eapply wpa_conseq; [apply (IH fuel ltac:(lia) labels acc idx (if st =? 0 then p + 2 else st)); auto|].
    { destruct (Z.eqb_spec st 0); lia. }
    intros r w pos (-> & labels' & idx' & st' & -> & J1 & J2 & J3). split; [reflexivity|].
    exists labels', idx', st'. split; [reflexivity|]. split; [exact J1|]. split; [exact J2|].
    destruct (Z.eqb_spec st 0).
    + destruct (Z.eqb_spec (p + 2) 0); [lia|]. now left.
    + destruct (Z.eqb_spec st 0); [lia|exact J3].
Qed.

Lemma name_seen_value ls labels idx : bytes_ok (join ls) -> linv labels ls idx ->
  name_seen ls (zlen labels)
    (if idx <=? zlen labels then if utf8_valid (ztake idx labels) then Some (ztake idx labels) else None else None).
Proof.
  intros Hb (I1 & I2 & _). unfold name_seen. rewrite <- I1. destruct (Z.leb_spec idx (zlen labels)).
  - rewrite I2 by assumption. pose proof (utf8_valid_iff (join ls) Hb) as U.
    destruct (utf8_valid (join ls)); [split; [reflexivity|]|split; [|reflexivity]].
    + intros N. exfalso. apply N. split; [assumption|]. now apply U.
    + intros [_ X]. apply U in X. discriminate.
  - split; [lia|reflexivity].
Qed.
Lemma name_bytes m p ls e : bytes_ok m -> name_at m p ls e -> bytes_ok (join ls).
Proof.
  intros Hm H. apply join_chars; [unfold is_u8, dot; lia|].
  induction H as [p H|p l ls e Hl H _ IH|p hi lo ls e Hh Hlo H _ IH]; [constructor| |exact IH].
  constructor; [|exact IH]. destruct H as (a & b & -> & _). apply bytes_ok_app in Hm. destruct Hm as [_ Hm].
  apply bytes_ok_app in Hm. destruct Hm as [Hm _]. now apply Forall_inv_tail in Hm.
Qed.

Lemma read_labels_wpa m p ls e : bytes_ok m -> zlen m <= 65535 -> name_at m p ls e -> e < zlen m ->
  exists f0, forall fuel, (f0 <= fuel)%nat -> forall buf,
  wpa rd_ok (read_labels fuel buf) m p False (fun r w pos => w = m /\ pos = e /\
    exists v, r = Ok v /\ name_seen ls (zlen buf) v).
Proof.
  intros Hm Hz Hn He. destruct (loop_name m p ls e Hm Hz Hn) as (f0 & H). exists f0. intros fuel Hf buf.
  unfold read_labels. apply wpa_bindM. pose proof (name_bounds _ _ _ _ Hn) as Hb.
  eapply wpa_conseq; [apply (H fuel Hf buf [] 0 0)|].
  1: { split; [reflexivity|]. split; [reflexivity|constructor]. }
  1: lia.
  - intros r w pos (-> & labels' & idx' & st' & -> & J1 & J2 & J3). cbn [Z.eqb app] in *.
    assert (forall v, wpa rd_ok (if idx' <=? zlen labels' then sret (if utf8_valid (ztake idx' labels') then Some (ztake idx' labels') else None)
       else sret None) m e False v <-> v (Ok (if idx' <=? zlen labels' then if utf8_valid (ztake idx' labels') then Some (ztake idx' labels') else None else None)) m e) as W.
    { intros v. destruct (idx' <=? zlen labels'); reflexivity. }
    pose proof (name_seen_value ls labels' idx' (name_bytes _ _ _ _ Hm Hn) J1) as V. rewrite J2 in V.
    destruct J3 as [->|[-> J3]].
    + destruct (Z.eqb_spec e 0); [lia|]. cbn [negb]. apply wpa_seek_start; [split; [cbn; unfold is_u16; lia|reflexivity]|lia|].
      destruct (Z.leb_spec e (zlen m)); [|lia]. apply W. split; [reflexivity|]. split; [reflexivity|]. eexists. split; [reflexivity|].
      rewrite J2. exact V.
    + cbn [negb Z.eqb]. rewrite J3 by lia. apply W. split; [reflexivity|]. split; [reflexivity|]. eexists. split; [reflexivity|].
      rewrite J2. exact V.
Qed.
