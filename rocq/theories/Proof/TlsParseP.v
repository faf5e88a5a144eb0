(** ServerHello and EncryptedExtensions: what is accepted. *)
From Verif Require Import Model.Prelude Model.Bus Model.HlIo Model.Stream Model.TlsTypes Model.TlsBuf Model.TlsKeys Model.TlsHello Spec.TlsSecrets Spec.TlsMessages
  Proof.Base Proof.TlsBufP.
Ltac Zify.zify_post_hook ::= idtac.

(** The reader is at [pos] and [rest] is what remains. *)
Definition rd (r : CircleReader) (pos : Z) (rest : list Z) : Prop :=
  exists w, reads r w pos /\ zdrop pos w = rest /\ bytes_ok w.
Lemma rd_facts r pos rest : rd r pos rest -> cr_ptr r = pos /\ 0 <= pos /\ pos + zlen rest < 16384 /\ bytes_ok rest /\ cr_len r = pos + zlen rest.
Proof.
  intros (w & H & E & B). pose proof (reads_len _ _ _ H) as L. destruct H as (_ & P & Hp & Hw). subst rest. rewrite zlen_zdrop. repeat split; try lia. now apply bytes_ok_zdrop.
Qed.
Lemma rd_new a b : bytes_ok (a ++ b) -> zlen (a ++ b) < 16384 -> rd (cr_new a b) 0 (a ++ b).
Proof. intros B L. exists (a ++ b). pose proof (zlen_nonneg (a ++ b)). repeat split; trivial; lia. Qed.
Lemma rd_n r pos rest n : rd r pos rest -> 0 <= n ->
  if n <=? zlen rest then exists r', cr_read_exact r n = TOk (ztake n rest, r') /\ rd r' (pos + n) (zdrop n rest)
  else cr_read_exact r n = TErr DecodeError.
Proof.
  intros (w & H & E & B) Hn. pose proof (reads_exact r w pos n H Hn) as X. destruct H as (_ & _ & Hp & _). subst rest. rewrite zlen_zdrop.
  replace (zlen w - Z.min (Z.max 0 pos) (zlen w)) with (zlen w - pos) by lia. destruct (n <=? zlen w - pos); [|exact X].
  destruct X as (r' & E & H'). exists r'. split; [exact E|]. exists w. split; [exact H'|]. split; [|exact B]. rewrite zdrop_zdrop by lia. f_equal. lia.
Qed.
Lemma rd_skip r pos rest n : rd r pos rest -> 0 <= n ->
  if n <=? zlen rest then exists r', cr_skip_n r n = TOk r' /\ rd r' (pos + n) (zdrop n rest) else cr_skip_n r n = TErr DecodeError.
Proof.
  intros R Hn. destruct (rd_facts _ _ _ R) as (P & Hp & Hl & B & L). unfold cr_skip_n. rewrite P, L.
  destruct (Z.leb_spec n (zlen rest)), (Z.leb_spec (pos + n) (pos + zlen rest)); try lia; [|now rewrite andb_false_r].
  destruct (Z.ltb_spec (pos + n) 65536); [|lia]. eexists. split; [reflexivity|]. destruct R as (w & H9 & E & Bw). exists w.
  pose proof H9 as (_ & _ & Hp' & _). subst rest. rewrite zlen_zdrop in *. split; [apply (reads_move _ _ pos); [exact H9|lia]|]. split; [|exact Bw]. rewrite zdrop_zdrop by lia. f_equal. lia.
Qed.
Lemma rd_u8 r pos rest : rd r pos rest ->
  (exists a t r', rest = a :: t /\ is_u8 a /\ cr_next_u8 r = TOk (a, r') /\ rd r' (pos + 1) t) \/ (rest = [] /\ cr_next_u8 r = TErr DecodeError).
Proof.
  intros R. pose proof (rd_n _ _ _ 1 R ltac:(lia)) as X. destruct (rd_facts _ _ _ R) as (_ & _ & _ & B & _). unfold cr_next_u8, cr_next_n. destruct rest as [|a t].
  - right. split; [reflexivity|]. cbn in X. now rewrite X.
  - left. rewrite zlen_cons in X. pose proof (zlen_nonneg t). destruct (Z.leb_spec 1 (zlen t + 1)); [|lia]. destruct X as (r' & E & R'). exists a, t, r'.
    rewrite E. apply Forall_cons_iff in B as (Ba & _). exact (conj eq_refl (conj Ba (conj eq_refl R'))).
Qed.
Lemma rd_u16 r pos rest : rd r pos rest ->
  (exists a b t r', rest = a :: b :: t /\ is_u8 a /\ is_u8 b /\ cr_next_u16 r = TOk (of_be16 a b, r') /\ rd r' (pos + 2) t) \/
  (zlen rest < 2 /\ cr_next_u16 r = TErr DecodeError).
Proof.
  intros R. pose proof (rd_n _ _ _ 2 R ltac:(lia)) as X. destruct (rd_facts _ _ _ R) as (_ & _ & _ & B & _). unfold cr_next_u16, cr_next_n.
  destruct (Z.leb_spec 2 (zlen rest)).
  - left. destruct X as (r' & E & R'). destruct rest as [|a [|b t]]; [cbn in *; lia..|]. exists a, b, t, r'. rewrite E.
    apply Forall_cons_iff in B as (Ba & B). apply Forall_cons_iff in B as (Bb & _). exact (conj eq_refl (conj Ba (conj Bb (conj eq_refl R')))).
  - right. split; [lia|]. now rewrite X.
Qed.
(** Reading a prefix that is known. *)
Lemma rd_u16_of r pos v t : rd r pos (be16 v ++ t) -> 0 <= v < 65536 -> exists r', cr_next_u16 r = TOk (v, r') /\ rd r' (pos + 2) t.
Proof.
  intros R Hv. destruct (rd_u16 _ _ _ R) as [(a & b & t' & r' & E & _ & _ & N & R')|(L & _)].
  - unfold be16 in E. cbn [app] in E. injection E as <- <- <-. exists r'. rewrite N, of_be16_hi_lo by lia. now split.
  - rewrite zlen_app, zlen_be16 in L. pose proof (zlen_nonneg t). lia.
Qed.
Lemma rd_u8_of r pos v t : rd r pos (v :: t) -> exists r', cr_next_u8 r = TOk (v, r') /\ rd r' (pos + 1) t.
Proof. intros R. destruct (rd_u8 _ _ _ R) as [(a & t' & r' & E & _ & N & R')|(L & _)]; [|discriminate]. injection E as <- <-. eauto. Qed.
Lemma rd_n_of r pos x t : rd r pos (x ++ t) -> exists r', cr_read_exact r (zlen x) = TOk (x, r') /\ rd r' (pos + zlen x) t.
Proof.
  intros R. pose proof (rd_n _ _ _ (zlen x) R (zlen_nonneg x)) as X. rewrite zlen_app in X. pose proof (zlen_nonneg t). destruct (Z.leb_spec (zlen x) (zlen x + zlen t)); [|lia].
  rewrite ztake_app_l, ztake_all in X by lia. rewrite zdrop_app_r, Z.sub_diag, zdrop_0 in X by lia. exact X.
Qed.
Lemma rd_skip_of r pos x t : rd r pos (x ++ t) -> exists r', cr_skip_n r (zlen x) = TOk r' /\ rd r' (pos + zlen x) t.
Proof.
  intros R. pose proof (rd_skip _ _ _ (zlen x) R (zlen_nonneg x)) as X. rewrite zlen_app in X. pose proof (zlen_nonneg t). destruct (Z.leb_spec (zlen x) (zlen x + zlen t)); [|lia].
  rewrite zdrop_app_r, Z.sub_diag, zdrop_0 in X by lia. exact X.
Qed.
Lemma of_be16_is a b v : is_u8 a -> is_u8 b -> of_be16 a b = v -> [a; b] = be16 v.
Proof. intros Ha Hb <-. symmetry. now apply be16_of_be16. Qed.

(** ** Loops over extensions *)
Section Loop.
Context {S X : Type}.
Variable step : CircleReader -> S -> tres (S * CircleReader).
Variable bytes : X -> list Z.
Variable add : S -> X -> option S.
Fixpoint adds (s : S) (es : list X) : option S :=
  match es with [] => Some s | e :: r => match add s e with Some s1 => adds s1 r | None => None end end.
Fixpoint loop (fuel : nat) (end_ : Z) (r : CircleReader) (s : S) : tres (S * CircleReader) :=
  if cr_ptr r <? end_ then
    match fuel with O => TDiverge | Datatypes.S fuel => tbind (step r s) (fun x => match x with (s, r) => loop fuel end_ r s end) end
  else TOk (s, r).
Hypothesis bytes_pos : forall e, 0 < zlen (bytes e).
Hypothesis step_sound : forall r pos rest s, rd r pos rest ->
  (exists e t s' r', rest = bytes e ++ t /\ add s e = Some s' /\ step r s = TOk (s', r') /\ rd r' (pos + zlen (bytes e)) t) \/ (exists a, step r s = TErr a).
Hypothesis step_complete : forall r pos t s e s', rd r pos (bytes e ++ t) -> add s e = Some s' ->
  exists r', step r s = TOk (s', r') /\ rd r' (pos + zlen (bytes e)) t.
Lemma covers_nil : forall n, n <= 0 <-> covers n [].
Proof. intros n. unfold covers. cbn. change (zlen (@nil Z)) with 0. intuition. Qed.
Lemma covers_cons : forall n (x : list Z) l, 0 < zlen x -> 0 < n -> covers (n - zlen x) l <-> covers n (x :: l).
Proof.
  intros n x l Hx Hn. unfold covers. cbn [concat]. rewrite zlen_app. destruct l as [|y l].
  - cbn. change (zlen (@nil Z)) with 0. split; [intros (A & _); split; [lia|right; lia]|intros (A & _); split; [lia|left; reflexivity]].
  - change (removelast (x :: y :: l)) with (x :: removelast (y :: l)). assert (y :: l <> []) as Hn' by discriminate. set (z := y :: l) in *. cbn [concat]. rewrite (zlen_app x (concat (removelast z))).
    split; (intros (A & [B|B]); [contradiction || discriminate|]); (split; [lia|right; lia]).
Qed.
Lemma covers_pos : forall n (x : list Z) l, covers n (x :: l) -> 0 < n.
Proof. intros n x l (_ & [|H]); [discriminate|]. pose proof (zlen_nonneg (concat (removelast (x :: l)))). lia. Qed.
Lemma loop_sound : forall fuel end_ r pos rest s, rd r pos rest -> (length rest < fuel)%nat ->
  (exists es t s' r', rest = concat (map bytes es) ++ t /\ covers (end_ - pos) (map bytes es) /\ adds s es = Some s' /\
     loop fuel end_ r s = TOk (s', r')) \/ (exists a, loop fuel end_ r s = TErr a).
Proof.
  induction fuel; intros end_ r pos rest s R F; [lia|]. destruct (rd_facts _ _ _ R) as (P & _). cbn [loop]. rewrite P. destruct (Z.ltb_spec pos end_).
  - destruct (step_sound _ _ _ s R) as [(e & t & s' & r' & -> & A & -> & R')|(a & ->)]; [|right; eexists; reflexivity]. cbn [tbind].
    assert (length t < fuel)%nat as F' by (rewrite app_length in F; pose proof (bytes_pos e); unfold zlen in *; lia).
    destruct (IHfuel end_ r' _ t s' R' F') as [(es & t' & s2 & r2 & -> & C & A2 & ->)|Hx]; [left|right; exact Hx].
    exists (e :: es), t', s2, r2. cbn [map concat adds]. rewrite <- app_assoc, A. split; [reflexivity|]. split; [|split; [exact A2|reflexivity]].
    apply (proj1 (covers_cons (end_ - pos) (bytes e) (map bytes es) (bytes_pos e) ltac:(lia))). replace (end_ - pos - zlen (bytes e)) with (end_ - (pos + zlen (bytes e))) by lia. exact C.
  - left. exists [], rest, s, r. split; [reflexivity|]. split; [apply covers_nil; lia|]. now split.
Qed.
Lemma loop_complete : forall es fuel end_ r pos t s s', rd r pos (concat (map bytes es) ++ t) -> (length (concat (map bytes es)) < fuel)%nat ->
  covers (end_ - pos) (map bytes es) -> adds s es = Some s' -> exists r', loop fuel end_ r s = TOk (s', r').
Proof.
  induction es as [|e es IH]; intros fuel end_ r pos t s s' R F C A; destruct fuel; try lia; destruct (rd_facts _ _ _ R) as (P & _); cbn [loop]; rewrite P.
  - apply covers_nil in C. destruct (Z.ltb_spec pos end_); [lia|]. injection A as <-. eauto.
  - pose proof (covers_pos _ _ _ C). destruct (Z.ltb_spec pos end_); [|lia]. cbn [map concat adds] in *. rewrite <- app_assoc in R. destruct (add s e) as [s1|] eqn:A1; [|discriminate].
    destruct (step_complete _ _ _ _ _ _ R A1) as (r' & -> & R'). cbn [tbind]. apply (proj2 (covers_cons (end_ - pos) (bytes e) (map bytes es) (bytes_pos e) ltac:(lia))) in C.
    apply (IH fuel end_ r' _ t s1 s' R'); [|replace (end_ - (pos + zlen (bytes e))) with (end_ - pos - zlen (bytes e)) by lia; exact C|exact A].
    rewrite app_length in F. pose proof (bytes_pos e). unfold zlen in *. lia.
Qed.
End Loop.

(** ** ServerHello *)
Definition sh_add (s : Seen) (e : sh_ext) : option Seen :=
  match e with
  | ShKeyShare share => if se_key_share s then None else if zlen share =? 65 then Some (mkSeen (se_supported_versions s) true (se_pre_shared_key s) share) else None
  | ShVersion => if se_supported_versions s then None else Some (mkSeen true (se_key_share s) (se_pre_shared_key s) (se_key_buf s))
  | ShPsk => Some (mkSeen (se_supported_versions s) (se_key_share s) true (se_key_buf s))
  end.
Definition b2n (b : bool) : nat := if b then 1 else 0.
Definition sh_okay (s : Seen) (es : list sh_ext) : Prop :=
  (length (sh_shares es) + b2n (se_key_share s) <= 1)%nat /\ (length (sh_versions es) + b2n (se_supported_versions s) <= 1)%nat /\
  Forall (fun x => zlen x = 65) (sh_shares es).
Definition has_psk (es : list sh_ext) : bool := existsb (fun e => match e with ShPsk => true | _ => false end) es.
Definition nonempty {A} (l : list A) : bool := match l with [] => false | _ => true end.
Definition sh_final (s : Seen) (es : list sh_ext) : Seen :=
  mkSeen (se_supported_versions s || nonempty (sh_versions es)) (se_key_share s || nonempty (sh_shares es)) (se_pre_shared_key s || has_psk es) (hd (se_key_buf s) (sh_shares es)).
Lemma sh_adds es : forall s s', adds sh_add s es = Some s' <-> sh_okay s es /\ s' = sh_final s es.
Proof.
  induction es as [|e es IH]; intros s s'.
  - cbn [adds]. unfold sh_okay, sh_final. cbn. rewrite !orb_false_r. destruct s as [[] [] p k]; cbn; (split; [intros [= <-]; repeat split; auto|intros (_ & ->); reflexivity]).
  - cbn [adds]. destruct e as [share| |]; cbn [sh_add].
    + destruct (se_key_share s) eqn:Ek.
      * split; [discriminate|]. intros ((H & _) & _). cbn [sh_shares flat_map app length] in H. rewrite Ek in H. cbn in H. lia.
      * destruct (Z.eqb_spec (zlen share) 65).
        -- rewrite IH. unfold sh_okay, sh_final. cbn [sh_shares sh_versions flat_map app length se_key_share se_supported_versions se_pre_shared_key se_key_buf b2n has_psk existsb orb nonempty hd].
           fold (sh_shares es) (sh_versions es) (has_psk es). rewrite Ek. cbn [b2n orb]. split.
           ++ intros ((A & B & C) & ->). split; [repeat split; [lia|exact B|now constructor]|]. destruct (sh_shares es); [reflexivity|cbn in A; lia].
           ++ intros ((A & B & C) & ->). apply Forall_cons_iff in C as (_ & C). split; [repeat split; [lia|exact B|exact C]|]. destruct (sh_shares es); [reflexivity|cbn in A; lia].
        -- split; [discriminate|]. intros ((_ & _ & H) & _). cbn [sh_shares flat_map app] in H. apply Forall_cons_iff in H as (H & _). congruence.
    + destruct (se_supported_versions s) eqn:Ek.
      * split; [discriminate|]. intros ((_ & H & _) & _). cbn [sh_versions flat_map app length] in H. rewrite Ek in H. cbn in H. lia.
      * rewrite IH. unfold sh_okay, sh_final. cbn [sh_shares sh_versions flat_map app length se_key_share se_supported_versions se_pre_shared_key se_key_buf b2n has_psk existsb orb nonempty].
        fold (sh_shares es) (sh_versions es) (has_psk es). rewrite Ek. cbn [b2n orb]. split; intros ((A & B & C) & ->); (split; [repeat split; trivial; lia|reflexivity]).
    + rewrite IH. unfold sh_okay, sh_final. cbn [sh_shares sh_versions flat_map app length se_key_share se_supported_versions se_pre_shared_key se_key_buf b2n has_psk existsb orb].
      fold (sh_shares es) (sh_versions es) (has_psk es). rewrite orb_true_r. reflexivity.
Qed.
Lemma has_psk_in es : has_psk es = true <-> In ShPsk es.
Proof.
  unfold has_psk. rewrite existsb_exists. split; [intros (e & H & E); destruct e; [discriminate..|exact H]|intros H; exists ShPsk; now split].
Qed.
Lemma sh_bytes_pos e : 0 < zlen (sh_bytes e).
Proof. destruct e; [|now vm_compute..]. cbn [sh_bytes]. unfold ext. rewrite zlen_app, zlen_be16. pose proof (zlen_nonneg (vec16 (be16 0x17 ++ vec16 share))). lia. Qed.

Ltac next_u16 R a b t := destruct (rd_u16 _ _ _ R) as [(a & b & t & ?r & -> & ?Ha & ?Hb & -> & ?R)|(_ & ->)]; [|right; eexists; reflexivity]; cbn [tbind].
Lemma sh_step_sound r pos rest s : rd r pos rest ->
  (exists e t s' r', rest = sh_bytes e ++ t /\ sh_add s e = Some s' /\ recv_server_hello_extension r s = TOk (s', r') /\ rd r' (pos + zlen (sh_bytes e)) t) \/
  (exists a, recv_server_hello_extension r s = TErr a).
Proof.
  intros R. unfold recv_server_hello_extension. next_u16 R a b t1.
  destruct (extension_type_try_from (of_be16 a b)) as [ty|] eqn:Ety; [|right; eexists; reflexivity].
  assert (ty = of_be16 a b) as -> by (unfold extension_type_try_from in Ety; destruct (existsb _ _); congruence). clear Ety.
  next_u16 R0 c d t2. destruct (rd_facts _ _ _ R1) as (P & _). rewrite P.
  destruct (Z.eqb_spec (of_be16 a b) EtKeyShare) as [E|_]; [|destruct (Z.eqb_spec (of_be16 a b) EtSupportedVersions) as [E|_]; [|destruct (Z.eqb_spec (of_be16 a b) EtPreSharedKey) as [E|_]; [|right; eexists; reflexivity]]].
  - unfold recv_key_share. destruct (se_key_share s) eqn:Ek; [right; eexists; reflexivity|]. next_u16 R1 g h t3.
    destruct (named_group_try_from (of_be16 g h)) as [grp|] eqn:Eg; [|right; eexists; reflexivity].
    assert (grp = of_be16 g h) as -> by (unfold named_group_try_from in Eg; destruct (existsb _ _); congruence). clear Eg.
    destruct (Z.eqb_spec (of_be16 g h) secp256r1) as [Eg|]; [|right; eexists; reflexivity]. next_u16 R2 k l t4.
    destruct (Z.eqb_spec (of_be16 k l) P256_KEY_LEN) as [El|]; [|right; eexists; reflexivity].
    pose proof (rd_n _ _ _ 65 R3 ltac:(lia)) as X. destruct (Z.leb_spec 65 (zlen t4)); [|right; rewrite X; eexists; reflexivity].
    destruct X as (r4 & -> & R4). cbn [tbind]. destruct (rd_facts _ _ _ R4) as (P4 & _). rewrite P4. unfold usub. destruct (Z.ltb_spec (pos + 2 + 2 + 2 + 2 + 65) (pos + 2 + 2)); [lia|]. cbn [tbind].
    destruct (Z.eqb_spec (of_be16 c d) (pos + 2 + 2 + 2 + 2 + 65 - (pos + 2 + 2))) as [Ec|]; [|right; eexists; reflexivity].
    left. exists (ShKeyShare (ztake 65 t4)), (zdrop 65 t4). do 2 eexists.
    assert (zlen (ztake 65 t4) = 65) as L by (rewrite zlen_ztake; lia).
    assert (sh_bytes (ShKeyShare (ztake 65 t4)) = [a; b] ++ [c; d] ++ [g; h] ++ [k; l] ++ ztake 65 t4) as Eb.
    { cbn [sh_bytes]. unfold ext, vec16. rewrite !zlen_app, !zlen_be16, L.
      rewrite (of_be16_is a b _ Ha Hb E), (of_be16_is c d 69 Ha0 Hb0 ltac:(lia)), (of_be16_is g h _ Ha1 Hb1 Eg), (of_be16_is k l _ Ha2 Hb2 El). reflexivity. }
    split; [rewrite Eb, <- !app_assoc, ztake_zdrop; reflexivity|]. split; [cbn [sh_add]; now rewrite Ek, L|]. split; [reflexivity|].
    rewrite Eb, !zlen_app, L. change (zlen [a; b]) with 2. change (zlen [c; d]) with 2. change (zlen [g; h]) with 2. change (zlen [k; l]) with 2. now replace (pos + (2 + (2 + (2 + (2 + 65))))) with (pos + 2 + 2 + 2 + 2 + 65) by lia.
  - unfold recv_supported_versions. destruct (se_supported_versions s) eqn:Ek; [right; eexists; reflexivity|]. next_u16 R1 g h t3.
    destruct (Z.eqb_spec (of_be16 g h) V1_3) as [Eg|]; [|right; eexists; reflexivity]. cbn [tbind].
    destruct (rd_facts _ _ _ R2) as (P4 & _). rewrite P4. unfold usub. destruct (Z.ltb_spec (pos + 2 + 2 + 2) (pos + 2 + 2)); [lia|]. cbn [tbind].
    destruct (Z.eqb_spec (of_be16 c d) (pos + 2 + 2 + 2 - (pos + 2 + 2))) as [Ec|]; [|right; eexists; reflexivity].
    left. exists ShVersion, t3. do 2 eexists. split.
    { change (sh_bytes ShVersion) with (be16 EtSupportedVersions ++ be16 2 ++ be16 V1_3). rewrite <- (of_be16_is a b _ Ha Hb E), <- (of_be16_is c d 2 Ha0 Hb0 ltac:(lia)), <- (of_be16_is g h _ Ha1 Hb1 Eg). reflexivity. }
    split; [cbn [sh_add]; now rewrite Ek|]. split; [reflexivity|]. change (zlen (sh_bytes ShVersion)) with 6. now replace (pos + 6) with (pos + 2 + 2 + 2) by lia.
  - unfold recv_pre_shared_key. destruct (Z.eqb_spec (of_be16 c d) 2) as [Ec|]; [|right; eexists; reflexivity]. next_u16 R1 g h t3.
    destruct (Z.eqb_spec (of_be16 g h) 0) as [Eg|]; [|right; eexists; reflexivity]. cbn [tbind].
    destruct (rd_facts _ _ _ R2) as (P4 & _). rewrite P4. unfold usub. destruct (Z.ltb_spec (pos + 2 + 2 + 2) (pos + 2 + 2)); [lia|]. cbn [tbind].
    rewrite Ec. destruct (Z.eqb_spec 2 (pos + 2 + 2 + 2 - (pos + 2 + 2))) as [_|]; [|right; eexists; reflexivity].
    left. exists ShPsk, t3. do 2 eexists. split.
    { change (sh_bytes ShPsk) with (be16 EtPreSharedKey ++ be16 2 ++ be16 0). rewrite <- (of_be16_is a b _ Ha Hb E), <- (of_be16_is c d 2 Ha0 Hb0 ltac:(lia)), <- (of_be16_is g h _ Ha1 Hb1 Eg). reflexivity. }
    split; [reflexivity|]. split; [reflexivity|]. change (zlen (sh_bytes ShPsk)) with 6. now replace (pos + 6) with (pos + 2 + 2 + 2) by lia.
Qed.
Ltac take_u16 R v := let r := fresh "r" in let R' := fresh "R" in destruct (rd_u16_of _ _ v _ R ltac:(lia)) as (r & -> & R'); cbn [tbind].
Lemma sh_step_complete r pos t s e s' : rd r pos (sh_bytes e ++ t) -> sh_add s e = Some s' ->
  exists r', recv_server_hello_extension r s = TOk (s', r') /\ rd r' (pos + zlen (sh_bytes e)) t.
Proof.
  intros R A. unfold recv_server_hello_extension. destruct e as [share| |]; cbn [sh_add] in A.
  - destruct (se_key_share s) eqn:Ek; [discriminate|]. destruct (Z.eqb_spec (zlen share) 65) as [L|]; [|discriminate]. injection A as <-.
    assert (sh_bytes (ShKeyShare share) = be16 51 ++ be16 69 ++ be16 0x17 ++ be16 65 ++ share) as Eb by (cbn [sh_bytes]; unfold ext, vec16; rewrite !zlen_app, !zlen_be16, L; reflexivity).
    rewrite Eb in *. rewrite <- !app_assoc in R. take_u16 R 51. change (extension_type_try_from 51) with (Some 51). cbn [tbind]. take_u16 R0 69.
    change (51 =? EtKeyShare) with true. cbn [tbind]. destruct (rd_facts _ _ _ R1) as (P & _). rewrite P. unfold recv_key_share. rewrite Ek. take_u16 R1 0x17.
    change (named_group_try_from 0x17) with (Some 0x17). cbn [tbind]. change (0x17 =? secp256r1) with true. cbn [tbind]. take_u16 R2 65. change (65 =? P256_KEY_LEN) with true. cbn [tbind].
    destruct (rd_n_of _ _ share t R3) as (r4 & E4 & R4). rewrite L in E4, R4. rewrite E4. cbn [tbind]. destruct (rd_facts _ _ _ R4) as (P4 & _). rewrite P4. unfold usub.
    destruct (Z.ltb_spec (pos + 2 + 2 + 2 + 2 + 65) (pos + 2 + 2)); [lia|]. cbn [tbind]. replace (pos + 2 + 2 + 2 + 2 + 65 - (pos + 2 + 2)) with 69 by lia. cbn [Z.eqb Pos.eqb]. eexists. split; [reflexivity|].
    rewrite !zlen_app, !zlen_be16, L. now replace (pos + (2 + (2 + (2 + (2 + 65))))) with (pos + 2 + 2 + 2 + 2 + 65) by lia.
  - destruct (se_supported_versions s) eqn:Ek; [discriminate|]. injection A as <-. change (sh_bytes ShVersion) with (be16 43 ++ be16 2 ++ be16 0x304) in *. rewrite <- !app_assoc in R. take_u16 R 43.
    change (extension_type_try_from 43) with (Some 43). cbn [tbind]. take_u16 R0 2. change (43 =? EtKeyShare) with false. change (43 =? EtSupportedVersions) with true. cbn [tbind].
    destruct (rd_facts _ _ _ R1) as (P & _). rewrite P. unfold recv_supported_versions. rewrite Ek. take_u16 R1 0x304. change (0x304 =? V1_3) with true. cbn [tbind].
    destruct (rd_facts _ _ _ R2) as (P4 & _). rewrite P4. unfold usub. destruct (Z.ltb_spec (pos + 2 + 2 + 2) (pos + 2 + 2)); [lia|]. cbn [tbind].
    replace (pos + 2 + 2 + 2 - (pos + 2 + 2)) with 2 by lia. eexists. split; [reflexivity|]. change (zlen (be16 43 ++ _)) with 6. now replace (pos + 6) with (pos + 2 + 2 + 2) by lia.
  - injection A as <-. change (sh_bytes ShPsk) with (be16 41 ++ be16 2 ++ be16 0) in *. rewrite <- !app_assoc in R. take_u16 R 41.
    change (extension_type_try_from 41) with (Some 41). cbn [tbind]. take_u16 R0 2. change (41 =? EtKeyShare) with false. change (41 =? EtSupportedVersions) with false. change (41 =? EtPreSharedKey) with true. cbn [tbind].
    destruct (rd_facts _ _ _ R1) as (P & _). rewrite P. unfold recv_pre_shared_key. change (2 =? 2) with true. cbn [tbind]. take_u16 R1 0. change (0 =? 0) with true. cbn [tbind].
    destruct (rd_facts _ _ _ R2) as (P4 & _). rewrite P4. unfold usub. destruct (Z.ltb_spec (pos + 2 + 2 + 2) (pos + 2 + 2)); [lia|]. cbn [tbind].
    replace (pos + 2 + 2 + 2 - (pos + 2 + 2)) with 2 by lia. eexists. split; [reflexivity|]. change (zlen (be16 41 ++ _)) with 6. now replace (pos + 6) with (pos + 2 + 2 + 2) by lia.
Qed.
Lemma sh_loop_eq fuel : forall e r s, server_hello_loop fuel e r s = loop recv_server_hello_extension fuel e r s.
Proof. induction fuel; intros; cbn [server_hello_loop loop]; [reflexivity|]. destruct (_ <? _); [|reflexivity]. destruct (recv_server_hello_extension r s) as [[]| | |]; cbn [tbind]; auto. Qed.

Lemma adds_none_ok es s : adds sh_add seen_none es = Some s -> se_key_share s = true -> se_supported_versions s = true -> se_pre_shared_key s = true ->
  sh_shares es = [se_key_buf s] /\ zlen (se_key_buf s) = 65 /\ sh_versions es = [tt] /\ In ShPsk es.
Proof.
  intros A Hk Hv Hp. apply sh_adds in A as ((A & B & C) & ->). unfold sh_final, seen_none in *. cbn in Hk, Hv, Hp, A, B. cbn [se_key_buf].
  destruct (sh_shares es) as [|x [|y l]]; [discriminate| |cbn in A; lia]. destruct (sh_versions es) as [|[] [|z m]]; [discriminate| |cbn in B; lia].
  apply Forall_cons_iff in C as (C & _). cbn [hd]. split; [reflexivity|]. split; [exact C|]. split; [reflexivity|]. now apply has_psk_in.
Qed.
Lemma ok_adds_none es share : sh_shares es = [share] -> zlen share = 65 -> sh_versions es = [tt] -> In ShPsk es ->
  adds sh_add seen_none es = Some (mkSeen true true true share).
Proof.
  intros Hs L Hv Hp. apply sh_adds. unfold sh_okay, sh_final, seen_none. rewrite Hs, Hv. apply has_psk_in in Hp. rewrite Hp. cbn. repeat split; auto.
Qed.
Lemma split_body r pos rest n : rd r pos rest -> 0 <= n <= zlen rest -> rest = ztake n rest ++ zdrop n rest /\ zlen (ztake n rest) = n.
Proof. intros _ H. split; [symmetry; apply ztake_zdrop|rewrite zlen_ztake; lia]. Qed.
Lemma server_hello_sound cx a b : bytes_ok (a ++ b) -> zlen (a ++ b) < 16384 ->
  (exists share key, server_hello (a ++ b) share /\ cx_sec1 cx share = Some key /\ recv_server_hello cx (cr_new a b) = TOk key) \/
  (exists alert, recv_server_hello cx (cr_new a b) = TErr alert).
Proof.
  intros B L. pose proof (rd_new a b B L) as R. unfold recv_server_hello. set (body := a ++ b) in *. clearbody body.
  next_u16 R v1 v2 t1. destruct (Z.eqb_spec (of_be16 v1 v2) V1_2) as [Ev|]; [|right; eexists; reflexivity]. cbn [negb].
  pose proof (rd_skip _ _ _ 32 R0 ltac:(lia)) as X. destruct (Z.leb_spec 32 (zlen t1)); [|right; rewrite X; eexists; reflexivity]. destruct X as (r2 & -> & R2). cbn [tbind].
  destruct (rd_u8 _ _ _ R2) as [(sid & t2 & r3 & E2 & _ & -> & R3)|(_ & ->)]; [|right; eexists; reflexivity]. cbn [tbind].
  destruct (Z.eqb_spec sid 0) as [->|]; [|right; eexists; reflexivity]. cbn [negb].
  pose proof (rd_n _ _ _ 2 R3 ltac:(lia)) as X. unfold cr_next_n. destruct (Z.leb_spec 2 (zlen t2)); [|right; rewrite X; eexists; reflexivity]. destruct X as (r4 & -> & R4). cbn [tbind].
  destruct t2 as [|c1 [|c2 t2]]; try (unfold zlen in *; cbn [length] in *; lia). change (ztake 2 (c1 :: c2 :: t2)) with [c1; c2]. change (zdrop 2 (c1 :: c2 :: t2)) with t2 in R4.
  unfold cipher_suite_try_from. change (at_ [c1; c2] 0) with c1. change (at_ [c1; c2] 1) with c2. destruct (Z.eqb_spec c1 0x13) as [->|]; cbn [andb]; [|right; eexists; reflexivity].
  destruct ((1 <=? c2) && (c2 <=? 5)); [|right; eexists; reflexivity]. change (at_ [19; c2] 1) with c2. change (at_ TLS_AES_128_GCM_SHA256 1) with 1.
  destruct (Z.eqb_spec c2 1) as [->|]; [|right; eexists; reflexivity]. cbn [negb].
  destruct (rd_u8 _ _ _ R4) as [(cm & t3 & r5 & -> & _ & -> & R5)|(_ & ->)]; [|right; eexists; reflexivity]. cbn [tbind].
  destruct (Z.eqb_spec cm 0) as [->|]; [|right; eexists; reflexivity]. cbn [negb]. next_u16 R5 l1 l2 t4.
  destruct (rd_facts _ _ _ R1) as (P & Hp & Hl & _ & Len). rewrite P, Len. destruct (Z.ltb_spec 65535 (0 + 2 + 32 + 1 + 2 + 1 + 2 + of_be16 l1 l2)); [right; eexists; reflexivity|].
  rewrite sh_loop_eq. set (e := _ + of_be16 l1 l2).
  destruct (loop_sound _ _ _ sh_bytes_pos sh_step_sound sh_step_complete (S (Z.to_nat (0 + 2 + 32 + 1 + 2 + 1 + 2 + zlen t4))) e r0 _ t4 seen_none R1) as [(es & rest & s & r' & -> & C & A & ->)|(al & ->)];
    [unfold zlen; lia| |right; eexists; reflexivity]. cbn [tbind].
  destruct (se_key_share s) eqn:E1; [|right; eexists; reflexivity]. destruct (se_supported_versions s) eqn:E3; [|right; eexists; reflexivity].
  destruct (se_pre_shared_key s) eqn:E4; [|right; eexists; reflexivity]. cbn [negb].
  destruct (cx_sec1 cx (se_key_buf s)) as [key|] eqn:Ec; [|right; eexists; reflexivity].
  destruct (adds_none_ok es s A E1 E3 E4) as (J1 & J2 & J3 & J4). left. exists (se_key_buf s), key. split; [|split; [exact Ec|reflexivity]].
  exists (ztake 32 t1), es, (of_be16 l1 l2), rest. pose proof (of_be16_range l1 l2 Ha0 Hb0) as Rl. unfold is_u16 in Rl.
  split; [|split; [rewrite zlen_ztake; lia|split; [lia|split; [|auto]]]].
  - change 0x303 with V1_2. rewrite <- (of_be16_is v1 v2 _ Ha Hb Ev). rewrite be16_of_be16 by trivial. cbn [app]. do 2 f_equal. rewrite <- (ztake_zdrop 32 t1) at 1. f_equal. exact E2.
  - unfold e in C. replace (0 + 2 + 32 + 1 + 2 + 1 + 2 + of_be16 l1 l2 - (0 + 2 + 32 + 1 + 2 + 1 + 2)) with (of_be16 l1 l2) in C by lia. exact C.
Qed.
Lemma server_hello_complete cx a b share key : bytes_ok (a ++ b) -> zlen (a ++ b) < 16384 -> server_hello (a ++ b) share -> cx_sec1 cx share = Some key ->
  recv_server_hello cx (cr_new a b) = TOk key.
Proof.
  intros B L (random & es & len & rest & Eb & Lr & Hl & C & H1 & H2 & H3 & H4) Ec. pose proof (rd_new a b B L) as R. unfold recv_server_hello. set (body := a ++ b) in *. clearbody body. subst body.
  assert (len <= zlen (concat (map sh_bytes es))) as Hlen by (destruct C; trivial). repeat rewrite zlen_app in L. rewrite !zlen_be16, Lr in L. pose proof (zlen_nonneg rest).
  change (zlen (vec8 [])) with 1 in L. change (zlen [19; 1]) with 2 in L. change (zlen [0]) with 1 in L.
  take_u16 R 0x303. change (0x303 =? V1_2) with true. cbn [negb]. destruct (rd_skip_of _ _ random _ R0) as (r2 & E2 & R2). rewrite Lr in E2, R2. rewrite E2. cbn [tbind].
  destruct (rd_u8_of _ _ 0 _ R2) as (r3 & -> & R3). cbn [tbind]. change (0 =? 0) with true. cbn [negb].
  destruct (rd_n_of _ _ [19; 1] _ R3) as (r4 & E4 & R4). change (zlen [19; 1]) with 2 in E4, R4. unfold cr_next_n. rewrite E4. cbn [tbind].
  change (cipher_suite_try_from [19; 1]) with (Some [19; 1]). cbn [tbind]. change (at_ [19; 1] 1 =? at_ TLS_AES_128_GCM_SHA256 1) with true. cbn [negb].
  destruct (rd_u8_of _ _ 0 _ R4) as (r5 & -> & R5). cbn [tbind]. change (0 =? 0) with true. cbn [negb]. destruct (rd_u16_of _ _ len _ R5 Hl) as (r6 & -> & R6). cbn [tbind].
  destruct (rd_facts _ _ _ R6) as (P & _ & _ & _ & Len). rewrite P, Len. destruct (Z.ltb_spec 65535 (0 + 2 + 32 + 1 + 2 + 1 + 2 + len)); [lia|].
  rewrite sh_loop_eq. pose proof (ok_adds_none es share H1 H2 H3 H4) as A.
  destruct (loop_complete _ _ _ sh_bytes_pos sh_step_sound sh_step_complete es (S (Z.to_nat (0 + 2 + 32 + 1 + 2 + 1 + 2 + zlen (concat (map sh_bytes es) ++ rest)))) (0 + 2 + 32 + 1 + 2 + 1 + 2 + len) r6 _ rest seen_none (mkSeen true true true share) R6) as (r' & ->).
  - rewrite zlen_app. unfold zlen. lia.
  - replace (0 + 2 + 32 + 1 + 2 + 1 + 2 + len - (0 + 2 + 32 + 1 + 2 + 1 + 2)) with len by lia. exact C.
  - exact A.
  - cbn [tbind se_key_share se_supported_versions se_pre_shared_key se_key_buf negb]. now rewrite Ec.
Qed.

(** ** EncryptedExtensions *)
Definition ee_step (r : CircleReader) (_ : unit) : tres (unit * CircleReader) := tbind (recv_encrypted_extension r) (fun r => TOk (tt, r)).
(** Extensions as they are parsed: allowed and with data that fits. *)
Definition ee_add (_ : unit) (e : Z * list Z) : option unit :=
  if existsb (Z.eqb (fst e)) [0; 10; 16] && (zlen (snd e) <? 65536) then Some tt else None.
Lemma ee_bytes_len e : zlen (ee_bytes e) = 4 + zlen (snd e).
Proof. unfold ee_bytes, ext, vec16. rewrite !zlen_app, !zlen_be16. lia. Qed.
Lemma ee_bytes_pos e : 0 < zlen (ee_bytes e).
Proof. rewrite ee_bytes_len. pose proof (zlen_nonneg (snd e)). lia. Qed.
Lemma skip_ok r pos rest ty len : rd r pos rest -> 0 <= len -> In ty [0; 10; 16] ->
  (len <= zlen rest /\ exists r', skip_encrypted_extension r ty len = TOk r' /\ rd r' (pos + len) (zdrop len rest)) \/
  (zlen rest < len /\ exists a, skip_encrypted_extension r ty len = TErr a).
Proof.
  intros R H Hty. unfold skip_encrypted_extension.

  destruct (Z.eqb_spec ty EtServerName) as [_|N0].
  - pose proof (rd_n _ _ _ (Z.min 253 len) R ltac:(lia)) as X. destruct (Z.leb_spec (Z.min 253 len) (zlen rest)) as [Hm|Hm]; [|right; split; [lia|]; rewrite X; eexists; reflexivity].
    destruct X as (r1 & -> & R1). cbn [tbind]. destruct (Z.ltb_spec 0 (len - Z.min 253 len)) as [Hr|Hr].
    + pose proof (rd_skip _ _ _ (len - Z.min 253 len) R1 ltac:(lia)) as X. rewrite zlen_zdrop in X. destruct (Z.leb_spec (len - Z.min 253 len) (zlen rest - Z.min (Z.max 0 (Z.min 253 len)) (zlen rest))).
      * destruct X as (r2 & -> & R2). left. split; [lia|]. exists r2. split; [reflexivity|]. rewrite zdrop_zdrop in R2 by lia. replace (len - Z.min 253 len + Z.min 253 len) with len in R2 by lia.
        replace (pos + Z.min 253 len + (len - Z.min 253 len)) with (pos + len) in R2 by lia. exact R2.
      * right. split; [lia|]. rewrite X. eexists; reflexivity.
    + replace (Z.min 253 len) with len in * by lia. left. split; [lia|]. eauto.
  - assert ((if ty =? EtSupportedGroups then cr_skip_n r len else if ty =? EtAlpn then cr_skip_n r len else TErr UnsupportedExtension) = cr_skip_n r len) as ->.
    { destruct Hty as [<-|[<-|[<-|[]]]]; [now destruct N0|reflexivity..]. }
    pose proof (rd_skip _ _ _ len R H) as X. destruct (Z.leb_spec len (zlen rest)); [left|right; split; [lia|rewrite X; eexists; reflexivity]]. split; [lia|exact X].
Qed.
Lemma skip_refuses r ty len : ~ In ty [0; 10; 16] -> skip_encrypted_extension r ty len = TErr UnsupportedExtension.
Proof.
  intros N. unfold skip_encrypted_extension. destruct (Z.eqb_spec ty EtServerName) as [->|]; [destruct N; now left|]. destruct (Z.eqb_spec ty EtSupportedGroups) as [->|]; [destruct N; right; now left|].
  destruct (Z.eqb_spec ty EtAlpn) as [->|]; [destruct N; do 2 right; now left|]. reflexivity.
Qed.
Lemma allowed_dec ty : In ty [0; 10; 16] \/ ~ In ty [0; 10; 16].
Proof. destruct (in_dec Z.eq_dec ty [0; 10; 16]); auto. Qed.
Lemma ee_step_sound r pos rest s : rd r pos rest ->
  (exists e t s' r', rest = ee_bytes e ++ t /\ ee_add s e = Some s' /\ ee_step r s = TOk (s', r') /\ rd r' (pos + zlen (ee_bytes e)) t) \/ (exists a, ee_step r s = TErr a).
Proof.
  intros R. unfold ee_step, recv_encrypted_extension. next_u16 R a b t1.
  destruct (extension_type_try_from (of_be16 a b)) as [ty|] eqn:Ety; [|right; eexists; reflexivity].
  assert (ty = of_be16 a b) as -> by (unfold extension_type_try_from in Ety; destruct (existsb _ _); congruence). clear Ety.
  next_u16 R0 c d t2. destruct (rd_facts _ _ _ R1) as (P & _). rewrite P. pose proof (of_be16_range c d Ha0 Hb0) as Rl. unfold is_u16 in Rl.
  destruct (allowed_dec (of_be16 a b)) as [Al|Na]; [|rewrite skip_refuses by exact Na; right; eexists; reflexivity].
  destruct (skip_ok _ _ _ (of_be16 a b) (of_be16 c d) R1 ltac:(lia) Al) as [(Hl & r2 & -> & R2)|(_ & al & ->)]; [|right; eexists; reflexivity]. cbn [tbind].
  destruct (rd_facts _ _ _ R2) as (P2 & _). rewrite P2. unfold usub. destruct (Z.ltb_spec (pos + 2 + 2 + of_be16 c d) (pos + 2 + 2)); [lia|]. cbn [tbind].
  replace (pos + 2 + 2 + of_be16 c d - (pos + 2 + 2)) with (of_be16 c d) by lia. rewrite Z.eqb_refl. cbn [tbind]. left.
  assert (zlen (ztake (of_be16 c d) t2) = of_be16 c d) as L by (rewrite zlen_ztake; lia).
  exists (of_be16 a b, ztake (of_be16 c d) t2), (zdrop (of_be16 c d) t2), tt, r2. rewrite ee_bytes_len. cbn [snd]. rewrite L.
  split; [|split; [|split; [reflexivity|]]].
  - unfold ee_bytes, ext, vec16. cbn [fst snd]. rewrite L. rewrite !be16_of_be16 by trivial. rewrite <- !app_assoc, ztake_zdrop. reflexivity.
  - unfold ee_add. cbn [fst snd]. rewrite L. destruct (Z.ltb_spec (of_be16 c d) 65536); [|lia]. destruct Al as [<-|[<-|[<-|[]]]]; reflexivity.
  - now replace (pos + (4 + of_be16 c d)) with (pos + 2 + 2 + of_be16 c d) by lia.
Qed.
Lemma ee_step_complete r pos t s e s' : rd r pos (ee_bytes e ++ t) -> ee_add s e = Some s' -> exists r', ee_step r s = TOk (s', r') /\ rd r' (pos + zlen (ee_bytes e)) t.
Proof.
  intros R A. destruct e as (ty, data). unfold ee_add in A. cbn [fst snd] in A. destruct (existsb _ _) eqn:Ea; [|discriminate]. destruct (Z.ltb_spec (zlen data) 65536); [|discriminate]. injection A as <-.
  apply existsb_exists in Ea as (x & Hx & Ex). apply Z.eqb_eq in Ex. subst x. rewrite ee_bytes_len. cbn [snd]. unfold ee_bytes, ext, vec16 in R. cbn [fst snd] in R. rewrite <- !app_assoc in R.
  pose proof (zlen_nonneg data). unfold ee_step, recv_encrypted_extension.
  assert (0 <= ty < 65536 /\ extension_type_try_from ty = Some ty) as (Ht & Et) by (destruct Hx as [<-|[<-|[<-|[]]]]; (split; [lia|reflexivity])).
  destruct (rd_u16_of _ _ ty _ R Ht) as (r1 & -> & R1). cbn [tbind]. rewrite Et. destruct (rd_u16_of _ _ (zlen data) _ R1 ltac:(lia)) as (r2 & -> & R2). cbn [tbind].
  destruct (rd_facts _ _ _ R2) as (P & _). rewrite P.
  destruct (skip_ok _ _ _ ty (zlen data) R2 ltac:(lia) Hx) as [(Hl & r3 & -> & R3)|(Hl & _)]; [|rewrite zlen_app in Hl; pose proof (zlen_nonneg t); lia]. cbn [tbind].
  rewrite zdrop_app_r, Z.sub_diag, zdrop_0 in R3 by lia. destruct (rd_facts _ _ _ R3) as (P2 & _). rewrite P2. unfold usub.
  destruct (Z.ltb_spec (pos + 2 + 2 + zlen data) (pos + 2 + 2)); [lia|]. cbn [tbind].
  replace (pos + 2 + 2 + zlen data - (pos + 2 + 2)) with (zlen data) by lia. rewrite Z.eqb_refl. cbn [tbind]. exists r3. split; [reflexivity|]. now replace (pos + (4 + zlen data)) with (pos + 2 + 2 + zlen data) by lia.
Qed.
Lemma ee_loop_eq fuel : forall e r, encrypted_extensions_loop fuel e r = tbind (loop ee_step fuel e r tt) (fun x => TOk (snd x)).
Proof.
  induction fuel; intros; cbn [encrypted_extensions_loop loop]; destruct (_ <? _); try reflexivity. unfold ee_step at 1. destruct (recv_encrypted_extension r) as [r1| | |]; cbn [tbind]; auto.
Qed.
Lemma ee_adds es : forall s, adds ee_add s es = Some tt <-> Forall ee_allowed es /\ Forall (fun e => zlen (snd e) < 65536) es.
Proof.
  induction es as [|e es IH]; intros s; cbn [adds]; [destruct s; split; [repeat constructor|reflexivity]|].
  assert (ee_add s e = Some tt <-> ee_allowed e /\ zlen (snd e) < 65536) as X.
  { unfold ee_add, ee_allowed. destruct (Z.ltb_spec (zlen (snd e)) 65536); rewrite ?andb_true_r, ?andb_false_r; [|split; [discriminate|lia]].
    destruct (existsb _ _) eqn:Ea; split; try discriminate.
    - intros _. split; [|lia]. apply existsb_exists in Ea as (x & Hx & Ex). apply Z.eqb_eq in Ex. now subst x.
    - reflexivity.
    - intros (Hin & _). assert (existsb (Z.eqb (fst e)) [0; 10; 16] = true) by (apply existsb_exists; exists (fst e); split; [exact Hin|apply Z.eqb_refl]). congruence. }
  rewrite !Forall_cons_iff. destruct (ee_add s e) as [[]|]; [rewrite IH; intuition|]. split; [discriminate|]. intros ((A & _) & (B & _)). assert (None = Some tt) by (apply X; now split). discriminate.
Qed.
Lemma extensions_sound a b : bytes_ok (a ++ b) -> zlen (a ++ b) < 16384 ->
  (encrypted_extensions (a ++ b) /\ recv_encrypted_extensions (cr_new a b) = TOk tt) \/ (exists alert, recv_encrypted_extensions (cr_new a b) = TErr alert).
Proof.
  intros B L. pose proof (rd_new a b B L) as R. unfold recv_encrypted_extensions. set (body := a ++ b) in *. clearbody body. next_u16 R l1 l2 t.
  destruct (rd_facts _ _ _ R0) as (P & _ & _ & _ & Len). rewrite P, Len. destruct (Z.ltb_spec 65535 (0 + 2 + of_be16 l1 l2)); [right; eexists; reflexivity|]. rewrite ee_loop_eq.
  destruct (loop_sound _ _ _ ee_bytes_pos ee_step_sound ee_step_complete (S (Z.to_nat (0 + 2 + zlen t))) (0 + 2 + of_be16 l1 l2) r _ t tt R0) as [(es & rest & s & r' & -> & C & A & ->)|(al & ->)];
    [unfold zlen; lia| |right; eexists; reflexivity]. cbn [tbind]. left. split; [|reflexivity]. destruct s. apply ee_adds in A as (A & _).
  pose proof (of_be16_range l1 l2 Ha Hb) as Rl. unfold is_u16 in Rl. exists es, (of_be16 l1 l2), rest. rewrite be16_of_be16 by trivial.
  replace (0 + 2 + of_be16 l1 l2 - (0 + 2)) with (of_be16 l1 l2) in C by lia. split; [reflexivity|]. split; [lia|]. now split.
Qed.
Lemma extensions_complete a b : bytes_ok (a ++ b) -> zlen (a ++ b) < 16384 -> encrypted_extensions (a ++ b) -> recv_encrypted_extensions (cr_new a b) = TOk tt.
Proof.
  intros B L (es & len & rest & E & Hl & C & A). pose proof (rd_new a b B L) as R. unfold recv_encrypted_extensions. set (body := a ++ b) in *. clearbody body. subst body.
  assert (len <= zlen (concat (map ee_bytes es))) as Hlen by (destruct C; trivial). repeat rewrite zlen_app in L. rewrite zlen_be16 in L. pose proof (zlen_nonneg rest).
  destruct (rd_u16_of _ _ len _ R Hl) as (r1 & -> & R1). cbn [tbind]. destruct (rd_facts _ _ _ R1) as (P & _ & _ & _ & Len). rewrite P, Len. destruct (Z.ltb_spec 65535 (0 + 2 + len)); [lia|]. rewrite ee_loop_eq.
  destruct (loop_complete _ _ _ ee_bytes_pos ee_step_sound ee_step_complete es (S (Z.to_nat (0 + 2 + zlen (concat (map ee_bytes es) ++ rest)))) (0 + 2 + len) r1 _ rest tt tt R1) as (r' & ->).
  - rewrite zlen_app. unfold zlen. lia.
  - replace (0 + 2 + len - (0 + 2)) with len by lia. exact C.
  - apply ee_adds. split; [exact A|]. apply Forall_forall. intros e He. apply in_map with (f := ee_bytes) in He. apply in_split in He as (l1 & l2 & He). rewrite He, concat_app in L. cbn [concat] in L.
    rewrite !zlen_app, ee_bytes_len in L. pose proof (zlen_nonneg (concat l1)). pose proof (zlen_nonneg (concat l2)). lia.
  - reflexivity.
Qed.
