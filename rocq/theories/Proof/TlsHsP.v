(** Handshake messages taken from the buffer. *)
From Verif Require Import Model.Prelude Model.Bus Model.HlIo Model.Stream Model.TlsTypes Model.TlsBuf Spec.Cursor Spec.TlsQueue Proof.Base Proof.RingP Proof.TlsBufP.

Lemma zlen_message ty body : zlen (hs_message ty body) = 4 + zlen body.
Proof. unfold hs_message. rewrite zlen_cons, zlen_app. change (zlen (zdrop 1 (be32 (zlen body)))) with 3. lia. Qed.
Lemma message_header ty body : exists b1 b2 b3, ztake 4 (hs_message ty body) = [ty; b1; b2; b3] /\ hs_message ty body = [ty; b1; b2; b3] ++ body /\
  (zlen body < 16777216 -> of_be32 0 b1 b2 b3 = zlen body).
Proof.
  unfold hs_message. unfold be32. do 3 eexists. split; [reflexivity|]. split; [reflexivity|]. intros H. pose proof (zlen_nonneg body). unfold of_be32. lia.
Qed.
Ltac Zify.zify_post_hook ::= idtac.
(** What the buffer holds when part of a message has arrived. *)
Definition pending (p : Z) (b : Buffer) (pre : list Z) : Prop :=
  holds b ([], pre) /\ b_head b = p /\ b_hs_head b = p.
Lemma pending_tail p b pre : pending p b pre -> p + zlen pre < b_N b -> b_tail b = p + zlen pre /\ b_ad_tail b = p /\ b_len b = zlen pre /\ b_hs_len b = zlen pre.
Proof.
  intros (H & Eh & Es) Hp. pose proof (zlen_nonneg pre). pose proof H as ((N & Hh & _) & _ & A & T & _). unfold q_size in T. cbn [fst snd] in *.
  change (zlen (@nil Z)) with 0 in *. rewrite Eh in *. rewrite Z.mod_small in A, T by lia.
  unfold b_len, b_hs_len. rewrite T, Es, Eh. destruct (Z.ltb_spec (p + (0 + zlen pre)) p); [lia|]. repeat split; lia.
Qed.
Lemma pending_head p b pre : pending p b pre -> p + zlen pre < b_N b -> b_read_head b = if zlen pre <? 4 then None else Some (ztake 4 pre).
Proof.
  intros H Hp. destruct (pending_tail p b pre H Hp) as (_ & _ & L & _). unfold b_read_head. rewrite L. unfold HH_LEN. destruct (Z.ltb_spec (zlen pre) 4) as [|G]; [reflexivity|].
  f_equal. destruct H as ((_ & _ & _ & _ & R) & Eh & _). unfold q_size in R. cbn [fst snd app] in R. change (zlen (@nil Z)) with 0 in R.
  assert (forall i, 0 <= i < zlen pre -> nth (Z.to_nat ((b_head b + i) mod b_N b)) (b_buf b) 0 = nth (Z.to_nat i) pre 0) as E.
  { intros i Hi. change (zn (b_buf b) ((b_head b + i) mod zlen (b_buf b)) = zn pre i). rewrite <- R at 1. rewrite zn_ring by lia. reflexivity. }
  cbn [map seq]. rewrite !E by lia. destruct pre as [|x0 [|x1 [|x2 [|x3 pre]]]]; try (unfold zlen in G; cbn [length] in G; lia). reflexivity.
Qed.
Lemma ztake_pre {A} n (x y : list A) : n <= zlen x -> ztake n (x ++ y) = ztake n x.
Proof. intros H. unfold ztake, zlen in *. rewrite firstn_app. replace (Z.to_nat n - length x)%nat with O by lia. cbn [firstn]. apply app_nil_r. Qed.
Lemma pop_waits p b ty body pre suf hash : pending p b pre -> pre ++ suf = hs_message ty body -> suf <> [] -> zlen body < 16777216 ->
  p + 4 + zlen body < b_N b -> b_pop_handshake_record b hash = TOk None.
Proof.
  intros H E Hs Hb Hp. pose proof (zlen_message ty body) as L. rewrite <- E, zlen_app in L.
  assert (0 < zlen suf) by (pose proof (zlen_nonneg suf); destruct (Z.eq_dec (zlen suf) 0) as [Z|]; [apply zlen_0_nil in Z; congruence|lia]).
  unfold b_pop_handshake_record. rewrite (pending_head p b pre H ltac:(lia)). destruct (Z.ltb_spec (zlen pre) 4) as [|G]; [reflexivity|].
  destruct (message_header ty body) as (b1 & b2 & b3 & E4 & _ & Ln). rewrite <- (ztake_pre 4 pre suf), E, E4 by lia.
  assert (hh_length_with_header [ty; b1; b2; b3] = 4 + zlen body) as -> by (unfold hh_length_with_header, hh_length, HH_LEN; cbn; change (of_be32 0 b1 b2 b3 + 4 = 4 + zlen body); rewrite Ln; lia).
  destruct H as (H & Eh & Es). pose proof H as ((N & Hh & _) & _).
  unfold b_capacity. destruct (Z.ltb_spec (b_N b - 1) (4 + zlen body)); [lia|].
  destruct (pending_tail p b pre (conj H (conj Eh Es)) ltac:(lia)) as (_ & _ & _ & ->). destruct (Z.ltb_spec (zlen pre) (4 + zlen body)); [reflexivity|lia].
Qed.
Lemma slices_flat buf tail head n : 0 <= head <= tail -> tail < n -> zlen buf = n -> let '(x, y) := as_slices buf tail head n in ztake (tail - head) (x ++ y) = ring buf head (tail - head) /\ tail - head <= zlen x.
Proof.
  intros H Ht L. unfold as_slices. destruct (Z.leb_spec tail head).
  - replace (tail - head) with 0 by lia. split; [reflexivity|]. apply zlen_nonneg.
  - rewrite app_nil_r. rewrite ring_flat by lia. rewrite zlen_ztake, zlen_zdrop. split; [|lia]. unfold ztake. rewrite firstn_firstn. f_equal. lia.
Qed.
Lemma pop_full p b ty body hash : pending p b (hs_message ty body) -> zlen body < 16777216 -> p + 4 + zlen body < b_N b ->
  exists rd b', b_pop_handshake_record b hash = TOk (Some (ztake 4 (hs_message ty body), rd, hash ++ hs_message ty body, b')) /\
    cr_a rd ++ cr_b rd = body /\ cr_ptr rd = 0 /\ pending p b' [] /\ b_N b' = b_N b.
Proof.
  intros H Hb Hp. pose proof (zlen_nonneg body). pose proof (zlen_message ty body) as L.
  unfold b_pop_handshake_record. rewrite (pending_head p b _ H ltac:(lia)). rewrite L. destruct (Z.ltb_spec (4 + zlen body) 4) as [|_]; [lia|].
  destruct (message_header ty body) as (b1 & b2 & b3 & E4 & Em & Ln). rewrite E4.
  assert (hh_length [ty; b1; b2; b3] = zlen body) as El by (exact (Ln Hb)).
  unfold hh_length_with_header, HH_LEN. rewrite El.
  destruct (pending_tail p b _ H ltac:(lia)) as (T & A & _ & Lh). rewrite L in *. destruct H as (H & Eh & Es). pose proof H as ((N & Hh & _) & _).
  unfold b_capacity. destruct (Z.ltb_spec (b_N b - 1) (zlen body + 4)); [lia|]. rewrite Lh. destruct (Z.ltb_spec (4 + zlen body) (zlen body + 4)); [lia|].
  rewrite Es. rewrite (Z.mod_small (p + 4)) by lia. set (b0 := mkBuf _ _ _ _ _).
  unfold b_pop_handshake_slices_of_n. unfold b_len. cbn [b0 b_tail b_head b_hs_head b_ad_tail b_buf]. rewrite T, Eh, A.
  destruct (Z.ltb_spec (p + (4 + zlen body)) p); [lia|]. destruct (Z.ltb_spec (p + (4 + zlen body) - p) (zlen body)); [lia|].
  change (b_N b0) with (b_N b). pose proof (slices_flat (b_buf b) (p + (4 + zlen body)) (p + 4) (b_N b) ltac:(lia) ltac:(lia) eq_refl) as S.
  destruct (as_slices _ _ _ _) as (x, y). replace (p + (4 + zlen body) - (p + 4)) with (zlen body) in S by lia. destruct S as (S & Sl).
  rewrite (ztake_pre _ x y Sl) in S. rewrite (Z.mod_small (p + 4 + zlen body)) by lia. replace (p + 4 + zlen body) with (p + (4 + zlen body)) by lia. rewrite Z.eqb_refl.
  destruct (Z.leb_spec (zlen body) (zlen x)); [|lia]. cbn [tbind].
  assert (ring (b_buf b) (p + 4) (zlen body) = body) as B.
  { destruct H as (_ & _ & _ & _ & R). unfold q_size in R. cbn [fst snd app] in R. change (zlen (@nil Z)) with 0 in R. rewrite Em, zlen_app in R. rewrite Eh in R.
    rewrite Z.add_0_l in R. apply ring_split in R; [|unfold b_N in *; lia]. destruct R as (_ & R). change (zlen [ty; b1; b2; b3]) with 4 in R.
    rewrite Z.mod_small in R by (unfold b_N in *; lia). exact R. }
  rewrite B in S. rewrite S. do 2 eexists. split; [rewrite Em, app_nil_r; reflexivity|]. split; [apply app_nil_r|]. split; [reflexivity|]. split; [|reflexivity].
  split; [|split; reflexivity]. unfold holds, in_range, q_size, b_N in *. cbn [b_buf b_head b_ad_tail b_hs_head b_tail fst snd]. change (zlen (@nil Z)) with 0.
  rewrite !Z.add_0_r. rewrite (Z.mod_small p) by lia. repeat split; lia.
Qed.
Lemma pending_append dbg p b pre c : pending p b pre -> p + zlen pre + zlen c < b_N b -> exists b', b_extend_from_slice dbg b c = TOk b' /\ pending p b' (pre ++ c) /\ b_N b' = b_N b.
Proof.
  intros (H & Eh & Es) Hp. destruct (extend_fits dbg b _ c H) as (b' & E & H' & EN & E1 & E2 & E3).
  - unfold q_size. cbn [fst snd]. change (zlen (@nil Z)) with 0. destruct H as ((_ & Hh & _) & _). lia.
  - exists b'. split; [exact E|]. split; [|exact EN]. split; [exact H'|]. split; congruence.
Qed.
Lemma last_cons {A} (x : A) l d : l <> [] -> last (x :: l) d = last l d. Proof. destruct l; [congruence|reflexivity]. Qed.
Lemma feed_message dbg p ty body hash rest : zlen body < 16777216 -> forall cs b pre, pending p b pre -> pre ++ concat cs = hs_message ty body -> last cs [] <> [] ->
  p + 4 + zlen body < b_N b ->
  exists b', pending p b' [] /\ b_N b' = b_N b /\
    feed dbg b hash (cs ++ rest) = tbind (feed dbg b' (hash ++ hs_message ty body) rest) (fun y => let '(xs, h, b) := y in
      TOk (repeat None (length cs - 1) ++ Some (ztake 4 (hs_message ty body), body) :: xs, h, b)).
Proof.
  intros Hb. induction cs as [|c cs IH]; intros b pre H E Hl Hp; [cbn in Hl; congruence|]. cbn [concat] in E. rewrite app_assoc in E.
  pose proof (zlen_message ty body) as L. rewrite <- E, !zlen_app in L. pose proof (zlen_nonneg (concat cs)).
  destruct (pending_append dbg p b pre c H ltac:(lia)) as (b1 & Ex & H1 & N1). cbn [app feed]. rewrite Ex. cbn [tbind].
  destruct cs as [|c' cs].
  - cbn [concat] in E. rewrite app_nil_r in E. rewrite E in H1. destruct (pop_full p b1 ty body hash H1 Hb ltac:(lia)) as (rd & b2 & Ep & Er & _ & H2 & N2).
    exists b2. split; [exact H2|]. split; [congruence|]. rewrite Ep. cbn [tbind app length Nat.sub repeat]. now rewrite Er.
  - rewrite (pop_waits p b1 ty body (pre ++ c) (concat (c' :: cs)) hash H1 E); trivial.
    + cbn [tbind]. rewrite last_cons in Hl by discriminate. destruct (IH b1 (pre ++ c) H1 E Hl ltac:(lia)) as (b2 & H2 & N2 & ->).
      exists b2. split; [exact H2|]. split; [congruence|]. destruct (feed dbg b2 _ rest) as [((xs, h), b3)| | |]; try reflexivity. cbn [tbind length Nat.sub]. rewrite Nat.sub_0_r. reflexivity.
    + intros Hn. rewrite last_cons in Hl by discriminate. clear - Hl Hn. revert Hl Hn. generalize (c' :: cs). intros l. induction l as [|x l IHl]; cbn [concat]; intros Hl Hn; [apply Hl; reflexivity|].
      apply app_eq_nil in Hn as (-> & Hn). destruct l; [apply Hl; reflexivity|]. apply IHl; trivial.
    + lia.
Qed.
Lemma pending_idle p b : 2 <= b_N b <= 16384 -> pending p b [] <-> idle_at p b.
Proof.
  intros N. unfold pending, holds, in_range, idle_at, q_size. cbn [fst snd]. change (zlen (@nil Z)) with 0. split.
  - intros (((_ & H1 & H2 & H3 & H4) & _ & A & T & _) & <- & Es). rewrite !Z.add_0_r in *. rewrite Z.mod_small in A, T by lia. repeat split; try congruence; lia.
  - intros (<- & A & Es & T & H). rewrite !Z.add_0_r. rewrite !(Z.mod_small (b_head b)) by lia. repeat split; trivial; lia.
Qed.
Lemma feed_ok dbg p ms : forall b hash, 2 <= b_N b <= 16384 -> idle_at p b -> Forall (arriving_ok (b_N b - p - 1)) ms ->
  exists b', feed dbg b hash (concat (map ar_chunks ms)) =
    TOk (concat (map delivered ms), hash ++ concat (map (fun m => hs_message (ar_type m) (ar_body m)) ms), b') /\ idle_at p b'.
Proof.
  induction ms as [|m ms IH]; intros b hash N Hi H; cbn [map concat].
  - exists b. rewrite app_nil_r. now split.
  - apply Forall_cons_iff in H as ((_ & _ & H1 & H2 & H3 & H4) & Hr).
    destruct (feed_message dbg p (ar_type m) (ar_body m) hash (concat (map ar_chunks ms)) H1 (ar_chunks m) b [] (proj2 (pending_idle p b N) Hi) H3 H4 ltac:(lia)) as (b1 & P1 & N1 & ->).
    rewrite <- N1 in *. destruct (IH b1 (hash ++ hs_message (ar_type m) (ar_body m)) N (proj1 (pending_idle p b1 N) P1) Hr) as (b2 & -> & I2).
    exists b2. split; [|exact I2]. cbn [tbind]. unfold delivered. now rewrite <- !app_assoc.
Qed.
