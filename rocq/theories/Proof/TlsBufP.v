(** The TLS receive buffer is a queue. *)
From Verif Require Import Model.Prelude Model.Bus Model.HlIo Model.Stream Model.TlsTypes Model.TlsBuf Spec.Cursor Spec.TlsQueue Proof.Base Proof.RingP.
Ltac Zify.zify_post_hook ::= idtac.

Definition in_range (b : Buffer) : Prop :=
  2 <= b_N b <= 16384 /\ 0 <= b_head b < b_N b /\ 0 <= b_ad_tail b < b_N b /\ 0 <= b_hs_head b < b_N b /\ 0 <= b_tail b < b_N b.
(** The buffer holds the queue: readable bytes from [head] to [ad_tail], others up to [tail]. *)
Definition holds (b : Buffer) (q : queue) : Prop :=
  in_range b /\ q_size q <= b_N b - 1 /\ b_ad_tail b = (b_head b + zlen (fst q)) mod b_N b /\
  b_tail b = (b_head b + q_size q) mod b_N b /\ ring (b_buf b) (b_head b) (q_size q) = fst q ++ snd q.
Lemma holds_from buf : 2 <= zlen buf <= 16384 -> holds (buffer_from buf) ([], []).
Proof. intros H. unfold holds, in_range, b_N, buffer_from, q_size. cbn. change (zlen (@nil Z)) with 0. repeat split; try lia. Qed.
Lemma holds_reset b q : holds b q -> holds (b_reset b) ([], []).
Proof. intros ((H & _) & _). unfold holds, in_range, b_N, b_reset, q_size in *. cbn. change (zlen (@nil Z)) with 0. repeat split; try lia. Qed.

(** The length that the code computes is the number of bytes unless the bytes wrap around the end. *)
Lemma b_len_eq b q : holds b q -> b_len b = if b_head b + q_size q <? b_N b then q_size q else q_size q - 1.
Proof.
  intros (R & S & _ & T & _). destruct R as (N & Hh & _ & _ & Ht). unfold b_len, b_capacity. rewrite T. destruct q as (ad, rest). unfold q_size in *. cbn [fst snd] in *.
  pose proof (zlen_nonneg ad). pose proof (zlen_nonneg rest). rewrite mod_near by lia.
  destruct (Z.ltb_spec (b_head b + (zlen ad + zlen rest)) (b_N b)).
  - destruct (Z.ltb_spec (b_head b + (zlen ad + zlen rest)) (b_head b)); lia.
  - destruct (Z.ltb_spec (b_head b + (zlen ad + zlen rest) - b_N b) (b_head b)); lia.
Qed.
Lemma remain_eq b q : holds b q -> b_remain b = TOk (b_N b - 1 - b_len b).
Proof.
  intros H. pose proof (b_len_eq b q H) as L. destruct H as ((N & _) & S & _). unfold b_remain, usub, b_capacity.
  destruct (Z.ltb_spec (b_N b - 1) (b_len b)) as [G|]; [|reflexivity]. destruct (_ <? _) in L; lia.
Qed.

Lemma mod_low a N : 0 - N <= a < 0 -> a mod N = a + N.
Proof. intros H. rewrite <- (Z.mod_small (a + N) N) by lia. rewrite <- (Z_mod_plus_full a 1 N). f_equal. lia. Qed.
(** Writing [src] at position [t], around the end. *)
Lemma written buf t src k a_len : 0 <= t < zlen buf -> k = Z.min (zlen src) a_len -> 0 <= a_len <= zlen buf - t -> zlen src - k <= t ->
  (k < zlen src -> a_len = zlen buf - t) ->
  let buf' := put (put buf t (ztake k src)) 0 (zdrop k src) in
  zlen buf' = zlen buf /\
  forall j, 0 <= j < zlen buf -> zn buf' j = if (j - t) mod zlen buf <? zlen src then zn src ((j - t) mod zlen buf) else zn buf j.
Proof.
  intros Ht Hk Ha Hb Hw. pose proof (zlen_nonneg src). cbv zeta.
  assert (zlen (ztake k src) = k) as L1 by (rewrite zlen_ztake; lia). assert (zlen (zdrop k src) = zlen src - k) as L2 by (rewrite zlen_zdrop; lia).
  assert (zlen (put buf t (ztake k src)) = zlen buf) as L3 by (apply zlen_put; lia).
  split; [rewrite zlen_put; lia|]. intros j Hj. rewrite zn_put by lia. rewrite L2. rewrite zn_put by lia. rewrite L1.
  destruct (Z.ltb_spec j t).
  - replace ((j - t) mod zlen buf) with (j - t + zlen buf) by (symmetry; apply mod_low; lia).
    destruct (Z.leb_spec 0 j); [|lia]. cbn [andb]. destruct (Z.ltb_spec j (0 + (zlen src - k))).
    + destruct (Z.ltb_spec (j - t + zlen buf) (zlen src)) as [|G]; [|specialize (Hw ltac:(lia)); lia]. rewrite zn_zdrop by lia. specialize (Hw ltac:(lia)). f_equal. lia.
    + destruct (Z.leb_spec t j); [lia|]. cbn [andb]. destruct (Z.ltb_spec (j - t + zlen buf) (zlen src)) as [G|]; [|reflexivity]. exfalso. lia.
  - replace ((j - t) mod zlen buf) with (j - t) by (symmetry; apply Z.mod_small; lia).
    destruct (Z.leb_spec 0 j); [|lia]. cbn [andb]. destruct (Z.ltb_spec j (0 + (zlen src - k))); [lia|].
    destruct (Z.leb_spec t j); [|lia]. cbn [andb]. destruct (Z.ltb_spec j (t + k)), (Z.ltb_spec (j - t) (zlen src)); try lia; try reflexivity.
    rewrite zn_ztake by lia. reflexivity.
Qed.

Lemma ring_extend buf buf' n head tail used q src : zlen buf = n -> zlen buf' = n -> 0 <= head < n -> zlen q = used ->
  used + zlen src < n -> tail = (head + used) mod n -> ring buf head used = q ->
  (forall j, 0 <= j < n -> zn buf' j = if (j - tail) mod n <? zlen src then zn src ((j - tail) mod n) else zn buf j) ->
  ring buf' head (used + zlen src) = q ++ src.
Proof.
  intros L1 L2 Hh Lq Hs T G W. pose proof (zlen_nonneg q). pose proof (zlen_nonneg src).
  apply zn_eq; [rewrite zlen_ring, !zlen_app by lia; lia|]. intros i Hi. rewrite zlen_ring in Hi by lia. rewrite zn_ring by lia. rewrite L2.
  rewrite W by (apply Z.mod_pos_bound; lia). rewrite zn_app by lia. rewrite Lq.
  assert (((head + i) mod n - tail) mod n = if i <? used then i - used + n else i - used) as ->.
  { rewrite T. rewrite <- Zminus_mod. replace (head + i - (head + used)) with (i - used) by lia. destruct (Z.ltb_spec i used).
    - apply mod_low; lia.
    - apply Z.mod_small; lia. }
  destruct (Z.ltb_spec i used).
  - destruct (Z.ltb_spec (i - used + n) (zlen src)); [lia|]. rewrite <- G. rewrite zn_ring by lia. now rewrite L1.
  - destruct (Z.ltb_spec (i - used) (zlen src)); [|lia]. reflexivity.
Qed.
Lemma extend_fits dbg b q src : holds b q -> q_size q + zlen src <= b_N b - 1 ->
  exists b', b_extend_from_slice dbg b src = TOk b' /\ holds b' (fst q, snd q ++ src) /\ b_N b' = b_N b /\
    b_head b' = b_head b /\ b_ad_tail b' = b_ad_tail b /\ b_hs_head b' = b_hs_head b.
Proof.
  intros H Hf. pose proof (b_len_eq b q H) as L. pose proof (remain_eq b q H) as Rm. destruct H as ((N & Hh & Ha & Hhs & Ht) & S & A & T & G).
  destruct q as (ad, rest). unfold q_size in *. cbn [fst snd] in *.
  pose proof (zlen_nonneg ad). pose proof (zlen_nonneg rest). pose proof (zlen_nonneg src).
  unfold b_extend_from_slice. rewrite Rm. cbn [tbind]. destruct (Z.ltb_spec (b_N b - 1 - b_len b) (zlen src)) as [X|_]; [destruct (_ <? _) in L; lia|].
  set (n := b_N b) in *. set (head := b_head b) in *. set (tail := b_tail b) in *. set (used := zlen ad + zlen rest) in *.
  assert (tail = if head + used <? n then head + used else head + used - n) as T' by (rewrite T; apply mod_near; lia).
  set (abl := if tail =? head then (tail, n - tail, tail) else if head <? tail then (tail, n - tail, head) else (tail, head - tail, 0)).
  assert (exists a_len blen, abl = (tail, a_len, blen) /\ 0 <= a_len <= n - tail /\ zlen src - Z.min (zlen src) a_len <= blen /\ blen <= tail /\
    (Z.min (zlen src) a_len < zlen src -> a_len = n - tail)) as (a_len & blen & -> & B1 & B2 & B3 & B4).
  { unfold abl. destruct (Z.ltb_spec (head + used) n).
    - destruct (Z.eqb_spec tail head); [do 2 eexists; split; [reflexivity|]; lia|]. destruct (Z.ltb_spec head tail); [do 2 eexists; split; [reflexivity|]; lia|]. lia.
    - destruct (Z.eqb_spec tail head); [lia|]. destruct (Z.ltb_spec head tail); [lia|]. do 2 eexists; split; [reflexivity|]; lia. }
  set (k := Z.min (zlen src) a_len) in *. assert (zlen (zdrop k src) = zlen src - k) as Lk by (rewrite zlen_zdrop; lia).
  destruct (Z.ltb_spec blen (zlen (zdrop k src))); [lia|].
  assert (zlen (b_buf b) = n) as Ln by reflexivity.
  destruct (written (b_buf b) tail src k a_len ltac:(lia) eq_refl ltac:(lia) ltac:(lia) ltac:(lia)) as (W1 & W2). rewrite Ln in W1, W2.
  set (buf' := put (put (b_buf b) tail (ztake k src)) 0 (zdrop k src)) in *. clearbody buf'.
  assert ((tail + zlen src) mod n = (head + (used + zlen src)) mod n) as T2 by (rewrite T, Zplus_mod_idemp_l; f_equal; lia).
  destruct (_ && _ && _) eqn:D.
  { exfalso. apply andb_true_iff in D as (D & D2). apply andb_true_iff in D as (_ & D1). apply Z.eqb_eq in D2. apply negb_true_iff, Z.eqb_neq in D1.
    rewrite T2, mod_near in D2 by lia. destruct (_ <? _) in D2; lia. }
  eexists. split; [reflexivity|]. unfold holds, in_range, q_size, b_N. cbn [b_buf b_head b_ad_tail b_hs_head b_tail fst snd]. rewrite W1, zlen_app.
  fold n used. replace (zlen ad + (zlen rest + zlen src)) with (used + zlen src) by lia.
  assert (0 <= (tail + zlen src) mod n < n) by (apply Z.mod_pos_bound; lia).
  split; [|tauto]. split; [tauto|]. split; [lia|]. split; [exact A|]. split; [exact T2|].
  clear B1 B2 B3 B4 L Rm A T' D Lk T2. rewrite app_assoc. apply (ring_extend (b_buf b) buf' n head tail used (ad ++ rest) src); trivial; rewrite ?zlen_app; lia.
Qed.
Lemma extend_over dbg b q src : holds b q -> b_N b - 1 < q_size q + zlen src -> q_size q + zlen src <> b_N b \/ b_head b + q_size q < b_N b ->
  b_extend_from_slice dbg b src = TErr InternalError.
Proof.
  intros H Hf Hn. pose proof (b_len_eq b q H) as L. pose proof (remain_eq b q H) as Rm. unfold b_extend_from_slice. rewrite Rm. cbn [tbind].
  destruct (Z.ltb_spec (b_N b - 1 - b_len b) (zlen src)) as [X|X]; [reflexivity|]. destruct (Z.ltb_spec (b_head b + q_size q) (b_N b)); lia.
Qed.
Lemma pop_ok b ad rest x : holds b (ad, rest ++ [x]) -> exists b', b_pop_tail b = Some (x, b') /\ holds b' (ad, rest) /\ b_N b' = b_N b /\
  b_head b' = b_head b /\ b_ad_tail b' = b_ad_tail b /\ b_hs_head b' = b_hs_head b.
Proof.
  intros ((N & Hh & Ha & Hhs & Ht) & S & A & T & G). unfold q_size in *. cbn [fst snd] in *. rewrite zlen_app in *. change (zlen [x]) with 1 in *.
  pose proof (zlen_nonneg ad). pose proof (zlen_nonneg rest). set (used := zlen ad + zlen rest) in *.
  replace (zlen ad + (zlen rest + 1)) with (used + 1) in * by lia.
  assert (b_tail b <> b_head b) as Ne by (rewrite T, mod_near by lia; destruct (_ <? _); lia).
  unfold b_pop_tail, b_is_empty. destruct (Z.eqb_spec (b_head b) (b_tail b)); [lia|].
  assert ((if b_tail b =? 0 then b_N b - 1 else b_tail b - 1) = (b_head b + used) mod b_N b) as E.
  { rewrite mod_near by lia. rewrite T in *. rewrite mod_near in * by lia. destruct (Z.ltb_spec (b_head b + (used + 1)) (b_N b)), (Z.ltb_spec (b_head b + used) (b_N b)); try lia;
      match goal with |- context [?a =? 0] => destruct (Z.eqb_spec a 0) end; lia. }
  rewrite E. eexists. split.
  - f_equal. f_equal. change (nth (Z.to_nat ((b_head b + used) mod b_N b)) (b_buf b) 0) with (zn (b_buf b) ((b_head b + used) mod zlen (b_buf b))).
    rewrite <- (zn_ring _ _ (used + 1)) by lia. rewrite G, app_assoc, zn_app by lia. rewrite zlen_app. fold used. rewrite Z.ltb_irrefl, Z.sub_diag. reflexivity.
  - unfold holds, in_range, q_size, b_N. cbn [b_buf b_head b_ad_tail b_hs_head b_tail fst snd]. fold used.
    assert (0 <= (b_head b + used) mod b_N b < b_N b) by (apply Z.mod_pos_bound; lia).
    assert (ring (b_buf b) (b_head b) used = ad ++ rest) as G2.
    { rewrite app_assoc in G. replace (used + 1) with (zlen (ad ++ rest) + zlen [x]) in G by (rewrite zlen_app; reflexivity).
      apply ring_split in G; [|unfold b_N in N; lia]. destruct G as (G & _). now rewrite zlen_app in G. }
    unfold b_N in *. split; [|tauto]. split; [tauto|]. split; [lia|]. split; [exact A|]. split; [reflexivity|exact G2].
Qed.
Lemma publish_ok dbg b ad rest n : holds b (ad, rest) -> 0 <= n <= zlen rest ->
  exists b', b_increment_application_data_tail dbg b n = TOk b' /\ holds b' (ad ++ ztake n rest, zdrop n rest) /\ b_N b' = b_N b /\
  b_head b' = b_head b /\ b_hs_head b' = b_hs_head b /\ b_tail b' = b_tail b.
Proof.
  intros ((N & Hh & Ha & Hhs & Ht) & S & A & T & G) Hn. unfold q_size in *. cbn [fst snd] in *.
  pose proof (zlen_nonneg ad). unfold b_increment_application_data_tail, b_capacity. destruct (Z.ltb_spec (b_N b - 1) n); [lia|]. rewrite andb_false_r.
  eexists. split; [reflexivity|]. unfold holds, in_range, q_size, b_N. cbn [b_buf b_head b_ad_tail b_hs_head b_tail fst snd]. unfold b_N in *.
  assert (0 <= (b_ad_tail b + n) mod zlen (b_buf b) < zlen (b_buf b)) by (apply Z.mod_pos_bound; lia).
  rewrite zlen_app, zlen_ztake, zlen_zdrop. replace (Z.min (Z.max 0 n) (zlen rest)) with n by lia.
  replace (zlen ad + n + (zlen rest - n)) with (zlen ad + zlen rest) by lia. rewrite <- app_assoc, ztake_zdrop.
  split; [|tauto]. split; [tauto|]. split; [lia|]. split; [|split; [exact T|exact G]]. rewrite A, Zplus_mod_idemp_l. f_equal. lia.
Qed.

(** ** Readers *)
Definition reads (r : CircleReader) (w : list Z) (pos : Z) : Prop :=
  cr_a r ++ cr_b r = w /\ cr_ptr r = pos /\ 0 <= pos <= zlen w /\ zlen w < 16384.
Lemma slices_eq buf tail head : 0 <= head < zlen buf -> 0 <= tail < zlen buf -> tail <> head ->
  let '(x, y) := as_slices buf tail head (zlen buf) in x ++ y = ring buf head ((tail - head) mod zlen buf).
Proof.
  intros Hh Ht Ne. unfold as_slices. destruct (Z.leb_spec tail head).
  - replace ((tail - head) mod zlen buf) with ((zlen buf - head) + tail) by (rewrite mod_low; lia).
    rewrite ring_app by lia. rewrite ring_flat by lia. replace (head + (zlen buf - head)) with (0 + 1 * zlen buf) by lia. rewrite Z.mod_add, Z.mod_0_l by lia.
    rewrite (ring_flat buf 0) by lia. now rewrite zdrop_0.
  - rewrite Z.mod_small by lia. rewrite ring_flat by lia. apply app_nil_r.
Qed.
Lemma reader_ok b ad rest : holds b (ad, rest) ->
  match b_app_data_reader b with None => ad = [] | Some r => ad <> [] /\ reads r ad 0 end.
Proof.
  intros ((N & Hh & Ha & Hhs & Ht) & S & A & T & G). unfold q_size in *. cbn [fst snd] in *. pose proof (zlen_nonneg ad). pose proof (zlen_nonneg rest).
  unfold b_app_data_reader. rewrite mod_near in A by lia. destruct (Z.eqb_spec (b_ad_tail b) (b_head b)) as [E|Ne].
  - apply zlen_0_nil. destruct (_ <? _) in A; lia.
  - pose proof (slices_eq (b_buf b) (b_ad_tail b) (b_head b) Hh Ha Ne) as Hs. fold (b_N b) in Hs. destruct (as_slices _ _ _ _) as (x, y).
    assert (ad <> []) as Hne by (intros ->; rewrite zlen_nil in *; rewrite Z.add_0_r in A; destruct (_ <? _) in A; lia).
    split; [exact Hne|]. unfold reads, cr_new. cbn [cr_a cr_b cr_ptr]. split; [|lia].
    rewrite Hs. replace ((b_ad_tail b - b_head b) mod b_N b) with (zlen ad).
    + apply ring_split in G; [tauto|unfold b_N in *; lia].
    + destruct (Z.ltb_spec (b_head b + zlen ad) (b_N b)); [rewrite Z.mod_small; lia|]. rewrite mod_low; lia.
Qed.
Lemma done_ok b ad rest r pos : holds b (ad, rest) -> cr_ptr r = pos -> 0 <= pos <= zlen ad -> holds (b_reader_done b r) (zdrop pos ad, rest).
Proof.
  intros ((N & Hh & Ha & Hhs & Ht) & S & A & T & G) Ep Hp. unfold q_size in *. cbn [fst snd] in *. pose proof (zlen_nonneg rest).
  unfold holds, in_range, b_reader_done, q_size, b_N. cbn [b_buf b_head b_ad_tail b_hs_head b_tail fst snd]. unfold b_N in *. rewrite Ep.
  rewrite zlen_zdrop. replace (Z.min (Z.max 0 pos) (zlen ad)) with pos by lia.
  assert (0 <= (b_head b + pos) mod zlen (b_buf b) < zlen (b_buf b)) by (apply Z.mod_pos_bound; lia).
  split; [tauto|]. split; [lia|]. rewrite !Zplus_mod_idemp_l. split; [rewrite A; f_equal; lia|]. split; [rewrite T; f_equal; lia|].
  replace (zlen ad + zlen rest) with (pos + (zlen (zdrop pos ad ++ rest))) in G by (rewrite zlen_app, zlen_zdrop; lia).
  rewrite <- (ztake_zdrop pos ad) in G at 2. rewrite <- app_assoc in G. replace pos with (zlen (ztake pos ad)) in G at 1 by (rewrite zlen_ztake; lia).
  apply ring_split in G; [|lia]. destruct G as (_ & G). rewrite zlen_ztake in G. replace (Z.min (Z.max 0 pos) (zlen ad)) with pos in G by lia.
  rewrite zlen_app, zlen_zdrop in G. replace (zlen ad - Z.min (Z.max 0 pos) (zlen ad)) with (zlen ad - pos) in G by lia. exact G.
Qed.

(** ** The calls on a reader *)
Lemma take_two {A} n (x y : list A) : 0 <= n -> (if n <=? zlen x then ztake n x else x ++ ztake (n - zlen x) y) = ztake n (x ++ y).
Proof.
  intros H. unfold ztake, zlen in *. rewrite firstn_app. destruct (Z.leb_spec n (Z.of_nat (length x))).
  - replace (Z.to_nat n - length x)%nat with O by lia. cbn [firstn]. now rewrite app_nil_r.
  - rewrite (firstn_all2 x) by lia. f_equal. f_equal. lia.
Qed.
Lemma reads_slices r w pos : reads r w pos -> exists x y, cr_slices r = TOk (x, y) /\ x ++ y = zdrop pos w.
Proof.
  intros (Ew & Ep & Hp & Hl). unfold cr_slices. rewrite Ep. destruct (Z.leb_spec (zlen (cr_a r)) pos).
  - rewrite <- Ew, zlen_app in Hp. destruct (Z.ltb_spec (zlen (cr_b r)) (pos - zlen (cr_a r))); [lia|]. do 2 eexists. split; [reflexivity|].
    rewrite app_nil_r, <- Ew. unfold zdrop, zlen in *. rewrite skipn_app, (skipn_all2 (cr_a r)) by lia. cbn [app]. f_equal. lia.
  - do 2 eexists. split; [reflexivity|]. rewrite <- Ew. unfold zdrop, zlen in *. rewrite skipn_app. f_equal. replace (Z.to_nat pos - length (cr_a r))%nat with O by lia. reflexivity.
Qed.
Lemma reads_move r w pos p : reads r w pos -> 0 <= p <= zlen w -> reads (cr_seek r p) w p.
Proof. intros (Ew & Ep & Hp & Hl) H. now repeat split; try lia. Qed.
Lemma reads_len r w pos : reads r w pos -> cr_len r = zlen w.
Proof. intros (Ew & Ep & Hp & Hl). unfold cr_len. rewrite <- zlen_app, Ew. unfold u16. apply Z.mod_small. lia. Qed.
Lemma reads_exact r w pos n : reads r w pos -> 0 <= n ->
  if n <=? zlen w - pos then exists r', cr_read_exact r n = TOk (ztake n (zdrop pos w), r') /\ reads r' w (pos + n)
  else cr_read_exact r n = TErr DecodeError.
Proof.
  intros H Hn. destruct (reads_slices r w pos H) as (x & y & E & Exy). unfold cr_read_exact, cr_slices_of_n. rewrite E. cbn [tbind].
  assert (zlen x + zlen y = zlen w - pos) as L by (rewrite <- zlen_app, Exy, zlen_zdrop; destruct H as (_ & _ & H & _); lia). rewrite L.
  destruct (Z.leb_spec n (zlen w - pos)), (Z.ltb_spec (zlen w - pos) n); try lia; [|reflexivity].
  destruct H as (Ew & Ep & Hp & Hl). assert (u16 n = n) as Eu by (unfold u16; apply Z.mod_small; lia).
  assert (forall s, (if n <=? zlen x then TOk (Some (ztake n x, [])) else TOk (Some (x, ztake (n - zlen x) y))) = TOk (Some s) -> fst s ++ snd s = ztake n (zdrop pos w)) as Hs.
  { intros s Es. rewrite <- Exy, <- (take_two n x y) by lia. destruct (n <=? zlen x); injection Es as <-; cbn [fst snd]; rewrite ?app_nil_r; reflexivity. }
  exists (cr_seek r (pos + n)). split; [|now apply (reads_move _ _ pos); [repeat split; trivial; lia|lia]].
  destruct (n <=? zlen x); cbn [tbind]; unfold cr_advance; rewrite Eu, Ep; (destruct (Z.ltb_spec (pos + n) 65536); [|lia]); cbn [tbind]; do 2 f_equal; now apply (Hs (_, _)).
Qed.
Lemma reads_some r w pos n : reads r w pos -> 0 <= n ->
  exists r', cr_read r n = TOk (ztake (Z.min (zlen w - pos) n) (zdrop pos w), r') /\ reads r' w (pos + Z.min (zlen w - pos) n).
Proof.
  intros H Hn. destruct (reads_slices r w pos H) as (x & y & E & Exy). unfold cr_read. rewrite E. cbn [tbind].
  assert (zlen x + zlen y = zlen w - pos) as L by (rewrite <- zlen_app, Exy, zlen_zdrop; destruct H as (_ & _ & H & _); lia).
  destruct H as (Ew & Ep & Hp & Hl). pose proof (zlen_nonneg x). pose proof (zlen_nonneg y).
  replace (Z.min (zlen x) n + Z.min (zlen y) (Z.max 0 (n - zlen x))) with (Z.min (zlen w - pos) n) by lia.
  assert (u16 (Z.min (zlen w - pos) n) = Z.min (zlen w - pos) n) as -> by (unfold u16; apply Z.mod_small; lia).
  unfold cr_advance. rewrite Ep. destruct (Z.ltb_spec (pos + Z.min (zlen w - pos) n) 65536); [|lia]. cbn [tbind].
  exists (cr_seek r (pos + Z.min (zlen w - pos) n)). split; [|now apply (reads_move _ _ pos); [repeat split; trivial; lia|lia]]. f_equal. f_equal. rewrite <- Exy, <- (take_two _ x y) by lia.
  destruct (Z.leb_spec (Z.min (zlen w - pos) n) (zlen x)).
  - replace (Z.min (zlen x) n) with (Z.min (zlen w - pos) n) by lia. rewrite <- (app_nil_r (ztake _ x)) at 2. f_equal. replace (Z.min (zlen y) _) with 0 by lia. reflexivity.
  - replace (Z.min (zlen x) n) with (zlen x) by lia. rewrite ztake_all by lia. f_equal. f_equal. lia.
Qed.
Lemma tr_op_ok r w pos o : reads r w pos -> cop_ok o -> reader_op o = true ->
  let '(x, w', pos') := astep w pos o in w' = w /\ exists r', tr_op r o = TOk (x, r') /\ reads r' w pos'.
Proof.
  intros H Ho Hr. pose proof (reads_len r w pos H) as Hl. pose proof H as H'. destruct H' as (Ew & Ep & Hp & Hs). destruct o; try discriminate; cbn [astep tr_op].
  - destruct p as [n|n|n]; cbn [target tr_seek seek_ok cop_ok] in *; unfold is_u16, is_i16, I16_MAX in *; rewrite ?Hl, ?Ep.
    + destruct (Z.leb_spec 0 n); [|lia]. cbn [andb]. destruct (Z.ltb_spec (zlen w) n), (Z.leb_spec n (zlen w)); try lia; (split; [reflexivity|]); eexists; (split; [reflexivity|]).
      * exact H.
      * apply (reads_move _ _ pos); trivial; lia.
    + destruct (Z.ltb_spec 0 n).
      { destruct (Z.leb_spec (zlen w + n) (zlen w)); [lia|]. rewrite andb_false_r. split; [reflexivity|]. eexists. split; [reflexivity|exact H]. }
      destruct (Z.leb_spec (zlen w + n) (zlen w)); [|lia]. rewrite andb_true_r.
      destruct (Z.ltb_spec (zlen w) (Z.abs n)), (Z.leb_spec 0 (zlen w + n)); try lia; (split; [reflexivity|]); eexists; (split; [reflexivity|]).
      * exact H.
      * replace (zlen w - Z.abs n) with (zlen w + n) by lia. apply (reads_move _ _ pos); trivial; lia.
    + destruct (Z.ltb_spec n (0 - Z.min pos 32767)), (Z.ltb_spec (Z.min (Z.max 0 (zlen w - pos)) 32767) n), (Z.leb_spec 0 (pos + n)), (Z.leb_spec (pos + n) (zlen w)); cbn [orb andb]; try lia;
        (split; [reflexivity|]); eexists; (split; [reflexivity|]); try exact H.
      assert (wadd pos n = pos + n) as -> by (unfold wadd, u16; apply Z.mod_small; lia). apply (reads_move _ _ pos); trivial; lia.
  - split; [reflexivity|]. eexists. split; [reflexivity|]. apply (reads_move _ _ pos); trivial; lia.
  - split; [reflexivity|]. destruct (reads_some r w pos n H Ho) as (r' & E & R). exists r'. split; [|exact R]. now rewrite E.
  - pose proof (reads_exact r w pos n H Ho) as E. destruct (n <=? zlen w - pos).
    + destruct E as (r' & E & R). split; [reflexivity|]. exists r'. split; [|exact R]. now rewrite E.
    + split; [reflexivity|]. exists r. split; [|exact H]. now rewrite E.
Qed.
Lemma tr_ops_ok ops : forall r w pos, reads r w pos -> Forall cop_ok ops -> forallb reader_op ops = true ->
  let '(xs, w', pos') := asteps w pos ops in w' = w /\ exists r', tr_ops r ops = TOk (xs, r') /\ reads r' w pos'.
Proof.
  induction ops as [|o ops IH]; intros r w pos H Ho Hr; cbn [asteps tr_ops].
  - split; [reflexivity|]. now exists r.
  - inversion_clear Ho as [|? ? H1 H2]. cbn [forallb] in Hr. apply andb_true_iff in Hr as (Hr1 & Hr2).
    pose proof (tr_op_ok r w pos o H H1 Hr1) as S. destruct (astep w pos o) as ((x, w1), p1). destruct S as (-> & r1 & -> & R1).
    pose proof (IH r1 w p1 R1 H2 Hr2) as S. destruct (asteps w p1 ops) as ((xs, w2), p2). destruct S as (-> & r2 & -> & R2). split; [reflexivity|]. now exists r2.
Qed.

(** ** Histories *)
Lemma step_ok dbg b q o : holds b q -> buf_op_ok o ->
  match o with BAppend src => q_size q + zlen src <> b_N b | _ => True end ->
  match q_step (b_N b - 1) q o with
  | None => True
  | Some (x, q') => exists b', buf_step dbg b o = TOk (x, b') /\ holds b' q' /\ b_N b' = b_N b
  end.
Proof.
  intros H Ho Hn. destruct q as (ad, rest). destruct o as [src| |n|ops dn|]; cbn [q_step buf_step].
  - destruct (Z.leb_spec (q_size (ad, rest) + zlen src) (b_N b - 1)).
    + destruct (extend_fits dbg b _ src H ltac:(lia)) as (b' & -> & H' & EN & _). exists b'. now rewrite <- EN.
    + rewrite (extend_over dbg b _ src H) by lia. now exists b.
  - destruct rest as [|y rest]; [exact I|]. pose proof (app_removelast_last 0 (l := y :: rest) ltac:(discriminate)) as E.
    set (l := last (y :: rest) 0) in *. set (rl := removelast (y :: rest)) in *. rewrite E in H. destruct (pop_ok b ad rl l H) as (b' & -> & H' & EN & _). exists b'. now rewrite <- EN.
  - destruct (Z.leb_spec 0 n), (Z.leb_spec n (zlen rest)); cbn [andb]; trivial.
    destruct (publish_ok dbg b ad rest n H ltac:(lia)) as (b' & -> & H' & EN & _). exists b'. now rewrite <- EN.
  - pose proof (reader_ok b ad rest H) as R. destruct (b_app_data_reader b) as [r|].
    + destruct R as (Ne & R). destruct ad as [|a ad]; [congruence|]. destruct Ho as (Ho1 & Ho2). pose proof (tr_ops_ok ops r _ 0 R Ho1 Ho2) as S.
      destruct (asteps (a :: ad) 0 ops) as ((xs, w), pos). destruct S as (-> & r' & -> & R'). cbn [tbind fst snd]. eexists. split; [reflexivity|].
      destruct dn; [|split; [exact H|reflexivity]]. split; [|reflexivity]. destruct R' as (_ & Ep & Hp & _). now apply done_ok.
    + subst ad. now exists b.
  - exists (b_reset b). split; [reflexivity|]. split; [now apply holds_reset in H|reflexivity].
Qed.
Lemma run_ok dbg ops : forall b q, holds b q -> Forall buf_op_ok ops -> never_one_over (b_N b - 1) q ops ->
  match q_run (b_N b - 1) q ops with
  | None => True
  | Some (xs, q') => exists b', buf_run dbg b ops = TOk (xs, b') /\ holds b' q'
  end.
Proof.
  induction ops as [|o ops IH]; intros b q H Ho Hn; cbn [q_run buf_run].
  - now exists b.
  - inversion_clear Ho as [|? ? H1 H2]. cbn [never_one_over] in Hn. destruct Hn as (N1 & N2).
    pose proof (step_ok dbg b q o H H1 ltac:(destruct o; trivial; lia)) as S. destruct (q_step _ q o) as [(x, q1)|]; [|exact I].
    destruct S as (b1 & -> & G & EN). cbn [tbind fst snd]. specialize (IH b1 q1 G H2). rewrite EN in IH. specialize (IH N2).
    destruct (q_run _ q1 ops) as [(xs, q2)|]; [|exact I]. destruct IH as (b2 & -> & G2). cbn [tbind fst snd]. now exists b2.
Qed.
Lemma queue_ok dbg buf ops : 2 <= zlen buf <= 16384 -> Forall buf_op_ok ops -> never_one_over (zlen buf - 1) ([], []) ops ->
  match q_run (zlen buf - 1) ([], []) ops with
  | None => True
  | Some (xs, q') => exists b', buf_run dbg (buffer_from buf) ops = TOk (xs, b')
  end.
Proof.
  intros H Ho Hn. pose proof (run_ok dbg ops (buffer_from buf) _ (holds_from buf H) Ho Hn) as R. change (b_N (buffer_from buf)) with (zlen buf) in R.
  destruct (q_run _ _ ops) as [(xs, q')|]; [|exact I]. destruct R as (b' & E & _). now exists b'.
Qed.
