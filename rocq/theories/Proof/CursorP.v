(** Cursors: position accounting for any bus, and the abstract window. *)
From Verif Require Import Proof.SockP Model.HlIo Spec.Hoare Spec.Cursor.

(** ** Any bus *)
Fixpoint wpa {A} (p : prog A) (D : Prop) (Q : A -> Prop) : Prop :=
  match p with
  | Ret a => Q a
  | Rd a b n k => forall r, (match r with Some l => zlen l = Z.max 0 n | None => True end) -> wpa (k r) D Q
  | Wr a b d k => forall r, wpa (k r) D Q
  | Panic => False
  | Diverge => D
  end.
Lemma zlen_chip_rds c b a n : zlen (chip_rds c b a n) = Z.max 0 n.
Proof. apply zlen_ztab. Qed.
Lemma wpa_sound {A} (p : prog A) : forall D Q sch c, wpa p D Q ->
  match run p sch c with
  | (Done a, _, _) => Q a
  | (Panicked, _, _) => False
  | (Diverged, _, _) => D
  end.
Proof.
  induction p as [a|a b n k IH|a b d k IH| |]; intros D Q sch c H; cbn [run wpa] in *; auto.
  - destruct sch as [|t sch]; [apply IH, H; apply zlen_chip_rds|].
    destruct (t_fault t); apply IH, H; [exact I|apply zlen_chip_rds].
  - destruct sch as [|t sch]; [apply IH, H|]. destruct (t_fault t); apply IH, H.
Qed.
Lemma wpa_any {A} (p : prog A) : forall D Q o, wpa p D Q -> any_bus p o ->
  match o with Done a => Q a | Panicked => False | Diverged => D end.
Proof.
  induction p as [a|a b n k IH|a b d k IH| |]; intros D Q o H B; cbn [wpa] in *;
    inversion B; subst; auto.
  - eapply IH; [|eassumption]. apply H. destruct r; intuition.
  - eapply IH; [|eassumption]. apply H.
Qed.
Lemma wpa_mono {A} (p : prog A) : forall (D D' : Prop) (Q Q' : A -> Prop),
  (D -> D') -> (forall a, Q a -> Q' a) -> wpa p D Q -> wpa p D' Q'.
Proof.
  induction p as [a|a b n k IH|a b d k IH| |]; intros D D' Q Q' HD HQ H; cbn [wpa] in *; eauto.
Qed.
Lemma wpa_bind {A B} (p : prog A) (f : A -> prog B) : forall D (Q : B -> Prop),
  wpa p D (fun a => wpa (f a) D Q) -> wpa (bind p f) D Q.
Proof. induction p as [a|a b n k IH|a b d k IH| |]; intros D Q H; cbn [wpa bind] in *; auto. Qed.
Lemma wpa_bindM {A B} (p : M A) (f : A -> M B) D (Q : res err B -> Prop) :
  wpa p D (fun r => match r with Ok a => wpa (f a) D Q | Err e => Q (Err e) end) ->
  wpa (bindM p f) D Q.
Proof.
  intros H. apply wpa_bind. eapply wpa_mono; [| |exact H]; auto. intros [a|e]; auto.
Qed.

(** ** Positions *)
Lemma cur_accounting c : cursor_ok c ->
  0 <= cur_pos c <= cur_len c /\ cur_remain c = cur_len c - cur_pos c /\ cur_len c < 65535.
Proof.
  unfold cursor_ok, cur_pos, cur_len, cur_remain, wsub, is_u16. lia.
Qed.
Lemma cur_move c p : cursor_ok c -> 0 <= p <= cur_len c ->
  forall q, q = (cu_head c + p) mod 65536 ->
  cursor_ok (cur_at c q) /\ cur_pos (cur_at c q) = p.
Proof.
  unfold cursor_ok, cur_pos, cur_len, cur_at, wsub, is_u16. cbn [cu_head cu_tail cu_ptr].
  intros H Hp q ->. lia.
Qed.
Lemma cur_ptr_pos c : cursor_ok c -> cu_ptr c = (cu_head c + cur_pos c) mod 65536.
Proof. unfold cursor_ok, cur_pos, wsub, is_u16. lia. Qed.
Lemma cur_advance c k : cursor_ok c -> 0 <= k <= cur_remain c ->
  cursor_ok (cur_at c (wadd (cu_ptr c) k)) /\ cur_pos (cur_at c (wadd (cu_ptr c) k)) = cur_pos c + k.
Proof.
  intros H Hk. pose proof (cur_accounting c H). apply cur_move; [assumption|lia|].
  rewrite (cur_ptr_pos c H). unfold wadd. rewrite Z.add_mod_idemp_l by lia. f_equal. lia.
Qed.
Lemma cur_at_self c : cur_at c (cu_ptr c) = c.
Proof. now destruct c. Qed.

Lemma cur_seek_spec c p : cursor_ok c -> seek_ok p ->
  let t := target (cur_len c) (cur_pos c) p in
  (0 <= t <= cur_len c /\ exists q, cur_seek c p = Ok (cur_at c q) /\ cursor_ok (cur_at c q) /\
     cur_pos (cur_at c q) = t) \/
  (~ 0 <= t <= cur_len c /\ cur_seek c p = Err UnexpectedEof).
Proof.
  intros H Hp t. pose proof (cur_accounting c H) as (A1 & A2 & A3).
  pose proof (cur_ptr_pos c H) as Ep.
  assert (forall o q, t = o -> q = (cu_head c + t) mod 65536 -> 0 <= t <= cur_len c ->
    cursor_ok (cur_at c q) /\ cur_pos (cur_at c q) = t) as Mv.
  { intros o q _ -> Ht. now apply cur_move. }
  unfold cur_seek, new_ptr. change (wsub (cu_tail c) (cu_head c)) with (cur_len c).
  destruct p as [o|o|o]; unfold seek_ok, is_u16, is_i16 in Hp; subst t; cbn [target] in *.
  - destruct (Z.ltb_spec (cur_len c) o); [right; split; [lia|reflexivity]|].
    left. split; [lia|]. eexists. split; [reflexivity|]. eapply Mv; [reflexivity|reflexivity|lia].
  - destruct ((0 <? o) || (cur_len c <? Z.abs o)) eqn:E.
    + right. split; [lia|reflexivity].
    + left. split; [lia|]. eexists. split; [reflexivity|]. eapply Mv; [reflexivity| |lia].
      unfold wadd, cur_len, wsub. destruct H as (H1 & H2 & H3 & _). unfold is_u16 in *. lia.
  - change (wsub (cu_tail c) (cu_ptr c)) with (cur_remain c).
    change (wsub (cu_ptr c) (cu_head c)) with (cur_pos c).
    destruct ((0 <? o) && (cur_remain c <? Z.abs o) || (o <? 0) && (cur_pos c <? Z.abs o)) eqn:E.
    + right. split; [lia|reflexivity].
    + left. split; [lia|]. eexists. split; [reflexivity|]. eapply Mv; [reflexivity| |lia].
      unfold wadd. rewrite Ep. rewrite Z.add_mod_idemp_l by lia. f_equal. lia.
Qed.

Lemma len16_spec n : len16 n = Z.min n 65535.
Proof. unfold len16. destruct (Z.leb_spec n 65535); lia. Qed.

Definition same_window (c c' : cursor) : Prop :=
  cu_sn c' = cu_sn c /\ cu_head c' = cu_head c /\ cu_tail c' = cu_tail c.
Lemma same_window_at c q : same_window c (cur_at c q).
Proof. repeat split. Qed.

Lemma cop_positions c o : cursor_ok c -> cop_ok o ->
  wpa (cop_run c o) False (fun r => let '(x, c') := r in
    cursor_ok c' /\ same_window c c' /\ pstep (cur_len c) (cur_pos c) o x (cur_pos c')).
Proof.
  intros H Ho. pose proof (cur_accounting c H) as (A1 & A2 & A3).
  destruct o as [p| |n|n|buf|buf]; cbn [cop_run cop_ok] in *.
  - destruct (cur_seek_spec c p H Ho) as [(Ht & q & -> & Hq & Eq)|(Ht & ->)]; cbn [wpa].
    + split; [exact Hq|]. split; [apply same_window_at|]. left. auto.
    + split; [exact H|]. split; [repeat split|]. right. auto.
  - cbn [wpa]. unfold cur_rewind. destruct (cur_move c 0 H ltac:(lia) (cu_head c)) as [M1 M2].
    { destruct H as (H1 & _). unfold is_u16 in H1. lia. }
    split; [exact M1|]. split; [apply same_window_at|]. cbn [pstep]. auto.
  - unfold cur_read. rewrite len16_spec.
    destruct (Z.eqb_spec (Z.min (cur_remain c) (Z.min n 65535)) 0) as [E|E]; cbn.
    + split; [exact H|]. split; [repeat split|]. left. exists []. unfold zlen; cbn. repeat split; lia.
    + intros [l|] Hl; cbn.
      * destruct (cur_advance c (Z.min (cur_remain c) (Z.min n 65535)) H ltac:(lia)) as [M1 M2].
        split; [exact M1|]. split; [repeat split|]. left. exists l. rewrite M2. repeat split; lia.
      * split; [exact H|]. split; [repeat split|]. right. split; reflexivity.
  - unfold cur_read_exact. rewrite len16_spec.
    destruct (Z.eqb_spec (Z.min (cur_remain c) (Z.min n 65535)) (Z.min n 65535)) as [E|E]; cbn.
    + intros [l|] Hl; cbn.
      * destruct (cur_advance c (Z.min (cur_remain c) (Z.min n 65535)) H ltac:(lia)) as [M1 M2].
        split; [exact M1|]. split; [repeat split|]. left. split; [lia|]. exists l. rewrite M2. repeat split; lia.
      * split; [exact H|]. split; [repeat split|]. right; right. split; reflexivity.
    + split; [exact H|]. split; [repeat split|]. right; left. repeat split; lia.
  - unfold cur_write. rewrite len16_spec. pose proof (zlen_nonneg buf).
    destruct (Z.eqb_spec (Z.min (cur_remain c) (Z.min (zlen buf) 65535)) 0) as [E|E]; cbn.
    + split; [exact H|]. split; [repeat split|]. left. split; [f_equal|]; lia.
    + intros [|]; cbn.
      * destruct (cur_advance c (Z.min (cur_remain c) (Z.min (zlen buf) 65535)) H ltac:(lia)) as [M1 M2].
        split; [exact M1|]. split; [repeat split|]. left. rewrite M2. split; [f_equal|]; lia.
      * split; [exact H|]. split; [repeat split|]. right. split; reflexivity.
  - unfold cur_write_all. rewrite len16_spec. pose proof (zlen_nonneg buf).
    destruct (Z.eqb_spec (Z.min (cur_remain c) (Z.min (zlen buf) 65535)) (Z.min (zlen buf) 65535)) as [E|E]; cbn.
    + intros [|]; cbn.
      * destruct (cur_advance c (Z.min (cur_remain c) (Z.min (zlen buf) 65535)) H ltac:(lia)) as [M1 M2].
        split; [exact M1|]. split; [repeat split|]. left. rewrite M2. repeat split; lia.
      * split; [exact H|]. split; [repeat split|]. right; right. split; reflexivity.
    + split; [exact H|]. split; [repeat split|]. right; left. repeat split; lia.
Qed.

Lemma same_window_trans a b c : same_window a b -> same_window b c -> same_window a c.
Proof. unfold same_window. intuition congruence. Qed.
Lemma same_window_len a b : same_window a b -> cur_len b = cur_len a.
Proof. unfold same_window, cur_len. intros (_ & -> & ->). reflexivity. Qed.

Lemma cops_positions ops : forall c, cursor_ok c -> Forall cop_ok ops ->
  wpa (cops_run c ops) False (fun r => let '(xs, c') := r in
    cursor_ok c' /\ same_window c c' /\ psteps (cur_len c) (cur_pos c) ops xs (cur_pos c')).
Proof.
  induction ops as [|o ops IH]; intros c H Ho; cbn [cops_run].
  - cbn. split; [exact H|]. split; [repeat split|]. reflexivity.
  - inversion Ho as [|? ? Ho1 Ho2]; subst. apply wpa_bind.
    eapply wpa_mono; [| |exact (cop_positions c o H Ho1)]; [auto|].
    intros [x c1] (H1 & W1 & P1). cbn [fst snd]. apply wpa_bind.
    eapply wpa_mono; [| |exact (IH c1 H1 Ho2)]; [auto|].
    intros [xs c2] (H2 & W2 & P2). cbn [wpa fst snd].
    split; [exact H2|]. split; [eapply same_window_trans; eassumption|].
    cbn [psteps]. exists (cur_pos c1). rewrite <- (same_window_len _ _ W1).
    split; [rewrite (same_window_len _ _ W1); exact P1|]. split; [|exact P2].
    now apply cur_accounting.
Qed.

(** C07 *)
Lemma cursor_sessions c ops : cursor_ok c -> Forall cop_ok ops ->
  forall sch ch, exists xs c' sch' ch', run (cops_run c ops) sch ch = (Done (xs, c'), sch', ch') /\
    psteps (cur_len c) (cur_pos c) ops xs (cur_pos c') /\
    cursor_ok c' /\ cu_sn c' = cu_sn c /\ cur_len c' = cur_len c /\
    0 <= cur_pos c' <= cur_len c' /\ cur_pos c' + cur_remain c' = cur_len c'.
Proof.
  intros H Ho sch ch. pose proof (wpa_sound _ _ _ sch ch (cops_positions ops c H Ho)) as R.
  destruct (run (cops_run c ops) sch ch) as [[[[xs c']| |] sch'] ch']; try contradiction.
  destruct R as (R1 & R2 & R3). exists xs, c', sch', ch'. split; [reflexivity|].
  pose proof (cur_accounting c' R1). rewrite (same_window_len _ _ R2) in *.
  split; [assumption|]. split; [assumption|]. split; [apply R2|]. split; [reflexivity|]. lia.
Qed.

Lemma asteps_window w ops : forall pos, forallb reader_op ops = true ->
  exists xs p', asteps w pos ops = (xs, w, p').
Proof.
  induction ops as [|o ops IH]; intros pos H; cbn [asteps]; [now exists [], pos|].
  cbn [forallb] in H. apply andb_true_iff in H. destruct H as [H1 H2].
  assert (exists x p1, astep w pos o = (x, w, p1)) as (x & p1 & ->).
  { destruct o; try discriminate H1; cbn [astep];
      repeat match goal with |- context [if ?b then _ else _] => destruct b end; eexists; eexists; reflexivity. }
  destruct (IH p1 H2) as (xs & p2 & ->). eexists; eexists; reflexivity.
Qed.
