(** Generic stream code: proof rules on windows, and refinement by the readers and writers of
    w5500-hl on the chip. *)
From Verif Require Export Proof.UdpP Spec.StreamRun.

(** ** Weakest preconditions on windows *)
Fixpoint wpa {A} (ok : cop -> Prop) (p : sprog A) (w : list Z) (pos : Z) (D : Prop)
    (Q : A -> list Z -> Z -> Prop) : Prop :=
  match p with
  | SRet a => Q a w pos
  | SCall o k => ok o /\ (let '(x, w', pos') := astep w pos o in wpa ok (k x) w' pos' D Q)
  | SAsk q k => wpa ok (k (aask w pos q)) w pos D Q
  | SPanic => False
  | SDiverge => D
  end.

Lemma wpa_mono {A} (ok ok' : cop -> Prop) (p : sprog A) : forall w pos (D D' : Prop) (Q Q' : A -> list Z -> Z -> Prop),
  (forall o, ok o -> ok' o) -> (D -> D') -> (forall a w' pos', Q a w' pos' -> Q' a w' pos') ->
  wpa ok p w pos D Q -> wpa ok' p w pos D' Q'.
Proof.
  induction p as [a|o k IH|q k IH| |]; cbn [wpa]; intros w pos D D' Q Q' Ho HD HQ; auto.
  - intros [H1 H2]. split; [auto|]. destruct (astep w pos o) as [[x w'] pos']. eauto.
  - eauto.
Qed.
Lemma wpa_conseq {A} ok (p : sprog A) w pos (D : Prop) (Q Q' : A -> list Z -> Z -> Prop) :
  wpa ok p w pos D Q -> (forall a w' pos', Q a w' pos' -> Q' a w' pos') -> wpa ok p w pos D Q'.
Proof. intros H HQ. eapply wpa_mono; [| | |exact H]; auto. Qed.
Lemma wpa_bind {A B} ok (p : sprog A) (f : A -> sprog B) : forall w pos D (Q : B -> list Z -> Z -> Prop),
  wpa ok p w pos D (fun a w' pos' => wpa ok (f a) w' pos' D Q) -> wpa ok (sbind p f) w pos D Q.
Proof.
  induction p as [a|o k IH|q k IH| |]; cbn [wpa sbind]; intros w pos D Q; auto.
  intros [H1 H2]. split; [exact H1|]. destruct (astep w pos o) as [[x w'] pos']. auto.
Qed.
Lemma wpa_bindM {A B} ok (p : SM A) (f : A -> SM B) w pos D (Q : res err B -> list Z -> Z -> Prop) :
  wpa ok p w pos D (fun r w' pos' => match r with Ok a => wpa ok (f a) w' pos' D Q | Err e => Q (Err e) w' pos' end) ->
  wpa ok (sbindM p f) w pos D Q.
Proof.
  intros H. apply wpa_bind. eapply wpa_mono; [| | |exact H]; auto. intros [a|e] w' pos'; auto.
Qed.
Lemma wpa_arun {A} ok (p : sprog A) : forall w pos (Q : A -> list Z -> Z -> Prop),
  wpa ok p w pos False Q -> exists a w' pos', arun p w pos = (Done a, w', pos') /\ Q a w' pos'.
Proof.
  induction p as [a|o k IH|q k IH| |]; cbn [wpa arun]; intros w pos Q; try contradiction; eauto.
  intros [_ H]. destruct (astep w pos o) as [[x w'] pos']. eauto.
Qed.
Lemma wpa_arun_div {A} ok (p : sprog A) : forall w pos (Q : A -> list Z -> Z -> Prop),
  wpa ok p w pos True Q -> (exists w' pos', arun p w pos = (Diverged, w', pos')) \/
  exists a w' pos', arun p w pos = (Done a, w', pos') /\ Q a w' pos'.
Proof.
  induction p as [a|o k IH|q k IH| |]; cbn [wpa arun]; intros w pos Q; try contradiction; eauto 6.
  intros [_ H]. destruct (astep w pos o) as [[x w'] pos']. eauto.
Qed.
Lemma arun_wpa {A} ok (p : sprog A) : forall w pos D (Q : A -> list Z -> Z -> Prop),
  calls_ok ok p w pos ->
  match arun p w pos with (Done a, w', pos') => Q a w' pos' | (Panicked, _, _) => False | (Diverged, _, _) => D end ->
  wpa ok p w pos D Q.
Proof.
  induction p as [a|o k IH|q k IH| |]; cbn [wpa arun calls_ok]; intros w pos D Q; auto.
  intros [Ho H]. split; [exact Ho|]. destruct (astep w pos o) as [[x w'] pos']. auto.
Qed.
Lemma arun_bind {A B} (p : sprog A) (f : A -> sprog B) : forall w pos,
  arun (sbind p f) w pos =
  match arun p w pos with
  | (Done a, w', pos') => arun (f a) w' pos'
  | (Panicked, w', pos') => (Panicked, w', pos')
  | (Diverged, w', pos') => (Diverged, w', pos')
  end.
Proof.
  induction p as [a|o k IH|q k IH| |]; cbn [sbind arun]; intros w pos; auto.
  destruct (astep w pos o) as [[x w'] pos']. apply IH.
Qed.

(** ** One call *)
Section Rules.
Context {B : Type}.
Implicit Types (ok : cop -> Prop) (D : Prop) (w : list Z) (Q : res err B -> list Z -> Z -> Prop).
Lemma wpa_seek_start ok o (f : unit -> SM B) w pos D Q : ok (OSeek (SStart o)) -> 0 <= o ->
  (if o <=? zlen w then wpa ok (f tt) w o D Q else Q (Err UnexpectedEof) w pos) ->
  wpa ok (sbindM (s_seek (SStart o)) f) w pos D Q.
Proof.
  intros Ho Hr H. cbn [sbindM sbind s_seek wpa]. split; [exact Ho|]. cbn [astep target].
  destruct (Z.leb_spec 0 o); [|lia]. cbn [andb]. destruct (o <=? zlen w); exact H.
Qed.
Lemma wpa_seek_cur ok o (f : unit -> SM B) w pos D Q : ok (OSeek (SCurrent o)) ->
  (if (0 <=? pos + o) && (pos + o <=? zlen w) then wpa ok (f tt) w (pos + o) D Q else Q (Err UnexpectedEof) w pos) ->
  wpa ok (sbindM (s_seek (SCurrent o)) f) w pos D Q.
Proof.
  intros Ho H. cbn [sbindM sbind s_seek wpa]. split; [exact Ho|]. cbn [astep target].
  destruct ((0 <=? pos + o) && (pos + o <=? zlen w)); exact H.
Qed.
Lemma wpa_rewind ok (f : unit -> SM B) w pos D Q : ok ORewind ->
  wpa ok (f tt) w 0 D Q -> wpa ok (sbindM s_rewind f) w pos D Q.
Proof. intros Ho H. cbn. auto. Qed.
Lemma wpa_read ok n (f : list Z -> SM B) w pos D Q : ok (ORead n) ->
  wpa ok (f (ztake (Z.min (zlen w - pos) n) (zdrop pos w))) w (pos + Z.min (zlen w - pos) n) D Q ->
  wpa ok (sbindM (s_read n) f) w pos D Q.
Proof. intros Ho H. cbn [sbindM sbind s_read wpa astep]. auto. Qed.
Lemma wpa_read_exact ok n (f : list Z -> SM B) w pos D Q : ok (OReadExact n) ->
  (if n <=? zlen w - pos then wpa ok (f (ztake n (zdrop pos w))) w (pos + n) D Q else Q (Err UnexpectedEof) w pos) ->
  wpa ok (sbindM (s_read_exact n) f) w pos D Q.
Proof. intros Ho H. cbn [sbindM sbind s_read_exact wpa astep]. split; [exact Ho|]. destruct (n <=? zlen w - pos); exact H. Qed.
Lemma wpa_write_all ok d (f : unit -> SM B) w pos D Q : ok (OWriteAll d) ->
  (if zlen d <=? zlen w - pos then wpa ok (f tt) (overlay w pos d) (pos + zlen d) D Q else Q (Err OutOfMemory) w pos) ->
  wpa ok (sbindM (s_write_all d) f) w pos D Q.
Proof. intros Ho H. cbn [sbindM sbind s_write_all wpa astep]. split; [exact Ho|]. destruct (zlen d <=? zlen w - pos); exact H. Qed.
Lemma wpa_position ok (f : Z -> SM B) w pos D Q :
  wpa ok (f pos) w pos D Q -> wpa ok (sbindM s_position f) w pos D Q.
Proof. intros H. exact H. Qed.
Lemma wpa_remain ok (f : Z -> SM B) w pos D Q :
  wpa ok (f (zlen w - pos)) w pos D Q -> wpa ok (sbindM s_remain f) w pos D Q.
Proof. intros H. exact H. Qed.
Lemma wpa_sret {A} ok (a : A) (f : A -> SM B) w pos D Q :
  wpa ok (f a) w pos D Q -> wpa ok (sbindM (sret a) f) w pos D Q.
Proof. intros H. exact H. Qed.
End Rules.

(** Calls on a window keep the position inside. *)
Lemma astep_pos w pos o : 0 <= pos <= zlen w -> cop_ok o ->
  let '(x, w', pos') := astep w pos o in zlen w' = zlen w /\ 0 <= pos' <= zlen w'.
Proof.
  intros Hp Ho. destruct o as [p| |k|k|d|d]; cbn [astep cop_ok] in *.
  - destruct ((0 <=? target (zlen w) pos p) && (target (zlen w) pos p <=? zlen w)) eqn:E; [|lia].
    apply andb_true_iff in E. lia.
  - pose proof (zlen_nonneg w). lia.
  - lia.
  - destruct (Z.leb_spec k (zlen w - pos)); lia.
  - pose proof (zlen_nonneg d). rewrite overlay_len by (rewrite ?zlen_ztake; lia). lia.
  - pose proof (zlen_nonneg d). destruct (Z.leb_spec (zlen d) (zlen w - pos)); [rewrite overlay_len; lia|lia].
Qed.

(** Reading calls leave the window alone. *)
Lemma astep_reader w pos o : reader_op o = true -> snd (fst (astep w pos o)) = w.
Proof.
  destruct o as [p| |k|k|d|d]; cbn; try discriminate; auto.
  - now destruct (_ && _).
  - now destruct (_ <=? _).
Qed.
Lemma wpa_reader {A} (p : sprog A) : forall w pos D (Q : A -> list Z -> Z -> Prop), 0 <= pos <= zlen w ->
  wpa rd_ok p w pos D Q -> wpa rd_ok p w pos D (fun a w' pos' => w' = w /\ 0 <= pos' <= zlen w /\ Q a w pos').
Proof.
  induction p as [a|o k IH|q k IH| |]; cbn [wpa]; intros w pos D Q Hp; auto.
  intros [Ho H]. split; [exact Ho|]. pose proof (astep_pos w pos o Hp (proj1 Ho)) as Hq.
  pose proof (astep_reader w pos o (proj2 Ho)) as Hw.
  destruct (astep w pos o) as [[x w'] pos']. cbn in Hw. subst w'. apply IH; [lia|exact H].
Qed.

(** ** On the chip *)
Section OnChip.
Context (sn : Sn).
Let n := snz sn.

Lemma reader_prog {A} (p : sprog A) : forall D c s off w Q,
  cu_sn c = sn -> cursor_ok c -> zlen w = cur_len c ->
  idle s -> rx_wf s -> rx_win s off w -> cu_head c = (s_rx_base s + off) mod 65536 ->
  wpa rd_ok p w (cur_pos c) D Q ->
  wps (on_cursor c p) n s D (fun r s' => env s s' /\ cursor_ok (snd r) /\ same_window c (snd r) /\
    Q (fst r) w (cur_pos (snd r))).
Proof.
  induction p as [a|o k IH|q k IH| |]; intros D c s off w Q Hsn H Hw I W X Hh Hp; cbn [on_cursor wpa] in *; auto.
  - cbn. split; [apply env_refl|]. split; [exact H|]. split; [repeat split|]. exact Hp.
  - destruct Hp as [[Ho Hr] Hp]. apply wps_bind.
    eapply wps_mono; [| |exact (reader_step sn D c o s off w Hsn H Ho Hr Hw I W X Hh)]; [auto|].
    intros [x c1] s1 (E1 & H1 & W1 & P1). cbn [fst snd] in *. rewrite P1 in Hp.
    destruct (rx_win_env _ _ _ _ I W E1 X) as (I1 & Wf1 & X1 & B1).
    eapply wps_mono; [| |apply (IH x D c1 s1 off w Q)]; auto.
    + intros [xs c2] s2 (E2 & H2 & W2 & P2). cbn [wps fst snd] in *.
      split; [eapply env_trans; eassumption|]. split; [exact H2|].
      split; [eapply same_window_trans; eassumption|]. exact P2.
    + destruct W1 as (-> & _). exact Hsn.
    + now rewrite (same_window_len _ _ W1).
    + destruct W1 as (_ & -> & _). rewrite B1. exact Hh.
  - pose proof (cur_accounting c H) as (A1 & A2 & A3).
    assert (ask_run c q = aask w (cur_pos c) q) as -> by (destruct q; cbn; lia).
    now apply (IH _ D c s off w Q).
Qed.

Lemma writer_prog {A} (p : sprog A) : forall D c s w Q,
  cu_sn c = sn -> cursor_ok c ->
  idle s -> tx_wf s -> cu_head c = s_tx_cmd s -> pending s + cur_len c <= tx_size s ->
  w = window s (cur_len c) ->
  wpa wr_ok p w (cur_pos c) D Q ->
  wps (on_cursor c p) n s D (fun r s' => tx_work s s' /\ cursor_ok (snd r) /\ same_window c (snd r) /\
    Q (fst r) (window s' (cur_len c)) (cur_pos (snd r))).
Proof.
  induction p as [a|o k IH|q k IH| |]; intros D c s w Q Hsn H I W Hh Hle Hw Hp; cbn [on_cursor wpa] in *; auto.
  - cbn. split; [apply tx_work_env; auto using env_refl|]. split; [exact H|]. split; [repeat split|].
    now rewrite <- Hw.
  - destruct Hp as [[Ho Hr] Hp]. apply wps_bind.
    eapply wps_mono; [| |exact (writer_step sn D c o s w Hsn H Ho Hr I W Hh Hle Hw)]; [auto|].
    intros [x c1] s1 (E1 & H1 & W1 & P1). cbn [fst snd] in *. rewrite P1 in Hp.
    pose proof (same_window_len _ _ W1) as Ln.
    pose proof E1 as (K1 & K2 & K3 & K4 & K5 & K6 & K7 & K8 & K9 & K10 & K11).
    eapply wps_mono; [| |apply (IH x D c1 s1 (window s1 (cur_len c1)) Q)]; auto; try lia.
    + intros [xs c2] s2 (E2 & H2 & W2 & P2). cbn [wps fst snd] in *.
      split; [eapply tx_work_trans; eassumption|]. split; [exact H2|].
      split; [eapply same_window_trans; eassumption|]. now rewrite Ln in P2.
    + destruct W1 as (-> & _). exact Hsn.
    + destruct W1 as (_ & -> & _). now rewrite K6.
    + now rewrite Ln.
  - pose proof (cur_accounting c H) as (A1 & A2 & A3).
    assert (zlen w = cur_len c) as Lw by (subst w; unfold window; rewrite ring_len; lia).
    assert (ask_run c q = aask w (cur_pos c) q) as -> by (destruct q; cbn; lia).
    now apply (IH _ D c s w Q).
Qed.
End OnChip.
