(** The [Tcp] trait against the chip: C08 - C11. *)
From Verif Require Export Proof.StreamP Model.HlTcp Spec.TcpClient.

(** ** Reader sessions *)
Definition rx_win (s : sock) (off : Z) (w : list Z) : Prop :=
  exists pre rest, unread s = pre ++ w ++ rest /\ zlen pre = off.

Lemma rx_win_env s s' off w : idle s -> rx_wf s -> env s s' -> rx_win s off w ->
  idle s' /\ rx_wf s' /\ rx_win s' off w /\ s_rx_base s' = s_rx_base s.
Proof.
  intros I W E (pre & rest & Hu & Hp).
  destruct (env_all _ _ I E) as (I' & _ & (_ & B & _ & X & _) & _).
  destruct (X W) as (W' & new & _ & Hu' & _).
  split; [exact I'|]. split; [exact W'|]. split; [|exact B].
  exists pre, (rest ++ new). split; [|exact Hp]. rewrite Hu', Hu, <- !app_assoc. reflexivity.
Qed.
Lemma ztake_exact {A} (l r : list A) : ztake (zlen l) (l ++ r) = l.
Proof. rewrite ztake_app_l by lia. apply ztake_all. lia. Qed.
Lemma zdrop_exact {A} (l r : list A) : zdrop (zlen l) (l ++ r) = r.
Proof. rewrite zdrop_app_l by lia. rewrite zdrop_all by lia. reflexivity. Qed.

(** The bytes at position [p] of the window. *)
Lemma rx_win_read s off w p k q : rx_win s off w -> 0 <= p -> 0 <= k -> p + k <= zlen w ->
  q mod 65536 = (s_rx_base s + off + p) mod 65536 ->
  ring (s_rxmem s) (rx_size s) q k = ztake k (zdrop p w).
Proof.
  intros (pre & rest & Hu & Hp) H1 H2 H3 Eq.
  rewrite <- ring_mod, Eq, ring_mod.
  assert (zlen (unread s) = rx_rsr s) as L.
  { unfold unread. rewrite ring_len. pose proof (wsub_range (s_rx_wr s) (s_rx_base s)).
    unfold rx_rsr, is_u16 in *. lia. }
  rewrite Hu, !zlen_app in L. pose proof (zlen_nonneg pre). pose proof (zlen_nonneg rest).
  apply (f_equal (fun l => ztake k (zdrop (off + p) l))) in Hu. cbv beta in Hu.
  unfold unread in Hu. rewrite ring_drop, ring_take in Hu by lia.
  rewrite <- Z.add_assoc, Hu.
  rewrite zdrop_app_r by lia. replace (off + p - zlen pre) with p by lia.
  rewrite zdrop_app_l by lia. apply ztake_app_l. rewrite zlen_zdrop. lia.
Qed.

Lemma overlay_len w p d : 0 <= p -> p + zlen d <= zlen w -> zlen (overlay w p d) = zlen w.
Proof.
  intros. unfold overlay. pose proof (zlen_nonneg d). rewrite !zlen_app, zlen_ztake, zlen_zdrop. lia.
Qed.
Lemma overlay_nil w p : overlay w p [] = w.
Proof. unfold overlay. rewrite zlen_nil, Z.add_0_r. apply ztake_zdrop. Qed.

Section OneSocket.
Context (sn : Sn).
Let n := snz sn.

Lemma reader_step D c o s off w :
  cu_sn c = sn -> cursor_ok c -> cop_ok o -> reader_op o = true -> zlen w = cur_len c ->
  idle s -> rx_wf s -> rx_win s off w -> cu_head c = (s_rx_base s + off) mod 65536 ->
  wps (cop_run c o) n s D (fun r s' => env s s' /\ cursor_ok (snd r) /\ same_window c (snd r) /\
    astep w (cur_pos c) o = (fst r, w, cur_pos (snd r))).
Proof.
  intros Hsn H Ho Hr Hw I W X Hh. pose proof (cur_accounting c H) as (A1 & A2 & A3).
  pose proof (cur_ptr_pos c H) as Ep.
  assert (forall s1, env s s1 -> forall k, 0 <= k <= cur_remain c ->
    ring (s_rxmem s1) (rx_size s1) (cu_ptr c) k = ztake k (zdrop (cur_pos c) w)) as Rd.
  { intros s1 E k Hk. destruct (rx_win_env _ _ _ _ I W E X) as (_ & _ & X1 & B1).
    apply (rx_win_read s1 off); auto; lia. }
  destruct o as [p| |k|k|buf|buf]; try discriminate Hr; cbn [cop_run cop_ok astep] in *; try rewrite Hw.
  - destruct (cur_seek_spec c p H Ho) as [(Ht & q & -> & Hq & Eq)|(Ht & ->)]; cbn [wps].
    + split; [apply env_refl|]. split; [exact Hq|]. split; [apply same_window_at|]. cbn [fst snd].
      rewrite Eq. destruct (Z.leb_spec 0 (target (cur_len c) (cur_pos c) p)); [|lia].
      destruct (Z.leb_spec (target (cur_len c) (cur_pos c) p) (cur_len c)); [|lia]. reflexivity.
    + split; [apply env_refl|]. split; [exact H|]. split; [repeat split|]. cbn [fst snd].
      destruct (Z.leb_spec 0 (target (cur_len c) (cur_pos c) p)); [|reflexivity].
      destruct (Z.leb_spec (target (cur_len c) (cur_pos c) p) (cur_len c)); [lia|reflexivity].
  - cbn [wps]. unfold cur_rewind. destruct (cur_move c 0 H ltac:(lia) (cu_head c)) as [M1 M2].
    { destruct H as (H1 & _). unfold is_u16 in H1. lia. }
    split; [apply env_refl|]. split; [exact M1|]. split; [apply same_window_at|]. cbn [fst snd]. now rewrite M2.
  - unfold cur_read. rewrite len16_spec.
    replace (Z.min (cur_remain c) (Z.min k 65535)) with (Z.min (cur_len c - cur_pos c) k) by lia.
    set (k0 := Z.min (cur_len c - cur_pos c) k).
    destruct (Z.eqb_spec k0 0) as [E|E]; cbn [negb].
    + cbn [wps bind ret]. split; [apply env_refl|]. split; [exact H|]. split; [repeat split|]. cbn [fst snd].
      rewrite E, ztake_0, Z.add_0_r. reflexivity.
    + rewrite Hsn. apply wps_bind, wps_bindM. apply wps_rx_buf. intros s1 E1. cbn [wps ret].
      destruct (cur_advance c k0 H ltac:(lia)) as [M1 M2].
      split; [exact E1|]. split; [exact M1|]. split; [apply same_window_at|]. cbn [fst snd].
      rewrite M2. rewrite (Rd s1 E1) by lia. reflexivity.
  - unfold cur_read_exact. rewrite len16_spec.
    destruct (Z.eqb_spec (Z.min (cur_remain c) (Z.min k 65535)) (Z.min k 65535)) as [E|E]; cbn [negb].
    + rewrite Hsn. apply wps_bind, wps_bindM. apply wps_rx_buf. intros s1 E1. cbn [wps ret].
      replace (Z.min (cur_remain c) (Z.min k 65535)) with k by lia.
      destruct (cur_advance c k H ltac:(lia)) as [M1 M2].
      split; [exact E1|]. split; [exact M1|]. split; [apply same_window_at|]. cbn [fst snd].
      destruct (Z.leb_spec k (cur_len c - cur_pos c)); [|lia].
      rewrite M2. rewrite (Rd s1 E1) by lia. reflexivity.
    + cbn [wps bind fail]. split; [apply env_refl|]. split; [exact H|]. split; [repeat split|]. cbn [fst snd].
      destruct (Z.leb_spec k (cur_len c - cur_pos c)); [lia|]. reflexivity.
Qed.

Lemma reader_session D ops : forall c s off w,
  cu_sn c = sn -> cursor_ok c -> Forall cop_ok ops -> forallb reader_op ops = true -> zlen w = cur_len c ->
  idle s -> rx_wf s -> rx_win s off w -> cu_head c = (s_rx_base s + off) mod 65536 ->
  wps (cops_run c ops) n s D (fun r s' => env s s' /\ cursor_ok (snd r) /\ same_window c (snd r) /\
    asteps w (cur_pos c) ops = (fst r, w, cur_pos (snd r))).
Proof.
  induction ops as [|o ops IH]; intros c s off w Hsn H Ho Hr Hw I W X Hh; cbn [cops_run].
  - cbn. split; [apply env_refl|]. split; [exact H|]. split; [repeat split|]. reflexivity.
  - pose proof (Forall_inv Ho) as Ho1. pose proof (Forall_inv_tail Ho) as Ho2. cbn [forallb] in Hr. apply andb_true_iff in Hr. destruct Hr as [Hr1 Hr2].
    apply wps_bind. eapply wps_mono; [| |exact (reader_step D c o s off w Hsn H Ho1 Hr1 Hw I W X Hh)]; [auto|].
    intros [x c1] s1 (E1 & H1 & W1 & P1). cbn [fst snd] in *. apply wps_bind.
    destruct (rx_win_env _ _ _ _ I W E1 X) as (I1 & Wf1 & X1 & B1).
    eapply wps_mono; [| |apply (IH c1 s1 off w)]; auto.
    + intros [xs c2] s2 (E2 & H2 & W2 & P2). cbn [wps fst snd] in *.
      split; [eapply env_trans; eassumption|]. split; [exact H2|].
      split; [eapply same_window_trans; eassumption|].
      cbn [asteps]. rewrite P1. rewrite P2. reflexivity.
    + destruct W1 as (-> & _). exact Hsn.
    + now rewrite (same_window_len _ _ W1).
    + destruct W1 as (_ & -> & _). rewrite B1. exact Hh.
Qed.

(** ** Writer sessions *)
(** The host wrote to the free space and nothing else. *)
Definition tx_work (s s' : sock) : Prop :=
  idle s' /\ st_ev s s' /\ rx_ev s s' /\ dest_ev s s' /\
  tx_wr s' = tx_wr s /\ s_tx_cmd s' = s_tx_cmd s /\ tx_size s' = tx_size s /\
  tx_wf s' /\ tx_stream s' = tx_stream s /\ pending s' <= pending s /\
  (udp_open s -> tx_frames s' = tx_frames s).
Lemma tx_work_env s s' : idle s -> tx_wf s -> env s s' -> tx_work s s'.
Proof.
  intros I W E. destruct (env_all _ _ I E) as (I' & S & R & T & Dd).
  destruct T as (T1 & T2 & T3 & T4 & TX). destruct (TX W) as (X1 & X2 & X3 & X4).
  unfold tx_work. auto 12.
Qed.
Lemma tx_work_trans a b c : tx_work a b -> tx_work b c -> tx_work a c.
Proof.
  intros (A1 & A2 & A3 & A4 & A5 & A6 & A7 & A8 & A9 & A10 & A11)
         (B1 & B2 & B3 & B4 & B5 & B6 & B7 & B8 & B9 & B10 & B11).
  unfold tx_work. split; [exact B1|]. split; [eapply st_ev_trans; eassumption|].
  split; [eapply rx_ev_trans; eassumption|].
  split; [destruct A4, B4; split; congruence|].
  do 3 (split; [congruence|]). split; [exact B8|]. split; [congruence|]. split; [lia|].
  intros U. rewrite B11; [auto|]. apply A2, U.
Qed.
Lemma tx_work_window s s' k : idle s -> tx_wf s -> env s s' -> window s' k = window s k.
Proof.
  intros I W E. destruct (env_all _ _ I E) as (_ & _ & _ & (_ & T2 & T3 & T4 & _) & _).
  unfold window. now rewrite T2, T3, T4.
Qed.
Lemma tx_work_fill s p off l m k : idle s -> tx_wf s -> 0 <= off -> off + zlen l <= k ->
  pending s + k <= tx_size s -> p = (s_tx_cmd s + off) mod 65536 ->
  (forall x, m x = ring_write (s_txmem s) (tx_size s) p l x) ->
  tx_work s (with_txmem s m) /\ window (with_txmem s m) k = overlay (window s k) off l.
Proof.
  intros I W H1 H2 H3 H4 H5. destruct (fill s p off l m k W H1 H2 H3 H4 H5) as (F1 & F2 & F3 & F4 & F5).
  split; [|exact F5]. unfold tx_work. split; [exact I|]. split; [exact (st_ev_refl s : st_ev s (with_txmem s m))|].
  split; [exact (rx_ev_refl s : rx_ev s (with_txmem s m))|]. split; [split; reflexivity|].
  repeat (split; [reflexivity|]). split; [exact F1|]. split; [exact F2|]. split; [|auto].
  change (pending (with_txmem s m)) with (pending s). lia.
Qed.

Lemma writer_step D c o s w :
  cu_sn c = sn -> cursor_ok c -> cop_ok o -> writer_op o = true ->
  idle s -> tx_wf s -> cu_head c = s_tx_cmd s -> pending s + cur_len c <= tx_size s ->
  w = window s (cur_len c) ->
  wps (cop_run c o) n s D (fun r s' => tx_work s s' /\ cursor_ok (snd r) /\ same_window c (snd r) /\
    astep w (cur_pos c) o = (fst r, window s' (cur_len c), cur_pos (snd r))).
Proof.
  intros Hsn H Ho Hr I W Hh Hle ->. pose proof (cur_accounting c H) as (A1 & A2 & A3).
  pose proof (cur_ptr_pos c H) as Ep.
  assert (tx_work s s) as Wk by (apply tx_work_env; auto using env_refl).
  assert (zlen (window s (cur_len c)) = cur_len c) as Lw by (unfold window; rewrite ring_len; lia).
  assert (forall l, cur_pos c + zlen l <= cur_len c -> forall s1 m, env s s1 ->
    (forall x, m x = ring_write (s_txmem s1) (tx_size s1) (cu_ptr c) l x) ->
    tx_work s (with_txmem s1 m) /\
    window (with_txmem s1 m) (cur_len c) = overlay (window s (cur_len c)) (cur_pos c) l) as Wr.
  { intros l Hl s1 m E Hm. pose proof (tx_work_env s s1 I W E) as K.
    rewrite <- (tx_work_window s s1) by assumption.
    destruct K as (K1 & K2 & K3 & K4 & K5 & K6 & K7 & K8 & K9 & K10 & K11).
    destruct (tx_work_fill s1 (cu_ptr c) (cur_pos c) l m (cur_len c)) as [F1 F2]; auto; try lia.
    split; [|exact F2]. eapply tx_work_trans; [|exact F1]. apply tx_work_env; auto. }
  destruct o as [p| |k|k|buf|buf]; try discriminate Hr; cbn [cop_run cop_ok astep] in *; try rewrite Lw.
  - destruct (cur_seek_spec c p H Ho) as [(Ht & q & -> & Hq & Eq)|(Ht & ->)]; cbn [wps].
    + split; [exact Wk|]. split; [exact Hq|]. split; [apply same_window_at|]. cbn [fst snd].
      rewrite Eq. destruct (Z.leb_spec 0 (target (cur_len c) (cur_pos c) p)); [|lia].
      destruct (Z.leb_spec (target (cur_len c) (cur_pos c) p) (cur_len c)); [|lia]. reflexivity.
    + split; [exact Wk|]. split; [exact H|]. split; [repeat split|]. cbn [fst snd].
      destruct (Z.leb_spec 0 (target (cur_len c) (cur_pos c) p)); [|reflexivity].
      destruct (Z.leb_spec (target (cur_len c) (cur_pos c) p) (cur_len c)); [lia|reflexivity].
  - cbn [wps]. unfold cur_rewind. destruct (cur_move c 0 H ltac:(lia) (cu_head c)) as [M1 M2].
    { destruct H as (H1 & _). unfold is_u16 in H1. lia. }
    split; [exact Wk|]. split; [exact M1|]. split; [apply same_window_at|]. cbn [fst snd]. now rewrite M2.
  - unfold cur_write. rewrite len16_spec. pose proof (zlen_nonneg buf).
    replace (Z.min (cur_remain c) (Z.min (zlen buf) 65535)) with (Z.min (cur_len c - cur_pos c) (zlen buf)) by lia.
    set (k0 := Z.min (cur_len c - cur_pos c) (zlen buf)).
    destruct (Z.eqb_spec k0 0) as [E|E]; cbn [negb].
    + cbn [wps bind ret]. split; [exact Wk|]. split; [exact H|]. split; [repeat split|]. cbn [fst snd].
      rewrite E, ztake_0, overlay_nil, Z.add_0_r. reflexivity.
    + rewrite Hsn. apply wps_bind, wps_bindM. apply wps_set_tx_buf. intros s1 m E1 Hm. cbn [wps ret].
      destruct (cur_advance c k0 H ltac:(lia)) as [M1 M2].
      destruct (Wr (ztake k0 buf)) with (s1 := s1) (m := m) as [F1 F2]; auto.
      { rewrite zlen_ztake. lia. }
      split; [exact F1|]. split; [exact M1|]. split; [apply same_window_at|]. cbn [fst snd].
      rewrite M2, F2. reflexivity.
  - unfold cur_write_all. rewrite len16_spec. pose proof (zlen_nonneg buf).
    destruct (Z.eqb_spec (Z.min (cur_remain c) (Z.min (zlen buf) 65535)) (Z.min (zlen buf) 65535)) as [E|E]; cbn [negb].
    + rewrite Hsn. apply wps_bind, wps_bindM. apply wps_set_tx_buf. intros s1 m E1 Hm. cbn [wps ret].
      replace (Z.min (cur_remain c) (Z.min (zlen buf) 65535)) with (zlen buf) by lia.
      destruct (cur_advance c (zlen buf) H ltac:(lia)) as [M1 M2].
      destruct (Wr buf) with (s1 := s1) (m := m) as [F1 F2]; auto; try lia.
      split; [exact F1|]. split; [exact M1|]. split; [apply same_window_at|]. cbn [fst snd].
      destruct (Z.leb_spec (zlen buf) (cur_len c - cur_pos c)); [|lia].
      rewrite M2, F2. reflexivity.
    + cbn [wps bind fail]. split; [exact Wk|]. split; [exact H|]. split; [repeat split|]. cbn [fst snd].
      destruct (Z.leb_spec (zlen buf) (cur_len c - cur_pos c)); [lia|]. reflexivity.
Qed.

Lemma writer_session D ops : forall c s w,
  cu_sn c = sn -> cursor_ok c -> Forall cop_ok ops -> forallb writer_op ops = true ->
  idle s -> tx_wf s -> cu_head c = s_tx_cmd s -> pending s + cur_len c <= tx_size s ->
  w = window s (cur_len c) ->
  wps (cops_run c ops) n s D (fun r s' => tx_work s s' /\ cursor_ok (snd r) /\ same_window c (snd r) /\
    asteps w (cur_pos c) ops = (fst r, window s' (cur_len c), cur_pos (snd r))).
Proof.
  induction ops as [|o ops IH]; intros c s w Hsn H Ho Hr I W Hh Hle Hw; cbn [cops_run].
  - cbn. split; [apply tx_work_env; auto using env_refl|]. split; [exact H|]. split; [repeat split|].
    now rewrite Hw.
  - pose proof (Forall_inv Ho) as Ho1. pose proof (Forall_inv_tail Ho) as Ho2. cbn [forallb] in Hr. apply andb_true_iff in Hr. destruct Hr as [Hr1 Hr2].
    apply wps_bind.
    eapply wps_mono; [| |exact (writer_step D c o s _ Hsn H Ho1 Hr1 I W Hh Hle eq_refl)]; [auto|].
    intros [x c1] s1 (E1 & H1 & W1 & P1). cbn [fst snd] in *. apply wps_bind.
    pose proof (same_window_len _ _ W1) as Ln.
    pose proof E1 as (K1 & K2 & K3 & K4 & K5 & K6 & K7 & K8 & K9 & K10 & K11).
    eapply wps_mono; [| |apply (IH c1 s1 (window s1 (cur_len c1)))]; auto; try lia.
    + intros [xs c2] s2 (E2 & H2 & W2 & P2). cbn [wps fst snd] in *.
      split; [eapply tx_work_trans; eassumption|]. split; [exact H2|].
      split; [eapply same_window_trans; eassumption|].
      cbn [asteps]. rewrite Hw, P1. rewrite Ln in P2. rewrite P2. reflexivity.
    + destruct W1 as (-> & _). exact Hsn.
    + destruct W1 as (_ & -> & _). now rewrite K6.
Qed.

(** [send] on a writer. *)
Lemma send_spec D c s : cu_sn c = sn -> cursor_ok c -> idle s -> tx_wf s -> cu_head c = s_tx_cmd s ->
  pending s + cur_len c <= tx_size s ->
  wps (cur_send c) n s D (fun r s' => r = Ok tt /\
    idle s' /\ st_ev s s' /\ rx_ev s s' /\ dest_ev s s' /\ tx_ready s' /\
    pending s' <= pending s + cur_pos c /\ tx_size s' = tx_size s /\
    tx_stream s' = tx_stream s ++ window s (cur_pos c) /\
    (udp_open s -> tx_frames s' = tx_frames s ++
       [{| f_ip := dest_ip s; f_port := dest_port s; f_data := window s (cur_pos c) |}])).
Proof.
  intros Hsn H I W Hh Hle. pose proof (cur_accounting c H) as (A1 & A2 & A3).
  pose proof (cur_ptr_pos c H) as Ep. unfold cur_send. rewrite Hsn.
  apply wps_bindM, wps_set_tx_wr. intros s1 E1.
  pose proof (tx_work_env s s1 I W E1) as (K1 & K2 & K3 & K4 & K5 & K6 & K7 & K8 & K9 & K10 & K11).
  apply wps_bindM, wps_set_cr. intros s2 E2. cbn [wps ret]. split; [reflexivity|].
  destruct (commit s1 (cur_pos c) (cu_ptr c) s2) as (C1 & C2 & C3 & C4 & C5 & C6 & C7 & C8 & C9);
    auto; try lia.
  { apply H. }
  change (command_raw CSend) with 0x20.
  split; [exact C1|]. split; [eapply st_ev_trans; eassumption|]. split; [eapply rx_ev_trans; eassumption|].
  split; [destruct K4, C4; split; congruence|]. split; [exact C5|]. split; [lia|]. split; [congruence|].
  rewrite (tx_work_window s s1 _ I W E1) in *. split; [congruence|].
  intros U. destruct K4 as [K4 K4']. rewrite C9 by (apply K2, U). rewrite K11 by exact U. now rewrite K4, K4'.
Qed.

(** ** The operations *)
Lemma tcp_ok D s : tcp_open s ->
  wps (tcp_state_ok sn) n s D (fun r s' => env s s' /\ r = Ok true).
Proof.
  intros T. unfold tcp_state_ok. apply wps_bindM, wps_sr. intros s1 E. cbn [wps ret]. split; [exact E|].
  destruct (env_all _ _ (tcp_idle _ T) E) as (_ & (_ & S & _) & _). destruct (S T) as [_ H].
  unfold data_state in H. f_equal.
  assert (s_sr s1 = 0x17 \/ s_sr s1 = 0x18 \/ s_sr s1 = 0x1A \/ s_sr s1 = 0x1B \/ s_sr s1 = 0x1C \/
    s_sr s1 = 0x1D \/ s_sr s1 = 0) as K by lia.
  destruct K as [->|[->|[->|[->|[->|[->| ->]]]]]]; reflexivity.
Qed.
Lemma wps_assert_tcp {A} dbg D s (f : unit -> M A) (Q : res err A -> sock -> Prop) : tcp_open s ->
  (forall s1, env s s1 -> wps (f tt) n s1 D Q) ->
  wps (bindM (debug_assert dbg (tcp_state_ok sn)) f) n s D Q.
Proof.
  intros T H. apply wps_bindM. apply wps_debug_assert.
  - intros _. apply H, env_refl.
  - intros _. eapply wps_mono; [| |exact (tcp_ok D s T)]; auto. intros r s' [E ->]. left. auto.
Qed.

(** What events do to a view. *)
Lemma view_env s s' rd tx : tcp_view s rd tx -> env s s' ->
  tcp_view s' rd tx /\ exists new, unread s' = unread s ++ new.
Proof.
  intros (T & (W & R) & (X & C) & L & S) E. pose proof (tcp_idle _ T) as I.
  destruct (env_all _ _ I E) as (I' & (_ & St & _) & (R1 & R2 & R3 & R4 & _) & (T1 & T2 & T3 & T4 & T5) & _).
  destruct (R4 W) as (W' & new & Hn & U & L'). destruct (T5 X) as (X' & S' & _).
  split; [|exists new; exact U].
  split; [auto|]. split; [split; [exact W'|congruence]|]. split; [split; [exact X'|congruence]|].
  split; [|congruence]. rewrite L', L, U, app_assoc. reflexivity.
Qed.
Lemma view_idle s rd tx : tcp_view s rd tx -> idle s.
Proof. intros (T & _). now apply tcp_idle. Qed.
Lemma unread_len s : zlen (unread s) = rx_rsr s.
Proof.
  unfold unread. rewrite ring_len. pose proof (wsub_range (s_rx_wr s) (s_rx_base s)).
  unfold rx_rsr, is_u16 in *. lia.
Qed.
(** Releasing a prefix. *)
Lemma view_release s s2 k v rd tx : tcp_view s rd tx -> 0 <= k <= rx_rsr s ->
  v = (s_rx_base s + k) mod 65536 -> env (put16 s 0x28 v) s2 ->
  tcp_view (exec_cmd s2 0x40) (rd ++ ztake k (unread s)) tx.
Proof.
  intros V Hk Ev E. pose proof V as (T & (W & R) & (X & C) & L & S). pose proof (tcp_idle _ T) as I.
  destruct (release s k v s2 I W Hk) as (I3 & S3 & T3 & D3 & R3 & (new & Hn & U3 & L3) & _); auto.
  { unfold is_u16. lia. }
  destruct T3 as (T31 & T32 & T33 & T34 & T35). destruct (T35 X) as (X3 & S3' & _).
  split; [apply S3, T|]. split; [exact R3|]. split; [split; [exact X3|congruence]|].
  split; [|congruence]. rewrite L3, L, U3, <- !app_assoc. f_equal. rewrite app_assoc, ztake_zdrop. reflexivity.
Qed.
(** Committing: any transmit step that ends ready and keeps the rest. *)
Lemma view_commit s s' rd tx d : tcp_view s rd tx -> st_ev s s' -> rx_ev s s' -> tx_ready s' ->
  tx_stream s' = tx ++ d -> tcp_view s' rd (tx ++ d) /\ exists new, unread s' = unread s ++ new.
Proof.
  intros (T & (W & R) & (X & C) & L & S) St (R1 & R2 & R3 & R4 & _) X' S'.
  destruct (R4 W) as (W' & new & Hn & U & L').
  split; [|exists new; exact U].
  split; [apply St, T|]. split; [split; [exact W'|congruence]|]. split; [exact X'|]. split; [|exact S'].
  rewrite L', L, U, app_assoc. reflexivity.
Qed.

(** C09: one read. *)
Lemma tcp_read_spec D dbg len s rd tx : tcp_view s rd tx -> 0 <= len ->
  wps (tcp_read dbg sn len) n s D (fun r s' => exists d, r = Ok d /\ tcp_view s' (rd ++ d) tx /\
    zlen d <= len /\ Z.min (zlen (unread s)) (Z.min len 65535) <= zlen d /\
    (d = [] -> env s s')).
Proof.
  intros V Hlen. unfold tcp_read. apply wps_assert_tcp; [apply V|]. intros s0 E0.
  destruct (view_env _ _ _ _ V E0) as (V0 & n0 & U0).
  apply wps_bindM, wps_rx_rsr. intros s1 E1. destruct (view_env _ _ _ _ V0 E1) as (V1 & n1 & U1).
  cbv zeta. rewrite len16_spec. pose proof (unread_len s1) as L1.
  assert (zlen (unread s) <= rx_rsr s1) as Lb.
  { rewrite <- L1, U1, U0, !zlen_app. pose proof (zlen_nonneg n0). pose proof (zlen_nonneg n1). lia. }
  pose proof (wsub_range (s_rx_wr s1) (s_rx_base s1)) as Hr. fold (rx_rsr s1) in Hr. unfold is_u16 in Hr.
  set (k := Z.min (rx_rsr s1) (Z.min len 65535)).
  destruct (Z.eqb_spec k 0) as [Ek|Ek]; cbn [negb].
  - cbn [wps ret]. exists []. rewrite app_nil_r. unfold zlen at 1 3. cbn. split; [reflexivity|]. split; [exact V1|].
    split; [lia|]. split; [lia|]. intros _. eapply env_trans; eassumption.
  - apply wps_bindM, wps_rx_rd. intros s2 E2. destruct (view_env _ _ _ _ V1 E2) as (V2 & n2 & U2).
    apply wps_bindM, wps_rx_buf. intros s3 E3. destruct (view_env _ _ _ _ V2 E3) as (V3 & n3 & U3).
    apply wps_bindM, wps_set_rx_rd. intros s4 E4. destruct (view_env _ _ _ _ V3 E4) as (V4 & n4 & U4).
    apply wps_bindM, wps_set_cr. intros s5 E5. cbn [wps ret].
    assert (s_rx_base s2 = s_rx_base s3 /\ s_rx_base s4 = s_rx_base s3) as [B2 B4].
    { destruct (env_all _ _ (view_idle _ _ _ V2) E3) as (_ & _ & (_ & B & _) & _).
      destruct (env_all _ _ (view_idle _ _ _ V3) E4) as (_ & _ & (_ & B' & _) & _). auto. }
    assert (rx_rd s2 = s_rx_base s3) as Erd by (destruct V2 as (_ & (_ & Rr) & _); congruence).
    pose proof (unread_len s3) as L3. rewrite U3, U2, !zlen_app in L3.
    pose proof (unread_len s4) as L4. rewrite U4, U3, U2, !zlen_app in L4.
    pose proof (zlen_nonneg n2). pose proof (zlen_nonneg n3). pose proof (zlen_nonneg n4).
    assert (ring (s_rxmem s3) (rx_size s3) (rx_rd s2) k = ztake k (unread s4)) as Ed.
    { rewrite Erd. unfold k. rewrite <- (ring_take _ _ _ (rx_rsr s3)) by lia. fold (unread s3).
      rewrite U4. symmetry. apply ztake_app_l. rewrite (unread_len s3). lia. }
    rewrite Ed. eexists. split; [reflexivity|].
    rewrite zlen_ztake, unread_len.
    split; [|split; [lia|split; [lia|]]].
    + apply (view_release s4 s5 k (wadd (rx_rd s2) k)); auto; [lia|].
      rewrite Erd, B4. reflexivity.
    + intros X. pose proof (zlen_ztake k (unread s4)) as Y. rewrite X, (unread_len s4), zlen_nil in Y. lia.
Qed.

Lemma tx_fsr_ready s : tx_ready s -> tx_fsr s = tx_size s - pending s.
Proof. intros [(_ & _ & _ & _ & _ & H) E]. unfold tx_fsr. rewrite E. fold (pending s). lia. Qed.

(** Writing [k] bytes of [buf] into the free space and committing them. *)
Lemma put_spec D s0 s buf k :
  idle s0 -> tx_ready s0 -> env s0 s -> 0 <= k <= zlen buf -> k <= tx_size s0 - pending s0 ->
  wps (ptr <- sn_tx_wr sn ;; set_sn_tx_buf sn ptr (ztake k buf) ;;;
       set_sn_tx_wr sn (wadd ptr k) ;;; set_sn_cr sn CSend ;;; ret k) n s D
    (fun r s' => r = Ok k /\ st_ev s0 s' /\ rx_ev s0 s' /\ dest_ev s0 s' /\ tx_ready s' /\
       tx_size s' = tx_size s0 /\ pending s' <= pending s0 + k /\
       tx_stream s' = tx_stream s0 ++ ztake k buf /\
       (udp_open s0 -> tx_frames s' = tx_frames s0 ++
          [{| f_ip := dest_ip s0; f_port := dest_port s0; f_data := ztake k buf |}])).
Proof.
  intros I0 [X0 C0] E0 Hk Hf.
  apply wps_bindM, wps_tx_wr. intros s1 E1.
  assert (env s0 s1) as E01 by (eapply env_trans; eassumption). clear E0 E1.
  pose proof (tx_work_env s0 s1 I0 X0 E01) as K1.
  apply wps_bindM, wps_set_tx_buf. intros s2 m E2 Hm.
  assert (env s0 s2) as E02 by (eapply env_trans; eassumption).
  pose proof (tx_work_env s0 s2 I0 X0 E02) as K2.
  pose proof K1 as (_ & _ & _ & _ & A5 & A6 & A7 & A8 & _ & _ & _).
  pose proof K2 as (B1 & _ & _ & _ & B5 & B6 & B7 & B8 & _ & B10 & _).
  assert (zlen (ztake k buf) = k) as Lk by (rewrite zlen_ztake; lia).
  destruct (tx_work_fill s2 (tx_wr s1) 0 (ztake k buf) m k) as [F1 F2]; auto; try lia.
  { rewrite A5, C0, B6, Z.add_0_r. destruct X0 as (_ & _ & Hc & _). unfold is_u16 in Hc. lia. }
  pose proof (tx_work_trans _ _ _ K2 F1) as K3. set (s3 := with_txmem s2 m) in *.
  assert (window s3 k = ztake k buf) as Wd.
  { rewrite F2. unfold overlay. rewrite ztake_0. cbn [app]. rewrite Lk, zdrop_all, app_nil_r; [reflexivity|].
    unfold window. rewrite ring_len. lia. }
  clear F1 F2.
  apply wps_bindM, wps_set_tx_wr. intros s4 E4.
  pose proof K3 as (G1 & _ & _ & _ & _ & _ & _ & G8 & _).
  pose proof (tx_work_trans _ _ _ K3 (tx_work_env s3 s4 G1 G8 E4)) as K4.
  rewrite <- (tx_work_window s3 s4 k G1 G8 E4) in Wd.
  apply wps_bindM, wps_set_cr. intros s5 E5. cbn [wps ret]. split; [reflexivity|].
  change (command_raw CSend) with 0x20.
  destruct K4 as (H1 & H2 & H3 & H4 & H5 & H6 & H7 & H8 & H9 & H10 & H11).
  destruct (commit s4 k (wadd (tx_wr s1) k) s5) as (Q1 & Q2 & Q3 & Q4 & Q5 & Q6 & Q7 & Q8 & Q9);
    auto; try lia.
  { apply wadd_range. }
  { unfold wadd. rewrite A5, C0, H6. reflexivity. }
  split; [eapply st_ev_trans; eassumption|]. split; [eapply rx_ev_trans; eassumption|].
  split; [destruct H4, Q4; split; congruence|]. split; [exact Q5|]. split; [congruence|]. split; [lia|].
  split; [congruence|]. intros U. destruct H4 as [H4 H4'].
  rewrite Q9 by (apply H2, U). rewrite H11 by exact U. now rewrite Wd, H4, H4'.
Qed.

Lemma tcp_write_spec D dbg buf s rd tx : tcp_view s rd tx ->
  wps (tcp_write dbg sn buf) n s D (fun r s' => exists k, r = Ok k /\
    tcp_view s' rd (tx ++ ztake k buf) /\ (exists new, unread s' = unread s ++ new) /\
    0 <= k <= zlen buf /\ Z.min (Z.min (zlen buf) 65535) (tx_size s - pending s) <= k /\
    (k = 0 -> env s s')).
Proof.
  intros V. unfold tcp_write. apply wps_assert_tcp; [apply V|]. intros s0 E0.
  destruct (view_env _ _ _ _ V E0) as (V0 & n0 & U0).
  assert (forall s1, env s0 s1 -> tx_size s1 = tx_size s /\ pending s1 <= pending s /\ tcp_view s1 rd tx /\
    exists new, unread s1 = unread s ++ new) as Ev.
  { intros s1 E1. destruct (view_env _ _ _ _ V0 E1) as (V1 & n1 & U1).
    pose proof V as (T & _ & (X & C) & _).
    destruct (tx_work_env s s1 (tcp_idle _ T) X) as (_ & _ & _ & _ & _ & _ & A7 & _ & _ & A10 & _).
    { eapply env_trans; eassumption. }
    split; [exact A7|]. split; [exact A10|]. split; [exact V1|]. exists (n0 ++ n1). now rewrite U1, U0, app_assoc. }
  apply wps_bindM, wps_tx_fsr.
  { intros s1 E1. destruct (Ev s1 E1) as (-> & _). apply V. }
  intros s1 E1. destruct (Ev s1 E1) as (Z1 & P1 & V1 & n1 & U1). cbv zeta. rewrite len16_spec.
  assert (tx_fsr s1 = tx_size s1 - pending s1) as Ef by (apply tx_fsr_ready; apply V1).
  pose proof (zlen_nonneg buf).
  assert (0 <= tx_fsr s1) by (unfold tx_fsr; lia).
  set (k := Z.min (Z.min (zlen buf) 65535) (tx_fsr s1)).
  destruct (Z.eqb_spec k 0) as [Ek|Ek]; cbn [negb].
  - cbn [wps ret]. exists k. rewrite Ek, ztake_0, app_nil_r. split; [reflexivity|].
    split; [exact V1|]. split; [eexists; exact U1|]. split; [lia|]. split; [lia|].
    intros _. eapply env_trans; eassumption.
  - eapply wps_mono; [| |apply (put_spec D s1 s1 buf k)]; auto using env_refl; try lia.
    + intros r s' (-> & S' & R' & D' & X' & Z' & P' & St' & _). exists k. split; [reflexivity|].
      destruct (view_commit s1 s' rd tx (ztake k buf)) as (V' & nn & U'); auto.
      { rewrite St'. f_equal. apply V1. }
      split; [exact V'|]. split; [exists (n1 ++ nn); now rewrite U', U1, app_assoc|].
      split; [lia|]. split; [lia|]. intros Hk. contradiction.
    + now apply view_idle in V1.
    + apply V1.
Qed.

Lemma tcp_disconnect_spec D dbg s rd tx : tcp_view s rd tx ->
  wps (tcp_disconnect dbg sn) n s D (fun r s' => r = Ok tt /\ tcp_view s' rd tx /\
    exists new, unread s' = unread s ++ new).
Proof.
  intros V. unfold tcp_disconnect. apply wps_assert_tcp; [apply V|]. intros s0 E0.
  destruct (view_env _ _ _ _ V E0) as (V0 & n0 & U0).
  apply wps_set_cr. intros s1 E1. destruct (view_env _ _ _ _ V0 E1) as (V1 & n1 & U1).
  split; [reflexivity|]. change (command_raw CDisconnect) with 8.
  destruct V1 as ((T1 & T2) & V1).
  unfold exec_cmd. cbn -[with_sr with_cmdlog].
  assert (forall s2, s_pend s2 = s_pend s1 -> (data_state (s_sr s2) = true \/ s_sr s2 = 0) ->
    (rx_ready s1 /\ tx_ready s1 /\ s_rxlog s1 = rd ++ unread s1 /\ tx_stream s1 = tx ->
     rx_ready s2 /\ tx_ready s2 /\ s_rxlog s2 = rd ++ unread s2 /\ tx_stream s2 = tx) ->
    unread s2 = unread s1 ->
    tcp_view s2 rd tx /\ exists new, unread s2 = unread s ++ new) as G.
  { intros s2 G1 G2 G3 G4. split.
    - split; [split; [congruence|exact G2]|]. apply G3, V1.
    - exists (n0 ++ n1). now rewrite G4, U1, U0, app_assoc. }
  destruct (s_sr _ =? 23); [|destruct (s_sr _ =? 28)]; apply G; auto.
Qed.

(** C08: one reader session. *)
Lemma tcp_reader_spec D dbg s rd tx : tcp_view s rd tx ->
  wps (tcp_reader dbg sn) n s D (fun r s' => env s s' /\
    (r = Err WouldBlock /\ unread s = [] \/
     exists c w, r = Ok c /\ cu_sn c = sn /\ cursor_ok c /\ cur_pos c = 0 /\
       cu_head c = s_rx_base s' /\ zlen w = cur_len c /\ w <> [] /\ rx_win s' 0 w)).
Proof.
  intros V. unfold tcp_reader. apply wps_assert_tcp; [apply V|]. intros s0 E0.
  destruct (view_env _ _ _ _ V E0) as (V0 & n0 & U0).
  apply wps_bindM, wps_rx_rsr. intros s1 E1. destruct (view_env _ _ _ _ V0 E1) as (V1 & n1 & U1).
  pose proof (unread_len s1) as L1.
  pose proof (wsub_range (s_rx_wr s1) (s_rx_base s1)) as Hr. fold (rx_rsr s1) in Hr. unfold is_u16 in Hr.
  destruct (Z.eqb_spec (rx_rsr s1) 0) as [Ek|Ek].
  - cbn [wps fail]. split; [eapply env_trans; eassumption|]. left. split; [reflexivity|].
    apply zlen_0_nil. rewrite Ek, U1, U0, !zlen_app in L1.
    pose proof (zlen_nonneg n0). pose proof (zlen_nonneg n1). pose proof (zlen_nonneg (unread s)). lia.
  - apply wps_bindM, wps_rx_rd. intros s2 E2. destruct (view_env _ _ _ _ V1 E2) as (V2 & n2 & U2).
    cbn [wps ret]. split; [eauto using env_trans|]. right.
    exists (mkCur sn (rx_rd s2) (wadd (rx_rd s2) (rx_rsr s1)) (rx_rd s2)), (unread s1).
    pose proof V1 as (_ & ((Hz1 & _ & _ & Hle1) & _) & _). pose proof (size_ok_range _ Hz1).
    pose proof V2 as (_ & (W2 & R2) & _). pose proof W2 as (_ & Hb & _).
    unfold cursor_ok, cur_pos, cur_len, wsub, wadd, is_u16. cbn [cu_sn cu_head cu_tail cu_ptr].
    unfold is_u16 in Hb. rewrite L1, R2. split; [reflexivity|]. split; [reflexivity|].
    split; [lia|]. split; [lia|]. split; [reflexivity|]. split; [lia|].
    split; [intros C; rewrite C, zlen_nil in L1; lia|].
    exists [], n2. split; [exact U2|reflexivity].
Qed.

Lemma tcp_reader_session D dbg ops (fin : bool) s rd tx : tcp_view s rd tx ->
  Forall cop_ok ops -> forallb reader_op ops = true ->
  wps (c <- tcp_reader dbg sn ;; x <-- cops_run c ops ;;
       (if fin then tcp_reader_done (snd x) else ret tt) ;;; ret (fst x)) n s D
   (fun (r : res err (list cres)) (s' : sock) =>
     (r = Err WouldBlock /\ unread s = [] /\ tcp_view s' rd tx) \/
     (exists xs w pos rest, r = Ok xs /\ w <> [] /\ asteps w 0 ops = (xs, w, pos) /\ 0 <= pos <= zlen w /\
        s_rxlog s' = rd ++ w ++ rest /\
        tcp_view s' (rd ++ if fin then ztake pos w else []) tx)).
Proof.
  intros V Ho Hr. apply wps_bindM. eapply wps_mono; [| |exact (tcp_reader_spec D dbg s rd tx V)]; [auto|].
  intros r s1 (E1 & [(-> & Hu)|(c & w & -> & Hsn & Hc & Hp & Hh & Hw & Hne & X)]).
  - left. split; [reflexivity|]. split; [exact Hu|]. now apply (view_env s).
  - destruct (view_env _ _ _ _ V E1) as (V1 & _). pose proof V1 as (T1 & (W1 & R1) & _).
    assert (cu_head c = (s_rx_base s1 + 0) mod 65536) as Hh'.
    { destruct Hc as (Hc & _). rewrite Hh in *. unfold is_u16 in Hc. lia. }
    apply wps_bind.
    eapply wps_mono; [| |apply (reader_session D ops c s1 0 w)]; auto; [|now apply tcp_idle].
    intros [xs c'] s2 (E2 & Hc' & Hw' & Ha). cbn [fst snd] in *. rewrite Hp in Ha.
    destruct (view_env _ _ _ _ V1 E2) as (V2 & _).
    destruct (rx_win_env _ _ _ _ (tcp_idle _ T1) W1 E2 X) as (I2 & W2 & X2 & B2).
    pose proof (cur_accounting c' Hc') as (A1 & _). rewrite (same_window_len _ _ Hw') in A1.
    destruct X2 as (pre & rest & U2 & Lp). apply zlen_0_nil in Lp. subst pre. cbn [app] in U2.
    destruct fin.
    + unfold tcp_reader_done. destruct Hw' as (Hsn' & Hhd & _). rewrite Hsn', Hsn.
      apply wps_bindM, wps_bindM, wps_set_rx_rd. intros s3 E3. destruct (view_env _ _ _ _ V2 E3) as (V3 & n3 & U3).
      apply wps_bindM, wps_set_cr. intros s4 E4. cbn [wps ret]. right.
      assert (s_rx_base s3 = s_rx_base s1) as B3.
      { destruct (env_all _ _ I2 E3) as (_ & _ & (_ & B & _) & _). congruence. }
      pose proof (unread_len s3) as L3. rewrite U3, U2, !zlen_app in L3.
      pose proof (zlen_nonneg n3). pose proof (zlen_nonneg rest).
      pose proof (view_release s3 s4 (cur_pos c') (cu_ptr c') rd tx V3 ltac:(lia)) as VR.
      rewrite B3, <- Hh, <- Hhd in VR. specialize (VR (cur_ptr_pos c' Hc') E4).
      change (command_raw CRecv) with 0x40. set (s5 := exec_cmd s4 0x40) in *.
      assert (ztake (cur_pos c') (unread s3) = ztake (cur_pos c') w) as Et.
      { rewrite U3, U2, <- app_assoc. apply ztake_app_l. lia. }
      rewrite Et in VR.
      assert (exists rest', unread s5 = zdrop (cur_pos c') w ++ rest') as (rest' & U5).
      { destruct V3 as (T3 & (W3 & _) & _).
        destruct (release s3 (cur_pos c') (cu_ptr c') s4 (tcp_idle _ T3) W3 ltac:(lia))
          as (_ & _ & _ & _ & _ & (new & _ & Un & _) & _); auto.
        { apply Hc'. }
        { rewrite B3, <- Hh, <- Hhd. now apply cur_ptr_pos. }
        exists (rest ++ n3 ++ new). unfold s5. rewrite Un, U3, U2, <- !app_assoc, zdrop_app_l by lia.
        now rewrite <- !app_assoc. }
      exists xs, w, (cur_pos c'), rest'. split; [reflexivity|]. split; [exact Hne|].
      split; [exact Ha|]. split; [lia|]. split; [|exact VR].
      destruct VR as (_ & _ & _ & -> & _). rewrite U5, <- !app_assoc. f_equal.
      rewrite app_assoc, ztake_zdrop. reflexivity.
    + cbn [wps bindM bind ret]. right. exists xs, w, (cur_pos c'), rest. split; [reflexivity|].
      split; [exact Hne|]. split; [exact Ha|]. split; [lia|]. rewrite app_nil_r. split; [|exact V2].
      destruct V2 as (_ & _ & _ & -> & _). now rewrite U2.
Qed.

(** C10, C11: one writer session. *)
Lemma tx_writer_spec D s : idle s -> tx_ready s ->
  wps (tx_writer sn) n s D (fun r s' => env s s' /\ exists c, r = Ok c /\ cu_sn c = sn /\ cursor_ok c /\
    cur_pos c = 0 /\ cu_head c = s_tx_cmd s' /\ cur_len c = tx_size s' - pending s').
Proof.
  intros I [X C]. unfold tx_writer. apply wps_bindM, wps_tx_ptrs.
  - intros s1 E1. destruct (tx_work_env s s1 I X E1) as (_ & _ & _ & _ & _ & _ & -> & _). apply X.
  - intros s1 E1. cbn [wps ret txp_wr txp_fsr]. split; [exact E1|]. eexists. split; [reflexivity|].
    destruct (tx_work_env s s1 I X E1) as (_ & _ & _ & _ & A5 & A6 & A7 & A8 & _).
    assert (tx_ready s1) as R1 by (split; [exact A8|congruence]).
    rewrite (tx_fsr_ready _ R1).
    destruct A8 as (Hs & _ & Hc & _ & _ & Hle). pose proof (size_ok_range _ Hs).
    destruct R1 as [_ R1]. rewrite R1.
    pose proof (wsub_range (s_tx_cmd s1) (s_tx_rd s1)) as Hp. fold (pending s1) in Hp.
    unfold cursor_ok, cur_pos, cur_len, wsub, wadd, is_u16 in *. cbn [cu_sn cu_head cu_tail cu_ptr].
    split; [reflexivity|]. split; [lia|]. split; [lia|]. split; [reflexivity|lia].
Qed.

Lemma tcp_writer_session D ops (fin : bool) s rd tx : tcp_view s rd tx ->
  Forall cop_ok ops -> forallb writer_op ops = true ->
  wps (c <- tx_writer sn ;; x <-- cops_run c ops ;;
       (if fin then cur_send (snd x) else ret tt) ;;; ret (fst x)) n s D
   (fun (r : res err (list cres)) (s' : sock) => exists w0 xs w pos, r = Ok xs /\ asteps w0 0 ops = (xs, w, pos) /\
      tx_size s - pending s <= zlen w0 <= tx_size s /\
      tcp_view s' rd (tx ++ if fin then ztake pos w else []) /\ exists new, unread s' = unread s ++ new).
Proof.
  intros V Ho Hr. pose proof V as (T & _ & X & _). pose proof (tcp_idle _ T) as I.
  apply wps_bindM. eapply wps_mono; [| |exact (tx_writer_spec D s I X)]; [auto|].
  intros r s1 (E1 & c & -> & Hsn & Hc & Hp & Hh & Hl).
  destruct (view_env _ _ _ _ V E1) as (V1 & n1 & U1). pose proof (view_idle _ _ _ V1) as I1.
  pose proof V1 as (T1 & _ & (X1 & C1) & _).
  destruct X as [X C]. destruct (tx_work_env s s1 I X E1) as (_ & _ & _ & _ & _ & _ & Ez & _ & _ & Ep & _).
  pose proof (cur_accounting c Hc) as (A1 & A2 & A3).
  apply wps_bind.
  eapply wps_mono; [| |apply (writer_session D ops c s1 (window s1 (cur_len c)))]; auto; [|lia].
  intros [xs c'] s2 (K & Hc' & Hw' & Ha). cbn [fst snd] in *. rewrite Hp in Ha.
  pose proof K as (K1 & K2 & K3 & K4 & K5 & K6 & K7 & K8 & K9 & K10 & K11).
  pose proof (cur_accounting c' Hc') as (B1 & B2 & B3). pose proof (same_window_len _ _ Hw') as Ln.
  assert (zlen (window s1 (cur_len c)) = cur_len c) as Lw by (unfold window; rewrite ring_len; lia).
  assert (tx_size s - pending s <= zlen (window s1 (cur_len c)) <= tx_size s) as Lb.
  { pose proof (wsub_range (s_tx_cmd s1) (s_tx_rd s1)) as Hq. fold (pending s1) in Hq. unfold is_u16 in Hq. lia. }
  destruct fin.
  - apply wps_bindM. eapply wps_mono; [| |apply (send_spec D c' s2)]; auto.
    + intros r s3 (-> & Q1 & Q2 & Q3 & Q4 & Q5 & Q6 & Q7 & Q8 & _). cbn [wps ret].
      exists (window s1 (cur_len c)), xs, (window s2 (cur_len c)), (cur_pos c').
      split; [reflexivity|]. split; [exact Ha|]. split; [exact Lb|].
      assert (ztake (cur_pos c') (window s2 (cur_len c)) = window s2 (cur_pos c')) as ->.
      { unfold window. apply ring_take. lia. }
      destruct (view_commit s1 s3 rd tx (window s2 (cur_pos c'))) as (V3 & n3 & U3); auto.
      { eapply st_ev_trans; eassumption. }
      { eapply rx_ev_trans; eassumption. }
      { rewrite Q8, K9. f_equal. apply V1. }
      split; [exact V3|]. exists (n1 ++ n3). now rewrite U3, U1, app_assoc.
    + destruct Hw' as (-> & _). exact Hsn.
    + destruct Hw' as (_ & -> & _). congruence.
    + lia.
  - cbn [wps bindM bind ret]. exists (window s1 (cur_len c)), xs, (window s2 (cur_len c)), (cur_pos c').
    split; [reflexivity|]. split; [exact Ha|]. split; [exact Lb|].
    destruct (view_commit s1 s2 rd tx []) as (V2 & n2 & U2); auto.
    { split; [exact K8|congruence]. }
    { rewrite app_nil_r, K9. apply V1. }
    split; [exact V2|]. exists (n1 ++ n2). now rewrite U2, U1, app_assoc.
Qed.

(** ** Whole connections *)
Lemma top_spec_more future more o x c p : top_spec future o x c p -> top_spec (future ++ more) o x c p.
Proof.
  intros H. inversion H; subst.
  - eapply TsRead; [|assumption]. rewrite <- app_assoc. reflexivity.
  - now constructor.
  - constructor.
  - eapply TsReader; [|assumption|eassumption]. rewrite <- app_assoc. reflexivity.
  - econstructor; eassumption.
  - constructor.
Qed.

Lemma wps_report {A} (f : A -> tres) (p : M A) s D (Q : tres -> sock -> Prop) :
  wps p n s D (fun r s' => Q (match r with Ok a => f a | Err e => XErr e end) s') ->
  wps (report f p) n s D Q.
Proof. intros H. unfold report. apply wps_bind. eapply wps_mono; [| |exact H]; auto. Qed.

Lemma top_step D dbg o s rd tx : tcp_view s rd tx -> top_ok o ->
  wps (top_run dbg sn o) n s D (fun x s' => exists cons prod future,
    s_rxlog s' = rd ++ future /\ top_spec future o x cons prod /\
    tcp_view s' (rd ++ cons) (tx ++ prod)).
Proof.
  intros V Ho. destruct o as [len|buf|ops fin|ops fin|]; cbn [top_run top_ok] in *; apply wps_report.
  - eapply wps_mono; [| |exact (tcp_read_spec D dbg len s rd tx V Ho)]; [auto|].
    intros r s' (d & -> & V' & Hd & _). exists d, [], (d ++ unread s'). rewrite app_nil_r.
    split; [|split; [econstructor; [reflexivity|exact Hd]|exact V']].
    destruct V' as (_ & _ & _ & -> & _). now rewrite app_assoc.
  - eapply wps_mono; [| |exact (tcp_write_spec D dbg buf s rd tx V)]; [auto|].
    intros r s' (k & -> & V' & _ & Hk & _). exists [], (ztake k buf), (unread s'). rewrite app_nil_r.
    split; [apply V'|]. split; [now constructor|exact V'].
  - destruct Ho as [Ho Hr].
    eapply wps_mono; [| |exact (tcp_reader_session D dbg ops fin s rd tx V Ho Hr)]; [auto|].
    intros r s' [(-> & _ & V')|(xs & w & pos & rest & -> & Hne & Ha & _ & L & V')].
    + exists [], [], (unread s'). rewrite !app_nil_r. split; [apply V'|]. split; [constructor|exact V'].
    + exists (if fin then ztake pos w else []), [], (w ++ rest). rewrite app_nil_r.
      split; [exact L|]. split; [|exact V']. eapply TsReader; [reflexivity|exact Hne|exact Ha].
  - destruct Ho as [Ho Hr].
    eapply wps_mono; [| |exact (tcp_writer_session D ops fin s rd tx V Ho Hr)]; [auto|].
    intros r s' (w0 & xs & w & pos & -> & Ha & _ & V' & _).
    exists [], (if fin then ztake pos w else []), (unread s'). rewrite app_nil_r.
    split; [apply V'|]. split; [econstructor; exact Ha|exact V'].
  - eapply wps_mono; [| |exact (tcp_disconnect_spec D dbg s rd tx V)]; [auto|].
    intros r s' (-> & V' & _). exists [], [], (unread s'). rewrite !app_nil_r.
    split; [apply V'|]. split; [constructor|exact V'].
Qed.

(** The log of received bytes only grows. *)
Definition log_ext (s s' : sock) : Prop := exists more, s_rxlog s' = s_rxlog s ++ more.
Lemma log_same s s' : s_rxlog s' = s_rxlog s -> log_ext s s'.
Proof. intros H. exists []. now rewrite app_nil_r. Qed.
Lemma log_trans a b c : log_ext a b -> log_ext b c -> log_ext a c.
Proof. intros [x X] [y Y]. exists (x ++ y). now rewrite Y, X, app_assoc. Qed.
Lemma log_ev s e : log_ext s (sock_ev s e).
Proof.
  destruct e as [l|ip port data|k|v|v|x y|x y]; cbn [sock_ev].
  1-2: (match goal with |- context [if ?b then _ else _] => destruct b end; [|now apply log_same]);
    unfold rx_store; destruct (_ <=? _); [eexists; reflexivity|now apply log_same].
  - apply log_same. destruct (s_txq s) as [|t q]; [reflexivity|]. cbv zeta.
    destruct (((s_sr s =? 34) || (s_sr s =? 23) || (s_sr s =? 28))); reflexivity.
  - apply log_same. destruct (_ || _); reflexivity.
  - apply log_same. destruct (byteb v); reflexivity.
  - apply log_same. destruct (opening_state (s_sr s)); reflexivity.
  - apply log_same. destruct (s_pend s) as [v|]; [|reflexivity]. destruct (v =? 0); reflexivity.
Qed.
Lemma log_env s s' : env s s' -> log_ext s s'.
Proof.
  intros [l ->]. revert s. induction l as [|e l IH]; intros s; [now apply log_same|].
  unfold sock_evs in *. cbn [fold_left]. eapply log_trans; [apply log_ev|apply IH].
Qed.
Lemma log_cmd s v : s_rxlog (exec_cmd s v) = s_rxlog s.
Proof.
  unfold exec_cmd. cbv zeta.
  repeat match goal with |- context [if ?b then _ else _] => destruct b end; reflexivity.
Qed.
Lemma log_wr s k a v : s_rxlog (sock_wr s k a v) = s_rxlog s.
Proof.
  unfold sock_wr. destruct (k =? 1).
  - unfold sreg_wr. destruct (a =? 1); [apply log_cmd|].
    destruct (a =? 2); [reflexivity|].
    match goal with |- context [if ?b then _ else _] => destruct b end; reflexivity.
  - destruct (k =? 2); [reflexivity|]. destruct (k =? 3); reflexivity.
Qed.
Lemma log_wrs k l : forall s a, s_rxlog (sock_wrs s k a l) = s_rxlog s.
Proof.
  induction l as [|b l IH]; intros s a; cbn [sock_wrs]; [reflexivity|]. rewrite IH. apply log_wr.
Qed.
Lemma wps_log {A} (p : prog A) : forall s D (Q : A -> sock -> Prop), wps p n s D Q ->
  wps p n s D (fun a s' => Q a s' /\ log_ext s s').
Proof.
  induction p as [a|a b len k IH|a b d k IH| |]; intros s D Q H; cbn [wps] in *; auto.
  - split; [exact H|]. now apply log_same.
  - destruct H as (kd & Hk & Hb & H). exists kd. split; [assumption|]. split; [assumption|].
    intros s1 E. eapply wps_mono; [| |apply IH, H, E]; [auto|]. intros x s' [H1 H2].
    split; [exact H1|]. eapply log_trans; [apply log_env, E|exact H2].
  - destruct H as (kd & Hk & Hb & H). exists kd. split; [assumption|]. split; [assumption|].
    intros s1 E. eapply wps_mono; [| |apply IH, H, E]; [auto|]. intros x s' [H1 H2].
    split; [exact H1|]. eapply log_trans; [apply log_env, E|].
    eapply log_trans; [|exact H2]. apply log_same, log_wrs.
Qed.

Lemma tops_steps D dbg ops : forall s rd tx, tcp_view s rd tx -> Forall top_ok ops ->
  wps (tops_run dbg sn ops) n s D (fun xs s' => exists cons prod,
    tops_spec (cons ++ unread s') ops xs cons prod /\
    tcp_view s' (rd ++ cons) (tx ++ prod)).
Proof.
  induction ops as [|o ops IH]; intros s rd tx V Ho; cbn [tops_run].
  - cbn. exists [], []. rewrite !app_nil_r. split; [constructor|exact V].
  - inversion Ho as [|? ? Ho1 Ho2]; subst. apply wps_bind.
    eapply wps_mono; [| |exact (top_step D dbg o s rd tx V Ho1)]; [auto|].
    intros x s1 (cons & prod & future & L1 & S1 & V1). apply wps_bind.
    eapply wps_mono; [| |exact (wps_log _ s1 D _ (IH s1 _ _ V1 Ho2))]; [auto|].
    intros xs s2 ((conss & prods & S2 & V2) & more & L2). cbn [wps].
    exists (cons ++ conss), (prod ++ prods). split; [|rewrite !app_assoc; exact V2].
    rewrite <- app_assoc. econstructor; [|reflexivity|exact S2].
    assert (cons ++ conss ++ unread s2 = future ++ more) as ->.
    { destruct V2 as (_ & _ & _ & L2' & _). rewrite L2', L1, <- !app_assoc in L2.
      now apply app_inv_head in L2. }
    now apply top_spec_more.
Qed.
End OneSocket.

(** ** Corollaries *)
Lemma ensures_wps {A} (p : prog A) sn c (Q : A -> sock -> Prop) :
  wps p (snz sn) (c_sock c (snz sn)) False Q -> ensures p (sn_raw sn) c Q.
Proof.
  intros H sch Hs. pose proof (wps_sound p (snz sn) c False Q sch ltac:(apply snz_range) H Hs) as R.
  destruct (run p sch c) as [[[a| |] sch'] c']; try contradiction.
  exists a, sch', c'. split; [reflexivity|apply R].
Qed.
Lemma ensures_mono {A} (p : prog A) n c (Q Q' : A -> sock -> Prop) :
  ensures p n c Q -> (forall a s, Q a s -> Q' a s) -> ensures p n c Q'.
Proof. intros H HQ sch Hs. destruct (H sch Hs) as (a & sch' & c' & E & HH). eauto 6. Qed.

Lemma tcp_reads dbg sn c rd tx sizes :
  tcp_view (c_sock c (sn_raw sn)) rd tx -> Forall (fun n => 0 <= n) sizes ->
  ensures (tops_run dbg sn (map TRead sizes)) (sn_raw sn) c (fun xs s' =>
    exists ds, xs = map XRead ds /\ Forall2 (fun d n => zlen d <= n) ds sizes /\
      tcp_view s' (rd ++ concat ds) tx).
Proof.
  intros V Hs. eapply ensures_mono.
  - apply ensures_wps. apply (tops_steps sn False dbg _ _ rd tx V).
    apply Forall_map. exact Hs.
  - intros xs s' (cons & prod & S & V'). revert V'. generalize (unread s') as u.
    assert (forall f ops xs cons prod, tops_spec f ops xs cons prod -> forall sizes, ops = map TRead sizes ->
      exists ds, xs = map XRead ds /\ Forall2 (fun d n => zlen d <= n) ds sizes /\ cons = concat ds /\ prod = []) as G.
    { clear. induction 1 as [f|f o x cons prod f' ops xs conss prods H1 E H2 IH]; intros sizes Es.
      - destruct sizes; [|discriminate]. exists []. auto.
      - destruct sizes as [|z sizes]; [discriminate|]. injection Es as -> ->.
        destruct (IH sizes eq_refl) as (ds & -> & F & -> & ->). inversion H1; subst.
        exists (cons :: ds). split; [reflexivity|]. split; [now constructor|]. auto. }
    destruct (G _ _ _ _ _ S sizes eq_refl) as (ds & -> & F & -> & ->). intros _ V'.
    rewrite app_nil_r in V'. eauto.
Qed.
Lemma tcp_writes dbg sn c rd tx bufs :
  tcp_view (c_sock c (sn_raw sn)) rd tx ->
  ensures (tops_run dbg sn (map TWrite bufs)) (sn_raw sn) c (fun xs s' =>
    exists ks, xs = map XWrite ks /\ Forall2 (fun k b => 0 <= k <= zlen b) ks bufs /\
      tcp_view s' rd (tx ++ concat (map (fun kb => ztake (fst kb) (snd kb)) (combine ks bufs)))).
Proof.
  intros V. eapply ensures_mono.
  - apply ensures_wps. apply (tops_steps sn False dbg _ _ rd tx V).
    apply Forall_map. apply Forall_forall. intros; exact I.
  - intros xs s' (cons & prod & S & V'). revert V'. generalize (unread s') as u.
    assert (forall f ops xs cons prod, tops_spec f ops xs cons prod -> forall bufs, ops = map TWrite bufs ->
      exists ks, xs = map XWrite ks /\ Forall2 (fun k b => 0 <= k <= zlen b) ks bufs /\ cons = [] /\
        prod = concat (map (fun kb => ztake (fst kb) (snd kb)) (combine ks bufs))) as G.
    { clear. induction 1 as [f|f o x cons prod f' ops xs conss prods H1 E H2 IH]; intros bufs Es.
      - destruct bufs; [|discriminate]. exists []. auto.
      - destruct bufs as [|b bufs]; [discriminate|]. injection Es as -> ->.
        destruct (IH bufs eq_refl) as (ks & -> & F & -> & ->). inversion H1; subst.
        exists (k :: ks). split; [reflexivity|]. split; [now constructor|]. auto. }
    destruct (G _ _ _ _ _ S bufs eq_refl) as (ks & -> & F & -> & ->). intros _ V'.
    rewrite app_nil_r in V'. eauto.
Qed.

Lemma ztake_overlay w p d : 0 <= p -> p + zlen d <= zlen w -> ztake (p + zlen d) (overlay w p d) = ztake p w ++ d.
Proof.
  intros H1 H2. unfold overlay. rewrite app_assoc. pose proof (zlen_nonneg d).
  assert (zlen (ztake p w ++ d) = p + zlen d) as L by (rewrite zlen_app, zlen_ztake; lia).
  rewrite <- L. apply ztake_exact.
Qed.
Lemma asteps_writes ops : forall w p xs w' p', 0 <= p <= zlen w -> forallb is_write ops = true ->
  asteps w p ops = (xs, w', p') ->
  ztake p' w' = ztake p w ++ concat (map accepted (combine ops xs)) /\ zlen w' = zlen w /\ 0 <= p' <= zlen w'.
Proof.
  induction ops as [|o ops IH]; intros w p xs w' p' Hp Hw E; cbn [asteps] in E.
  - injection E as <- <- <-. cbn. rewrite app_nil_r. auto.
  - cbn [forallb] in Hw. apply andb_true_iff in Hw. destruct Hw as [Hw1 Hw2].
    destruct (astep w p o) as [[x w1] p1] eqn:E1. destruct (asteps w1 p1 ops) as [[xs2 w2] p2] eqn:E2.
    injection E as <- <- <-. cbn [combine map concat].
    assert (ztake p1 w1 = ztake p w ++ accepted (o, x) /\ zlen w1 = zlen w /\ 0 <= p1 <= zlen w1) as (A & B & C).
    { destruct o as [q| |k|k|buf|buf]; try discriminate Hw1; cbn [astep] in E1; pose proof (zlen_nonneg buf).
      - injection E1 as <- <- <-. cbn [accepted]. set (k := Z.min (zlen w - p) (zlen buf)).
        assert (zlen (ztake k buf) = k) as L by (rewrite zlen_ztake; lia).
        rewrite overlay_len by lia. split; [|lia].
        pose proof (ztake_overlay w p (ztake k buf)) as T. rewrite L in T. apply T; lia.
      - destruct (Z.leb_spec (zlen buf) (zlen w - p)); injection E1 as <- <- <-; cbn [accepted].
        + rewrite overlay_len by lia. split; [|lia]. apply ztake_overlay; lia.
        + rewrite app_nil_r. split; [reflexivity|lia]. }
    destruct (IH w1 p1 xs2 w2 p2 C Hw2 E2) as (A2 & B2 & C2).
    split; [|split; [congruence|exact C2]]. rewrite A2, A, <- app_assoc. reflexivity.
Qed.

(** write_all and a fault-prone bus: C11. *)
Lemma write_all_any c buf : cursor_ok c -> forall sch ch,
  exists x c' sch' ch', run (cop_run c (OWriteAll buf)) sch ch = (Done (x, c'), sch', ch') /\
    ((x = RUnit /\ zlen buf <= cur_remain c /\ cur_pos c' = cur_pos c + zlen buf) \/
     (x = RErr OutOfMemory /\ zlen buf > cur_remain c /\ c' = c /\ sch' = sch /\ ch' = ch) \/
     (x = RErr Other /\ zlen buf <= cur_remain c /\ c' = c)).
Proof.
  intros H sch ch. pose proof (cur_accounting c H) as (A1 & A2 & A3). pose proof (zlen_nonneg buf).
  cbn [cop_run]. unfold cur_write_all. rewrite len16_spec.
  destruct (Z.eqb_spec (Z.min (cur_remain c) (Z.min (zlen buf) 65535)) (Z.min (zlen buf) 65535)) as [E|E]; cbn [negb].
  - replace (Z.min (cur_remain c) (Z.min (zlen buf) 65535)) with (zlen buf) by lia.
    destruct (cur_advance c (zlen buf) H ltac:(lia)) as [M1 M2].
    assert (zlen buf <= cur_remain c) by lia.
    cbn. destruct sch as [|t sch]; [|destruct (t_fault t) as [m|]]; cbn.
    2: { do 4 eexists. split; [reflexivity|]. right; right. auto. }
    all: do 4 eexists; (split; [reflexivity|]); left; auto.
  - cbn. do 4 eexists. split; [reflexivity|]. right; left. repeat split; lia.
Qed.
(** What a session of plain writes transmits. *)
Lemma tcp_writer_writes dbg sn c rd tx ops (fin : bool) :
  tcp_view (c_sock c (sn_raw sn)) rd tx -> forallb is_write ops = true ->
  ensures (top_run dbg sn (TWriter ops fin)) (sn_raw sn) c (fun x s' =>
    exists xs, x = XSession xs /\
      tcp_view s' rd (tx ++ if fin then concat (map accepted (combine ops xs)) else [])).
Proof.
  intros V Hw. apply ensures_wps. cbn [top_run]. apply wps_report.
  eapply wps_mono; [| |apply (tcp_writer_session sn False ops fin _ rd tx V)]; [auto| | |].
  - intros r s' (w0 & xs & w & pos & -> & Ha & _ & V' & _). exists xs. split; [reflexivity|].
    destruct (asteps_writes ops w0 0 xs w pos) as (E & _); auto.
    { pose proof (zlen_nonneg w0). lia. }
    rewrite ztake_0 in E. cbn [app] in E. rewrite <- E. exact V'.
  - apply Forall_forall. intros o Ho. rewrite forallb_forall in Hw. specialize (Hw o Ho).
    destruct o; try discriminate; exact I.
  - apply forallb_forall. intros o Ho. rewrite forallb_forall in Hw. specialize (Hw o Ho).
    destruct o; try discriminate; reflexivity.
Qed.

(** ** Statements over runs *)
Lemma tcp_session dbg sn c rd tx ops :
  tcp_view (c_sock c (sn_raw sn)) rd tx -> Forall top_ok ops ->
  ensures (tops_run dbg sn ops) (sn_raw sn) c (fun xs s' => exists cons prod,
    tops_spec (cons ++ unread s') ops xs cons prod /\ tcp_view s' (rd ++ cons) (tx ++ prod)).
Proof. intros V Ho. apply ensures_wps. exact (tops_steps sn False dbg ops _ rd tx V Ho). Qed.
Lemma tcp_read_run dbg sn c rd tx len :
  tcp_view (c_sock c (sn_raw sn)) rd tx -> 0 <= len ->
  ensures (tcp_read dbg sn len) (sn_raw sn) c (fun r s' => exists d, r = Ok d /\
    tcp_view s' (rd ++ d) tx /\ zlen d <= len /\
    Z.min (zlen (unread (c_sock c (sn_raw sn)))) (Z.min len 65535) <= zlen d /\
    (d = [] -> only_events (c_sock c (sn_raw sn)) s')).
Proof. intros V Ho. apply ensures_wps. exact (tcp_read_spec sn False dbg len _ rd tx V Ho). Qed.
Lemma tcp_write_run dbg sn c rd tx buf :
  tcp_view (c_sock c (sn_raw sn)) rd tx ->
  ensures (tcp_write dbg sn buf) (sn_raw sn) c (fun r s' => exists k, r = Ok k /\
    tcp_view s' rd (tx ++ ztake k buf) /\ 0 <= k <= zlen buf /\
    Z.min (Z.min (zlen buf) 65535) (tx_size (c_sock c (sn_raw sn)) - pending (c_sock c (sn_raw sn))) <= k /\
    (k = 0 -> only_events (c_sock c (sn_raw sn)) s')).
Proof.
  intros V. apply ensures_wps. eapply wps_mono; [| |exact (tcp_write_spec sn False dbg buf _ rd tx V)]; auto.
  intros r s' (k & H1 & H2 & _ & H3 & H4 & H5). exists k. auto.
Qed.
Lemma tcp_reader_run dbg sn c rd tx ops (fin : bool) :
  tcp_view (c_sock c (sn_raw sn)) rd tx -> Forall cop_ok ops -> forallb reader_op ops = true ->
  ensures (top_run dbg sn (TReader ops fin)) (sn_raw sn) c (fun x s' =>
    (x = XErr WouldBlock /\ unread (c_sock c (sn_raw sn)) = [] /\ tcp_view s' rd tx) \/
    (exists xs w pos rest, x = XSession xs /\ w <> [] /\ asteps w 0 ops = (xs, w, pos) /\ 0 <= pos <= zlen w /\
        s_rxlog s' = rd ++ w ++ rest /\
        tcp_view s' (rd ++ if fin then ztake pos w else []) tx)).
Proof.
  intros V Ho Hr. apply ensures_wps. cbn [top_run]. apply wps_report.
  eapply wps_mono; [| |exact (tcp_reader_session sn False dbg ops fin _ rd tx V Ho Hr)]; auto.
  intros r s' [(-> & H)|(xs & w & pos & rest & -> & H)]; [left; auto|right; exists xs, w, pos, rest; auto].
Qed.
Lemma tcp_writer_run dbg sn c rd tx ops (fin : bool) :
  tcp_view (c_sock c (sn_raw sn)) rd tx -> Forall cop_ok ops -> forallb writer_op ops = true ->
  ensures (top_run dbg sn (TWriter ops fin)) (sn_raw sn) c (fun x s' => exists w0 xs w pos,
    x = XSession xs /\ asteps w0 0 ops = (xs, w, pos) /\
    tx_size (c_sock c (sn_raw sn)) - pending (c_sock c (sn_raw sn)) <= zlen w0 <= tx_size (c_sock c (sn_raw sn)) /\
    tcp_view s' rd (tx ++ if fin then ztake pos w else [])).
Proof.
  intros V Ho Hr. apply ensures_wps. cbn [top_run]. apply wps_report.
  eapply wps_mono; [| |exact (tcp_writer_session sn False ops fin _ rd tx V Ho Hr)]; auto.
  intros r s' (w0 & xs & w & pos & -> & H1 & H2 & H3 & _). exists w0, xs, w, pos. auto.
Qed.
