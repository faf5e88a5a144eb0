(** Calls on a failing bus: C94. *)
From Verif Require Export Proof.UdpP Spec.Retry.

(** ** Programs on one socket over a bus that may fail at any transaction *)
Fixpoint wpx {A} (p : prog A) (n : Z) (s : sock) (Q : A -> sock -> Prop) : Prop :=
  match p with
  | Ret a => Q a s
  | Rd a b len k =>
      (exists kd, 1 <= kd <= 3 /\ b = 4 * n + kd /\
        forall s1, env s s1 -> wpx (k (Some (sock_rds s1 kd a len))) n s1 Q /\ wpx (k None) n s1 Q)
  | Wr a b d k =>
      (exists kd, 1 <= kd <= 3 /\ b = 4 * n + kd /\
        forall s1, env s s1 -> wpx (k true) n (sock_wrs s1 kd a d) Q /\
          forall m, wpx (k false) n (sock_wrs s1 kd a (firstn m d)) Q)
  | Panic => False
  | Diverge => False
  end.

Lemma wpx_sound {A} (p : prog A) : forall n c (Q : A -> sock -> Prop),
  0 <= n -> wpx p n (c_sock c n) Q -> survives p n c Q.
Proof.
  induction p as [a|a b len k IH|a b d k IH| |]; intros n c Q Hn H sch; cbn [run wpx] in *.
  - eauto.
  - destruct H as (kd & Hk & -> & H). destruct sch as [|t sch].
    + destruct (H _ (env_refl _)) as [H1 _]. rewrite chip_rds_sock by assumption. now apply IH.
    + cbv zeta. destruct (H _ (env_evs c (t_evs t) n)) as [H1 H2].
      destruct (t_fault t); [|rewrite chip_rds_sock by assumption]; now apply IH.
  - destruct H as (kd & Hk & -> & H). destruct sch as [|t sch].
    + destruct (H _ (env_refl _)) as [H1 _]. destruct (chip_wrs_sock d c n kd a Hn Hk) as (_ & E2 & _).
      apply IH; [assumption|]. now rewrite E2.
    + cbv zeta. destruct (H _ (env_evs c (t_evs t) n)) as [H1 H2].
      destruct (t_fault t) as [m|].
      * destruct (chip_wrs_sock (firstn m d) (chip_evs c (t_evs t)) n kd a Hn Hk) as (_ & E2 & _).
        apply IH; [assumption|]. rewrite E2. apply H2.
      * destruct (chip_wrs_sock d (chip_evs c (t_evs t)) n kd a Hn Hk) as (_ & E2 & _).
        apply IH; [assumption|]. rewrite E2. apply H1.
  - contradiction.
  - contradiction.
Qed.

Lemma wpx_mono {A} (p : prog A) : forall n s (Q Q' : A -> sock -> Prop),
  (forall a s', Q a s' -> Q' a s') -> wpx p n s Q -> wpx p n s Q'.
Proof.
  induction p as [a|a b len k IH|a b d k IH| |]; intros n s Q Q' HQ H; cbn [wpx] in *; auto.
  - destruct H as (kd & Hk & E & H). exists kd. split; [exact Hk|]. split; [exact E|].
    intros s1 E1. destruct (H s1 E1) as [H1 H2]. split; eapply IH; eauto.
  - destruct H as (kd & Hk & E & H). exists kd. split; [exact Hk|]. split; [exact E|].
    intros s1 E1. destruct (H s1 E1) as [H1 H2]. split; [eapply IH; eauto|]. intros m. eapply IH; eauto.
Qed.
Lemma wpx_bind {A B} (p : prog A) (f : A -> prog B) : forall n s (Q : B -> sock -> Prop),
  wpx p n s (fun a s' => wpx (f a) n s' Q) -> wpx (bind p f) n s Q.
Proof.
  induction p as [a|a b len k IH|a b d k IH| |]; intros n s Q H; cbn [wpx bind] in *; auto.
  - destruct H as (kd & Hk & E & H). exists kd. split; [exact Hk|]. split; [exact E|].
    intros s1 E1. destruct (H s1 E1) as [H1 H2]. split; now apply IH.
  - destruct H as (kd & Hk & E & H). exists kd. split; [exact Hk|]. split; [exact E|].
    intros s1 E1. destruct (H s1 E1) as [H1 H2]. split; [now apply IH|]. intros m. now apply IH.
Qed.
Lemma wpx_bindM {A B} (p : M A) (f : A -> M B) n s (Q : res err B -> sock -> Prop) :
  wpx p n s (fun r s' => match r with Ok a => wpx (f a) n s' Q | Err e => Q (Err e) s' end) ->
  wpx (bindM p f) n s Q.
Proof.
  intros H. apply wpx_bind. eapply wpx_mono; [|exact H]. intros [a|e] s'; auto.
Qed.

Section Rules.
Context (sn : Sn).
Let n := snz sn.

Lemma wpx_get {B} (get : M B) lo len dec s (Q : res err B -> sock -> Prop) :
  get = (l <- read lo (sn_block sn) len ;; ret (dec l)) ->
  (forall s1, env s s1 -> Q (Ok (dec (sock_rds s1 1 lo len))) s1 /\ Q (Err Other) s1) ->
  wpx get n s Q.
Proof. intros -> H. cbn. exists 1. split; [lia|]. split; [apply sn_block_eq|]. exact H. Qed.
Lemma wpx_rx_rsr s (Q : res err Z -> sock -> Prop) :
  (forall s1, env s s1 -> Q (Ok (rx_rsr s1)) s1 /\ Q (Err Other) s1) -> wpx (sn_rx_rsr sn) n s Q.
Proof.
  intros H. apply (wpx_get _ 38 2 word0); [reflexivity|]. intros s1 He.
  change (word0 (sock_rds s1 1 38 2)) with (of_be16 (hi8 (rx_rsr s1)) (lo8 (rx_rsr s1))).
  rewrite hi_lo by apply wsub_range. now apply H.
Qed.
Lemma wpx_rx_rd s (Q : res err Z -> sock -> Prop) :
  (forall s1, env s s1 -> Q (Ok (rx_rd s1)) s1 /\ Q (Err Other) s1) -> wpx (sn_rx_rd sn) n s Q.
Proof. intros H. apply (wpx_get _ 40 2 word0); [reflexivity|]. exact H. Qed.
Lemma wpx_tx_wr s (Q : res err Z -> sock -> Prop) :
  (forall s1, env s s1 -> Q (Ok (tx_wr s1)) s1 /\ Q (Err Other) s1) -> wpx (sn_tx_wr sn) n s Q.
Proof. intros H. apply (wpx_get _ 36 2 word0); [reflexivity|]. exact H. Qed.
Lemma wpx_sr s (Q : res err (res Z SocketStatus) -> sock -> Prop) :
  (forall s1, env s s1 -> Q (Ok (status_try_from (s_sr s1))) s1 /\ Q (Err Other) s1) -> wpx (sn_sr sn) n s Q.
Proof. intros H. apply (wpx_get _ 3 1 (fun l => status_try_from (byte0 l))); [reflexivity|]. exact H. Qed.
Lemma wpx_tx_fsr s (Q : res err Z -> sock -> Prop) :
  (forall s1, env s s1 -> size_ok (tx_size s1)) ->
  (forall s1, env s s1 -> Q (Ok (tx_fsr s1)) s1 /\ Q (Err Other) s1) -> wpx (sn_tx_fsr sn) n s Q.
Proof.
  intros Hs H. apply (wpx_get _ 32 2 word0); [reflexivity|]. intros s1 He.
  change (word0 (sock_rds s1 1 32 2)) with (of_be16 (hi8 (tx_fsr s1)) (lo8 (tx_fsr s1))).
  rewrite hi_lo by (apply tx_fsr_u16; auto). now apply H.
Qed.
Lemma wpx_rx_buf p len s (Q : res err (list Z) -> sock -> Prop) :
  (forall s1, env s s1 -> Q (Ok (ring (s_rxmem s1) (rx_size s1) p len)) s1 /\ Q (Err Other) s1) ->
  wpx (sn_rx_buf sn p len) n s Q.
Proof.
  intros H. cbn. exists 3. split; [lia|]. split; [apply sn_rx_block_eq|].
  intros s1 He. rewrite sock_rds_rx. now apply H.
Qed.
Lemma wpx_set_tx_buf p l s (Q : res err unit -> sock -> Prop) :
  (forall s1 m, env s s1 -> (forall x, m x = ring_write (s_txmem s1) (tx_size s1) p l x) ->
     Q (Ok tt) (with_txmem s1 m)) ->
  (forall s1 i m, env s s1 -> (forall x, m x = ring_write (s_txmem s1) (tx_size s1) p (firstn i l) x) ->
     Q (Err Other) (with_txmem s1 m)) ->
  wpx (set_sn_tx_buf sn p l) n s Q.
Proof.
  intros H1 H2. cbn. exists 2. split; [lia|]. split; [apply sn_tx_block_eq|].
  intros s1 He. split.
  - destruct (sock_wrs_tx l s1 p) as (m & -> & Hm). now apply H1.
  - intros i. destruct (sock_wrs_tx (firstn i l) s1 p) as (m & -> & Hm). now apply (H2 s1 i).
Qed.

(** A pointer register: on a fault none, one or both bytes were written. *)
Lemma wpx_set_ptr (lo : Z) v s (Q : res err unit -> sock -> Prop) :
  (forall x y, sock_wrs x 1 lo [y] = with_reg x (upd (s_reg x) lo y)) ->
  (forall x y, sock_wrs x 1 lo (be16 y) = put16 x lo y) ->
  (forall s1, env s s1 -> Q (Ok tt) (put16 s1 lo v)) ->
  (forall s1 x, env s s1 -> x = s1 \/ x = with_reg s1 (upd (s_reg s1) lo (hi8 v)) \/ x = put16 s1 lo v ->
     Q (Err Other) x) ->
  wpx (write lo (sn_block sn) (be16 v)) n s Q.
Proof.
  intros E1 E2 H1 H2. cbn [wpx write]. exists 1. split; [lia|]. split; [apply sn_block_eq|].
  intros s1 He. split.
  - rewrite E2. now apply H1.
  - intros m. apply (H2 s1); [exact He|]. destruct m as [|[|m]].
    + left. reflexivity.
    + right. left. cbn [firstn be16]. rewrite E1. reflexivity.
    + right. right. replace (firstn (S (S m)) (be16 v)) with (be16 v) by (cbn [firstn be16]; now rewrite firstn_nil).
      apply E2.
Qed.
Lemma wpx_set_rx_rd v s (Q : res err unit -> sock -> Prop) :
  (forall s1, env s s1 -> Q (Ok tt) (put16 s1 0x28 v)) ->
  (forall s1 x, env s s1 -> x = s1 \/ x = with_reg s1 (upd (s_reg s1) 0x28 (hi8 v)) \/ x = put16 s1 0x28 v ->
     Q (Err Other) x) ->
  wpx (set_sn_rx_rd sn v) n s Q.
Proof. apply (wpx_set_ptr 0x28); reflexivity. Qed.
Lemma wpx_set_tx_wr v s (Q : res err unit -> sock -> Prop) :
  (forall s1, env s s1 -> Q (Ok tt) (put16 s1 0x24 v)) ->
  (forall s1 x, env s s1 -> x = s1 \/ x = with_reg s1 (upd (s_reg s1) 0x24 (hi8 v)) \/ x = put16 s1 0x24 v ->
     Q (Err Other) x) ->
  wpx (set_sn_tx_wr sn v) n s Q.
Proof. apply (wpx_set_ptr 0x24); reflexivity. Qed.
(** A command: on a fault it was executed or not. *)
Lemma wpx_set_cr cmd s (Q : res err unit -> sock -> Prop) :
  (forall s1, env s s1 -> Q (Ok tt) (exec_cmd s1 (command_raw cmd)) /\
     Q (Err Other) (exec_cmd s1 (command_raw cmd)) /\ Q (Err Other) s1) ->
  wpx (set_sn_cr sn cmd) n s Q.
Proof.
  intros H. cbn [wpx set_sn_cr write]. exists 1. split; [lia|]. split; [apply sn_block_eq|].
  intros s1 He. destruct (H s1 He) as (H1 & H2 & H3). split; [exact H1|].
  intros [|m]; [exact H3|]. cbn [firstn]. rewrite firstn_nil. exact H2.
Qed.
Lemma wpx_debug_assert dbg (c : M bool) s (Q : res err unit -> sock -> Prop) :
  (dbg = false -> Q (Ok tt) s) ->
  (dbg = true -> wpx c n s (fun r s' => r = Ok true /\ Q (Ok tt) s' \/ exists e, r = Err e /\ Q (Err e) s')) ->
  wpx (debug_assert dbg c) n s Q.
Proof.
  unfold debug_assert. destruct dbg; intros H1 H2; [|now apply H1].
  apply wpx_bindM. eapply wpx_mono; [|exact (H2 eq_refl)].
  intros r s' [[-> H]|[e [-> H]]]; exact H.
Qed.

(** ** TCP *)
Lemma wpx_assert_tcp {A} dbg s (f : unit -> M A) (Q : res err A -> sock -> Prop) : tcp_open s ->
  (forall s1, env s s1 -> wpx (f tt) n s1 Q /\ Q (Err Other) s1) ->
  wpx (bindM (debug_assert dbg (tcp_state_ok sn)) f) n s Q.
Proof.
  intros T H. apply wpx_bindM. apply wpx_debug_assert.
  - intros _. apply H, env_refl.
  - intros _. unfold tcp_state_ok. apply wpx_bindM, wpx_sr. intros s1 E. destruct (H s1 E) as [H1 H2].
    split; [|right; eauto]. cbn [wpx ret]. left. split; [|exact H1].
    destruct (env_all _ _ (tcp_idle _ T) E) as (_ & (_ & S & _) & _). destruct (S T) as [_ K].
    unfold data_state in K. f_equal.
    assert (s_sr s1 = 0x17 \/ s_sr s1 = 0x18 \/ s_sr s1 = 0x1A \/ s_sr s1 = 0x1B \/ s_sr s1 = 0x1C \/
      s_sr s1 = 0x1D \/ s_sr s1 = 0) as K2 by lia.
    destruct K2 as [->|[->|[->|[->|[->|[->| ->]]]]]]; reflexivity.
Qed.

(** Like [tx_work], but the write pointer register may have changed. *)
Definition tx_part (s s' : sock) : Prop :=
  idle s' /\ st_ev s s' /\ rx_ev s s' /\ dest_ev s s' /\ s_tx_cmd s' = s_tx_cmd s /\
  tx_wf s' /\ tx_stream s' = tx_stream s /\ (udp_open s -> tx_frames s' = tx_frames s).
Lemma tx_part_work s s' : tx_work s s' -> tx_part s s'.
Proof. intros (A1 & A2 & A3 & A4 & A5 & A6 & A7 & A8 & A9 & A10 & A11). unfold tx_part. auto 9. Qed.
Lemma tx_part_trans a b c : tx_part a b -> tx_part b c -> tx_part a c.
Proof.
  intros (A1 & A2 & A3 & A4 & A5 & A6 & A7 & A8) (B1 & B2 & B3 & B4 & B5 & B6 & B7 & B8).
  unfold tx_part. split; [exact B1|]. split; [eapply st_ev_trans; eassumption|].
  split; [eapply rx_ev_trans; eassumption|]. split; [destruct A4, B4; split; congruence|].
  split; [congruence|]. split; [exact B6|]. split; [congruence|]. intros U. rewrite B8; [auto|]. apply A2, U.
Qed.
Lemma tx_part_env s s' : idle s -> tx_wf s -> env s s' -> tx_part s s'.
Proof. intros. apply tx_part_work. now apply tx_work_env. Qed.
Lemma tx_part_ptr s v x : idle s -> tx_wf s ->
  x = s \/ x = with_reg s (upd (s_reg s) 0x24 (hi8 v)) \/ x = put16 s 0x24 v -> tx_part s x.
Proof.
  intros I W H. assert (forall r, r 0x1F = s_reg s 0x1F -> r 0x1E = s_reg s 0x1E -> r 0x28 = s_reg s 0x28 ->
    r 0x29 = s_reg s 0x29 -> dest_ev s (with_reg s r) -> tx_part s (with_reg s r)) as G.
  { intros r R1 R2 R3 R4 Dd. destruct (tx_same_size s r R1) as (S1 & S2 & S3 & S4).
    unfold tx_part. split; [exact I|]. split; [apply st_ev_reg|]. split; [now apply rx_ev_reg|].
    split; [exact Dd|]. split; [reflexivity|]. auto. }
  destruct H as [->|[->| ->]].
  - apply tx_part_env; auto using env_refl.
  - apply G; try reflexivity. split; reflexivity.
  - apply G; try reflexivity. split; reflexivity.
Qed.

(** What a call that transmits [d] leaves behind when it fails. *)
Definition tx_failed (s : sock) (d : list Z) (s' : sock) : Prop :=
  (tx_part s s' /\ tx_wr s' = tx_wr s) \/
  (tx_part s s' /\ tx_wr s' <> s_tx_cmd s') \/
  (st_ev s s' /\ rx_ev s s' /\ dest_ev s s' /\ tx_ready s' /\ tx_wr s' <> tx_wr s /\
     tx_stream s' = tx_stream s ++ d /\
     (udp_open s -> tx_frames s' = tx_frames s ++
        [{| f_ip := dest_ip s; f_port := dest_port s; f_data := d |}])).

Lemma tx_part_cases s s' d : tx_ready s -> tx_part s s' -> tx_failed s d s'.
Proof.
  intros [_ C] P. destruct (Z.eq_dec (tx_wr s') (s_tx_cmd s')) as [E|E]; [left|right; left; auto].
  split; [exact P|]. destruct P as (_ & _ & _ & _ & P5 & _). congruence.
Qed.
Lemma tx_failed_env s s' d : idle s -> tx_ready s -> env s s' -> tx_failed s d s'.
Proof. intros I X E. apply tx_part_cases; [exact X|]. apply tx_part_env; auto. apply X. Qed.

Lemma put_faulty s0 s buf k :
  idle s0 -> tx_ready s0 -> env s0 s -> 0 < k <= zlen buf -> k <= tx_size s0 - pending s0 ->
  wpx (ptr <- sn_tx_wr sn ;; set_sn_tx_buf sn ptr (ztake k buf) ;;;
       set_sn_tx_wr sn (wadd ptr k) ;;; set_sn_cr sn CSend ;;; ret k) n s
    (fun r s' => match r with
     | Ok x => x = k /\ st_ev s0 s' /\ rx_ev s0 s' /\ dest_ev s0 s' /\ tx_ready s' /\
         tx_stream s' = tx_stream s0 ++ ztake k buf /\
         (udp_open s0 -> tx_frames s' = tx_frames s0 ++
            [{| f_ip := dest_ip s0; f_port := dest_port s0; f_data := ztake k buf |}])
     | Err e => e = Other /\ tx_failed s0 (ztake k buf) s'
     end).
Proof.
  intros I0 X0 E0 Hk Hf. pose proof X0 as [W0 C0]. pose proof (size_ok_range _ (proj1 W0)) as Sz.
  assert (0 <= pending s0) as Hp0 by (pose proof (wsub_range (s_tx_cmd s0) (s_tx_rd s0)); unfold pending, is_u16 in *; lia).
  apply wpx_bindM, wpx_tx_wr. intros s1 E1.
  assert (env s0 s1) as E01 by (eapply env_trans; eassumption). clear E0 E1.
  split; [|split; [reflexivity|now apply tx_failed_env]].
  pose proof (tx_work_env s0 s1 I0 W0 E01) as K1.
  pose proof K1 as (_ & _ & _ & _ & A5 & A6 & A7 & A8 & _ & _ & _).
  assert (zlen (ztake k buf) = k) as Lk by (rewrite zlen_ztake; lia).
  assert (forall s2 l m, env s1 s2 -> zlen l <= k ->
    (forall x, m x = ring_write (s_txmem s2) (tx_size s2) (tx_wr s1) l x) ->
    tx_work s0 (with_txmem s2 m) /\ window (with_txmem s2 m) k = overlay (window s2 k) 0 l) as Fill.
  { intros s2 l m E2 Hl Hm. assert (env s0 s2) as E02 by (eapply env_trans; eassumption).
    pose proof (tx_work_env s0 s2 I0 W0 E02) as K2.
    pose proof K2 as (B1 & _ & _ & _ & B5 & B6 & B7 & B8 & _ & B10 & _).
    destruct (tx_work_fill sn s2 (tx_wr s1) 0 l m k) as [F1 F2]; auto; try lia.
    { rewrite A5, C0, B6, Z.add_0_r. destruct W0 as (_ & _ & Hc & _). unfold is_u16 in Hc. lia. }
    split; [|exact F2]. exact (tx_work_trans sn _ _ _ K2 F1). }
  apply wpx_bindM, wpx_set_tx_buf.
  2: { intros s2 i m E2 Hm. split; [reflexivity|]. apply tx_part_cases; [exact X0|]. apply tx_part_work.
       apply (Fill s2 (firstn i (ztake k buf)) m E2); [|exact Hm]. unfold zlen in *. rewrite firstn_length. lia. }
  intros s2 m E2 Hm. destruct (Fill s2 (ztake k buf) m E2) as [K3 F2]; [lia|exact Hm|]. clear Fill.
  set (s3 := with_txmem s2 m) in *.
  assert (window s3 k = ztake k buf) as Wd.
  { rewrite F2. unfold overlay. rewrite ztake_0. cbn [app]. rewrite Lk, zdrop_all, app_nil_r; [reflexivity|].
    unfold window. rewrite ring_len. lia. }
  clear F2.
  pose proof K3 as (G1 & _ & _ & _ & _ & _ & _ & G8 & _).
  apply wpx_bindM, wpx_set_tx_wr.
  2: { intros s4 x E4 Hx. split; [reflexivity|]. apply tx_part_cases; [exact X0|].
       pose proof (tx_work_trans sn _ _ _ K3 (tx_work_env s3 s4 G1 G8 E4)) as K4.
       eapply tx_part_trans; [apply tx_part_work; exact K4|].
       destruct K4 as (H1 & H2 & H3 & H4 & H5 & H6 & H7 & H8 & _). eapply tx_part_ptr; eassumption. }
  intros s4 E4.
  pose proof (tx_work_trans sn _ _ _ K3 (tx_work_env s3 s4 G1 G8 E4)) as K4.
  rewrite <- (tx_work_window s3 s4 k G1 G8 E4) in Wd.
  apply wpx_bindM, wpx_set_cr. intros s5 E5. cbn [wpx ret].
  change (command_raw CSend) with 0x20.
  pose proof (tx_part_work _ _ K4) as P4.
  destruct K4 as (H1 & H2 & H3 & H4 & H5 & H6 & H7 & H8 & H9 & H10 & H11).
  destruct (commit s4 k (wadd (tx_wr s1) k) s5) as (Q1 & Q2 & Q3 & Q4 & Q5 & Q6 & Q7 & Q8 & Q9);
    auto; try lia.
  { apply wadd_range. }
  { unfold wadd. rewrite A5, C0, H6. reflexivity. }
  assert (st_ev s0 (exec_cmd s5 0x20)) as R1 by (eapply st_ev_trans; eassumption).
  assert (rx_ev s0 (exec_cmd s5 0x20)) as R2 by (exact (rx_ev_trans _ _ _ H2 H3 Q3)).
  assert (dest_ev s0 (exec_cmd s5 0x20)) as R3 by (destruct H4, Q4; split; congruence).
  assert (tx_stream (exec_cmd s5 0x20) = tx_stream s0 ++ ztake k buf) as R4 by congruence.
  assert (udp_open s0 -> tx_frames (exec_cmd s5 0x20) = tx_frames s0 ++
            [{| f_ip := dest_ip s0; f_port := dest_port s0; f_data := ztake k buf |}]) as R5.
  { intros U. destruct H4 as [H4 H4']. rewrite Q9 by (apply H2, U). rewrite H11 by exact U. now rewrite Wd, H4, H4'. }
  split; [exact (conj eq_refl (conj R1 (conj R2 (conj R3 (conj Q5 (conj R4 R5))))))|]. split; (split; [reflexivity|]).
  - right. right. split; [exact R1|]. split; [exact R2|]. split; [exact R3|]. split; [exact Q5|]. split; [|auto].
    change (tx_wr (exec_cmd s5 0x20)) with (tx_wr s5).
    assert (tx_wr s5 = wadd (tx_wr s1) k) as ->.
    { assert (idle (put16 s4 0x24 (wadd (tx_wr s1) k))) as I5 by exact H1.
      destruct (env_all _ _ I5 E5) as (_ & _ & _ & (T & _) & _). rewrite T.
      unfold put16, tx_wr at 1, of_word. cbn. apply hi_lo, wadd_range. }
    rewrite A5, C0. destruct W0 as (_ & _ & Hc & _). unfold wadd, is_u16 in *. lia.
  - apply tx_part_cases; [exact X0|]. eapply tx_part_trans; [exact P4|].
    assert (tx_part s4 (put16 s4 0x24 (wadd (tx_wr s1) k))) as P5 by (apply (tx_part_ptr s4 (wadd (tx_wr s1) k) _ H1 H8); right; right; reflexivity).
    eapply tx_part_trans; [exact P5|]. apply tx_part_env; [exact (proj1 P5)|apply P5|exact E5].
Qed.

Lemma tcp_write_faulty dbg buf s rd tx : tcp_view s rd tx ->
  wpx (tcp_write dbg sn buf) n s (fun r s' => match r with
    | Ok k => tcp_view s' rd (tx ++ ztake k buf) /\ 0 <= k <= zlen buf /\
        Z.min (Z.min (zlen buf) 65535) (tx_size s - pending s) <= k
    | Err e => e = Other /\
        ((tcp_view s' rd tx /\ tx_wr s' = tx_wr s) \/
         (tcp_tx_torn s' rd tx /\ tx_wr s' <> tx_wr s) \/
         (exists k, 0 < k <= zlen buf /\ tcp_view s' rd (tx ++ ztake k buf) /\ tx_wr s' <> tx_wr s))
    end).
Proof.
  intros V. unfold tcp_write.
  assert (forall s1, env s s1 -> tx_size s1 = tx_size s /\ pending s1 <= pending s /\ tx_wr s1 = tx_wr s /\
    tcp_view s1 rd tx) as Ev.
  { intros s1 E1. destruct (view_env _ _ _ _ V E1) as (V1 & _).
    pose proof V as (T & _ & (X & C) & _).
    destruct (tx_work_env s s1 (tcp_idle _ T) X E1) as (_ & _ & _ & _ & A5 & _ & A7 & _ & _ & A10 & _). auto. }
  apply wpx_assert_tcp; [apply V|]. intros s0 E0.
  split; [|split; [reflexivity|left; destruct (Ev s0 E0); tauto]].
  apply wpx_bindM, wpx_tx_fsr.
  { intros s1 E1. destruct (Ev s1 (env_trans _ _ _ E0 E1)) as (-> & _). apply V. }
  intros s1 E1. pose proof (env_trans _ _ _ E0 E1) as E01. destruct (Ev s1 E01) as (Z1 & P1 & T1 & V1).
  split; [|split; [reflexivity|left; auto]]. cbv zeta. rewrite len16_spec.
  assert (tx_fsr s1 = tx_size s1 - pending s1) as Ef by (apply (tx_fsr_ready sn); apply V1).
  pose proof (zlen_nonneg buf).
  assert (0 <= tx_fsr s1) by (unfold tx_fsr; lia).
  set (k := Z.min (Z.min (zlen buf) 65535) (tx_fsr s1)).
  destruct (Z.eqb_spec k 0) as [Ek|Ek]; cbn [negb].
  - cbn [wpx ret]. rewrite Ek, ztake_0, app_nil_r. split; [exact V1|]. lia.
  - eapply wpx_mono; [|apply (put_faulty s1 s1 buf k)]; auto using env_refl; try lia.
    + intros [x|e] s'.
      * intros (-> & S' & R' & D' & X' & St' & _).
        destruct (view_commit s1 s' rd tx (ztake k buf)) as (V' & _); auto.
        { rewrite St'. f_equal. apply V1. }
        split; [exact V'|]. lia.
      * intros (-> & H'). split; [reflexivity|].
        pose proof V1 as (O1 & (Wr1 & Rr1) & (Xr1 & Cr1) & L1 & St1).
        assert (forall s', st_ev s1 s' -> rx_ev s1 s' ->
          tcp_open s' /\ rx_ready s' /\ s_rxlog s' = rd ++ unread s') as Rx.
        { intros s2 St (R1 & R2 & R3 & R4 & _). destruct (R4 Wr1) as (W' & new & Hn & U & L').
          split; [apply St, O1|]. split; [split; [exact W'|congruence]|]. rewrite L', L1, U, app_assoc. reflexivity. }
        destruct H' as [(P & Ew)|[(P & Ew)|(S' & R' & D' & X' & Nw & St' & _)]].
        -- left. destruct P as (Q1 & Q2 & Q3 & Q4 & Q5 & Q6 & Q7 & Q8). destruct (Rx s' Q2 Q3) as (Y1 & Y2 & Y3).
           split; [|congruence]. split; [exact Y1|]. split; [exact Y2|]. split; [split; [exact Q6|congruence]|].
           split; [exact Y3|congruence].
        -- right. left. destruct P as (Q1 & Q2 & Q3 & Q4 & Q5 & Q6 & Q7 & Q8). destruct (Rx s' Q2 Q3) as (Y1 & Y2 & Y3).
           split; [|congruence].
           split; [exact Y1|]. split; [exact Y2|]. split; [exact Q6|]. split; [exact Ew|]. split; [exact Y3|congruence].
        -- right. right. exists k. split; [lia|]. split; [|congruence].
           destruct (view_commit s1 s' rd tx (ztake k buf)) as (V' & _); auto. rewrite St'. f_equal. exact St1.
    + now apply view_idle in V1.
    + apply V1.
Qed.

(** ** Receiving *)
(** Events, except that the read pointer register may have changed. *)
Definition rx_part (s s' : sock) : Prop :=
  idle s' /\ st_ev s s' /\ tx_ev s s' /\ dest_ev s s' /\ s_rx_base s' = s_rx_base s /\ rx_wf s' /\
  (exists new, unread s' = unread s ++ new /\ s_rxlog s' = s_rxlog s ++ new) /\
  (udp_open s -> exists ds, Forall dgram_ok ds /\ unread s' = unread s ++ images ds).
Lemma rx_part_env s s' : idle s -> rx_wf s -> env s s' -> rx_part s s'.
Proof.
  intros I W E. destruct (env_all _ _ I E) as (I' & S & (R1 & R2 & R3 & R4 & R5) & T & Dd).
  destruct (R4 W) as (W' & new & Hn & U & L). unfold rx_part.
  split; [exact I'|]. split; [exact S|]. split; [exact T|]. split; [exact Dd|]. split; [exact R2|].
  split; [exact W'|]. split; [eauto|]. intros Hu. destruct (R5 W Hu) as (ds & H1 & H2 & _). eauto.
Qed.
Lemma rx_part_trans a b c : rx_part a b -> rx_part b c -> rx_part a c.
Proof.
  intros (A1 & A2 & A3 & A4 & A5 & A6 & (x & A7 & A7') & A8) (B1 & B2 & B3 & B4 & B5 & B6 & (y & B7 & B7') & B8).
  unfold rx_part. split; [exact B1|]. split; [exact (st_ev_trans _ _ _ A2 B2)|].
  split; [exact (tx_ev_trans _ _ _ A2 A3 B3)|]. split; [destruct A4, B4; split; congruence|].
  split; [congruence|]. split; [exact B6|]. split.
  - exists (x ++ y). split; [now rewrite B7, A7, app_assoc|now rewrite B7', A7', app_assoc].
  - intros U. destruct (A8 U) as (d1 & D1 & E1). destruct (B8 (proj2 (proj2 A2) U)) as (d2 & D2 & E2).
    exists (d1 ++ d2). split; [now apply Forall_app|]. now rewrite images_app, E2, E1, app_assoc.
Qed.
Lemma rx_part_ptr s v x : idle s -> rx_wf s ->
  x = s \/ x = with_reg s (upd (s_reg s) 0x28 (hi8 v)) \/ x = put16 s 0x28 v -> rx_part s x.
Proof.
  intros I W H. assert (forall r, r 0x1E = s_reg s 0x1E -> r 0x1F = s_reg s 0x1F -> r 0x24 = s_reg s 0x24 ->
    r 0x25 = s_reg s 0x25 -> dest_ev s (with_reg s r) -> rx_part s (with_reg s r)) as G.
  { intros r R1 R2 R3 R4 Dd.
    assert (rx_size (with_reg s r) = rx_size s) as Es by (unfold rx_size; cbn; now rewrite R1).
    assert (unread (with_reg s r) = unread s) as Eu by (unfold unread; now rewrite Es).
    unfold rx_part. split; [exact I|]. split; [apply st_ev_reg|]. split; [now apply tx_ev_reg|].
    split; [exact Dd|]. split; [reflexivity|].
    split; [unfold rx_wf; rewrite Es; exact W|]. rewrite Eu. split.
    - exists []. now rewrite !app_nil_r.
    - intros _. exists []. cbn. now rewrite app_nil_r. }
  destruct H as [->|[->| ->]].
  - apply rx_part_env; auto using env_refl.
  - apply G; try reflexivity. split; reflexivity.
  - apply G; try reflexivity. split; reflexivity.
Qed.
(** The pointer register after it was written and events passed. *)
Lemma rx_rd_put s v s2 : idle s -> is_u16 v -> env (put16 s 0x28 v) s2 -> rx_rd s2 = v.
Proof.
  intros I Hv E. assert (idle (put16 s 0x28 v)) as I1 by exact I.
  destruct (env_all _ _ I1 E) as (_ & _ & (R & _) & _). rewrite R. unfold put16, rx_rd, of_word. cbn. now apply hi_lo.
Qed.

Lemma view_part s s' rd tx : tcp_view s rd tx -> rx_part s s' ->
  (tcp_view s' rd tx /\ rx_rd s' = rx_rd s) \/ (tcp_rx_torn s' rd tx /\ rx_rd s' <> rx_rd s).
Proof.
  intros (T & (W & R) & (X & C) & L & S) (A1 & A2 & (T1 & T2 & T3 & T4 & T5) & A4 & A5 & A6 & (x & A7 & A7') & _).
  destruct (T5 X) as (X' & S' & _). assert (s_rxlog s' = rd ++ unread s') as L' by (now rewrite A7', A7, L, app_assoc).
  assert (tx_ready s') as Xr by (split; [exact X'|congruence]).
  destruct (Z.eq_dec (rx_rd s') (s_rx_base s')) as [E|E]; [left|right].
  - split; [|congruence]. split; [apply A2, T|]. split; [split; assumption|]. split; [exact Xr|]. split; [exact L'|congruence].
  - split; [|congruence].
    split; [apply A2, T|]. split; [exact A6|]. split; [exact E|]. split; [exact Xr|]. split; [exact L'|congruence].
Qed.

Lemma tcp_read_faulty dbg len s rd tx : tcp_view s rd tx -> 0 <= len ->
  wpx (tcp_read dbg sn len) n s (fun r s' => match r with
    | Ok d => tcp_view s' (rd ++ d) tx /\ zlen d <= len /\ Z.min (zlen (unread s)) (Z.min len 65535) <= zlen d
    | Err e => e = Other /\
        ((tcp_view s' rd tx /\ rx_rd s' = rx_rd s) \/
         (tcp_rx_torn s' rd tx /\ rx_rd s' <> rx_rd s) \/
         (exists d, d <> [] /\ zlen d <= len /\ tcp_view s' (rd ++ d) tx /\ rx_rd s' <> rx_rd s))
    end).
Proof.
  intros V Hlen. unfold tcp_read.
  pose proof (view_idle _ _ _ V) as I0. pose proof V as (_ & (W0 & R0) & _).
  assert (forall s1, env s s1 -> (Other = Other /\
    ((tcp_view s1 rd tx /\ rx_rd s1 = rx_rd s) \/ (tcp_rx_torn s1 rd tx /\ rx_rd s1 <> rx_rd s) \/
     (exists d, d <> [] /\ zlen d <= len /\ tcp_view s1 (rd ++ d) tx /\ rx_rd s1 <> rx_rd s)))) as Fail.
  { intros s1 E1. split; [reflexivity|]. left. destruct (view_env _ _ _ _ V E1) as (V1 & _). split; [exact V1|].
    destruct (env_all _ _ I0 E1) as (_ & _ & (R & _) & _). exact R. }
  apply wpx_assert_tcp; [apply V|]. intros s0 E0. split; [|now apply Fail].
  destruct (view_env _ _ _ _ V E0) as (V0 & n0 & U0).
  apply wpx_bindM, wpx_rx_rsr. intros s1 E1. pose proof (env_trans _ _ _ E0 E1) as E01. split; [|now apply Fail].
  destruct (view_env _ _ _ _ V0 E1) as (V1 & n1 & U1).
  cbv zeta. rewrite len16_spec. pose proof (unread_len sn s1) as L1.
  assert (zlen (unread s) <= rx_rsr s1) as Lb.
  { rewrite <- L1, U1, U0, !zlen_app. pose proof (zlen_nonneg n0). pose proof (zlen_nonneg n1). lia. }
  pose proof (wsub_range (s_rx_wr s1) (s_rx_base s1)) as Hr. fold (rx_rsr s1) in Hr. unfold is_u16 in Hr.
  assert (rx_rsr s1 <= 16384) as Hr16.
  { destruct V1 as (_ & ((Zs & _ & _ & Hle) & _) & _). apply size_ok_range in Zs. lia. }
  set (k := Z.min (rx_rsr s1) (Z.min len 65535)).
  destruct (Z.eqb_spec k 0) as [Ek|Ek]; cbn [negb].
  - cbn [wpx ret]. rewrite app_nil_r. split; [exact V1|]. unfold zlen at 1 3. cbn. lia.
  - apply wpx_bindM, wpx_rx_rd. intros s2 E2. pose proof (env_trans _ _ _ E01 E2) as E02. split; [|now apply Fail].
    destruct (view_env _ _ _ _ V1 E2) as (V2 & n2 & U2).
    apply wpx_bindM, wpx_rx_buf. intros s3 E3. pose proof (env_trans _ _ _ E02 E3) as E03. split; [|now apply Fail].
    destruct (view_env _ _ _ _ V2 E3) as (V3 & n3 & U3).
    pose proof (view_idle _ _ _ V2) as I2. pose proof (view_idle _ _ _ V3) as I3.
    assert (rx_rd s2 = s_rx_base s) as Erd.
    { destruct (env_all _ _ I0 E02) as (_ & _ & (R & _) & _). congruence. }
    assert (forall s4, env s3 s4 -> tcp_view s4 rd tx /\ s_rx_base s4 = s_rx_base s /\ rx_rd s4 = rx_rd s /\
      exists n4, unread s4 = unread s3 ++ n4) as V4.
    { intros s4 E4. destruct (view_env _ _ _ _ V3 E4) as (V4 & n4 & U4). split; [exact V4|].
      destruct (env_all _ _ I0 (env_trans _ _ _ E03 E4)) as (_ & _ & (R & B & _) & _). eauto. }
    apply wpx_bindM, wpx_set_rx_rd.
    2: { intros s4 x E4 Hx. destruct (V4 s4 E4) as (V4' & B4 & R4 & _). split; [reflexivity|].
         pose proof V4' as (_ & (W4 & _) & _).
         destruct (view_part s4 x rd tx V4') as [[A B]|A].
         - eapply rx_part_ptr; [eapply view_idle; exact V4'|exact W4|exact Hx].
         - left. split; [exact A|congruence].
         - right. left. split; [apply A|rewrite <- R4; apply A]. }
    intros s4 E4. destruct (V4 s4 E4) as (V4' & B4 & R4 & n4 & U4). clear V4.
    apply wpx_bindM, wpx_set_cr. intros s5 E5. cbn [wpx ret]. change (command_raw CRecv) with 0x40.
    pose proof (view_idle _ _ _ V4') as I4. pose proof V4' as (_ & (W4 & _) & _).
    pose proof (unread_len sn s3) as L3. rewrite U3, U2, !zlen_app in L3.
    pose proof (unread_len sn s4) as L4. rewrite U4, U3, U2, !zlen_app in L4.
    pose proof (zlen_nonneg n2). pose proof (zlen_nonneg n3). pose proof (zlen_nonneg n4).
    assert (s_rx_base s3 = s_rx_base s) as B3.
    { destruct (env_all _ _ I0 E03) as (_ & _ & (_ & B & _) & _). exact B. }
    assert (ring (s_rxmem s3) (rx_size s3) (rx_rd s2) k = ztake k (unread s4)) as Ed.
    { rewrite Erd, <- B3. unfold k. rewrite <- (ring_take _ _ _ (rx_rsr s3)) by lia. fold (unread s3).
      rewrite U4. symmetry. apply ztake_app_l. rewrite (unread_len sn s3). lia. }
    assert (tcp_view (exec_cmd s5 0x40) (rd ++ ztake k (unread s4)) tx) as V5.
    { apply (view_release sn s4 s5 k (wadd (rx_rd s2) k)); auto; [lia|]. rewrite Erd, B4. reflexivity. }
    assert (zlen (ztake k (unread s4)) = k) as Lk by (rewrite zlen_ztake, (unread_len sn); lia).
    split; [rewrite Ed; split; [exact V5|lia]|]. split; (split; [reflexivity|]).
    + right. right. exists (ztake k (unread s4)). split; [intros X; rewrite X, zlen_nil in Lk; lia|].
      split; [lia|]. split; [exact V5|]. change (rx_rd (exec_cmd s5 0x40)) with (rx_rd s5).
      rewrite (rx_rd_put s4 (wadd (rx_rd s2) k) s5 I4) by (auto; apply wadd_range). rewrite Erd, R0.
      destruct W0 as (_ & Hb & _). unfold wadd, is_u16 in *. lia.
    + pose proof (rx_part_ptr s4 (wadd (rx_rd s2) k) _ I4 W4 (or_intror (or_intror eq_refl))) as P4.
      pose proof P4 as (J1 & _ & _ & _ & _ & J6 & _).
      destruct (view_part s4 s5 rd tx V4' (rx_part_trans _ _ _ P4 (rx_part_env _ _ J1 J6 E5))) as [[A B]|A].
      * left. split; [exact A|congruence].
      * right. left. split; [apply A|rewrite <- R4; apply A].
Qed.

(** ** UDP *)
Lemma wpx_assert_udp {A} dbg s (f : unit -> M A) (Q : res err A -> sock -> Prop) : udp_open s ->
  (forall s1, env s s1 -> wpx (f tt) n s1 Q /\ Q (Err Other) s1) ->
  wpx (bindM (debug_assert dbg (udp_state_ok sn)) f) n s Q.
Proof.
  intros T H. apply wpx_bindM. apply wpx_debug_assert.
  - intros _. apply H, env_refl.
  - intros _. unfold udp_state_ok. apply wpx_bindM, wpx_sr. intros s1 E. destruct (H s1 E) as [H1 H2].
    split; [|right; eauto]. cbn [wpx ret]. left. split; [|exact H1].
    destruct (env_all _ _ (udp_idle _ T) E) as (_ & (_ & _ & S) & _). destruct (S T) as [_ ->]. reflexivity.
Qed.

(** The destination registers: on a fault a prefix of the six bytes was written. *)
Definition same_but_dest (r r' : Z -> Z) : Prop := forall i, i < 0x0C \/ 0x11 < i -> r' i = r i.
Lemma dest_prefix s l : (length l <= 6)%nat ->
  exists r, sock_wrs s 1 0x0C l = with_reg s r /\ same_but_dest (s_reg s) r.
Proof.
  intros H.
  assert (forall r i v, 0x0C <= i <= 0x11 -> same_but_dest (s_reg s) r -> same_but_dest (s_reg s) (upd r i v)) as G.
  { intros r i v Hi Hr j Hj. rewrite upd_other by lia. now apply Hr. }
  assert (same_but_dest (s_reg s) (s_reg s)) as G0 by (intros i _; reflexivity).
  destruct l as [|b0 l].
  { exists (s_reg s). split; [destruct s; reflexivity|exact G0]. }
  destruct l as [|b1 [|b2 [|b3 [|b4 [|b5 [|b6 l]]]]]]; [| | | | | |cbn [length] in H; lia];
    (eexists; split; [reflexivity|]); repeat (apply G; [lia|]); exact G0.
Qed.
Lemma wpx_set_dest addr s (Q : res err unit -> sock -> Prop) :
  (forall s1, env s s1 -> Q (Ok tt) (with_reg s1 (put_dest (s_reg s1) addr))) ->
  (forall s1 r, env s s1 -> same_but_dest (s_reg s1) r -> Q (Err Other) (with_reg s1 r)) ->
  wpx (set_sn_dest sn addr) n s Q.
Proof.
  intros H1 H2. destruct addr as [ip port]. unfold set_sn_dest. cbn [wpx write].
  exists 1. split; [lia|]. split; [apply sn_block_eq|]. intros s1 He.
  unfold u8. rewrite Z.shiftr_div_pow2 by lia. split; [exact (H1 s1 He)|].
  intros m. set (d := firstn m _). assert ((length d <= 6)%nat) as Hd by (unfold d; rewrite firstn_length; cbn [length]; lia).
  change (wpx (fail Other) n (sock_wrs s1 1 0x0C d) Q).
  destruct (dest_prefix s1 d Hd) as (r & -> & Hr). exact (H2 s1 r He Hr).
Qed.

Lemma uview_part s s' q fs a : udp_view s q fs a -> rx_part s s' ->
  exists new, (udp_view s' (q ++ new) fs a /\ rx_rd s' = rx_rd s) \/ (udp_rx_torn s' (q ++ new) fs /\ rx_rd s' <> rx_rd s).
Proof.
  intros (T & (W & R) & (X & C) & (Q & Qo) & F & Da) (A1 & A2 & (T1 & T2 & T3 & T4 & T5) & (A4 & A4') & A5 & A6 & _ & A8).
  destruct (T5 X) as (X' & _ & _ & F'). destruct (A8 T) as (ds & Hd & U). exists ds.
  assert (tx_ready s') as Xr by (split; [exact X'|congruence]).
  assert (rx_queue s' (q ++ ds)) as Qr by (split; [rewrite U, Q, images_app; reflexivity|now apply Forall_app]).
  assert (tx_frames s' = fs) as Fr by (rewrite F' by exact T; exact F).
  destruct (Z.eq_dec (rx_rd s') (s_rx_base s')) as [E|E]; [left|right].
  - split; [|congruence]. split; [apply A2, T|]. split; [split; assumption|]. split; [exact Xr|].
    split; [exact Qr|]. split; [exact Fr|congruence].
  - split; [|congruence]. split; [apply A2, T|]. split; [exact A6|]. auto.
Qed.

Lemma udp_recv_faulty dbg len s q fs a : udp_view s q fs a -> 0 <= len ->
  wpx (udp_recv_from dbg sn len) n s (fun r s' => exists new, match r with
    | Ok (d, o) => exists x q', q ++ new = x :: q' /\ d = ztake len (d_data x) /\ o = (d_ip x, d_port x) /\
        udp_view s' q' fs a
    | Err e =>
        (e = WouldBlock /\ q = [] /\ udp_view s' (q ++ new) fs a) \/
        (e = Other /\
         ((udp_view s' (q ++ new) fs a /\ rx_rd s' = rx_rd s) \/
          (udp_rx_torn s' (q ++ new) fs /\ rx_rd s' <> rx_rd s) \/
          (exists x q', q ++ new = x :: q' /\ udp_view s' q' fs a /\ rx_rd s' <> rx_rd s)))
    end).
Proof.
  intros V Hlen. unfold udp_recv_from. pose proof (uview_idle _ _ _ _ V) as I0.
  pose proof V as (_ & (W0 & R0) & _).
  set (Q := fun (r : res err (list Z * (list Z * Z))) s' => exists new, _).
  assert (forall s1, env s s1 -> Q (Err Other) s1) as Fail.
  { intros s1 E1. destruct (uview_env _ _ _ _ _ V E1) as (n1 & V1). exists n1. right. split; [reflexivity|].
    left. split; [exact V1|]. destruct (env_all _ _ I0 E1) as (_ & _ & (R & _) & _). exact R. }
  apply wpx_bindM, wpx_rx_rsr. intros s1 E1. split; [|now apply Fail].
  destruct (uview_env _ _ _ _ _ V E1) as (n1 & V1).
  destruct (rsr_cases sn _ _ _ _ V1) as [(Eq & R1)|(d & r & Eq & H1 & R1)].
  - rewrite R1. cbn [wpx fail]. destruct (cat_nil _ _ Eq) as [-> ->]. exists []. left. auto.
  - pose proof (zlen_nonneg (d_data d)).
    destruct (Z.ltb_spec (rx_rsr s1) UDP_HEADER_LEN) as [C|_]; [unfold UDP_HEADER_LEN in C; lia|]. cbv zeta.
    assert (rx_rsr s1 <= 16384) as Hr16.
    { destruct V1 as (_ & ((Zs & _ & _ & Hle) & _) & _). apply size_ok_range in Zs. lia. }
    rewrite Eq in V1. apply wpx_assert_udp; [apply V1|]. intros s2 E2.
    pose proof (env_trans _ _ _ E1 E2) as E02. split; [|now apply Fail].
    destruct (uview_env _ _ _ _ _ V1 E2) as (n2 & V2). destruct (head_env _ _ _ H1 E2) as [H2 B2].
    apply wpx_bindM, wpx_rx_rd. intros s3 E3. pose proof (env_trans _ _ _ E02 E3) as E03. split; [|now apply Fail].
    destruct (uview_env _ _ _ _ _ V2 E3) as (n3 & V3). destruct (head_env _ _ _ H2 E3) as [H3 B3].
    apply wpx_bindM, wpx_rx_buf. intros s4 E4. pose proof (env_trans _ _ _ E03 E4) as E04. split; [|now apply Fail].
    destruct (uview_env _ _ _ _ _ V3 E4) as (n4 & V4). destruct (head_env _ _ _ H3 E4) as [H4 B4].
    assert (rx_rd s3 = s_rx_base s3) as Rd3 by apply H3.
    change UDP_HEADER_LEN with 8. rewrite (head_header sn s4 d (rx_rd s3) H4) by congruence.
    cbn [header_of uh_len uh_origin].
    destruct (Z.ltb_spec (rx_rsr s1 - 8) (zlen (d_data d))) as [C|_]; [lia|].
    rewrite len16_spec. set (k := Z.min (zlen (d_data d)) (Z.min len 65535)).
    assert (ztake k (d_data d) = ztake len (d_data d)) as Ek.
    { unfold k. destruct (Z.le_gt_cases (zlen (d_data d)) len).
      - rewrite !ztake_all by lia. reflexivity.
      - f_equal. lia. }
    set (p := wadd (wadd (rx_rd s3) 8) (zlen (d_data d))).
    assert (s_rx_base s3 = s_rx_base s) as Bs.
    { destruct (env_all _ _ I0 E03) as (_ & _ & (_ & B & _) & _). exact B. }
    assert (is_u16 p) as Hp by apply wadd_range.
    assert (p <> rx_rd s) as Np.
    { unfold p. rewrite Rd3, R0, Bs. destruct W0 as (_ & Hb & _). unfold wadd, is_u16 in *. lia. }
    assert (forall s4, env s s4 -> exists n4, udp_view s4 (q ++ n4) fs a /\ rx_rd s4 = rx_rd s) as Vs.
    { intros x Ex. destruct (uview_env _ _ _ _ _ V Ex) as (nx & Vx). exists nx. split; [exact Vx|].
      destruct (env_all _ _ I0 Ex) as (_ & _ & (R & _) & _). exact R. }
    assert (forall s5 x, env s s5 -> rx_part s5 x -> Q (Err Other) x) as FailP.
    { intros s5 x E5 P. destruct (Vs s5 E5) as (n5 & V5 & R5).
      destruct (uview_part s5 x _ _ _ V5 P) as (nx & Hx). exists (n5 ++ nx). rewrite app_assoc.
      right. split; [reflexivity|]. destruct Hx as [[A B]|A]; [left; split; [exact A|congruence]|right; left; split; [apply A|rewrite <- R5; apply A]]. }
    assert (forall s5, env s4 s5 -> wpx (set_sn_rx_rd sn p ;;; set_sn_cr sn CRecv ;;;
       ret (ztake k (d_data d), (d_ip d, d_port d))) n s5 Q) as Fin.
    { intros s5 E5. apply wpx_bindM, wpx_set_rx_rd.
      2: { intros s6 x E6 Hx. pose proof (env_trans _ _ _ E04 (env_trans _ _ _ E5 E6)) as E06.
           apply (FailP s6 x E06). destruct (Vs s6 E06) as (n6 & V6 & _).
           eapply rx_part_ptr; [eapply uview_idle; exact V6|apply V6|exact Hx]. }
      intros s6 E6. pose proof (env_trans _ _ _ E5 E6) as E46. pose proof (env_trans _ _ _ E04 E46) as E06.
      apply wpx_bindM, wpx_set_cr. intros s7 E7. change (command_raw CRecv) with 0x40.
      destruct (uview_env _ _ _ _ _ V4 E46) as (n6 & V6). destruct (head_env _ _ _ H4 E46) as [H6 B6].
      cbn [app] in V6. destruct (uview_release sn s6 s7 p _ _ _ _ V6) as (n7 & V7).
      { unfold p, wadd. rewrite Rd3, B6, B4. rewrite Zplus_mod_idemp_l. f_equal. lia. }
      { exact E7. }
      assert (q ++ n1 ++ n2 ++ n3 ++ n4 ++ n6 ++ n7 = d :: r ++ n2 ++ n3 ++ n4 ++ n6 ++ n7) as Eqs
        by (rewrite !app_assoc; rewrite Eq; now rewrite <- !app_assoc).
      rewrite <- !app_assoc in V7.
      split; [|split].
      - cbn [wpx ret]. exists (n1 ++ n2 ++ n3 ++ n4 ++ n6 ++ n7), d, (r ++ n2 ++ n3 ++ n4 ++ n6 ++ n7). auto.
      - exists (n1 ++ n2 ++ n3 ++ n4 ++ n6 ++ n7). right. split; [reflexivity|]. right. right.
        exists d, (r ++ n2 ++ n3 ++ n4 ++ n6 ++ n7). split; [exact Eqs|]. split; [exact V7|].
        change (rx_rd (exec_cmd s7 0x40)) with (rx_rd s7).
        rewrite (rx_rd_put s6 p s7) by (auto; eapply uview_idle; exact V6). exact Np.
      - apply (FailP s6 s7 E06).
        pose proof (rx_part_ptr s6 p _ (uview_idle _ _ _ _ V6) ltac:(apply V6) (or_intror (or_intror eq_refl))) as P6.
        pose proof P6 as (J1 & _ & _ & _ & _ & J6 & _).
        exact (rx_part_trans _ _ _ P6 (rx_part_env _ _ J1 J6 E7)). }
    destruct (Z.eqb_spec k 0) as [Ek0|Ek0]; cbn [negb].
    + apply wpx_bindM. cbn [wpx ret].
      replace ([] : list Z) with (ztake k (d_data d)) by (now rewrite Ek0, ztake_0). apply Fin, env_refl.
    + apply wpx_bindM, wpx_rx_buf. intros s5 E5. split; [|apply Fail; eapply env_trans; eassumption].
      destruct (head_env _ _ _ H4 E5) as [H5 B5].
      rewrite (head_data sn s5 d k) by (auto; try lia; unfold wadd; congruence). now apply Fin.
Qed.

Lemma udp_send_faulty dbg buf s q fs a : udp_view s q fs a ->
  wpx (udp_send dbg sn buf) n s (fun r s' => exists new, match r with
    | Ok k => 0 <= k <= zlen buf /\
        Z.min (Z.min (zlen buf) 65535) (tx_size s - pending s) <= k /\
        udp_view s' (q ++ new) (fs ++ sent_frames a buf k) a
    | Err e => e = Other /\
        ((udp_view s' (q ++ new) fs a /\ tx_wr s' = tx_wr s) \/
         (udp_tx_torn s' (q ++ new) fs /\ tx_wr s' <> tx_wr s) \/
         (exists k, 0 < k <= zlen buf /\ udp_view s' (q ++ new) (fs ++ [frame_to a (ztake k buf)]) a /\
            tx_wr s' <> tx_wr s))
    end).
Proof.
  intros V. unfold udp_send.
  set (Q := fun (r : res err Z) s' => exists new, _).
  assert (forall s1, env s s1 -> tx_size s1 = tx_size s /\ pending s1 <= pending s /\ tx_wr s1 = tx_wr s /\
    exists new, udp_view s1 (q ++ new) fs a) as Ev.
  { intros s1 E1. destruct (uview_env _ _ _ _ _ V E1) as (n1 & V1).
    pose proof (uview_ready _ _ _ _ V) as (X & C).
    destruct (tx_work_env s s1 (uview_idle _ _ _ _ V) X E1) as (_ & _ & _ & _ & A5 & _ & A7 & _ & _ & A10 & _). eauto 6. }
  assert (forall s1, env s s1 -> Q (Err Other) s1) as Fail.
  { intros s1 E1. destruct (Ev s1 E1) as (_ & _ & A & n1 & V1). exists n1. auto. }
  apply wpx_assert_udp; [apply V|]. intros s0 E0. split; [|now apply Fail].
  apply wpx_bindM, wpx_tx_fsr.
  { intros s1 E1. destruct (Ev s1 (env_trans _ _ _ E0 E1)) as (-> & _). apply V. }
  intros s1 E1. pose proof (env_trans _ _ _ E0 E1) as E01. split; [|now apply Fail].
  destruct (Ev s1 E01) as (Z1 & P1 & T1 & n1 & V1). cbv zeta. rewrite len16_spec.
  assert (tx_fsr s1 = tx_size s1 - pending s1) as Ef by (apply (tx_fsr_ready sn); apply V1).
  pose proof (zlen_nonneg buf).
  assert (0 <= tx_fsr s1) by (unfold tx_fsr; lia).
  set (k := Z.min (Z.min (zlen buf) 65535) (tx_fsr s1)).
  destruct (Z.eqb_spec k 0) as [Ek|Ek]; cbn [negb].
  - cbn [wpx ret]. exists n1. unfold sent_frames. rewrite Ek. cbn [Z.eqb]. rewrite app_nil_r.
    split; [lia|]. split; [lia|exact V1].
  - eapply wpx_mono; [|apply (put_faulty s1 s1 buf k)]; auto using env_refl; try lia.
    + intros [x|e] s'.
      * intros (-> & S' & R' & [D1 D2] & X' & _ & F').
        destruct (uview_rx s1 s' (q ++ n1) fs a (fs ++ [frame_to a (ztake k buf)]) a) as (n2 & V2); auto.
        { rewrite F' by apply V1. pose proof V1 as (_ & _ & _ & _ & Ff & Da). rewrite Ff, <- Da. reflexivity. }
        { rewrite D1, D2. apply V1. }
        exists (n1 ++ n2). unfold sent_frames. destruct (Z.eqb_spec k 0); [contradiction|]. rewrite app_assoc.
        split; [lia|]. split; [lia|exact V2].
      * intros (-> & H').
        pose proof V1 as (O1 & (Wr1 & Rr1) & (Xr1 & Cr1) & (Q1 & Qo1) & Ff1 & Da1).
        destruct H' as [(P & Ew)|[(P & Ew)|(S' & R' & [D1 D2] & X' & Nw & _ & F')]].
        -- destruct P as (P1' & P2 & P3 & [P4 P4'] & P5 & P6 & P7 & P8).
           destruct (uview_rx s1 s' (q ++ n1) fs a fs a) as (n2 & V2); auto.
           { split; [exact P6|congruence]. }
           { rewrite P8 by apply V1. exact Ff1. }
           { rewrite P4, P4'. apply V1. }
           exists (n1 ++ n2). rewrite app_assoc. split; [reflexivity|]. left. split; [exact V2|congruence].
        -- destruct P as (P1' & P2 & (R1 & R2 & R3 & R4 & R5) & P4 & P5 & P6 & P7 & P8).
           destruct (R5 Wr1 O1) as (ds & Hd & U & _). exists (n1 ++ ds). rewrite app_assoc.
           split; [reflexivity|]. right. left. split; [|congruence]. destruct (R4 Wr1) as (W' & _).
           split; [apply P2, O1|]. split; [split; [exact W'|congruence]|]. split; [exact P6|]. split; [exact Ew|].
           split; [split; [rewrite U, Q1; symmetry; apply images_app|now apply Forall_app]|]. rewrite P8 by exact O1. exact Ff1.
        -- destruct (uview_rx s1 s' (q ++ n1) fs a (fs ++ [frame_to a (ztake k buf)]) a) as (n2 & V2); auto.
           { rewrite F' by apply V1. rewrite Ff1, <- Da1. reflexivity. }
           { rewrite D1, D2. apply V1. }
           exists (n1 ++ n2). rewrite app_assoc. split; [reflexivity|]. right. right. exists k. split; [lia|].
           split; [exact V2|congruence].
    + now apply uview_idle in V1.
    + apply V1.
Qed.

Lemma udp_send_to_faulty dbg buf a' s q fs a : udp_view s q fs a -> addr_ok a' ->
  wpx (udp_send_to dbg sn buf a') n s (fun r s' => exists new, match r with
    | Ok k => 0 <= k <= zlen buf /\
        Z.min (Z.min (zlen buf) 65535) (tx_size s - pending s) <= k /\
        udp_view s' (q ++ new) (fs ++ sent_frames a' buf k) a'
    | Err e => e = Other /\
        ((exists x, udp_view s' (q ++ new) fs x /\ tx_wr s' = tx_wr s) \/
         (udp_tx_torn s' (q ++ new) fs /\ tx_wr s' <> tx_wr s) \/
         (exists k, 0 < k <= zlen buf /\ udp_view s' (q ++ new) (fs ++ [frame_to a' (ztake k buf)]) a' /\
            tx_wr s' <> tx_wr s))
    end).
Proof.
  intros V Ha. unfold udp_send_to.
  assert (forall s1, env s s1 -> tx_size s1 = tx_size s /\ pending s1 <= pending s /\ tx_wr s1 = tx_wr s) as Ev.
  { intros s1 E1. pose proof (uview_ready _ _ _ _ V) as (X & _).
    destruct (tx_work_env s s1 (uview_idle _ _ _ _ V) X E1) as (_ & _ & _ & _ & A5 & _ & A7 & _ & _ & A10 & _). auto. }
  apply wpx_bindM, wpx_set_dest.
  - intros s1 E1. destruct (Ev s1 E1) as (Z1 & P1 & T1).
    destruct (uview_env _ _ _ _ _ V E1) as (n1 & V1). destruct (uview_dest sn _ _ _ _ a' V1 Ha) as (V2 & Z2 & P2).
    eapply wpx_mono; [|exact (udp_send_faulty dbg buf _ _ _ _ V2)].
    assert (tx_wr (with_reg s1 (put_dest (s_reg s1) a')) = tx_wr s1) as T2 by reflexivity.
    intros [k|e] s' (n2 & H).
    + destruct H as (H1 & H2 & H3). exists (n1 ++ n2). rewrite app_assoc. split; [exact H1|]. split; [lia|exact H3].
    + destruct H as (-> & H). exists (n1 ++ n2). rewrite app_assoc. split; [reflexivity|].
      destruct H as [[A B]|[A|(k & A & B & C)]]; [left; exists a'; split; [exact A|congruence]|right; left; split; [apply A|rewrite <- T1, <- T2; apply A]|].
      right. right. exists k. split; [exact A|]. split; [exact B|congruence].
  - intros s1 r E1 Hr. destruct (Ev s1 E1) as (Z1 & P1 & T1). destruct (uview_env _ _ _ _ _ V E1) as (n1 & V1).
    exists n1. split; [reflexivity|]. left.
    pose proof V1 as (T & (W & R) & (X & C) & (Q & Qo) & F & Da).
    assert (r 0x1E = s_reg s1 0x1E /\ r 0x1F = s_reg s1 0x1F /\ r 0x24 = s_reg s1 0x24 /\ r 0x25 = s_reg s1 0x25 /\
      r 0x28 = s_reg s1 0x28 /\ r 0x29 = s_reg s1 0x29) as (r1 & r2 & r3 & r4 & r5 & r6).
    { repeat split; apply Hr; lia. }
    destruct (tx_ev_reg s1 r r2 r3 r4) as (E2 & E3 & E4 & E5 & E6). destruct (E6 X) as (X' & _ & _ & F').
    destruct (rx_ev_reg s1 r r1 r5 r6) as (R1 & R2 & R3 & R4 & _). destruct (R4 W) as (W' & _).
    eexists. split; [|congruence].
    split; [exact T|]. split; [split; [exact W'|congruence]|]. split; [split; [exact X'|congruence]|].
    assert (unread (with_reg s1 r) = unread s1) as Eu by (unfold unread; now rewrite R3).
    split; [split; [congruence|exact Qo]|]. split; [rewrite F' by exact T; exact F|reflexivity].
Qed.
End Rules.

(** ** Runs *)
Lemma survives_done {A} (p : prog A) n c Q sch a sch' c' :
  survives p n c Q -> run p sch c = (Done a, sch', c') -> Q a (c_sock c' n).
Proof. intros H E. destruct (H sch) as (a0 & s0 & c0 & E0 & HQ). rewrite E in E0. now inversion E0; subst. Qed.

Lemma tcp_write_survives dbg sn c rd tx buf : tcp_view (c_sock c (sn_raw sn)) rd tx ->
  survives (tcp_write dbg sn buf) (sn_raw sn) c (fun r s' => match r with
    | Ok k => tcp_view s' rd (tx ++ ztake k buf) /\ 0 <= k <= zlen buf /\
        Z.min (Z.min (zlen buf) 65535) (tx_size (c_sock c (sn_raw sn)) - pending (c_sock c (sn_raw sn))) <= k
    | Err e => e = Other /\
        ((tcp_view s' rd tx /\ tx_wr s' = tx_wr (c_sock c (sn_raw sn))) \/
         (tcp_tx_torn s' rd tx /\ tx_wr s' <> tx_wr (c_sock c (sn_raw sn))) \/
         (exists k, 0 < k <= zlen buf /\ tcp_view s' rd (tx ++ ztake k buf) /\
            tx_wr s' <> tx_wr (c_sock c (sn_raw sn))))
    end).
Proof. intros V. apply wpx_sound; [apply snz_range|]. now apply (tcp_write_faulty sn). Qed.
Lemma tcp_write_again dbg sn c rd tx buf sch e sch' c' : tcp_view (c_sock c (sn_raw sn)) rd tx ->
  run (tcp_write dbg sn buf) sch c = (Done (Err e), sch', c') ->
  tx_wr (c_sock c' (sn_raw sn)) = tx_wr (c_sock c (sn_raw sn)) ->
  ensures (tcp_write dbg sn buf) (sn_raw sn) c' (fun r s' => exists k, r = Ok k /\
    tcp_view s' rd (tx ++ ztake k buf) /\ 0 <= k <= zlen buf /\
    Z.min (Z.min (zlen buf) 65535) (tx_size (c_sock c' (sn_raw sn)) - pending (c_sock c' (sn_raw sn))) <= k).
Proof.
  intros V R E. pose proof (survives_done _ _ _ _ _ _ _ _ (tcp_write_survives dbg sn c rd tx buf V) R) as (_ & H).
  destruct H as [[V' _]|[[_ N]|(k & _ & _ & N)]]; try contradiction.
  intros sch2 Hs. destruct (TcpP.tcp_write_run dbg sn c' rd tx buf V' sch2 Hs) as (a & s2 & c2 & R2 & k & H1 & H2 & H3 & H4 & _).
  exists a, s2, c2. split; [exact R2|]. exists k. auto.
Qed.

Lemma tcp_read_survives dbg sn c rd tx len : tcp_view (c_sock c (sn_raw sn)) rd tx -> 0 <= len ->
  survives (tcp_read dbg sn len) (sn_raw sn) c (fun r s' => match r with
    | Ok d => tcp_view s' (rd ++ d) tx /\ zlen d <= len /\
        Z.min (zlen (unread (c_sock c (sn_raw sn)))) (Z.min len 65535) <= zlen d
    | Err e => e = Other /\
        ((tcp_view s' rd tx /\ rx_rd s' = rx_rd (c_sock c (sn_raw sn))) \/
         (tcp_rx_torn s' rd tx /\ rx_rd s' <> rx_rd (c_sock c (sn_raw sn))) \/
         (exists d, d <> [] /\ zlen d <= len /\ tcp_view s' (rd ++ d) tx /\
            rx_rd s' <> rx_rd (c_sock c (sn_raw sn))))
    end).
Proof. intros V Hl. apply wpx_sound; [apply snz_range|]. now apply (tcp_read_faulty sn). Qed.
Lemma tcp_read_again dbg sn c rd tx len sch e sch' c' : tcp_view (c_sock c (sn_raw sn)) rd tx -> 0 <= len ->
  run (tcp_read dbg sn len) sch c = (Done (Err e), sch', c') ->
  rx_rd (c_sock c' (sn_raw sn)) = rx_rd (c_sock c (sn_raw sn)) ->
  ensures (tcp_read dbg sn len) (sn_raw sn) c' (fun r s' => exists d, r = Ok d /\
    tcp_view s' (rd ++ d) tx /\ zlen d <= len /\
    Z.min (zlen (unread (c_sock c' (sn_raw sn)))) (Z.min len 65535) <= zlen d).
Proof.
  intros V Hl R E. pose proof (survives_done _ _ _ _ _ _ _ _ (tcp_read_survives dbg sn c rd tx len V Hl) R) as (_ & H).
  destruct H as [[V' _]|[[_ N]|(d & _ & _ & _ & N)]]; try contradiction.
  intros sch2 Hs. destruct (TcpP.tcp_read_run dbg sn c' rd tx len V' Hl sch2 Hs) as (a & s2 & c2 & R2 & k & H1 & H2 & H3 & H4 & _).
  exists a, s2, c2. split; [exact R2|]. exists k. auto.
Qed.

Lemma udp_recv_survives dbg sn c q fs a len : udp_view (c_sock c (sn_raw sn)) q fs a -> 0 <= len ->
  survives (udp_recv_from dbg sn len) (sn_raw sn) c (fun r s' => exists new, match r with
    | Ok (d, o) => exists x q', q ++ new = x :: q' /\ d = ztake len (d_data x) /\ o = (d_ip x, d_port x) /\
        udp_view s' q' fs a
    | Err e =>
        (e = WouldBlock /\ q = [] /\ udp_view s' (q ++ new) fs a) \/
        (e = Other /\
         ((udp_view s' (q ++ new) fs a /\ rx_rd s' = rx_rd (c_sock c (sn_raw sn))) \/
          (udp_rx_torn s' (q ++ new) fs /\ rx_rd s' <> rx_rd (c_sock c (sn_raw sn))) \/
          (exists x q', q ++ new = x :: q' /\ udp_view s' q' fs a /\
             rx_rd s' <> rx_rd (c_sock c (sn_raw sn)))))
    end).
Proof. intros V Hl. apply wpx_sound; [apply snz_range|]. exact (udp_recv_faulty sn dbg len _ q fs a V Hl). Qed.
Lemma udp_recv_again dbg sn c q fs a len sch sch' c' : udp_view (c_sock c (sn_raw sn)) q fs a -> 0 <= len ->
  run (udp_recv_from dbg sn len) sch c = (Done (Err Other), sch', c') ->
  rx_rd (c_sock c' (sn_raw sn)) = rx_rd (c_sock c (sn_raw sn)) ->
  ensures (udp_recv_from dbg sn len) (sn_raw sn) c' (fun r s' => exists new,
    (r = Err WouldBlock /\ q = [] /\ udp_view s' (q ++ new) fs a) \/
    (exists d q', q ++ new = d :: q' /\ r = Ok (ztake len (d_data d), (d_ip d, d_port d)) /\ udp_view s' q' fs a)).
Proof.
  intros V Hl R E. destruct (survives_done _ _ _ _ _ _ _ _ (udp_recv_survives dbg sn c q fs a len V Hl) R) as (new & H).
  destruct H as [[H _]|[_ H]]; [discriminate|].
  destruct H as [[V' _]|[[_ N]|(d & q' & _ & _ & N)]]; try contradiction.
  intros sch2 Hs. destruct (UdpP.udp_recv_run dbg sn c' _ fs a len V' Hl sch2 Hs) as (r & s2 & c2 & R2 & new2 & H).
  exists r, s2, c2. split; [exact R2|]. exists (new ++ new2). rewrite app_assoc.
  destruct H as [(H1 & H2 & _ & H4)|H]; [left|right; exact H]. apply cat_nil in H2. destruct H2 as [-> _]. auto.
Qed.

Lemma udp_send_to_survives dbg sn c q fs a buf a' : udp_view (c_sock c (sn_raw sn)) q fs a -> addr_ok a' ->
  survives (udp_send_to dbg sn buf a') (sn_raw sn) c (fun r s' => exists new, match r with
    | Ok k => 0 <= k <= zlen buf /\
        Z.min (Z.min (zlen buf) 65535) (tx_size (c_sock c (sn_raw sn)) - pending (c_sock c (sn_raw sn))) <= k /\
        udp_view s' (q ++ new) (fs ++ sent_frames a' buf k) a'
    | Err e => e = Other /\
        ((exists x, udp_view s' (q ++ new) fs x /\ tx_wr s' = tx_wr (c_sock c (sn_raw sn))) \/
         (udp_tx_torn s' (q ++ new) fs /\ tx_wr s' <> tx_wr (c_sock c (sn_raw sn))) \/
         (exists k, 0 < k <= zlen buf /\ udp_view s' (q ++ new) (fs ++ [frame_to a' (ztake k buf)]) a' /\
            tx_wr s' <> tx_wr (c_sock c (sn_raw sn))))
    end).
Proof. intros V Ha. apply wpx_sound; [apply snz_range|]. exact (udp_send_to_faulty sn dbg buf a' _ q fs a V Ha). Qed.
Lemma udp_send_to_again dbg sn c q fs a buf a' sch e sch' c' : udp_view (c_sock c (sn_raw sn)) q fs a -> addr_ok a' ->
  run (udp_send_to dbg sn buf a') sch c = (Done (Err e), sch', c') ->
  tx_wr (c_sock c' (sn_raw sn)) = tx_wr (c_sock c (sn_raw sn)) ->
  ensures (udp_send_to dbg sn buf a') (sn_raw sn) c' (fun r s' => exists k new, r = Ok k /\ 0 <= k <= zlen buf /\
    Z.min (Z.min (zlen buf) 65535) (tx_size (c_sock c' (sn_raw sn)) - pending (c_sock c' (sn_raw sn))) <= k /\
    udp_view s' (q ++ new) (fs ++ sent_frames a' buf k) a').
Proof.
  intros V Ha R E. destruct (survives_done _ _ _ _ _ _ _ _ (udp_send_to_survives dbg sn c q fs a buf a' V Ha) R) as (new & _ & H).
  destruct H as [(x & V' & _)|[[_ N]|(k & _ & _ & N)]]; try contradiction.
  intros sch2 Hs. destruct (UdpP.udp_send_to_run dbg sn c' _ fs x buf a' V' Ha sch2 Hs) as (r & s2 & c2 & R2 & k & new2 & H1 & H2 & H3 & H4).
  exists r, s2, c2. split; [exact R2|]. exists k, (new ++ new2). rewrite app_assoc. auto.
Qed.

(** ** Witnesses *)
Definition ok_ticks (k : nat) : list tick := repeat {| t_evs := []; t_fault := None |} k.
Definition bad_tick (m : nat) : tick := {| t_evs := []; t_fault := Some m |}.
Lemma case_tcp_view : tcp_view (c_sock case_tcp 3) [] case_tcp_unsent.
Proof.
  repeat split; try (vm_compute; reflexivity || (intro; discriminate)); try (left; reflexivity);
    try (right; right; left; reflexivity). repeat constructor; discriminate.
Qed.
Lemma write_twice : exists sch,
  tcp_view (c_sock case_tcp 3) [] case_tcp_unsent /\
  let '(o, _, c1) := run (tcp_write true Sn3 [1; 2; 3]) sch case_tcp in
  let '(o2, _, c2) := run (tcp_write true Sn3 [1; 2; 3]) [] c1 in
  o = Done (Err Other) /\ tx_stream (c_sock c1 3) = case_tcp_unsent /\
  o2 = Done (Ok 3) /\ tx_stream (c_sock c2 3) = case_tcp_unsent ++ [1; 2; 3; 1; 2; 3].
Proof. exists (ok_ticks 5 ++ [bad_tick 0]). split; [exact case_tcp_view|]. vm_compute. auto. Qed.
Lemma read_garbage : exists sch,
  tcp_view (c_sock case_tcp 3) [] case_tcp_unsent /\
  unread (c_sock case_tcp 3) = [104; 101; 108; 108; 111] /\
  let '(o, _, c1) := run (tcp_read true Sn3 3) sch case_tcp in
  let '(o2, _, c2) := run (tcp_read true Sn3 3) [] c1 in
  o = Done (Err Other) /\ unread (c_sock c1 3) = [104; 101; 108; 108; 111] /\
  o2 = Done (Ok [108; 111; 0]).
Proof. exists (ok_ticks 5 ++ [bad_tick 0]). split; [exact case_tcp_view|]. vm_compute. auto. Qed.
Lemma recv_skips : exists sch,
  udp_view (c_sock case_udp 3) [case_d1; case_d2]
    [frame_to ([10; 0; 0; 9], 0x1234) case_tcp_unsent] ([10; 0; 0; 9], 0x1234) /\
  let '(o, _, c1) := run (udp_recv_from true Sn3 9) sch case_udp in
  let '(o2, _, c2) := run (udp_recv_from true Sn3 9) [] c1 in
  o = Done (Err Other) /\ rx_queue (c_sock c1 3) [case_d1; case_d2] /\
  o2 = Done (Ok ([], (d_ip case_d2, d_port case_d2))).
Proof.
  exists (ok_ticks 6 ++ [bad_tick 0]). split; [exact UdpP.case_udp_view|].
  pose proof (UdpP.case_udp_view) as (_ & _ & _ & (_ & Ho) & _).
  set (x := run (udp_recv_from true Sn3 9) (ok_ticks 6 ++ [bad_tick 0]) case_udp).
  assert (rx_queue (c_sock (snd x) 3) [case_d1; case_d2]) as G by (split; [vm_compute; reflexivity|exact Ho]).
  vm_compute in x. cbv zeta in G. revert G. unfold x. cbn [snd]. intros G.
  split; [reflexivity|]. split; [exact G|]. vm_compute. reflexivity.
Qed.
