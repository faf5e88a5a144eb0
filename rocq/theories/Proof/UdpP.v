(** The [Udp] trait against the chip: C12 - C17. *)
From Verif Require Export Proof.TcpP Model.HlUdp Spec.UdpClient Spec.Cases.

Lemma uview_idle s q fs a : udp_view s q fs a -> idle s.
Proof. intros (T & _). now apply udp_idle. Qed.

(** Any step that leaves the receive side to events. *)
Lemma uview_rx s s' q fs a fs' a' : udp_view s q fs a -> st_ev s s' -> rx_ev s s' -> tx_ready s' ->
  tx_frames s' = fs' -> (dest_ip s', dest_port s') = a' ->
  exists new, udp_view s' (q ++ new) fs' a'.
Proof.
  intros (T & (W & R) & X & (Q & Qo) & F & Da) S (R1 & R2 & R3 & R4 & R5) X' F' D'.
  destruct (R4 W) as (W' & _). destruct (R5 W T) as (ds & Hd & U & _).
  exists ds. split; [apply S, T|]. split; [split; [exact W'|congruence]|]. split; [exact X'|].
  split; [split; [rewrite U, Q, images_app; reflexivity|now apply Forall_app]|]. auto.
Qed.
Lemma uview_env s s' q fs a : udp_view s q fs a -> env s s' -> exists new, udp_view s' (q ++ new) fs a.
Proof.
  intros V E. pose proof V as (T & (W & R) & (X & C) & (Q & Qo) & F & Da). pose proof (udp_idle _ T) as I.
  destruct (env_all _ _ I E) as (I' & S & Rx & (T1 & T2 & T3 & T4 & T5) & D1 & D2).
  destruct (T5 X) as (X' & _ & _ & F'). apply (uview_rx s s' q fs a); auto.
  - split; [exact X'|congruence].
  - rewrite F' by exact T. exact F.
  - congruence.
Qed.

Lemma image_parts d : dgram_image d = (d_ip d ++ be16 (d_port d) ++ be16 (zlen (d_data d))) ++ d_data d.
Proof. unfold dgram_image. now rewrite <- !app_assoc. Qed.
Definition hdr_bytes (d : dgram) : list Z := d_ip d ++ be16 (d_port d) ++ be16 (zlen (d_data d)).
Lemma hdr_len d : dgram_ok d -> zlen (hdr_bytes d) = 8.
Proof. intros (H & _). unfold hdr_bytes. rewrite !zlen_app, !zlen_be16, H. reflexivity. Qed.
Lemma hdr_deser d : dgram_ok d -> udp_header_deser (hdr_bytes d) = header_of d.
Proof.
  intros (H1 & H2 & H3 & H4 & H5). unfold hdr_bytes. destruct (d_ip d) as [|b0 [|b1 [|b2 [|b3 [|b4 l]]]]] eqn:E;
    try (exfalso; revert H1; unfold zlen; cbn [length]; lia).
  unfold udp_header_deser, header_of, at_. rewrite E. cbn -[Z.div Z.modulo of_be16].
  f_equal; [f_equal|]; apply of_be16_hi_lo; [apply H3|]. pose proof (zlen_nonneg (d_data d)). lia.
Qed.
Lemma queue_wins s d q : rx_queue s (d :: q) ->
  dgram_ok d /\ rx_win s 0 (hdr_bytes d) /\ rx_win s 8 (d_data d) /\
  unread s = dgram_image d ++ images q /\ rx_rsr s = 8 + zlen (d_data d) + zlen (images q).
Proof.
  intros [Q Ho]. pose proof (Forall_inv Ho) as Hd. unfold images in Q. cbn [map concat] in Q.
  fold (images q) in Q. split; [exact Hd|]. split; [|split; [|split; [exact Q|]]].
  - exists [], (d_data d ++ images q). split; [|reflexivity]. rewrite Q, image_parts, <- app_assoc. reflexivity.
  - exists (hdr_bytes d), (images q). split; [|now apply hdr_len]. rewrite Q, image_parts, <- app_assoc. reflexivity.
  - rewrite <- (unread_len Sn0), Q, image_parts, !zlen_app. fold (hdr_bytes d).
    pose proof (hdr_len d Hd) as L. unfold hdr_bytes in L. rewrite !zlen_app in L. lia.
Qed.

Section OneSocket.
Context (sn : Sn).
Let n := snz sn.

Lemma udp_ok D s : udp_open s ->
  wps (udp_state_ok sn) n s D (fun r s' => env s s' /\ r = Ok true).
Proof.
  intros T. unfold udp_state_ok. apply wps_bindM, wps_sr. intros s1 E. cbn [wps ret]. split; [exact E|].
  destruct (env_all _ _ (udp_idle _ T) E) as (_ & (_ & _ & S) & _). destruct (S T) as [_ ->]. reflexivity.
Qed.
Lemma wps_assert_udp {A} dbg D s (f : unit -> M A) (Q : res err A -> sock -> Prop) : udp_open s ->
  (forall s1, env s s1 -> wps (f tt) n s1 D Q) ->
  wps (bindM (debug_assert dbg (udp_state_ok sn)) f) n s D Q.
Proof.
  intros T H. apply wps_bindM. apply wps_debug_assert.
  - intros _. apply H, env_refl.
  - intros _. eapply wps_mono; [| |exact (udp_ok D s T)]; auto. intros r s' [E ->]. left. auto.
Qed.

(** The datagram at the head of the queue stays there under events. *)
Definition head_is (s : sock) (d : dgram) : Prop :=
  idle s /\ rx_wf s /\ rx_rd s = s_rx_base s /\ dgram_ok d /\ rx_win s 0 (hdr_bytes d) /\ rx_win s 8 (d_data d).
Lemma head_env s s' d : head_is s d -> env s s' -> head_is s' d /\ s_rx_base s' = s_rx_base s.
Proof.
  intros (I & W & R & O & X1 & X2) E.
  destruct (rx_win_env _ _ _ _ I W E X1) as (I' & W' & X1' & B).
  destruct (rx_win_env _ _ _ _ I W E X2) as (_ & _ & X2' & _).
  destruct (env_all _ _ I E) as (_ & _ & (R1 & _) & _).
  split; [|exact B]. unfold head_is. repeat (split; [congruence || assumption|]). assumption.
Qed.
Lemma head_of s d q fs a : udp_view s (d :: q) fs a -> head_is s d.
Proof.
  intros V. pose proof V as (T & (W & R) & _ & Q & _). destruct (queue_wins _ _ _ Q) as (O & X1 & X2 & _).
  unfold head_is. split; [now apply udp_idle|]. auto.
Qed.
Lemma head_header s d p : head_is s d -> p = s_rx_base s ->
  udp_header_deser (ring (s_rxmem s) (rx_size s) p 8) = header_of d.
Proof.
  intros (I & W & R & O & X1 & X2) ->. rewrite (rx_win_read s 0 (hdr_bytes d) 0 8); auto; try lia.
  - rewrite zdrop_0. rewrite ztake_all by (rewrite hdr_len by exact O; lia). now apply hdr_deser.
  - rewrite hdr_len by exact O. lia.
Qed.
Lemma head_data s d k p : head_is s d -> 0 <= k <= zlen (d_data d) -> p = wadd (s_rx_base s) 8 ->
  ring (s_rxmem s) (rx_size s) p k = ztake k (d_data d).
Proof.
  intros (I & W & R & O & X1 & X2) Hk ->. rewrite (rx_win_read s 8 (d_data d) 0 k); auto; try lia.
  - unfold wadd. rewrite Z.add_0_r, Z.mod_mod by lia. reflexivity.
Qed.

(** Reading the received size: nothing there, or a head datagram. *)
Lemma rsr_cases s q fs a : udp_view s q fs a ->
  (q = [] /\ rx_rsr s = 0) \/ (exists d r, q = d :: r /\ head_is s d /\ 8 + zlen (d_data d) <= rx_rsr s).
Proof.
  intros V. destruct q as [|d r].
  - left. split; [reflexivity|]. destruct V as (_ & _ & _ & (Q & _) & _). rewrite <- (unread_len Sn0), Q. reflexivity.
  - right. exists d, r. split; [reflexivity|]. split; [eapply head_of; exact V|].
    destruct V as (_ & _ & _ & Q & _). destruct (queue_wins _ _ _ Q) as (_ & _ & _ & _ & ->).
    pose proof (zlen_nonneg (images r)). lia.
Qed.

(** Releasing the head datagram. *)
Lemma uview_release s s2 v d q fs a : udp_view s (d :: q) fs a ->
  v = (s_rx_base s + (8 + zlen (d_data d))) mod 65536 -> env (put16 s 0x28 v) s2 ->
  exists new, udp_view (exec_cmd s2 0x40) (q ++ new) fs a.
Proof.
  intros V Ev E. pose proof V as (T & (W & R) & (X & C) & Q & F & Da). pose proof (udp_idle _ T) as I.
  destruct (queue_wins _ _ _ Q) as (O & _ & _ & U & L).
  pose proof (zlen_nonneg (d_data d)). pose proof (zlen_nonneg (images q)).
  destruct (release s (8 + zlen (d_data d)) v s2 I W) as (I3 & S3 & T3 & [D3 D3'] & R3 & _ & Un); auto; try lia.
  { unfold is_u16. lia. }
  destruct (Un T) as (new & Hn & U3 & _).
  destruct T3 as (T31 & T32 & T33 & T34 & T35). destruct (T35 X) as (X3 & _ & _ & F3).
  exists new. split; [apply S3, T|]. split; [exact R3|]. split; [split; [exact X3|congruence]|].
  split; [split|].
  - rewrite U3, U, images_app. f_equal.
    assert (zlen (dgram_image d) = 8 + zlen (d_data d)) as Li.
    { rewrite image_parts, zlen_app. fold (hdr_bytes d). now rewrite hdr_len. }
    rewrite <- Li. apply zdrop_exact.
  - apply Forall_app. split; [|exact Hn]. destruct Q as [_ Q]. now apply Forall_inv_tail in Q.
  - split; [rewrite F3; auto|congruence].
Qed.

Lemma cat_nil {A} (l m : list A) : l ++ m = [] -> l = [] /\ m = [].
Proof. apply app_eq_nil. Qed.

(** The common part of recv and peek: up to the header check. *)
Lemma udp_recv_spec D dbg len s q fs a : udp_view s q fs a -> 0 <= len ->
  wps (udp_recv_from dbg sn len) n s D (fun r s' => exists new,
    (r = Err WouldBlock /\ q = [] /\ env s s' /\ udp_view s' (q ++ new) fs a) \/
    (exists d q', q ++ new = d :: q' /\ r = Ok (ztake len (d_data d), (d_ip d, d_port d)) /\
       udp_view s' q' fs a)).
Proof.
  intros V Hlen. unfold udp_recv_from. apply wps_bindM, wps_rx_rsr. intros s1 E1.
  destruct (uview_env _ _ _ _ _ V E1) as (n1 & V1).
  destruct (rsr_cases _ _ _ _ V1) as [(Eq & R1)|(d & r & Eq & H1 & R1)].
  - rewrite R1. cbn [wps fail]. destruct (cat_nil _ _ Eq) as [-> ->]. exists []. left. auto.
  - pose proof (zlen_nonneg (d_data d)).
    destruct (Z.ltb_spec (rx_rsr s1) UDP_HEADER_LEN) as [C|_]; [unfold UDP_HEADER_LEN in C; lia|]. cbv zeta.
    rewrite Eq in V1. apply wps_assert_udp; [apply V1|]. intros s2 E2.
    destruct (uview_env _ _ _ _ _ V1 E2) as (n2 & V2). destruct (head_env _ _ _ H1 E2) as [H2 B2].
    apply wps_bindM, wps_rx_rd. intros s3 E3.
    destruct (uview_env _ _ _ _ _ V2 E3) as (n3 & V3). destruct (head_env _ _ _ H2 E3) as [H3 B3].
    apply wps_bindM, wps_rx_buf. intros s4 E4.
    destruct (uview_env _ _ _ _ _ V3 E4) as (n4 & V4). destruct (head_env _ _ _ H3 E4) as [H4 B4].
    assert (rx_rd s3 = s_rx_base s3) as Rd3 by apply H3.
    change UDP_HEADER_LEN with 8. rewrite (head_header s4 d (rx_rd s3) H4) by congruence.
    cbn [header_of uh_len uh_origin].
    destruct (Z.ltb_spec (rx_rsr s1 - 8) (zlen (d_data d))) as [C|_]; [lia|].
    rewrite len16_spec. set (k := Z.min (zlen (d_data d)) (Z.min len 65535)).
    assert (0 <= zlen (d_data d) < 65536) as Ld by (destruct H1 as (_ & _ & _ & (_ & _ & _ & _ & ?) & _); lia).
    assert (ztake k (d_data d) = ztake len (d_data d)) as Ek.
    { unfold k. destruct (Z.le_gt_cases (zlen (d_data d)) len).
      - rewrite !ztake_all by lia. reflexivity.
      - f_equal. lia. }
    assert (forall s5 s6 p, env s4 s5 -> p = wadd (wadd (rx_rd s3) 8) (zlen (d_data d)) ->
      env (put16 s5 0x28 p) s6 ->
      exists new, exists d0 q', q ++ new = d0 :: q' /\ Ok (ztake k (d_data d), (d_ip d, d_port d)) = Ok (E := err) (ztake len (d_data d0), (d_ip d0, d_port d0)) /\
        udp_view (exec_cmd s6 0x40) q' fs a) as Fin.
    { intros s5 s6 p E5 -> E6. destruct (uview_env _ _ _ _ _ V4 E5) as (n5 & V5). destruct (head_env _ _ _ H4 E5) as [H5 B5].
      cbn [app] in V5. destruct (uview_release s5 s6 (wadd (wadd (rx_rd s3) 8) (zlen (d_data d))) _ _ _ _ V5) as (n6 & V6).
      { unfold wadd. rewrite Rd3, B5, B4. rewrite Zplus_mod_idemp_l. f_equal. lia. }
      { exact E6. }
      exists (n1 ++ n2 ++ n3 ++ n4 ++ n5 ++ n6), d, (r ++ n2 ++ n3 ++ n4 ++ n5 ++ n6).
      split; [rewrite !app_assoc; rewrite Eq; now rewrite <- !app_assoc|].
      split; [now rewrite Ek|]. rewrite <- !app_assoc in V6. exact V6. }
    destruct (Z.eqb_spec k 0) as [Ek0|Ek0]; cbn [negb].
    + apply wps_bindM. cbn [wps ret].
      apply wps_bindM, wps_set_rx_rd. intros s5 E5. apply wps_bindM, wps_set_cr. intros s6 E6. cbn [wps ret].
      destruct (Fin s5 s6 _ E5 eq_refl E6) as (new & d0 & q' & F1 & F2 & F3). exists new. right. exists d0, q'.
      split; [exact F1|]. split; [|exact F3]. rewrite <- F2. now rewrite Ek0, ztake_0.
    + apply wps_bindM, wps_rx_buf. intros s5 E5. destruct (head_env _ _ _ H4 E5) as [H5 B5].
      rewrite (head_data s5 d k) by (auto; try lia; unfold wadd; congruence).
      apply wps_bindM, wps_set_rx_rd. intros s6 E6. apply wps_bindM, wps_set_cr. intros s7 E7. cbn [wps ret].
      destruct (Fin s6 s7 _ (env_trans _ _ _ E5 E6) eq_refl E7) as (new & d0 & q' & F1 & F2 & F3). exists new. right. exists d0, q'.
      split; [exact F1|]. split; [|exact F3]. now rewrite <- F2.
Qed.

Lemma udp_peek_spec D dbg len s q fs a : udp_view s q fs a -> 0 <= len ->
  wps (udp_peek_from dbg sn len) n s D (fun r s' => env s s' /\ exists new, udp_view s' (q ++ new) fs a /\
    ((r = Err WouldBlock /\ q = []) \/
     (exists d q', q ++ new = d :: q' /\ r = Ok (ztake len (d_data d), header_of d)))).
Proof.
  intros V Hlen. unfold udp_peek_from. apply wps_bindM, wps_rx_rsr. intros s1 E1.
  destruct (uview_env _ _ _ _ _ V E1) as (n1 & V1).
  destruct (rsr_cases _ _ _ _ V1) as [(Eq & R1)|(d & r & Eq & H1 & R1)].
  - rewrite R1. cbn [wps fail]. split; [exact E1|]. destruct (cat_nil _ _ Eq) as [-> ->]. exists []. auto.
  - pose proof (zlen_nonneg (d_data d)).
    destruct (Z.ltb_spec (rx_rsr s1) UDP_HEADER_LEN) as [C|_]; [unfold UDP_HEADER_LEN in C; lia|]. cbv zeta.
    apply wps_assert_udp; [apply V1|]. intros s2 E2. destruct (head_env _ _ _ H1 E2) as [H2 B2].
    apply wps_bindM, wps_rx_rd. intros s3 E3. destruct (head_env _ _ _ H2 E3) as [H3 B3].
    apply wps_bindM, wps_rx_buf. intros s4 E4. destruct (head_env _ _ _ H3 E4) as [H4 B4].
    assert (rx_rd s3 = s_rx_base s3) as Rd3 by apply H3.
    change UDP_HEADER_LEN with 8. rewrite (head_header s4 d (rx_rd s3) H4) by congruence.
    cbn [header_of uh_len uh_origin].
    destruct (Z.ltb_spec (rx_rsr s1 - 8) (zlen (d_data d))) as [C|_]; [lia|].
    rewrite len16_spec. set (k := Z.min (zlen (d_data d)) (Z.min len 65535)).
    assert (0 <= zlen (d_data d) < 65536) as Ld by (destruct H1 as (_ & _ & _ & (_ & _ & _ & _ & ?) & _); lia).
    assert (ztake k (d_data d) = ztake len (d_data d)) as Ek.
    { unfold k. destruct (Z.le_gt_cases (zlen (d_data d)) len).
      - rewrite !ztake_all by lia. reflexivity.
      - f_equal. lia. }
    assert (forall s5, env s4 s5 -> env s s5 /\ exists new, udp_view s5 (q ++ new) fs a /\
      ((Ok (ztake k (d_data d), header_of d) = Err WouldBlock /\ q = []) \/
       exists d0 q', q ++ new = d0 :: q' /\ Ok (ztake k (d_data d), header_of d) = Ok (E := err) (ztake len (d_data d0), header_of d0))) as Fin.
    { intros s5 E5. assert (env s s5) as E by (eauto 8 using env_trans). split; [exact E|].
      assert (env s1 s5) as E15 by (eauto 8 using env_trans).
      destruct (uview_env _ _ _ _ _ V1 E15) as (n5 & V5). exists (n1 ++ n5). rewrite app_assoc.
      split; [exact V5|]. right. exists d, (r ++ n5). rewrite Eq. split; [reflexivity|]. now rewrite Ek. }
    destruct (Z.eqb_spec k 0) as [Ek0|Ek0]; cbn [negb].
    + apply wps_bindM. cbn [wps ret]. rewrite <- (ztake_0 (d_data d)), <- Ek0. apply Fin, env_refl.
    + apply wps_bindM, wps_rx_buf. intros s5 E5. destruct (head_env _ _ _ H4 E5) as [H5 B5].
      rewrite (head_data s5 d k) by (auto; try lia; unfold wadd; congruence). cbn [wps ret]. now apply Fin.
Qed.

Lemma udp_peek_header_spec D dbg s q fs a : udp_view s q fs a ->
  wps (udp_peek_from_header dbg sn) n s D (fun r s' => env s s' /\ exists new, udp_view s' (q ++ new) fs a /\
    ((r = Err WouldBlock /\ q = []) \/ (exists d q', q ++ new = d :: q' /\ r = Ok (header_of d)))).
Proof.
  intros V. unfold udp_peek_from_header. apply wps_bindM, wps_rx_rsr. intros s1 E1.
  destruct (uview_env _ _ _ _ _ V E1) as (n1 & V1).
  destruct (rsr_cases _ _ _ _ V1) as [(Eq & R1)|(d & r & Eq & H1 & R1)].
  - rewrite R1. cbn [wps fail]. split; [exact E1|]. destruct (cat_nil _ _ Eq) as [-> ->]. exists []. auto.
  - pose proof (zlen_nonneg (d_data d)).
    destruct (Z.ltb_spec (rx_rsr s1) UDP_HEADER_LEN) as [C|_]; [unfold UDP_HEADER_LEN in C; lia|].
    apply wps_assert_udp; [apply V1|]. intros s2 E2. destruct (head_env _ _ _ H1 E2) as [H2 B2].
    apply wps_bindM, wps_rx_rd. intros s3 E3. destruct (head_env _ _ _ H2 E3) as [H3 B3].
    apply wps_bindM, wps_rx_buf. intros s4 E4. destruct (head_env _ _ _ H3 E4) as [H4 B4].
    assert (rx_rd s3 = s_rx_base s3) as Rd3 by apply H3.
    change UDP_HEADER_LEN with 8. rewrite (head_header s4 d (rx_rd s3) H4) by congruence.
    cbn [wps ret]. split; [eauto 8 using env_trans|].
    assert (env s1 s4) as E14 by (eauto 8 using env_trans).
    destruct (uview_env _ _ _ _ _ V1 E14) as (n5 & V5). exists (n1 ++ n5). rewrite app_assoc.
    split; [exact V5|]. right. exists d, (r ++ n5). rewrite Eq. auto.
Qed.

(** ** Sending *)
Lemma uview_ready s q fs a : udp_view s q fs a -> tx_ready s.
Proof. now intros (_ & _ & X & _). Qed.

Lemma udp_send_spec D dbg buf s q fs a : udp_view s q fs a ->
  wps (udp_send dbg sn buf) n s D (fun r s' => exists k new, r = Ok k /\ 0 <= k <= zlen buf /\
    Z.min (Z.min (zlen buf) 65535) (tx_size s - pending s) <= k /\
    udp_view s' (q ++ new) (fs ++ sent_frames a buf k) a).
Proof.
  intros V. unfold udp_send. apply wps_assert_udp; [apply V|]. intros s0 E0.
  assert (forall s1, env s0 s1 -> tx_size s1 = tx_size s /\ pending s1 <= pending s /\
    exists new, udp_view s1 (q ++ new) fs a) as Ev.
  { intros s1 E1. destruct (uview_env _ _ _ _ _ V (env_trans _ _ _ E0 E1)) as (n1 & V1).
    pose proof (uview_ready _ _ _ _ V) as (X & C).
    destruct (tx_work_env s s1 (uview_idle _ _ _ _ V) X) as (_ & _ & _ & _ & _ & _ & A7 & _ & _ & A10 & _).
    { eapply env_trans; eassumption. }
    split; [exact A7|]. split; [exact A10|]. exists n1. exact V1. }
  apply wps_bindM, wps_tx_fsr.
  { intros s1 E1. destruct (Ev s1 E1) as (-> & _). apply V. }
  intros s1 E1. destruct (Ev s1 E1) as (Z1 & P1 & n1 & V1). cbv zeta. rewrite len16_spec.
  assert (tx_fsr s1 = tx_size s1 - pending s1) as Ef by (apply (tx_fsr_ready sn); apply V1).
  pose proof (zlen_nonneg buf).
  assert (0 <= tx_fsr s1) by (unfold tx_fsr; lia).
  set (k := Z.min (Z.min (zlen buf) 65535) (tx_fsr s1)).
  unfold sent_frames. destruct (Z.eqb_spec k 0) as [Ek|Ek]; cbn [negb].
  - cbn [wps ret]. exists 0, n1. rewrite Ek. cbn [Z.eqb]. rewrite app_nil_r. split; [reflexivity|].
    split; [lia|]. split; [lia|exact V1].
  - eapply wps_mono; [| |apply (put_spec sn D s1 s1 buf k)]; auto using env_refl; try lia.
    + intros r s' (-> & S' & R' & [D1 D2] & X' & Z' & P' & _ & F').
      destruct (uview_rx s1 s' (q ++ n1) fs a (fs ++ [frame_to a (ztake k buf)]) a) as (n2 & V2); auto.
      { rewrite F' by apply V1. pose proof V1 as (_ & _ & _ & _ & Ff & Da). rewrite Ff, <- Da. reflexivity. }
      { rewrite D1, D2. apply V1. }
      exists k, (n1 ++ n2). destruct (Z.eqb_spec k 0); [contradiction|]. rewrite app_assoc.
      split; [reflexivity|]. split; [lia|]. split; [lia|exact V2].
    + now apply uview_idle in V1.
    + apply V1.
Qed.

(** Setting the destination. *)
Lemma uview_dest s q fs a a' : udp_view s q fs a -> addr_ok a' ->
  udp_view (with_reg s (put_dest (s_reg s) a')) q fs a' /\
  tx_size (with_reg s (put_dest (s_reg s) a')) = tx_size s /\
  pending (with_reg s (put_dest (s_reg s) a')) = pending s.
Proof.
  intros V (A1 & A2 & A3). set (s' := with_reg s _).
  pose proof V as (T & (W & R) & (X & C) & (Q & Qo) & F & Da).
  destruct (uview_rx s s' q fs a fs a') as (new & V'); auto.
  - apply st_ev_reg.
  - apply rx_ev_reg; reflexivity.
  - pose proof (tx_ev_reg s (put_dest (s_reg s) a') eq_refl eq_refl eq_refl) as (E1 & E2 & E3 & E4 & E5).
    destruct (E5 X) as (X' & _). split; [exact X'|]. exact C.
  - destruct a' as [ip port]. cbn [fst snd] in *. f_equal.
    + destruct ip as [|b0 [|b1 [|b2 [|b3 [|b4 l]]]]]; try (exfalso; revert A1; unfold zlen; cbn [length]; lia).
      reflexivity.
    + unfold s', dest_port, of_word. cbn. now apply hi_lo.
  - split; [|split; reflexivity].
    destruct V' as (V1 & V2 & V3 & V4 & V5 & V6). split; [exact V1|]. split; [exact V2|]. split; [exact V3|].
    split; [|auto]. split; [exact Q|exact Qo].
Qed.

Lemma udp_send_to_spec D dbg buf a' s q fs a : udp_view s q fs a -> addr_ok a' ->
  wps (udp_send_to dbg sn buf a') n s D (fun r s' => exists k new, r = Ok k /\ 0 <= k <= zlen buf /\
    Z.min (Z.min (zlen buf) 65535) (tx_size s - pending s) <= k /\
    udp_view s' (q ++ new) (fs ++ sent_frames a' buf k) a').
Proof.
  intros V Ha. unfold udp_send_to. apply wps_bindM, wps_set_dest. intros s1 E1.
  destruct (uview_env _ _ _ _ _ V E1) as (n1 & V1). destruct (uview_dest _ _ _ _ a' V1 Ha) as (V2 & Z2 & P2).
  assert (tx_size s1 = tx_size s /\ pending s1 <= pending s) as [Z1 P1].
  { pose proof (uview_ready _ _ _ _ V) as (X & _).
    destruct (tx_work_env s s1 (uview_idle _ _ _ _ V) X E1) as (_ & _ & _ & _ & _ & _ & A7 & _ & _ & A10 & _). auto. }
  eapply wps_mono; [| |exact (udp_send_spec D dbg buf _ _ _ _ V2)]; [auto|].
  intros r s' (k & n2 & -> & Hk & Hl & V'). exists k, (n1 ++ n2). rewrite app_assoc. split; [reflexivity|].
  split; [exact Hk|]. split; [lia|exact V'].
Qed.

Lemma udp_if_free_spec D dbg buf s q fs a : udp_view s q fs a ->
  wps (udp_send_if_free dbg sn buf) n s D (fun r s' => exists k out new, r = Ok k /\
    ((k = zlen buf /\ (out = [] /\ tx_size s - pending s < zlen buf \/ out = [frame_to a buf])) \/
     (k = 0 /\ 65535 < zlen buf /\ out = [])) /\
    udp_view s' (q ++ new) (fs ++ out) a).
Proof.
  intros V. unfold udp_send_if_free. apply wps_assert_udp; [apply V|]. intros s0 E0.
  destruct (uview_env _ _ _ _ _ V E0) as (n0 & V0).
  destruct (Z.ltb_spec 65535 (zlen buf)) as [C|C].
  { cbn [wps ret]. exists 0, [], n0. rewrite app_nil_r. auto 8. }
  cbv zeta.
  assert (forall s1, env s0 s1 -> tx_size s1 = tx_size s /\ pending s1 <= pending s /\
    exists new, udp_view s1 (q ++ new) fs a) as Ev.
  { intros s1 E1. destruct (uview_env _ _ _ _ _ V (env_trans _ _ _ E0 E1)) as (n1 & V1).
    pose proof (uview_ready _ _ _ _ V) as (X & _).
    destruct (tx_work_env s s1 (uview_idle _ _ _ _ V) X) as (_ & _ & _ & _ & _ & _ & A7 & _ & _ & A10 & _).
    { eapply env_trans; eassumption. }
    split; [exact A7|]. split; [exact A10|]. exists n1. exact V1. }
  apply wps_bindM, wps_tx_fsr.
  { intros s1 E1. destruct (Ev s1 E1) as (-> & _). apply V. }
  intros s1 E1. destruct (Ev s1 E1) as (Z1 & P1 & n1 & V1).
  assert (tx_fsr s1 = tx_size s1 - pending s1) as Ef by (apply (tx_fsr_ready sn); apply V1).
  pose proof (zlen_nonneg buf).
  destruct (Z.leb_spec (zlen buf) (tx_fsr s1)) as [L|L].
  - pose proof (put_spec sn D s1 s1 buf (zlen buf)) as P. rewrite (ztake_all (zlen buf) buf) in P by lia.
    eapply wps_mono; [| |apply P]; auto using env_refl; try lia.
    + intros r s' (-> & S' & R' & [D1 D2] & X' & Z' & P' & _ & F').
      destruct (uview_rx s1 s' (q ++ n1) fs a (fs ++ [frame_to a buf]) a) as (n2 & V2); auto.
      { rewrite F' by apply V1. pose proof V1 as (_ & _ & _ & _ & Ff & Da). rewrite Ff, <- Da. reflexivity. }
      { rewrite D1, D2. apply V1. }
      exists (zlen buf), [frame_to a buf], (n1 ++ n2). rewrite app_assoc. split; [reflexivity|]. split; [|exact V2].
      left. auto.
    + now apply uview_idle in V1.
    + apply V1.
  - cbn [wps ret]. exists (zlen buf), [], n1. rewrite app_nil_r. split; [reflexivity|]. split; [|exact V1].
    left. split; [reflexivity|]. left. split; [reflexivity|lia].
Qed.

Lemma udp_to_if_free_spec D dbg buf a' s q fs a : udp_view s q fs a -> addr_ok a' ->
  wps (udp_send_to_if_free dbg sn buf a') n s D (fun r s' => exists k out new, r = Ok k /\
    ((k = zlen buf /\ (out = [] /\ tx_size s - pending s < zlen buf \/ out = [frame_to a' buf])) \/
     (k = 0 /\ 65535 < zlen buf /\ out = [])) /\
    udp_view s' (q ++ new) (fs ++ out) a').
Proof.
  intros V Ha. unfold udp_send_to_if_free. apply wps_bindM, wps_set_dest. intros s1 E1.
  destruct (uview_env _ _ _ _ _ V E1) as (n1 & V1). destruct (uview_dest _ _ _ _ a' V1 Ha) as (V2 & Z2 & P2).
  assert (tx_size s1 = tx_size s /\ pending s1 <= pending s) as [Z1 P1].
  { pose proof (uview_ready _ _ _ _ V) as (X & _).
    destruct (tx_work_env s s1 (uview_idle _ _ _ _ V) X E1) as (_ & _ & _ & _ & _ & _ & A7 & _ & _ & A10 & _). auto. }
  eapply wps_mono; [| |exact (udp_if_free_spec D dbg buf _ _ _ _ V2)]; [auto|].
  intros r s' (k & out & n2 & -> & H & V'). exists k, out, (n1 ++ n2). rewrite app_assoc. split; [reflexivity|].
  split; [|exact V']. rewrite Z2, P2 in H. destruct H as [(H1 & [[H2 H3]|H2])|H]; auto 6.
  left. split; [exact H1|]. left. split; [exact H2|lia].
Qed.

(** ** Reader sessions *)
Lemma udp_reader_spec D dbg s q fs a : udp_view s q fs a ->
  wps (udp_reader dbg sn) n s D (fun r s' => env s s' /\ exists new, udp_view s' (q ++ new) fs a /\
    ((r = Err WouldBlock /\ q = []) \/
     (exists c d q', q ++ new = d :: q' /\ r = Ok {| ur_inner := c; ur_header := header_of d |} /\
        cu_sn c = sn /\ cursor_ok c /\ cur_pos c = 0 /\ cur_len c = zlen (d_data d) /\
        cu_head c = (s_rx_base s' + 8) mod 65536 /\
        cu_tail c = (s_rx_base s' + (8 + zlen (d_data d))) mod 65536))).
Proof.
  intros V. unfold udp_reader. apply wps_assert_udp; [apply V|]. intros s0 E0.
  apply wps_bindM, wps_rx_rsr. intros s1 E1. pose proof (env_trans _ _ _ E0 E1) as E01. clear E0 E1.
  destruct (uview_env _ _ _ _ _ V E01) as (n1 & V1).
  destruct (rsr_cases _ _ _ _ V1) as [(Eq & R1)|(d & r & Eq & H1 & R1)].
  - rewrite R1. cbn [wps fail]. split; [exact E01|]. destruct (cat_nil _ _ Eq) as [-> ->]. exists []. auto.
  - pose proof (zlen_nonneg (d_data d)).
    destruct (Z.ltb_spec (rx_rsr s1) UDP_HEADER_LEN) as [C|_]; [unfold UDP_HEADER_LEN in C; lia|]. cbv zeta.
    apply wps_bindM, wps_rx_rd. intros s3 E3. destruct (head_env _ _ _ H1 E3) as [H3 B3].
    apply wps_bindM, wps_rx_buf. intros s4 E4. destruct (head_env _ _ _ H3 E4) as [H4 B4].
    assert (rx_rd s3 = s_rx_base s3) as Rd3 by apply H3.
    change UDP_HEADER_LEN with 8. rewrite (head_header s4 d (rx_rd s3) H4) by congruence.
    cbn [wps ret]. split; [eauto 8 using env_trans|].
    assert (env s1 s4) as E14 by (eauto 8 using env_trans).
    destruct (uview_env _ _ _ _ _ V1 E14) as (n5 & V5). exists (n1 ++ n5). rewrite app_assoc.
    split; [exact V5|]. right.
    pose proof V1 as (_ & ((Hz & _ & _ & Hle) & _) & _). pose proof (size_ok_range _ Hz).
    cbn [header_of uh_len]. rewrite Z.min_l by lia.
    eexists; exists d, (r ++ n5). rewrite Eq. split; [reflexivity|]. split; [reflexivity|].
    rewrite Rd3, B4. unfold cursor_ok, cur_pos, cur_len, wsub, wadd, is_u16. cbn [cu_sn cu_head cu_tail cu_ptr].
    split; [reflexivity|]. rewrite Zplus_mod_idemp_l. split; [lia|]. split; [lia|]. split; [lia|].
    split; [reflexivity|]. f_equal. lia.
Qed.

Lemma udp_reader_session D dbg ops (fin : bool) s q fs a : udp_view s q fs a ->
  Forall cop_ok ops -> forallb reader_op ops = true ->
  wps (r <- udp_reader dbg sn ;; x <-- cops_run (ur_inner r) ops ;;
       (if fin then udp_reader_done (snd x) else ret tt) ;;; ret (ur_header r, fst x)) n s D
   (fun (r : res err (UdpHeader * list cres)) (s' : sock) => exists new,
     (r = Err WouldBlock /\ q = [] /\ udp_view s' (q ++ new) fs a) \/
     (exists d q' xs pos, q ++ new = d :: q' /\ r = Ok (header_of d, xs) /\
        asteps (d_data d) 0 ops = (xs, d_data d, pos) /\
        udp_view s' (if fin then q' else d :: q') fs a)).
Proof.
  intros V Ho Hr. apply wps_bindM. eapply wps_mono; [| |exact (udp_reader_spec D dbg s q fs a V)]; [auto|].
  intros r s1 (E1 & n1 & V1 & [(-> & Hq)|(c & d & q' & Eq & -> & Hsn & Hc & Hp & Hl & Hh & Ht)]).
  - exists n1. left. auto.
  - rewrite Eq in V1. pose proof (head_of _ _ _ _ _ V1) as (I1 & W1 & R1 & O1 & _ & X1).
    cbn [ur_inner ur_header]. apply wps_bind.
    eapply wps_mono; [| |apply (reader_session sn D ops c s1 8 (d_data d))]; auto.
    intros [xs c'] s2 (E2 & Hc' & (W1' & W2' & W3') & Ha). cbn [fst snd] in *. rewrite Hp in Ha.
    destruct (uview_env _ _ _ _ _ V1 E2) as (n2 & V2). cbn [app] in V2.
    pose proof (zlen_nonneg (d_data d)).
    destruct fin.
    + unfold udp_reader_done. rewrite W1', Hsn, W3', Ht.
      apply wps_bindM, wps_bindM, wps_set_rx_rd. intros s3 E3.
      destruct (uview_env _ _ _ _ _ V2 E3) as (n3 & V3). cbn [app] in V3.
      apply wps_bindM, wps_set_cr. intros s4 E4. cbn [wps ret].
      assert (s_rx_base s3 = s_rx_base s1) as B3.
      { destruct (env_all _ _ I1 (env_trans _ _ _ E2 E3)) as (_ & _ & (_ & B & _) & _). exact B. }
      destruct (uview_release s3 s4 ((s_rx_base s1 + (8 + zlen (d_data d))) mod 65536) _ _ _ _ V3) as (n4 & V4).
      { now rewrite B3. }
      { exact E4. }
      exists (n1 ++ n2 ++ n3 ++ n4). right. exists d, (q' ++ n2 ++ n3 ++ n4), xs, (cur_pos c').
      rewrite app_assoc, Eq. split; [reflexivity|]. split; [reflexivity|]. split; [exact Ha|].
      rewrite <- !app_assoc in V4. exact V4.
    + cbn [wps bindM bind ret]. exists (n1 ++ n2). right. exists d, (q' ++ n2), xs, (cur_pos c').
      rewrite app_assoc, Eq. auto.
Qed.

(** ** Writer sessions *)
Lemma udp_writer_session D dbg ops (fin : wend) s q fs a : udp_view s q fs a ->
  Forall cop_ok ops -> forallb writer_op ops = true -> (match fin with WSendTo a' => addr_ok a' | _ => True end) ->
  wps (c <- tx_writer sn ;; x <-- cops_run c ops ;;
       (match fin with WDrop => ret tt | WSend => cur_send (snd x) | WSendTo a' => udp_writer_send_to dbg (snd x) a' end) ;;;
       ret (fst x)) n s D
   (fun (r : res err (list cres)) (s' : sock) => exists new w0 xs w pos, r = Ok xs /\ asteps w0 0 ops = (xs, w, pos) /\
      tx_size s - pending s <= zlen w0 <= tx_size s /\
      udp_view s' (q ++ new) (fs ++ match fin with WDrop => [] | WSend => [frame_to a (ztake pos w)]
                                    | WSendTo a' => [frame_to a' (ztake pos w)] end)
        (match fin with WSendTo a' => a' | _ => a end)).
Proof.
  intros V Ho Hr Hfin. pose proof (uview_ready _ _ _ _ V) as X. pose proof (uview_idle _ _ _ _ V) as I.
  apply wps_bindM. eapply wps_mono; [| |exact (tx_writer_spec sn D s I X)]; [auto|].
  intros r s1 (E1 & c & -> & Hsn & Hc & Hp & Hh & Hl).
  destruct (uview_env _ _ _ _ _ V E1) as (n1 & V1). pose proof (uview_idle _ _ _ _ V1) as I1.
  pose proof (uview_ready _ _ _ _ V1) as (X1 & C1).
  destruct X as [X C]. destruct (tx_work_env s s1 I X E1) as (_ & _ & _ & _ & _ & _ & Ez & _ & _ & Ep & _).
  pose proof (cur_accounting c Hc) as (A1 & A2 & A3).
  apply wps_bind.
  eapply wps_mono; [| |apply (writer_session sn D ops c s1 (window s1 (cur_len c)))]; auto; [|lia].
  intros [xs c'] s2 (K & Hc' & Hw' & Ha). cbn [fst snd] in *. rewrite Hp in Ha.
  pose proof K as (K1 & K2 & K3 & [K4 K4'] & K5 & K6 & K7 & K8 & K9 & K10 & K11).
  pose proof (cur_accounting c' Hc') as (B1 & B2 & B3). pose proof (same_window_len _ _ Hw') as Ln.
  assert (zlen (window s1 (cur_len c)) = cur_len c) as Lw by (unfold window; rewrite ring_len; lia).
  assert (tx_size s - pending s <= zlen (window s1 (cur_len c)) <= tx_size s) as Lb.
  { pose proof (wsub_range (s_tx_cmd s1) (s_tx_rd s1)) as Hq. fold (pending s1) in Hq. unfold is_u16 in Hq. lia. }
  assert (ztake (cur_pos c') (window s2 (cur_len c)) = window s2 (cur_pos c')) as Ew.
  { unfold window. apply ring_take. lia. }
  destruct (uview_rx s1 s2 (q ++ n1) fs a fs a) as (n2 & V2); auto.
  { split; [exact K8|congruence]. }
  { rewrite K11 by apply V1. apply V1. }
  { rewrite K4, K4'. apply V1. }
  assert (cu_sn c' = sn) as Hsn' by (destruct Hw' as (-> & _); exact Hsn).
  assert (cu_head c' = s_tx_cmd s2) as Hh' by (destruct Hw' as (_ & -> & _); congruence).
  destruct fin as [| |a'].
  - cbn [wps bindM bind ret]. exists (n1 ++ n2), (window s1 (cur_len c)), xs, (window s2 (cur_len c)), (cur_pos c').
    rewrite app_assoc, app_nil_r. auto.
  - apply wps_bindM. eapply wps_mono; [| |apply (send_spec sn D c' s2)]; auto; [|lia].
    intros r s3 (-> & Q1 & Q2 & Q3 & [Q4 Q4'] & Q5 & Q6 & Q7 & Q8 & Q9). cbn [wps ret].
    destruct (uview_rx s2 s3 _ fs a (fs ++ [frame_to a (window s2 (cur_pos c'))]) a V2) as (n3 & V3); auto.
    { rewrite Q9 by apply V2. pose proof V2 as (_ & _ & _ & _ & Ff & Da). rewrite Ff, <- Da. reflexivity. }
    { rewrite Q4, Q4'. apply V2. }
    exists (n1 ++ n2 ++ n3), (window s1 (cur_len c)), xs, (window s2 (cur_len c)), (cur_pos c').
    rewrite Ew. rewrite <- !app_assoc in V3. auto.
  - unfold udp_writer_send_to. rewrite Hsn'. apply wps_bindM.
    apply wps_assert_udp; [apply V2|]. intros s3 E3.
    apply wps_bindM, wps_set_dest. intros s4 E4. pose proof (env_trans _ _ _ E3 E4) as E34. clear E3 E4.
    destruct (uview_env _ _ _ _ _ V2 E34) as (n4 & V4). destruct (uview_dest _ _ _ _ a' V4 Hfin) as (V5 & Z5 & P5).
    pose proof (tx_work_env s2 s4 K1 K8 E34) as (G1 & G2 & G3 & G4 & G5 & G6 & G7 & G8 & G9 & G10 & G11).
    pose proof (tx_work_window s2 s4 (cur_pos c') K1 K8 E34) as Gw.
    set (s5 := with_reg s4 (put_dest (s_reg s4) a')) in *.
    eapply wps_mono; [| |apply (send_spec sn D c' s5)]; auto.
    + intros r s6 (-> & Q1 & Q2 & Q3 & [Q4 Q4'] & Q5 & Q6 & Q7 & Q8 & Q9). cbn [wps ret].
      assert (window s5 (cur_pos c') = window s2 (cur_pos c')) as Ew5.
      { rewrite <- Gw. reflexivity. }
      destruct (uview_rx s5 s6 _ fs a' (fs ++ [frame_to a' (window s2 (cur_pos c'))]) a' V5) as (n6 & V6); auto.
      { rewrite Q9 by apply V5. pose proof V5 as (_ & _ & _ & _ & Ff & Da). rewrite Ff, <- Da, Ew5. reflexivity. }
      { rewrite Q4, Q4'. apply V5. }
      exists (n1 ++ n2 ++ n4 ++ n6), (window s1 (cur_len c)), xs, (window s2 (cur_len c)), (cur_pos c').
      rewrite Ew. rewrite <- !app_assoc in V6. auto.
    + change (s_tx_cmd s5) with (s_tx_cmd s4). congruence.
    + rewrite Z5, P5. lia.
Qed.

(** ** Whole sessions *)
Lemma uop_more q a o x q' a' out more : uop_spec q a o x q' a' out -> uop_spec (q ++ more) a o x (q' ++ more) a' out.
Proof.
  intros H. inversion H; subst; cbn [app]; try (econstructor; eassumption).
  destruct fin; cbn [app]; [exact (UsReader d (q0 ++ more) a' ops true xs pos H0)|
    exact (UsReader d (q0 ++ more) a' ops false xs pos H0)].
Qed.
Lemma uops_more q a ops xs q' a' outs : uops_spec q a ops xs q' a' outs -> forall more,
  uops_spec (q ++ more) a ops xs (q' ++ more) a' outs.
Proof.
  induction 1; intros more; [constructor|]. econstructor; [apply uop_more; eassumption|auto].
Qed.
Lemma wps_ureport {A} (f : A -> ures) (p : M A) s D (Q : ures -> sock -> Prop) :
  wps p n s D (fun r s' => Q (match r with Ok a => f a | Err e => YErr e end) s') ->
  wps (ureport f p) n s D Q.
Proof. intros H. unfold ureport. apply wps_bind. eapply wps_mono; [| |exact H]; auto. Qed.

Lemma uop_step D dbg o s q fs a : udp_view s q fs a -> uop_ok o ->
  wps (uop_run dbg sn o) n s D (fun x s' => exists new q' a' out,
    uop_spec (q ++ new) a o x q' a' out /\ udp_view s' q' (fs ++ out) a').
Proof.
  intros V Ho. destruct o as [len|len| |buf|buf a'|buf|buf a'|ops fin|ops fin]; cbn [uop_run uop_ok] in *; apply wps_ureport.
  - eapply wps_mono; [| |exact (udp_recv_spec D dbg len s q fs a V Ho)]; [auto|].
    intros r s' (new & [(-> & _ & _ & V')|(d & q' & Eq & -> & V')]).
    + exists new, (q ++ new), a, []. rewrite app_nil_r. split; [now constructor|exact V'].
    + exists new, q', a, []. rewrite app_nil_r, Eq. split; [constructor|exact V'].
  - eapply wps_mono; [| |exact (udp_peek_spec D dbg len s q fs a V Ho)]; [auto|].
    intros r s' (_ & new & V' & [(-> & _)|(d & q' & Eq & ->)]); exists new, (q ++ new), a, []; rewrite app_nil_r.
    + split; [now constructor|exact V'].
    + split; [rewrite Eq; constructor|exact V'].
  - eapply wps_mono; [| |exact (udp_peek_header_spec D dbg s q fs a V)]; [auto|].
    intros r s' (_ & new & V' & [(-> & _)|(d & q' & Eq & ->)]); exists new, (q ++ new), a, []; rewrite app_nil_r.
    + split; [now constructor|exact V'].
    + split; [rewrite Eq; constructor|exact V'].
  - eapply wps_mono; [| |exact (udp_send_spec D dbg buf s q fs a V)]; [auto|].
    intros r s' (k & new & -> & Hk & _ & V'). eexists new, _, _, _. split; [|exact V']. now constructor.
  - eapply wps_mono; [| |exact (udp_send_to_spec D dbg buf a' s q fs a V Ho)]; [auto|].
    intros r s' (k & new & -> & Hk & _ & V'). eexists new, _, _, _. split; [|exact V']. now constructor.
  - eapply wps_mono; [| |exact (udp_if_free_spec D dbg buf s q fs a V)]; [auto|].
    intros r s' (k & out & new & -> & H & V'). eexists new, _, _, _. split; [|exact V']. constructor. intuition.
  - eapply wps_mono; [| |exact (udp_to_if_free_spec D dbg buf a' s q fs a V Ho)]; [auto|].
    intros r s' (k & out & new & -> & H & V'). eexists new, _, _, _. split; [|exact V']. constructor. intuition.
  - destruct Ho as [Ho Hr]. eapply wps_mono; [| |exact (udp_reader_session D dbg ops fin s q fs a V Ho Hr)]; [auto|].
    intros r s' (new & [(-> & _ & V')|(d & q' & xs & pos & Eq & -> & Ha & V')]).
    + exists new, (q ++ new), a, []. rewrite app_nil_r. split; [now constructor|exact V'].
    + exists new, (if fin then q' else d :: q'), a, []. rewrite app_nil_r, Eq. cbn [fst snd].
      split; [econstructor; exact Ha|exact V'].
  - destruct Ho as (Ho & Hr & Hf).
    eapply wps_mono; [| |exact (udp_writer_session D dbg ops fin s q fs a V Ho Hr Hf)]; [auto|].
    intros r s' (new & w0 & xs & w & pos & -> & Ha & _ & V'). eexists new, _, _, _. split; [|exact V'].
    econstructor; exact Ha.
Qed.

Lemma uops_steps D dbg ops : forall s q fs a, udp_view s q fs a -> Forall uop_ok ops ->
  wps (uops_run dbg sn ops) n s D (fun xs s' => exists new q' a' out,
    uops_spec (q ++ new) a ops xs q' a' out /\ udp_view s' q' (fs ++ out) a').
Proof.
  induction ops as [|o ops IH]; intros s q fs a V Ho; cbn [uops_run].
  - cbn. exists [], q, a, []. rewrite !app_nil_r. split; [constructor|exact V].
  - pose proof (Forall_inv Ho) as Ho1. pose proof (Forall_inv_tail Ho) as Ho2. apply wps_bind.
    eapply wps_mono; [| |exact (uop_step D dbg o s q fs a V Ho1)]; [auto|].
    intros x s1 (n1 & q1 & a1 & o1 & S1 & V1). apply wps_bind.
    eapply wps_mono; [| |exact (IH s1 _ _ _ V1 Ho2)]; [auto|].
    intros xs s2 (n2 & q2 & a2 & o2 & S2 & V2). cbn [wps].
    exists (n1 ++ n2), q2, a2, (o1 ++ o2). rewrite !app_assoc. split; [|exact V2].
    econstructor; [apply uop_more; exact S1|exact S2].
Qed.
End OneSocket.

(** ** Statements over runs *)
Lemma udp_session dbg sn c q fs a ops :
  udp_view (c_sock c (sn_raw sn)) q fs a -> Forall uop_ok ops ->
  ensures (uops_run dbg sn ops) (sn_raw sn) c (fun xs s' => exists new q' a' out,
    uops_spec (q ++ new) a ops xs q' a' out /\ udp_view s' q' (fs ++ out) a').
Proof. intros V Ho. apply ensures_wps. exact (uops_steps sn False dbg ops _ q fs a V Ho). Qed.

Lemma udp_recv_run dbg sn c q fs a len :
  udp_view (c_sock c (sn_raw sn)) q fs a -> 0 <= len ->
  ensures (udp_recv_from dbg sn len) (sn_raw sn) c (fun r s' => exists new,
    (r = Err WouldBlock /\ q = [] /\ only_events (c_sock c (sn_raw sn)) s' /\ udp_view s' (q ++ new) fs a) \/
    (exists d q', q ++ new = d :: q' /\ r = Ok (ztake len (d_data d), (d_ip d, d_port d)) /\
       udp_view s' q' fs a)).
Proof. intros V Hl. apply ensures_wps. exact (udp_recv_spec sn False dbg len _ q fs a V Hl). Qed.

(** Successive receives return successive datagrams: [received] pairs the datagrams with the calls. *)
Lemma udp_recvs dbg sn c q fs a sizes :
  udp_view (c_sock c (sn_raw sn)) q fs a -> Forall (fun n => 0 <= n) sizes ->
  ensures (uops_run dbg sn (map URecv sizes)) (sn_raw sn) c (fun xs s' => exists new got q',
    q ++ new = got ++ q' /\ udp_view s' q' fs a /\ received sizes xs got).
Proof.
  intros V Hs. eapply ensures_mono.
  - apply (udp_session dbg sn c q fs a (map URecv sizes) V). apply Forall_map. exact Hs.
  - intros xs s' (new & q' & a' & out & S & V').
    assert (forall f a ops xs q' a' out, uops_spec f a ops xs q' a' out -> forall sizes, ops = map URecv sizes ->
      exists got, f = got ++ q' /\ a' = a /\ out = [] /\ received sizes xs got) as G.
    { clear. induction 1 as [q a|q a o x q1 a1 out ops xs q2 a2 outs H1 H2 IH]; intros sizes Es.
      - destruct sizes; [|discriminate]. exists []. do 3 (split; [auto|]). constructor.
      - destruct sizes as [|z sizes]; [discriminate|]. injection Es as -> ->.
        destruct (IH sizes eq_refl) as (got & -> & -> & -> & R). inversion H1; subst.
        + exists got. do 3 (split; [auto|]). now constructor.
        + exists (d :: got). do 3 (split; [auto|]). now constructor. }
    destruct (G _ _ _ _ _ _ _ S sizes eq_refl) as (got & E & -> & -> & R). rewrite app_nil_r in V'. eauto 6.
Qed.

Lemma udp_peek_run dbg sn c q fs a len :
  udp_view (c_sock c (sn_raw sn)) q fs a -> 0 <= len ->
  ensures (udp_peek_from dbg sn len) (sn_raw sn) c (fun r s' => only_events (c_sock c (sn_raw sn)) s' /\
    exists new, udp_view s' (q ++ new) fs a /\
    ((r = Err WouldBlock /\ q = []) \/
     (exists d q', q ++ new = d :: q' /\ r = Ok (ztake len (d_data d), header_of d)))).
Proof. intros V Hl. apply ensures_wps. exact (udp_peek_spec sn False dbg len _ q fs a V Hl). Qed.
Lemma udp_peek_header_run dbg sn c q fs a :
  udp_view (c_sock c (sn_raw sn)) q fs a ->
  ensures (udp_peek_from_header dbg sn) (sn_raw sn) c (fun r s' => only_events (c_sock c (sn_raw sn)) s' /\
    exists new, udp_view s' (q ++ new) fs a /\
    ((r = Err WouldBlock /\ q = []) \/ (exists d q', q ++ new = d :: q' /\ r = Ok (header_of d)))).
Proof. intros V. apply ensures_wps. exact (udp_peek_header_spec sn False dbg _ q fs a V). Qed.
Lemma udp_send_run dbg sn c q fs a buf :
  udp_view (c_sock c (sn_raw sn)) q fs a ->
  ensures (udp_send dbg sn buf) (sn_raw sn) c (fun r s' => exists k new, r = Ok k /\ 0 <= k <= zlen buf /\
    Z.min (Z.min (zlen buf) 65535) (tx_size (c_sock c (sn_raw sn)) - pending (c_sock c (sn_raw sn))) <= k /\
    udp_view s' (q ++ new) (fs ++ sent_frames a buf k) a).
Proof. intros V. apply ensures_wps. exact (udp_send_spec sn False dbg buf _ q fs a V). Qed.
Lemma udp_send_to_run dbg sn c q fs a buf a' :
  udp_view (c_sock c (sn_raw sn)) q fs a -> addr_ok a' ->
  ensures (udp_send_to dbg sn buf a') (sn_raw sn) c (fun r s' => exists k new, r = Ok k /\ 0 <= k <= zlen buf /\
    Z.min (Z.min (zlen buf) 65535) (tx_size (c_sock c (sn_raw sn)) - pending (c_sock c (sn_raw sn))) <= k /\
    udp_view s' (q ++ new) (fs ++ sent_frames a' buf k) a').
Proof. intros V Ha. apply ensures_wps. exact (udp_send_to_spec sn False dbg buf a' _ q fs a V Ha). Qed.
Lemma udp_if_free_run dbg sn c q fs a buf :
  udp_view (c_sock c (sn_raw sn)) q fs a -> zlen buf <= 65535 ->
  ensures (udp_send_if_free dbg sn buf) (sn_raw sn) c (fun r s' => exists out new, r = Ok (zlen buf) /\
    udp_view s' (q ++ new) (fs ++ out) a /\
    (out = [frame_to a buf] \/
     (out = [] /\ tx_size (c_sock c (sn_raw sn)) - pending (c_sock c (sn_raw sn)) < zlen buf))).
Proof.
  intros V Hb. apply ensures_wps. eapply wps_mono; [| |exact (udp_if_free_spec sn False dbg buf _ q fs a V)]; [auto|].
  intros r s' (k & out & new & -> & [(-> & H)|(_ & C & _)] & V'); [|lia]. exists out, new. intuition.
Qed.
Lemma udp_to_if_free_run dbg sn c q fs a buf a' :
  udp_view (c_sock c (sn_raw sn)) q fs a -> addr_ok a' -> zlen buf <= 65535 ->
  ensures (udp_send_to_if_free dbg sn buf a') (sn_raw sn) c (fun r s' => exists out new, r = Ok (zlen buf) /\
    udp_view s' (q ++ new) (fs ++ out) a' /\
    (out = [frame_to a' buf] \/
     (out = [] /\ tx_size (c_sock c (sn_raw sn)) - pending (c_sock c (sn_raw sn)) < zlen buf))).
Proof.
  intros V Ha Hb. apply ensures_wps. eapply wps_mono; [| |exact (udp_to_if_free_spec sn False dbg buf a' _ q fs a V Ha)]; [auto|].
  intros r s' (k & out & new & -> & [(-> & H)|(_ & C & _)] & V'); [|lia]. exists out, new. intuition.
Qed.
Lemma udp_reader_run dbg sn c q fs a ops (fin : bool) :
  udp_view (c_sock c (sn_raw sn)) q fs a -> Forall cop_ok ops -> forallb reader_op ops = true ->
  ensures (uop_run dbg sn (UReader ops fin)) (sn_raw sn) c (fun x s' => exists new,
     (x = YErr WouldBlock /\ q = [] /\ udp_view s' (q ++ new) fs a) \/
     (exists d q' xs pos, q ++ new = d :: q' /\ x = YReader (header_of d) xs /\
        asteps (d_data d) 0 ops = (xs, d_data d, pos) /\
        udp_view s' (if fin then q' else d :: q') fs a)).
Proof.
  intros V Ho Hr. apply ensures_wps. cbn [uop_run]. apply wps_ureport.
  eapply wps_mono; [| |exact (udp_reader_session sn False dbg ops fin _ q fs a V Ho Hr)]; [auto|].
  intros r s' (new & [(-> & H)|(d & q' & xs & pos & Eq & -> & H)]); exists new; [left; auto|].
  right. exists d, q', xs, pos. auto.
Qed.
Lemma udp_writer_run dbg sn c q fs a ops (fin : wend) :
  udp_view (c_sock c (sn_raw sn)) q fs a -> uop_ok (UWriter ops fin) ->
  ensures (uop_run dbg sn (UWriter ops fin)) (sn_raw sn) c (fun x s' => exists new w0 xs w pos,
    x = YWriter xs /\ asteps w0 0 ops = (xs, w, pos) /\
    tx_size (c_sock c (sn_raw sn)) - pending (c_sock c (sn_raw sn)) <= zlen w0 <= tx_size (c_sock c (sn_raw sn)) /\
    udp_view s' (q ++ new)
      (fs ++ match fin with WDrop => [] | WSend => [frame_to a (ztake pos w)]
             | WSendTo a' => [frame_to a' (ztake pos w)] end)
      (match fin with WSendTo a' => a' | _ => a end)).
Proof.
  intros V (Ho & Hr & Hf). apply ensures_wps. cbn [uop_run]. apply wps_ureport.
  eapply wps_mono; [| |exact (udp_writer_session sn False dbg ops fin _ q fs a V Ho Hr Hf)]; [auto|].
  intros r s' (new & w0 & xs & w & pos & -> & H). exists new, w0, xs, w, pos. auto.
Qed.
(** A session of plain writes sends one datagram holding the accepted bytes. *)
Lemma udp_writer_writes dbg sn c q fs a ops a' :
  udp_view (c_sock c (sn_raw sn)) q fs a -> addr_ok a' -> forallb is_write ops = true ->
  ensures (uop_run dbg sn (UWriter ops (WSendTo a'))) (sn_raw sn) c (fun x s' => exists new xs,
    x = YWriter xs /\ udp_view s' (q ++ new) (fs ++ [frame_to a' (concat (map accepted (combine ops xs)))]) a').
Proof.
  intros V Ha Hw. eapply ensures_mono; [apply (udp_writer_run dbg sn c q fs a ops (WSendTo a') V)|].
  - split; [|split; [|exact Ha]].
    + apply Forall_forall. intros o Ho. rewrite forallb_forall in Hw. specialize (Hw o Ho).
      destruct o; try discriminate; exact I.
    + apply forallb_forall. intros o Ho. rewrite forallb_forall in Hw. specialize (Hw o Ho).
      destruct o; try discriminate; reflexivity.
  - intros x s' (new & w0 & xs & w & pos & -> & Ea & _ & V'). exists new, xs. split; [reflexivity|].
    destruct (asteps_writes ops w0 0 xs w pos) as (E & _); auto.
    { pose proof (zlen_nonneg w0). lia. }
    rewrite ztake_0 in E. cbn [app] in E. rewrite <- E. exact V'.
Qed.

Lemma case_udp_view : udp_view (c_sock case_udp 3) [case_d1; case_d2]
  [frame_to ([10; 0; 0; 9], 0x1234) case_tcp_unsent] ([10; 0; 0; 9], 0x1234).
Proof.
  split; [split; reflexivity|]. split.
  { split; [|reflexivity]. split; [right; right; left; reflexivity|]. split; [cbv; intuition discriminate|].
    split; [cbv; intuition discriminate|]. vm_compute. discriminate. }
  split.
  { split; [|reflexivity]. split; [right; right; left; reflexivity|]. split; [cbv; intuition discriminate|].
    split; [cbv; intuition discriminate|]. split; [constructor; [discriminate|constructor]|].
    split; [reflexivity|]. vm_compute. discriminate. }
  split; [|split; reflexivity]. split; [vm_compute; reflexivity|].
  assert (forall l, forallb byteb l = true -> bytes_ok l) as B.
  { intros l Hl. apply Forall_forall. intros b Hb. rewrite forallb_forall in Hl. specialize (Hl b Hb).
    unfold byteb in Hl. unfold is_u8. lia. }
  repeat (constructor; [split; [reflexivity|]; split; [apply B; reflexivity|]; split; [cbv; intuition discriminate|];
    split; [apply B; reflexivity|reflexivity]|]). constructor.
Qed.
Lemma udp_if_free_wrong : exists c buf q fs a, udp_view (c_sock c 3) q fs a /\
  let '(o, _, c') := run (udp_send_if_free false Sn3 buf) [] c in
  o = Done (Ok (zlen buf)) /\ 0 < zlen buf /\ c_sock c' 3 = c_sock c 3.
Proof.
  exists case_udp, (repeat 1 2041%nat). do 3 eexists. split; [exact case_udp_view|].
  vm_compute. auto.
Qed.
