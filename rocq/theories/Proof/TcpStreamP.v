(** Generic stream code on the readers and writers of a TCP connection. *)
From Verif Require Export Proof.DgramP.

Section TcpStream.
Context (sn : Sn).
Let n := snz sn.

(** A reader [c] over the first unread bytes [w]. *)
Definition treading (s : sock) (c : cursor) (w rd tx : list Z) : Prop :=
  tcp_view s rd tx /\ cu_sn c = sn /\ cursor_ok c /\ zlen w = cur_len c /\
  cu_head c = s_rx_base s /\ exists rest, unread s = w ++ rest.

Lemma unread_small s rd tx : tcp_view s rd tx -> zlen (unread s) <= 16384.
Proof.
  intros (_ & ((Hz & _ & _ & Hle) & _) & _). rewrite (unread_len sn). unfold size_ok in Hz. lia.
Qed.
Lemma treader_open D dbg s rd tx : tcp_view s rd tx ->
  wps (tcp_reader dbg sn) n s D (fun r s' => env s s' /\
    ((r = Err WouldBlock /\ unread s = [] /\ tcp_view s' rd tx) \/
     exists c w new, r = Ok c /\ treading s' c w rd tx /\ cur_pos c = 0 /\ w = unread s ++ new /\ 0 < zlen w <= 16384)).
Proof.
  intros V. unfold tcp_reader. apply (wps_assert_tcp sn); [apply V|]. intros s0 E0.
  destruct (view_env _ _ _ _ V E0) as (V0 & n0 & U0).
  apply wps_bindM, wps_rx_rsr. intros s1 E1. destruct (view_env _ _ _ _ V0 E1) as (V1 & n1 & U1).
  pose proof (unread_len sn s1) as L1. pose proof (unread_small _ _ _ V1) as Ls.
  pose proof (wsub_range (s_rx_wr s1) (s_rx_base s1)) as Hr. fold (rx_rsr s1) in Hr. unfold is_u16 in Hr.
  destruct (Z.eqb_spec (rx_rsr s1) 0) as [Ek|Ek].
  - cbn [wps fail]. split; [eapply env_trans; eassumption|]. left. split; [reflexivity|]. split; [|exact V1].
    apply zlen_0_nil. rewrite Ek, U1, U0, !zlen_app in L1.
    pose proof (zlen_nonneg n0). pose proof (zlen_nonneg n1). pose proof (zlen_nonneg (unread s)). lia.
  - apply wps_bindM, wps_rx_rd. intros s2 E2. destruct (view_env _ _ _ _ V1 E2) as (V2 & n2 & U2).
    cbn [wps ret]. split; [eauto using env_trans|]. right.
    exists (mkCur sn (rx_rd s2) (wadd (rx_rd s2) (rx_rsr s1)) (rx_rd s2)), (unread s1), (n0 ++ n1).
    pose proof V1 as (_ & ((Hz1 & _ & _ & Hle1) & _) & _). pose proof (size_ok_range _ Hz1).
    pose proof V2 as (_ & (W2 & R2) & _). pose proof W2 as (_ & Hb & _).
    split; [reflexivity|]. split.
    { split; [exact V2|]. unfold cursor_ok, cur_pos, cur_len, wsub, wadd, is_u16. cbn [cu_sn cu_head cu_tail cu_ptr].
      unfold is_u16 in Hb. rewrite L1, R2. split; [reflexivity|]. split; [lia|]. split; [lia|]. split; [reflexivity|].
      exists n2. exact U2. }
    unfold cur_pos, wsub, wadd, is_u16. cbn [cu_sn cu_head cu_tail cu_ptr]. rewrite R2. unfold is_u16 in Hb.
    split; [lia|]. split; [now rewrite U1, U0, app_assoc|]. lia.
Qed.
Lemma treading_env s s' c w rd tx : treading s c w rd tx -> env s s' -> treading s' c w rd tx.
Proof.
  intros (V & Hsn & Hc & Hl & Hh & rest & U) E. destruct (view_env _ _ _ _ V E) as (V' & new & U').
  destruct (env_all _ _ (view_idle _ _ _ V) E) as (_ & _ & (_ & B & _) & _).
  split; [exact V'|]. split; [exact Hsn|]. split; [exact Hc|]. split; [exact Hl|]. split; [congruence|].
  exists (rest ++ new). now rewrite U', U, app_assoc.
Qed.
Lemma treading_pos s c w rd tx : treading s c w rd tx -> 0 <= cur_pos c <= zlen w.
Proof. intros (V & Hsn & Hc & Hl & _). pose proof (cur_accounting c Hc) as (A1 & _). lia. Qed.
Lemma treading_log s c w rd tx : treading s c w rd tx -> exists rest, s_rxlog s = rd ++ w ++ rest.
Proof. intros ((_ & _ & _ & L & _) & _ & _ & _ & _ & rest & U). exists rest. now rewrite L, U. Qed.
Lemma treading_run {A} D s c w rd tx (p : sprog A) (Q : A -> list Z -> Z -> Prop) : treading s c w rd tx ->
  wpa rd_ok p w (cur_pos c) D Q ->
  wps (on_cursor c p) n s D (fun r s' => treading s' (snd r) w rd tx /\ Q (fst r) w (cur_pos (snd r)) /\ env s s').
Proof.
  intros T W. pose proof T as (V & Hsn & Hc & Hl & Hh & rest & U). pose proof V as (To & (Wf & _) & _).
  eapply wps_mono; [| |apply (reader_prog sn p D c s 0 w Q)]; auto.
  - intros r s' (E & Hc' & S & HQ). pose proof (same_window_len _ _ S) as Ln. destruct S as (S1 & S2 & S3). split; [|split; [exact HQ|exact E]].
    destruct (treading_env s s' c w rd tx T E) as (V' & _ & _ & _ & Hh' & U').
    split; [exact V'|]. split; [congruence|]. split; [exact Hc'|]. split; [lia|]. split; [congruence|exact U'].
  - now apply tcp_idle.
  - exists [], rest. split; [exact U|reflexivity].
  - destruct Hc as (Hc & _). rewrite Hh in *. unfold is_u16 in Hc. lia.
Qed.
(** [done] releases what was read. *)
Lemma treading_done D s c w rd tx : treading s c w rd tx ->
  wps (tcp_reader_done c) n s D (fun r s' => r = Ok tt /\ tcp_view s' (rd ++ ztake (cur_pos c) w) tx /\
    exists rest, unread s' = zdrop (cur_pos c) w ++ rest).
Proof.
  intros T. pose proof (treading_pos _ _ _ _ _ T) as Hp. pose proof T as (V & Hsn & Hc & Hl & Hh & rest & U).
  unfold tcp_reader_done. rewrite Hsn. apply wps_bindM, wps_set_rx_rd. intros s3 E3.
  pose proof (treading_env _ _ _ _ _ _ T E3) as (V3 & _ & _ & _ & Hh3 & r3 & U3).
  apply wps_bindM, wps_set_cr. intros s4 E4. cbn [wps ret].
  pose proof (unread_len sn s3) as L3. rewrite U3, !zlen_app in L3. pose proof (zlen_nonneg r3).
  change (command_raw CRecv) with 0x40.
  pose proof (view_release sn s3 s4 (cur_pos c) (cu_ptr c) rd tx V3 ltac:(lia)) as VR.
  rewrite <- Hh3 in VR. specialize (VR (cur_ptr_pos c Hc) E4).
  rewrite U3, ztake_app_l in VR by lia.
  split; [reflexivity|]. split; [exact VR|].
  pose proof V3 as (T3 & (W3 & _) & _).
  destruct (release s3 (cur_pos c) (cu_ptr c) s4 (tcp_idle _ T3) W3 ltac:(lia)) as (_ & _ & _ & _ & _ & (new & _ & Un & _) & _); auto.
  { apply Hc. }
  { rewrite <- Hh3. now apply cur_ptr_pos. }
  exists (r3 ++ new). rewrite Un, U3, zdrop_app_l by lia. now rewrite <- app_assoc.
Qed.

(** A writer [c] over the free space [w]. *)
Definition twriting (s : sock) (c : cursor) (w rd tx : list Z) : Prop :=
  tcp_view s rd tx /\ cu_sn c = sn /\ cursor_ok c /\ cu_head c = s_tx_cmd s /\
  pending s + cur_len c <= tx_size s /\ w = window s (cur_len c).
Lemma twriter_open D s rd tx : tcp_view s rd tx ->
  wps (tx_writer sn) n s D (fun r s' => env s s' /\ exists c w, r = Ok c /\ twriting s' c w rd tx /\
    cur_pos c = 0 /\ tx_size s - pending s <= zlen w <= 16384).
Proof.
  intros V. pose proof V as (T & _ & X & _). pose proof (tcp_idle _ T) as I.
  eapply wps_mono; [| |exact (tx_writer_spec sn D s I X)]; [auto|].
  intros r s1 (E1 & c & -> & Hsn & Hc & Hp & Hh & Hl). split; [exact E1|].
  destruct (view_env _ _ _ _ V E1) as (V1 & n1 & U1).
  destruct X as [X C]. destruct (tx_work_env s s1 I X E1) as (_ & _ & _ & _ & _ & _ & Ez & _ & _ & Ep & _).
  pose proof (cur_accounting c Hc) as (A1 & A2 & A3).
  exists c, (window s1 (cur_len c)). split; [reflexivity|]. split.
  { split; [exact V1|]. split; [exact Hsn|]. split; [exact Hc|]. split; [exact Hh|]. split; [lia|reflexivity]. }
  split; [exact Hp|]. pose proof (wsub_range (s_tx_cmd s1) (s_tx_rd s1)) as Hq. fold (pending s1) in Hq. unfold is_u16 in Hq.
  destruct X as (Hz & _). unfold size_ok in Hz. unfold window. rewrite ring_len; lia.
Qed.
Lemma twriting_run {A} D s c w rd tx (p : sprog A) (Q : A -> list Z -> Z -> Prop) : twriting s c w rd tx ->
  wpa wr_ok p w (cur_pos c) D Q ->
  wps (on_cursor c p) n s D (fun r s' => exists w', twriting s' (snd r) w' rd tx /\ Q (fst r) w' (cur_pos (snd r)) /\
    exists new, unread s' = unread s ++ new).
Proof.
  intros (V & Hsn & Hc & Hh & Hl & Hw) W. pose proof V as (T & _ & (X & C) & _). pose proof (tcp_idle _ T) as I.
  eapply wps_mono; [| |apply (writer_prog sn p D c s w Q)]; auto.
  intros r s2 (K & Hc' & Hw' & HQ). pose proof K as (K1 & K2 & K3 & K4 & K5 & K6 & K7 & K8 & K9 & K10 & K11).
  destruct (view_commit s s2 rd tx []) as (V2 & n2 & U2); auto.
  { split; [exact K8|congruence]. }
  { rewrite app_nil_r, K9. apply V. }
  rewrite app_nil_r in V2. pose proof (same_window_len _ _ Hw') as Ln.
  exists (window s2 (cur_len c)). split; [|split; [exact HQ|exists n2; exact U2]].
  split; [exact V2|]. split; [destruct Hw' as (-> & _); exact Hsn|]. split; [exact Hc'|].
  split; [destruct Hw' as (_ & -> & _); congruence|]. split; [lia|now rewrite Ln].
Qed.
Lemma twriting_send D s c w rd tx : twriting s c w rd tx ->
  wps (cur_send c) n s D (fun r s' => r = Ok tt /\ tcp_view s' rd (tx ++ ztake (cur_pos c) w) /\
    exists new, unread s' = unread s ++ new).
Proof.
  intros (V & Hsn & Hc & Hh & Hl & ->). pose proof V as (T & _ & (X & C) & _). pose proof (tcp_idle _ T) as I.
  pose proof (cur_accounting c Hc) as (A1 & A2 & A3).
  eapply wps_mono; [| |apply (send_spec sn D c s)]; auto.
  intros r s3 (-> & Q1 & Q2 & Q3 & Q4 & Q5 & Q6 & Q7 & Q8 & _). split; [reflexivity|].
  assert (ztake (cur_pos c) (window s (cur_len c)) = window s (cur_pos c)) as -> by (unfold window; apply ring_take; lia).
  destruct (view_commit s s3 rd tx (window s (cur_pos c))) as (V3 & n3 & U3); auto.
  { rewrite Q8. f_equal. apply V. }
  split; [exact V3|]. eauto.
Qed.
End TcpStream.
