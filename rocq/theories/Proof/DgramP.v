(** Generic stream code on the readers and writers of an open UDP socket. *)
From Verif Require Export Proof.OpenP Proof.SprogP.

Section Dgram.
Context (sn : Sn).
Let n := snz sn.

(** A reader [c] over the oldest unread datagram [d]. *)
Definition ureading (s : sock) (c : cursor) (d : dgram) (q : list dgram) (fs : list frame) (a : addr) : Prop :=
  udp_view s (d :: q) fs a /\ cu_sn c = sn /\ cursor_ok c /\ cur_len c = zlen (d_data d) /\
  cu_head c = (s_rx_base s + 8) mod 65536 /\ cu_tail c = (s_rx_base s + (8 + zlen (d_data d))) mod 65536.

Lemma ureader_open D dbg s q fs a : udp_view s q fs a ->
  wps (udp_reader dbg sn) n s D (fun r s' => exists new,
    (r = Err WouldBlock /\ q = [] /\ udp_view s' (q ++ new) fs a) \/
    (exists c d q', q ++ new = d :: q' /\ r = Ok {| ur_inner := c; ur_header := header_of d |} /\
       ureading s' c d q' fs a /\ cur_pos c = 0)).
Proof.
  intros V. eapply wps_mono; [| |exact (udp_reader_spec sn D dbg s q fs a V)]; [auto|].
  intros r s1 (E1 & n1 & V1 & [(-> & Hq)|(c & d & q' & Eq & -> & Hsn & Hc & Hp & Hl & Hh & Ht)]); exists n1; [left; auto|right].
  exists c, d, q'. split; [exact Eq|]. split; [reflexivity|]. split; [|exact Hp].
  rewrite Eq in V1. split; [exact V1|]. auto.
Qed.
Lemma ureading_run {A} D s c d q fs a (p : sprog A) Q : ureading s c d q fs a ->
  wpa rd_ok p (d_data d) (cur_pos c) D Q ->
  wps (on_cursor c p) n s D (fun r s' => exists new, ureading s' (snd r) d (q ++ new) fs a /\
    Q (fst r) (d_data d) (cur_pos (snd r))).
Proof.
  intros (V & Hsn & Hc & Hl & Hh & Ht) W. pose proof (head_of _ _ _ _ _ V) as (I1 & W1 & R1 & O1 & _ & X1).
  eapply wps_mono; [| |apply (reader_prog sn p D c s 8 (d_data d) Q)]; auto.
  intros r s' (E & Hc' & (S1 & S2 & S3) & HQ). destruct (uview_env _ _ _ _ _ V E) as (n2 & V2). cbn [app] in V2.
  exists n2. split; [|exact HQ]. split; [exact V2|]. destruct (env_all _ _ I1 E) as (_ & _ & (_ & B & _) & _).
  split; [congruence|]. split; [exact Hc'|]. unfold cur_len in *. rewrite S2, S3, B. auto.
Qed.
Lemma ureading_done D s c d q fs a : ureading s c d q fs a ->
  wps (udp_reader_done c) n s D (fun r s' => r = Ok tt /\ exists new, udp_view s' (q ++ new) fs a).
Proof.
  intros (V & Hsn & Hc & Hl & Hh & Ht). pose proof (head_of _ _ _ _ _ V) as (I1 & W1 & R1 & O1 & _ & X1).
  unfold udp_reader_done. rewrite Hsn, Ht. apply wps_bindM, wps_set_rx_rd. intros s3 E3.
  destruct (uview_env _ _ _ _ _ V E3) as (n3 & V3). cbn [app] in V3.
  apply wps_bindM, wps_set_cr. intros s4 E4. cbn [wps ret].
  assert (s_rx_base s3 = s_rx_base s) as B3.
  { destruct (env_all _ _ I1 E3) as (_ & _ & (_ & B & _) & _). exact B. }
  destruct (uview_release sn s3 s4 ((s_rx_base s + (8 + zlen (d_data d))) mod 65536) _ _ _ _ V3) as (n4 & V4).
  { now rewrite B3. }
  { exact E4. }
  split; [reflexivity|]. exists (n3 ++ n4). now rewrite app_assoc.
Qed.
(** A reader that is dropped leaves the datagram in place. *)
Lemma ureading_view s c d q fs a : ureading s c d q fs a -> udp_view s (d :: q) fs a.
Proof. intros (V & _). exact V. Qed.

(** A writer [c] over the free space [w]. *)
Definition uwriting (s : sock) (c : cursor) (w : list Z) (q : list dgram) (fs : list frame) (a : addr) : Prop :=
  udp_view s q fs a /\ cu_sn c = sn /\ cursor_ok c /\ cu_head c = s_tx_cmd s /\
  pending s + cur_len c <= tx_size s /\ w = window s (cur_len c).
Lemma uwriting_len s c w q fs a : uwriting s c w q fs a -> zlen w = cur_len c /\ 0 <= cur_pos c <= zlen w /\ zlen w < 65535.
Proof.
  intros (V & Hsn & Hc & Hh & Hl & ->). pose proof (cur_accounting c Hc) as (A1 & A2 & A3).
  unfold window. rewrite ring_len by lia. split; [lia|]. split; [lia|]. destruct Hc as (_ & _ & _ & _ & Hc). lia.
Qed.
Lemma uwriter_open D s q fs a : udp_view s q fs a ->
  wps (tx_writer sn) n s D (fun r s' => exists new c w, r = Ok c /\ uwriting s' c w (q ++ new) fs a /\
    cur_pos c = 0 /\ tx_size s - pending s <= zlen w <= tx_size s).
Proof.
  intros V. pose proof (uview_ready _ _ _ _ V) as X. pose proof (uview_idle _ _ _ _ V) as I.
  eapply wps_mono; [| |exact (tx_writer_spec sn D s I X)]; [auto|].
  intros r s1 (E1 & c & -> & Hsn & Hc & Hp & Hh & Hl).
  destruct (uview_env _ _ _ _ _ V E1) as (n1 & V1).
  destruct X as [X C]. destruct (tx_work_env s s1 I X E1) as (_ & _ & _ & _ & _ & _ & Ez & _ & _ & Ep & _).
  pose proof (cur_accounting c Hc) as (A1 & A2 & A3).
  exists n1, c, (window s1 (cur_len c)). split; [reflexivity|]. split.
  { split; [exact V1|]. split; [exact Hsn|]. split; [exact Hc|]. split; [exact Hh|]. split; [lia|reflexivity]. }
  split; [exact Hp|]. pose proof (wsub_range (s_tx_cmd s1) (s_tx_rd s1)) as Hq. fold (pending s1) in Hq. unfold is_u16 in Hq.
  unfold window. rewrite ring_len; lia.
Qed.
Lemma uwriting_run {A} D s c w q fs a (p : sprog A) Q : uwriting s c w q fs a ->
  wpa wr_ok p w (cur_pos c) D Q ->
  wps (on_cursor c p) n s D (fun r s' => exists new w', uwriting s' (snd r) w' (q ++ new) fs a /\
    Q (fst r) w' (cur_pos (snd r))).
Proof.
  intros (V & Hsn & Hc & Hh & Hl & Hw) W. pose proof (uview_idle _ _ _ _ V) as I. pose proof (uview_ready _ _ _ _ V) as (X & C).
  eapply wps_mono; [| |apply (writer_prog sn p D c s w Q)]; auto.
  intros r s2 (K & Hc' & Hw' & HQ). pose proof K as (K1 & K2 & K3 & [K4 K4'] & K5 & K6 & K7 & K8 & K9 & K10 & K11).
  destruct (uview_rx s s2 q fs a fs a) as (n2 & V2); auto.
  { split; [exact K8|congruence]. }
  { rewrite K11 by apply V. apply V. }
  { rewrite K4, K4'. apply V. }
  pose proof (same_window_len _ _ Hw') as Ln. exists n2, (window s2 (cur_len c)). split; [|exact HQ].
  split; [exact V2|]. split; [destruct Hw' as (-> & _); exact Hsn|]. split; [exact Hc'|].
  split; [destruct Hw' as (_ & -> & _); congruence|]. split; [lia|now rewrite Ln].
Qed.
Lemma uwriting_seek s c w q fs a c' : uwriting s c w q fs a -> cursor_ok c' -> same_window c c' -> uwriting s c' w q fs a.
Proof.
  intros (V & Hsn & Hc & Hh & Hl & Hw) H S. pose proof (same_window_len _ _ S) as Ln.
  split; [exact V|]. split; [destruct S as (-> & _); exact Hsn|]. split; [exact H|].
  split; [destruct S as (_ & -> & _); exact Hh|]. rewrite Ln. auto.
Qed.
Lemma uwriting_send D s c w q fs a : uwriting s c w q fs a ->
  wps (cur_send c) n s D (fun r s' => r = Ok tt /\ exists new,
    udp_view s' (q ++ new) (fs ++ [frame_to a (ztake (cur_pos c) w)]) a).
Proof.
  intros Hw0. destruct (uwriting_len _ _ _ _ _ _ Hw0) as (L1 & L2 & _). destruct Hw0 as (V & Hsn & Hc & Hh & Hl & ->).
  pose proof (uview_idle _ _ _ _ V) as I. pose proof (uview_ready _ _ _ _ V) as (X & C).
  eapply wps_mono; [| |apply (send_spec sn D c s)]; auto.
  intros r s3 (-> & Q1 & Q2 & Q3 & [Q4 Q4'] & Q5 & Q6 & Q7 & Q8 & Q9). split; [reflexivity|].
  apply (uview_rx s s3 q fs a _ a V); auto.
  - rewrite Q9 by apply V. pose proof V as (_ & _ & _ & _ & Ff & Da). rewrite Ff, <- Da.
    unfold frame_to. cbn [fst snd]. do 3 f_equal. unfold window. symmetry. apply ring_take. lia.
  - rewrite Q4, Q4'. apply V.
Qed.
(** Setting the destination of an open socket. *)
Lemma uview_set_dest D s q fs a a' : udp_view s q fs a -> addr_ok a' ->
  wps (set_sn_dest sn a') n s D (fun r s' => r = Ok tt /\ exists new, udp_view s' (q ++ new) fs a' /\
    tx_size s' = tx_size s /\ pending s' <= pending s).
Proof.
  intros V Ha. apply wps_set_dest. intros s1 E1. destruct (uview_env _ _ _ _ _ V E1) as (n1 & V1).
  pose proof (uview_idle _ _ _ _ V) as I. pose proof (uview_ready _ _ _ _ V) as (X & C).
  destruct (tx_work_env s s1 I X E1) as (_ & _ & _ & _ & _ & _ & Ez & _ & _ & Ep & _).
  destruct (uview_dest sn _ _ _ _ a' V1 Ha) as (V2 & Z2 & P2).
  split; [reflexivity|]. exists n1. split; [exact V2|]. split; [congruence|lia].
Qed.
Lemma uwriting_send_to D dbg s c w q fs a a' : uwriting s c w q fs a -> addr_ok a' ->
  wps (udp_writer_send_to dbg c a') n s D (fun r s' => r = Ok tt /\ exists new,
    udp_view s' (q ++ new) (fs ++ [frame_to a' (ztake (cur_pos c) w)]) a').
Proof.
  intros Hw Ha. pose proof Hw as (V & Hsn & _). unfold udp_writer_send_to. rewrite Hsn.
  apply (wps_assert_udp sn); [apply V|]. intros s1 E1.
  apply wps_bindM, wps_set_dest. intros s2 E2. pose proof (env_trans _ _ _ E1 E2) as E. clear E1 E2.
  destruct (uview_env _ _ _ _ _ V E) as (n1 & V1). destruct (uview_dest sn _ _ _ _ a' V1 Ha) as (V2 & Z2 & P2).
  pose proof (uview_idle _ _ _ _ V) as I. pose proof (uview_ready _ _ _ _ V) as (X & C).
  pose proof (tx_work_env s s2 I X E) as (G1 & G2 & G3 & G4 & G5 & G6 & G7 & G8 & G9 & G10 & G11).
  pose proof Hw as (_ & _ & Hc & Hh & Hl & Ew).
  assert (uwriting (with_reg s2 (put_dest (s_reg s2) a')) c w (q ++ n1) fs a') as Hw'.
  { split; [exact V2|]. split; [exact Hsn|]. split; [exact Hc|]. cbn [with_reg s_tx_cmd].
    split; [congruence|]. split; [rewrite Z2, P2; lia|].
    rewrite Ew. rewrite <- (tx_work_window s s2 (cur_len c) I X E). reflexivity. }
  eapply wps_mono; [| |exact (uwriting_send D _ _ _ _ _ _ Hw')]; [auto|].
  intros r s' (-> & n2 & V3). split; [reflexivity|]. exists (n1 ++ n2). now rewrite app_assoc.
Qed.
End Dgram.

(** ** Sequencing partial correctness *)
Lemma run_no_faults {A} (p : prog A) : forall sch c o sch' c', no_faults sch -> run p sch c = (o, sch', c') -> no_faults sch'.
Proof.
  induction p as [a|addr block len k IH|addr block data k IH| |]; intros sch c o sch' c' Hs E; cbn [run] in E.
  - now injection E as _ <- _.
  - destruct sch as [|t sch]; [exact (IH _ _ _ _ _ _ Hs E)|].
    pose proof (Forall_inv Hs) as Ht. cbn beta in Ht. apply Forall_inv_tail in Hs. rewrite Ht in E. exact (IH _ _ _ _ _ _ Hs E).
  - destruct sch as [|t sch]; [exact (IH _ _ _ _ _ _ Hs E)|].
    pose proof (Forall_inv Hs) as Ht. cbn beta in Ht. apply Forall_inv_tail in Hs. rewrite Ht in E. exact (IH _ _ _ _ _ _ Hs E).
  - now injection E as _ <- _.
  - now injection E as _ <- _.
Qed.
Lemma if_returns_bind {A B} (p : prog A) (f : A -> prog B) n c (P : A -> sock -> Prop) (Q : B -> sock -> Prop) :
  if_returns p n c P -> (forall a c1, P a (c_sock c1 n) -> if_returns (f a) n c1 Q) -> if_returns (bind p f) n c Q.
Proof.
  intros H1 H2 sch b sch' c' Hs E. rewrite run_bind in E. destruct (run p sch c) as [[[a| |] sch1] c1] eqn:E1; try discriminate.
  exact (H2 a c1 (H1 sch a sch1 c1 Hs E1) sch1 b sch' c' (run_no_faults _ _ _ _ _ _ Hs E1) E).
Qed.
Lemma if_returns_bindM {A B} (p : M A) (f : A -> M B) n c (P : res err A -> sock -> Prop) (Q : res err B -> sock -> Prop) :
  if_returns p n c P -> (forall e c1, P (Err e) (c_sock c1 n) -> Q (Err e) (c_sock c1 n)) ->
  (forall a c1, P (Ok a) (c_sock c1 n) -> if_returns (f a) n c1 Q) -> if_returns (bindM p f) n c Q.
Proof.
  intros H1 He H2. eapply if_returns_bind; [exact H1|]. intros [a|e] c1 HP; [now apply H2|].
  intros sch b sch' c' Hs E. injection E as <- _ <-. now apply He.
Qed.
Lemma if_returns_mono {A} (p : prog A) n c (Q Q' : A -> sock -> Prop) :
  if_returns p n c Q -> (forall a s, Q a s -> Q' a s) -> if_returns p n c Q'.
Proof. intros H HQ sch a sch' c' Hs E. apply HQ. eapply H; eassumption. Qed.
Lemma wps_ret_prog {A} (a : A) n s D (Q : A -> sock -> Prop) : Q a s -> wps (Ret a) n s D Q.
Proof. auto. Qed.
