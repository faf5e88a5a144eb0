(** Records on the chip: what [process] makes of the bytes in the receive buffer. *)
From Verif Require Import Model.Prelude Model.Bus Model.Chip Model.Specifiers Model.LlBits Model.Ll Model.HlIo Model.HlCommon Model.HlTcp Model.Stream Model.Gcm
  Spec.Hoare Spec.Sock Spec.Cursor Spec.TcpClient Spec.Gcm38D Spec.Fips197.
From Verif Require Import Proof.Base Proof.RingP Proof.ChipP Proof.SockP Proof.StreamP Proof.TcpP Proof.Ghash3P Proof.GcmP.
From Verif Require Import Spec.TlsWire.
Ltac Zify.zify_post_hook ::= idtac.

Section Window.
(** A lower bound of the free space in the transmit buffer, and the size of the receive buffer. *)
Context (f : Z * Z).

(** A connection, where the read pointer register may be ahead of the released bytes. *)
Definition wv (s : sock) (rd tx : list Z) : Prop := tcp_open s /\ rx_wf s /\ tx_ready s /\ s_rxlog s = rd ++ unread s /\ tx_stream s = tx /\ tx_bytes s /\ fst f <= free_space s /\ rx_size s = snd f.
Lemma view_wv s rd tx : tcp_view s rd tx -> tx_bytes s -> fst f <= free_space s -> rx_size s = snd f -> wv s rd tx /\ rx_rd s = s_rx_base s.
Proof. intros (T & (W & R) & X & L & S) B F Z. split; [|exact R]. split; [exact T|]. split; [exact W|]. split; [exact X|]. split; [exact L|]. split; [exact S|]. split; [exact B|split; [exact F|exact Z]]. Qed.
Lemma wv_env s s' rd tx : wv s rd tx -> env s s' -> wv s' rd tx /\ (exists new, unread s' = unread s ++ new) /\ s_rx_base s' = s_rx_base s /\ rx_rd s' = rx_rd s.
Proof.
  intros (T & W & (X & C) & L & S & TB & F & Z) E. pose proof (tcp_idle _ T) as I.
  destruct (env_all _ _ I E) as (I' & (_ & St & _) & (R1 & R2 & R3 & R4 & _) & (T1 & T2 & T3 & T4 & T5) & _).
  destruct (R4 W) as (W' & new & Hn & U & L'). destruct (T5 X) as (X' & S' & Pd & _).
  split; [|split; [exists new; exact U|split; [exact R2|exact R1]]].
  split; [auto|]. split; [exact W'|]. split; [split; [exact X'|congruence]|].
  split; [rewrite L', L, U, app_assoc; reflexivity|]. split; [congruence|]. split; [intros a; rewrite T3; apply TB|]. split; [unfold free_space in *; lia|congruence].
Qed.
Lemma wv_put s v rd tx : wv s rd tx -> wv (put16 s 0x28 v) rd tx.
Proof. intros (T & W & X & L & S & TB & F & Z). split; [exact T|]. split; [exact W|]. split; [exact X|]. split; [exact L|]. split; [exact S|]. split; [exact TB|split; [exact F|exact Z]]. Qed.

(** The window [w] at the first unread byte, whose pointer is [b]; the read pointer register has [q]. *)
Definition wn (s : sock) (rd tx : list Z) (b q : Z) (w : list Z) : Prop := wv s rd tx /\ s_rx_base s = b /\ rx_rd s = q /\ exists rest, unread s = w ++ rest.
Lemma wn_view s rd tx b w : wn s rd tx b b w -> tcp_view s rd tx.
Proof. intros ((T & W & X & L & S & _) & B & R & _). split; [exact T|]. split; [split; [exact W|congruence]|]. split; [exact X|]. split; [exact L|exact S]. Qed.
Lemma view_wn s rd tx w more : tcp_view s rd tx -> tx_bytes s -> fst f <= free_space s -> rx_size s = snd f -> unread s = w ++ more -> wn s rd tx (s_rx_base s) (s_rx_base s) w.
Proof. intros V TB F Z U. destruct (view_wv _ _ _ V TB F Z) as (V' & R). split; [exact V'|]. split; [reflexivity|]. split; [exact R|]. eauto. Qed.
Lemma wn_env s s' rd tx b q w : wn s rd tx b q w -> env s s' -> wn s' rd tx b q w.
Proof.
  intros (V & B & R & rest & U) E. destruct (wv_env _ _ _ _ V E) as (V' & (new & U') & B' & R'). split; [exact V'|]. split; [congruence|]. split; [congruence|]. exists (rest ++ new). rewrite U', U, <- app_assoc. reflexivity.
Qed.
Lemma rx_rd_put s v : is_u16 v -> rx_rd (put16 s 0x28 v) = v.
Proof. intros H. unfold put16, rx_rd, of_word. cbn. now apply hi_lo. Qed.
Lemma wn_put s v rd tx b q w : is_u16 v -> wn s rd tx b q w -> wn (put16 s 0x28 v) rd tx b v w.
Proof. intros Hv (V & B & _ & rest & U). split; [now apply wv_put|]. split; [exact B|]. split; [now apply rx_rd_put|]. exists rest. exact U. Qed.
Lemma wn_prefix s rd tx b q w w' : wn s rd tx b q (w ++ w') -> wn s rd tx b q w.
Proof. intros (V & B & R & rest & U). split; [exact V|]. split; [exact B|]. split; [exact R|]. exists (w' ++ rest). rewrite U, app_assoc. reflexivity. Qed.
Lemma wn_idle s rd tx b q w : wn s rd tx b q w -> idle s.
Proof. intros ((T & _) & _). now apply tcp_idle. Qed.
Lemma wn_bounds s rd tx b q w : wn s rd tx b q w -> is_u16 b /\ zlen w <= rx_rsr s /\ rx_rsr s <= 16384.
Proof.
  intros ((_ & W & _) & B & _ & rest & U). pose proof (unread_len Sn0 s) as L. rewrite U, zlen_app in L. pose proof (zlen_nonneg rest). destruct W as (Hz & Hb & _ & Hl). pose proof (size_ok_range _ Hz). subst b. split; [exact Hb|]. lia.
Qed.
Lemma wn_read s rd tx b q w p k a : wn s rd tx b q w -> 0 <= p -> 0 <= k -> p + k <= zlen w -> a mod 65536 = (b + p) mod 65536 -> Chip.ring (s_rxmem s) (rx_size s) a k = ztake k (zdrop p w).
Proof.
  intros (V & B & _ & rest & U) Hp Hk Hl Hq. apply (rx_win_read s 0 w p k a); auto.
  - exists [], rest. split; [exact U|reflexivity].
  - rewrite Hq, B. f_equal. lia.
Qed.
(** Releasing the first [k] bytes. *)
Lemma wn_release s s2 rd tx b q w k : wn s rd tx b q w -> 0 <= k <= zlen w -> env (put16 s 0x28 ((b + k) mod 65536)) s2 ->
  let s3 := exec_cmd s2 0x40 in exists b', wn s3 (rd ++ ztake k w) tx b' b' (zdrop k w).
Proof.
  intros H Hk E. cbv zeta. pose proof (wn_bounds _ _ _ _ _ _ H) as (Bb & L1 & L2). destruct H as ((T & W & (X & C) & L & S & TB & F & Z) & B & _ & rest & U).
  destruct (release s k ((b + k) mod 65536) s2 (tcp_idle _ T) W ltac:(lia)) as (I3 & S3 & T3 & D3 & R3 & (new & Hn & U3 & L3) & _); auto.
  { unfold is_u16. pose proof (Z.mod_pos_bound (b + k) 65536 ltac:(lia)). lia. }
  { now rewrite B. }
  destruct T3 as (T31 & T32 & T33 & T34 & T35). destruct (T35 X) as (X3 & S3' & Pd & _).
  assert (unread (exec_cmd s2 64) = zdrop k w ++ rest ++ new) as U4 by (rewrite U3, U, zdrop_app_l by lia; now rewrite <- app_assoc).
  assert (tcp_view (exec_cmd s2 64) (rd ++ ztake k w) tx) as V.
  { split; [apply S3, T|]. split; [exact R3|]. split; [split; [exact X3|congruence]|]. split; [|congruence].
    rewrite L3, L, U, U4, <- !app_assoc. f_equal. rewrite (app_assoc (ztake k w)), ztake_zdrop. reflexivity. }
  assert (rx_size (exec_cmd s2 64) = rx_size s) as Z3.
  { assert (idle (put16 s 40 ((b + k) mod 65536))) as Ip by exact (tcp_idle _ T). destruct (env_all _ _ Ip E) as (_ & _ & (_ & _ & Z4 & _) & _). exact Z4. }
  eexists. apply (view_wn _ _ _ _ _ V) with (4 := U4); [intros a; rewrite T33; apply TB|unfold free_space in *; lia|congruence].
Qed.

(** The window is no longer than the receive buffer. *)
Lemma wn_size s rd tx b q w : wn s rd tx b q w -> zlen w <= snd f.
Proof. intros ((_ & W & _ & _ & _ & _ & _ & Z) & _ & _ & rest & U). pose proof (unread_len Sn0 s) as L. rewrite U, zlen_app in L. pose proof (zlen_nonneg rest). destruct W as (_ & _ & _ & Hl). lia. Qed.

Section Rx.
Context (sn : Sn).
Let n := snz sn.
(** A reader over the window [w], at position [p]. *)
Definition cur_at (c : cursor) (b : Z) (w : list Z) (p : Z) : Prop := cu_sn c = sn /\ cursor_ok c /\ cur_pos c = p /\ cu_head c = b /\ cur_len c = zlen w.
Lemma reader_wn D dbg s rd tx b w : wn s rd tx b b w -> w <> [] ->
  wps (tcp_reader dbg sn) n s D (fun r s' => exists c ext, r = Ok c /\ wn s' rd tx b b (w ++ ext) /\ cur_at c b (w ++ ext) 0).
Proof.
  intros H Ne. unfold tcp_reader. apply wps_assert_tcp; [apply H|]. intros s0 E0. pose proof (wn_env _ _ _ _ _ _ _ H E0) as H0.
  apply wps_bindM, wps_rx_rsr. intros s1 E1. pose proof (wn_env _ _ _ _ _ _ _ H0 E1) as H1.
  pose proof (wn_bounds _ _ _ _ _ _ H1) as (Bb & L1 & L2). pose proof (zlen_nonneg w).
  assert (0 < zlen w) by (destruct w; [contradiction|]; rewrite zlen_cons; pose proof (zlen_nonneg w); lia).
  destruct (Z.eqb_spec (rx_rsr s1) 0) as [Ek|_]; [lia|].
  apply wps_bindM, wps_rx_rd. intros s2 E2. cbn [wps ret]. destruct H1 as (V1 & B1 & R1 & ext & U1). destruct (wv_env _ _ _ _ V1 E2) as (V2 & (new & U2) & B2 & R2).
  assert (rx_rd s2 = b) as Er by congruence. rewrite Er. pose proof (unread_len sn s1) as Lu.
  exists (mkCur sn b (wadd b (rx_rsr s1)) b), ext. split; [reflexivity|]. split; [split; [exact V2|split; [congruence|split; [exact Er|exists new; rewrite U2, U1; reflexivity]]]|].
  unfold cur_at, cursor_ok, cur_pos, cur_len, wsub, wadd, is_u16 in *. cbn [cu_sn cu_head cu_tail cu_ptr]. rewrite <- U1, Lu.
  assert ((b - b) mod 65536 = 0) as Z0 by (rewrite Z.sub_diag; reflexivity).
  assert (((b + rx_rsr s1) mod 65536 - b) mod 65536 = rx_rsr s1) as Zl by (rewrite Zminus_mod_idemp_l; replace (b + rx_rsr s1 - b) with (rx_rsr s1) by lia; apply Z.mod_small; lia).
  pose proof (Z.mod_pos_bound (b + rx_rsr s1) 65536 ltac:(lia)). rewrite ?Z0, ?Zl. repeat split; try lia.
Qed.
Lemma read_exact_wn D c s rd tx b q w p k : wn s rd tx b q w -> cur_at c b w p -> 0 <= k -> p + k <= zlen w ->
  wps (cur_read_exact c k) n s D (fun r s' => exists c', r = Ok (ztake k (zdrop p w), c') /\ wn s' rd tx b q w /\ cur_at c' b w (p + k)).
Proof.
  intros H (Csn & Cok & Cp & Ch & Cl) Hk Hp. pose proof (cur_accounting c Cok) as (A1 & A2 & A3). pose proof (cur_ptr_pos c Cok) as Ep. pose proof (wn_bounds _ _ _ _ _ _ H) as (Bb & L1 & L2).
  unfold cur_read_exact. rewrite len16_spec. destruct (Z.eqb_spec (Z.min (cur_remain c) (Z.min k 65535)) (Z.min k 65535)) as [E|E]; cbn [negb]; [|lia].
  rewrite Csn. apply wps_bindM, wps_rx_buf. intros s1 E1. cbn [wps ret]. pose proof (wn_env _ _ _ _ _ _ _ H E1) as H1.
  replace (Z.min (cur_remain c) (Z.min k 65535)) with k by lia. destruct (cur_advance c k Cok ltac:(lia)) as [M1 M2].
  eexists. split; [|split; [exact H1|]].
  - f_equal. f_equal. apply (wn_read s1 rd tx b q w); auto; [lia|]. rewrite Ep, Ch, Cp. apply Z.mod_mod. lia.
  - destruct (same_window_at c (wadd (cu_ptr c) k)) as (W1 & W2 & W3). unfold cur_at. rewrite M2, (same_window_len c _ (same_window_at c _)), Cp, Cl. repeat split; try congruence; apply M1.
Qed.
Lemma done_wn D c s rd tx b q w p : wn s rd tx b q w -> cur_at c b w p -> 
  wps (tcp_reader_done c) n s D (fun r s' => r = Ok tt /\ exists b', wn s' (rd ++ ztake p w) tx b' b' (zdrop p w)).
Proof.
  intros H (Csn & Cok & Cp & Ch & Cl). pose proof (cur_accounting c Cok) as (A1 & A2 & A3). pose proof (cur_ptr_pos c Cok) as Ep. rewrite Ch, Cp in Ep.
  unfold tcp_reader_done. rewrite Csn. apply wps_bindM, wps_set_rx_rd. intros s1 E1. pose proof (wn_env _ _ _ _ _ _ _ H E1) as H1.
  apply wps_bindM, wps_set_cr. intros s2 E2. cbn [wps ret]. split; [reflexivity|]. change (command_raw CRecv) with 0x40. rewrite Ep in E2. apply (wn_release s1 s2 rd tx b q w p H1); [lia|exact E2].
Qed.
End Rx.
End Window.
