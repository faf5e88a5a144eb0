(** A stream of protected records, received in pieces. *)
From Coq Require Import String.
From Verif Require Import Model.Prelude Model.Bus Model.Chip Model.Specifiers Model.LlBits Model.Ll Model.LlAddr Model.HlIo Model.HlCommon Model.HlTcp Model.Stream Model.Gcm
  Spec.Hoare Spec.Sock Spec.Cursor Spec.TcpClient Spec.Gcm38D Spec.Fips197 Spec.TlsSecrets Spec.TlsMessages Spec.TlsProtect.
From Verif Require Import Proof.MqttRxP Proof.Base Proof.RingP Proof.ChipP Proof.SockP Proof.StreamP Proof.TcpP Proof.Ghash3P Proof.GcmP Proof.TlsTxP Proof.TlsBufP Proof.TlsHelloP Proof.TlsSendP Proof.TlsWireP Proof.ChipIfP Proof.TlsRxP Proof.TlsRx2P Proof.TlsRx3P Proof.TlsRx4P Proof.TlsRx5P Proof.MqttStuckP.
From Verif Require Import Spec.MqttMsg Spec.TlsQuiet.
From Verif Require Import Model.TlsTypes Model.TlsBuf Model.TlsKeys Model.TlsHello Model.TlsRecord Model.TlsClient Spec.TlsQueue Spec.TlsSession Spec.TlsWire Spec.TlsAuth Spec.TlsRx Spec.TlsStream.
Ltac Zify.zify_post_hook ::= idtac.
Local Open Scope list_scope.

(** ** Runs after which too much has been received *)
Lemma wpc_longer {A} (p : prog A) c (Q : A -> chip -> Prop) : (forall a c', chip_longer c c' -> Q a c') -> wpc True p c Q.
Proof. intros H sch Hs. destruct (run p sch c) as ((o, sch'), c') eqn:E. destruct o; try exact I. exact (H _ _ (run_longer _ _ _ _ _ _ E)). Qed.
Lemma wn_log f s rd tx b q w : wn f s rd tx b q w -> exists rest, s_rxlog s = rd ++ w ++ rest.
Proof. intros (V & _ & _ & rest & U). exists rest. rewrite <- U. apply V. Qed.

Lemma wpc_first {A} (k : option (list Z) -> prog A) sn c a (P : Z -> Prop) (Q : A -> chip -> Prop) : a = 2 ->
  (forall c1, env (c_sock c (snz sn)) (c_sock c1 (snz sn)) -> P (s_ir (c_sock c1 (snz sn))) -> wpc True (k (Some [s_ir (c_sock c1 (snz sn))])) c1 Q) ->
  forall sch, no_faults sch -> P (seen_ir sch c (snz sn)) ->
  match run (Rd a (4 * snz sn + 1) 1 k) sch c with (Done x, _, c') => Q x c' | _ => True end.
Proof.
  intros -> H sch Hs HP. pose proof (snz_range sn) as Hn.
  assert (forall c1 sch', env (c_sock c (snz sn)) (c_sock c1 (snz sn)) -> P (s_ir (c_sock c1 (snz sn))) -> no_faults sch' ->
    match run (k (Some (chip_rds c1 (4 * snz sn + 1) 2 1))) sch' c1 with (Done x, _, c') => Q x c' | _ => True end) as G.
  { intros c1 sch' E HP1 Hs1. rewrite chip_rds_sock by lia.
    change (sock_rds (c_sock c1 (snz sn)) 1 2 1) with [s_ir (c_sock c1 (snz sn))].
    pose proof (H c1 E HP1 sch' Hs1) as R. destruct (run _ sch' c1) as [[[x| |] sc] c']; auto. }
  cbn [run]. destruct sch as [|t sch]; [apply G; auto using env_refl|].
  inversion Hs as [|? ? Ht Hs']; subst. rewrite Ht. apply G; auto using env_evs.
Qed.

Section Call.
Context (cx : Crypto) (f : Z * Z) (sn : Sn) (dbg : bool).
Hypothesis CX : crypto_ok cx.
Let n := snz sn.
Notation wn := (TlsRxP.wn f).

Lemma wn_whole s rd tx b q w : wn s rd tx b q w -> wn s rd tx b q (unread s).
Proof. intros (V & B & R & _). split; [exact V|]. split; [exact B|]. split; [exact R|]. exists []. now rewrite app_nil_r. Qed.
Lemma wpc_wn {A} (p : prog A) ch (Q : A -> sock -> Prop) (Q' : A -> chip -> Prop) : wps p n (c_sock ch n) True Q -> (forall a ch', Q a (c_sock ch' n) -> Q' a ch') -> wpc True p ch Q'.
Proof. intros H K. eapply wpc_mono; [exact (wpc_wps True p sn ch Q H)|]. intros a ch' (X & _). exact (K a ch' X). Qed.

(** The start of [process]. *)
Lemma process_if c rng now ch rd tx b (Q : res TError TEvent * TlsClient -> chip -> Prop) fuel : tc_sn c = sn -> listens c -> wn (c_sock ch n) rd tx b b [] ->
  (forall ch1, wn (c_sock ch1 n) rd tx b b [] -> wpc True (process_rx cx dbg c now) ch1 Q) ->
  forall sch, no_faults sch -> no_link_change (seen_ir sch ch n) ->
  match run (tls_process cx dbg fuel c rng now) sch ch with (Done a, _, ch') => Q a ch' | _ => True end.
Proof.
  intros Hsn Hl H K sch Hs HP. unfold tls_process, sn_ir, bindM, read. cbn [bind]. rewrite Hsn, sn_block_eq.
  apply wpc_first with (P := no_link_change); [reflexivity| |exact Hs|exact HP]. intros ch1 E1 HP1. cbn [bind ret]. change (byte0 [s_ir (c_sock ch1 (snz sn))]) with (s_ir (c_sock ch1 (snz sn))). set (ir := s_ir (c_sock ch1 (snz sn))) in *.
  pose proof (wn_env f _ _ _ _ _ _ _ H E1) as W1.
  destruct (link_bits ir) as (B1 & B2 & B3). destruct HP1 as (L0 & L1 & L3). unfold ir_bit in *.
  assert (forall ch2, wn (c_sock ch2 n) rd tx b b [] -> wpc True (process_state cx dbg fuel c now) ch2 Q) as K2.
  { intros ch2 Hw. unfold process_state. unfold listens in Hl. destruct (tc_state c); try contradiction; now apply K. }
  destruct (SocketInterrupt_any_raised ir); [|now apply K2].
  unfold or_alert. apply wpc_bind.
  apply (wpc_wn _ _ (fun x s' => x = (Ok tt, c) /\ wn s' rd tx b b [])).
  - apply wps_aio. cbn [wps set_sn_ir write bind]. rewrite sn_block_eq. exists 1. split; [lia|]. split; [reflexivity|]. intros s2 E2. cbn [wps ret]. split; [reflexivity|]. exact (wn_env f _ _ _ _ _ _ _ W1 E2).
  - intros x ch2 (-> & W2). cbn iota beta. rewrite B2. destruct (Z.testbit ir 0); [contradiction|]. unfold process_interrupts. rewrite B1, B3. destruct (Z.testbit ir 1); [contradiction|]. destruct (Z.testbit ir 3); [contradiction|].
    assert (tstate_eqb (tc_state c) TWaitAlertSendOk = false) as -> by (unfold listens in Hl; destruct (tc_state c); reflexivity || contradiction). rewrite andb_false_r. now apply K2.
Qed.

(** A whole record of application data. *)
Lemma data_body c now t seq h body ad rd tx data s1 b1 more : tc_sn c = sn -> reads_with c t seq -> at_ h 0 = 23 -> zlen h = 5 -> bytes_ok h -> rh_length h = zlen body -> 17 <= zlen body <= buffer_size c - 22 -> bytes_ok body -> buffer_holds (tc_rx c) ad [] ->
  zlen ad + zlen body <= buffer_size c + 15 -> tc_state c = TConnected -> opens cx t seq (h ++ body) = Some (data ++ [23]) -> wn s1 (rd ++ h) tx b1 b1 (body ++ more) ->
  wps (after_header cx dbg c h now) n s1 True (fun x s' => exists rx, x = (Ok (Some TApplicationData), tc_set_ks (tc_set_rx c rx) (ks_set_seqs (tc_ks c) (seq + 1) (ks_write_seq (tc_ks c)))) /\
    buffer_holds rx (ad ++ data) [] /\ b_N rx = b_N (tc_rx c) /\ exists b' w', wn s' (rd ++ h ++ body) tx b' b' w').
Proof.
  intros Hsn R Hct Lh Bh Hlen Lb Bb Hh Room Hst Ho W1. unfold after_header, or_alert. cbv zeta. apply wps_bind.
  pose proof R as (R1 & R2 & R3).
  eapply wps_mono; [| |apply (body_wn cx f sn dbg True CX c t seq h s1 (rd ++ h) tx b1 body more ad [])]; auto; try lia; [|now apply buffer_eq|change (zlen (@nil Z)) with 0; unfold b_N, buffer_size in *; lia].
  rewrite Ho. intros x s2 ((b' & w' & W2) & pl & rx & Q1 & Q2 & Lp & y' & E & ->). apply app_inj_tail in E. destruct E as (-> & <-). change (content_type_try_from 23) with (Some 23). cbn iota beta. change (23 =? ApplicationData) with true. cbn iota.
  rewrite Hlen. change (GCM_TAG_LEN + 1) with 17. replace (Z.max 0 (zlen body - 17)) with (zlen pl) by lia. cbn [app tc_rx tc_set_rx] in *.
  destruct (publish_ok dbg rx ad pl (zlen pl) Q1 ltac:(pose proof (zlen_nonneg pl); lia)) as (rx' & -> & Q3 & Q4 & _). cbn iota. rewrite ztake_all, zdrop_all in Q3 by lia.
  rewrite (no_fragment _ ad) by (apply buffer_eq; exact Hh). cbn [andb]. change (23 =? CtAlert) with false. unfold recv_content. change (23 =? ChangeCipherSpec) with false. change (23 =? CtHandshake) with false. cbn iota.
  cbn [tc_state tc_set_rx]. rewrite Hst. cbn [tstate_eqb bind wps]. unfold rh_content_type. rewrite Hct. change (23 =? ApplicationData) with true. cbn iota.
  unfold increment_read, U64_MAX. cbn [tc_ks tc_set_rx]. rewrite R2. destruct (Z.eqb_spec seq 18446744073709551615) as [|_]; [lia|]. cbn [wps].
  exists rx'. split; [destruct c; reflexivity|]. split; [now apply buffer_eq|]. split; [congruence|]. exists b', w'. rewrite <- app_assoc in W2. exact W2.
Qed.

(** The state of the client and of its socket between two calls. *)
Definition streaming (c : TlsClient) (t : list Z) (seq : Z) (ad : list Z) (size : Z) : Prop :=
  tc_sn c = sn /\ tc_state c = TConnected /\ tc_timeout c = None /\ ks_server_traffic (tc_ks c) = Some t /\ ks_read_seq (tc_ks c) = seq /\ buffer_holds (tc_rx c) ad [] /\ buffer_size c = size.

Lemma stream_call c rng now ch fuel rd tx b t seq ad size data later : streaming c t seq ad size -> 0 <= seq < 2 ^ 64 - 1 -> bytes_ok data -> zlen data <= size - 39 -> zlen ad + zlen data + 2 <= size ->
  wn (c_sock ch n) rd tx b b [] ->
  forall sch, no_faults sch -> no_link_change (seen_ir sch ch n) ->
  match run (tls_process cx dbg fuel c rng now) sch ch with
  | (Done (r, c'), _, ch') => (exists missing, s_rxlog (c_sock ch' n) ++ missing = rd ++ protected_record cx t seq 23 data ++ later) ->
      (r = Ok TNone /\ c' = c /\ exists b' w', wn (c_sock ch' n) rd tx b' b' w') \/
      (r = Ok TApplicationData /\ streaming c' t (seq + 1) (ad ++ data) size /\ exists b' w', wn (c_sock ch' n) (rd ++ protected_record cx t seq 23 data) tx b' b' w')
  | _ => True
  end.
Proof.
  intros (Hsn & Hst & Hto & R1 & R2 & Hh & Hz) Hs Bd Ld Room W.
  assert (reads_with c t seq) as R by (split; [exact R1|]; split; [exact R2|exact Hs]).
  assert (listens c) as Hl by (unfold listens; now rewrite Hst).
  pose proof Hh as (HN & _). pose proof (zlen_nonneg data) as N0. unfold buffer_size in Hz.
  destruct (record_split cx t seq 23 data CX ltac:(lia) Bd ltac:(unfold is_u8; lia) ltac:(lia)) as (body & E & Lb & Bb & Lh & Bh & Hlen).
  destruct (record_parts cx t seq 23 data CX ltac:(lia) Bd ltac:(unfold is_u8; lia) ltac:(lia)) as (_ & Ho).
  rewrite E in *. set (h := record_aad (zlen data)) in *.
  set (Q := fun (x : res TError TEvent * TlsClient) (ch' : chip) => (exists missing, s_rxlog (c_sock ch' n) ++ missing = rd ++ (h ++ body) ++ later) ->
      (fst x = Ok TNone /\ snd x = c /\ exists b' w', wn (c_sock ch' n) rd tx b' b' w') \/
      (fst x = Ok TApplicationData /\ streaming (snd x) t (seq + 1) (ad ++ data) size /\ exists b' w', wn (c_sock ch' n) (rd ++ h ++ body) tx b' b' w')).
  intros sch Hf HP.
  assert (match run (tls_process cx dbg fuel c rng now) sch ch with (Done a, _, ch') => Q a ch' | _ => True end) as G.
  2:{ destruct (run (tls_process cx dbg fuel c rng now) sch ch) as [[[(r, c')| |] sch'] ch']; auto. }
  apply (process_if c rng now ch rd tx b Q fuel Hsn Hl W); [|exact Hf|exact HP]. clear sch Hf HP. intros ch1 W1.
  unfold process_rx. rewrite (listen_rx c Hl), Hsn. unfold or_alert at 1. apply wpc_bind.
  assert (forall ch' w, wn (c_sock ch' n) rd tx b b w -> wpc True (after_recv cx (Ok None, c) now) ch' Q) as Wait.
  { intros ch' w W'. cbn [after_recv]. rewrite Hst. cbn [tstate_eqb]. unfold check_timeout. rewrite Hto. apply wpc_ret. intros _. left. cbn [fst snd]. eauto. }
  apply (wpc_wn _ _ (fun x s' => x = (Ok (zlen (unread s')), c) /\ wn s' rd tx b b (unread s'))).
  { apply wps_aio, wps_rx_rsr. intros s2 E2. cbn [wps]. pose proof (wn_env f _ _ _ _ _ _ _ W1 E2) as W2. split; [|exact (wn_whole _ _ _ _ _ _ W2)]. now rewrite (unread_len sn s2). }
  intros x ch2 (-> & W2). cbn iota beta. apply wpc_bind. change RH_LEN with 5. destruct (Z.leb_spec 5 (zlen (unread (c_sock ch2 n)))) as [L5|]; [|apply wpc_ret; exact (Wait _ _ W2)].
  set (u := unread (c_sock ch2 n)) in *. rewrite tls_recv_eq. unfold or_alert. apply wpc_bind.
  eapply wpc_wn; [apply (header_wn f sn dbg True c (c_sock ch2 n) rd tx b u Hsn W2 L5)|]. cbv zeta. intros x ch3 (ext & X).
  set (WW := u ++ ext) in *.
  assert (exists rest, s_rxlog (c_sock ch3 n) = rd ++ WW ++ rest) as (rest3 & L3).
  { assert (forall s', wn s' (rd ++ ztake 5 u) tx b b (zdrop 5 WW) \/ True -> True) as _ by auto.
    destruct (content_type_try_from _); [|destruct X as (_ & X); exact (wn_log _ _ _ _ _ _ _ X)].
    destruct (_ <? _); [destruct X as (_ & X); exact (wn_log _ _ _ _ _ _ _ X)|]. destruct (_ <? _); [destruct X as (_ & X); exact (wn_log _ _ _ _ _ _ _ X)|].
    destruct X as (_ & b' & X). destruct (wn_log _ _ _ _ _ _ _ X) as (rest & ->). exists rest. rewrite <- app_assoc. f_equal. rewrite app_assoc. f_equal.
    rewrite <- (ztake_zdrop 5 WW) at 2. f_equal. unfold WW. rewrite ztake_app_l by lia. reflexivity. }
  destruct (list_eq_dec Z.eq_dec (ztake (zlen WW) ((h ++ body) ++ later)) WW) as [Pf|Np].
  2:{ apply wpc_longer. intros (r4, c4) ch4 Lg4. cbn iota beta. apply wpc_longer. intros a ch5 Lg5. destruct (chip_longer_trans _ _ _ Lg4 Lg5 n) as (new & _ & Lg'). intros (missing & Em). exfalso. apply Np.
      rewrite Lg', L3, <- !app_assoc in Em. apply app_inv_head in Em. rewrite <- app_assoc, <- Em. apply ztake_exact. }
  assert (ztake 5 u = h) as Eh.
  { assert (ztake 5 WW = ztake 5 u) as <- by (unfold WW; now rewrite ztake_app_l by lia). rewrite <- Pf. assert (5 <= zlen WW) as L5' by (unfold WW; rewrite zlen_app; pose proof (zlen_nonneg ext); lia).
    rewrite ztake_ztake. replace (Z.min 5 (zlen WW)) with 5 by lia. rewrite <- app_assoc, <- Lh. apply ztake_exact. }
  rewrite Eh in X. change (content_type_try_from (at_ h 0)) with (Some 23) in X. rewrite Hlen in X.
  destruct (Z.ltb_spec (RECORD_SIZE_LIMIT c) (zlen data + 17)) as [Big|_].
  { unfold RECORD_SIZE_LIMIT, b_N in Big. change GCM_TAG_LEN with 16 in Big. change RH_LEN with 5 in Big. lia. }
  destruct (Z.ltb_spec (zlen WW) (zlen data + 17 + 5)) as [Sh|Wh].
  { destruct X as (-> & W3). apply wpc_ret. exact (Wait _ _ W3). }
  destruct X as (-> & b3 & W3).
  assert (exists more, WW = (h ++ body) ++ more) as (more & EW).
  { exists (ztake (zlen WW - zlen (h ++ body)) later). rewrite <- Pf at 1. rewrite ztake_app_r by (rewrite zlen_app; lia). reflexivity. }
  assert (zdrop 5 WW = body ++ more) as Ed by (rewrite EW, <- app_assoc, <- Lh; apply zdrop_exact). rewrite Ed in W3.
  eapply wpc_wn; [apply (data_body c now t seq h body ad rd tx data (c_sock ch3 n) b3 more Hsn R eq_refl Lh Bh ltac:(lia) ltac:(unfold buffer_size; lia) Bb Hh ltac:(unfold buffer_size; lia) Hst Ho W3)|].
  intros x ch4 (rx & -> & Q1 & Q2 & Q3). cbn [after_recv]. apply wpc_ret. intros _. right. cbn [fst snd]. split; [reflexivity|]. split; [|exact Q3].
  split; [exact Hsn|]. split; [exact Hst|]. split; [exact Hto|]. split; [exact R1|]. split; [reflexivity|]. split; [exact Q1|]. unfold buffer_size. cbn [tc_rx tc_set_ks tc_set_rx]. unfold b_N in Q2. congruence.
Qed.
End Call.

(** ** Histories *)
Lemma holds_readable c ad : buffer_holds (tc_rx c) ad [] -> readable c = ad.
Proof.
  intros H. apply buffer_eq in H. pose proof (reader_ok _ _ _ H) as R. unfold readable, tls_reader. destruct (b_app_data_reader (tc_rx c)) as [r|]; [|congruence]. destruct R as (_ & E & _). exact E.
Qed.
Lemma stream_app cx t datas : forall seq more, record_stream cx t seq (datas ++ more) = record_stream cx t seq datas ++ record_stream cx t (seq + zlen datas) more.
Proof.
  induction datas as [|d datas IH]; intros seq more; cbn [app record_stream].
  - change (zlen (@nil (list Z))) with 0. now rewrite Z.add_0_r.
  - rewrite IH, zlen_cons, <- app_assoc. do 3 f_equal. lia.
Qed.
Lemma deliveries_app rs r : deliveries (rs ++ [r]) = (deliveries rs + match r with Ok TApplicationData => 1 | _ => 0 end)%nat.
Proof. unfold deliveries. rewrite filter_app, app_length. cbn [filter]. f_equal. destruct r as [[]|]; reflexivity. Qed.
Lemma firstn_snoc {A} (k : nat) (l : list A) d r : skipn k l = d :: r -> firstn (k + 1) l = firstn k l ++ [d].
Proof. intros H. rewrite <- (firstn_skipn k l) at 1. rewrite H. assert (length (firstn k l) = k) as L. { rewrite firstn_length. assert (length (skipn k l) <> 0)%nat by (rewrite H; discriminate). rewrite skipn_length in *. lia. }
  rewrite firstn_app, L. replace (k + 1 - k)%nat with 1%nat by lia. cbn [firstn]. f_equal. apply firstn_all2. lia. Qed.

Section History.
Context (cx : Crypto) (dbg : bool) (room : Z) (c : TlsClient) (ch : chip) (rd tx ad : list Z) (t : list Z) (seq : Z) (datas : list (list Z)).
Hypothesis CX : crypto_ok cx.
Notation sn := (tc_sn c).
Notation n := (snz (tc_sn c)).
Let f := (free_space (c_sock ch n), rx_size (c_sock ch n)).
Hypotheses (S0 : streaming sn c t seq ad (buffer_size c)) (Hseq : 0 <= seq) (Hend : seq + zlen datas < 2 ^ 64 - 1) (Bd : Forall bytes_ok datas) (Ld : Forall (fun d => zlen d <= room) datas) (Hr : 0 <= room <= buffer_size c - 39).
Hypothesis V0 : tcp_view (c_sock ch n) rd tx /\ tx_bytes (c_sock ch n).

Lemma uses_inv rs got c' ch' : uses cx dbg room c ch rs got c' ch' -> receives ch' c rd (record_stream cx t seq datas) ->
  let k := deliveries rs in (k <= length datas)%nat /\ Forall (fun r => r = Ok TNone \/ r = Ok TApplicationData) rs /\
  exists ad' b w, streaming sn c' t (seq + Z.of_nat k) ad' (buffer_size c) /\ got ++ ad' = ad ++ concat (firstn k datas) /\
    wn f (c_sock ch' n) (rd ++ record_stream cx t seq (firstn k datas)) tx b b w.
Proof.
  intros U. induction U as [|rs got c1 ch1 fuel rng now sch r sch' c2 ch2 U IH Room Hf Hn Ru|rs got c1 ch1 k r data r' U IH Er Hk Rd]; intros Rv; cbv zeta.
  - split; [cbn; lia|]. split; [constructor|]. destruct V0 as (V & B). eexists ad, _, []. cbn [deliveries filter length firstn concat record_stream]. change (Z.of_nat (deliveries [])) with 0. rewrite Z.add_0_r. split; [exact S0|]. split; [now rewrite app_nil_r|]. cbn. rewrite app_nil_r.
    apply (view_wn f _ rd tx [] (unread (c_sock ch n)) V B); [cbn; lia|reflexivity|reflexivity].
  - assert (receives ch1 c rd (record_stream cx t seq datas)) as Rv1.
    { destruct Rv as (missing & Em). destruct (run_longer _ _ _ _ _ _ Ru (sn_raw sn)) as (new & _ & El). exists (new ++ missing). now rewrite app_assoc, <- El. }
    destruct (IH Rv1) as (Lk & F & ad1 & b & w & S1 & Eg & W). clear IH Rv1. set (k := deliveries rs) in *. cbv zeta in *.
    pose proof S1 as (_ & _ & _ & _ & _ & Hh1 & _). rewrite (holds_readable _ _ Hh1) in Room.
    pose proof (wn_prefix f _ _ _ _ _ [] w W) as W0.
    assert (exists d later, bytes_ok d /\ zlen d <= room /\ ((skipn k datas = d :: later /\ record_stream cx t seq datas = record_stream cx t seq (firstn k datas) ++ protected_record cx t (seq + Z.of_nat k) 23 d ++ record_stream cx t (seq + Z.of_nat k + 1) later) \/
       (skipn k datas = [] /\ record_stream cx t seq datas = record_stream cx t seq (firstn k datas)))) as (d & later & B & L & Nx).
    { assert (record_stream cx t seq datas = record_stream cx t seq (firstn k datas) ++ record_stream cx t (seq + Z.of_nat k) (skipn k datas)) as Es.
      { rewrite <- (firstn_skipn k datas) at 1. rewrite stream_app. do 3 f_equal. unfold zlen. rewrite firstn_length. lia. }
      destruct (skipn k datas) as [|d later] eqn:Ek.
      - exists [], []. split; [constructor|]. split; [change (zlen (@nil Z)) with 0; lia|]. right. split; [reflexivity|]. rewrite Es. cbn [record_stream]. apply app_nil_r.
      - exists d, later. assert (In d datas) as Hin by (rewrite <- (firstn_skipn k datas), Ek; apply in_or_app; right; now left).
        split; [exact (proj1 (Forall_forall _ _) Bd d Hin)|]. split; [exact (proj1 (Forall_forall _ _) Ld d Hin)|]. left. split; [reflexivity|exact Es]. }
    set (rd1 := rd ++ record_stream cx t seq (firstn k datas)) in *.
    pose proof (stream_call cx f sn dbg CX c1 rng now ch1 fuel rd1 tx b t (seq + Z.of_nat k) ad1 (buffer_size c) d (record_stream cx t (seq + Z.of_nat k + 1) later) S1 ltac:(unfold zlen in Hend; lia) B ltac:(lia) ltac:(lia) W0 sch Hf Hn) as X.
    rewrite Ru in X.
    destruct Rv as (missing & Em).
    destruct Nx as [(Ek & Es)|(Ek & Es)].
    + destruct X as [(-> & -> & b' & w' & W')|(-> & S2 & b' & w' & W')].
      * exists missing. unfold rd1. rewrite <- app_assoc, <- Es. exact Em.
      * rewrite deliveries_app. fold k. replace (k + 0)%nat with k by lia. split; [exact Lk|]. split; [apply Forall_app; split; [exact F|constructor; [now left|constructor]]|]. exists ad1, b', w'. auto.
      * rewrite deliveries_app. fold k. assert (k + 1 <= length datas)%nat as Lk1. { assert (length (skipn k datas) <> 0)%nat by (rewrite Ek; discriminate). rewrite skipn_length in *. lia. }
        split; [exact Lk1|]. split; [apply Forall_app; split; [exact F|constructor; [now right|constructor]]|]. exists (ad1 ++ d), b', w'.
        replace (seq + Z.of_nat (k + 1)) with (seq + Z.of_nat k + 1) by lia. split; [exact S2|]. rewrite (firstn_snoc k datas d later Ek).
        split; [rewrite concat_app; cbn [concat]; rewrite app_nil_r, !app_assoc; f_equal; exact Eg|].
        rewrite stream_app. cbn [record_stream]. rewrite app_nil_r. replace (zlen (firstn k datas)) with (Z.of_nat k) by (unfold zlen; rewrite firstn_length; lia). rewrite app_assoc. exact W'.
    + assert (exists m2, s_rxlog (c_sock ch2 n) ++ m2 = rd1 ++ protected_record cx t (seq + Z.of_nat k) 23 d ++ record_stream cx t (seq + Z.of_nat k + 1) later) as X1.
      { exists (missing ++ protected_record cx t (seq + Z.of_nat k) 23 d ++ record_stream cx t (seq + Z.of_nat k + 1) later). rewrite Es in Em. fold rd1 in Em. rewrite app_assoc. f_equal. exact Em. }
      destruct (X X1) as [(-> & -> & b' & w' & W')|(-> & S2 & b' & w' & W')].
      * rewrite deliveries_app. fold k. replace (k + 0)%nat with k by lia. split; [exact Lk|]. split; [apply Forall_app; split; [exact F|constructor; [now left|constructor]]|]. exists ad1, b', w'. auto.
      * exfalso. destruct (wn_log _ _ _ _ _ _ _ W') as (rest & Lg). rewrite Es in Em. fold rd1 in Em. change (sn_raw sn) with n in Em. rewrite Lg, <- !app_assoc in Em. rewrite <- (app_nil_r rd1) in Em at 2. apply app_inv_head in Em. apply app_eq_nil in Em. destruct Em as (Em & _).
        unfold protected_record, sealed_record in Em. cbv zeta in Em. discriminate Em.
  - destruct (IH Rv) as (Lk & F & ad1 & b & w & S1 & Eg & W). cbv zeta in *. split; [exact Lk|]. split; [exact F|].
    destruct S1 as (Q1 & Q2 & Q3 & Q4 & Q5 & Hh1 & Q7). apply buffer_eq in Hh1. pose proof (reader_ok _ _ _ Hh1) as R. unfold tls_reader in Er. rewrite Er in R. destruct R as (_ & R).
    destruct (reads_some r ad1 0 k R Hk) as (r2 & E2 & R2). rewrite Rd in E2. injection E2 as -> <-. set (m := Z.min (zlen ad1 - 0) k) in *. rewrite zdrop_0 in *.
    pose proof (zlen_nonneg ad1) as N1. destruct R2 as (_ & Ep & _).
    exists (zdrop m ad1), b, w. split; [|split; [|exact W]].
    + split; [exact Q1|]. split; [exact Q2|]. split; [exact Q3|]. split; [exact Q4|]. split; [exact Q5|]. split; [|exact Q7].
      apply buffer_eq. apply (done_ok (tc_rx c1) ad1 [] r' m Hh1); [lia|lia].
    + rewrite <- app_assoc, ztake_zdrop. exact Eg.
Qed.
End History.

Theorem streamed cx dbg room c ch rd tx ad t seq datas rs got c' ch' : crypto_ok cx -> uses cx dbg room c ch rs got c' ch' ->
  reads_with c t seq -> tc_state c = TConnected -> tc_timeout c = None -> buffer_holds (tc_rx c) ad [] -> seq + zlen datas < 2 ^ 64 - 1 ->
  Forall bytes_ok datas -> Forall (fun d => zlen d <= room) datas -> 0 <= room <= buffer_size c - 39 ->
  tcp_view (c_sock ch (sn_raw (tc_sn c))) rd tx -> tx_bytes (c_sock ch (sn_raw (tc_sn c))) ->
  receives ch' c rd (record_stream cx t seq datas) ->
  Forall (fun r => r = Ok TNone \/ r = Ok TApplicationData) rs /\ (deliveries rs <= length datas)%nat /\
  got ++ readable c' = ad ++ concat (firstn (deliveries rs) datas) /\
  tcp_view (c_sock ch' (sn_raw (tc_sn c))) (rd ++ record_stream cx t seq (firstn (deliveries rs) datas)) tx /\
  tc_state c' = TConnected /\ reads_with c' t (seq + Z.of_nat (deliveries rs)) /\ tc_sn c' = tc_sn c /\ tx_bytes (c_sock ch' (sn_raw (tc_sn c))).
Proof.
  intros CX U R Hst Hto Hh He Bd Ld Hr V B Rv. pose proof R as (R1 & R2 & R3).
  destruct (uses_inv cx dbg room c ch rd tx ad t seq datas CX (conj eq_refl (conj Hst (conj Hto (conj R1 (conj R2 (conj Hh eq_refl)))))) ltac:(lia) He Bd Ld Hr (conj V B) rs got c' ch' U Rv) as (Lk & F & ad' & b & w & S1 & Eg & W).
  cbv zeta in *. destruct S1 as (Q1 & Q2 & Q3 & Q4 & Q5 & Hh1 & Q7). split; [exact F|]. split; [exact Lk|]. split; [rewrite (holds_readable _ _ Hh1); exact Eg|]. split; [exact (wn_view _ _ _ _ _ _ W)|].
  split; [exact Q2|]. split; [split; [exact Q4|]; split; [exact Q5|unfold zlen in He; lia]|]. split; [exact Q1|]. apply W.
Qed.

(** ** The example *)
From Verif Require Import Spec.Cases Spec.TlsCases Spec.TlsTalk Proof.TlsCaseP Proof.TlsTalkP.
Definition case_stream : list Z := Eval vm_compute in case_record case_server_secret 0 23 [104; 105] ++ case_record case_server_secret 1 23 [33].
Notation call c sch ch := (run (tls_process case_cx true 1 c talk_rng 111) sch ch).
Definition rest_arrives : list tick := [tick_of [EvRx (zdrop 10 case_stream)]].
Lemma case_calls :
  match call case_connected [] (case_conn (ztake 10 case_stream)) with
  | (Done (r1, c1), _, ch1) =>
      match call c1 rest_arrives ch1, tls_reader c1 with
      | (Done (r2, c2), _, ch2), None =>
          match tls_reader c2 with
          | Some rr =>
              match cr_read rr 1 with
              | TOk (d1, rr1) =>
                  let c3 := tc_set_rx c2 (b_reader_done (tc_rx c2) rr1) in
                  match call c3 [] ch2 with
                  | (Done (r3, c4), _, ch3) =>
                      match tls_reader c4 with
                      | Some rs =>
                          match cr_read rs 9 with
                          | TOk (d2, _) => r1 = Ok TNone /\ r2 = Ok TApplicationData /\ r3 = Ok TApplicationData /\ d1 = [104] /\ d2 = [105; 33] /\
                              seen_ir [] (case_conn (ztake 10 case_stream)) 3 = 0 /\ seen_ir rest_arrives ch1 3 = 0 /\ seen_ir [] ch2 3 = 0 /\
                              s_rxlog (c_sock ch3 3) = case_stream /\ zlen (readable c1) + 2 + 2 <= 1024 /\ zlen (readable c3) + 2 + 2 <= 1024
                          | _ => False
                          end
                      | None => False
                      end
                  | _ => False
                  end
              | _ => False
              end
          | None => False
          end
      | _, _ => False
      end
  | _ => False
  end.
Proof. vm_compute. repeat split; discriminate. Qed.
Lemma case_uses : exists c' ch', uses case_cx true 2 case_connected (case_conn (ztake 10 case_stream)) [Ok TNone; Ok TApplicationData; Ok TApplicationData] [104; 105; 33] c' ch' /\
  s_rxlog (c_sock ch' 3) = case_stream.
Proof.
  pose proof case_calls as H. assert (forall v, v = 0 -> no_link_change v) as NL by (intros v ->; split; [discriminate|split; discriminate]).
  destruct (call case_connected [] (case_conn (ztake 10 case_stream))) as [[[(r1, c1)| |] s1] ch1] eqn:E1; try contradiction.
  destruct (call c1 rest_arrives ch1) as [[[(r2, c2)| |] s2] ch2] eqn:E2; try contradiction. destruct (tls_reader c1) eqn:T1; try contradiction.
  destruct (tls_reader c2) as [rr|] eqn:T2; try contradiction. destruct (cr_read rr 1) as [(d1, rr1)| | |] eqn:D1; try contradiction. cbv zeta in H. set (c3 := tc_set_rx c2 (b_reader_done (tc_rx c2) rr1)) in *.
  destruct (call c3 [] ch2) as [[[(r3, c4)| |] s3] ch3] eqn:E3; try contradiction. destruct (tls_reader c4) as [rs|] eqn:T4; try contradiction. destruct (cr_read rs 9) as [(d2, rs1)| | |] eqn:D2; try contradiction.
  destruct H as (-> & -> & -> & -> & -> & I1 & I2 & I3 & L & R1 & R3). do 2 eexists. split; [|exact L].
  change [Ok TNone; Ok TApplicationData; Ok TApplicationData] with (([Ok TNone] ++ [Ok TApplicationData]) ++ [@Ok TError TEvent TApplicationData]). change [104; 105; 33] with ([104] ++ [105; 33]).
  eapply URead; [|exact T4| |exact D2]; [|lia].
  eapply UProcess with (5 := E3); [|exact R3|constructor|apply NL; exact I3].
  change [104] with ([] ++ [104]). eapply URead; [|exact T2| |exact D1]; [|lia].
  eapply UProcess with (5 := E2); [|exact R1|repeat constructor|apply NL; exact I2].
  change [Ok TNone] with ([] ++ [@Ok TError TEvent TNone]). eapply UProcess with (5 := E1); [apply UNil|vm_compute; discriminate|constructor|apply NL; exact I1].
Qed.

(** ** Nothing stays behind *)
Theorem all_delivered cx dbg room c ch rd tx ad t seq datas rs got c1 ch1 fuel rng now sch sch' c2 ch2 : crypto_ok cx -> uses cx dbg room c ch rs got c1 ch1 ->
  reads_with c t seq -> tc_state c = TConnected -> tc_timeout c = None -> buffer_holds (tc_rx c) ad [] -> seq + zlen datas < 2 ^ 64 - 1 ->
  Forall bytes_ok datas -> Forall (fun d => zlen d <= room) datas -> 0 <= room <= buffer_size c - 39 ->
  tcp_view (c_sock ch (sn_raw (tc_sn c))) rd tx -> tx_bytes (c_sock ch (sn_raw (tc_sn c))) ->
  s_rxlog (c_sock ch1 (sn_raw (tc_sn c))) = rd ++ record_stream cx t seq datas ->
  zlen (readable c1) + room + 2 <= buffer_size c -> no_faults sch -> no_link_change (seen_ir sch ch1 (sn_raw (tc_sn c))) ->
  run (tls_process cx dbg fuel c1 rng now) sch ch1 = (Done (Ok TNone, c2), sch', ch2) -> got ++ readable c1 = ad ++ concat datas.
Proof.
  intros CX U R Hst Hto Hh He Bd Ld Hr V B Lg Room Hf Hn Ru. pose proof R as (R1 & R2 & R3).
  destruct (uses_inv cx dbg room c ch rd tx ad t seq datas CX (conj eq_refl (conj Hst (conj Hto (conj R1 (conj R2 (conj Hh eq_refl)))))) ltac:(lia) He Bd Ld Hr (conj V B) rs got c1 ch1 U) as (Lk & F & ad' & b & w & S1 & Eg & W).
  { exists []. now rewrite app_nil_r. }
  cbv zeta in *. set (k := deliveries rs) in *. pose proof S1 as (Q1 & Q2 & Q3 & Q4 & Q5 & Hh1 & Q7). rewrite (holds_readable _ _ Hh1) in *. rewrite Eg. f_equal. f_equal.
  destruct (skipn k datas) as [|d later] eqn:Ek; [rewrite <- (firstn_skipn k datas) at 2; rewrite Ek; now rewrite app_nil_r|]. exfalso.
  assert (In d datas) as Hin by (rewrite <- (firstn_skipn k datas), Ek; apply in_or_app; right; now left).
  pose proof (proj1 (Forall_forall _ _) Bd d Hin) as Bdd. pose proof (proj1 (Forall_forall _ _) Ld d Hin) as Ldd.
  pose proof (wn_view _ _ _ _ _ _ W) as V1. assert (tx_bytes (c_sock ch1 (sn_raw (tc_sn c)))) as B1 by apply W.
  pose proof (view_log _ _ _ V1) as L1.
  assert (unread (c_sock ch1 (sn_raw (tc_sn c))) = protected_record cx t (seq + Z.of_nat k) 23 d ++ record_stream cx t (seq + Z.of_nat k + 1) later) as U1.
  { change (snz (tc_sn c)) with (sn_raw (tc_sn c)) in *. rewrite Lg in L1. rewrite <- (firstn_skipn k datas), Ek, stream_app in L1 at 1. rewrite <- app_assoc in L1. apply app_inv_head in L1. apply app_inv_head in L1.
    replace (zlen (firstn k datas)) with (Z.of_nat k) in L1 by (unfold zlen; rewrite firstn_length; lia). cbn [record_stream] in L1. now rewrite <- L1. }
  destruct (TlsRx5P.delivered cx dbg fuel c1 rng now ch1 (rd ++ record_stream cx t seq (firstn k datas)) tx ad' CX t (seq + Z.of_nat k) d) with (sch := sch) as (x & sx & cx' & Rx & c3 & -> & _); auto.
  - split; [exact Q4|]. split; [exact Q5|]. unfold zlen in He. lia.
  - unfold buffer_size in *. rewrite Q7. lia.
  - unfold buffer_size in *. rewrite Q7. lia.
  - unfold arrived. cbv zeta. rewrite Q1. split; [exact V1|]. split; [exact B1|]. eexists. exact U1.
  - now rewrite Q1.
  - rewrite Ru in Rx. discriminate.
Qed.
