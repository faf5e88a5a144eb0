(** A handshake whose answers arrive in pieces. *)
From Coq Require Import String.
From Verif Require Import Model.Prelude Model.Bus Model.Chip Model.Specifiers Model.LlBits Model.Ll Model.LlAddr Model.HlIo Model.HlCommon Model.HlTcp Model.Stream Model.Gcm
  Spec.Hoare Spec.Sock Spec.Cursor Spec.TcpClient Spec.Gcm38D Spec.Fips197 Spec.TlsSecrets Spec.TlsMessages Spec.TlsProtect.
From Verif Require Import Proof.MqttRxP Proof.Base Proof.RingP Proof.ChipP Proof.SockP Proof.StreamP Proof.TcpP Proof.Ghash3P Proof.GcmP Proof.TlsTxP Proof.TlsBufP Proof.TlsHelloP Proof.TlsSendP Proof.TlsWireP Proof.ChipIfP Proof.TlsRxP Proof.TlsRx2P Proof.TlsRx3P Proof.TlsRx4P Proof.TlsRx5P Proof.MqttStuckP Proof.TlsParseP Proof.TlsHsP Proof.TlsStreamP Proof.TlsCompleteP.
From Verif Require Import Spec.MqttMsg Spec.TlsQuiet.
From Verif Require Import Model.TlsTypes Model.TlsBuf Model.TlsKeys Model.TlsHello Model.TlsRecord Model.TlsClient Spec.TlsQueue Spec.TlsSession Spec.TlsWire Spec.TlsAuth Spec.TlsRx Spec.TlsStream Spec.TlsComplete Spec.TlsArrive.
Ltac Zify.zify_post_hook ::= idtac.
Local Open Scope list_scope.

Section Call.
Context (cx : Crypto) (f : Z * Z) (sn : Sn) (dbg : bool).
Hypothesis CX : crypto_ok cx.
Let n := snz sn.
Notation wn := (TlsRxP.wn f).

(** The start of [process]. *)
Lemma process_from c rng now ch rd tx b w (Q : res TError TEvent * TlsClient -> chip -> Prop) fuel : tc_sn c = sn -> listens c -> wn (c_sock ch n) rd tx b b w ->
  (forall ch1, wn (c_sock ch1 n) rd tx b b w -> wpc True (process_rx cx dbg c now) ch1 Q) ->
  forall sch, no_faults sch -> no_link_change (seen_ir sch ch n) ->
  match run (tls_process cx dbg fuel c rng now) sch ch with (Done a, _, ch') => Q a ch' | _ => True end.
Proof.
  intros Hsn Hl H K sch Hs HP. unfold tls_process, sn_ir, bindM, read. cbn [bind]. rewrite Hsn, sn_block_eq.
  apply wpc_first with (P := no_link_change); [reflexivity| |exact Hs|exact HP]. intros ch1 E1 HP1. cbn [bind ret]. change (byte0 [s_ir (c_sock ch1 (snz sn))]) with (s_ir (c_sock ch1 (snz sn))). set (ir := s_ir (c_sock ch1 (snz sn))) in *.
  pose proof (wn_env f _ _ _ _ _ _ _ H E1) as W1.
  destruct (link_bits ir) as (B1 & B2 & B3). destruct HP1 as (L0 & L1 & L3). unfold ir_bit in *.
  assert (forall ch2, wn (c_sock ch2 n) rd tx b b w -> wpc True (process_state cx dbg fuel c now) ch2 Q) as K2.
  { intros ch2 Hw. unfold process_state. unfold listens in Hl. destruct (tc_state c); try contradiction; now apply K. }
  destruct (SocketInterrupt_any_raised ir); [|now apply K2].
  unfold or_alert. apply wpc_bind.
  apply (wpc_wn sn _ _ (fun x s' => x = (Ok tt, c) /\ wn s' rd tx b b w)).
  - apply wps_aio. cbn [wps set_sn_ir write bind]. rewrite sn_block_eq. exists 1. split; [lia|]. split; [reflexivity|]. intros s2 E2. cbn [wps ret]. split; [reflexivity|]. exact (wn_env f _ _ _ _ _ _ _ W1 E2).
  - intros x ch2 (-> & W2). cbn iota beta. rewrite B2. destruct (Z.testbit ir 0); [contradiction|]. unfold process_interrupts. rewrite B1, B3. destruct (Z.testbit ir 1); [contradiction|]. destruct (Z.testbit ir 3); [contradiction|].
    assert (tstate_eqb (tc_state c) TWaitAlertSendOk = false) as -> by (unfold listens in Hl; destruct (tc_state c); reflexivity || contradiction). rewrite andb_false_r. now apply K2.
Qed.

(** One call, while one record after the other arrives. *)
Lemma record_call c rng now ch fuel rd tx b w h body later (Q : res TError TEvent * TlsClient -> sock -> Prop) : tc_sn c = sn -> listens c -> tc_state c <> TSendFinished -> in_time c now ->
  zlen h = 5 -> content_type_try_from (at_ h 0) <> None -> rh_length h = zlen body -> zlen body <= RECORD_SIZE_LIMIT c -> wn (c_sock ch n) rd tx b b w ->
  (forall s1 b1 more, wn s1 (rd ++ h) tx b1 b1 (body ++ more) -> wps (after_header cx dbg c h now) n s1 False (fun x s' => wps (after_recv cx x now) n s' False Q)) ->
  forall sch, no_faults sch -> no_link_change (seen_ir sch ch n) ->
  match run (tls_process cx dbg fuel c rng now) sch ch with
  | (Done (r, c'), _, ch') => (exists missing, s_rxlog (c_sock ch' n) ++ missing = rd ++ (h ++ body) ++ later) ->
      (goes_on r /\ c' = c /\ zlen w < zlen (h ++ body) /\ exists b' w', wn (c_sock ch' n) rd tx b' b' w') \/ Q (r, c') (c_sock ch' n)
  | _ => True
  end.
Proof.
  intros Hsn Hl Hst Ht Lh Hct Hlen Lim W K.
  set (QQ := fun (x : res TError TEvent * TlsClient) (ch' : chip) => (exists missing, s_rxlog (c_sock ch' n) ++ missing = rd ++ (h ++ body) ++ later) ->
      (goes_on (fst x) /\ snd x = c /\ zlen w < zlen (h ++ body) /\ exists b' w', wn (c_sock ch' n) rd tx b' b' w') \/ Q x (c_sock ch' n)).
  intros sch Hf HP.
  assert (match run (tls_process cx dbg fuel c rng now) sch ch with (Done a, _, ch') => QQ a ch' | _ => True end) as G.
  2:{ destruct (run (tls_process cx dbg fuel c rng now) sch ch) as [[[(r, c')| |] sch'] ch']; auto. }
  apply (process_from c rng now ch rd tx b w QQ fuel Hsn Hl W); [|exact Hf|exact HP]. clear sch Hf HP. intros ch1 W1.
  unfold process_rx. rewrite (listen_rx c Hl), Hsn. unfold or_alert at 1. apply wpc_bind.
  assert (zlen (h ++ body) = 5 + zlen body) as Lr by (rewrite zlen_app; lia). pose proof (zlen_nonneg body) as N0.
  assert (forall ch' w', zlen w < 5 + zlen body -> wn (c_sock ch' n) rd tx b b w' -> wpc True (after_recv cx (Ok None, c) now) ch' QQ) as Wait.
  { intros ch' w' Lw W'. cbn [after_recv]. assert (tstate_eqb (tc_state c) TSendFinished = false) as -> by (destruct (tc_state c); reflexivity || contradiction). unfold check_timeout, in_time in *.
    destruct (tc_timeout c) as [to|].
    - destruct (Z.ltb_spec now to) as [|_]; [lia|]. unfold T_TIMEOUT_SECS. destruct (Z.ltb_spec 10 (now - to)) as [|_]; [lia|]. apply wpc_ret. intros _. left. cbn [fst snd]. split; [right; exists (10 - (now - to)); split; [reflexivity|lia]|]. split; [reflexivity|]. split; [lia|]. eauto.
    - apply wpc_ret. intros _. left. cbn [fst snd]. split; [left; reflexivity|]. split; [reflexivity|]. split; [lia|]. eauto. }
  apply (wpc_wn sn _ _ (fun x s' => x = (Ok (zlen (unread s')), c) /\ wn s' rd tx b b (unread s') /\ exists more, unread s' = w ++ more)).
  { apply wps_aio, wps_rx_rsr. intros s2 E2. cbn [wps]. pose proof (wn_env f _ _ _ _ _ _ _ W1 E2) as W2. split; [now rewrite (unread_len sn s2)|]. split; [exact (wn_whole f _ _ _ _ _ _ W2)|]. destruct W2 as (_ & _ & _ & X). exact X. }
  intros x ch2 (-> & W2 & mw & Ew). fold n in W2, Ew |- *. cbn iota beta. apply wpc_bind. change RH_LEN with 5. assert (zlen w <= zlen (unread (c_sock ch2 n))) as Lwu by (rewrite Ew, zlen_app; pose proof (zlen_nonneg mw); lia).
  destruct (Z.leb_spec 5 (zlen (unread (c_sock ch2 n)))) as [L5|]; [|apply wpc_ret; apply (Wait _ _ ltac:(lia) W2)].
  set (u := unread (c_sock ch2 n)) in *. rewrite tls_recv_eq. unfold or_alert. apply wpc_bind.
  eapply (wpc_wn sn); [apply (header_wn f sn dbg True c (c_sock ch2 n) rd tx b u Hsn W2 L5)|]. cbv zeta. intros x ch3 (ext & X). fold n in X.
  set (WW := u ++ ext) in *.
  assert (exists rest, s_rxlog (c_sock ch3 n) = rd ++ WW ++ rest) as (rest3 & L3).
  { destruct (content_type_try_from (at_ (ztake 5 u) 0)); [|destruct X as (_ & X); exact (wn_log _ _ _ _ _ _ _ X)].
    destruct (_ <? _); [destruct X as (_ & X); exact (wn_log _ _ _ _ _ _ _ X)|]. destruct (_ <? _); [destruct X as (_ & X); exact (wn_log _ _ _ _ _ _ _ X)|].
    destruct X as (_ & b' & X). destruct (wn_log _ _ _ _ _ _ _ X) as (rest & ->). exists rest. rewrite <- app_assoc. f_equal. rewrite app_assoc. f_equal.
    rewrite <- (ztake_zdrop 5 WW) at 2. f_equal. unfold WW. rewrite ztake_app_l by lia. reflexivity. }
  destruct (list_eq_dec Z.eq_dec (ztake (zlen WW) ((h ++ body) ++ later)) WW) as [Pf|Np].
  2:{ apply wpc_longer. intros (r4, c4) ch4 Lg4. cbn iota beta. apply wpc_longer. intros a ch5 Lg5. destruct (chip_longer_trans _ _ _ Lg4 Lg5 n) as (new & _ & Lg'). intros (missing & Em). exfalso. apply Np.
      rewrite Lg', L3, <- !app_assoc in Em. apply app_inv_head in Em. rewrite <- app_assoc, <- Em. apply ztake_exact. }
  assert (ztake 5 u = h) as Eh.
  { assert (ztake 5 WW = ztake 5 u) as <- by (unfold WW; now rewrite ztake_app_l by lia). rewrite <- Pf. assert (5 <= zlen WW) as L5' by (unfold WW; rewrite zlen_app; pose proof (zlen_nonneg ext); lia).
    rewrite ztake_ztake. replace (Z.min 5 (zlen WW)) with 5 by lia. rewrite <- app_assoc, <- Lh. apply ztake_exact. }
  rewrite Eh in X. destruct (content_type_try_from (at_ h 0)); [|contradiction]. rewrite Hlen in X.
  destruct (Z.ltb_spec (RECORD_SIZE_LIMIT c) (zlen body)) as [Big|_]; [lia|].
  destruct (Z.ltb_spec (zlen WW) (zlen body + 5)) as [Sh|Wh].
  { destruct X as (-> & W3). apply wpc_ret. apply (fun L => Wait _ _ L W3). unfold WW in Sh. rewrite zlen_app in Sh. pose proof (zlen_nonneg ext). lia. }
  destruct X as (-> & b3 & W3).
  assert (exists more, WW = (h ++ body) ++ more) as (more & EW).
  { exists (ztake (zlen WW - zlen (h ++ body)) later). rewrite <- Pf at 1. rewrite ztake_app_r by lia. reflexivity. }
  assert (zdrop 5 WW = body ++ more) as Ed by (rewrite EW, <- app_assoc, <- Lh; apply zdrop_exact). rewrite Ed in W3.
  cbn iota beta. pose proof (K _ _ _ W3) as K3.
  apply (wpc_mono True (after_header cx dbg c h now) ch3 (fun x ch' => wpc True (after_recv cx x now) ch' QQ)).
  - eapply (wpc_wn sn); [eapply wps_mono; [| |exact K3]; [intros []|intros a s' X; exact X]|]. intros a ch4 X. cbv beta in X.
    eapply (wpc_wn sn); [eapply wps_mono; [| |exact X]; [intros []|intros a' s' Y; exact Y]|]. intros a' ch5 Y _. right. exact Y.
  - intros (r4, c4) ch4 X. exact X.
Qed.
(** *** A message in a record without protection *)
Lemma plain_after c now rd tx s3 b3 more ty body ks1 st : let m := hs_message ty body in let h := record_header 22 [3; 3] (zlen m) in
  tc_sn c = sn -> listens c -> unused c -> zlen m <= buffer_size c - 22 -> st <> TSendFinished -> wn s3 (rd ++ h) tx b3 b3 (m ++ more) ->
  (forall rx0 a b rx, a ++ b = body -> recv_message cx (tc_set_rx (tc_set_rx c rx0) rx) (ztake 4 m) (cr_new a b) (ks_transcript (tc_ks c) ++ m) now = TOk (Ok tt, tc_set_st (tc_set_ks (tc_set_rx c rx) ks1) st (Some now))) ->
  wps (after_header cx dbg c h now) n s3 False (fun y s5 => wps (after_recv cx y now) n s5 False (fun x s' => exists rx, x = (Ok (TCallAfter 10), tc_set_st (tc_set_ks (tc_set_rx c rx) (ks_set_transcript ks1 (ks_transcript (tc_ks c) ++ m))) st (Some now)) /\
    pending 0 rx [] /\ b_N rx = b_N (tc_rx c) /\ exists b' w', wn s' (rd ++ h ++ m) tx b' b' w')).
Proof.
  intros m h Hsn Hl U Lm Hst W3 K. destruct (unused_pending c U) as (P & N). unfold buffer_size in *. fold (b_N (tc_rx c)) in *. pose proof (zlen_message ty body) as Lmb. fold m in Lmb. pose proof (zlen_nonneg body) as N0.
  destruct (header_parts 22 [3; 3] (zlen m) eq_refl ltac:(unfold is_u8; lia) ltac:(repeat constructor; unfold is_u8; lia) ltac:(lia)) as (Lh & Bh & Ct & Hlen). fold h in Lh, Bh, Ct, Hlen.
  unfold after_header, or_alert. cbv zeta. apply wps_bind.
  assert (wps (recv_body cx dbg c h) n s3 False (fun x s4 => exists rx, x = (Ok 22, tc_set_rx c rx) /\ holds rx ([], m) /\ b_N rx = b_N (tc_rx c) /\ exists b4 w4, wn s4 (rd ++ h ++ m) tx b4 b4 w4)) as G.
  { unfold recv_body, rh_content_type. rewrite Ct. change (22 =? ApplicationData) with false. cbn iota. apply wps_bind.
    eapply wps_mono; [| |apply (plain_wn f sn dbg False c s3 (rd ++ h) tx b3 m more [] [] h Hsn W3)]; [auto| |lia|exact (proj1 P)|change (zlen (@nil Z)) with 0; lia|subst m; discriminate].
    intros x s4 ((b4 & w4 & W4) & rx & -> & Q1 & Q2). cbn [wps]. exists rx. split; [reflexivity|]. split; [exact Q1|]. split; [exact Q2|]. exists b4, w4. rewrite app_assoc. exact W4. }
  eapply wps_mono; [| |exact (wps_lfa _ _ _ _ (kept_body cx dbg c h) _ _ G)]; [auto|].
  intros x s4 (Kp & rx & -> & Q1 & Q2 & b4 & w4 & W4). cbn [snd tc_rx tc_set_rx] in Kp. cbn iota beta. change (22 =? ApplicationData) with false. cbn iota.
  rewrite (no_fragment _ [] (proj1 P)). cbn [andb]. change (22 =? CtAlert) with false. cbn iota. unfold recv_content. change (22 =? ChangeCipherSpec) with false. change (22 =? CtHandshake) with true. cbn iota.
  cbn [tc_rx tc_set_rx]. change (tc_set_rx (tc_set_rx c rx) rx) with (tc_set_rx c rx).
  destruct (one_message cx sn (tc_set_rx c rx) now ty body ks1 st (pending_kept _ _ _ P Kp Q1) ltac:(lia) ltac:(cbn [tc_rx tc_set_rx]; lia) (K rx)) as (rx' & P' & N' & E). cbn [tc_rx tc_set_rx] in E, N'. rewrite E. cbn [bind wps].
  unfold rh_content_type. rewrite Ct. change (22 =? ApplicationData) with false. cbn iota. cbn [wps after_recv]. cbn [tc_state tc_set_st].
  assert (tstate_eqb st TSendFinished = false) as -> by (destruct st; reflexivity || contradiction). unfold check_timeout. cbn [tc_timeout tc_set_st]. destruct (Z.ltb_spec now now) as [|_]; [lia|]. unfold T_TIMEOUT_SECS. replace (now - now) with 0 by lia. change (10 <? 0) with false. cbn iota. cbn [wps].
  exists rx'. split; [reflexivity|]. split; [exact P'|]. split; [congruence|]. exists b4, w4. exact W4.
Qed.

(** *** A message in a protected record *)
Lemma protected_after c now rd tx s1 b1 more t seq h body ty mb ks1 st Q : let m := hs_message ty mb in
  tc_sn c = sn -> reads_with c t seq -> at_ h 0 = 23 -> zlen h = 5 -> bytes_ok h -> rh_length h = zlen body -> zlen body = zlen m + 17 -> bytes_ok body -> zlen m <= buffer_size c - 39 ->
  listens c -> unused c -> ks_read_seq ks1 = seq -> wn s1 (rd ++ h) tx b1 b1 (body ++ more) -> opens cx t seq (h ++ body) = Some (m ++ [22]) ->
  (forall rx0 a b rx, a ++ b = mb -> recv_message cx (tc_set_rx (tc_set_rx c rx0) rx) (ztake 4 m) (cr_new a b) (ks_transcript (tc_ks c) ++ m) now = TOk (Ok tt, tc_set_st (tc_set_ks (tc_set_rx c rx) ks1) st (Some now))) ->
  (forall rx s2 b2 w2, pending 0 rx [] -> b_N rx = b_N (tc_rx c) -> wn s2 (rd ++ h ++ body) tx b2 b2 w2 ->
    wps (after_recv cx (Ok None, tc_set_st (tc_set_ks (tc_set_rx c rx) (ks_set_seqs (ks_set_transcript ks1 (ks_transcript (tc_ks c) ++ m)) (seq + 1) (ks_write_seq ks1))) st (Some now)) now) n s2 False Q) ->
  wps (after_header cx dbg c h now) n s1 False (fun x s' => wps (after_recv cx x now) n s' False Q).
Proof.
  intros m Hsn R Ct Lh Bh Hlen Lb Bb Lm Hl U Eseq W1 Ho K KQ. destruct (unused_pending c U) as (P & N). pose proof (zlen_message ty mb) as Lmb. fold m in Lmb. pose proof (zlen_nonneg mb) as N0.
  assert (buffer_holds (tc_rx c) [] []) as Hh by (apply buffer_eq; exact (proj1 P)). assert (buffer_size c = b_N (tc_rx c)) as EN by reflexivity.
  unfold after_header, or_alert. cbv zeta. apply wps_bind.
  eapply wps_mono; [| |apply (wps_lfa _ _ _ _ (kept_body cx dbg c h)); exact (protected_body cx f sn dbg CX c t seq h body [] [] rd tx Hsn R Ct Lh Bh Hlen ltac:(lia) Bb Hh ltac:(change (zlen (@nil Z)) with 0; lia) s1 b1 more W1)]; [auto|].
  rewrite Ho. intros x s2 (Kp & (b' & w' & W2) & pl & rx & Q1 & Q2 & Lp & y & E & ->). apply app_inj_tail in E. destruct E as (<- & <-). change (content_type_try_from 22) with (Some 22). cbn [snd tc_rx tc_set_rx app] in Kp, Q1. cbn iota beta. change (22 =? ApplicationData) with false. cbn iota.
  rewrite (no_fragment _ [] (proj1 P)). cbn [andb]. change (22 =? CtAlert) with false. cbn iota. unfold recv_content. change (22 =? ChangeCipherSpec) with false. change (22 =? CtHandshake) with true. cbn iota.
  cbn [tc_rx tc_set_rx]. change (tc_set_rx (tc_set_rx c rx) rx) with (tc_set_rx c rx).
  destruct (one_message cx sn (tc_set_rx c rx) now ty mb ks1 st (pending_kept _ _ _ P Kp Q1) ltac:(lia) ltac:(cbn [tc_rx tc_set_rx]; lia) (K rx)) as (rx' & P' & N' & E). cbn [tc_rx tc_set_rx] in E, N'. rewrite E. cbn [bind wps].
  unfold rh_content_type. rewrite Ct. change (23 =? ApplicationData) with true. cbn iota. destruct R as (_ & _ & R3). unfold increment_read, U64_MAX. cbn [tc_ks tc_set_ks tc_set_st ks_set_transcript ks_read_seq ks_write_seq]. rewrite Eseq. destruct (Z.eqb_spec seq 18446744073709551615) as [|_]; [lia|]. cbn [wps].
  exact (KQ rx' s2 b' w' P' ltac:(congruence) W2).
Qed.
End Call.

(** ** The messages of the server *)
Section Main.
Context (cx : Crypto) (dbg : bool) (f : Z * Z) (sn : Sn) (fuel : nat) (c : TlsClient) (rng : Rng) (now : Z) (ch : chip) (rd tx later : list Z) (b : Z) (w : list Z).
Hypothesis CX : crypto_ok cx.
Hypotheses (Hsn : tc_sn c = sn) (Ht : in_time c now) (W : wn f (c_sock ch (snz sn)) rd tx b b w).
Notation wn := (TlsRxP.wn f).
(** What the call does with the next [record]. *)
Definition answers (record : list Z) (Q : res TError TEvent * TlsClient -> sock -> Prop) : Prop :=
  forall sch, no_faults sch -> no_link_change (seen_ir sch ch (snz sn)) ->
  match run (tls_process cx dbg fuel c rng now) sch ch with
  | (Done (r, c'), _, ch') => (exists missing, s_rxlog (c_sock ch' (snz sn)) ++ missing = rd ++ record ++ later) ->
      (goes_on r /\ c' = c /\ zlen w < zlen record /\ exists b' w', wn (c_sock ch' (snz sn)) rd tx b' b' w') \/ Q (r, c') (c_sock ch' (snz sn))
  | _ => True
  end.
Lemma answers_record h body Q : listens c -> tc_state c <> TSendFinished -> zlen h = 5 -> content_type_try_from (at_ h 0) <> None -> rh_length h = zlen body -> zlen body <= RECORD_SIZE_LIMIT c ->
  (forall s1 b1 more, wn s1 (rd ++ h) tx b1 b1 (body ++ more) -> wps (after_header cx dbg c h now) (snz sn) s1 False (fun x s' => wps (after_recv cx x now) (snz sn) s' False Q)) -> answers (h ++ body) Q.
Proof. intros H1 H2 H3 H4 H5 H6 K. exact (record_call cx f sn dbg c rng now ch fuel rd tx b w h body later Q Hsn H1 H2 Ht H3 H4 H5 H6 W K). Qed.
Notation same_self := (TlsCompleteP.same_self c).
Notation finished := (TlsComplete.finished cx).
Theorem hello_call dhs t0 body share key : greeted cx c dhs t0 -> server_hello body share -> cx_sec1 cx share = Some key -> bytes_ok body -> zlen (hs_message 2 body) <= RECORD_SIZE_LIMIT c ->
  answers (plaintext_record 22 (hs_message 2 body)) (fun x s' => exists c', x = (Ok (TCallAfter 10), c') /\ tc_state c' = TWaitEncryptedExtensions /\ same_client c c' /\
    agreed cx c' (cx_dh cx dhs key) (t0 ++ hs_message 2 body) (t0 ++ hs_message 2 body) 0 /\ exists b' w', wn s' (rd ++ plaintext_record 22 (hs_message 2 body)) tx b' b' w').
Proof.
  intros (Hst & S1 & S2 & S3 & U) Hsh Hk Bb Lim. destruct (unused_pending c U) as (P & N). pose proof (zlen_message 2 body) as Lmb. pose proof (zlen_nonneg body) as N0.
  set (m := hs_message 2 body) in *. set (dhe := cx_dh cx dhs key). set (hash := t0 ++ m).
  unfold RECORD_SIZE_LIMIT in Lim. change GCM_TAG_LEN with 16 in Lim. change RH_LEN with 5 in Lim.
  change (plaintext_record 22 m) with (record_header 22 [3; 3] (zlen m) ++ m) in *.
  set (ks0 := ks_set_transcript (set_server_public_key (tc_ks c) key) hash).
  set (ks1 := initialize_secrets cx ks0 dhe (ascii_bytes "c hs traffic") (ascii_bytes "s hs traffic")).
  destruct (header_parts 22 [3; 3] (zlen m) eq_refl ltac:(unfold is_u8; lia) ltac:(repeat constructor; unfold is_u8; lia) ltac:(lia)) as (Lh & Bh & Ct & Hlen).
  apply (answers_record (record_header 22 [3; 3] (zlen m)) m); [unfold listens; now rewrite Hst|rewrite Hst; discriminate|exact Lh|rewrite Ct; discriminate|exact Hlen|unfold RECORD_SIZE_LIMIT; change GCM_TAG_LEN with 16; change RH_LEN with 5; lia|].
  intros s1 b1 more W1. eapply wps_mono; [| |apply (plain_after cx f sn dbg c now rd tx s1 b1 more 2 body ks1 TWaitEncryptedExtensions Hsn ltac:(unfold listens; now rewrite Hst) U ltac:(unfold buffer_size; unfold b_N in *; fold m; lia) ltac:(discriminate) W1)]; [auto| |].
  2:{ intros rx0 a b0 rx Eab. unfold recv_message, hh_msg_type. rewrite type_of. change (handshake_type_try_from 2) with (Some ServerHello). change (ServerHello =? ServerHello) with true. cbn iota. cbn [tc_state tc_set_rx]. rewrite Hst. cbn [tstate_eqb negb].
    rewrite (server_hello_complete cx a b0 share key) by (rewrite ?Eab; auto; lia). cbn [h_try]. cbn [tc_ks tc_set_rx]. rewrite S2. fold m. fold hash. fold ks0. unfold initialize_handshake_secret, shared_secret. cbn [ks_client_secret ks_server_public ks0 ks_set_transcript set_server_public_key]. rewrite S1. cbn [h_try]. reflexivity. }
  intros y s5 X. eapply wps_mono; [| |exact X]; [auto|]. intros x s' (rx & -> & P' & N' & V).
  eexists. split; [reflexivity|]. split; [reflexivity|]. split; [apply same_self; try reflexivity; exact N'|]. split; [|exact V].
  cbn [tc_psk tc_ks tc_set_st tc_set_ks tc_set_rx tc_rx]. unfold agreed. cbn [tc_psk tc_ks tc_set_st tc_set_ks tc_set_rx tc_rx]. fold m. rewrite S2. fold hash.
  unfold ks1, initialize_secrets. cbn [ks_transcript ks_secret ks_client_traffic ks_server_traffic ks_set_transcript ks_read_seq ks_write_seq].
  change (ks_secret ks0) with (ks_secret (tc_ks c)). rewrite S3. change (cx_extract cx (derive cx (early_secret cx (tc_psk c)) "derived" []) dhe) with (handshake_secret cx (tc_psk c) dhe). change (transcript_hash_bytes cx ks0) with (cx_sha256 cx hash).
  split; [exact (f_equal Some (derive_eq cx (handshake_secret cx (tc_psk c) dhe) _ hash))|]. split; [exact (f_equal Some (derive_eq cx (handshake_secret cx (tc_psk c) dhe) _ hash))|]. split; [reflexivity|]. split; [exact (derive_empty cx (handshake_secret cx (tc_psk c) dhe) "derived" CX)|].
  split; [reflexivity|]. split; [reflexivity|]. unfold unused, buffer_size. exact (pending_unused c rx P' N' N).
Qed.

Theorem extensions_call dhe t1 body : agreed cx c dhe t1 t1 0 -> tc_state c = TWaitEncryptedExtensions -> encrypted_extensions body -> bytes_ok body -> zlen (hs_message 8 body ++ [22]) <= RECORD_SIZE_LIMIT c - 16 ->
  answers (protected_record cx (server_hs cx (tc_psk c) dhe t1) 0 22 (hs_message 8 body)) (fun x s' => exists c', x = (Ok (TCallAfter 10), c') /\ tc_state c' = TWaitFinished /\ same_client c c' /\
    agreed cx c' dhe t1 (t1 ++ hs_message 8 body) 1 /\ exists b' w', wn s' (rd ++ protected_record cx (server_hs cx (tc_psk c) dhe t1) 0 22 (hs_message 8 body)) tx b' b' w').
Proof.
  intros (S1 & S2 & S3 & S4 & S5 & S6 & U) Hst He Bb Lim. destruct (unused_pending c U) as (P & N). pose proof (zlen_message 8 body) as Lmb. pose proof (zlen_nonneg body) as N0.
  set (m := hs_message 8 body) in *. set (t := server_hs cx (tc_psk c) dhe t1) in *.
  unfold RECORD_SIZE_LIMIT in Lim. change GCM_TAG_LEN with 16 in Lim. change RH_LEN with 5 in Lim. rewrite zlen_app in Lim. change (zlen [22]) with 1 in Lim.
  assert (bytes_ok m) as Bm. { unfold m, hs_message. constructor; [unfold is_u8; lia|]. apply Forall_app. split; [|exact Bb]. unfold be32. cbn. repeat constructor; apply Z.mod_pos_bound; lia. }
  assert (reads_with c t 0) as R by (split; [exact S2|]; split; [exact S5|lia]).
  destruct (record_split cx t 0 22 m CX ltac:(lia) Bm ltac:(unfold is_u8; lia) ltac:(lia)) as (rb & E & Lb & Bbd & Lh & Bh & Hlen).
  destruct (record_parts cx t 0 22 m CX ltac:(lia) Bm ltac:(unfold is_u8; lia) ltac:(lia)) as (_ & Ho).
  rewrite E in *.
  apply (answers_record (record_aad (zlen m)) rb); [unfold listens; now rewrite Hst|rewrite Hst; discriminate|exact Lh|discriminate|lia|unfold RECORD_SIZE_LIMIT; change GCM_TAG_LEN with 16; change RH_LEN with 5; lia|].
  intros s1 b1 more W1. apply (protected_after cx f sn dbg CX c now rd tx s1 b1 more t 0 (record_aad (zlen m)) rb 8 body (tc_ks c) TWaitFinished); auto.
  - lia.
  - unfold buffer_size, b_N in *. fold m. lia.
  - unfold listens. now rewrite Hst.
  - intros rx0 a b0 rx Eab. unfold recv_message, hh_msg_type. rewrite type_of. change (handshake_type_try_from 8) with (Some EncryptedExtensions). change (EncryptedExtensions =? ServerHello) with false. change (EncryptedExtensions =? NewSessionTicket) with false. change (EncryptedExtensions =? EncryptedExtensions) with true. cbn iota.
    cbn [tc_state tc_set_rx]. rewrite Hst. cbn [tstate_eqb negb]. rewrite (extensions_complete a b0) by (rewrite ?Eab; auto; lia). cbn [h_try]. reflexivity.
  - intros rx s2 b2 w2 P' N' W2. cbn [after_recv]. cbn [tc_state tc_set_st tstate_eqb]. unfold check_timeout. cbn [tc_timeout tc_set_st]. destruct (Z.ltb_spec now now) as [|_]; [lia|]. unfold T_TIMEOUT_SECS. replace (now - now) with 0 by lia. change (10 <? 0) with false. cbn iota. cbn [wps].
    eexists. split; [reflexivity|]. split; [reflexivity|]. split; [apply same_self; try reflexivity; exact N'|]. split; [|exists b2, w2; exact W2].
    unfold agreed. cbn [tc_psk tc_ks tc_set_st tc_set_ks tc_set_rx tc_rx ks_client_traffic ks_server_traffic ks_transcript ks_set_seqs ks_set_transcript ks_secret ks_read_seq ks_write_seq]. fold m. rewrite S3.
    split; [exact S1|]. split; [exact S2|]. split; [reflexivity|]. split; [exact S4|]. split; [reflexivity|]. split; [exact S6|]. unfold unused, buffer_size. exact (pending_unused c rx P' N' N).
Qed.

Theorem finished_call dhe t1 t2 : agreed cx c dhe t1 t2 1 -> tc_state c = TWaitFinished -> 58 <= fst f ->
  let sh := server_hs cx (tc_psk c) dhe t1 in let chs := client_hs cx (tc_psk c) dhe t1 in let t3 := t2 ++ finished sh t2 in
  answers (protected_record cx sh 1 22 (finished sh t2)) (fun x s' => exists c', x = (Ok THandshakeFinished, c') /\ same_client c c' /\ secured cx c' dhe t3 /\
    tcp_view s' (rd ++ protected_record cx sh 1 22 (finished sh t2)) (tx ++ protected_record cx chs 0 22 (finished chs t3)) /\ tx_bytes s' /\ tc_timeout c' = None /\ fst f - 58 <= free_space s').
Proof.
  intros (S1 & S2 & S3 & S4 & S5 & S6 & U) Hst Room sh chs t3. fold sh in S2. fold chs in S1. destruct (unused_pending c U) as (P & N). 
  destruct (finished_len cx CX sh t2) as (Lm & Bm). set (m := finished sh t2) in *. destruct (verify_len cx CX sh t2) as (Lv & _).
  assert (reads_with c sh 1) as R by (split; [exact S2|]; split; [exact S5|lia]).
  destruct (record_split cx sh 1 22 m CX ltac:(lia) Bm ltac:(unfold is_u8; lia) ltac:(lia)) as (rb & E & Lb & Bbd & Lh & Bh & Hlen).
  destruct (record_parts cx sh 1 22 m CX ltac:(lia) Bm ltac:(unfold is_u8; lia) ltac:(lia)) as (_ & Ho).
  rewrite E in *.
  apply (answers_record (record_aad (zlen m)) rb); [unfold listens; now rewrite Hst|rewrite Hst; discriminate|exact Lh|discriminate|lia|unfold RECORD_SIZE_LIMIT; change GCM_TAG_LEN with 16; change RH_LEN with 5; lia|].
  intros s1 b1 more W1. apply (protected_after cx f sn dbg CX c now rd tx s1 b1 more sh 1 (record_aad (zlen m)) rb 20 (verify_data cx sh t2) (tc_ks c) TSendFinished); auto.
  - lia.
  - change (hs_message 20 (verify_data cx sh t2)) with m. unfold buffer_size, b_N in *. lia.
  - unfold listens. now rewrite Hst.
  - intros rx0 a b0 rx Eab. unfold recv_message, hh_msg_type. rewrite type_of. change (handshake_type_try_from 20) with (Some Finished). change (Finished =? ServerHello) with false. change (Finished =? NewSessionTicket) with false. change (Finished =? EncryptedExtensions) with false. change (Finished =? Finished) with true. cbn iota.
    cbn [tc_state tc_set_rx]. rewrite Hst. cbn [tstate_eqb negb].
    destruct (message_header 20 (verify_data cx sh t2)) as (q1 & q2 & q3 & E4 & _ & Ln). rewrite E4. assert (hh_length [20; q1; q2; q3] = 32) as -> by (rewrite <- Lv; exact (Ln ltac:(lia))). change (32 =? 32) with true. cbn [negb].
    assert (reads (cr_new a b0) (a ++ b0) 0) as Rd by (split; [reflexivity|]; split; [reflexivity|]; rewrite Eab; split; lia).
    pose proof (reads_exact (cr_new a b0) (a ++ b0) 0 32 Rd ltac:(lia)) as Re. rewrite Eab, Lv in Re. cbn [Z.sub Z.leb Z.compare Pos.compare Pos.compare_cont Z.opp Z.add] in Re.
    destruct Re as (r' & Er & _). unfold cr_next_n. rewrite Er. cbn [h_try]. rewrite zdrop_0, ztake_all by lia.
    cbn [tc_ks tc_set_rx]. unfold verify_server_finished. rewrite S2. unfold transcript_hash_bytes. rewrite S3, label_eq. fold (verify_data cx sh t2). destruct (list_eq_dec _ _ _) as [_|X]; [|contradiction]. cbn [h_try]. reflexivity.
  - intros rx s2 b2 w2 P' N' W2. set (ks3 := ks_set_seqs _ _ _). cbn [after_recv]. cbn [tc_state tc_set_st tstate_eqb].
    assert (ks_client_traffic ks3 = Some chs) as C1 by exact S1. assert (ks_write_seq ks3 = 0) as C2 by exact S6. assert (ks_transcript ks3 = t3) as C3 by (cbn [ks3 ks_set_seqs ks_transcript ks_set_transcript]; rewrite S3; reflexivity). assert (ks_secret ks3 = ks_secret (tc_ks c)) as C4 by reflexivity. clearbody ks3.
    unfold or_alert, send_client_finished. apply wps_bind. cbn [tc_ks tc_set_st tc_set_ks tc_sn tc_set_rx]. unfold client_finished_verify_data. rewrite C1. cbn [a_tres]. unfold transcript_hash_bytes. rewrite C3, label_eq. fold (verify_data cx chs t3).
    change (client_finished (verify_data cx chs t3)) with (finished chs t3). destruct (finished_len cx CX chs t3) as (Lf & Bf).
    rewrite Hsn. apply wps_aio. destruct (nonce_eq cx chs 0 CX ltac:(lia)) as (En & K1 & K2 & K3 & K4). pose proof (wn_view f _ _ _ _ _ W2) as V2. destruct W2 as ((_ & _ & _ & _ & _ & TB & F & _) & _).
    eapply wps_mono; [| |exact (send_record_tls sn False cx ks3 _ _ s2 _ tx CtHandshake (finished chs t3) ltac:(unfold client_key_and_nonce; rewrite C1, C2; exact En) K1 K2 K3 K4 V2 TB Bf ltac:(unfold is_u8, CtHandshake; lia) ltac:(lia))]; [auto|].
    intros r s3 (TB3 & [(-> & V3 & F3)|((e & ->) & F' & _)]).
    2:{ exfalso. lia. }
    cbn [wps]. eexists. split; [reflexivity|]. split; [apply same_self; try reflexivity; exact N'|]. split; [|split; [exact V3|split; [exact TB3|split; [reflexivity|]]]].
    2:{ destruct (record_parts cx chs 0 22 (finished chs t3) CX ltac:(lia) Bf ltac:(unfold is_u8; lia) ltac:(lia)) as (Lr & _). assert (free_space s2 - zlen (protected_record cx chs 0 22 (finished chs t3)) <= free_space s3) as F4 by exact F3. rewrite Lr in F4. lia. }
    unfold secured. cbn [tc_psk tc_ks tc_set_st set_state tc_set_ks tc_set_rx tc_rx tc_state]. unfold initialize_master_secret, initialize_secrets. rewrite C4, S4.
    change (cx_extract cx (derive cx (handshake_secret cx (tc_psk c) dhe) "derived" []) ZEROS_OF_HASH_LEN) with (master_secret cx (tc_psk c) dhe). unfold transcript_hash_bytes. rewrite C3. cbn [ks_client_traffic ks_server_traffic ks_read_seq ks_write_seq].
    split; [reflexivity|]. split; [exact (f_equal Some (derive_eq cx (master_secret cx (tc_psk c) dhe) _ t3))|]. split; [exact (f_equal Some (derive_eq cx (master_secret cx (tc_psk c) dhe) _ t3))|]. split; [reflexivity|]. split; [reflexivity|]. apply buffer_eq. exact (proj1 P').
Qed.
End Main.

(** ** Histories *)
Section History.
Context (cx : Crypto) (dbg : bool) (c : TlsClient) (ch : chip) (rd tx later : list Z) (dhs t0 hello extensions share key : list Z).
Hypothesis CX : crypto_ok cx.
Notation sn := (tc_sn c).
Notation n := (snz (tc_sn c)).
Notation dhe := (cx_dh cx dhs key).
Notation records := (flight cx (tc_psk c) dhe t0 hello extensions).
Notation stage := (stage cx (tc_psk c) dhe t0 hello extensions).
Notation answer := (reply cx (tc_psk c) dhe t0 hello extensions).
Let f := (free_space (c_sock ch n), rx_size (c_sock ch n)).
Hypotheses (G0 : greeted cx c dhs t0) (Hsh : server_hello hello share) (Hk : cx_sec1 cx share = Some key) (Bh : bytes_ok hello) (Lh : zlen (hs_message 2 hello) <= buffer_size c - 22).
Hypotheses (Hee : encrypted_extensions extensions) (Be : bytes_ok extensions) (Le : zlen (hs_message 8 extensions) <= buffer_size c - 39) (Room : 58 <= tx_room ch c).
Hypothesis V0 : tcp_view (c_sock ch n) rd tx /\ tx_bytes (c_sock ch n).

(** The client and its socket after [k] of the records. *)
Definition after (k : nat) (rs : list (res TError TEvent)) (c' : TlsClient) (ch' : chip) : Prop :=
  stage k dhs c' /\ same_client c c' /\
  if Nat.eqb k 3 then (exists rs0, rs = rs0 ++ [Ok THandshakeFinished] /\ Forall goes_on rs0) /\ tcp_view (c_sock ch' n) (rd ++ concat records) (tx ++ answer) /\ tx_bytes (c_sock ch' n) /\ tc_timeout c' = None /\ tx_room ch c - 58 <= tx_room ch' c
  else Forall goes_on rs /\ exists b w, wn f (c_sock ch' n) (rd ++ concat (firstn k records)) tx b b w.

Lemma same_trans a b d : same_client a b -> same_client b d -> same_client a d.
Proof. unfold same_client. intros (H1 & H2 & H3 & H4 & H5 & H6 & H7) (K1 & K2 & K3 & K4 & K5 & K6 & K7). repeat split; congruence. Qed.
Lemma limit_of c1 z : same_client c c1 -> z <= buffer_size c - 22 -> z <= RECORD_SIZE_LIMIT c1.
Proof. intros (_ & _ & _ & _ & _ & _ & H) L. unfold RECORD_SIZE_LIMIT, buffer_size, b_N in *. change GCM_TAG_LEN with 16. change RH_LEN with 5. lia. Qed.

(** One call. *)
Lemma one_call k rs c1 ch1 fuel rng now sch r sch' c2 ch2 : after k rs c1 ch1 -> (k < 3)%nat -> in_time c1 now -> no_faults sch -> no_link_change (seen_ir sch ch1 n) ->
  run (tls_process cx dbg fuel c1 rng now) sch ch1 = (Done (r, c2), sch', ch2) -> receives ch2 c rd (concat records ++ later) ->
  (after k (rs ++ [r]) c2 ch2 /\ zlen (unread (c_sock ch1 n)) < zlen (nth k records [])) \/ after (S k) (rs ++ [r]) c2 ch2.
Proof.
  intros (St & Sm & A) Lk Ht Hf Hn Ru Rv. assert (Nat.eqb k 3 = false) as Ek by (apply Nat.eqb_neq; lia). rewrite Ek in A. destruct A as (Fr & b & w0 & W0).
  pose proof (wn_whole f _ _ _ _ _ _ W0) as W. set (w := unread (c_sock ch1 n)) in *.
  pose proof Sm as (Hsn & _ & _ & _ & _ & Hpsk & Hbs).
  assert (forall r', goes_on r' -> Forall goes_on (rs ++ [r'])) as Fg by (intros r' Hr'; apply Forall_app; split; [exact Fr|constructor; [exact Hr'|constructor]]).
  assert (forall b' w', goes_on r -> c2 = c1 -> wn f (c_sock ch2 n) (rd ++ concat (firstn k records)) tx b' b' w' -> after k (rs ++ [r]) c2 ch2) as Stay.
  { intros b' w' Hr -> W'. unfold after. split; [exact St|]. split; [exact Sm|]. rewrite Ek. split; [exact (Fg r Hr)|]. eauto. }
  assert (goes_on (Ok (TCallAfter 10))) as G10 by (right; exists 10; split; [reflexivity|lia]).
  destruct Rv as (missing & Em). change (sn_raw sn) with n in Em.
  destruct k as [|[|[|k]]]; [| | |lia].
  - cbn [stage] in St. cbn [firstn concat] in *. rewrite app_nil_r in *.
    pose proof (hello_call cx dbg f sn fuel c1 rng now ch1 rd tx (concat (skipn 1 records) ++ later) b w CX Hsn Ht W dhs t0 hello share key St Hsh Hk Bh (limit_of _ _ Sm Lh) sch Hf Hn) as X. rewrite Ru in X.
    destruct X as [(Hr & -> & Lw & b' & w' & W')|(c' & E & S' & Sm' & Ag & b' & w' & W')].
    { exists missing. rewrite Em. cbn [skipn concat flight]. now rewrite <- !app_assoc. }
    + left. split; [|exact Lw]. exact (Stay b' w' Hr eq_refl W').
    + right. injection E as -> ->. unfold after. cbn [Nat.eqb stage]. split; [split; [exact S'|exact Ag]|]. split; [exact (same_trans _ _ _ Sm Sm')|]. split; [exact (Fg _ G10)|]. exists b', w'. cbn [firstn concat flight]. rewrite app_nil_r. exact W'.
  - cbn [stage] in St. destruct St as (S1 & Ag). assert (server_hs cx (tc_psk c1) dhe (upto_hello t0 hello) = server_key cx (tc_psk c) dhe t0 hello) as Es by (unfold server_key; now rewrite Hpsk).
    pose proof (extensions_call cx dbg f sn fuel c1 rng now ch1 (rd ++ concat (firstn 1 records)) tx (concat (skipn 2 records) ++ later) b w CX Hsn Ht W dhe (upto_hello t0 hello) extensions Ag S1 Hee Be) as X.
    assert (zlen (hs_message 8 extensions ++ [22]) <= RECORD_SIZE_LIMIT c1 - 16) as Lim. { rewrite zlen_app. change (zlen [22]) with 1. unfold RECORD_SIZE_LIMIT, buffer_size, b_N in *. change GCM_TAG_LEN with 16. change RH_LEN with 5. lia. }
    specialize (X Lim sch Hf Hn). rewrite Ru, Es in X.
    destruct X as [(Hr & -> & Lw & b' & w' & W')|(c' & E & S' & Sm' & Ag' & b' & w' & W')].
    { exists missing. rewrite Em. cbn [firstn skipn concat flight]. now rewrite !app_nil_r, <- !app_assoc. }
    + left. split; [|exact Lw]. exact (Stay b' w' Hr eq_refl W').
    + right. injection E as -> ->. unfold after. cbn [Nat.eqb stage]. split; [split; [exact S'|exact Ag']|]. split; [exact (same_trans _ _ _ Sm Sm')|]. split; [exact (Fg _ G10)|]. exists b', w'. cbn [firstn concat flight] in *. rewrite !app_nil_r in *. rewrite <- app_assoc in W'. exact W'.
  - cbn [stage] in St. destruct St as (S1 & Ag). assert (server_hs cx (tc_psk c1) dhe (upto_hello t0 hello) = server_key cx (tc_psk c) dhe t0 hello) as Es by (unfold server_key; now rewrite Hpsk).
    pose proof (finished_call cx dbg f sn fuel c1 rng now ch1 (rd ++ concat (firstn 2 records)) tx (concat (skipn 3 records) ++ later) b w CX Hsn Ht W dhe (upto_hello t0 hello) (upto_extensions t0 hello extensions) Ag S1 Room) as X.
    cbv zeta in X. specialize (X sch Hf Hn). rewrite Ru, Es in X.
    destruct X as [(Hr & -> & Lw & b' & w' & W')|(c' & E & Sm' & Sec & V' & TB & To & Fr')].
    { exists missing. rewrite Em. cbn [firstn skipn concat flight]. now rewrite !app_nil_r, <- !app_assoc. }
    + left. split; [|exact Lw]. exact (Stay b' w' Hr eq_refl W').
    + right. injection E as -> ->. unfold after. cbn [Nat.eqb stage]. split; [exact Sec|]. split; [exact (same_trans _ _ _ Sm Sm')|]. split; [exists rs; auto|]. split; [|split; [exact TB|split; [exact To|exact Fr']]]. cbn [firstn concat flight] in *. rewrite !app_nil_r in *. rewrite <- !app_assoc in V'.
      unfold reply, client_key, upto_finished. rewrite Hpsk in V'. exact V'.
Qed.

Lemma at_start : after 0 [] c ch.
Proof.
  unfold after. split; [exact G0|]. split; [repeat split|]. cbn [Nat.eqb]. split; [constructor|]. destruct V0 as (V & B). eexists _, []. cbn [firstn concat]. rewrite app_nil_r.
  apply (view_wn f _ rd tx [] (unread (c_sock ch n)) V B); [cbn; lia|reflexivity|reflexivity].
Qed.
Lemma run_receives fuel rng now c1 sch ch1 r sch' ch2 stream : run (tls_process cx dbg fuel c1 rng now) sch ch1 = (Done r, sch', ch2) -> receives ch2 c rd stream -> receives ch1 c rd stream.
Proof. intros Ru (missing & Em). destruct (run_longer _ _ _ _ _ _ Ru (sn_raw sn)) as (new & _ & El). exists (new ++ missing). now rewrite app_assoc, <- El. Qed.

(** Any calls, beginning after [k] records. *)
Lemma any_calls k0 rs0 c0 ch0 rs c' ch' : after k0 rs0 c0 ch0 -> (k0 <= 3)%nat -> handshakes cx dbg c0 ch0 rs c' ch' -> receives ch' c rd (concat records ++ later) -> exists k, (k0 <= k <= 3)%nat /\ after k (rs0 ++ rs) c' ch' /\
  ((exists all, s_rxlog (c_sock ch0 n) = rd ++ concat records ++ all) -> k = (k0 + length rs)%nat).
Proof.
  intros A0 Hk0 U. assert (snz (tc_sn c0) = n) as En by (destruct A0 as (_ & (Hsn & _) & _); now rewrite Hsn).
  induction U as [|rs c1 ch1 fuel rng now sch r sch' c2 ch2 U IH St Ht Hf Hn Ru]; intros Rv.
  - exists k0. split; [lia|]. split; [now rewrite app_nil_r|]. intros _. cbn. lia.
  - destruct (IH (run_receives _ _ _ _ _ _ _ _ _ _ Ru Rv)) as (k & Lk & A & All). clear IH.
    assert (k <> 3)%nat as Nk. { intros ->. destruct A as (Sg & _). cbn [stage] in Sg. destruct Sg as (Sg & _). contradiction. }
    change (sn_raw (tc_sn c0)) with (snz (tc_sn c0)) in Hn. rewrite En in Hn.
    destruct (one_call k (rs0 ++ rs) c1 ch1 fuel rng now sch r sch' c2 ch2 A ltac:(lia) Ht Hf Hn Ru Rv) as [(A' & Lw)|A']; rewrite <- app_assoc in A'.
    + exists k. split; [lia|]. split; [exact A'|]. intros (all & Ea). exfalso.
      destruct A as (_ & _ & A). assert (Nat.eqb k 3 = false) as Ek by (apply Nat.eqb_neq; lia). rewrite Ek in A. destruct A as (_ & b & w & W).
      assert (exists all', s_rxlog (c_sock ch1 n) = rd ++ concat records ++ all') as (all' & Ea').
      { clear - Ea U En. induction U as [|rs c1 ch1 fuel rng now sch r sch' c2 ch2 U IH St Ht Hf Hn Ru]; [eauto|]. destruct IH as (a & Ha). destruct (run_longer _ _ _ _ _ _ Ru n) as (new & _ & El). exists (a ++ new). rewrite El, Ha. now rewrite <- !app_assoc. }
      destruct (wn_whole f _ _ _ _ _ _ W) as (V & _). assert (s_rxlog (c_sock ch1 n) = (rd ++ concat (firstn k records)) ++ unread (c_sock ch1 n)) as Eu by apply V.
      rewrite Ea' in Eu. assert (concat records = concat (firstn k records) ++ nth k records [] ++ concat (skipn (S k) records)) as Ec.
      { destruct k as [|[|[|k]]]; [| | |lia]; cbn [firstn skipn concat flight nth]; rewrite ?app_nil_r, <- ?app_assoc; reflexivity. }
      rewrite Ec, <- !app_assoc in Eu. apply app_inv_head, app_inv_head in Eu. rewrite <- Eu, !zlen_app in Lw. pose proof (zlen_nonneg (concat (skipn (S k) records))). pose proof (zlen_nonneg all'). lia.
    + exists (S k). split; [lia|]. split; [exact A'|]. intros Ha. rewrite (All Ha), app_length. cbn [length]. lia.
Qed.
End History.

Lemma plain_view f s rd tx b w : wn f s rd tx b b w -> tcp_view s rd tx /\ tx_bytes s.
Proof. intros W. split; [exact (wn_view f _ _ _ _ _ W)|]. destruct W as ((_ & _ & _ & _ & _ & TB & _) & _). exact TB. Qed.

Theorem arrives cx dbg c ch rd tx later dhs t0 hello extensions share key rs c' ch' : crypto_ok cx -> greeted cx c dhs t0 ->
  server_hello hello share -> cx_sec1 cx share = Some key -> bytes_ok hello -> zlen (hs_message 2 hello) <= buffer_size c - 22 ->
  encrypted_extensions extensions -> bytes_ok extensions -> zlen (hs_message 8 extensions) <= buffer_size c - 39 -> 58 <= tx_room ch c ->
  tcp_view (c_sock ch (sn_raw (tc_sn c))) rd tx -> tx_bytes (c_sock ch (sn_raw (tc_sn c))) ->
  let dhe := cx_dh cx dhs key in let records := flight cx (tc_psk c) dhe t0 hello extensions in
  handshakes cx dbg c ch rs c' ch' -> receives ch' c rd (concat records ++ later) ->
  exists k, (k <= 3)%nat /\ stage cx (tc_psk c) dhe t0 hello extensions k dhs c' /\ same_client c c' /\ tx_bytes (c_sock ch' (sn_raw (tc_sn c))) /\
    ((k < 3)%nat -> Forall goes_on rs /\ tcp_view (c_sock ch' (sn_raw (tc_sn c))) (rd ++ concat (firstn k records)) tx) /\
    (k = 3%nat -> (exists rs0, rs = rs0 ++ [Ok THandshakeFinished] /\ Forall goes_on rs0) /\ tc_timeout c' = None /\
      tcp_view (c_sock ch' (sn_raw (tc_sn c))) (rd ++ concat records) (tx ++ reply cx (tc_psk c) dhe t0 hello extensions) /\ tx_room ch c - 58 <= tx_room ch' c).
Proof.
  intros CX G0 Hsh Hk Bh Lh Hee Be Le Room V B dhe records U Rv.
  destruct (any_calls cx dbg c ch rd tx later dhs t0 hello extensions share key CX Hsh Hk Bh Lh Hee Be Le Room 0 [] c ch rs c' ch' (at_start cx c ch rd tx dhs t0 hello extensions key G0 (conj V B)) ltac:(lia) U Rv) as (k & Lk & (St & Sm & A) & _).
  exists k. split; [lia|]. split; [exact St|]. split; [exact Sm|]. destruct (Nat.eqb_spec k 3) as [->|Nk].
  - destruct A as (Rs & V' & TB & To & Fr). split; [exact TB|]. split; [lia|]. intros _. auto.
  - destruct A as (Fr & b & w & W). apply plain_view in W. destruct W as (V' & TB). split; [exact TB|]. split; [auto|]. intros; contradiction.
Qed.
Theorem arrived_all cx dbg c ch rd tx later dhs t0 hello extensions share key rs1 c1 ch1 rs2 c2 ch2 : crypto_ok cx -> greeted cx c dhs t0 ->
  server_hello hello share -> cx_sec1 cx share = Some key -> bytes_ok hello -> zlen (hs_message 2 hello) <= buffer_size c - 22 ->
  encrypted_extensions extensions -> bytes_ok extensions -> zlen (hs_message 8 extensions) <= buffer_size c - 39 -> 58 <= tx_room ch c ->
  tcp_view (c_sock ch (sn_raw (tc_sn c))) rd tx -> tx_bytes (c_sock ch (sn_raw (tc_sn c))) ->
  let dhe := cx_dh cx dhs key in let records := flight cx (tc_psk c) dhe t0 hello extensions in
  handshakes cx dbg c ch rs1 c1 ch1 -> (exists more, s_rxlog (c_sock ch1 (sn_raw (tc_sn c))) = rd ++ concat records ++ more) ->
  handshakes cx dbg c1 ch1 rs2 c2 ch2 -> receives ch2 c rd (concat records ++ later) -> (length rs2 <= 3)%nat /\ (length rs2 = 3%nat -> tc_state c2 = TConnected).
Proof.
  intros CX G0 Hsh Hk Bh Lh Hee Be Le Room V B dhe records U1 All U2 Rv.
  assert (receives ch1 c rd (concat records ++ later)) as Rv1.
  { clear - U2 Rv. induction U2 as [|rs c2 ch2 fuel rng now sch r sch' c3 ch3 U IH St Ht Hf Hn Ru]; [exact Rv|]. apply IH. exact (run_receives cx dbg c rd _ _ _ _ _ _ _ _ _ _ Ru Rv). }
  destruct (any_calls cx dbg c ch rd tx later dhs t0 hello extensions share key CX Hsh Hk Bh Lh Hee Be Le Room 0 [] c ch rs1 c1 ch1 (at_start cx c ch rd tx dhs t0 hello extensions key G0 (conj V B)) ltac:(lia) U1 Rv1) as (k & Lk & A1 & _).
  destruct (any_calls cx dbg c ch rd tx later dhs t0 hello extensions share key CX Hsh Hk Bh Lh Hee Be Le Room k _ c1 ch1 rs2 c2 ch2 A1 ltac:(lia) U2 Rv) as (k' & Lk' & (St & _) & Ek). specialize (Ek All).
  split; [lia|]. intros L3. assert (k' = 3)%nat as -> by lia. cbn [stage] in St. exact (proj1 St).
Qed.

(** The handshake and then the data of the application. *)
Lemma uses_receives cx dbg room c0 c ch rs got c' ch' rd stream : uses cx dbg room c ch rs got c' ch' -> receives ch' c0 rd stream -> receives ch c0 rd stream.
Proof. intros U. induction U as [|rs got c1 ch1 fuel rng now sch r sch' c2 ch2 U IH Rm Hf Hn Ru|]; auto. intros Rv. exact (IH (run_receives cx dbg c0 rd _ _ _ _ _ _ _ _ _ _ Ru Rv)). Qed.
Theorem whole_session cx dbg c ch rd tx dhs t0 hello extensions share key rs1 c1 ch1 room datas rs2 got c2 ch2 : crypto_ok cx -> greeted cx c dhs t0 ->
  server_hello hello share -> cx_sec1 cx share = Some key -> bytes_ok hello -> zlen (hs_message 2 hello) <= buffer_size c - 22 ->
  encrypted_extensions extensions -> bytes_ok extensions -> zlen (hs_message 8 extensions) <= buffer_size c - 39 -> 58 <= tx_room ch c ->
  tcp_view (c_sock ch (sn_raw (tc_sn c))) rd tx -> tx_bytes (c_sock ch (sn_raw (tc_sn c))) ->
  Forall bytes_ok datas -> Forall (fun d => zlen d <= room) datas -> 0 <= room <= buffer_size c - 39 -> zlen datas < 2 ^ 64 - 1 ->
  let dhe := cx_dh cx dhs key in let records := flight cx (tc_psk c) dhe t0 hello extensions in
  let traffic := derive cx (master_secret cx (tc_psk c) dhe) "s ap traffic" (upto_finished cx (tc_psk c) dhe t0 hello extensions) in
  handshakes cx dbg c ch rs1 c1 ch1 -> tc_state c1 = TConnected -> uses cx dbg room c1 ch1 rs2 got c2 ch2 -> receives ch2 c rd (concat records ++ record_stream cx traffic 0 datas) ->
  Forall (fun r => r = Ok TNone \/ r = Ok TApplicationData) rs2 /\ (deliveries rs2 <= length datas)%nat /\ got ++ readable c2 = concat (firstn (deliveries rs2) datas) /\
  tcp_view (c_sock ch2 (sn_raw (tc_sn c))) (rd ++ concat records ++ record_stream cx traffic 0 (firstn (deliveries rs2) datas)) (tx ++ reply cx (tc_psk c) dhe t0 hello extensions).
Proof.
  intros CX G0 Hsh Hk Bh Lh Hee Be Le Room V B Bd Ld Hr Hl dhe records traffic U1 St1 U2 Rv.
  destruct (arrives cx dbg c ch rd tx (record_stream cx traffic 0 datas) dhs t0 hello extensions share key rs1 c1 ch1 CX G0 Hsh Hk Bh Lh Hee Be Le Room V B U1 (uses_receives _ _ _ _ _ _ _ _ _ _ _ _ U2 Rv)) as (k & Lk & St & Sm & TB & _ & K3).
  assert (k = 3%nat) as ->. { destruct k as [|[|[|[|k]]]]; [| | |reflexivity|lia]; cbn [stage] in St; destruct St as (S1 & _); congruence. }
  destruct (K3 eq_refl) as (_ & To & V1 & _). cbn [stage] in St. destruct Sm as (Esn & _ & _ & _ & _ & Epsk & Ebs). destruct St as (_ & _ & S2 & S3 & _ & S5). rewrite Epsk in S2. fold traffic in S2.
  rewrite <- Esn in V1, TB. rewrite <- Ebs in Hr.
  assert (receives ch2 c1 (rd ++ concat records) (record_stream cx traffic 0 datas)) as Rv2 by (destruct Rv as (missing & Em); exists missing; rewrite Esn, <- app_assoc; exact Em).
  destruct (streamed cx dbg room c1 ch1 _ _ [] traffic 0 datas rs2 got c2 ch2 CX U2 ltac:(split; [exact S2|]; split; [exact S3|lia]) St1 To S5 ltac:(lia) Bd Ld Hr V1 TB Rv2) as (F & L & E & V2 & _).
  rewrite Esn in V2. rewrite <- app_assoc in V2. auto.
Qed.
