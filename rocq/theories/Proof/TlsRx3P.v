(** [process] of the TLS client on a record in the receive buffer. *)
From Coq Require Import String.
From Verif Require Import Model.Prelude Model.Bus Model.Chip Model.Specifiers Model.LlBits Model.Ll Model.LlAddr Model.HlIo Model.HlCommon Model.HlTcp Model.Stream Model.Gcm
  Spec.Hoare Spec.Sock Spec.Cursor Spec.TcpClient Spec.Gcm38D Spec.Fips197 Spec.TlsSecrets Spec.TlsMessages Spec.TlsProtect.
From Verif Require Import Proof.MqttRxP Proof.Base Proof.RingP Proof.ChipP Proof.SockP Proof.StreamP Proof.TcpP Proof.Ghash3P Proof.GcmP Proof.TlsTxP Proof.TlsBufP Proof.TlsHelloP Proof.TlsSendP Proof.TlsWireP Proof.TlsRxP Proof.TlsRx2P.
From Verif Require Import Spec.MqttMsg.
From Verif Require Import Model.TlsTypes Model.TlsBuf Model.TlsKeys Model.TlsHello Model.TlsRecord Model.TlsClient Spec.TlsQueue Spec.TlsSession Spec.TlsWire Spec.TlsRx.
Ltac Zify.zify_post_hook ::= idtac.
Local Open Scope list_scope.

Lemma buffer_eq b ad rest : buffer_holds b ad rest <-> holds b (ad, rest).
Proof.
  unfold buffer_holds, holds, in_range, q_size. cbv zeta. cbn [fst snd]. fold (b_N b). pose proof (zlen_nonneg ad). pose proof (zlen_nonneg rest).
  split.
  - intros (H1 & H2 & H3 & H4 & H5 & H6 & H7). pose proof (Z.mod_pos_bound (b_head b + zlen ad) (b_N b) ltac:(lia)). pose proof (Z.mod_pos_bound (b_head b + (zlen ad + zlen rest)) (b_N b) ltac:(lia)).
    repeat (split; [repeat split; lia|]). apply zn_eq; [rewrite zlen_ring by lia; rewrite zlen_app; lia|]. rewrite zlen_ring by lia. intros i Hi. rewrite zn_ring by lia. exact (H7 i Hi).
  - intros ((H1 & H2 & H3 & H4 & H5) & H6 & H7 & H8 & H9). repeat (split; [lia|]). intros i Hi. rewrite <- H9. symmetry. exact (zn_ring _ _ _ _ Hi).
Qed.
Lemma gcm_tag_len key nonce h C : length key = 16%nat -> bytes_ok key -> length nonce = 12%nat -> bytes_ok nonce -> length h = 5%nat -> length (gcm_tag (fips_cipher key) nonce h C) = 16%nat.
Proof. intros K1 K2 K3 K4 H. apply (tag_byte16 key nonce K1 K2 K3 K4 h C H). Qed.

Section Rx.
Context (cx : Crypto) (f : Z * Z) (sn : Sn) (dbg : bool) (D : Prop).
Hypothesis CX : crypto_ok cx.
Let n := snz sn.
Notation wn := (TlsRxP.wn f).

(** *** Protected records *)
Lemma decrypt_wn key nonce (header : list Z) s rd tx b C tag more ad rest buf : length key = 16%nat -> bytes_ok key -> length nonce = 12%nat -> bytes_ok nonce -> length header = 5%nat -> bytes_ok header ->
  wn s rd tx b b (C ++ tag ++ more) -> rh_length header = zlen C + 16 -> zlen tag = 16 -> C <> [] -> bytes_ok C -> holds buf (ad, rest) -> zlen ad + zlen rest + zlen C <= b_N buf - 1 ->
  wps (decrypt_record_inplace dbg sn key nonce header buf) n s D (fun x s' => (exists b' w', wn s' (rd ++ C ++ tag) tx b' b' w') /\
    exists pl y buf', GCTR (fips_cipher key) (inc32 (J0 nonce)) C = pl ++ [y] /\ holds buf' (ad, rest ++ pl) /\ b_N buf' = b_N buf /\
      x = (if list_eq_dec Z.eq_dec (gcm_tag (fips_cipher key) nonce header C) tag then Ok (content_type_try_from y) else Err BadRecordMac, buf')).
Proof.
  intros K1 K2 K3 K4 H1 H2 H Hlen Lt Nc Bc Hh Room. pose proof (wn_bounds f _ _ _ _ _ _ H) as (Bb & L1 & L2). rewrite !zlen_app in L1.
  pose proof (zlen_nonneg C) as N1. pose proof (zlen_nonneg more) as N2. assert (0 < zlen C) as N3 by (destruct C; [contradiction|rewrite zlen_cons; pose proof (zlen_nonneg C); lia]).
  unfold decrypt_record_inplace. apply wps_aio, wps_rx_rsr. intros s1 E1. pose proof (wn_env f _ _ _ _ _ _ _ H E1) as W1.
  pose proof (wn_bounds f _ _ _ _ _ _ W1) as (_ & L3 & L4). rewrite !zlen_app in L3.
  destruct (Z.ltb_spec (rx_rsr s1) (rh_length header)) as [|_]; [lia|].
  apply wps_aio, wps_rx_rd. intros s2 E2. pose proof (wn_env f _ _ _ _ _ _ _ W1 E2) as W2. assert (rx_rd s2 = b) as -> by apply W2.
  cbv zeta. change GCM_TAG_LEN with 16. replace (Z.max 0 (rh_length header - 16)) with (zlen C) by lia. destruct (Z.eqb_spec (zlen C) 0) as [|_]; [lia|].
  apply wps_bind. eapply wps_mono; [| |apply (decrypt_loop_wn f sn dbg D key nonce header K1 K2 K3 K4 H1 H2 rd tx b b (C ++ tag ++ more) C (tag ++ more) ad rest eq_refl ltac:(lia) Bc (Z.to_nat (zlen C)) (gcm_new key nonce header) [] C b buf s2 W2)]; [auto| | | | | | | |].
  2: apply gcm_new_at.
  2: reflexivity. 2: exact Nc. 2: unfold zlen; lia. 2: f_equal; change (zlen (@nil (list Z))) with 0; lia. 2: cbn [ctr_xor concat]; rewrite app_nil_r; exact Hh. 2: exact Room.
  intros r s3 (W3 & ct & p & g & b' & pl & y & -> & Hp & Ep & Q1 & Q2 & -> & Q4 & Q5). cbn iota beta.
  apply wps_aio, wps_rx_buf. intros s4 E4. pose proof (wn_env f _ _ _ _ _ _ _ W3 E4) as W4.
  rewrite (wn_read f s4 rd tx b b _ (zlen C) 16 p W4 ltac:(lia) ltac:(lia) ltac:(rewrite !zlen_app; lia) ltac:(rewrite Ep; apply Z.mod_mod; lia)).
  assert (ztake 16 (zdrop (zlen C) (C ++ tag ++ more)) = tag) as -> by (rewrite zdrop_exact, <- Lt; apply ztake_exact).
  apply wps_aio, wps_set_rx_rd. intros s5 E5. pose proof (wn_env f _ _ _ _ _ _ _ W4 E5) as W5. pose proof (wadd_range p 16) as Hw.
  assert (wadd p 16 = (b + (zlen C + 16)) mod 65536) as Ew by (unfold wadd; rewrite Ep, Zplus_mod_idemp_l; f_equal; lia).
  pose proof (wn_put f s5 (wadd p 16) rd tx b b _ Hw W5) as W6. change (with_reg s5 _) with (put16 s5 0x28 (wadd p 16)).
  apply wps_aio, wps_set_rx_rd. intros s7 E7. pose proof (wn_env f _ _ _ _ _ _ _ W6 E7) as W7. change (with_reg s7 _) with (put16 s7 0x28 (wadd p 16)).
  apply wps_aio, wps_set_cr. intros s8 E8. change (command_raw CRecv) with 0x40. rewrite Ew in E8.
  destruct (wn_release f s7 s8 rd tx b _ _ (zlen C + 16) W7 ltac:(rewrite !zlen_app; lia) E8) as (b9 & W9).
  assert (ztake (zlen C + 16) (C ++ tag ++ more) = C ++ tag) as Et by (rewrite ztake_app_r by lia; f_equal; replace (zlen C + 16 - zlen C) with (zlen tag) by lia; apply ztake_exact). rewrite Et in W9.
  rewrite Q1. destruct (list_eq_dec _ _ _); cbn [wps]; (split; [eauto|]; exists pl, y, b'; auto).
Qed.
(** [opens] for a header and a body. *)
Lemma opens_parts t seq (h body : list Z) : zlen h = 5 -> 16 <= zlen body ->
  opens cx t seq (h ++ body) = let C := ztake (zlen body - 16) body in if list_eq_dec Z.eq_dec (gcm_tag (fips_cipher (traffic_key cx t)) (nonce cx t seq) h C) (zdrop (zlen body - 16) body) then Some (GCTR (fips_cipher (traffic_key cx t)) (inc32 (J0 (nonce cx t seq))) C) else None.
Proof. intros Hh Hb. unfold opens. rewrite <- Hh, zdrop_exact, ztake_exact. cbv zeta. reflexivity. Qed.
Lemma body_wn c t seq (h : RecordHeader) s rd tx b body more ad rest : tc_sn c = sn -> ks_server_traffic (tc_ks c) = Some t -> ks_read_seq (tc_ks c) = seq -> 0 <= seq < 2 ^ 64 -> rh_content_type h = 23 -> zlen (h : list Z) = 5 -> bytes_ok h ->
  wn s rd tx b b (body ++ more) -> rh_length h = zlen body -> 17 <= zlen body -> bytes_ok body -> holds (tc_rx c) (ad, rest) -> zlen ad + zlen rest + zlen body - 16 <= b_N (tc_rx c) - 1 ->
  wps (recv_body cx dbg c h) n s D (fun x s' => (exists b' w', wn s' (rd ++ body) tx b' b' w') /\ exists pl rx, holds rx (ad, rest ++ pl) /\ b_N rx = b_N (tc_rx c) /\ zlen pl = zlen body - 17 /\
    match opens cx t seq (h ++ body) with
    | Some m => exists y, m = pl ++ [y] /\ x = (match content_type_try_from y with Some ct => Ok ct | None => Err DecodeError end, tc_set_rx c rx)
    | None => x = (Err BadRecordMac, tc_set_rx c rx)
    end).
Proof.
  intros Hsn Et Es Hs Hct Lh Bh H Hlen Lb Bb Hh Room. unfold recv_body. rewrite Hct. change (23 =? ApplicationData) with true. cbn iota. unfold server_key_and_nonce. rewrite Et, Es.
  destruct (nonce_eq cx t seq CX Hs) as (-> & K1 & K2 & K3 & K4). rewrite Hsn.
  set (C := ztake (zlen body - 16) body). set (tag := zdrop (zlen body - 16) body).
  assert (body = C ++ tag) as Eb by (symmetry; apply ztake_zdrop). assert (zlen C = zlen body - 16) as LC by (unfold C; rewrite zlen_ztake; lia). assert (zlen tag = 16) as Lt by (unfold tag; rewrite zlen_zdrop; lia).
  assert (bytes_ok C) as BC by (unfold C; now apply bytes_ok_ztake).
  assert (C <> []) as NC by (intros Y; rewrite Y in LC; change (zlen (@nil Z)) with 0 in LC; lia).
  rewrite (opens_parts t seq h body Lh ltac:(lia)). cbv zeta. fold C tag. rewrite Eb in H at 1. rewrite <- app_assoc in H.
  apply wps_bind. eapply wps_mono; [| |apply (decrypt_wn (traffic_key cx t) (nonce cx t seq) h s rd tx b C tag more ad rest (tc_rx c) K1 K2 K3 K4 ltac:(unfold zlen in Lh; lia) Bh H)]; auto; try lia.
  rewrite <- Eb. intros x s' (W & pl & y & buf & Q1 & Q2 & Q3 & ->). cbn iota beta.
  assert (zlen pl = zlen body - 17) as Lp.
  { destruct (GCTR_bytes (traffic_key cx t) (nonce cx t seq) (h : list Z) K1 K2 K3 K4 ltac:(unfold zlen in Lh; lia) C BC ltac:(pose proof (wn_bounds f _ _ _ _ _ _ H) as (_ & X1 & X2); rewrite !zlen_app in X1; pose proof (zlen_nonneg more); lia)) as (L & _). rewrite Q1 in L. apply (f_equal Z.of_nat) in L. change (zlen (pl ++ [y]) = zlen C) in L. rewrite zlen_app in L. change (zlen [y]) with 1 in L. lia. }
  destruct (list_eq_dec _ _ _); [rewrite Q1; destruct (content_type_try_from y) eqn:Ec|]; cbn [wps]; (split; [exact W|]; exists pl, buf; repeat (split; [assumption|])); [exists y; rewrite Ec; auto|exists y; rewrite Ec; auto|reflexivity].
Qed.

(** *** Alerts sent by the client *)
Lemma plain_alert_wn s rd tx b w l : wn s rd tx b b w -> bytes_ok l ->
  wps (w <- tx_writer sn ;; w <- cur_write_all w l ;; cur_send w) n s D (fun r s' => (r = Ok tt /\ tcp_view s' rd (tx ++ l)) \/ ((exists e, r = Err e) /\ fst f < zlen l /\ tcp_view s' rd tx)).
Proof.
  intros H Bl. pose proof (wn_view f _ _ _ _ _ H) as V. destruct H as ((_ & _ & _ & _ & _ & TB & F & _) & _). pose proof V as (T & _ & X & _). pose proof (tcp_idle _ T) as I.
  apply wps_bindM. eapply wps_mono; [| |exact (tx_writer_spec sn D s I X)]; [auto|].
  intros r s1 (E1 & c & -> & Hsn & Hc & Hp & Hh & Hl).
  destruct (view_env _ _ _ _ V E1) as (V1 & _). pose proof (view_idle _ _ _ V1) as I1. pose proof V1 as (_ & _ & (X1 & C1) & _).
  destruct X as (X & _). destruct (wk_env s s1 I X E1) as ((_ & _ & _ & _ & _ & _ & Ez & _ & _ & Ep & _) & Bs1).
  pose proof (cur_accounting c Hc) as (A1 & A2 & A3). destruct (at_start s1 (cur_len c) I1 X1 ltac:(lia) ltac:(lia)) as (W1 & L1).
  set (win := window s1 (cur_len c)) in *.
  assert (cw sn s1 s1 c [] win) as W. { unfold cw. cbn [app]. rewrite L1. split; [exact W1|]. repeat (split; [assumption|]). split; [reflexivity|exact Hh]. }
  apply wps_bindM. eapply wps_mono; [| |exact (write_all_cw sn D s1 s1 c [] win l W Bl)]; [auto|].
  intros r s2 [(H1 & c2 & -> & W2)|(H1 & (e & ->) & W2)].
  2:{ right. split; [eauto|]. split; [unfold free_space in F; lia|]. exact (proj1 (view_work _ _ _ _ _ V1 W2)). }
  destruct W2 as (W2 & P1 & P2 & P3 & P4 & P5). apply at_prefix in W2. unfold cur_send. rewrite P1. cbn [app] in *.
  eapply wps_mono; [| |apply (send_at sn D s1 s2 _ _ W2)]; [auto| |rewrite (cur_ptr_pos c2 P2), P5, P3; reflexivity].
  intros r s3 (-> & S3). left. split; [reflexivity|]. exact (proj1 (view_sent _ _ _ _ _ V1 S3)).
Qed.
Lemma alert_wn {A} c d now s rd tx b w : tc_sn c = sn -> paired c -> is_u8 d -> wn s rd tx b b w ->
  wps (@send_fatal_alert cx A c d now) n s D (fun x s' => exists c', x = (Err (EClient (mkAlert 1 d)), c') /\ tc_rx c' = tc_rx c /\ ks_server_traffic (tc_ks c') = None /\ ks_client_traffic (tc_ks c') = None /\ ks_read_seq (tc_ks c') = 0 /\
    ((tc_state c' = TWaitAlertSendOk /\ tcp_view s' rd (tx ++ alert_record cx c d)) \/ (tc_state c' = TSendDiscon /\ tcp_view s' rd tx /\ fst f < zlen (alert_record cx c d)))).
Proof.
  intros Hsn (Pk & Ps) Hd H. unfold send_fatal_alert, send_alert. apply wps_bind, wps_bind.
  assert (bytes_ok [Fatal; d]) as Bd by (constructor; [unfold is_u8, Fatal; lia|constructor; [exact Hd|constructor]]).
  assert (wps (try_send_alert cx c Fatal d) n s D (fun r s' => (r = Ok tt /\ tcp_view s' rd (tx ++ alert_record cx c d)) \/ ((exists e, r = Err e) /\ fst f < zlen (alert_record cx c d) /\ tcp_view s' rd tx))) as G.
  { unfold try_send_alert, alert_record, server_traffic_secret_exists. rewrite Hsn. destruct (ks_client_traffic (tc_ks c)) as [t|] eqn:Ec.
    - destruct (ks_server_traffic (tc_ks c)) eqn:Esv; [|exfalso; pose proof (proj1 Pk eq_refl); congruence]. 
      destruct (nonce_eq cx t (ks_write_seq (tc_ks c)) CX Ps) as (En & K1 & K2 & K3 & K4). pose proof (wn_view f _ _ _ _ _ H) as V. destruct H as ((_ & _ & _ & _ & _ & TB & F & _) & _).
      eapply wps_mono; [| |exact (send_record_tls sn D cx (tc_ks c) _ _ s rd tx CtAlert [Fatal; d] ltac:(unfold client_key_and_nonce; rewrite Ec; exact En) K1 K2 K3 K4 V TB Bd ltac:(unfold is_u8, CtAlert; lia) ltac:(change (zlen [Fatal; d]) with 2; lia))]; [auto|].
      intros r s' (_ & [(-> & V' & _)|((e & ->) & F' & V')]); [left; auto|right]. split; [eauto|]. split; [|exact V'].
      destruct (record_parts cx t (ks_write_seq (tc_ks c)) 21 [2; d] CX Ps Bd ltac:(unfold is_u8; lia) ltac:(change (zlen [2; d]) with 2; lia)) as (-> & _). change (zlen [2; d]) with 2. change (zlen [Fatal; d]) with 2 in F'. lia.
    - destruct (ks_server_traffic (tc_ks c)) eqn:Esv; [exfalso; pose proof (proj2 Pk eq_refl); congruence|].
      apply (plain_alert_wn s rd tx b w _ H). change (Forall is_u8 [21; 3; 3; 0; 2; 2; d]). repeat (apply Forall_cons; [first [exact Hd|unfold is_u8; lia]|]). constructor. }
  eapply wps_mono; [| |exact G]; [auto|]. intros r s' [(-> & V)|((e & ->) & F & V)]; cbn [wps bind]; eexists; (split; [reflexivity|]); (split; [reflexivity|]); (split; [reflexivity|]); (split; [reflexivity|]); (split; [reflexivity|]); [left; split; [reflexivity|exact V]|right; split; [reflexivity|split; [exact V|exact F]]].
Qed.
End Rx.
