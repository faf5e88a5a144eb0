(** Whole calls of [process] of the TLS client, on a record in the receive buffer. *)
From Coq Require Import String.
From Verif Require Import Model.Prelude Model.Bus Model.Chip Model.Specifiers Model.LlBits Model.Ll Model.LlAddr Model.HlIo Model.HlCommon Model.HlTcp Model.Stream Model.Gcm
  Spec.Hoare Spec.Sock Spec.Cursor Spec.TcpClient Spec.Gcm38D Spec.Fips197 Spec.TlsSecrets Spec.TlsMessages Spec.TlsProtect.
From Verif Require Import Proof.MqttRxP Proof.Base Proof.RingP Proof.ChipP Proof.SockP Proof.StreamP Proof.TcpP Proof.Ghash3P Proof.GcmP Proof.TlsTxP Proof.TlsBufP Proof.TlsHelloP Proof.TlsSendP Proof.TlsWireP Proof.TlsRxP Proof.TlsRx2P Proof.TlsRx3P.
From Verif Require Import Spec.MqttMsg Spec.TlsQuiet.
From Verif Require Import Model.TlsTypes Model.TlsBuf Model.TlsKeys Model.TlsHello Model.TlsRecord Model.TlsClient Spec.TlsQueue Spec.TlsSession Spec.TlsWire Spec.TlsRx.
Ltac Zify.zify_post_hook ::= idtac.
Local Open Scope list_scope.

Section Process.
Context (cx : Crypto) (f : Z * Z) (sn : Sn) (dbg : bool).
Hypothesis CX : crypto_ok cx.
Let n := snz sn.
Notation wn := (TlsRxP.wn f).

(** ** The interrupt register *)
Lemma process_wn c rng now ch rd tx b w (Q : res TError TEvent * TlsClient -> sock -> Prop) fuel : tc_sn c = sn -> listens c -> wn (c_sock ch n) rd tx b b w ->
  (forall s1, wn s1 rd tx b b w -> wps (process_rx cx dbg c now) n s1 False Q) -> ensures_ir no_link_change (tls_process cx dbg fuel c rng now) n ch Q.
Proof.
  intros Hsn Hl H K sch Hs HP. unfold tls_process, sn_ir, bindM, read. cbn [bind]. rewrite Hsn, sn_block_eq.
  eapply ensures_first with (P := no_link_change); [reflexivity| |exact Hs|exact HP]. intros s1 E1 HP1. cbn [bind ret]. change (byte0 [s_ir s1]) with (s_ir s1).
  destruct (link_bits (s_ir s1)) as (B1 & B2 & B3). destruct HP1 as (L0 & L1 & L3). unfold ir_bit in *.
  assert (forall s, wn s rd tx b b w -> wps (process_state cx dbg fuel c now) n s False Q) as K2.
  { intros s Hw. unfold process_state. unfold listens in Hl. destruct (tc_state c); try contradiction; now apply K. }
  destruct (SocketInterrupt_any_raised (s_ir s1)).
  - unfold or_alert. apply wps_bind, wps_aio. cbn [wps set_sn_ir write bind]. rewrite sn_block_eq. exists 1. split; [lia|]. split; [reflexivity|]. intros s2 E2.
    cbn [wps ret]. assert (wn (sock_wrs s2 1 (SnReg_addr S_IR) [s_ir s1]) rd tx b b w) as W2 by exact (wn_env f _ _ _ _ _ _ _ H (env_trans _ _ _ E1 E2)).
    rewrite B2. destruct (Z.testbit (s_ir s1) 0); [contradiction|]. unfold process_interrupts. rewrite B1, B3. destruct (Z.testbit (s_ir s1) 1); [contradiction|]. destruct (Z.testbit (s_ir s1) 3); [contradiction|].
    assert (tstate_eqb (tc_state c) TWaitAlertSendOk = false) as -> by (unfold listens in Hl; destruct (tc_state c); reflexivity || contradiction). rewrite andb_false_r. now apply K2.
  - apply K2. exact (wn_env f _ _ _ _ _ _ _ H E1).
Qed.

(** ** The record in the buffer *)
Definition after_header (c : TlsClient) (header : RecordHeader) (now : Z) : TM (option TEvent) :=
      let fragment := b_contains_handshake_fragment (tc_rx c) in
      or_alert cx (recv_body cx dbg c header) now (fun content_type c =>
      let advanced :=
        if content_type =? ApplicationData then b_increment_application_data_tail dbg (tc_rx c) (Z.max 0 (rh_length header - (GCM_TAG_LEN + 1)))
        else TOk (tc_rx c) in
      match advanced with
      | TOk rx =>
          let c := tc_set_rx c rx in
          if fragment && negb (content_type =? CtHandshake) then send_fatal_alert cx c UnexpectedMessage now
          else if content_type =? CtAlert then x <-- recv_alert cx dbg c header ;; let '(e, c) := x in Ret (Err e, c)
          else
            x <-- recv_content cx c header content_type now ;; let '(r, c) := x in
            if rh_content_type header =? ApplicationData then
              match increment_read (tc_ks c) with TOk ks => Ret (r, tc_set_ks c ks) | _ => Panic end
            else Ret (r, c)
      | _ => Panic
      end).
Lemma tls_recv_eq c now : tls_recv cx dbg c now = or_alert cx (recv_header dbg c) now (fun header c => match header with None => Ret (Ok None, c) | Some header => after_header c header now end).
Proof. reflexivity. Qed.
(** The end of [process], after [recv]. *)
Definition after_recv (x : res TError (option TEvent) * TlsClient) (now : Z) : TM TEvent :=
  let '(r, c) := x in
    match r with
    | Err e => Ret (Err e, c)
    | Ok (Some event) => Ret (Ok event, c)
    | Ok None =>
        if tstate_eqb (tc_state c) TSendFinished then or_alert cx (send_client_finished cx c) now (fun _ c => Ret (Ok THandshakeFinished, c))
        else check_timeout cx c now
    end.
Lemma listen_rx c : listens c -> tstate_eqb (tc_state c) TWaitAlertSendOk || tstate_eqb (tc_state c) TWaitDiscon = false.
Proof. unfold listens. destruct (tc_state c); reflexivity || contradiction. Qed.
Lemma rx_recv c now s rd tx b w Q : tc_sn c = sn -> listens c -> wn s rd tx b b w -> 5 <= zlen w ->
  (forall s1, wn s1 rd tx b b w -> wps (tls_recv cx dbg c now) n s1 False (fun x s' => wps (after_recv x now) n s' False Q)) -> wps (process_rx cx dbg c now) n s False Q.
Proof.
  intros Hsn Hl H Hw K. unfold process_rx. rewrite (listen_rx c Hl), Hsn. unfold or_alert at 1. apply wps_bind, wps_aio, wps_rx_rsr. intros s1 E1. pose proof (wn_env f _ _ _ _ _ _ _ H E1) as W1.
  pose proof (wn_bounds f _ _ _ _ _ _ W1) as (_ & L1 & _). cbn [wps]. change RH_LEN with 5. destruct (Z.leb_spec 5 (rx_rsr s1)) as [_|]; [|lia].
  apply wps_bind. eapply wps_mono; [| |exact (K s1 W1)]; [auto|]. intros (r, c') s2 X. exact X.
Qed.
(** A whole record is there. *)
Lemma recv_whole c now s rd tx b h body Q : tc_sn c = sn -> wn s rd tx b b (h ++ body) -> zlen h = 5 -> content_type_try_from (at_ h 0) <> None -> rh_length h = zlen body -> zlen body <= RECORD_SIZE_LIMIT c ->
  (forall s1 b1 more, wn s1 (rd ++ h) tx b1 b1 (body ++ more) -> wps (after_header c h now) n s1 False Q) -> wps (tls_recv cx dbg c now) n s False Q.
Proof.
  intros Hsn H Lh Ct Hlen Lim K. rewrite tls_recv_eq. unfold or_alert. apply wps_bind. eapply wps_mono; [| |apply (header_wn f sn dbg False c s rd tx b (h ++ body) Hsn H)]; [auto| |rewrite zlen_app; pose proof (zlen_nonneg body); lia].
  intros x s1 (ext & X). cbv zeta in X. assert (ztake 5 (h ++ body) = h) as Et by (rewrite <- Lh; apply ztake_exact). rewrite Et in X. destruct (content_type_try_from (at_ h 0)); [|contradiction].
  rewrite Hlen in X. destruct (Z.ltb_spec (RECORD_SIZE_LIMIT c) (zlen body)) as [|_]; [lia|]. destruct (Z.ltb_spec (zlen ((h ++ body) ++ ext)) (zlen body + 5)) as [Y|_]; [rewrite !zlen_app in Y; pose proof (zlen_nonneg ext); lia|].
  destruct X as (-> & b' & W). assert (zdrop 5 ((h ++ body) ++ ext) = body ++ ext) as Ed by (rewrite <- app_assoc, <- Lh; apply zdrop_exact). rewrite Ed in W. exact (K _ _ _ W).
Qed.
(** The length in the header is too large. *)
Lemma recv_too_large c now s rd tx b h Q : tc_sn c = sn -> wn s rd tx b b h -> zlen h = 5 -> content_type_try_from (at_ h 0) <> None -> RECORD_SIZE_LIMIT c < rh_length h ->
  (forall s1 b w, wn s1 rd tx b b w -> wps (send_fatal_alert cx c RecordOverflow now) n s1 False Q) -> wps (tls_recv cx dbg c now) n s False Q.
Proof.
  intros Hsn H Lh Ct Lim K. rewrite tls_recv_eq. unfold or_alert. apply wps_bind. eapply wps_mono; [| |apply (header_wn f sn dbg False c s rd tx b h Hsn H)]; [auto| |lia].
  intros x s1 (ext & X). cbv zeta in X. assert (ztake 5 h = h) as Et by (apply ztake_all; lia). rewrite Et in X. destruct (content_type_try_from (at_ h 0)); [|contradiction].
  destruct (Z.ltb_spec (RECORD_SIZE_LIMIT c) (rh_length h)) as [_|]; [|lia]. destruct X as (-> & W). exact (K _ _ _ W).
Qed.
Lemma no_fragment b ad : holds b (ad, []) -> b_contains_handshake_fragment b = false.
Proof. intros (_ & _ & A & T & _). unfold q_size in T. cbn [fst snd] in *. change (zlen (@nil Z)) with 0 in T. unfold b_contains_handshake_fragment. rewrite T, A, Z.add_0_r, Z.eqb_refl. reflexivity. Qed.

(** ** Giving up *)
Lemma gives_up_wn c0 c d now s rd tx b w ad rest : tc_sn c = sn -> paired c -> tc_ks c = tc_ks c0 -> is_u8 d -> wn s rd tx b b w -> holds (tc_rx c) (ad, rest) ->
  wps (send_fatal_alert cx c d now) n s False (fun x s' => wps (after_recv x now) n s' False (gives_up cx c0 d (fst f) rd tx ad)).
Proof.
  intros Hsn P Ek Hd H Hh. eapply wps_mono; [| |apply (alert_wn cx f sn False CX c d now s rd tx b w Hsn P Hd H)]; [auto|].
  intros x s' (c' & -> & Er & K1 & K2 & _ & X). cbn [after_recv wps]. exists c', rest. rewrite Er. split; [reflexivity|]. split; [now apply buffer_eq|]. split; [exact K1|]. split; [exact K2|].
  assert (alert_record cx c d = alert_record cx c0 d) as <- by (unfold alert_record; now rewrite Ek). exact X.
Qed.

(** ** Protected records *)
Section Protected.
Context (c : TlsClient) (now : Z) (rng : Rng) (fuel : nat) (t : list Z) (seq : Z) (h body : list Z) (ad rest : list Z) (rd tx : list Z).
Hypotheses (Hsn : tc_sn c = sn) (R : reads_with c t seq) (Hct : at_ h 0 = 23) (Lh : zlen h = 5) (Bh : bytes_ok h) (Hlen : rh_length h = zlen body) (Lb : 17 <= zlen body <= buffer_size c - 22) (Bb : bytes_ok body).
Hypotheses (Hh : buffer_holds (tc_rx c) ad rest) (Room : zlen ad + zlen rest + zlen body <= buffer_size c + 15).
Lemma protected_body s b more : wn s (rd ++ h) tx b b (body ++ more) ->
  wps (recv_body cx dbg c h) n s False (fun x s' => (exists b' w', wn s' (rd ++ h ++ body) tx b' b' w') /\ exists pl rx, holds rx (ad, rest ++ pl) /\ b_N rx = b_N (tc_rx c) /\ zlen pl = zlen body - 17 /\
    match opens cx t seq (h ++ body) with
    | Some m => exists y, m = pl ++ [y] /\ x = (match content_type_try_from y with Some ct => Ok ct | None => Err DecodeError end, tc_set_rx c rx)
    | None => x = (Err BadRecordMac, tc_set_rx c rx)
    end).
Proof.
  intros H. destruct R as (R1 & R2 & R3). unfold buffer_size in *. fold (b_N (tc_rx c)) in *.
  eapply wps_mono; [| |apply (body_wn cx f sn dbg False CX c t seq h s (rd ++ h) tx b body more ad rest)]; auto; try lia; [|now apply buffer_eq]. rewrite <- app_assoc. auto.
Qed.
Lemma protected_process (Q : res TError TEvent * TlsClient -> sock -> Prop) ch b w : listens c -> wn (c_sock ch n) rd tx b b ((h ++ body) ++ w) ->
  (forall s1 b1 more, wn s1 (rd ++ h) tx b1 b1 (body ++ more) -> wps (after_header c h now) n s1 False (fun x s' => wps (after_recv x now) n s' False Q)) ->
  ensures_ir no_link_change (tls_process cx dbg fuel c rng now) n ch Q.
Proof.
  intros Hl H K. apply wn_prefix in H. apply (process_wn c rng now ch rd tx b (h ++ body) Q fuel Hsn Hl H). intros s1 W1.
  apply (rx_recv c now s1 rd tx b (h ++ body) Q Hsn Hl W1); [rewrite zlen_app; lia|]. intros s2 W2.
  apply (recv_whole c now s2 rd tx b h body _ Hsn W2 Lh); [rewrite Hct; discriminate|exact Hlen| |exact K].
  unfold RECORD_SIZE_LIMIT, buffer_size in *. change (GCM_TAG_LEN) with 16. change RH_LEN with 5. unfold b_N. lia.
Qed.

(** A record that does not open. *)
Lemma forged_process ch b w : listens c -> paired c -> wn (c_sock ch n) rd tx b b ((h ++ body) ++ w) -> opens cx t seq (h ++ body) = None ->
  ensures_ir no_link_change (tls_process cx dbg fuel c rng now) n ch (gives_up cx c 20 (fst f) (rd ++ h ++ body) tx ad).
Proof.
  intros Hl P H Ho. apply (protected_process _ ch b w Hl H). intros s1 b1 more W1. unfold after_header, or_alert. cbv zeta. apply wps_bind. eapply wps_mono; [| |exact (protected_body s1 b1 more W1)]; [auto|].
  rewrite Ho. intros x s2 ((b' & w' & W2) & pl & rx & Q1 & Q2 & _ & ->). cbn iota beta.
  apply (gives_up_wn c (tc_set_rx c rx) BadRecordMac now s2 (rd ++ h ++ body) tx b' w' ad (rest ++ pl)); auto. unfold is_u8, BadRecordMac. lia.
Qed.
(** A record whose content type is unknown, such as a padded one. *)
Lemma unknown_process ch b w m y : listens c -> paired c -> wn (c_sock ch n) rd tx b b ((h ++ body) ++ w) -> opens cx t seq (h ++ body) = Some (m ++ [y]) -> content_type_try_from y = None ->
  ensures_ir no_link_change (tls_process cx dbg fuel c rng now) n ch (gives_up cx c 50 (fst f) (rd ++ h ++ body) tx ad).
Proof.
  intros Hl P H Ho Hy. apply (protected_process _ ch b w Hl H). intros s1 b1 more W1. unfold after_header, or_alert. cbv zeta. apply wps_bind. eapply wps_mono; [| |exact (protected_body s1 b1 more W1)]; [auto|].
  rewrite Ho. intros x s2 ((b' & w' & W2) & pl & rx & Q1 & Q2 & _ & y' & E & ->). apply app_inj_tail in E. destruct E as (-> & <-). rewrite Hy. cbn iota beta.
  apply (gives_up_wn c (tc_set_rx c rx) DecodeError now s2 (rd ++ h ++ body) tx b' w' ad (rest ++ pl)); auto. unfold is_u8, DecodeError. lia.
Qed.
(** Application data. *)
Lemma data_process ch b w data : rest = [] -> tc_state c = TConnected -> wn (c_sock ch n) rd tx b b ((h ++ body) ++ w) -> opens cx t seq (h ++ body) = Some (data ++ [23]) ->
  ensures_ir no_link_change (tls_process cx dbg fuel c rng now) n ch (fun x s' => exists rx, x = (Ok TApplicationData, tc_set_ks (tc_set_rx c rx) (ks_set_seqs (tc_ks c) (seq + 1) (ks_write_seq (tc_ks c)))) /\
    buffer_holds rx (ad ++ data) [] /\ tcp_view s' (rd ++ h ++ body) tx).
Proof.
  intros Er Hst H Ho. assert (listens c) as Hl by (unfold listens; now rewrite Hst). apply (protected_process _ ch b w Hl H). intros s1 b1 more W1. unfold after_header, or_alert. cbv zeta. apply wps_bind. eapply wps_mono; [| |exact (protected_body s1 b1 more W1)]; [auto|].
  rewrite Ho. intros x s2 ((b' & w' & W2) & pl & rx & Q1 & Q2 & Lp & y' & E & ->). apply app_inj_tail in E. destruct E as (-> & <-). change (content_type_try_from 23) with (Some 23). cbn iota beta. change (23 =? ApplicationData) with true. cbn iota.
  rewrite Hlen. change (GCM_TAG_LEN + 1) with 17. replace (Z.max 0 (zlen body - 17)) with (zlen pl) by lia. subst rest. cbn [app tc_rx tc_set_rx] in *.
  destruct (publish_ok dbg rx ad pl (zlen pl) Q1 ltac:(pose proof (zlen_nonneg pl); lia)) as (rx' & -> & Q3 & _). cbn iota. rewrite ztake_all, zdrop_all in Q3 by lia.
  rewrite (no_fragment _ ad) by (apply buffer_eq; exact Hh). cbn [andb]. change (23 =? CtAlert) with false. unfold recv_content. change (23 =? ChangeCipherSpec) with false. change (23 =? CtHandshake) with false. cbn iota.
  cbn [tc_state tc_set_rx]. rewrite Hst. cbn [tstate_eqb bind wps]. unfold rh_content_type. rewrite Hct. change (23 =? ApplicationData) with true. cbn iota.
  destruct R as (_ & R2 & R3). unfold increment_read, U64_MAX. cbn [tc_ks tc_set_rx]. rewrite R2. destruct (Z.eqb_spec seq 18446744073709551615) as [|_]; [lia|]. cbn [wps after_recv].
  exists rx'. split; [destruct c; reflexivity|]. split; [now apply buffer_eq|]. exact (wn_view f _ _ _ _ _ W2).
Qed.
(** Application data before the handshake is over. *)
Lemma early_process ch b w data : rest = [] -> listens c -> paired c -> tc_state c <> TConnected -> wn (c_sock ch n) rd tx b b ((h ++ body) ++ w) -> opens cx t seq (h ++ body) = Some (data ++ [23]) ->
  ensures_ir no_link_change (tls_process cx dbg fuel c rng now) n ch (gives_up cx c 10 (fst f) (rd ++ h ++ body) tx (ad ++ data)).
Proof.
  intros Er Hl P Hst H Ho. apply (protected_process _ ch b w Hl H). intros s1 b1 more W1. unfold after_header, or_alert. cbv zeta. apply wps_bind. eapply wps_mono; [| |exact (protected_body s1 b1 more W1)]; [auto|].
  rewrite Ho. intros x s2 ((b' & w' & W2) & pl & rx & Q1 & Q2 & Lp & y' & E & ->). apply app_inj_tail in E. destruct E as (-> & <-). change (content_type_try_from 23) with (Some 23). cbn iota beta. change (23 =? ApplicationData) with true. cbn iota.
  rewrite Hlen. change (GCM_TAG_LEN + 1) with 17. replace (Z.max 0 (zlen body - 17)) with (zlen pl) by lia. subst rest. cbn [app tc_rx tc_set_rx] in *.
  destruct (publish_ok dbg rx ad pl (zlen pl) Q1 ltac:(pose proof (zlen_nonneg pl); lia)) as (rx' & -> & Q3 & _). cbn iota. rewrite ztake_all, zdrop_all in Q3 by lia.
  rewrite (no_fragment _ ad) by (apply buffer_eq; exact Hh). cbn [andb]. change (23 =? CtAlert) with false. unfold recv_content. change (23 =? ChangeCipherSpec) with false. change (23 =? CtHandshake) with false. cbn iota.
  cbn [tc_state tc_set_rx]. assert (tstate_eqb (tc_state c) TConnected = false) as -> by (destruct (tc_state c); reflexivity || contradiction).
  apply wps_bind. eapply wps_mono; [| |apply (alert_wn cx f sn False CX (tc_set_rx (tc_set_rx c rx) rx') UnexpectedMessage now s2 (rd ++ h ++ body) tx b' w' Hsn P)]; [auto| |unfold is_u8, UnexpectedMessage; lia|exact W2].
  intros x s' (c' & -> & Er' & K1 & K2 & K3 & X). cbn iota beta. unfold rh_content_type. rewrite Hct. change (23 =? ApplicationData) with true. cbn iota.
  unfold increment_read, U64_MAX. rewrite K3. change (0 =? 18446744073709551615) with false. cbn [wps after_recv].
  eexists _, []. split; [reflexivity|]. cbn [tc_rx tc_set_ks tc_ks tc_state ks_server_traffic ks_client_traffic ks_set_seqs]. rewrite Er'. cbn [tc_rx tc_set_rx]. split; [now apply buffer_eq|]. split; [exact K1|]. split; [exact K2|]. exact X.
Qed.
(** An alert: the client forgets everything. *)
Lemma alert_process ch b w m : rest = [] -> listens c -> wn (c_sock ch n) rd tx b b ((h ++ body) ++ w) -> opens cx t seq (h ++ body) = Some (m ++ [21]) ->
  ensures_ir no_link_change (tls_process cx dbg fuel c rng now) n ch (fun x s' => exists c', x = (Err (EClient (mkAlert 2 50)), c') /\ tc_state c' = TReset /\ buffer_holds (tc_rx c') [] [] /\
    ks_server_traffic (tc_ks c') = None /\ ks_client_traffic (tc_ks c') = None /\ tcp_view s' (rd ++ h ++ body) tx).
Proof.
  intros Er Hl H Ho. apply (protected_process _ ch b w Hl H). intros s1 b1 more W1. unfold after_header, or_alert. cbv zeta. apply wps_bind. eapply wps_mono; [| |exact (protected_body s1 b1 more W1)]; [auto|].
  rewrite Ho. intros x s2 ((b' & w' & W2) & pl & rx & Q1 & Q2 & Lp & y' & E & ->). apply app_inj_tail in E. destruct E as (-> & <-). change (content_type_try_from 21) with (Some 21). cbn iota beta. change (21 =? ApplicationData) with false. cbn iota.
  subst rest. rewrite (no_fragment _ ad) by (apply buffer_eq; exact Hh). cbn [andb]. change (21 =? CtAlert) with true. cbn iota. unfold recv_alert. cbv zeta. rewrite Hlen. destruct (Z.eqb_spec (zlen body) 2) as [|_]; [lia|]. cbn [negb].
  cbn [tc_sn tc_set_rx tc_set_ks set_state tc_set_st]. rewrite Hsn. apply wps_bind, wps_bind. eapply wps_mono; [| |apply (tcp_disconnect_spec sn False dbg s2 _ _ (wn_view f _ _ _ _ _ W2))]; [auto|].
  intros r s3 (_ & V & _). cbn [wps after_recv]. eexists. split; [reflexivity|]. split; [reflexivity|]. split; [apply buffer_eq; eapply holds_reset; exact Q1|]. split; [reflexivity|]. split; [reflexivity|exact V].
Qed.
End Protected.

(** ** Records that are too large *)
Lemma large_process c now rng fuel h ad rest rd tx ch b w : tc_sn c = sn -> zlen h = 5 -> content_type_try_from (at_ h 0) <> None -> buffer_size c - 22 < rh_length h -> buffer_holds (tc_rx c) ad rest -> listens c -> paired c -> wn (c_sock ch n) rd tx b b (h ++ w) ->
  ensures_ir no_link_change (tls_process cx dbg fuel c rng now) n ch (gives_up cx c 22 (fst f) rd tx ad).
Proof.
  intros Hsn Lh Ct Lim Hh Hl P H. apply wn_prefix in H. apply (process_wn c rng now ch rd tx b h _ fuel Hsn Hl H). intros s1 W1.
  apply (rx_recv c now s1 rd tx b h _ Hsn Hl W1); [lia|]. intros s2 W2.
  apply (recv_too_large c now s2 rd tx b h _ Hsn W2 Lh Ct).
  - unfold RECORD_SIZE_LIMIT, buffer_size in *. change (GCM_TAG_LEN) with 16. change RH_LEN with 5. unfold b_N. lia.
  - intros s3 b3 w3 W3. apply (gives_up_wn c c RecordOverflow now s3 rd tx b3 w3 ad rest); auto. unfold is_u8, RecordOverflow. lia. now apply buffer_eq.
Qed.

(** ** Alerts without protection *)
Lemma plain_alert_process c now rng fuel v ad rd tx ch b w level description : tc_sn c = sn -> zlen v = 2 -> buffer_holds (tc_rx c) ad [] -> zlen ad + 3 <= buffer_size c -> 24 <= buffer_size c -> listens c -> description_try_from description <> None ->
  wn (c_sock ch n) rd tx b b ((record_header 21 v 2 ++ [level; description]) ++ w) ->
  ensures_ir no_link_change (tls_process cx dbg fuel c rng now) n ch (fun x s' => exists c', x = (Err (EServer (mkAlert (if level =? 1 then 1 else 2) description)), c') /\ tc_state c' = TReset /\ buffer_holds (tc_rx c') [] [] /\
    ks_server_traffic (tc_ks c') = None /\ ks_client_traffic (tc_ks c') = None /\ tcp_view s' (rd ++ record_header 21 v 2 ++ [level; description]) tx).
Proof.
  intros Hsn Lv Hh Room Big Hl Hd H. set (h := record_header 21 v 2) in *. set (body := [level; description]) in *. apply wn_prefix in H.
  destruct v as [|v1 [|v2 [|]]]; try (unfold zlen in Lv; cbn [length] in Lv; lia). assert (zlen h = 5) as Lh by reflexivity. change (zlen [v1; v2]) with 2 in *.
  apply (process_wn c rng now ch rd tx b (h ++ body) _ fuel Hsn Hl H). intros s1 W1.
  apply (rx_recv c now s1 rd tx b (h ++ body) _ Hsn Hl W1); [rewrite zlen_app; change (zlen body) with 2; lia|]. intros s2 W2.
  apply (recv_whole c now s2 rd tx b h body _ Hsn W2 Lh); [discriminate|reflexivity|change (zlen body) with 2; unfold RECORD_SIZE_LIMIT, buffer_size in *; change (GCM_TAG_LEN) with 16; change RH_LEN with 5; unfold b_N; lia|].
  intros s3 b3 more W3. unfold after_header, or_alert. cbv zeta. apply wps_bind. unfold recv_body. change (rh_content_type h) with 21. change (21 =? ApplicationData) with false. cbn iota. apply wps_bind.
  eapply wps_mono; [| |apply (plain_wn f sn dbg False c s3 (rd ++ h) tx b3 body more ad [] h Hsn W3)]; [auto| |reflexivity|now apply buffer_eq|change (zlen body) with 2; change (zlen (@nil Z)) with 0; unfold buffer_size in *; unfold b_N; lia|discriminate].
  intros x s4 ((b4 & w4 & W4) & rx & -> & Q1 & Q2). cbn [wps]. cbn iota beta. change (21 =? ApplicationData) with false. cbn iota.
  rewrite (no_fragment _ ad) by (apply buffer_eq; exact Hh). cbn [andb]. change (21 =? CtAlert) with true. cbn iota. unfold recv_alert. cbv zeta. change (rh_length h =? 2) with true. cbn [negb]. cbn [app] in Q1.
  cbn [tc_rx tc_set_rx tc_set_ks set_state tc_set_st]. destruct (pop_ok rx ad [level] description Q1) as (rx1 & -> & Q3 & _). destruct (description_try_from description) as [d|] eqn:Ed; [|contradiction].
  assert (d = description) as Eq by (unfold description_try_from in Ed; destruct (existsb _ _) in Ed; congruence). rewrite Eq.
  assert (match level_try_from level with Some level => level | None => Fatal end = if level =? 1 then 1 else 2) as El.
  { unfold level_try_from. destruct (Z.eqb_spec level 1) as [->|]; [reflexivity|]. cbn [orb]. destruct (Z.eqb_spec level 2) as [->|]; reflexivity. }
  destruct (pop_ok rx1 ad [] level Q3) as (rx2 & E2 & Q4 & _). cbn [tc_rx tc_set_rx]. rewrite E2, El. cbn [bind wps after_recv].
  eexists. split; [reflexivity|]. split; [reflexivity|]. split; [apply buffer_eq; eapply holds_reset; exact Q4|]. split; [reflexivity|]. split; [reflexivity|].
  rewrite <- app_assoc in W4. exact (wn_view f _ _ _ _ _ W4).
Qed.

(** ** Change cipher spec *)
Lemma ccs_process c now rng fuel v ad rd tx ch b w : tc_sn c = sn -> zlen v = 2 -> buffer_holds (tc_rx c) ad [] -> zlen ad + 2 <= buffer_size c -> 23 <= buffer_size c -> listens c -> tc_state c <> TSendFinished -> tclock_ok c now ->
  wn (c_sock ch n) rd tx b b ((record_header 20 v 1 ++ [1]) ++ w) ->
  ensures_ir no_link_change (tls_process cx dbg fuel c rng now) n ch (fun x s' => exists rx, buffer_holds rx ad [] /\ twaits (tc_set_rx c rx) now x /\ tcp_view s' (rd ++ record_header 20 v 1 ++ [1]) tx).
Proof.
  intros Hsn Lv Hh Room Big Hl Hst Hc H. set (h := record_header 20 v 1) in *. set (body := [1]) in *. apply wn_prefix in H.
  destruct v as [|v1 [|v2 [|]]]; try (unfold zlen in Lv; cbn [length] in Lv; lia). assert (zlen h = 5) as Lh by reflexivity.
  apply (process_wn c rng now ch rd tx b (h ++ body) _ fuel Hsn Hl H). intros s1 W1.
  apply (rx_recv c now s1 rd tx b (h ++ body) _ Hsn Hl W1); [rewrite zlen_app; change (zlen body) with 1; lia|]. intros s2 W2.
  apply (recv_whole c now s2 rd tx b h body _ Hsn W2 Lh); [discriminate|reflexivity|change (zlen body) with 1; unfold RECORD_SIZE_LIMIT, buffer_size in *; change (GCM_TAG_LEN) with 16; change RH_LEN with 5; unfold b_N; lia|].
  intros s3 b3 more W3. unfold after_header, or_alert. cbv zeta. apply wps_bind. unfold recv_body. change (rh_content_type h) with 20. change (20 =? ApplicationData) with false. cbn iota. apply wps_bind.
  eapply wps_mono; [| |apply (plain_wn f sn dbg False c s3 (rd ++ h) tx b3 body more ad [] h Hsn W3)]; [auto| |reflexivity|now apply buffer_eq|change (zlen body) with 1; change (zlen (@nil Z)) with 0; unfold buffer_size in *; unfold b_N; lia|discriminate].
  intros x s4 ((b4 & w4 & W4) & rx & -> & Q1 & Q2). cbn [wps]. cbn iota beta. change (20 =? ApplicationData) with false. cbn iota.
  rewrite (no_fragment _ ad) by (apply buffer_eq; exact Hh). cbn [andb]. change (20 =? CtAlert) with false. cbn iota. unfold recv_content. change (20 =? ChangeCipherSpec) with true. cbn iota. unfold or_alert, recv_change_cipher_spec. change (rh_length h =? 1) with true. cbn [negb app] in *.
  cbn [tc_rx tc_set_rx]. destruct (pop_ok rx ad [] 1 Q1) as (rx1 & -> & Q3 & _). change (1 =? 1) with true. cbn [negb bind wps]. change (20 =? ApplicationData) with false. cbn iota. cbn [wps after_recv].
  cbn [tc_state tc_set_rx]. assert (tstate_eqb (tc_state c) TSendFinished = false) as -> by (destruct (tc_state c); reflexivity || contradiction).
  assert (forall x', twaits (tc_set_rx c rx1) now x' -> exists rx0, buffer_holds rx0 ad [] /\ twaits (tc_set_rx c rx0) now x' /\ tcp_view s4 (rd ++ h ++ body) tx) as G.
  { intros x' T. exists rx1. split; [now apply buffer_eq|]. split; [exact T|]. rewrite <- app_assoc in W4. exact (wn_view f _ _ _ _ _ W4). }
  change (tc_set_rx (tc_set_rx (tc_set_rx c rx) rx) rx1) with (tc_set_rx c rx1). unfold check_timeout. cbn [tc_timeout tc_set_rx tc_state]. unfold tclock_ok in Hc.
  destruct (tc_timeout c) as [to|] eqn:Et; [|cbn [wps]; apply G; unfold twaits; cbn [tc_timeout tc_set_rx]; rewrite Et; reflexivity]. destruct (Z.ltb_spec now to); [lia|]. unfold T_TIMEOUT_SECS. destruct (Z.ltb_spec 10 (now - to)); [|cbn [wps]; apply G; unfold twaits; cbn [tc_timeout tc_set_rx]; rewrite Et; left; split; [lia|reflexivity]].
  unfold listens in Hl. destruct (tc_state c) eqn:Es; try contradiction; cbn [tstate_eqb wps]; apply G; unfold twaits; cbn [tc_timeout tc_state tc_set_rx]; rewrite Et, Es; right; repeat split; auto; lia.
Qed.
End Process.
