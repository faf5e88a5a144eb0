(** A stream of packets for the MQTT client, received in pieces. *)
From Verif Require Import Proof.MqttMainP Proof.MqttStuckP Spec.Cases.
From Verif Require Import Model.HlTcp Model.LlBits Model.Ll Model.LlAddr Model.Stream Model.Mqtt Proof.SprogP Spec.MqttStream.

Definition msg_type (m : message) : Z := match m with MsgPublish _ _ _ _ => 3 | MsgSubAck _ _ _ => 9 | MsgUnSubAck _ _ _ => 11 end.
Definition msg_flags (m : message) : Z := match m with MsgPublish true _ _ _ => 1 | _ => 0 end.
Definition msg_body (m : message) : list Z :=
  match m with
  | MsgPublish _ topic props payload => mstr topic ++ mprops props ++ payload
  | MsgSubAck id props code | MsgUnSubAck id props code => two id ++ mprops props ++ [code]
  end.
Lemma msg_packet m : message_bytes m = mpacket (msg_type m) (msg_flags m) (msg_body m).
Proof. destruct m as [[] t p l|i p c|i p c]; reflexivity. Qed.
Lemma msg_ne m : message_bytes m <> [].
Proof. rewrite msg_packet. apply packet_ne. Qed.
Lemma msg_wire m : message_ok m -> wire_ok (msg_type m) (msg_flags m) (msg_body m).
Proof.
  intros (_ & L & _). rewrite msg_packet, packet_len in L. pose proof (varint_pos (zlen (msg_body m))).
  split; [destruct m; cbn; lia|]. split; [destruct m as [[] ? ? ?| |]; cbn; lia|lia].
Qed.

(** How [recv] ends on a whole packet. *)
Definition msg_end (m : message) (e : rx_end) (pos : Z) : Prop :=
  match m with
  | MsgPublish _ topic props payload => let h := zlen (varint (zlen (msg_body m))) + 1 in
      e = RxPublish (zlen topic) (h + 2) (zlen payload) (h + 2 + zlen topic + 1 + zlen props)
  | MsgSubAck id props code => exists r, meaning suback_codes code = Some r /\ e = RxDone None (Ok (Some (ASubAck id r))) /\ pos = zlen (message_bytes m)
  | MsgUnSubAck id props code => exists r, meaning unsuback_codes code = Some r /\ e = RxDone None (Ok (Some (AUnSubAck id r))) /\ pos = zlen (message_bytes m)
  end.
Lemma ack_body id props code : zlen props < 128 -> zlen (two id ++ mprops props ++ [code]) <= 65535.
Proof.
  intros H. pose proof (zlen_nonneg props). unfold mprops. rewrite !zlen_app, varint_len by lia. change (zlen (two id)) with 2. change (zlen [code]) with 1.
  destruct (Z.ltb_spec (zlen props) 128); lia.
Qed.
Lemma recv_msg st m rest D : message_ok m -> zlen (message_bytes m ++ rest) <= 16384 ->
  wpa rd_ok (recv_pkt st) (message_bytes m ++ rest) 0 D (fun e _ pos => msg_end m e pos).
Proof.
  intros (_ & _ & H) L. destruct m as [retain topic props payload|id props code|id props code].
  - apply recv_publish_ok; [destruct retain; lia|exact H|exact L|reflexivity].
  - destruct H as (Hi & Hp & Hc). destruct (meaning suback_codes code) as [r|] eqn:E; [|contradiction].
    apply (recv_suback_ok suback_try_from ASubAck) with (codes := []); auto; [lia|now apply ack_body|].
    rewrite suback_meaning, E. cbn [msg_end]. exists r. split; [exact E|]. split; [reflexivity|]. change (zlen (@nil Z)) with 0. unfold message_bytes, suback_packet. lia.
  - destruct H as (Hi & Hp & Hc). destruct (meaning unsuback_codes code) as [r|] eqn:E; [|contradiction].
    apply (recv_suback_ok unsuback_try_from AUnSubAck) with (codes := []); auto; [lia|now apply ack_body|].
    rewrite unsuback_meaning, E. cbn [msg_end]. exists r. split; [exact E|]. split; [reflexivity|]. change (zlen (@nil Z)) with 0. unfold message_bytes, unsuback_packet. lia.
Qed.
(** [recv] on the first bytes of a stream that begins with [m]. *)
Definition first_end (m : message) (e : rx_end) (w : list Z) (pos : Z) : Prop := forall missing later, w ++ missing = message_bytes m ++ later ->
  (exists mi, w ++ mi = message_bytes m /\ mi <> [] /\ e = RxNone) \/ (exists g, w = message_bytes m ++ g /\ msg_end m e pos).
Lemma recv_first st m w : message_ok m -> bytes_ok w -> 0 < zlen w <= 16384 -> wpa rd_ok (recv_pkt st) w 0 False (first_end m).
Proof.
  intros Hm Hb L. set (pkt := message_bytes m).
  destruct (list_eq_dec Z.eq_dec (pkt ++ zdrop (zlen pkt) w) w) as [E|E].
  { rewrite <- E. eapply wpa_conseq; [apply wpa_rd, recv_msg; [exact Hm|fold pkt; rewrite E; lia]|]. cbn beta. fold pkt. intros e w' pos (-> & H) missing later _. right. eauto. }
  destruct (list_eq_dec Z.eq_dec (w ++ zdrop (zlen w) pkt) pkt) as [F|F].
  - assert (zdrop (zlen w) pkt <> []) as Hne.
    { intros X. rewrite X, app_nil_r in F. apply E. rewrite <- F. rewrite zdrop_all by lia. apply app_nil_r. }
    eapply (recv_incomplete st (msg_type m) (msg_flags m) (msg_body m) w (zdrop (zlen w) pkt)); [now apply msg_wire| |exact Hne|now rewrite <- msg_packet|].
    + intros ->. change (zlen (@nil Z)) with 0 in L. lia.
    + intros pos missing later _. left. exists (zdrop (zlen w) pkt). auto.
  - eapply wpa_conseq; [apply wpa_rd, (recv_total _ w False Hb L)|]. cbn beta. intros e w' pos (-> & _) missing later X. exfalso. fold pkt in X.
    destruct (prefix_app _ _ _ _ X) as [(mi & Y & _)|(g & Y & _)].
    + apply F. rewrite <- Y, zdrop_exact. reflexivity.
    + apply E. rewrite Y, zdrop_exact. reflexivity.
Qed.

Section Poll.
Context (sn : Sn).
Let n := snz sn.
Notation view := tcp_view.

(** [process] has told of [m]. *)
Definition noticed (c : MqttClient) (m : message) (rd tx : list Z) (x : res merr mevent * MqttClient) (s' : sock) : Prop :=
  match m with
  | MsgPublish _ topic props payload => let h := zlen (varint (zlen (msg_body m))) + 1 in
      exists cur new, x = (Ok (MEPublish (mkPR cur (zlen topic) (h + 2) (zlen payload) (h + 2 + zlen topic + 1 + zlen props))), c) /\
        zlen (message_bytes m ++ new) <= 16384 /\ treading sn s' cur (message_bytes m ++ new) rd tx
  | MsgSubAck id props code => exists r, meaning suback_codes code = Some r /\ x = (Ok (MESubAck id r), c) /\ view s' (rd ++ message_bytes m) tx
  | MsgUnSubAck id props code => exists r, meaning unsuback_codes code = Some r /\ x = (Ok (MEUnSubAck id r), c) /\ view s' (rd ++ message_bytes m) tx
  end.
Lemma process_first dbg fuel c now ch rd tx m : mq_sn c = sn -> st_state (mq_st c) = Ready -> st_timeout (mq_st c) = None -> view (c_sock ch n) rd tx ->
  bytes_ok (unread (c_sock ch n)) -> message_ok m ->
  ensures_ir no_link_change (mqtt_process dbg fuel c now) n ch (fun x s' => forall missing later, s_rxlog s' ++ missing = rd ++ message_bytes m ++ later ->
    (x = (Ok MENone, c) /\ view s' rd tx /\ forall more, unread (c_sock ch n) <> message_bytes m ++ more) \/ noticed c m rd tx x s').
Proof.
  intros Hsn Hst Ht V Hb Hm. assert (clock_ok c now) as Hc by (unfold clock_ok; now rewrite Ht).
  assert (forall x, waits c now x -> x = (Ok MENone, c)) as Hw by (intros x; unfold waits; now rewrite Ht).
  apply (process_rx sn) with (rd := rd) (tx := tx) (R := first_end m); auto; [congruence|intros new w Hbw Lw; now apply recv_first|]. fold n.
  intros x s' [(U & W & V')|(new & e & pos & rest & Hbw & Lw & HR & HL & HP)] missing later El.
  { left. split; [auto|]. split; [exact V'|]. intros more X. rewrite U in X. symmetry in X. apply app_eq_nil in X. destruct X as (X & _). now apply msg_ne in X. }
  cbv zeta in *. set (w := unread (c_sock ch n) ++ new) in *. rewrite HL, <- !app_assoc in El. apply app_inv_head in El.
  destruct (HR _ _ El) as [(mi & E & Hne & ->)|(g & E & F)].
  - left. destruct HP as (W & V'). split; [auto|]. split; [exact V'|]. intros more X. unfold w in E. rewrite X, <- !app_assoc in E. rewrite <- (app_nil_r (message_bytes m)) in E at 2.
    apply app_inv_head in E. apply app_eq_nil in E. destruct E as (_ & E). apply app_eq_nil in E. tauto.
  - right. rewrite E in *. destruct m as [retain topic props payload|id props code|id props code]; cbn [msg_end noticed] in *.
    + subst e. destruct HP as (cur & -> & T). exists cur, g. split; [reflexivity|]. split; [lia|exact T].
    + destruct F as (r & M & -> & ->). destruct HP as (V' & ->). rewrite ztake_exact in V'. exists r. auto.
    + destruct F as (r & M & -> & ->). destruct HP as (V' & ->). rewrite ztake_exact in V'. exists r. auto.
Qed.
(** With nothing to come, nothing is told. *)
Lemma process_end dbg fuel c now ch rd tx : mq_sn c = sn -> st_state (mq_st c) = Ready -> st_timeout (mq_st c) = None -> view (c_sock ch n) rd tx ->
  bytes_ok (unread (c_sock ch n)) ->
  ensures_ir no_link_change (mqtt_process dbg fuel c now) n ch (fun x s' => forall missing, s_rxlog s' ++ missing = rd -> x = (Ok MENone, c) /\ view s' rd tx).
Proof.
  intros Hsn Hst Ht V Hb. assert (clock_ok c now) as Hc by (unfold clock_ok; now rewrite Ht).
  apply (process_rx sn) with (rd := rd) (tx := tx) (R := fun e w pos => rx_fine e w pos); auto; [congruence|intros new w Hbw Lw; now apply recv_total|]. fold n.
  intros x s' [(U & W & V')|(new & e & pos & rest & Hbw & Lw & HR & HL & HP)] missing El.
  - split; [|exact V']. unfold waits in W. now rewrite Ht in W.
  - exfalso. rewrite HL, <- !app_assoc in El. rewrite <- (app_nil_r rd) in El at 2. apply app_inv_head in El. apply app_eq_nil in El. destruct El as (X & El). rewrite X, app_nil_l in *.
    apply app_eq_nil in El. destruct El as (-> & _). cbn in Lw. lia.
Qed.

Lemma pub_at_of p topic props payload retain new cur : zlen props < 128 -> let m := MsgPublish retain topic props payload in let h := zlen (varint (zlen (msg_body m))) + 1 in
  p = mkPR cur (zlen topic) (h + 2) (zlen payload) (h + 2 + zlen topic + 1 + zlen props) ->
  pub_at p (message_bytes m ++ new) topic payload (zlen (message_bytes m)).
Proof.
  intros Hp m h ->. pose proof (zlen_nonneg topic) as Ht. pose proof (zlen_nonneg payload) as Hpl. pose proof (zlen_nonneg props) as Hpr. pose proof (zlen_nonneg new) as Hnn.
  set (body := msg_body m) in *. set (w := message_bytes m ++ new).
  assert (mprops props = zlen props :: props) as Ep by (unfold mprops, varint; destruct (Z.ltb_spec (zlen props) 128); [reflexivity|lia]).
  assert (zlen body = 3 + zlen topic + zlen props + zlen payload) as Lb.
  { unfold body, msg_body, m. rewrite Ep. unfold mstr. rewrite !zlen_app, zlen_cons. change (zlen (two (zlen topic))) with 2. lia. }
  assert (zlen (message_bytes m) = h + zlen body) as Lp by (rewrite msg_packet, packet_len; unfold h; fold body; lia).
  assert (0 < h) as Hh by (unfold h; pose proof (varint_pos (zlen body)); lia).
  assert (zdrop h w = body ++ new) as Hd.
  { unfold w. rewrite msg_packet. fold body. unfold mpacket. cbn [app]. rewrite <- app_assoc. change (?x :: ?l) with ([x] ++ l) at 1. rewrite app_assoc.
    replace h with (zlen ([16 * msg_type m + msg_flags m] ++ varint (zlen body))) by (rewrite zlen_app; unfold h; change (zlen [16 * msg_type m + msg_flags m]) with 1; lia).
    apply zdrop_exact. }
  assert (zlen w = h + zlen body + zlen new) as Lw by (unfold w; rewrite zlen_app; lia).
  assert (forall k, 0 <= k -> zdrop (h + k) w = zdrop k (body ++ new)) as Hk.
  { intros k Hk. replace (h + k) with (k + h) by lia. rewrite <- zdrop_zdrop by lia. now rewrite Hd. }
  unfold pub_at. cbn [pr_topic_idx pr_topic_len pr_payload_idx pr_payload_len].
  split; [lia|]. split; [reflexivity|]. split.
  { rewrite Hk by lia. unfold body, msg_body, m, mstr. rewrite <- !app_assoc. change 2 with (zlen (two (zlen topic))). rewrite zdrop_exact. apply ztake_exact. }
  split; [lia|]. split; [reflexivity|]. split; [|lia].
  replace (h + 2 + zlen topic + 1 + zlen props) with (h + (3 + zlen topic + zlen props)) by lia. rewrite Hk by lia. unfold body, msg_body, m. rewrite Ep. unfold mstr.
  replace (3 + zlen topic + zlen props) with (zlen ((two (zlen topic) ++ topic) ++ (zlen props :: props))) by
    (rewrite !zlen_app, zlen_cons; change (zlen (two (zlen topic))) with 2; lia).
  rewrite <- app_assoc. rewrite (app_assoc (two (zlen topic) ++ topic)), <- (app_assoc _ payload new), zdrop_exact. apply ztake_exact.
Qed.
End Poll.

(** ** One poll *)
Lemma run_split {A B} (p : prog A) (f : A -> prog B) sch ch b sch' ch' : run (bind p f) sch ch = (Done b, sch', ch') ->
  exists a sch1 ch1, run p sch ch = (Done a, sch1, ch1) /\ run (f a) sch1 ch1 = (Done b, sch', ch').
Proof. rewrite run_bind. destruct (run p sch ch) as ((o, s1), c1). destruct o; try discriminate. eauto 6. Qed.
Lemma log_before s s' missing l : longer s s' -> s_rxlog s' ++ missing = l -> exists mi, s_rxlog s ++ mi = l.
Proof. intros (new & _ & E) <-. rewrite E. exists (new ++ missing). now rewrite <- app_assoc. Qed.
Lemma poll_first dbg fuel c now ops sch ch rd tx m a sch' c' ch' missing later : let n := sn_raw (mq_sn c) in
  st_state (mq_st c) = Ready -> st_timeout (mq_st c) = None -> tcp_view (c_sock ch n) rd tx ->
  bytes_ok (unread (c_sock ch n)) -> message_ok m -> Forall pub_op_ok ops -> no_faults sch -> no_link_change (seen_ir sch ch n) ->
  run (poll dbg fuel c now ops) sch ch = (Done (a, c'), sch', ch') -> s_rxlog (c_sock ch' n) ++ missing = rd ++ message_bytes m ++ later ->
  c' = c /\ ((a = TldNothing /\ tcp_view (c_sock ch' n) rd tx /\ forall more, unread (c_sock ch n) <> message_bytes m ++ more) \/
    (a = tells m ops /\ tcp_view (c_sock ch' n) (rd ++ message_bytes m) tx)).
Proof.
  intros n Hst Ht V Hb Hm Ho Hs HP E L. unfold poll in E. apply run_split in E. destruct E as (x & sch1 & ch1 & E1 & E2).
  destruct (process_first (mq_sn c) dbg fuel c now ch rd tx m eq_refl Hst Ht V Hb Hm sch Hs HP) as (x' & sc & c1 & E & H).
  rewrite E1 in E. injection E as <- <- <-.
  destruct (log_before _ _ _ _ (run_longer _ _ _ _ _ _ E2 n) L) as (mi & L1). specialize (H mi later L1).
  assert (no_faults sch1) as Hs1.
  { exact (run_no_faults _ _ _ _ _ _ Hs E1). }
  destruct H as [(-> & V1 & Hn)|H].
  - cbn [fst snd run] in E2. injection E2 as <- <- _ <-. split; [reflexivity|]. left. auto.
  - destruct m as [retain topic props payload|id props code|id props code]; cbn [noticed] in H.
    + destruct H as (cur & new & -> & Lw & T). cbn [fst snd] in E2. destruct Hm as (_ & _ & Hp). set (m := MsgPublish retain topic props payload) in *.
      set (p := mkPR cur _ _ _ _) in E2.
      assert (ensures (y <-- pub_run p ops ;; d <-- pr_done (snd y) ;; Ret (TldMessage (fst y) d, c)) n ch1
        (fun z s' => z = (tells m ops, c) /\ tcp_view s' (rd ++ message_bytes m) tx)) as G.
      { apply ensures_wps.
        apply wps_bind. eapply wps_mono; [| |exact (pub_run_wps (mq_sn c) False topic payload (zlen (message_bytes m)) (message_bytes m ++ new) rd tx ops Lw Ho p _ T (pub_at_of (mq_sn c) p topic props payload retain new cur Hp eq_refl))]; [auto|].
        intros [rs p'] s1 (Er & T1 & A1). cbn [fst snd] in *. apply wps_bind. pose proof A1 as (A2 & A3 & A4 & A5 & A6 & A7 & A8 & A9 & A10). pose proof (zlen_nonneg payload).
        eapply wps_mono; [| |apply (pr_done_wps (mq_sn c) False p' s1 (message_bytes m ++ new) rd tx T1)]; [auto| |lia|lia|lia|lia].
        intros d s2 (-> & V2). cbn [wps]. rewrite A6, A9, ztake_exact in V2. rewrite Er. split; [reflexivity|exact V2]. }
      destruct (G sch1 Hs1) as (z & sc & c2 & Ez & -> & V2). rewrite E2 in Ez. injection Ez as -> -> _ ->. split; [reflexivity|]. right. auto.
    + destruct H as (r & M & -> & V1). cbn [fst snd run] in E2. injection E2 as <- <- _ <-. split; [reflexivity|]. right. cbn [tells]. rewrite M. auto.
    + destruct H as (r & M & -> & V1). cbn [fst snd run] in E2. injection E2 as <- <- _ <-. split; [reflexivity|]. right. cbn [tells]. rewrite M. auto.
Qed.

Lemma poll_end dbg fuel c now ops sch ch rd tx a sch' c' ch' missing : let n := sn_raw (mq_sn c) in
  st_state (mq_st c) = Ready -> st_timeout (mq_st c) = None -> tcp_view (c_sock ch n) rd tx ->
  bytes_ok (unread (c_sock ch n)) -> no_faults sch -> no_link_change (seen_ir sch ch n) ->
  run (poll dbg fuel c now ops) sch ch = (Done (a, c'), sch', ch') -> s_rxlog (c_sock ch' n) ++ missing = rd ->
  c' = c /\ a = TldNothing /\ tcp_view (c_sock ch' n) rd tx.
Proof.
  intros n Hst Ht V Hb Hs HP E L. unfold poll in E. apply run_split in E. destruct E as (x & sch1 & ch1 & E1 & E2).
  destruct (process_end (mq_sn c) dbg fuel c now ch rd tx eq_refl Hst Ht V Hb sch Hs HP) as (x' & sc & c1 & E & H).
  rewrite E1 in E. injection E as <- <- <-.
  destruct (log_before _ _ _ _ (run_longer _ _ _ _ _ _ E2 n) L) as (mi & L1). destruct (H mi L1) as (-> & V1).
  cbn [fst snd run] in E2. injection E2 as <- <- _ <-. auto.
Qed.
(** ** Requests *)
Lemma request_view dbg fuel c x sch ch rd tx a sch' c' ch' : let n := sn_raw (mq_sn c) in request_ok x -> st_state (mq_st c) = Ready -> is_u16 (mq_pkt_id c) ->
  tcp_view (c_sock ch n) rd tx -> no_faults sch -> run (mcall_run dbg fuel c x) sch ch = (Done (a, c'), sch', ch') ->
  mq_sn c' = mq_sn c /\ mq_st c' = mq_st c /\ is_u16 (mq_pkt_id c') /\ exists tx', tcp_view (c_sock ch' n) rd tx'.
Proof.
  intros n Hx Hst Hi V Hs E. assert (mqtt_is_connected c = true) as Hc by (unfold mqtt_is_connected; now rewrite Hst).
  destruct x as [now|t p|f|f]; cbn [request_ok mcall_run] in *; [contradiction| | |];
    apply run_split in E; destruct E as (y & sch1 & ch1 & E1 & E2); cbn [run] in E2; injection E2 as _ <- _ <-.
  - destruct (publish_run c t p ch rd tx Hc V sch Hs) as (z & sc & c1 & E & H). rewrite E1 in E. injection E as <- _ <-.
    destruct H as [(-> & V')|(-> & _ & V')]; cbn [snd]; eauto 6.
  - destruct Hx as (Hf & Hl). destruct (subscribe_run c f ch rd tx Hc Hi V Hf Hl sch Hs) as (z & sc & c1 & E & H). rewrite E1 in E. injection E as <- _ <-.
    destruct H as [(-> & V')|(-> & _ & V')]; cbn [snd]; (split; [reflexivity|]; split; [reflexivity|]; split; [exact (next_id (mq_sn c) c Hi)|]; eauto).
  - destruct Hx as (Hf & Hl). destruct (unsubscribe_run c f ch rd tx Hc Hi V Hf Hl sch Hs) as (z & sc & c1 & E & H). rewrite E1 in E. injection E as <- _ <-.
    destruct H as [(-> & V')|(-> & _ & V')]; cbn [snd]; (split; [reflexivity|]; split; [reflexivity|]; split; [exact (next_id (mq_sn c) c Hi)|]; eauto).
Qed.

(** ** Histories *)
Lemma stream_bytes ms : Forall message_ok ms -> bytes_ok (message_stream ms).
Proof. unfold message_stream. induction 1 as [|m ms (H & _) _ IH]; cbn; [constructor|]. apply bytes_ok_app. auto. Qed.
Lemma stream_app a b : message_stream (a ++ b) = message_stream a ++ message_stream b.
Proof. unfold message_stream. now rewrite map_app, concat_app. Qed.
Lemma suffix_bytes s rd tx k ms missing : tcp_view s (rd ++ message_stream (firstn k ms)) tx -> Forall message_ok ms ->
  s_rxlog s ++ missing = rd ++ message_stream ms -> bytes_ok (unread s).
Proof.
  intros V H E. rewrite (view_log _ _ _ V) in E.
  assert (message_stream ms = message_stream (firstn k ms) ++ message_stream (skipn k ms)) as Es by (rewrite <- stream_app; now rewrite firstn_skipn).
  rewrite Es, <- !app_assoc in E. do 2 apply app_inv_head in E.
  assert (bytes_ok (message_stream (skipn k ms))) as B by (apply stream_bytes; rewrite <- (firstn_skipn k ms) in H; apply Forall_app in H; apply H).
  rewrite <- E in B. apply bytes_ok_app in B. apply B.
Qed.
Lemma tells_some m ops : message_ok m -> tells m ops <> TldNothing.
Proof.
  intros (_ & _ & H). destruct m as [r t p l|i p c|i p c]; cbn [tells]; [discriminate| |]; destruct H as (_ & _ & H); destruct (meaning _ _); (discriminate || contradiction).
Qed.
Lemma talks_longer dbg c ch l c' ch' : talks dbg c ch l c' ch' -> chip_longer ch ch'.
Proof. induction 1; [apply chip_longer_refl| |]; (eapply chip_longer_trans; [eassumption|eapply run_longer; eassumption]). Qed.
Lemma streamed dbg c ch rd tx ms l c' ch' missing : talks dbg c ch l c' ch' ->
  mqtt_is_connected c = true -> st_timeout (mq_st c) = None -> is_u16 (mq_pkt_id c) -> tcp_view (c_sock ch (sn_raw (mq_sn c))) rd tx -> Forall message_ok ms ->
  s_rxlog (c_sock ch' (sn_raw (mq_sn c))) ++ missing = rd ++ message_stream ms ->
  let k := length (news l) in (k <= length ms)%nat /\ Forall2 (fun p m => snd p = tells m (fst p)) (news l) (firstn k ms) /\
  (exists tx', tcp_view (c_sock ch' (sn_raw (mq_sn c))) (rd ++ message_stream (firstn k ms)) tx') /\
  mq_sn c' = mq_sn c /\ mq_st c' = mq_st c /\ is_u16 (mq_pkt_id c').
Proof.
  intros T Hc Ht Hi V Hms. set (n := sn_raw (mq_sn c)) in *.
  assert (st_state (mq_st c) = Ready) as Hst by (unfold mqtt_is_connected in Hc; destruct (st_state (mq_st c)); (discriminate || reflexivity)).
  revert missing. induction T as [|l c1 ch1 fuel now ops sch a sch' c2 ch2 T IH Ho Hs HP E|l c1 ch1 fuel x sch a sch' c2 ch2 T IH Hx Hs E]; intros missing L; cbv zeta.
  - cbn [news filter length firstn]. split; [lia|]. split; [constructor|]. split; [|auto]. exists tx. change (message_stream []) with (@nil Z). now rewrite app_nil_r.
  - destruct (log_before _ _ _ _ (run_longer _ _ _ _ _ _ E n) L) as (mi & L1).
    destruct (IH mi L1) as (Hk & F & (tx1 & V1) & E1 & E2 & Hi1). clear IH. set (k := length (news l)) in *.
    pose proof (suffix_bytes _ _ _ _ _ _ V1 Hms L1) as B1. unfold n in *. rewrite <- E1 in *. rewrite <- E2 in Hst, Ht.
    unfold news in *. rewrite filter_app, app_length. cbn [filter].
    pose proof (firstn_skipn k ms) as Es.
    destruct (skipn k ms) as [|m later] eqn:Ek.
    + rewrite app_nil_r in Es.
      destruct (poll_end dbg fuel c1 now ops sch ch1 _ tx1 a sch' c2 ch2 missing Hst Ht V1 B1 Hs HP E) as (-> & -> & V2); [rewrite Es; exact L|].
      cbn [snd length]. rewrite app_nil_r, Nat.add_0_r. fold k. split; [exact Hk|]. split; [exact F|]. split; [exists tx1; exact V2|]. auto.
    + assert (message_ok m) as Hm.
      { rewrite <- Es in Hms. apply Forall_app in Hms. destruct Hms as (_ & X). now inversion X. }
      assert (rd ++ message_stream ms = (rd ++ message_stream (firstn k ms)) ++ message_bytes m ++ message_stream later) as Em.
      { rewrite <- Es at 1. rewrite stream_app. unfold message_stream at 2. cbn [map concat]. now rewrite <- !app_assoc. }
      rewrite Em in L.
      destruct (poll_first dbg fuel c1 now ops sch ch1 _ tx1 m a sch' c2 ch2 missing _ Hst Ht V1 B1 Hm Ho Hs HP E L) as (-> & [(-> & V2 & _)|(-> & V2)]).
      * cbn [snd length]. rewrite app_nil_r, Nat.add_0_r. fold k. split; [exact Hk|]. split; [exact F|]. split; [exists tx1; exact V2|]. auto.
      * cbn [snd]. pose proof (tells_some m ops Hm) as Hn. assert (firstn (k + 1) ms = firstn k ms ++ [m]) as Ef.
        { rewrite <- Es at 1. rewrite firstn_app, firstn_firstn, firstn_length. replace (Nat.min (k + 1) k) with k by lia. replace (k + 1 - Nat.min k (length ms))%nat with 1%nat by lia. reflexivity. }
        assert (k + 1 <= length ms)%nat as Hk1.
        { rewrite <- Es, app_length, firstn_length. cbn [length]. lia. }
        assert ((if match tells m ops with TldNothing => false | _ => true end then [(ops, tells m ops)] else []) = [(ops, tells m ops)]) as -> by (destruct (tells m ops); [contradiction|reflexivity..]).
        cbn [length]. fold k. rewrite Ef. split; [exact Hk1|]. split; [apply Forall2_app; [exact F|constructor; [reflexivity|constructor]]|].
        split; [|auto]. exists tx1. rewrite stream_app. unfold message_stream at 2. cbn [map concat]. rewrite app_nil_r, app_assoc. exact V2.
  - destruct (log_before _ _ _ _ (run_longer _ _ _ _ _ _ E n) L) as (mi & L1).
    destruct (IH mi L1) as (Hk & F & (tx1 & V1) & E1 & E2 & Hi1). split; [exact Hk|]. split; [exact F|].
    unfold n in *. rewrite <- E1 in V1. rewrite <- E2 in Hst.
    destruct (request_view dbg fuel c1 x sch ch1 _ tx1 a sch' c2 ch2 Hx Hst Hi1 V1 Hs E) as (G1 & G2 & G3 & tx2 & G4). rewrite E1 in G1, G4. split; [exists tx2; exact G4|].
    split; [exact G1|]. split; [congruence|exact G3].
Qed.
(** A poll that finds nothing when everything has arrived. *)
Lemma all_told dbg c ch rd tx ms l c1 ch1 fuel now ops sch sch' c2 ch2 : talks dbg c ch l c1 ch1 ->
  mqtt_is_connected c = true -> st_timeout (mq_st c) = None -> is_u16 (mq_pkt_id c) -> tcp_view (c_sock ch (sn_raw (mq_sn c))) rd tx -> Forall message_ok ms ->
  s_rxlog (c_sock ch1 (sn_raw (mq_sn c))) = rd ++ message_stream ms ->
  Forall pub_op_ok ops -> no_faults sch -> no_link_change (seen_ir sch ch1 (sn_raw (mq_sn c))) ->
  run (poll dbg fuel c1 now ops) sch ch1 = (Done (TldNothing, c2), sch', ch2) -> Forall2 (fun p m => snd p = tells m (fst p)) (news l) ms.
Proof.
  intros T Hc Ht Hi V Hms L1 Ho Hs HP E.
  destruct (streamed _ _ _ _ _ ms _ _ _ [] T Hc Ht Hi V Hms) as (Hk & F & (tx1 & V1) & E1 & E2 & Hi1); [now rewrite app_nil_r|].
  assert (st_state (mq_st c) = Ready) as Hst by (unfold mqtt_is_connected in Hc; destruct (st_state (mq_st c)); (discriminate || reflexivity)).
  set (k := length (news l)) in *. pose proof (firstn_skipn k ms) as Es. destruct (skipn k ms) as [|m later] eqn:Ek; [rewrite app_nil_r in Es; now rewrite Es in F|]. exfalso.
  assert (message_ok m) as Hm.
  { rewrite <- Es in Hms. apply Forall_app in Hms. destruct Hms as (_ & X). now inversion X. }
  assert (rd ++ message_stream ms = (rd ++ message_stream (firstn k ms)) ++ message_bytes m ++ message_stream later) as Em.
  { rewrite <- Es at 1. rewrite stream_app. unfold message_stream at 2. cbn [map concat]. now rewrite <- !app_assoc. }
  pose proof (view_log _ _ _ V1) as U. rewrite L1, Em in U. apply app_inv_head in U.
  pose proof (suffix_bytes _ _ _ _ ms [] V1 Hms ltac:(now rewrite app_nil_r)) as B1. destruct (run_longer _ _ _ _ _ _ E (sn_raw (mq_sn c))) as (new & _ & L2). rewrite L1, Em, <- !app_assoc in L2. rewrite <- E1 in *. rewrite <- E2 in Hst, Ht.
  destruct (poll_first dbg fuel c1 now ops sch ch1 _ tx1 m _ sch' c2 ch2 [] (message_stream later ++ new) Hst Ht V1 B1 Hm Ho Hs HP E) as (_ & [(_ & _ & X)|(X & _)]); [rewrite app_nil_r, <- app_assoc; exact L2| |].
  - exact (X _ (eq_sym U)).
  - now apply (tells_some m ops Hm).
Qed.

(** ** Every poll returns *)
Lemma talks_id dbg c ch l c' ch' : talks dbg c ch l c' ch' -> forall rd tx ms missing,
  mqtt_is_connected c = true -> st_timeout (mq_st c) = None -> is_u16 (mq_pkt_id c) -> tcp_view (c_sock ch (sn_raw (mq_sn c))) rd tx -> Forall message_ok ms ->
  s_rxlog (c_sock ch' (sn_raw (mq_sn c))) ++ missing = rd ++ message_stream ms -> mq_client_id c' = mq_client_id c.
Proof.
  induction 1 as [|l c1 ch1 fuel now ops sch a sch' c2 ch2 T IH Ho Hs HP E|l c1 ch1 fuel x sch a sch' c2 ch2 T IH Hx Hs E]; intros rd tx ms missing Hc Ht Hi V Hms L; [reflexivity| |].
  - destruct (log_before _ _ _ _ (run_longer _ _ _ _ _ _ E _) L) as (mi & L1). rewrite <- (IH _ _ _ _ Hc Ht Hi V Hms L1). clear IH.
    destruct (streamed _ _ _ _ _ _ _ _ _ _ T Hc Ht Hi V Hms L1) as (_ & _ & (tx1 & V1) & E1 & E2 & _). pose proof (suffix_bytes _ _ _ _ _ _ V1 Hms L1) as B1.
    assert (st_state (mq_st c1) = Ready) as Hst by (rewrite E2; unfold mqtt_is_connected in Hc; destruct (st_state (mq_st c)); (discriminate || reflexivity)).
    rewrite <- E1 in *. rewrite <- E2 in Ht. set (k := length (news l)) in *. pose proof (firstn_skipn k ms) as Es. destruct (skipn k ms) as [|m later] eqn:Ek.
    + rewrite app_nil_r in Es. destruct (poll_end dbg fuel c1 now ops sch ch1 _ tx1 a sch' c2 ch2 missing Hst Ht V1 B1 Hs HP E) as (-> & _); [rewrite Es; exact L|reflexivity].
    + assert (message_ok m) as Hm.
      { rewrite <- Es in Hms. apply Forall_app in Hms. destruct Hms as (_ & X). now inversion X. }
      assert (rd ++ message_stream ms = (rd ++ message_stream (firstn k ms)) ++ message_bytes m ++ message_stream later) as Em.
      { rewrite <- Es at 1. rewrite stream_app. unfold message_stream at 2. cbn [map concat]. now rewrite <- !app_assoc. }
      rewrite Em in L. now destruct (poll_first dbg fuel c1 now ops sch ch1 _ tx1 m a sch' c2 ch2 missing _ Hst Ht V1 B1 Hm Ho Hs HP E L) as (-> & _).
  - destruct (log_before _ _ _ _ (run_longer _ _ _ _ _ _ E _) L) as (mi & L1). rewrite <- (IH _ _ _ _ Hc Ht Hi V Hms L1). clear IH.
    destruct (streamed _ _ _ _ _ _ _ _ _ _ T Hc Ht Hi V Hms L1) as (_ & _ & (tx1 & V1) & E1 & E2 & Hi1).
    assert (mqtt_is_connected c1 = true) as Hc1 by (unfold mqtt_is_connected in *; now rewrite E2). rewrite <- E1 in V1.
    destruct x as [now|t p|f|f]; cbn [request_ok mcall_run] in *; [contradiction| | |];
      apply run_split in E; destruct E as (y & sch1 & ch3 & F1 & F2); cbn [run] in F2; injection F2 as _ <- _ <-.
    + destruct (publish_run c1 t p ch1 _ tx1 Hc1 V1 sch Hs) as (z & sc & c3 & E & H). rewrite F1 in E. injection E as <- _ <-.
      destruct H as [(-> & _)|(-> & _)]; reflexivity.
    + destruct Hx as (Hf & Hl). destruct (subscribe_run c1 f ch1 _ tx1 Hc1 Hi1 V1 Hf Hl sch Hs) as (z & sc & c3 & E & H). rewrite F1 in E. injection E as <- _ <-.
      destruct H as [(-> & _)|(-> & _)]; reflexivity.
    + destruct Hx as (Hf & Hl). destruct (unsubscribe_run c1 f ch1 _ tx1 Hc1 Hi1 V1 Hf Hl sch Hs) as (z & sc & c3 & E & H). rewrite F1 in E. injection E as <- _ <-.
      destruct H as [(-> & _)|(-> & _)]; reflexivity.
Qed.
Lemma poll_returns dbg c ch rd tx ms l c1 ch1 missing fuel now ops sch : talks dbg c ch l c1 ch1 ->
  mqtt_is_connected c = true -> st_timeout (mq_st c) = None -> is_u16 (mq_pkt_id c) -> (forall i, mq_client_id c = Some i -> zlen i <= 23) ->
  tcp_view (c_sock ch (sn_raw (mq_sn c))) rd tx -> Forall message_ok ms ->
  s_rxlog (c_sock ch1 (sn_raw (mq_sn c))) ++ missing = rd ++ message_stream ms -> Forall pub_op_ok ops -> no_faults sch ->
  exists a sch' c2 ch2, run (poll dbg fuel c1 now ops) sch ch1 = (Done (a, c2), sch', ch2).
Proof.
  intros T Hc Ht Hi Hid V Hms L Ho Hs. destruct (streamed _ _ _ _ _ _ _ _ _ _ T Hc Ht Hi V Hms L) as (_ & _ & (tx1 & V1) & E1 & E2 & _).
  pose proof (suffix_bytes _ _ _ _ _ _ V1 Hms L) as B1. pose proof (talks_id _ _ _ _ _ _ T _ _ _ _ Hc Ht Hi V Hms L) as E3.
  assert (serving c1 now ch1 (rd ++ message_stream (firstn (length (news l)) ms)) tx1) as S.
  { unfold serving. rewrite E1. split; [rewrite E2; unfold mqtt_is_connected in Hc; destruct (st_state (mq_st c)); discriminate|]. split; [unfold clock_ok; now rewrite E2, Ht|]. auto. }
  rewrite <- E3 in Hid. destruct (s_any dbg fuel c1 now ch1 _ tx1 ops true S Hid Ho sch Hs) as (z & sc & c2 & E & _).
  unfold pub_session in E. apply run_split in E. destruct E as (x & sch1 & ch2 & F1 & F2). unfold poll. rewrite run_bind, F1.
  destruct x as [[[]|e] c']; cbn [fst snd] in *; try (cbn [run]; eauto 6; fail).
  apply run_split in F2. destruct F2 as (y & sch2 & ch3 & G1 & G2). rewrite run_bind, G1. apply run_split in G2. destruct G2 as (d & sch3 & ch4 & H1 & H2). rewrite run_bind, H1. cbn [run]. eauto 6.
Qed.

(** ** The example *)
Definition case_client : MqttClient := mkMqtt Sn3 50000 ([10; 0; 0; 9], 1883) (Some [99]) (mkST Ready None) 65534.
Definition case_ms : list message := [MsgPublish false [116; 47] [1; 1] [7; 8; 9]; MsgSubAck 65535 [] 0x87].
Lemma case_ms_ok : Forall message_ok case_ms.
Proof.
  repeat constructor; try discriminate; try (cbn; lia); try (intros X; vm_compute in X; discriminate).
  all: vm_compute; repeat constructor; discriminate.
Qed.
Definition rest_arrives : list tick := [tick_of [EvRx (zdrop 4 (message_stream case_ms))]].
Lemma case_calls :
  match run (poll true 5 case_client 100 []) [] (case_conn (ztake 4 (message_stream case_ms))) with
  | (Done (a1, c1), _, ch1) =>
      match run (mcall_run true 5 c1 (CSubscribe [97; 47; 35])) [] ch1 with
      | (Done (_, c2), _, ch2) =>
          match run (poll true 5 c2 101 [PPayload 2; PTopic 9]) rest_arrives ch2 with
          | (Done (a3, c3), _, ch3) =>
              match run (poll true 5 c3 102 []) [] ch3 with
              | (Done (a4, c4), _, ch4) => a1 = TldNothing /\ a3 = TldMessage [Ok [7; 8]; Ok [116; 47]] (Ok tt) /\ a4 = TldSubAck 65535 SA_NotAuthorized /\
                  seen_ir [] (case_conn (ztake 4 (message_stream case_ms))) 3 = 0 /\ seen_ir rest_arrives ch2 3 = 0 /\ seen_ir [] ch3 3 = 0 /\
                  s_rxlog (c_sock ch4 3) = message_stream case_ms /\ mq_pkt_id c4 = 65535
              | _ => False
              end
          | _ => False
          end
      | _ => False
      end
  | _ => False
  end.
Proof. vm_compute. repeat split. Qed.
Lemma case_talks : exists c' ch', talks true case_client (case_conn (ztake 4 (message_stream case_ms)))
    [([], TldNothing); ([PPayload 2; PTopic 9], TldMessage [Ok [7; 8]; Ok [116; 47]] (Ok tt)); ([], TldSubAck 65535 SA_NotAuthorized)] c' ch' /\
    s_rxlog (c_sock ch' 3) = message_stream case_ms /\ mq_pkt_id c' = 65535.
Proof.
  pose proof case_calls as H. assert (forall v, v = 0 -> no_link_change v) as NL by (intros v ->; split; [discriminate|split; discriminate]).
  destruct (run (poll true 5 case_client 100 []) [] (case_conn (ztake 4 (message_stream case_ms)))) as [[[(a1, c1)| |] s1] ch1] eqn:E1; try contradiction.
  destruct (run (mcall_run true 5 c1 (CSubscribe [97; 47; 35])) [] ch1) as [[[(a2, c2)| |] s2] ch2] eqn:E2; try contradiction.
  destruct (run (poll true 5 c2 101 [PPayload 2; PTopic 9]) rest_arrives ch2) as [[[(a3, c3)| |] s3] ch3] eqn:E3; try contradiction.
  destruct (run (poll true 5 c3 102 []) [] ch3) as [[[(a4, c4)| |] s4] ch4] eqn:E4; try contradiction.
  destruct H as (-> & -> & -> & I1 & I3 & I4 & L & P). exists c4, ch4. split; [|auto].
  change [([], TldNothing); ([PPayload 2; PTopic 9], TldMessage [Ok [7; 8]; Ok [116; 47]] (Ok tt)); ([], TldSubAck 65535 SA_NotAuthorized)] with
    ((([] ++ [(@nil pub_op, TldNothing)]) ++ [([PPayload 2; PTopic 9], TldMessage [Ok [7; 8]; Ok [116; 47]] (Ok tt))]) ++ [(@nil pub_op, TldSubAck 65535 SA_NotAuthorized)]).
  eapply TkPoll with (5 := E4); [|constructor|constructor|apply NL; exact I4].
  eapply TkPoll with (5 := E3); [|repeat constructor; cbn; lia|repeat constructor|apply NL; exact I3].
  eapply TkRequest with (4 := E2); [|split; [discriminate|cbn; lia]|constructor].
  eapply TkPoll with (5 := E1); [apply TkNil|constructor|constructor|apply NL; exact I1].
Qed.
