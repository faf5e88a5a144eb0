(** The MQTT client from CONNECT to CONNACK. *)
From Verif Require Import Proof.MqttMainP Proof.MqttStuckP Proof.MqttStreamP Spec.Cases.
From Verif Require Import Spec.Calls.
From Verif Require Proof.SetupRunP Spec.DhcpCases.
From Verif Require Import Model.HlTcp Model.LlBits Model.Ll Model.LlAddr Model.Stream Model.Mqtt Proof.SprogP Spec.MqttStream Spec.MqttConnect.

Lemma connack_body flags props : zlen props < 125 -> zlen ([flags; 0] ++ mprops props) < 128.
Proof.
  intros H. pose proof (zlen_nonneg props). unfold mprops. rewrite !zlen_app, varint_len by lia. change (zlen [flags; 0]) with 2.
  destruct (Z.ltb_spec (zlen props) 128); lia.
Qed.
(** [recv] on the first bytes of a stream that begins with CONNACK. *)
Definition con_end (pkt : list Z) (e : rx_end) (w : list Z) (pos : Z) : Prop := forall missing later, w ++ missing = pkt ++ later ->
  (exists mi, w ++ mi = pkt /\ mi <> [] /\ e = RxNone) \/
  (exists g, w = pkt ++ g /\ e = RxDone (Some Ready) (Ok (Some AConnAck)) /\ pos = zlen pkt).
Lemma recv_con flags props w : zlen props < 125 -> bytes_ok w -> 0 < zlen w <= 16384 ->
  wpa rd_ok (recv_pkt WaitConAck) w 0 False (con_end (connack_packet flags 0 props)).
Proof.
  intros Hp Hb L. set (pkt := connack_packet flags 0 props). pose proof (connack_body flags props Hp) as Hl.
  destruct (list_eq_dec Z.eq_dec (pkt ++ zdrop (zlen pkt) w) w) as [E|E].
  { rewrite <- E. apply (recv_connack_ok 0 flags 0 props (zdrop (zlen pkt) w)); [lia|exact Hl|].
    intros missing later _. right. exists (zdrop (zlen pkt) w). split; [reflexivity|]. split; reflexivity. }
  destruct (list_eq_dec Z.eq_dec (w ++ zdrop (zlen w) pkt) pkt) as [F|F].
  - assert (zdrop (zlen w) pkt <> []) as Hne.
    { intros X. rewrite X, app_nil_r in F. apply E. rewrite <- F. rewrite zdrop_all by lia. apply app_nil_r. }
    eapply (recv_incomplete WaitConAck 2 0 ([flags; 0] ++ mprops props) w (zdrop (zlen w) pkt)); [|intros ->; change (zlen (@nil Z)) with 0 in L; lia|exact Hne|exact F|].
    + split; [lia|]. split; [lia|lia].
    + intros pos missing later _. left. exists (zdrop (zlen w) pkt). auto.
  - eapply wpa_conseq; [apply wpa_rd, (recv_total _ w False Hb L)|]. cbn beta. intros e w' pos (-> & _) missing later X. exfalso.
    destruct (prefix_app _ _ _ _ X) as [(mi & Y & _)|(g & Y & _)].
    + apply F. rewrite <- Y, zdrop_exact. reflexivity.
    + apply E. rewrite Y, zdrop_exact. reflexivity.
Qed.

Lemma process_con dbg fuel c now since ch rd tx flags props : let n := sn_raw (mq_sn c) in let pkt := connack_packet flags 0 props in
  mq_st c = mkST WaitConAck (Some since) -> since <= now <= since + 10 -> tcp_view (c_sock ch n) rd tx ->
  bytes_ok (unread (c_sock ch n)) -> zlen props < 125 ->
  ensures_ir no_link_change (mqtt_process dbg fuel c now) n ch (fun x s' => forall missing later, s_rxlog s' ++ missing = rd ++ pkt ++ later ->
    (x = (Ok (MECallAfter (since + 10 - now)), c) /\ tcp_view s' rd tx /\ forall more, unread (c_sock ch n) <> pkt ++ more) \/
    (x = (Ok MEConnAck, mq_set_state c Ready) /\ tcp_view s' (rd ++ pkt) tx)).
Proof.
  intros n pkt Hst Hn V Hb Hp. assert (clock_ok c now) as Hc by (unfold clock_ok; rewrite Hst; cbn; lia).
  assert (forall x, waits c now x -> x = (Ok (MECallAfter (since + 10 - now)), c)) as Hw.
  { intros x. unfold waits. rewrite Hst. cbn [st_timeout]. intros [(_ & ->)|(X & _)]; [|lia]. now replace (10 - (now - since)) with (since + 10 - now) by lia. }
  apply (process_rx (mq_sn c)) with (rd := rd) (tx := tx) (R := con_end pkt); auto; [rewrite Hst; discriminate|intros new w Hbw Lw; rewrite Hst; now apply recv_con|].
  fold n. change (snz (mq_sn c)) with n.
  intros x s' [(U & W & V')|(new & e & pos & rest & Hbw & Lw & HR & HL & HP)] missing later El.
  { left. split; [auto|]. split; [exact V'|]. intros more X. rewrite U in X. symmetry in X. apply app_eq_nil in X. destruct X as (X & _). now apply packet_ne in X. }
  cbv zeta in *. set (w := unread (c_sock ch n) ++ new) in *. rewrite HL, <- !app_assoc in El. apply app_inv_head in El.
  destruct (HR _ _ El) as [(mi & E & Hne & ->)|(g & E & -> & ->)].
  - left. destruct HP as (W & V'). split; [auto|]. split; [exact V'|]. intros more X. unfold w in E. rewrite X, <- !app_assoc in E. rewrite <- (app_nil_r pkt) in E at 2.
    apply app_inv_head in E. apply app_eq_nil in E. destruct E as (_ & E). apply app_eq_nil in E. tauto.
  - right. rewrite E in *. destruct HP as (V' & ->). rewrite ztake_exact in V'. split; [reflexivity|exact V'].
Qed.
Lemma poll_con dbg fuel c now since ops sch ch rd tx flags props a sch' c' ch' missing later : let n := sn_raw (mq_sn c) in let pkt := connack_packet flags 0 props in
  mq_st c = mkST WaitConAck (Some since) -> since <= now <= since + 10 -> tcp_view (c_sock ch n) rd tx ->
  bytes_ok (unread (c_sock ch n)) -> zlen props < 125 -> no_faults sch -> no_link_change (seen_ir sch ch n) ->
  run (poll dbg fuel c now ops) sch ch = (Done (a, c'), sch', ch') -> s_rxlog (c_sock ch' n) ++ missing = rd ++ pkt ++ later ->
  (a = TldElse (Ok (MECallAfter (since + 10 - now))) /\ c' = c /\ tcp_view (c_sock ch' n) rd tx /\ forall more, unread (c_sock ch n) <> pkt ++ more) \/
  (a = TldElse (Ok MEConnAck) /\ c' = mq_set_state c Ready /\ tcp_view (c_sock ch' n) (rd ++ pkt) tx).
Proof.
  intros n pkt Hst Hn V Hb Hp Hs HP E L. unfold poll in E. apply run_split in E. destruct E as (x & sch1 & ch1 & E1 & E2).
  destruct (process_con dbg fuel c now since ch rd tx flags props Hst Hn V Hb Hp sch Hs HP) as (x' & sc & c1 & E & H). fold n pkt in H.
  rewrite E1 in E. injection E as <- <- <-.
  destruct (log_before _ _ _ _ (run_longer _ _ _ _ _ _ E2 n) L) as (mi & L1).
  destruct (H mi later L1) as [(-> & V1 & Hn1)|(-> & V1)]; cbn [fst snd run] in E2; injection E2 as <- <- _ <-; [left|right]; auto.
Qed.

Lemma unread_bytes s rd tx x missing : tcp_view s rd tx -> bytes_ok x -> s_rxlog s ++ missing = rd ++ x -> bytes_ok (unread s).
Proof.
  intros V Hx E. rewrite (view_log _ _ _ V), <- app_assoc in E. apply app_inv_head in E. rewrite <- E in Hx. apply bytes_ok_app in Hx. apply Hx.
Qed.
Lemma punctual_longer dbg since c ch l c' ch' : mq_punctual dbg since c ch l c' ch' -> chip_longer ch ch'.
Proof. induction 1; [apply chip_longer_refl|]. eapply chip_longer_trans; [eassumption|eapply run_longer; eassumption]. Qed.
Lemma last_asks since l now : Forall (asks_again since) l -> mq_as_asked (last l (since, TldElse (Ok (MECallAfter 10)))) now -> since <= now <= since + 10.
Proof.
  intros F H. destruct l as [|p l] using rev_ind; [exact H|]. rewrite last_last in H. apply Forall_app in F. destruct F as (_ & F). inversion F as [|? ? F1 _]; subst.
  destruct p as (t, a). destruct F1 as (F1 & F2). cbn [fst snd] in *. subst a. cbn in H. lia.
Qed.
(** Until it is connected the client waits; then it is connected. *)
Lemma connects dbg since c ch rd tx flags props more l c' ch' missing : let n := sn_raw (mq_sn c) in let pkt := connack_packet flags 0 props in
  mq_punctual dbg since c ch l c' ch' -> mq_st c = mkST WaitConAck (Some since) -> tcp_view (c_sock ch n) rd tx -> zlen props < 125 -> bytes_ok (pkt ++ more) ->
  s_rxlog (c_sock ch' n) ++ missing = rd ++ pkt ++ more ->
  (Forall (asks_again since) l /\ c' = c /\ tcp_view (c_sock ch' n) rd tx) \/
  (exists l0 t, l = l0 ++ [(t, TldElse (Ok MEConnAck))] /\ Forall (asks_again since) l0 /\ since <= t <= since + 10 /\ c' = mq_set_state c Ready /\ tcp_view (c_sock ch' n) (rd ++ pkt) tx).
Proof.
  intros n pkt P Hst V Hp Hb. revert missing.
  induction P as [|l c1 ch1 fuel now ops sch a sch' c2 ch2 P IH Hc Ha Ho Hs HP E]; intros missing L.
  - left. auto.
  - destruct (log_before _ _ _ _ (run_longer _ _ _ _ _ _ E n) L) as (mi & L1).
    destruct (IH mi L1) as [(F & -> & V1)|(l0 & t & _ & _ & _ & -> & _)]; [|discriminate]. clear IH.
    pose proof (last_asks _ _ _ F Ha) as Hn.
    destruct (poll_con dbg fuel c now since ops sch ch1 rd tx flags props a sch' c2 ch2 missing more Hst Hn V1 (unread_bytes _ _ _ _ _ V1 Hb L1) Hp Hs HP E L) as [(-> & -> & V2 & _)|(-> & -> & V2)].
    + left. split; [apply Forall_app; split; [exact F|constructor; [split; [exact Hn|reflexivity]|constructor]]|]. auto.
    + right. exists l, now. auto.
Qed.
(** When CONNACK has arrived, the next poll finds it. *)
Lemma connects_now dbg since c ch rd tx flags props more l c1 ch1 fuel now ops sch a sch' c2 ch2 missing : let n := sn_raw (mq_sn c) in let pkt := connack_packet flags 0 props in
  mq_punctual dbg since c ch l c1 ch1 -> mq_st c = mkST WaitConAck (Some since) -> tcp_view (c_sock ch n) rd tx -> zlen props < 125 -> bytes_ok (pkt ++ more) ->
  mqtt_is_connected c1 = false -> (exists got, s_rxlog (c_sock ch1 n) = rd ++ pkt ++ got) -> s_rxlog (c_sock ch2 n) ++ missing = rd ++ pkt ++ more ->
  mq_as_asked (last l (since, TldElse (Ok (MECallAfter 10)))) now -> no_faults sch -> no_link_change (seen_ir sch ch1 n) ->
  run (poll dbg fuel c1 now ops) sch ch1 = (Done (a, c2), sch', ch2) -> a = TldElse (Ok MEConnAck) /\ mqtt_is_connected c2 = true.
Proof.
  intros n pkt P Hst V Hp Hb Hc (got & Lg) L Ha Hs HP E.
  destruct (log_before _ _ _ _ (run_longer _ _ _ _ _ _ E n) L) as (mi & L1).
  destruct (connects dbg since c ch rd tx flags props more l c1 ch1 mi P Hst V Hp Hb L1) as [(F & -> & V1)|(l0 & t & _ & _ & _ & -> & _)]; [|discriminate].
  destruct (poll_con dbg fuel c now since ops sch ch1 rd tx flags props a sch' c2 ch2 missing more Hst (last_asks _ _ _ F Ha) V1 (unread_bytes _ _ _ _ _ V1 Hb L1) Hp Hs HP E L) as [(_ & _ & _ & X)|(-> & -> & V2)].
  - exfalso. pose proof (view_log _ _ _ V1) as U. fold n in U. rewrite Lg in U. apply app_inv_head in U. exact (X got (eq_sym U)).
  - split; reflexivity.
Qed.
(** Every [process] returns. *)
Lemma connect_returns dbg since c ch rd tx flags props more l c1 ch1 fuel now sch missing : let n := sn_raw (mq_sn c) in let pkt := connack_packet flags 0 props in
  mq_punctual dbg since c ch l c1 ch1 -> mq_st c = mkST WaitConAck (Some since) -> tcp_view (c_sock ch n) rd tx -> zlen props < 125 -> bytes_ok (pkt ++ more) ->
  mqtt_is_connected c1 = false -> s_rxlog (c_sock ch1 n) ++ missing = rd ++ pkt ++ more ->
  mq_as_asked (last l (since, TldElse (Ok (MECallAfter 10)))) now -> no_faults sch -> no_link_change (seen_ir sch ch1 n) ->
  exists x sch' ch2, run (mqtt_process dbg fuel c1 now) sch ch1 = (Done x, sch', ch2).
Proof.
  intros n pkt P Hst V Hp Hb Hc L1 Ha Hs HP.
  destruct (connects dbg since c ch rd tx flags props more l c1 ch1 missing P Hst V Hp Hb L1) as [(F & -> & V1)|(l0 & t & _ & _ & _ & -> & _)]; [|discriminate].
  destruct (process_con dbg fuel c now since ch1 rd tx flags props Hst (last_asks _ _ _ F Ha) V1 (unread_bytes _ _ _ _ _ V1 Hb L1) Hp sch Hs HP) as (x & sc & c2 & E & _). eauto.
Qed.

(** From the TCP connection to the packets. *)
Lemma session dbg fuel c now ops ch rd tx sch a sch' c0 ch0 flags props ms l1 c1 ch1 l2 c2 ch2 missing :
  let n := sn_raw (mq_sn c) in let connect := connect_of c (c_sock ch n) in let connack := connack_packet flags 0 props in
  serving c now ch rd tx -> (forall i, mq_client_id c = Some i -> zlen i <= 23) -> zlen connect <= room (c_sock ch n) -> is_u16 (mq_pkt_id c) ->
  zlen props < 125 -> bytes_ok connack -> Forall message_ok ms ->
  no_faults sch -> ir_bit 0 (seen_ir sch ch n) -> ~ ir_bit 1 (seen_ir sch ch n) -> run (poll dbg fuel c now ops) sch ch = (Done (a, c0), sch', ch0) ->
  mq_punctual dbg now c0 ch0 l1 c1 ch1 -> mqtt_is_connected c1 = true -> talks dbg c1 ch1 l2 c2 ch2 ->
  s_rxlog (c_sock ch2 n) ++ missing = rd ++ connack ++ message_stream ms ->
  a = TldElse (Ok (MECallAfter 10)) /\ tcp_view (c_sock ch0 n) rd (tx ++ connect) /\
  (exists l0 t, l1 = l0 ++ [(t, TldElse (Ok MEConnAck))] /\ Forall (asks_again now) l0 /\ now <= t <= now + 10 /\ tcp_view (c_sock ch1 n) (rd ++ connack) (tx ++ connect)) /\
  let k := length (news l2) in (k <= length ms)%nat /\ Forall2 (fun p m => snd p = tells m (fst p)) (news l2) (firstn k ms) /\
  (exists tx', tcp_view (c_sock ch2 n) (rd ++ connack ++ message_stream (firstn k ms)) tx') /\ mqtt_is_connected c2 = true.
Proof.
  intros n connect connack Hsv Hid Hr Hi Hp Hb Hms Hs H0 H1 E P Hc T L.
  assert (bytes_ok (connack ++ message_stream ms)) as Hb2 by (apply bytes_ok_app; split; [exact Hb|now apply stream_bytes]).
  unfold poll in E. apply run_split in E. destruct E as (x & sch1 & chx & E1 & E2).
  destruct (s_con dbg fuel c now ch rd tx Hsv Hid sch Hs (conj H0 H1)) as (x' & sc & cx & E & H). rewrite E1 in E. injection E as <- <- <-.
  destruct H as [(-> & V0)|(-> & X & _)]; [|exfalso; fold n connect in X; clear - X Hr; lia].
  cbn [fst snd run] in E2. injection E2 as <- <- _ <-. split; [reflexivity|]. split; [exact V0|].
  destruct (log_before _ _ _ _ (talks_longer _ _ _ _ _ _ T n) L) as (mi & L1).
  set (cw := mq_set_timeout c WaitConAck now) in *. change n with (sn_raw (mq_sn cw)) in V0, L1.
  destruct (connects dbg now cw chx rd _ flags props (message_stream ms) l1 c1 ch1 mi P eq_refl V0 Hp Hb2 L1) as [(_ & -> & _)|(l0 & t & -> & F & Ht & -> & V1)]; [discriminate|].
  split; [exists l0, t; auto|].
  rewrite app_assoc in L.
  destruct (streamed dbg _ ch1 _ _ ms l2 c2 ch2 missing T eq_refl eq_refl Hi V1 Hms L) as (Hk & F2 & (tx2 & V2) & S1 & S2 & _).
  split; [exact Hk|]. split; [exact F2|]. split; [exists tx2; rewrite app_assoc; exact V2|]. unfold mqtt_is_connected. now rewrite S2.
Qed.

(** From the first call on. *)
Lemma from_start dbg fuel0 c start ch sch0 a0 sch0' c0 ch0 ch1 fuel now ops sch a sch' c1 ch2 flags props ms l1 c2 ch3 l2 c3 ch4 missing :
  let n := sn_raw (mq_sn c) in let s := c_sock ch n in let rd := s_rxlog (c_sock ch0 n) in let tx := sent (c_sock ch0 n) in
  let connect := connect_of c (c_sock ch1 n) in let connack := connack_packet flags 0 props in
  st_state (mq_st c) = MInit -> is_u16 (mq_src_port c) -> addr_ok (mq_server c) -> sizes_ok s -> (forall i, mq_client_id c = Some i -> zlen i <= 23) -> is_u16 (mq_pkt_id c) ->
  no_faults sch0 -> run (mqtt_process dbg fuel0 c start) sch0 ch = (Done (a0, c0), sch0', ch0) ->
  only_events (c_sock ch0 n) (c_sock ch1 n) -> tcp_open (c_sock ch1 n) -> zlen connect <= room (c_sock ch1 n) -> start <= now ->
  zlen props < 125 -> bytes_ok connack -> Forall message_ok ms ->
  no_faults sch -> ir_bit 0 (seen_ir sch ch1 n) -> ~ ir_bit 1 (seen_ir sch ch1 n) -> run (poll dbg fuel c0 now ops) sch ch1 = (Done (a, c1), sch', ch2) ->
  mq_punctual dbg now c1 ch2 l1 c2 ch3 -> mqtt_is_connected c2 = true -> talks dbg c2 ch3 l2 c3 ch4 ->
  s_rxlog (c_sock ch4 n) ++ missing = rd ++ connack ++ message_stream ms ->
  a0 = Ok (MECallAfter 10) /\ configured (c_sock ch0 n) 1 (mq_src_port c) (mq_server c) /\ s_sr (c_sock ch0 n) = 0x15 /\
  a = TldElse (Ok (MECallAfter 10)) /\ tcp_view (c_sock ch2 n) rd (tx ++ connect) /\
  (exists l0 t, l1 = l0 ++ [(t, TldElse (Ok MEConnAck))] /\ Forall (asks_again now) l0 /\ now <= t <= now + 10 /\ tcp_view (c_sock ch3 n) (rd ++ connack) (tx ++ connect)) /\
  let k := length (news l2) in (k <= length ms)%nat /\ Forall2 (fun p m => snd p = tells m (fst p)) (news l2) (firstn k ms) /\
  (exists tx', tcp_view (c_sock ch4 n) (rd ++ connack ++ message_stream (firstn k ms)) tx') /\ mqtt_is_connected c3 = true.
Proof.
  intros n s rd tx connect connack Hst Hport Haddr Hsz Hid Hi Hs0 E0 Ho Ht Hr Hnow Hp Hb Hms Hs H0 H1 E P Hc T L.
  destruct (SetupRunP.mqtt dbg fuel0 c start ch sch0 _ sch0' ch0 Hport Haddr Hsz Hst Hs0 E0) as (X & _ & Cf & Sr & _ & V). injection X as -> ->.
  specialize (V _ Ho Ht). split; [reflexivity|]. split; [exact Cf|]. split; [exact Sr|].
  set (cw := mq_set_timeout c WaitConInt start) in *.
  assert (chip_longer ch1 ch4) as Lg.
  { eapply chip_longer_trans; [eapply run_longer; exact E|]. eapply chip_longer_trans; [eapply punctual_longer; exact P|eapply talks_longer; exact T]. }
  destruct (log_before _ _ _ _ (Lg n) L) as (mi & L1).
  assert (bytes_ok (connack ++ message_stream ms)) as Hb2 by (apply bytes_ok_app; split; [exact Hb|now apply stream_bytes]).
  assert (serving cw now ch1 rd tx) as Hsv.
  { split; [discriminate|]. split; [exact Hnow|]. split; [exact V|]. exact (unread_bytes _ _ _ _ _ V Hb2 L1). }
  exact (session dbg fuel cw now ops ch1 rd tx sch a sch' c1 ch2 flags props ms l1 c2 ch3 l2 c3 ch4 missing Hsv Hid Hr Hi Hp Hb Hms Hs H0 H1 E P Hc T L).
Qed.

(** ** The case: CONNACK with the properties of a broker arrives in two pieces, the second together with a message. *)
Definition con_case : MqttClient := mkMqtt Sn3 50000 ([10; 0; 0; 9], 1883) (Some [99]) (mkST WaitConInt (Some 95)) 65534.
Definition con_connack : list Z := connack_packet 0 0 [0x22; 0; 10; 0x21; 0; 20].
Definition con_ms : list message := [MsgPublish false [116; 47] [1; 1] [7; 8; 9]].
Definition con_up : list tick := [tick_of [EvIr 1]].
Definition con_some : list tick := [tick_of [EvRx (ztake 3 con_connack)]].
Definition con_rest : list tick := [tick_of [EvRx (zdrop 3 con_connack ++ message_stream con_ms)]].
Lemma con_ms_ok : Forall message_ok con_ms.
Proof. repeat constructor; vm_compute; discriminate. Qed.
Lemma con_serving : serving con_case 100 (case_conn []) [] case_tcp_unsent.
Proof. split; [discriminate|]. split; [cbn; lia|]. split; [case_tcp_view|constructor]. Qed.
Lemma con_calls :
  match run (poll true 5 con_case 100 []) con_up (case_conn []) with
  | (Done (a0, c0), _, ch0) =>
    match run (poll true 5 c0 105 []) con_some ch0 with
    | (Done (a1, c1), _, ch1) =>
      match run (poll true 5 c1 110 []) con_rest ch1 with
      | (Done (a2, c2), _, ch2) =>
        match run (poll true 5 c2 500 [PPayload 2]) [] ch2 with
        | (Done (a3, c3), _, ch3) =>
          a0 = TldElse (Ok (MECallAfter 10)) /\ a1 = TldElse (Ok (MECallAfter 5)) /\ a2 = TldElse (Ok MEConnAck) /\ a3 = TldMessage [Ok [7; 8]] (Ok tt) /\
          (mqtt_is_connected c0 = false /\ mqtt_is_connected c1 = false /\ mqtt_is_connected c2 = true /\ mq_sn c0 = Sn3 /\ mq_sn c2 = Sn3) /\
          (seen_ir con_some ch0 3 = 0 /\ seen_ir con_rest ch1 3 = 0 /\ seen_ir [] ch2 3 = 0) /\
          s_rxlog (c_sock ch3 3) = con_connack ++ message_stream con_ms
        | _ => False end
      | _ => False end
    | _ => False end
  | _ => False end.
Proof. vm_compute. repeat split. Qed.
Lemma con_history : exists sch' c0 ch0 c1 ch1 c2 ch2,
  run (poll true 5 con_case 100 []) con_up (case_conn []) = (Done (TldElse (Ok (MECallAfter 10)), c0), sch', ch0) /\
  mq_punctual true 100 c0 ch0 [(105, TldElse (Ok (MECallAfter 5))); (110, TldElse (Ok MEConnAck))] c1 ch1 /\ mqtt_is_connected c1 = true /\
  talks true c1 ch1 [([PPayload 2], TldMessage [Ok [7; 8]] (Ok tt))] c2 ch2 /\
  s_rxlog (c_sock ch2 3) = con_connack ++ message_stream con_ms.
Proof.
  pose proof con_calls as H. assert (forall v, v = 0 -> no_link_change v) as NL by (intros v ->; split; [discriminate|split; discriminate]).
  destruct (run (poll true 5 con_case 100 []) con_up (case_conn [])) as [[[(a0, c0)| |] s0] ch0] eqn:E0; try contradiction.
  destruct (run (poll true 5 c0 105 []) con_some ch0) as [[[(a1, c1)| |] s1] ch1] eqn:E1; try contradiction.
  destruct (run (poll true 5 c1 110 []) con_rest ch1) as [[[(a2, c2)| |] s2] ch2] eqn:E2; try contradiction.
  destruct (run (poll true 5 c2 500 [PPayload 2]) [] ch2) as [[[(a3, c3)| |] s3] ch3] eqn:E3; try contradiction.
  destruct H as (-> & -> & -> & -> & (C0 & C1 & C2 & N0 & N2) & (I1 & I2 & I3) & L).
  exists s0, c0, ch0, c2, ch2, c3, ch3. split; [reflexivity|]. split; [|split; [exact C2|split; [|exact L]]].
  - change [(105, TldElse (Ok (MECallAfter 5))); (110, TldElse (Ok MEConnAck))] with (([] ++ [(105, TldElse (Ok (MECallAfter 5)))]) ++ [(110, TldElse (Ok MEConnAck))]).
    eapply PqPoll with (7 := E2); [|exact C1|cbn; lia|constructor|repeat constructor|rewrite N0; apply NL; exact I2].
    eapply PqPoll with (7 := E1); [apply PqNil|exact C0|cbn; lia|constructor|repeat constructor|rewrite N0; apply NL; exact I1].
  - change [([PPayload 2], TldMessage [Ok [7; 8]] (Ok tt))] with ([] ++ [([PPayload 2], TldMessage [Ok [7; 8]] (Ok tt))]).
    eapply TkPoll with (5 := E3); [apply TkNil|repeat constructor; cbn; lia|constructor|rewrite N2; apply NL; exact I3].
Qed.

(** The same from the first call on, on a chip whose socket is in use. *)
Definition start_case : MqttClient := mkMqtt Sn3 50000 ([10; 0; 0; 9], 1883) (Some [99]) (mkST MInit None) 65534.
Definition established (ch : chip) : chip := chip_evs ch (t_evs (tick_of [EvCommit 5 6; EvConnected 77 88])).
Lemma start_calls :
  match run (mqtt_process false 9 start_case 95) DhcpCases.case_ticks case_udp with
  | (Done (a0, c0), _, ch0) =>
    match run (poll false 5 c0 100 []) con_up (established ch0) with
    | (Done (a1, c1), _, ch1) =>
      match run (poll false 5 c1 105 []) con_some ch1 with
      | (Done (a2, c2), _, ch2) =>
        match run (poll false 5 c2 110 []) con_rest ch2 with
        | (Done (a3, c3), _, ch3) =>
          match run (poll false 5 c3 500 [PPayload 2]) [] ch3 with
          | (Done (a4, c4), _, ch4) =>
            a0 = Ok (MECallAfter 10) /\ a1 = TldElse (Ok (MECallAfter 10)) /\ a2 = TldElse (Ok (MECallAfter 5)) /\ a3 = TldElse (Ok MEConnAck) /\ a4 = TldMessage [Ok [7; 8]] (Ok tt) /\
            (mqtt_is_connected c1 = false /\ mqtt_is_connected c2 = false /\ mqtt_is_connected c3 = true /\ mq_sn c1 = Sn3 /\ mq_sn c3 = Sn3) /\
            (seen_ir con_up (established ch0) 3 = 1 /\ seen_ir con_some ch1 3 = 0 /\ seen_ir con_rest ch2 3 = 0 /\ seen_ir [] ch3 3 = 0) /\
            (s_pend (c_sock (established ch0) 3) = None /\ data_state (s_sr (c_sock (established ch0) 3)) = true /\
             zlen (connect_of start_case (c_sock (established ch0) 3)) = 21 /\ room (c_sock (established ch0) 3) = 2048) /\
            s_rxlog (c_sock ch4 3) = s_rxlog (c_sock ch0 3) ++ con_connack ++ message_stream con_ms
          | _ => False end
        | _ => False end
      | _ => False end
    | _ => False end
  | _ => False end.
Proof. vm_compute. repeat split. Qed.
Lemma start_history : exists sch0' c0 ch0 sch' c1 ch2 c2 ch3 c3 ch4,
  run (mqtt_process false 9 start_case 95) DhcpCases.case_ticks case_udp = (Done (Ok (MECallAfter 10), c0), sch0', ch0) /\
  only_events (c_sock ch0 3) (c_sock (established ch0) 3) /\ tcp_open (c_sock (established ch0) 3) /\
  zlen (connect_of start_case (c_sock (established ch0) 3)) <= room (c_sock (established ch0) 3) /\ seen_ir con_up (established ch0) 3 = 1 /\
  run (poll false 5 c0 100 []) con_up (established ch0) = (Done (TldElse (Ok (MECallAfter 10)), c1), sch', ch2) /\
  mq_punctual false 100 c1 ch2 [(105, TldElse (Ok (MECallAfter 5))); (110, TldElse (Ok MEConnAck))] c2 ch3 /\ mqtt_is_connected c2 = true /\
  talks false c2 ch3 [([PPayload 2], TldMessage [Ok [7; 8]] (Ok tt))] c3 ch4 /\
  s_rxlog (c_sock ch4 3) = s_rxlog (c_sock ch0 3) ++ con_connack ++ message_stream con_ms.
Proof.
  pose proof start_calls as H. assert (forall v, v = 0 -> no_link_change v) as NL by (intros v ->; split; [discriminate|split; discriminate]).
  destruct (run (mqtt_process false 9 start_case 95) DhcpCases.case_ticks case_udp) as [[[(a0, c0)| |] s0] ch0]; try contradiction.
  destruct (run (poll false 5 c0 100 []) con_up (established ch0)) as [[[(a1, c1)| |] s1] ch1] eqn:E0; try contradiction.
  destruct (run (poll false 5 c1 105 []) con_some ch1) as [[[(a2, c2)| |] s2] ch2] eqn:E1; try contradiction.
  destruct (run (poll false 5 c2 110 []) con_rest ch2) as [[[(a3, c3)| |] s3] ch3] eqn:E2; try contradiction.
  destruct (run (poll false 5 c3 500 [PPayload 2]) [] ch3) as [[[(a4, c4)| |] s4] ch4] eqn:E3; try contradiction.
  destruct H as (-> & -> & -> & -> & -> & (C0 & C1 & C2 & N0 & N2) & (I0 & I1 & I2 & I3) & (O1 & O2 & Z1 & Z2) & L).
  exists s0, c0, ch0, s1, c1, ch1, c3, ch3, c4, ch4. split; [reflexivity|]. split; [exists [EvCommit 5 6; EvConnected 77 88]; reflexivity|].
  split; [split; [exact O1|now left]|]. split; [rewrite Z1, Z2; lia|]. split; [exact I0|]. split; [exact E0|]. split; [|split; [exact C2|split; [|exact L]]].
  - change [(105, TldElse (Ok (MECallAfter 5))); (110, TldElse (Ok MEConnAck))] with (([] ++ [(105, TldElse (Ok (MECallAfter 5)))]) ++ [(110, TldElse (Ok MEConnAck))]).
    eapply PqPoll with (7 := E2); [|exact C1|cbn; lia|constructor|repeat constructor|rewrite N0; apply NL; exact I2].
    eapply PqPoll with (7 := E1); [apply PqNil|exact C0|cbn; lia|constructor|repeat constructor|rewrite N0; apply NL; exact I1].
  - change [([PPayload 2], TldMessage [Ok [7; 8]] (Ok tt))] with ([] ++ [([PPayload 2], TldMessage [Ok [7; 8]] (Ok tt))]).
    eapply TkPoll with (5 := E3); [apply TkNil|repeat constructor; cbn; lia|constructor|rewrite N2; apply NL; exact I3].
Qed.
