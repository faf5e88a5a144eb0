(** What [process] makes of the packets in the receive buffer. *)
From Verif Require Export Proof.MqttRxP.
From Verif Require Import Model.HlTcp Model.LlBits Model.Ll Model.LlAddr Model.Stream Model.Mqtt Proof.SprogP.

Lemma ensures_ir_bind {A B} P (p : prog A) (f : A -> prog B) n c (Q : A -> sock -> Prop) (Q' : B -> sock -> Prop) : 0 <= n ->
  ensures_ir P p n c Q -> (forall a s, Q a s -> wps (f a) n s False Q') -> ensures_ir P (bind p f) n c Q'.
Proof.
  intros Hn H HF sch Hs HP. destruct (H sch Hs HP) as (a & sch1 & c1 & E & HQ). rewrite run_bind, E.
  pose proof (wps_sound (f a) n c1 False Q' sch1 Hn (HF _ _ HQ) (run_no_faults p sch c _ _ _ Hs E)) as R.
  destruct (run (f a) sch1 c1) as [[[b| |] sch2] c2]; try contradiction. exists b, sch2, c2. split; [reflexivity|apply R].
Qed.
Lemma ensures_ir_mono {A} (P P' : Z -> Prop) (p : prog A) n c (Q Q' : A -> sock -> Prop) :
  ensures_ir P p n c Q -> (forall v, P' v -> P v) -> (forall a s, Q a s -> Q' a s) -> ensures_ir P' p n c Q'.
Proof. intros H HP HQ sch Hs Hv. destruct (H sch Hs (HP _ Hv)) as (a & sch' & c' & E & R). eauto 7. Qed.

(** A reader does not change the bytes. *)
Lemma wpa_rd {A} (p : sprog A) : forall w pos D (Q : A -> list Z -> Z -> Prop),
  wpa rd_ok p w pos D Q -> wpa rd_ok p w pos D (fun a w' pos' => w' = w /\ Q a w' pos').
Proof.
  induction p as [a|o k IH|q k IH| |]; cbn [wpa]; intros w pos D Q H; auto.
  destruct H as (Ho & H). split; [exact Ho|]. destruct Ho as (_ & Ho). destruct (astep w pos o) as [[x w'] pos'] eqn:E.
  assert (w' = w) as ->; [|now apply IH]. clear H. destruct o; cbn [reader_op] in Ho; try discriminate; cbn [astep] in E.
  - destruct ((0 <=? target (zlen w) pos p) && (target (zlen w) pos p <=? zlen w)); congruence.
  - congruence.
  - congruence.
  - destruct (n <=? zlen w - pos); congruence.
Qed.
Lemma match_meaning {A} (code : A -> Z) all v :
  match_code code all v = match meaning (map (fun c => (code c, c)) all) v with Some c => Ok c | None => Err v end.
Proof.
  unfold match_code, meaning. induction all as [|c all IH]; [reflexivity|]. cbn [map find fst].
  rewrite (Z.eqb_sym v). destruct (code c =? v); [reflexivity|exact IH].
Qed.
Lemma connack_meaning v : connect_try_from v = match meaning connack_codes v with Some c => Ok c | None => Err v end.
Proof. exact (match_meaning connect_code connect_all v). Qed.
Lemma suback_meaning v : suback_try_from v = match meaning suback_codes v with Some c => Ok c | None => Err v end.
Proof. exact (match_meaning suback_code suback_all v). Qed.
Lemma unsuback_meaning v : unsuback_try_from v = match meaning unsuback_codes v with Some c => Ok c | None => Err v end.
Proof. exact (match_meaning unsuback_code unsuback_all v). Qed.

Section Proc.
Context (sn : Sn).
Let n := snz sn.
Notation view := tcp_view.

(** ** Changes of the link *)
Lemma process_discon dbg fuel c now ch rd tx : mq_sn c = sn -> st_state (mq_st c) <> MInit -> view (c_sock ch n) rd tx ->
  ensures_ir (ir_bit 1) (mqtt_process dbg fuel c now) n ch (fun x s' => x = (Err MDisconnect, mq_set_state c MInit) /\ view s' rd tx).
Proof.
  intros Hsn Hst V. apply (process_ir sn) with (rd := rd) (tx := tx); auto. intros v s1 n1 H V1 U1 _ _ _. unfold ir_bit in H.
  rewrite H. cbn [wps]. auto.
Qed.
Lemma process_tcp_timeout dbg fuel c now ch rd tx : mq_sn c = sn -> st_state (mq_st c) <> MInit -> view (c_sock ch n) rd tx ->
  ensures_ir (fun v => ir_bit 3 v /\ ~ ir_bit 0 v /\ ~ ir_bit 1 v) (mqtt_process dbg fuel c now) n ch
    (fun x s' => x = (Err MTcpTimeout, mq_set_state c MInit) /\ view s' rd tx).
Proof.
  intros Hsn Hst V. apply (process_ir sn) with (rd := rd) (tx := tx); auto. intros v s1 n1 (H3 & H0 & H1) V1 U1 _ _ _. unfold ir_bit in *.
  destruct (Z.testbit v 1); [now destruct H1|]. destruct (Z.testbit v 0); [now destruct H0|]. rewrite H3. cbn [wps]. auto.
Qed.
Lemma after_connect D c now s rd tx : mq_sn c = sn -> view s rd tx -> (forall i, mq_client_id c = Some i -> zlen i <= 23) ->
  wps (mq_after (mqtt_send_connect c now)) n s D
    (sends (room s) rd tx (connect_of c s) (Ok (MECallAfter 10), mq_set_timeout c WaitConAck now) (Err MOutOfMemory, c)).
Proof.
  intros Hsn V Hi. unfold mq_after. apply wps_bind. eapply wps_mono; [| |exact (send_connect_spec sn D c now s rd tx Hsn V Hi)]; [auto|].
  intros x s' (H & _). cbn [wps]. destruct H as [(-> & H)|(-> & H)]; [left; auto|right; auto].
Qed.
Lemma process_con dbg fuel c now ch rd tx : mq_sn c = sn -> st_state (mq_st c) <> MInit -> view (c_sock ch n) rd tx ->
  (forall i, mq_client_id c = Some i -> zlen i <= 23) ->
  ensures_ir (fun v => ir_bit 0 v /\ ~ ir_bit 1 v) (mqtt_process dbg fuel c now) n ch
    (sends (room (c_sock ch n)) rd tx (connect_of c (c_sock ch n)) (Ok (MECallAfter 10), mq_set_timeout c WaitConAck now) (Err MOutOfMemory, c)).
Proof.
  intros Hsn Hst V Hi. apply (process_ir sn) with (rd := rd) (tx := tx); auto. intros v s1 n1 (H0 & H1) V1 U1 _ Hr Rz. unfold ir_bit in *.
  destruct (Z.testbit v 1); [now destruct H1|]. rewrite H0. fold n in Hr, Rz.
  eapply wps_mono; [| |exact (after_connect False c now s1 rd tx Hsn V1 Hi)]; [auto|].
  unfold connect_of. rewrite Rz. intros x s' [H|(Hx & Hl & H)]; [now left|right]. split; [exact Hx|]. split; [lia|exact H].
Qed.

(** ** Incomplete packets *)
Lemma process_incomplete dbg fuel c now ch rd tx t f body : mq_sn c = sn -> st_state (mq_st c) <> MInit -> view (c_sock ch n) rd tx ->
  clock_ok c now -> bytes_ok (unread (c_sock ch n)) -> 0 <= t < 16 -> 0 <= f < 16 -> zlen body <= 65535 ->
  ensures_ir no_link_change (mqtt_process dbg fuel c now) n ch (fun x s' =>
    forall got missing, s_rxlog s' = rd ++ got -> got ++ missing = mpacket t f body -> missing <> [] ->
    waits c now x /\ view s' rd tx).
Proof.
  intros Hsn Hst V Hc Hb Ht Hf Hl.
  apply (process_rx sn) with (rd := rd) (tx := tx) (R := fun e w _ => forall missing, w ++ missing = mpacket t f body -> missing <> [] -> e = RxNone); auto.
  - intros new w Hw Lw.
    destruct (list_eq_dec Z.eq_dec (ztake (zlen w) (mpacket t f body) ++ zdrop (zlen (mpacket t f body) - 1) w) w) as [E|E].
    + destruct (Z.ltb_spec (zlen w) (zlen (mpacket t f body))) as [L|L].
      * assert (zdrop (zlen (mpacket t f body) - 1) w = []) as X by (apply zlen_0_nil; rewrite zlen_zdrop; lia).
        rewrite X, app_nil_r in E.
        eapply recv_incomplete with (t := t) (f := f) (body := body) (missing := zdrop (zlen w) (mpacket t f body)).
        -- repeat split; lia.
        -- intros Y. rewrite Y in Lw. change (zlen (@nil Z)) with 0 in Lw. lia.
        -- intros Y. apply (f_equal zlen) in Y. rewrite zlen_zdrop in Y. change (zlen (@nil Z)) with 0 in Y. lia.
        -- rewrite <- E at 1. apply ztake_zdrop.
        -- auto.
      * eapply wpa_conseq; [apply wpa_rd, (recv_total _ w False Hw Lw)|]. cbn beta. intros e w' pos (-> & _) missing X Hm. exfalso.
        assert (zlen (mpacket t f body) = zlen w + zlen missing) as Y by now rewrite <- X, zlen_app.
        apply Hm, zlen_0_nil. pose proof (zlen_nonneg missing). lia.
    + eapply wpa_conseq; [apply wpa_rd, (recv_total _ w False Hw Lw)|]. cbn beta. intros e w' pos (-> & _) missing X Hm. exfalso.
      apply E. rewrite <- X, ztake_exact, zlen_app.
      assert (0 < zlen missing) as Y by (destruct missing; [contradiction|rewrite zlen_cons; pose proof (zlen_nonneg missing); lia]).
      assert (zdrop (zlen w + zlen missing - 1) w = []) as -> by (apply zlen_0_nil; rewrite zlen_zdrop; lia). apply app_nil_r.
  - intros x s' [(_ & W & V')|(new & e & pos & rest & Hw & Lw & HR & HL & HP)] got missing Eg Em Hm; [auto|].
    rewrite HL in Eg. apply app_inv_head in Eg. subst got. rewrite <- app_assoc in Em. 
    assert (e = RxNone) as ->; [|exact HP]. apply (HR (rest ++ missing)); [exact Em|]. intros X. apply app_eq_nil in X. tauto.
Qed.

(** ** Acknowledgements and other packets *)
Lemma process_done dbg fuel c now ch rd tx pkt more st r (Q : res merr mevent * MqttClient -> sock -> Prop) :
  mq_sn c = sn -> st_state (mq_st c) <> MInit -> view (c_sock ch n) rd tx ->
  clock_ok c now -> bytes_ok (unread (c_sock ch n)) -> unread (c_sock ch n) = pkt ++ more -> pkt <> [] ->
  (forall new, 0 < zlen (pkt ++ new) <= 16384 -> wpa rd_ok (recv_pkt (st_state (mq_st c))) (pkt ++ new) 0 False
     (fun e w pos => e = RxDone st r /\ pos = zlen pkt)) ->
  (forall x s', view s' (rd ++ pkt) tx ->
      match r with
      | Err e => x = (Err e, rx_state c st)
      | Ok None => waits (rx_state c st) now x
      | Ok (Some a) => x = (Ok (mack_event a), rx_state c st)
      end -> Q x s') ->
  ensures_ir no_link_change (mqtt_process dbg fuel c now) n ch Q.
Proof.
  intros Hsn Hst V Hc Hb U Hne HR HQ.
  apply (process_rx sn) with (rd := rd) (tx := tx) (R := fun e w pos => e = RxDone st r /\ pos = zlen pkt); auto; fold n.
  - intros new w Hw Lw. unfold w in *. rewrite U, <- app_assoc in *. now apply HR.
  - intros x s' [(X & _)|(new & e & pos & rest & Hw & Lw & (-> & ->) & HL & V' & Hx)].
    + rewrite U in X. apply app_eq_nil in X. tauto.
    + apply HQ; [|exact Hx]. rewrite U, <- app_assoc, ztake_exact in V'. exact V'.
Qed.
Lemma packet_ne t f b : mpacket t f b <> [].
Proof. discriminate. Qed.
Lemma process_connack dbg fuel c now ch rd tx flags code props more : mq_sn c = sn -> st_state (mq_st c) = WaitConAck ->
  view (c_sock ch n) rd tx -> clock_ok c now -> bytes_ok (unread (c_sock ch n)) -> zlen props < 125 ->
  unread (c_sock ch n) = connack_packet flags code props ++ more ->
  ensures_ir no_link_change (mqtt_process dbg fuel c now) n ch (fun x s' =>
    view s' (rd ++ connack_packet flags code props) tx /\
    x = match meaning connack_codes code with
        | Some r => (Err (MConnAck r), mq_set_state c MInit)
        | None => if code =? 0 then (Ok MEConnAck, mq_set_state c Ready) else (Err MProtocol, mq_set_state c MInit)
        end).
Proof.
  intros Hsn Hst V Hc Hb Hp U. pose proof (zlen_nonneg props) as Hn.
  assert (zlen ([flags; code] ++ mprops props) < 128) as Hl.
  { unfold mprops. rewrite !zlen_app, varint_len by lia. change (zlen [flags; code]) with 2. destruct (Z.ltb_spec (zlen props) 128); lia. }
  assert (connack_end code = match meaning connack_codes code with
    | Some r => RxDone (Some MInit) (Err (MConnAck r))
    | None => if code =? 0 then RxDone (Some Ready) (Ok (Some AConnAck)) else RxDone (Some MInit) (Err MProtocol) end) as Ec.
  { unfold connack_end. rewrite connack_meaning. destruct (meaning connack_codes code); [reflexivity|].
    destruct (Z.eqb_spec code 0) as [->|H]; [reflexivity|]. now destruct code. }
  destruct (meaning connack_codes code) as [r|]; [|destruct (code =? 0)].
  all: eapply process_done; eauto; [now rewrite Hst|apply packet_ne| |].
  all: try (intros new Lw; rewrite Hst; apply recv_connack_ok; [lia|exact Hl|rewrite Ec; split; reflexivity]).
  all: intros x s' V' Hx; split; [exact V'|exact Hx].
Qed.
Lemma process_suback dbg fuel c now ch rd tx id code props more r : mq_sn c = sn -> st_state (mq_st c) <> MInit ->
  view (c_sock ch n) rd tx -> clock_ok c now -> bytes_ok (unread (c_sock ch n)) -> is_u16 id -> zlen props < 128 ->
  unread (c_sock ch n) = suback_packet id props [code] ++ more -> meaning suback_codes code = Some r ->
  ensures_ir no_link_change (mqtt_process dbg fuel c now) n ch (fun x s' =>
    view s' (rd ++ suback_packet id props [code]) tx /\ x = (Ok (MESubAck id r), c)).
Proof.
  intros Hsn Hst V Hc Hb Hi Hp U Hm. pose proof (zlen_nonneg props) as Hn.
  assert (suback_try_from code = Ok r) as Ht by now rewrite suback_meaning, Hm.
  eapply process_done with (st := None) (r := Ok (Some (ASubAck id r))); eauto; [apply packet_ne|].
  intros new Lw. apply (recv_suback_ok suback_try_from ASubAck) with (codes := []); auto; [lia| |].
  - unfold mprops. rewrite !zlen_app, varint_len, zlen_cons by lia. change (zlen (two id)) with 2. change (zlen (@nil Z)) with 0.
    destruct (Z.ltb_spec (zlen props) 128); lia.
  - rewrite Ht. split; [reflexivity|]. change (zlen (@nil Z)) with 0. unfold suback_packet. lia.
Qed.
Lemma process_unsuback dbg fuel c now ch rd tx id code props more r : mq_sn c = sn -> st_state (mq_st c) <> MInit ->
  view (c_sock ch n) rd tx -> clock_ok c now -> bytes_ok (unread (c_sock ch n)) -> is_u16 id -> zlen props < 128 ->
  unread (c_sock ch n) = unsuback_packet id props [code] ++ more -> meaning unsuback_codes code = Some r ->
  ensures_ir no_link_change (mqtt_process dbg fuel c now) n ch (fun x s' =>
    view s' (rd ++ unsuback_packet id props [code]) tx /\ x = (Ok (MEUnSubAck id r), c)).
Proof.
  intros Hsn Hst V Hc Hb Hi Hp U Hm. pose proof (zlen_nonneg props) as Hn.
  assert (unsuback_try_from code = Ok r) as Ht by now rewrite unsuback_meaning, Hm.
  eapply process_done with (st := None) (r := Ok (Some (AUnSubAck id r))); eauto; [apply packet_ne|].
  intros new Lw. apply (recv_suback_ok unsuback_try_from AUnSubAck) with (codes := []); auto; [lia| |].
  - unfold mprops. rewrite !zlen_app, varint_len, zlen_cons by lia. change (zlen (two id)) with 2. change (zlen (@nil Z)) with 0.
    destruct (Z.ltb_spec (zlen props) 128); lia.
  - rewrite Ht. split; [reflexivity|]. change (zlen (@nil Z)) with 0. unfold unsuback_packet. lia.
Qed.
Lemma process_other dbg fuel c now ch rd tx t f body more : mq_sn c = sn -> st_state (mq_st c) <> MInit ->
  view (c_sock ch n) rd tx -> clock_ok c now -> bytes_ok (unread (c_sock ch n)) -> 0 <= t < 16 -> 0 <= f < 16 ->
  ~ In t [0; 2; 3; 9; 11] -> unread (c_sock ch n) = mpacket t f body ++ more ->
  ensures_ir no_link_change (mqtt_process dbg fuel c now) n ch (fun x s' => view s' (rd ++ mpacket t f body) tx /\ waits c now x).
Proof.
  intros Hsn Hst V Hc Hb Ht Hf Hin U.
  assert (zlen body <= 65535) as Hl.
  { pose proof (unread_small sn _ _ _ V) as Hs. rewrite U, zlen_app, packet_len in Hs. pose proof (zlen_nonneg more).
    pose proof (varint_pos (zlen body)). lia. }
  eapply process_done with (st := None) (r := Ok None); eauto; [apply packet_ne|].
  intros new Lw. apply recv_skip_ok; [repeat split; lia|exact Hin|lia|auto].
Qed.
End Proc.
