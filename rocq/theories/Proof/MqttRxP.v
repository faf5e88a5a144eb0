(** [process] of the MQTT client on an open connection. *)
From Verif Require Export Proof.MqttRecvP.
From Verif Require Import Model.HlTcp Model.LlBits Model.Ll Model.LlAddr Model.Stream Model.Mqtt Proof.SprogP.

(** ** The first transaction reads the interrupt register *)
Lemma bit_raised v k m : m = 2 ^ k -> 0 <= k -> negb (Z.land v m =? 0) = Z.testbit v k.
Proof.
  intros -> Hk. destruct (Z.testbit v k) eqn:E.
  - destruct (Z.eqb_spec (Z.land v (2 ^ k)) 0) as [H|]; [|reflexivity].
    assert (Z.testbit (Z.land v (2 ^ k)) k = true) as X by (rewrite Z.land_spec, E, Z.pow2_bits_true by lia; reflexivity).
    rewrite H, Z.bits_0 in X. discriminate.
  - destruct (Z.eqb_spec (Z.land v (2 ^ k)) 0) as [_|H]; [reflexivity|]. exfalso. apply H. apply Z.bits_inj_0. intros j.
    rewrite Z.land_spec, Z.pow2_bits_eqb by lia. destruct (Z.eqb_spec k j) as [<-|]; [now rewrite E|apply andb_false_r].
Qed.
Lemma ensures_first {A} (k : option (list Z) -> prog A) sn c a (P : Z -> Prop) (Q : A -> sock -> Prop) : a = 2 ->
  (forall s1, env (c_sock c (snz sn)) s1 -> P (s_ir s1) -> wps (k (Some [s_ir s1])) (snz sn) s1 False Q) ->
  forall sch, no_faults sch -> P (seen_ir sch c (snz sn)) ->
  exists x sch' c', run (Rd a (4 * snz sn + 1) 1 k) sch c = (Done x, sch', c') /\ Q x (c_sock c' (snz sn)).
Proof.
  intros -> H sch Hs HP. pose proof (snz_range sn) as Hn.
  assert (forall c1 sch', env (c_sock c (snz sn)) (c_sock c1 (snz sn)) -> P (s_ir (c_sock c1 (snz sn))) -> no_faults sch' ->
    exists x sch2 c', run (k (Some (chip_rds c1 (4 * snz sn + 1) 2 1))) sch' c1 = (Done x, sch2, c') /\ Q x (c_sock c' (snz sn))) as G.
  { intros c1 sch' E HP1 Hs1. rewrite chip_rds_sock by lia.
    change (sock_rds (c_sock c1 (snz sn)) 1 2 1) with [s_ir (c_sock c1 (snz sn))].
    pose proof (wps_sound _ (snz sn) c1 False Q sch' ltac:(lia) (H _ E HP1) Hs1) as R.
    destruct (run _ sch' c1) as [[[x| |] sc] c']; try contradiction. exists x, sc, c'. split; [reflexivity|apply R]. }
  cbn [run]. destruct sch as [|t sch]; [apply G; auto using env_refl|].
  inversion Hs as [|? ? Ht Hs']; subst. rewrite Ht. apply G; auto using env_evs.
Qed.

Lemma link_bits v : SocketInterrupt_discon_raised v = Z.testbit v 1 /\ SocketInterrupt_con_raised v = Z.testbit v 0 /\
  SocketInterrupt_timeout_raised v = Z.testbit v 3.
Proof. repeat split; apply bit_raised; try reflexivity; lia. Qed.
Lemma any_bit v k : 0 <= k < 5 -> Z.testbit v k = true -> SocketInterrupt_any_raised v = true.
Proof.
  intros Hk H. unfold SocketInterrupt_any_raised, any_set. change SocketInterrupt_ALL_MASK with 31.
  destruct (Z.eqb_spec (Z.land v 31) 0) as [E|]; [|reflexivity]. exfalso.
  assert (Z.testbit (Z.land v 31) k = true) as X.
  { rewrite Z.land_spec, H. change 31 with (Z.ones 5). rewrite Z.ones_spec_low by lia. reflexivity. }
  rewrite E, Z.bits_0 in X. discriminate.
Qed.

Section Process.
Context (sn : Sn).
Let n := snz sn.
Notation view := tcp_view.

(** The four ways on from the interrupt register. *)
Lemma process_ir dbg fuel c now ch (P : Z -> Prop) (Q : res merr mevent * MqttClient -> sock -> Prop) rd tx :
  mq_sn c = sn -> st_state (mq_st c) <> MInit -> view (c_sock ch n) rd tx ->
  (forall v s1 new, P v -> view s1 rd tx -> unread s1 = unread (c_sock ch n) ++ new -> bytes_ok new ->
     room (c_sock ch n) <= room s1 -> rx_size s1 = rx_size (c_sock ch n) ->
     wps (if Z.testbit v 1 then Ret (Err MDisconnect, mq_set_state c MInit)
          else if Z.testbit v 0 then mq_after (mqtt_send_connect c now)
          else if Z.testbit v 3 then Ret (Err MTcpTimeout, mq_set_state c MInit)
          else mqtt_rx dbg c now) n s1 False Q) ->
  ensures_ir P (mqtt_process dbg fuel c now) n ch Q.
Proof.
  intros Hsn Hst V H sch Hs HP. unfold mqtt_process.
  destruct (st_state (mq_st c)) eqn:Es; try contradiction; cbn [mstate_eqb]; clear Hst.
  all: unfold q_io, sn_ir, bindM, read; cbn [bind]; rewrite Hsn, sn_block_eq.
  all: eapply ensures_first with (P := P); [reflexivity| |exact Hs|exact HP].
  all: intros s1 E1 HP1; cbn [bind ret]; change (byte0 [s_ir s1]) with (s_ir s1).
  all: destruct (link_bits (s_ir s1)) as (B1 & B2 & B3).
  all: assert (forall s2, env (c_sock ch (snz sn)) s2 -> view s2 rd tx /\ exists new, unread s2 = unread (c_sock ch n) ++ new /\
    bytes_ok new /\ room (c_sock ch n) <= room s2 /\ rx_size s2 = rx_size (c_sock ch n)) as G.
  1,3,5: intros s2 E2; pose proof V as (T & (W & _) & (X & _) & _); pose proof (tcp_idle _ T) as I;
    destruct (env_all _ _ I E2) as (_ & _ & (_ & _ & Rz & R4 & _) & _); destruct (R4 W) as (_ & new & Hb & U & _);
    destruct (tx_work_env _ s2 I X E2) as (_ & _ & _ & _ & _ & _ & Ez & _ & _ & Ep & _);
    destruct (view_env _ _ _ _ V E2) as (V2 & _); split; [exact V2|]; exists new; split; [exact U|]; split; [exact Hb|];
    split; [unfold room; fold n in Ep, Ez; lia|exact Rz].
  all: destruct (SocketInterrupt_any_raised (s_ir s1)) eqn:Ea.
  2,4,6: destruct (G _ E1) as (V1 & new & U1 & Hb & Hr & Rz); specialize (H (s_ir s1) s1 new HP1 V1 U1 Hb Hr Rz);
    destruct (Z.testbit (s_ir s1) 1) eqn:T1; [rewrite (any_bit _ 1) in Ea by (lia || assumption); discriminate|];
    destruct (Z.testbit (s_ir s1) 0) eqn:T0; [rewrite (any_bit _ 0) in Ea by (lia || assumption); discriminate|];
    destruct (Z.testbit (s_ir s1) 3) eqn:T3; [rewrite (any_bit _ 3) in Ea by (lia || assumption); discriminate|]; exact H.
  all: cbn [wps set_sn_ir write bind]; rewrite sn_block_eq; exists 1; split; [lia|]; split; [reflexivity|]; intros s2 E2;
    destruct (G s2 (env_trans _ _ _ E1 E2)) as (V1 & new & U1 & Hb & Hr & Rz);
    specialize (H (s_ir s1) (sock_wrs s2 1 (SnReg_addr S_IR) [s_ir s1]) new HP1 V1 U1 Hb Hr Rz);
    rewrite <- B1, <- B2, <- B3 in H; exact H.
Qed.

(** ** Waiting *)
Lemma timeout_waits c now s D (Q : res merr mevent * MqttClient -> sock -> Prop) : clock_ok c now ->
  (forall x, waits c now x -> Q x s) -> wps (mqtt_timeout c now) n s D Q.
Proof.
  intros Hc H. unfold mqtt_timeout, st_elapsed. unfold clock_ok in Hc. unfold waits in H.
  destruct (st_timeout (mq_st c)) as [t|]; [|now apply H].
  destruct (Z.ltb_spec now t); [lia|]. unfold TIMEOUT_SECS. destruct (Z.ltb_spec 10 (now - t)); cbn [wps]; apply H; [now right|].
  left. split; [lia|]. now rewrite Z.max_r by lia.
Qed.

(** ** Receiving *)
Definition rx_state (c : MqttClient) (st : option MState) : MqttClient := match st with Some s => mq_set_state c s | None => c end.
Definition rx_post (c : MqttClient) (now : Z) (rd tx : list Z) (e : rx_end) (w : list Z) (pos : Z)
    (x : res merr mevent * MqttClient) (s' : sock) : Prop :=
  match e with
  | RxNone => waits c now x /\ view s' rd tx
  | RxErr e init => x = (Err e, if init then mq_set_state c MInit else c) /\ view s' rd tx
  | RxDone st r => view s' (rd ++ ztake pos w) tx /\
      match r with
      | Err e => x = (Err e, rx_state c st)
      | Ok None => waits (rx_state c st) now x
      | Ok (Some a) => x = (Ok (mack_event a), rx_state c st)
      end
  | RxPublish tl ti pl pi => exists cur, x = (Ok (MEPublish (mkPR cur tl ti pl pi)), c) /\ treading sn s' cur w rd tx
  end.
Lemma view_log s rd tx : view s rd tx -> s_rxlog s = rd ++ unread s.
Proof. intros V. apply V. Qed.
Lemma rx_spec D dbg c now s rd tx (R : rx_end -> list Z -> Z -> Prop) : mq_sn c = sn -> view s rd tx -> clock_ok c now ->
  bytes_ok (unread s) ->
  (forall new, bytes_ok (unread s ++ new) -> 0 < zlen (unread s ++ new) <= 16384 ->
    wpa rd_ok (recv_pkt (st_state (mq_st c))) (unread s ++ new) 0 D R) ->
  wps (mqtt_rx dbg c now) n s D (fun x s' =>
    (unread s = [] /\ waits c now x /\ view s' rd tx) \/
    exists new e pos rest, let w := unread s ++ new in bytes_ok w /\ 0 < zlen w <= 16384 /\ R e w pos /\
      s_rxlog s' = rd ++ w ++ rest /\ rx_post c now rd tx e w pos x s').
Proof.
  intros Hsn V Hc Hb HR. unfold mqtt_rx. rewrite Hsn. apply wps_bind.
  eapply wps_mono; [| |exact (treader_open sn D dbg s rd tx V)]; [auto|].
  intros r s1 (E1 & [(-> & U & V1)|(cur & w & new & -> & T1 & P1 & Ew & Lw)]).
  { apply timeout_waits; [exact Hc|]. intros x Hx. left. auto. }
  assert (bytes_ok w) as Hbw.
  { pose proof V as (T & (W & _) & _). destruct (env_all _ _ (tcp_idle _ T) E1) as (_ & _ & (_ & _ & _ & R4 & _) & _).
    destruct (R4 W) as (_ & nw & Hn & U & _). destruct T1 as (_ & _ & _ & _ & _ & rest & U1).
    assert (bytes_ok (w ++ rest)) as X by (rewrite <- U1, U; apply bytes_ok_app; auto). apply bytes_ok_app in X. apply X. }
  unfold mqtt_recv. apply wps_bind, wps_bind.
  eapply wps_mono; [| |apply (treading_run sn D s1 cur w rd tx (recv_pkt (st_state (mq_st c))) R T1)]; [auto| |].
  2:{ rewrite P1, Ew. apply HR; now rewrite <- Ew. }
  intros [e cur'] s2 (T2 & HRe & E2). cbn [fst snd] in *. destruct (treading_log _ _ _ _ _ _ T2) as (rest & L2).
  assert (forall x s', rx_post c now rd tx e w (cur_pos cur') x s' -> s_rxlog s' = rd ++ w ++ rest \/ (exists rest', s_rxlog s' = rd ++ w ++ rest') ->
    exists new e pos rest, let w := unread s ++ new in bytes_ok w /\ 0 < zlen w <= 16384 /\ R e w pos /\
      s_rxlog s' = rd ++ w ++ rest /\ rx_post c now rd tx e w pos x s') as Fin.
  { intros x s' Hp Hl. assert (exists rest', s_rxlog s' = rd ++ w ++ rest') as (rest' & Hl') by (destruct Hl; eauto).
    exists new, e, (cur_pos cur'), rest'. cbv zeta. rewrite <- Ew. auto. }
  destruct e as [|e i|st r|tl ti pl pi]; cbn [wps fst snd bind].
  - apply timeout_waits; [exact Hc|]. intros x Hx. right. apply Fin; [split; [exact Hx|apply T2]|now left].
  - right. apply Fin; [split; [reflexivity|apply T2]|now left].
  - apply wps_bind. eapply wps_mono; [| |exact (treading_done sn D s2 cur' w rd tx T2)]; [auto|].
    intros d s3 (-> & V3 & rest3 & U3). fold (rx_state c st).
    assert (s_rxlog s3 = rd ++ w ++ rest3) as L3.
    { rewrite (view_log _ _ _ V3), U3, <- app_assoc. f_equal. rewrite app_assoc. f_equal. apply ztake_zdrop. }
    assert (clock_ok (rx_state c st) now) as Hc' by (destruct st; [exact I|exact Hc]).
    destruct r as [[a|]|e]; cbn [wps fst snd bind].
    + right. apply Fin; [split; [exact V3|reflexivity]|eauto].
    + apply timeout_waits; [exact Hc'|]. intros x Hx. right. apply Fin; [split; [exact V3|exact Hx]|eauto].
    + right. apply Fin; [split; [exact V3|reflexivity]|eauto].
  - right. apply Fin; [exists cur'; split; [reflexivity|exact T2]|now left].
Qed.
(** [process] when the interrupt register shows no change of the link. *)
Lemma process_rx dbg fuel c now ch rd tx (R : rx_end -> list Z -> Z -> Prop) (Q : res merr mevent * MqttClient -> sock -> Prop) :
  mq_sn c = sn -> st_state (mq_st c) <> MInit -> view (c_sock ch n) rd tx -> clock_ok c now -> bytes_ok (unread (c_sock ch n)) ->
  (forall new, let w := unread (c_sock ch n) ++ new in bytes_ok w -> 0 < zlen w <= 16384 ->
    wpa rd_ok (recv_pkt (st_state (mq_st c))) w 0 False R) ->
  (forall x s', (unread (c_sock ch n) = [] /\ waits c now x /\ view s' rd tx) \/
    (exists new e pos rest, let w := unread (c_sock ch n) ++ new in bytes_ok w /\ 0 < zlen w <= 16384 /\ R e w pos /\
      s_rxlog s' = rd ++ w ++ rest /\ rx_post c now rd tx e w pos x s') -> Q x s') ->
  ensures_ir no_link_change (mqtt_process dbg fuel c now) n ch Q.
Proof.
  intros Hsn Hst V Hc Hb HR HQ. apply process_ir with (rd := rd) (tx := tx); auto.
  intros v s1 n1 (N0 & N1 & N3) V1 U1 B1 _ _. unfold ir_bit in *.
  destruct (Z.testbit v 1); [now destruct N1|]. destruct (Z.testbit v 0); [now destruct N0|]. destruct (Z.testbit v 3); [now destruct N3|].
  eapply wps_mono; [| |apply (rx_spec False dbg c now s1 rd tx R Hsn V1 Hc)]; [auto| | |].
  - intros x s' [(U & W & V')|(new & e & pos & rest & H)]; apply HQ.
    + left. rewrite U1 in U. apply app_eq_nil in U. tauto.
    + right. exists (n1 ++ new), e, pos, rest. cbv zeta in *. rewrite app_assoc, <- U1. exact H.
  - rewrite U1. apply bytes_ok_app. auto.
  - intros new Hn Hl. rewrite U1, <- app_assoc in *. now apply HR.
Qed.
End Process.
