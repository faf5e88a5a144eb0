(** Proofs for Props/MqttStuck.v. *)
From Verif Require Export Proof.MqttMainP.
From Verif Require Import Model.HlTcp Model.LlBits Model.Ll Model.LlAddr Model.Stream Model.Mqtt Proof.SprogP Spec.MqttStuck.

Section Stuck.
Context (sn : Sn).
Let n := snz sn.
Notation view := tcp_view.

(** What [recv] makes of the beginning [x] of a window. *)
Lemma blocked_recv c x r new : blocks c x r -> 0 < zlen (x ++ new) <= 16384 ->
  wpa rd_ok (recv_pkt (st_state (mq_st c))) (x ++ new) 0 False
    (fun e _ _ => match r with Ok _ => e = RxNone /\ r = Ok MENone /\ st_timeout (mq_st c) = None | Err m => e = RxErr m false end).
Proof.
  intros H Hl. destruct H as [f body Hs Hf Hb|f len rest Hf Hlen Hr|b len Hb Hlen Ht].
  - apply recv_connack_early; auto. repeat split; lia.
  - pose proof (zlen_nonneg rest). apply recv_complete.
    { repeat split; try lia. rewrite zlen_app. change (zlen (two len)) with 2. lia. }
    intros k Hk Hd Lw Hh. apply ctrl_is in Hk. cbn in Hk. subst k.
    set (w := mpacket 3 f (two len ++ rest) ++ new) in *. set (h := zlen (varint (zlen (two len ++ rest))) + 1) in *.
    assert (2 <= zlen (two len ++ rest)) as L2 by (rewrite zlen_app; change (zlen (two len)) with 2; lia). pose proof (zlen_nonneg new).
    unfold recv_publish. cbn [fh_remaining]. apply rx_exact; [lia|]. destruct (Z.leb_spec 2 (zlen w - h)); [|lia].
    rewrite Hd. change (of_be16 (at_ (ztake 2 ((two len ++ rest) ++ new)) 0) (at_ (ztake 2 ((two len ++ rest) ++ new)) 1))
      with (len / 256 * 256 + len mod 256). replace (len / 256 * 256 + len mod 256) with len by lia.
    cbn [sbind s_position wpa aask sret]. unfold clamp_i16. apply rx_cur; [unfold is_i16; lia|lia|lia|].
    destruct (Z.leb_spec (h + 2 + Z.min len 32767) (zlen w)); [lia|]. reflexivity.
  - cbn [app]. apply recv_header with (n := len); [lia|apply varint_vbi; lia| |].
    { rewrite varint_len by lia. destruct (len <? 128), (len <? 16384), (len <? 2097152); lia. }
    destruct (Z.leb_spec 65536 len); [lia|]. cbn [app] in Hl. rewrite zlen_cons, zlen_app in Hl. pose proof (zlen_nonneg (varint len)).
    destruct (Z.ltb_spec (zlen new) len); [auto|lia].
Qed.
Lemma process_blocked dbg fuel c now ch rd tx x more r : mq_sn c = sn -> st_state (mq_st c) <> MInit -> view (c_sock ch n) rd tx ->
  clock_ok c now -> bytes_ok (unread (c_sock ch n)) -> unread (c_sock ch n) = x ++ more -> blocks c x r ->
  ensures_ir no_link_change (mqtt_process dbg fuel c now) n ch (fun y s' => y = (r, c) /\ view s' rd tx /\
    exists new, unread s' = x ++ new).
Proof.
  intros Hsn Hst V Hc Hb U Hx.
  assert (x <> []) as Hne by (destruct Hx; discriminate).
  eapply (process_rx sn); eauto; fold n.
  - intros new w Hw Lw. unfold w in *. rewrite U, <- app_assoc in *. apply (blocked_recv c x r _ Hx Lw).
  - cbv beta. intros y s' [(X & _)|(new & e & pos & rest & Hw & Lw & He & HL & HP)].
    + rewrite U in X. apply app_eq_nil in X. tauto.
    + assert (y = (r, c) /\ view s' rd tx) as (-> & V').
      { destruct r as [v|m]; [destruct He as (-> & E & Ht)|subst e]; cbn [rx_post] in HP; [|exact HP].
        destruct HP as (W & V'). split; [|exact V']. unfold waits in W. rewrite Ht in W. now rewrite W, E. }
      split; [reflexivity|]. split; [exact V'|]. exists (more ++ new ++ rest).
      rewrite (view_log _ _ _ V'), U, <- !app_assoc in HL. now apply app_inv_head in HL.
Qed.
End Stuck.

(** ** The log of received bytes only grows, by bytes *)
Definition longer (s s' : sock) : Prop := exists new, bytes_ok new /\ s_rxlog s' = s_rxlog s ++ new.
Lemma longer_same s s' : s_rxlog s' = s_rxlog s -> longer s s'.
Proof. intros E. exists []. rewrite E, app_nil_r. split; [constructor|reflexivity]. Qed.
Lemma longer_trans a b c : longer a b -> longer b c -> longer a c.
Proof. intros (x & Hx & E) (y & Hy & F). exists (x ++ y). rewrite F, E, app_assoc. split; [apply bytes_ok_app; auto|reflexivity]. Qed.
Lemma byteb_ok l : forallb byteb l = true -> bytes_ok l.
Proof.
  intros H. apply Forall_forall. intros x Hx. rewrite forallb_forall in H. specialize (H x Hx). unfold byteb in H. unfold is_u8. lia.
Qed.
Lemma store_longer s l : bytes_ok l -> longer s (rx_store s l).
Proof. intros H. unfold rx_store. destruct (_ <=? _); [|now apply longer_same]. exists l. auto. Qed.
Lemma ev_longer s e : longer s (sock_ev s e).
Proof.
  destruct e as [seg|ip port data|k|v|v|ptx prx|ptx prx]; cbn [sock_ev].
  - destruct (forallb byteb seg) eqn:E; [|rewrite andb_false_r; now apply longer_same]. destruct (_ && _); [|now apply longer_same].
    now apply store_longer, byteb_ok.
  - match goal with |- longer _ (if ?b then _ else _) => destruct b eqn:E end; [|now apply longer_same].
    apply andb_prop in E as (E & E6). apply andb_prop in E as (E & E5). apply andb_prop in E as (E & E4). apply andb_prop in E as (E & E3).
    apply store_longer. unfold udp_image. apply bytes_ok_app. split; [now apply byteb_ok|].
    apply bytes_ok_app. split; [|apply bytes_ok_app; split; [|now apply byteb_ok]].
    all: unfold be16, u8; repeat constructor; unfold is_u8; lia.
  - destruct (s_txq s); [now apply longer_same|]. destruct (_ || _); now apply longer_same.
  - destruct (_ || _); now apply longer_same.
  - destruct (byteb v); now apply longer_same.
  - destruct (opening_state _); now apply longer_same.
  - destruct (s_pend s) as [v|]; [|now apply longer_same]. destruct (v =? 0); now apply longer_same.
Qed.
Lemma wr_log s k a v : s_rxlog (sock_wr s k a v) = s_rxlog s.
Proof.
  unfold sock_wr. destruct (k =? 1); [|destruct (k =? 2); [reflexivity|destruct (k =? 3); reflexivity]].
  unfold sreg_wr. destruct (a =? 1); [|destruct (a =? 2); [reflexivity|]; destruct (_ || _); reflexivity].
  unfold exec_cmd. cbv zeta. repeat match goal with |- context [if ?b then _ else _] => destruct b end; reflexivity.
Qed.
Definition chip_longer (c c' : chip) : Prop := forall n, longer (c_sock c n) (c_sock c' n).
Lemma chip_longer_refl c : chip_longer c c.
Proof. intros n. now apply longer_same. Qed.
Lemma chip_longer_trans a b c : chip_longer a b -> chip_longer b c -> chip_longer a c.
Proof. intros H G n. eapply longer_trans; [apply H|apply G]. Qed.
Lemma upd_longer c g i s : longer (c_sock c i) s -> chip_longer c (mkChip g (upd (c_sock c) i s)).
Proof. intros H n. cbn [c_sock]. unfold upd. destruct (Z.eqb_spec n i) as [->|]; [exact H|now apply longer_same]. Qed.
Lemma evs_longer l : forall c, chip_longer c (chip_evs c l).
Proof.
  unfold chip_evs. induction l as [|e l IH]; intros c; cbn [fold_left]; [apply chip_longer_refl|].
  eapply chip_longer_trans; [|apply IH]. unfold chip_ev. apply upd_longer, ev_longer.
Qed.
Lemma wrs_longer b l : forall c a, chip_longer c (chip_wrs c b a l).
Proof.
  induction l as [|v l IH]; intros c a; cbn [chip_wrs]; [apply chip_longer_refl|].
  eapply chip_longer_trans; [|apply IH]. unfold chip_wr. destruct (b =? 0).
  - destruct (common_ro _); [apply chip_longer_refl|]. intros n. now apply longer_same.
  - apply upd_longer, longer_same, wr_log.
Qed.
Lemma run_longer {A} (p : prog A) : forall sch c o sch' c', run p sch c = (o, sch', c') -> chip_longer c c'.
Proof.
  induction p as [a|a b m k IH|a b d k IH| |]; cbn [run]; intros sch c o sch' c' E.
  1,4,5: injection E as _ _ <-; apply chip_longer_refl.
  - destruct sch as [|t sch]; [eapply IH; exact E|]. pose proof (evs_longer (t_evs t) c) as H.
    destruct (t_fault t); (eapply chip_longer_trans; [exact H|eapply IH; exact E]).
  - destruct sch as [|t sch]; [eapply chip_longer_trans; [apply wrs_longer|eapply IH; exact E]|]. pose proof (evs_longer (t_evs t) c) as H.
    destruct (t_fault t); (eapply chip_longer_trans; [exact H|eapply chip_longer_trans; [apply wrs_longer|eapply IH; exact E]]).
Qed.
(** What is left to read stays bytes. *)
Lemma unread_bytes s s' rd tx rd' tx' : tcp_view s rd tx -> tcp_view s' (rd ++ rd') tx' -> longer s s' -> bytes_ok (unread s) -> bytes_ok (unread s').
Proof.
  intros V V' (new & Hn & E) Hb. rewrite (view_log _ _ _ V), (view_log _ _ _ V'), <- !app_assoc in E. apply app_inv_head in E.
  assert (bytes_ok (rd' ++ unread s')) as H by (rewrite E; apply bytes_ok_app; auto). apply bytes_ok_app in H. apply H.
Qed.

(** ** C102 *)
Lemma blocked_call dbg fuel c now ch rd tx x r : serving c now ch rd tx -> next_is c ch x -> blocks c x r ->
  ensures_ir no_link_change (mqtt_process dbg fuel c now) (sn_raw (mq_sn c)) ch (fun y s' => y = (r, c) /\ tcp_view s' rd tx /\
    exists new, unread s' = x ++ new).
Proof. serve. eapply (process_blocked (mq_sn c)); eauto. Qed.
Lemma stuck dbg c ch rd tx x r rs c' ch' : mpolls dbg c ch rs c' ch' ->
  st_state (mq_st c) <> MInit -> tcp_view (c_sock ch (sn_raw (mq_sn c))) rd tx -> bytes_ok (unread (c_sock ch (sn_raw (mq_sn c)))) ->
  next_is c ch x -> blocks c x r ->
  Forall (fun a => a = r) rs /\ c' = c /\ tcp_view (c_sock ch' (sn_raw (mq_sn c))) rd tx /\ next_is c ch' x.
Proof.
  intros P S V B N X. assert (Forall (fun a => a = r) rs /\ c' = c /\ tcp_view (c_sock ch' (sn_raw (mq_sn c))) rd tx /\ next_is c ch' x /\
    bytes_ok (unread (c_sock ch' (sn_raw (mq_sn c))))) as H; [|tauto].
  induction P as [ch|fuel now sch ch rs c1 ch1 a sch' c2 ch2 P IH Hs Hl Hc E]; [auto 6|].
  destruct (IH V B N) as (F & -> & V1 & N1 & B1).
  destruct (blocked_call dbg fuel c now ch1 rd tx x r (conj S (conj Hc (conj V1 B1))) N1 X sch Hs Hl) as (y & sy & cy & Ey & -> & V2 & new & U2).
  rewrite Ey in E. injection E as <- <- _ <-. split; [apply Forall_app; auto|]. split; [reflexivity|]. split; [exact V2|].
  split; [exists new; exact U2|]. apply (unread_bytes _ _ rd tx [] tx V1); [rewrite app_nil_r; exact V2|exact (run_longer _ _ _ _ _ _ Ey _)|exact B1].
Qed.
Lemma session_ack dbg fuel c now ch ops fin (R : MqttClient -> sock -> Prop) :
  ensures_ir no_link_change (mqtt_process dbg fuel c now) (sn_raw (mq_sn c)) ch
    (fun x s' => match fst x with Ok (MEPublish _) => False | _ => R (snd x) s' end) ->
  ensures_ir no_link_change (pub_session dbg fuel c now ops fin) (sn_raw (mq_sn c)) ch (fun y s' => R (snd y) s').
Proof.
  intros H. unfold pub_session. eapply ensures_ir_bind; [pose proof (snz_range (mq_sn c)); change (sn_raw (mq_sn c)) with (snz (mq_sn c)); lia|exact H|].
  cbv beta. intros x s' Hx. destruct (fst x) as [[]|]; try contradiction; exact Hx.
Qed.
Lemma waits_quiet c now x : waits c now x -> match fst x with Ok (MEPublish _) => False | _ => True end.
Proof.
  unfold waits. destruct (st_timeout (mq_st c)); [intros [(_ & ->)|(_ & ->)]|intros ->]; exact I.
Qed.
(** Packets that make the client start over. *)
Lemma process_again dbg fuel c now ch rd tx pkt m : serving c now ch rd tx -> next_is c ch pkt -> pkt <> [] ->
  (forall new, 0 < zlen (pkt ++ new) <= 16384 -> wpa rd_ok (recv_pkt (st_state (mq_st c))) (pkt ++ new) 0 False
     (fun e w pos => e = RxErr m true)) ->
  ensures_ir no_link_change (mqtt_process dbg fuel c now) (sn_raw (mq_sn c)) ch
    (fun x s' => x = (Err m, mq_set_state c MInit) /\ tcp_view s' rd tx).
Proof.
  intros (Hst & Hc & V & Hb) (more & U) Hne HR. eapply (process_rx (mq_sn c)); eauto; change (snz (mq_sn c)) with (sn_raw (mq_sn c)).
  - intros new w Hw Lw. unfold w in *. rewrite U, <- app_assoc in *. now apply HR.
  - cbv beta. intros y s' [(X & _)|(new & e & pos & rest & Hw & Lw & -> & HL & HP)]; [|exact HP].
    rewrite U in X. apply app_eq_nil in X. tauto.
Qed.
Lemma suback_len id props code : zlen props < 128 -> zlen (two id ++ mprops props ++ [code]) <= 65535.
Proof.
  intros Hp. pose proof (zlen_nonneg props). unfold mprops. rewrite !zlen_app, varint_len, zlen_cons by lia. change (zlen (two id)) with 2. change (zlen (@nil Z)) with 0.
  destruct (Z.ltb_spec (zlen props) 128); lia.
Qed.
Lemma next_packet dbg fuel c now ch rd tx x ops : serving c now ch rd tx -> next_is c ch x -> understood (st_state (mq_st c)) x ->
  Forall pub_op_ok ops ->
  ensures_ir no_link_change (pub_session dbg fuel c now ops true) (sn_raw (mq_sn c)) ch (fun y s' => passed rd tx x (snd y) s').
Proof.
  intros S N U O. destruct U as [retain topic props payload Hp|flags code props Hs Hp|id props code Hi Hp|id props code Hi Hp|t f body Ht Hf Hin].
  - eapply ensures_ir_mono; [exact (s_publish dbg fuel c now ch rd tx retain topic props payload ops true S N Hp O)|auto|].
    cbv beta. intros a s' (_ & V). left. exact V.
  - apply (session_ack _ _ _ _ _ _ _ (passed rd tx _)).
    eapply ensures_ir_mono; [exact (s_connack dbg fuel c now ch rd tx flags code props Hs S Hp N)|auto|].
    cbv beta. intros a s' (V & ->). destruct (meaning connack_codes code); [left; exact V|]. destruct (code =? 0); left; exact V.
  - apply (session_ack _ _ _ _ _ _ _ (passed rd tx _)). destruct (meaning suback_codes code) as [r|] eqn:M.
    + eapply ensures_ir_mono; [exact (s_suback dbg fuel c now ch rd tx id code props r S Hi Hp N M)|auto|].
      cbv beta. intros a s' (V & ->). left. exact V.
    + eapply ensures_ir_mono; [apply (process_again dbg fuel c now ch rd tx _ MProtocol S N); [apply packet_ne|]|auto|].
      * intros new Lw. apply (recv_suback_ok suback_try_from ASubAck) with (codes := []); auto; [lia|now apply suback_len|].
        rewrite suback_meaning, M. reflexivity.
      * cbv beta. intros a s' (-> & V). right. split; [exact V|reflexivity].
  - apply (session_ack _ _ _ _ _ _ _ (passed rd tx _)). destruct (meaning unsuback_codes code) as [r|] eqn:M.
    + eapply ensures_ir_mono; [exact (s_unsuback dbg fuel c now ch rd tx id code props r S Hi Hp N M)|auto|].
      cbv beta. intros a s' (V & ->). left. exact V.
    + eapply ensures_ir_mono; [apply (process_again dbg fuel c now ch rd tx _ MProtocol S N); [apply packet_ne|]|auto|].
      * intros new Lw. apply (recv_suback_ok unsuback_try_from AUnSubAck) with (codes := []); auto; [lia|now apply suback_len|].
        rewrite unsuback_meaning, M. reflexivity.
      * cbv beta. intros a s' (-> & V). right. split; [exact V|reflexivity].
  - apply (session_ack _ _ _ _ _ _ _ (passed rd tx _)). destruct (Z.eq_dec t 0) as [->|H0].
    + assert (zlen body <= 65535) as Hl.
      { destruct S as (_ & _ & V & _). destruct N as (more & U). pose proof (unread_small (mq_sn c) _ _ _ V) as Hs.
        change (snz (mq_sn c)) with (sn_raw (mq_sn c)) in Hs. rewrite U, zlen_app, packet_len in Hs. pose proof (zlen_nonneg more).
        pose proof (varint_pos (zlen body)). lia. }
      eapply ensures_ir_mono; [apply (process_again dbg fuel c now ch rd tx _ MDecode S N); [apply packet_ne|]|auto|].
      * intros new Lw. apply recv_complete; [repeat split; lia|]. intros k Hk _ _ _. apply ctrl_is in Hk. cbn in Hk. subst k. reflexivity.
      * cbv beta. intros a s' (-> & V). right. split; [exact V|reflexivity].
    + eapply ensures_ir_mono; [apply (s_other dbg fuel c now ch rd tx t f body S Ht Hf); [|exact N]|auto|].
      * cbn [In] in *. intuition.
      * cbv beta. intros a s' (V & W). apply waits_quiet in W. destruct (fst a) as [[]|]; try contradiction; left; exact V.
Qed.
