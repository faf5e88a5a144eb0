(** Histories of calls on the MQTT client: results on an arbitrary bus. *)
From Verif Require Export Proof.MqttPubP Proof.LeafP.
From Verif Require Import Model.HlTcp Model.LlBits Model.Ll Model.LlAddr Model.Stream Model.Mqtt Spec.Silent.

(** ** What [recv] can return *)
Definition plain (e : merr) : Prop := e = MDecode \/ e = MProtocol \/ e = MOutOfMemory \/ e = MOther.
Definition rx_leaf (e : rx_end) : Prop :=
  match e with
  | RxErr e _ => plain e
  | RxDone st r => (st = None /\ exists a, r = Ok a) \/ (st = Some Ready /\ r = Ok (Some AConnAck)) \/ (st = Some MInit /\ exists e, r = Err e)
  | _ => True
  end.
Lemma map_plain e m : map_w5500 e = Some m -> plain m.
Proof. unfold plain. destruct e; cbn; intros E; try discriminate; injection E as <-; auto. Qed.
Lemma try_leaf {A} (p : SM A) k : (forall a, sleaves (k a) rx_leaf) -> sleaves (rx_try p k) rx_leaf.
Proof.
  intros H. apply sleaves_seq. intros [a|e]; [apply H|]. destruct (map_w5500 e) eqn:E; [|exact I]. cbn. exact (map_plain _ _ E).
Qed.
Lemma io_leaf {A} (p : SM A) k : (forall a, sleaves (k a) rx_leaf) -> sleaves (rx_io p k) rx_leaf.
Proof. intros H. apply sleaves_seq. intros [a|e]; [apply H|]. cbn. unfold plain. auto. Qed.
Lemma sub_leaf {A} (tf : Z -> res Z A) ev : sleaves (recv_sub tf ev) rx_leaf.
Proof.
  apply io_leaf. intros b. destruct (negb (zlen b =? 3)); [left; reflexivity|]. apply try_leaf. intros _. apply try_leaf. intros p.
  destruct (tf (at_ p 0)); cbn; [left; eauto|unfold plain; auto].
Qed.
Lemma recv_leaf st : sleaves (recv_pkt st) rx_leaf.
Proof.
  apply io_leaf. intros b. destruct (header_deser b) as [[h|[|]]|]; cbn [sleaves]; try (cbn; unfold plain; now auto).
  apply try_leaf. intros _. apply sleaves_seq. intros [rem|e]; [|exact I].
  destruct (rem <? fh_remaining h); [exact I|].
  assert (sleaves (rx_try (s_seek (SCurrent (clamp_i16 (fh_remaining h)))) (fun _ => SRet (RxDone None (Ok None)))) rx_leaf) as G.
  { apply try_leaf. intros _. left. eauto. }
  destruct (fh_ctrl h); try exact G; try apply sub_leaf.
  - left. reflexivity.
  - unfold recv_connack. destruct (negb _); [cbn; unfold plain; auto|]. apply try_leaf. intros b2. apply try_leaf. intros _. cbn [sleaves].
    destruct (connect_try_from (at_ b2 1)) as [r|[| |]]; cbn; eauto 6.
  - unfold recv_publish. apply try_leaf. intros b2. apply sleaves_seq. intros [i|e]; [|exact I]. apply try_leaf. intros _. apply try_leaf. intros p.
    apply try_leaf. intros _. apply sleaves_seq. intros [i2|e]; exact I.
Qed.

(** ** What [process] can return *)
Definition ready_ok (c : MqttClient) : Prop := st_state (mq_st c) = Ready -> st_timeout (mq_st c) = None.
Definition proc_ok (c : MqttClient) (now : Z) (x : res merr mevent * MqttClient) : Prop :=
  let '(r, c') := x in
  mq_pkt_id c' = mq_pkt_id c /\ (ready_ok c -> ready_ok c') /\
  (ready_ok c -> st_state (mq_st c') = Ready -> after_answer (mqtt_is_connected c) (NProcess r) = true) /\
  (forall k, r = Ok (MECallAfter k) -> exists since, st_timeout (mq_st c') = Some since /\ k = 10 - (now - since) /\ 0 <= k <= 10 /\
    (since = now /\ (st_state (mq_st c') = WaitConInt \/ st_state (mq_st c') = WaitConAck) \/ c' = c)) /\
  (r = Ok MENone -> st_timeout (mq_st c) = None).
Lemma proc_same c now r : (match r with Err e => plain e | Ok (MECallAfter _) | Ok MENone => False | _ => True end) -> proc_ok c now (r, c).
Proof.
  intros H. split; [reflexivity|]. split; [auto|]. split.
  { intros _ E. assert (mqtt_is_connected c = true) as Hc by (unfold mqtt_is_connected; now rewrite E). rewrite Hc.
    destruct r as [[]|e]; try contradiction; cbn; auto. unfold plain in H. destruct H as [->|[->|[->| ->]]]; reflexivity. }
  split; [intros k ->; contradiction|intros ->; contradiction].
Qed.
Lemma proc_init c now e : proc_ok c now (Err e, mq_set_state c MInit).
Proof. split; [reflexivity|]. split; [discriminate|]. split; [discriminate|]. split; discriminate. Qed.
Lemma timeout_leaf c now : leaves (mqtt_timeout c now) (proc_ok c now).
Proof.
  unfold mqtt_timeout, st_elapsed. destruct (st_timeout (mq_st c)) as [t|] eqn:Et.
  - destruct (Z.ltb_spec now t); [exact I|]. unfold TIMEOUT_SECS. destruct (Z.ltb_spec 10 (now - t)); [apply proc_init|].
    cbn [leaves]. split; [reflexivity|]. split; [auto|]. split.
    { intros R E. rewrite (R E) in Et. discriminate. }
    split; [|discriminate]. intros k E. assert (k = Z.max 0 (10 - (now - t))) as -> by congruence. exists t. split; [exact Et|]. split; [lia|]. split; [lia|]. now right.
  - cbn [leaves]. split; [reflexivity|]. split; [auto|]. split; [|split; [discriminate|auto]].
    intros _ E. cbn. unfold mqtt_is_connected. now rewrite E.
Qed.
Lemma io_proc {A} (p : M A) c now k : (forall a, leaves (k a) (proc_ok c now)) -> leaves (q_io p c k) (proc_ok c now).
Proof. intros H. apply leaves_seq. intros [a|e]; [apply H|]. apply proc_same. unfold plain. auto. Qed.
Lemma rx_leaves dbg c now : leaves (mqtt_rx dbg c now) (proc_ok c now).
Proof.
  unfold mqtt_rx. apply leaves_seq. intros [cur|[| | |]]; try exact I.
  2:{ apply timeout_leaf. }
  2:{ apply proc_same. unfold plain. auto. }
  apply leaves_bind. unfold mqtt_recv. apply leaves_bind. eapply leaves_mono; [apply (sleaves_cursor _ _ (recv_leaf (st_state (mq_st c))))|].
  intros [e cur'] He. cbn [fst snd] in *. destruct e as [|e i|st r|tl ti pl pi]; cbn [rx_leaf leaves fst snd] in *.
  - apply timeout_leaf.
  - destruct i; [apply proc_init|]. now apply proc_same.
  - apply leaves_seq. intros [u|e]; cbn [leaves fst snd].
    2:{ apply proc_same. unfold plain. auto. }
    destruct He as [(-> & a & ->)|[(-> & ->)|(-> & e & ->)]].
    + destruct a as [a|]; cbn [leaves fst snd]; [|apply timeout_leaf]. apply proc_same. now destruct a.
    + cbn [leaves fst snd mack_event]. split; [reflexivity|]. split; [intros _ _; reflexivity|]. split; [reflexivity|]. split; discriminate.
    + apply proc_init.
  - apply proc_same. exact I.
Qed.

Lemma process_leaves dbg fuel c now : leaves (mqtt_process dbg fuel c now) (proc_ok c now).
Proof.
  unfold mqtt_process. destruct (mstate_eqb (st_state (mq_st c)) MInit) eqn:Ei.
  - unfold mq_after. apply leaves_bind. unfold mqtt_tcp_connect.
    assert (forall e, plain e -> proc_ok c now (Err e, c)) as G by (intros e He; now apply proc_same).
    unfold q_io. do 4 (apply leaves_seq; intros [?|?]; [|cbn [leaves]; apply G; unfold plain; auto]).
    cbn [leaves fst snd]. split; [reflexivity|]. split; [discriminate|]. split; [discriminate|]. split; [|discriminate].
    intros k E. injection E as <-. exists now. unfold TIMEOUT_SECS. split; [reflexivity|]. split; [lia|]. split; [lia|]. left. auto.
  - apply io_proc. intros ir. destruct (SocketInterrupt_any_raised ir); [|apply rx_leaves]. apply io_proc. intros _.
    destruct (SocketInterrupt_discon_raised ir); [apply proc_init|]. destruct (SocketInterrupt_con_raised ir).
    2:{ destruct (SocketInterrupt_timeout_raised ir); [apply proc_init|apply rx_leaves]. }
    unfold mq_after. apply leaves_bind. unfold mqtt_send_connect, mqtt_send, q_io.
    assert (forall e, plain e -> proc_ok c now (Err e, c)) as G by (intros e He; now apply proc_same).
    do 2 (apply leaves_seq; intros [?|?]; [|cbn [leaves]; apply G; unfold plain; auto]).
    apply leaves_seq. intros [r cur]. cbn [fst snd]. destruct r as [u|e]; cbn [mq_err].
    + apply leaves_seq. intros [?|?]; [|cbn [leaves]; apply G; unfold plain; auto].
      cbn [leaves fst snd]. split; [reflexivity|]. split; [discriminate|]. split; [discriminate|]. split; [|discriminate].
      intros k E. injection E as <-. exists now. unfold TIMEOUT_SECS. split; [reflexivity|]. split; [lia|]. split; [lia|]. left. auto.
    + destruct (map_w5500 e) as [m|] eqn:Em; [|exact I]. cbn [leaves fst snd]. apply G. exact (map_plain _ _ Em).
Qed.

(** ** What the requests can return *)
Definition req_ok (c : MqttClient) (nonempty : bool) (x : res merr Z * MqttClient) : Prop :=
  let '(r, c') := x in
  mq_st c' = mq_st c /\ (c' = c \/ c' = next_pkt_id c) /\  (forall id, r = Ok id -> nonempty = true -> c' = next_pkt_id c /\ id = mq_pkt_id c') /\  (mqtt_is_connected c = false -> r = Err MNotConnected /\ c' = c).
Lemma request_leaf c filter (w : list Z -> Z -> SM unit) : let c' := next_pkt_id c in
  leaves (if negb (mqtt_is_connected c) then Ret (Err MNotConnected, c) else
    if zlen filter =? 0 then q_io (tx_writer (mq_sn c)) c (fun _ => Ret (Ok 0, c')) else
    mqtt_send c c' (w filter (mq_pkt_id c')) (mq_pkt_id c') c') (req_ok c (negb (zlen filter =? 0))).
Proof.
  intros c'. destruct (mqtt_is_connected c) eqn:Ec; cbn [negb].
  2:{ cbn [leaves req_ok]. split; [reflexivity|]. split; [now left|]. split; [discriminate|auto]. }
  assert (forall e x, x = c \/ x = c' -> req_ok c (negb (zlen filter =? 0)) (Err e, x)) as G.
  { intros e x Hx. split; [now destruct Hx; subst x|]. split; [exact Hx|]. split; [discriminate|rewrite Ec; discriminate]. }
  destruct (zlen filter =? 0) eqn:Ez.
  - apply leaves_seq. intros [?|?]; cbn [leaves]; [|apply G; auto]. split; [reflexivity|]. split; [now right|]. split; [discriminate|rewrite Ec; discriminate].
  - apply leaves_seq. intros [?|?]; cbn [leaves]; [|apply G; auto]. apply leaves_seq. intros [r cur]. cbn [fst snd].
    destruct r as [u|e]; cbn [mq_err].
    + apply leaves_seq. intros [?|?]; cbn [leaves]; [|apply G; auto]. split; [reflexivity|]. split; [now right|]. split; [|rewrite Ec; discriminate].
      intros id E _. injection E as <-. auto.
    + destruct (map_w5500 e); [|exact I]. cbn [leaves]. apply G. auto.
Qed.
Lemma publish_leaf c t p : leaves (mqtt_publish c t p) (fun x => snd x = c).
Proof.
  unfold mqtt_publish. destruct (negb (mqtt_is_connected c)); [reflexivity|]. apply leaves_seq. intros [?|?]; cbn [leaves]; [|reflexivity].
  apply leaves_seq. intros [r cur]. cbn [fst snd]. destruct (mq_err r) as [[u|e]|]; [|reflexivity|exact I].
  apply leaves_seq. intros [?|?]; reflexivity.
Qed.

(** One call. *)
Lemma call_leaf dbg fuel c x : leaves (mcall_run dbg fuel c x) (fun ac => let '(a, c') := ac in
  (ready_ok c -> ready_ok c') /\
  (ready_ok c -> mqtt_is_connected c' = true -> after_answer (mqtt_is_connected c) a = true) /\
  ((is_request x = false /\ mq_pkt_id c' = mq_pkt_id c) \/ (is_request x = true /\ mq_pkt_id c' = mq_pkt_id c) \/
   (is_request x = true /\ mq_pkt_id c' = mq_pkt_id (next_pkt_id c))) /\
  (forall id, a = NSub (Ok id) -> nonempty_filter x = true -> is_request x = true /\ mq_pkt_id c' = mq_pkt_id (next_pkt_id c) /\ id = mq_pkt_id c')).
Proof.
  destruct x as [now|t p|f|f]; cbn [mcall_run is_request].
  - apply leaves_bind. eapply leaves_mono; [apply process_leaves|]. intros [r c'] (P1 & P2 & P3 & _). cbn [leaves fst snd].
    split; [exact P2|]. split; [|split; [auto|discriminate]]. intros R E. apply P3; [exact R|]. unfold mqtt_is_connected in E.
    destruct (st_state (mq_st c')); try discriminate. reflexivity.
  - apply leaves_bind. eapply leaves_mono; [apply publish_leaf|]. intros [r c'] E. cbn [leaves fst snd] in *. subst c'.
    split; [auto|]. split; [intros _ E; exact E|]. split; [auto|discriminate].
  - apply leaves_bind. eapply leaves_mono; [apply (request_leaf c f write_subscribe)|]. intros [r c'] (Q1 & Q2 & Q3 & Q4). cbn [leaves fst snd] in *.
    unfold ready_ok, mqtt_is_connected. rewrite Q1. split; [auto|]. split; [intros _ E; exact E|].
    split; [destruct Q2 as [->| ->]; auto|]. intros id E Hn. injection E as ->. cbn [nonempty_filter] in Hn.
    destruct (Q3 id eq_refl Hn) as (E1 & E2). subst c'. auto.
  - apply leaves_bind. eapply leaves_mono; [apply (request_leaf c f write_unsubscribe)|]. intros [r c'] (Q1 & Q2 & Q3 & Q4). cbn [leaves fst snd] in *.
    unfold ready_ok, mqtt_is_connected. rewrite Q1. split; [auto|]. split; [intros _ E; exact E|].
    split; [destruct Q2 as [->| ->]; auto|]. intros id E Hn. injection E as ->. cbn [nonempty_filter] in Hn.
    destruct (Q3 id eq_refl Hn) as (E1 & E2). subst c'. auto.
Qed.

(** ** Operations require a handshake *)
Lemma after_mono up a : after_answer up a = true -> after_answer true a = true.
Proof. destruct a as [[[]|[]]| |]; cbn; auto. Qed.
Lemma history_ready dbg fuel c0 h c : st_state (mq_st c0) = MInit -> mhistory dbg fuel c0 h c ->
  ready_ok c /\ (mqtt_is_connected c = true -> connected h = true).
Proof.
  intros H0. induction 1 as [|h c x a c' H IH S].
  - split; [intros E; congruence|]. unfold mqtt_is_connected. rewrite H0. discriminate.
  - destruct IH as (R & C). pose proof (leaves_any _ _ _ S (call_leaf dbg fuel c x) _ eq_refl) as (L1 & L2 & _). cbn beta iota in *.
    split; [exact (L1 R)|]. intros E. specialize (L2 R E). unfold connected in *. rewrite fold_left_app. cbn [fold_left snd].
    destruct (mqtt_is_connected c) eqn:Ec; [rewrite (C eq_refl); exact L2|].
    destruct (fold_left _ h false); [now apply after_mono in L2|exact L2].
Qed.
Lemma needs_handshake dbg fuel c0 h c : st_state (mq_st c0) = MInit -> mhistory dbg fuel c0 h c -> connected h = false ->
  (forall topic payload, mqtt_publish c topic payload = Ret (Err MNotConnected, c)) /\
  (forall filter, mqtt_subscribe c filter = Ret (Err MNotConnected, c)) /\
  (forall filter, mqtt_unsubscribe c filter = Ret (Err MNotConnected, c)).
Proof.
  intros H0 H E. destruct (history_ready dbg fuel c0 h c H0 H) as (_ & C).
  assert (mqtt_is_connected c = false) as Ec by (destruct (mqtt_is_connected c); [rewrite (C eq_refl) in E; discriminate|reflexivity]).
  unfold mqtt_publish, mqtt_subscribe, mqtt_unsubscribe. rewrite Ec. cbn [negb]. auto.
Qed.

(** ** Packet identifiers *)
Definition pid (i k : Z) : Z := (i - 1 + k) mod 65535 + 1.
Lemma pid_next c : 1 <= mq_pkt_id c <= 65535 -> mq_pkt_id (next_pkt_id c) = pid (mq_pkt_id c) 1.
Proof. intros H. unfold next_pkt_id, pid. cbn [mq_pkt_id]. destruct (Z.ltb_spec (mq_pkt_id c + 1) 65536); lia. Qed.
Lemma pid_add i k : pid (pid i k) 1 = pid i (k + 1).
Proof. unfold pid. lia. Qed.
Lemma pid_range i k : 1 <= pid i k <= 65535.
Proof. unfold pid. lia. Qed.
Lemma pid_inj i a b : 1 <= i <= 65535 -> 0 < a <= 65535 -> 0 < b <= 65535 -> pid i a = pid i b -> a = b.
Proof. unfold pid. intros Hi Ha Hb E. lia. Qed.
Lemma granted_app h1 h2 : granted (h1 ++ h2) = granted h1 ++ granted h2.
Proof.
  induction h1 as [|[x a] h1 IH]; [reflexivity|]. cbn [granted app]. destruct a as [r|r|[id|e]]; try exact IH.
  destruct (nonempty_filter x); [cbn [app]; now rewrite IH|exact IH].
Qed.
Lemma history_ids dbg fuel c0 h c : 1 <= mq_pkt_id c0 <= 65535 -> mhistory dbg fuel c0 h c ->
  exists (ks : list Z) K, 0 <= K <= zlen (requests h) /\ mq_pkt_id c = pid (mq_pkt_id c0) K /\
    granted h = map (pid (mq_pkt_id c0)) ks /\ NoDup ks /\ Forall (fun k => 0 < k <= K) ks.
Proof.
  intros H0. induction 1 as [|h c x a c' H IH S].
  - exists [], 0. split; [unfold zlen; cbn; lia|]. split; [unfold pid; lia|]. split; [reflexivity|]. split; constructor.
  - destruct IH as (ks & K & HK & Ei & Eg & Hd & Hf).
    pose proof (leaves_any _ _ _ S (call_leaf dbg fuel c x) _ eq_refl) as (_ & _ & L3 & L4). cbn beta iota in *.
    assert (1 <= mq_pkt_id c <= 65535) as Hc by (rewrite Ei; apply pid_range).
    unfold requests in *. rewrite filter_app, zlen_app. cbn [filter fst]. rewrite granted_app, Eg.
    assert (granted [(x, a)] = [] \/ (granted [(x, a)] = [pid (mq_pkt_id c0) (K + 1)] /\ is_request x = true /\ mq_pkt_id c' = pid (mq_pkt_id c0) (K + 1))) as Hg.
    { cbn [granted]. destruct a as [r|r|[id|e]]; auto. destruct (nonempty_filter x) eqn:En; auto. right.
      destruct (L4 id eq_refl eq_refl) as (E1 & E2 & E3). rewrite E3, E2, pid_next, Ei, pid_add by exact Hc. auto. }
    destruct Hg as [Hg|(Hg & Hr & Hi)]; rewrite Hg.
    + rewrite app_nil_r. destruct L3 as [(Hr & E)|[(Hr & E)|(Hr & E)]]; rewrite Hr.
      * exists ks, K. rewrite E. change (zlen (@nil (mcall * mans))) with 0. split; [lia|]. auto.
      * exists ks, K. rewrite E. change (zlen [(x, a)]) with 1. split; [lia|]. auto.
      * exists ks, (K + 1). rewrite E, pid_next, Ei, pid_add by exact Hc. change (zlen [(x, a)]) with 1. split; [lia|]. split; [reflexivity|].
        split; [reflexivity|]. split; [exact Hd|]. eapply Forall_impl; [|exact Hf]. cbn. intros k Hk. lia.
    + exists (ks ++ [K + 1]), (K + 1). rewrite Hr, Hi. change (zlen [(x, a)]) with 1. split; [lia|]. split; [reflexivity|].
      split; [now rewrite map_app|]. split.
      * apply (NoDup_Add (a := K + 1) (l := ks)); [|split; [exact Hd|]]. { rewrite <- (app_nil_r ks) at 1. apply Add_app. } intros Hin. rewrite Forall_forall in Hf. specialize (Hf _ Hin). lia.
      * apply Forall_app. split; [|constructor; [lia|constructor]]. eapply Forall_impl; [|exact Hf]. cbn. intros k Hk. lia.
Qed.

(** ** A silent server *)
Section Quiet.
Context (sn : Sn).
Let n := snz sn.
Lemma wpq_ir s (Q : res err Z -> sock -> Prop) : Q (Ok (s_ir s)) s -> wpq (sn_ir sn) n s Q.
Proof. intros H. cbn [wpq sn_ir bindM bind read]. exists 1. split; [lia|]. split; [apply sn_block_eq|]. exact H. Qed.
Lemma wpq_sr s (Q : res err (res Z SocketStatus) -> sock -> Prop) : Q (Ok (status_try_from (s_sr s))) s -> wpq (sn_sr sn) n s Q.
Proof. intros H. cbn [wpq sn_sr bindM bind read]. exists 1. split; [lia|]. split; [apply sn_block_eq|]. exact H. Qed.
Lemma wpq_rsr s (Q : res err Z -> sock -> Prop) : Q (Ok (rx_rsr s)) s -> wpq (sn_rx_rsr sn) n s Q.
Proof.
  intros H. cbn [wpq sn_rx_rsr bindM bind read]. exists 1. split; [lia|]. split; [apply sn_block_eq|]. cbn [wpq ret bind].
  change (wpq (Ret (@Ok err Z (of_be16 (hi8 (rx_rsr s)) (lo8 (rx_rsr s))))) n s Q). rewrite hi_lo by apply wsub_range. exact H.
Qed.
Lemma wpq_bindM {A B} (p : M A) (f : A -> M B) s (Q : res err B -> sock -> Prop) :
  wpq p n s (fun r s' => match r with Ok a => wpq (f a) n s' Q | Err e => Q (Err e) s' end) -> wpq (bindM p f) n s Q.
Proof.
  intros H. apply wpq_bind. revert H. generalize s. induction p as [r|a b len k IH|a b d k IH| |]; intros s0 H; cbn [wpq] in *; auto.
  - destruct r; exact H.
  - destruct H as (kd & Hk & E & H). exists kd. auto.
  - destruct H as (kd & Hk & E & H). exists kd. auto.
Qed.
Lemma process_silent dbg fuel c now ch sch : mq_sn c = sn -> st_state (mq_st c) <> MInit -> clock_ok c now ->
  let s := c_sock ch n in no_link_change (s_ir s) -> rx_rsr s = 0 -> (dbg = true -> ~ In (s_sr s) [0x13; 0x22; 0x42]) -> silent sch n ->
  exists x sch' ch', run (mqtt_process dbg fuel c now) sch ch = (Done x, sch', ch') /\ waits c now x.
Proof.
  intros Hsn Hst Hc s (N0 & N1 & N3) Hr Hd Hs. pose proof (snz_range sn) as Hn.
  assert (wpq (mqtt_process dbg fuel c now) n s (fun x _ => waits c now x)) as G.
  2:{ destruct (wpq_sound _ n ch _ sch ltac:(unfold n; lia) G Hs) as (x & sch' & ch' & E & W & _). eauto. }
  assert (forall s', s_sr s' = s_sr s -> rx_rsr s' = 0 -> wpq (mqtt_rx dbg c now) n s' (fun x _ => waits c now x)) as Grx.
  { intros s' E1 E2. unfold mqtt_rx. rewrite Hsn. apply wpq_bind. unfold tcp_reader. apply wpq_bindM.
    assert (wpq (bindM (sn_rx_rsr sn) (fun rsr => if rsr =? 0 then fail WouldBlock else
       rd <- sn_rx_rd sn ;; ret (mkCur sn rd (wadd rd rsr) rd))) n s' (fun r s'' => wpq (match r with
         | Ok reader => x <-- mqtt_recv c reader ;; match fst x with inl r => Ret (r, snd x) | inr _ => mqtt_timeout (snd x) now end
         | Err WouldBlock => mqtt_timeout c now | Err Other => Ret (Err MOther, c) | Err _ => Panic end) n s'' (fun x _ => waits c now x))) as G2.
    { apply wpq_bindM, wpq_rsr. rewrite E2. cbn [Z.eqb wpq fail]. unfold mqtt_timeout, st_elapsed, waits.
      unfold clock_ok in Hc. destruct (st_timeout (mq_st c)) as [t|]; [|reflexivity].
      destruct (Z.ltb_spec now t); [lia|]. unfold TIMEOUT_SECS. destruct (Z.ltb_spec 10 (now - t)); cbn [wpq]; [now right|].
      left. split; [lia|]. now rewrite Z.max_r by lia. }
    unfold debug_assert. destruct dbg; [|exact G2]. apply wpq_bindM. unfold tcp_state_ok. apply wpq_bindM, wpq_sr. cbn [wpq ret].
    rewrite E1. specialize (Hd eq_refl). cbn [In] in Hd.
    assert ((match status_try_from (s_sr s) with Ok Udp | Ok Init | Ok Macraw => false | _ => true end) = true) as ->; [|exact G2].
    unfold status_try_from. repeat match goal with |- context [?a =? ?b] => destruct (Z.eqb_spec a b); [try reflexivity; exfalso; apply Hd; auto|] end. reflexivity. }
  unfold mqtt_process. destruct (mstate_eqb (st_state (mq_st c)) MInit) eqn:Ei; [destruct (st_state (mq_st c)); try discriminate; contradiction|].
  unfold q_io. rewrite Hsn. apply wpq_bind, wpq_ir. destruct (SocketInterrupt_any_raised (s_ir s)); [|now apply Grx].
  apply wpq_bind. cbn [wpq set_sn_ir write]. exists 1. split; [lia|]. split; [apply sn_block_eq|].
  destruct (link_bits (s_ir s)) as (-> & -> & ->). unfold ir_bit in *.
  destruct (Z.testbit (s_ir s) 1); [now destruct N1|]. destruct (Z.testbit (s_ir s) 0); [now destruct N0|]. destruct (Z.testbit (s_ir s) 3); [now destruct N3|].
  apply Grx; [reflexivity|exact Hr].
Qed.
End Quiet.
