(** The statements of Props/Mqtt.v. *)
From Verif Require Export Proof.MqttHistP.
From Verif Require Import Model.HlTcp Model.LlBits Model.Ll Model.LlAddr Model.Stream Model.Mqtt Spec.Silent Spec.Cases.

Ltac case_tcp_view :=
  match goal with
  | |- bytes_ok _ => vm_compute; repeat constructor; discriminate
  | _ => repeat split; try (vm_compute; reflexivity || (intro; discriminate)); try (left; reflexivity);
      try (right; right; left; reflexivity); repeat constructor; discriminate
  end.

(** ** C41 *)
Lemma encode_bytes n : 0 <= n < 268435456 -> exists buf, encode_variable_byte_integer n = Some (buf, zlen (varint n)) /\
  ztake (zlen (varint n)) buf = varint n.
Proof. intros H. rewrite encode_varint by exact H. eexists. split; [reflexivity|]. apply ztake_exact. Qed.
Lemma round_trip n rest : 0 <= n < 268435456 -> exists buf k, encode_variable_byte_integer n = Some (buf, k) /\ 1 <= k <= 4 /\
  vbi n (ztake k buf) /\ (forall l, vbi n l -> k <= zlen l) /\
  decode_variable_byte_integer (ztake k buf ++ rest) = Some (Ok (n, k)).
Proof.
  intros H. destruct (encode_bytes n H) as (buf & E & T). exists buf, (zlen (varint n)). split; [exact E|].
  assert (1 <= zlen (varint n) <= 4) as L.
  { rewrite varint_len by exact H. destruct (n <? 128), (n <? 16384), (n <? 2097152); lia. }
  split; [exact L|]. rewrite T. split; [now apply varint_vbi|]. split; [intros l V; now apply varint_minimal|].
  apply decode_exact; [now apply varint_vbi|lia].
Qed.
Lemma truncated n l k : vbi n l -> zlen l <= 4 -> 0 <= k < zlen l -> decode_variable_byte_integer (ztake k l) = Some (Err Fragment).
Proof. intros V L H. apply decode_fragment; [exact (vbi_split k n l V H)|rewrite zlen_ztake; lia]. Qed.

(** ** C42 *)
Lemma ensures_spec {A} (p : prog A) sn c (Q : A -> sock -> Prop) : wps p (snz sn) (c_sock c (snz sn)) False Q -> ensures p (sn_raw sn) c Q.
Proof. apply ensures_wps. Qed.
Lemma publish_run c topic payload ch rd tx : let n := sn_raw (mq_sn c) in
  mqtt_is_connected c = true -> tcp_view (c_sock ch n) rd tx ->
  ensures (mqtt_publish c topic payload) n ch
    (sends (room (c_sock ch n)) rd tx (publish_packet false topic [] payload) (Ok tt, c) (Err MOutOfMemory, c)).
Proof. intros n Hc V. apply ensures_wps. now apply publish_spec. Qed.
Lemma subscribe_run c filter ch rd tx : let n := sn_raw (mq_sn c) in
  mqtt_is_connected c = true -> is_u16 (mq_pkt_id c) -> tcp_view (c_sock ch n) rd tx ->
  filter <> [] -> zlen filter <= 65532 -> let c' := next_pkt_id c in
  ensures (mqtt_subscribe c filter) n ch
    (sends (room (c_sock ch n)) rd tx (subscribe_packet (mq_pkt_id c') filter) (Ok (mq_pkt_id c'), c') (Err MOutOfMemory, c')).
Proof. intros n Hc Hi V Hf Hl. apply ensures_wps. pose proof (zlen_nonneg filter). apply subscribe_spec; auto. rewrite Z.mod_small; lia. Qed.
Lemma unsubscribe_run c filter ch rd tx : let n := sn_raw (mq_sn c) in
  mqtt_is_connected c = true -> is_u16 (mq_pkt_id c) -> tcp_view (c_sock ch n) rd tx ->
  filter <> [] -> zlen filter <= 65533 -> let c' := next_pkt_id c in
  ensures (mqtt_unsubscribe c filter) n ch
    (sends (room (c_sock ch n)) rd tx (unsubscribe_packet (mq_pkt_id c') filter) (Ok (mq_pkt_id c'), c') (Err MOutOfMemory, c')).
Proof. intros n Hc Hi V Hf Hl. apply ensures_wps. pose proof (zlen_nonneg filter). apply unsubscribe_spec; auto. rewrite Z.mod_small; lia. Qed.
Lemma app_inj_len {A} (a b c d : list A) : a ++ b = c ++ d -> zlen a = zlen c -> a = c /\ b = d.
Proof.
  intros E L. unfold zlen in L. assert (length a = length c) as L2 by lia. clear L. revert c L2 E. induction a as [|x a IH]; intros [|y c] L E; cbn in *; try discriminate; auto.
  injection E as -> E. destruct (IH c) as [-> ->]; auto.
Qed.
(** Packets determine their contents. *)
Lemma varint_inj n m a b : 0 <= n < 268435456 -> 0 <= m < 268435456 -> varint n ++ a = varint m ++ b -> n = m /\ a = b.
Proof.
  intros Hn Hm E. assert (forall n, 0 <= n < 268435456 -> zlen (varint n) <= 4) as L.
  { intros k Hk. rewrite varint_len by exact Hk. destruct (k <? 128), (k <? 16384), (k <? 2097152); lia. }
  pose proof (decode_exact n (varint n) a (varint_vbi n Hn) (L n Hn)) as E1. pose proof (decode_exact m (varint m) b (varint_vbi m Hm) (L m Hm)) as E2.
  rewrite E, E2 in E1. injection E1 as -> _. split; [reflexivity|]. now apply app_inv_head in E.
Qed.
Lemma packet_inj t f b t' f' b' r r' : 0 <= f < 16 -> 0 <= f' < 16 -> zlen b < 268435456 -> zlen b' < 268435456 ->
  mpacket t f b ++ r = mpacket t' f' b' ++ r' -> t = t' /\ f = f' /\ b = b' /\ r = r'.
Proof.
  intros Hf Hf' Hb Hb' E. unfold mpacket in E. cbn [app] in E. assert (16 * t + f = 16 * t' + f') as E0 by congruence. apply (f_equal (@tl Z)) in E. cbn [tl] in E. rewrite <- !app_assoc in E.
  pose proof (zlen_nonneg b). pose proof (zlen_nonneg b'). apply varint_inj in E as (En & E); [|lia|lia].
  split; [lia|]. split; [lia|]. apply app_inj_len in E as (-> & ->); auto.
Qed.
Lemma mstr_inj a b r r' : zlen a < 65536 -> zlen b < 65536 -> mstr a ++ r = mstr b ++ r' -> a = b /\ r = r'.
Proof.
  intros Ha Hb E. pose proof (zlen_nonneg a). pose proof (zlen_nonneg b). unfold mstr, two in E. cbn [app] in E.
  assert (zlen a / 256 = zlen b / 256) as E1 by congruence. assert (zlen a mod 256 = zlen b mod 256) as E2 by congruence.
  apply (f_equal (fun l => tl (tl l))) in E. cbn [tl] in E. apply app_inj_len in E as (-> & ->); auto. lia.
Qed.
Lemma publish_inj t p t' p' r r' : zlen t < 65536 -> zlen t' < 65536 -> zlen p < 65536 -> zlen p' < 65536 ->
  publish_packet false t [] p ++ r = publish_packet false t' [] p' ++ r' -> t = t' /\ p = p' /\ r = r'.
Proof.
  intros H1 H2 H3 H4 E. apply packet_inj in E as (_ & _ & E & Er); try lia.
  - apply mstr_inj in E as (-> & E); auto. injection E as ->. auto.
  - unfold mstr, mprops. rewrite !zlen_app. change (zlen (two (zlen t))) with 2. change (zlen (varint (zlen (@nil Z)))) with 1. change (zlen (@nil Z)) with 0. lia.
  - unfold mstr, mprops. rewrite !zlen_app. change (zlen (two (zlen t'))) with 2. change (zlen (varint (zlen (@nil Z)))) with 1. change (zlen (@nil Z)) with 0. lia.
Qed.
(** Filters that the length arithmetic cannot hold. *)
Lemma send_panics {A} c c' (p : SM unit) (a : A) done ch rd tx sch : p = SPanic -> tcp_view (c_sock ch (sn_raw (mq_sn c))) rd tx -> no_faults sch ->
  exists sch' ch', run (mqtt_send c c' p a done) sch ch = (Panicked, sch', ch') /\ tcp_view (c_sock ch' (sn_raw (mq_sn c))) rd tx.
Proof.
  intros -> V Hs. unfold mqtt_send, q_io. rewrite run_bind.
  pose proof V as (T & _ & X & _).
  pose proof (wps_sound _ (snz (mq_sn c)) ch False _ sch ltac:(apply snz_range) (tx_writer_spec (mq_sn c) False _ (view_idle _ _ _ V) X) Hs) as R.
  destruct (run (tx_writer (mq_sn c)) sch ch) as [[[x| |] sch'] ch']; try contradiction.
  destruct R as ((E & w & -> & _) & _). rewrite run_bind. cbn. exists sch', ch'. split; [reflexivity|]. exact (proj1 (view_env _ _ _ _ V E)).
Qed.
Lemma subscribe_panics c filter ch rd tx sch : let n := sn_raw (mq_sn c) in mqtt_is_connected c = true -> tcp_view (c_sock ch n) rd tx -> no_faults sch ->
  65533 <= zlen filter <= 65535 ->
  exists sch' ch', run (mqtt_subscribe c filter) sch ch = (Panicked, sch', ch') /\ tcp_view (c_sock ch' n) rd tx.
Proof.
  intros n Hc V Hs Hl. unfold mqtt_subscribe. rewrite Hc. cbn [negb]. destruct (Z.eqb_spec (zlen filter) 0); [lia|].
  apply send_panics; auto. unfold write_subscribe. unfold u16, FILTER_LEN_LEN. rewrite Z.mod_small by lia.
  destruct (Z.leb_spec 65536 (zlen filter + 2)); [reflexivity|]. destruct (Z.leb_spec 65536 (zlen filter + 2 + 1)); [reflexivity|lia].
Qed.
Lemma unsubscribe_panics c filter ch rd tx sch : let n := sn_raw (mq_sn c) in mqtt_is_connected c = true -> tcp_view (c_sock ch n) rd tx -> no_faults sch ->
  65534 <= zlen filter <= 65535 ->
  exists sch' ch', run (mqtt_unsubscribe c filter) sch ch = (Panicked, sch', ch') /\ tcp_view (c_sock ch' n) rd tx.
Proof.
  intros n Hc V Hs Hl. unfold mqtt_unsubscribe. rewrite Hc. cbn [negb]. destruct (Z.eqb_spec (zlen filter) 0); [lia|].
  apply send_panics; auto. unfold write_unsubscribe. unfold u16, FILTER_LEN_LEN. rewrite Z.mod_small by lia.
  destruct (Z.leb_spec 65536 (zlen filter + 2)); [reflexivity|lia].
Qed.

(** ** C46 *)
Lemma map_pid_nodup i ks : 1 <= i <= 65535 -> NoDup ks -> Forall (fun k => 0 < k <= 65535) ks -> NoDup (map (pid i) ks).
Proof.
  intros Hi N F. induction N as [|k ks Hk N IH]; [constructor|]. inversion F as [|? ? Fk F']; subst. cbn. constructor; auto.
  intros I. apply in_map_iff in I as (k' & E & I). rewrite Forall_forall in F'. pose proof (F' _ I) as Fk'. apply pid_inj in E; auto. now subst.
Qed.
Lemma ids_distinct dbg fuel c0 h1 c1 h2 c : mq_pkt_id c0 = 1 -> mhistory dbg fuel c0 h1 c1 -> mhistory dbg fuel c1 h2 c ->
  Forall (fun id => 1 <= id <= 65535) (granted h2) /\ (zlen (requests h2) <= 65535 -> NoDup (granted h2)).
Proof.
  intros E H1 H2. destruct (history_ids dbg fuel c0 h1 c1 ltac:(lia) H1) as (_ & K1 & _ & E1 & _).
  pose proof (pid_range (mq_pkt_id c0) K1) as R1. rewrite <- E1 in R1.
  destruct (history_ids dbg fuel c1 h2 c R1 H2) as (ks & K & HK & _ & -> & N & F). split.
  - apply Forall_forall. intros id I. apply in_map_iff in I as (k & <- & _). apply pid_range.
  - intros L. apply map_pid_nodup; auto. eapply Forall_impl; [|exact F]. cbn. intros. lia.
Qed.

(** ** C48 *)
Lemma process_deadline dbg fuel c now r c' : any_bus (mqtt_process dbg fuel c now) (Done (r, c')) ->
  match r with
  | Ok (MECallAfter k) => 0 <= k <= 10 /\ st_timeout (mq_st c') = Some (now + k - 10) /\
      (c' = c \/ (k = 10 /\ (st_state (mq_st c') = WaitConInt \/ st_state (mq_st c') = WaitConAck)))
  | Ok MENone => st_timeout (mq_st c) = None
  | _ => True
  end.
Proof.
  intros H. destruct (leaves_any _ _ _ H (process_leaves dbg fuel c now) _ eq_refl) as (_ & _ & _ & A & B).
  destruct r as [[]|]; auto. destruct (A _ eq_refl) as (since & E & -> & K & S). split; [exact K|]. split; [rewrite E; f_equal; lia|].
  destruct S as [(-> & S)|S]; [right; split; [lia|exact S]|left; exact S].
Qed.

(** ** [process] on an open connection *)
Ltac serve := intros; repeat match goal with H : serving _ _ _ _ _ |- _ => destruct H as (? & ? & ? & ?) | H : next_is _ _ _ |- _ => destruct H end.
Lemma s_discon dbg fuel c now ch rd tx : serving c now ch rd tx ->
  ensures_ir (ir_bit 1) (mqtt_process dbg fuel c now) (sn_raw (mq_sn c)) ch (fun x s' => x = (Err MDisconnect, mq_set_state c MInit) /\ tcp_view s' rd tx).
Proof. serve. now apply (process_discon (mq_sn c)). Qed.
Lemma s_tcp_timeout dbg fuel c now ch rd tx : serving c now ch rd tx ->
  ensures_ir (fun v => ir_bit 3 v /\ ~ ir_bit 0 v /\ ~ ir_bit 1 v) (mqtt_process dbg fuel c now) (sn_raw (mq_sn c)) ch
    (fun x s' => x = (Err MTcpTimeout, mq_set_state c MInit) /\ tcp_view s' rd tx).
Proof. serve. now apply (process_tcp_timeout (mq_sn c)). Qed.
Lemma s_con dbg fuel c now ch rd tx : let s := c_sock ch (sn_raw (mq_sn c)) in serving c now ch rd tx ->
  (forall i, mq_client_id c = Some i -> zlen i <= 23) ->
  ensures_ir (fun v => ir_bit 0 v /\ ~ ir_bit 1 v) (mqtt_process dbg fuel c now) (sn_raw (mq_sn c)) ch
    (sends (room s) rd tx (connect_of c s) (Ok (MECallAfter 10), mq_set_timeout c WaitConAck now) (Err MOutOfMemory, c)).
Proof. serve. now apply (process_con (mq_sn c)). Qed.
Lemma s_incomplete dbg fuel c now ch rd tx t f body : serving c now ch rd tx -> 0 <= t < 16 -> 0 <= f < 16 -> zlen body <= 65535 ->
  ensures_ir no_link_change (mqtt_process dbg fuel c now) (sn_raw (mq_sn c)) ch (fun x s' =>
    forall got missing, s_rxlog s' = rd ++ got -> got ++ missing = mpacket t f body -> missing <> [] ->
    waits c now x /\ tcp_view s' rd tx).
Proof. serve. now apply (process_incomplete (mq_sn c)). Qed.
Lemma s_connack dbg fuel c now ch rd tx flags code props : st_state (mq_st c) = WaitConAck -> serving c now ch rd tx -> zlen props < 125 ->
  next_is c ch (connack_packet flags code props) ->
  ensures_ir no_link_change (mqtt_process dbg fuel c now) (sn_raw (mq_sn c)) ch (fun x s' =>
    tcp_view s' (rd ++ connack_packet flags code props) tx /\
    x = match meaning connack_codes code with
        | Some r => (Err (MConnAck r), mq_set_state c MInit)
        | None => if code =? 0 then (Ok MEConnAck, mq_set_state c Ready) else (Err MProtocol, mq_set_state c MInit)
        end).
Proof. serve. eapply (process_connack (mq_sn c)); eauto. Qed.
Lemma s_suback dbg fuel c now ch rd tx id code props r : serving c now ch rd tx -> is_u16 id -> zlen props < 128 ->
  next_is c ch (suback_packet id props [code]) -> meaning suback_codes code = Some r ->
  ensures_ir no_link_change (mqtt_process dbg fuel c now) (sn_raw (mq_sn c)) ch (fun x s' =>
    tcp_view s' (rd ++ suback_packet id props [code]) tx /\ x = (Ok (MESubAck id r), c)).
Proof. serve. eapply (process_suback (mq_sn c)); eauto. Qed.
Lemma s_unsuback dbg fuel c now ch rd tx id code props r : serving c now ch rd tx -> is_u16 id -> zlen props < 128 ->
  next_is c ch (unsuback_packet id props [code]) -> meaning unsuback_codes code = Some r ->
  ensures_ir no_link_change (mqtt_process dbg fuel c now) (sn_raw (mq_sn c)) ch (fun x s' =>
    tcp_view s' (rd ++ unsuback_packet id props [code]) tx /\ x = (Ok (MEUnSubAck id r), c)).
Proof. serve. eapply (process_unsuback (mq_sn c)); eauto. Qed.
Lemma s_other dbg fuel c now ch rd tx t f body : serving c now ch rd tx -> 0 <= t < 16 -> 0 <= f < 16 ->
  ~ In t [0; 2; 3; 9; 11] -> next_is c ch (mpacket t f body) ->
  ensures_ir no_link_change (mqtt_process dbg fuel c now) (sn_raw (mq_sn c)) ch (fun x s' => tcp_view s' (rd ++ mpacket t f body) tx /\ waits c now x).
Proof. serve. eapply (process_other (mq_sn c)); eauto. Qed.
Lemma s_publish dbg fuel c now ch rd tx retain topic props payload ops fin : let pkt := publish_packet retain topic props payload in
  serving c now ch rd tx -> next_is c ch pkt -> zlen props < 128 -> Forall pub_op_ok ops ->
  ensures_ir no_link_change (pub_session dbg fuel c now ops fin) (sn_raw (mq_sn c)) ch (fun x s' =>
    x = (Some (map (pub_answer topic payload) ops, Ok tt), c) /\ tcp_view s' (rd ++ (if fin then pkt else [])) tx).
Proof. serve. eapply (publish_session (mq_sn c)); eauto. Qed.
Lemma s_any dbg fuel c now ch rd tx ops fin : let s := c_sock ch (sn_raw (mq_sn c)) in serving c now ch rd tx ->
  (forall i, mq_client_id c = Some i -> zlen i <= 23) -> Forall pub_op_ok ops ->
  ensures (pub_session dbg fuel c now ops fin) (sn_raw (mq_sn c)) ch (fun _ s' => served rd tx (connect_of c s) s').
Proof. serve. now apply (session_any (mq_sn c)). Qed.
Lemma s_silent dbg fuel c now ch sch : let s := c_sock ch (sn_raw (mq_sn c)) in st_state (mq_st c) <> MInit -> clock_ok c now ->
  no_link_change (s_ir s) -> rx_rsr s = 0 -> (dbg = true -> ~ In (s_sr s) [0x13; 0x22; 0x42]) -> silent sch (sn_raw (mq_sn c)) ->
  exists x sch' ch', run (mqtt_process dbg fuel c now) sch ch = (Done x, sch', ch') /\ waits c now x.
Proof. serve. now apply (process_silent (mq_sn c)). Qed.

(** ** Examples on an arbitrary bus *)
Lemma answer_fine len r : match bus_answer len r with Some l => zlen l = Z.max 0 len /\ bytes_ok l | None => True end.
Proof.
  destruct r as [l|]; [|exact I]. cbn [bus_answer]. split.
  - unfold zlen. rewrite map_length, firstn_length, app_length. unfold zeros. rewrite repeat_length. lia.
  - apply Forall_forall. intros b I. apply in_map_iff in I as (x & <- & _). unfold is_u8. lia.
Qed.
Lemma play_any {A} (p : prog A) : forall script, any_bus p (play p script).
Proof.
  induction p as [a|a b n k IH|a b d k IH| |]; intros script; cbn [play]; try constructor.
  - destruct script as [|r l]; (eapply AbRd; [|apply IH]; apply answer_fine).
  - eapply AbWr. apply IH.
Qed.
Lemma play_done {A} (p : prog A) script a : play p script = Done a -> any_bus p (Done a).
Proof. intros <-. apply play_any. Qed.
Lemma then_call x script dbg fuel c0 h c a c' : mhistory dbg fuel c0 h c -> play (mcall_run dbg fuel c x) script = Done (a, c') ->
  mhistory dbg fuel c0 (h ++ [(x, a)]) c'.
Proof. intros H P. eapply HCall; [exact H|]. now apply (play_done _ script). Qed.
