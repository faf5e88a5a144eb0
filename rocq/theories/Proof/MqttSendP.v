(** Packets that the MQTT client sends. *)
From Verif Require Export Proof.TcpStreamP Proof.MqttVbiP Proof.EmitP.
From Verif Require Import Model.HlTcp Model.LlBits Model.Ll Model.LlAddr Model.Stream Model.Mqtt Proof.SprogP.

Lemma emits_any a d : emits a (s_write_all d) d.
Proof.
  intros D acc N w pos HN Ha Hw. pose proof Hw as (W1 & W2 & W3 & W4). pose proof (zlen_nonneg acc). pose proof (zlen_nonneg d).
  cbn [s_write_all wpa astep]. split; [split; [cbn; auto|reflexivity]|].
  destruct (Z.leb_spec (zlen d) (zlen w - pos)); cbn [wpa sret sfail].
  - split; [rewrite overlay_len; lia|]. right. split; [reflexivity|].
    split; [rewrite overlay_len; lia|]. split; [rewrite zlen_app; lia|]. split; [lia|]. rewrite ztake_overlay by lia. now rewrite W4.
  - split; [exact W1|]. left. split; [reflexivity|lia].
Qed.
Lemma emits_varint a n : 0 <= n < 268435456 -> emits a (write_variable_byte_integer n) (varint n).
Proof.
  intros H. unfold write_variable_byte_integer. rewrite encode_varint by exact H. rewrite ztake_exact. apply emits_any.
Qed.
Lemma emits_unit a : emits a (sret tt) [].
Proof.
  intros D acc N w pos HN Ha Hw. cbn [wpa sret]. split; [apply Hw|]. right. split; [reflexivity|]. now rewrite app_nil_r.
Qed.
Lemma two_be16 n : 0 <= n < 65536 -> be16 n = two n.
Proof. intros H. unfold be16, two. f_equal. apply Z.mod_small. lia. Qed.
Lemma mstr_short s : zlen s <= 65535 -> mstr s = be16 (zlen s) ++ s.
Proof. intros H. pose proof (zlen_nonneg s). unfold mstr. now rewrite two_be16 by lia. Qed.
Lemma varint_pos n : 1 <= zlen (varint n).
Proof.
  unfold varint. destruct (n <? 128); [unfold zlen; cbn; lia|]. destruct (n <? 16384); [unfold zlen; cbn; lia|].
  destruct (n <? 2097152); unfold zlen; cbn; lia.
Qed.

Lemma packet_len t f body : zlen (mpacket t f body) = 1 + zlen (varint (zlen body)) + zlen body.
Proof. unfold mpacket. rewrite zlen_cons, zlen_app. lia. Qed.
Ltac lens :=
  repeat rewrite zlen_app; repeat rewrite zlen_cons; rewrite ?zlen_nil, ?zlen_ztake;
  repeat match goal with
  | |- context [zlen (varint ?x)] => lazymatch goal with H : 1 <= zlen (varint x) |- _ => fail | _ => pose proof (varint_pos x) end
  end;
  repeat match goal with
  | |- context [zlen ?x] => lazymatch goal with H : 0 <= zlen x |- _ => fail | _ => pose proof (zlen_nonneg x) end
  end.

(** What is written is the packet, or longer than any window. *)
Definition writes (p : SM unit) (packet : list Z) : Prop :=
  exists d, emits 0 p d /\ (d = packet \/ (65535 < zlen d /\ 65535 < zlen packet)).

Lemma publish_writes topic payload : writes (write_publish topic payload) (publish_packet false topic [] payload).
Proof.
  unfold write_publish. set (tl := len16 (zlen topic)). set (pl := len16 (zlen payload)).
  pose proof (zlen_nonneg topic). pose proof (zlen_nonneg payload).
  assert (0 <= tl <= 65535 /\ 0 <= pl <= 65535) as Hr by (unfold tl, pl; rewrite !len16_spec; lia).
  eexists. split.
  { cbv zeta. repeat first [apply emits_seq | apply emits_any]; apply emits_varint. lia. }
  unfold tl, pl in *. unfold len16 in *.
  destruct (Z.leb_spec (zlen topic) 65535); [destruct (Z.leb_spec (zlen payload) 65535)|].
  - left. unfold publish_packet, mpacket, mprops. cbn [zlen length]. rewrite mstr_short by assumption.
    rewrite !ztake_all by lia. change (varint (zlen (@nil Z))) with [0].
    change (u8 (Z.shiftl (ctrl_u8 PUBLISH) 4)) with (16 * 3 + 0).
    assert (zlen ((be16 (zlen topic) ++ topic) ++ ([0] ++ []) ++ payload) = 2 + zlen topic + 1 + zlen payload) as E.
    { rewrite !zlen_app. change (zlen (be16 (zlen topic))) with 2. change (zlen [0]) with 1. change (zlen (@nil Z)) with 0. lia. }
    rewrite E, <- !app_assoc. reflexivity.
  - right. unfold publish_packet, mprops. rewrite packet_len. lens. lia.
  - right. unfold publish_packet, mprops, mstr. rewrite packet_len. lens. lia.
Qed.
Lemma id_bytes id : is_u16 id -> [u8 (Z.shiftr id 8); u8 id; 0] = two id ++ [0].
Proof.
  unfold is_u16. intros H. unfold two, u8. rewrite Z.shiftr_div_pow2 by lia. change (2 ^ 8) with 256. cbn [app].
  rewrite (Z.mod_small (id / 256)) by lia. reflexivity.
Qed.
Lemma subscribe_writes filter id : is_u16 id -> zlen filter mod 65536 <= 65532 ->
  writes (write_subscribe filter id) (subscribe_packet id filter).
Proof.
  intros Hi Hf. pose proof (zlen_nonneg filter). unfold write_subscribe, FILTER_LEN_LEN, PACKET_ID_LEN, PROPERTY_LEN_LEN, u16.
  destruct (Z.leb_spec 65536 (zlen filter mod 65536 + 2)); [lia|]. cbv zeta.
  destruct (Z.leb_spec 65536 (zlen filter mod 65536 + 2 + 1)); [lia|].
  eexists. split.
  { repeat first [apply emits_seq | apply emits_any]; apply emits_varint. lia. }
  rewrite len16_spec. destruct (Z.le_gt_cases (zlen filter) 65535).
  - left. unfold subscribe_packet, mpacket, mprops. rewrite mstr_short by assumption. rewrite id_bytes by exact Hi.
    change (varint (zlen (@nil Z))) with [0].
    change (Z.lor (u8 (Z.shiftl (ctrl_u8 SUBSCRIBE) 4)) 2) with (16 * 8 + 2).
    assert (zlen (two id ++ ([0] ++ []) ++ (be16 (zlen filter) ++ filter) ++ [36]) = 2 + 1 + (zlen filter mod 65536 + 2 + 1)) as E.
    { rewrite !zlen_app. change (zlen (be16 (zlen filter))) with 2. change (zlen [0]) with 1. change (zlen [36]) with 1.
      change (zlen (@nil Z)) with 0. change (zlen (two id)) with 2. lia. }
    rewrite E, <- !app_assoc, Z.min_l by lia. reflexivity.
  - right. unfold subscribe_packet, mprops, mstr. rewrite packet_len. lens. lia.
Qed.
Lemma unsubscribe_writes filter id : is_u16 id -> zlen filter mod 65536 <= 65533 ->
  writes (write_unsubscribe filter id) (unsubscribe_packet id filter).
Proof.
  intros Hi Hf. pose proof (zlen_nonneg filter). unfold write_unsubscribe, FILTER_LEN_LEN, PACKET_ID_LEN, PROPERTY_LEN_LEN, u16.
  destruct (Z.leb_spec 65536 (zlen filter mod 65536 + 2)); [lia|]. cbv zeta.
  eexists. split.
  { repeat first [apply emits_seq | apply emits_any]; apply emits_varint. lia. }
  rewrite len16_spec. destruct (Z.le_gt_cases (zlen filter) 65535).
  - left. unfold unsubscribe_packet, mpacket, mprops. rewrite mstr_short by assumption. rewrite id_bytes by exact Hi.
    change (varint (zlen (@nil Z))) with [0].
    change (Z.lor (u8 (Z.shiftl (ctrl_u8 UNSUBSCRIBE) 4)) 2) with (16 * 10 + 2).
    assert (zlen (two id ++ ([0] ++ []) ++ (be16 (zlen filter) ++ filter)) = 2 + 1 + (zlen filter mod 65536 + 2)) as E.
    { rewrite !zlen_app. change (zlen (be16 (zlen filter))) with 2. change (zlen [0]) with 1.
      change (zlen (@nil Z)) with 0. change (zlen (two id)) with 2. lia. }
    rewrite E, <- !app_assoc, Z.min_l by lia. reflexivity.
  - right. unfold unsubscribe_packet, mprops, mstr. rewrite packet_len. lens. lia.
Qed.
Lemma connect_writes id rx_max : is_u16 rx_max -> (forall s, id = Some s -> zlen s <= 23) ->
  writes (write_connect id rx_max) (connect_packet (match id with Some s => s | None => [] end) rx_max).
Proof.
  unfold is_u16. intros Hr Hi. unfold write_connect. set (s := match id with Some s => s | None => [] end).
  assert (match id with Some i => u8 (zlen i) | None => 0 end = zlen s) as ->.
  { unfold s. destruct id as [i|]; [|reflexivity]. specialize (Hi i eq_refl). pose proof (zlen_nonneg i). unfold u8. lia. }
  assert (0 <= zlen s <= 23) as Hs.
  { unfold s. destruct id as [i|]; [specialize (Hi i eq_refl); pose proof (zlen_nonneg i); lia|unfold zlen; cbn; lia]. }
  destruct (Z.leb_spec 256 (18 + zlen s)); [lia|].
  exists (connect_head (zlen s) rx_max ++ s). split.
  { apply emits_seq; [apply emits_any|]. unfold s. destruct id; [apply emits_any|apply emits_unit]. }
  left. unfold connect_head, connect_packet, mpacket, mprops, mstr.
  assert (u8 (Z.shiftr rx_max 8) = rx_max / 256) as ->.
  { unfold u8. rewrite Z.shiftr_div_pow2 by lia. change (2 ^ 8) with 256. lia. }
  assert (two (zlen s) = [0; zlen s]) as -> by (unfold two; f_equal; [lia|f_equal; lia]).
  assert (zlen ((two (zlen [77; 81; 84; 84]) ++ [77; 81; 84; 84]) ++ [5; 2] ++ two 900 ++
    (varint (zlen ([39; 0; 0] ++ two rx_max)) ++ [39; 0; 0] ++ two rx_max) ++ [0; zlen s] ++ s) = 18 + zlen s) as E.
  { change (varint (zlen ([39; 0; 0] ++ two rx_max))) with [5]. repeat rewrite zlen_app. unfold two, zlen. cbn [length]. lia. }
  rewrite E. unfold varint at 1. destruct (Z.ltb_spec (18 + zlen s) 128); [|lia].
  reflexivity.
Qed.

Section Send.
Context (sn : Sn).
Let n := snz sn.
Lemma mqtt_send_spec {A} D c c' p (a : A) done packet s rd tx : mq_sn c = sn -> tcp_view s rd tx -> writes p packet ->
  wps (mqtt_send c c' p a done) n s D (fun x s' => sends (room s) rd tx packet (Ok a, done) (Err MOutOfMemory, c') x s' /\
    exists new, unread s' = unread s ++ new).
Proof.
  intros <- V (d & He & Hd). unfold mqtt_send, q_io. apply wps_bind.
  eapply wps_mono; [| |exact (twriter_open _ D s rd tx V)]; [auto|].
  intros r s1 (E1 & w & m & -> & W & Hp & Hroom). destruct (view_env _ _ _ _ V E1) as (_ & n1 & U1). apply wps_bind.
  eapply wps_mono; [| |eapply (twriting_run _ D s1 w m rd tx p _ W); rewrite Hp; apply (emits_start p d D m He); lia]; [auto|].
  intros [r w2] s2 (m2 & W2 & (L2 & H2) & n2 & U2). cbn [fst snd] in *.
  destruct H2 as [(-> & Hn)|(-> & Ht & Hpos)].
  - cbn [mq_err map_w5500 wps]. split; [|exists (n1 ++ n2); now rewrite U2, U1, app_assoc]. right.
    split; [reflexivity|]. split; [|apply W2]. unfold room. destruct Hd as [->|[Hd1 Hd2]]; lia.
  - cbn [mq_err]. apply wps_bind. eapply wps_mono; [| |exact (twriting_send _ D s2 w2 m2 rd tx W2)]; [auto|].
    intros r s3 (-> & V3 & n3 & U3). cbn [wps]. split; [|exists (n1 ++ n2 ++ n3); now rewrite U3, U2, U1, !app_assoc]. left.
    split; [reflexivity|]. rewrite Ht in V3. destruct Hd as [<-|[Hd _]]; [exact V3|exfalso].
    assert (0 <= cur_pos w2 <= zlen m2) as Hc.
    { destruct W2 as (_ & _ & Hc & _ & _ & ->). pose proof (cur_accounting w2 Hc) as (A1 & A2 & A3). unfold window. rewrite ring_len; lia. }
    lia.
Qed.
Lemma publish_spec D c topic payload s rd tx : mq_sn c = sn -> mqtt_is_connected c = true -> tcp_view s rd tx ->
  wps (mqtt_publish c topic payload) n s D
    (sends (room s) rd tx (publish_packet false topic [] payload) (Ok tt, c) (Err MOutOfMemory, c)).
Proof.
  intros Hsn Hc V. unfold mqtt_publish. rewrite Hc. cbn [negb].
  eapply wps_mono; [| |apply (mqtt_send_spec D c c _ tt c _ s rd tx Hsn V (publish_writes topic payload))]; [auto|].
  intros x s' (H & _). exact H.
Qed.
Lemma next_id c : is_u16 (mq_pkt_id c) -> is_u16 (mq_pkt_id (next_pkt_id c)).
Proof. unfold next_pkt_id, is_u16. cbn [mq_pkt_id]. destruct (Z.ltb_spec (mq_pkt_id c + 1) 65536); lia. Qed.
Lemma subscribe_spec D c filter s rd tx : mq_sn c = sn -> mqtt_is_connected c = true -> is_u16 (mq_pkt_id c) -> tcp_view s rd tx ->
  filter <> [] -> zlen filter mod 65536 <= 65532 -> let c' := next_pkt_id c in
  wps (mqtt_subscribe c filter) n s D
    (sends (room s) rd tx (subscribe_packet (mq_pkt_id c') filter) (Ok (mq_pkt_id c'), c') (Err MOutOfMemory, c')).
Proof.
  intros Hsn Hc Hi V Hne Hf c'. unfold mqtt_subscribe. rewrite Hc. cbn [negb].
  destruct (Z.eqb_spec (zlen filter) 0) as [E|_]; [apply zlen_0_nil in E; contradiction|]. cbv zeta. fold c'.
  eapply wps_mono; [| |apply (mqtt_send_spec D c c' _ (mq_pkt_id c') c' _ s rd tx Hsn V (subscribe_writes filter (mq_pkt_id c') (next_id c Hi) Hf))]; [auto|].
  intros x s' (H & _). exact H.
Qed.
Lemma unsubscribe_spec D c filter s rd tx : mq_sn c = sn -> mqtt_is_connected c = true -> is_u16 (mq_pkt_id c) -> tcp_view s rd tx ->
  filter <> [] -> zlen filter mod 65536 <= 65533 -> let c' := next_pkt_id c in
  wps (mqtt_unsubscribe c filter) n s D
    (sends (room s) rd tx (unsubscribe_packet (mq_pkt_id c') filter) (Ok (mq_pkt_id c'), c') (Err MOutOfMemory, c')).
Proof.
  intros Hsn Hc Hi V Hne Hf c'. unfold mqtt_unsubscribe. rewrite Hc. cbn [negb].
  destruct (Z.eqb_spec (zlen filter) 0) as [E|_]; [apply zlen_0_nil in E; contradiction|]. cbv zeta. fold c'.
  eapply wps_mono; [| |apply (mqtt_send_spec D c c' _ (mq_pkt_id c') c' _ s rd tx Hsn V (unsubscribe_writes filter (mq_pkt_id c') (next_id c Hi) Hf))]; [auto|].
  intros x s' (H & _). exact H.
Qed.
Lemma bufsize_bytes s rd tx : tcp_view s rd tx -> forall l, l = [s_reg s 0x1E] ->
  u16 (bufsize_in_bytes (match bufsize_try_from (byte0 l) with Ok b => b | Err _ => KB2 end)) = rx_size s.
Proof.
  intros (_ & ((Hz & _) & _) & _) l ->. unfold byte0. cbn [hd]. unfold rx_size in *.
  assert (exists v, s_reg s 0x1E = v /\ (v = 0 \/ v = 1 \/ v = 2 \/ v = 4 \/ v = 8 \/ v = 16)) as (v & -> & Hv) by (eexists; split; [reflexivity|]; unfold size_ok in Hz; lia).
  destruct Hv as [->|[->|[->|[->|[->| ->]]]]]; reflexivity.
Qed.
Lemma send_connect_spec D c now s rd tx : mq_sn c = sn -> tcp_view s rd tx ->
  (forall i, mq_client_id c = Some i -> zlen i <= 23) ->
  wps (mqtt_send_connect c now) n s D (fun x s' =>
    sends (room s) rd tx (connect_packet (match mq_client_id c with Some i => i | None => [] end) (rx_size s))
      (Ok 10, mq_set_timeout c WaitConAck now) (Err MOutOfMemory, c) x s' /\ exists new, unread s' = unread s ++ new).
Proof.
  intros Hsn V Hi. unfold mqtt_send_connect, q_io. apply wps_bind. rewrite Hsn.
  unfold sn_rxbuf_size. apply wps_bindM. cbn [wps read]. exists 1. split; [lia|]. split; [apply sn_block_eq|]. intros s1 E1.
  destruct (view_env _ _ _ _ V E1) as (V1 & n1 & U1). cbn [wps ret].
  pose proof V as (T & _ & (X & C) & _). pose proof (tcp_idle _ T) as I.
  destruct (tx_work_env s s1 I X E1) as (_ & _ & _ & _ & _ & _ & Ez & _ & _ & Ep & _).
  destruct (env_all _ _ I E1) as (_ & _ & (_ & _ & Rz & _) & _).
  erewrite (bufsize_bytes s1 rd tx V1); [|reflexivity].
  assert (is_u16 (rx_size s1)) as Hu.
  { destruct V1 as (_ & ((Hz & _) & _) & _). unfold size_ok in Hz. unfold is_u16. lia. }
  cbv zeta. eapply wps_mono; [| |apply (mqtt_send_spec D c c _ _ _ _ s1 rd tx Hsn V1 (connect_writes _ _ Hu Hi))]; [auto|].
  intros x s' (H & n2 & U2). rewrite Rz in H. split; [|exists (n1 ++ n2); now rewrite U2, U1, app_assoc].
  destruct H as [H|(H1 & H2 & H3)]; [left; exact H|right]. split; [exact H1|]. split; [unfold room in *; lia|exact H3].
Qed.
End Send.
