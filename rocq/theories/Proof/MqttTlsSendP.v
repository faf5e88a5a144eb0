(** Packets that the MQTT client sends over TLS. *)
From Verif Require Import Model.Prelude Model.Bus Model.Chip Model.Specifiers Model.LlBits Model.Ll Model.HlIo Model.HlTcp Model.Stream Model.Gcm
  Spec.Hoare Spec.Sock Spec.TcpClient Spec.Cursor Spec.Gcm38D Spec.Fips197 Spec.GcmCalls Spec.TlsSecrets Spec.TlsProtect.
From Verif Require Import Model.Mqtt Spec.MqttMsg Proof.MqttVbiP Proof.EmitP Proof.MqttSendP Proof.SprogP.
From Verif Require Import Proof.Base Proof.TcpP Proof.Ghash3P Proof.GcmP Proof.TlsHelloP Proof.TlsTxP Proof.TlsSendP Proof.TlsWireP.
From Verif Require Import Model.TlsTypes Model.TlsBuf Model.TlsKeys Model.TlsRecord Model.TlsClient Model.MqttTls Spec.TlsSession Spec.TlsWire Spec.MqttTlsMsg.
From Verif Require Import Proof.SprogP.
Local Open Scope list_scope.

(** ** Calls of a program *)
Fixpoint calls_all {A} (P : cop -> Prop) (p : sprog A) : Prop :=
  match p with
  | SCall o k => P o /\ forall r, calls_all P (k r)
  | SAsk _ k => forall z, calls_all P (k z)
  | _ => True
  end.
Lemma calls_bind {A B} (P : cop -> Prop) (p : sprog A) (f : A -> sprog B) : calls_all P p -> (forall a, calls_all P (f a)) -> calls_all P (sbind p f).
Proof. induction p as [a|o k IH|q k IH| |]; cbn [calls_all sbind]; intros H Hf; auto. destruct H as (H1 & H2). split; auto. Qed.
Lemma calls_seq (P : cop -> Prop) (p q : SM unit) : calls_all P p -> calls_all P q -> calls_all P (sbindM p (fun _ => q)).
Proof. intros H Hq. apply calls_bind; [exact H|]. intros [a|e]; [exact Hq|exact I]. Qed.
Lemma calls_write (P : cop -> Prop) d : P (OWriteAll d) -> calls_all P (s_write_all d).
Proof. intros H. split; [exact H|]. intros []; exact I. Qed.
Lemma wpa_calls {A} (ok P : cop -> Prop) (p : sprog A) : forall w pos D Q, wpa ok p w pos D Q -> calls_all P p -> wpa (fun o => ok o /\ P o) p w pos D Q.
Proof.
  induction p as [a|o k IH|q k IH| |]; cbn [wpa calls_all]; intros w pos D Q H Hp; auto.
  destruct H as (H1 & H2). destruct Hp as (P1 & P2). split; [auto|]. destruct (astep w pos o) as [[x w'] pos']. auto.
Qed.

Lemma calls_mono {A} (P P' : cop -> Prop) (p : sprog A) : (forall o, P o -> P' o) -> calls_all P p -> calls_all P' p.
Proof. intros HP. induction p as [a|o k IH|q k IH| |]; cbn [calls_all]; intros H; auto. destruct H as (H1 & H2). split; auto. Qed.

(** ** A program on a TLS writer *)
Section Tx.
Context (sn : Sn).
Let n := snz sn.
Lemma program_at {T} D s0 A B (p : sprog T) Q : forall s c w, at_work s0 s (A ++ w ++ B) -> cu_sn c = sn -> cursor_ok c ->
  cu_head c = (s_tx_cmd s0 + zlen A) mod 65536 -> zlen w = cur_len c -> wpa (fun o => wr_ok o /\ op_bytes o) p w (cur_pos c) D Q ->
  wps (on_cursor c p) n s D (fun r s' => exists w', at_work s0 s' (A ++ w' ++ B) /\ zlen w' = zlen w /\ cursor_ok (snd r) /\ same_window c (snd r) /\
    Q (fst r) w' (cur_pos (snd r))).
Proof.
  induction p as [a|o k IH|q k IH| |]; cbn [wpa on_cursor]; intros s c w Hw Hsn H Hh Lw Hp.
  - cbn [wps]. exists w. split; [exact Hw|]. split; [reflexivity|]. split; [exact H|]. split; [repeat split|]. exact Hp.
  - destruct Hp as (((Ho & Hr) & Hb) & Hp). apply wps_bind.
    eapply wps_mono; [| |exact (writer_step_at sn D s0 s c o A w B Hw Hsn H Ho Hr Hb Hh Lw)]; [auto|].
    intros [x c1] s1 (w1 & E1 & L1 & H1 & W1 & P1). cbn [fst snd] in *. rewrite P1 in Hp. pose proof (same_window_len _ _ W1) as Ln.
    eapply wps_mono; [| |apply (IH x s1 c1 w1)]; auto; try lia.
    + intros r s2 (w2 & E2 & L2 & H2 & W2 & Q2). exists w2. split; [exact E2|]. split; [lia|]. split; [exact H2|]. split; [eapply same_window_trans; eassumption|exact Q2].
    + destruct W1 as (-> & _). exact Hsn.
    + destruct W1 as (_ & -> & _). exact Hh.
  - apply IH; auto. pose proof (cur_accounting c H) as (A1 & A2 & A3).
    assert (ask_run c q = aask w (cur_pos c) q) as -> by (destruct q; cbn [ask_run aask]; lia). exact Hp.
  - contradiction.
  - exact Hp.
Qed.

(** ** A packet *)
Definition wr_call (o : cop) : Prop := exists d, o = OWriteAll d /\ bytes_ok d.
(** Only the number of the next record changes. *)
Definition stepped (c c' : TlsClient) : Prop := exists k, c' = tc_set_ks c (ks_set_seqs (tc_ks c) (ks_read_seq (tc_ks c)) k).
Lemma send_more {A} cx D (c : MqttTls) traffic seq p (a : A) packet s rd tx : crypto_ok cx -> tc_sn (mt_tls c) = sn -> writes_with (mt_tls c) traffic seq -> seq < 2 ^ 64 - 1 ->
  tcp_view s rd tx -> tx_bytes s -> writes p packet -> calls_all wr_call p ->
  wps (mt_send cx c (Some p) a) n s D (fun x s' => mt_sends cx traffic seq (free_space s) rd tx packet c (mt_st c) a x s' /\ (fst x = Ok a -> tx_bytes s' /\ stepped (mt_tls c) (mt_tls (snd x)))).
Proof.
  intros CX Esn (St & Ek & Esq & Hsq) Hlt V Bs (d & He & Hd) Hb0. assert (calls_all op_bytes p) as Hb by (revert Hb0; apply calls_mono; intros o (dd & -> & Hdd); exact Hdd). destruct (nonce_eq cx traffic seq CX ltac:(lia)) as (En & key_len & key_ok & nonce_len & nonce_ok). pose proof V as (T & _ & X & _). pose proof (tcp_idle _ T) as I.
  unfold mt_send. apply wps_bind. unfold tls_writer, tls_connected. rewrite St. cbn [tstate_eqb negb]. rewrite Esn.
  apply wps_bind. eapply wps_mono; [| |exact (writer_new_at sn D s I X)]; [auto|].
  intros r s1 (E1 & Hw). destruct (view_env _ _ _ _ V E1) as (V1 & _). pose proof (view_idle _ _ _ V1) as I1. pose proof V1 as (_ & _ & (X1 & C1) & _).
  destruct X as (X & _). destruct (wk_env s s1 I X E1) as ((_ & _ & _ & _ & _ & _ & Ez & _ & _ & Epd & _) & Bs1). specialize (Bs1 Bs).
  pose proof (zlen_nonneg packet) as Np.
  destruct r as [cu|].
  2:{ cbn [wps map_tls_writer_err internal_warning]. split; [|discriminate]. right. split; [now right|]. split; [unfold free_space; lia|exact V1]. }
  destruct Hw as (Hsn & Hc & Hp & Hh & Hl & Hle). pose proof (cur_accounting cu Hc) as (A1 & A2 & A3).
  destruct (at_start s1 (cur_len cu + 22) I1 X1 ltac:(lia) ltac:(lia)) as (W1 & L1). set (l := window s1 (cur_len cu + 22)) in *.
  assert (l = ztake 5 l ++ ztake (cur_len cu) (zdrop 5 l) ++ zdrop (5 + cur_len cu) l) as El.
  { rewrite <- (ztake_zdrop 5 l) at 1. f_equal. rewrite <- (ztake_zdrop (cur_len cu) (zdrop 5 l)) at 1. f_equal. rewrite zdrop_zdrop by lia. f_equal. lia. }
  set (H0 := ztake 5 l) in *. set (w0 := ztake (cur_len cu) (zdrop 5 l)) in *. set (T0 := zdrop (5 + cur_len cu) l) in *.
  assert (zlen H0 = 5) as LH by (unfold H0; rewrite zlen_ztake; lia). assert (zlen w0 = cur_len cu) as Lw by (unfold w0; rewrite zlen_ztake, zlen_zdrop; lia).
  assert (zlen T0 = 17) as LT by (unfold T0; rewrite zlen_zdrop; lia). rewrite El in W1. clearbody H0 w0 T0 l.
  assert (tx_size s1 <= 16384) as Lz.
  { destruct X1 as (Hs & _). pose proof (size_ok_range _ Hs). lia. }
  pose proof (wsub_range (s_tx_cmd s1) (s_tx_rd s1)) as Hq. fold (pending s1) in Hq. unfold is_u16 in Hq.
  cbn [wps]. apply wps_bind.
  eapply wps_mono; [| |eapply (program_at D s1 H0 T0 p _ s1 cu w0 W1 Hsn Hc); [now rewrite LH|exact Lw|rewrite Hp; apply wpa_calls; [apply (emits_start p d D w0 He); lia|exact Hb]]]; [auto|].
  intros (r & cu') s2 (w & W2 & L2 & Hc' & Hw' & L3 & Hr). cbn [fst snd] in *. pose proof (cur_accounting cu' Hc') as (B1 & B2 & B3).
  pose proof (same_window_len _ _ Hw') as Ln. pose proof (at_bytes _ _ _ W2 Bs1) as Bw. apply Forall_app in Bw. destruct Bw as (_ & Bw). apply Forall_app in Bw. destruct Bw as (Bw & _).
  assert (free_space s <= zlen w0 + 22) as Lb by (unfold free_space in *; lia).
  assert (0 <= cur_pos cu' <= zlen w) as Lp by lia. pose proof Hw' as (Hsn' & Hh' & _).
  destruct Hr as [(-> & Hn)|(-> & Ht & Hpos)].
  - cbn [mq_err Mqtt.map_w5500 wps fst snd].
    split; [|discriminate]. right. split; [now left|]. split; [destruct Hd as [->|[Hd1 Hd2]]; lia|]. destruct (view_work _ _ _ _ _ V1 W2) as (V2 & _). exact V2.
  - assert (d = packet) as Edp by (destruct Hd as [Hd|[Hd _]]; [exact Hd|lia]). subst packet.
    cbn [mq_err]. set (pos := cur_pos cu') in *.
    assert (exists Tl Tr, w ++ T0 = d ++ Tl ++ Tr /\ zlen Tl = 17) as (Tl & Tr & Ew & LTl).
    { exists (ztake 17 (zdrop pos (w ++ T0))), (zdrop 17 (zdrop pos (w ++ T0))). split.
      - rewrite ztake_zdrop, zdrop_app_l by lia. rewrite app_assoc, <- Ht, ztake_zdrop. reflexivity.
      - rewrite zlen_ztake, zlen_zdrop, zlen_app. lia. }
    rewrite Ew in W2. replace (H0 ++ d ++ Tl ++ Tr) with ((H0 ++ d ++ Tl) ++ Tr) in W2 by (rewrite <- !app_assoc; reflexivity). apply at_prefix in W2.
    apply wps_bind. unfold tls_writer_send, client_key_and_nonce. rewrite Ek, Esq, En. cbn [unwrap]. apply wps_bind. replace (cu_sn cu') with sn by congruence.
    eapply wps_mono; [| |apply (encrypt_record_at sn _ _ key_len key_ok nonce_len nonce_ok D s1 s2 _ _ ApplicationData H0 d Tl W2 LH LTl)].
    + auto.
    + intros r s3 (-> & S3). unfold increment_write. rewrite Esq. change U64_MAX with (2 ^ 64 - 1). destruct (Z.eqb_spec seq (2 ^ 64 - 1)) as [|_]; [lia|].
      cbn [wps fst snd]. split; [|intros _; split; [apply S3; exact Bs1|]; eexists; reflexivity]. left. eexists. split; [reflexivity|].
      split; [unfold writes_with; cbn; split; [exact St|]; split; [exact Ek|]; split; [reflexivity|lia]|]. split; [reflexivity|].
      destruct (view_sent _ _ _ _ _ V1 S3) as (V3 & _). exact V3.
    + rewrite <- Ht. now apply bytes_ztake.
    + unfold is_u8, ApplicationData. lia.
    + lia.
    + congruence.
    + rewrite (cur_ptr_pos cu' Hc'), Hh', Hh, <- Hpos. fold pos. lia.
Qed.
Lemma send_spec {A} cx D (c : MqttTls) traffic seq p (a : A) packet s rd tx : crypto_ok cx -> tc_sn (mt_tls c) = sn -> writes_with (mt_tls c) traffic seq -> seq < 2 ^ 64 - 1 ->
  tcp_view s rd tx -> tx_bytes s -> writes p packet -> calls_all wr_call p ->
  wps (mt_send cx c (Some p) a) n s D (mt_sends cx traffic seq (free_space s) rd tx packet c (mt_st c) a).
Proof. intros H1 H2 H3 H4 H5 H6 H7 H8. eapply wps_mono; [| |exact (send_more cx D c traffic seq p a packet s rd tx H1 H2 H3 H4 H5 H6 H7 H8)]; [auto|]. intros x s' (H' & _). exact H'. Qed.
End Tx.

(** ** The packets consist of bytes *)
Lemma calls_bytes d : bytes_ok d -> calls_all wr_call (s_write_all d).
Proof. intros H. apply calls_write. exists d. auto. Qed.
Lemma bytes_varint n : 0 <= n < 268435456 -> bytes_ok (varint n).
Proof.
  intros H. unfold varint, bytes_ok. destruct (Z.ltb_spec n 128); [|destruct (Z.ltb_spec n 16384); [|destruct (Z.ltb_spec n 2097152)]];
    repeat (apply Forall_cons; [unfold is_u8; lia|]); apply Forall_nil.
Qed.
Lemma calls_varint n : 0 <= n < 268435456 -> calls_all wr_call (write_variable_byte_integer n).
Proof. intros H. unfold write_variable_byte_integer. rewrite encode_varint by exact H. apply calls_bytes. now rewrite ztake_exact; apply bytes_varint. Qed.
Lemma bytes_be16 n : 0 <= n < 65536 -> bytes_ok (be16 n).
Proof. intros H. unfold be16, bytes_ok. repeat (apply Forall_cons; [unfold is_u8; lia|]); apply Forall_nil. Qed.
Lemma publish_calls topic payload : bytes_ok topic -> bytes_ok payload -> calls_all wr_call (write_publish topic payload).
Proof.
  intros Ht Hp. pose proof (zlen_nonneg topic). pose proof (zlen_nonneg payload). unfold write_publish. cbv zeta. rewrite !len16_spec.
  repeat first [apply calls_seq | apply calls_bytes | apply calls_varint].
  - repeat (apply Forall_cons; [cbn; unfold is_u8; lia|]); apply Forall_nil.
  - lia.
  - apply bytes_be16. lia.
  - now apply bytes_ztake.
  - repeat (apply Forall_cons; [cbn; unfold is_u8; lia|]); apply Forall_nil.
  - now apply bytes_ztake.
Qed.
Lemma bytes_id id : is_u16 id -> bytes_ok [u8 (Z.shiftr id 8); u8 id; 0].
Proof. intros H. unfold bytes_ok, u8. repeat (apply Forall_cons; [unfold is_u8; lia|]); apply Forall_nil. Qed.
Lemma subscribe_calls filter id : is_u16 id -> bytes_ok filter -> calls_all wr_call (write_subscribe filter id).
Proof.
  intros Hi Hf. pose proof (zlen_nonneg filter). unfold write_subscribe, FILTER_LEN_LEN, PACKET_ID_LEN, PROPERTY_LEN_LEN, u16. rewrite !len16_spec.
  destruct (_ <=? _); [exact I|]. cbv zeta. destruct (_ <=? _); [exact I|].
  repeat first [apply calls_seq | apply calls_bytes | apply calls_varint].
  - repeat (apply Forall_cons; [cbn; unfold is_u8; lia|]); apply Forall_nil.
  - lia.
  - now apply bytes_id.
  - apply bytes_be16. lia.
  - exact Hf.
  - repeat (apply Forall_cons; [cbn; unfold is_u8; lia|]); apply Forall_nil.
Qed.
Lemma unsubscribe_calls filter id : is_u16 id -> bytes_ok filter -> calls_all wr_call (write_unsubscribe filter id).
Proof.
  intros Hi Hf. pose proof (zlen_nonneg filter). unfold write_unsubscribe, FILTER_LEN_LEN, PACKET_ID_LEN, PROPERTY_LEN_LEN, u16. rewrite !len16_spec.
  cbv zeta. destruct (_ <=? _); [exact I|].
  repeat first [apply calls_seq | apply calls_bytes | apply calls_varint].
  - repeat (apply Forall_cons; [cbn; unfold is_u8; lia|]); apply Forall_nil.
  - lia.
  - now apply bytes_id.
  - apply bytes_be16. lia.
  - exact Hf.
Qed.
Lemma connect_calls id rx_max : (forall s, id = Some s -> zlen s <= 23 /\ bytes_ok s) -> calls_all wr_call (write_connect id rx_max).
Proof.
  intros Hi. unfold write_connect. set (k := match id with Some i => u8 (zlen i) | None => 0 end).
  assert (0 <= k <= 23) as Hk.
  { unfold k. destruct id as [i|]; [|lia]. destruct (Hi i eq_refl) as (H & _). pose proof (zlen_nonneg i). unfold u8. lia. }
  clearbody k. cbv zeta. destruct (_ <=? _); [exact I|]. apply calls_seq.
  - apply calls_bytes. unfold connect_head. cbv zeta. unfold u8.
    repeat (apply Forall_cons; [unfold is_u8; try (cbn; lia); lia|]); apply Forall_nil.
  - destruct id as [i|]; [|exact I]. apply calls_bytes. exact (proj2 (Hi i eq_refl)).
Qed.
