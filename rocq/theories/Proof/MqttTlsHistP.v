(** Histories of the MQTT client over TLS. *)
From Verif Require Import Model.Prelude Model.Bus Model.Chip Model.Specifiers Model.HlIo Model.Stream Spec.Hoare Spec.Sock Spec.TcpClient Spec.Cursor Spec.TlsSecrets Spec.TlsProtect.
From Verif Require Import Model.Mqtt Spec.MqttMsg Proof.MqttVbiP Proof.MqttRecvP Proof.MqttPubP Proof.LeafP Proof.MqttHistP Proof.MqttMainP.
From Verif Require Import Proof.Base Proof.RingP Proof.TlsBufP Proof.TlsLeafP Proof.TlsInvP Proof.TlsHistP Proof.MqttTlsSendP Proof.MqttTlsRxP.
From Verif Require Import Model.TlsTypes Model.TlsBuf Model.TlsKeys Model.TlsRecord Model.TlsClient Model.MqttTls Spec.TlsQueue Spec.TlsSession Spec.TlsWire Spec.TlsAuth Spec.MqttTlsMsg.
From Verif Require Import Proof.SprogP.
Local Open Scope list_scope.

(** ** Sequences on an arbitrary bus *)
Lemma any_bind {A B} (p : prog A) (f : A -> prog B) b : any_bus (bind p f) (Done b) -> exists a, any_bus p (Done a) /\ any_bus (f a) (Done b).
Proof.
  induction p as [a|addr block len k IH|addr block d k IH| |]; cbn [bind]; intros H.
  - exists a. split; [constructor|exact H].
  - inversion H; subst. destruct (IH _ ltac:(eassumption)) as (a & X & Y). exists a. split; [econstructor; eassumption|exact Y].
  - inversion H; subst. destruct (IH _ ltac:(eassumption)) as (a & X & Y). exists a. split; [econstructor; eassumption|exact Y].
  - inversion H.
  - inversion H.
Qed.
Lemma any_then {A B} (p : prog A) (f : A -> prog B) a o : any_bus p (Done a) -> any_bus (f a) o -> any_bus (bind p f) o.
Proof.
  intros H. remember (Done a) as d eqn:E. revert a E. induction H as [x|addr block len k r o' Hr H IH|addr block d k r o' H IH| |]; intros a E; try discriminate E; cbn [bind]; intros Hf.
  - injection E as ->. exact Hf.
  - econstructor; [exact Hr|]. now apply (IH a).
  - econstructor. now apply (IH a).
Qed.
Lemma any_ret {A} (a b : A) : any_bus (Ret a) (Done b) -> a = b.
Proof. intros H. inversion H. reflexivity. Qed.

(** ** Steps of the TLS client *)
Section Steps.
Variables (cx : Crypto) (dbg : bool) (fuel : nat).
Inductive tsteps (c : TlsClient) : list (tcall * tans) -> TlsClient -> Prop :=
| TSNil : tsteps c [] c
| TSCall l c1 x a c' : tsteps c l c1 -> tcall_ok x -> any_bus (tcall_run cx dbg fuel c1 x) (Done (a, c')) -> tsteps c (l ++ [(x, a)]) c'.
Lemma history_steps c0 h c l c' : thistory cx dbg fuel c0 h c -> tsteps c l c' -> thistory cx dbg fuel c0 (h ++ l) c'.
Proof. intros H. induction 1 as [|l c1 x a c' S IH Hx Hb]; [now rewrite app_nil_r|]. rewrite app_assoc. econstructor; eassumption. Qed.
Lemma steps_one c x a c' : tcall_ok x -> any_bus (tcall_run cx dbg fuel c x) (Done (a, c')) -> tsteps c [(x, a)] c'.
Proof. intros Hx Hb. change [(x, a)] with ([] ++ [(x, a)]). econstructor; [constructor|exact Hx|exact Hb]. Qed.
Lemma steps_app c l c1 l' c' : tsteps c l c1 -> tsteps c1 l' c' -> tsteps c (l ++ l') c'.
Proof. intros H. induction 1 as [|l' c2 x a c' S IH Hx Hb]; [now rewrite app_nil_r|]. rewrite app_assoc. econstructor; eassumption. Qed.

(** *** Writers *)
Lemma writer_ops {A} (p : sprog A) : calls_all wr_call p -> forall w a w', any_bus (on_cursor w p) (Done (a, w')) ->
  exists ops xs, any_bus (cops_run w ops) (Done (xs, w')) /\ Forall cop_ok ops /\ forallb writer_op ops = true /\ Forall op_bytes ops.
Proof.
  induction p as [a|o k IH|q k IH| |]; cbn [calls_all on_cursor]; intros Hc w b w' H.
  - apply any_ret in H. injection H as _ <-. exists [], []. split; [constructor|]. auto using Forall_nil.
  - destruct Hc as ((d & -> & Hd) & Hc). apply any_bind in H as ((x, w1) & H1 & H2). cbn [fst snd] in *. destruct (IH x (Hc x) w1 b w' H2) as (ops & xs & B & F1 & F2 & F3).
    exists (OWriteAll d :: ops), (x :: xs). split; [|split; [now constructor|]; split; [exact F2|now constructor]].
    cbn [cops_run]. apply (any_then _ _ (x, w1) _ H1). cbn [snd]. apply (any_then _ _ (xs, w') _ B). constructor.
  - exact (IH _ (Hc _) w b w' H).
  - inversion H.
  - inversion H.
Qed.
Lemma put_same (c : MqttTls) : mt_put c (mt_tls c) = c.
Proof. now destruct c. Qed.
Lemma send_step {A} (c c' : MqttTls) p (a : A) r : (forall q, p = Some q -> calls_all wr_call q) -> any_bus (mt_send cx c p a) (Done (r, c')) ->
  (exists ops send ans, tcall_ok (KWriter ops send) /\ is_session (KWriter ops send) /\ any_bus (tcall_run cx dbg fuel (mt_tls c) (KWriter ops send)) (Done (ans, mt_tls c'))) /\
  c' = mt_put c (mt_tls c') /\ tc_rx (mt_tls c') = tc_rx (mt_tls c) /\ (forall x, r = Ok x -> x = a).
Proof.
  intros Hp H. unfold mt_send in H. apply any_bind in H as (w & Hw & H).
  assert (forall ops, Forall cop_ok ops -> forallb writer_op ops = true -> Forall op_bytes ops -> forall send, tcall_ok (KWriter ops send) /\ is_session (KWriter ops send)) as Hk by (intros; repeat split; auto).
  destruct w as [w|e].
  2:{ destruct (map_tls_writer_err e) as [m|]; [|inversion H]. apply any_ret in H. injection H as <- <-. split; [|split; [now rewrite put_same|]; split; [reflexivity|discriminate]].
      exists [], false, (NWriter (Err e)). split; [|split]; [repeat split; constructor..|]. cbn [tcall_run]. apply (any_then _ _ _ _ Hw). constructor. }
  destruct p as [p|].
  2:{ apply any_ret in H. injection H as <- <-. split; [|split; [now rewrite put_same|]; split; [reflexivity|congruence]].
      exists [], false, (NWriter (Ok ([], None))). split; [|split]; [repeat split; constructor..|]. cbn [tcall_run]. apply (any_then _ _ _ _ Hw). cbn [cops_run bind]. constructor. }
  apply any_bind in H as ((x, w') & Hx & H). destruct (writer_ops p (Hp p eq_refl) w x w' Hx) as (ops & xs & B & F1 & F2 & F3). cbn [fst snd] in H.
  assert (any_bus (tcall_run cx dbg fuel (mt_tls c) (KWriter ops false)) (Done (NWriter (Ok (xs, None)), mt_tls c))) as N.
  { cbn [tcall_run]. apply (any_then _ _ _ _ Hw). apply (any_then _ _ _ _ B). constructor. }
  destruct (mq_err x) as [[u|e]|]; [| |inversion H].
  2:{ apply any_ret in H. injection H as <- <-. split; [|split; [now rewrite put_same|]; split; [reflexivity|discriminate]]. exists ops, false. eexists. destruct (Hk ops F1 F2 F3 false). eauto. }
  apply any_bind in H as ((s, ks) & Hs & H). cbv zeta in H.
  assert (any_bus (tcall_run cx dbg fuel (mt_tls c) (KWriter ops true)) (Done (NWriter (Ok (xs, Some s)), tc_set_ks (mt_tls c) ks))) as Y.
  { cbn [tcall_run]. apply (any_then _ _ _ _ Hw). apply (any_then _ _ _ _ B). apply (any_then _ _ _ _ Hs). constructor. }
  destruct (Hk ops F1 F2 F3 true) as (K1 & K2).
  destruct s as [u2|e]; apply any_ret in H; injection H as <- <-; (split; [exists ops, true; eexists; eauto|]); (split; [reflexivity|]; split; [reflexivity|congruence]).
Qed.

(** *** Readers *)
Lemma ops_app ops : forall r xs r1 ops' xs' r2, tr_ops r ops = TOk (xs, r1) -> tr_ops r1 ops' = TOk (xs', r2) -> tr_ops r (ops ++ ops') = TOk (xs ++ xs', r2).
Proof.
  induction ops as [|o ops IH]; intros r xs r1 ops' xs' r2 E E'; cbn [tr_ops app] in *; [injection E as <- <-; exact E'|].
  destruct (tr_op r o) as [(x, r3)|e| |]; try discriminate E. destruct (tr_ops r3 ops) as [(ys, r4)|e| |] eqn:T; try discriminate E. injection E as <- <-. now rewrite (IH _ _ _ _ _ _ T E').
Qed.
(** A reader gets from [r] to [r'] by operations that a caller could have made. *)
Definition roams (r r' : CircleReader) : Prop := exists ops xs, tr_ops r ops = TOk (xs, r') /\ Forall cop_ok ops /\ forallb reader_op ops = true.
Lemma roams_refl r : roams r r.
Proof. exists [], []. auto using Forall_nil. Qed.
Lemma roams_trans r r1 r2 : roams r r1 -> roams r1 r2 -> roams r r2.
Proof.
  intros (o1 & x1 & E1 & F1 & B1) (o2 & x2 & E2 & F2 & B2). exists (o1 ++ o2), (x1 ++ x2). split; [exact (ops_app _ _ _ _ _ _ _ E1 E2)|]. split; [now apply Forall_app|]. now rewrite forallb_app, B1, B2.
Qed.
Lemma roams_step c r r' (done : bool) : tls_reader c = Some r -> roams r r' ->
  exists ops a, tcall_ok (KReader ops done) /\ any_bus (tcall_run cx dbg fuel c (KReader ops done)) (Done (a, if done then tc_set_rx c (b_reader_done (tc_rx c) r') else c)).
Proof.
  intros Er (ops & xs & E & F & B). exists ops. eexists. split; [split; assumption|]. cbn [tcall_run]. rewrite Er, E. constructor.
Qed.

(** ** What a call does with the bytes that can be read *)
Lemma tp_read_any idx len w p k pos : reads (tp_reader p) w pos -> 0 <= idx <= zlen w -> 0 <= len -> 0 <= k ->
  exists r p', tp_read idx len p k = TOk (r, p') /\ (match r with Ok d => slice_of w d | Err _ => True end) /\ roams (tp_reader p) (tp_reader p') /\
    (exists pos', reads (tp_reader p') w pos') /\ tp_topic_len p' = tp_topic_len p /\ tp_topic_idx p' = tp_topic_idx p /\ tp_payload_len p' = tp_payload_len p /\ tp_payload_idx p' = tp_payload_idx p.
Proof.
  intros H Hi Hl Hk. pose proof H as (_ & _ & _ & Hw).
  destruct (circle_run (read_part idx len k) (tp_reader p) w pos (fun r _ _ => match r with Ok d => slice_of w d | Err e => e = UnexpectedEof end) H) as (a & r' & pos' & ops & xs & E & R & Q & T & F & B).
  { apply read_part_wpa; try lia. { unfold is_u16. lia. } destruct (_ <=? _); [|reflexivity]. eexists _, _. reflexivity. }
  assert (roams (tp_reader p) r') as Ro by (exists ops, xs; auto).
  unfold tp_read. rewrite E. cbn [tbind fst snd]. destruct a as [d|e]; [|subst e]; cbn [mq_err Mqtt.map_w5500]; eexists _, _; (split; [reflexivity|]); cbn [tp_reader tp_topic_len tp_topic_idx tp_payload_len tp_payload_idx]; repeat split; eauto.
Qed.
Definition pub_in (w : list Z) (p : TlsPublish) : Prop :=
  0 <= tp_topic_idx p <= zlen w /\ 0 <= tp_topic_len p /\ 0 <= tp_payload_idx p <= zlen w /\ 0 <= tp_payload_len p <= zlen w.
Lemma tp_run_any w ops : Forall pub_op_ok ops -> forall p pos, reads (tp_reader p) w pos -> pub_in w p ->
  exists l p', tp_run p ops = TOk (l, p') /\ got_from w l /\ roams (tp_reader p) (tp_reader p') /\ (exists pos', reads (tp_reader p') w pos') /\ pub_in w p'.
Proof.
  induction 1 as [|o ops Ho Hops IH]; intros p pos H (P1 & P2 & P3 & P4); cbn [tp_run].
  - exists [], p. split; [reflexivity|]. split; [constructor|]. split; [apply roams_refl|]. split; [eauto|]. unfold pub_in. auto.
  - assert (exists r p', match o with PTopic n => tp_read_topic p n | PPayload n => tp_read_payload p n end = TOk (r, p') /\ (match r with Ok d => slice_of w d | Err _ => True end) /\ roams (tp_reader p) (tp_reader p') /\
      (exists pos', reads (tp_reader p') w pos') /\ tp_topic_len p' = tp_topic_len p /\ tp_topic_idx p' = tp_topic_idx p /\ tp_payload_len p' = tp_payload_len p /\ tp_payload_idx p' = tp_payload_idx p) as (r & p1 & E1 & S1 & R1 & (pos1 & H1) & T1 & T2 & T3 & T4).
    { destruct o as [k|k]; cbn [pub_op_ok] in Ho; apply (tp_read_any _ _ w p k pos); auto; lia. }
    rewrite E1. cbn [tbind fst snd]. destruct (IH p1 pos1 H1) as (l & p2 & E2 & S2 & R2 & H2 & I2).
    { unfold pub_in. rewrite T1, T2, T3, T4. auto. }
    rewrite E2. cbn [tbind fst snd]. exists (r :: l), p2. split; [reflexivity|]. split; [now constructor|]. split; [exact (roams_trans _ _ _ R1 R2)|]. auto.
Qed.
Lemma tp_done_any c w p pos : reads (tp_reader p) w pos -> pub_in w p ->
  exists r c', tp_done c p = TOk (r, c') /\ exists p', roams (tp_reader p) p' /\ (c' = c \/ c' = mt_reader_done c p').
Proof.
  intros H (P1 & P2 & P3 & P4). pose proof H as (_ & _ & _ & Hw). unfold tp_done. destruct (Z.leb_spec 65536 (tp_payload_idx p + tp_payload_len p)); [lia|].
  destruct (circle_run (s_seek (SStart (tp_payload_idx p + tp_payload_len p))) (tp_reader p) w pos (fun r _ _ => r = Ok tt \/ r = Err UnexpectedEof) H) as (a & r' & pos' & ops & xs & E & R & Q & T & F & B).
  { cbn [s_seek wpa astep target sret]. split; [split; [cbn; unfold is_u16; lia|reflexivity]|]. destruct (_ && _); cbn; auto. }
  rewrite E. cbn [tbind fst snd]. destruct Q as [-> | ->]; cbn [mq_err Mqtt.map_w5500]; eexists _, _; (split; [reflexivity|]); exists r'; (split; [exists ops, xs; auto|auto]).
Qed.

(** *** The state of the MQTT client *)
Definition st_step (st : StateTimeout) (a : mtans) (st' : StateTimeout) : Prop :=
  (st' = st /\ connack a = false) \/
  (st' = mkST MInit None /\ exists e, a = WProcess (Err (MTErr e)) [] (Ok tt)) \/
  (st_state st = WaitConAck /\ st' = mkST Ready None /\ a = WProcess (Ok (SeenAck AConnAck)) [] (Ok tt)).
Definition is_reader (x : tcall) : Prop := match x with KReader _ _ => True | _ => False end.

(** What [recv] can return, with the state. *)
Definition rx_state (st : MState) (e : rx_end) : Prop :=
  match e with
  | RxDone None (Ok (Some AConnAck)) => False
  | RxDone None (Err _) => False
  | RxDone (Some Ready) r => st = WaitConAck /\ r = Ok (Some AConnAck)
  | RxDone (Some MInit) r => exists e, r = Err e
  | RxDone (Some _) _ => False
  | _ => True
  end.
Lemma try_st {A} st (p : SM A) k : (forall a, sleaves (k a) (rx_state st)) -> sleaves (rx_try p k) (rx_state st).
Proof. intros H. apply sleaves_seq. intros [a|e]; [apply H|]. destruct (Mqtt.map_w5500 e); exact I. Qed.
Lemma io_st {A} st (p : SM A) k : (forall a, sleaves (k a) (rx_state st)) -> sleaves (rx_io p k) (rx_state st).
Proof. intros H. apply sleaves_seq. intros [a|e]; [apply H|exact I]. Qed.
Lemma sub_st {A} st (tf : Z -> res Z A) ev : (forall i a, ev i a <> AConnAck) -> sleaves (recv_sub tf ev) (rx_state st).
Proof.
  intros Hev. apply io_st. intros b. destruct (negb (zlen b =? 3)); [exact I|]. apply try_st. intros _. apply try_st. intros p.
  destruct (tf (at_ p 0)) as [c|]; cbn; [|exact I]. destruct (ev (of_be16 (at_ b 0) (at_ b 1)) c) eqn:E; auto. exact (Hev _ _ E).
Qed.
Lemma recv_st st : sleaves (recv_pkt st) (rx_state st).
Proof.
  apply io_st. intros b. destruct (header_deser b) as [[h|[|]]|]; cbn [sleaves]; try exact I.
  apply try_st. intros _. apply sleaves_seq. intros [rem|e]; [|exact I]. destruct (rem <? fh_remaining h); [exact I|].
  assert (sleaves (rx_try (s_seek (SCurrent (clamp_i16 (fh_remaining h)))) (fun _ => SRet (RxDone None (Ok None)))) (rx_state st)) as G by (apply try_st; intros _; exact I).
  destruct (fh_ctrl h); try exact G; try (apply sub_st; discriminate).
  - exact I.
  - unfold recv_connack. destruct (mstate_eqb st WaitConAck) eqn:Es; cbn [negb]; [|exact I]. assert (st = WaitConAck) as -> by (now destruct st).
    apply try_st. intros b2. apply try_st. intros _. cbn [sleaves]. destruct (connect_try_from (at_ b2 1)) as [r|[| |]]; cbn; eauto.
  - unfold recv_publish. apply try_st. intros b2. apply sleaves_seq. intros [i|e]; [|exact I]. apply try_st. intros _. apply try_st. intros p.
    apply try_st. intros _. apply sleaves_seq. intros [i2|e]; exact I.
Qed.
Lemma circle_leaf {A} (p : sprog A) P : sleaves p P -> forall r a r', on_circle r p = TOk (a, r') -> P a.
Proof.
  induction p as [a|o k IH|q k IH| |]; cbn [sleaves on_circle]; intros H r x r' E; try discriminate E.
  - injection E as <- _. exact H.
  - destruct (tr_op r o) as [(y, r1)|e| |]; cbn [tbind fst snd] in E; try discriminate E. exact (IH y (H y) r1 x r' E).
  - destruct (tr_ask r q) as [z|e| |]; cbn [tbind] in E; try discriminate E. exact (IH z (H z) r x r' E).
Qed.

Lemma reader_any N t r : bwf N (tc_rx t) -> 2 <= N <= 16384 -> tls_reader t = Some r -> reads r (readable t) 0 /\ readable t <> [] /\ bytes_ok (readable t).
Proof.
  intros (E & Bb & Hh & Ha & Hs & Ht) HN Er. unfold readable. rewrite Er. unfold tls_reader, b_app_data_reader in Er. destruct (Z.eqb_spec (b_ad_tail (tc_rx t)) (b_head (tc_rx t))) as [|Ne]; [discriminate Er|].
  pose proof (slices_eq (b_buf (tc_rx t)) (b_ad_tail (tc_rx t)) (b_head (tc_rx t)) ltac:(lia) ltac:(lia) Ne) as S. unfold b_N in Er.
  destruct (as_slices _ _ _ _) as (x, y) eqn:Ea. injection Er as <-. cbn [cr_new cr_a cr_b cr_ptr]. set (buf := b_buf (tc_rx t)) in *. set (tl := b_ad_tail (tc_rx t)) in *. set (hd := b_head (tc_rx t)) in *.
  assert (0 < (tl - hd) mod zlen buf < zlen buf) as Hm.
  { destruct (Z.ltb_spec tl hd); [rewrite mod_low by lia|rewrite Z.mod_small by lia]; lia. }
  assert (zlen (x ++ y) = (tl - hd) mod zlen buf) as L by (rewrite S; apply zlen_ring; lia).
  remember ((tl - hd) mod zlen buf) as m eqn:Em. clear Em S.
  split; [|split].
  - unfold reads. split; [reflexivity|]. split; [reflexivity|]. lia.
  - intros Z0. rewrite Z0 in L. change (zlen (@nil Z)) with 0 in L. lia.
  - unfold as_slices in Ea. destruct (_ <=? _); injection Ea as <- <-; apply bytes_app; try (apply bytes_take; try apply bytes_drop; exact Bb). constructor.
Qed.

Section Rx.
Variables (c : MqttTls) (now : Z) (ops : list pub_op) (fin : bool) (N : Z).
Hypotheses (B : bwf N (tc_rx (mt_tls c))) (HN : 2 <= N <= 16384) (Ho : Forall pub_op_ok ops).
Definition rx_did (a : mtans) (c' : MqttTls) : Prop :=
  (exists l, tsteps (mt_tls c) l (mt_tls c') /\ Forall (fun y => is_reader (fst y)) l) /\ mt_client_id c' = mt_client_id c /\ mt_pkt_id c' = mt_pkt_id c /\
  st_step (mt_st c) a (mt_st c') /\ answer_from (readable (mt_tls c)) a /\ exists r got f, a = WProcess r got f.
Definition rx_result (p : prog (mtans * MqttTls)) : Prop :=
  (exists a c', p = Ret (a, c') /\ rx_did a c') \/ (p = Panic /\ exists since, st_timeout (mt_st c) = Some since /\ now < since).
Lemma timeout_did c1 : mt_st c1 = mt_st c -> mt_client_id c1 = mt_client_id c -> mt_pkt_id c1 = mt_pkt_id c ->
  (exists l, tsteps (mt_tls c) l (mt_tls c1) /\ Forall (fun y => is_reader (fst y)) l) -> rx_result (bind (mt_timeout c1 now) (after_process ops fin)).
Proof using Type.
  intros E1 E2 E3 L. unfold mt_timeout, st_elapsed. rewrite E1. destruct (st_timeout (mt_st c)) as [t|] eqn:Et.
  - destruct (Z.ltb_spec now t); [right; split; [reflexivity|eauto]|]. left. destruct (_ <? _); cbn [bind after_process]; eexists _, _; (split; [reflexivity|]); (split; [exact L|]); (split; [exact E2|]); (split; [exact E3|]); (split; [|split; [split; [discriminate|constructor]|eauto]]).
    + right. left. split; [reflexivity|]. eauto.
    + left. split; [exact E1|reflexivity].
  - left. cbn [bind after_process]. eexists _, _. split; [reflexivity|]. split; [exact L|]. split; [exact E2|]. split; [exact E3|]. split; [left; split; [exact E1|reflexivity]|]. split; [split; [discriminate|constructor]|eauto].
Qed.
Lemma rx_any : rx_result (bind (mt_rx c now) (after_process ops fin)).
Proof using B HN Ho.
  unfold mt_rx. destruct (tls_reader (mt_tls c)) as [r|] eqn:Er.
  2:{ apply timeout_did; auto. exists []. split; constructor. }
  destruct (reader_any N (mt_tls c) r B HN Er) as (R0 & Nw & Bw). set (w := readable (mt_tls c)) in *. pose proof R0 as (_ & _ & _ & Lw). pose proof (zlen_nonneg w) as L0.
  assert (0 < zlen w) as L1 by (destruct w as [|x l]; [contradiction|rewrite zlen_cons; pose proof (zlen_nonneg l); lia]).
  destruct (circle_run _ r w 0 rx_fine R0 (recv_total (st_state (mt_st c)) w False Bw ltac:(lia))) as (e & r' & pos' & rops & xs & E & R1 & Q & T & F & Bo).
  pose proof (circle_leaf _ _ (recv_st (st_state (mt_st c))) r e r' E) as S. assert (roams r r') as Ro by (exists rops, xs; auto).
  assert (forall p, roams r p -> exists l, tsteps (mt_tls c) l (mt_tls (mt_reader_done c p)) /\ Forall (fun y => is_reader (fst y)) l) as Ld.
  { intros p Hp. destruct (roams_step (mt_tls c) r p true Er Hp) as (o & a & O1 & O2). exists [(KReader o true, a)]. split; [now apply steps_one|]. repeat constructor. }
  assert (exists l, tsteps (mt_tls c) l (mt_tls c) /\ Forall (fun y => is_reader (fst y)) l) as Ln by (exists []; split; constructor).
  rewrite E. cbn [lift fst snd]. destruct e as [|e i|st ra|tl ti pl pi].
  - apply timeout_did; auto.
  - left. cbn [bind]. destruct i; cbn [after_process]; eexists _, _; (split; [reflexivity|]); (split; [exact Ln|]); (split; [reflexivity|]); (split; [reflexivity|]); (split; [|split; [split; [discriminate|constructor]|eauto]]).
    + right. left. split; [reflexivity|eauto].
    + left. split; reflexivity.
  - specialize (Ld r' Ro). cbv zeta. cbn [rx_state] in S. destruct st as [st|].
    + destruct st; try contradiction.
      * destruct S as (m & ->). left. cbn [bind after_process]. eexists _, _. split; [reflexivity|]. split; [exact Ld|]. do 2 (split; [reflexivity|]). split; [right; left; split; [reflexivity|eauto]|]. split; [split; [discriminate|constructor]|eauto].
      * destruct S as (Hst & ->). left. cbn [bind after_process seen]. eexists _, _. split; [reflexivity|]. split; [exact Ld|]. do 2 (split; [reflexivity|]). split; [right; right; auto|]. split; [split; [auto|constructor]|eauto].
    + destruct ra as [[a|]|m]; [| |contradiction].
      * left. cbn [bind after_process seen]. eexists _, _. split; [reflexivity|]. split; [exact Ld|]. do 2 (split; [reflexivity|]). split; [left; split; [reflexivity|now destruct a]|]. split; [split; [auto|constructor]|eauto].
      * apply timeout_did; auto.
  - cbn [rx_fine] in Q. left. cbn [bind after_process]. set (p := mkTP r' tl ti pl pi).
    assert (pub_in w p) as Hp by (unfold pub_in, p; cbn; lia).
    destruct (tp_run_any w ops Ho p pos' R1 Hp) as (l & p2 & E2 & S2 & R2 & (pos2 & H2) & I2). rewrite E2. cbn [lift fst snd].
    destruct fin.
    + destruct (tp_done_any c w p2 pos2 H2 I2) as (d & c' & E3 & p' & R3 & Hc). rewrite E3. cbn [lift fst snd seen]. eexists _, _. split; [reflexivity|].
      assert (roams r p') as R4 by (eapply roams_trans; [exact Ro|]; eapply roams_trans; [exact R2|exact R3]).
      split; [destruct Hc as [-> | ->]; [exact Ln|now apply Ld]|]. split; [destruct Hc as [-> | ->]; reflexivity|]. split; [destruct Hc as [-> | ->]; reflexivity|].
      split; [left; split; [destruct Hc as [-> | ->]; reflexivity|reflexivity]|]. split; [split; [auto|exact S2]|eauto].
    + cbn [seen]. eexists _, _. split; [reflexivity|]. split; [exact Ln|]. do 2 (split; [reflexivity|]). split; [left; split; reflexivity|]. split; [split; [auto|exact S2]|eauto].
Qed.
End Rx.
End Steps.
