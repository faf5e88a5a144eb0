(** What holds in every history of the MQTT client over TLS. *)
From Verif Require Import Model.Prelude Model.Bus Model.Chip Model.Specifiers Model.HlIo Model.Stream Spec.Hoare Spec.Sock Spec.TcpClient Spec.Cursor Spec.TlsSecrets Spec.TlsProtect.
From Verif Require Import Model.Mqtt Spec.MqttMsg Proof.LeafP Proof.MqttHistP Proof.MqttMainP.
From Verif Require Import Proof.Base Proof.TlsBufP Proof.TlsLeafP Proof.TlsInvP Proof.TlsHistP Proof.TlsAuthP Proof.MqttTlsSendP Proof.MqttTlsRxP Proof.MqttTlsHistP Proof.MqttTlsMainP.
From Verif Require Import Model.TlsTypes Model.TlsBuf Model.TlsKeys Model.TlsRecord Model.TlsClient Model.MqttTls Spec.TlsQueue Spec.TlsSession Spec.TlsWire Spec.TlsAuth Spec.MqttTlsMsg.
Local Open Scope list_scope.

Lemma processed_app l l' : tls_processed (l ++ l') = tls_processed l ++ tls_processed l'.
Proof. induction l as [|(x, a) l IH]; [reflexivity|]. cbn [app tls_processed]. destruct x; cbn [app]; now rewrite IH. Qed.
Lemma mt_processed_app l l' : mt_processed (l ++ l') = mt_processed l ++ mt_processed l'.
Proof. induction l as [|(x, a) l IH]; [reflexivity|]. cbn [app mt_processed]. destruct x; cbn [app]; now rewrite IH. Qed.
Lemma readers_processed l : Forall (fun y : tcall * tans => is_reader (fst y)) l -> tls_processed l = [].
Proof. induction 1 as [|(x, a) l H _ IH]; [reflexivity|]. cbn [fst] in H. destruct x; cbn in H; try contradiction. exact IH. Qed.
Lemma readers_tunnel l : Forall (fun y : tcall * tans => is_reader (fst y)) l -> Forall (fun y => tunnel (fst y)) l.
Proof. apply Forall_impl. intros (x, a) H. cbn [fst] in *. now destruct x. Qed.
Definition next_id (i : Z) : Z := if i + 1 <? 65536 then i + 1 else 1.

Section Hist.
Variables (cx : Crypto) (dbg : bool) (fuel : nat) (cf : tconfig) (CX : crypto_ok cx) (CF : tconfig_ok cf).
Definition state_did (a : mtans) (l : list (tcall * tans)) (st st' : StateTimeout) : Prop :=
  (connack a = false /\ (st' = st \/ st' = mkST MInit None \/ (st_state st' = WaitConAck /\ exists rng now, In (KProcess rng now, NProcess (Ok THandshakeFinished)) l))) \/
  (st_state st = WaitConAck /\ st' = mkST Ready None /\ connack a = true).
Definition call_did (c : MqttTls) (x : mtcall) (a : mtans) (c' : MqttTls) (l : list (tcall * tans)) : Prop :=
  tsteps cx dbg fuel (mt_tls c) l (mt_tls c') /\ Forall (fun y => tunnel (fst y)) l /\ tls_processed l = mt_processed [(x, a)] /\
  client_id_ok c' /\ mt_pkt_id c' = (if mt_request x then next_id (mt_pkt_id c) else mt_pkt_id c) /\ state_did a l (mt_st c) (mt_st c') /\
  (forall id, a = WSub (Ok id) -> mt_nonempty x = true -> id = mt_pkt_id c').
Lemma put_st c t : mt_st (mt_put c t) = mt_st c.
Proof. reflexivity. Qed.
Lemma put_pkt c t : mt_pkt_id (mt_put c t) = mt_pkt_id c.
Proof. reflexivity. Qed.
Lemma put_id c t : mt_client_id (mt_put c t) = mt_client_id c.
Proof. reflexivity. Qed.
Lemma send_did {A} (c c1 c' : MqttTls) p (v : A) r x a : (forall q, p = Some q -> calls_all wr_call q) -> mt_tls c1 = mt_tls c -> mt_st c1 = mt_st c -> mt_client_id c1 = mt_client_id c -> client_id_ok c ->
  mt_pkt_id c1 = (if mt_request x then next_id (mt_pkt_id c) else mt_pkt_id c) -> mt_processed [(x, a)] = [] -> connack a = false ->
  (forall id, a = WSub (Ok id) -> mt_nonempty x = true -> id = mt_pkt_id c1) ->
  any_bus (mt_send cx c1 p v) (Done (r, c')) -> exists l, call_did c x a c' l.
Proof.
  intros Hp E1 E2 E3 Hid E4 E5 E6 E7 H. destruct (send_step cx dbg fuel c1 c' p v r Hp H) as ((ops & send & ans & K1 & K2 & K3) & Ec & _ & _).
  exists [(KWriter ops send, ans)]. rewrite E1 in K3. split; [now apply steps_one|]. split; [repeat constructor; apply K2|]. split; [now rewrite E5|].
  rewrite Ec. rewrite put_st, put_pkt. split; [intros i Hi; rewrite put_id, E3 in Hi; now apply Hid|]. split; [exact E4|]. split; [left; auto|exact E7].
Qed.
Lemma process_did R c rng now ops fin a c' : inv cx cf R (mt_tls c) -> client_id_ok c -> rng_ok rng -> R rng -> Forall pub_op_ok ops ->
  any_bus (mtcall_run cx dbg fuel c (YProcess rng now ops fin)) (Done (a, c')) -> exists l, call_did c (YProcess rng now ops fin) a c' l.
Proof using CX CF.
  intros I Hid Hr HR Ho H. change (mtcall_run cx dbg fuel c (YProcess rng now ops fin)) with (bind (mt_process cx dbg fuel c rng now) (after_process ops fin)) in H.
  apply any_bind in H as (y & Hy & H). unfold mt_process in Hy. apply any_bind in Hy as ((r, t) & Ht & Hy).
  pose proof (lf_any _ _ _ Ht (process_leaf cx dbg fuel cf R CX CF (mt_tls c) rng now I HR Hr) (r, t) eq_refl) as (It & _). cbn [snd] in It.
  assert (tsteps cx dbg fuel (mt_tls c) [(KProcess rng now, NProcess r)] t) as T1.
  { apply steps_one; [exact Hr|]. cbn [tcall_run]. apply (any_then _ _ _ _ Ht). constructor. }
  assert (forall l c2, tsteps cx dbg fuel t l (mt_tls c2) -> Forall (fun y => tunnel (fst y)) l -> tls_processed l = [] -> mt_client_id c2 = mt_client_id c -> mt_pkt_id c2 = mt_pkt_id c ->
    (forall id, a <> WSub (Ok id)) -> state_did a ((KProcess rng now, NProcess r) :: l) (mt_st c) (mt_st c2) -> call_did c (YProcess rng now ops fin) a c2 ((KProcess rng now, NProcess r) :: l)) as Mk.
  { intros l c2 S1 S2 S3 S4 S5 S6 S7. split; [change (?u :: l) with ([u] ++ l); now apply steps_app with (c1 := t)|]. split; [constructor; [exact Logic.I|exact S2]|].
    split; [cbn [tls_processed mt_processed]; now rewrite S3|]. split; [intros i Hi; rewrite S4 in Hi; now apply Hid|]. split; [exact S5|]. split; [exact S7|]. intros id E. now apply S6 in E. }
  assert (forall e, Ret (Err e, mt_put c t) = Ret y \/ (exists k, Ret (Ok (TECallAfter k), mt_put c t) = Ret y) -> exists l, call_did c (YProcess rng now ops fin) a c' l) as Easy.
  { intros e E. exists [(KProcess rng now, NProcess r)]. assert (connack a = false /\ c' = mt_put c t /\ (forall id, a <> WSub (Ok id))) as (Ea & -> & Ew).
    { destruct E as [E|(k & E)]; injection E as <-; cbn [after_process] in H; apply any_ret in H; injection H as <- <-; repeat split; discriminate. }
    apply (Mk [] (mt_put c t)); [constructor|constructor|reflexivity|reflexivity|reflexivity|exact Ew|left; auto]. }
  assert (y = y /\ any_bus (mt_rx (mt_put c t) now) (Done y) -> exists l, call_did c (YProcess rng now ops fin) a c' l) as Rx.
  { intros (_ & X). pose proof (any_then _ _ _ _ X H) as B. destruct It as ((_ & _ & _ & W) & _). pose proof (N_ok cf CF) as HN.
    destruct (rx_any cx dbg fuel (mt_put c t) now ops fin (zlen (cf_buf cf)) W ltac:(lia) Ho) as [(a0 & c0 & E & ((l & L1 & L2) & D1 & D2 & D3 & D4 & (r0 & g0 & f0 & D5)))|(E & _)]; rewrite E in B; [|inversion B].
    apply any_ret in B. injection B as <- <-. exists ((KProcess rng now, NProcess r) :: l). apply Mk; [exact L1|now apply readers_tunnel|now apply readers_processed|exact D1|exact D2|rewrite D5; discriminate|].
    destruct D3 as [(D3 & D6)|[(D3 & e & D6)|(D3 & D6 & D7)]].
    - left. split; [exact D6|]. left. exact D3.
    - left. split; [rewrite D6; reflexivity|]. right. left. exact D3.
    - right. split; [exact D3|]. split; [exact D6|]. rewrite D7. reflexivity. }
  destruct r as [[k| | | |]|[al|al| | | |]].
  - apply any_ret in Hy. apply (Easy (MTErr MProtocol)). right. exists k. now rewrite Hy.
  - apply Rx. auto.
  - apply any_bind in Hy as ((r2, c2) & H2 & Hy). unfold mt_send_connect in H2. destruct (_ <? 22); [inversion H2|]. apply any_bind in H2 as ((r3, c3) & H3 & H2).
    apply (send_step cx dbg fuel) in H3; [|intros q Eq; injection Eq as <-; now apply connect_calls]. destruct H3 as ((wops & send & ans & K1 & K2 & K3) & Ec & _ & _).
    pose proof (steps_one cx dbg fuel t _ _ _ K1 K3) as K4. exists ((KProcess rng now, NProcess (Ok THandshakeFinished)) :: [(KWriter wops send, ans)]).
    assert (Forall (fun y : tcall * tans => tunnel (fst y)) [(KWriter wops send, ans)]) as K5 by (repeat constructor; apply K2).
    destruct r3 as [v|e]; apply any_ret in H2; injection H2 as <- <-; cbn iota beta in Hy; apply any_ret in Hy; subst y; cbn [after_process] in H; apply any_ret in H; injection H as <- <-.
    + apply Mk; [exact K4|exact K5|reflexivity|rewrite Ec; reflexivity|rewrite Ec; reflexivity|discriminate|]. left. split; [reflexivity|]. right. right. split; [reflexivity|]. exists rng, now. now left.
    + apply Mk; [exact K4|exact K5|reflexivity|rewrite Ec; reflexivity|rewrite Ec; reflexivity|discriminate|]. left. split; [reflexivity|]. left. rewrite Ec. reflexivity.
  - apply any_ret in Hy. apply (Easy (MTErr MDisconnect)). left. now rewrite Hy.
  - apply Rx. auto.
  - apply any_ret in Hy. apply (Easy (MTServer al)). left. now rewrite Hy.
  - apply any_ret in Hy. apply (Easy (MTClient al)). left. now rewrite Hy.
  - apply any_ret in Hy. apply (Easy (MTErr MDisconnect)). left. now rewrite Hy.
  - apply any_ret in Hy. apply (Easy (MTErr MTcpTimeout)). left. now rewrite Hy.
  - apply any_ret in Hy. apply (Easy (MTErr (MStateTimeout WaitConAck))). left. now rewrite Hy.
  - inversion Hy.
Qed.
Lemma mtcall_did R c x a c' : inv cx cf R (mt_tls c) -> client_id_ok c -> 1 <= mt_pkt_id c <= 65535 -> mtcall_ok x -> (forall rng now ops fin, x = YProcess rng now ops fin -> R rng) ->
  any_bus (mtcall_run cx dbg fuel c x) (Done (a, c')) -> exists l, call_did c x a c' l.
Proof using CX CF.
  intros I Hid Hp Hx HR H. assert (is_u16 (mt_pkt_id (mt_next_pkt_id c))) as Hu.
  { unfold is_u16, mt_next_pkt_id. cbn [mt_pkt_id]. destruct (Z.ltb_spec (mt_pkt_id c + 1) 65536); lia. }
  destruct x as [rng now ops fin|t p|f|f|i]; cbn [mtcall_ok] in Hx.
  - apply (process_did R); try tauto. exact (HR _ _ _ _ eq_refl).
  - cbn [mtcall_run] in H. apply any_bind in H as ((r, c1) & H & E). apply any_ret in E. injection E as <- <-. unfold mt_publish in H.
    refine (send_did c c c1 _ tt r (YPublish t p) (WPublish r) _ eq_refl eq_refl eq_refl Hid eq_refl eq_refl eq_refl _ H); [|discriminate]. intros q E. injection E as <-. apply publish_calls; tauto.
  - cbn [mtcall_run] in H. apply any_bind in H as ((r, c1) & H & E). apply any_ret in E. injection E as <- <-. unfold mt_subscribe in H.
    destruct (Z.eqb_spec (zlen f) 0) as [Ef|Ef]; cbv zeta in H.
    + refine (send_did c (mt_next_pkt_id c) c1 _ 0 r (YSubscribe f) (WSub r) _ eq_refl eq_refl eq_refl Hid eq_refl eq_refl eq_refl _ H); [discriminate|]. intros id _. cbn [mt_nonempty]. rewrite Ef. discriminate.
    + pose proof H as V. apply (send_step cx dbg fuel) in V; [|intros q E; injection E as <-; now apply subscribe_calls]. destruct V as (_ & _ & _ & V).
      refine (send_did c (mt_next_pkt_id c) c1 _ _ r (YSubscribe f) (WSub r) _ eq_refl eq_refl eq_refl Hid eq_refl eq_refl eq_refl _ H); [intros q E; injection E as <-; now apply subscribe_calls|]. intros id E _. apply V. cbn [fst] in E. congruence.
  - cbn [mtcall_run] in H. apply any_bind in H as ((r, c1) & H & E). apply any_ret in E. injection E as <- <-. unfold mt_unsubscribe in H.
    destruct (Z.eqb_spec (zlen f) 0) as [Ef|Ef]; cbv zeta in H.
    + refine (send_did c (mt_next_pkt_id c) c1 _ 0 r (YUnsubscribe f) (WSub r) _ eq_refl eq_refl eq_refl Hid eq_refl eq_refl eq_refl _ H); [discriminate|]. intros id _. cbn [mt_nonempty]. rewrite Ef. discriminate.
    + pose proof H as V. apply (send_step cx dbg fuel) in V; [|intros q E; injection E as <-; now apply unsubscribe_calls]. destruct V as (_ & _ & _ & V).
      refine (send_did c (mt_next_pkt_id c) c1 _ _ r (YUnsubscribe f) (WSub r) _ eq_refl eq_refl eq_refl Hid eq_refl eq_refl eq_refl _ H); [intros q E; injection E as <-; now apply unsubscribe_calls|]. intros id E _. apply V. cbn [fst] in E. congruence.
  - cbn [mtcall_run] in H. apply any_ret in H. injection H as <- <-. exists []. split; [constructor|]. split; [constructor|]. split; [reflexivity|].
    split; [intros j E; injection E as E; subst j; split; [lia|tauto]|]. split; [reflexivity|]. split; [left; split; [reflexivity|now left]|discriminate].
Qed.

(** ** Histories *)
Section Of.
Variables (sn : Sn) (sp : Z) (dst : list Z * Z).
(** What holds after a history [h], with the history [th] of the TLS client. *)
Definition after_history (h : list (mtcall * mtans)) (th : list (tcall * tans)) (c : MqttTls) : Prop :=
  thistory cx dbg fuel (tls_init cx sn sp dst cf) th (mt_tls c) /\ Forall (fun y => tunnel (fst y)) th /\ tls_processed th = mt_processed h /\
  client_id_ok c /\ 1 <= mt_pkt_id c <= 65535 /\ (st_state (mt_st c) <> MInit -> handshake_in th) /\ (mt_is_connected c = true -> connack_in h).
Lemma next_range i : 1 <= i <= 65535 -> 1 <= next_id i <= 65535.
Proof. unfold next_id. destruct (Z.ltb_spec (i + 1) 65536); lia. Qed.
Lemma history_did h c : mthistory cx dbg fuel (mt_init cx sn sp dst cf) h c -> exists th, after_history h th c.
Proof using CX CF.
  induction 1 as [|h c x a c' H (th & T1 & T2 & T3 & T4 & T5 & T6 & T7) Hx Hb].
  - exists []. split; [constructor|]. split; [constructor|]. split; [reflexivity|]. split; [intros i E; discriminate E|]. split; [cbn; lia|]. split; [intros E; now contradiction E|discriminate].
  - destruct (mtcall_did (fun _ => True) c x a c' (history_inv cx dbg fuel cf CX CF sn sp dst th _ T1 (fun _ => True) (fun _ _ => I)) T4 T5 Hx (fun _ _ _ _ _ => I) Hb) as (l & D1 & D2 & D3 & D4 & D5 & D6 & _).
    exists (th ++ l). split; [exact (history_steps cx dbg fuel _ _ _ _ _ T1 D1)|]. split; [now apply Forall_app|]. split; [now rewrite processed_app, mt_processed_app, T3, D3|]. split; [exact D4|].
    split; [rewrite D5; destruct (mt_request x); [now apply next_range|exact T5]|].
    assert (forall P : Prop, handshake_in th -> handshake_in (th ++ l)) as Hin by (intros _ (rng & now & Y); exists rng, now; apply in_or_app; now left).
    assert (connack_in h -> connack_in (h ++ [(x, a)])) as Cin by (intros (y & b & Y & Z0); exists y, b; split; [apply in_or_app; now left|exact Z0]).
    split.
    + intros Hs. destruct D6 as [(_ & [E|[E|(E & rng & now & Y)]])|(E & E2 & _)].
      * apply (Hin True), T6. now rewrite <- E.
      * rewrite E in Hs. now contradiction Hs.
      * exists rng, now. apply in_or_app. now right.
      * apply (Hin True), T6. rewrite E. discriminate.
    + intros Hs. destruct D6 as [(_ & [E|[E|(E & _)]])|(E & E2 & E3)].
      * apply Cin, T7. unfold mt_is_connected in *. now rewrite <- E.
      * unfold mt_is_connected in Hs. rewrite E in Hs. discriminate Hs.
      * unfold mt_is_connected in Hs. rewrite E in Hs. discriminate Hs.
      * exists x, a. split; [apply in_or_app; right; now left|exact E3].
Qed.
Lemma tls_history h c : mthistory cx dbg fuel (mt_init cx sn sp dst cf) h c ->
  exists th, thistory cx dbg fuel (tls_init cx sn sp dst cf) th (mt_tls c) /\ Forall (fun y => tunnel (fst y)) th /\ tls_processed th = mt_processed h /\
    (mt_is_connected c = true -> handshake_in th).
Proof using CX CF.
  intros H. destruct (history_did h c H) as (th & T1 & T2 & T3 & _ & _ & T6 & _). exists th. split; [exact T1|]. split; [exact T2|]. split; [exact T3|]. intros E. apply T6. unfold mt_is_connected in E. intros X. rewrite X in E. discriminate E.
Qed.
Lemma connected_connack h c : mthistory cx dbg fuel (mt_init cx sn sp dst cf) h c -> mt_is_connected c = true -> connack_in h.
Proof using CX CF. intros H. destruct (history_did h c H) as (th & _ & _ & _ & _ & _ & _ & T). exact T. Qed.

(** *** Packet identifiers *)
Lemma next_pid i : 1 <= i <= 65535 -> next_id i = pid i 1.
Proof. intros H. unfold next_id, pid. destruct (Z.ltb_spec (i + 1) 65536); lia. Qed.
Lemma mt_granted_app h1 h2 : mt_granted (h1 ++ h2) = mt_granted h1 ++ mt_granted h2.
Proof.
  induction h1 as [|[x a] h1 IH]; [reflexivity|]. cbn [mt_granted app]. destruct a as [r g f|r|[id|e]|]; try exact IH.
  destruct (mt_nonempty x); [cbn [app]; now rewrite IH|exact IH].
Qed.
Lemma mthistory_app c0 h1 c1 h2 c2 : mthistory cx dbg fuel c0 h1 c1 -> mthistory cx dbg fuel c1 h2 c2 -> mthistory cx dbg fuel c0 (h1 ++ h2) c2.
Proof. intros H. induction 1 as [|h c x a c' S IH Hx Hb]; [now rewrite app_nil_r|]. rewrite app_assoc. econstructor; eassumption. Qed.
Lemma nonempty_request x : mt_nonempty x = true -> mt_request x = true.
Proof. now destruct x. Qed.
Lemma history_ids h1 c1 h2 c : mthistory cx dbg fuel (mt_init cx sn sp dst cf) h1 c1 -> mthistory cx dbg fuel c1 h2 c ->
  exists (ks : list Z) K, 0 <= K <= zlen (mt_requests h2) /\ mt_pkt_id c = pid (mt_pkt_id c1) K /\
    mt_granted h2 = map (pid (mt_pkt_id c1)) ks /\ NoDup ks /\ Forall (fun k => 0 < k <= K) ks.
Proof using CX CF.
  intros H1. destruct (history_did h1 c1 H1) as (_ & _ & _ & _ & _ & R1 & _). induction 1 as [|h c x a c' H IH Hx Hb].
  - exists [], 0. split; [unfold zlen; cbn; lia|]. split; [unfold pid; lia|]. split; [reflexivity|]. split; constructor.
  - destruct IH as (ks & K & HK & Ei & Eg & Hd & Hf).
    destruct (history_did _ c (mthistory_app _ _ _ _ _ H1 H)) as (th & T1 & _ & _ & T4 & T5 & _).
    destruct (mtcall_did (fun _ => True) c x a c' (history_inv cx dbg fuel cf CX CF sn sp dst th _ T1 (fun _ => True) (fun _ _ => I)) T4 T5 Hx (fun _ _ _ _ _ => I) Hb) as (l & _ & _ & _ & _ & D5 & _ & D7).
    unfold mt_requests in *. rewrite filter_app, mt_granted_app, Eg, zlen_app. cbn [filter fst]. pose proof (zlen_nonneg (filter (fun xa => mt_request (fst xa)) h)) as L.
    assert (mt_granted [(x, a)] = [] \/ (mt_request x = true /\ mt_granted [(x, a)] = [pid (mt_pkt_id c1) (K + 1)])) as Hg.
    { cbn [mt_granted]. destruct a as [r g f|r|[id|e]|]; auto. destruct (mt_nonempty x) eqn:En; auto. right. pose proof (nonempty_request x En) as Er. split; [exact Er|].
      rewrite (D7 id eq_refl eq_refl), D5, Er, next_pid, Ei, pid_add by exact T5. reflexivity. }
    assert (mt_pkt_id c' = if mt_request x then pid (mt_pkt_id c1) (K + 1) else pid (mt_pkt_id c1) K) as E'.
    { rewrite D5. destruct (mt_request x); [now rewrite next_pid, Ei, pid_add by exact T5|exact Ei]. }
    assert (Forall (fun k => 0 < k <= K + 1) ks) as Hf' by (eapply Forall_impl; [|exact Hf]; cbn; intros k Hk; lia).
    destruct Hg as [Hg|(Hr & Hg)]; rewrite Hg.
    + rewrite app_nil_r. destruct (mt_request x) eqn:Er.
      * exists ks, (K + 1). change (zlen [(x, a)]) with 1. split; [lia|]. auto.
      * exists ks, K. change (zlen (@nil (mtcall * mtans))) with 0. split; [lia|]. auto.
    + rewrite Hr in *. exists (ks ++ [K + 1]), (K + 1). change (zlen [(x, a)]) with 1. split; [lia|]. split; [exact E'|]. split; [now rewrite map_app|]. split.
      * apply (NoDup_Add (a := K + 1) (l := ks)); [|split; [exact Hd|]]. { rewrite <- (app_nil_r ks) at 1. apply Add_app. } intros Hin. rewrite Forall_forall in Hf. specialize (Hf _ Hin). lia.
      * apply Forall_app. split; [exact Hf'|constructor; [lia|constructor]].
Qed.
Lemma mt_ids_distinct h1 c1 h2 c : mthistory cx dbg fuel (mt_init cx sn sp dst cf) h1 c1 -> mthistory cx dbg fuel c1 h2 c ->
  Forall (fun id => 1 <= id <= 65535) (mt_granted h2) /\ (zlen (mt_requests h2) <= 65535 -> NoDup (mt_granted h2)).
Proof using CX CF.
  intros H1 H2. destruct (history_did h1 c1 H1) as (_ & _ & _ & _ & _ & R1 & _). destruct (history_ids h1 c1 h2 c H1 H2) as (ks & K & HK & _ & -> & N & F). split.
  - apply Forall_forall. intros id In0. apply in_map_iff in In0 as (k & <- & _). apply pid_range.
  - intros L. apply map_pid_nodup; auto. eapply Forall_impl; [|exact F]. cbn. intros. lia.
Qed.
End Of.
End Hist.
