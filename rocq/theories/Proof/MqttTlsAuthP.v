(** What the MQTT client over TLS reports comes from authenticated records. *)
From Verif Require Import Model.Prelude Model.Bus Model.Chip Model.Specifiers Model.HlIo Model.Stream Spec.Hoare Spec.Sock Spec.TcpClient Spec.Cursor Spec.TlsSecrets Spec.TlsProtect.
From Verif Require Import Model.Mqtt Spec.MqttMsg Proof.LeafP Proof.MqttHistP Proof.MqttMainP.
From Verif Require Import Proof.Base Proof.TlsBufP Proof.TlsLeafP Proof.TlsInvP Proof.TlsHistP Proof.TlsAuthP Proof.MqttTlsSendP Proof.MqttTlsRxP Proof.MqttTlsHistP Proof.MqttTlsMainP Proof.MqttTlsHist2P Proof.SprogP.
From Verif Require Import Model.TlsTypes Model.TlsBuf Model.TlsKeys Model.TlsRecord Model.TlsClient Model.MqttTls Spec.TlsQueue Spec.TlsSession Spec.TlsWire Spec.TlsAuth Spec.MqttTlsMsg.
Local Open Scope list_scope.

(** ** Sequences and what they read *)
Lemma received_bind {A B} (p : prog A) (f : A -> prog B) : forall got b g, any_bus (received (bind p f) got) (Done (b, g)) ->
  exists a g1, any_bus (received p got) (Done (a, g1)) /\ any_bus (received (f a) g1) (Done (b, g)).
Proof.
  induction p as [a|addr block len k IH|addr block d k IH| |]; cbn [bind received]; intros got b g H; [exists a, got; split; [constructor|exact H]| | |inversion H|inversion H].
  - inversion H; subst. destruct (IH _ _ _ _ ltac:(eassumption)) as (a & g1 & X & Y). exists a, g1. split; [econstructor; eassumption|exact Y].
  - inversion H; subst. destruct (IH _ _ _ _ ltac:(eassumption)) as (a & g1 & X & Y). exists a, g1. split; [econstructor; eassumption|exact Y].
Qed.
Lemma received_then {A B} (p : prog A) (f : A -> prog B) : forall got a g1 o, any_bus (received p got) (Done (a, g1)) -> any_bus (received (f a) g1) o -> any_bus (received (bind p f) got) o.
Proof.
  induction p as [a|addr block len k IH|addr block d k IH| |]; cbn [bind received]; intros got x g1 o H Hf; inversion H; subst.
  - exact Hf.
  - econstructor; [eassumption|]. eapply IH; eassumption.
  - econstructor. eapply IH; eassumption.
Qed.
Lemma received_extends {A} (p : prog A) : forall got a g, any_bus (received p got) (Done (a, g)) -> (exists e, g = got ++ e) /\ any_bus p (Done a).
Proof.
  induction p as [a|addr block len k IH|addr block d k IH| |]; cbn [received]; intros got x g H; inversion H; subst.
  - split; [exists []; now rewrite app_nil_r|constructor].
  - destruct (IH _ _ _ _ ltac:(eassumption)) as ((e & E) & X). split; [|econstructor; eassumption]. destruct r as [l|]; [|eauto]. destruct (_ =? 3); [|eauto]. rewrite <- app_assoc in E. eauto.
  - destruct (IH _ _ _ _ ltac:(eassumption)) as ((e & E) & X). split; [eauto|econstructor; eassumption].
Qed.
Lemma authentic_more cx c got e seq data : authentic cx c got seq data -> authentic cx c (got ++ e) seq data.
Proof. intros (traffic & pre & record & post & A & -> & B). exists traffic, pre, record, (post ++ e). split; [exact A|]. split; [now rewrite <- !app_assoc|exact B]. Qed.
Lemma delivers_more cx c got e c' : delivers cx c got c' -> delivers cx c (got ++ e) c'.
Proof.
  intros [H|[H|[(data & A & H)|H]]]; unfold delivers; auto.
  - right. right. left. exists data. split; [now apply authentic_more|exact H].
  - right. right. right. now apply authentic_more.
Qed.

Section Auth.
Variables (cx : Crypto) (fuel : nat) (cf : tconfig) (CX : crypto_ok cx) (CF : tconfig_ok cf) (sn : Sn) (sp : Z) (dst : list Z * Z).
Lemma asteps_pos ops : Forall cop_ok ops -> forall w pos, 0 <= pos <= zlen w -> 0 <= snd (asteps w pos ops).
Proof.
  induction 1 as [|o ops Ho _ IH]; intros w pos Hp; cbn [asteps]; [cbn; lia|].
  pose proof (astep_pos w pos o Hp Ho) as Q. destruct (astep w pos o) as ((x, w1), p1). cbn [fst snd] in Q.
  specialize (IH w1 p1 ltac:(lia)). destruct (asteps w1 p1 ops) as ((xs, w2), p2). exact IH.
Qed.
Lemma readers_drop l th t t' : thistory cx true fuel (tls_init cx sn sp dst cf) th t -> tsteps cx true fuel t l t' -> Forall (fun y : tcall * tans => is_reader (fst y)) l ->
  exists pos, 0 <= pos /\ readable t' = zdrop pos (readable t).
Proof.
  intros Ht. induction 1 as [|l t1 x a t' S IH Hx Hb]; intros F; [exists 0; split; [lia|reflexivity]|]. apply Forall_app in F as (F1 & F2). destruct (IH F1) as (p & Hp & E).
  destruct (received_any _ [] _ Hb) as (got & Hg). pose proof (auth_call cx fuel cf sn sp dst _ _ x a t' got CX CF (history_steps cx true fuel _ _ _ _ _ Ht S) Hx Hg) as K.
  inversion F2 as [|? ? Fx _]; subst. cbn [fst] in Fx. destruct x as [| | |ops done]; cbn [is_reader] in Fx; try contradiction. cbn [auth_step keeps] in K.
  pose proof (asteps_pos ops (proj1 Hx) (readable t1) 0 ltac:(pose proof (zlen_nonneg (readable t1)); lia)) as P. destruct (asteps (readable t1) 0 ops) as ((xs, w'), pos). cbn [snd] in P.
  destruct K as [(_ & _ & ->)|(_ & K)]; [eauto|]. destruct done; [|rewrite K; eauto]. exists (pos + p). split; [lia|]. rewrite K, E. apply zdrop_zdrop; lia.
Qed.
Lemma process_auth h c rng now ops fin a c' got : mthistory cx true fuel (mt_init cx sn sp dst cf) h c -> mtcall_ok (YProcess rng now ops fin) -> ~ fragment_pending (mt_tls c) ->
  any_bus (received (mtcall_run cx true fuel c (YProcess rng now ops fin)) []) (Done (a, c', got)) ->
  exists t1, delivers cx (mt_tls c) got t1 /\ answer_from (readable t1) a /\ exists pos, 0 <= pos /\ readable (mt_tls c') = zdrop pos (readable t1).
Proof using CX CF.
  intros Hh (Hr & Ho) Nf H. destruct (history_did cx true fuel cf CX CF sn sp dst h c Hh) as (th & T1 & _ & _ & T4 & _).
  change (mtcall_run cx true fuel c (YProcess rng now ops fin)) with (bind (mt_process cx true fuel c rng now) (after_process ops fin)) in H.
  apply received_bind in H as (y & g2 & Hy & H). unfold mt_process in Hy. apply received_bind in Hy as ((r, t) & g1 & Ht & Hy).
  assert (any_bus (received (tcall_run cx true fuel (mt_tls c) (KProcess rng now)) []) (Done (NProcess r, t, g1))) as Hk.
  { cbn [tcall_run]. apply (received_then _ _ _ _ _ _ Ht). constructor. }
  pose proof (auth_call cx fuel cf sn sp dst th _ _ _ _ _ CX CF T1 (Hr : tcall_ok (KProcess rng now)) Hk) as D. cbn [auth_step] in D. specialize (D ltac:(intros X; contradiction)).
  destruct (received_extends _ _ _ _ Hy) as ((e1 & E1) & Hy'). destruct (received_extends _ _ _ _ H) as ((e2 & E2) & H'). destruct (received_extends _ _ _ _ Hk) as (_ & Hk').
  assert (delivers cx (mt_tls c) got t) as D2 by (rewrite E2, E1; now do 2 apply delivers_more). exists t. split; [exact D2|].
  assert (thistory cx true fuel (tls_init cx sn sp dst cf) (th ++ [(KProcess rng now, NProcess r)]) t) as T by (econstructor; [exact T1|exact Hr|exact Hk']).
  pose proof (history_inv cx true fuel cf CX CF sn sp dst _ _ T (fun _ => True) (fun _ _ => I)) as ((_ & _ & _ & W) & _).
  assert (forall z, Ret y = Ret z -> (forall p, fst z <> Ok (TEPublish p)) -> (forall p, fst z <> Ok (TEAck p)) -> tc_rx (mt_tls (snd z)) = tc_rx t -> answer_from (readable t) a /\ exists pos, 0 <= pos /\ readable (mt_tls c') = zdrop pos (readable t)) as Easy.
  { intros (r0, c0) Ey N1 N2 Erx. injection Ey as ->. cbn [fst snd] in *.
    assert (a = WProcess (match r0 with Ok e => Ok (seen e) | Err e => Err e end) [] (Ok tt) /\ c' = c0) as (-> & ->).
    { destruct r0 as [[k|p|b|]|e]; cbn [after_process] in H'; try (exfalso; eapply N1; reflexivity); apply any_ret in H'; injection H' as <- <-; split; reflexivity. }
    split; [|exists 0; split; [lia|]; unfold readable, tls_reader; now rewrite Erx]. split; [|constructor]. destruct r0 as [[k|p|b|]|e]; cbn [reports seen]; try discriminate; exfalso; [eapply N1|eapply N2]; reflexivity. }
  assert (any_bus (mt_rx (mt_put c t) now) (Done y) -> answer_from (readable t) a /\ exists pos, 0 <= pos /\ readable (mt_tls c') = zdrop pos (readable t)) as Rx.
  { intros X. pose proof (any_then _ _ _ _ X H') as B. pose proof (N_ok cf CF) as HN.
    destruct (rx_any cx true fuel (mt_put c t) now ops fin (zlen (cf_buf cf)) W ltac:(lia) Ho) as [(a0 & c0 & E & ((l & L1 & L2) & _ & _ & _ & D4 & _))|(E & _)]; rewrite E in B; [|inversion B].
    apply any_ret in B. injection B as <- <-. split; [exact D4|]. exact (readers_drop l _ t _ T L1 L2). }
  destruct r as [[k| | | |]|[al|al| | | |]].
  - apply any_ret in Hy'. subst y. eapply Easy; [reflexivity|discriminate|discriminate|reflexivity].
  - now apply Rx.
  - apply any_bind in Hy' as ((r2, c2) & H2 & Hy'). unfold mt_send_connect in H2. destruct (_ <? 22); [inversion H2|]. apply any_bind in H2 as ((r3, c3) & H3 & H2).
    apply (send_step cx true fuel) in H3; [|intros q Eq; injection Eq as <-; now apply connect_calls]. destruct H3 as (_ & _ & Erx & _).
    destruct r3 as [v|e]; apply any_ret in H2; injection H2 as <- <-; cbn iota beta in Hy'; apply any_ret in Hy'; subst y; (eapply Easy; [reflexivity|discriminate|discriminate|exact Erx]).
  - apply any_ret in Hy'. subst y. eapply Easy; [reflexivity|discriminate|discriminate|reflexivity].
  - now apply Rx.
  - apply any_ret in Hy'. subst y. eapply Easy; [reflexivity|discriminate|discriminate|reflexivity].
  - apply any_ret in Hy'. subst y. eapply Easy; [reflexivity|discriminate|discriminate|reflexivity].
  - apply any_ret in Hy'. subst y. eapply Easy; [reflexivity|discriminate|discriminate|reflexivity].
  - apply any_ret in Hy'. subst y. eapply Easy; [reflexivity|discriminate|discriminate|reflexivity].
  - apply any_ret in Hy'. subst y. eapply Easy; [reflexivity|discriminate|discriminate|reflexivity].
  - inversion Hy'.
Qed.
(** The other calls leave the readable bytes as they are. *)
Lemma others_keep h c x a c' : mthistory cx true fuel (mt_init cx sn sp dst cf) h c -> mtcall_ok x -> (forall rng now ops fin, x <> YProcess rng now ops fin) ->
  any_bus (mtcall_run cx true fuel c x) (Done (a, c')) -> readable (mt_tls c') = readable (mt_tls c).
Proof using CX CF.
  intros Hh Hx Nx H. destruct (history_did cx true fuel cf CX CF sn sp dst h c Hh) as (th & T1 & _ & _ & T4 & T5 & _).
  assert (is_u16 (mt_pkt_id (mt_next_pkt_id c))) as Hu.
  { unfold is_u16, mt_next_pkt_id. cbn [mt_pkt_id]. destruct (Z.ltb_spec (mt_pkt_id c + 1) 65536); lia. }
  assert (forall A c1 p (v : A) r, (forall q, p = Some q -> calls_all wr_call q) -> mt_tls c1 = mt_tls c -> any_bus (mt_send cx c1 p v) (Done (r, c')) -> readable (mt_tls c') = readable (mt_tls c)) as G.
  { intros A c1 p v r Hp E X. apply (send_step cx true fuel) in X; [|exact Hp]. destruct X as (_ & _ & Erx & _). unfold readable, tls_reader. now rewrite Erx, E. }
  destruct x as [rng now ops fin|t p|f|f|i]; cbn [mtcall_ok] in Hx; cbn [mtcall_run] in H.
  - now contradiction (Nx rng now ops fin).
  - apply any_bind in H as ((r, c1) & H & E). apply any_ret in E. injection E as <- <-. unfold mt_publish in H. eapply G; [|reflexivity|exact H]. intros q E. injection E as <-. apply publish_calls; tauto.
  - apply any_bind in H as ((r, c1) & H & E). apply any_ret in E. injection E as <- <-. unfold mt_subscribe in H. cbv zeta in H. destruct (_ =? 0); (eapply (G _ (mt_next_pkt_id c)); [|reflexivity|exact H]); [discriminate|]. intros q E. injection E as <-. now apply subscribe_calls.
  - apply any_bind in H as ((r, c1) & H & E). apply any_ret in E. injection E as <- <-. unfold mt_unsubscribe in H. cbv zeta in H. destruct (_ =? 0); (eapply (G _ (mt_next_pkt_id c)); [|reflexivity|exact H]); [discriminate|]. intros q E. injection E as <-. now apply unsubscribe_calls.
  - apply any_ret in H. injection H as <- <-. reflexivity.
Qed.
End Auth.
