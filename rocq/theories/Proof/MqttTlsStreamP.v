(** A stream of packets for the MQTT client over TLS, received in records cut anywhere. *)
From Verif Require Import Model.Prelude Model.Bus Model.Chip Model.Specifiers Model.HlIo Model.Stream Spec.Hoare Spec.Sock Spec.TcpClient Spec.Cursor Spec.TlsSecrets Spec.TlsProtect.
From Verif Require Import Model.Mqtt Spec.MqttMsg Spec.MqttStream Proof.MqttRecvP Proof.MqttStuckP.
From Verif Require Import Proof.Base Proof.ChipP Proof.SockP Proof.TcpP Proof.TlsBufP Proof.TlsWireP Proof.TlsRxP Proof.TlsRx3P Proof.TlsRx5P Proof.MqttTlsRxP Proof.MqttTlsMainP Proof.TlsStreamP.
From Verif Require Proof.MqttStreamP.
From Verif Require Import Model.TlsTypes Model.TlsBuf Model.TlsKeys Model.TlsRecord Model.TlsClient Model.MqttTls Spec.TlsQueue Spec.TlsSession Spec.TlsWire Spec.TlsAuth Spec.TlsRx Spec.TlsStream Spec.MqttTlsMsg Spec.MqttTlsStream.
Ltac Zify.zify_post_hook ::= idtac.
Local Open Scope list_scope.

(** ** One call of the TLS client *)
Section Tls.
Context (cx : Crypto) (f : Z * Z) (sn : Sn) (dbg : bool) (room size : Z) (rd tx ad : list Z) (t : list Z) (seq : Z) (datas : list (list Z)).
Hypothesis CX : crypto_ok cx.
Notation n := (snz sn).
Hypotheses (Hseq : 0 <= seq) (Hend : seq + zlen datas < 2 ^ 64 - 1) (Bd : Forall bytes_ok datas) (Ld : Forall (fun d => zlen d <= room) datas) (Hr : 0 <= room <= size - 39).
Notation rs := (record_stream cx t seq).
(** After [j] records. *)
Definition after (j : nat) (c : TlsClient) (ad1 : list Z) (s : sock) : Prop := (j <= length datas)%nat /\ streaming sn c t (seq + Z.of_nat j) ad1 size /\
  exists b w, wn f s (rd ++ rs (firstn j datas)) tx b b w.
Lemma next_record j d later : skipn j datas = d :: later -> (j < length datas)%nat /\ bytes_ok d /\ zlen d <= room /\
  rs datas = rs (firstn j datas) ++ protected_record cx t (seq + Z.of_nat j) 23 d ++ record_stream cx t (seq + Z.of_nat j + 1) later.
Proof using Bd Ld.
  intros Ej. assert (length (skipn j datas) <> 0)%nat as N by (rewrite Ej; discriminate). rewrite skipn_length in N.
  assert (In d datas) as Hin by (rewrite <- (firstn_skipn j datas), Ej; apply in_or_app; right; now left).
  split; [lia|]. split; [exact (proj1 (Forall_forall _ _) Bd d Hin)|]. split; [exact (proj1 (Forall_forall _ _) Ld d Hin)|].
  rewrite <- (firstn_skipn j datas) at 1. rewrite Ej, TlsStreamP.stream_app. replace (zlen (firstn j datas)) with (Z.of_nat j) by (unfold zlen; rewrite firstn_length; lia). reflexivity.
Qed.
Lemma tls_call j c1 ad1 ch1 fuel rng now sch r c2 sch' ch2 missing : after j c1 ad1 (c_sock ch1 n) -> zlen ad1 + room + 2 <= size -> no_faults sch -> no_link_change (seen_ir sch ch1 n) ->
  run (tls_process cx dbg fuel c1 rng now) sch ch1 = (Done (r, c2), sch', ch2) -> s_rxlog (c_sock ch2 n) ++ missing = rd ++ rs datas ->
  exists j' ad2, after j' c2 ad2 (c_sock ch2 n) /\ (r = Ok TApplicationData \/ r = Ok TNone) /\ (j <= j' <= j + 1)%nat /\
    (s_rxlog (c_sock ch1 n) = rd ++ rs datas -> j' = j -> j = length datas) /\
    forall x, x ++ ad1 = ad ++ concat (firstn j datas) -> x ++ ad2 = ad ++ concat (firstn j' datas).
Proof using All.
  intros (Lj & S1 & b & w & W) Room Hf Hn Ru L. pose proof (wn_prefix f _ _ _ _ _ [] w W) as W0.
  assert (0 <= seq + Z.of_nat j < 2 ^ 64 - 1) as Hs by (unfold zlen in Hend; lia).
  destruct (skipn j datas) as [|d later] eqn:Ej.
  - assert (j = length datas) as ->. { assert (length (skipn j datas) = 0)%nat as N by now rewrite Ej. rewrite skipn_length in N. lia. }
    rewrite firstn_all in *.
    pose proof (stream_call cx f sn dbg CX c1 rng now ch1 fuel _ tx b t _ ad1 size [] [] S1 Hs ltac:(constructor) ltac:(change (zlen (@nil Z)) with 0; lia) ltac:(change (zlen (@nil Z)) with 0; lia) W0 sch Hf Hn) as X.
    rewrite Ru in X. destruct X as [(-> & -> & b' & w' & W')|(-> & S2 & b' & w' & W')].
    + eexists. rewrite app_assoc. rewrite L. rewrite <- !app_assoc. reflexivity.
    + exists (length datas), ad1. split; [split; [lia|]; split; [exact S1|]; exists b', w'; rewrite firstn_all; exact W'|]. split; [now right|]. split; [lia|]. split; [auto|]. now rewrite firstn_all.
    + exfalso. destruct (wn_log _ _ _ _ _ _ _ W') as (rest & Lg). rewrite Lg, <- !app_assoc in L. apply app_inv_head in L. rewrite <- (app_nil_r (rs datas)) in L at 2. apply app_inv_head in L. apply app_eq_nil in L. destruct L as (L & _).
      unfold protected_record, sealed_record in L. cbv zeta in L. discriminate L.
  - destruct (next_record j d later Ej) as (Lt & B & Lr & Es).
    pose proof (stream_call cx f sn dbg CX c1 rng now ch1 fuel _ tx b t _ ad1 size d (record_stream cx t (seq + Z.of_nat j + 1) later) S1 Hs B ltac:(lia) ltac:(lia) W0 sch Hf Hn) as X.
    rewrite Ru in X. destruct X as [(-> & -> & b' & w' & W')|(-> & S2 & b' & w' & W')].
    + exists missing. rewrite <- app_assoc, <- Es. exact L.
    + exists j, ad1. split; [split; [lia|]; split; [exact S1|]; exists b', w'; exact W'|]. split; [now right|]. split; [lia|]. split; [|auto].
      intros L1 _. exfalso. pose proof (wn_view _ _ _ _ _ _ W) as V1. pose proof (view_log _ _ _ V1) as G1. pose proof S1 as (Q1 & Q2 & Q3 & Q4 & Q5 & Hh1 & Q7).
      destruct (TlsRx5P.delivered cx dbg fuel c1 rng now ch1 (rd ++ rs (firstn j datas)) tx ad1 CX t (seq + Z.of_nat j) d) with (sch := sch) as (x & sx & cx' & Rx & c3 & -> & _); auto.
      * split; [exact Q4|]. split; [exact Q5|]. exact Hs.
      * lia.
      * lia.
      * unfold arrived. cbv zeta. rewrite Q1. split; [exact V1|]. split; [apply W|]. eexists. rewrite L1, Es, <- app_assoc in G1. do 2 apply app_inv_head in G1. symmetry. exact G1.
      * now rewrite Q1.
      * rewrite Ru in Rx. discriminate.
    + exists (j + 1)%nat, (ad1 ++ d). split; [|split; [now left|]; split; [lia|]; split; [lia|]].
      * split; [lia|]. split; [replace (seq + Z.of_nat (j + 1)) with (seq + Z.of_nat j + 1) by lia; exact S2|]. exists b', w'.
        rewrite (firstn_snoc j datas d later Ej), TlsStreamP.stream_app. cbn [record_stream]. rewrite app_nil_r. replace (zlen (firstn j datas)) with (Z.of_nat j) by (unfold zlen; rewrite firstn_length; lia). rewrite app_assoc. exact W'.
      * intros x E. rewrite (firstn_snoc j datas d later Ej), concat_app. cbn [concat]. rewrite app_nil_r, !app_assoc. f_equal. exact E.
Qed.
End Tls.

(** ** What the MQTT client makes of the buffer *)
Lemma waits_none st now : st_timeout st = None -> mt_waits st now (Ok SeenNone) st.
Proof. intros E. unfold mt_waits. rewrite E. auto. Qed.
Lemma first_reaction st now ops w missing ms : st_timeout st = None -> Forall message_ok ms -> w ++ missing = message_stream ms ->
  (exists m later more, ms = m :: later /\ w = message_bytes m ++ more /\ more ++ missing = message_stream later /\ reaction st now ops true w (mt_tells m ops) more st) \/
  (reaction st now ops true w (WProcess (Ok SeenNone) [] (Ok tt)) w st /\ (missing = [] -> ms = []) /\ forall m later, ms = m :: later -> exists mi, w ++ mi = message_bytes m /\ mi <> []).
Proof.
  intros Ht H E. destruct ms as [|m later].
  - right. apply app_eq_nil in E. destruct E as (-> & ->). split; [|split; [auto|discriminate]].
    apply (ReactIncomplete st now ops true [] 13 0 [] (mpacket 13 0 [])); [reflexivity|discriminate|lia|lia|cbn; lia|now apply waits_none].
  - apply Forall_cons_iff in H. destruct H as (Hm & _). unfold message_stream in E. cbn [map concat] in E. fold (message_stream later) in E.
    destruct (prefix_app _ _ _ _ E) as [(mi & Y & Hne)|(more & -> & Y)].
    + right. pose proof (MqttStreamP.msg_wire m Hm) as (Wt & Wf & Wl). split; [|split].
      * apply (ReactIncomplete st now ops true w (MqttStreamP.msg_type m) (MqttStreamP.msg_flags m) (MqttStreamP.msg_body m) mi); auto; [now rewrite <- MqttStreamP.msg_packet|now apply waits_none].
      * intros ->. exfalso. rewrite app_nil_r in E. rewrite E, <- app_assoc in Y. rewrite <- (app_nil_r (message_bytes m)) in Y at 2. apply app_inv_head in Y. apply app_eq_nil in Y. tauto.
      * intros m' later' X. injection X as <- _. eauto.
    + left. exists m, later, more. split; [reflexivity|]. split; [reflexivity|]. split; [exact Y|].
      destruct Hm as (_ & _ & Hm). destruct m as [retain topic props payload|id props code|id props code]; cbn [mt_tells message_bytes].
      * now apply (ReactPublish st now ops true _ retain topic props payload more).
      * destruct Hm as (Hi & Hp & Hc). destruct (meaning suback_codes code) as [r|] eqn:M; [|contradiction]. now apply (ReactSuback st now ops true _ id props code more r).
      * destruct Hm as (Hi & Hp & Hc). destruct (meaning unsuback_codes code) as [r|] eqn:M; [|contradiction]. now apply (ReactUnsuback st now ops true _ id props code more r).
Qed.
Lemma tells_some m ops : message_ok m -> mt_nothing (mt_tells m ops) = false.
Proof.
  intros (_ & _ & H). destruct m as [r t p l|i p c|i p c]; cbn [mt_tells]; [reflexivity| |]; destruct H as (_ & _ & H); destruct (meaning _ _); (reflexivity || contradiction).
Qed.

(** The memory of the buffer stays. *)
Definition same_buf (c c' : MqttTls) : Prop := b_buf (tc_rx (mt_tls c')) = b_buf (tc_rx (mt_tls c)).
Lemma lift_run {A B} (x : tres A) (k : A -> prog B) sch ch b sch' ch' : run (lift x k) sch ch = (Done b, sch', ch') -> exists a, x = TOk a /\ run (k a) sch ch = (Done b, sch', ch').
Proof. destruct x; cbn [lift run]; try discriminate. eauto. Qed.
Lemma timeout_buf c now sch ch r c' sch' ch' : run (mt_timeout c now) sch ch = (Done (r, c'), sch', ch') -> same_buf c c'.
Proof. unfold mt_timeout. destruct (st_elapsed (mt_st c) now) as [[e|]|]; [destruct (TIMEOUT_SECS <? e)| |]; cbn [run]; intros E; (discriminate E || injection E as _ <- _ _; reflexivity). Qed.
Lemma rx_buf c now sch ch r c' sch' ch' : run (mt_rx c now) sch ch = (Done (r, c'), sch', ch') -> same_buf c c'.
Proof.
  unfold mt_rx. destruct (tls_reader (mt_tls c)) as [reader|]; [|apply timeout_buf]. intros E. apply lift_run in E. destruct E as (x & _ & E).
  destruct (fst x) as [|e init|s rr|tl ti pl pi]; [now apply timeout_buf in E| | |].
  - cbn [run] in E. injection E as _ <- _ _. destruct init; reflexivity.
  - cbv zeta in E. destruct rr as [[a|]|e].
    + cbn [run] in E. injection E as _ <- _ _. destruct s; reflexivity.
    + apply timeout_buf in E. unfold same_buf in *. rewrite E. destruct s; reflexivity.
    + cbn [run] in E. injection E as _ <- _ _. destruct s; reflexivity.
  - cbn [run] in E. injection E as _ <- _ _. reflexivity.
Qed.
Lemma after_buf ops fin r c sch ch a c' sch' ch' : run (after_process ops fin (r, c)) sch ch = (Done (a, c'), sch', ch') -> same_buf c c'.
Proof.
  destruct r as [[k|p|b|]|e]; cbn [after_process]; try (cbn [run]; intros E; injection E as _ <- _ _; reflexivity).
  intros E. apply lift_run in E. destruct E as (z & _ & E). destruct fin; [|cbn [run] in E; injection E as _ <- _ _; reflexivity].
  apply lift_run in E. destruct E as (d & Ed & E). cbn [run] in E. injection E as _ <- _ _. unfold tp_done in Ed.
  destruct (65536 <=? _); [discriminate|]. destruct (on_circle _ _) as [y| | |]; cbn [tbind] in Ed; try discriminate. destruct (mq_err (fst y)) as [[u|e]|]; try discriminate; injection Ed as <-; reflexivity.
Qed.

(** ** Histories *)
Section History.
Context (cx : Crypto) (dbg : bool) (room : Z) (c : MqttTls) (ch : chip) (rd tx ad : list Z) (t : list Z) (seq : Z) (datas : list (list Z)) (ms : list message).
Hypothesis CX : crypto_ok cx.
Notation sn := (tc_sn (mt_tls c)).
Notation n := (snz (tc_sn (mt_tls c))).
Notation size := (buffer_size (mt_tls c)).
Let f := (free_space (c_sock ch n), rx_size (c_sock ch n)).
Hypotheses (L0 : mt_listens c t seq ad) (Hend : seq + zlen datas < 2 ^ 64 - 1) (Bd : Forall bytes_ok datas) (Ld : Forall (fun d => zlen d <= room) datas) (Hr : 0 <= room <= size - 39).
Hypothesis V0 : tcp_view (c_sock ch n) rd tx /\ tx_bytes (c_sock ch n).
Hypotheses (Hms : Forall message_ok ms) (Ems : ad ++ concat datas = message_stream ms).
Notation rs := (record_stream cx t seq).

Lemma polls_longer ok l c' ch' : mt_polls cx dbg ok c ch l c' ch' -> chip_longer ch ch'.
Proof. induction 1; [apply chip_longer_refl|]. eapply chip_longer_trans; [eassumption|eapply run_longer; eassumption]. Qed.

Definition reached (l : list (list pub_op * mtans)) (c' : MqttTls) (ch' : chip) (j : nat) (ad' : list Z) : Prop :=
  let k := length (mt_news l) in (k <= length ms)%nat /\ Forall2 (fun p m => snd p = mt_tells m (fst p)) (mt_news l) (firstn k ms) /\
  after cx f sn size rd tx t seq datas j (mt_tls c') ad' (c_sock ch' n) /\ message_stream (firstn k ms) ++ ad' = ad ++ concat (firstn j datas) /\ mt_st c' = mt_st c.
(** When everything was there at the start, each call takes a record or tells of a packet. *)
Definition progress (l : list (list pub_op * mtans)) (j : nat) : Prop :=
  s_rxlog (c_sock ch n) = rd ++ rs datas -> (length l <= j + length (mt_news l))%nat \/ length (mt_news l) = length ms.

Lemma reached_nil : reached [] c ch 0 ad.
Proof using V0 L0.
  destruct V0 as (V & B). destruct L0 as (_ & _ & (R1 & R2 & _) & Hst & Hto & Hh). unfold reached. cbv zeta. cbn [mt_news filter length firstn concat]. split; [lia|]. split; [constructor|]. split; [|split; [now rewrite app_nil_r|reflexivity]].
  split; [lia|]. split; [change (Z.of_nat 0) with 0; rewrite Z.add_0_r; unfold streaming; auto 10|].
  exists (s_rx_base (c_sock ch n)), (unread (c_sock ch n)). cbn [firstn record_stream]. rewrite app_nil_r. apply (view_wn f _ rd tx (unread (c_sock ch n)) [] V B); [cbn; lia|reflexivity|now rewrite app_nil_r].
Qed.
Lemma reached_step l c1 ch1 j ad1 fuel rng now ops sch a sch' c2 ch2 missing : reached l c1 ch1 j ad1 -> zlen ad1 + room + 2 <= size -> Forall pub_op_ok ops ->
  no_faults sch -> no_link_change (seen_ir sch ch1 n) -> run (mtcall_run cx dbg fuel c1 (YProcess rng now ops true)) sch ch1 = (Done (a, c2), sch', ch2) ->
  s_rxlog (c_sock ch2 n) ++ missing = rd ++ rs datas ->
  exists j' ad2, reached (l ++ [(ops, a)]) c2 ch2 j' ad2 /\ (j <= j' <= j + 1)%nat /\
    (length (mt_news (l ++ [(ops, a)])) = S (length (mt_news l)) \/ length (mt_news (l ++ [(ops, a)])) = length (mt_news l) /\
       forall m later, skipn (length (mt_news l)) ms = m :: later -> exists mi, ad2 ++ mi = message_bytes m /\ mi <> [])%nat /\
    (s_rxlog (c_sock ch1 n) = rd ++ rs datas -> j' = j -> (length (mt_news (l ++ [(ops, a)])) = S (length (mt_news l)) \/ length (mt_news (l ++ [(ops, a)])) = length ms)%nat).
Proof using All.
  intros (Hk & F & A1 & E1 & Est) Room Ho Hs HP Ru L. cbv zeta in *. set (k := length (mt_news l)) in *.
  pose proof Ru as Ru0. change (mtcall_run cx dbg fuel c1 (YProcess rng now ops true)) with (bind (mt_process cx dbg fuel c1 rng now) (after_process ops true)) in Ru0.
  apply MqttStreamP.run_split in Ru0. destruct Ru0 as (y & sch1 & ch1' & Ra & Rb). unfold mt_process in Ra. apply MqttStreamP.run_split in Ra. destruct Ra as ((r, tls) & sch2 & ch2' & Rt & Rc).
  destruct (MqttStreamP.log_before _ _ _ _ (run_longer _ _ _ _ _ _ Rb n) L) as (mi & L1). destruct (MqttStreamP.log_before _ _ _ _ (run_longer _ _ _ _ _ _ Rc n) L1) as (mi2 & L2).
  destruct L0 as (_ & Hto & (_ & _ & Hq) & _).
  destruct (tls_call cx f sn dbg room size rd tx ad t seq datas CX ltac:(lia) Hend Bd Ld Hr j (mt_tls c1) ad1 ch1 fuel rng now sch r tls sch2 ch2' mi2 A1 Room Hs HP Rt L2) as (j' & ad2 & A2 & Hr2 & Lj & Pr & Ea).
  specialize (Ea _ E1).
  assert (exists e, r = Ok e /\ (e = TApplicationData \/ e = TNone)) as (e & -> & He) by (destruct Hr2 as [-> | ->]; eauto).
  assert (ad2 ++ concat (skipn j' datas) = message_stream (skipn k ms)) as Ew.
  { apply (app_inv_head (message_stream (firstn k ms))). rewrite <- MqttStreamP.stream_app, firstn_skipn, app_assoc, Ea, <- app_assoc, <- concat_app, firstn_skipn. exact Ems. }
  pose proof A2 as (Lj2 & S2 & W2). pose proof S2 as (Q1 & Q2 & Q3 & Q4 & Q5 & Hh2 & Q7).
  assert (Forall message_ok (skipn k ms)) as Hms2 by (pose proof Hms as X; rewrite <- (firstn_skipn k ms) in X; apply Forall_app in X; apply X).
  assert (forall a0 w', reaction (mt_st c1) now ops true ad2 a0 w' (mt_st c1) -> a = a0 /\ mt_st c2 = mt_st c1 /\ ch2 = ch2' /\ exists rx, buffer_holds rx w' [] /\ mt_tls c2 = tc_set_rx tls rx) as K.
  { intros a0 w' R. destruct (then_rx cx dbg fuel c1 rng now ops true sch ch1 e tls sch2 ch2' ad2 [] a0 w' (mt_st c1) Rt He Hh2 Ho R) as (rx & Hrx & E). rewrite Ru in E. injection E as -> -> _ ->. cbn [mt_st mt_tls]. eauto 10. }
  assert (forall rx, mt_tls c2 = tc_set_rx tls rx -> b_N rx = b_N (tc_rx tls)) as Kb.
  { intros rx Et. destruct y as (r2, c2'). apply after_buf in Rb. assert (same_buf (mt_put c1 tls) c2') as X by (destruct He as [-> | ->]; now apply rx_buf in Rc).
    unfold same_buf in *. rewrite X, Et in Rb. cbn [tc_rx tc_set_rx mt_tls mt_put] in Rb. unfold b_N. now rewrite Rb. }
  assert (forall rx w', buffer_holds rx w' [] -> b_N rx = b_N (tc_rx tls) -> after cx f sn size rd tx t seq datas j' (tc_set_rx tls rx) w' (c_sock ch2' n)) as K2.
  { intros rx w' Hrx EN. split; [exact Lj2|]. split; [|exact W2]. split; [exact Q1|]. split; [exact Q2|]. split; [exact Q3|]. split; [exact Q4|]. split; [exact Q5|]. split; [exact Hrx|]. unfold b_N, buffer_size in *. cbn [tc_rx tc_set_rx]. congruence. }
  exists j'. assert (mt_news (l ++ [(ops, a)]) = mt_news l ++ if mt_nothing a then [] else [(ops, a)]) as En by (unfold mt_news; rewrite filter_app; cbn [filter snd]; destruct (mt_nothing a); reflexivity).
  unfold reached. cbv zeta. rewrite En, app_length.
  destruct (first_reaction (mt_st c1) now ops ad2 (concat (skipn j' datas)) (skipn k ms) ltac:(rewrite Est; exact Hto) Hms2 Ew) as [(m & later & more & Ek & Ew2 & Em & R)|(R & Hnone & Hpart)].
  - destruct (K _ _ R) as (-> & Es & -> & rx & Hrx & Et). rewrite Et. exists more.
    assert (message_ok m) as Hm by (rewrite Ek in Hms2; now inversion Hms2). rewrite (tells_some m ops Hm). cbn [length]. fold k.
    assert (length (skipn k ms) <> 0)%nat as N by (rewrite Ek; discriminate). rewrite skipn_length in N.
    split; [|split; [exact Lj|]; split; [left; lia|]; intros _ _; left; lia].
    split; [lia|]. rewrite (firstn_snoc k ms m later Ek). split; [apply Forall2_app; [exact F|constructor; [reflexivity|constructor]]|].
    split; [|split; [|congruence]].
    + apply K2; [exact Hrx|]. exact (Kb rx Et).
    + rewrite MqttStreamP.stream_app. unfold message_stream at 2. cbn [map concat]. rewrite app_nil_r, <- app_assoc, <- Ew2. exact Ea.
  - destruct (K _ _ R) as (-> & Es & -> & rx & Hrx & Et). rewrite Et. exists ad2. cbn [mt_nothing length]. rewrite app_nil_r, Nat.add_0_r. fold k.
    split; [|split; [exact Lj|]; split; [right; split; [reflexivity|exact Hpart]|]].
    + split; [exact Hk|]. split; [exact F|]. split; [apply K2; [exact Hrx|]; exact (Kb rx Et)|]. split; [exact Ea|congruence].
    + intros G1 Ej. right. specialize (Pr G1 Ej). rewrite Ej, Pr, skipn_all in Hnone. specialize (Hnone eq_refl). assert (length (skipn k ms) = 0)%nat as N by now rewrite Hnone. rewrite skipn_length in N. lia.
Qed.
Lemma reached_readable l c1 ch1 j ad1 : reached l c1 ch1 j ad1 -> readable (mt_tls c1) = ad1.
Proof. intros (_ & _ & (_ & (_ & _ & _ & _ & _ & H & _) & _) & _). now apply holds_readable. Qed.
Lemma stream_inj (l : list message) j k : message_stream (firstn j l) = message_stream (firstn k l) -> (j <= length l)%nat -> (k <= length l)%nat -> k = j.
Proof using Type.
  revert j k. induction l as [|m l IH]; intros j k E Hj Hk; [cbn in *; lia|].
  destruct j as [|j]; destruct k as [|k]; [reflexivity| | |]; unfold message_stream in E; cbn [firstn map concat] in E.
  - symmetry in E. apply app_eq_nil in E. destruct E as (E & _). now apply MqttStreamP.msg_ne in E.
  - apply app_eq_nil in E. destruct E as (E & _). now apply MqttStreamP.msg_ne in E.
  - apply app_inv_head in E. f_equal. apply IH; [exact E|cbn in *; lia|cbn in *; lia].
Qed.
Lemma progress_step l c1 ch1 j x j' : chip_longer ch ch1 -> (exists missing, s_rxlog (c_sock ch1 n) ++ missing = rd ++ rs datas) -> progress l j -> (length (mt_news l) <= length ms)%nat -> (j <= j')%nat ->
  (length (mt_news (l ++ [x])) <= length ms)%nat ->
  (s_rxlog (c_sock ch1 n) = rd ++ rs datas -> j' = j -> (length (mt_news (l ++ [x])) = S (length (mt_news l)) \/ length (mt_news (l ++ [x])) = length ms)%nat) -> reached l c1 ch1 j (readable (mt_tls c1)) -> progress (l ++ [x]) j'.
Proof using Type.
  intros Lg (mi & L1) P Hk Lj Hk2 Step _ G. specialize (P G).
  assert (s_rxlog (c_sock ch1 n) = rd ++ rs datas) as G1.
  { destruct (Lg n) as (new & _ & E). rewrite E, G, <- app_assoc in L1. rewrite <- (app_nil_r (rd ++ rs datas)) in L1 at 2. apply app_inv_head in L1. apply app_eq_nil in L1. destruct L1 as (-> & _). now rewrite E, G, app_nil_r. }
  assert (length (mt_news l) <= length (mt_news (l ++ [x])))%nat as Mono by (unfold mt_news; rewrite filter_app, app_length; lia).
  rewrite app_length. cbn [length]. destruct P as [P|P]; [|right; lia].
  destruct (Nat.eq_dec j' j) as [E|N]; [|left; lia]. destruct (Step G1 E) as [X|X]; [left; lia|now right].
Qed.
Lemma polls_inv l c' ch' missing : mt_polls cx dbg (roomy room size) c ch l c' ch' -> s_rxlog (c_sock ch' n) ++ missing = rd ++ rs datas ->
  exists j ad', reached l c' ch' j ad' /\ progress l j.
Proof using All.
  intros P. revert missing. induction P as [|l c1 ch1 fuel rng now ops sch a sch' c2 ch2 P IH Hok Ho Hs HP Ru]; intros missing L.
  - exists 0%nat, ad. split; [exact reached_nil|]. intros _. left. cbn. lia.
  - destruct (MqttStreamP.log_before _ _ _ _ (run_longer _ _ _ _ _ _ Ru n) L) as (mi & L1). destruct (IH mi L1) as (j & ad1 & R1 & P1). pose proof (reached_readable _ _ _ _ _ R1) as Er.
    unfold roomy in Hok. rewrite Er in Hok.
    destruct (reached_step l c1 ch1 j ad1 fuel rng now ops sch a sch' c2 ch2 missing R1 Hok Ho Hs HP Ru L) as (j' & ad2 & R2 & Lj & _ & St). exists j', ad2. split; [exact R2|].
    apply (progress_step l c1 ch1 j (ops, a) j' (polls_longer _ _ _ _ P)); auto; [now exists mi|apply R1|lia|apply R2|now rewrite Er].
Qed.
(** One record for each packet. *)
Lemma snug_inv l c' ch' missing : ad = [] -> datas = map message_bytes ms -> mt_polls cx dbg (fun _ => True) c ch l c' ch' -> s_rxlog (c_sock ch' n) ++ missing = rd ++ rs datas ->
  mt_polls cx dbg (roomy room size) c ch l c' ch' /\ reached l c' ch' (length (mt_news l)) [] /\
  (s_rxlog (c_sock ch n) = rd ++ rs datas -> (length l <= length (mt_news l))%nat \/ length (mt_news l) = length ms).
Proof using All.
  intros Ead Edt P. revert missing. induction P as [|l c1 ch1 fuel rng now ops sch a sch' c2 ch2 P IH _ Ho Hs HP Ru]; intros missing L.
  - split; [constructor|]. split; [pose proof reached_nil as R; rewrite Ead in R; exact R|]. intros _. left. cbn. lia.
  - destruct (MqttStreamP.log_before _ _ _ _ (run_longer _ _ _ _ _ _ Ru n) L) as (mi & L1). destruct (IH mi L1) as (P2 & R1 & P1). pose proof (reached_readable _ _ _ _ _ R1) as Er.
    assert (zlen (@nil Z) + room + 2 <= size) as Hok by (change (zlen (@nil Z)) with 0; lia).
    split; [eapply PlPoll with (6 := Ru); auto; unfold roomy; now rewrite Er|].
    destruct (reached_step l c1 ch1 _ [] fuel rng now ops sch a sch' c2 ch2 missing R1 Hok Ho Hs HP Ru L) as (j' & ad2 & R2 & Lj & Told & St).
    assert (ad2 = [] /\ j' = length (mt_news (l ++ [(ops, a)]))) as (-> & Ej).
    2:{ split; [now rewrite <- Ej|]. assert (length (mt_news (l ++ [(ops, a)])) <= length ms)%nat as Hk2 by apply R2.
      intros G.
      destruct (P1 G) as [P3|P3]; [|destruct Told as [T|(T & _)]; right; lia].
      destruct (Nat.eq_dec j' (length (mt_news l))) as [E|E]; [|left; rewrite app_length; cbn [length]; lia].
      assert (s_rxlog (c_sock ch1 n) = rd ++ rs datas) as G1.
      { destruct (polls_longer _ _ _ _ P n) as (new & _ & F). rewrite F, G, <- app_assoc in L1. rewrite <- (app_nil_r (rd ++ rs datas)) in L1 at 2. apply app_inv_head in L1. apply app_eq_nil in L1. destruct L1 as (-> & _). now rewrite F, G, app_nil_r. }
      destruct (St G1 E) as [Y|Y]; [left; rewrite app_length; cbn [length]; lia|now right]. }
    destruct R1 as (Hk & _ & (Lj1 & _) & E1 & _). destruct R2 as (Hk2 & _ & (Lj2 & _) & E2 & _). cbv zeta in *. rewrite Ead, Edt in *. rewrite !firstn_map in *. rewrite map_length in *. cbn [app] in *.
    change (concat (map message_bytes (firstn j' ms))) with (message_stream (firstn j' ms)) in E2.
    clear E1 St. set (k := length (mt_news l)) in *.
    destruct Told as [T|(T & Part)]; rewrite T in *.
    + assert (j' = k + 1 \/ j' = k)%nat as [-> | ->] by lia.
      * replace (S k) with (k + 1)%nat in E2 by lia. rewrite <- (app_nil_r (message_stream (firstn (k + 1) ms))) in E2 at 2. apply app_inv_head in E2. split; [exact E2|lia].
      * exfalso. assert (exists m later, skipn k ms = m :: later) as (m & later & Ek).
        { destruct (skipn k ms) as [|m later] eqn:Ek; [|eauto]. assert (length (skipn k ms) = 0)%nat as N by now rewrite Ek. rewrite skipn_length in N. lia. }
        replace (S k) with (k + 1)%nat in E2 by lia. rewrite (firstn_snoc k ms m later Ek), MqttStreamP.stream_app, <- app_assoc in E2. rewrite <- (app_nil_r (message_stream (firstn k ms))) in E2 at 2. apply app_inv_head in E2.
        unfold message_stream in E2. cbn [map concat] in E2. rewrite app_nil_r in E2. apply app_eq_nil in E2. destruct E2 as (E2 & _). now apply MqttStreamP.msg_ne in E2.
    + assert (j' = k + 1 \/ j' = k)%nat as [-> | ->] by lia.
      * exfalso. assert (exists m later, skipn k ms = m :: later) as (m & later & Ek).
        { destruct (skipn k ms) as [|m later] eqn:Ek; [|eauto]. assert (length (skipn k ms) = 0)%nat as N by now rewrite Ek. rewrite skipn_length in N. lia. }
        rewrite (firstn_snoc k ms m later Ek), MqttStreamP.stream_app in E2. apply app_inv_head in E2. unfold message_stream in E2. cbn [map concat] in E2. rewrite app_nil_r in E2.
        destruct (Part m later Ek) as (mi' & X & N). rewrite E2 in X. rewrite <- (app_nil_r (message_bytes m)) in X at 2. now apply app_inv_head in X.
      * rewrite <- (app_nil_r (message_stream (firstn k ms))) in E2 at 2. apply app_inv_head in E2. auto.
Qed.
End History.

Theorem streamed cx dbg room c ch rd tx ad t seq datas ms l c' ch' : crypto_ok cx -> mt_polls cx dbg (roomy room (buffer_size (mt_tls c))) c ch l c' ch' ->
  mt_listens c t seq ad -> seq + zlen datas < 2 ^ 64 - 1 -> Forall bytes_ok datas -> Forall (fun d => zlen d <= room) datas -> 0 <= room <= buffer_size (mt_tls c) - 39 ->
  tcp_view (c_sock ch (sn_raw (tc_sn (mt_tls c)))) rd tx -> tx_bytes (c_sock ch (sn_raw (tc_sn (mt_tls c)))) -> Forall message_ok ms -> ad ++ concat datas = message_stream ms ->
  receives ch' (mt_tls c) rd (record_stream cx t seq datas) ->
  let k := length (mt_news l) in (k <= length ms)%nat /\ Forall2 (fun p m => snd p = mt_tells m (fst p)) (mt_news l) (firstn k ms) /\
  (exists j, (j <= length datas)%nat /\ tcp_view (c_sock ch' (sn_raw (tc_sn (mt_tls c)))) (rd ++ record_stream cx t seq (firstn j datas)) tx /\
    mt_listens c' t (seq + Z.of_nat j) (readable (mt_tls c')) /\ message_stream (firstn k ms) ++ readable (mt_tls c') = ad ++ concat (firstn j datas)) /\
  tc_sn (mt_tls c') = tc_sn (mt_tls c) /\ buffer_size (mt_tls c') = buffer_size (mt_tls c) /\ tx_bytes (c_sock ch' (sn_raw (tc_sn (mt_tls c)))).
Proof.
  intros CX P L0 He Bd Ld Hr V B Hms Ems (missing & L) k.
  destruct (polls_inv cx dbg room c ch rd tx ad t seq datas ms CX L0 He Bd Ld Hr (conj V B) Hms Ems l c' ch' missing P L) as (j & ad' & R & _).
  pose proof (reached_readable _ _ _ _ _ _ _ _ _ _ _ _ _ _ _ R) as Er. rewrite Er.
  destruct R as (Hk & F & (Lj & S & b & w & W) & E & Est). pose proof S as (Q1 & Q2 & Q3 & Q4 & Q5 & Q6 & Q7). cbv zeta in *. fold k in Hk, F, E.
  split; [exact Hk|]. split; [exact F|]. split; [|split; [exact Q1|]; split; [exact Q7|apply W]].
  exists j. split; [exact Lj|]. split; [exact (wn_view _ _ _ _ _ _ W)|]. split; [|exact E].
  destruct L0 as (C1 & C2 & (_ & _ & Hq) & _). split; [unfold mt_is_connected in *; now rewrite Est|]. split; [now rewrite Est|]. split; [split; [exact Q4|]; split; [exact Q5|unfold zlen in He; lia]|]. auto.
Qed.
Theorem all_told cx dbg room c ch rd tx ad t seq datas ms l c' ch' : crypto_ok cx -> mt_polls cx dbg (roomy room (buffer_size (mt_tls c))) c ch l c' ch' ->
  mt_listens c t seq ad -> seq + zlen datas < 2 ^ 64 - 1 -> Forall bytes_ok datas -> Forall (fun d => zlen d <= room) datas -> 0 <= room <= buffer_size (mt_tls c) - 39 ->
  tcp_view (c_sock ch (sn_raw (tc_sn (mt_tls c)))) rd tx -> tx_bytes (c_sock ch (sn_raw (tc_sn (mt_tls c)))) -> Forall message_ok ms -> ad ++ concat datas = message_stream ms ->
  s_rxlog (c_sock ch (sn_raw (tc_sn (mt_tls c)))) = rd ++ record_stream cx t seq datas -> receives ch' (mt_tls c) rd (record_stream cx t seq datas) ->
  (length datas + length ms <= length l)%nat -> Forall2 (fun p m => snd p = mt_tells m (fst p)) (mt_news l) ms.
Proof.
  intros CX P L0 He Bd Ld Hr V B Hms Ems G (missing & L) Len.
  destruct (polls_inv cx dbg room c ch rd tx ad t seq datas ms CX L0 He Bd Ld Hr (conj V B) Hms Ems l c' ch' missing P L) as (j & ad' & R & Pr).
  destruct R as (Hk & F & (Lj & _) & _). cbv zeta in *. assert (length (mt_news l) = length ms) as E by (destruct (Pr G); lia). rewrite E, firstn_all in F. exact F.
Qed.
(** One record for each packet. *)
Theorem snug cx dbg c ch rd tx t seq ms l c' ch' : crypto_ok cx -> mt_polls cx dbg (fun _ => True) c ch l c' ch' -> mt_listens c t seq [] -> seq + zlen ms < 2 ^ 64 - 1 ->
  tcp_view (c_sock ch (sn_raw (tc_sn (mt_tls c)))) rd tx -> tx_bytes (c_sock ch (sn_raw (tc_sn (mt_tls c)))) -> Forall message_ok ms ->
  39 <= buffer_size (mt_tls c) -> Forall (fun m => zlen (message_bytes m) <= buffer_size (mt_tls c) - 39) ms -> receives ch' (mt_tls c) rd (record_stream cx t seq (map message_bytes ms)) ->
  let k := length (mt_news l) in (k <= length ms)%nat /\ Forall2 (fun p m => snd p = mt_tells m (fst p)) (mt_news l) (firstn k ms) /\
  tcp_view (c_sock ch' (sn_raw (tc_sn (mt_tls c)))) (rd ++ record_stream cx t seq (map message_bytes (firstn k ms))) tx /\ mt_listens c' t (seq + Z.of_nat k) [] /\
  (s_rxlog (c_sock ch (sn_raw (tc_sn (mt_tls c)))) = rd ++ record_stream cx t seq (map message_bytes ms) -> (length ms <= length l)%nat -> k = length ms).
Proof.
  intros CX P L0 He V B Hms Hb Hsz (missing & L) k.
  assert (Forall bytes_ok (map message_bytes ms)) as Bd by (apply Forall_map; eapply Forall_impl; [|exact Hms]; intros m H; apply H).
  destruct (snug_inv cx dbg (buffer_size (mt_tls c) - 39) c ch rd tx [] t seq (map message_bytes ms) ms CX L0 ltac:(unfold zlen in *; rewrite map_length; exact He) Bd ltac:(apply Forall_map; exact Hsz) ltac:(lia) (conj V B) Hms eq_refl l c' ch' missing eq_refl eq_refl P L) as (_ & R & Pr).
  fold k in R, Pr. destruct R as (Hk & F & (Lj & S & b & w & W) & E & Est). pose proof S as (Q1 & Q2 & Q3 & Q4 & Q5 & Q6 & Q7). cbv zeta in *. fold k in Hk, F.
  split; [exact Hk|]. split; [exact F|]. rewrite <- firstn_map. split; [exact (wn_view _ _ _ _ _ _ W)|]. split; [|intros G Len; destruct (Pr G); lia].
  destruct L0 as (C1 & C2 & (_ & _ & Hq) & _). split; [unfold mt_is_connected in *; now rewrite Est|]. split; [now rewrite Est|]. split; [split; [exact Q4|]; split; [exact Q5|unfold zlen in He; lia]|]. auto.
Qed.

(** ** The example *)
From Verif Require Import Spec.Cases Spec.TlsCases Spec.TlsTalk Spec.MqttTlsTalk Proof.TlsCaseP Proof.TlsTalkP Proof.MqttTlsCaseP.
Definition case_ms : list message := [MsgPublish false [97; 98] [] [1; 2; 3]; MsgSubAck 7 [] 0x87].
Definition case_datas : list (list Z) := Eval vm_compute in [ztake 3 (message_stream case_ms); zdrop 3 (message_stream case_ms)].
Definition case_records : list Z := Eval vm_compute in case_record mt_server_secret 1 23 (ztake 3 (message_stream case_ms)) ++ case_record mt_server_secret 2 23 (zdrop 3 (message_stream case_ms)).
Notation call c ops sch ch := (run (mtcall_run case_cx true 1 c (YProcess talk_rng 111 ops true)) sch ch).
Definition rest_arrives : list tick := [tick_of [EvRx (zdrop 10 case_records)]].
Definition case_ops : list pub_op := [PPayload 2; PTopic 9].
Lemma case_calls :
  match call case_mt_ready [] [] (case_conn (ztake 10 case_records)) with
  | (Done (a1, c1), _, ch1) =>
      match call c1 [] rest_arrives ch1 with
      | (Done (a2, c2), _, ch2) =>
          match call c2 case_ops [] ch2 with
          | (Done (a3, c3), _, ch3) =>
              match call c3 [] [] ch3 with
              | (Done (a4, c4), _, ch4) =>
                  a1 = WProcess (Ok SeenNone) [] (Ok tt) /\ a2 = WProcess (Ok SeenNone) [] (Ok tt) /\
                  a3 = WProcess (Ok (SeenPublish 2 3)) [Ok [1; 2]; Ok [97; 98]] (Ok tt) /\ a4 = WProcess (Ok (SeenAck (ASubAck 7 SA_NotAuthorized))) [] (Ok tt) /\
                  (seen_ir [] (case_conn (ztake 10 case_records)) 3 = 0 /\ seen_ir rest_arrives ch1 3 = 0 /\ seen_ir [] ch2 3 = 0 /\ seen_ir [] ch3 3 = 0) /\
                  s_rxlog (c_sock ch4 3) = case_records /\
                  (zlen (readable (mt_tls c1)) + 20 + 2 <= 1024 /\ zlen (readable (mt_tls c2)) + 20 + 2 <= 1024 /\ zlen (readable (mt_tls c3)) + 20 + 2 <= 1024)
              | _ => False
              end
          | _ => False
          end
      | _ => False
      end
  | _ => False
  end.
Proof. vm_compute. repeat split; discriminate. Qed.
Lemma case_polls : exists c' ch', mt_polls case_cx true (roomy 20 1024) case_mt_ready (case_conn (ztake 10 case_records))
    [([], WProcess (Ok SeenNone) [] (Ok tt)); ([], WProcess (Ok SeenNone) [] (Ok tt)); (case_ops, WProcess (Ok (SeenPublish 2 3)) [Ok [1; 2]; Ok [97; 98]] (Ok tt));
     ([], WProcess (Ok (SeenAck (ASubAck 7 SA_NotAuthorized))) [] (Ok tt))] c' ch' /\ s_rxlog (c_sock ch' 3) = case_records.
Proof.
  pose proof case_calls as H. assert (forall v, v = 0 -> no_link_change v) as NL by (intros v ->; split; [discriminate|split; discriminate]).
  destruct (call case_mt_ready [] [] (case_conn (ztake 10 case_records))) as [[[(a1, c1)| |] s1] ch1] eqn:E1; try contradiction.
  destruct (call c1 [] rest_arrives ch1) as [[[(a2, c2)| |] s2] ch2] eqn:E2; try contradiction.
  destruct (call c2 case_ops [] ch2) as [[[(a3, c3)| |] s3] ch3] eqn:E3; try contradiction.
  destruct (call c3 [] [] ch3) as [[[(a4, c4)| |] s4] ch4] eqn:E4; try contradiction.
  destruct H as (-> & -> & -> & -> & (I1 & I2 & I3 & I4) & L & R1 & R2 & R3). do 2 eexists. split; [|exact L].
  match goal with |- mt_polls _ _ _ _ _ [?x1; ?x2; ?x3; ?x4] _ _ => change [x1; x2; x3; x4] with (((([] ++ [x1]) ++ [x2]) ++ [x3]) ++ [x4]) end.
  eapply PlPoll with (6 := E4); [|exact R3|constructor|constructor|apply NL; exact I4].
  eapply PlPoll with (6 := E3); [|exact R2|repeat constructor; discriminate|constructor|apply NL; exact I3].
  eapply PlPoll with (6 := E2); [|exact R1|constructor|repeat constructor|apply NL; exact I2].
  eapply PlPoll with (6 := E1); [constructor|vm_compute; discriminate|constructor|constructor|apply NL; exact I1].
Qed.
Lemma case_ms_ok : Forall message_ok case_ms.
Proof.
  assert (forall l, forallb (fun b => (0 <=? b) && (b <? 256)) l = true -> bytes_ok l) as Bo.
  { intros l. rewrite forallb_forall. intros H. apply Forall_forall. intros x Hx. specialize (H x Hx). apply andb_prop in H. destruct H as (H1 & H2). apply Z.leb_le in H1. apply Z.ltb_lt in H2. unfold is_u8. lia. }
  repeat constructor; try (apply Bo; vm_compute; reflexivity); vm_compute; (discriminate || reflexivity).
Qed.
Lemma case_listens : mt_listens case_mt_ready mt_server_secret 1 [].
Proof. split; [reflexivity|]. split; [reflexivity|]. split; [exact mt_case_reads|]. split; [reflexivity|]. split; [reflexivity|exact mt_case_buffer]. Qed.
(** One record for each packet, all there at the start. *)
Definition snug_records : list Z := Eval vm_compute in concat (map (fun p => case_record mt_server_secret (fst p) 23 (message_bytes (snd p))) (combine [1; 2] case_ms)).
Lemma snug_calls :
  match call case_mt_ready case_ops [] (case_conn snug_records) with
  | (Done (a1, c1), _, ch1) =>
      match call c1 [] [] ch1 with
      | (Done (a2, c2), _, ch2) =>
          a1 = WProcess (Ok (SeenPublish 2 3)) [Ok [1; 2]; Ok [97; 98]] (Ok tt) /\ a2 = WProcess (Ok (SeenAck (ASubAck 7 SA_NotAuthorized))) [] (Ok tt) /\
          seen_ir [] (case_conn snug_records) 3 = 0 /\ seen_ir [] ch1 3 = 0 /\ s_rxlog (c_sock ch2 3) = snug_records
      | _ => False
      end
  | _ => False
  end.
Proof. vm_compute. repeat split. Qed.
Lemma snug_polls : exists c' ch', mt_polls case_cx true (fun _ => True) case_mt_ready (case_conn snug_records)
    [(case_ops, WProcess (Ok (SeenPublish 2 3)) [Ok [1; 2]; Ok [97; 98]] (Ok tt)); ([], WProcess (Ok (SeenAck (ASubAck 7 SA_NotAuthorized))) [] (Ok tt))] c' ch' /\ s_rxlog (c_sock ch' 3) = snug_records.
Proof.
  pose proof snug_calls as H. assert (forall v, v = 0 -> no_link_change v) as NL by (intros v ->; split; [discriminate|split; discriminate]).
  destruct (call case_mt_ready case_ops [] (case_conn snug_records)) as [[[(a1, c1)| |] s1] ch1] eqn:E1; try contradiction.
  destruct (call c1 [] [] ch1) as [[[(a2, c2)| |] s2] ch2] eqn:E2; try contradiction.
  destruct H as (-> & -> & I1 & I2 & L). do 2 eexists. split; [|exact L].
  match goal with |- mt_polls _ _ _ _ _ [?x1; ?x2] _ _ => change [x1; x2] with (([] ++ [x1]) ++ [x2]) end.
  eapply PlPoll with (6 := E2); [|exact I|constructor|constructor|apply NL; exact I2].
  eapply PlPoll with (6 := E1); [constructor|exact I|repeat constructor; discriminate|constructor|apply NL; exact I1].
Qed.
