(** An application that calls [process] of the MQTT client over TLS when it was asked to is never too late. *)
From Coq Require Import String.
From Verif Require Import Model.Prelude Model.Bus Model.Chip Model.Specifiers Model.Mqtt Model.TlsTypes Model.TlsBuf Model.TlsKeys Model.TlsRecord Model.TlsClient Model.MqttTls
  Spec.Hoare Spec.Sock Spec.TcpClient Spec.TlsSecrets Spec.TlsMessages Spec.MqttMsg Spec.TlsProtect Spec.TlsQueue Spec.TlsSession Spec.TlsWire Spec.TlsAuth Spec.TlsRx Spec.TlsStream Spec.TlsComplete Spec.TlsArrive
  Spec.MqttTlsMsg Spec.MqttTlsStream Spec.MqttTlsConnect Spec.MqttTlsPunctual.
From Verif Require Import Proof.Base Proof.ChipP Proof.LeafP Proof.MqttStuckP.
From Verif Require Proof.TlsPunctualP Proof.MqttTlsConnectP Proof.SockP.
Ltac Zify.zify_post_hook ::= idtac.
Local Open Scope list_scope.

Section Clock.
Variables (cx : Crypto) (dbg : bool) (fuel : nat).
Definition mt_clock (now k : Z) (c : MqttTls) : Prop := k <= 10 /\ (tc_timeout (mt_tls c) = Some (now + k - 10) \/ st_timeout (mt_st c) = Some (now + k - 10)).
Definition idle (c : MqttTls) : Prop := tc_state (mt_tls c) = TConnected \/ tc_timeout (mt_tls c) = None.
Definition ev_clocked (now : Z) (x : res mterr mtevent * MqttTls) : Prop :=
  match fst x with
  | Ok (TECallAfter k) => mt_clock now k (snd x)
  | Ok TENone => idle (snd x) /\ st_timeout (mt_st (snd x)) = None
  | _ => True
  end.
Lemma timeout_clocked c now : idle c -> leaves (mt_timeout c now) (ev_clocked now).
Proof.
  intros H. unfold mt_timeout, st_elapsed. destruct (st_timeout (mt_st c)) as [t|] eqn:E.
  - destruct (Z.ltb_spec now t) as [|L]; [exact I|]. unfold TIMEOUT_SECS. destruct (Z.ltb_spec 10 (now - t)); [exact I|]. cbn [leaves]. unfold ev_clocked, mt_clock. cbn [fst snd]. rewrite E.
    split; [lia|right; f_equal; lia].
  - cbn [leaves]. unfold ev_clocked. cbn [fst snd]. auto.
Qed.
Lemma rx_clocked c now : idle c -> leaves (mt_rx c now) (ev_clocked now).
Proof.
  intros H. unfold mt_rx. destruct (tls_reader (mt_tls c)) as [reader|]; [|now apply timeout_clocked].
  unfold lift. destruct (on_circle reader _) as [(e, r)|e| |]; try exact I. cbn [fst snd]. destruct e as [|e init|s a|tl ti pl pi]; try exact I; [now apply timeout_clocked|].
  destruct a as [[a|]|e]; try exact I. apply timeout_clocked. destruct s; exact H.
Qed.
Lemma send_leaves {A} c p (a : A) : leaves (mt_send cx c p a) (fun x => match fst x with Ok a' => a' = a | Err _ => True end).
Proof.
  unfold mt_send. apply leaves_seq. intros [w|e]; [|destruct (map_tls_writer_err e); exact I]. destruct p as [p|]; [|reflexivity].
  apply leaves_seq. intros x. destruct (mq_err (fst x)) as [[u|e]|]; try exact I. apply leaves_seq. intros ([u'|e], ks); [reflexivity|exact I].
Qed.
Lemma process_clocked c rng now : leaves (mt_process cx dbg fuel c rng now) (ev_clocked now).
Proof.
  unfold mt_process. apply leaves_bind. apply (leaves_mono _ _ _ (TlsPunctualP.process_clocked cx dbg fuel (mt_tls c) rng now)). intros (r, t) H. unfold TlsPunctualP.clocked in H. cbn [fst snd] in H.
  destruct r as [[k| | | |]|[al|al| | |st|]]; try exact I.
  - destruct H as (H1 & H2). cbn [leaves]. split; [exact H1|]. left. exact H2.
  - apply rx_clocked. left. exact H.
  - unfold mt_send_connect. apply leaves_bind. destruct (_ <? _); [exact I|]. apply leaves_bind. apply (leaves_mono _ _ _ (send_leaves _ _ _)). intros ([a|e], c2) E; [|exact I]. cbn [fst] in E. subst a.
    cbn [leaves]. split; [reflexivity|]. right. cbn. f_equal. unfold TIMEOUT_SECS. lia.
  - apply rx_clocked. right. exact H.
Qed.
Definition ans_clocked (now : Z) (x : mtans * MqttTls) : Prop :=
  match fst x with
  | WProcess (Ok (SeenCallAfter k)) _ _ => mt_clock now k (snd x)
  | WProcess (Ok SeenNone) _ _ => idle (snd x) /\ st_timeout (mt_st (snd x)) = None
  | _ => True
  end.
Lemma call_clocked c rng now ops : leaves (mtcall_run cx dbg fuel c (YProcess rng now ops true)) (ans_clocked now).
Proof.
  cbn [mtcall_run]. apply leaves_bind. apply (leaves_mono _ _ _ (process_clocked c rng now)). intros (r, c1) H. unfold ev_clocked in H. cbn [fst snd] in H.
  destruct r as [[k|p|a|]|e]; try exact I; try exact H. unfold lift. destruct (tp_run p ops) as [z|e| |]; try exact I. destruct (tp_done _ _) as [d|e| |]; exact I.
Qed.
End Clock.

Theorem mt_never_late cx dbg c ch rd tx dhs t0 hello extensions share key room flags props datas more since l c' ch' : crypto_ok cx -> greeted cx (mt_tls c) dhs t0 -> tc_timeout (mt_tls c) = Some since -> mt_st c = mkST MInit None -> client_id_ok c ->
  server_hello hello share -> cx_sec1 cx share = Some key -> bytes_ok hello -> zlen (hs_message 2 hello) <= buffer_size (mt_tls c) - 22 ->
  encrypted_extensions extensions -> bytes_ok extensions -> zlen (hs_message 8 extensions) <= buffer_size (mt_tls c) - 39 -> 80 + zlen (mt_connect_of c) <= tx_room ch (mt_tls c) ->
  tcp_view (c_sock ch (sn_raw (tc_sn (mt_tls c)))) rd tx -> tx_bytes (c_sock ch (sn_raw (tc_sn (mt_tls c)))) ->
  zlen datas < 2 ^ 64 - 1 -> Forall bytes_ok datas -> Forall (fun d => zlen d <= room) datas -> 0 <= room <= buffer_size (mt_tls c) - 39 ->
  zlen props < 125 -> concat datas = connack_packet flags 0 props ++ more ->
  let psk := tc_psk (mt_tls c) in let dhe := cx_dh cx dhs key in
  let server := derive cx (master_secret cx psk dhe) "s ap traffic" (upto_finished cx psk dhe t0 hello extensions) in
  mt_punctual cx dbg room since c ch l c' ch' -> receives ch' (mt_tls c) rd (concat (flight cx psk dhe t0 hello extensions) ++ record_stream cx server 0 datas) ->
  exists l1 l2 c1 ch1, map snd l = l1 ++ l2 /\ mt_asks cx dbg mt_handshaking c ch l1 c1 ch1 /\ mt_asks cx dbg (mt_awaiting room) c1 ch1 l2 c' ch' /\ (l2 = [] \/ tc_state (mt_tls c1) = TConnected).
Proof.
  intros CX G T0 S0 Id Hsh Hk Bh Lh Hee Be Le Room V B Hl Bd Ld Hr Hp Ed psk dhe server P Rv.
  set (first := (since, WProcess (Ok (SeenCallAfter 10)) [] (Ok tt))).
  assert ((exists l1 l2 c1 ch1, map snd l = l1 ++ l2 /\ mt_asks cx dbg mt_handshaking c ch l1 c1 ch1 /\ mt_asks cx dbg (mt_awaiting room) c1 ch1 l2 c' ch' /\ (l2 = [] \/ tc_state (mt_tls c1) = TConnected)) /\
    ans_clocked (fst (last l first)) (snd (last l first), c')) as (H & _); [|exact H].
  induction P as [|l c2 ch2 fuel rng now ops sch a sch' c3 ch3 P IH St Rm Asked Ops NF NL E].
  - split; [exists [], [], c, ch; repeat split; auto; constructor|]. cbn. split; [lia|left; rewrite T0; f_equal; lia].
  - pose proof (MqttTlsConnectP.longer_receives _ _ _ _ _ (run_longer _ _ _ _ _ _ E) Rv) as Rv2.
    destruct (IH Rv2) as ((l1 & l2 & c1 & ch1 & El & A1 & A2 & C1) & Cl).
    split; [|rewrite last_last; exact (TlsPunctualP.run_leaves _ _ (call_clocked cx dbg fuel c2 rng now ops) _ _ _ _ _ E)].
    pose proof (MqttTlsConnectP.longer_receives _ _ _ _ _ (MqttTlsConnectP.asks_longer _ _ _ _ _ _ _ _ A2) Rv2) as Rv1.
    destruct (MqttTlsConnectP.connects cx dbg c ch rd tx (record_stream cx server 0 datas) dhs t0 hello extensions share key l1 c1 ch1 CX G S0 Id Hsh Hk Bh Lh Hee Be Le Room V B A1 Rv1) as ((Esn1 & Ebs1 & _) & TB1 & Hc).
    rewrite map_app. cbn [map snd]. destruct Hc as [(k & Lk & Sg & Est & Fl & _)|((l0 & El1 & Fl) & (since1 & As) & _ & V1)].
    + assert (tc_state (mt_tls c1) <> TConnected) as Nc by (intros T; destruct k as [|[|[|k]]]; [| | |lia]; cbn [stage] in Sg; destruct Sg as (Sg & _); rewrite Sg in T; discriminate T).
      destruct C1 as [-> |C1]; [|contradiction]. rewrite app_nil_r in El. inversion A2 as [E2 E2' E2''|? ? ? ? ? ? ? ? ? ? ? ? ? ? ? ? ? ? X]; [|exfalso; exact (app_cons_not_nil _ _ _ (eq_sym X))]. subst c2 ch2. clear A2.
      exists (l1 ++ [a]), [], c3, ch3. split; [now rewrite El, app_nil_r|]. split; [|split; [constructor|now left]].
      eapply AkAsk with (6 := E); [exact A1| |exact Ops|exact NF|exact NL]. split; [exact Nc|].
      assert (mt_goes_on (snd (last l first))) as Gl.
      { rewrite <- El in Fl. destruct l as [|p l00 _] using rev_ind; [right; exists 10; split; [reflexivity|lia]|]. rewrite last_last. rewrite map_app in Fl. apply Forall_app in Fl. destruct Fl as (_ & Fl). now inversion Fl. }
      fold first in Asked. destruct (last l first) as (t, a0). cbn [fst snd mt_as_asked] in *. unfold ans_clocked in Cl. cbn [fst snd] in Cl. destruct Gl as [-> |(secs & -> & Hs)]; cbn [fst snd] in Cl; unfold in_time.
      * destruct Cl as ([X|X] & _); [contradiction|]. rewrite X. exact I.
      * destruct Cl as (_ & [X|X]); [rewrite X; lia|]. rewrite Est in X. discriminate X.
    + fold psk dhe server in As, V1. assert (tc_state (mt_tls c1) = TConnected) as T1 by apply As. rewrite <- Esn1 in V1, TB1.
      assert (receives ch2 (mt_tls c1) (rd ++ concat (flight cx psk dhe t0 hello extensions)) (record_stream cx server 0 datas)) as Rv2' by (destruct Rv2 as (mi & X); exists mi; rewrite Esn1, <- app_assoc; exact X).
      destruct (MqttTlsConnectP.accepted cx dbg room c1 ch1 _ _ [] server 0 since1 flags props datas more l2 c2 ch2 CX A2 As ltac:(lia) Bd Ld ltac:(lia) V1 TB1 Hp Ed Rv2') as ((Esn2 & Ebs2 & _) & _ & j & Lj & _ & Hor & _).
      destruct Hor as [(Fl2 & As2)|(_ & (Y & _) & _)]; [|rewrite Y in St; discriminate St].
      exists l1, (l2 ++ [a]), c1, ch1. split; [now rewrite El, app_assoc|]. split; [exact A1|]. split; [|now right].
      eapply AkAsk with (6 := E); [exact A2| |exact Ops|exact NF|rewrite Esn1; exact NL]. destruct As2 as (Est2 & _ & T2 & Tt2 & _). split; [exact St|]. split; [|exact (Rm T2)].
      assert (mt_goes_on (snd (last l first))) as Gl.
      { assert (Forall mt_goes_on (map snd l)) as F.
        { rewrite El, El1. apply Forall_app. split; [apply Forall_app; split; [exact Fl|]|exact Fl2]. constructor; [|constructor]. right. exists 10. split; [reflexivity|lia]. }
        destruct l as [|p l00 _] using rev_ind; [right; exists 10; split; [reflexivity|lia]|]. rewrite last_last. rewrite map_app in F. apply Forall_app in F. destruct F as (_ & F). now inversion F. }
      fold first in Asked. destruct (last l first) as (t, a0). cbn [fst snd mt_as_asked] in *. unfold ans_clocked in Cl. cbn [fst snd] in Cl. intros s Es. destruct Gl as [-> |(secs & -> & Hs)]; cbn [fst snd] in Cl.
      * destruct Cl as (_ & X). rewrite X in Es. discriminate Es.
      * destruct Cl as (_ & [X|X]); [rewrite Tt2 in X; discriminate X|]. rewrite X in Es. injection Es as <-. lia.
Qed.
Theorem mt_punctual_answers cx dbg c ch rd tx dhs t0 hello extensions share key room flags props datas more since l c' ch' : crypto_ok cx -> greeted cx (mt_tls c) dhs t0 -> tc_timeout (mt_tls c) = Some since -> mt_st c = mkST MInit None -> client_id_ok c ->
  server_hello hello share -> cx_sec1 cx share = Some key -> bytes_ok hello -> zlen (hs_message 2 hello) <= buffer_size (mt_tls c) - 22 ->
  encrypted_extensions extensions -> bytes_ok extensions -> zlen (hs_message 8 extensions) <= buffer_size (mt_tls c) - 39 -> 80 + zlen (mt_connect_of c) <= tx_room ch (mt_tls c) ->
  tcp_view (c_sock ch (sn_raw (tc_sn (mt_tls c)))) rd tx -> tx_bytes (c_sock ch (sn_raw (tc_sn (mt_tls c)))) ->
  zlen datas < 2 ^ 64 - 1 -> Forall bytes_ok datas -> Forall (fun d => zlen d <= room) datas -> 0 <= room <= buffer_size (mt_tls c) - 39 ->
  zlen props < 125 -> concat datas = connack_packet flags 0 props ++ more ->
  let psk := tc_psk (mt_tls c) in let dhe := cx_dh cx dhs key in
  let server := derive cx (master_secret cx psk dhe) "s ap traffic" (upto_finished cx psk dhe t0 hello extensions) in
  mt_punctual cx dbg room since c ch l c' ch' -> receives ch' (mt_tls c) rd (concat (flight cx psk dhe t0 hello extensions) ++ record_stream cx server 0 datas) ->
  exists l1 l2 c1 ch1, map snd l = l1 ++ l2 /\ mt_asks cx dbg mt_handshaking c ch l1 c1 ch1 /\ mt_asks cx dbg (mt_awaiting room) c1 ch1 l2 c' ch' /\ (l2 = [] \/ tc_state (mt_tls c1) = TConnected) /\
    (Forall mt_goes_on (map snd l) \/ exists l0, map snd l = l0 ++ [WProcess (Ok (SeenAck AConnAck)) [] (Ok tt)] /\ Forall mt_goes_on l0).
Proof.
  intros CX G T0 S0 Id Hsh Hk Bh Lh Hee Be Le Room V B Hl Bd Ld Hr Hp Ed psk dhe server P Rv.
  destruct (mt_never_late cx dbg c ch rd tx dhs t0 hello extensions share key room flags props datas more since l c' ch' CX G T0 S0 Id Hsh Hk Bh Lh Hee Be Le Room V B Hl Bd Ld Hr Hp Ed P Rv) as (l1 & l2 & c1 & ch1 & El & A1 & A2 & C1).
  exists l1, l2, c1, ch1. split; [exact El|]. split; [exact A1|]. split; [exact A2|]. split; [exact C1|]. rewrite El.
  pose proof (MqttTlsConnectP.longer_receives _ _ _ _ _ (MqttTlsConnectP.asks_longer _ _ _ _ _ _ _ _ A2) Rv) as Rv1.
  destruct (MqttTlsConnectP.connects cx dbg c ch rd tx (record_stream cx server 0 datas) dhs t0 hello extensions share key l1 c1 ch1 CX G S0 Id Hsh Hk Bh Lh Hee Be Le Room V B A1 Rv1) as ((Esn1 & Ebs1 & _) & TB1 & Hc).
  destruct Hc as [(k & Lk & Sg & _ & Fl & _)|((l0 & El1 & Fl) & (since1 & As) & _ & V1)].
  - assert (tc_state (mt_tls c1) <> TConnected) as Nc by (intros T; destruct k as [|[|[|k]]]; [| | |lia]; cbn [stage] in Sg; destruct Sg as (Sg & _); rewrite Sg in T; discriminate T).
    destruct C1 as [-> |C1]; [|contradiction]. left. rewrite app_nil_r. exact Fl.
  - fold psk dhe server in As, V1. rewrite <- Esn1 in V1, TB1.
    assert (receives ch' (mt_tls c1) (rd ++ concat (flight cx psk dhe t0 hello extensions)) (record_stream cx server 0 datas)) as Rv' by (destruct Rv as (mi & X); exists mi; rewrite Esn1, <- app_assoc; exact X).
    assert (Forall mt_goes_on l1) as F1.
    { rewrite El1. apply Forall_app. split; [exact Fl|]. constructor; [|constructor]. right. exists 10. split; [reflexivity|lia]. }
    destruct (MqttTlsConnectP.accepted cx dbg room c1 ch1 _ _ [] server 0 since1 flags props datas more l2 c' ch' CX A2 As ltac:(lia) Bd Ld ltac:(lia) V1 TB1 Hp Ed Rv') as (_ & _ & j & _ & _ & Hor & _).
    destruct Hor as [(Fl2 & _)|((l3 & El2 & Fl2) & _)]; [left; apply Forall_app; split; assumption|]. right. exists (l1 ++ l3). rewrite El2, app_assoc. split; [reflexivity|]. apply Forall_app. split; assumption.
Qed.
