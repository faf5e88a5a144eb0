(** Calls of the MQTT client over TLS on the chip. *)
From Verif Require Import Model.Prelude Model.Bus Model.Chip Model.Specifiers Model.HlIo Model.Stream Spec.Hoare Spec.Sock Spec.TcpClient Spec.Cursor Spec.Silent Spec.TlsSecrets Spec.TlsProtect.
From Verif Require Import Model.Mqtt Spec.MqttMsg Proof.MqttVbiP Proof.MqttSendP Proof.MqttRecvP Proof.MqttProcP Proof.MqttMainP.
From Verif Require Import Proof.Base Proof.ChipP Proof.SockP Proof.TcpP Proof.TlsBufP Proof.TlsRx3P Proof.TlsRx5P Proof.TlsQuietP Proof.MqttTlsSendP Proof.MqttTlsRxP.
From Verif Require Import Model.TlsTypes Model.TlsBuf Model.TlsKeys Model.TlsRecord Model.TlsClient Model.MqttTls Spec.TlsQueue Spec.TlsQuiet Spec.TlsSession Spec.TlsWire Spec.TlsRx Spec.MqttTlsMsg.
Local Open Scope list_scope.

(** ** Sending *)
Section Send.
Variables (cx : Crypto) (c : MqttTls) (traffic : list Z) (seq : Z) (ch : chip) (rd tx : list Z).
Notation sn := (tc_sn (mt_tls c)).
Notation sk := (c_sock ch (sn_raw sn)).
Hypotheses (CX : crypto_ok cx) (W : writes_with (mt_tls c) traffic seq) (Hs : seq < 2 ^ 64 - 1) (V : tcp_view sk rd tx) (B : tx_bytes sk).
Theorem publish_sends topic payload : bytes_ok topic -> bytes_ok payload ->
  ensures (mt_publish cx c topic payload) (sn_raw sn) ch (mt_sends cx traffic seq (tx_room ch (mt_tls c)) rd tx (publish_packet false topic [] payload) c (mt_st c) tt).
Proof using Type*.
  intros Bt Bp. apply ensures_wps. apply (send_spec sn cx False c traffic seq (write_publish topic payload) tt); auto; [apply publish_writes|now apply publish_calls].
Qed.
Lemma next_id_u16 (m : MqttTls) : is_u16 (mt_pkt_id m) -> is_u16 (mt_pkt_id (mt_next_pkt_id m)).
Proof. unfold mt_next_pkt_id, is_u16. cbn [mt_pkt_id]. destruct (Z.ltb_spec (mt_pkt_id m + 1) 65536); lia. Qed.
Theorem subscribe_sends filter : is_u16 (mt_pkt_id c) -> bytes_ok filter -> filter <> [] -> zlen filter <= 65532 -> let c' := mt_next_pkt_id c in
  ensures (mt_subscribe cx c filter) (sn_raw sn) ch (mt_sends cx traffic seq (tx_room ch (mt_tls c)) rd tx (subscribe_packet (mt_pkt_id c') filter) c' (mt_st c) (mt_pkt_id c')).
Proof using Type*.
  intros Hi Bf Nf Lf c'. pose proof (zlen_nonneg filter) as N0. apply ensures_wps. unfold mt_subscribe. fold c'.
  destruct (Z.eqb_spec (zlen filter) 0) as [E|_]; [destruct filter; [contradiction|rewrite zlen_cons in E; pose proof (zlen_nonneg filter); lia]|].
  apply (send_spec sn cx False c' traffic seq (write_subscribe filter (mt_pkt_id c')) (mt_pkt_id c')); auto.
  - apply subscribe_writes; [now apply next_id_u16|]. rewrite Z.mod_small; lia.
  - apply subscribe_calls; [now apply next_id_u16|exact Bf].
Qed.
Theorem unsubscribe_sends filter : is_u16 (mt_pkt_id c) -> bytes_ok filter -> filter <> [] -> zlen filter <= 65533 -> let c' := mt_next_pkt_id c in
  ensures (mt_unsubscribe cx c filter) (sn_raw sn) ch (mt_sends cx traffic seq (tx_room ch (mt_tls c)) rd tx (unsubscribe_packet (mt_pkt_id c') filter) c' (mt_st c) (mt_pkt_id c')).
Proof using Type*.
  intros Hi Bf Nf Lf c'. pose proof (zlen_nonneg filter) as N0. apply ensures_wps. unfold mt_unsubscribe. fold c'.
  destruct (Z.eqb_spec (zlen filter) 0) as [E|_]; [destruct filter; [contradiction|rewrite zlen_cons in E; pose proof (zlen_nonneg filter); lia]|].
  apply (send_spec sn cx False c' traffic seq (write_unsubscribe filter (mt_pkt_id c')) (mt_pkt_id c')); auto.
  - apply unsubscribe_writes; [now apply next_id_u16|]. rewrite Z.mod_small; lia.
  - apply unsubscribe_calls; [now apply next_id_u16|exact Bf].
Qed.
End Send.
Lemma not_connected cx c topic payload filter : tls_connected (mt_tls c) = false ->
  mt_publish cx c topic payload = Ret (Err (MTErr MNotConnected), c) /\
  mt_subscribe cx c filter = Ret (Err (MTErr MNotConnected), mt_next_pkt_id c) /\
  mt_unsubscribe cx c filter = Ret (Err (MTErr MNotConnected), mt_next_pkt_id c).
Proof.
  intros E. unfold mt_publish, mt_subscribe, mt_unsubscribe, mt_send, tls_writer. cbn [mt_next_pkt_id mt_tls]. rewrite E. cbn [negb bind map_tls_writer_err].
  split; [reflexivity|]. destruct (zlen filter =? 0); split; reflexivity.
Qed.

(** ** CONNECT *)
Theorem connect_more cx dbg fuel c rng now ops fin sch ch t sch1 ch1 traffic seq rd tx : crypto_ok cx -> no_faults sch ->
  run (tls_process cx dbg fuel (mt_tls c) rng now) sch ch = (Done (Ok THandshakeFinished, t), sch1, ch1) -> tc_sn t = tc_sn (mt_tls c) ->
  let n := sn_raw (tc_sn (mt_tls c)) in
  writes_with t traffic seq -> seq < 2 ^ 64 - 1 -> tcp_view (c_sock ch1 n) rd tx -> tx_bytes (c_sock ch1 n) -> client_id_ok c -> 22 <= buffer_size t < 65536 ->
  let packet := mt_connect_of (mt_put c t) in
  exists a c' sch2 ch2, run (mtcall_run cx dbg fuel c (YProcess rng now ops fin)) sch ch = (Done (a, c'), sch2, ch2) /\
    ((a = WProcess (Ok (SeenCallAfter 10)) [] (Ok tt) /\ mt_sends cx traffic seq (free_space (c_sock ch1 n)) rd tx packet (mt_put c t) (mkST WaitConAck (Some now)) tt (Ok tt, c') (c_sock ch2 n) /\ tx_bytes (c_sock ch2 n) /\ stepped t (mt_tls c')) \/
     (exists e, a = WProcess (Err e) [] (Ok tt) /\ mt_sends cx traffic seq (free_space (c_sock ch1 n)) rd tx packet (mt_put c t) (mkST WaitConAck (Some now)) tt (Err e, c') (c_sock ch2 n))).
Proof.
  intros CX Hs Ru Esn n W Hq V B Hid Hb packet. set (c1 := mt_put c t) in *.
  assert (u16 (b_N (tc_rx (mt_tls c1))) = buffer_size t) as En by (unfold u16, b_N; cbn [mt_put mt_tls]; unfold buffer_size in *; apply Z.mod_small; lia).
  assert (wps (mt_send cx c1 (Some (write_connect (mt_client_id c1) (buffer_size t - 22))) TIMEOUT_SECS) (snz (tc_sn (mt_tls c))) (c_sock ch1 (snz (tc_sn (mt_tls c)))) False
    (fun x s' => mt_sends cx traffic seq (free_space (c_sock ch1 n)) rd tx packet c1 (mt_st c1) TIMEOUT_SECS x s' /\ (fst x = Ok TIMEOUT_SECS -> tx_bytes s' /\ stepped t (mt_tls (snd x))))) as S.
  { apply (send_more (tc_sn (mt_tls c)) cx False c1 traffic seq); auto.
    - unfold packet, mt_connect_of, c1, buffer_size in *. cbn [mt_put mt_tls mt_client_id]. apply connect_writes; [unfold is_u16; lia|]. intros i E. now apply Hid.
    - apply connect_calls. exact Hid. }
  pose proof (wps_sound _ (snz (tc_sn (mt_tls c))) ch1 False _ sch1 ltac:(apply snz_range) S (run_no_faults _ sch ch _ _ _ Hs Ru)) as R.
  destruct (run (mt_send cx c1 _ _) sch1 ch1) as [[[(r, c2)| |] sch2] ch2] eqn:Er; try contradiction. destruct R as ((R & R2) & _).
  change (mtcall_run cx dbg fuel c (YProcess rng now ops fin)) with (bind (mt_process cx dbg fuel c rng now) (after_process ops fin)).
  assert (forall r' c3, run (mt_send_connect cx c1 now) sch1 ch1 = (Done (r', c3), sch2, ch2) -> run (bind (mt_process cx dbg fuel c rng now) (after_process ops fin)) sch ch =
    (Done (match r' with Ok a => WProcess (Ok (SeenCallAfter a)) [] (Ok tt) | Err e => WProcess (Err e) [] (Ok tt) end, c3), sch2, ch2)) as G.
  { intros r' c3 E. rewrite run_bind. unfold mt_process. rewrite run_bind, Ru. cbv zeta. fold c1. rewrite run_bind, E. destruct r' as [a|e]; reflexivity. }
  assert (run (mt_send_connect cx c1 now) sch1 ch1 = (Done (match r with Ok a => (Ok a, mt_set_st c2 (mkST WaitConAck (Some now))) | Err e => (Err e, c2) end), sch2, ch2)) as E.
  { unfold mt_send_connect. cbv zeta. rewrite En. destruct (Z.ltb_spec (buffer_size t) 22); [lia|]. rewrite run_bind, Er. destruct r; reflexivity. }
  destruct R as [(t' & Ex & Q)|([Ex|Ex] & Q)]; injection Ex as -> ->; pose proof (G _ _ E) as E2; eexists _, _, sch2, ch2; (split; [exact E2|]).
  - left. split; [reflexivity|]. split; [|exact (R2 eq_refl)]. left. exists t'. split; [reflexivity|]. exact Q.
  - right. eexists. split; [reflexivity|]. right. split; [now left|exact Q].
  - right. eexists. split; [reflexivity|]. right. split; [now right|exact Q].
Qed.
Theorem connect_sends cx dbg fuel c rng now ops fin sch ch t sch1 ch1 traffic seq rd tx : crypto_ok cx -> no_faults sch ->
  run (tls_process cx dbg fuel (mt_tls c) rng now) sch ch = (Done (Ok THandshakeFinished, t), sch1, ch1) -> tc_sn t = tc_sn (mt_tls c) ->
  let n := sn_raw (tc_sn (mt_tls c)) in
  writes_with t traffic seq -> seq < 2 ^ 64 - 1 -> tcp_view (c_sock ch1 n) rd tx -> tx_bytes (c_sock ch1 n) -> client_id_ok c -> 22 <= buffer_size t < 65536 ->
  let packet := mt_connect_of (mt_put c t) in
  exists a c' sch2 ch2, run (mtcall_run cx dbg fuel c (YProcess rng now ops fin)) sch ch = (Done (a, c'), sch2, ch2) /\
    ((a = WProcess (Ok (SeenCallAfter 10)) [] (Ok tt) /\ mt_sends cx traffic seq (free_space (c_sock ch1 n)) rd tx packet (mt_put c t) (mkST WaitConAck (Some now)) tt (Ok tt, c') (c_sock ch2 n)) \/
     (exists e, a = WProcess (Err e) [] (Ok tt) /\ mt_sends cx traffic seq (free_space (c_sock ch1 n)) rd tx packet (mt_put c t) (mkST WaitConAck (Some now)) tt (Err e, c') (c_sock ch2 n))).
Proof.
  intros CX Hs Ru Esn n W Hq V B Hid Hb packet. destruct (connect_more cx dbg fuel c rng now ops fin sch ch t sch1 ch1 traffic seq rd tx CX Hs Ru Esn W Hq V B Hid Hb) as (a & c' & sch2 & ch2 & E & X).
  exists a, c', sch2, ch2. split; [exact E|]. destruct X as [(Ea & X & _)|X]; [left; auto|right; exact X].
Qed.

(** ** Receiving *)
Lemma react_any c now ops fin w rest a w' st' : buffer_holds (tc_rx (mt_tls c)) w rest -> Forall pub_op_ok ops -> reaction (mt_st c) now ops fin w a w' st' ->
  exists c', bind (mt_rx c now) (after_process ops fin) = Ret (a, c') /\ left_at c rest w' st' c'.
Proof.
  intros Hh Ho R. destruct w as [|x w]; [|now apply (react c now ops fin (x :: w)); auto].
  assert (forall p more : list Z, p ++ more = [] -> p <> [] -> False) as N by (intros [|y p] more E H; [now apply H|discriminate E]).
  destruct R as [retain topic props payload more Ew Hp|flags code props more Ew Hp Hst|id props code more r Ew Hi Hp Hm|id props code more r Ew Hi Hp Hm|t f body more r st' Ew Ht Hf Hin Hw|t f body missing r st' Ew Hm Ht Hf Hl Hw];
    try (exfalso; exact (N _ _ (eq_sym Ew) (packet_ne _ _ _))).
  now apply react_nothing.
Qed.
Lemma then_rx cx dbg fuel c rng now ops fin sch ch e t sch' ch' w rest a w' st' :
  run (tls_process cx dbg fuel (mt_tls c) rng now) sch ch = (Done (Ok e, t), sch', ch') -> e = TApplicationData \/ e = TNone ->
  buffer_holds (tc_rx t) w rest -> Forall pub_op_ok ops -> reaction (mt_st c) now ops fin w a w' st' ->
  exists rx, buffer_holds rx w' rest /\ run (mtcall_run cx dbg fuel c (YProcess rng now ops fin)) sch ch = (Done (a, mkMT (tc_set_rx t rx) (mt_client_id c) st' (mt_pkt_id c)), sch', ch').
Proof.
  intros Ru He Hh Ho R. destruct (react_any (mt_put c t) now ops fin w rest a w' st' Hh Ho R) as (c' & E & rx & Q & ->). exists rx. split; [exact Q|].
  change (mtcall_run cx dbg fuel c (YProcess rng now ops fin)) with (bind (mt_process cx dbg fuel c rng now) (after_process ops fin)).
  rewrite run_bind. unfold mt_process. rewrite run_bind, Ru. cbv zeta. assert (run (mt_rx (mt_put c t) now) sch' ch' = run (mt_rx (mt_put c t) now) sch' ch') as H by reflexivity.
  destruct He as [-> | ->]; rewrite <- run_bind, E; reflexivity.
Qed.
Theorem received cx dbg fuel c rng now ops fin ch rd tx ad t seq data a w' st' : crypto_ok cx -> reads_with (mt_tls c) t seq -> tc_state (mt_tls c) = TConnected ->
  buffer_holds (tc_rx (mt_tls c)) ad [] -> bytes_ok data -> zlen data <= buffer_size (mt_tls c) - 39 -> zlen ad + zlen data + 2 <= buffer_size (mt_tls c) ->
  arrived ch (mt_tls c) rd tx (protected_record cx t seq 23 data) -> Forall pub_op_ok ops -> reaction (mt_st c) now ops fin (ad ++ data) a w' st' ->
  ensures_ir no_link_change (mtcall_run cx dbg fuel c (YProcess rng now ops fin)) (sn_raw (tc_sn (mt_tls c))) ch (fun x s' =>
    exists tls, x = (a, mkMT tls (mt_client_id c) st' (mt_pkt_id c)) /\ tc_state tls = TConnected /\ buffer_holds (tc_rx tls) w' [] /\
      ks_server_traffic (tc_ks tls) = Some t /\ ks_read_seq (tc_ks tls) = seq + 1 /\
      ks_client_traffic (tc_ks tls) = ks_client_traffic (tc_ks (mt_tls c)) /\ ks_write_seq (tc_ks tls) = ks_write_seq (tc_ks (mt_tls c)) /\
      tcp_view s' (rd ++ protected_record cx t seq 23 data) tx).
Proof.
  intros CX R Hst Hh Bd Ld Room A Ho Hr sch Hs HP.
  destruct (TlsRx5P.delivered cx dbg fuel (mt_tls c) rng now ch rd tx ad CX t seq data R Hst Hh Bd Ld Room A sch Hs HP) as (x & sch' & c2 & Ru & t1 & -> & Q1 & Q2 & Q3 & Q4 & Q5 & Q6 & Q7).
  destruct (then_rx cx dbg fuel c rng now ops fin sch ch _ t1 sch' c2 _ _ a w' st' Ru (or_introl eq_refl) Q2 Ho Hr) as (rx & Hrx & E).
  eexists _, sch', c2. split; [exact E|]. eexists. split; [reflexivity|]. cbn [tc_state tc_set_rx tc_rx tc_ks]. auto 10.
Qed.
(** Bytes that were received before; nothing happens in the meantime. *)
Theorem buffered cx dbg fuel c rng now ops fin ch sch w rest a w' st' : let n := sn_raw (tc_sn (mt_tls c)) in let s := c_sock ch n in
  tc_state (mt_tls c) = TConnected -> tc_timeout (mt_tls c) = None -> buffer_holds (tc_rx (mt_tls c)) w rest -> no_link_change (s_ir s) -> rx_rsr s < 5 -> silent sch n ->
  Forall pub_op_ok ops -> reaction (mt_st c) now ops fin w a w' st' ->
  exists rx sch' ch', buffer_holds rx w' rest /\
    run (mtcall_run cx dbg fuel c (YProcess rng now ops fin)) sch ch = (Done (a, mkMT (tc_set_rx (mt_tls c) rx) (mt_client_id c) st' (mt_pkt_id c)), sch', ch').
Proof.
  intros n s Hst Ht Hh Hl Hr Hs Ho R.
  destruct (process_quiet cx dbg fuel (mt_tls c) rng now ch sch) as (x & sch' & ch' & Ru & Tw); auto.
  - unfold twaiting. rewrite Hst. now left.
  - unfold tclock_ok. now rewrite Ht.
  - rewrite Hst. discriminate.
  - unfold twaits in Tw. rewrite Ht in Tw. subst x.
    destruct (then_rx cx dbg fuel c rng now ops fin sch ch _ _ sch' ch' _ _ a w' st' Ru (or_intror eq_refl) Hh Ho R) as (rx & Hrx & E). exists rx, sch', ch'. auto.
Qed.
(** The connection is closed. *)
Theorem disconnected cx dbg fuel c rng now ops fin ch sch : let n := sn_raw (tc_sn (mt_tls c)) in let s := c_sock ch n in
  ir_bit 1 (s_ir s) -> ~ ir_bit 0 (s_ir s) -> silent sch n ->
  exists tls sch' ch', run (mtcall_run cx dbg fuel c (YProcess rng now ops fin)) sch ch =
    (Done (WProcess (Err (MTErr MDisconnect)) [] (Ok tt), mkMT tls (mt_client_id c) (mt_st c) (mt_pkt_id c)), sch', ch') /\ tls_connected tls = false.
Proof.
  intros n s H1 H0 Hs. destruct (process_discon cx dbg fuel (mt_tls c) rng now ch sch H1 H0 Hs) as (sch' & ch' & Ru).
  destruct (tstate_eqb (tc_state (mt_tls c)) TWaitDiscon) eqn:Est.
  - exists (mt_tls c), sch', ch'. split.
    + unfold mtcall_run, mt_process. rewrite run_bind, run_bind, Ru. reflexivity.
    + unfold tls_connected. destruct (tc_state (mt_tls c)); try discriminate Est. reflexivity.
  - exists (tls_reset cx (mt_tls c)), sch', ch'. split; [|reflexivity]. unfold mtcall_run, mt_process. rewrite run_bind, run_bind, Ru. reflexivity.
Qed.
