(** The MQTT client over TLS: C75 to C83. *)
From Verif Require Import Model.Prelude Model.Bus Model.Chip Model.Specifiers Model.Mqtt Spec.Hoare Spec.Sock Spec.Cases Spec.TcpClient Spec.Silent Spec.TlsSecrets Spec.MqttMsg.
From Verif Require Import Model.TlsTypes Model.TlsBuf Model.TlsKeys Model.TlsClient Model.MqttTls Spec.TlsQueue Spec.TlsCases Spec.TlsProtect Spec.TlsSession Spec.TlsTalk Spec.TlsQuiet Spec.TlsAuth Spec.TlsWire Spec.TlsRx
  Spec.MqttTlsMsg Spec.MqttTlsTalk.
From Verif Require Proof.MqttTlsMainP Proof.MqttTlsHist2P Proof.MqttTlsAuthP Proof.MqttTlsCaseP Proof.TlsCaseP Proof.TlsTalkP Proof.TlsRx5P Proof.MqttMainP.
Local Open Scope list_scope.

(** C75: publish, subscribe and unsubscribe put the packet on the wire whole, as one record of application data protected
    with the client's keys and the next number; or they report that there is no room, and nothing is sent. *)
Theorem C75_publish : forall cx c traffic seq ch rd tx topic payload, crypto_ok cx -> writes_with (mt_tls c) traffic seq -> seq < 2 ^ 64 - 1 ->
  let n := sn_raw (tc_sn (mt_tls c)) in tcp_view (c_sock ch n) rd tx -> tx_bytes (c_sock ch n) -> bytes_ok topic -> bytes_ok payload ->
  ensures (mt_publish cx c topic payload) n ch (mt_sends cx traffic seq (tx_room ch (mt_tls c)) rd tx (publish_packet false topic [] payload) c (mt_st c) tt).
Proof. exact (fun cx c traffic seq ch rd tx topic payload CX W Hs V B => MqttTlsMainP.publish_sends cx c traffic seq ch rd tx CX W Hs V B topic payload). Qed.
Print Assumptions C75_publish.
Theorem C75_subscribe : forall cx c traffic seq ch rd tx filter, crypto_ok cx -> writes_with (mt_tls c) traffic seq -> seq < 2 ^ 64 - 1 ->
  let n := sn_raw (tc_sn (mt_tls c)) in tcp_view (c_sock ch n) rd tx -> tx_bytes (c_sock ch n) ->
  is_u16 (mt_pkt_id c) -> bytes_ok filter -> filter <> [] -> zlen filter <= 65532 -> let c' := mt_next_pkt_id c in
  ensures (mt_subscribe cx c filter) n ch (mt_sends cx traffic seq (tx_room ch (mt_tls c)) rd tx (subscribe_packet (mt_pkt_id c') filter) c' (mt_st c) (mt_pkt_id c')).
Proof. exact (fun cx c traffic seq ch rd tx filter CX W Hs V B => MqttTlsMainP.subscribe_sends cx c traffic seq ch rd tx CX W Hs V B filter). Qed.
Print Assumptions C75_subscribe.
Theorem C75_unsubscribe : forall cx c traffic seq ch rd tx filter, crypto_ok cx -> writes_with (mt_tls c) traffic seq -> seq < 2 ^ 64 - 1 ->
  let n := sn_raw (tc_sn (mt_tls c)) in tcp_view (c_sock ch n) rd tx -> tx_bytes (c_sock ch n) ->
  is_u16 (mt_pkt_id c) -> bytes_ok filter -> filter <> [] -> zlen filter <= 65533 -> let c' := mt_next_pkt_id c in
  ensures (mt_unsubscribe cx c filter) n ch (mt_sends cx traffic seq (tx_room ch (mt_tls c)) rd tx (unsubscribe_packet (mt_pkt_id c') filter) c' (mt_st c) (mt_pkt_id c')).
Proof. exact (fun cx c traffic seq ch rd tx filter CX W Hs V B => MqttTlsMainP.unsubscribe_sends cx c traffic seq ch rd tx CX W Hs V B filter). Qed.
Print Assumptions C75_unsubscribe.
(** The call of [process] in which the TLS handshake ends sends CONNECT in the same way. *)
Theorem C75_connect : forall cx dbg fuel c rng now ops fin sch ch t sch1 ch1 traffic seq rd tx, crypto_ok cx -> no_faults sch ->
  run (tls_process cx dbg fuel (mt_tls c) rng now) sch ch = (Done (Ok THandshakeFinished, t), sch1, ch1) -> tc_sn t = tc_sn (mt_tls c) ->
  let n := sn_raw (tc_sn (mt_tls c)) in
  writes_with t traffic seq -> seq < 2 ^ 64 - 1 -> tcp_view (c_sock ch1 n) rd tx -> tx_bytes (c_sock ch1 n) -> client_id_ok c -> 22 <= buffer_size t < 65536 ->
  let packet := mt_connect_of (mt_put c t) in
  exists a c' sch2 ch2, run (mtcall_run cx dbg fuel c (YProcess rng now ops fin)) sch ch = (Done (a, c'), sch2, ch2) /\
    ((a = WProcess (Ok (SeenCallAfter 10)) [] (Ok tt) /\ mt_sends cx traffic seq (free_space (c_sock ch1 n)) rd tx packet (mt_put c t) (mkST WaitConAck (Some now)) tt (Ok tt, c') (c_sock ch2 n)) \/
     (exists e, a = WProcess (Err e) [] (Ok tt) /\ mt_sends cx traffic seq (free_space (c_sock ch1 n)) rd tx packet (mt_put c t) (mkST WaitConAck (Some now)) tt (Err e, c') (c_sock ch2 n))).
Proof. exact MqttTlsMainP.connect_sends. Qed.
Print Assumptions C75_connect.
(** Without a TLS connection nothing is done on the bus. *)
Theorem C75_not_connected : forall cx c topic payload filter, tls_connected (mt_tls c) = false ->
  mt_publish cx c topic payload = Ret (Err (MTErr MNotConnected), c) /\
  mt_subscribe cx c filter = Ret (Err (MTErr MNotConnected), mt_next_pkt_id c) /\
  mt_unsubscribe cx c filter = Ret (Err (MTErr MNotConnected), mt_next_pkt_id c).
Proof. exact MqttTlsMainP.not_connected. Qed.
Print Assumptions C75_not_connected.

(** A client after the TLS handshake and CONNACK, with a connection that has unsent bytes. *)
Example C75_hyp : crypto_ok case_cx /\ (exists h, mthistory case_cx true 1 mtalk_init h case_mt_ready) /\ writes_with (mt_tls case_mt_ready) mt_client_secret 1 /\
  tcp_view (c_sock (case_conn [1; 2]) 3) [] case_tcp_unsent /\ tx_bytes (c_sock (case_conn [1; 2]) 3) /\ client_id_ok case_mt_greeted /\ buffer_size (mt_tls case_mt_ready) = 1024.
Proof.
  split; [exact TlsCaseP.case_cx_ok|]. split; [exact MqttTlsCaseP.ready_history|]. split; [exact MqttTlsCaseP.mt_case_writes|]. split; [MqttMainP.case_tcp_view|]. split; [apply TlsRx5P.case_bytes|].
  split; [|reflexivity]. intros i E. injection E as <-. split; [vm_compute; discriminate|]. repeat constructor; discriminate.
Qed.
(** The result of a call with these unread bytes; what was sent. *)
Definition case_call (c : MqttTls) (x : mtcall) (received : list Z) : option (mtans * StateTimeout * list Z * list Z) :=
  let '(o, _, ch) := run (mtcall_run case_cx true 1 c x) [tick_of []; tick_of [EvRx [1]]; tick_of [EvTx 2]] (case_conn received) in
  match o with Done (a, c') => Some (a, mt_st c', readable (mt_tls c'), zdrop (zlen case_tcp_unsent) (tx_stream (c_sock ch 3))) | _ => None end.
Example C75_case :
  case_call case_mt_ready (YPublish [97; 98] [1; 2; 3]) [] = Some (WPublish (Ok tt), mkST Ready None, [], case_record mt_client_secret 1 23 [48; 8; 0; 2; 97; 98; 0; 1; 2; 3]) /\
  case_call case_mt_ready (YSubscribe [97; 47; 35]) [] = Some (WSub (Ok 2), mkST Ready None, [], case_record mt_client_secret 1 23 [130; 9; 0; 2; 0; 0; 3; 97; 47; 35; 36]).
Proof. vm_compute. split; reflexivity. Qed.

(** C76: when a record of application data arrives, [process] acts on the packet at the front of everything received so far
    and not yet consumed, as the same client without TLS does: [reaction] in Spec/MqttTlsMsg.v. *)
Theorem C76_received_partial : forall cx dbg fuel c rng now ops fin ch rd tx ad t seq data a w' st', crypto_ok cx -> reads_with (mt_tls c) t seq -> tc_state (mt_tls c) = TConnected ->
  buffer_holds (tc_rx (mt_tls c)) ad [] -> bytes_ok data -> zlen data <= buffer_size (mt_tls c) - 39 -> zlen ad + zlen data + 2 <= buffer_size (mt_tls c) ->
  arrived ch (mt_tls c) rd tx (protected_record cx t seq 23 data) -> Forall pub_op_ok ops -> reaction (mt_st c) now ops fin (ad ++ data) a w' st' ->
  ensures_ir no_link_change (mtcall_run cx dbg fuel c (YProcess rng now ops fin)) (sn_raw (tc_sn (mt_tls c))) ch (fun x s' =>
    exists tls, x = (a, mkMT tls (mt_client_id c) st' (mt_pkt_id c)) /\ tc_state tls = TConnected /\ buffer_holds (tc_rx tls) w' [] /\
      ks_server_traffic (tc_ks tls) = Some t /\ ks_read_seq (tc_ks tls) = seq + 1 /\
      ks_client_traffic (tc_ks tls) = ks_client_traffic (tc_ks (mt_tls c)) /\ ks_write_seq (tc_ks tls) = ks_write_seq (tc_ks (mt_tls c)) /\
      tcp_view s' (rd ++ protected_record cx t seq 23 data) tx).
Proof. exact MqttTlsMainP.received. Qed.
Print Assumptions C76_received_partial.
(** The same when nothing arrives: packets that came together are reported one by one by the following calls. *)
Theorem C76_buffered_partial : forall cx dbg fuel c rng now ops fin ch sch w rest a w' st', let n := sn_raw (tc_sn (mt_tls c)) in let s := c_sock ch n in
  tc_state (mt_tls c) = TConnected -> tc_timeout (mt_tls c) = None -> buffer_holds (tc_rx (mt_tls c)) w rest -> no_link_change (s_ir s) -> rx_rsr s < 5 -> silent sch n ->
  Forall pub_op_ok ops -> reaction (mt_st c) now ops fin w a w' st' ->
  exists rx sch' ch', buffer_holds rx w' rest /\
    run (mtcall_run cx dbg fuel c (YProcess rng now ops fin)) sch ch = (Done (a, mkMT (tc_set_rx (mt_tls c) rx) (mt_client_id c) st' (mt_pkt_id c)), sch', ch').
Proof. exact MqttTlsMainP.buffered. Qed.
Print Assumptions C76_buffered_partial.
Example C76_hyp : reads_with (mt_tls case_mt_ready) mt_server_secret 1 /\ tc_state (mt_tls case_mt_ready) = TConnected /\ tc_timeout (mt_tls case_mt_ready) = None /\ buffer_holds (tc_rx (mt_tls case_mt_ready)) [] [] /\
  reaction (mt_st case_mt_ready) 111 [PTopic 9; PPayload 2] true (publish_packet false [97; 98] [] [1; 2; 3] ++ [208])
    (WProcess (Ok (SeenPublish 2 3)) [Ok [97; 98]; Ok [1; 2]] (Ok tt)) [208] (mkST Ready None).
Proof.
  split; [exact MqttTlsCaseP.mt_case_reads|]. split; [reflexivity|]. split; [reflexivity|]. split; [exact MqttTlsCaseP.mt_case_buffer|].
  exact (ReactPublish _ 111 [PTopic 9; PPayload 2] true _ false [97; 98] [] [1; 2; 3] [208] eq_refl eq_refl).
Qed.
(** A message and the first byte of a PINGRESP in a record, read and dropped, then read and done. *)
Example C76_case : let record := case_record mt_server_secret 1 23 (publish_packet false [97; 98] [] [1; 2; 3] ++ [208]) in
  case_call case_mt_ready (YProcess talk_rng 111 [PTopic 9; PPayload 2] false) record =
    Some (WProcess (Ok (SeenPublish 2 3)) [Ok [97; 98]; Ok [1; 2]] (Ok tt), mkST Ready None, publish_packet false [97; 98] [] [1; 2; 3] ++ [208], []) /\
  case_call case_mt_ready (YProcess talk_rng 111 [PTopic 9; PPayload 2] true) record =
    Some (WProcess (Ok (SeenPublish 2 3)) [Ok [97; 98]; Ok [1; 2]] (Ok tt), mkST Ready None, [208], []) /\
  case_call case_mt_waiting (YProcess talk_rng 111 [] true) (case_record mt_server_secret 0 23 (connack_packet 0 0x87 [])) =
    Some (WProcess (Err (MTErr (MConnAck CR_NotAuthorized))) [] (Ok tt), mkST MInit None, [], []).
Proof. vm_compute. repeat split; reflexivity. Qed.

(** C77: that [is_connected] is false after [process] returned an error, as the documentation of [Error] says, is false: when the connection is lost the
    state of the MQTT client is not reset. *)
Theorem C77_disconnected_refuted : forall cx dbg fuel c rng now ops fin ch sch, let n := sn_raw (tc_sn (mt_tls c)) in let s := c_sock ch n in
  ir_bit 1 (s_ir s) -> ~ ir_bit 0 (s_ir s) -> silent sch n ->
  exists tls sch' ch', run (mtcall_run cx dbg fuel c (YProcess rng now ops fin)) sch ch =
    (Done (WProcess (Err (MTErr MDisconnect)) [] (Ok tt), mkMT tls (mt_client_id c) (mt_st c) (mt_pkt_id c)), sch', ch') /\ tls_connected tls = false.
Proof. exact MqttTlsMainP.disconnected. Qed.
Print Assumptions C77_disconnected_refuted.
(** It happens to a connected client. *)
Theorem C77_connected_refuted : exists h x c, mthistory case_cx true 1 mtalk_init (h ++ [(x, WProcess (Err (MTErr MDisconnect)) [] (Ok tt))]) c /\
  tls_connected (mt_tls c) = false /\ mt_is_connected c = true.
Proof. exact MqttTlsCaseP.connected_refuted. Qed.
Print Assumptions C77_connected_refuted.

(** C78: that packets are published only between CONNACK and the end of the connection is false: the state of the MQTT
    client is not looked at. *)
Theorem C78_early_refuted : exists h c, mthistory case_cx true 1 mtalk_init (h ++ [(YPublish [97] [98; 99], WPublish (Ok tt))]) c /\
  (forall x a, In (x, a) h -> connack a = false) /\ mt_is_connected c = false.
Proof. exact MqttTlsCaseP.early_refuted. Qed.
Print Assumptions C78_early_refuted.

(** C79: that [process] opens a new connection after an error is false: if the error is one of the MQTT client and the TLS
    connection is still there, each following call with nothing to receive returns [Event::None] and changes nothing. *)
Theorem C79_stuck_refuted : forall cx dbg fuel c rng now ops fin ch sch rest, let n := sn_raw (tc_sn (mt_tls c)) in let s := c_sock ch n in
  tc_state (mt_tls c) = TConnected -> tc_timeout (mt_tls c) = None -> mt_st c = mkST MInit None -> buffer_holds (tc_rx (mt_tls c)) [] rest ->
  no_link_change (s_ir s) -> rx_rsr s < 5 -> silent sch n -> Forall pub_op_ok ops ->
  exists rx sch' ch', buffer_holds rx [] rest /\
    run (mtcall_run cx dbg fuel c (YProcess rng now ops fin)) sch ch = (Done (WProcess (Ok SeenNone) [] (Ok tt), mkMT (tc_set_rx (mt_tls c) rx) (mt_client_id c) (mkST MInit None) (mt_pkt_id c)), sch', ch').
Proof. exact MqttTlsCaseP.stuck. Qed.
Print Assumptions C79_stuck_refuted.
(** A client gets there when CONNACK does not come in time. *)
Theorem C79_reached_refuted : exists h x c, mthistory case_cx true 1 mtalk_init (h ++ [(x, WProcess (Err (MTErr (MStateTimeout WaitConAck))) [] (Ok tt))]) c /\
  tc_state (mt_tls c) = TConnected /\ tc_timeout (mt_tls c) = None /\ mt_st c = mkST MInit None /\ buffer_holds (tc_rx (mt_tls c)) [] [].
Proof. exact MqttTlsCaseP.stuck_refuted. Qed.
Print Assumptions C79_reached_refuted.

(** C80: the packet identifiers that subscribe and unsubscribe return are not zero, and distinct as long as there are not more than
    65535 calls; from any point of a history, with a bus that may fail at any time. *)
Theorem C80_distinct : forall cx dbg fuel cf sn src_port dst h1 c1 h2 c, crypto_ok cx -> tconfig_ok cf ->
  mthistory cx dbg fuel (mt_init cx sn src_port dst cf) h1 c1 -> mthistory cx dbg fuel c1 h2 c ->
  Forall (fun id => 1 <= id <= 65535) (mt_granted h2) /\ (zlen (mt_requests h2) <= 65535 -> NoDup (mt_granted h2)).
Proof. exact (fun cx dbg fuel cf sn src_port dst h1 c1 h2 c CX CF => MqttTlsHist2P.mt_ids_distinct cx dbg fuel cf CX CF sn src_port dst h1 c1 h2 c). Qed.
Print Assumptions C80_distinct.

(** C81: [is_connected] is true only after [process] reported a CONNACK, and the TLS handshake was completed before. *)
Theorem C81_connack : forall cx dbg fuel cf sn src_port dst h c, crypto_ok cx -> tconfig_ok cf -> mthistory cx dbg fuel (mt_init cx sn src_port dst cf) h c ->
  mt_is_connected c = true -> connack_in h.
Proof. exact (fun cx dbg fuel cf sn src_port dst h c CX CF => MqttTlsHist2P.connected_connack cx dbg fuel cf CX CF sn src_port dst h c). Qed.
Print Assumptions C81_connack.

(** C82: the MQTT client uses its TLS client only as one of its callers could: every history is one of the TLS client, with the
    same calls of [process], sessions of readers and writers and without [write_all].  So what is proved of every history of the TLS client (C54, C60, C68)
    holds for the MQTT client. *)
Theorem C82_tls_history : forall cx dbg fuel cf sn src_port dst h c, crypto_ok cx -> tconfig_ok cf -> mthistory cx dbg fuel (mt_init cx sn src_port dst cf) h c ->
  exists th, thistory cx dbg fuel (tls_init cx sn src_port dst cf) th (mt_tls c) /\ Forall (fun y => tunnel (fst y)) th /\ tls_processed th = mt_processed h /\
    (mt_is_connected c = true -> handshake_in th).
Proof. exact (fun cx dbg fuel cf sn src_port dst h c CX CF => MqttTlsHist2P.tls_history cx dbg fuel cf CX CF sn src_port dst h c). Qed.
Print Assumptions C82_tls_history.

(** C83: what [process] reports and what is read from a message are parts of the readable bytes, and these are the content of
    records that passed the authentication, behind what was readable before; a debug build, and no part of a handshake message is pending (C54). *)
Theorem C83_authentic_partial : forall cx fuel cf sn src_port dst h c rng now ops fin a c' got, crypto_ok cx -> tconfig_ok cf ->
  mthistory cx true fuel (mt_init cx sn src_port dst cf) h c -> mtcall_ok (YProcess rng now ops fin) -> ~ fragment_pending (mt_tls c) ->
  any_bus (received (mtcall_run cx true fuel c (YProcess rng now ops fin)) []) (Done (a, c', got)) ->
  exists t1, delivers cx (mt_tls c) got t1 /\ answer_from (readable t1) a /\ exists pos, 0 <= pos /\ readable (mt_tls c') = zdrop pos (readable t1).
Proof. exact (fun cx fuel cf sn src_port dst h c rng now ops fin a c' got CX CF => MqttTlsAuthP.process_auth cx fuel cf CX CF sn src_port dst h c rng now ops fin a c' got). Qed.
Print Assumptions C83_authentic_partial.
(** The other calls leave the readable bytes as they are. *)
Theorem C83_others : forall cx fuel cf sn src_port dst h c x a c', crypto_ok cx -> tconfig_ok cf ->
  mthistory cx true fuel (mt_init cx sn src_port dst cf) h c -> mtcall_ok x -> (forall rng now ops fin, x <> YProcess rng now ops fin) ->
  any_bus (mtcall_run cx true fuel c x) (Done (a, c')) -> readable (mt_tls c') = readable (mt_tls c).
Proof. exact (fun cx fuel cf sn src_port dst h c x a c' CX CF => MqttTlsAuthP.others_keep cx fuel cf CX CF sn src_port dst h c x a c'). Qed.
Print Assumptions C83_others.

(** A history: the handshake, CONNACK, requests, one with a failing bus, a message. *)
Definition case_talk : list (mtcall * (TlsClient -> reads)) :=
  mt_to_waiting ++ mt_to_ready ++
  [(YSubscribe [97; 47; 35], fun _ => tx_reads); (YSubscribe [98], fun _ => [None]); (YUnsubscribe [99], fun _ => tx_reads);
   (YProcess talk_rng 107 [PPayload 5] true, mt_record 1 (publish_packet false [97; 47; 98] [] [7; 8]))].
Example C80_case : tconfig_ok talk_cf /\ ~ fragment_pending (mt_tls case_mt_ready) /\ (exists h0, mthistory case_cx true 1 mtalk_init h0 case_mt_greeted) /\
  exists h c, mthistory case_cx true 1 case_mt_greeted h c /\ mt_is_connected c = true /\ mt_granted h = [2; 4] /\ zlen (mt_requests h) = 3 /\ zlen (mt_processed h) = 4 /\
  map snd h = [WProcess (Ok (SeenCallAfter 10)) [] (Ok tt); WProcess (Ok (SeenCallAfter 10)) [] (Ok tt); WProcess (Ok (SeenAck AConnAck)) [] (Ok tt);
               WSub (Ok 2); WSub (Err (MTClient (mkAlert 1 80))); WSub (Ok 4); WProcess (Ok (SeenPublish 3 2)) [Ok [7; 8]] (Ok tt)].
Proof.
  split; [exact TlsTalkP.talk_cf_ok|]. split; [discriminate|]. split.
  { destruct MqttTlsCaseP.greeted_mtalk as (h & T & _). exists ([] ++ h). apply (MqttTlsCaseP.mtalk_history mtalk_init _ _ _ _ MqttTlsCaseP.greeted_ok T). constructor. }
  assert (match mtalk case_mt_greeted case_talk with Some (h, c) => Some (mt_is_connected c, mt_granted h, zlen (mt_requests h), zlen (mt_processed h), map snd h) | None => None end =
    Some (true, [2; 4], 3, 4, [WProcess (Ok (SeenCallAfter 10)) [] (Ok tt); WProcess (Ok (SeenCallAfter 10)) [] (Ok tt); WProcess (Ok (SeenAck AConnAck)) [] (Ok tt);
               WSub (Ok 2); WSub (Err (MTClient (mkAlert 1 80))); WSub (Ok 4); WProcess (Ok (SeenPublish 3 2)) [Ok [7; 8]] (Ok tt)])) as E by (vm_compute; reflexivity).
  destruct (mtalk case_mt_greeted case_talk) as [(h, c)|] eqn:T; [|discriminate E]. exists h, c.
  assert (Forall (fun x => mtcall_ok (fst x)) case_talk) as K.
  { unfold case_talk, mt_to_waiting, mt_to_ready, ycall. cbn [app]. repeat (apply Forall_cons; [cbn [fst mtcall_ok]; try (split; [exact TlsTalkP.talk_rng_ok|]); try (apply Forall_nil); try (repeat constructor; discriminate)|]). apply Forall_nil. }
  split; [exact (MqttTlsCaseP.mtalk_history case_mt_greeted case_talk case_mt_greeted h c K T [] (YNil _ _ _ _))|]. injection E as E1 E2 E3 E4 E5. auto.
Qed.
