(** The MQTT client over TLS from its first call on. *)
From Coq Require Import String Lia.
From Verif Require Import Model.Prelude Model.Bus Model.Chip Model.Specifiers Model.Mqtt Model.TlsTypes Model.TlsBuf Model.TlsKeys Model.TlsClient Model.MqttTls
  Spec.Hoare Spec.Sock Spec.UdpClient Spec.Calls Spec.Cases Spec.TcpClient Spec.Silent Spec.TlsSecrets Spec.TlsMessages Spec.MqttMsg Spec.MqttStream Spec.TlsCases Spec.TlsProtect Spec.TlsTalk Spec.TlsQueue Spec.TlsSession Spec.TlsWire Spec.TlsAuth Spec.TlsRx Spec.TlsStream Spec.TlsComplete Spec.TlsArrive
  Spec.MqttTlsMsg Spec.MqttTlsStream Spec.MqttTlsConnect.
From Verif Require Proof.TlsOpenP Proof.SetupRunP Proof.MqttTlsConnectP Proof.MqttStreamP Proof.ChipP Spec.DhcpCases.
Local Open Scope list_scope.

(** A call of the TLS client that asks to be called again, seen through the MQTT client. *)
Lemma through cx dbg fuel c rng now ops fin sch ch k sch' ch' secs : run (tls_process cx dbg fuel (mt_tls c) rng now) sch ch = (Done (Ok (TCallAfter secs), k), sch', ch') ->
  run (mtcall_run cx dbg fuel c (YProcess rng now ops fin)) sch ch = (Done (WProcess (Ok (SeenCallAfter secs)) [] (Ok tt), mt_put c k), sch', ch').
Proof. intros E. cbn [mtcall_run]. rewrite ChipP.run_bind. unfold mt_process. rewrite ChipP.run_bind, E. reflexivity. Qed.
Lemma through_back cx dbg fuel c rng now ops fin sch ch a c' sch' ch' : run (mtcall_run cx dbg fuel c (YProcess rng now ops fin)) sch ch = (Done (a, c'), sch', ch') ->
  exists x sch1 ch1, run (tls_process cx dbg fuel (mt_tls c) rng now) sch ch = (Done x, sch1, ch1).
Proof.
  intros E. cbn [mtcall_run] in E. apply MqttStreamP.run_split in E. destruct E as (y & s1 & ch1 & E & _). unfold mt_process in E. apply MqttStreamP.run_split in E.
  destruct E as (x & s2 & ch2 & E & _). eauto.
Qed.

Lemma connection : forall cx dbg fuel c rng now ops, let k := mt_tls c in let n := sn_raw (tc_sn k) in crypto_ok cx -> connecting cx k -> mt_st c = mkST MInit None -> client_id_ok c ->
  rng_ok rng -> zlen (tc_hostname k) < 256 -> bytes_ok (tc_hostname k) -> bytes_ok (tc_identity k) -> let h := greeting k rng in zlen (hello_record h (zeros 32)) <= buffer_size k ->
  forall ch sch rd tx, let s := c_sock ch n in tcp_view s rd tx -> tx_bytes s -> zlen (unread s) < 5 ->
  ir_bit 0 (s_ir s) -> ~ ir_bit 1 (s_ir s) -> ~ ir_bit 3 (s_ir s) -> zlen (hello_record h (zeros 32)) + 80 + zlen (mt_connect_of c) <= tx_room ch k -> silent sch n ->
  exists c0 sch' ch0 b, run (mtcall_run cx dbg fuel c (YProcess rng now ops true)) sch ch = (Done (WProcess (Ok (SeenCallAfter 10)) [] (Ok tt), c0), sch', ch0) /\
  b = psk_binder cx (tc_psk k) (up_to_binders (hello_message h b)) /\
  forall hello extensions share key room flags props datas ms l1 c1 ch1 l2 c2 ch2 l3 c3 ch3,
  server_hello hello share -> cx_sec1 cx share = Some key -> bytes_ok hello -> zlen (hs_message 2 hello) <= buffer_size k - 22 ->
  encrypted_extensions extensions -> bytes_ok extensions -> zlen (hs_message 8 extensions) <= buffer_size k - 39 ->
  zlen datas < 2 ^ 64 - 1 -> Forall bytes_ok datas -> Forall (fun d => zlen d <= room) datas -> 0 <= room <= buffer_size k - 39 ->
  zlen props < 125 -> Forall message_ok ms -> concat datas = connack_packet flags 0 props ++ message_stream ms ->
  let psk := tc_psk k in let dhe := cx_dh cx (rg_secret rng) key in let t0 := hello_message h b in let records := flight cx psk dhe t0 hello extensions in let t3 := upto_finished cx psk dhe t0 hello extensions in
  let server := derive cx (master_secret cx psk dhe) "s ap traffic" t3 in let client := derive cx (master_secret cx psk dhe) "c ap traffic" t3 in
  mt_asks cx dbg mt_handshaking c0 ch0 l1 c1 ch1 -> tc_state (mt_tls c1) = TConnected -> mt_asks cx dbg (mt_awaiting room) c1 ch1 l2 c2 ch2 -> mt_is_connected c2 = true ->
  mt_polls cx dbg (roomy room (buffer_size (mt_tls c2))) c2 ch2 l3 c3 ch3 -> receives ch3 k rd (concat records ++ record_stream cx server 0 datas) ->
  (exists l, l1 = l ++ [WProcess (Ok (SeenCallAfter 10)) [] (Ok tt)] /\ Forall mt_goes_on l) /\ (exists l, l2 = l ++ [WProcess (Ok (SeenAck AConnAck)) [] (Ok tt)] /\ Forall mt_goes_on l) /\
  let k3 := length (mt_news l3) in (k3 <= length ms)%nat /\ Forall2 (fun p m => snd p = mt_tells m (fst p)) (mt_news l3) (firstn k3 ms) /\
  exists j, (j <= length datas)%nat /\ mt_listens c3 server (Z.of_nat j) (readable (mt_tls c3)) /\ connack_packet flags 0 props ++ message_stream (firstn k3 ms) ++ readable (mt_tls c3) = concat (firstn j datas) /\
    tcp_view (c_sock ch3 n) (rd ++ concat records ++ record_stream cx server 0 (firstn j datas))
      (tx ++ hello_record h b ++ reply cx psk dhe t0 hello extensions ++ protected_record cx client 0 23 (mt_connect_of c)).
Proof.
  intros cx dbg fuel c rng now ops k n CX CC St Ci RG Lh Bh Bi h Fits ch sch rd tx s V TB U I0 I1 I3 Room Hs. assert (0 <= zlen (mt_connect_of c)) as Lc by (unfold zlen; lia).
  destruct (TlsOpenP.client_opens cx dbg fuel k rng now CX CC RG Lh Bh Bi Fits ch sch rd tx V TB U I0 I1 I3 ltac:(fold h; lia) Hs) as (k0 & sch' & ch0 & b & Ru & Eb & G & Sm & V0 & TB0 & F0).
  exists (mt_put c k0), sch', ch0, b. split; [now apply through|]. split; [exact Eb|].
  intros hello extensions share key room flags props datas ms l1 c1 ch1 l2 c2 ch2 l3 c3 ch3 Hsh Hk Bhl Lhl Hee Be Le Hl Bd Ld Hr Hp Hms Ed psk dhe t0 records t3 server client A1 St1 A2 Cn P Rv.
  pose proof Sm as (Esn & _ & _ & _ & _ & Ep & Eb'). fold h in F0, V0. set (c0 := mt_put c k0) in *. change k0 with (mt_tls c0) in Esn, Ep, Eb', G.
  assert (mt_connect_of c0 = mt_connect_of c) as Ec by (apply MqttTlsConnectP.connect_same; [reflexivity|exact Eb']).
  assert (tx_room ch0 (mt_tls c0) = tx_room ch0 k) as Er by (unfold tx_room; now rewrite Esn).
  assert (receives ch3 (mt_tls c0) rd (concat records ++ record_stream cx server 0 datas)) as Rv' by (unfold receives in *; now rewrite Esn).
  unfold records, server, client, t3, psk in *. rewrite <- Ep in *.
  pose proof (MqttTlsConnectP.whole_session cx dbg c0 ch0 rd (tx ++ hello_record h b) (rg_secret rng) t0 hello extensions share key room flags props datas ms l1 c1 ch1 l2 c2 ch2 l3 c3 ch3
    CX G St Ci Hsh Hk Bhl ltac:(rewrite Eb'; exact Lhl) Hee Be ltac:(rewrite Eb'; exact Le) ltac:(rewrite Er, Ec; lia) ltac:(rewrite Esn; exact V0) ltac:(rewrite Esn; exact TB0) Hl Bd Ld ltac:(rewrite Eb'; exact Hr) Hp Hms Ed A1 St1 A2 Cn P Rv') as W.
  cbv zeta in W. rewrite Esn, Ec, <- (app_assoc tx) in W. exact W.
Qed.

Lemma from_start : forall cx dbg fuel0 c rng0 start ops0 ch sch0 a0 cw sch0' ch0, let k := mt_tls c in let n := sn_raw (tc_sn k) in crypto_ok cx ->
  tc_state k = TReset -> tc_ks k = ks_default cx -> 1024 <= buffer_size k <= 16384 -> mt_st c = mkST MInit None -> client_id_ok c ->
  zlen (tc_hostname k) < 256 -> bytes_ok (tc_hostname k) -> bytes_ok (tc_identity k) -> is_u16 (tc_src_port k) -> addr_ok (tc_dst k) -> sizes_ok (c_sock ch n) -> no_faults sch0 -> seen_ir sch0 ch n = 0 ->
  run (mtcall_run cx dbg fuel0 c (YProcess rng0 start ops0 true)) sch0 ch = (Done (a0, cw), sch0', ch0) -> let rd := s_rxlog (c_sock ch0 n) in let tx := sent (c_sock ch0 n) in
  a0 = WProcess (Ok (SeenCallAfter 10)) [] (Ok tt) /\ configured (c_sock ch0 n) 1 (tc_src_port k) (tc_dst k) /\ s_sr (c_sock ch0 n) = 0x15 /\
  forall che fuel rng now ops sch, let s := c_sock che n in let h := greeting k rng in only_events (c_sock ch0 n) s -> tcp_open s -> tx_bytes s -> zlen (unread s) < 5 ->
  ir_bit 0 (s_ir s) -> ~ ir_bit 1 (s_ir s) -> ~ ir_bit 3 (s_ir s) -> rng_ok rng -> zlen (hello_record h (zeros 32)) <= buffer_size k ->
  zlen (hello_record h (zeros 32)) + 80 + zlen (mt_connect_of c) <= tx_room che k -> silent sch n ->
  exists cg sch' chg b, run (mtcall_run cx dbg fuel cw (YProcess rng now ops true)) sch che = (Done (WProcess (Ok (SeenCallAfter 10)) [] (Ok tt), cg), sch', chg) /\
  b = psk_binder cx (tc_psk k) (up_to_binders (hello_message h b)) /\
  forall hello extensions share key room flags props datas ms l1 c1 ch1 l2 c2 ch2 l3 c3 ch3,
  server_hello hello share -> cx_sec1 cx share = Some key -> bytes_ok hello -> zlen (hs_message 2 hello) <= buffer_size k - 22 ->
  encrypted_extensions extensions -> bytes_ok extensions -> zlen (hs_message 8 extensions) <= buffer_size k - 39 ->
  zlen datas < 2 ^ 64 - 1 -> Forall bytes_ok datas -> Forall (fun d => zlen d <= room) datas -> 0 <= room <= buffer_size k - 39 ->
  zlen props < 125 -> Forall message_ok ms -> concat datas = connack_packet flags 0 props ++ message_stream ms ->
  let psk := tc_psk k in let dhe := cx_dh cx (rg_secret rng) key in let t0 := hello_message h b in let records := flight cx psk dhe t0 hello extensions in let t3 := upto_finished cx psk dhe t0 hello extensions in
  let server := derive cx (master_secret cx psk dhe) "s ap traffic" t3 in let client := derive cx (master_secret cx psk dhe) "c ap traffic" t3 in
  mt_asks cx dbg mt_handshaking cg chg l1 c1 ch1 -> tc_state (mt_tls c1) = TConnected -> mt_asks cx dbg (mt_awaiting room) c1 ch1 l2 c2 ch2 -> mt_is_connected c2 = true ->
  mt_polls cx dbg (roomy room (buffer_size (mt_tls c2))) c2 ch2 l3 c3 ch3 -> receives ch3 k rd (concat records ++ record_stream cx server 0 datas) ->
  (exists l, l1 = l ++ [WProcess (Ok (SeenCallAfter 10)) [] (Ok tt)] /\ Forall mt_goes_on l) /\ (exists l, l2 = l ++ [WProcess (Ok (SeenAck AConnAck)) [] (Ok tt)] /\ Forall mt_goes_on l) /\
  let k3 := length (mt_news l3) in (k3 <= length ms)%nat /\ Forall2 (fun p m => snd p = mt_tells m (fst p)) (mt_news l3) (firstn k3 ms) /\
  exists j, (j <= length datas)%nat /\ mt_listens c3 server (Z.of_nat j) (readable (mt_tls c3)) /\ connack_packet flags 0 props ++ message_stream (firstn k3 ms) ++ readable (mt_tls c3) = concat (firstn j datas) /\
    tcp_view (c_sock ch3 n) (rd ++ concat records ++ record_stream cx server 0 (firstn j datas))
      (tx ++ hello_record h b ++ reply cx psk dhe t0 hello extensions ++ protected_record cx client 0 23 (mt_connect_of c)).
Proof.
  intros cx dbg fuel0 c rng0 start ops0 ch sch0 a0 cw sch0' ch0 k n CX St Ks Bs Ms Ci Lh Bh Bi Hp Ha Hz Hs0 I E rd tx.
  destruct (through_back _ _ _ _ _ _ _ _ _ _ _ _ _ _ E) as (x & sch1 & ch1 & Et).
  destruct (SetupRunP.tls cx dbg fuel0 k rng0 start ch sch0 x sch1 ch1 Hp Ha Hz St Hs0 I Et) as (-> & _ & Rs & Cf & Sr & _ & V).
  pose proof (through cx dbg fuel0 c rng0 start ops0 true sch0 ch _ _ _ _ Et) as E'. rewrite E in E'. injection E' as -> -> _ ->.
  split; [reflexivity|]. split; [exact Cf|]. split; [exact Sr|].
  intros che fuel rng now ops sch s h Ho Ht TB U I0 I1 I3 RG Fits Room Hs.
  exact (connection cx dbg fuel (mt_put c (set_state_with_timeout k TWaitConInt start)) rng now ops CX (conj eq_refl (conj Ks Bs)) Ms Ci RG Lh Bh Bi Fits che sch rd tx (V s Ho Ht) TB U I0 I1 I3 Room Hs).
Qed.

(** The case: the chip of C103, whose socket is in use; then the connection is made. *)
Definition start_client : MqttTls := mkMT talk_init (Some [99]) (mkST MInit None) 1.
Definition made (ch : chip) : chip := chip_evs ch (t_evs (tick_of [EvCommit 5 6; EvConnected 77 88; EvIr 1])).
Lemma start_calls : match run (mtcall_run case_cx false 9 start_client (YProcess talk_rng 5 [] true)) DhcpCases.case_ticks case_udp with
  | (Done (a0, c0), _, ch0) => a0 = WProcess (Ok (SeenCallAfter 10)) [] (Ok tt) /\ (s_pend (c_sock (made ch0) 3) = None /\ data_state (s_sr (c_sock (made ch0) 3)) = true) /\
      unread (c_sock (made ch0) 3) = [] /\ s_ir (c_sock (made ch0) 3) = 1 /\ tx_room (made ch0) (mt_tls start_client) = 2048 /\
      match run (mtcall_run case_cx false 9 c0 (YProcess talk_rng 7 [] true)) [] (made ch0) with
      | (Done (a1, c1), _, ch1) => a1 = WProcess (Ok (SeenCallAfter 10)) [] (Ok tt) /\ transcript (mt_tls c1) <> []
      | _ => False end
  | _ => False end.
Proof. vm_compute. repeat split; discriminate. Qed.
