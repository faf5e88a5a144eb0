(** C110: the MQTT client over TLS from its first call to the packets of the server. *)
From Coq Require Import Lia String.
From Verif Require Import Model.Prelude Model.Bus Model.Chip Model.Specifiers Model.Mqtt Model.TlsTypes Model.TlsBuf Model.TlsKeys Model.TlsClient Model.MqttTls
  Spec.Hoare Spec.Sock Spec.UdpClient Spec.Calls Spec.Cases Spec.TcpClient Spec.Silent Spec.TlsSecrets Spec.TlsMessages Spec.MqttMsg Spec.MqttStream Spec.TlsCases Spec.TlsProtect Spec.TlsTalk Spec.TlsQueue Spec.TlsSession Spec.TlsWire Spec.TlsAuth Spec.TlsRx Spec.TlsStream Spec.TlsComplete Spec.TlsArrive
  Spec.MqttTlsMsg Spec.MqttTlsStream Spec.MqttTlsConnect.
From Verif Require Proof.MqttTlsStartP Proof.TlsCaseP Proof.TlsTalkP Spec.DhcpCases.
Local Open Scope list_scope.

(** The connected interrupt is raised, and while [process] sends the ClientHello nothing else happens on the socket, as in C108.  Then it is
    the connection of [C110_session]: the client sends the ClientHello, its Finished and CONNECT, and nothing else; the application is told of CONNACK and
    then of the packets completely, once and in order. *)
Theorem C110_connection : forall cx dbg fuel c rng now ops, let k := mt_tls c in let n := sn_raw (tc_sn k) in crypto_ok cx -> connecting cx k -> mt_st c = mkST MInit None -> client_id_ok c ->
  rng_ok rng -> zlen (tc_hostname k) < 256 -> bytes_ok (tc_hostname k) -> bytes_ok (tc_identity k) -> let h := greeting k rng in zlen (hello_record h (zeros 32)) <= buffer_size k ->
  forall ch sch rd tx, let s := c_sock ch n in tcp_view s rd tx -> tx_bytes s -> zlen (unread s) < 5 ->
  ir_bit 0 (s_ir s) -> ~ ir_bit 1 (s_ir s) -> ~ ir_bit 3 (s_ir s) -> zlen (hello_record h (zeros 32)) + 80 + zlen (mt_connect_of c) <= tx_room ch k -> silent sch n ->
  exists c0 sch' ch0 b, run (mtcall_run cx dbg fuel c (YProcess rng now ops true)) sch ch = (Done (WProcess (Ok (SeenCallAfter 10)) [] (Ok tt), c0), sch', ch0) /\
  b = psk_binder cx (tc_psk k) (up_to_binders (hello_message h b)) /\
  forall hello extensions share key room flags props datas ms l1 c1 ch1 l2 c2 ch2 l3 c3 ch3,
  server_hello hello share -> cx_sec1 cx share = Some key -> bytes_ok hello -> zlen (hs_message 2 hello) <= buffer_size k - 22 ->
  encrypted_extensions extensions -> bytes_ok extensions -> zlen (hs_message 8 extensions) <= buffer_size k - 39 ->
  zlen datas < 2 ^ 64 - 1 -> Forall bytes_ok datas -> Forall (fun d => zlen d <= room) datas -> 0 <= room <= buffer_size k - 39 ->
  zlen props < 125 -> Forall message_ok ms -> concat datas = connack_packet flags 0 props ++ message_stream ms ->
  let psk := tc_psk k in let dhe := cx_dh cx (rg_secret rng) key in let t0 := hello_message h b in let records := flight cx psk dhe t0 hello extensions in let t3 := upto_finished cx psk dhe t0 hello extensions in
  let server := derive cx (master_secret cx psk dhe) "s ap traffic" t3 in let client := derive cx (master_secret cx psk dhe) "c ap traffic" t3 in
  mt_asks cx dbg mt_handshaking c0 ch0 l1 c1 ch1 -> tc_state (mt_tls c1) = TConnected -> mt_asks cx dbg (mt_awaiting room) c1 ch1 l2 c2 ch2 -> mt_is_connected c2 = true ->
  mt_polls cx dbg (roomy room (buffer_size (mt_tls c2))) c2 ch2 l3 c3 ch3 -> receives ch3 k rd (concat records ++ record_stream cx server 0 datas) ->
  (exists l, l1 = l ++ [WProcess (Ok (SeenCallAfter 10)) [] (Ok tt)] /\ Forall mt_goes_on l) /\ (exists l, l2 = l ++ [WProcess (Ok (SeenAck AConnAck)) [] (Ok tt)] /\ Forall mt_goes_on l) /\
  let k3 := length (mt_news l3) in (k3 <= length ms)%nat /\ Forall2 (fun p m => snd p = mt_tells m (fst p)) (mt_news l3) (firstn k3 ms) /\
  exists j, (j <= length datas)%nat /\ mt_listens c3 server (Z.of_nat j) (readable (mt_tls c3)) /\ connack_packet flags 0 props ++ message_stream (firstn k3 ms) ++ readable (mt_tls c3) = concat (firstn j datas) /\
    tcp_view (c_sock ch3 n) (rd ++ concat records ++ record_stream cx server 0 (firstn j datas))
      (tx ++ hello_record h b ++ reply cx psk dhe t0 hello extensions ++ protected_record cx client 0 23 (mt_connect_of c)).
Proof. exact MqttTlsStartP.connection. Qed.
Print Assumptions C110_connection.

(** And with the first call of a client that has not been used in front: it opens the socket towards the server; later the chip makes the
    connection.  [rd] and [tx] are what earlier connections of the socket had carried. *)
Theorem C110_from_start : forall cx dbg fuel0 c rng0 start ops0 ch sch0 a0 cw sch0' ch0, let k := mt_tls c in let n := sn_raw (tc_sn k) in crypto_ok cx ->
  tc_state k = TReset -> tc_ks k = ks_default cx -> 1024 <= buffer_size k <= 16384 -> mt_st c = mkST MInit None -> client_id_ok c ->
  zlen (tc_hostname k) < 256 -> bytes_ok (tc_hostname k) -> bytes_ok (tc_identity k) -> is_u16 (tc_src_port k) -> addr_ok (tc_dst k) -> sizes_ok (c_sock ch n) -> no_faults sch0 -> seen_ir sch0 ch n = 0 ->
  run (mtcall_run cx dbg fuel0 c (YProcess rng0 start ops0 true)) sch0 ch = (Done (a0, cw), sch0', ch0) -> let rd := s_rxlog (c_sock ch0 n) in let tx := sent (c_sock ch0 n) in
  a0 = WProcess (Ok (SeenCallAfter 10)) [] (Ok tt) /\ configured (c_sock ch0 n) 1 (tc_src_port k) (tc_dst k) /\ s_sr (c_sock ch0 n) = 0x15 /\
  forall che fuel rng now ops sch, let s := c_sock che n in let h := greeting k rng in only_events (c_sock ch0 n) s -> tcp_open s -> tx_bytes s -> zlen (unread s) < 5 ->
  ir_bit 0 (s_ir s) -> ~ ir_bit 1 (s_ir s) -> ~ ir_bit 3 (s_ir s) -> rng_ok rng -> zlen (hello_record h (zeros 32)) <= buffer_size k ->
  zlen (hello_record h (zeros 32)) + 80 + zlen (mt_connect_of c) <= tx_room che k -> silent sch n ->
  exists cg sch' chg b, run (mtcall_run cx dbg fuel cw (YProcess rng now ops true)) sch che = (Done (WProcess (Ok (SeenCallAfter 10)) [] (Ok tt), cg), sch', chg) /\
  b = psk_binder cx (tc_psk k) (up_to_binders (hello_message h b)) /\
  forall hello extensions share key room flags props datas ms l1 c1 ch1 l2 c2 ch2 l3 c3 ch3,
  server_hello hello share -> cx_sec1 cx share = Some key -> bytes_ok hello -> zlen (hs_message 2 hello) <= buffer_size k - 22 ->
  encrypted_extensions extensions -> bytes_ok extensions -> zlen (hs_message 8 extensions) <= buffer_size k - 39 ->
  zlen datas < 2 ^ 64 - 1 -> Forall bytes_ok datas -> Forall (fun d => zlen d <= room) datas -> 0 <= room <= buffer_size k - 39 ->
  zlen props < 125 -> Forall message_ok ms -> concat datas = connack_packet flags 0 props ++ message_stream ms ->
  let psk := tc_psk k in let dhe := cx_dh cx (rg_secret rng) key in let t0 := hello_message h b in let records := flight cx psk dhe t0 hello extensions in let t3 := upto_finished cx psk dhe t0 hello extensions in
  let server := derive cx (master_secret cx psk dhe) "s ap traffic" t3 in let client := derive cx (master_secret cx psk dhe) "c ap traffic" t3 in
  mt_asks cx dbg mt_handshaking cg chg l1 c1 ch1 -> tc_state (mt_tls c1) = TConnected -> mt_asks cx dbg (mt_awaiting room) c1 ch1 l2 c2 ch2 -> mt_is_connected c2 = true ->
  mt_polls cx dbg (roomy room (buffer_size (mt_tls c2))) c2 ch2 l3 c3 ch3 -> receives ch3 k rd (concat records ++ record_stream cx server 0 datas) ->
  (exists l, l1 = l ++ [WProcess (Ok (SeenCallAfter 10)) [] (Ok tt)] /\ Forall mt_goes_on l) /\ (exists l, l2 = l ++ [WProcess (Ok (SeenAck AConnAck)) [] (Ok tt)] /\ Forall mt_goes_on l) /\
  let k3 := length (mt_news l3) in (k3 <= length ms)%nat /\ Forall2 (fun p m => snd p = mt_tells m (fst p)) (mt_news l3) (firstn k3 ms) /\
  exists j, (j <= length datas)%nat /\ mt_listens c3 server (Z.of_nat j) (readable (mt_tls c3)) /\ connack_packet flags 0 props ++ message_stream (firstn k3 ms) ++ readable (mt_tls c3) = concat (firstn j datas) /\
    tcp_view (c_sock ch3 n) (rd ++ concat records ++ record_stream cx server 0 (firstn j datas))
      (tx ++ hello_record h b ++ reply cx psk dhe t0 hello extensions ++ protected_record cx client 0 23 (mt_connect_of c)).
Proof. exact MqttTlsStartP.from_start. Qed.
Print Assumptions C110_from_start.

(** A client takes over a socket that was in use; then the connection is made and the ClientHello is sent.  How it goes on is
    [C110_case]. *)
Example C110_start_case : let c := MqttTlsStartP.start_client in let k := mt_tls c in let n := sn_raw (tc_sn k) in
  let made ch := chip_evs ch (t_evs (tick_of [EvCommit 5 6; EvConnected 77 88; EvIr 1])) in
  crypto_ok case_cx /\ tc_state k = TReset /\ tc_ks k = ks_default case_cx /\ buffer_size k = 1024 /\ mt_st c = mkST MInit None /\ client_id_ok c /\ is_u16 (tc_src_port k) /\ addr_ok (tc_dst k) /\
  sizes_ok (c_sock case_udp n) /\ no_faults DhcpCases.case_ticks /\ seen_ir DhcpCases.case_ticks case_udp n = 0 /\ rng_ok talk_rng /\
  zlen (hello_record (greeting k talk_rng) (zeros 32)) = 239 /\ zlen (mt_connect_of c) = 21 /\
  (forall ch, only_events (c_sock ch 3) (c_sock (made ch) 3)) /\
  match run (mtcall_run case_cx false 9 c (YProcess talk_rng 5 [] true)) DhcpCases.case_ticks case_udp with
  | (Done (a0, c0), _, ch0) => a0 = WProcess (Ok (SeenCallAfter 10)) [] (Ok tt) /\ (s_pend (c_sock (made ch0) 3) = None /\ data_state (s_sr (c_sock (made ch0) 3)) = true) /\
      unread (c_sock (made ch0) 3) = [] /\ s_ir (c_sock (made ch0) 3) = 1 /\ tx_room (made ch0) k = 2048 /\
      match run (mtcall_run case_cx false 9 c0 (YProcess talk_rng 7 [] true)) [] (made ch0) with
      | (Done (a1, c1), _, ch1) => a1 = WProcess (Ok (SeenCallAfter 10)) [] (Ok tt) /\ transcript (mt_tls c1) <> []
      | _ => False end
  | _ => False end.
Proof.
  split; [exact TlsCaseP.case_cx_ok|]. split; [reflexivity|]. split; [reflexivity|]. split; [reflexivity|]. split; [reflexivity|].
  split; [intros i E; injection E as <-; split; [vm_compute; discriminate|repeat constructor; discriminate]|]. split; [unfold is_u16; cbn; lia|].
  split; [vm_compute; repeat split; try discriminate; repeat constructor; discriminate|]. split; [split; vm_compute; auto|]. split; [repeat constructor|]. split; [reflexivity|].
  split; [exact TlsTalkP.talk_rng_ok|]. split; [vm_compute; reflexivity|]. split; [vm_compute; reflexivity|]. split; [|exact MqttTlsStartP.start_calls].
  intros ch. exists [EvCommit 5 6; EvConnected 77 88; EvIr 1]. reflexivity.
Qed.
