(** C109: the TLS client from its first call to the data of the server. *)
From Coq Require Import Lia String.
From Verif Require Import Model.Prelude Model.Bus Model.Chip Model.Specifiers Model.TlsTypes Model.TlsBuf Model.TlsKeys Model.TlsClient
  Spec.Hoare Spec.Sock Spec.UdpClient Spec.Calls Spec.Cases Spec.TcpClient Spec.Silent Spec.TlsSecrets Spec.TlsMessages Spec.MqttMsg Spec.TlsCases Spec.TlsProtect Spec.TlsTalk Spec.TlsQueue Spec.TlsSession Spec.TlsWire Spec.TlsAuth Spec.TlsRx Spec.TlsStream Spec.TlsComplete Spec.TlsArrive.
From Verif Require Proof.TlsStartP Proof.TlsCaseP Proof.TlsTalkP Spec.DhcpCases.
Local Open Scope list_scope.

(** A client that has not been used.  Its first call opens the socket towards the server and asks for the next within ten seconds.  When the
    chip has made the connection, the next call sends the ClientHello, and from there on it is the connection of [C109_connection].
    [rd] and [tx] are what earlier connections of the socket had carried. *)
Theorem C109_from_start : forall cx dbg fuel0 c rng0 start ch sch0 x sch0' ch0, let n := sn_raw (tc_sn c) in crypto_ok cx -> tc_state c = TReset -> tc_ks c = ks_default cx -> 1024 <= buffer_size c <= 16384 ->
  zlen (tc_hostname c) < 256 -> bytes_ok (tc_hostname c) -> bytes_ok (tc_identity c) -> is_u16 (tc_src_port c) -> addr_ok (tc_dst c) -> sizes_ok (c_sock ch n) -> no_faults sch0 -> seen_ir sch0 ch n = 0 ->
  run (tls_process cx dbg fuel0 c rng0 start) sch0 ch = (Done x, sch0', ch0) -> let rd := s_rxlog (c_sock ch0 n) in let tx := sent (c_sock ch0 n) in
  exists cw, x = (Ok (TCallAfter 10), cw) /\ configured (c_sock ch0 n) 1 (tc_src_port c) (tc_dst c) /\ s_sr (c_sock ch0 n) = 0x15 /\ rx_size (c_sock ch0 n) = buffer_size c /\
  forall ch1 fuel rng now sch, let s := c_sock ch1 n in let h := greeting c rng in only_events (c_sock ch0 n) s -> tcp_open s -> tx_bytes s -> zlen (unread s) < 5 ->
  ir_bit 0 (s_ir s) -> ~ ir_bit 1 (s_ir s) -> ~ ir_bit 3 (s_ir s) -> rng_ok rng -> zlen (hello_record h (zeros 32)) <= buffer_size c -> zlen (hello_record h (zeros 32)) + 58 <= tx_room ch1 c -> silent sch n ->
  exists c1 sch' ch2 b, run (tls_process cx dbg fuel cw rng now) sch ch1 = (Done (Ok (TCallAfter 10), c1), sch', ch2) /\ b = psk_binder cx (tc_psk c) (up_to_binders (hello_message h b)) /\
  forall hello extensions share key, server_hello hello share -> cx_sec1 cx share = Some key -> bytes_ok hello -> zlen (hs_message 2 hello) <= buffer_size c - 22 ->
  encrypted_extensions extensions -> bytes_ok extensions -> zlen (hs_message 8 extensions) <= buffer_size c - 39 ->
  let dhe := cx_dh cx (rg_secret rng) key in let t0 := hello_message h b in let records := flight cx (tc_psk c) dhe t0 hello extensions in
  let traffic := derive cx (master_secret cx (tc_psk c) dhe) "s ap traffic" (upto_finished cx (tc_psk c) dhe t0 hello extensions) in
  forall room datas, Forall bytes_ok datas -> Forall (fun d => zlen d <= room) datas -> 0 <= room <= buffer_size c - 39 -> zlen datas < 2 ^ 64 - 1 ->
  forall rs1 c2 ch3 rs2 got c3 ch4, handshakes cx dbg c1 ch2 rs1 c2 ch3 -> tc_state c2 = TConnected -> uses cx dbg room c2 ch3 rs2 got c3 ch4 -> receives ch4 c rd (concat records ++ record_stream cx traffic 0 datas) ->
  Forall (fun r => r = Ok TNone \/ r = Ok TApplicationData) rs2 /\ (deliveries rs2 <= length datas)%nat /\ got ++ readable c3 = concat (firstn (deliveries rs2) datas) /\
  tcp_view (c_sock ch4 n) (rd ++ concat records ++ record_stream cx traffic 0 (firstn (deliveries rs2) datas)) (tx ++ hello_record h b ++ reply cx (tc_psk c) dhe t0 hello extensions).
Proof. exact TlsStartP.from_start. Qed.
Print Assumptions C109_from_start.

(** The client of C60 takes over a socket that was in use; then the connection is made and the ClientHello is sent.  How it goes on is
    [C109_connection_case]. *)
Example C109_start_case : let n := sn_raw (tc_sn talk_init) in let made ch := chip_evs ch (t_evs (tick_of [EvCommit 5 6; EvConnected 77 88; EvIr 1])) in
  crypto_ok case_cx /\ tc_state talk_init = TReset /\ tc_ks talk_init = ks_default case_cx /\ buffer_size talk_init = 1024 /\ is_u16 (tc_src_port talk_init) /\ addr_ok (tc_dst talk_init) /\
  sizes_ok (c_sock case_udp n) /\ no_faults DhcpCases.case_ticks /\ seen_ir DhcpCases.case_ticks case_udp n = 0 /\ rng_ok talk_rng /\ zlen (hello_record (greeting talk_init talk_rng) (zeros 32)) = 239 /\
  (forall ch, only_events (c_sock ch 3) (c_sock (made ch) 3)) /\
  match run (tls_process case_cx false 9 talk_init talk_rng 5) DhcpCases.case_ticks case_udp with
  | (Done (r, c0), _, ch0) => r = Ok (TCallAfter 10) /\ (s_pend (c_sock (made ch0) 3) = None /\ data_state (s_sr (c_sock (made ch0) 3)) = true) /\
      unread (c_sock (made ch0) 3) = [] /\ s_ir (c_sock (made ch0) 3) = 1 /\ tx_room (made ch0) talk_init = 2048 /\
      match run (tls_process case_cx false 9 c0 talk_rng 7) [] (made ch0) with
      | (Done (r1, c1), _, ch1) => r1 = Ok (TCallAfter 10) /\ transcript c1 <> []
      | _ => False end
  | _ => False end.
Proof.
  split; [exact TlsCaseP.case_cx_ok|]. split; [reflexivity|]. split; [reflexivity|]. split; [reflexivity|]. split; [unfold is_u16; cbn; lia|].
  split; [vm_compute; repeat split; try discriminate; repeat constructor; discriminate|]. split; [split; vm_compute; auto|]. split; [repeat constructor|]. split; [reflexivity|].
  split; [exact TlsTalkP.talk_rng_ok|]. split; [vm_compute; reflexivity|]. split; [|exact TlsStartP.start_calls].
  intros ch. exists [EvCommit 5 6; EvConnected 77 88; EvIr 1]. reflexivity.
Qed.
