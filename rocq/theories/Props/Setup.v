(** C103: what the calls that set a client's socket up leave behind. *)
From Coq Require Import Lia.
From Verif Require Import Model.Prelude Model.Bus Model.Chip Model.Specifiers Model.DhcpClient Model.Sntp Model.Mqtt Model.TlsKeys Model.TlsBuf Model.TlsClient
  Spec.Hoare Spec.Sock Spec.UdpClient Spec.TcpClient Spec.Calls Spec.Cases Spec.DhcpRfc Spec.DhcpCases Spec.SntpMsg Spec.MqttMsg Spec.Setup Spec.TlsCases Spec.TlsTalk.
From Verif Require Proof.SetupP Proof.SetupRunP.

(** C103: [setup_socket] of the DHCP client: receive interrupts on, own address set, socket bound. *)
Theorem C103_dhcp : forall dbg fuel cl c sch r sch' c', let n := sn_raw (cl_sn cl) in let s := c_sock c n in let s' := c_sock c' n in
  client_ok cl -> sizes_ok s -> no_faults sch -> run (setup_socket dbg fuel cl) sch c = (Done r, sch', c') ->
  r = Ok tt /\ set_up c c' n [2] SIPR /\ map (c_common c') SIPR = cl_ip cl /\
  configured s' 2 (cl_port cl) (dest_ip s, dest_port s) /\ tx_size s' = tx_size s /\
  exists new more, udp_view s' new (s_wire s ++ more) (dest_ip s, dest_port s).
Proof. exact SetupRunP.dhcp. Qed.
Print Assumptions C103_dhcp.

(** C103: [setup_socket] of the SNTP client: receive interrupts on, socket bound, server as destination. *)
Theorem C103_sntp : forall dbg fuel cl c sch r sch' c', let n := sn_raw (sc_sn cl) in let s := c_sock c n in let s' := c_sock c' n in
  is_u16 (sc_port cl) -> addr_ok (sc_server cl) -> sizes_ok s -> no_faults sch ->
  run (sntp_setup_socket dbg fuel cl) sch c = (Done r, sch', c') ->
  r = Ok tt /\ set_up c c' n [2] [] /\ configured s' 2 (sc_port cl) (sc_server cl) /\ tx_size s' = tx_size s /\
  exists new more, udp_view s' new (s_wire s ++ more) (sc_server cl).
Proof. exact SetupRunP.sntp. Qed.
Print Assumptions C103_sntp.

(** C103: the first [process] of the MQTT client, and the first after every loss of the connection: all
    interrupts it acts on are on, and a connection to the broker is under way that starts with an empty
    stream. *)
Theorem C103_mqtt : forall dbg fuel cl now c sch x sch' c', let n := sn_raw (mq_sn cl) in let s := c_sock c n in let s' := c_sock c' n in
  is_u16 (mq_src_port cl) -> addr_ok (mq_server cl) -> sizes_ok s -> st_state (mq_st cl) = MInit -> no_faults sch ->
  run (mqtt_process dbg fuel cl now) sch c = (Done x, sch', c') ->
  x = (Ok (MECallAfter 10), mq_set_timeout cl WaitConInt now) /\ set_up c c' n [0; 1; 2; 3] [] /\
  configured s' 1 (mq_src_port cl) (mq_server cl) /\ s_sr s' = 0x15 /\ (exists more, s_wire s' = s_wire s ++ more) /\
  forall s'', only_events s' s'' -> tcp_open s'' -> tcp_view s'' (s_rxlog s') (sent s').
Proof. exact SetupRunP.mqtt. Qed.
Print Assumptions C103_mqtt.

(** C103: [process] of the TLS client in its first state, when no interrupt is pending: the same, with the
    chip's receive buffer as large as the client's. *)
Theorem C103_tls : forall cx dbg fuel cl rng now c sch x sch' c', let n := sn_raw (tc_sn cl) in let s := c_sock c n in let s' := c_sock c' n in
  is_u16 (tc_src_port cl) -> addr_ok (tc_dst cl) -> sizes_ok s -> tc_state cl = TReset -> no_faults sch -> seen_ir sch c n = 0 ->
  run (tls_process cx dbg fuel cl rng now) sch c = (Done x, sch', c') ->
  x = (Ok (TCallAfter 10), set_state_with_timeout cl TWaitConInt now) /\ set_up c c' n [0; 1; 2; 3; 4] [] /\
  rx_size s' = zlen (b_buf (tc_rx cl)) /\
  configured s' 1 (tc_src_port cl) (tc_dst cl) /\ s_sr s' = 0x15 /\ (exists more, s_wire s' = s_wire s ++ more) /\
  forall s'', only_events s' s'' -> tcp_open s'' -> tcp_view s'' (s_rxlog s') (sent s').
Proof. exact SetupRunP.tls. Qed.
Print Assumptions C103_tls.
Definition case_mqtt : MqttClient := mqtt_new Sn3 50000 ([10; 0; 0; 9], 1883).
(** [case_udp] is a chip whose socket 3 is in use; the clients take it over.  Before each transaction the chip
    finishes the command under way. *)
Example C103_case : client_ok case_asked /\ sizes_ok (c_sock case_udp 3) /\ addr_ok (sc_server case_sntp) /\ is_u16 (sc_port case_sntp) /\ no_faults case_ticks /\
  st_state (mq_st case_mqtt) = MInit /\ tc_state talk_init = TReset /\ seen_ir case_ticks case_udp 3 = 0 /\
  let see (A : Type) (p : prog A) := let '(o, _, c') := run p case_ticks case_udp in
    let s := c_sock c' 3 in (match o with Done _ => true | _ => false end, s_sr s, c_common c' 0x18, s_reg s 0x2C, map (c_common c') SIPR, local_port s, dest_ip s) in
  see _ (setup_socket false 9 case_asked) = (true, 0x22, 8, 228, cl_ip case_asked, 68, [10; 0; 0; 9]) /\
  see _ (sntp_setup_socket false 9 case_sntp) = (true, 0x22, 8, 228, [0; 0; 0; 0], 123, [10; 0; 0; 1]) /\
  see _ (mqtt_process false 9 case_mqtt 5) = (true, 0x15, 8, 239, [0; 0; 0; 0], 50000, [10; 0; 0; 9]) /\
  see _ (tls_process case_cx false 9 talk_init (TlsKeys.mkRng [] [] []) 5) = (true, 0x15, 8, 255, [0; 0; 0; 0], 50000, [10; 0; 0; 9]).
Proof.
  split; [vm_compute; repeat split; try discriminate; repeat constructor; discriminate|].
  split; [split; vm_compute; auto|]. split; [vm_compute; repeat split; try discriminate; repeat constructor; discriminate|].
  split; [unfold is_u16; cbn; lia|]. split; [repeat constructor|]. vm_compute. auto 10.
Qed.
