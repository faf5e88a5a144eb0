(** C103: from the rules of [SetupP] to runs. *)
From Verif Require Import Model.Prelude Model.Bus Model.Chip Model.Specifiers Model.DhcpClient Model.Sntp Model.Mqtt Model.TlsBuf Model.TlsClient
  Spec.Hoare Spec.Sock Spec.Calls Spec.DhcpRfc Spec.SntpMsg Spec.MqttMsg Spec.Setup Proof.SetupP.

Lemma dhcp dbg fuel cl c sch r sch' c' : let n := sn_raw (cl_sn cl) in let s := c_sock c n in let s' := c_sock c' n in
  client_ok cl -> sizes_ok s -> no_faults sch -> run (setup_socket dbg fuel cl) sch c = (Done r, sch', c') ->
  r = Ok tt /\ set_up c c' n [2] SIPR /\ map (c_common c') SIPR = cl_ip cl /\
  configured s' 2 (cl_port cl) (dest_ip s, dest_port s) /\ tx_size s' = tx_size s /\
  exists new more, udp_view s' new (s_wire s ++ more) (dest_ip s, dest_port s).
Proof.
  intros n s s' (_ & _ & _ & _ & _ & Hp & Hi & _) Hz Hn E. pose proof (dhcp_setup dbg fuel cl c Hp Hi Hz sch Hn) as H. rewrite E in H.
  destruct H as (H1 & H2 & H3 & H4 & H5 & _ & H6). unfold n, s, s'. auto 8.
Qed.
Lemma sntp dbg fuel cl c sch r sch' c' : let n := sn_raw (sc_sn cl) in let s := c_sock c n in let s' := c_sock c' n in
  is_u16 (sc_port cl) -> addr_ok (sc_server cl) -> sizes_ok s -> no_faults sch ->
  run (sntp_setup_socket dbg fuel cl) sch c = (Done r, sch', c') ->
  r = Ok tt /\ set_up c c' n [2] [] /\ configured s' 2 (sc_port cl) (sc_server cl) /\ tx_size s' = tx_size s /\
  exists new more, udp_view s' new (s_wire s ++ more) (sc_server cl).
Proof. intros n s s' Hp Hi Hz Hn E. pose proof (sntp_setup dbg fuel cl c Hp Hi Hz sch Hn) as H. rewrite E in H. exact H. Qed.
Lemma mqtt dbg fuel cl now c sch x sch' c' : let n := sn_raw (mq_sn cl) in let s := c_sock c n in let s' := c_sock c' n in
  is_u16 (mq_src_port cl) -> addr_ok (mq_server cl) -> sizes_ok s -> st_state (mq_st cl) = MInit -> no_faults sch ->
  run (mqtt_process dbg fuel cl now) sch c = (Done x, sch', c') ->
  x = (Ok (MECallAfter 10), mq_set_timeout cl WaitConInt now) /\ set_up c c' n [0; 1; 2; 3] [] /\
  configured s' 1 (mq_src_port cl) (mq_server cl) /\ s_sr s' = 0x15 /\ (exists more, s_wire s' = s_wire s ++ more) /\
  forall s'', only_events s' s'' -> tcp_open s'' -> tcp_view s'' (s_rxlog s') (sent s').
Proof. intros n s s' Hp Hi Hz Hs Hn E. pose proof (mqtt_setup dbg fuel cl now c Hp Hi Hz Hs sch Hn) as H. rewrite E in H. exact H. Qed.
Lemma tls cx dbg fuel cl rng now c sch x sch' c' : let n := sn_raw (tc_sn cl) in let s := c_sock c n in let s' := c_sock c' n in
  is_u16 (tc_src_port cl) -> addr_ok (tc_dst cl) -> sizes_ok s -> tc_state cl = TReset -> no_faults sch -> seen_ir sch c n = 0 ->
  run (tls_process cx dbg fuel cl rng now) sch c = (Done x, sch', c') ->
  x = (Ok (TCallAfter 10), set_state_with_timeout cl TWaitConInt now) /\ set_up c c' n [0; 1; 2; 3; 4] [] /\
  rx_size s' = zlen (b_buf (tc_rx cl)) /\
  configured s' 1 (tc_src_port cl) (tc_dst cl) /\ s_sr s' = 0x15 /\ (exists more, s_wire s' = s_wire s ++ more) /\
  forall s'', only_events s' s'' -> tcp_open s'' -> tcp_view s'' (s_rxlog s') (sent s').
Proof. intros n s s' Hp Hi Hz Hs Hn Hi0 E. exact (tls_setup cx dbg fuel cl rng now c Hp Hi Hz Hs sch x sch' c' Hn Hi0 E). Qed.
