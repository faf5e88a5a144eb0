(** C18 to C21: opening sockets, bus faults, isolation of sockets. *)
From Verif Require Import Model.Prelude Model.Bus Model.Specifiers Model.Chip Model.HlIo Model.HlCommon Model.HlTcp Model.HlUdp
  Spec.Hoare Spec.Sock Spec.Cursor Spec.TcpClient Spec.UdpClient Spec.Calls Spec.Cases.
From Verif Require Proof.OpenP.

(** C18: in a debug build a port that another socket holds is refused ... *)
Theorem C18_port_refused : forall fuel sn port p c m,
  opens fuel sn port p -> m <> sn -> holds_port (c_sock c (sn_raw m)) port -> forall sch, no_faults sch ->
  exists sch' c', run (p true) sch c = (Panicked, sch', c').
Proof. exact CallsP.ports_refused. Qed.
Print Assumptions C18_port_refused.
(** ... and after a successful opening every other socket with that port was closed at some moment
    during the call. *)
Theorem C18_port_unique : forall fuel sn port p c, opens fuel sn port p -> forall sch r sch' c', no_faults sch ->
  run (p true) sch c = (Done r, sch', c') ->
  forall m, m <> sn -> local_port (c_sock c' (sn_raw m)) = port ->
    exists s, only_events (c_sock c (sn_raw m)) s /\ port_free (s_sr s).
Proof. exact CallsP.ports_unique. Qed.
Print Assumptions C18_port_unique.
(** Socket 3 is open on port 80; the closed sockets have that port too. *)
Example C18_case_refused : holds_port (c_sock case_udp 3) 80 /\
  fst (fst (run (udp_bind true 9 Sn5 80) [] case_udp)) = Panicked /\
  fst (fst (run (tcp_listen true 9 Sn5 80) [] case_udp)) = Panicked /\
  fst (fst (run (tcp_connect true 9 Sn5 80 ([10; 0; 0; 1], 7)) [] case_udp)) = Panicked.
Proof. split; [exact OpenP.case_holds|]. vm_compute. auto. Qed.
Example C18_case_unique : let sch := repeat (tick_of [EvCommit 5 6]) 30 in
  opens 9 Sn3 80 (fun dbg => udp_bind dbg 9 Sn3 80) /\ no_faults sch /\
  fst (fst (run (udp_bind true 9 Sn3 80) sch case_udp)) = Done (Ok tt) /\
  local_port (c_sock case_udp (sn_raw Sn5)) = 80.
Proof.
  split; [now left|]. split; [repeat constructor|]. vm_compute. auto.
Qed.

(** C19: when an opening call returns, the previous session was closed and seen closed (status 0)
    before the OPEN command, which found mode and port configured; LISTEN and CONNECT were issued in
    the initialised state (0x13), CONNECT with the destination.  A bound UDP socket starts with
    nothing but what arrived since; an established TCP connection starts with empty streams. *)
Theorem C19_udp_bind : forall dbg fuel sn port c, let s := c_sock c (sn_raw sn) in
  is_u16 port -> sizes_ok s ->
  if_returns (udp_bind dbg fuel sn port) (sn_raw sn) c (fun r s' => r = Ok tt /\
    reopened s s' [command 0x01 0x00 2 port (dest_ip s, dest_port s)] /\
    configured s' 2 port (dest_ip s, dest_port s) /\ tx_size s' = tx_size s /\ pending s' = 0 /\
    exists new more, udp_view s' new (s_wire s ++ more) (dest_ip s, dest_port s)).
Proof. exact OpenP.udp_bind_run. Qed.
Print Assumptions C19_udp_bind.
Theorem C19_tcp_listen : forall dbg fuel sn port c, let s := c_sock c (sn_raw sn) in
  is_u16 port -> sizes_ok s ->
  if_returns (tcp_listen dbg fuel sn port) (sn_raw sn) c (fun r s' => r = Ok tt /\
    reopened s s' [command 0x01 0x00 1 port (dest_ip s, dest_port s); command 0x02 0x13 1 port (dest_ip s, dest_port s)] /\
    configured s' 1 port (dest_ip s, dest_port s) /\ s_sr s' = 0x14 /\
    (exists more, s_wire s' = s_wire s ++ more) /\
    forall s'', only_events s' s'' -> tcp_open s'' -> tcp_view s'' (s_rxlog s') (sent s')).
Proof. exact OpenP.tcp_listen_run. Qed.
Print Assumptions C19_tcp_listen.
Theorem C19_tcp_connect : forall dbg fuel sn port addr c, let s := c_sock c (sn_raw sn) in
  is_u16 port -> addr_ok addr -> sizes_ok s ->
  if_returns (tcp_connect dbg fuel sn port addr) (sn_raw sn) c (fun r s' => r = Ok tt /\
    reopened s s' [command 0x01 0x00 1 port (dest_ip s, dest_port s); command 0x04 0x13 1 port addr] /\
    configured s' 1 port addr /\ s_sr s' = 0x15 /\
    (exists more, s_wire s' = s_wire s ++ more) /\
    forall s'', only_events s' s'' -> tcp_open s'' -> tcp_view s'' (s_rxlog s') (sent s')).
Proof. exact OpenP.tcp_connect_run. Qed.
Print Assumptions C19_tcp_connect.
(** Socket 3 is bound anew; a datagram arrives while the call is polling.  Then a connection. *)
Example C19_case : sizes_ok (c_sock case_udp 3) /\
  let sch := [tick_of []; tick_of []; tick_of [EvCommit 1 1]; tick_of []; tick_of []; tick_of []; tick_of [EvTx 8];
              tick_of [EvCommit 0x1234 0xFFFF; EvUdp [10; 0; 0; 5] 68 [7]]] in
  let '(o, _, c') := run (udp_bind false 9 Sn3 68) sch case_udp in
  o = Done (Ok tt) /\ s_sr (c_sock c' 3) = 0x22 /\ local_port (c_sock c' 3) = 68 /\
  unread (c_sock c' 3) = dgram_image {| d_ip := [10; 0; 0; 5]; d_port := 68; d_data := [7] |} /\
  let sch := [tick_of []; tick_of []; tick_of [EvCommit 1 1]; tick_of []; tick_of []; tick_of []; tick_of [];
              tick_of []; tick_of [EvCommit 9 9]] in
  let '(o, _, c') := run (tcp_connect false 9 Sn3 4000 ([10; 0; 0; 5], 443)) sch case_udp in
  let s := fold_left sock_ev [EvConnected 77 88; EvRx [1; 2]] (c_sock c' 3) in
  o = Done (Ok tt) /\ s_sr s = 0x17 /\ unread s = [1; 2].
Proof.
  split; [split; vm_compute; auto|]. vm_compute. auto 10.
Qed.

(** C20: the first failing transaction is the last one, and the call reports the bus error. *)
Theorem C20_bus_fault : forall dbg fuel sn k sch c o sch' c',
  run (call_run dbg fuel sn k) sch c = (o, sch', c') ->
  exists used, sch = used ++ sch' /\
    (no_faults used \/
     exists u t, used = u ++ [t] /\ no_faults u /\ t_fault t <> None /\ o = Done (Err Other)).
Proof. exact CallsP.fault_stops. Qed.
Print Assumptions C20_bus_fault.
(** Whatever the bus returns, only debug assertions panic and only the opening calls can poll
    forever. *)
Theorem C20_no_panic : forall dbg fuel sn k o, any_bus (call_run dbg fuel sn k) o ->
  (o = Panicked -> dbg = true /\ has_assertion k = true) /\ (o = Diverged -> is_opening k = true).
Proof. exact CallsP.no_panic. Qed.
Print Assumptions C20_no_panic.
(** The write to the transmit buffer fails after two of four bytes: no SEND follows. *)
Example C20_case :
  let sch := [tick_of []; tick_of []; tick_of []; {| t_evs := []; t_fault := Some 2%nat |}; tick_of []; tick_of []] in
  let '(o, sch', c') := run (call_run true 0 Sn3 (KWrite [1; 2; 3; 4])) sch case_tcp in
  o = Done (Err Other) /\ sch' = [tick_of []; tick_of []] /\ s_cmdlog (c_sock c' 3) = [] /\
  s_txmem (c_sock c' 3) (0xFFF8 mod 2048 + 1) = 2 /\ tx_wr (c_sock c' 3) = 0xFFF8.
Proof. vm_compute. auto. Qed.

(** C21: any client of one socket leaves the common registers and the other sockets to the network. *)
Theorem C21_isolation : forall dbg fuel sn ks, Forall (call_on sn) ks -> forall sch c o sch' c',
  run (calls_run dbg fuel sn ks) sch c = (o, sch', c') ->
  exists used, sch = used ++ sch' /\ c_common c' = c_common c /\
    forall m, m <> sn_raw sn -> c_sock c' m = fold_left sock_ev (events_for m used) (c_sock c m).
Proof. exact CallsP.isolation. Qed.
Print Assumptions C21_isolation.
(** Calls on socket 5 with events on socket 3 in between. *)
Example C21_case : Forall (call_on Sn5) [KListen 81; KWrite [1]; KClose] /\
  let sch := [tick_of []; tick_of [EvUdp [1; 2; 3; 4] 5 [6]]; tick_of [EvTx 8]] in
  let '(o, _, c') := run (calls_run false 9 Sn5 [KListen 81; KWrite [1]; KClose])
     (sch ++ repeat {| t_evs := [{| ev_sn := 5; ev_what := EvCommit 0 0 |}]; t_fault := None |} 9) case_udp in
  o = Done [Ok tt; Ok tt; Ok tt] /\ map cr_cmd (s_cmdlog (c_sock c' 5)) = [0x10; 0x01; 0x02; 0x20; 0x10] /\
  events_for 3 sch = [EvUdp [1; 2; 3; 4] 5 [6]; EvTx 8] /\ zlen (s_wire (c_sock c' 3)) = 1.
Proof. split; [repeat constructor|]. vm_compute. auto 10. Qed.
