(** The DHCP client when the bus fails, and when datagrams are malformed: C95, C96. *)
From Verif Require Import Model.Prelude Model.Bus Model.Chip Model.Specifiers Model.DhcpPkt Spec.Sock Spec.Hoare Spec.UdpClient
  Spec.Cases Spec.DhcpMsg Spec.DhcpCases Model.DhcpClient Spec.DhcpRfc Spec.DhcpHist Spec.DhcpFault Spec.DhcpStuck.
From Verif Require Proof.DhcpFaultP Proof.DhcpStuckP Proof.DhcpCaseP Proof.DhcpFaultCaseP.

(** C95: whatever the bus answers, and whichever transactions fail, the acts of the client are those of
    [act]: it becomes Bound only when requesting, renewing or rebinding, its times start only with an ACK,
    and a failure leaves the state as it was.  The settings never change. *)
Theorem C95_acts : forall dbg fuel c now r c', any_bus (process dbg fuel c now) (Done (r, c')) ->
  same_config c c' /\ exists l, acts_at now c l c'.
Proof. exact DhcpFaultP.process_any. Qed.
Print Assumptions C95_acts.
(** The client never waits without a timeout for an answer that may not come. *)
Theorem C95_timed : forall dbg c c', bus_calls dbg c c' -> timed c -> timed c' /\ same_config c c'.
Proof. exact DhcpFaultP.calls_timed. Qed.
Print Assumptions C95_timed.
(** C95 in full: a reported address was offered, requested and then became the address of a Bound client.
    What is missing: the address may be 0.0.0.0 instead, see [C95_address_refuted]. *)
Theorem C95_address_partial : forall dbg c c' ip, bus_calls dbg c c' -> cl_state c = Init -> leased_ip c' = Some ip ->
  ip = unspecified \/ exists l, acts c l c' /\
    (exists a b, next_to a b (c :: l) /\ cl_state a = Requesting /\ cl_state b = Bound /\ cl_ip a = ip /\ cl_ip b = ip) /\
    (exists a b, next_to a b (c :: l) /\ cl_state a = Selecting /\ cl_ip b = ip).
Proof. exact DhcpFaultP.calls_granted. Qed.
Print Assumptions C95_address_partial.
(** A client that renews its lease gets a NAK, and the write of the address register fails.  It goes on
    as if it had a lease of the address 0.0.0.0, also when the bus works again. *)
Theorem C95_address_refuted : exists sch, let cl := case_client Renewing None (1575, 2757, 3150, 1002) in
  let d := case_from (case_pkt 2 0x12345678 [Opt 53 [6]]) in
  client_ok cl /\ socket_ok cl (case_dhcp [d]) [d] DhcpCaseP.case_out /\
  exists cl1 sch1 c1 cl2 sch2 c2,
    run (process true 400 cl 2600) sch (case_dhcp [d]) = (Done (Err Other, cl1), sch1, c1) /\ leased_ip cl1 = Some unspecified /\
    run (process true 400 cl1 2601) [] c1 = (Done (Ok 1158, cl2), sch2, c2) /\ leased_ip cl2 = Some unspecified.
Proof. exact DhcpFaultCaseP.nak_forgotten. Qed.
Print Assumptions C95_address_refuted.
(** The same when the RECV command fails that removes the NAK: from then on every call fails.  Here the
    next call is long after the end of the lease, which is still reported. *)
Theorem C95_recovers_refuted : exists sch, let cl := case_client Renewing None (1575, 2757, 3150, 1002) in
  let d := case_from (case_pkt 2 0x12345678 [Opt 53 [6]]) in
  client_ok cl /\ socket_ok cl (case_dhcp [d]) [d] DhcpCaseP.case_out /\
  exists cl1 sch1 c1 cl2 sch2 c2,
    run (process true 400 cl 2600) sch (case_dhcp [d]) = (Done (Err Other, cl1), sch1, c1) /\
    run (process true 400 cl1 1000000) [] c1 = (Done (Err UnexpectedEof, cl2), sch2, c2) /\ leased_ip cl2 = Some [10; 0; 0; 77].
Proof. exact DhcpFaultCaseP.nak_stuck. Qed.
Print Assumptions C95_recovers_refuted.
(** A fresh client on a bus that fails at the second transaction, then works. *)
Example C95_case : let cl := client_new Sn3 7 case_mac case_host in
  timed cl /\ cl_state cl = Init /\ exists c', bus_calls true cl c' /\ cl_state c' = Selecting /\ timed c'.
Proof. exact DhcpFaultCaseP.two_calls. Qed.

(** C96, full statement: whatever datagrams are waiting, a call of [process] after the timeout, or after
    the end of the lease, starts over:

      forall dbg fuel cl now c d q fs sch r cl' sch' c', client_ok cl -> socket_ok cl c (d :: q) fs ->
      cl_state cl <> Init -> clock_ok now (world_of cl c (d :: q) fs) -> (timeout or lease has passed) -> no_faults sch ->
      run (process dbg fuel cl now) sch c = (Done (r, cl'), sch', c') -> cl_state cl' = Selecting.

    It holds when the first waiting datagram is for someone else. *)
Theorem C96_restart_partial : forall dbg fuel cl now c d q fs sch r cl' sch' c',
  client_ok cl -> socket_ok cl c (d :: q) fs -> cl_state cl <> Init ->
  for_another (d_data d) (cl_xid cl) -> clock_ok now (world_of cl c (d :: q) fs) ->
  (exists t, cl_state_timeout cl = Some t /\ cl_timeout cl < now - t) \/
  (cl_state_timeout cl = None /\ leased (cl_state cl) /\ cl_lease cl < (now - cl_lease_secs cl) mod 4294967296) -> no_faults sch ->
  run (process dbg fuel cl now) sch c = (Done (r, cl'), sch', c') ->
  r = Ok (Z.max 0 (cl_timeout cl)) /\ cl_state cl' = Selecting /\ cl_state_timeout cl' = Some now /\ leased_ip cl' = None /\
  exists q' sent, socket_ok cl' c' q' (sent ++ [discover_to (config_of cl) (cl_xid cl')]).
Proof. exact DhcpStuckP.another_restart. Qed.
Print Assumptions C96_restart_partial.
(** It is false of a datagram that is too short to hold a transaction number, for instance an empty one,
    and while waiting for an ACK also of an ACK without a lease time: the client stays as it is at every
    later time, whatever else arrives. *)
Theorem C96_stuck : forall dbg now cl c now' cl' c', calls dbg now cl c now' cl' c' ->
  forall d q fs, client_ok cl -> socket_ok cl c (d :: q) fs -> blocks cl d -> clock_ok now (world_of cl c (d :: q) fs) ->
  cl' = cl /\ exists new, socket_ok cl c' (d :: q ++ new) fs.
Proof. exact DhcpStuckP.stuck_calls. Qed.
Print Assumptions C96_stuck.
Theorem C96_stuck_call : forall dbg fuel cl now c d q fs sch r cl' sch' c',
  client_ok cl -> socket_ok cl c (d :: q) fs -> blocks cl d -> clock_ok now (world_of cl c (d :: q) fs) -> no_faults sch ->
  run (process dbg fuel cl now) sch c = (Done (r, cl'), sch', c') ->
  cl' = cl /\ (r = Err UnexpectedEof \/ exists t, r = Ok t /\ (cl_state cl = Init \/ incomplete (d_data d) (cl_xid cl))) /\
  exists new, socket_ok cl c' (d :: q ++ new) fs.
Proof. exact DhcpStuckP.stuck_call. Qed.
Print Assumptions C96_stuck_call.
(** An empty datagram, and the lease ended long ago. *)
Theorem C96_restart_refuted : exists cl c d cl' sch' c',
  client_ok cl /\ socket_ok cl c [d] DhcpCaseP.case_out /\ clock_ok 1000000 (world_of cl c [d] DhcpCaseP.case_out) /\
  cl_state_timeout cl = None /\ leased (cl_state cl) /\ cl_lease cl < (1000000 - cl_lease_secs cl) mod 4294967296 /\
  d_data d = [] /\ run (process true 400 cl 1000000) [] c = (Done (Err UnexpectedEof, cl'), sch', c') /\
  leased_ip cl' = Some [10; 0; 0; 77].
Proof. exact DhcpFaultCaseP.empty_blocks. Qed.
Print Assumptions C96_restart_refuted.
(** The cases of the theorems: another transaction; an empty datagram; an ACK without a lease time. *)
Example C96_case : let cl := case_client Bound None (1575, 2757, 3150, 1002) in let c := case_dhcp [case_foreign; case_hour] in
  client_ok cl /\ socket_ok cl c [case_foreign; case_hour] DhcpCaseP.case_out /\ for_another (d_data case_foreign) (cl_xid cl) /\
  clock_ok 1000000 (world_of cl c [case_foreign; case_hour] DhcpCaseP.case_out) /\
  match fst (fst (run (process true 400 cl 1000000) case_ticks c)) with
  | Done (r, cl') => r = Ok 5 /\ cl_state cl' = Selecting
  | _ => False
  end.
Proof.
  split; [apply DhcpCaseP.case_client_ok|]. split; [apply DhcpCaseP.case_socket_foreign|].
  split; [split; [vm_compute; reflexivity|right; split; vm_compute; [|]; discriminate]|]. split; [split; cbn; lia|].
  vm_compute. auto.
Qed.
Example C96_stuck_case : let d := case_from (case_pkt 2 0x12345678 (case_ack [])) in
  client_ok case_asked /\ socket_ok case_asked (case_dhcp [d]) [d] DhcpCaseP.case_out /\ blocks case_asked d /\
  blocks (case_client Bound None (1575, 2757, 3150, 1002)) (case_from []) /\
  match fst (fst (run (process true 400 case_asked 1000000) [] (case_dhcp [d]))) with
  | Done (r, cl') => r = Ok 0 /\ cl' = case_asked
  | _ => False
  end.
Proof. exact DhcpFaultCaseP.bare_ack. Qed.
