(** The DHCP client: C33 - C37. *)
From Verif Require Import Model.Prelude Model.Bus Model.Chip Model.Specifiers Model.DhcpPkt Spec.Sock Spec.Hoare Spec.UdpClient
  Spec.Cases Spec.Calls Spec.DhcpMsg Spec.DhcpCases Model.DhcpClient Spec.DhcpRfc Spec.DhcpHist.
From Verif Require Proof.DnsMainP Proof.DhcpHistP Proof.DhcpBlockP Proof.DhcpCaseP.

(** C33: in a call of [process], each change that makes the client Bound or writes the gateway, the subnet
    mask or an address to the chip takes an ACK of the current transaction off the queue, while the client
    is requesting, renewing or rebinding.  The full claim asks for operation code 2 in that packet; [acked]
    only has that it is not 1, see [C33_bootreply_refuted].  The bus does not fail. *)
Theorem C33_adopts_partial : forall dbg fuel cl now c q fs sch r cl' sch' c',
  client_ok cl -> socket_ok cl c q fs -> clock_ok now (world_of cl c q fs) -> no_faults sch ->
  run (process dbg fuel cl now) sch c = (Done (r, cl'), sch', c') ->
  exists l q' fs', steps (config_of cl) now (world_of cl c q fs) l (world_of cl' c' q' fs') /\
    forall a b, next_to a b (world_of cl c q fs :: l) -> adopts a b -> exists g, acked now a b g.
Proof. exact DhcpHistP.process_adopts. Qed.
Print Assumptions C33_adopts_partial.
Theorem C33_bound_partial : forall dbg fuel cl now c q fs sch r cl' sch' c',
  client_ok cl -> socket_ok cl c q fs -> clock_ok now (world_of cl c q fs) -> no_faults sch ->
  run (process dbg fuel cl now) sch c = (Done (r, cl'), sch', c') -> cl_state cl <> Bound -> cl_state cl' = Bound ->
  exists l q' fs' a b g, steps (config_of cl) now (world_of cl c q fs) l (world_of cl' c' q' fs') /\
    next_to a b (world_of cl c q fs :: l) /\ w_state b = Bound /\ acked now a b g.
Proof. exact DhcpHistP.process_bound. Qed.
Print Assumptions C33_bound_partial.
(** Over every history of calls from a fresh client: a leased address is in the chip, was requested and
    then acknowledged; without a lease the address of the chip is 0.0.0.0. *)
Theorem C33_history_partial : forall dbg now cl c now' cl' c' q fs,
  calls dbg now cl c now' cl' c' -> client_ok cl -> socket_ok cl c q fs ->
  clock_ok now (world_of cl c q fs) -> cl_state cl = Init ->
  exists l now1 q' fs', now1 <= now' /\ history (config_of cl) now (world_of cl c q fs) l now1 (world_of cl' c' q' fs') /\
    match leased_ip cl' with
    | Some ip => n_sipr (net_of c') = ip /\ holds_lease (config_of cl) (world_of cl c q fs) l (world_of cl' c' q' fs')
    | None => cl_state cl' <> Init -> n_sipr (net_of c') = unspecified
    end.
Proof. exact DhcpHistP.calls_lease. Qed.
Print Assumptions C33_history_partial.
(** A packet whose operation code is neither request nor reply is adopted. *)
Theorem C33_bootreply_refuted : exists cl c op d r cl' sch' c',
  client_ok cl /\ socket_ok cl c [d] DhcpCaseP.case_out /\ clock_ok 1002 (world_of cl c [d] DhcpCaseP.case_out) /\
  at_ (d_data d) 0 = op /\ op <> 1 /\ op <> 2 /\ cl_state cl = Requesting /\
  run (process true 400 cl 1002) [] c = (Done (r, cl'), sch', c') /\ cl_state cl' = Bound /\ n_sipr (net_of c') = [10; 0; 0; 77].
Proof.
  pose (d := case_from (case_pkt 3 0x12345678 (case_ack [Opt 51 [0; 0; 14; 16]]))).
  destruct (DhcpCaseP.run_case (process true 400 case_asked 1002) [] (case_dhcp [d])
    (fun a _ c' => cl_state (snd a) = Bound /\ n_sipr (net_of c') = [10; 0; 0; 77]) ltac:(vm_compute; auto))
    as ((r & cl') & sch' & c' & E & H1 & H2).
  exists case_asked, (case_dhcp [d]), 3, d, r, cl', sch', c'.
  split; [apply DhcpCaseP.case_client_ok|]. split; [DhcpCaseP.case_socket|]. split; [split; cbn; lia|].
  split; [reflexivity|]. split; [discriminate|]. split; [discriminate|]. split; [reflexivity|]. auto.
Qed.
Print Assumptions C33_bootreply_refuted.
Example C33_case : let c := case_dhcp [case_hour] in
  client_ok case_asked /\ socket_ok case_asked c [case_hour] DhcpCaseP.case_out /\
  clock_ok 1002 (world_of case_asked c [case_hour] DhcpCaseP.case_out) /\ no_faults case_ticks /\
  let '(o, _, c') := run (process true 400 case_asked 1002) case_ticks c in
  match o with Done (r, cl') => r = Ok 1575 /\ cl_state cl' = Bound /\ leased_ip cl' = Some [10; 0; 0; 77] | _ => False end /\
  net_of c' = mkNet [10; 0; 0; 1] [255; 255; 255; 0] [10; 0; 0; 77].
Proof.
  split; [apply DhcpCaseP.case_client_ok|]. split; [apply DhcpCaseP.case_socket_hour|]. split; [split; cbn; lia|].
  split; [repeat constructor|]. vm_compute. auto.
Qed.
Example C33_history_case : let cl := client_new Sn3 7 case_mac case_host in
  client_ok cl /\ socket_ok cl (case_dhcp []) [] DhcpCaseP.case_out /\ clock_ok 0 (world_of cl (case_dhcp []) [] DhcpCaseP.case_out) /\
  exists cl' c', calls true 0 cl (case_dhcp []) 1002 cl' c' /\ cl_state cl' = Selecting.
Proof.
  split; [exact DhcpCaseP.case_new_ok|]. split; [exact DhcpCaseP.case_socket_nil|]. split; [split; cbn; lia|].
  apply (DhcpCaseP.calls_one true 0 1002 400 _ _ case_ticks); [lia|repeat constructor|vm_compute; reflexivity].
Qed.

(** C34: every call of [process] that returns is a run of the machine of [Spec/DhcpRfc.v] on the client, the
    address registers, the received and the sent datagrams, however datagrams arrive in between. *)
Theorem C34_process : forall dbg fuel cl now c q fs sch r cl' sch' c',
  client_ok cl -> socket_ok cl c q fs -> clock_ok now (world_of cl c q fs) -> no_faults sch ->
  run (process dbg fuel cl now) sch c = (Done (r, cl'), sch', c') ->
  exists l q' fs', steps (config_of cl) now (world_of cl c q fs) l (world_of cl' c' q' fs') /\
    client_ok cl' /\ socket_ok cl' c' q' fs' /\ cl_sn cl' = cl_sn cl /\ config_of cl' = config_of cl /\
    match r with
    | Ok d => next_call cl' now = Some d \/ (cl_state cl = Init /\ cl' = cl /\ d = 1)
    | Err e => e = UnexpectedEof \/ e = OutOfMemory
    end.
Proof. exact DhcpHistP.process_run. Qed.
Print Assumptions C34_process.
(** Only the edges of the state graph are taken. *)
Theorem C34_edges : forall dbg fuel cl now c q fs sch r cl' sch' c',
  client_ok cl -> socket_ok cl c q fs -> clock_ok now (world_of cl c q fs) -> no_faults sch ->
  run (process dbg fuel cl now) sch c = (Done (r, cl'), sch', c') ->
  exists l q' fs', steps (config_of cl) now (world_of cl c q fs) l (world_of cl' c' q' fs') /\
    forall a b, next_to a b (world_of cl c q fs :: l) -> edge (w_state a) (w_state b).
Proof. exact DhcpHistP.process_edges. Qed.
Print Assumptions C34_edges.
(** [setup_socket] establishes what the other theorems ask of the socket. *)
Theorem C34_setup : forall dbg fuel cl c sch sch' c',
  client_ok cl -> sizes_ok (c_sock c (sn_raw (cl_sn cl))) -> 1024 <= tx_size (c_sock c (sn_raw (cl_sn cl))) ->
  cl_state cl = Init -> no_faults sch -> run (setup_socket dbg fuel cl) sch c = (Done (Ok tt), sch', c') ->
  (exists q fs, socket_ok cl c' q fs) /\ net_of c' = mkNet (n_gar (net_of c)) (n_subr (net_of c)) (cl_ip cl).
Proof. exact DhcpBlockP.setup_run. Qed.
Print Assumptions C34_setup.
(** Time passes T1: the client asks for the lease to be extended. *)
Example C34_case : let cl := case_client Bound None (1575, 2757, 3150, 1002) in let c := case_dhcp [case_foreign; case_hour] in
  client_ok cl /\ socket_ok cl c [case_foreign; case_hour] DhcpCaseP.case_out /\
  clock_ok 2600 (world_of cl c [case_foreign; case_hour] DhcpCaseP.case_out) /\
  match fst (fst (run (process true 400 cl 2600) case_ticks c)) with
  | Done (r, cl') => r = Ok 1159 /\ cl_state cl' = Renewing /\ leased_ip cl' = Some [10; 0; 0; 77]
  | _ => False
  end.
Proof.
  split; [apply DhcpCaseP.case_client_ok|]. split; [apply DhcpCaseP.case_socket_foreign|]. split; [split; cbn; lia|].
  vm_compute. auto.
Qed.
Example C34_setup_case : let cl := client_new Sn3 7 case_mac case_host in
  client_ok cl /\ sizes_ok (c_sock (case_dhcp []) 3) /\ 1024 <= tx_size (c_sock (case_dhcp []) 3) /\ cl_state cl = Init /\
  fst (fst (run (setup_socket true 400 cl) case_ticks (case_dhcp []))) = Done (Ok tt).
Proof.
  split; [exact DhcpCaseP.case_new_ok|]. split; [split; vm_compute; auto 20|]. split; [vm_compute; discriminate|].
  split; [reflexivity|]. vm_compute. reflexivity.
Qed.

(** C35: the times change only by an ACK, and they are then ordered, T1 <= T2 <= lease, if the ones the server
    gives fit together and the lease is short enough for seven times it to fit in 32 bits.  The full claim has
    neither condition and is false. *)
Theorem C35_ordered_partial : forall dbg fuel cl now c q fs sch r cl' sch' c',
  client_ok cl -> socket_ok cl c q fs -> clock_ok now (world_of cl c q fs) -> no_faults sch ->
  run (process dbg fuel cl now) sch c = (Done (r, cl'), sch', c') ->
  exists l q' fs', steps (config_of cl) now (world_of cl c q fs) l (world_of cl' c' q' fs') /\
    forall a b, next_to a b (world_of cl c q fs :: l) -> w_times b = w_times a \/
      exists g, acked now a b g /\ (bytes_ok (d_data g) -> ordered_options (d_data g) -> ordered (w_times b)).
Proof. exact DhcpHistP.process_ordered. Qed.
Print Assumptions C35_ordered_partial.
(** The infinite lease, without T1 and T2. *)
Theorem C35_ordered_refuted : exists cl c d r cl' sch' c',
  client_ok cl /\ socket_ok cl c [d] DhcpCaseP.case_out /\ clock_ok 1002 (world_of cl c [d] DhcpCaseP.case_out) /\
  run (process true 400 cl 1002) [] c = (Done (r, cl'), sch', c') /\ cl_state cl' = Bound /\ cl_t2 cl' < cl_t1 cl'.
Proof.
  exists case_asked, (case_dhcp [case_infinite]), case_infinite. do 4 eexists. split; [apply DhcpCaseP.case_client_ok|].
  split; [DhcpCaseP.case_socket|]. split; [split; cbn; lia|]. split; [vm_compute; reflexivity|]. split; vm_compute; reflexivity.
Qed.
Print Assumptions C35_ordered_refuted.
Example C35_case : let c := case_dhcp [case_hour] in
  client_ok case_asked /\ socket_ok case_asked c [case_hour] DhcpCaseP.case_out /\
  clock_ok 1002 (world_of case_asked c [case_hour] DhcpCaseP.case_out) /\
  match fst (fst (run (process true 400 case_asked 1002) case_ticks c)) with
  | Done (_, cl') => (cl_t1 cl', cl_t2 cl', cl_lease cl', cl_lease_secs cl') = (1575, 2757, 3150, 1002)
  | _ => False
  end.
Proof.
  split; [apply DhcpCaseP.case_client_ok|]. split; [apply DhcpCaseP.case_socket_hour|]. split; [split; cbn; lia|].
  vm_compute. auto.
Qed.

(** C36: the delay returned is the time to the next deadline of the state the client is in afterwards, or one
    second while the link is down. *)
Theorem C36_delay : forall dbg fuel cl now c q fs sch d cl' sch' c',
  client_ok cl -> socket_ok cl c q fs -> clock_ok now (world_of cl c q fs) -> no_faults sch ->
  run (process dbg fuel cl now) sch c = (Done (Ok d, cl'), sch', c') ->
  exists q' fs', socket_ok cl' c' q' fs' /\ clock_ok now (world_of cl' c' q' fs') /\
    (d = Z.max 0 (deadline (config_of cl) (world_of cl' c' q' fs') - now) \/ (cl_state cl' = Init /\ d = 1)).
Proof. exact DhcpHistP.process_delay. Qed.
Print Assumptions C36_delay.
(** With ordered times, [process] is called again no later than each time it has to meet.  The full claim
    does not ask for ordered times; see [C36_in_time_refuted]. *)
Theorem C36_in_time_partial : forall dbg fuel cl now c q fs sch d cl' sch' c',
  client_ok cl -> socket_ok cl c q fs -> clock_ok now (world_of cl c q fs) -> no_faults sch ->
  run (process dbg fuel cl now) sch c = (Done (Ok d, cl'), sch', c') ->
  exists q' fs', socket_ok cl' c' q' fs' /\
    (cl_state cl' <> Init -> ordered (w_times (world_of cl' c' q' fs')) ->
     forall t, due (config_of cl) (world_of cl' c' q' fs') t -> now + d <= Z.max now t).
Proof. exact DhcpHistP.process_in_time. Qed.
Print Assumptions C36_in_time_partial.
(** If the clock does not go back, nothing underflows: without debug assertions the call cannot panic. *)
Theorem C36_no_underflow : forall fuel cl now c q fs,
  client_ok cl -> socket_ok cl c q fs -> clock_ok now (world_of cl c q fs) -> never_panics (process false fuel cl now) c.
Proof. exact DhcpHistP.process_no_panic. Qed.
Print Assumptions C36_no_underflow.
(** T1 after the end of the lease: the delay returned is longer than the lease. *)
Theorem C36_in_time_refuted : exists cl c d delay cl' sch' c',
  client_ok cl /\ socket_ok cl c [d] DhcpCaseP.case_out /\ clock_ok 1002 (world_of cl c [d] DhcpCaseP.case_out) /\
  run (process true 400 cl 1002) [] c = (Done (Ok delay, cl'), sch', c') /\ cl_state cl' = Bound /\ cl_lease_secs cl' = 1002 /\
  cl_lease cl' < delay.
Proof.
  exists case_asked, (case_dhcp [case_late_t1]), case_late_t1. do 4 eexists. split; [apply DhcpCaseP.case_client_ok|].
  split; [DhcpCaseP.case_socket|]. split; [split; cbn; lia|]. split; [vm_compute; reflexivity|].
  split; [vm_compute; reflexivity|]. split; vm_compute; reflexivity.
Qed.
Print Assumptions C36_in_time_refuted.
Example C36_case : let cl := case_client Renewing None (1575, 2757, 3150, 1002) in let c := case_dhcp [case_foreign; case_hour] in
  client_ok cl /\ socket_ok cl c [case_foreign; case_hour] DhcpCaseP.case_out /\
  clock_ok 3000 (world_of cl c [case_foreign; case_hour] DhcpCaseP.case_out) /\
  ordered (w_times (world_of cl c [case_foreign; case_hour] DhcpCaseP.case_out)) /\
  match fst (fst (run (process true 400 cl 3000) case_ticks c)) with Done (r, cl') => r = Ok 759 /\ cl' = cl | _ => False end.
Proof.
  split; [apply DhcpCaseP.case_client_ok|]. split; [apply DhcpCaseP.case_socket_foreign|]. split; [split; cbn; lia|].
  split; [unfold ordered; cbn; lia|]. vm_compute. auto.
Qed.

(** C37 is false: a datagram that is not of the current transaction stays at the head of the queue.  Until a
    deadline passes the client does nothing, whatever is behind it. *)
Theorem C37_foreign_blocks : forall dbg fuel cl now c d q fs sch r cl' sch' c',
  client_ok cl -> socket_ok cl c (d :: q) fs -> cl_state cl <> Init ->
  ~ for_us (d_data d) (cl_xid cl) -> clock_ok now (world_of cl c (d :: q) fs) -> 0 <= cl_lease_secs cl -> now < 4294967296 ->
  ordered (w_times (world_of cl c (d :: q) fs)) -> now <= deadline (config_of cl) (world_of cl c (d :: q) fs) -> no_faults sch ->
  run (process dbg fuel cl now) sch c = (Done (r, cl'), sch', c') ->
  cl' = cl /\ exists new, socket_ok cl c' (d :: q ++ new) fs.
Proof. exact DhcpBlockP.foreign_blocks. Qed.
Print Assumptions C37_foreign_blocks.
(** ... for instance the ACK it is waiting for. *)
Theorem C37_foreign_removed_refuted : exists cl c d ack cl' sch' c',
  client_ok cl /\ socket_ok cl c [d; ack] DhcpCaseP.case_out /\ ~ for_us (d_data d) (cl_xid cl) /\ for_us (d_data ack) (cl_xid cl) /\
  has_type (d_data ack) (Some Ack) /\ cl_state cl = Requesting /\
  run (process true 400 cl 1002) [] c = (Done (Ok 3, cl'), sch', c') /\ cl' = cl /\ exists new, socket_ok cl c' (d :: ack :: new) DhcpCaseP.case_out.
Proof.
  exists case_asked, (case_dhcp [case_foreign; case_hour]), case_foreign, case_hour, case_asked, (snd (fst DhcpCaseP.foreign_res)), (snd DhcpCaseP.foreign_res).
  split; [apply DhcpCaseP.case_client_ok|]. split; [apply DhcpCaseP.case_socket_foreign|].
  split; [intros (_ & H); inversion H; discriminate|].
  split; [split; [apply (AnsOp (d_data case_hour))|apply (AnsXid (d_data case_hour))]|].
  split; [exact DhcpCaseP.case_hour_type|].
  split; [reflexivity|]. split; [exact DhcpCaseP.foreign_run|]. split; [reflexivity|].
  eapply (DhcpBlockP.foreign_blocks true 400 case_asked 1002 _ case_foreign [case_hour]); [| | | | | | | | | |exact DhcpCaseP.foreign_run].
  - apply DhcpCaseP.case_client_ok.
  - apply DhcpCaseP.case_socket_foreign.
  - discriminate.
  - intros (_ & H); inversion H; discriminate.
  - split; cbn; lia.
  - cbn; lia.
  - lia.
  - unfold ordered; cbn; lia.
  - cbn; lia.
  - constructor.
Qed.
Print Assumptions C37_foreign_removed_refuted.
(** What holds: when its timeout passes, a client waiting for an answer starts over, and the waiting datagrams
    are gone.  The full claim is that the datagram is removed at once, in every state. *)
Theorem C37_restart_partial : forall dbg fuel cl now c d q fs sch x cl' sch' c' t,
  client_ok cl -> socket_ok cl c (d :: q) fs -> cl_state cl <> Init ->
  ~ for_us (d_data d) (cl_xid cl) -> cl_state_timeout cl = Some t -> t <= now -> cl_timeout cl < now - t -> no_faults sch ->
  run (process dbg fuel cl now) sch c = (Done (Ok x, cl'), sch', c') ->
  cl_state cl' = Selecting /\ cl_state_timeout cl' = Some now /\
  exists q' sent, socket_ok cl' c' q' (sent ++ [discover_to (config_of cl) (cl_xid cl')]).
Proof. exact DhcpBlockP.foreign_restart. Qed.
Print Assumptions C37_restart_partial.
Example C37_case : let c := case_dhcp [case_foreign; case_hour] in
  client_ok case_asked /\ socket_ok case_asked c [case_foreign; case_hour] DhcpCaseP.case_out /\
  ~ for_us (d_data case_foreign) (cl_xid case_asked) /\
  match fst (fst (run (process true 400 case_asked 1006) case_ticks c)) with
  | Done (r, cl') => r = Ok 5 /\ cl_state cl' = Selecting
  | _ => False
  end.
Proof.
  split; [apply DhcpCaseP.case_client_ok|]. split; [apply DhcpCaseP.case_socket_foreign|].
  split; [intros (_ & H); inversion H; discriminate|]. vm_compute. auto.
Qed.
