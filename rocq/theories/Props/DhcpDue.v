(** What the DHCP client has to do: C107. *)
From Verif Require Import Model.Prelude Model.Bus Model.Chip Model.Specifiers Model.DhcpPkt Spec.Sock Spec.Hoare Spec.UdpClient
  Spec.Cases Spec.DhcpMsg Spec.DhcpCases Model.DhcpClient Spec.DhcpRfc Spec.DhcpHist Spec.DhcpDue.
From Verif Require Proof.DnsMainP Proof.DhcpCaseP Proof.DhcpDueP.

(** C107: C34 says that a call of [process] takes no other steps than the machine allows; these theorems say
    that it takes the steps that are due.
    An OFFER at the head of the queue is requested at once, unless there is no room for the REQUEST. *)
Theorem C107_offer : forall dbg fuel cl now c g q fs sch r cl' sch' c' ip server,
  client_ok cl -> socket_ok cl c (g :: q) fs -> clock_ok now (world_of cl c (g :: q) fs) -> no_faults sch -> cl_state cl = Selecting ->
  for_us (d_data g) (cl_xid cl) -> answers (d_data g) GYiaddr (Ok (AAddr ip)) -> answers (d_data g) GServer (Ok (AIp server)) ->
  run (process dbg fuel cl now) sch c = (Done (r, cl'), sch', c') ->
  (exists new xid, went_on (config_of cl) now (requested (config_of cl) now (world_of cl c (g :: q) fs) (q ++ new) ip server xid) cl' c') \/
  r = Err OutOfMemory.
Proof. exact DhcpDueP.offer_run. Qed.
Print Assumptions C107_offer.
(** A complete ACK at the head of the queue: when the call returns, the lease is the client's. *)
Theorem C107_ack : forall dbg fuel cl now c g q fs sch r cl' sch' c' t subnet server dns ntp,
  client_ok cl -> socket_ok cl c (g :: q) fs -> clock_ok now (world_of cl c (g :: q) fs) -> no_faults sch -> asking (cl_state cl) ->
  for_us (d_data g) (cl_xid cl) -> complete_ack (d_data g) now t subnet server dns ntp ->
  run (process dbg fuel cl now) sch c = (Done (r, cl'), sch', c') ->
  exists q', is_at (lease_taken (world_of cl c (g :: q) fs) q' t subnet server dns ntp) cl' c'.
Proof. exact DhcpDueP.ack_bound. Qed.
Print Assumptions C107_ack.
(** A NAK at the head of the queue: the address is given up and a DISCOVER is sent. *)
Theorem C107_nak : forall dbg fuel cl now c g q fs sch r cl' sch' c',
  client_ok cl -> socket_ok cl c (g :: q) fs -> clock_ok now (world_of cl c (g :: q) fs) -> no_faults sch -> asking (cl_state cl) ->
  for_us (d_data g) (cl_xid cl) -> has_type (d_data g) (Some Nak) ->
  run (process dbg fuel cl now) sch c = (Done (r, cl'), sch', c') ->
  exists q' sent xid, went_on (config_of cl) now (discovering (config_of cl) now (world_of cl c (g :: q) fs) q' sent xid) cl' c'.
Proof. exact DhcpDueP.nak_run. Qed.
Print Assumptions C107_nak.
(** Init: a call that succeeds sends a DISCOVER if there is a link, and otherwise does nothing and asks to be
    called a second later. *)
Theorem C107_init : forall dbg fuel cl now c q fs sch d cl' sch' c',
  client_ok cl -> socket_ok cl c q fs -> no_faults sch -> cl_state cl = Init -> cl_state_timeout cl = None ->
  run (process dbg fuel cl now) sch c = (Done (Ok d, cl'), sch', c') ->
  (link_up c /\ exists q' sent xid, is_at (discovering (config_of cl) now (world_of cl c q fs) q' sent xid) cl' c') \/
  (~ link_up c /\ d = 1 /\ cl' = cl /\ exists new, is_at (waiting (world_of cl c q fs) (q ++ new)) cl c').
Proof. exact DhcpDueP.init_run. Qed.
Print Assumptions C107_init.
(** Bound: a call that succeeds does what is due at its time and nothing else, whatever arrives. *)
Theorem C107_bound : forall dbg fuel cl now c q fs sch d cl' sch' c',
  client_ok cl -> socket_ok cl c q fs -> no_faults sch -> cl_state cl = Bound -> cl_state_timeout cl = None ->
  run (process dbg fuel cl now) sch c = (Done (Ok d, cl'), sch', c') ->
  exists q' w1, due_bound (config_of cl) now (world_of cl c q fs) q' w1 /\ is_at w1 cl' c'.
Proof. exact DhcpDueP.bound_run. Qed.
Print Assumptions C107_bound.
(** In every other state too, no timeout, T1, T2 or end of the lease is left behind by a call that succeeds,
    except one that stopped at an ACK without lease time, subnet mask or server. *)
Theorem C107_caught_up : forall dbg fuel cl now c q fs sch d cl' sch' c',
  client_ok cl -> socket_ok cl c q fs -> clock_ok now (world_of cl c q fs) -> no_faults sch -> cl_state cl <> Init -> 0 <= cl_timeout cl ->
  run (process dbg fuel cl now) sch c = (Done (Ok d, cl'), sch', c') ->
  (forall q' fs', nothing_due (config_of cl) now (world_of cl' c' q' fs')) \/
  exists l w g rest, steps (config_of cl) now (world_of cl c q fs) l w /\ w_queue w = g :: rest /\ asking (w_state w) /\
    for_us (d_data g) (w_xid w) /\ incomplete_ack (d_data g).
Proof. exact DhcpDueP.caught_run. Qed.
Print Assumptions C107_caught_up.

(** An OFFER, and what the call makes of it. *)
Example C107_offer_case : let cl := case_client Selecting (Some 1000) (0, 0, 0, 0) in let c := case_dhcp [case_offer] in
  client_ok cl /\ socket_ok cl c [case_offer] DhcpCaseP.case_out /\ clock_ok 1002 (world_of cl c [case_offer] DhcpCaseP.case_out) /\
  no_faults case_ticks /\ for_us (d_data case_offer) (cl_xid cl) /\ answers (d_data case_offer) GYiaddr (Ok (AAddr [10; 0; 0; 77])) /\
  answers (d_data case_offer) GServer (Ok (AIp (Some [10; 0; 0; 1]))) /\
  match fst (fst (run (process true 400 cl 1002) case_ticks c)) with
  | Done (r, cl') => r = Ok 5 /\ cl_state cl' = Requesting /\ cl_ip cl' = [10; 0; 0; 77] /\ cl_state_timeout cl' = Some 1002
  | _ => False
  end.
Proof.
  split; [apply DhcpCaseP.case_client_ok|]. split; [DhcpCaseP.case_socket|]. split; [split; cbn; lia|]. split; [repeat constructor|].
  split; [split; [apply (AnsOp (d_data case_offer))|apply (AnsXid (d_data case_offer))]|].
  split; [apply (AnsYiaddr (d_data case_offer))|].
  split; [|vm_compute; auto].
  apply (DhcpDueP.case_answers 2 0x12345678 [Opt 53 [2]; Opt 54 [10; 0; 0; 1]; Opt 1 [255; 255; 255; 0]; Opt 51 [0; 0; 14; 16]] GServer 54 eq_refl); [|vm_compute; discriminate|vm_compute; reflexivity].
  repeat constructor; try (cbn; lia); unfold is_u8; lia.
Qed.
(** The ACK of an hour's lease. *)
Example C107_ack_case : let c := case_dhcp [case_hour] in
  client_ok case_asked /\ socket_ok case_asked c [case_hour] DhcpCaseP.case_out /\
  clock_ok 1002 (world_of case_asked c [case_hour] DhcpCaseP.case_out) /\ no_faults case_ticks /\ asking (cl_state case_asked) /\
  for_us (d_data case_hour) (cl_xid case_asked) /\
  complete_ack (d_data case_hour) 1002 (mkTimes 1575 2757 3150 1002) [255; 255; 255; 0] [10; 0; 0; 1] None None /\
  match fst (fst (run (process true 400 case_asked 1002) case_ticks c)) with
  | Done (r, cl') => r = Ok 1575 /\ leased_ip cl' = Some [10; 0; 0; 77]
  | _ => False
  end.
Proof.
  split; [apply DhcpCaseP.case_client_ok|]. split; [apply DhcpCaseP.case_socket_hour|]. split; [split; cbn; lia|].
  split; [repeat constructor|]. split; [left; reflexivity|].
  split; [split; [apply (AnsOp (d_data case_hour))|apply (AnsXid (d_data case_hour))]|].
  split; [|vm_compute; auto].
  assert (forall g code, code_of g = Some code -> answers (d_data case_hour) g (Ok (opt_answer g (first_opt code (case_ack [Opt 51 [0; 0; 14; 16]]))))) as H.
  { intros g code Hg. apply (DhcpDueP.case_answers 2 0x12345678 (case_ack [Opt 51 [0; 0; 14; 16]]) g code Hg); [|vm_compute; discriminate|vm_compute; reflexivity].
    repeat constructor; try (cbn; lia); unfold is_u8; lia. }
  split; [exact (H GMsgType 53 eq_refl)| |exact (H GSubnet 1 eq_refl)|exact (H GServer 54 eq_refl)|exact (H GDns 6 eq_refl)|exact (H GNtp 42 eq_refl)].
  exists 3600, None, None. split; [exact (H GLease 51 eq_refl)|]. split; [exact (H GRenewal 58 eq_refl)|].
  split; [exact (H GRebinding 59 eq_refl)|reflexivity].
Qed.
(** A NAK while renewing. *)
Example C107_nak_case : let cl := case_client Renewing None (1575, 2757, 3150, 1002) in let c := case_dhcp [case_nak] in
  client_ok cl /\ socket_ok cl c [case_nak] DhcpCaseP.case_out /\ clock_ok 2600 (world_of cl c [case_nak] DhcpCaseP.case_out) /\
  asking (cl_state cl) /\ for_us (d_data case_nak) (cl_xid cl) /\ has_type (d_data case_nak) (Some Nak) /\
  match fst (fst (run (process true 400 cl 2600) case_ticks c)) with
  | Done (r, cl') => r = Ok 5 /\ cl_state cl' = Selecting
  | _ => False
  end.
Proof.
  split; [apply DhcpCaseP.case_client_ok|]. split; [DhcpCaseP.case_socket|]. split; [split; cbn; lia|].
  split; [right; left; reflexivity|]. split; [split; [apply (AnsOp (d_data case_nak))|apply (AnsXid (d_data case_nak))]|].
  split; [|vm_compute; auto].
  apply (DhcpDueP.case_answers 2 0x12345678 [Opt 53 [6]] GMsgType 53 eq_refl); [|vm_compute; discriminate|vm_compute; reflexivity].
  repeat constructor; try (cbn; lia); unfold is_u8; lia.
Qed.
(** A fresh client with a link sends its DISCOVER; T1, T2 and the end of the lease of a Bound client. *)
Example C107_timer_case : let cl := client_new Sn3 7 case_mac case_host in
  let b := case_client Bound None (1575, 2757, 3150, 1002) in let c := case_dhcp [] in
  client_ok cl /\ socket_ok cl c [] DhcpCaseP.case_out /\ link_up c /\ client_ok b /\ cl_state b = Bound /\ cl_state_timeout b = None /\
  match fst (fst (run (process true 400 cl 0) case_ticks c)) with Done (r, cl') => r = Ok 5 /\ cl_state cl' = Selecting | _ => False end /\
  map (fun now => match fst (fst (run (process true 400 b now) case_ticks c)) with Done (Ok d, cl') => Some (d, cl_state cl') | _ => None end)
    [2577; 2578; 3760; 4153] = [Some (0, Bound); Some (1181, Renewing); Some (392, Rebinding); Some (5, Selecting)].
Proof.
  split; [exact DhcpCaseP.case_new_ok|]. split; [exact DhcpCaseP.case_socket_nil|]. split; [reflexivity|].
  split; [apply DhcpCaseP.case_client_ok|]. split; [reflexivity|]. split; [reflexivity|]. split; vm_compute; auto.
Qed.
