(** DNS: C24 - C28, C65, C66. *)
From Verif Require Import Model.Prelude Model.Bus Model.Chip Model.Specifiers Model.HlIo Model.HlUdp Model.Stream Model.Dns
  Spec.Sock Spec.Calls Spec.Hoare Spec.Cursor Spec.UdpClient Spec.Hostname Spec.StreamRun Spec.DnsMsg Spec.Cases.
From Verif Require Proof.DnsMainP Proof.MdnsP.

(** C24: a query puts one datagram on the wire to the server, which decodes to the questions asked, or
    fails with [OutOfMemory] and sends nothing if the transmit buffer is too small.  Nothing is claimed
    of calls that do not return (the chip never acknowledges) or panic (the port assertion of C18). *)
Theorem C24_dns_a_question : forall dbg fuel cl c h, let s := c_sock c (sn_raw (dc_sn cl)) in
  dns_ready cl -> sizes_ok s -> 0 < tx_size s -> hostname_ok h ->
  if_returns (dns_a_question dbg fuel cl h) (sn_raw (dc_sn cl)) c (asked_result cl s [(QA, h)]).
Proof. exact DnsQueryP.dns_a_question_run. Qed.
Print Assumptions C24_dns_a_question.
Theorem C24_dns_questions : forall dbg fuel cl c qs, let s := c_sock c (sn_raw (dc_sn cl)) in
  dns_ready cl -> sizes_ok s -> 0 < tx_size s -> Forall (fun q => hostname_ok (snd q)) qs ->
  if_returns (dns_ask dbg fuel cl qs) (sn_raw (dc_sn cl)) c (asked_result cl s qs).
Proof. exact DnsQueryP.dns_ask_run. Qed.
Print Assumptions C24_dns_questions.
Example C24_case : let cl := dns_new Sn3 45917 [10; 0; 0; 1] 0 in
  dns_ready cl /\ sizes_ok (c_sock case_udp 3) /\ hostname_ok [97; 46; 98; 99] /\
  let '(o, _, c') := run (dns_ask false 9 cl [(QA, [97; 46; 98; 99]); (QPTR, [120])])
    (repeat (tick_of [EvCommit 5 6]) 40 ++ [tick_of [EvTx 3]]) case_udp in
  let s' := fold_left sock_ev [EvTx 1] (c_sock c' 3) in
  match o with Done (Ok id, _) =>
    s_wire s' = [frame_to ([10; 0; 0; 1], 53)
      (be16 id ++ [1; 0; 0; 2; 0; 0; 0; 0; 0; 0; 1; 97; 2; 98; 99; 0; 0; 1; 0; 1; 1; 120; 0; 0; 12; 0; 1])]
  | _ => False end.
Proof.
  split; [exact DnsMainP.case_dns_ready|]. split; [split; vm_compute; auto|].
  split; [exact DnsMainP.case_hostname|]. vm_compute. reflexivity.
Qed.

(** C25: reading a name, for messages that continue after the name. *)
Theorem C25_read_labels : forall m p ls e,
  bytes_ok m -> zlen m <= 65535 -> name_at m p ls e -> e < zlen m ->
  exists f0, forall fuel, (f0 <= fuel)%nat -> forall buf,
  exists v, arun (read_labels fuel buf) m p = (Done (Ok v), m, e) /\ name_seen ls (zlen buf) v.
Proof. exact DnsMainP.read_labels_arun. Qed.
Print Assumptions C25_read_labels.
Example C25_case : name_at case_response 38 [[120]; [98; 99]] 42 /\
  fst (fst (arun (read_labels 9 (repeat 0 4)) case_response 38)) = Done (Ok (Some [120; 46; 98; 99])) /\
  snd (arun (read_labels 9 (repeat 0 4)) case_response 38) = 42 /\
  fst (fst (arun (read_labels 9 (repeat 0 3)) case_response 38)) = Done (Ok None) /\
  snd (arun (read_labels 9 (repeat 0 3)) case_response 38) = 42.
Proof. split; [exact DnsMainP.case_name_xbc|]. vm_compute. auto. Qed.
(** Without the last hypothesis the position is wrong: the root label is not skipped. *)
Theorem C25_read_labels_at_end_refuted : exists m p ls e, bytes_ok m /\ name_at m p ls e /\
  forall fuel buf, (2 <= fuel)%nat -> snd (arun (read_labels fuel buf) m p) <> e.
Proof. exact DnsMainP.name_at_end. Qed.
Print Assumptions C25_read_labels_at_end_refuted.

(** C26 is false: a response whose first question is a pointer to itself hangs the client. *)
Theorem C26_dns_response_terminates_refuted : exists c d,
  udp_view (c_sock c 3) [d] [frame_to ([10; 0; 0; 9], 0x1234) case_tcp_unsent] ([10; 0; 0; 9], 0x1234) /\
  forall dbg fuel sch, no_faults sch ->
  fst (fst (run (dns_response dbg fuel (dns_new Sn3 45917 [10; 0; 0; 1] 0) 0x1234) sch c)) = Diverged.
Proof. exact DnsMainP.response_loop_example. Qed.
Print Assumptions C26_dns_response_terminates_refuted.
(** So does every response whose first question loops. *)
Theorem C26_dns_response_diverges : forall dbg fuel cl c d q fs a id,
  udp_view (c_sock c (sn_raw (dc_sn cl))) (d :: q) fs a -> answers_query (d_data d) id ->
  1 <= of_be16 (at_ (d_data d) 4) (at_ (d_data d) 5) -> name_loops (d_data d) 12 ->
  forall sch, no_faults sch -> fst (fst (run (dns_response dbg fuel cl id) sch c)) = Diverged.
Proof. exact DnsMainP.response_diverges. Qed.
Print Assumptions C26_dns_response_diverges.
(** What remains: names that do not loop take at most one iteration per byte of the message ... *)
Theorem C26_read_labels_partial : forall m p buf fuel,
  bytes_ok m -> zlen m <= 65535 -> 0 <= p <= zlen m -> no_loops m -> (length m + 2 <= fuel)%nat ->
  exists r e, arun (read_labels fuel buf) m p = (Done r, m, e) /\ 0 <= e <= zlen m /\
    (r = Err UnexpectedEof \/ exists v, r = Ok v).
Proof. exact DnsMainP.read_labels_total. Qed.
Print Assumptions C26_read_labels_partial.
(** ... such a datagram is processed to the end, whatever else is in it ... *)
Theorem C26_take_response_partial : forall dbg fuel sn want bufs c d q fs a,
  udp_view (c_sock c (sn_raw sn)) (d :: q) fs a ->
  no_loops (d_data d) -> (length (d_data d) + 2 <= fuel)%nat ->
  ensures (take_response fuel (recv_response dbg fuel sn want) bufs) (sn_raw sn) c (fun r s' =>
    exists q', udp_view s' q' fs a /\ (r = Err WouldBlock \/ r = Err UnexpectedEof \/ exists x, r = Ok x)).
Proof. exact DnsMainP.take_total. Qed.
Print Assumptions C26_take_response_partial.
(** ... and no datagram whatsoever makes the client panic. *)
Theorem C26_take_response_no_panic_partial : forall dbg fuel sn want bufs c q fs a,
  udp_view (c_sock c (sn_raw sn)) q fs a ->
  never_panics (take_response fuel (recv_response dbg fuel sn want) bufs) c.
Proof. exact DnsMainP.take_never_panics. Qed.
Print Assumptions C26_take_response_no_panic_partial.
Example C26_case : no_loops case_response /\ name_loops [192; 0] 0 /\
  udp_view (c_sock (case_dns case_response) 3) [case_dns_d case_response]
    [frame_to ([10; 0; 0; 9], 0x1234) case_tcp_unsent] ([10; 0; 0; 9], 0x1234).
Proof.
  split; [exact DnsMainP.case_response_no_loops|]. split; [exact DnsMainP.self_loop|exact DnsMainP.case_dns_view].
Qed.

(** C27: taking a response shows its records in order; [new] arrived during the calls. *)
Theorem C27_dns_records : forall dbg cl c d q fs a id rcode qs an au ex,
  udp_view (c_sock c (sn_raw (dc_sn cl))) (d :: q) fs a -> response_msg (d_data d) id rcode qs an au ex ->
  exists f0, forall fuel, (f0 <= fuel)%nat -> forall bufs,
  ensures (take_response fuel (dns_response dbg fuel cl id) bufs) (sn_raw (dc_sn cl)) c (fun r s' => exists new x,
    r = Ok x /\ udp_view s' (q ++ new) fs a /\
    decodes rcode_number rcode (dr_code x) /\ dr_answers x = zlen an /\
    records_seen (an ++ au ++ ex) bufs (dr_records x)).
Proof. exact DnsMainP.take_dns. Qed.
Print Assumptions C27_dns_records.
Theorem C27_mdns_records : forall dbg cl c d q fs a id rcode qs an au ex,
  udp_view (c_sock c (sn_raw (mc_sn cl))) (d :: q) fs a -> response_msg (d_data d) id rcode qs an au ex ->
  exists f0, forall fuel, (f0 <= fuel)%nat -> forall bufs,
  ensures (take_response fuel (mdns_response dbg fuel cl) bufs) (sn_raw (mc_sn cl)) c (fun r s' => exists new x,
    r = Ok x /\ udp_view s' (q ++ new) fs a /\
    decodes rcode_number rcode (dr_code x) /\ dr_answers x = zlen an /\
    records_seen (an ++ au ++ ex) bufs (dr_records x)).
Proof. exact DnsMainP.take_mdns. Qed.
Print Assumptions C27_mdns_records.
Example C27_case :
  response_msg case_response 0x1234 0 [{| q_name := [[97]; [98; 99]]; q_type := 1; q_class := 1 |}]
    [{| r_name := [[97]; [98; 99]]; r_type := 1; r_class := 0x8001; r_ttl := 300; r_data := [1; 2; 3; 4] |};
     {| r_name := [[120]; [98; 99]]; r_type := 33; r_class := 1; r_ttl := 60; r_data := [0; 1; 0; 2; 0; 80; 0xC0; 12] |}] [] [] /\
  fst (fst (run (take_response 9 (dns_response true 9 (dns_new Sn3 45917 [10; 0; 0; 1] 0) 0x1234) [repeat 0 10; []; []])
     [] (case_dns case_response))) =
  Done (Ok {| dr_code := Ok NoError; dr_answers := 2; dr_records :=
    [Ok (Some {| rr_name := Some [97; 46; 98; 99]; rr_qtype := Ok QA; rr_class := Ok QC_IN; rr_ttl := 300; rr_rdata := RD_A [1; 2; 3; 4] |});
     Ok (Some {| rr_name := None; rr_qtype := Ok QSVR; rr_class := Ok QC_IN; rr_ttl := 60; rr_rdata := RD_SVR 1 2 80 |});
     Ok None] |}).
Proof. split; [exact DnsMainP.case_response_msg|]. vm_compute. reflexivity. Qed.

(** C28 is false: bits 7 to 14 of the class are ignored (129 is reported as IN, 133 as ANY, 200 as the
    unknown class 72), and ANY has the wrong number (5 is reported as ANY, 255 as the unknown class 127). *)
Theorem C28_class_refuted :
  Qclass_try_from 129 = Ok QC_IN /\ Qclass_try_from 200 = Err 72 /\
  Qclass_try_from 5 = Ok QC_ANY /\ Qclass_try_from 255 = Err 127 /\
  Forall (fun v => ~ decodes class_number (v mod 32768) (Qclass_try_from v)) [129; 200; 5; 255].
Proof. exact DnsMainP.class_wrong. Qed.
Print Assumptions C28_class_refuted.
(** It holds for the classes below 128 with or without the cache-flush bit, except 5. *)
Theorem C28_class_partial : forall v, is_u16 v -> v mod 32768 < 128 -> v mod 32768 <> 5 ->
  decodes class_number (v mod 32768) (Qclass_try_from v).
Proof. exact DnsQueryP.class_small. Qed.
Print Assumptions C28_class_partial.
Example C28_case : is_u16 0x8001 /\ 0x8001 mod 32768 < 128 /\ 0x8001 mod 32768 <> 5 /\ Qclass_try_from 0x8001 = Ok QC_IN.
Proof. vm_compute. intuition discriminate. Qed.

(** C65: a datagram that is too short, not a response or has another id is discarded. *)
Theorem C65_dns_response_reject : forall dbg fuel cl c d q fs a id,
  udp_view (c_sock c (sn_raw (dc_sn cl))) (d :: q) fs a -> ~ answers_query (d_data d) id ->
  ensures (dns_response dbg fuel cl id) (sn_raw (dc_sn cl)) c (fun r s' =>
    r = Err WouldBlock /\ exists new, udp_view s' (q ++ new) fs a).
Proof. exact DnsQueryP.response_reject. Qed.
Print Assumptions C65_dns_response_reject.
(** No response is ever made of it otherwise. *)
Example C65_case : ~ answers_query case_response 0x1235 /\
  let '(o, _, c') := run (dns_response true 9 (dns_new Sn3 45917 [10; 0; 0; 1] 0) 0x1235) [] (case_dns case_response) in
  o = Done (Err WouldBlock) /\ unread (c_sock c' 3) = [].
Proof. split; [intros (_ & _ & E); discriminate E|]. vm_compute. auto. Qed.

(** C66: an mDNS question, when the call returns. *)
Theorem C66_mdns_question : forall fuel sn port t h c, let s := c_sock c (sn_raw sn) in
  match port with Some p => is_u16 p | None => True end -> sizes_ok s -> 0 < tx_size s -> hostname_ok h ->
  if_returns (mdns_question fuel (mdns_new sn port) t h) (sn_raw sn) c (fun r s' =>
    mdns_result s t h r s' /\ mdns_configured s' match port with Some p => p | None => 5353 end).
Proof. exact MdnsP.mdns_question_run. Qed.
Print Assumptions C66_mdns_question.
Example C66_case : sizes_ok (c_sock case_udp 3) /\ hostname_ok [97; 46; 98; 99] /\
  let '(o, _, c') := run (mdns_question 9 (mdns_new Sn3 None) QPTR [97; 46; 98; 99])
    (repeat (tick_of [EvCommit 5 6]) 40) case_udp in
  let s' := fold_left sock_ev [EvTx 1] (c_sock c' 3) in
  o = Done (Ok tt) /\ s_wire s' = [frame_to ([224; 0; 0; 251], 5353)
      [0; 0; 1; 0; 0; 1; 0; 0; 0; 0; 0; 0; 1; 97; 2; 98; 99; 0; 0; 12; 0; 1]].
Proof.
  split; [split; vm_compute; auto|]. split; [exact DnsMainP.case_hostname|]. vm_compute. auto.
Qed.
