(** Datagrams that block the DNS and mDNS clients, and answers that nobody asked for: C97 - C99. *)
From Verif Require Import Model.Prelude Model.Bus Model.Chip Model.Specifiers Model.HlIo Model.HlUdp Model.Stream Model.Dns Model.Sntp
  Spec.Sock Spec.Hoare Spec.Cursor Spec.UdpClient Spec.DnsMsg Spec.Cases Spec.DnsStuck Spec.SntpMsg Spec.SntpHist.
From Verif Require Proof.DnsStuckP Proof.SntpHistP Proof.DnsMainP.

(** C97, full statement: whatever the first waiting datagram [d] is, the response [g] behind it is shown by
    the second call (for every [d], without the second hypothesis).  It holds if [d] is not a response to
    the query, or if all the questions are there that it announces and its names do not loop. *)
Theorem C97_dns_next_partial : forall dbg cl c d g q fs a id rcode qs an au ex,
  udp_view (c_sock c (sn_raw (dc_sn cl))) (d :: g :: q) fs a ->
  ~ response_to (d_data d) (Some id) \/ (questions_there (d_data d) /\ no_loops (d_data d)) ->
  response_msg (d_data g) id rcode qs an au ex ->
  exists f0, forall fuel, (f0 <= fuel)%nat -> forall bufs1 bufs,
  ensures (x <-- take_response fuel (dns_response dbg fuel cl id) bufs1 ;;
           y <-- take_response fuel (dns_response dbg fuel cl id) bufs ;; Ret (x, y)) (sn_raw (dc_sn cl)) c (fun r s' =>
    exists new y, snd r = Ok y /\ udp_view s' (q ++ new) fs a /\
    decodes rcode_number rcode (dr_code y) /\ dr_answers y = zlen an /\ records_seen (an ++ au ++ ex) bufs (dr_records y)).
Proof. intros dbg cl c d g q fs a id rcode qs an au ex V H Hg. exact (DnsStuckP.next_response _ _ _ _ _ _ _ _ _ _ _ _ _ _ _ V H Hg (or_intror eq_refl)). Qed.
Print Assumptions C97_dns_next_partial.
Theorem C97_mdns_next_partial : forall dbg cl c d g q fs a id rcode qs an au ex,
  udp_view (c_sock c (sn_raw (mc_sn cl))) (d :: g :: q) fs a ->
  ~ response_to (d_data d) None \/ (questions_there (d_data d) /\ no_loops (d_data d)) ->
  response_msg (d_data g) id rcode qs an au ex ->
  exists f0, forall fuel, (f0 <= fuel)%nat -> forall bufs1 bufs,
  ensures (x <-- take_response fuel (mdns_response dbg fuel cl) bufs1 ;;
           y <-- take_response fuel (mdns_response dbg fuel cl) bufs ;; Ret (x, y)) (sn_raw (mc_sn cl)) c (fun r s' =>
    exists new y, snd r = Ok y /\ udp_view s' (q ++ new) fs a /\
    decodes rcode_number rcode (dr_code y) /\ dr_answers y = zlen an /\ records_seen (an ++ au ++ ex) bufs (dr_records y)).
Proof. intros dbg cl c d g q fs a id rcode qs an au ex V H Hg. exact (DnsStuckP.next_response _ _ _ _ _ _ _ _ _ _ _ _ _ _ _ V H Hg (or_introl eq_refl)). Qed.
Print Assumptions C97_mdns_next_partial.
(** A response that ends within its questions stays for good: every later call fails, whatever arrives. *)
Theorem C97_dns_stuck : forall dbg cl c d q fs a id, udp_view (c_sock c (sn_raw (dc_sn cl))) (d :: q) fs a ->
  cut_response (d_data d) (Some id) ->
  exists f0, forall rs c', polls f0 (fun fuel => dns_response dbg fuel cl id) c rs c' ->
  Forall (fun r => r = Err UnexpectedEof) rs /\ exists new, udp_view (c_sock c' (sn_raw (dc_sn cl))) (d :: q ++ new) fs a.
Proof. intros dbg cl c d q fs a id. exact (DnsStuckP.polls_cut dbg (dc_sn cl) (Some id) c d q fs a). Qed.
Print Assumptions C97_dns_stuck.
Theorem C97_mdns_stuck : forall dbg cl c d q fs a, udp_view (c_sock c (sn_raw (mc_sn cl))) (d :: q) fs a ->
  cut_response (d_data d) None ->
  exists f0, forall rs c', polls f0 (fun fuel => mdns_response dbg fuel cl) c rs c' ->
  Forall (fun r => r = Err UnexpectedEof) rs /\ exists new, udp_view (c_sock c' (sn_raw (mc_sn cl))) (d :: q ++ new) fs a.
Proof. intros dbg cl c d q fs a. exact (DnsStuckP.polls_cut dbg (mc_sn cl) None c d q fs a). Qed.
Print Assumptions C97_mdns_stuck.
(** So the full statement is false: a header that announces a question and nothing else, then a response. *)
Definition case_cut : list Z := [0x12; 0x34; 0x81; 0x80; 0; 1; 0; 0; 0; 0; 0; 0].
Theorem C97_next_refuted : exists c d g qs an, udp_view (c_sock c 3) [d; g] [frame_to ([10; 0; 0; 9], 0x1234) case_tcp_unsent] ([10; 0; 0; 9], 0x1234) /\
  response_msg (d_data g) 0x1234 0 qs an [] [] /\
  fst (fst (run (x <-- take_response 99 (dns_response true 99 (dns_new Sn3 45917 [10; 0; 0; 1] 0) 0x1234) [] ;;
    y <-- take_response 99 (dns_response true 99 (dns_new Sn3 45917 [10; 0; 0; 1] 0) 0x1234) [] ;; Ret (x, y)) [] c)) =
    Done (Err UnexpectedEof, Err UnexpectedEof) /\
  fst (fst (run (x <-- take_response 99 (mdns_response true 99 (mdns_new Sn3 None)) [] ;;
    y <-- take_response 99 (mdns_response true 99 (mdns_new Sn3 None)) [] ;; Ret (x, y)) [] c)) =
    Done (Err UnexpectedEof, Err UnexpectedEof).
Proof.
  exists (case_sntp_chip [case_dns_d case_cut; case_dns_d case_response]), (case_dns_d case_cut), (case_dns_d case_response). eexists. eexists.
  split; [DnsMainP.case_view|]. split; [exact DnsMainP.case_response_msg|]. split; vm_compute; reflexivity.
Qed.
Print Assumptions C97_next_refuted.
(** The hypotheses: [case_cut] stays; a datagram of another query and one without questions do not. *)
Example C97_case : cut_response case_cut (Some 0x1234) /\ cut_response case_cut None /\ ~ response_to case_cut (Some 0x1235) /\
  questions_there case_response /\ no_loops case_response /\
  (exists c', polls 9 (fun fuel => mdns_response true fuel (mdns_new Sn3 None)) (case_sntp_chip [case_dns_d case_cut; case_dns_d case_response])
     [Err UnexpectedEof] c').
Proof.
  assert (forall want, response_to case_cut want -> cut_response case_cut want) as H.
  { intros want Hr. split; [exact Hr|]. apply QcName; [vm_compute; reflexivity|]. exact (CutEnd case_cut). }
  split; [apply H; split; [vm_compute; discriminate|split; [vm_compute; discriminate|reflexivity]]|].
  split; [apply H; split; [vm_compute; discriminate|split; [vm_compute; discriminate|exact I]]|].
  split; [intros (_ & _ & E); discriminate E|].
  split. { destruct DnsMainP.case_response_msg as (f1 & f2 & p1 & e & _ & _ & _ & _ & _ & _ & _ & Q & _). eexists _, p1. split; [exact Q|reflexivity]. }
  split; [exact DnsMainP.case_response_no_loops|].
  match goal with |- exists c', polls _ _ ?c0 _ _ => destruct (run (take_response 9 (mdns_response true 9 (mdns_new Sn3 None)) []) [] c0) as ((o & sch) & c1) eqn:E end.
  assert (o = Done (Err UnexpectedEof)) as ->. { apply (f_equal (fun x => fst (fst x))) in E. cbn [fst] in E. rewrite <- E. vm_compute. reflexivity. }
  exists c1. eapply (PoCall _ _ 9 [] []); [auto|constructor|exact E|constructor].
Qed.

(** C98, full statement: a response that is taken came from the server that was asked,
    [(d_ip d, d_port d) = dc_server cl].  What holds: it has the number of the query. *)
Theorem C98_taken_partial : forall dbg fuel cl c q fs a id sch x sch' c',
  udp_view (c_sock c (sn_raw (dc_sn cl))) q fs a -> no_faults sch ->
  run (dns_response dbg fuel cl id) sch c = (Done (Ok x), sch', c') ->
  exists new d q', q ++ new = d :: q' /\ udp_view (c_sock c' (sn_raw (dc_sn cl))) (d :: q') fs a /\ answers_query (d_data d) id.
Proof. exact DnsStuckP.response_taken. Qed.
Print Assumptions C98_taken_partial.
(** The sender is not looked at. *)
Theorem C98_taken_refuted : exists c d, udp_view (c_sock c 3) [d] [frame_to ([10; 0; 0; 9], 0x1234) case_tcp_unsent] ([10; 0; 0; 9], 0x1234) /\
  (d_ip d, d_port d) <> ([10; 0; 0; 1], 53) /\
  match fst (fst (run (take_response 99 (dns_response true 99 (dns_new Sn3 45917 [10; 0; 0; 1] 0) 0x1234) [[]]) [] c)) with
  | Done (Ok x) => dr_code x = Ok NoError /\ match dr_records x with [Ok (Some r)] => rr_rdata r = RD_A [1; 2; 3; 4] | _ => False end
  | _ => False
  end.
Proof.
  exists (case_sntp_chip [{| d_ip := [6; 6; 6; 6]; d_port := 666; d_data := case_response |}]), {| d_ip := [6; 6; 6; 6]; d_port := 666; d_data := case_response |}.
  split; [DnsMainP.case_view|]. split; [discriminate|]. vm_compute. auto.
Qed.
Print Assumptions C98_taken_refuted.
Example C98_case : exists x sch' c', let c := case_dns case_response in
  udp_view (c_sock c 3) [case_dns_d case_response] [frame_to ([10; 0; 0; 9], 0x1234) case_tcp_unsent] ([10; 0; 0; 9], 0x1234) /\
  run (dns_response true 99 (dns_new Sn3 45917 [10; 0; 0; 1] 0) 0x1234) [] c = (Done (Ok x), sch', c') /\ answer_count x = 2.
Proof.
  cbv zeta. destruct (run (dns_response true 99 (dns_new Sn3 45917 [10; 0; 0; 1] 0) 0x1234) [] (case_dns case_response)) as ((o & sch') & c') eqn:E.
  assert (match o with Done (Ok x) => answer_count x = 2 | _ => False end) as H.
  { replace o with (fst (fst (run (dns_response true 99 (dns_new Sn3 45917 [10; 0; 0; 1] 0) 0x1234) [] (case_dns case_response)))) by now rewrite E.
    vm_compute. reflexivity. }
  destruct o as [[x|]| |]; try contradiction. exists x, sch', c'. split; [exact DnsMainP.case_dns_view|]. auto.
Qed.

(** C99, full statement: there are no more replies than requests, and each carries the transmit time of a
    request, which is 0, as its originate time:
    [(length (replies l) <= requests l)%nat /\ Forall (fun r => rp_originate r = 0) (replies l)].
    What holds: the replies are the usable packets of the server among the datagrams that were removed, each
    once and in the order of their arrival; and every request that succeeded is one packet. *)
Theorem C99_replies_partial : forall dbg cl c l c', sntp_calls dbg cl c l c' ->
  forall q fs a, udp_view (c_sock c (sn_raw (sc_sn cl))) q fs a ->
  exists new used q' sent, q ++ new = used ++ q' /\ server_replies (sc_server cl) used (replies l) /\
    udp_view (c_sock c' (sn_raw (sc_sn cl))) q' (fs ++ sent) a /\
    sent = repeat (frame_to a (ntp_bytes client_request)) (requests l).
Proof. exact SntpHistP.calls_reported. Qed.
Print Assumptions C99_replies_partial.
(** A packet with another originate time is reported to a client that never asked. *)
Theorem C99_replies_refuted : exists c q fs a l c' r, udp_view (c_sock c 3) q fs a /\ sntp_calls true case_sntp c l c' /\
  requests l = O /\ replies l = [r] /\ rp_originate r <> 0.
Proof.
  exists (case_sntp_chip [case_dns_d (ntp_bytes case_ntp)]), [case_dns_d (ntp_bytes case_ntp)],
    [frame_to ([10; 0; 0; 9], 0x1234) case_tcp_unsent], ([10; 0; 0; 9], 0x1234), [DidLook (Ok (reply_of case_ntp))].
  destruct (run (on_recv_interrupt true case_sntp) [] (case_sntp_chip [case_dns_d (ntp_bytes case_ntp)])) as ((o & sch') & c') eqn:E.
  assert (o = Done (Ok (reply_of case_ntp))) as ->. { apply (f_equal (fun x => fst (fst x))) in E. cbn [fst] in E. rewrite <- E. vm_compute. reflexivity. }
  exists c', (reply_of case_ntp). split; [DnsMainP.case_view|].
  split; [eapply ScLook; [constructor|exact E|constructor]|]. split; [reflexivity|]. split; [reflexivity|]. vm_compute. discriminate.
Qed.
Print Assumptions C99_replies_refuted.
(** Two looks and a request. *)
Example C99_case : let c := case_sntp_chip [case_d2; case_dns_d (ntp_bytes case_ntp)] in
  exists l c', sntp_calls true case_sntp c l c' /\ replies l = [reply_of case_ntp] /\ length l = 3%nat /\
  server_replies (sc_server case_sntp) [case_d2; case_dns_d (ntp_bytes case_ntp)] [reply_of case_ntp].
Proof.
  cbv zeta. set (c := case_sntp_chip [case_d2; case_dns_d (ntp_bytes case_ntp)]).
  destruct (run (on_recv_interrupt true case_sntp) [] c) as ((o1 & sch1) & c1) eqn:E1.
  destruct (run (sntp_request case_sntp) [] c1) as ((o2 & sch2) & c2) eqn:E2.
  destruct (run (on_recv_interrupt true case_sntp) [] c2) as ((o3 & sch3) & c3) eqn:E3.
  assert (o1 = Done (Err WouldBlock) /\ (exists x, o2 = Done x) /\ o3 = Done (Ok (reply_of case_ntp))) as (-> & (x & ->) & ->).
  { assert (c1 = snd (run (on_recv_interrupt true case_sntp) [] c)) as -> by now rewrite E1.
    assert (c2 = snd (run (sntp_request case_sntp) [] (snd (run (on_recv_interrupt true case_sntp) [] c)))) as -> by now rewrite E2.
    apply (f_equal (fun x => fst (fst x))) in E1. apply (f_equal (fun x => fst (fst x))) in E2. apply (f_equal (fun x => fst (fst x))) in E3.
    cbn [fst] in E1, E2, E3. rewrite <- E1, <- E2, <- E3. unfold c. split; [vm_compute; reflexivity|]. split; [vm_compute; eexists; reflexivity|vm_compute; reflexivity]. }
  exists [DidLook (Err WouldBlock); DidAsk x; DidLook (Ok (reply_of case_ntp))], c3.
  split; [eapply ScLook; [constructor|exact E1|]; eapply ScAsk; [constructor|exact E2|]; eapply ScLook; [constructor|exact E3|constructor]|].
  split; [reflexivity|]. split; [reflexivity|].
  apply SrOther; [intros p rest C; discriminate C|].
  apply (SrReply _ _ [] [] case_ntp []); [reflexivity| |vm_compute; reflexivity|repeat split; vm_compute; discriminate|constructor].
  repeat split; try (vm_compute; discriminate); vm_compute; repeat constructor; discriminate.
Qed.
