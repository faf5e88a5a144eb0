(** Concrete cases for the DHCP client with a failing bus and with malformed datagrams. *)
From Verif Require Import Model.Prelude Model.Bus Model.Chip Model.Specifiers Model.DhcpPkt Spec.Sock Spec.Hoare Spec.UdpClient
  Spec.Cases Spec.DhcpMsg Spec.DhcpCases Model.DhcpClient Spec.DhcpRfc Spec.DhcpHist Spec.DhcpFault Spec.DhcpStuck.
From Verif Require Import Proof.DnsMainP Proof.DhcpPktP Proof.DhcpCaseP Proof.DhcpFaultP.
From Verif Require Import Model.DhcpClient.
From Verif Require Proof.MqttMainP.

(** Two calls in a row, without writing down the chips. *)
Lemma two_runs (cl : Client) c sch now now2 (P : res err Z -> Client -> Prop) (Q : res err Z -> Client -> Prop) :
  match run (process true 400 cl now) sch c with
  | (Done (r, cl1), _, c1) => P r cl1 /\ match run (process true 400 cl1 now2) [] c1 with (Done (r2, cl2), _, _) => Q r2 cl2 | _ => False end
  | _ => False
  end -> exists r cl1 sch1 c1 r2 cl2 sch2 c2,
    run (process true 400 cl now) sch c = (Done (r, cl1), sch1, c1) /\ P r cl1 /\
    run (process true 400 cl1 now2) [] c1 = (Done (r2, cl2), sch2, c2) /\ Q r2 cl2.
Proof.
  destruct (run (process true 400 cl now) sch c) as ((o & sch1) & c1) eqn:E1. destruct o as [(r & cl1)| |]; try contradiction.
  intros (HP & H). destruct (run (process true 400 cl1 now2) [] c1) as ((o2 & sch2) & c2) eqn:E2.
  destruct o2 as [(r2 & cl2)| |]; try contradiction. exists r, cl1, sch1, c1, r2, cl2, sch2, c2. auto.
Qed.

Definition nak_d : dgram := case_from (case_pkt 2 0x12345678 [Opt 53 [6]]).
Definition fail_after (n : nat) : list tick := repeat (tick_of []) n ++ [{| t_evs := []; t_fault := Some 0%nat |}].
Definition renewing : Client := case_client Renewing None (1575, 2757, 3150, 1002).
Lemma nak_socket : socket_ok renewing (case_dhcp [nak_d]) [nak_d] case_out.
Proof. case_socket. Qed.
Lemma nak_forgotten : exists sch, let cl := case_client Renewing None (1575, 2757, 3150, 1002) in
  let d := case_from (case_pkt 2 0x12345678 [Opt 53 [6]]) in
  client_ok cl /\ socket_ok cl (case_dhcp [d]) [d] DhcpCaseP.case_out /\
  exists cl1 sch1 c1 cl2 sch2 c2,
    run (process true 400 cl 2600) sch (case_dhcp [d]) = (Done (Err Other, cl1), sch1, c1) /\ leased_ip cl1 = Some unspecified /\
    run (process true 400 cl1 2601) [] c1 = (Done (Ok 1158, cl2), sch2, c2) /\ leased_ip cl2 = Some unspecified.
Proof.
  exists (fail_after 11). cbv zeta. split; [apply case_client_ok|]. split; [exact nak_socket|].
  destruct (two_runs renewing (case_dhcp [nak_d]) (fail_after 11) 2600 2601
    (fun r cl => r = Err Other /\ leased_ip cl = Some unspecified) (fun r cl => r = Ok 1158 /\ leased_ip cl = Some unspecified))
    as (r & cl1 & sch1 & c1 & r2 & cl2 & sch2 & c2 & E1 & (-> & L1) & E2 & -> & L2).
  { vm_compute. repeat split. }
  exists cl1, sch1, c1, cl2, sch2, c2. repeat split; assumption.
Qed.
Lemma nak_stuck : exists sch, let cl := case_client Renewing None (1575, 2757, 3150, 1002) in
  let d := case_from (case_pkt 2 0x12345678 [Opt 53 [6]]) in
  client_ok cl /\ socket_ok cl (case_dhcp [d]) [d] DhcpCaseP.case_out /\
  exists cl1 sch1 c1 cl2 sch2 c2,
    run (process true 400 cl 2600) sch (case_dhcp [d]) = (Done (Err Other, cl1), sch1, c1) /\
    run (process true 400 cl1 1000000) [] c1 = (Done (Err UnexpectedEof, cl2), sch2, c2) /\ leased_ip cl2 = Some [10; 0; 0; 77].
Proof.
  exists (fail_after 10). cbv zeta. split; [apply case_client_ok|]. split; [exact nak_socket|].
  destruct (two_runs renewing (case_dhcp [nak_d]) (fail_after 10) 2600 1000000
    (fun r cl => r = Err Other) (fun r cl => r = Err UnexpectedEof /\ leased_ip cl = Some [10; 0; 0; 77]))
    as (r & cl1 & sch1 & c1 & r2 & cl2 & sch2 & c2 & E1 & -> & E2 & -> & L2).
  { vm_compute. repeat split. }
  exists cl1, sch1, c1, cl2, sch2, c2. repeat split; assumption.
Qed.

Definition works_script : list (option (list Z)) :=
  [Some [0]; Some [1]; Some [0x22]; Some [0; 0]] ++ repeat (Some [0; 0]) 7 ++ [Some [0]; Some [0x22]; Some [8; 0; 0; 0; 0; 0]; Some [0x22]].
Lemma two_calls : let cl := client_new Sn3 7 case_mac case_host in
  timed cl /\ cl_state cl = Init /\ exists c', bus_calls true cl c' /\ cl_state c' = Selecting /\ timed c'.
Proof.
  cbv zeta. assert (timed (client_new Sn3 7 case_mac case_host)) as T by (vm_compute; repeat split; intros; try discriminate; auto).
  split; [exact T|]. split; [reflexivity|].
  destruct (play (process true 400 (client_new Sn3 7 case_mac case_host) 3) [Some [0]; None]) as [(r1 & cl1)| |] eqn:E1;
    [|vm_compute in E1; discriminate..].
  assert (cl1 = client_new Sn3 7 case_mac case_host) as ->.
  { assert (match play (process true 400 (client_new Sn3 7 case_mac case_host) 3) [Some [0]; None] with
      Done (_, x) => x = client_new Sn3 7 case_mac case_host | _ => False end) as H by (vm_compute; reflexivity).
    rewrite E1 in H. exact H. }
  destruct (play (process true 400 (client_new Sn3 7 case_mac case_host) 5) works_script) as [(r2 & cl2)| |] eqn:E2;
    [|vm_compute in E2; discriminate..].
  assert (bus_calls true (client_new Sn3 7 case_mac case_host) cl2) as B.
  { eapply BcCall; [exact (MqttMainP.play_done _ _ _ E1)|]. eapply BcCall; [exact (MqttMainP.play_done _ _ _ E2)|]. apply BcNil. }
  exists cl2. split; [exact B|]. split.
  - assert (match play (process true 400 (client_new Sn3 7 case_mac case_host) 5) works_script with
      Done (_, x) => cl_state x = Selecting | _ => False end) as H by (vm_compute; reflexivity).
    rewrite E2 in H. exact H.
  - exact (proj1 (calls_timed _ _ _ B T)).
Qed.

Lemma empty_socket : socket_ok (case_client Bound None (1575, 2757, 3150, 1002)) (case_dhcp [case_from []]) [case_from []] case_out.
Proof. case_socket. Qed.
Lemma empty_blocks : exists cl c d cl' sch' c',
  client_ok cl /\ socket_ok cl c [d] DhcpCaseP.case_out /\ clock_ok 1000000 (world_of cl c [d] DhcpCaseP.case_out) /\
  cl_state_timeout cl = None /\ leased (cl_state cl) /\ cl_lease cl < (1000000 - cl_lease_secs cl) mod 4294967296 /\
  d_data d = [] /\ run (process true 400 cl 1000000) [] c = (Done (Err UnexpectedEof, cl'), sch', c') /\
  leased_ip cl' = Some [10; 0; 0; 77].
Proof.
  destruct (run_case (process true 400 (case_client Bound None (1575, 2757, 3150, 1002)) 1000000) [] (case_dhcp [case_from []])
    (fun a _ _ => fst a = Err UnexpectedEof /\ leased_ip (snd a) = Some [10; 0; 0; 77])) as ((r & cl') & sch' & c' & E & R & L).
  { vm_compute. auto. }
  cbn [fst snd] in R, L. subst r.
  exists (case_client Bound None (1575, 2757, 3150, 1002)), (case_dhcp [case_from []]), (case_from []), cl', sch', c'.
  split; [apply case_client_ok|]. split; [exact empty_socket|]. split; [split; cbn; lia|]. split; [reflexivity|].
  split; [vm_compute; auto|]. split; [vm_compute; reflexivity|]. split; [reflexivity|]. split; assumption.
Qed.

Definition bare_d : dgram := case_from (case_pkt 2 0x12345678 (case_ack [])).
Lemma bare_socket : socket_ok case_asked (case_dhcp [bare_d]) [bare_d] case_out.
Proof. case_socket. Qed.
Lemma bare_area : zdrop 240 (d_data bare_d) = [53; 1; 5; 54; 4; 10; 0; 0; 1; 1; 4; 255; 255; 255; 0; 255].
Proof. vm_compute. reflexivity. Qed.
Lemma bare_blocks : blocks case_asked bare_d.
Proof.
  right. split; [vm_compute; auto|]. split; [split; [apply (AnsOp (d_data bare_d))|apply (AnsXid (d_data bare_d))]|]. right.
  assert (240 <= zlen (d_data bare_d)) as Hl by (vm_compute; discriminate).
  split.
  - assert (answers (d_data bare_d) GMsgType (read_found GMsgType (Present 1 (5 :: skipn 3 (zdrop 240 (d_data bare_d)))))) as H.
    { apply (AnsOption _ GMsgType 53 _ eq_refl Hl). rewrite bare_area. apply FHit; lia. }
    rewrite bare_area in H. exact H.
  - intros (t & Ht).
    assert (answers (d_data bare_d) GLease (read_found GLease Absent)) as Ha.
    { apply (AnsOption _ GLease 51 Absent eq_refl Hl). rewrite bare_area.
      apply (FSkip 51 53 [5] _ Absent); try lia. apply (FSkip 51 54 [10; 0; 0; 1] _ Absent); try lia.
      apply (FSkip 51 1 [255; 255; 255; 0] [255] Absent); try lia. apply FOne. }
    pose proof (answers_fun _ _ _ _ Ht Ha) as E. vm_compute in E. discriminate.
Qed.
Lemma bare_ack : let d := case_from (case_pkt 2 0x12345678 (case_ack [])) in
  client_ok case_asked /\ socket_ok case_asked (case_dhcp [d]) [d] DhcpCaseP.case_out /\ blocks case_asked d /\
  blocks (case_client Bound None (1575, 2757, 3150, 1002)) (case_from []) /\
  match fst (fst (run (process true 400 case_asked 1000000) [] (case_dhcp [d]))) with
  | Done (r, cl') => r = Ok 0 /\ cl' = case_asked
  | _ => False
  end.
Proof.
  cbv zeta. split; [apply case_client_ok|]. split; [exact bare_socket|]. split; [exact bare_blocks|].
  split; [left; left; reflexivity|]. vm_compute. auto.
Qed.
