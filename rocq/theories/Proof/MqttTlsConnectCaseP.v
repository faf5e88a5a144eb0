(** The example of C110. *)
From Coq Require Import String Lia.
From Verif Require Import Model.Prelude Model.Bus Model.Chip Model.Specifiers Model.Mqtt Model.TlsTypes Model.TlsBuf Model.TlsKeys Model.TlsClient Model.MqttTls
  Spec.Hoare Spec.Sock Spec.Cases Spec.TcpClient Spec.TlsSecrets Spec.TlsMessages Spec.MqttMsg Spec.MqttStream Spec.TlsCases Spec.TlsProtect Spec.TlsTalk Spec.TlsQueue Spec.TlsSession Spec.TlsWire Spec.TlsAuth Spec.TlsRx Spec.TlsStream Spec.TlsComplete Spec.TlsArrive
  Spec.MqttTlsMsg Spec.MqttTlsTalk Spec.MqttTlsStream Spec.MqttTlsConnect Spec.MqttTlsPunctual.
From Verif Require Import Proof.TlsCaseP Proof.TlsTalkP Proof.TlsArriveCaseP.
Local Open Scope list_scope.

(** The client of C76 after its ClientHello, and what the server sends: the three records and two with CONNACK and SUBACK, cut inside CONNACK. *)
Definition mt_client : MqttTls := Eval vm_compute in mt_client_of (mtalk mtalk_init (firstn 3 mt_to_greeted)).
Definition mt_ms : list message := [MsgSubAck 7 [] 0x87].
Definition mt_datas : list (list Z) := Eval vm_compute in [ztake 3 (connack_packet 0 0 []); zdrop 3 (connack_packet 0 0 []) ++ message_stream mt_ms].
Definition mt_stream : list Z := Eval vm_compute in concat arrive_records ++ case_record (s_ap_traffic arrive_t3) 0 23 (nth 0 mt_datas []) ++ case_record (s_ap_traffic arrive_t3) 1 23 (nth 1 mt_datas []).
Definition mt_chip : chip := case_conn (ztake 100 mt_stream).
Definition mt_rest : list tick := [tick_of [EvRx (zdrop 100 mt_stream)]].
Notation call c now sch ch := (run (mtcall_run case_cx true 1 c (YProcess talk_rng now [] true)) sch ch).
Definition after_ (secs : Z) : mtans := WProcess (Ok (SeenCallAfter secs)) [] (Ok tt).
Lemma mt_calls : match call mt_client 104 [] mt_chip with (Done (r1, c1), _, ch1) =>
    match call c1 105 mt_rest ch1 with (Done (r2, c2), _, ch2) =>
    match call c2 106 [] ch2 with (Done (r3, c3), _, ch3) =>
    match call c3 107 [] ch3 with (Done (r4, c4), _, ch4) =>
    match call c4 108 [] ch4 with (Done (r5, c5), _, ch5) =>
    match call c5 109 [] ch5 with (Done (r6, c6), _, ch6) =>
    match call c6 300 [] ch6 with (Done (r7, c7), _, ch7) =>
    (mt_handshaking mt_client 104 /\ mt_handshaking c1 105 /\ mt_handshaking c2 106 /\ mt_handshaking c3 107) /\ ((mt_is_connected c4 = false /\ st_timeout (mt_st c4) = Some 107 /\ roomy 20 (buffer_size (mt_tls c4)) c4) /\ (mt_is_connected c5 = false /\ st_timeout (mt_st c5) = Some 107 /\ roomy 20 (buffer_size (mt_tls c5)) c5)) /\ roomy 20 (buffer_size (mt_tls c6)) c6 /\
    (tc_state (mt_tls c4) = TConnected /\ mt_is_connected c6 = true) /\ (tc_sn (mt_tls c2) = Sn3 /\ tc_sn (mt_tls c4) = Sn3 /\ tc_sn (mt_tls c6) = Sn3) /\
    (seen_ir [] mt_chip 3 = 0 /\ seen_ir mt_rest ch1 3 = 0 /\ seen_ir [] ch2 3 = 0 /\ seen_ir [] ch3 3 = 0 /\ seen_ir [] ch4 3 = 0 /\ seen_ir [] ch5 3 = 0 /\ seen_ir [] ch6 3 = 0) /\
    (r1 = after_ 7 /\ r2 = after_ 10 /\ r3 = after_ 10 /\ r4 = after_ 10 /\ r5 = after_ 9 /\ r6 = WProcess (Ok (SeenAck AConnAck)) [] (Ok tt) /\ r7 = WProcess (Ok (SeenAck (ASubAck 7 SA_NotAuthorized))) [] (Ok tt)) /\
    (s_rxlog (c_sock ch2 3) = mt_stream /\ s_rxlog (c_sock ch7 3) = mt_stream) /\
    (mt_is_connected c1 = false /\ mt_is_connected c2 = false /\ mt_is_connected c3 = false)
  | _ => False end
  | _ => False end
  | _ => False end
  | _ => False end
  | _ => False end
  | _ => False end
  | _ => False end.
Proof. vm_compute. repeat split; discriminate. Qed.
Lemma mt_case : exists c2 ch2 c4 ch4 c6 ch6 c7 ch7,
  mt_asks case_cx true mt_handshaking mt_client mt_chip [after_ 7; after_ 10] c2 ch2 /\ s_rxlog (c_sock ch2 3) = mt_stream /\
  mt_asks case_cx true mt_handshaking c2 ch2 [after_ 10; after_ 10] c4 ch4 /\
  mt_asks case_cx true mt_handshaking mt_client mt_chip [after_ 7; after_ 10; after_ 10; after_ 10] c4 ch4 /\ tc_state (mt_tls c4) = TConnected /\
  mt_asks case_cx true (mt_awaiting 20) c4 ch4 [after_ 9; WProcess (Ok (SeenAck AConnAck)) [] (Ok tt)] c6 ch6 /\ mt_is_connected c6 = true /\
  mt_polls case_cx true (roomy 20 (buffer_size (mt_tls c6))) c6 ch6 [([], WProcess (Ok (SeenAck (ASubAck 7 SA_NotAuthorized))) [] (Ok tt))] c7 ch7 /\ s_rxlog (c_sock ch7 3) = mt_stream.
Proof.
  pose proof mt_calls as H. assert (forall v, v = 0 -> no_link_change v) as NL by (intros v ->; split; [discriminate|split; discriminate]).
  destruct (call mt_client 104 [] mt_chip) as [[[(r1, c1)| |] s1] ch1] eqn:E1; try contradiction.
  destruct (call c1 105 mt_rest ch1) as [[[(r2, c2)| |] s2] ch2] eqn:E2; try contradiction.
  destruct (call c2 106 [] ch2) as [[[(r3, c3)| |] s3] ch3] eqn:E3; try contradiction.
  destruct (call c3 107 [] ch3) as [[[(r4, c4)| |] s4] ch4] eqn:E4; try contradiction.
  destruct (call c4 108 [] ch4) as [[[(r5, c5)| |] s5] ch5] eqn:E5; try contradiction.
  destruct (call c5 109 [] ch5) as [[[(r6, c6)| |] s6] ch6] eqn:E6; try contradiction.
  destruct (call c6 300 [] ch6) as [[[(r7, c7)| |] s7] ch7] eqn:E7; try contradiction.
  destruct H as ((G1 & G2 & G3 & G4) & ((A5 & B5 & D5) & (A6 & B6 & D6)) & G7 & (T4 & T6) & (N2 & N4 & N6) & (I1 & I2 & I3 & I4 & I5 & I6 & I7) & (-> & -> & -> & -> & -> & -> & ->) & (L2 & L7) & _).
  assert (mt_awaiting 20 c4 108) as G5 by (split; [exact A5|split; [rewrite B5; intros since [= <-]; split; discriminate|exact D5]]).
  assert (mt_awaiting 20 c5 109) as G6 by (split; [exact A6|split; [rewrite B6; intros since [= <-]; split; discriminate|exact D6]]).
  assert (mt_asks case_cx true mt_handshaking mt_client mt_chip [after_ 7; after_ 10] c2 ch2) as H2.
  { change [after_ 7; after_ 10] with (([] ++ [after_ 7]) ++ [after_ 10]). eapply AkAsk with (6 := E2); [|exact G2|constructor|repeat constructor|apply NL; exact I2].
    eapply AkAsk with (6 := E1); [apply AkNil|exact G1|constructor|constructor|apply NL; exact I1]. }
  exists c2, ch2, c4, ch4, c6, ch6, c7, ch7. split; [exact H2|]. split; [exact L2|]. split; [|split; [|split; [exact T4|split; [|split; [exact T6|split; [|exact L7]]]]]].
  - change [after_ 10; after_ 10] with (([] ++ [after_ 10]) ++ [after_ 10]). eapply AkAsk with (6 := E4); [|exact G4|constructor|constructor|rewrite N2; apply NL; exact I4].
    eapply AkAsk with (6 := E3); [apply AkNil|exact G3|constructor|constructor|rewrite N2; apply NL; exact I3].
  - change [after_ 7; after_ 10; after_ 10; after_ 10] with (([after_ 7; after_ 10] ++ [after_ 10]) ++ [after_ 10]). eapply AkAsk with (6 := E4); [|exact G4|constructor|constructor|apply NL; exact I4].
    eapply AkAsk with (6 := E3); [exact H2|exact G3|constructor|constructor|apply NL; exact I3].
  - change [after_ 9; WProcess (Ok (SeenAck AConnAck)) [] (Ok tt)] with (([] ++ [after_ 9]) ++ [WProcess (Ok (SeenAck AConnAck)) [] (Ok tt)]). eapply AkAsk with (6 := E6); [|exact G6|constructor|constructor|rewrite N4; apply NL; exact I6].
    eapply AkAsk with (6 := E5); [apply AkNil|exact G5|constructor|constructor|rewrite N4; apply NL; exact I5].
  - change [([], WProcess (Ok (SeenAck (ASubAck 7 SA_NotAuthorized))) [] (Ok tt))] with ([] ++ [(@nil pub_op, WProcess (Ok (SeenAck (ASubAck 7 SA_NotAuthorized))) [] (Ok tt))]).
    eapply PlPoll with (6 := E7); [apply PlNil|exact G7|constructor|constructor|rewrite N6; apply NL; exact I7].
Qed.
(** The same calls with the clock. *)
Lemma mt_in_time : exists c6 ch6, mt_punctual case_cx true 20 101 mt_client mt_chip [(104, after_ 7); (105, after_ 10); (106, after_ 10); (107, after_ 10); (108, after_ 9); (109, WProcess (Ok (SeenAck AConnAck)) [] (Ok tt))] c6 ch6 /\ mt_is_connected c6 = true.
Proof.
  pose proof mt_calls as H. assert (forall v, v = 0 -> no_link_change v) as NL by (intros v ->; split; [discriminate|split; discriminate]).
  destruct (call mt_client 104 [] mt_chip) as [[[(r1, c1)| |] s1] ch1] eqn:E1; try contradiction.
  destruct (call c1 105 mt_rest ch1) as [[[(r2, c2)| |] s2] ch2] eqn:E2; try contradiction.
  destruct (call c2 106 [] ch2) as [[[(r3, c3)| |] s3] ch3] eqn:E3; try contradiction.
  destruct (call c3 107 [] ch3) as [[[(r4, c4)| |] s4] ch4] eqn:E4; try contradiction.
  destruct (call c4 108 [] ch4) as [[[(r5, c5)| |] s5] ch5] eqn:E5; try contradiction.
  destruct (call c5 109 [] ch5) as [[[(r6, c6)| |] s6] ch6] eqn:E6; try contradiction.
  destruct (call c6 300 [] ch6) as [[[(r7, c7)| |] s7] ch7] eqn:E7; try contradiction.
  destruct H as ((G1 & G2 & G3 & G4) & ((A5 & B5 & D5) & (A6 & B6 & D6)) & G7 & (T4 & T6) & (N2 & N4 & N6) & (I1 & I2 & I3 & I4 & I5 & I6 & I7) & (-> & -> & -> & -> & -> & -> & ->) & (L2 & L7) & K1 & K2 & K3).
  exists c6, ch6. split; [|exact T6].
  change [(104, after_ 7); (105, after_ 10); (106, after_ 10); (107, after_ 10); (108, after_ 9); (109, WProcess (Ok (SeenAck AConnAck)) [] (Ok tt))] with (((((([] ++ [(104, after_ 7)]) ++ [(105, after_ 10)]) ++ [(106, after_ 10)]) ++ [(107, after_ 10)]) ++ [(108, after_ 9)]) ++ [(109, WProcess (Ok (SeenAck AConnAck)) [] (Ok tt))]).
  eapply PmProcess with (8 := E6); [|exact A6|intros _; exact D6|vm_compute; repeat split; discriminate|constructor|repeat constructor|apply NL; exact I6].
  eapply PmProcess with (8 := E5); [|exact A5|intros _; exact D5|vm_compute; repeat split; discriminate|constructor|repeat constructor|apply NL; exact I5].
  eapply PmProcess with (8 := E4); [|exact K3|intros X; destruct G4; contradiction|vm_compute; repeat split; discriminate|constructor|repeat constructor|apply NL; exact I4].
  eapply PmProcess with (8 := E3); [|exact K2|intros X; destruct G3; contradiction|vm_compute; repeat split; discriminate|constructor|repeat constructor|apply NL; exact I3].
  eapply PmProcess with (8 := E2); [|exact K1|intros X; destruct G2; contradiction|vm_compute; repeat split; discriminate|constructor|repeat constructor|apply NL; exact I2].
  eapply PmProcess with (8 := E1); [apply PmNil|reflexivity|intros X; destruct G1; contradiction|vm_compute; repeat split; discriminate|constructor|repeat constructor|apply NL; exact I1].
Qed.
