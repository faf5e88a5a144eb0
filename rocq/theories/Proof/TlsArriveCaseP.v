(** The example of C109. *)
From Coq Require Import String Lia.
From Verif Require Import Model.Prelude Model.Bus Model.Chip Model.Specifiers Model.TlsTypes Model.TlsBuf Model.TlsKeys Model.TlsClient
  Spec.Hoare Spec.Sock Spec.Cases Spec.TcpClient Spec.TlsSecrets Spec.TlsMessages Spec.MqttMsg Spec.TlsCases Spec.TlsProtect Spec.TlsTalk Spec.TlsQueue Spec.TlsSession Spec.TlsWire Spec.TlsAuth Spec.TlsRx Spec.TlsStream Spec.TlsComplete Spec.TlsArrive.
From Verif Require Import Proof.TlsCaseP Proof.TlsTalkP.
Local Open Scope list_scope.

(** The client of C60 after its ClientHello, and what the server sends: the three records and one with the data [104; 105]. *)
Definition arrive_client : TlsClient := Eval vm_compute in client_of (talk talk_init to_hello).
Definition arrive_t0 : list Z := Eval vm_compute in transcript arrive_client.
Definition arrive_hello : list Z := Eval vm_compute in zdrop 4 sh_message.
Definition arrive_t1 : list Z := Eval vm_compute in arrive_t0 ++ sh_message.
Definition arrive_t2 : list Z := Eval vm_compute in arrive_t1 ++ ee_message.
Definition arrive_t3 : list Z := Eval vm_compute in arrive_t2 ++ fin_message arrive_t1 arrive_t2.
Definition arrive_records : list (list Z) := Eval vm_compute in
  [plaintext_record 22 sh_message; case_record (s_hs_traffic arrive_t1) 0 22 ee_message; case_record (s_hs_traffic arrive_t1) 1 22 (fin_message arrive_t1 arrive_t2)].
Definition arrive_stream : list Z := Eval vm_compute in concat arrive_records ++ case_record (s_ap_traffic arrive_t3) 0 23 [104; 105].
(** A hundred bytes are there at first, the others arrive during the second call. *)
Definition arrive_chip : chip := case_conn (ztake 100 arrive_stream).
Definition arrive_rest : list tick := [tick_of [EvRx (zdrop 100 arrive_stream)]].
Lemma run_nil {A} (p : prog A) : forall c o sch c', run p [] c = (o, sch, c') -> sch = [].
Proof. induction p as [a|a b l k IH|a b d k IH| |]; cbn [run]; intros c o sch c' H; try (injection H as <- <- <-; reflexivity); eapply IH; exact H. Qed.
Notation call c now sch ch := (run (tls_process case_cx true 1 c talk_rng now) sch ch).
Lemma arrive_calls :
  match call arrive_client 104 [] arrive_chip with
  | (Done (r1, c1), _, ch1) =>
      match call c1 105 arrive_rest ch1 with
      | (Done (r2, c2), _, ch2) =>
          match call c2 106 [] ch2 with
          | (Done (r3, c3), _, ch3) =>
              match call c3 107 [] ch3 with
              | (Done (r4, c4), _, ch4) =>
                  match call c4 300 [] ch4 with
                  | (Done (r5, c5), _, ch5) =>
                      (in_time arrive_client 104 /\ in_time c1 105 /\ in_time c2 106 /\ in_time c3 107) /\
                      (tc_state c1 = TWaitServerHello /\ tc_state c2 = TWaitEncryptedExtensions /\ tc_state c3 = TWaitFinished /\ tc_state c4 = TConnected) /\
                      (seen_ir [] arrive_chip 3 = 0 /\ seen_ir arrive_rest ch1 3 = 0 /\ seen_ir [] ch2 3 = 0 /\ seen_ir [] ch3 3 = 0 /\ seen_ir [] ch4 3 = 0) /\
                      (r1 = Ok (TCallAfter 7) /\ r2 = Ok (TCallAfter 10) /\ r3 = Ok (TCallAfter 10) /\ r4 = Ok THandshakeFinished /\ r5 = Ok TApplicationData) /\
                      (tc_sn c2 = Sn3 /\ tc_sn c4 = Sn3 /\ zlen (readable c4) + 2 + 2 <= buffer_size c4 /\ readable c5 = [104; 105] /\
                       s_rxlog (c_sock ch2 3) = arrive_stream /\ s_rxlog (c_sock ch5 3) = arrive_stream)
                  | _ => False
                  end
              | _ => False
              end
          | _ => False
          end
      | _ => False
      end
  | _ => False
  end.
Proof. vm_compute. repeat split; discriminate. Qed.
Lemma arrive_case : exists c2 ch2 c4 ch4 c5 ch5,
  handshakes case_cx true arrive_client arrive_chip [Ok (TCallAfter 7); Ok (TCallAfter 10)] c2 ch2 /\ s_rxlog (c_sock ch2 3) = arrive_stream /\
  handshakes case_cx true c2 ch2 [Ok (TCallAfter 10); Ok THandshakeFinished] c4 ch4 /\
  handshakes case_cx true arrive_client arrive_chip [Ok (TCallAfter 7); Ok (TCallAfter 10); Ok (TCallAfter 10); Ok THandshakeFinished] c4 ch4 /\ tc_state c4 = TConnected /\
  uses case_cx true 2 c4 ch4 [Ok TApplicationData] [] c5 ch5 /\ readable c5 = [104; 105] /\ s_rxlog (c_sock ch5 3) = arrive_stream.
Proof.
  pose proof arrive_calls as H. assert (forall v, v = 0 -> no_link_change v) as NL by (intros v ->; split; [discriminate|split; discriminate]).
  destruct (call arrive_client 104 [] arrive_chip) as [[[(r1, c1)| |] s1] ch1] eqn:E1; try contradiction.
  destruct (call c1 105 arrive_rest ch1) as [[[(r2, c2)| |] s2] ch2] eqn:E2; try contradiction.
  destruct (call c2 106 [] ch2) as [[[(r3, c3)| |] s3] ch3] eqn:E3; try contradiction.
  destruct (call c3 107 [] ch3) as [[[(r4, c4)| |] s4] ch4] eqn:E4; try contradiction.
  destruct (call c4 300 [] ch4) as [[[(r5, c5)| |] s5] ch5] eqn:E5; try contradiction.
  destruct H as ((T1 & T2 & T3 & T4) & (S1 & S2 & S3 & S4) & (I1 & I2 & I3 & I4 & I5) & (-> & -> & -> & -> & ->) & N2 & N4 & Rm & Rd & L2 & L5).
  assert (handshakes case_cx true arrive_client arrive_chip [Ok (TCallAfter 7); Ok (TCallAfter 10)] c2 ch2) as H2.
  { change [Ok (TCallAfter 7); Ok (TCallAfter 10)] with (([] ++ [@Ok TError TEvent (TCallAfter 7)]) ++ [@Ok TError TEvent (TCallAfter 10)]).
    eapply HProcess with (6 := E2); [|rewrite S1; discriminate|exact T2|repeat constructor|apply NL; exact I2].
    eapply HProcess with (6 := E1); [apply HNil|discriminate|exact T1|constructor|apply NL; exact I1]. }
  exists c2, ch2, c4, ch4, c5, ch5. split; [exact H2|]. split; [exact L2|]. split; [|split; [|split; [exact S4|split; [|split; [exact Rd|exact L5]]]]].
  - change [Ok (TCallAfter 10); Ok THandshakeFinished] with (([] ++ [@Ok TError TEvent (TCallAfter 10)]) ++ [@Ok TError TEvent THandshakeFinished]).
    eapply HProcess with (6 := E4); [|rewrite S3; discriminate|exact T4|constructor|rewrite N2; apply NL; exact I4].
    eapply HProcess with (6 := E3); [apply HNil|rewrite S2; discriminate|exact T3|constructor|rewrite N2; apply NL; exact I3].
  - change [Ok (TCallAfter 7); Ok (TCallAfter 10); Ok (TCallAfter 10); Ok THandshakeFinished] with (([Ok (TCallAfter 7); Ok (TCallAfter 10)] ++ [@Ok TError TEvent (TCallAfter 10)]) ++ [@Ok TError TEvent THandshakeFinished]).
    eapply HProcess with (6 := E4); [|rewrite S3; discriminate|exact T4|constructor|apply NL; exact I4].
    eapply HProcess with (6 := E3); [exact H2|rewrite S2; discriminate|exact T3|constructor|apply NL; exact I3].
  - change [Ok TApplicationData] with ([] ++ [@Ok TError TEvent TApplicationData]). eapply UProcess with (5 := E5); [apply UNil|exact Rm|constructor|rewrite N4; apply NL; exact I5].
Qed.
(** The same from the connected interrupt on: the first call sends the ClientHello, then the server's answers arrive. *)
Definition open_client : TlsClient := Eval vm_compute in client_of (talk talk_init [pcall 100 (fun _ => open_reads)]).
Definition open_chip : chip := chip_evs (case_conn []) [{| ev_sn := 3; ev_what := EvIr 1 |}].
Definition open_part : list tick := [tick_of [EvRx (ztake 100 arrive_stream)]].
Lemma open_calls :
  match call open_client 102 [] open_chip with
  | (Done (r0, c0), _, ch0) =>
      match call c0 104 open_part ch0 with
      | (Done (r1, c1), _, ch1) =>
          match call c1 105 arrive_rest ch1 with
          | (Done (r2, c2), _, ch2) =>
              match call c2 106 [] ch2 with
              | (Done (r3, c3), _, ch3) =>
                  match call c3 107 [] ch3 with
                  | (Done (r4, c4), _, ch4) =>
                      match call c4 300 [] ch4 with
                      | (Done (r5, c5), _, ch5) =>
                          (in_time c0 104 /\ in_time c1 105 /\ in_time c2 106 /\ in_time c3 107) /\
                          (tc_state c0 = TWaitServerHello /\ tc_state c1 = TWaitServerHello /\ tc_state c2 = TWaitEncryptedExtensions /\ tc_state c3 = TWaitFinished /\ tc_state c4 = TConnected) /\
                          (seen_ir open_part ch0 3 = 0 /\ seen_ir arrive_rest ch1 3 = 0 /\ seen_ir [] ch2 3 = 0 /\ seen_ir [] ch3 3 = 0 /\ seen_ir [] ch4 3 = 0) /\
                          (r0 = Ok (TCallAfter 10) /\ r1 = Ok (TCallAfter 8) /\ r2 = Ok (TCallAfter 10) /\ r3 = Ok (TCallAfter 10) /\ r4 = Ok THandshakeFinished /\ r5 = Ok TApplicationData) /\
                          (tc_sn c0 = Sn3 /\ tc_sn c4 = Sn3 /\ transcript c0 = arrive_t0 /\ zlen (readable c4) + 2 + 2 <= buffer_size c4 /\ readable c5 = [104; 105] /\ s_rxlog (c_sock ch5 3) = arrive_stream)
                      | _ => False
                      end
                  | _ => False
                  end
              | _ => False
              end
          | _ => False
          end
      | _ => False
      end
  | _ => False
  end.
Proof. vm_compute. repeat split; discriminate. Qed.
Lemma open_case : exists c0 ch0 c4 ch4 c5 ch5, run (tls_process case_cx true 1 open_client talk_rng 102) [] open_chip = (Done (Ok (TCallAfter 10), c0), [], ch0) /\ transcript c0 = arrive_t0 /\
  handshakes case_cx true c0 ch0 [Ok (TCallAfter 8); Ok (TCallAfter 10); Ok (TCallAfter 10); Ok THandshakeFinished] c4 ch4 /\ tc_state c4 = TConnected /\
  uses case_cx true 2 c4 ch4 [Ok TApplicationData] [] c5 ch5 /\ readable c5 = [104; 105] /\ s_rxlog (c_sock ch5 3) = arrive_stream.
Proof.
  pose proof open_calls as H. assert (forall v, v = 0 -> no_link_change v) as NL by (intros v ->; split; [discriminate|split; discriminate]).
  destruct (call open_client 102 [] open_chip) as [[[(r0, c0)| |] s0] ch0] eqn:E0; try contradiction.
  destruct (call c0 104 open_part ch0) as [[[(r1, c1)| |] s1] ch1] eqn:E1; try contradiction.
  destruct (call c1 105 arrive_rest ch1) as [[[(r2, c2)| |] s2] ch2] eqn:E2; try contradiction.
  destruct (call c2 106 [] ch2) as [[[(r3, c3)| |] s3] ch3] eqn:E3; try contradiction.
  destruct (call c3 107 [] ch3) as [[[(r4, c4)| |] s4] ch4] eqn:E4; try contradiction.
  destruct (call c4 300 [] ch4) as [[[(r5, c5)| |] s5] ch5] eqn:E5; try contradiction.
  destruct H as ((T1 & T2 & T3 & T4) & (S0 & S1 & S2 & S3 & S4) & (I1 & I2 & I3 & I4 & I5) & (-> & -> & -> & -> & -> & ->) & N0 & N4 & Tr & Rm & Rd & L5).
  assert (s0 = []) as -> by exact (run_nil _ _ _ _ _ E0).
  exists c0, ch0, c4, ch4, c5, ch5. split; [reflexivity|]. split; [exact Tr|]. split; [|split; [exact S4|split; [|split; [exact Rd|exact L5]]]].
  - change [Ok (TCallAfter 8); Ok (TCallAfter 10); Ok (TCallAfter 10); Ok THandshakeFinished] with (((([] ++ [@Ok TError TEvent (TCallAfter 8)]) ++ [@Ok TError TEvent (TCallAfter 10)]) ++ [@Ok TError TEvent (TCallAfter 10)]) ++ [@Ok TError TEvent THandshakeFinished]).
    eapply HProcess with (6 := E4); [|rewrite S3; discriminate|exact T4|constructor|rewrite N0; apply NL; exact I4].
    eapply HProcess with (6 := E3); [|rewrite S2; discriminate|exact T3|constructor|rewrite N0; apply NL; exact I3].
    eapply HProcess with (6 := E2); [|rewrite S1; discriminate|exact T2|repeat constructor|rewrite N0; apply NL; exact I2].
    eapply HProcess with (6 := E1); [apply HNil|rewrite S0; discriminate|exact T1|repeat constructor|rewrite N0; apply NL; exact I1].
  - change [Ok TApplicationData] with ([] ++ [@Ok TError TEvent TApplicationData]). eapply UProcess with (5 := E5); [apply UNil|exact Rm|constructor|rewrite N4; apply NL; exact I5].
Qed.
