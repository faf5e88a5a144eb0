(** The example of C111 for the TLS client: the calls of C109 with the clock. *)
From Verif Require Import Model.Prelude Model.Bus Model.Chip Model.Specifiers Model.TlsTypes Model.TlsBuf Model.TlsKeys Model.TlsClient
  Spec.Hoare Spec.Sock Spec.MqttMsg Spec.Cases Spec.TlsCases Spec.TlsTalk Spec.TlsRx Spec.TlsComplete Spec.TlsArrive Spec.TlsPunctual.
From Verif Require Import Proof.TlsArriveCaseP.
Local Open Scope list_scope.

Notation call c now sch ch := (run (tls_process case_cx true 1 c talk_rng now) sch ch).
Lemma in_time_case : exists c4 ch4, punctual case_cx true 101 arrive_client arrive_chip [(104, Ok (TCallAfter 7)); (105, Ok (TCallAfter 10)); (106, Ok (TCallAfter 10)); (107, Ok THandshakeFinished)] c4 ch4 /\ tc_state c4 = TConnected.
Proof.
  pose proof arrive_calls as H. assert (forall v, v = 0 -> no_link_change v) as NL by (intros v ->; split; [discriminate|split; discriminate]).
  destruct (call arrive_client 104 [] arrive_chip) as [[[(r1, c1)| |] s1] ch1] eqn:E1; try contradiction.
  destruct (call c1 105 arrive_rest ch1) as [[[(r2, c2)| |] s2] ch2] eqn:E2; try contradiction.
  destruct (call c2 106 [] ch2) as [[[(r3, c3)| |] s3] ch3] eqn:E3; try contradiction.
  destruct (call c3 107 [] ch3) as [[[(r4, c4)| |] s4] ch4] eqn:E4; try contradiction.
  destruct (call c4 300 [] ch4) as [[[(r5, c5)| |] s5] ch5] eqn:E5; try contradiction.
  destruct H as (_ & (S1 & S2 & S3 & S4) & (I1 & I2 & I3 & I4 & I5) & (-> & -> & -> & -> & ->) & _).
  exists c4, ch4. split; [|exact S4].
  change [(104, Ok (TCallAfter 7)); (105, Ok (TCallAfter 10)); (106, Ok (TCallAfter 10)); (107, Ok THandshakeFinished)] with
    (((([] ++ [(104, @Ok TError TEvent (TCallAfter 7))]) ++ [(105, @Ok TError TEvent (TCallAfter 10))]) ++ [(106, @Ok TError TEvent (TCallAfter 10))]) ++ [(107, @Ok TError TEvent THandshakeFinished)]).
  eapply PuProcess with (6 := E4); [|rewrite S3; discriminate|vm_compute; repeat split; discriminate|constructor|apply NL; exact I4].
  eapply PuProcess with (6 := E3); [|rewrite S2; discriminate|vm_compute; repeat split; discriminate|constructor|apply NL; exact I3].
  eapply PuProcess with (6 := E2); [|rewrite S1; discriminate|vm_compute; repeat split; discriminate|repeat constructor|apply NL; exact I2].
  eapply PuProcess with (6 := E1); [apply PuNil|discriminate|vm_compute; repeat split; discriminate|constructor|apply NL; exact I1].
Qed.
