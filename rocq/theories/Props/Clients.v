(** The clients and the bus: C100 and C101. *)
From Verif Require Import Model.Prelude Model.Bus Model.Chip Model.Specifiers Model.HlIo Model.Dns Model.Sntp Model.Mqtt Spec.Hoare Spec.Cases Spec.MqttMsg Spec.Clients.
From Verif Require Proof.ClientsP Proof.StopP Proof.MqttMainP.

(** C100: on a bus that answers anything and fails at any time, no call of the SNTP, DNS, mDNS or MQTT client panics, except by a failed
    debug assertion of the socket layer; and every call returns, except those that wait for a socket to open and those that follow the names
    of a DNS message. *)
Theorem C100_no_crash : forall dbg fuel k o, plain_call k -> any_bus (ccall_run dbg fuel k) o ->
  (o = Panicked -> dbg = true /\ asserts k = true) /\ (o = Diverged -> opening k = true \/ follows_names k = true).
Proof. exact ClientsP.plain_any. Qed.
Print Assumptions C100_no_crash.
(** The same for [process] followed by reading the message that it reports, in any way. *)
Theorem C100_message : forall dbg fuel cl now ops fin o, mqtt_ok cl now -> any_bus (pub_session dbg fuel cl now ops fin) o ->
  (o = Panicked -> dbg = true) /\ (o = Diverged -> st_state (mq_st cl) = MInit).
Proof. exact ClientsP.session_any. Qed.
Print Assumptions C100_message.
(** A bus that reports 65535 received bytes, and among them a message up to the end of these: it is read and removed.  With debug assertions
    and an answer that the socket is a UDP socket, the call panics.  Messages with a clock that went back, and topic filters that are too long, are
    not among the calls: there the client panics. *)
Definition case_ready : MqttClient := mkMqtt Sn3 50000 ([10; 0; 0; 9], 1883) (Some [99]) (mkST Ready None) 7.
Definition case_lies : list (option (list Z)) :=
  [Some [0]; Some [255; 255]; Some [255; 0]; Some [48; 251; 255; 3; 0]; Some [0; 1]; Some [0]; Some [116]; None; Some [112; 97]].
Example C100_case : mqtt_ok case_ready 100 /\ plain_call (MqttProcess case_ready 100) /\
  play (pub_session false 0 case_ready 100 [PTopic 9; PTopic 9; PPayload 2] true) case_lies =
    Done (Some ([Ok [116]; Err MOther; Ok [112; 97]], Ok tt), case_ready) /\
  any_bus (pub_session false 0 case_ready 100 [PTopic 9; PTopic 9; PPayload 2] true)
    (play (pub_session false 0 case_ready 100 [PTopic 9; PTopic 9; PPayload 2] true) case_lies) /\
  play (ccall_run true 0 (MqttProcess case_ready 100)) [Some [0]; Some [34]] = Panicked /\
  play (ccall_run false 0 (MqttProcess (mkMqtt Sn3 50000 ([10; 0; 0; 9], 1883) None (mkST WaitConAck (Some 101)) 7) 100)) [Some [0]; Some [0; 0]] = Panicked /\
  play (ccall_run false 0 (MqttSubscribe case_ready (repeat 97 (Z.to_nat 65533)))) [Some [255; 255]] = Panicked.
Proof.
  split; [split; [exact I|]; intros i [= <-]; vm_compute; discriminate|]. split; [split; [exact I|]; intros i [= <-]; vm_compute; discriminate|].
  split; [vm_compute; reflexivity|]. split; [apply MqttMainP.play_any|]. split; [vm_compute; reflexivity|]. split; vm_compute; reflexivity.
Qed.

(** C101: the first failed transaction ends the call, which then returns the error of the bus; and the error of the bus is returned only then.
    For every call of the SNTP, DNS, mDNS, DHCP and MQTT clients, every chip and every schedule of events and failures. *)
Theorem C101_at_once : forall dbg fuel k sch c o sch' c', run (ccall_run dbg fuel k) sch c = (o, sch', c') ->
  exists used, sch = used ++ sch' /\
    ((no_faults used /\ o <> Done BusFailure) \/
     exists u t, used = u ++ [t] /\ no_faults u /\ t_fault t <> None /\ o = Done BusFailure).
Proof. exact StopP.ccall_at_once. Qed.
Print Assumptions C101_at_once.
(** Failures of the third and of the sixth transaction of [process], and none. *)
Definition case_fails (n : nat) : list tick := repeat {| t_evs := []; t_fault := None |} n ++ [{| t_evs := []; t_fault := Some O |}].
Definition case_ends (n : nat) : outcome call_end * list tick :=
  fst (run (ccall_run false 0 (MqttProcess case_ready 100)) (case_fails n ++ case_fails 0) (case_conn [144; 4; 0; 7; 0; 0])).
Example C101_case : case_ends 2 = (Done BusFailure, case_fails 0) /\ case_ends 5 = (Done BusFailure, case_fails 0) /\ case_ends 7 = (Done BusFailure, case_fails 0) /\
  case_ends 8 = (Done Fine, case_fails 0 ++ case_fails 0) /\
  fst (fst (run (ccall_run false 0 (MqttProcess case_ready 100)) [] (case_conn [240; 4; 0; 7; 0; 0]))) = Done Fine /\
  fst (fst (run (ccall_run false 0 (MqttProcess case_ready 100)) [] (case_conn [32; 4; 0; 7; 0; 0]))) = Done Refusal.
Proof. vm_compute. repeat split. Qed.
