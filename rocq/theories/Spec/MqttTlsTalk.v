(** A conversation of the MQTT client over TLS with a server, for the examples beside the theorems. *)
From Verif Require Import Model.Prelude Model.Bus Model.Chip Model.Specifiers Model.Mqtt Spec.Cases Spec.MqttMsg.
From Verif Require Import Model.TlsTypes Model.TlsBuf Model.TlsKeys Model.TlsClient Model.MqttTls Spec.TlsCases Spec.TlsMessages Spec.TlsProtect Spec.TlsSession Spec.TlsTalk Spec.MqttTlsMsg.
Local Open Scope list_scope.

Definition mtalk_init : MqttTls := mt_init case_cx Sn3 50000 ([10; 0; 0; 9], 443) talk_cf.
Fixpoint mtalk (c : MqttTls) (l : list (mtcall * (TlsClient -> reads))) : option (list (mtcall * mtans) * MqttTls) :=
  match l with
  | [] => Some ([], c)
  | (x, script) :: l =>
      match play (mtcall_run case_cx true 1 c x) (script (mt_tls c)) with
      | Done (a, c) => match mtalk c l with Some (h, c) => Some ((x, a) :: h, c) | None => None end
      | _ => None
      end
  end.
Definition ycall (now : Z) (script : TlsClient -> reads) : mtcall * (TlsClient -> reads) := (YProcess talk_rng now [] false, script).
(** The TLS handshake of [to_greeted] and [to_finished]; the last call also sends CONNECT. *)
Definition mt_to_greeted : list (mtcall * (TlsClient -> reads)) :=
  [(YClientId [99; 49], fun _ => []); ycall 100 (fun _ => open_reads); ycall 101 (fun _ => map Some [[1]] ++ tx_reads ++ map Some [be16 0]); ycall 102 (fun _ => idle_reads);
   ycall 103 (fun _ => record_reads (plaintext_record 22 sh_message))].
Definition mt_to_waiting : list (mtcall * (TlsClient -> reads)) :=
  [ycall 104 (fun c => record_reads (case_record (s_hs_traffic (transcript c)) 0 22 ee_message));
   ycall 105 (fun c => let t1 := ztake (zlen (transcript c) - 6) (transcript c) in
     record_reads (case_record (s_hs_traffic t1) 1 22 (fin_message t1 (transcript c))) ++ tx_reads ++ tx_reads)].
Definition mt_client_of (o : option (list (mtcall * mtans) * MqttTls)) : MqttTls := match o with Some x => snd x | None => mtalk_init end.
Definition mt_answers_of (o : option (list (mtcall * mtans) * MqttTls)) : list mtans := match o with Some x => map snd (fst x) | None => [] end.
Definition case_mt_greeted : MqttTls := Eval vm_compute in mt_client_of (mtalk mtalk_init mt_to_greeted).
(** CONNECT was sent. *)
Definition case_mt_waiting : MqttTls := Eval vm_compute in mt_client_of (mtalk case_mt_greeted mt_to_waiting).
(** CONNACK was received. *)
Definition mt_server_secret : list Z := Eval vm_compute in secret_of (ks_server_traffic (tc_ks (mt_tls case_mt_waiting))).
Definition mt_record (seq : Z) (content : list Z) : TlsClient -> reads := fun _ => record_reads (case_record mt_server_secret seq 23 content).
Definition mt_to_ready : list (mtcall * (TlsClient -> reads)) := [ycall 106 (mt_record 0 (connack_packet 0 0 []))].
Definition case_mt_ready : MqttTls := Eval vm_compute in mt_client_of (mtalk case_mt_waiting mt_to_ready).
Definition mt_client_secret : list Z := Eval vm_compute in secret_of (ks_client_traffic (tc_ks (mt_tls case_mt_ready))).
