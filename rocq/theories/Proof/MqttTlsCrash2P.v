(** The MQTT client over TLS: a record that makes it panic. *)
From Verif Require Import Model.Prelude Model.Bus Model.Chip Model.Specifiers Model.Stream Model.TlsTypes Model.TlsBuf Model.TlsKeys Model.Mqtt Model.TlsClient Model.MqttTls
  Spec.Hoare Spec.Cases Spec.Cursor Spec.TlsSecrets Spec.TlsQueue Spec.TlsCases Spec.TlsProtect Spec.TlsSession Spec.TlsTalk Spec.TlsCrash Spec.MqttMsg Spec.MqttTlsMsg Spec.MqttTlsTalk Spec.MqttTlsCrash.
From Verif Require Import Proof.Base Proof.TlsTalkP Proof.MqttTlsCaseP.

Lemma mt_crash_run dbg : fst (fst (run (mtcall_run case_cx dbg 1 case_mt_ready (YProcess talk_rng 200 [] false)) [] (case_conn [22; 3; 3; 0; 4; 4; 0; 0; 5]))) = Panicked.
Proof. destruct dbg; vm_compute; reflexivity. Qed.
Lemma mt_crash : exists h h' c, mthistory case_cx true 1 mtalk_init (h ++ h') c /\ map snd h' = [WProcess (Ok (SeenAck AConnAck)) [] (Ok tt)] /\ mt_is_connected c = true /\
  forall dbg, fst (fst (run (mtcall_run case_cx dbg 1 c (YProcess talk_rng 200 [] false)) [] (case_conn [22; 3; 3; 0; 4; 4; 0; 0; 5]))) = Panicked.
Proof.
  destruct waiting_history as (h & H). destruct ready_mtalk as (h' & T & A). exists h, h', case_mt_ready. split; [|split; [exact A|split; [reflexivity|exact mt_crash_run]]].
  refine (mtalk_history mtalk_init _ _ _ _ _ T h H). apply Forall_cons; [apply ycall_ok|apply Forall_nil].
Qed.
Lemma mt_waiting_within : mt_within talk_cf case_mt_waiting (YProcess talk_rng 200 [] false).
Proof.
  split; [vm_compute; discriminate|]. split; [exact I|]. split; [intros t E; vm_compute in E; injection E as <-; lia|]. intros _. vm_compute. repeat split; discriminate.
Qed.
Lemma mt_waiting_runs : exists c, fst (fst (run (mtcall_run case_cx false 1 case_mt_waiting (YProcess talk_rng 108 [] false)) [] (case_conn [22; 3; 3; 0; 4; 4; 0; 0; 5]))) = Done (WProcess (Ok (SeenCallAfter 7)) [] (Ok tt), c).
Proof. eexists. vm_compute. reflexivity. Qed.
