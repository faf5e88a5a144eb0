(** The TLS client: a record that makes it panic. *)
From Verif Require Import Model.Prelude Model.Bus Model.Chip Model.Specifiers Model.Stream Model.TlsTypes Model.TlsBuf Model.TlsKeys Model.TlsClient
  Spec.Cases Spec.Cursor Spec.TlsSecrets Spec.TlsQueue Spec.TlsCases Spec.TlsProtect Spec.TlsSession Spec.TlsTalk Spec.TlsCrash.
From Verif Require Import Proof.Base Proof.TlsTalkP.

Definition crash_calls : list (tcall * (TlsClient -> reads)) :=
  [pcall 110 (fun _ => record_reads (case_record case_server_secret 0 23 [1; 2; 3; 4; 5]));
   (KReader [ORead 5] true, fun _ => [])].
Definition crash_client : TlsClient := Eval vm_compute in client_of (talk case_connected crash_calls).
Lemma crash_talk : exists h, talk case_connected crash_calls = Some (h, crash_client) /\ map snd h = [NProcess (Ok TApplicationData); NReader (Some [RData [1; 2; 3; 4; 5]])].
Proof. apply talk_eq; [discriminate|]. vm_compute. reflexivity. Qed.
Lemma crash_ok : Forall (fun x => tcall_ok (fst x)) crash_calls.
Proof.
  unfold crash_calls. apply Forall_cons; [exact talk_rng_ok|]. apply Forall_cons; [|apply Forall_nil]. cbn. split; [|reflexivity]. apply Forall_cons; [cbn; lia|apply Forall_nil].
Qed.
Definition crash_record : list Z := [22; 3; 3; 0; 4] ++ [4; 0; 0; 5].
Lemma crash_run dbg : fst (fst (run (tls_process case_cx dbg 1 crash_client talk_rng 200) [] (case_conn crash_record))) = Panicked.
Proof. destruct dbg; vm_compute; reflexivity. Qed.
Lemma crash : exists h0 h c, thistory case_cx true 1 talk_init h0 case_connected /\ thistory case_cx true 1 talk_init (h0 ++ h) c /\ tls_connected c = true /\
  map snd h = [NProcess (Ok TApplicationData); NReader (Some [RData [1; 2; 3; 4; 5]])] /\
  forall dbg, fst (fst (run (tls_process case_cx dbg 1 c talk_rng 200) [] (case_conn [22; 3; 3; 0; 4; 4; 0; 0; 5]))) = Panicked.
Proof.
  destruct connected_history as (h0 & H0). destruct crash_talk as (h & T & A). exists h0, h, crash_client. split; [exact H0|]. split; [exact (talk_history talk_init _ case_connected h crash_client crash_ok T h0 H0)|].
  split; [reflexivity|]. split; [exact A|]. exact crash_run.
Qed.
Definition waiting_client : TlsClient := Eval vm_compute in
  match fst (fst (run (tls_process case_cx false 1 case_connected talk_rng 200) [] (case_conn crash_record))) with Done (_, c) => c | _ => talk_init end.
Lemma waiting_run : fst (fst (run (tls_process case_cx false 1 case_connected talk_rng 200) [] (case_conn crash_record))) = Done (Ok TNone, waiting_client).
Proof. vm_compute. reflexivity. Qed.
Lemma quiet_history : exists h, thistory case_cx true 1 talk_init h case_connected /\ no_data h = true.
Proof.
  destruct greeted_talk as (h & T & A). destruct finished_talk as (h' & T' & A'). exists ([] ++ (h ++ h')). split.
  - apply (talk_history talk_init _ talk_init _ _ calls_ok); [|constructor]. now apply (talk_then _ _ _ _ case_greeted).
  - cbn [app]. unfold no_data. rewrite fold_left_app. destruct h' as [|(x, a) [|(y, b) [|]]]; try discriminate A'. injection A' as -> ->. reflexivity.
Qed.
