(** Conversations of the MQTT client over TLS: those of the examples, and the counterexamples. *)
From Verif Require Import Model.Prelude Model.Bus Model.Chip Model.Specifiers Model.Mqtt Spec.Cases Spec.Hoare Spec.Sock Spec.TcpClient Spec.Silent Spec.MqttMsg.
From Verif Require Import Model.TlsTypes Model.TlsBuf Model.TlsKeys Model.TlsClient Model.MqttTls Spec.TlsCases Spec.TlsMessages Spec.TlsProtect Spec.TlsSession Spec.TlsTalk Spec.TlsQueue Spec.TlsRx Spec.TlsWire Spec.TlsAuth Spec.MqttTlsMsg Spec.MqttTlsTalk.
From Verif Require Import Proof.Base Proof.MqttMainP Proof.TlsTalkP Proof.TlsRx5P Proof.MqttTlsMainP Proof.MqttTlsHist2P.
Local Open Scope list_scope.

Lemma mtalk_eq c l a c' : a <> [] -> (mt_answers_of (mtalk c l), mt_client_of (mtalk c l)) = (a, c') -> exists h, mtalk c l = Some (h, c') /\ map snd h = a.
Proof. intros N E. destruct (mtalk c l) as [(h, c1)|]; cbn [mt_answers_of mt_client_of fst snd] in E; injection E as <- <-; [eauto|contradiction]. Qed.
Lemma mtalk_history c0 : forall l c h c', Forall (fun x => mtcall_ok (fst x)) l -> mtalk c l = Some (h, c') -> forall h0, mthistory case_cx true 1 c0 h0 c -> mthistory case_cx true 1 c0 (h0 ++ h) c'.
Proof.
  induction l as [|(x, script) l IH]; intros c h c' Hl E h0 H; cbn [mtalk] in E.
  - injection E as <- <-. now rewrite app_nil_r.
  - apply Forall_cons_iff in Hl as (Hx & Hl). destruct (play (mtcall_run case_cx true 1 c x) (script (mt_tls c))) as [(a, c1)| |] eqn:P; try discriminate E.
    destruct (mtalk c1 l) as [(h1, c2)|] eqn:T; [|discriminate E]. injection E as <- <-.
    change ((x, a) :: h1) with ([(x, a)] ++ h1). rewrite app_assoc. apply (IH c1 h1 c2 Hl T). eapply YCall; [exact H|exact Hx|]. now apply (play_done _ (script (mt_tls c))).
Qed.
Lemma ycall_ok now s : mtcall_ok (fst (ycall now s)).
Proof. split; [exact talk_rng_ok|constructor]. Qed.
Lemma greeted_ok : Forall (fun x => mtcall_ok (fst x)) mt_to_greeted.
Proof.
  unfold mt_to_greeted. apply Forall_cons; [|repeat (apply Forall_cons; [apply ycall_ok|]); apply Forall_nil]. cbn [fst mtcall_ok].
  split; [vm_compute; split; discriminate|]. repeat (apply Forall_cons; [unfold is_u8; lia|]). apply Forall_nil.
Qed.
Lemma waiting_ok : Forall (fun x => mtcall_ok (fst x)) mt_to_waiting.
Proof. unfold mt_to_waiting. repeat (apply Forall_cons; [apply ycall_ok|]). apply Forall_nil. Qed.
Lemma greeted_mtalk : exists h, mtalk mtalk_init mt_to_greeted = Some (h, case_mt_greeted) /\
  map snd h = [WNone; WProcess (Ok (SeenCallAfter 10)) [] (Ok tt); WProcess (Ok (SeenCallAfter 10)) [] (Ok tt); WProcess (Ok (SeenCallAfter 9)) [] (Ok tt); WProcess (Ok (SeenCallAfter 10)) [] (Ok tt)].
Proof. apply mtalk_eq; [discriminate|]. vm_compute. reflexivity. Qed.
Lemma waiting_mtalk : exists h, mtalk case_mt_greeted mt_to_waiting = Some (h, case_mt_waiting) /\
  map snd h = [WProcess (Ok (SeenCallAfter 10)) [] (Ok tt); WProcess (Ok (SeenCallAfter 10)) [] (Ok tt)].
Proof. apply mtalk_eq; [discriminate|]. vm_compute. reflexivity. Qed.
Lemma ready_mtalk : exists h, mtalk case_mt_waiting mt_to_ready = Some (h, case_mt_ready) /\ map snd h = [WProcess (Ok (SeenAck AConnAck)) [] (Ok tt)].
Proof. apply mtalk_eq; [discriminate|]. vm_compute. reflexivity. Qed.
Lemma waiting_history : exists h, mthistory case_cx true 1 mtalk_init h case_mt_waiting.
Proof.
  destruct greeted_mtalk as (h & T & _). destruct waiting_mtalk as (h' & T' & _). eexists. eapply (mtalk_history _ _ _ _ _ waiting_ok T').
  eapply (mtalk_history _ _ _ _ _ greeted_ok T). constructor.
Qed.
Lemma ready_history : exists h, mthistory case_cx true 1 mtalk_init h case_mt_ready.
Proof.
  destruct waiting_history as (h & H). destruct ready_mtalk as (h' & T & _). eexists. eapply (mtalk_history _ _ _ _ _ _ T _ H). Unshelve.
  repeat (apply Forall_cons; [apply ycall_ok|]). apply Forall_nil.
Qed.
(** A call after a history. *)
Lemma more_history c h x script a c' : mthistory case_cx true 1 mtalk_init h c -> mtcall_ok x -> play (mtcall_run case_cx true 1 c x) script = Done (a, c') -> mthistory case_cx true 1 mtalk_init (h ++ [(x, a)]) c'.
Proof. intros H Hx P. eapply YCall; [exact H|exact Hx|]. now apply (play_done _ script). Qed.
Definition mt_facts (o : outcome (mtans * MqttTls)) : option (mtans * StateTimeout * TState) := match o with Done (a, c) => Some (a, mt_st c, tc_state (mt_tls c)) | _ => None end.
Lemma facts_done o a st ts : mt_facts o = Some (a, st, ts) -> exists c, o = Done (a, c) /\ mt_st c = st /\ tc_state (mt_tls c) = ts.
Proof. destruct o as [(a0, c)| |]; cbn; try discriminate. intros E. injection E as <- <- <-. eauto. Qed.

(** ** C77 *)
Lemma discon_facts : mt_facts (play (mtcall_run case_cx true 1 case_mt_ready (YProcess talk_rng 107 [] false)) (map Some [[2]])) =
  Some (WProcess (Err (MTErr MDisconnect)) [] (Ok tt), mkST Ready None, TReset).
Proof. vm_compute. reflexivity. Qed.
Lemma connected_refuted : exists h x c, mthistory case_cx true 1 mtalk_init (h ++ [(x, WProcess (Err (MTErr MDisconnect)) [] (Ok tt))]) c /\ tls_connected (mt_tls c) = false /\ mt_is_connected c = true.
Proof.
  destruct ready_history as (h & H). destruct (facts_done _ _ _ _ discon_facts) as (c & P & E1 & E2). exists h, (YProcess talk_rng 107 [] false), c.
  split; [eapply (more_history _ _ _ _ _ _ H); [apply (ycall_ok 107 (fun _ => []))|exact P]|]. unfold tls_connected, mt_is_connected. rewrite E1, E2. split; reflexivity.
Qed.
(** ** C78 *)
Lemma early_facts : mt_facts (play (mtcall_run case_cx true 1 case_mt_waiting (YPublish [97] [98; 99])) tx_reads) = Some (WPublish (Ok tt), mkST WaitConAck (Some 105), TConnected).
Proof. vm_compute. reflexivity. Qed.
Lemma early_refuted : exists h c, mthistory case_cx true 1 mtalk_init (h ++ [(YPublish [97] [98; 99], WPublish (Ok tt))]) c /\ (forall x a, In (x, a) h -> connack a = false) /\ mt_is_connected c = false.
Proof.
  destruct greeted_mtalk as (h1 & T1 & A1). destruct waiting_mtalk as (h2 & T2 & A2). destruct (facts_done _ _ _ _ early_facts) as (c & P & E1 & E2). exists (([] ++ h1) ++ h2), c. split; [|split].
  - eapply more_history; [|split; repeat (apply Forall_cons; [unfold is_u8; lia|]); apply Forall_nil|exact P]. apply (mtalk_history _ _ _ _ _ waiting_ok T2). apply (mtalk_history _ _ _ _ _ greeted_ok T1). constructor.
  - intros x a I. apply (in_map snd) in I. rewrite map_app in I. cbn [app snd] in I. rewrite A1, A2 in I. cbn [app In] in I. intuition; subst a; reflexivity.
  - unfold mt_is_connected. rewrite E1. reflexivity.
Qed.
(** ** C79 *)
Lemma timeout_facts : mt_facts (play (mtcall_run case_cx true 1 case_mt_waiting (YProcess talk_rng 116 [] false)) idle_reads) = Some (WProcess (Err (MTErr (MStateTimeout WaitConAck))) [] (Ok tt), mkST MInit None, TConnected).
Proof. vm_compute. reflexivity. Qed.
Definition mt_held (o : outcome (mtans * MqttTls)) : option (option Z * (Z * Z * Z * Z) * Z) :=
  match o with Done (_, c) => let b := tc_rx (mt_tls c) in Some (tc_timeout (mt_tls c), (b_head b, b_ad_tail b, b_hs_head b, b_tail b), zlen (b_buf b)) | _ => None end.
Lemma timeout_held : exists p, 0 <= p < 1024 /\ mt_held (play (mtcall_run case_cx true 1 case_mt_waiting (YProcess talk_rng 116 [] false)) idle_reads) = Some (None, (p, p, p, p), 1024).
Proof. vm_compute. eexists. split; [|reflexivity]. split; [discriminate|reflexivity]. Qed.
Lemma empty_holds b p : b_head b = p -> b_ad_tail b = p -> 0 <= b_hs_head b < 1024 -> b_tail b = p -> zlen (b_buf b) = 1024 -> 0 <= p < 1024 -> buffer_holds b [] [].
Proof.
  intros E1 E2 E3 E4 L Hp. unfold buffer_holds. cbv zeta. change (zlen (@nil Z) + zlen (@nil Z)) with 0. change (zlen (@nil Z)) with 0. rewrite E1, E2, E4, L. rewrite !Z.add_0_r, Z.mod_small by lia.
  repeat (split; [first [lia|reflexivity]|]). intros i Hi. lia.
Qed.
(** [process] on a client whose MQTT state was reset while the TLS connection stays. *)
Lemma stuck cx dbg fuel c rng now ops fin ch sch rest : let n := sn_raw (tc_sn (mt_tls c)) in let s := c_sock ch n in
  tc_state (mt_tls c) = TConnected -> tc_timeout (mt_tls c) = None -> mt_st c = mkST MInit None -> buffer_holds (tc_rx (mt_tls c)) [] rest ->
  no_link_change (s_ir s) -> rx_rsr s < 5 -> silent sch n -> Forall pub_op_ok ops ->
  exists rx sch' ch', buffer_holds rx [] rest /\
    run (mtcall_run cx dbg fuel c (YProcess rng now ops fin)) sch ch = (Done (WProcess (Ok SeenNone) [] (Ok tt), mkMT (tc_set_rx (mt_tls c) rx) (mt_client_id c) (mkST MInit None) (mt_pkt_id c)), sch', ch').
Proof.
  intros n s H1 H2 H3 H4 H5 H6 H7 H8. apply (buffered cx dbg fuel c rng now ops fin ch sch [] rest); auto. rewrite H3.
  apply (ReactIncomplete _ _ _ _ _ 3 0 [] (mpacket 3 0 [])); try lia; [reflexivity|discriminate|vm_compute; discriminate|]. cbn. auto.
Qed.
Lemma stuck_refuted : exists h x c, mthistory case_cx true 1 mtalk_init (h ++ [(x, WProcess (Err (MTErr (MStateTimeout WaitConAck))) [] (Ok tt))]) c /\
  tc_state (mt_tls c) = TConnected /\ tc_timeout (mt_tls c) = None /\ mt_st c = mkST MInit None /\ buffer_holds (tc_rx (mt_tls c)) [] [].
Proof.
  destruct waiting_history as (h & H). destruct (facts_done _ _ _ _ timeout_facts) as (c & P & E1 & E2). exists h, (YProcess talk_rng 116 [] false), c.
  split; [eapply (more_history _ _ _ _ _ _ H); [apply (ycall_ok 116 (fun _ => []))|exact P]|]. split; [exact E2|].
  destruct timeout_held as (p & Hp & T). rewrite P in T. cbn [mt_held] in T. injection T as T1 T2 T3 T4 T5 T6. split; [exact T1|]. split; [exact E1|]. apply (empty_holds _ p); auto. now rewrite T4.
Qed.

(** ** The examples *)
Lemma mt_case_reads : reads_with (mt_tls case_mt_ready) mt_server_secret 1.
Proof. split; [reflexivity|]. split; [reflexivity|lia]. Qed.
Lemma mt_case_writes : writes_with (mt_tls case_mt_ready) mt_client_secret 1.
Proof. unfold writes_with. split; [reflexivity|]. split; [vm_compute; reflexivity|]. split; [reflexivity|lia]. Qed.
Lemma mt_case_buffer : buffer_holds (tc_rx (mt_tls case_mt_ready)) [] [].
Proof. apply (empty_holds _ (b_head (tc_rx (mt_tls case_mt_ready)))); try (vm_compute; reflexivity); vm_compute; (split; [discriminate|reflexivity]). Qed.
