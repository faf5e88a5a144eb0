(** Datagrams that stop a DHCP client. *)
From Verif Require Export Proof.DhcpBlockP.
From Verif Require Import Model.LlAddr Model.LlBits Model.Ll Model.HlCommon Model.HlUdp Proof.SprogP Model.DhcpPkt Model.DhcpClient Spec.DhcpStuck.

Lemma op_answer w r : answers w GOp r -> r = res_map (fun l => AIsRequest (at_ l 0 =? 1)) (bytes_at_ w 0 1).
Proof. intros A. exact (answers_fun _ _ _ _ A (AnsOp w)). Qed.
Lemma xid_answer w r : answers w GXid r -> r = res_map (fun l => AXid (word l)) (bytes_at_ w 4 4).
Proof. intros A. exact (answers_fun _ _ _ _ A (AnsXid w)). Qed.
Lemma op_first w : 0 < zlen w -> answers w GOp (Ok (AIsRequest (at_ w 0 =? 1))).
Proof.
  intros H. pose proof (AnsOp w) as A. unfold bytes_at_ in A. destruct (Z.leb_spec (0 + 1) (zlen w)); [|lia].
  destruct w; [discriminate|]. exact A.
Qed.

(** What [recv] makes of the first datagram. *)
Lemma recv_head P dbg sn xid c d q fs a nt : phys sn c (d :: q) fs a nt ->
  wpc P (recv dbg sn xid) c (fun r c' => exists new, phys sn c' (d :: q ++ new) fs a nt /\
    match r with
    | Err e => e = UnexpectedEof /\ (answers (d_data d) GOp (Err UnexpectedEof) \/
        (answers (d_data d) GOp (Ok (AIsRequest false)) /\ answers (d_data d) GXid (Err UnexpectedEof)))
    | Ok None => answers (d_data d) GOp (Ok (AIsRequest true)) \/
        (exists x, answers (d_data d) GXid (Ok (AXid x)) /\ x <> xid)
    | Ok (Some (cur, k)) => holds sn c' cur d (q ++ new) fs a nt /\ cached (d_data d) k /\ for_us (d_data d) xid
    end).
Proof.
  intros Hp. unfold recv. apply wpc_bind.
  eapply wpc_mono; [apply (wpc_phys _ _ sn c _ fs a nt _ (quiet_reader _ _) Hp (ureader_open sn True dbg _ _ _ _ (proj1 Hp)))|].
  intros r c1 ((n1 & [(_ & E & _)|(cur & d' & q' & E & -> & R1 & Hpos)]) & T1 & N1); [discriminate|].
  cbn [app] in E. injection E as <- <-.
  assert (holds sn c1 cur d (q ++ n1) fs a nt) as Hh by (split; auto).
  destruct (head_fits sn _ _ _ _ _ (ureading_view _ _ _ _ _ _ _ R1)) as (Bd & Ld). pose proof (zlen_nonneg (d_data d)) as Zd.
  cbn [ur_inner ur_header]. destruct (Z.ltb_spec (cur_len cur) (uh_len (header_of d))) as [Hlt|_].
  { exfalso. destruct R1 as (_ & _ & _ & Hl & _). rewrite Hl in Hlt. cbn [header_of uh_len] in Hlt. lia. }
  apply wpc_bind. eapply wpc_mono.
  { eapply (wpc_phys P _ sn c1 _ fs a nt _ (quiet_cursor _ _ _) (holds_phys _ _ _ _ _ _ _ _ Hh)). eapply (ureading_run sn True _ cur d _ fs a _ _ R1).
    apply (typed_answers (d_data d) True O GOp AIsRequest is_bootreply cache_new (cur_pos cur) eq_refl); auto using cached_new; lia. }
  intros [[[x|e] k'] cur'] c2 ((n2 & R2 & _ & Hp2 & Hk2 & An) & T2 & N2); cbn [fst snd res_map] in *.
  2: { pose proof (answers_err _ _ _ Bd ltac:(lia) An) as ->. apply wpc_ret. exists (n1 ++ n2).
       rewrite app_assoc. split; [split; [exact (ureading_view _ _ _ _ _ _ _ R2)|auto]|]. auto. }
  destruct x.
  { apply wpc_ret. exists (n1 ++ n2). rewrite app_assoc. split; [split; [exact (ureading_view _ _ _ _ _ _ _ R2)|auto]|]. auto. }
  apply wpc_bind. eapply wpc_mono.
  { assert (holds sn c2 cur' d ((q ++ n1) ++ n2) fs a nt) as Hh2 by (split; auto).
    eapply (wpc_phys P _ sn c2 _ fs a nt _ (quiet_cursor _ _ _) (holds_phys _ _ _ _ _ _ _ _ Hh2)). eapply (ureading_run sn True _ cur' d _ fs a _ _ R2).
    apply (typed_answers (d_data d) True O GXid AXid pkt_xid k' (cur_pos cur') eq_refl); auto; lia. }
  intros [[[y|e] k3] cur3] c3 ((n3 & R3 & _ & Hp3 & Hk3 & An3) & T3 & N3); cbn [fst snd res_map] in *.
  2: { pose proof (answers_err _ _ _ Bd ltac:(lia) An3) as ->. apply wpc_ret. exists ((n1 ++ n2) ++ n3).
       rewrite !app_assoc. split; [split; [exact (ureading_view _ _ _ _ _ _ _ R3)|auto]|]. auto. }
  destruct (Z.eqb_spec y xid) as [->|Hne]; cbn [negb]; apply wpc_ret; exists ((n1 ++ n2) ++ n3); rewrite !app_assoc;
    (split; [split; [exact (ureading_view _ _ _ _ _ _ _ R3)|auto]|]).
  - split; [split; auto|]. split; [exact Hk3|]. split; assumption.
  - right. eauto.
Qed.

(** Reading an incomplete packet ends the call. *)
Lemma ack_incomplete P fuel cl now c cur kk d q fs a nt : holds (cl_sn cl) c cur d q fs a nt -> cached (d_data d) kk ->
  fresh now cl -> (~ exists t, answers (d_data d) GLease (Ok (ATime (Some t)))) ->
  wpc P (on_ack fuel cl now (cur, kk)) c (fun x c' => snd x = cl /\
    (fst x = Err UnexpectedEof \/ exists t, fst x = Ok (Return t)) /\ exists new, phys (cl_sn cl) c' (d :: q ++ new) fs a nt).
Proof.
  intros Hh Hk Hf Hl. set (sn := cl_sn cl) in *.
  assert (forall cur' c' new, holds sn c' cur' d (q ++ new) fs a nt -> exists new, phys sn c' (d :: q ++ new) fs a nt) as Same.
  { intros cur' c' new H. exists new. exact (holds_phys _ _ _ _ _ _ _ _ H). }
  unfold on_ack.
  apply (wpc_get _ fuel GSubnet AIp _ sn c cur kk d q fs a nt); auto.
  2: { intros cur' c' new H _. split; [reflexivity|]. split; [auto|exact (Same _ _ _ H)]. }
  intros subnet cur1 k1 c1 n1 H1 K1 A1.
  apply (wpc_get _ fuel GServer AIp _ sn c1 cur1 k1 d (q ++ n1) fs a nt); auto.
  2: { intros cur' c' new H _. rewrite <- app_assoc in H. split; [reflexivity|]. split; [auto|exact (Same _ _ _ H)]. }
  intros server cur2 k2 c2 n2 H2 K2 A2. rewrite <- app_assoc in H2. remember (n1 ++ n2) as m2 eqn:E2; clear E2 H1.
  apply (wpc_get _ fuel GDns AIp _ sn c2 cur2 k2 d (q ++ m2) fs a nt); auto.
  2: { intros cur' c' new H _. rewrite <- app_assoc in H. split; [reflexivity|]. split; [auto|exact (Same _ _ _ H)]. }
  intros dns cur3 k3 c3 n3 H3 K3 A3. rewrite <- app_assoc in H3. remember (m2 ++ n3) as m3 eqn:E3; clear E3 H2.
  apply (wpc_get _ fuel GNtp AIp _ sn c3 cur3 k3 d (q ++ m3) fs a nt); auto.
  2: { intros cur' c' new H _. rewrite <- app_assoc in H. split; [reflexivity|]. split; [auto|exact (Same _ _ _ H)]. }
  intros ntp cur4 k4 c4 n4 H4 K4 A4. rewrite <- app_assoc in H4. remember (m3 ++ n4) as m4 eqn:E4; clear E4 H3.
  apply (wpc_get _ fuel GLease ATime _ sn c4 cur4 k4 d (q ++ m4) fs a nt); auto.
  2: { intros cur' c' new H _. rewrite <- app_assoc in H. split; [reflexivity|]. split; [auto|exact (Same _ _ _ H)]. }
  intros lease cur5 k5 c5 n5 H5 K5 A5. rewrite <- app_assoc in H5.
  destruct lease as [t|]; [exfalso; apply Hl; eauto|].
  unfold c_return. destruct (next_call_some now cl Hf) as (dl & E). rewrite E. apply wpc_ret.
  split; [reflexivity|]. split; [right; eexists; reflexivity|exact (Same _ _ _ H5)].
Qed.
Lemma loop_stuck dbg fuel0 fuel cl now c d q fs a nt : phys (cl_sn cl) c (d :: q) fs a nt -> blocks cl d -> fresh now cl ->
  wpc (dbg = true) (recv_loop dbg fuel0 fuel cl now) c (fun x c' => snd x = cl /\
    (fst x = Err UnexpectedEof \/ (exists t, fst x = Ok (Some t)) /\ incomplete (d_data d) (cl_xid cl)) /\ exists new, phys (cl_sn cl) c' (d :: q ++ new) fs a nt).
Proof.
  intros Hp Hb Hf. destruct fuel as [|f]; cbn [recv_loop]; [apply wpc_diverge|]. apply wpc_io.
  eapply wpc_mono; [apply (recv_head _ dbg (cl_sn cl) (cl_xid cl) c d q fs a nt Hp)|].
  intros [o|e] c1 (n1 & P1 & H1); [|destruct H1 as (-> & _); split; [reflexivity|]; split; [auto|exists n1; exact P1]].
  destruct o as [[cur k]|].
  - destruct H1 as (Hh & Hk & Hu). apply wpc_cbind.
    destruct Hb as [Hx|(Ha & Hin)].
    { exfalso. destruct Hu as (U1 & U2). apply op_answer in U1. apply xid_answer in U2. unfold bytes_at_ in *.
      destruct (Z.leb_spec (4 + 4) (zlen (d_data d))); [|discriminate U2].
      destruct Hx as [Hx|(Hx & _)]; lia. }
    pose proof (proj2 Hin) as Hi.
    eapply wpc_mono with (Q := fun x c' => snd x = cl /\ (fst x = Err UnexpectedEof \/ exists t, fst x = Ok (Return t)) /\
      exists new, phys (cl_sn cl) c' (d :: q ++ new) fs a nt).
    { unfold on_packet.
      assert (forall f : option MsgType -> pkt -> CM flow, (forall k, f (Some Ack) k = on_ack fuel0 cl now k) ->
        wpc (dbg = true) (c_pkt (msg_type fuel0) (cur, k) cl f) c1 (fun x c' => snd x = cl /\
        (fst x = Err UnexpectedEof \/ exists t, fst x = Ok (Return t)) /\ exists new, phys (cl_sn cl) c' (d :: q ++ new) fs a nt)) as G.
      { intros g Hg. apply (wpc_get _ fuel0 GMsgType AType _ (cl_sn cl) c1 cur k d (q ++ n1) fs a nt); auto.
        2: { intros cur' c' new H _. rewrite <- app_assoc in H. split; [reflexivity|]. split; [auto|].
             exists (n1 ++ new). exact (holds_phys _ _ _ _ _ _ _ _ H). }
        intros mt cur1 k1 c2 n2 H2 K2 A2. destruct Hi as [Hi|(Hi & Hl)].
        { pose proof (answers_fun _ _ _ _ A2 Hi). discriminate. }
        pose proof (answers_fun _ _ _ _ A2 Hi) as E. injection E as ->. rewrite Hg.
        eapply wpc_mono; [apply (ack_incomplete _ fuel0 cl now c2 cur1 k1 d _ fs a nt H2 K2 Hf Hl)|].
        intros x c3 (E1 & E2 & new & E3). split; [exact E1|]. split; [exact E2|]. rewrite <- !app_assoc in E3. eauto. }
      destruct Ha as [Ha|[Ha|Ha]]; rewrite Ha; apply G; reflexivity. }
    intros [r cl1] c2 (E & Hr & new & P2). cbn [fst snd] in *. subst cl1.
    destruct Hr as [-> |(t & ->)].
    + split; [reflexivity|]. split; [auto|eauto].
    + apply wpc_ret. split; [reflexivity|]. split; [right; split; [eexists; reflexivity|exact Hin]|eauto].
  - exfalso. destruct Hb as [Hx|(_ & (U1 & U2) & _)].
    + destruct H1 as [A|(x & A & _)].
      * apply op_answer in A. unfold bytes_at_ in A. destruct (Z.leb_spec (0 + 1) (zlen (d_data d))); [|discriminate A].
        destruct Hx as [Hx|(_ & Hx)]; [lia|]. pose proof (op_first (d_data d) ltac:(lia)) as B. apply op_answer in B.
        unfold bytes_at_ in B. destruct (Z.leb_spec (0 + 1) (zlen (d_data d))); [|lia]. cbn [res_map] in A, B. injection A as A. injection B as B.
        destruct (Z.eqb_spec (at_ (d_data d) 0) 1); [contradiction|]. congruence.
      * apply xid_answer in A. unfold bytes_at_ in A. destruct (Z.leb_spec (4 + 4) (zlen (d_data d))); [|discriminate A].
        destruct Hx as [Hx|(Hx & _)]; lia.
    + destruct H1 as [A|(x & A & Hn)].
      * pose proof (answers_fun _ _ _ _ A U1). discriminate.
      * pose proof (answers_fun _ _ _ _ A U2) as E. injection E as E. contradiction.
Qed.

Lemma process_stuck dbg fuel cl now c d q fs : client_ok cl -> socket_ok cl c (d :: q) fs -> blocks cl d -> fresh now cl ->
  wpc (dbg = true) (process dbg fuel cl now) c (fun x c' => snd x = cl /\
    (fst x = Err UnexpectedEof \/ (exists t, fst x = Ok t /\ (cl_state cl = Init \/ incomplete (d_data d) (cl_xid cl)))) /\
    exists new, socket_ok cl c' (d :: q ++ new) fs).
Proof.
  intros Hc (a & V & Hb & Ht) Hbl Hf. unfold process. assert (phys (cl_sn cl) c (d :: q) fs a (net_of c)) as Hp by (split; auto).
  assert (forall c' new, phys (cl_sn cl) c' (d :: q ++ new) fs a (net_of c) -> exists new, socket_ok cl c' (d :: q ++ new) fs) as So.
  { intros c' new (V' & T' & _). exists new, a. auto. }
  apply wpc_io. eapply wpc_mono; [apply (wpc_ir _ _ _ _ _ _ _ Hp)|]. intros r c1 ((v & ->) & n1 & P1). apply wpc_io.
  eapply wpc_mono with (Q := fun r c' => r = Ok tt /\ exists new, phys (cl_sn cl) c' (d :: q ++ new) fs a (net_of c)).
  { destruct (SocketInterrupt_any_raised v).
    - eapply wpc_mono; [apply (wpc_set_ir _ _ _ _ _ _ _ v P1)|]. intros r c2 (-> & n2 & P2). split; [reflexivity|].
      exists (n1 ++ n2). rewrite app_assoc. exact P2.
    - apply wpc_ret. split; [reflexivity|]. now exists n1. }
  intros r c2 (-> & n2 & P2). apply wpc_io.
  eapply wpc_mono with (Q := fun r c' => (exists up, r = Ok up /\ (up = true \/ cl_state cl = Init)) /\
    exists new, phys (cl_sn cl) c' (d :: q ++ new) fs a (net_of c)).
  { destruct (state_eqb (cl_state cl) Init) eqn:Ei.
    - assert (cl_state cl = Init) as Es by (destruct (cl_state cl); discriminate + reflexivity).
      apply wpc_bindM. eapply wpc_mono; [apply (wpc_phycfg _ _ _ _ _ _ _ P2)|]. intros r c3 ((w & ->) & n3 & P3).
      apply wpc_ret. split; [eauto|]. exists (n2 ++ n3). rewrite app_assoc. exact P3.
    - apply wpc_ret. split; [eauto|]. eauto. }
  intros r c3 ((up & -> & Hup) & n3 & P3).
  destruct up; cbn [negb].
  - apply wpc_cbind. eapply wpc_mono; [apply (loop_stuck dbg fuel fuel cl now c3 d _ fs a _ P3 Hbl Hf)|].
    intros [r cl'] c4 (E & Hr & n4 & P4). cbn [fst snd] in *. subst cl'. rewrite <- app_assoc in P4. destruct Hr as [-> |((t & ->) & Hin)].
    + split; [reflexivity|]. split; [auto|]. exact (So c4 _ P4).
    + apply wpc_ret. split; [reflexivity|]. split; [|exact (So c4 _ P4)]. right. exists t. split; [reflexivity|].
      auto.
  - destruct Hup as [Hup|Es]; [discriminate|]. apply wpc_ret. split; [reflexivity|]. split; [|exact (So c3 _ P3)]. right. eexists. split; [reflexivity|auto].
Qed.
Lemma clock_fresh now cl c q fs : clock_ok now (world_of cl c q fs) -> fresh now cl.
Proof. intros (H & _). exact H. Qed.
Lemma stuck_call dbg fuel cl now c d q fs sch r cl' sch' c' : client_ok cl -> socket_ok cl c (d :: q) fs -> blocks cl d ->
  clock_ok now (world_of cl c (d :: q) fs) -> no_faults sch ->
  run (process dbg fuel cl now) sch c = (Done (r, cl'), sch', c') ->
  cl' = cl /\ (r = Err UnexpectedEof \/ exists t, r = Ok t /\ (cl_state cl = Init \/ incomplete (d_data d) (cl_xid cl))) /\
  exists new, socket_ok cl c' (d :: q ++ new) fs.
Proof.
  intros Hc Hs Hb Ck Hn E. pose proof (process_stuck dbg fuel cl now c d q fs Hc Hs Hb (clock_fresh _ _ _ _ _ Ck) sch Hn) as H.
  rewrite E in H. exact H.
Qed.
Lemma stuck_calls dbg now cl c now' cl' c' : calls dbg now cl c now' cl' c' -> forall d q fs, client_ok cl -> socket_ok cl c (d :: q) fs ->
  blocks cl d -> clock_ok now (world_of cl c (d :: q) fs) -> cl' = cl /\ exists new, socket_ok cl c' (d :: q ++ new) fs.
Proof.
  induction 1 as [now cl c|now cl c c1 now2 cl2 c2 E N H IH|now now1 fuel cl c sch r cl1 sch1 c1 now2 cl2 c2 L Hn E H IH]; intros d q fs Hc Hs Hb Ck.
  - split; [reflexivity|]. exists []. rewrite app_nil_r. exact Hs.
  - destruct (socket_wait _ _ _ _ _ Hs E) as (new & Hs1). cbn [app] in Hs1.
    destruct (IH d _ fs Hc Hs1 Hb Ck) as (E1 & n2 & S2). split; [exact E1|]. exists (new ++ n2). rewrite app_assoc. exact S2.
  - assert (clock_ok now1 (world_of cl c (d :: q) fs)) as Ck0 by exact (clock_later _ _ _ L Ck).
    destruct (stuck_call dbg fuel cl now1 c d q fs sch r cl1 sch1 c1 Hc Hs Hb Ck0 Hn E) as (-> & _ & new & Hs1).
    destruct (IH d _ fs Hc Hs1 Hb Ck0) as (E1 & n2 & S2). split; [exact E1|]. exists (new ++ n2). rewrite app_assoc. exact S2.
Qed.

(** ** A packet for someone else *)
Lemma loop_another dbg fuel0 fuel cl now c d q fs a nt : phys (cl_sn cl) c (d :: q) fs a nt -> for_another (d_data d) (cl_xid cl) ->
  wpc (dbg = true) (recv_loop dbg fuel0 fuel cl now) c (fun x c' => x = (Ok None, cl) /\
    exists new, phys (cl_sn cl) c' (d :: q ++ new) fs a nt).
Proof.
  intros Hp (Hz & Ha). destruct fuel as [|f]; cbn [recv_loop]; [apply wpc_diverge|]. apply wpc_io.
  eapply wpc_mono; [apply (recv_head _ dbg (cl_sn cl) (cl_xid cl) c d q fs a nt Hp)|].
  pose proof (op_first (d_data d) Hz) as B.
  assert (8 <= zlen (d_data d) -> answers (d_data d) GXid (Ok (AXid (word (ztake 4 (zdrop 4 (d_data d))))))) as X.
  { intros H8. pose proof (AnsXid (d_data d)) as A. unfold bytes_at_ in A. destruct (Z.leb_spec (4 + 4) (zlen (d_data d))); [exact A|lia]. }
  intros [[[cur k]|]|e] c1 (n1 & P1 & H1).
  - exfalso. destruct H1 as (_ & _ & U1 & U2). destruct Ha as [Ha|(H8 & Ha)].
    + rewrite Ha in B. pose proof (answers_fun _ _ _ _ U1 B). discriminate.
    + pose proof (answers_fun _ _ _ _ U2 (X H8)) as E. injection E as E. congruence.
  - apply wpc_ret. split; [reflexivity|eauto].
  - exfalso. destruct H1 as (_ & [U|(U & V)]).
    + pose proof (answers_fun _ _ _ _ U B). discriminate.
    + pose proof (answers_fun _ _ _ _ U B) as E. destruct Ha as [Ha|(H8 & Ha)]; [rewrite Ha in E; discriminate|].
      pose proof (answers_fun _ _ _ _ V (X H8)). discriminate.
Qed.
Lemma process_another dbg fuel cl now c d q fs (Q : res err Z * Client -> chip -> Prop) : socket_ok cl c (d :: q) fs -> cl_state cl <> Init ->
  for_another (d_data d) (cl_xid cl) ->
  (forall c1 new a, phys (cl_sn cl) c1 (d :: q ++ new) fs a (net_of c) ->
    wpc (dbg = true) (c_bind (on_timer dbg fuel cl now) (fun _ c => match next_call c now with None => Panic | Some d => c_ret d c end)) c1 Q) ->
  wpc (dbg = true) (process dbg fuel cl now) c Q.
Proof.
  intros (a & V & Hb & Ht) Hi Hu H2. unfold process. assert (phys (cl_sn cl) c (d :: q) fs a (net_of c)) as Hp by (split; auto).
  apply wpc_io. eapply wpc_mono; [apply (wpc_ir _ _ _ _ _ _ _ Hp)|]. intros r c1 ((v & ->) & n1 & P1). apply wpc_io.
  eapply wpc_mono with (Q := fun r c' => r = Ok tt /\ exists new, phys (cl_sn cl) c' (d :: q ++ new) fs a (net_of c)).
  { destruct (SocketInterrupt_any_raised v).
    - eapply wpc_mono; [apply (wpc_set_ir _ _ _ _ _ _ _ v P1)|]. intros r c2 (-> & n2 & P2). split; [reflexivity|].
      exists (n1 ++ n2). rewrite app_assoc. exact P2.
    - apply wpc_ret. split; [reflexivity|]. now exists n1. }
  intros r c2 (-> & n2 & P2). apply wpc_io. replace (state_eqb (cl_state cl) Init) with false by (destruct (cl_state cl); try reflexivity; contradiction).
  apply wpc_ret. cbn [negb]. apply wpc_cbind. eapply wpc_mono; [apply (loop_another dbg fuel fuel cl now c2 d _ fs a _ P2 Hu)|].
  intros x c3 (-> & n3 & P3). cbn [fst snd] in *. rewrite <- app_assoc in P3. exact (H2 c3 _ a P3).
Qed.
Lemma another_restart dbg fuel cl now c d q fs sch r cl' sch' c' : client_ok cl -> socket_ok cl c (d :: q) fs -> cl_state cl <> Init ->
  for_another (d_data d) (cl_xid cl) -> clock_ok now (world_of cl c (d :: q) fs) ->
  (exists t, cl_state_timeout cl = Some t /\ cl_timeout cl < now - t) \/
  (cl_state_timeout cl = None /\ leased (cl_state cl) /\ cl_lease cl < (now - cl_lease_secs cl) mod 4294967296) -> no_faults sch ->
  run (process dbg fuel cl now) sch c = (Done (r, cl'), sch', c') ->
  r = Ok (Z.max 0 (cl_timeout cl)) /\ cl_state cl' = Selecting /\ cl_state_timeout cl' = Some now /\ leased_ip cl' = None /\
  exists q' sent, socket_ok cl' c' q' (sent ++ [discover_to (config_of cl) (cl_xid cl')]).
Proof.
  intros Hc Hs Hi Hu Ck Hd Hn E.
  assert (wpc (dbg = true) (process dbg fuel cl now) c (fun y c' => fst y = Ok (Z.max 0 (cl_timeout cl)) /\
    cl_state (snd y) = Selecting /\ cl_state_timeout (snd y) = Some now /\ leased_ip (snd y) = None /\
    exists q' sent, socket_ok (snd y) c' q' (sent ++ [discover_to (config_of cl) (cl_xid (snd y))]))) as H.
  { apply (process_another dbg fuel cl now c d q fs); auto.
    intros c1 new a P. apply wpc_cbind.
    assert (on_timer dbg fuel cl now = discover dbg fuel cl now) as ->.
    { unfold on_timer, timeout_elapsed_secs. destruct Ck as (Ck & _). cbn [world_of w_since] in Ck. destruct Hd as [(t & Et & To)|(Et & Hl & Le)]; rewrite Et in *.
      - destruct (Z.ltb_spec now t); [lia|]. destruct (Z.ltb_spec (cl_timeout cl) (now - t)); [reflexivity|lia].
      - unfold u32. destruct (Z.ltb_spec (cl_lease cl) ((now - cl_lease_secs cl) mod 4294967296)) as [_|]; [|lia].
        destruct Hl as [Hl|[Hl|Hl]]; rewrite Hl; reflexivity. }
    eapply wpc_mono; [apply (discover_spec dbg fuel cl now c1 _ fs a _ P Hc)|].
    intros y c2 (x' & st & q' & sent & -> & (V & T & _)). cbn [fst snd].
    unfold next_call, timeout_elapsed_secs. cbn [put_state put_xid put_ip cl_state_timeout cl_timeout].
    destruct (Z.ltb_spec now now); [lia|]. apply wpc_ret. cbn [fst snd].
    split; [unfold sat_sub; do 2 f_equal; lia|]. split; [reflexivity|]. split; [reflexivity|]. split; [reflexivity|].
    exists q', sent, (cl_broadcast cl). split; [exact V|]. split; [reflexivity|exact T]. }
  specialize (H sch Hn). rewrite E in H. exact H.
Qed.
