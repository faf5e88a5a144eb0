(** The DHCP client does what the packet at the head of the queue and the time oblige it to do. *)
From Verif Require Export Proof.DhcpBlockP Spec.DhcpDue Spec.DhcpCases.
From Verif Require Import Model.LlAddr Model.LlBits Model.Ll Model.HlCommon Model.HlUdp Proof.SprogP Proof.DhcpPktP.
From Verif Require Import Proof.DhcpMachineP Proof.DhcpHistP Proof.DhcpBlockP Model.DhcpPkt Model.DhcpClient.

Lemma recv_must P dbg sn xid c g q fs a nt : phys sn c (g :: q) fs a nt -> for_us (d_data g) xid ->
  wpc P (recv dbg sn xid) c (fun r c' => exists new cur k, r = Ok (Some (cur, k)) /\ holds sn c' cur g (q ++ new) fs a nt /\ cached (d_data g) k).
Proof.
  intros Hp (Ua & Ub). unfold recv. apply wpc_bind.
  eapply wpc_mono; [apply (wpc_phys _ _ sn c _ fs a nt _ (quiet_reader _ _) Hp (ureader_open sn True dbg _ _ _ _ (proj1 Hp)))|].
  intros r c1 ((n1 & [(-> & E0 & V1)|(cur & d & q' & E & -> & R1 & Hpos)]) & T1 & N1); [discriminate E0|].
  injection E as <- <-.
  assert (holds sn c1 cur g (q ++ n1) fs a nt) as Hh by (split; auto).
  destruct (head_fits sn _ _ _ _ _ (ureading_view _ _ _ _ _ _ _ R1)) as (Bd & Ld). pose proof (zlen_nonneg (d_data g)) as Zd.
  cbn [ur_inner ur_header]. destruct (Z.ltb_spec (cur_len cur) (uh_len (header_of g))) as [Hl|Hl].
  { exfalso. pose proof R1 as (_ & _ & _ & Ec & _). unfold header_of in Hl. cbn [uh_len] in Hl. lia. }
  apply wpc_bind. eapply wpc_mono.
  { eapply (wpc_phys P _ sn c1 _ fs a nt _ (quiet_cursor _ _ _) (holds_phys _ _ _ _ _ _ _ _ Hh)). eapply (ureading_run sn True _ cur g (q ++ n1) fs a _ _ R1).
    apply (typed_answers (d_data g) True O GOp AIsRequest is_bootreply cache_new (cur_pos cur) eq_refl); auto using cached_new; lia. }
  intros [[[x|e] k'] cur'] c2 ((n2 & R2 & _ & Hp2 & Hk2 & An) & T2 & N2); cbn [fst snd res_map] in *;
    pose proof (answers_fun _ _ _ _ An Ua) as Ex; [|discriminate Ex]. injection Ex as ->.
  apply wpc_bind. eapply wpc_mono.
  { assert (holds sn c2 cur' g ((q ++ n1) ++ n2) fs a nt) as Hh2 by (split; auto).
    eapply (wpc_phys P _ sn c2 _ fs a nt _ (quiet_cursor _ _ _) (holds_phys _ _ _ _ _ _ _ _ Hh2)). eapply (ureading_run sn True _ cur' g _ fs a _ _ R2).
    apply (typed_answers (d_data g) True O GXid AXid pkt_xid k' (cur_pos cur') eq_refl); auto; lia. }
  intros [[[y|e] k3] cur3] c3 ((n3 & R3 & _ & Hp3 & Hk3 & An3) & T3 & N3); cbn [fst snd res_map] in *;
    pose proof (answers_fun _ _ _ _ An3 Ub) as Ex; [|discriminate Ex]. injection Ex as ->.
  rewrite Z.eqb_refl. cbn [negb]. apply wpc_ret. exists (n1 ++ n2 ++ n3), cur3, k3. split; [reflexivity|].
  split; [split; [rewrite !app_assoc; exact R3|auto]|exact Hk3].
Qed.

Section Call.
Context (dbg : bool) (fuel : nat) (cl : Client) (now : Z).
Let k := config_of cl.
Let sn := cl_sn cl.
Let G (w1 : world) := good k sn (cl_port cl) now w1.

Lemma timer_tail w1 cl2 c2 : G w1 cl2 c2 ->
  wpc (dbg = true) (c_bind (on_timer dbg fuel cl2 now) (fun _ c => match next_call c now with None => Panic | Some d => c_ret d c end)) c2
    (fun x c' => G w1 (snd x) c').
Proof.
  intros G2. apply wpc_cbind. eapply wpc_mono; [apply (on_timer_spec _ _ _ _ _ dbg fuel cl2 c2 G2)|].
  intros [[u|e] cl3] c3 (G3 & X3); cbn [fst snd] in *; [|exact G3].
  pose proof G3 as (q3 & fs3 & a3 & nt3 & _ & (_ & _ & _ & F3 & _)). destruct (next_call_some now cl3 F3) as (d & E). rewrite E.
  apply wpc_ret. exact G3.
Qed.
(** The call up to the receive loop. *)
Lemma process_open c q fs a Q : phys sn c q fs a (net_of c) -> cl_state cl <> Init ->
  (forall c1 new, phys sn c1 (q ++ new) fs a (net_of c) -> wpc (dbg = true)
    (c_bind (recv_loop dbg fuel fuel cl now) (fun o c =>
      match o with
      | Some d => c_ret d c
      | None => c_bind (on_timer dbg fuel c now) (fun _ c => match next_call c now with None => Panic | Some d => c_ret d c end)
      end)) c1 Q) ->
  wpc (dbg = true) (process dbg fuel cl now) c Q.
Proof.
  intros Hp Hi H. unfold process. apply wpc_io. eapply wpc_mono; [apply (wpc_ir _ _ _ _ _ _ _ Hp)|]. intros r c1 ((v & ->) & n1 & P1). apply wpc_io.
  eapply wpc_mono with (Q := fun r c' => r = Ok tt /\ exists new, phys sn c' (q ++ new) fs a (net_of c)).
  { destruct (SocketInterrupt_any_raised v).
    - eapply wpc_mono; [apply (wpc_set_ir _ _ _ _ _ _ _ v P1)|]. intros r c2 (-> & n2 & P2). split; [reflexivity|].
      exists (n1 ++ n2). rewrite app_assoc. exact P2.
    - apply wpc_ret. split; [reflexivity|]. now exists n1. }
  intros r c2 (-> & n2 & P2). apply wpc_io. replace (state_eqb (cl_state cl) Init) with false by (destruct (cl_state cl); try reflexivity; contradiction).
  apply wpc_ret. cbn [negb]. exact (H c2 n2 P2).
Qed.

(** A packet for the client at the head of the queue. *)
Lemma process_must c g q fs a (W : world -> Prop) (E : Prop) : phys sn c (g :: q) fs a (net_of c) -> cl_state cl <> Init ->
  for_us (d_data g) (cl_xid cl) ->
  (forall c1 cur kk new, holds sn c1 cur g (q ++ new) fs a (net_of c) -> cached (d_data g) kk ->
    wpc (dbg = true) (on_packet dbg fuel cl now (cur, kk)) c1 (fun x c2 =>
      (exists w1, W w1 /\ G w1 (snd x) c2 /\ fst x = Ok Continue) \/ (fst x = Err OutOfMemory /\ E))) ->
  wpc (dbg = true) (process dbg fuel cl now) c (fun x c2 => (exists w1, W w1 /\ G w1 (snd x) c2) \/ (fst x = Err OutOfMemory /\ E)).
Proof.
  intros Hp Hi Hu H. apply (process_open c (g :: q) fs a _ Hp Hi). intros c1 n1 P1. apply wpc_cbind.
  eapply wpc_mono with (Q := fun x c2 => (exists w1, W w1 /\ G w1 (snd x) c2) \/ (fst x = Err OutOfMemory /\ E)).
  - destruct fuel as [|f]; cbn [recv_loop]; [apply wpc_diverge|]. apply wpc_io.
    eapply wpc_mono; [apply (recv_must _ dbg sn (cl_xid cl) c1 g (q ++ n1) fs a _ P1 Hu)|].
    intros r c2 (n2 & cur & kk & -> & Hh & Hk). rewrite <- app_assoc in Hh. apply wpc_cbind. eapply wpc_mono; [apply (H c2 cur kk _ Hh Hk)|].
    intros [r cl2] c3 [(w1 & H1 & H2 & H3)|(H1 & H2)]; cbn [fst snd] in *; subst r; [|right; auto].
    eapply wpc_mono; [apply (recv_loop_spec _ _ _ _ _ dbg (S f) f cl2 c3 H2)|]. intros x c4 (H4 & _). left. exists w1. auto.
  - intros [[[d|]|e] cl2] c2 X; cbn [fst snd] in *.
    + apply wpc_ret. destruct X as [X|(X & _)]; [left; exact X|discriminate X].
    + destruct X as [(w1 & X1 & X2)|(X & _)]; [|discriminate X]. eapply wpc_mono; [apply (timer_tail w1 cl2 c2 X2)|].
      intros x c3 X3. left. exists w1. auto.
    + destruct X as [X|(X & Y)]; [left; exact X|right; split; [congruence|exact Y]].
Qed.

Lemma good_start cl' c q fs a nt : DhcpMachineP.same k sn (cl_port cl) cl' -> client_ok cl' -> (cl_state cl' <> Init -> a = cl_broadcast cl') -> fresh now cl' ->
  phys sn c q fs a nt -> G (mkw cl' nt q fs) cl' c.
Proof. intros H1 H2 H3 H4 H5. exists q, fs, a, nt. split; [exact H5|]. repeat (split; [assumption|]). exists []. constructor. Qed.

Lemma offer_must c1 cur kk g q fs nt ip server : client_ok cl -> fresh now cl -> cl_state cl = Selecting ->
  holds sn c1 cur g q fs (cl_broadcast cl) nt -> cached (d_data g) kk ->
  answers (d_data g) GYiaddr (Ok (AAddr ip)) -> answers (d_data g) GServer (Ok (AIp server)) ->
  wpc (dbg = true) (on_packet dbg fuel cl now (cur, kk)) c1 (fun x c2 =>
    (exists w1, (exists new xid, w1 = requested k now (mkw cl nt (g :: q) fs) (q ++ new) ip server xid) /\ G w1 (snd x) c2 /\ fst x = Ok Continue) \/
    (fst x = Err OutOfMemory /\ True)).
Proof.
  intros Hc Hf Est Hh Hk A1 A2.
  assert (bytes_ok (d_data g)) as Bd by (destruct (head_fits sn _ _ _ _ _ (ureading_view _ _ _ _ _ _ _ (proj1 Hh))); assumption).
  unfold on_packet. rewrite Est.
  apply (wpc_get _ fuel GYiaddr AAddr _ sn c1 cur kk g q fs (cl_broadcast cl) nt); auto.
  2: { intros cur' c' new H A. pose proof (answers_fun _ _ _ _ A A1). discriminate. }
  intros ip' cur1 k1 c2 n1 H1 K1 A1'. pose proof (answers_fun _ _ _ _ A1' A1) as Ex. injection Ex as ->.
  cbv zeta. destruct (addr_answer _ _ Bd A1) as (I1 & I2).
  apply (wpc_get _ fuel GServer AIp _ sn c2 cur1 k1 g (q ++ n1) fs (cl_broadcast cl) nt); auto.
  2: { intros cur' c' new H A. pose proof (answers_fun _ _ _ _ A A2). discriminate. }
  intros server' cur2 k2 c3 n2 H2 K2 A2'. pose proof (answers_fun _ _ _ _ A2' A2) as Ex. injection Ex as ->. rewrite <- app_assoc in H2. cbn [fst].
  eapply wpc_done; [exact H2|]. intros c4 n3 H3. rewrite <- app_assoc in H3. apply wpc_cbind.
  set (cl1 := put_server (put_ip cl ip) server).
  assert (client_ok cl1) as Hc2.
  { destruct Hc as (C1 & C2 & C3 & C4 & C5 & C6 & C7 & C8 & _). repeat (split; [assumption|]). exact (ip_answer _ _ _ Bd A2). }
  eapply wpc_mono; [apply (request_spec _ cl1 c4 (q ++ (n1 ++ n2) ++ n3) fs nt H3 Hc2)|].
  intros [r cl'] c5 (x' & st & n4 & E4 & [(E5 & H4)|(E5 & H4)]); cbn [fst snd] in *; subst cl' r; [right; auto|].
  apply wpc_ret. left. cbn [fst snd]. exists (requested k now (mkw cl nt (g :: q) fs) (q ++ ((n1 ++ n2) ++ n3) ++ n4) ip server x').
  split; [eauto|]. split; [|reflexivity]. rewrite <- app_assoc in H4.
  refine (good_start (set_state_with_timeout (put_xid cl1 x' st) Requesting now) c5 _ _ (cl_broadcast cl) nt _ _ _ _ H4).
  - split; [reflexivity|]. split; reflexivity.
  - exact Hc2.
  - intros _; reflexivity.
  - apply Z.le_refl.
Qed.

Lemma ack_must c1 cur kk g q fs nt t subnet server dns ntp : client_ok cl -> fresh now cl -> asking (cl_state cl) ->
  holds sn c1 cur g q fs (cl_broadcast cl) nt -> cached (d_data g) kk -> complete_ack (d_data g) now t subnet server dns ntp ->
  wpc (dbg = true) (on_packet dbg fuel cl now (cur, kk)) c1 (fun x c2 =>
    (exists w1, (exists new, w1 = lease_taken (mkw cl nt (g :: q) fs) (q ++ new) t subnet server dns ntp) /\ G w1 (snd x) c2 /\ fst x = Ok Continue) \/
    (fst x = Err OutOfMemory /\ False)).
Proof.
  intros Hc Hf Ha Hh Hk [Ty (lease & t1 & t2 & Al & A1 & A2 & Et) As Av Ad An].
  assert (bytes_ok (d_data g)) as Bd by (destruct (head_fits sn _ _ _ _ _ (ureading_view _ _ _ _ _ _ _ (proj1 Hh))); assumption).
  set (Post := fun (x : res err flow * Client) c2 => _ \/ _).
  assert (wpc (dbg = true) (c_pkt (msg_type fuel) (cur, kk) cl (fun mt k =>
      match mt with
      | Some Ack => on_ack fuel cl now k
      | Some Nak => c_io (udp_reader_done (fst k)) cl (fun _ => c_bind (discover dbg fuel cl now) (fun _ c => c_ret Continue c))
      | Some _ => c_io (udp_reader_done (fst k)) cl (fun _ => c_ret Continue cl)
      | None => c_io (udp_reader_done (fst k)) cl (fun _ => c_ret Continue cl)
      end)) c1 Post) as Main.
  2: { unfold on_packet. destruct Ha as [E|[E|E]]; rewrite E; exact Main. }
  apply (wpc_get _ fuel GMsgType AType _ sn c1 cur kk g q fs (cl_broadcast cl) nt); auto.
  2: { intros cur' c' new H A. pose proof (answers_fun _ _ _ _ A Ty). discriminate. }
  intros mt cur0 k0 c0 n0 H0 K0 A0. pose proof (answers_fun _ _ _ _ A0 Ty) as Ex. injection Ex as ->. unfold on_ack.
  apply (wpc_get _ fuel GSubnet AIp _ sn c0 cur0 k0 g (q ++ n0) fs (cl_broadcast cl) nt); auto.
  2: { intros cur' c' new H A. pose proof (answers_fun _ _ _ _ A As). discriminate. }
  intros x1 cur1 k1 c2 n1 H1 K1 X1. pose proof (answers_fun _ _ _ _ X1 As) as Ex. injection Ex as ->. rewrite <- app_assoc in H1.
  remember (n0 ++ n1) as m1 eqn:E1; clear E1 H0.
  apply (wpc_get _ fuel GServer AIp _ sn c2 cur1 k1 g (q ++ m1) fs (cl_broadcast cl) nt); auto.
  2: { intros cur' c' new H A. pose proof (answers_fun _ _ _ _ A Av). discriminate. }
  intros x2 cur2 k2 c3 n2 H2 K2 X2. pose proof (answers_fun _ _ _ _ X2 Av) as Ex. injection Ex as ->. rewrite <- app_assoc in H2.
  remember (m1 ++ n2) as m2 eqn:E2; clear E2 H1.
  apply (wpc_get _ fuel GDns AIp _ sn c3 cur2 k2 g (q ++ m2) fs (cl_broadcast cl) nt); auto.
  2: { intros cur' c' new H A. pose proof (answers_fun _ _ _ _ A Ad). discriminate. }
  intros x3 cur3 k3 c4 n3 H3 K3 X3. pose proof (answers_fun _ _ _ _ X3 Ad) as Ex. injection Ex as ->. rewrite <- app_assoc in H3.
  remember (m2 ++ n3) as m3 eqn:E3; clear E3 H2.
  apply (wpc_get _ fuel GNtp AIp _ sn c4 cur3 k3 g (q ++ m3) fs (cl_broadcast cl) nt); auto.
  2: { intros cur' c' new H A. pose proof (answers_fun _ _ _ _ A An). discriminate. }
  intros x4 cur4 k4 c5 n4 H4 K4 X4. pose proof (answers_fun _ _ _ _ X4 An) as Ex. injection Ex as ->. rewrite <- app_assoc in H4.
  remember (m3 ++ n4) as m4 eqn:E4; clear E4 H3.
  apply (wpc_get _ fuel GLease ATime _ sn c5 cur4 k4 g (q ++ m4) fs (cl_broadcast cl) nt); auto.
  2: { intros cur' c' new H A. pose proof (answers_fun _ _ _ _ A Al). discriminate. }
  intros x5 cur5 k5 c6 n5 H5 K5 X5. pose proof (answers_fun _ _ _ _ X5 Al) as Ex. injection Ex as ->. rewrite <- app_assoc in H5.
  remember (m4 ++ n5) as m5 eqn:E5; clear E5 H4. pose proof (time_answer _ _ _ Bd Al) as O5. cbn [time_ok] in O5.
  apply (wpc_get _ fuel GRenewal ATime _ sn c6 cur5 k5 g (q ++ m5) fs (cl_broadcast cl) nt); auto.
  2: { intros cur' c' new H A. pose proof (answers_fun _ _ _ _ A A1). discriminate. }
  intros x6 cur6 k6 c7 n6 H6 K6 X6. pose proof (answers_fun _ _ _ _ X6 A1) as Ex. injection Ex as ->. rewrite <- app_assoc in H6.
  remember (m5 ++ n6) as m6 eqn:E6; clear E6 H5. pose proof (time_answer _ _ _ Bd A1) as O6.
  apply (wpc_get _ fuel GRebinding ATime _ sn c7 cur6 k6 g (q ++ m6) fs (cl_broadcast cl) nt); auto.
  2: { intros cur' c' new H A. pose proof (answers_fun _ _ _ _ A A2). discriminate. }
  intros x7 cur7 k7 c8 n7 H7 K7 X7. pose proof (answers_fun _ _ _ _ X7 A2) as Ex. injection Ex as ->. rewrite <- app_assoc in H7.
  remember (m6 ++ n7) as m7 eqn:E7; clear E7 H6. pose proof (time_answer _ _ _ Bd A2) as O7. cbv zeta. cbn [fst].
  apply (wpc_done _ sn c8 cur7 g (q ++ m7) fs (cl_broadcast cl) nt); [exact H7|]. intros c9 n8 H8. rewrite <- app_assoc in H8.
  assert (put_times cl (sat_sub (match t1 with Some x => x | None => lease / 2 end) ((match t1 with Some x => x | None => lease / 2 end) / 8))
      (sat_sub (match t2 with Some x => x | None => sat_mul7 lease / 8 end) ((match t2 with Some x => x | None => sat_mul7 lease / 8 end) / 8))
      (sat_sub lease (lease / 8)) now = put_times cl (t_1 t) (t_2 t) (t_lease t) now) as ->.
  { subst t. cbn [t_1 t_2 t_lease]. unfold sat_mul7. f_equal; apply sat_derated.
    + unfold given; destruct t1; cbn [time_ok] in O6; [lia|apply Z.div_pos; lia].
    + unfold given; destruct t2; cbn [time_ok] in O7; [lia|apply Z.div_pos; lia].
    + lia. }
  pose proof (ip_answer _ _ _ Bd As) as Ok1. pose proof (ip_answer _ _ _ Bd Av) as Ok2.
  set (cl1 := put_times cl (t_1 t) (t_2 t) (t_lease t) now). unfold install. cbv zeta.
  apply wpc_io. eapply wpc_mono; [apply (wpc_set_subr _ sn c9 _ fs _ _ subnet (proj1 Ok1) H8)|].
  intros r d1 (-> & p1 & P1). rewrite <- app_assoc in P1.
  apply wpc_io. eapply wpc_mono; [apply (wpc_set_gar _ sn d1 _ fs _ _ server (proj1 Ok2) P1)|].
  intros r d2 (-> & p2 & P2). rewrite <- app_assoc in P2. cbn [n_subr n_gar n_sipr] in P2. apply wpc_io.
  assert (forall d3 new, phys sn d3 (q ++ new) fs (cl_broadcast cl)
      (mkNet server subnet (match cl_state cl with Requesting => cl_ip cl | _ => n_sipr nt end)) ->
    wpc (dbg = true) (c_ret Continue (set_state (put_servers cl1 dns ntp) Bound)) d3 Post) as Fin.
  { intros d3 new P3. apply wpc_ret. left. cbn [fst snd].
    exists (lease_taken (mkw cl nt (g :: q) fs) (q ++ new) t subnet server dns ntp). split; [eauto|]. split; [|reflexivity].
    pose proof (good_start (set_state (put_servers cl1 dns ntp) Bound) d3 _ _ (cl_broadcast cl) _ (conj eq_refl (conj eq_refl eq_refl)) Hc
      (fun _ => eq_refl) I P3) as Gs.
    assert (t = mkTimes (t_1 t) (t_2 t) (t_lease t) now) as Ett by (subst t; reflexivity).
    unfold lease_taken. rewrite Ett. exact Gs. }
  destruct (cl_state cl1) eqn:E1; change (cl_state cl1) with (cl_state cl) in E1; rewrite E1 in Fin; cbn [state_eqb];
    try (apply wpc_ret; eapply Fin; exact P2).
  assert (zlen (cl_ip cl) = 4) as Li by (destruct Hc as (_ & _ & _ & _ & _ & _ & H & _); exact H).
  eapply wpc_mono; [apply (wpc_set_sipr _ sn d2 _ fs _ _ _ Li P2)|]. intros r d3 (-> & p3 & P3). rewrite <- app_assoc in P3. eapply Fin; exact P3.
Qed.

Lemma nak_must c1 cur kk g q fs nt : client_ok cl -> fresh now cl -> asking (cl_state cl) ->
  holds sn c1 cur g q fs (cl_broadcast cl) nt -> cached (d_data g) kk -> has_type (d_data g) (Some Nak) ->
  wpc (dbg = true) (on_packet dbg fuel cl now (cur, kk)) c1 (fun x c2 =>
    (exists w1, (exists q' sent xid, w1 = discovering k now (mkw cl nt (g :: q) fs) q' sent xid) /\ G w1 (snd x) c2 /\ fst x = Ok Continue) \/
    (fst x = Err OutOfMemory /\ False)).
Proof.
  intros Hc Hf Ha Hh Hk Ty. set (Post := fun (x : res err flow * Client) c2 => _ \/ _).
  assert (wpc (dbg = true) (c_pkt (msg_type fuel) (cur, kk) cl (fun mt k =>
      match mt with
      | Some Ack => on_ack fuel cl now k
      | Some Nak => c_io (udp_reader_done (fst k)) cl (fun _ => c_bind (discover dbg fuel cl now) (fun _ c => c_ret Continue c))
      | Some _ => c_io (udp_reader_done (fst k)) cl (fun _ => c_ret Continue cl)
      | None => c_io (udp_reader_done (fst k)) cl (fun _ => c_ret Continue cl)
      end)) c1 Post) as Main.
  2: { unfold on_packet. destruct Ha as [E|[E|E]]; rewrite E; exact Main. }
  apply (wpc_get _ fuel GMsgType AType _ sn c1 cur kk g q fs (cl_broadcast cl) nt); auto.
  2: { intros cur' c' new H A. pose proof (answers_fun _ _ _ _ A Ty). discriminate. }
  intros mt cur0 k0 c0 n0 H0 K0 A0. pose proof (answers_fun _ _ _ _ A0 Ty) as Ex. injection Ex as ->. cbn [fst].
  eapply wpc_done; [exact H0|]. intros c2 n2 H2. apply wpc_cbind.
  eapply wpc_mono; [apply (discover_spec dbg fuel cl now c2 _ fs _ nt H2 Hc)|].
  intros x c3 (x' & st & q' & sent & -> & Hp'). cbn [fst snd]. apply wpc_ret. left. cbn [fst snd].
  exists (discovering k now (mkw cl nt (g :: q) fs) q' sent x'). split; [eauto|]. split; [|reflexivity].
  refine (good_start (put_state (put_xid (put_ip cl unspecified) x' st) Selecting (Some now)) c3 _ _ (cl_broadcast cl) _ _ _ _ _ Hp').
  - split; [reflexivity|]. split; reflexivity.
  - destruct Hc as (C1 & C2 & C3 & C4 & C5 & C6 & _ & _ & C9). repeat (split; [assumption|]).
    cbn [put_state put_xid put_ip cl_ip cl_server]. split; [reflexivity|]. split; [|exact C9].
    unfold unspecified, bytes_ok, is_u8. repeat constructor; lia.
  - intros _; reflexivity.
  - apply Z.le_refl.
Qed.

(** Init and Bound: packets are dropped. *)
Lemma loop_deaf fuel0 fuel1 : forall c q fs a nt, cl_state cl = Init \/ cl_state cl = Bound -> phys sn c q fs a nt ->
  wpc (dbg = true) (recv_loop dbg fuel0 fuel1 cl now) c (fun x c' => snd x = cl /\ (fst x = Err UnexpectedEof \/ fst x = Ok None) /\
    exists q', phys sn c' q' fs a nt).
Proof.
  induction fuel1 as [|f IH]; intros c q fs a nt Hst Hp; cbn [recv_loop]; [apply wpc_diverge|]. apply wpc_io.
  eapply wpc_mono; [apply (recv_spec _ dbg sn (cl_xid cl) c q fs a nt Hp)|].
  intros r c1 (new & [([-> | ->] & H1)|(cur & kk & d & q' & -> & E & Hh & Hk & Hu)]).
  - split; [reflexivity|]. split; [left; reflexivity|]. now exists (q ++ new).
  - apply wpc_ret. split; [reflexivity|]. split; [right; reflexivity|]. now exists (q ++ new).
  - apply wpc_cbind. assert (on_packet dbg fuel0 cl now (cur, kk) = c_io (udp_reader_done cur) cl (fun _ => c_ret Continue cl)) as ->
      by (unfold on_packet; destruct Hst as [-> | ->]; reflexivity).
    eapply wpc_done; [exact Hh|]. intros c2 n2 H2. apply wpc_ret. cbn [fst snd]. exact (IH c2 _ fs a nt Hst H2).
Qed.

Lemma at_intro cl' c q fs a : phys (cl_sn cl') c q fs a (net_of c) -> (cl_state cl' <> Init -> a = cl_broadcast cl') ->
  is_at (world_of cl' c q fs) cl' c.
Proof. intros (V & T & _) H. exists q, fs. split; [reflexivity|]. exists a. auto. Qed.

Lemma discover_at fuel1 c q fs a nt : client_ok cl -> phys sn c q fs a nt ->
  wpc (dbg = true) (discover dbg fuel1 cl now) c (fun x c' => exists xid st q' sent,
    x = (Ok tt, put_state (put_xid (put_ip cl unspecified) xid st) Selecting (Some now)) /\
    is_at (discovering k now (mkw cl nt q fs) q' sent xid) (snd x) c').
Proof.
  intros Hc Hp. eapply wpc_mono; [apply (discover_spec dbg fuel1 cl now c q fs a nt Hp Hc)|].
  intros x c' (xid & st & q' & sent & -> & Hp'). exists xid, st, q', sent. split; [reflexivity|].
  destruct Hp' as (V & T & N).
  pose proof (at_intro (put_state (put_xid (put_ip cl unspecified) xid st) Selecting (Some now)) c' q' _ _ (conj V (conj T eq_refl)) (fun _ => eq_refl)) as H.
  cbn [snd]. unfold discovering. cbn [mkw w_net w_server w_times w_names]. rewrite <- N. exact H.
Qed.
Lemma request_at c q fs nt s : client_ok cl -> phys sn c q fs (cl_broadcast cl) nt ->
  wpc (dbg = true) (c_bind (request cl) (fun _ c => c_ret tt (set_state c s))) c (fun x c' => fst x = Err OutOfMemory \/
    exists xid st new, x = (Ok tt, set_state (put_xid cl xid st) s) /\ is_at (extending k s (mkw cl nt q fs) (q ++ new) xid) (snd x) c').
Proof.
  intros Hc Hp. apply wpc_cbind. eapply wpc_mono; [apply (request_spec _ cl c q fs nt Hp Hc)|].
  intros [r cl'] c' (x' & st & new & E & [(E1 & H)|(E1 & H)]); cbn [fst snd] in *; subst r cl'; [left; reflexivity|].
  apply wpc_ret. right. exists x', st, new. split; [reflexivity|]. destruct H as (V & T & N). cbn [snd].
  pose proof (at_intro (set_state (put_xid cl x' st) s) c' _ _ _ (conj V (conj T eq_refl)) (fun _ => eq_refl)) as H.
  unfold extending. cbn [mkw w_net w_server w_times w_names w_ip w_sent]. rewrite <- N. exact H.
Qed.

Lemma bound_due c q fs : client_ok cl -> socket_ok cl c q fs -> cl_state cl = Bound -> cl_state_timeout cl = None ->
  wpc (dbg = true) (process dbg fuel cl now) c (fun x c' => forall d, fst x = Ok d ->
    exists q' w1, due_bound k now (world_of cl c q fs) q' w1 /\ is_at w1 (snd x) c').
Proof.
  intros Hc (a & V & Hb & Ht) Est Hto. assert (cl_state cl <> Init) as Hni by (rewrite Est; discriminate).
  rewrite (Hb Hni) in V. clear a Hb.
  apply (process_open c q fs (cl_broadcast cl) _ (conj V (conj Ht eq_refl)) Hni). intros c1 n1 P1. apply wpc_cbind.
  eapply wpc_mono; [apply (loop_deaf fuel fuel c1 _ fs (cl_broadcast cl) _ (or_intror Est) P1)|].
  intros [r cl'] c2 (E & Hr & q2 & P2). cbn [fst snd] in *. subst cl'.
  destruct Hr as [-> | ->]; [intros d Ed; discriminate Ed|]. apply wpc_cbind.
  assert (world_of cl c q fs = mkw cl (net_of c) q fs) as Ew by reflexivity.
  unfold on_timer, timeout_elapsed_secs. rewrite Hto, Est. unfold u32. set (e := (now - cl_lease_secs cl) mod 4294967296).
  assert (elapsed now (mkw cl (net_of c) q fs) = e) as Ee by reflexivity.
  assert (forall (r : res err unit) cl2 c3 q' w1, due_bound k now (world_of cl c q fs) q' w1 -> is_at w1 cl2 c3 -> fresh now cl2 ->
    wpc (dbg = true) (match next_call cl2 now with None => Panic | Some d => c_ret d cl2 end) c3 (fun x c' => forall d, fst x = Ok d ->
      exists q' w1, due_bound k now (world_of cl c q fs) q' w1 /\ is_at w1 (snd x) c')) as Fin.
  { intros _ cl2 c3 q' w1 H1 H2 F. destruct (next_call_some now cl2 F) as (d & Ed). rewrite Ed. apply wpc_ret. intros d' _. cbn [snd]. eauto. }
  destruct (Z.ltb_spec (cl_lease cl) e) as [H1|H1].
  { eapply wpc_mono; [apply (discover_at fuel c2 _ fs _ _ Hc P2)|].
    intros x c3 (xid & st & q' & sent & -> & Hat). cbn [fst snd] in *. eapply (Fin (Ok tt)); [|exact Hat|apply Z.le_refl].
    apply (DbEnd k now (world_of cl c q fs) q2 xid q' sent). exact H1. }
  destruct (Z.ltb_spec (cl_t2 cl) e) as [H2|H2]; cbn [state_eqb negb andb].
  { eapply wpc_mono; [apply (request_at c2 _ fs _ Rebinding Hc P2)|].
    intros x c3 [E|(xid & st & new & -> & Hat)].
    - destruct x as [r cl2]. cbn [fst snd] in *. subst r. intros d Ed. discriminate Ed.
    - cbn [fst snd] in *. eapply (Fin (Ok tt)); [|exact Hat|exact I].
      apply (DbT2 k now (world_of cl c q fs) (q2 ++ new) xid); assumption. }
  destruct (Z.ltb_spec (cl_t1 cl) e) as [H3|H3]; cbn [state_eqb negb andb].
  { eapply wpc_mono; [apply (request_at c2 _ fs _ Renewing Hc P2)|].
    intros x c3 [E|(xid & st & new & -> & Hat)].
    - destruct x as [r cl2]. cbn [fst snd] in *. subst r. intros d Ed. discriminate Ed.
    - cbn [fst snd] in *. eapply (Fin (Ok tt)); [|exact Hat|exact I].
      apply (DbT1 k now (world_of cl c q fs) (q2 ++ new) xid); assumption. }
  apply wpc_ret. cbn [fst snd]. destruct P2 as (V2 & T2 & N2). eapply (Fin (Ok tt)).
  - apply (DbNone k now (world_of cl c q fs) q2); assumption.
  - pose proof (at_intro cl c2 q2 fs (cl_broadcast cl) (conj V2 (conj T2 eq_refl)) (fun _ => eq_refl)) as H.
    assert (DhcpDue.waiting (world_of cl c q fs) q2 = world_of cl c2 q2 fs) as -> by (unfold world_of at 2; rewrite N2; reflexivity). exact H.
  - unfold fresh. now rewrite Hto.
Qed.

(** *** Init *)
Lemma wpc_and {A} P (p : prog A) c (Q Q' : A -> chip -> Prop) : wpc P p c Q -> wpc P p c Q' -> wpc P p c (fun a c' => Q a c' /\ Q' a c').
Proof. intros H H' sch Hs. specialize (H sch Hs). specialize (H' sch Hs). destruct (run p sch c) as [[[a| |] sch'] c']; auto. Qed.
Lemma ir_common c : wpc (dbg = true) (sn_ir sn) c (fun _ c' => c_common c' = c_common c).
Proof. apply wpc_bindM. apply wpc_wpe, wpe_read. intros evs. cbv zeta. apply wpc_ret. apply (frame_evs 0 c evs). Qed.
Lemma set_ir_common c v : wpc (dbg = true) (set_sn_ir sn v) c (fun _ c' => c_common c' = c_common c).
Proof.
  unfold set_sn_ir. apply wpc_wpe, wpe_write. intros evs. cbv zeta. rewrite sn_block_eq.
  match goal with |- context [chip_wrs _ _ ?x ?y] => destruct (frame_wrs (snz sn) 1 (chip_evs c evs) x y ltac:(pose proof (snz_range sn); lia) ltac:(lia)) as (E & _) end.
  rewrite E. apply (frame_evs 0 c evs).
Qed.
Lemma phycfg_link c q fs a nt : phys sn c q fs a nt ->
  wpc (dbg = true) (p <- phycfgr ;; ret (match PhyCfg_lnk p with LinkUp => true | LinkDown => false end)) c
    (fun r c' => r = Ok (c_common c 0x2E mod 2 =? 1) /\ exists new, phys sn c' (q ++ new) fs a nt).
Proof.
  intros (V & T & N). apply wpc_bindM. apply wpc_bindM. apply wpc_wpe, wpe_read. intros evs. cbv zeta. apply wpc_ret. apply wpc_ret. split.
  - f_equal. unfold byte0, PhyCfg_lnk.
    assert (at_ (chip_rds (chip_evs c evs) COMMON_BLOCK_OFFSET (Reg_addr R_PHYCFGR) 1) 0 = c_common c 0x2E) as ->.
    { destruct (frame_evs 0 c evs) as (<- & _). reflexivity. }
    change PhyCfg_LNK_MASK with (Z.ones 1). rewrite Z.land_ones by lia. change (2 ^ 1) with 2. change (Z.ones 1) with 1.
    now destruct (Z.eqb_spec (c_common c 0x2E mod 2) 1).
  - destruct (uview_env _ _ _ _ _ V (env_evs c evs (snz sn))) as (new & V'). exists new. split; [exact V'|].
    split; [now rewrite (tx_size_env _ _ (env_evs c evs (snz sn)))|]. rewrite (net_frame (snz sn) c); [exact N|apply frame_evs].
Qed.
Lemma init_due c q fs : client_ok cl -> socket_ok cl c q fs -> cl_state cl = Init -> cl_state_timeout cl = None ->
  wpc (dbg = true) (process dbg fuel cl now) c (fun x c' => forall d, fst x = Ok d ->
    (link_up c /\ exists q' sent xid, is_at (discovering k now (world_of cl c q fs) q' sent xid) (snd x) c') \/
    (~ link_up c /\ d = 1 /\ snd x = cl /\ exists new, is_at (DhcpDue.waiting (world_of cl c q fs) (q ++ new)) cl c')).
Proof.
  intros Hc (a & V & Hb & Ht) Est Hto. assert (phys sn c q fs a (net_of c)) as Hp by (split; auto).
  unfold process. apply wpc_io. eapply wpc_mono; [apply (wpc_and _ _ _ _ _ (wpc_ir _ _ _ _ _ _ _ Hp) (ir_common c))|].
  intros r c1 (((v & ->) & n1 & P1) & C1). apply wpc_io.
  eapply wpc_mono with (Q := fun r c' => (r = Ok tt /\ exists new, phys sn c' (q ++ new) fs a (net_of c)) /\ c_common c' = c_common c).
  { destruct (SocketInterrupt_any_raised v).
    - eapply wpc_mono; [apply (wpc_and _ _ _ _ _ (wpc_set_ir _ _ _ _ _ _ _ v P1) (set_ir_common c1 v))|].
      intros r c2 ((-> & n2 & P2) & C2). split; [|congruence]. split; [reflexivity|]. exists (n1 ++ n2). rewrite app_assoc. exact P2.
    - apply wpc_ret. split; [|exact C1]. split; [reflexivity|]. now exists n1. }
  intros r c2 ((-> & n2 & P2) & C2). apply wpc_io. rewrite Est. cbn [state_eqb].
  eapply wpc_mono; [apply (phycfg_link c2 _ fs a _ P2)|]. intros r c3 (-> & n3 & P3). rewrite C2. rewrite <- app_assoc in P3.
  destruct (Z.eqb_spec (c_common c 0x2E mod 2) 1) as [El|El]; cbn [negb].
  - apply wpc_cbind. eapply wpc_mono; [apply (loop_deaf fuel fuel c3 _ fs a _ (or_introl Est) P3)|].
    intros [r cl'] c4 (E & Hr & q4 & P4). cbn [fst snd] in *. subst cl'.
    destruct Hr as [-> | ->]; [intros d Ed; discriminate Ed|]. apply wpc_cbind. unfold on_timer, timeout_elapsed_secs. rewrite Hto, Est.
    eapply wpc_mono; [apply (discover_at fuel c4 _ fs _ _ Hc P4)|].
    intros x c5 (xid & st & q' & sent & -> & Hat). cbn [fst snd] in *.
    match goal with |- wpc _ (match ?n with None => _ | Some _ => _ end) _ _ => destruct n eqn:En end.
    + apply wpc_ret. intros d _. left. split; [exact El|]. exists q', sent, xid. exact Hat.
    + exfalso. unfold next_call, timeout_elapsed_secs in En. cbn [put_state cl_state_timeout] in En.
      destruct (Z.ltb_spec now now); [lia|discriminate].
  - apply wpc_ret. intros d Ed. right. split; [exact El|]. injection Ed as <-. split; [reflexivity|]. split; [reflexivity|].
    exists (n2 ++ n3). destruct P3 as (V3 & T3 & N3).
    pose proof (at_intro cl c3 _ fs a (conj V3 (conj T3 eq_refl)) Hb) as H.
    assert (DhcpDue.waiting (world_of cl c q fs) (q ++ n2 ++ n3) = world_of cl c3 (q ++ n2 ++ n3) fs) as -> by (unfold world_of at 2; rewrite N3; reflexivity). exact H.
Qed.
End Call.

(** *** Nothing is left undone *)
Definition no_return (X : Prop) (x : res err flow * Client) (c : chip) : Prop := forall d, fst x = Ok (Return d) -> X.
Lemma c_return_x dbg (X : Prop) cl now c : fresh now cl -> X -> wpc (dbg = true) (c_return cl now) c (no_return X).
Proof. intros F H. unfold c_return. destruct (next_call_some now cl F) as (d & E). rewrite E. apply wpc_ret. intros d' _. exact H. Qed.
Lemma continue_x dbg (X : Prop) cl c : wpc (dbg = true) (c_ret Continue cl) c (no_return X).
Proof. apply wpc_ret. intros d E. discriminate E. Qed.
Lemma ack_return dbg fuel cl now c cur kk sn g q fs a nt : client_ok cl -> fresh now cl ->
  holds sn c cur g q fs a nt -> cached (d_data g) kk -> has_type (d_data g) (Some Ack) ->
  wpc (dbg = true) (on_ack fuel cl now (cur, kk)) c (no_return (incomplete_ack (d_data g))).
Proof.
  intros Hc Hf Hh Hk Ty.
  assert (bytes_ok (d_data g)) as Bd by (destruct (head_fits sn _ _ _ _ _ (ureading_view _ _ _ _ _ _ _ (proj1 Hh))); assumption).
  unfold on_ack.
  apply (wpc_get _ fuel GSubnet AIp _ sn c cur kk g q fs a nt); auto; [|intros cur' c' new H _ d E; discriminate E].
  intros subnet cur1 k1 c1 n1 H1 K1 A1.
  apply (wpc_get _ fuel GServer AIp _ sn c1 cur1 k1 g (q ++ n1) fs a nt); auto; [|intros cur' c' new H _ d E; discriminate E].
  intros server cur2 k2 c2 n2 H2 K2 A2. remember ((q ++ n1) ++ n2) as q2 eqn:E2; clear E2 H1.
  apply (wpc_get _ fuel GDns AIp _ sn c2 cur2 k2 g q2 fs a nt); auto; [|intros cur' c' new H _ d E; discriminate E].
  intros dns cur3 k3 c3 n3 H3 K3 A3. remember (q2 ++ n3) as q3 eqn:E3; clear E3 H2.
  apply (wpc_get _ fuel GNtp AIp _ sn c3 cur3 k3 g q3 fs a nt); auto; [|intros cur' c' new H _ d E; discriminate E].
  intros ntp cur4 k4 c4 n4 H4 K4 A4. remember (q3 ++ n4) as q4 eqn:E4; clear E4 H3.
  apply (wpc_get _ fuel GLease ATime _ sn c4 cur4 k4 g q4 fs a nt); auto; [|intros cur' c' new H _ d E; discriminate E].
  intros lease cur5 k5 c5 n5 H5 K5 A5. remember (q4 ++ n5) as q5 eqn:E5; clear E5 H4.
  destruct lease as [lease|]; [|apply c_return_x; [exact Hf|split; [exact Ty|left; exact A5]]].
  apply (wpc_get _ fuel GRenewal ATime _ sn c5 cur5 k5 g q5 fs a nt); auto; [|intros cur' c' new H _ d E; discriminate E].
  intros rn cur6 k6 c6 n6 H6 K6 A6. remember (q5 ++ n6) as q6 eqn:E6; clear E6 H5.
  apply (wpc_get _ fuel GRebinding ATime _ sn c6 cur6 k6 g q6 fs a nt); auto; [|intros cur' c' new H _ d E; discriminate E].
  intros rb cur7 k7 c7 n7 H7 K7 A7. remember (q6 ++ n7) as q7 eqn:E7; clear E7 H6. cbv zeta. cbn [fst].
  apply (wpc_done _ sn c7 cur7 g q7 fs a nt); [exact H7|]. intros c8 n8 H8. remember (q7 ++ n8) as q8 eqn:E8; clear E8 H7.
  pose proof (ip_answer _ _ _ Bd A1) as Ok1. pose proof (ip_answer _ _ _ Bd A2) as Ok2.
  match goal with |- wpc _ (install ?x _ _ _ _ _) _ _ => set (cl1 := x) end.
  assert (fresh now cl1) as Hf1 by exact Hf.
  assert (forall c' q' nt', phys sn c' q' fs a nt' -> wpc (dbg = true) (c_io (if state_eqb (cl_state cl1) Requesting then set_sipr (cl_ip cl1) else ret tt) cl1
      (fun _ => c_ret Continue (set_state (put_servers cl1 dns ntp) Bound))) c' (no_return (incomplete_ack (d_data g)))) as Last.
  { intros c' q' nt' P. apply wpc_io. destruct (state_eqb (cl_state cl1) Requesting); [|apply wpc_ret; apply continue_x].
    assert (zlen (cl_ip cl1) = 4) as Li by (destruct Hc as (_ & _ & _ & _ & _ & _ & H & _); exact H).
    eapply wpc_mono; [apply (wpc_set_sipr _ sn c' _ fs a _ _ Li P)|]. intros r c2' (-> & _). apply continue_x. }
  assert (forall c' q' nt', phys sn c' q' fs a nt' -> wpc (dbg = true) (match server with
      | Some g => c_io (set_gar g) cl1 (fun _ => c_io (if state_eqb (cl_state cl1) Requesting then set_sipr (cl_ip cl1) else ret tt) cl1
          (fun _ => c_ret Continue (set_state (put_servers cl1 dns ntp) Bound)))
      | None => if state_eqb (cl_state cl1) Renewing then c_io (if state_eqb (cl_state cl1) Requesting then set_sipr (cl_ip cl1) else ret tt) cl1
          (fun _ => c_ret Continue (set_state (put_servers cl1 dns ntp) Bound)) else c_return cl1 now
      end) c' (no_return (incomplete_ack (d_data g)))) as Gate.
  { intros c' q' nt' P. destruct server as [ga|].
    - apply wpc_io. eapply wpc_mono; [apply (wpc_set_gar _ sn c' _ fs a _ ga (proj1 Ok2) P)|]. intros r c2' (-> & n2' & P2). exact (Last _ _ _ P2).
    - destruct (state_eqb (cl_state cl1) Renewing); [exact (Last _ _ _ P)|]. apply c_return_x; [exact Hf1|]. split; [exact Ty|]. right. right. exact A2. }
  unfold install. cbv zeta. destruct subnet as [m|].
  - apply wpc_io. eapply wpc_mono; [apply (wpc_set_subr _ sn c8 _ fs a _ m (proj1 Ok1) H8)|]. intros r c2' (-> & n2' & P2). exact (Gate _ _ _ P2).
  - destruct (state_eqb (cl_state cl1) Renewing); [exact (Gate _ _ _ H8)|]. apply c_return_x; [exact Hf1|]. split; [exact Ty|]. right. left. exact A1.
Qed.
Lemma packet_return dbg fuel cl now c cur kk g q fs a nt : client_ok cl -> fresh now cl -> (cl_state cl <> Init -> a = cl_broadcast cl) ->
  holds (cl_sn cl) c cur g q fs a nt -> cached (d_data g) kk ->
  wpc (dbg = true) (on_packet dbg fuel cl now (cur, kk)) c (no_return (asking (cl_state cl) /\ incomplete_ack (d_data g))).
Proof.
  intros Hc Hf Hb Hh Hk. set (X := asking (cl_state cl) /\ incomplete_ack (d_data g)).
  assert (forall c' cur' q', holds (cl_sn cl) c' cur' g q' fs a nt ->
    wpc (dbg = true) (c_io (udp_reader_done cur') cl (fun _ => c_ret Continue cl)) c' (no_return X)) as Drop.
  { intros c' cur' q' H. eapply wpc_done; [exact H|]. intros c2 n2 H2. apply continue_x. }
  assert (asking (cl_state cl) -> wpc (dbg = true) (c_pkt (msg_type fuel) (cur, kk) cl (fun mt k =>
      match mt with
      | Some Ack => on_ack fuel cl now k
      | Some Nak => c_io (udp_reader_done (fst k)) cl (fun _ => c_bind (discover dbg fuel cl now) (fun _ c => c_ret Continue c))
      | Some _ => c_io (udp_reader_done (fst k)) cl (fun _ => c_ret Continue cl)
      | None => c_io (udp_reader_done (fst k)) cl (fun _ => c_ret Continue cl)
      end)) c (no_return X)) as Ask.
  { intros Ha. apply (wpc_get _ fuel GMsgType AType _ (cl_sn cl) c cur kk g q fs a nt); auto; [|intros cur' c' new H _ d E; discriminate E].
    intros mt cur1 k1 c1 n1 H1 K1 A1. cbn [fst]. destruct mt as [[]|]; try exact (Drop _ _ _ H1).
    - eapply wpc_mono; [apply (ack_return dbg fuel cl now c1 cur1 k1 (cl_sn cl) g (q ++ n1) fs a nt); auto|].
      intros x c2 H d E. split; [exact Ha|exact (H d E)].
    - eapply wpc_done; [exact H1|]. intros c2 n2 H2. apply wpc_cbind. eapply wpc_mono; [apply (discover_spec dbg fuel cl now c2 _ fs a nt H2 Hc)|].
      intros x c3 (x' & st & q' & sent & -> & _). cbn [fst snd]. apply continue_x. }
  unfold on_packet. destruct (cl_state cl) eqn:Est.
  - exact (Drop _ _ _ Hh).
  - apply (wpc_get _ fuel GYiaddr AAddr _ (cl_sn cl) c cur kk g q fs a nt); auto; [|intros cur' c' new H _ d E; discriminate E].
    intros ip cur1 k1 c1 n1 H1 K1 A1. cbv zeta.
    assert (bytes_ok (d_data g)) as Bd by (destruct (head_fits (cl_sn cl) _ _ _ _ _ (ureading_view _ _ _ _ _ _ _ (proj1 Hh))); assumption).
    destruct (addr_answer _ _ Bd A1) as (I1 & I2).
    apply (wpc_get _ fuel GServer AIp _ (cl_sn cl) c1 cur1 k1 g (q ++ n1) fs a nt); auto; [|intros cur' c' new H _ d E; discriminate E].
    intros server cur2 k2 c2 n2 H2 K2 A2. cbn [fst]. eapply wpc_done; [exact H2|]. intros c3 n3 H3. apply wpc_cbind.
    rewrite (Hb ltac:(discriminate)) in H3.
    eapply wpc_mono; [apply (request_spec _ (put_server (put_ip cl ip) server) c3 _ fs nt H3)|].
    + destruct Hc as (C1 & C2 & C3 & C4 & C5 & C6 & C7 & C8 & _). repeat (split; [assumption|]). exact (ip_answer _ _ _ Bd A2).
    + intros [r cl'] c4 (x' & st & n4 & E4 & [(E5 & H4)|(E5 & H4)]); cbn [fst snd] in *; subst r; [intros d E; discriminate E|apply continue_x].
  - apply Ask. unfold asking. auto.
  - exact (Drop _ _ _ Hh).
  - apply Ask. unfold asking. auto.
  - apply Ask. unfold asking. auto.
Qed.

Section Caught.
Context (k : config) (sn : Sn) (port now : Z) (w0 : world).
Let G := good k sn port now w0.
Definition stopped : Prop := exists l w g q, steps k now w0 l w /\ w_queue w = g :: q /\ asking (w_state w) /\ for_us (d_data g) (w_xid w) /\
  incomplete_ack (d_data g).
Lemma loop_caught dbg fuel0 fuel : forall cl c, G cl c ->
  wpc (dbg = true) (recv_loop dbg fuel0 fuel cl now) c (fun x c' => G (snd x) c' /\ forall d, fst x = Ok (Some d) -> stopped).
Proof.
  induction fuel as [|f IH]; intros cl c Hg; cbn [recv_loop]; [apply wpc_diverge|].
  destruct Hg as (q & fs & a & nt & Hp & Hi). pose proof Hi as ((Hsn & _) & Hc & Hb & Hf & _). apply wpc_io. rewrite Hsn.
  eapply wpc_mono; [apply (recv_spec _ dbg sn (cl_xid cl) c q fs a nt Hp)|].
  intros r c1 (new & [([-> | ->] & H1)|(cur & kk & g & q' & -> & E & Hh & Hk & Hu)]).
  - split; [|intros d Ed; discriminate Ed]. eapply good_intro; [exact H1|]. now apply inv_more.
  - apply wpc_ret. split; [|intros d Ed; discriminate Ed]. eapply good_intro; [exact H1|]. now apply inv_more.
  - assert (inv k sn port now w0 cl nt (g :: q') fs a) as Hi' by (rewrite <- E; now apply inv_more).
    apply wpc_cbind. pose proof Hh as Hh'. rewrite <- Hsn in Hh'. eapply wpc_mono.
    + apply (wpc_and _ _ _ _ _ (on_packet_spec k sn port now w0 dbg fuel0 cl c1 cur kk g q' fs a nt Hh Hk Hi' Hu)
        (packet_return dbg fuel0 cl now c1 cur kk g q' fs a nt Hc Hf Hb Hh' Hk)).
    + intros [[[|d']|e] cl'] c2 ((Gd & X) & R); cbn [fst snd] in *.
      * now apply IH.
      * apply wpc_ret. split; [exact Gd|]. intros d _. destruct (R d' eq_refl) as (R1 & R2).
        destruct Hi' as (_ & _ & _ & _ & l & Hl). exists l, (mkw cl nt (g :: q') fs), g, q'. auto.
      * split; [exact Gd|]. intros d Ed. discriminate Ed.
Qed.
Definition idle (cl : Client) : Prop := forall nt q fs, nothing_due (config_of cl) now (mkw cl nt q fs).
Lemma timer_caught dbg fuel cl c : 0 <= cl_timeout cl -> G cl c ->
  wpc (dbg = true) (on_timer dbg fuel cl now) c (fun x c' => fst x = Ok tt -> idle (snd x)).
Proof.
  intros T0 (q & fs & a & nt & Hp & Hi). pose proof Hi as ((Hsn & _) & Hc & Hb & Hf & _). rewrite <- Hsn in Hp.
  assert (wpc (dbg = true) (discover dbg fuel cl now) c (fun x c' => fst x = Ok tt -> idle (snd x))) as Start.
  { eapply wpc_mono; [apply (discover_spec dbg fuel cl now c q fs a nt Hp Hc)|]. intros x c' (x' & st & q' & sent & -> & _) _ nt' q1 fs1.
    unfold nothing_due. cbn. lia. }
  unfold on_timer, timeout_elapsed_secs. unfold fresh in Hf. destruct (cl_state_timeout cl) as [t|] eqn:Et.
  - destruct (Z.ltb_spec now t); [lia|]. destruct (Z.ltb_spec (cl_timeout cl) (now - t)); [exact Start|].
    apply wpc_ret. intros _ nt' q1 fs1. unfold nothing_due. cbn [mkw w_since snd]. rewrite Et. assumption.
  - assert (cl_state cl <> Init -> cl_t1 cl = cl_t1 cl -> forall s, wpc (dbg = true) (c_bind (request cl) (fun _ c => c_ret tt (set_state c s))) c
        (fun x c' => fst x = Ok tt -> exists x' st, snd x = set_state (put_xid cl x' st) s)) as Ask.
    { intros Hni _ s. rewrite (Hb Hni) in Hp. apply wpc_cbind. eapply wpc_mono; [apply (request_spec _ cl c q fs nt Hp Hc)|].
      intros [r cl'] c' (x' & st & new & -> & [(-> & H)|(-> & H)]); cbn [fst snd]; [intros E; discriminate E|].
      apply wpc_ret. intros _. cbn [snd]. eauto. }
    destruct (cl_state cl) eqn:Es; try exact Start.
    1-2: apply wpc_ret; intros _ nt' q1 fs1; unfold nothing_due, leased; cbn [mkw w_since w_state snd]; rewrite Et, Es;
      (split; [discriminate|]; split; [intros [E|[E|E]]; discriminate E|]; split; [intros [E|E]; discriminate E|intros E; discriminate E]).
    all: cbv zeta; unfold u32; destruct (Z.ltb_spec (cl_lease cl) ((now - cl_lease_secs cl) mod 4294967296)) as [H1|H1]; [exact Start|].
    all: destruct (Z.ltb_spec (cl_t2 cl) ((now - cl_lease_secs cl) mod 4294967296)) as [H2|H2]; cbn [state_eqb negb andb]; rewrite ?andb_false_r, ?andb_true_r.
    all: try (eapply wpc_mono; [apply (Ask ltac:(discriminate) eq_refl Rebinding)|]; intros x c' H E; destruct (H E) as (x' & st & ->); intros nt' q1 fs1;
      unfold nothing_due, leased, elapsed; cbn; split; [discriminate|]; split; [intros _; exact H1|]; split; [intros [E'|E']; discriminate E'|intros E'; discriminate E']).
    all: destruct (Z.ltb_spec (cl_t1 cl) ((now - cl_lease_secs cl) mod 4294967296)) as [H3|H3].
    all: try (eapply wpc_mono; [apply (Ask ltac:(discriminate) eq_refl Renewing)|]; intros x c' H E; destruct (H E) as (x' & st & ->); intros nt' q1 fs1;
      unfold nothing_due, leased, elapsed; cbn; split; [discriminate|]; split; [intros _; exact H1|]; split; [intros _; exact H2|intros E'; discriminate E']).
    all: apply wpc_ret; intros _ nt' q1 fs1; unfold nothing_due, leased, elapsed; cbn [mkw w_since w_state w_times t_1 t_2 t_lease t_start snd]; rewrite Et, Es.
    all: split; [discriminate|]; split; [intros _; exact H1|]; split; [try (intros _; exact H2); intros [E|E]; discriminate E|].
    all: try (intros _; exact H3); intros E; discriminate E.
Qed.
End Caught.

Lemma process_caught dbg fuel cl now c q fs : client_ok cl -> socket_ok cl c q fs -> fresh now cl -> cl_state cl <> Init -> 0 <= cl_timeout cl ->
  let w0 := world_of cl c q fs in
  wpc (dbg = true) (process dbg fuel cl now) c (fun x c' => good (config_of cl) (cl_sn cl) (cl_port cl) now w0 (snd x) c' /\
    forall d, fst x = Ok d -> idle now (snd x) \/ stopped (config_of cl) now w0).
Proof.
  intros Hc (a & V & Hb & Ht) Hf Hni T0 w0.
  apply (process_open dbg fuel cl now c q fs a _ (conj V (conj Ht eq_refl)) Hni). intros c1 n1 P1.
  assert (good (config_of cl) (cl_sn cl) (cl_port cl) now w0 cl c1) as G1.
  { eapply good_intro; [exact P1|]. apply inv_more. split; [split; auto|]. repeat (split; [assumption|]). exists []. constructor. }
  apply wpc_cbind. eapply wpc_mono; [apply (loop_caught _ _ _ _ _ dbg fuel fuel cl c1 G1)|].
  intros [[[d|]|e] cl2] c2 (G2 & X2); cbn [fst snd] in *.
  - apply wpc_ret. split; [exact G2|]. intros d' _. right. exact (X2 d eq_refl).
  - assert (0 <= cl_timeout cl2) as T2.
    { destruct G2 as (? & ? & ? & ? & _ & ((_ & Hcf & _) & _)). assert (cl_timeout cl2 = cl_timeout cl) as -> by (exact (f_equal k_timeout Hcf)). exact T0. }
    apply wpc_cbind. eapply wpc_mono; [apply (wpc_and _ _ _ _ _ (on_timer_spec _ _ _ _ _ dbg fuel cl2 c2 G2) (timer_caught _ _ _ _ _ dbg fuel cl2 c2 T2 G2))|].
    intros [[u|e] cl3] c3 ((G3 & X3) & I3); cbn [fst snd] in *.
    + pose proof G3 as (q3 & fs3 & a3 & nt3 & _ & (_ & _ & _ & F3 & _)). destruct (next_call_some now cl3 F3) as (d & E). rewrite E.
      apply wpc_ret. split; [exact G3|]. intros d' _. left. destruct u. apply I3; reflexivity.
    + split; [exact G3|]. intros d' E. discriminate E.
  - split; [exact G2|]. intros d' E. discriminate E.
Qed.

(** ** What a caller sees *)
Lemma good_went k sn port now w1 cl c : cl_sn cl = sn -> good k sn port now w1 cl c -> went_on k now w1 cl c.
Proof.
  intros <- (q & fs & a & nt & (V & T & <-) & (_ & _ & Hb & _ & l & Hl)). exists l, q, fs. split; [exact Hl|]. exists a. auto.
Qed.
Lemma good_went' k sn port now w1 cl c : good k sn port now w1 cl c -> went_on k now w1 cl c.
Proof. intros G. pose proof G as (q & fs & a & nt & _ & ((Hsn & _) & _)). exact (good_went _ _ _ _ _ _ _ Hsn G). Qed.
Lemma socket_bcast cl c q fs : socket_ok cl c q fs -> cl_state cl <> Init -> phys (cl_sn cl) c q fs (cl_broadcast cl) (net_of c).
Proof. intros (a & V & Hb & Ht) Hn. rewrite (Hb Hn) in V. split; auto. Qed.

Lemma offer_run dbg fuel cl now c g q fs sch r cl' sch' c' ip server :
  client_ok cl -> socket_ok cl c (g :: q) fs -> clock_ok now (world_of cl c (g :: q) fs) -> no_faults sch -> cl_state cl = Selecting ->
  for_us (d_data g) (cl_xid cl) -> answers (d_data g) GYiaddr (Ok (AAddr ip)) -> answers (d_data g) GServer (Ok (AIp server)) ->
  run (process dbg fuel cl now) sch c = (Done (r, cl'), sch', c') ->
  (exists new xid, went_on (config_of cl) now (requested (config_of cl) now (world_of cl c (g :: q) fs) (q ++ new) ip server xid) cl' c') \/
  r = Err OutOfMemory.
Proof.
  intros Hc Hs (C1 & _) Hn Est Hu A1 A2 E. assert (cl_state cl <> Init) as Hni by (rewrite Est; discriminate).
  pose proof (socket_bcast _ _ _ _ Hs Hni) as Hp.
  pose proof (process_must dbg fuel cl now c g q fs (cl_broadcast cl)
    (fun w1 => exists new xid, w1 = requested (config_of cl) now (world_of cl c (g :: q) fs) (q ++ new) ip server xid) True Hp Hni Hu) as H.
  assert (wpc (dbg = true) (process dbg fuel cl now) c (fun x c2 =>
    (exists w1, (exists new xid, w1 = requested (config_of cl) now (world_of cl c (g :: q) fs) (q ++ new) ip server xid) /\
       good (config_of cl) (cl_sn cl) (cl_port cl) now w1 (snd x) c2) \/ (fst x = Err OutOfMemory /\ True))) as H'.
  { apply H. intros c1 cur kk new Hh Hk. eapply wpc_mono; [exact (offer_must dbg fuel cl now c1 cur kk g _ fs _ ip server Hc C1 Est Hh Hk A1 A2)|].
    intros x c2 [(w1 & (n2 & xid & ->) & X2 & X3)|X]; [left|right; exact X]. rewrite <- app_assoc in X2.
    eexists. split; [exists (new ++ n2), xid; reflexivity|]. split; [exact X2|exact X3]. }
  specialize (H' sch Hn). rewrite E in H'. destruct H' as [(w1 & (new & xid & ->) & X)|(X & _)]; [left|right; exact X].
  exists new, xid. exact (good_went' _ _ _ _ _ _ _ X).
Qed.
Lemma ack_run dbg fuel cl now c g q fs sch r cl' sch' c' t subnet server dns ntp :
  client_ok cl -> socket_ok cl c (g :: q) fs -> clock_ok now (world_of cl c (g :: q) fs) -> no_faults sch -> asking (cl_state cl) ->
  for_us (d_data g) (cl_xid cl) -> complete_ack (d_data g) now t subnet server dns ntp ->
  run (process dbg fuel cl now) sch c = (Done (r, cl'), sch', c') ->
  exists new, went_on (config_of cl) now (lease_taken (world_of cl c (g :: q) fs) (q ++ new) t subnet server dns ntp) cl' c'.
Proof.
  intros Hc Hs (C1 & _) Hn Ha Hu Ca E. assert (cl_state cl <> Init) as Hni by (destruct Ha as [H|[H|H]]; rewrite H; discriminate).
  pose proof (socket_bcast _ _ _ _ Hs Hni) as Hp.
  pose proof (process_must dbg fuel cl now c g q fs (cl_broadcast cl)
    (fun w1 => exists new, w1 = lease_taken (world_of cl c (g :: q) fs) (q ++ new) t subnet server dns ntp) False Hp Hni Hu) as H.
  assert (wpc (dbg = true) (process dbg fuel cl now) c (fun x c2 =>
    (exists w1, (exists new, w1 = lease_taken (world_of cl c (g :: q) fs) (q ++ new) t subnet server dns ntp) /\
       good (config_of cl) (cl_sn cl) (cl_port cl) now w1 (snd x) c2) \/ (fst x = Err OutOfMemory /\ False))) as H'.
  { apply H. intros c1 cur kk new Hh Hk. eapply wpc_mono; [exact (ack_must dbg fuel cl now c1 cur kk g _ fs _ t subnet server dns ntp Hc C1 Ha Hh Hk Ca)|].
    intros x c2 [(w1 & (n2 & ->) & X2 & X3)|X]; [left|right; exact X]. rewrite <- app_assoc in X2.
    eexists. split; [exists (new ++ n2); reflexivity|]. split; [exact X2|exact X3]. }
  specialize (H' sch Hn). rewrite E in H'. destruct H' as [(w1 & (new & ->) & X)|(_ & [])].
  exists new. exact (good_went' _ _ _ _ _ _ _ X).
Qed.
(** A lease that starts now lasts until the end of the call. *)
Lemma derated_pos x : 0 <= x -> 0 <= derated x.
Proof. intros H. unfold derated. pose proof (Z.div_le_upper_bound x 8 x ltac:(lia) ltac:(lia)). lia. Qed.
Lemma bound_stays k now w l w' : steps k now w l w' -> w_state w = Bound -> w_since w = None ->
  t_start (w_times w) = now -> 0 <= t_1 (w_times w) -> 0 <= t_2 (w_times w) -> 0 <= t_lease (w_times w) ->
  exists q, w' = DhcpDue.waiting w q.
Proof.
  induction 1 as [w|w w1 l w2 S _ IH]; intros H1 H2 H3 H4 H5 H6; [exists (w_queue w); now destruct w|].
  assert (elapsed now w = 0) as E0 by (unfold elapsed; rewrite H3, Z.sub_diag; reflexivity).
  assert (exists q, w1 = DhcpDue.waiting w q) as (q & ->).
  { destruct S; try (eexists; reflexivity); exfalso; unfold asking in *; rewrite ?H1, ?E0 in *; try discriminate; try lia; try (intuition discriminate).
    match goal with R : restarts _ _ _ |- _ => destruct R as [R1 R2|t R1 R2|R1 R2 R3|g q' R1 R2] end;
      unfold asking in *; rewrite ?H1, ?E0 in *; try congruence; try lia; intuition discriminate. }
  destruct (IH H1 H2 H3 H4 H5 H6) as (q' & ->). exists q'. reflexivity.
Qed.
Lemma ack_bound dbg fuel cl now c g q fs sch r cl' sch' c' t subnet server dns ntp :
  client_ok cl -> socket_ok cl c (g :: q) fs -> clock_ok now (world_of cl c (g :: q) fs) -> no_faults sch -> asking (cl_state cl) ->
  for_us (d_data g) (cl_xid cl) -> complete_ack (d_data g) now t subnet server dns ntp ->
  run (process dbg fuel cl now) sch c = (Done (r, cl'), sch', c') ->
  exists q', is_at (lease_taken (world_of cl c (g :: q) fs) q' t subnet server dns ntp) cl' c'.
Proof.
  intros Hc Hs Hk Hn Ha Hu Ca E. destruct (ack_run _ _ _ _ _ _ _ _ _ _ _ _ _ _ _ _ _ _ Hc Hs Hk Hn Ha Hu Ca E) as (new & l & q' & fs' & Hl & Hs').
  assert (bytes_ok (d_data g)) as Bd by (destruct Hs as (a & V & _); exact (proj1 (head_fits (cl_sn cl) _ _ _ _ _ V))).
  destruct Ca as [_ (lease & t1 & t2 & Al & A1 & A2 & Et) _ _ _ _].
  pose proof (time_answer _ _ _ Bd Al) as O5. pose proof (time_answer _ _ _ Bd A1) as O6. pose proof (time_answer _ _ _ Bd A2) as O7. cbn [time_ok] in O5.
  destruct (bound_stays _ _ _ _ _ Hl) as (q2 & E2); cbn [lease_taken w_times w_state w_since]; rewrite ?Et; try reflexivity; cbn [t_1 t_2 t_lease].
  - apply derated_pos. unfold given. destruct t1; cbn [time_ok] in O6; [lia|apply Z.div_pos; lia].
  - apply derated_pos. unfold given. destruct t2; cbn [time_ok] in O7; [lia|apply Z.div_pos; lia].
  - apply derated_pos. lia.
  - exists q2, q', fs'. split; [rewrite <- Et; exact E2|exact Hs'].
Qed.
Lemma nak_run dbg fuel cl now c g q fs sch r cl' sch' c' :
  client_ok cl -> socket_ok cl c (g :: q) fs -> clock_ok now (world_of cl c (g :: q) fs) -> no_faults sch -> asking (cl_state cl) ->
  for_us (d_data g) (cl_xid cl) -> has_type (d_data g) (Some Nak) ->
  run (process dbg fuel cl now) sch c = (Done (r, cl'), sch', c') ->
  exists q' sent xid, went_on (config_of cl) now (discovering (config_of cl) now (world_of cl c (g :: q) fs) q' sent xid) cl' c'.
Proof.
  intros Hc Hs (C1 & _) Hn Ha Hu Ty E. assert (cl_state cl <> Init) as Hni by (destruct Ha as [H|[H|H]]; rewrite H; discriminate).
  pose proof (socket_bcast _ _ _ _ Hs Hni) as Hp.
  pose proof (process_must dbg fuel cl now c g q fs (cl_broadcast cl)
    (fun w1 => exists q' sent xid, w1 = discovering (config_of cl) now (world_of cl c (g :: q) fs) q' sent xid) False Hp Hni Hu) as H.
  assert (wpc (dbg = true) (process dbg fuel cl now) c (fun x c2 =>
    (exists w1, (exists q' sent xid, w1 = discovering (config_of cl) now (world_of cl c (g :: q) fs) q' sent xid) /\
       good (config_of cl) (cl_sn cl) (cl_port cl) now w1 (snd x) c2) \/ (fst x = Err OutOfMemory /\ False))) as H'.
  { apply H. intros c1 cur kk new Hh Hk. exact (nak_must dbg fuel cl now c1 cur kk g _ fs _ Hc C1 Ha Hh Hk Ty). }
  specialize (H' sch Hn). rewrite E in H'. destruct H' as [(w1 & (q' & sent & xid & ->) & X)|(_ & [])].
  exists q', sent, xid. exact (good_went' _ _ _ _ _ _ _ X).
Qed.
Lemma bound_run dbg fuel cl now c q fs sch d cl' sch' c' :
  client_ok cl -> socket_ok cl c q fs -> no_faults sch -> cl_state cl = Bound -> cl_state_timeout cl = None ->
  run (process dbg fuel cl now) sch c = (Done (Ok d, cl'), sch', c') ->
  exists q' w1, due_bound (config_of cl) now (world_of cl c q fs) q' w1 /\ is_at w1 cl' c'.
Proof. intros Hc Hs Hn E1 E2 E. pose proof (bound_due dbg fuel cl now c q fs Hc Hs E1 E2 sch Hn) as H. rewrite E in H. exact (H d eq_refl). Qed.
Lemma init_run dbg fuel cl now c q fs sch d cl' sch' c' :
  client_ok cl -> socket_ok cl c q fs -> no_faults sch -> cl_state cl = Init -> cl_state_timeout cl = None ->
  run (process dbg fuel cl now) sch c = (Done (Ok d, cl'), sch', c') ->
  (link_up c /\ exists q' sent xid, is_at (discovering (config_of cl) now (world_of cl c q fs) q' sent xid) cl' c') \/
  (~ link_up c /\ d = 1 /\ cl' = cl /\ exists new, is_at (DhcpDue.waiting (world_of cl c q fs) (q ++ new)) cl c').
Proof. intros Hc Hs Hn E1 E2 E. pose proof (init_due dbg fuel cl now c q fs Hc Hs E1 E2 sch Hn) as H. rewrite E in H. exact (H d eq_refl). Qed.
Lemma caught_run dbg fuel cl now c q fs sch d cl' sch' c' :
  client_ok cl -> socket_ok cl c q fs -> clock_ok now (world_of cl c q fs) -> no_faults sch -> cl_state cl <> Init -> 0 <= cl_timeout cl ->
  run (process dbg fuel cl now) sch c = (Done (Ok d, cl'), sch', c') ->
  (forall q' fs', nothing_due (config_of cl) now (world_of cl' c' q' fs')) \/
  exists l w g rest, steps (config_of cl) now (world_of cl c q fs) l w /\ w_queue w = g :: rest /\ asking (w_state w) /\
    for_us (d_data g) (w_xid w) /\ incomplete_ack (d_data g).
Proof.
  intros Hc Hs (C1 & _) Hn Hni T0 E. pose proof (process_caught dbg fuel cl now c q fs Hc Hs C1 Hni T0 sch Hn) as H. rewrite E in H.
  destruct H as ((? & ? & ? & ? & _ & ((_ & Hcf & _) & _)) & H). cbn [fst snd] in *. destruct (H d eq_refl) as [X|X]; [left|right; exact X].
  intros q' fs'. rewrite <- Hcf. exact (X (net_of c') q' fs').
Qed.

(** ** The packets of the examples *)
Lemma case_answers op xid items g code : code_of g = Some code -> Forall item_ok items -> 240 <= zlen (case_pkt op xid items) ->
  zdrop 240 (case_pkt op xid items) = area items ++ [255] ->
  answers (case_pkt op xid items) g (Ok (opt_answer g (first_opt code items))).
Proof.
  intros Hg Hi Hl Hd. assert (1 <= code <= 254) as Hc by (destruct g; cbn in Hg; try discriminate; injection Hg as <-; lia).
  destruct (area_finds code items [] Hc Hi) as (tail & F). rewrite <- (area_value g code items [] _ Hg Hi F).
  apply (AnsOption _ g code _ Hg Hl). rewrite Hd. exact F.
Qed.
