(** One call of [process] makes steps of the state machine. *)
From Verif Require Export Proof.DhcpClientP.
From Verif Require Import Model.LlAddr Model.LlBits Model.Ll Model.HlCommon Proof.SprogP Model.DhcpPkt Model.DhcpClient.

Definition mkw (cl : Client) (nt : net) (q : list dgram) (fs : list frame) : world :=
  mkWorld (cl_state cl) (cl_state_timeout cl) (cl_ip cl) (cl_server cl) (cl_xid cl)
    (mkTimes (cl_t1 cl) (cl_t2 cl) (cl_lease cl) (cl_lease_secs cl)) (cl_dns cl, cl_ntp cl) nt q fs.
Lemma steps_app k now w l1 w1 l2 w2 : steps k now w l1 w1 -> steps k now w1 l2 w2 -> steps k now w (l1 ++ l2) w2.
Proof. induction 1; intros H2; [exact H2|]. cbn [app]. econstructor; eauto. Qed.
Lemma steps_snoc k now w l w1 w2 : steps k now w l w1 -> step k now w1 w2 -> steps k now w (l ++ [w2]) w2.
Proof. intros H1 H2. eapply steps_app; [exact H1|]. econstructor; [exact H2|constructor]. Qed.

Section Run.
Context (k : config) (sn : Sn) (port now : Z) (w0 : world).

Definition reach (w : world) : Prop := exists l, steps k now w0 l w.
Lemma reach_step w w' : reach w -> step k now w w' -> reach w'.
Proof. intros (l & H) S. eexists. eapply steps_snoc; eassumption. Qed.
Definition fresh (cl : Client) : Prop := match cl_state_timeout cl with Some t => t <= now | None => True end.
Definition same (cl : Client) : Prop := cl_sn cl = sn /\ config_of cl = k /\ cl_port cl = port.
Definition inv (cl : Client) (nt : net) (q : list dgram) (fs : list frame) (a : addr) : Prop :=
  same cl /\ client_ok cl /\ (cl_state cl <> Init -> a = cl_broadcast cl) /\ fresh cl /\ reach (mkw cl nt q fs).
Definition good (cl : Client) (c : chip) : Prop := exists q fs a nt, phys sn c q fs a nt /\ inv cl nt q fs a.
Lemma inv_more cl nt q fs a new : inv cl nt q fs a -> inv cl nt (q ++ new) fs a.
Proof.
  intros (H1 & H2 & H3 & H4 & H5). split; [exact H1|]. split; [exact H2|]. split; [exact H3|]. split; [exact H4|].
  exact (reach_step _ _ H5 (SArrive k now _ new)).
Qed.
Lemma good_intro cl c q fs a nt : phys sn c q fs a nt -> inv cl nt q fs a -> good cl c.
Proof. intros H1 H2. now exists q, fs, a, nt. Qed.
Lemma next_call_some cl : fresh cl -> exists d, next_call cl now = Some d.
Proof.
  unfold fresh, next_call, timeout_elapsed_secs. destruct (cl_state_timeout cl) as [t|]; [|eauto].
  intros H. destruct (Z.ltb_spec now t); [lia|]. eauto.
Qed.

Definition failure (e : err) : Prop := e = UnexpectedEof \/ e = OutOfMemory.
Definition flow_ok (x : res err flow * Client) (c : chip) : Prop :=
  good (snd x) c /\ match fst x with
                    | Ok Continue => True
                    | Ok (Return d) => next_call (snd x) now = Some d
                    | Err e => failure e
                    end.
Lemma return_ok (P : Prop) cl c : good cl c -> wpc P (c_return cl now) c flow_ok.
Proof.
  intros G. unfold c_return. pose proof G as (q & fs & a & nt & _ & (_ & _ & _ & F & _)).
  destruct (next_call_some cl F) as (d & E). rewrite E. apply wpc_ret. split; [exact G|exact E].
Qed.

(** Starting over. *)
Lemma restart_spec dbg fuel cl c q fs a nt : phys sn c q fs a nt -> same cl -> client_ok cl -> reach (mkw cl nt q fs) -> restarts k now (mkw cl nt q fs) ->
  wpc (dbg = true) (discover dbg fuel cl now) c (fun x c' => fst x = Ok tt /\ good (snd x) c').
Proof.
  intros Hp (Hsn & Hk & Hport) Hc Hr Rs. rewrite <- Hsn in Hp. eapply wpc_mono; [apply (discover_spec dbg fuel cl now c q fs a nt Hp Hc)|].
  intros x c' (x' & st & q' & sent & -> & Hp'). split; [reflexivity|]. cbn [snd]. rewrite Hsn in Hp'. eapply good_intro; [exact Hp'|].
  split; [split; [exact Hsn|split; [exact Hk|exact Hport]]|]. split.
  { destruct Hc as (H1 & H2 & H3 & H4 & H5 & H6 & _ & _ & H9). repeat (split; [assumption|]).
    cbn [put_state put_xid put_ip cl_ip cl_server]. split; [reflexivity|]. split; [|exact H9].
    unfold unspecified, bytes_ok, is_u8. repeat constructor; lia. }
  split; [intros _; reflexivity|]. split; [apply Z.le_refl|]. eapply reach_step; [exact Hr|].
  rewrite <- Hk. exact (SDiscover (config_of cl) now (mkw cl nt q fs) x' q' sent ltac:(rewrite Hk; exact Rs)).
Qed.

(** An acknowledgement. *)
Lemma install_spec dbg c q fs a nt cl0 cl subnet server dns ntp t g : phys sn c q fs a nt -> inv cl0 nt (g :: q) fs a ->
  cl = put_times cl0 (t_1 t) (t_2 t) (t_lease t) now -> t_start t = now ->
  asking (cl_state cl0) -> for_us (d_data g) (cl_xid cl0) -> has_type (d_data g) (Some Ack) -> ack_times (d_data g) now t ->
  answers (d_data g) GSubnet (Ok (AIp subnet)) -> answers (d_data g) GServer (Ok (AIp server)) ->
  answers (d_data g) GDns (Ok (AIp dns)) -> answers (d_data g) GNtp (Ok (AIp ntp)) -> ip_ok subnet -> ip_ok server ->
  wpc (dbg = true) (install cl now subnet server dns ntp) c flow_ok.
Proof.
  intros Hp Hi Ecl Et Ha Hu Hty Htm As Av Ad An Ok1 Ok2. pose proof Hi as (Hs & Hc & Hb & Hf & Hr).
  assert (forall new, reach (mkw cl0 nt (g :: q ++ new) fs)) as Hr'.
  { intros new. exact (reach_step _ _ Hr (SArrive k now _ new)). }
  assert (cl_state cl = cl_state cl0) as Es by (rewrite Ecl; reflexivity).
  assert (same cl /\ client_ok cl) as (Hs1 & Hc1) by (rewrite Ecl; split; [exact Hs|exact Hc]).
  assert (t = mkTimes (cl_t1 cl) (cl_t2 cl) (cl_lease cl) (cl_lease_secs cl)) as Etm by (rewrite Ecl, <- Et; now destruct t).
  assert (forall c' new nt', phys sn c' (q ++ new) fs a nt' ->
    nt' = mkNet (n_gar nt) (match subnet with Some x => x | None => n_subr nt end) (n_sipr nt) ->
    subnet = None \/ server = None -> cl_state cl <> Renewing -> wpc (dbg = true) (c_return cl now) c' flow_ok) as Bare.
  { intros c' new nt' Hp' -> Hsn Hst. apply return_ok. eapply good_intro; [exact Hp'|]. split; [exact Hs1|]. split; [exact Hc1|].
    split; [rewrite Ecl; exact Hb|]. split; [rewrite Ecl; exact Hf|].
    assert (cl_state cl0 = Requesting \/ cl_state cl0 = Rebinding) as Hst' by (rewrite Es in Hst; destruct Ha as [H|[H|H]]; tauto).
    pose proof (reach_step _ _ (Hr' new) (SAckBare k now (mkw cl0 nt (g :: q ++ new) fs) g (q ++ new) t subnet server Hst' eq_refl Hu Hty Htm As Av Hsn)) as R.
    unfold mkw in *. rewrite <- Etm. cbn [w_state w_since w_ip w_server w_xid w_names w_net w_sent] in R. rewrite Ecl. exact R. }
  assert (forall c' new nt', phys sn c' (q ++ new) fs a nt' ->
    nt' = mkNet (match server with Some x => x | None => n_gar nt end) (match subnet with Some x => x | None => n_subr nt end) (n_sipr nt) ->
    (cl_state cl <> Renewing -> subnet <> None /\ server <> None) ->
    wpc (dbg = true) (c_io (if state_eqb (cl_state cl) Requesting then set_sipr (cl_ip cl) else ret tt) cl
      (fun _ => c_ret Continue (set_state (put_servers cl dns ntp) Bound))) c' flow_ok) as Last.
  { intros c' new nt' Hp' -> Hsn. apply wpc_io.
    assert (forall c2 n2, phys sn c2 ((q ++ new) ++ n2) fs a
      (mkNet (match server with Some x => x | None => n_gar nt end) (match subnet with Some x => x | None => n_subr nt end)
             (match cl_state cl0 with Requesting => cl_ip cl0 | _ => n_sipr nt end)) ->
      wpc (dbg = true) (c_ret Continue (set_state (put_servers cl dns ntp) Bound)) c2 flow_ok) as Fin.
    { intros c2 n2 Hp2. apply wpc_ret. split; [|exact I]. cbn [snd]. eapply good_intro; [exact Hp2|].
      split; [exact Hs1|]. split; [exact Hc1|]. split; [intros _; rewrite Ecl; apply Hb; destruct Ha as [H|[H|H]]; rewrite H; discriminate|].
      split; [exact I|]. rewrite <- app_assoc.
      pose proof (reach_step _ _ (Hr' (new ++ n2)) (SAck k now (mkw cl0 nt (g :: q ++ new ++ n2) fs) g (q ++ new ++ n2) t subnet server dns ntp Ha eq_refl Hu Hty Htm As Av Ad An ltac:(intros Hx; apply Hsn; rewrite Es; exact Hx))) as R.
      unfold mkw in *. cbn [set_state put_state put_servers cl_state cl_state_timeout cl_ip cl_server cl_xid cl_t1 cl_t2 cl_lease cl_lease_secs cl_dns cl_ntp].
      rewrite <- Etm. cbn [w_state w_since w_ip w_server w_xid w_names w_net w_sent fst snd] in R. rewrite Ecl. exact R. }
    rewrite Es. destruct (cl_state cl0) eqn:E0; cbn [state_eqb];
      try (apply wpc_ret; apply (Fin c' []); rewrite app_nil_r; exact Hp').
    assert (cl_ip cl = cl_ip cl0) as Ei by (rewrite Ecl; reflexivity). rewrite Ei.
    assert (zlen (cl_ip cl0) = 4) as Li by (destruct Hc as (_ & _ & _ & _ & _ & _ & H & _); exact H).
    eapply wpc_mono; [apply (wpc_set_sipr _ sn c' _ fs a _ _ Li Hp')|]. intros r c2 (-> & n2 & Hp2). apply (Fin c2 n2 Hp2). }
  assert (forall c' new nt', phys sn c' (q ++ new) fs a nt' ->
    nt' = mkNet (n_gar nt) (match subnet with Some x => x | None => n_subr nt end) (n_sipr nt) ->
    (cl_state cl <> Renewing -> subnet <> None) ->
    wpc (dbg = true) (match server with
      | Some g => c_io (set_gar g) cl (fun _ => c_io (if state_eqb (cl_state cl) Requesting then set_sipr (cl_ip cl) else ret tt) cl
          (fun _ => c_ret Continue (set_state (put_servers cl dns ntp) Bound)))
      | None => if state_eqb (cl_state cl) Renewing then c_io (if state_eqb (cl_state cl) Requesting then set_sipr (cl_ip cl) else ret tt) cl
          (fun _ => c_ret Continue (set_state (put_servers cl dns ntp) Bound)) else c_return cl now
      end) c' flow_ok) as Gate.
  { intros c' new nt' Hp' -> Hsn. destruct server as [ga|].
    - apply wpc_io. eapply wpc_mono; [apply (wpc_set_gar _ sn c' _ fs a _ ga (proj1 Ok2) Hp')|].
      intros r c2 (-> & n2 & Hp2). rewrite <- app_assoc in Hp2. eapply (Last c2 (new ++ n2)); [exact Hp2|reflexivity|].
      intros Hx. split; [now apply Hsn|discriminate].
    - destruct (cl_state cl) eqn:E1; cbn [state_eqb]; try (eapply (Bare c' new); [exact Hp'|reflexivity|auto|congruence]).
      eapply (Last c' new); [exact Hp'|reflexivity|congruence]. }
  unfold install. cbv zeta. destruct subnet as [m|].
  - apply wpc_io. eapply wpc_mono; [apply (wpc_set_subr _ sn c _ fs a _ m (proj1 Ok1) Hp)|].
    intros r c2 (-> & n2 & Hp2). eapply (Gate c2 n2); [exact Hp2|reflexivity|discriminate].
  - destruct (state_eqb (cl_state cl) Renewing) eqn:E1.
    + eapply (Gate c []); [rewrite app_nil_r; exact Hp|now destruct nt|]. intros Hx. destruct (cl_state cl); discriminate + contradiction.
    + eapply (Bare c []); [rewrite app_nil_r; exact Hp|now destruct nt|auto|]. intros Hx. rewrite Hx in E1. discriminate.
Qed.
Lemma sat_derated x : 0 <= x -> sat_sub x (x / 8) = derated x.
Proof. intros H. unfold sat_sub, derated. pose proof (Z.div_le_upper_bound x 8 x ltac:(lia) ltac:(lia)). lia. Qed.
Definition time_ok (o : option Z) : Prop := match o with Some x => 0 <= x < 4294967296 | None => True end.
Lemma word_range l : bytes_ok l -> 0 <= word l < 4294967296.
Proof.
  intros H. unfold word, of_be32. pose proof (bytes_at l 0 H). pose proof (bytes_at l 1 H). pose proof (bytes_at l 2 H). pose proof (bytes_at l 3 H).
  unfold is_u8 in *. lia.
Qed.
Lemma time_answer w g o : bytes_ok w -> answers w g (Ok (ATime o)) -> time_ok o.
Proof.
  intros Hw An. inversion An as [E|E|E|g0 code Hg Hs E|g0 code f Hg Hl Hf E]; subst.
  - exfalso. destruct (bytes_at_ w 0 1); discriminate.
  - exfalso. destruct (bytes_at_ w 4 4); discriminate.
  - exfalso. destruct (bytes_at_ w 16 4); discriminate.
  - pose proof (finds_bytes _ _ _ Hf (bytes_ok_zdrop 240 w Hw)) as Hb.
    assert (forall r, exactly 4 f = Ok r -> time_ok (opt_map word r)) as H1.
    { intros r. unfold exactly. destruct f as [| |len rest]; [intros [= <-]; exact I|discriminate|].
      destruct (negb _); [intros [= <-]; exact I|]. destruct (Z.leb_spec 4 (zlen rest)); [|discriminate]. intros E. injection E as <-.
      cbn [opt_map time_ok]. apply word_range, bytes_ok_ztake, Hb. }
    destruct g; cbn [read_found] in H; try discriminate;
      try (destruct (first_addr f); discriminate); try (destruct (exactly 1 f); discriminate);
      destruct (exactly 4 f) eqn:E; cbn [res_map] in H; try discriminate; injection H as <-; apply H1; reflexivity.
Qed.

(** Everything that can be read from the head packet while the queue grows. *)
Lemma on_ack_spec dbg fuel cl c cur kk g q fs a nt : holds sn c cur g q fs a nt -> cached (d_data g) kk -> inv cl nt (g :: q) fs a ->
  asking (cl_state cl) -> for_us (d_data g) (cl_xid cl) -> has_type (d_data g) (Some Ack) ->
  wpc (dbg = true) (on_ack fuel cl now (cur, kk)) c flow_ok.
Proof.
  intros Hh Hk Hi Ha Hu Hty.
  assert (bytes_ok (d_data g)) as Bd by (destruct (head_fits sn _ _ _ _ _ (ureading_view _ _ _ _ _ _ _ (proj1 Hh))); assumption).
  assert (forall cur' c' new, holds sn c' cur' g (q ++ new) fs a nt -> good cl c') as Same.
  { intros cur' c' new H. eapply good_intro; [exact (holds_phys _ _ _ _ _ _ _ _ H)|]. exact (inv_more _ _ _ _ _ new Hi). }
  unfold on_ack.
  apply (wpc_get _ fuel GSubnet AIp _ sn c cur kk g q fs a nt); auto.
  2: { intros cur' c' new H _. split; [exact (Same _ _ _ H)|left; reflexivity]. }
  intros subnet cur1 k1 c1 n1 H1 K1 A1.
  apply (wpc_get _ fuel GServer AIp _ sn c1 cur1 k1 g (q ++ n1) fs a nt); auto.
  2: { intros cur' c' new H _. rewrite <- app_assoc in H. split; [exact (Same _ _ _ H)|left; reflexivity]. }
  intros server cur2 k2 c2 n2 H2 K2 A2. rewrite <- app_assoc in H2.
  apply (wpc_get _ fuel GDns AIp _ sn c2 cur2 k2 g (q ++ n1 ++ n2) fs a nt); auto.
  2: { intros cur' c' new H _. rewrite <- app_assoc in H. split; [exact (Same _ _ _ H)|left; reflexivity]. }
  intros dns cur3 k3 c3 n3 H3 K3 A3. rewrite <- app_assoc in H3. remember ((n1 ++ n2) ++ n3) as m3 eqn:E3; clear E3 H1 H2.
  apply (wpc_get _ fuel GNtp AIp _ sn c3 cur3 k3 g (q ++ m3) fs a nt); auto.
  2: { intros cur' c' new H _. rewrite <- app_assoc in H. split; [exact (Same _ _ _ H)|left; reflexivity]. }
  intros ntp cur4 k4 c4 n4 H4 K4 A4. rewrite <- app_assoc in H4. remember (m3 ++ n4) as m4 eqn:E4; clear E4 H3.
  apply (wpc_get _ fuel GLease ATime _ sn c4 cur4 k4 g (q ++ m4) fs a nt); auto.
  2: { intros cur' c' new H _. rewrite <- app_assoc in H. split; [exact (Same _ _ _ H)|left; reflexivity]. }
  intros lease cur5 k5 c5 n5 H5 K5 A5. rewrite <- app_assoc in H5. remember (m4 ++ n5) as m5 eqn:E5; clear E5 H4.
  pose proof (time_answer _ _ _ Bd A5) as O5.
  destruct lease as [lease|]; [|apply return_ok; exact (Same _ _ _ H5)]. cbn [time_ok] in O5.
  apply (wpc_get _ fuel GRenewal ATime _ sn c5 cur5 k5 g (q ++ m5) fs a nt); auto.
  2: { intros cur' c' new H _. rewrite <- app_assoc in H. split; [exact (Same _ _ _ H)|left; reflexivity]. }
  intros rn cur6 k6 c6 n6 H6 K6 A6. rewrite <- app_assoc in H6. remember (m5 ++ n6) as m6 eqn:E6; clear E6 H5.
  pose proof (time_answer _ _ _ Bd A6) as O6.
  apply (wpc_get _ fuel GRebinding ATime _ sn c6 cur6 k6 g (q ++ m6) fs a nt); auto.
  2: { intros cur' c' new H _. rewrite <- app_assoc in H. split; [exact (Same _ _ _ H)|left; reflexivity]. }
  intros rb cur7 k7 c7 n7 H7 K7 A7. rewrite <- app_assoc in H7. remember (m6 ++ n7) as m7 eqn:E7; clear E7 H6.
  pose proof (time_answer _ _ _ Bd A7) as O7. cbv zeta. cbn [fst].
  apply (wpc_done _ sn c7 cur7 g (q ++ m7) fs a nt); [exact H7|]. intros c8 n8 H8. rewrite <- app_assoc in H8.
  set (t := mkTimes (derated (given rn (lease / 2))) (derated (given rb (Z.min (7 * lease) 4294967295 / 8))) (derated lease) now).
  eapply (install_spec dbg c8 (q ++ m7 ++ n8) fs a nt cl _ subnet server dns ntp t g); auto.
  - exact (inv_more _ _ _ _ _ (m7 ++ n8) Hi).
  - unfold t. cbn [t_1 t_2 t_lease]. unfold sat_mul7. f_equal; apply sat_derated.
    + unfold given; destruct rn; cbn [time_ok] in O6; [lia|apply Z.div_pos; lia].
    + unfold given; destruct rb; cbn [time_ok] in O7; [lia|apply Z.div_pos; lia].
    + lia.
  - exists lease, rn, rb. auto.
  - exact (ip_answer _ _ _ Bd A1).
  - exact (ip_answer _ _ _ Bd A2).
Qed.
Lemma bcast_asking cl nt q fs a : inv cl nt q fs a -> cl_state cl <> Init -> a = cl_broadcast cl.
Proof. intros (_ & _ & H & _). exact H. Qed.
Lemma on_packet_spec dbg fuel cl c cur kk g q fs a nt : holds sn c cur g q fs a nt -> cached (d_data g) kk -> inv cl nt (g :: q) fs a ->
  for_us (d_data g) (cl_xid cl) ->
  wpc (dbg = true) (on_packet dbg fuel cl now (cur, kk)) c flow_ok.
Proof.
  intros Hh Hk Hi Hu. pose proof Hi as (Hs & Hc & Hb & Hf & Hr).
  assert (bytes_ok (d_data g)) as Bd by (destruct (head_fits sn _ _ _ _ _ (ureading_view _ _ _ _ _ _ _ (proj1 Hh))); assumption).
  assert (forall cur' c' new, holds sn c' cur' g (q ++ new) fs a nt -> good cl c') as Same.
  { intros cur' c' new H. eapply good_intro; [exact (holds_phys _ _ _ _ _ _ _ _ H)|]. exact (inv_more _ _ _ _ _ new Hi). }
  assert (forall new, reach (mkw cl nt (g :: q ++ new) fs)) as Hr'.
  { intros new. exact (reach_step _ _ Hr (SArrive k now _ new)). }
  assert (forall c' cur' new, holds sn c' cur' g (q ++ new) fs a nt ->
    cl_state cl = Init \/ cl_state cl = Bound \/ (asking (cl_state cl) /\ exists t, has_type (d_data g) t /\ t <> Some Ack /\ t <> Some Nak) ->
    wpc (dbg = true) (c_io (udp_reader_done cur') cl (fun _ => c_ret Continue cl)) c' flow_ok) as Drop.
  { intros c' cur' new H Hst. eapply wpc_done; [exact H|]. intros c2 n2 H2. rewrite <- app_assoc in H2.
    apply wpc_ret. split; [|exact I]. cbn [snd]. eapply good_intro; [exact H2|]. split; [exact Hs|]. split; [exact Hc|]. split; [exact Hb|]. split; [exact Hf|].
    eapply reach_step; [exact (Hr' (new ++ n2))|]. exact (SIgnore k now (mkw cl nt (g :: q ++ new ++ n2) fs) g (q ++ new ++ n2) eq_refl Hu Hst). }
  assert (asking (cl_state cl) -> wpc (dbg = true) (c_pkt (msg_type fuel) (cur, kk) cl (fun mt k =>
      match mt with
      | Some Ack => on_ack fuel cl now k
      | Some Nak => c_io (udp_reader_done (fst k)) cl (fun _ => c_bind (discover dbg fuel cl now) (fun _ c => c_ret Continue c))
      | Some _ => c_io (udp_reader_done (fst k)) cl (fun _ => c_ret Continue cl)
      | None => c_io (udp_reader_done (fst k)) cl (fun _ => c_ret Continue cl)
      end)) c flow_ok) as Ask.
  { intros Ha. apply (wpc_get _ fuel GMsgType AType _ sn c cur kk g q fs a nt); auto.
    2: { intros cur' c' new H _. split; [exact (Same _ _ _ H)|left; reflexivity]. }
    intros mt cur1 k1 c1 n1 H1 K1 A1. cbn [fst].
    assert (mt <> Some Ack -> mt <> Some Nak -> wpc (dbg = true) (c_io (udp_reader_done cur1) cl (fun _ => c_ret Continue cl)) c1 flow_ok) as Other.
    { intros N1 N2. apply (Drop c1 cur1 n1 H1). right. right. split; [exact Ha|]. exists mt. auto. }
    destruct mt as [[]|]; try (apply Other; discriminate).
    - apply (on_ack_spec dbg fuel cl c1 cur1 k1 g (q ++ n1) fs a nt); auto. exact (inv_more _ _ _ _ _ n1 Hi).
    - eapply wpc_done; [exact H1|]. intros c2 n2 H2. rewrite <- app_assoc in H2. apply wpc_cbind.
      (* the NAK is still the head of the queue when the machine starts over *)
      eapply wpc_mono.
      + apply (discover_spec dbg fuel cl now c2 (q ++ n1 ++ n2) fs a nt); [destruct Hs as (-> & _); exact H2|exact Hc].
      + intros x c3 (x' & st & q' & sent & -> & Hp'). cbn [fst snd]. apply wpc_ret. split; [|exact I]. cbn [snd].
        destruct Hs as (Hsn & Hcf & Hport). rewrite Hsn in Hp'. eapply good_intro; [exact Hp'|].
        split; [split; [exact Hsn|split; [exact Hcf|exact Hport]]|]. split.
        { destruct Hc as (C1 & C2 & C3 & C4 & C5 & C6 & _ & _ & C9). repeat (split; [assumption|]).
          cbn [put_state put_xid put_ip cl_ip cl_server]. split; [reflexivity|]. split; [|exact C9].
          unfold unspecified, bytes_ok, is_u8. repeat constructor; lia. }
        split; [intros _; reflexivity|]. split; [apply Z.le_refl|]. eapply reach_step; [exact (Hr' (n1 ++ n2))|].
        rewrite Hcf. refine (SDiscover k now (mkw cl nt (g :: q ++ n1 ++ n2) fs) x' q' sent _).
        apply (ReNak k now (mkw cl nt (g :: q ++ n1 ++ n2) fs) g (q ++ n1 ++ n2)); auto. }
  unfold on_packet. destruct (cl_state cl) eqn:Est.
  - apply (Drop c cur []); [rewrite app_nil_r; exact Hh|auto].
  - (* Selecting *)
    assert (a = cl_broadcast cl) as -> by (apply Hb; congruence).
    apply (wpc_get _ fuel GYiaddr AAddr _ sn c cur kk g q fs (cl_broadcast cl) nt); auto.
    2: { intros cur' c' new H _. split; [exact (Same _ _ _ H)|left; reflexivity]. }
    intros ip cur1 k1 c1 n1 H1 K1 A1. cbv zeta. destruct (addr_answer _ _ Bd A1) as (I1 & I2).
    assert (client_ok (put_ip cl ip)) as Hc1.
    { destruct Hc as (C1 & C2 & C3 & C4 & C5 & C6 & _ & _ & C9). repeat (split; [assumption|]). exact C9. }
    apply (wpc_get _ fuel GServer AIp _ sn c1 cur1 k1 g (q ++ n1) fs (cl_broadcast cl) nt); auto.
    2: { intros cur' c' new H A2. rewrite <- app_assoc in H. split; [|left; reflexivity]. cbn [snd].
         eapply good_intro; [exact (holds_phys _ _ _ _ _ _ _ _ H)|]. split; [exact Hs|]. split; [exact Hc1|]. split; [intros _; reflexivity|]. split; [exact Hf|].
         eapply reach_step; [exact (Hr' (n1 ++ new))|].
         pose proof (SOfferCut k now (mkw cl nt (g :: q ++ n1 ++ new) fs) g (q ++ n1 ++ new) ip Est eq_refl Hu A1 A2) as S.
         unfold mkw in *. cbn [put_ip cl_state cl_state_timeout cl_ip cl_server cl_xid cl_t1 cl_t2 cl_lease cl_lease_secs cl_dns cl_ntp]. exact S. }
    intros server cur2 k2 c2 n2 H2 K2 A2. rewrite <- app_assoc in H2. cbn [fst].
    eapply wpc_done; [exact H2|]. intros c3 n3 H3. rewrite <- app_assoc in H3. apply wpc_cbind.
    set (cl1 := put_server (put_ip cl ip) server).
    assert (client_ok cl1) as Hc2.
    { destruct Hc1 as (C1 & C2 & C3 & C4 & C5 & C6 & C7 & C8 & _). repeat (split; [assumption|]). exact (ip_answer _ _ _ Bd A2). }
    eapply wpc_mono.
    + apply (request_spec _ cl1 c3 (q ++ (n1 ++ n2) ++ n3) fs nt); [destruct Hs as (Hsn & _); cbn [cl1 put_server put_ip cl_sn cl_broadcast]; rewrite Hsn; exact H3|exact Hc2].
    + intros [r cl'] c4 (x' & st & n4 & E4 & [(E5 & H4)|(E5 & H4)]); cbn [fst snd] in *; subst cl' r.
      * split; [|right; reflexivity]. cbn [snd]. cbn [cl1 put_server put_ip cl_sn cl_broadcast] in H4. destruct Hs as (Hsn & Hcf & Hport). rewrite Hsn in H4.
        eapply good_intro; [exact H4|]. split; [split; [exact Hsn|split; [exact Hcf|exact Hport]]|]. split; [exact Hc2|]. split; [intros _; reflexivity|]. split; [exact Hf|].
        rewrite <- app_assoc. eapply reach_step; [exact (Hr' (((n1 ++ n2) ++ n3) ++ n4))|].
        pose proof (SOfferFull k now (mkw cl nt (g :: q ++ ((n1 ++ n2) ++ n3) ++ n4) fs) g (q ++ ((n1 ++ n2) ++ n3) ++ n4) ip server x' Est eq_refl Hu A1 A2) as S.
        unfold mkw in *. cbn [cl1 put_xid put_server put_ip cl_state cl_state_timeout cl_ip cl_server cl_xid cl_t1 cl_t2 cl_lease cl_lease_secs cl_dns cl_ntp]. exact S.
      * apply wpc_ret. split; [|exact I]. cbn [snd]. cbn [cl1 put_server put_ip cl_sn cl_broadcast cl_ip cl_server] in H4. destruct Hs as (Hsn & Hcf & Hport). rewrite Hsn in H4.
        eapply good_intro; [exact H4|]. split; [split; [exact Hsn|split; [exact Hcf|exact Hport]]|]. split; [exact Hc2|]. split; [intros _; reflexivity|]. split; [apply Z.le_refl|].
        rewrite <- app_assoc. eapply reach_step; [exact (Hr' (((n1 ++ n2) ++ n3) ++ n4))|]. change (config_of cl1) with (config_of cl). rewrite Hcf.
        exact (SOffer k now (mkw cl nt (g :: q ++ ((n1 ++ n2) ++ n3) ++ n4) fs) g (q ++ ((n1 ++ n2) ++ n3) ++ n4) ip server x' Est eq_refl Hu A1 A2).
  - apply Ask. unfold asking. auto.
  - apply (Drop c cur []); [rewrite app_nil_r; exact Hh|auto].
  - apply Ask. unfold asking. auto.
  - apply Ask. unfold asking. auto.
Qed.
Definition loop_ok (x : res err (option Z) * Client) (c : chip) : Prop :=
  good (snd x) c /\ match fst x with
                    | Ok None => True
                    | Ok (Some d) => next_call (snd x) now = Some d
                    | Err e => failure e
                    end.
Lemma recv_loop_spec dbg fuel0 fuel : forall cl c, good cl c -> wpc (dbg = true) (recv_loop dbg fuel0 fuel cl now) c loop_ok.
Proof.
  induction fuel as [|f IH]; intros cl c G; cbn [recv_loop]; [apply wpc_diverge|].
  destruct G as (q & fs & a & nt & Hp & Hi). pose proof Hi as ((Hsn & _) & _). apply wpc_io. rewrite Hsn.
  eapply wpc_mono; [apply (recv_spec _ dbg sn (cl_xid cl) c q fs a nt Hp)|].
  intros r c1 (new & [([-> | ->] & H1)|(cur & kk & d & q' & -> & E & Hh & Hk & Hu)]).
  - split; [|left; reflexivity]. eapply good_intro; [exact H1|]. now apply inv_more.
  - apply wpc_ret. split; [|exact I]. eapply good_intro; [exact H1|]. now apply inv_more.
  - apply wpc_cbind. eapply wpc_mono.
    + apply (on_packet_spec dbg fuel0 cl c1 cur kk d q' fs a nt Hh Hk); [rewrite <- E; now apply inv_more|exact Hu].
    + intros [[[|d']|e] cl'] c2 (G & X); cbn [fst snd] in *.
      * now apply IH.
      * apply wpc_ret. split; [exact G|exact X].
      * split; [exact G|exact X].
Qed.
Definition timer_ok (x : res err unit * Client) (c : chip) : Prop :=
  good (snd x) c /\ match fst x with Ok _ => True | Err e => failure e end.
Lemma timer_request dbg cl c s : good cl c -> cl_state cl = Bound \/ cl_state cl = Renewing -> cl_state_timeout cl = None ->
  let e := (now - cl_lease_secs cl) mod 4294967296 in
  e <= cl_lease cl ->
  (s = Rebinding /\ cl_t2 cl < e \/ s = Renewing /\ cl_state cl = Bound /\ cl_t1 cl < e /\ e <= cl_t2 cl) ->
  wpc (dbg = true) (c_bind (request cl) (fun _ c => c_ret tt (set_state c s))) c timer_ok.
Proof.
  intros (q & fs & a & nt & Hp & Hi) Hst Hto e He Hs. pose proof Hi as ((Hsn & Hcf & Hport) & Hc & Hb & Hf & Hr).
  assert (cl_state cl <> Init) as Hni by (destruct Hst as [->| ->]; discriminate).
  rewrite (Hb Hni), <- Hsn in Hp. apply wpc_cbind. eapply wpc_mono; [apply (request_spec _ cl c q fs nt Hp Hc)|].
  intros [r cl'] c' (x' & st & new & -> & [(-> & H)|(-> & H)]); rewrite Hsn in H; cbn [fst snd].
  - split; [|right; reflexivity]. cbn [snd]. eapply good_intro; [exact H|].
    split; [split; [exact Hsn|split; [exact Hcf|exact Hport]]|]. split; [exact Hc|]. split; [intros _; reflexivity|]. split; [exact Hf|].
    eapply reach_step; [exact (reach_step _ _ Hr (SArrive k now _ new))|].
    refine (SNoRoom k now (mkw cl nt (q ++ new) fs) x' Hst Hto _). unfold elapsed. cbn [mkw w_times t_1 t_2 t_start]. fold e. destruct Hs as [(_ & Hs)|(_ & _ & Hs & _)]; auto.
  - apply wpc_ret. split; [|exact I]. cbn [snd]. eapply good_intro; [exact H|].
    split; [split; [exact Hsn|split; [exact Hcf|exact Hport]]|]. split; [exact Hc|]. split; [intros _; reflexivity|]. split; [exact I|].
    eapply reach_step; [exact (reach_step _ _ Hr (SArrive k now _ new))|]. rewrite Hcf.
    destruct Hs as [(-> & Hs)|(-> & Hs1 & Hs2 & Hs3)].
    + refine (SRebind k now (mkw cl nt (q ++ new) fs) x' Hst Hto _). unfold elapsed. cbn [mkw w_times t_2 t_lease t_start]. fold e. auto.
    + refine (SRenew k now (mkw cl nt (q ++ new) fs) x' Hs1 Hto _ _); unfold elapsed; cbn [mkw w_times t_1 t_2 t_lease t_start]; fold e; auto.
Qed.
Lemma on_timer_spec dbg fuel cl c : good cl c -> wpc (dbg = true) (on_timer dbg fuel cl now) c timer_ok.
Proof.
  intros G. pose proof G as (q & fs & a & nt & Hp & Hi). pose proof Hi as (Hs & Hc & Hb & Hf & Hr).
  assert (restarts k now (mkw cl nt q fs) -> wpc (dbg = true) (discover dbg fuel cl now) c timer_ok) as Start.
  { intros R. eapply wpc_mono; [apply (restart_spec dbg fuel cl c q fs a nt Hp Hs Hc Hr R)|].
    intros [r cl'] c' (E & G'). cbn [fst snd] in *. subst r. split; [exact G'|exact I]. }
  assert (wpc (dbg = true) (c_ret tt cl) c timer_ok) as Stay by (apply wpc_ret; split; [exact G|exact I]).
  unfold on_timer, timeout_elapsed_secs. unfold fresh in Hf. destruct (cl_state_timeout cl) as [t|] eqn:Et.
  - destruct (Z.ltb_spec now t); [lia|]. destruct (Z.ltb_spec (cl_timeout cl) (now - t)); [|exact Stay].
    apply Start. apply (ReTimeout k now (mkw cl nt q fs) t); [exact Et|]. destruct Hs as (_ & <- & _). assumption.
  - assert (cl_state cl <> Init -> cl_state cl <> Selecting -> cl_state cl <> Requesting ->
      wpc (dbg = true) (let elapsed := u32 (now - cl_lease_secs cl) in
          if cl_lease cl <? elapsed then discover dbg fuel cl now
          else if (cl_t2 cl <? elapsed) && negb (state_eqb (cl_state cl) Rebinding) then
            c_bind (request cl) (fun _ c => c_ret tt (set_state c Rebinding))
          else if (cl_t1 cl <? elapsed) && state_eqb (cl_state cl) Bound then
            c_bind (request cl) (fun _ c => c_ret tt (set_state c Renewing))
          else c_ret tt cl) c timer_ok) as Lease.
    { intros N1 N2 N3. cbv zeta. unfold u32. set (e := (now - cl_lease_secs cl) mod 4294967296).
      destruct (Z.ltb_spec (cl_lease cl) e) as [H1|H1].
      - apply Start. apply (ReExpired k now (mkw cl nt q fs)); [exact Et| |exact H1].
        unfold leased. cbn [mkw w_state]. destruct (cl_state cl); tauto.
      - destruct (Z.ltb_spec (cl_t2 cl) e) as [H2|H2]; destruct (cl_state cl) eqn:Es; cbn [state_eqb negb andb]; try contradiction;
          rewrite ?andb_false_r, ?andb_true_r; try exact Stay.
        1-2: apply (timer_request dbg cl c Rebinding G); auto; rewrite Es; auto.
        destruct (Z.ltb_spec (cl_t1 cl) e) as [H3|H3]; [|exact Stay].
        apply (timer_request dbg cl c Renewing G); auto. }
    destruct (cl_state cl) eqn:Es; try (apply Lease; discriminate); try exact Stay.
    apply Start. apply ReInit; [exact Es|exact Et].
Qed.
Definition process_ok (x : res err Z * Client) (c : chip) : Prop :=
  good (snd x) c /\ match fst x with Ok d => next_call (snd x) now = Some d | Err e => failure e end.
End Run.

Lemma wpc_ir P sn c q fs a nt : phys sn c q fs a nt ->
  wpc P (sn_ir sn) c (fun r c' => (exists v, r = Ok v) /\ exists new, phys sn c' (q ++ new) fs a nt).
Proof.
  intros (V & T & N). apply wpc_bindM. apply wpc_wpe, wpe_read. intros evs. cbv zeta. apply wpc_ret. split; [eauto|].
  destruct (uview_env _ _ _ _ _ V (env_evs c evs (snz sn))) as (new & V'). exists new. split; [exact V'|].
  split; [now rewrite (tx_size_env _ _ (env_evs c evs (snz sn)))|]. rewrite (net_frame (snz sn) c); [exact N|apply frame_evs].
Qed.
Lemma wpc_set_ir P sn c q fs a nt v : phys sn c q fs a nt ->
  wpc P (set_sn_ir sn v) c (fun r c' => r = Ok tt /\ exists new, phys sn c' (q ++ new) fs a nt).
Proof.
  intros Hp. eapply wpc_mono; [apply (wpc_phys P _ sn c q fs a nt (fun r s' => r = Ok tt /\ exists new, udp_view s' (q ++ new) fs a))|].
  - unfold set_sn_ir. apply quiet_reg16; vm_compute SnReg_addr; change (zlen [_]) with 1; lia.
  - exact Hp.
  - cbn [wps set_sn_ir write]. exists 1. split; [lia|]. split; [apply sn_block_eq|]. intros s1 E1. split; [reflexivity|].
    destruct (uview_env _ _ _ _ _ (proj1 Hp) E1) as (new & V'). exists new. exact V'.
  - intros r c' ((-> & new & V) & T & N). split; [reflexivity|]. exists new. split; auto.
Qed.
Lemma wpc_phycfg P sn c q fs a nt : phys sn c q fs a nt ->
  wpc P phycfgr c (fun r c' => (exists v, r = Ok v) /\ exists new, phys sn c' (q ++ new) fs a nt).
Proof.
  intros (V & T & N). apply wpc_bindM. apply wpc_wpe, wpe_read. intros evs. cbv zeta. apply wpc_ret. split; [eauto|].
  destruct (uview_env _ _ _ _ _ V (env_evs c evs (snz sn))) as (new & V'). exists new. split; [exact V'|].
  split; [now rewrite (tx_size_env _ _ (env_evs c evs (snz sn)))|]. rewrite (net_frame (snz sn) c); [exact N|apply frame_evs].
Qed.

(** What a caller of [process] observes. *)
Definition process_post (cl0 : Client) (now : Z) (w0 : world) (x : res err Z * Client) (c : chip) : Prop :=
  good (config_of cl0) (cl_sn cl0) (cl_port cl0) now w0 (snd x) c /\
  match fst x with
  | Ok d => next_call (snd x) now = Some d \/ (cl_state cl0 = Init /\ snd x = cl0 /\ d = 1)
  | Err e => failure e
  end.
Lemma process_spec dbg fuel cl now c q fs : client_ok cl -> socket_ok cl c q fs -> fresh now cl ->
  wpc (dbg = true) (process dbg fuel cl now) c (process_post cl now (world_of cl c q fs)).
Proof.
  intros Hc (a & V & Hb & Ht) Hf. unfold process.
  set (G := good (config_of cl) (cl_sn cl) (cl_port cl) now (world_of cl c q fs)).
  assert (phys (cl_sn cl) c q fs a (net_of c)) as Hp by (split; auto).
  assert (forall new, inv (config_of cl) (cl_sn cl) (cl_port cl) now (world_of cl c q fs) cl (net_of c) (q ++ new) fs a) as Hi.
  { intros new. apply inv_more. split; [split; auto|]. split; [exact Hc|]. split; [exact Hb|]. split; [exact Hf|]. exists []. constructor. }
  assert (forall c' new, phys (cl_sn cl) c' (q ++ new) fs a (net_of c) -> G cl c') as Hg.
  { intros c' new H. eapply good_intro; [exact H|apply Hi]. }
  assert (forall c' new, phys (cl_sn cl) c' (q ++ new) fs a (net_of c) -> wpc (dbg = true)
    (c_bind (recv_loop dbg fuel fuel cl now) (fun o c =>
      match o with
      | Some d => c_ret d c
      | None => c_bind (on_timer dbg fuel c now) (fun _ c => match next_call c now with None => Panic | Some d => c_ret d c end)
      end)) c' (process_post cl now (world_of cl c q fs))) as Main.
  { intros c1 n1 H1. apply wpc_cbind. eapply wpc_mono; [apply (recv_loop_spec (config_of cl) (cl_sn cl) (cl_port cl) now (world_of cl c q fs) dbg fuel fuel cl c1 (Hg _ _ H1))|].
    intros [[[d|]|e] cl2] c2 (G2 & X2); cbn [fst snd] in *.
    - apply wpc_ret. split; [exact G2|left; exact X2].
    - apply wpc_cbind. eapply wpc_mono; [apply (on_timer_spec _ _ _ _ _ dbg fuel cl2 c2 G2)|].
      intros [[u|e] cl3] c3 (G3 & X3); cbn [fst snd] in *.
      + pose proof G3 as (q3 & fs3 & a3 & nt3 & _ & (_ & _ & _ & F3 & _)). destruct (next_call_some now cl3 F3) as (d & E). rewrite E.
        apply wpc_ret. split; [exact G3|left; exact E].
      + split; [exact G3|exact X3].
    - split; [exact G2|exact X2]. }
  apply wpc_io. eapply wpc_mono; [apply (wpc_ir _ _ _ _ _ _ _ Hp)|]. intros r c1 ((v & ->) & n1 & H1). apply wpc_io.
  eapply wpc_mono with (Q := fun r c' => r = Ok tt /\ exists new, phys (cl_sn cl) c' (q ++ new) fs a (net_of c)).
  { destruct (SocketInterrupt_any_raised v).
    - eapply wpc_mono; [apply (wpc_set_ir _ _ _ _ _ _ _ v H1)|]. intros r c2 (-> & n2 & H2). split; [reflexivity|].
      exists (n1 ++ n2). now rewrite app_assoc.
    - apply wpc_ret. split; [reflexivity|]. now exists n1. }
  intros r c2 (-> & n2 & H2). apply wpc_io. destruct (state_eqb (cl_state cl) Init) eqn:Es.
  - apply wpc_bindM. eapply wpc_mono; [apply (wpc_phycfg _ _ _ _ _ _ _ H2)|]. intros r c3 ((v3 & ->) & n3 & H3). apply wpc_ret. rewrite <- app_assoc in H3.
    destruct (PhyCfg_lnk v3); cbn [negb]; [|exact (Main c3 _ H3)].
    apply wpc_ret. split; [exact (Hg _ _ H3)|]. right. split; [|split; reflexivity]. destruct (cl_state cl); auto; discriminate.
  - apply wpc_ret. cbn [negb]. exact (Main c2 _ H2).
Qed.
