(** Consequences of the state machine. *)
From Verif Require Export Proof.DhcpMachineP Spec.DhcpHist.
From Verif Require Import Model.DhcpPkt Model.DhcpClient.

Lemma step_edge k now w w' : step k now w w' -> edge (w_state w) (w_state w').
Proof.
  intros H. destruct H; cbn [w_state]; try constructor.
  - rewrite H. constructor.
  - destruct H as [E|[E|E]]; rewrite E; constructor.
  - rewrite H. constructor.
  - destruct H as [E|E]; rewrite E; constructor.
Qed.
Lemma step_adopts k now a b : step k now a b -> adopts a b -> exists g, acked now a b g.
Proof.
  intros H Ad. unfold adopts in Ad.
  destruct H; cbn [w_state w_net n_gar n_subr n_sipr] in Ad;
    try (exfalso; intuition congruence).
  - exists g. split; [exact H|]. split; [exact H0|]. split; [exact H1|]. split; [exact H2|exact H3].
  - exists g. split; [destruct H as [E|E]; rewrite E; unfold asking; auto|]. split; [exact H0|]. split; [exact H1|]. split; [exact H2|exact H3].
Qed.
Lemma steps_next k now w l w' : steps k now w l w' -> forall a b, next_to a b (w :: l) -> step k now a b.
Proof.
  induction 1 as [w|w w1 l w2 S H IH]; intros a b (l1 & l2 & E).
  - destruct l1 as [|x [|y l1]]; discriminate.
  - destruct l1 as [|x l1]; cbn [app] in E.
    + injection E as -> -> _. exact S.
    + injection E as -> E. apply IH. now exists l1, l2.
Qed.
Lemma derated_mono x y : x <= y -> derated x <= derated y.
Proof. unfold derated. lia. Qed.
Lemma acked_ordered now a b g : bytes_ok (d_data g) -> acked now a b g -> ordered_options (d_data g) -> ordered (w_times b).
Proof.
  intros Bd (_ & _ & _ & _ & (lease & t1 & t2 & A1 & A2 & A3 & E)) (lease' & t1' & t2' & B1 & B2 & B3 & O & L).
  pose proof (answers_fun _ _ _ _ A1 B1) as E1. pose proof (answers_fun _ _ _ _ A2 B2) as E2. pose proof (answers_fun _ _ _ _ A3 B3) as E3.
  injection E1 as <-. injection E2 as <-. injection E3 as <-.
  pose proof (time_answer _ _ _ Bd A1) as O1. cbn [time_ok] in O1.
  rewrite E. unfold ordered. cbn [t_1 t_2 t_lease].
  split; apply derated_mono; destruct t1, t2; cbn [given] in *; try specialize (L eq_refl); lia.
Qed.
Lemma step_clock k now w w' : step k now w w' -> clock_ok now w -> clock_ok now w'.
Proof.
  intros H (C1 & C2). destruct H; split; cbn [w_since w_times]; auto; try lia.
  - destruct H3 as (lease & t1 & t2 & _ & _ & _ & ->). cbn [t_start]. lia.
  - destruct H3 as (lease & t1 & t2 & _ & _ & _ & ->). cbn [t_start]. lia.
Qed.
Lemma steps_clock k now w l w' : steps k now w l w' -> clock_ok now w -> clock_ok now w'.
Proof. induction 1; intros C; [exact C|]. apply IHsteps. eapply step_clock; eassumption. Qed.
Lemma clock_later now now' w : now <= now' -> clock_ok now w -> clock_ok now' w.
Proof. intros L (C1 & C2). split; [|lia]. destruct (w_since w); [lia|exact I]. Qed.

Lemma next_call_deadline cl c q fs now d : clock_ok now (world_of cl c q fs) -> next_call cl now = Some d ->
  d = Z.max 0 (deadline (config_of cl) (world_of cl c q fs) - now).
Proof.
  intros (C1 & C2) E. cbn [world_of w_since w_times t_start] in *. unfold next_call, timeout_elapsed_secs in E. unfold deadline.
  cbn [world_of w_since w_times w_state t_start t_1 t_2 t_lease config_of k_timeout].
  destruct (cl_state_timeout cl) as [t|].
  - destruct (Z.ltb_spec now t); [lia|]. injection E as <-. unfold sat_sub. lia.
  - injection E as <-. unfold sat_sub. destruct (cl_state cl); lia.
Qed.

(** ** One call *)
Lemma process_run dbg fuel cl now c q fs sch r cl' sch' c' :
  client_ok cl -> socket_ok cl c q fs -> clock_ok now (world_of cl c q fs) -> no_faults sch ->
  run (process dbg fuel cl now) sch c = (Done (r, cl'), sch', c') ->
  exists l q' fs', steps (config_of cl) now (world_of cl c q fs) l (world_of cl' c' q' fs') /\
    client_ok cl' /\ socket_ok cl' c' q' fs' /\ cl_sn cl' = cl_sn cl /\ config_of cl' = config_of cl /\
    match r with
    | Ok d => next_call cl' now = Some d \/ (cl_state cl = Init /\ cl' = cl /\ d = 1)
    | Err e => e = UnexpectedEof \/ e = OutOfMemory
    end.
Proof.
  intros Hc Hs (C1 & C2) Hn E. pose proof (process_spec dbg fuel cl now c q fs Hc Hs C1 sch Hn) as H. rewrite E in H.
  destruct H as ((q' & fs' & a & nt & (V & T & N) & ((S1 & S2 & S3) & Hc' & Hb & Hf & (l & Hl))) & Hr). cbn [fst snd] in *.
  exists l, q', fs'. split; [subst nt; exact Hl|]. split; [exact Hc'|]. split; [|auto].
  exists a. split; [rewrite S1; exact V|]. split; [exact Hb|]. rewrite S1. exact T.
Qed.
Lemma process_no_panic fuel cl now c q fs : client_ok cl -> socket_ok cl c q fs -> clock_ok now (world_of cl c q fs) ->
  never_panics (process false fuel cl now) c.
Proof.
  intros Hc Hs (C1 & C2) sch Hn E. pose proof (process_spec false fuel cl now c q fs Hc Hs C1 sch Hn) as H.
  destruct (run (process false fuel cl now) sch c) as [[o sch'] c']. cbn [fst] in E. subst o. discriminate H.
Qed.

(** ** Histories *)
Lemma history_app k now w l now1 w1 l2 now2 w2 : history k now w l now1 w1 -> history k now1 w1 l2 now2 w2 -> history k now w (l ++ l2) now2 w2.
Proof. induction 1; intros H2; [exact H2|]. cbn [app]. econstructor; eauto. Qed.
Lemma history_steps k now now1 w l w1 : now <= now1 -> steps k now1 w l w1 -> l = [] \/ history k now w (map (pair now1) l) now1 w1.
Proof.
  intros L H. destruct H as [w|w w1 l w2 S H]; [auto|right]. cbn [map]. apply HStep; [exact L|exact S|].
  clear S L w. induction H as [w|w w1 l w2 S H IH]; cbn [map]; [constructor|]. apply HStep; [lia|exact S|exact IH].
Qed.
Lemma socket_wait cl c c1 q fs : socket_ok cl c q fs -> only_events (c_sock c (sn_raw (cl_sn cl))) (c_sock c1 (sn_raw (cl_sn cl))) ->
  exists new, socket_ok cl c1 (q ++ new) fs.
Proof.
  intros (a & V & Hb & Ht) E. destruct (uview_env _ _ _ _ _ V E) as (new & V'). exists new, a. split; [exact V'|]. split; [exact Hb|].
  rewrite (tx_size_env _ _ E). exact Ht.
Qed.
Lemma steps_nil k now w w' : steps k now w [] w' -> w = w'.
Proof. intros H. inversion H. reflexivity. Qed.
Lemma calls_history dbg now cl c now' cl' c' : calls dbg now cl c now' cl' c' -> forall q fs, client_ok cl -> socket_ok cl c q fs ->
  clock_ok now (world_of cl c q fs) ->
  exists l now1 q' fs', now1 <= now' /\ history (config_of cl) now (world_of cl c q fs) l now1 (world_of cl' c' q' fs') /\
    client_ok cl' /\ socket_ok cl' c' q' fs' /\ config_of cl' = config_of cl /\ clock_ok now' (world_of cl' c' q' fs').
Proof.
  induction 1 as [now cl c|now cl c c1 now2 cl2 c2 E N H IH|now now1 fuel cl c sch r cl1 sch1 c1 now2 cl2 c2 L Hn E H IH]; intros q fs Hc Hs Ck.
  - exists [], now, q, fs. split; [lia|]. split; [constructor|]. auto.
  - destruct (socket_wait _ _ _ _ _ Hs E) as (new & Hs1).
    assert (clock_ok now (world_of cl c1 (q ++ new) fs)) as Ck1 by exact Ck.
    destruct (IH _ _ Hc Hs1 Ck1) as (l & nowx & q' & fs' & L1 & Hh & Hrest).
    exists ((now, world_of cl c1 (q ++ new) fs) :: l), nowx, q', fs'. split; [exact L1|]. split; [|exact Hrest].
    apply HStep; [lia| |exact Hh]. pose proof (SArrive (config_of cl) now (world_of cl c q fs) new) as S.
    unfold world_of in *. rewrite N. exact S.
  - pose proof (clock_later _ _ _ L Ck) as Ck0.
    destruct (process_run dbg fuel cl now1 c q fs sch r cl1 sch1 c1 Hc Hs Ck0 Hn E) as (l1 & q1 & fs1 & S1 & Hc1 & Hs1 & Esn & Ecf & _).
    pose proof (steps_clock _ _ _ _ _ S1 Ck0) as Ck1.
    destruct (IH _ _ Hc1 Hs1 Ck1) as (l & nowx & q' & fs' & L1 & Hh & Hrest). rewrite Ecf in *.
    destruct (history_steps _ now now1 _ _ _ L S1) as [->|Hh1].
    + rewrite <- (steps_nil _ _ _ _ S1) in Hh.
      (* no step was made: the history goes on from the same world at a later time *)
      assert (history (config_of cl) now (world_of cl c q fs) ([(now1, world_of cl c (q ++ []) fs)] ++ l) nowx (world_of cl2 c2 q' fs')) as G.
      { eapply history_app with (now1 := now1) (w1 := world_of cl c (q ++ []) fs).
        - eapply HStep; [exact L| |constructor]. exact (SArrive (config_of cl) now1 (world_of cl c q fs) []).
        - rewrite app_nil_r. exact Hh. }
      eexists _, nowx, q', fs'. split; [exact L1|]. split; [exact G|exact Hrest].
    + eexists _, nowx, q', fs'. split; [exact L1|]. split; [eapply history_app; eassumption|exact Hrest].
Qed.

(** Invariants of histories. *)
Definition hist_inv (k : config) (w0 : world) (l : list (Z * world)) (w : world) : Prop :=
  (w_state w = Selecting \/ w_state w = Requesting -> n_sipr (w_net w) = unspecified) /\
  (w_state w = Requesting -> exists f, w_sent w = f ++ [request_to k (w_xid w) (w_ip w) (w_server w)]) /\
  (leased (w_state w) -> holds_lease k w0 l w).
Lemma next_snoc {A} (a b : A) l x : next_to a b l -> next_to a b (l ++ [x]).
Proof. intros (l1 & l2 & ->). exists l1, (l2 ++ [x]). now rewrite <- app_assoc. Qed.
Lemma next_last {A} (a b : A) l : last l a = a -> l <> [] -> next_to a b (l ++ [b]).
Proof.
  intros E N. destruct (exists_last N) as (l' & x & ->). rewrite last_last in E. subst x. exists l', []. now rewrite <- app_assoc.
Qed.
Lemma inv_step k w0 l w now w' : hist_inv k w0 l w -> last (w0 :: map snd l) w = w -> step k now w w' -> hist_inv k w0 (l ++ [(now, w')]) w'.
Proof.
  intros (I1 & I2 & I3) La S. unfold hist_inv.
  assert (leased (w_state w) -> w_ip w' = w_ip w -> n_sipr (w_net w') = n_sipr (w_net w) -> holds_lease k w0 (l ++ [(now, w')]) w') as Keep.
  { intros L E1 E2. destruct (I3 L) as (J1 & now1 & a & b & g & f & J2 & J3 & J4 & J5 & J6 & J7 & J8). split; [congruence|].
    exists now1, a, b, g, f. split; [rewrite map_app; cbn [map snd app]; rewrite app_comm_cons; now apply next_snoc|].
    repeat (split; [congruence || assumption|]). assumption. }
  assert (next_to w w' (w0 :: map snd (l ++ [(now, w')]))) as Nx.
  { rewrite map_app. cbn [map snd app]. rewrite app_comm_cons. apply next_last; [exact La|discriminate]. }
  destruct S as [w new|w xid q sent Rs|w g q ip server xid E Q U A1 A2|w g q ip server xid E Q U A1 A2|w g q ip E Q U A1 A2
    |w g q t subnet server dns ntp As Q U Ty Tm B1 B2 B3 B4 B5|w g q t subnet server St Q U Ty Tm B1 B2 B3|w g q Q U St
    |w xid E Sc T1 T2|w xid St Sc T1|w xid St Sc T1]; cbn [w_state w_net n_sipr w_sent w_xid w_ip w_server] in *.
  - split; [exact I1|]. split; [exact I2|]. intros L. apply (Keep L); reflexivity.
  - split; [reflexivity|]. split; [discriminate|]. intros [L|[L|L]]; discriminate.
  - split; [intros _; apply I1; auto|]. split; [intros _; eauto|]. intros [L|[L|L]]; discriminate.
  - split; [exact I1|]. split; [rewrite E; discriminate|]. rewrite E. intros [L|[L|L]]; discriminate.
  - split; [exact I1|]. split; [rewrite E; discriminate|]. rewrite E. intros [L|[L|L]]; discriminate.
  - split; [intros [L|L]; discriminate|]. split; [discriminate|]. intros _. destruct As as [E|[E|E]].
    + destruct (I2 E) as (f & F). rewrite E in *. split; [reflexivity|]. cbn [w_ip].
      eexists now, w, _, g, f. split; [exact Nx|]. split; [|split; [exact E|auto 6]].
      split; [left; exact E|]. cbn [w_queue w_times]. auto.
    + apply Keep; [rewrite E; right; left; reflexivity|reflexivity|rewrite E; reflexivity].
    + apply Keep; [rewrite E; right; right; reflexivity|reflexivity|rewrite E; reflexivity].
  - split; [exact I1|]. split; [exact I2|]. intros L. apply (Keep L); reflexivity.
  - split; [exact I1|]. split; [exact I2|]. intros L. apply (Keep L); reflexivity.
  - split; [intros [L|L]; discriminate|]. split; [discriminate|]. intros _. apply Keep; [rewrite E; left; reflexivity|reflexivity|reflexivity].
  - split; [intros [L|L]; discriminate|]. split; [discriminate|]. intros _. apply Keep; [destruct St as [E|E]; rewrite E; [left|right; left]; reflexivity|reflexivity|reflexivity].
  - split; [destruct St as [E|E]; rewrite E; intros [L|L]; discriminate|]. split; [destruct St as [E|E]; rewrite E; discriminate|].
    intros L. apply (Keep L); reflexivity.
Qed.
Lemma history_inv k now w0 l now' w' : history k now w0 l now' w' -> w_state w0 = Init -> hist_inv k w0 l w'.
Proof.
  intros H E0. assert (forall pre w, hist_inv k w0 pre w -> last (w0 :: map snd pre) w = w -> forall now l now' w',
    history k now w l now' w' -> hist_inv k w0 (pre ++ l) w') as G.
  { clear H. intros pre w Hi La now1 l1 now2 w2 H. revert pre Hi La. induction H as [|now1 now2' w w1 l1 now3 w3 L S H IH]; intros pre Hi La.
    - now rewrite app_nil_r.
    - replace (pre ++ (now2', w1) :: l1) with ((pre ++ [(now2', w1)]) ++ l1) by now rewrite <- app_assoc.
      apply IH; [eapply inv_step; eassumption|]. rewrite map_app. cbn [map snd app]. rewrite app_comm_cons. apply last_last. }
  apply (G [] w0) with (now := now) (now' := now'); [|reflexivity|exact H].
  split; [rewrite E0; intros [?|?]; discriminate|]. split; [rewrite E0; discriminate|]. rewrite E0. intros [?|[?|?]]; discriminate.
Qed.
Lemma leased_has cl : has_lease cl = true <-> leased (cl_state cl).
Proof. unfold has_lease, leased. destruct (cl_state cl); split; intros H; try discriminate; auto; destruct H as [H|[H|H]]; discriminate. Qed.
Lemma calls_lease dbg now cl c now' cl' c' q fs : calls dbg now cl c now' cl' c' -> client_ok cl -> socket_ok cl c q fs ->
  clock_ok now (world_of cl c q fs) -> cl_state cl = Init ->
  exists l now1 q' fs', now1 <= now' /\ history (config_of cl) now (world_of cl c q fs) l now1 (world_of cl' c' q' fs') /\
    match leased_ip cl' with
    | Some ip => n_sipr (net_of c') = ip /\ holds_lease (config_of cl) (world_of cl c q fs) l (world_of cl' c' q' fs')
    | None => cl_state cl' <> Init -> n_sipr (net_of c') = unspecified
    end.
Proof.
  intros H Hc Hs Ck E. destruct (calls_history _ _ _ _ _ _ _ H q fs Hc Hs Ck) as (l & now1 & q' & fs' & L & Hh & _ & _ & _ & _).
  exists l, now1, q', fs'. split; [exact L|]. split; [exact Hh|]. destruct (history_inv _ _ _ _ _ _ Hh E) as (I1 & I2 & I3).
  unfold leased_ip. destruct (has_lease cl') eqn:El.
  - pose proof (I3 (proj1 (leased_has cl') El)) as J. split; [apply J|exact J].
  - intros N. apply I1. cbn [world_of w_state]. unfold has_lease in El. destruct (cl_state cl'); try discriminate; auto. contradiction.
Qed.

(** ** The forms in which the properties state it *)
Lemma process_adopts dbg fuel cl now c q fs sch r cl' sch' c' :
  client_ok cl -> socket_ok cl c q fs -> clock_ok now (world_of cl c q fs) -> no_faults sch ->
  run (process dbg fuel cl now) sch c = (Done (r, cl'), sch', c') ->
  exists l q' fs', steps (config_of cl) now (world_of cl c q fs) l (world_of cl' c' q' fs') /\
    forall a b, next_to a b (world_of cl c q fs :: l) -> adopts a b -> exists g, acked now a b g.
Proof.
  intros Hc Hs Ck Hn E. destruct (process_run _ _ _ _ _ _ _ _ _ _ _ _ Hc Hs Ck Hn E) as (l & q' & fs' & S & _).
  exists l, q', fs'. split; [exact S|]. intros a b Nx Ad. exact (step_adopts _ _ _ _ (steps_next _ _ _ _ _ S _ _ Nx) Ad).
Qed.
Lemma classic_state (a b : State) : a = b \/ a <> b.
Proof. destruct a, b; auto; right; discriminate. Qed.
Lemma step_times k now a b : step k now a b -> w_times b = w_times a \/ exists g, acked now a b g.
Proof.
  intros H. destruct H; cbn [w_times]; auto; right; exists g.
  - split; [exact H|]. split; [exact H0|]. split; [exact H1|]. split; [exact H2|exact H3].
  - split; [destruct H as [E|E]; rewrite E; unfold asking; auto|]. split; [exact H0|]. split; [exact H1|]. split; [exact H2|exact H3].
Qed.
Lemma last_state k now w l w' s : steps k now w l w' -> w_state w <> s -> w_state w' = s ->
  exists a b, next_to a b (w :: l) /\ w_state a <> s /\ w_state b = s.
Proof.
  induction 1 as [w|w w1 l w2 S H IH]; intros N E; [contradiction|].
  destruct (classic_state (w_state w1) s) as [E1|E1].
  - exists w, w1. split; [now exists [], l|]. auto.
  - destruct (IH E1 E) as (a & b & (l1 & l2 & El) & Na & Eb). exists a, b. split; [|auto]. exists (w :: l1), l2. cbn [app]. now rewrite El.
Qed.
Lemma process_bound dbg fuel cl now c q fs sch r cl' sch' c' :
  client_ok cl -> socket_ok cl c q fs -> clock_ok now (world_of cl c q fs) -> no_faults sch ->
  run (process dbg fuel cl now) sch c = (Done (r, cl'), sch', c') -> cl_state cl <> Bound -> cl_state cl' = Bound ->
  exists l q' fs' a b g, steps (config_of cl) now (world_of cl c q fs) l (world_of cl' c' q' fs') /\
    next_to a b (world_of cl c q fs :: l) /\ w_state b = Bound /\ acked now a b g.
Proof.
  intros Hc Hs Ck Hn E N B. destruct (process_run _ _ _ _ _ _ _ _ _ _ _ _ Hc Hs Ck Hn E) as (l & q' & fs' & S & _).
  destruct (last_state _ _ _ _ _ Bound S N B) as (a & b & Nx & Na & Eb).
  destruct (step_adopts _ _ _ _ (steps_next _ _ _ _ _ S _ _ Nx)) as (g & Hg); [left; auto|].
  exists l, q', fs', a, b, g. auto.
Qed.
Lemma process_edges dbg fuel cl now c q fs sch r cl' sch' c' :
  client_ok cl -> socket_ok cl c q fs -> clock_ok now (world_of cl c q fs) -> no_faults sch ->
  run (process dbg fuel cl now) sch c = (Done (r, cl'), sch', c') ->
  exists l q' fs', steps (config_of cl) now (world_of cl c q fs) l (world_of cl' c' q' fs') /\
    forall a b, next_to a b (world_of cl c q fs :: l) -> edge (w_state a) (w_state b).
Proof.
  intros Hc Hs Ck Hn E. destruct (process_run _ _ _ _ _ _ _ _ _ _ _ _ Hc Hs Ck Hn E) as (l & q' & fs' & S & _).
  exists l, q', fs'. split; [exact S|]. intros a b Nx. exact (step_edge _ _ _ _ (steps_next _ _ _ _ _ S _ _ Nx)).
Qed.
Lemma process_delay dbg fuel cl now c q fs sch d cl' sch' c' :
  client_ok cl -> socket_ok cl c q fs -> clock_ok now (world_of cl c q fs) -> no_faults sch ->
  run (process dbg fuel cl now) sch c = (Done (Ok d, cl'), sch', c') ->
  exists q' fs', socket_ok cl' c' q' fs' /\ clock_ok now (world_of cl' c' q' fs') /\
    (d = Z.max 0 (deadline (config_of cl) (world_of cl' c' q' fs') - now) \/ (cl_state cl' = Init /\ d = 1)).
Proof.
  intros Hc Hs Ck Hn E. destruct (process_run _ _ _ _ _ _ _ _ _ _ _ _ Hc Hs Ck Hn E) as (l & q' & fs' & S & _ & Hs' & _ & K & R).
  pose proof (steps_clock _ _ _ _ _ S Ck) as Ck'. exists q', fs'. split; [exact Hs'|]. split; [exact Ck'|]. destruct R as [R|(R1 & -> & ->)].
  - left. rewrite <- K. now apply next_call_deadline.
  - right. auto.
Qed.
Lemma process_in_time dbg fuel cl now c q fs sch d cl' sch' c' :
  client_ok cl -> socket_ok cl c q fs -> clock_ok now (world_of cl c q fs) -> no_faults sch ->
  run (process dbg fuel cl now) sch c = (Done (Ok d, cl'), sch', c') ->
  exists q' fs', socket_ok cl' c' q' fs' /\
    (cl_state cl' <> Init -> ordered (w_times (world_of cl' c' q' fs')) ->
     forall t, due (config_of cl) (world_of cl' c' q' fs') t -> now + d <= Z.max now t).
Proof.
  intros Hc Hs Ck Hn E. destruct (process_delay _ _ _ _ _ _ _ _ _ _ _ _ Hc Hs Ck Hn E) as (q' & fs' & Hs' & _ & R).
  exists q', fs'. split; [exact Hs'|]. intros N Od t Hd. destruct R as [->|(R & _)]; [|contradiction].
  unfold deadline, ordered in *. destruct Hd as [t E1|E1 E2|E1 E2|E1 E2]; rewrite E1.
  - lia.
  - rewrite E2. lia.
  - destruct E2 as [E2|E2]; rewrite E2; lia.
  - destruct E2 as [E2|[E2|E2]]; rewrite E2; lia.
Qed.
Lemma process_ordered dbg fuel cl now c q fs sch r cl' sch' c' :
  client_ok cl -> socket_ok cl c q fs -> clock_ok now (world_of cl c q fs) -> no_faults sch ->
  run (process dbg fuel cl now) sch c = (Done (r, cl'), sch', c') ->
  exists l q' fs', steps (config_of cl) now (world_of cl c q fs) l (world_of cl' c' q' fs') /\
    forall a b, next_to a b (world_of cl c q fs :: l) -> w_times b = w_times a \/
      exists g, acked now a b g /\ (bytes_ok (d_data g) -> ordered_options (d_data g) -> ordered (w_times b)).
Proof.
  intros Hc Hs Ck Hn E. destruct (process_run _ _ _ _ _ _ _ _ _ _ _ _ Hc Hs Ck Hn E) as (l & q' & fs' & S & _).
  exists l, q', fs'. split; [exact S|]. intros a b Nx. pose proof (steps_next _ _ _ _ _ S _ _ Nx) as St.
  destruct (step_times _ _ _ _ St) as [Et|(g & Hg)]; [auto|]. right. exists g. split; [exact Hg|]. intros B O. exact (acked_ordered _ _ _ _ B Hg O).
Qed.
