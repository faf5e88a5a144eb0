(** A datagram of another transaction at the head of the queue; opening the socket. *)
From Verif Require Export Proof.DhcpHistP.
From Verif Require Import Model.LlAddr Model.LlBits Model.Ll Model.HlCommon Model.HlUdp Proof.SprogP Model.DhcpPkt Model.DhcpClient.

(** ** The head of the queue is not for this client *)
Lemma loop_foreign dbg fuel0 fuel cl now c d q fs a nt : phys (cl_sn cl) c (d :: q) fs a nt -> ~ for_us (d_data d) (cl_xid cl) ->
  wpc (dbg = true) (recv_loop dbg fuel0 fuel cl now) c (fun x c' => snd x = cl /\ (fst x = Err UnexpectedEof \/ fst x = Ok None) /\
    exists new, phys (cl_sn cl) c' (d :: q ++ new) fs a nt).
Proof.
  intros Hp Hu. destruct fuel as [|f]; cbn [recv_loop]; [apply wpc_diverge|]. apply wpc_io.
  eapply wpc_mono; [apply (recv_spec _ dbg (cl_sn cl) (cl_xid cl) c _ fs a nt Hp)|].
  intros r c1 (new & [([-> | ->] & H1)|(cur & kk & d' & q' & -> & E & Hh & Hk & Hu')]).
  - split; [reflexivity|]. split; [auto|]. now exists new.
  - apply wpc_ret. split; [reflexivity|]. split; [auto|]. now exists new.
  - exfalso. injection E as <- _. contradiction.
Qed.
(** A call that starts with such a datagram: only the timer is looked at. *)
Lemma process_foreign dbg fuel cl now c d q fs (Q : res err Z * Client -> chip -> Prop) : client_ok cl -> socket_ok cl c (d :: q) fs -> cl_state cl <> Init ->
  ~ for_us (d_data d) (cl_xid cl) ->
  (forall c1 new a, phys (cl_sn cl) c1 (d :: q ++ new) fs a (net_of c) -> (cl_state cl <> Init -> a = cl_broadcast cl) -> Q (Err UnexpectedEof, cl) c1) ->
  (forall c1 new a, phys (cl_sn cl) c1 (d :: q ++ new) fs a (net_of c) -> (cl_state cl <> Init -> a = cl_broadcast cl) ->
    wpc (dbg = true) (c_bind (on_timer dbg fuel cl now) (fun _ c => match next_call c now with None => Panic | Some d => c_ret d c end)) c1 Q) ->
  wpc (dbg = true) (process dbg fuel cl now) c Q.
Proof.
  intros Hc (a & V & Hb & Ht) Hi Hu H1 H2. unfold process. assert (phys (cl_sn cl) c (d :: q) fs a (net_of c)) as Hp by (split; auto).
  apply wpc_io. eapply wpc_mono; [apply (wpc_ir _ _ _ _ _ _ _ Hp)|]. intros r c1 ((v & ->) & n1 & P1). apply wpc_io.
  eapply wpc_mono with (Q := fun r c' => r = Ok tt /\ exists new, phys (cl_sn cl) c' (d :: q ++ new) fs a (net_of c)).
  { destruct (SocketInterrupt_any_raised v).
    - eapply wpc_mono; [apply (wpc_set_ir _ _ _ _ _ _ _ v P1)|]. intros r c2 (-> & n2 & P2). split; [reflexivity|].
      exists (n1 ++ n2). rewrite app_assoc. exact P2.
    - apply wpc_ret. split; [reflexivity|]. now exists n1. }
  intros r c2 (-> & n2 & P2). apply wpc_io. replace (state_eqb (cl_state cl) Init) with false by (destruct (cl_state cl); try reflexivity; contradiction).
  apply wpc_ret. cbn [negb]. apply wpc_cbind. eapply wpc_mono; [apply (loop_foreign dbg fuel fuel cl now c2 d _ fs a _ P2 Hu)|].
  intros [r cl'] c3 (E & Hr & n3 & P3). cbn [fst snd] in *. subst cl'. rewrite <- app_assoc in P3. destruct Hr as [-> | ->].
  - exact (H1 c3 _ a P3 Hb).
  - exact (H2 c3 _ a P3 Hb).
Qed.
Lemma foreign_blocks dbg fuel cl now c d q fs sch r cl' sch' c' : client_ok cl -> socket_ok cl c (d :: q) fs -> cl_state cl <> Init ->
  ~ for_us (d_data d) (cl_xid cl) -> clock_ok now (world_of cl c (d :: q) fs) -> 0 <= cl_lease_secs cl -> now < 4294967296 ->
  ordered (w_times (world_of cl c (d :: q) fs)) -> now <= deadline (config_of cl) (world_of cl c (d :: q) fs) -> no_faults sch ->
  run (process dbg fuel cl now) sch c = (Done (r, cl'), sch', c') ->
  cl' = cl /\ exists new, socket_ok cl c' (d :: q ++ new) fs.
Proof.
  intros Hc Hs Hi Hu (C1 & C2) Z1 Z2 Od Dl Hn E.
  assert (wpc (dbg = true) (process dbg fuel cl now) c (fun x c' => snd x = cl /\ exists new, socket_ok cl c' (d :: q ++ new) fs)) as H.
  { apply (process_foreign dbg fuel cl now c d q fs); auto.
    - intros c1 new a (V & T & _) Hb. split; [reflexivity|]. exists new, a. auto.
    - intros c1 new a (V & T & _) Hb. apply wpc_cbind.
      assert (on_timer dbg fuel cl now = c_ret tt cl) as ->.
      { unfold on_timer, timeout_elapsed_secs. unfold deadline, ordered in *. cbn [world_of w_since w_times w_state t_start t_1 t_2 t_lease config_of k_timeout] in *.
        destruct (cl_state_timeout cl) as [t|].
        - destruct (Z.ltb_spec now t); [lia|]. destruct (Z.ltb_spec (cl_timeout cl) (now - t)); [lia|reflexivity].
        - unfold u32. rewrite (Z.mod_small (now - cl_lease_secs cl)) by lia.
          destruct (cl_state cl); try contradiction; try reflexivity; cbn [state_eqb negb];
            repeat match goal with |- context [?x <? ?y] => destruct (Z.ltb_spec x y); [lia|] end; cbn [andb]; rewrite ?andb_false_r; reflexivity. }
      apply wpc_ret. cbn [fst snd]. destruct (next_call_some now cl C1) as (dd & Ed). rewrite Ed. apply wpc_ret. split; [reflexivity|].
      exists new, a. auto. }
  specialize (H sch Hn). rewrite E in H. exact H.
Qed.
Lemma foreign_restart dbg fuel cl now c d q fs sch x cl' sch' c' t : client_ok cl -> socket_ok cl c (d :: q) fs -> cl_state cl <> Init ->
  ~ for_us (d_data d) (cl_xid cl) -> cl_state_timeout cl = Some t -> t <= now -> cl_timeout cl < now - t -> no_faults sch ->
  run (process dbg fuel cl now) sch c = (Done (Ok x, cl'), sch', c') ->
  cl_state cl' = Selecting /\ cl_state_timeout cl' = Some now /\
  exists q' sent, socket_ok cl' c' q' (sent ++ [discover_to (config_of cl) (cl_xid cl')]).
Proof.
  intros Hc Hs Hi Hu Et Lt To Hn E.
  assert (wpc (dbg = true) (process dbg fuel cl now) c (fun y c' => forall x, fst y = Ok x ->
    cl_state (snd y) = Selecting /\ cl_state_timeout (snd y) = Some now /\
    exists q' sent, socket_ok (snd y) c' q' (sent ++ [discover_to (config_of cl) (cl_xid (snd y))]))) as H.
  { apply (process_foreign dbg fuel cl now c d q fs); auto.
    - intros c1 new a _ _ x0 Ex. discriminate Ex.
    - intros c1 new a P Hb. apply wpc_cbind. unfold on_timer, timeout_elapsed_secs. rewrite Et.
      destruct (Z.ltb_spec now t); [lia|]. destruct (Z.ltb_spec (cl_timeout cl) (now - t)); [|lia].
      eapply wpc_mono; [apply (discover_spec dbg fuel cl now c1 _ fs a _ P Hc)|].
      intros y c2 (x' & st & q' & sent & -> & (V & T & _)). cbn [fst snd].
      match goal with |- wpc _ (match ?n with None => _ | Some _ => _ end) _ _ => destruct n eqn:En end.
      + apply wpc_ret. intros x0 _. cbn [snd]. split; [reflexivity|]. split; [reflexivity|]. exists q', sent, (cl_broadcast cl).
        split; [exact V|]. split; [reflexivity|exact T].
      + exfalso. unfold next_call, timeout_elapsed_secs in En. cbn [put_state cl_state_timeout] in En.
        destruct (Z.ltb_spec now now); [lia|discriminate]. }
  specialize (H sch Hn). rewrite E in H. exact (H x eq_refl).
Qed.

(** ** Opening the socket *)
Lemma size_wrs sn c a d : 0 <= a -> a + zlen d <= 0x1E \/ 0x20 <= a /\ a + zlen d <= 65536 ->
  let c' := chip_wrs c (sn_block sn) a d in
  rx_size (c_sock c' (snz sn)) = rx_size (c_sock c (snz sn)) /\ tx_size (c_sock c' (snz sn)) = tx_size (c_sock c (snz sn)) /\ net_of c' = net_of c.
Proof.
  intros H1 H2. cbv zeta. rewrite sn_block_eq. pose proof (snz_range sn). pose proof (zlen_nonneg d).
  destruct (chip_wrs_sock d c (snz sn) 1 a ltac:(lia) ltac:(lia)) as (E1 & E2 & _). unfold net_of. rewrite E1, E2. unfold rx_size, tx_size.
  rewrite !sock_wrs_reg by lia. auto.
Qed.
Definition sized (sn : Sn) (c0 c : chip) : Prop :=
  rx_size (c_sock c (snz sn)) = rx_size (c_sock c0 (snz sn)) /\ tx_size (c_sock c (snz sn)) = tx_size (c_sock c0 (snz sn)).
Lemma sized_evs sn c0 c evs : sized sn c0 c -> sized sn c0 (chip_evs c evs).
Proof.
  intros [H1 H2]. pose proof (env_evs c evs (snz sn)) as E. destruct (keeps_env _ _ E) as [K _]. unfold sized, rx_size, tx_size in *.
  rewrite !K by lia. auto.
Qed.
Lemma net_simr c v : net_of (chip_wrs c 0 24 [v]) = net_of c.
Proof. reflexivity. Qed.
Lemma setup_run dbg fuel cl c sch sch' c' : client_ok cl -> sizes_ok (c_sock c (sn_raw (cl_sn cl))) -> 1024 <= tx_size (c_sock c (sn_raw (cl_sn cl))) ->
  cl_state cl = Init -> no_faults sch -> run (setup_socket dbg fuel cl) sch c = (Done (Ok tt), sch', c') ->
  (exists q fs, socket_ok cl c' q fs) /\ net_of c' = mkNet (n_gar (net_of c)) (n_subr (net_of c)) (cl_ip cl).
Proof.
  intros Hc (Z1 & Z2) Ht Ei Hn E. set (sn := cl_sn cl) in *.
  assert (wpc (dbg = true) (setup_socket dbg fuel cl) c (fun r c' => r = Ok tt -> (exists q fs, socket_ok cl c' q fs) /\
    net_of c' = mkNet (n_gar (net_of c)) (n_subr (net_of c)) (cl_ip cl))) as H.
  { destruct Hc as (_ & _ & _ & _ & _ & Hport & Li & _). unfold setup_socket. fold sn.
    apply wpc_bindM. unfold simr. apply wpc_bindM, wpc_wpe, wpe_read. intros e1. cbv zeta. apply wpc_ret.
    set (c1 := chip_evs c e1). assert (sized sn c c1) as S1 by (apply sized_evs; split; reflexivity).
    assert (net_of c1 = net_of c) as N1 by (unfold net_of, c1; now rewrite common_evs).
    apply wpc_bindM, wpc_wpe, wpe_write. intros e2. cbv zeta. set (v := Z.lor _ _).
    set (c2 := chip_wrs (chip_evs c1 e2) COMMON_BLOCK_OFFSET (Reg_addr R_SIMR) [v]).
    assert (sized sn c c2) as S2 by (apply (sized_evs sn c c1 e2 S1)).
    assert (net_of c2 = net_of c) as N2.
    { rewrite <- N1. unfold c2. change (Reg_addr R_SIMR) with 24. change COMMON_BLOCK_OFFSET with 0. rewrite net_simr. unfold net_of. now rewrite common_evs. }
    apply wpc_bindM, wpc_wpe, wpe_write. intros e3. cbv zeta. set (c3 := chip_wrs (chip_evs c2 e3) _ _ _).
    destruct (size_wrs sn (chip_evs c2 e3) (SnReg_addr S_IMR) [SocketInterruptMask_unmask_recv SocketInterruptMask_ALL_MASKED]) as (R1 & R2 & R3);
      [change (SnReg_addr S_IMR) with 44; lia|change (SnReg_addr S_IMR) with 44; change (zlen [_]) with 1; lia|]. fold c3 in R1, R2, R3.
    assert (sized sn c c3) as S3 by (destruct (sized_evs sn c c2 e3 S2); split; congruence).
    assert (net_of c3 = net_of c) as N3 by (rewrite R3; unfold net_of in *; rewrite common_evs; exact N2).
    apply wpc_bindM, wpc_wpe. unfold close, set_sn_cr. apply wpe_write. intros e4. cbv zeta. set (c4 := chip_wrs (chip_evs c3 e4) _ _ _).
    destruct (size_wrs sn (chip_evs c3 e4) (SnReg_addr S_CR) [command_raw CClose]) as (R4 & R5 & R6);
      [change (SnReg_addr S_CR) with 1; lia|change (SnReg_addr S_CR) with 1; change (zlen [_]) with 1; lia|]. fold c4 in R4, R5, R6.
    assert (sized sn c c4) as S4 by (destruct (sized_evs sn c c3 e4 S3); split; congruence).
    assert (net_of c4 = net_of c) as N4 by (rewrite R6; unfold net_of in *; rewrite common_evs; exact N3).
    apply wpc_bindM, wpc_wpe, wpe_write. intros e5. cbv zeta. change (Reg_addr R_SIPR0) with 15. change COMMON_BLOCK_OFFSET with 0.
    destruct (cl_ip cl) as [|b0 [|b1 [|b2 [|b3 [|b4 l]]]]] eqn:Eip; try (exfalso; revert Li; unfold zlen; cbn [length]; lia).
    rewrite chip_wrs_low4 by lia. set (c5 := mkChip _ _).
    assert (sized sn c c5) as S5 by (apply (sized_evs sn c c4 e5 S4)).
    assert (net_of c5 = mkNet (n_gar (net_of c)) (n_subr (net_of c)) [b0; b1; b2; b3]) as N5.
    { rewrite <- N4. unfold c5, net_of. cbn [c_common n_gar n_subr]. rewrite common_evs. reflexivity. }
    destruct S5 as (S5 & S6). eapply wpc_mono; [apply (wpc_udp_bind dbg fuel sn (cl_port cl) c5 Hport)|].
    - split; [rewrite S5|rewrite S6]; assumption.
    - intros r c6 (-> & T6 & _ & (q & fs & a & V) & F) _. split; [|rewrite (net_frame _ _ _ F); exact N5].
      exists q, fs, a. split; [exact V|]. split; [intros Hx; contradiction|]. fold sn. change (sn_raw sn) with (snz sn). rewrite T6, S6. exact Ht. }
  specialize (H sch Hn). rewrite E in H. exact (H eq_refl).
Qed.
