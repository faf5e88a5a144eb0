(** Writes to the registers of a socket, commands included. *)
From Verif Require Import Proof.Base Model.Prelude Model.Bus Model.Chip Model.Specifiers Model.LlAddr Model.LlBits
  Model.Regsim Spec.Regsim Proof.DnsNameP Proof.RegsimRegP Proof.RegsimSnP Proof.RegsimEvP.

Ltac scbn := cbn [s_reg s_sr s_pend s_ir s_txmem s_rxmem s_tx_rd s_tx_cmd s_txq s_wire s_rx_base s_rx_wr s_rxlog s_cmdlog
  with_reg with_sr with_pend with_ir with_txmem with_rx with_rx_base with_tx with_cmdlog].

Lemma cmdlog_same sn log s k l : same_socket sn log s k -> same_socket sn log s (with_cmdlog k l).
Proof. intros [H1 H2 H3 H4 H5 H6 H7 H8 H9 H10 H11 H12 H13]. constructor; scbn; assumption. Qed.

(** The registers a command leaves are those it found. *)
Lemma with_pend_none k : s_pend k = None -> with_pend k None = k.
Proof. destruct k; cbn; intros ->; reflexivity. Qed.

Definition cmd_of (k : sock) (v : Z) : list cmdrec :=
  s_cmdlog k ++ [{| cr_cmd := v; cr_sr := s_sr k; cr_mr := s_reg k 0x00; cr_port := of_word (s_reg k) 0x04;
        cr_dip := dest_ip k; cr_dport := dest_port k |}].

(** *** Interrupt flags *)
Lemma cleared_land ir v : 0 <= ir < 32 -> is_u8 v -> cleared ir v = Z.land ir (255 - v) /\ 0 <= cleared ir v < 32.
Proof.
  intros Hi Hv.
  pose proof (zseq_all (fun a => forallb (fun b => (cleared a b =? Z.land a (255 - b)) && (0 <=? cleared a b) && (cleared a b <? 32)) (zseq 0 256)) 32 0
    ltac:(vm_compute; reflexivity) ir ltac:(lia)) as H.
  cbv beta in H. pose proof (zseq_all _ 256 0 H v ltac:(unfold is_u8 in Hv; lia)) as G. cbv beta in G.
  apply andb_true_iff in G. destruct G as [G G3]. apply andb_true_iff in G. destruct G as [G1 G2].
  apply Z.eqb_eq in G1. split; [exact G1|]. lia.
Qed.
Lemma clear_same sn log s k v : same_socket sn log s k -> is_u8 v ->
  same_socket sn log (k_set_ir s (cleared (k_ir s) v)) (with_ir k (Z.land (s_ir k) (255 - v))).
Proof.
  intros [H1 H2 H3 H4 [H5 H5'] H6 H7 H8 H9 H10 H11 H12 H13] Hv. destruct (cleared_land _ _ H5' Hv) as [E B].
  constructor; kcbn; scbn; try assumption.
  - intros a Ha Hd. rewrite H1 by assumption. symmetry. same_bytes.
  - rewrite E, H5 in *. split; [reflexivity|assumption].
Qed.

(** *** Buffer sizes *)
Lemma bufsize_ok v b : bufsize_try_from v = Ok b -> v = bufsize_raw b.
Proof.
  unfold bufsize_try_from. intros H.
  repeat match goal with X : (if ?c then _ else _) = _ |- _ => destruct c eqn:?; [injection X as <-; cbn; lia|] end. discriminate.
Qed.
Lemma rxsize_same sn log s k v b : same_socket sn log s k -> bufsize_try_from v = Ok b ->
  bufsize_in_bytes (k_rxbuf_size s) <= bufsize_in_bytes b ->
  same_socket sn log (k_set_rxbuf_size (k_set_rx_buf s (vec_resize (k_rx_buf s) (bufsize_in_bytes b))) b)
    (with_reg k (upd (s_reg k) 0x1E v)).
Proof.
  intros [H1 H2 H3 H4 H5 H6 H7 (H8 & H8a & H8b & H8c) H9 H10 H11 H12 H13] Eb Hle. apply bufsize_ok in Eb. subst v.
  pose proof (buf_range _ H8).
  constructor; kcbn; scbn; try assumption.
  - intros a Ha Hd. unfold upd. destruct (Z.eqb_spec a 0x1E) as [->|N]; [reflexivity|]. rewrite H1 by assumption.
    unfold socket_byte. destruct (SnReg_try_from a) as [r|] eqn:E; [|reflexivity]. pose proof (snreg_addr _ _ E) as A. subst a.
    destruct r; try reflexivity. elim N. reflexivity.
  - unfold vec_resize. cbn [v_len v_at]. repeat split.
    + intros ->. cbn in Hle. lia.
    + intros i Hi. rewrite H8b by assumption. destruct (i <? _) eqn:E; [reflexivity|]. apply H8c. lia.
    + intros i Hi. replace (i <? _) with false by lia. reflexivity.
Qed.
Lemma txsize_same sn log s k : same_socket sn log s k ->
  same_socket sn log (k_set_txbuf_size (k_set_tx_buf s (vec_resize (k_tx_buf s) (bufsize_in_bytes KB2))) KB2)
    (with_reg k (upd (s_reg k) 0x1F 2)).
Proof.
  intros [H1 H2 H3 H4 H5 H6 (H7 & H7a & H7b & H7c) H8 H9 H10 H11 H12 H13].
  constructor; kcbn; scbn; try assumption.
  - intros a Ha Hd. unfold upd. destruct (Z.eqb_spec a 0x1F) as [->|N]; [reflexivity|]. rewrite H1 by assumption.
    unfold socket_byte. destruct (SnReg_try_from a) as [r|] eqn:E; [|reflexivity]. pose proof (snreg_addr _ _ E) as A. subst a.
    destruct r; try reflexivity. elim N. reflexivity.
  - unfold vec_resize. cbn [v_len v_at]. repeat split; try assumption.
    intros i Hi. rewrite H7c by assumption. rewrite H7b. replace (i <? _) with true; [reflexivity|]. cbn. lia.
Qed.

(** *** OPEN and CLOSE *)
Definition zeroed (s : socket) : socket := k_set_tx_wr (k_set_tx_rd (k_set_rx_rd (k_set_rx_wr s 0) 0) 0) 0.
Lemma zero_same sn log s k : same_socket sn log s k -> k_rx_rsr s = 0 -> same_socket sn log (zeroed s) (reset_ptrs k 0 0).
Proof.
  intros [H1 H2 H3 H4 H5 H6 H7 H8 H9 H10 H11 H12 H13] E. inv_u16 H2. unfold zeroed, reset_ptrs.
  constructor; kcbn; scbn; try assumption.
  - intros a Ha Hd. unfold upd.
    destruct (Z.eqb_spec a 0x29) as [->|]; [reflexivity|]. destruct (Z.eqb_spec a 0x28) as [->|]; [reflexivity|].
    destruct (Z.eqb_spec a 0x25) as [->|]; [reflexivity|]. destruct (Z.eqb_spec a 0x24) as [->|]; [reflexivity|].
    rewrite H1 by assumption.
    unfold socket_byte. destruct (SnReg_try_from a) as [r|] eqn:Er; [|reflexivity]. pose proof (snreg_addr _ _ Er) as A. subst a.
    destruct r; try reflexivity; cbn in *; congruence.
  - unfold u16_ok. repeat (apply Forall_cons; [first [assumption | unfold is_u16 in *; lia]|]). apply Forall_nil.
  - repeat split.
  - rewrite E. repeat split. unfold is_u16. cbn. lia.
Qed.
Lemma open_status_of mr p : SocketMode_protocol mr = Ok p ->
  open_status mr = match p with PClosed => 0 | PTcp => 0x13 | PUdp => 0x22 | PMacraw => 0x42 end.
Proof.
  unfold SocketMode_protocol, protocol_from_raw, open_status. change SocketMode_PROTOCOL_MASK with 0xF. cbv zeta.
  generalize (Z.land mr 0xF). intros z H.
  destruct (z =? 0) eqn:E0; [apply Z.eqb_eq in E0; subst z; now injection H as <-|].
  destruct (z =? 1) eqn:E1; [apply Z.eqb_eq in E1; subst z; now injection H as <-|].
  destruct (z =? 2) eqn:E2; [apply Z.eqb_eq in E2; subst z; now injection H as <-|].
  destruct (z =? 4) eqn:E4; [apply Z.eqb_eq in E4; subst z; now injection H as <-|]. discriminate.
Qed.

Definition step_to (sn : Sn) (m m' : sim) (k : sock) : Prop :=
  same_socket sn (s_net m') (sim_socket m' sn) k /\ only_sn sn m m'.

Lemma open_step sn m c ns ns' m' : same_state m c -> command_alike (sim_socket m sn) ns 0x01 = true ->
  socket_cmd_open m ns sn = (IoOk tt, ns', m') ->
  step_to sn m m' (sock_ev (exec_cmd (c_sock c (sn_raw sn)) 0x01) (EvCommit 0 0)).
Proof.
  intros H Ha E. pose proof (ss_sock _ _ H sn) as Hk. set (s := sim_socket m sn) in *. set (k := c_sock c (sn_raw sn)) in *.
  destruct (chip_words _ _ _ _ Hk) as (_ & _ & _ & _ & _ & _ & Hmr).
  destruct (sm_status _ _ _ _ Hk) as [_ Hp].
  change (command_alike s ns 1) with ((k_rx_rsr s =? 0) && match SocketMode_protocol (k_mr s) with Ok PTcp => true
    | Ok PUdp => match answer_of ns with ARefused | AFail _ => false | _ => true end | _ => false end) in Ha.
  apply andb_true_iff in Ha. destruct Ha as [Hz Ha]. apply Z.eqb_eq in Hz.
  unfold socket_cmd_open in E. fold s in E. cbv zeta in E.
  change (k_mr (k_set_tx_wr (k_set_tx_rd (k_set_rx_rd (k_set_rx_wr s 0) 0) 0) 0)) with (k_mr s) in E.
  change (k_set_tx_wr (k_set_tx_rd (k_set_rx_rd (k_set_rx_wr s 0) 0) 0) 0) with (zeroed s) in E.
  destruct (SocketMode_protocol (k_mr s)) as [[]|] eqn:Em; try discriminate Ha.
  - (* TCP *)
    injection E as <- <-. split.
    2:{ eapply only_trans; [|apply only_sr]. eapply only_trans; [|apply only_put]. apply only_put. }
    match goal with |- same_socket sn ?l _ _ => change l with (s_net m) end. rewrite sr_socket, put_socket.
    unfold exec_cmd. cbn [Z.eqb Pos.eqb]. fold (cmd_of k 1). scbn. rewrite Hmr, (open_status_of _ _ Em).
    cbn [sock_ev]. scbn. cbn [Z.eqb Pos.eqb].
    assert (G : same_socket sn (s_net m) (k_set_client (k_set_inner (k_set_sr (zeroed s) Init) None) (k_client s))
                  (with_sr (reset_ptrs (with_cmdlog k (cmd_of k 1)) 0 0) (status_raw Init))).
    { apply (sr_same sn (s_net m) (zeroed s)); [apply zero_same; [apply cmdlog_same; exact Hk|exact Hz]|].
      unfold inner_ok. kcbn. right. reflexivity. }
    rewrite <- (with_pend_none (reset_ptrs (with_cmdlog k (cmd_of k 1)) 0 0)) in G by exact Hp. exact G.
  - (* UDP *)
    assert (Yes : forall ns1, (IoOk tt, ns1, sim_set_sn_sr (sim_put (sim_log (sim_put m sn (zeroed s)) (NBound sn (g_sipr (s_regs m)) (k_port (zeroed s)))) sn (k_set_inner (zeroed s) (Some TUdp))) sn Udp) = (IoOk tt, ns', m') ->
      step_to sn m m' (sock_ev (exec_cmd k 0x01) (EvCommit 0 0))).
    { intros ns1 E1. injection E1 as _ <-. split.
      2:{ eapply only_trans; [|apply only_sr]; eapply only_trans; [|apply only_put]; eapply only_trans; [|apply only_log; reflexivity]; apply only_put. }
      match goal with |- same_socket sn ?l _ _ => change l with (s_net m ++ [NBound sn (g_sipr (s_regs m)) (k_port s)]) end.
      rewrite sr_socket, put_socket.
      unfold exec_cmd; cbn [Z.eqb Pos.eqb]; fold (cmd_of k 1); scbn; rewrite Hmr, (open_status_of _ _ Em);
        cbn [sock_ev]; scbn; cbn [Z.eqb Pos.eqb].
      assert (G : same_socket sn (s_net m ++ [NBound sn (g_sipr (s_regs m)) (k_port s)])
                  (k_set_client (k_set_inner (k_set_sr (zeroed s) Udp) (Some TUdp)) (k_client s))
                  (with_sr (reset_ptrs (with_cmdlog k (cmd_of k 1)) 0 0) (status_raw Udp)))
        by (apply (sr_same sn _ (zeroed s)); [apply log_same; [apply zero_same; [apply cmdlog_same; exact Hk|exact Hz]|reflexivity|reflexivity]|reflexivity]).
      rewrite <- (with_pend_none (reset_ptrs (with_cmdlog k (cmd_of k 1)) 0 0)) in G by exact Hp; exact G. }
    destruct (answer_of ns) as [| |q|ip port data]; try discriminate Ha; eapply Yes; exact E.
Qed.

Lemma close_step sn m c : same_state m c ->
  step_to sn m (socket_cmd_close m sn) (sock_ev (exec_cmd (c_sock c (sn_raw sn)) 0x10) (EvCommit 0 0)).
Proof.
  intros H. pose proof (ss_sock _ _ H sn) as Hk. set (k := c_sock c (sn_raw sn)) in *.
  destruct (sm_status _ _ _ _ Hk) as [_ Hp].
  split; [|eapply only_trans; [|apply only_sr]; apply only_put].
  unfold socket_cmd_close. rewrite sr_socket, put_socket.
  match goal with |- same_socket sn ?l _ _ => change l with (s_net m) end.
  assert (G : same_socket sn (s_net m) (k_set_client (k_set_inner (k_set_sr (sim_socket m sn) Closed) None) (k_client (sim_socket m sn)))
                  (with_sr (with_cmdlog k (cmd_of k 0x10)) (status_raw Closed))).
  { apply sr_same; [apply cmdlog_same; exact Hk|]. unfold inner_ok. kcbn. left. reflexivity. }
  rewrite <- (with_pend_none (with_cmdlog k (cmd_of k 0x10))) in G by exact Hp. exact G.
Qed.

(** *** CONNECT and LISTEN *)
Lemma init_inner s : inner_ok s -> k_sr s = Init -> k_inner s = None.
Proof.
  unfold inner_ok. destruct (k_inner s) as [[]|]; intros H E; try reflexivity; rewrite E in H; try discriminate H.
  destruct (k_client s); discriminate.
Qed.
Lemma status_eqb_true a b : status_eqb a b = true -> a = b.
Proof. destruct a, b; intros H; reflexivity || discriminate H. Qed.

Lemma connect_step sn m c ns ns' m' : same_state m c -> command_alike (sim_socket m sn) ns 0x04 = true ->
  socket_cmd_connect m ns sn = (IoOk tt, ns', m') ->
  exists l, step_to sn m m' (fold_left sock_ev l (exec_cmd (c_sock c (sn_raw sn)) 0x04)).
Proof.
  intros H Ha E. pose proof (ss_sock _ _ H sn) as Hk. set (s := sim_socket m sn) in *. set (k := c_sock c (sn_raw sn)) in *.
  destruct (sm_status _ _ _ _ Hk) as [Hs Hp]. pose proof (sm_inner _ _ _ _ Hk) as Hi.
  change (command_alike s ns 4) with ((k_rx_rsr s =? 0) && (k_rx_rd s =? k_rx_wr s) && (k_tx_rd s =? k_tx_wr s) &&
    match answer_of ns with AFail _ => false | _ => true end) in Ha.
  repeat (apply andb_true_iff in Ha; destruct Ha as [Ha ?]).
  unfold socket_cmd_connect in E. fold s in E. cbv zeta in E.
  destruct (status_eqb (k_sr s) Init) eqn:Est; cbn [negb] in E; [|discriminate E]. apply status_eqb_true in Est.
  pose proof (init_inner _ Hi Est) as Ein.
  assert (Ex : exec_cmd k 4 = with_sr (with_cmdlog k (cmd_of k 4)) 0x15).
  { unfold exec_cmd. cbn [Z.eqb Pos.eqb]. fold (cmd_of k 4). scbn. rewrite Hs, Est. reflexivity. }
  assert (Hk' := cmdlog_same _ _ _ _ (cmd_of k 4) Hk). set (k4 := with_cmdlog k (cmd_of k 4)) in *.
  assert (Yes : forall ns1, (IoOk tt, ns1, sim_set_sn_sr (raise_sn_ir (sim_put (sim_log m (NConnected sn (fst (k_dest s)) (snd (k_dest s)))) sn (k_set_inner s (Some TStream))) sn SocketInterrupt_CON_MASK) sn Established) = (IoOk tt, ns', m') ->
    exists l, step_to sn m m' (fold_left sock_ev l (exec_cmd k 4))).
  { intros ns1 E1. injection E1 as _ <-. exists [EvConnected (k_tx_wr s) (k_rx_rd s); EvIr SocketInterrupt_CON_MASK]. split.
    2:{ eapply only_trans; [|apply only_sr]. eapply only_trans; [|apply only_ir]. eapply only_trans; [|apply only_put]. apply only_log. reflexivity. }
    rewrite Ex. cbn [fold_left]. rewrite sr_socket, ir_socket, put_socket.
    match goal with |- same_socket sn ?l _ _ => change l with (s_net m ++ [NConnected sn (fst (k_dest s)) (snd (k_dest s))]) end.
    match goal with |- same_socket _ ?l _ (sock_ev ?y _) =>
      assert (G : same_socket sn l (k_set_client (k_set_inner (k_set_sr s Established) (Some TStream)) (k_client s)) y) end.
    { cbn [sock_ev]. scbn. cbn [opening_state Z.eqb Pos.eqb orb].
      change (with_sr (reset_ptrs (with_sr k4 0x15) (k_tx_wr s) (k_rx_rd s)) 0x17) with (with_sr (reset_ptrs k4 (k_tx_wr s) (k_rx_rd s)) (status_raw Established)).
      apply sr_same; [|reflexivity].
      apply ptrs_same; [apply log_same; [exact Hk'|reflexivity|reflexivity]|lia..]. }
    apply (ir_same _ _ _ _ SocketInterrupt_CON_MASK) in G; [exact G|cbv; split; congruence]. }
  destruct (answer_of ns) as [| |q|ip port data]; try discriminate.
  - eapply Yes. exact E.
  - injection E as <- <-. exists [EvSr 0; EvIr SocketInterrupt_DISCON_MASK]. split.
    2:{ eapply only_trans; [|apply only_sr]. apply only_ir. }
    rewrite Ex. cbn [fold_left]. rewrite sr_socket, ir_socket.
    match goal with |- same_socket sn ?l _ _ => change l with (s_net m) end. fold s.
    assert (G : same_socket sn (s_net m) (k_set_client (k_set_inner (k_set_sr s Closed) (k_inner s)) (k_client s)) (with_sr k4 (status_raw Closed))).
    { apply sr_same; [exact Hk'|]. unfold inner_ok. kcbn. rewrite Ein. left. reflexivity. }
    apply (ir_same _ _ _ _ SocketInterrupt_DISCON_MASK) in G; [exact G|cbv; split; congruence].
  - eapply Yes. exact E.
Qed.

Lemma listen_step sn m c ns ns' m' : same_state m c -> command_alike (sim_socket m sn) ns 0x02 = true ->
  socket_cmd_listen m ns sn = (IoOk tt, ns', m') ->
  exists l, step_to sn m m' (fold_left sock_ev l (exec_cmd (c_sock c (sn_raw sn)) 0x02)).
Proof.
  intros H Ha E. pose proof (ss_sock _ _ H sn) as Hk. set (s := sim_socket m sn) in *. set (k := c_sock c (sn_raw sn)) in *.
  destruct (sm_status _ _ _ _ Hk) as [Hs Hp]. pose proof (sm_inner _ _ _ _ Hk) as Hi.
  change (command_alike s ns 2) with (negb (k_client s) && match answer_of ns with AFail _ => false | _ => true end) in Ha.
  apply andb_true_iff in Ha. destruct Ha as [Hc Ha]. apply negb_true_iff in Hc.
  unfold socket_cmd_listen in E. fold s in E. cbv zeta in E.
  destruct (status_eqb (k_sr s) Init) eqn:Est; cbn [negb] in E; [|discriminate E]. apply status_eqb_true in Est.
  pose proof (init_inner _ Hi Est) as Ein.
  assert (Ex : exec_cmd k 2 = with_sr (with_cmdlog k (cmd_of k 2)) 0x14).
  { unfold exec_cmd. cbn [Z.eqb Pos.eqb]. fold (cmd_of k 2). scbn. rewrite Hs, Est. reflexivity. }
  assert (Hk' := cmdlog_same _ _ _ _ (cmd_of k 2) Hk). set (k4 := with_cmdlog k (cmd_of k 2)) in *.
  assert (Yes : forall ns1, (IoOk tt, ns1, sim_set_sn_sr (sim_put (sim_log m (NListening sn (k_port s))) sn (k_set_inner s (Some TListener))) sn Listen) = (IoOk tt, ns', m') ->
    exists l, step_to sn m m' (fold_left sock_ev l (exec_cmd k 2))).
  { intros ns1 E1. injection E1 as _ <-. exists []. split.
    2:{ eapply only_trans; [|apply only_sr]. eapply only_trans; [|apply only_put]. apply only_log. reflexivity. }
    rewrite Ex. cbn [fold_left]. rewrite sr_socket, put_socket.
    match goal with |- same_socket sn ?l _ _ => change l with (s_net m ++ [NListening sn (k_port s)]) end.
    apply (sr_same sn _ s k4 Listen (Some TListener) (k_client s)); [apply log_same; [exact Hk'|reflexivity|reflexivity]|].
    unfold inner_ok. kcbn. rewrite Hc. reflexivity. }
  destruct (answer_of ns) as [| |q|ip port data]; try discriminate.
  - eapply Yes. exact E.
  - injection E as <- <-. exists [EvSr 0; EvIr SocketInterrupt_TIMEOUT_MASK]. split.
    2:{ eapply only_trans; [|apply only_ir]. apply only_sr. }
    rewrite Ex. cbn [fold_left]. rewrite ir_socket, sr_socket.
    match goal with |- same_socket sn ?l _ _ => change l with (s_net m) end. fold s.
    assert (G : same_socket sn (s_net m) (k_set_client (k_set_inner (k_set_sr s Closed) (k_inner s)) (k_client s)) (with_sr k4 (status_raw Closed))).
    { apply sr_same; [exact Hk'|]. unfold inner_ok. kcbn. rewrite Ein. left. reflexivity. }
    apply (ir_same _ _ _ _ SocketInterrupt_TIMEOUT_MASK) in G; [exact G|cbv; split; congruence].
  - eapply Yes. exact E.
Qed.

(** *** SEND and RECV *)
Lemma sent_same sn log s k dest data ip port : same_socket sn log s k -> k_tx_rd s < k_tx_wr s ->
  data = vec_range (k_tx_buf s) (k_tx_rd s) (k_tx_wr s) -> (dest = None \/ dest = Some (ip, port)) ->
  same_socket sn (log ++ [NSent sn dest data]) (k_set_tx_rd s (k_tx_wr s))
    (with_tx k (k_tx_wr s) (k_tx_wr s) []
       (s_wire k ++ [{| f_ip := ip; f_port := port; f_data := ring (s_txmem k) 2048 (k_tx_rd s) (k_tx_wr s - k_tx_rd s) |}])).
Proof.
  intros [H1 H2 H3 H4 H5 H6 (H7 & H7a & H7b & H7c) H8 (H9 & H9a & H9b) H10 H11 H12 H13] Hlt Hd Hx.
  pose proof H2 as W. inv_u16 W.
  constructor; kcbn; scbn; try assumption.
  - intros a Ha Hy. rewrite H1 by assumption. symmetry. same_bytes.
  - unfold u16_ok. repeat (apply Forall_cons; [first [assumption | unfold is_u16 in *; lia]|]). apply Forall_nil.
  - repeat split; assumption.
  - repeat split.
  - rewrite sent_app. apply Forall2_app; [exact H11|]. cbn. rewrite sn_eqb_refl. constructor; [|constructor].
    split; cbn [f_data f_ip f_port fst snd]; [|destruct Hx; [now left|now right]].
    rewrite Hd. unfold ring, vec_range. apply ztab_ext. intros i Hi. unfold slot. rewrite H7b.
    rewrite (Z.mod_small (k_tx_rd s + i) 65536) by (unfold is_u16 in *; lia). apply H7c. apply Z.mod_pos_bound. lia.
  - rewrite got_app, H12. cbn. now rewrite app_nil_r.
Qed.

Lemma send_step dbg sn m c ns ns' m' : same_state m c -> command_alike (sim_socket m sn) ns 0x20 = true ->
  socket_cmd_send dbg m ns sn = (IoOk tt, ns', m') ->
  exists l, step_to sn m m' (fold_left sock_ev l (exec_cmd (c_sock c (sn_raw sn)) 0x20)).
Proof.
  intros H Ha E. pose proof (ss_sock _ _ H sn) as Hk. set (s := sim_socket m sn) in *. set (k := c_sock c (sn_raw sn)) in *.
  destruct (sm_status _ _ _ _ Hk) as [Hs Hp]. pose proof (inner_status _ (sm_inner _ _ _ _ Hk)) as Hi.
  destruct (chip_words _ _ _ _ Hk) as (Hwr & _ & Hip & Hport & Hsz & _ & _).
  destruct (sm_tx _ _ _ _ Hk) as (T1 & T2 & T3).
  pose proof (sm_wide _ _ _ _ Hk) as W. inv_u16 W.
  change (command_alike s ns 32) with ((k_tx_rd s <? k_tx_wr s) &&
      match k_inner s with
      | Some TListener => k_client s
      | Some _ => true
      | None => false
      end &&
      match answer_of ns with AFail _ => false | _ => true end) in Ha.
  apply andb_true_iff in Ha. destruct Ha as [Ha Hans]. apply andb_true_iff in Ha. destruct Ha as [Hlt Hin]. apply Z.ltb_lt in Hlt.
  assert (Ex : exec_cmd k 0x20 = with_tx (with_cmdlog k (cmd_of k 0x20)) (k_tx_rd s) (k_tx_wr s)
    [{| te_ip := k_dipr s; te_port := k_dport s; te_len := k_tx_wr s - k_tx_rd s |}] (s_wire k)).
  { unfold exec_cmd. cbn [Z.eqb Pos.eqb]. fold (cmd_of k 0x20).
    change (tx_wr (with_cmdlog k (cmd_of k 32))) with (tx_wr k). change (dest_ip (with_cmdlog k (cmd_of k 32))) with (dest_ip k).
    change (dest_port (with_cmdlog k (cmd_of k 32))) with (dest_port k). scbn.
    rewrite Hwr, Hip, Hport, T1, T2, T3. cbn [app].
    replace (wsub (k_tx_wr s) (k_tx_rd s)) with (k_tx_wr s - k_tx_rd s) by (unfold wsub; rewrite Z.mod_small; unfold is_u16 in *; lia).
    reflexivity. }
  assert (Hk' := cmdlog_same _ _ _ _ (cmd_of k 0x20) Hk). set (k4 := with_cmdlog k (cmd_of k 0x20)) in *.
  set (data := vec_range (k_tx_buf s) (k_tx_rd s) (k_tx_wr s)).
  assert (Yes : forall dest ns1, (dest = None \/ dest = Some (k_dest s)) ->
    s_sr k = 0x22 \/ s_sr k = 0x17 ->
    (IoOk tt, ns1, sim_put (sim_log m (NSent sn dest data)) sn (k_set_tx_rd s (k_tx_wr s))) = (IoOk tt, ns', m') ->
    exists l, step_to sn m m' (fold_left sock_ev l (exec_cmd k 0x20))).
  { intros dest ns1 Hd Hst E1. injection E1 as _ <-. exists [EvTx (k_tx_wr s - k_tx_rd s)]. split.
    2:{ eapply only_trans; [|apply only_put]. apply only_log. reflexivity. }
    rewrite Ex. cbn [fold_left sock_ev]. scbn. rewrite put_socket.
    match goal with |- same_socket sn ?l _ _ => change l with (s_net m ++ [NSent sn dest data]) end.
    change (s_sr k4) with (s_sr k). cbn [te_len te_ip te_port].
    assert (El : (if s_sr k =? 34 then k_tx_wr s - k_tx_rd s else Z.min (k_tx_wr s - k_tx_rd s) (Z.max 0 (k_tx_wr s - k_tx_rd s))) = k_tx_wr s - k_tx_rd s).
    { destruct (s_sr k =? 34); lia. }
    rewrite El. clear El.
    replace ((s_sr k =? 34) || (s_sr k =? 23) || (s_sr k =? 28)) with true by (destruct Hst as [-> | ->]; reflexivity).
    rewrite Z.eqb_refl.
    replace ((k_tx_rd s + (k_tx_wr s - k_tx_rd s)) mod 65536) with (k_tx_wr s) by (unfold is_u16 in *; lia).
    match goal with |- context[ring _ (tx_size ?x) _ _] => change (tx_size x) with (tx_size k); change (s_txmem x) with (s_txmem k) end.
    rewrite Hsz.
    apply (sent_same sn (s_net m) s k4 dest data (k_dipr s) (k_dport s)); [exact Hk'|exact Hlt|reflexivity|exact Hd]. }
  unfold socket_cmd_send in E. fold s in E. cbv zeta in E.
  replace (k_tx_wr s =? k_tx_rd s) with false in E by lia.
  replace (k_tx_rd s <=? k_tx_wr s) with true in E by lia. fold data in E.
  destruct (dbg && _) in E; [discriminate E|].
  destruct ((v_len (k_tx_buf s) =? 0) && _) in E; [discriminate E|].
  destruct (dbg && (zlen data =? 0)) in E; [discriminate E|].
  rewrite Hs in Yes.
  destruct (k_inner s) as [[]|] eqn:Ei; [| | |discriminate Hin].
  - destruct (answer_of ns); try discriminate Hans; (eapply Yes; [right; reflexivity|left; exact Hi|exact E]).
  - rewrite Hin in E, Hi. destruct (answer_of ns); try discriminate Hans; (eapply Yes; [left; reflexivity|right; exact Hi|exact E]).
  - destruct (answer_of ns); try discriminate Hans; (eapply Yes; [left; reflexivity|right; exact Hi|exact E]).
Qed.

Lemma recv_step sn m c m' ns : same_state m c -> command_alike (sim_socket m sn) ns 0x40 = true ->
  socket_cmd_recv m sn = (IoOk tt, m') -> step_to sn m m' (exec_cmd (c_sock c (sn_raw sn)) 0x40).
Proof.
  intros H Ha E. pose proof (ss_sock _ _ H sn) as Hk. set (s := sim_socket m sn) in *. set (k := c_sock c (sn_raw sn)) in *.
  destruct (chip_words _ _ _ _ Hk) as (_ & Hrd & _).
  change (command_alike s ns 0x40) with (k_rx_rd s <=? k_rx_wr s) in Ha.
  unfold socket_cmd_recv in E. fold s in E. rewrite Ha in E. injection E as <-.
  split; [|apply only_put]. rewrite put_socket. match goal with |- same_socket sn ?l _ _ => change l with (s_net m) end.
  change (exec_cmd k 0x40) with (with_rx_base (with_cmdlog k (cmd_of k 0x40)) (rx_rd k)). rewrite Hrd.
  destruct Hk as [H1 H2 H3 H4 H5 H6 H7 H8 H9 (H10 & H10a & H10b) H11 H12 H13]. pose proof H2 as W. inv_u16 W.
  constructor; kcbn; scbn; try assumption.
  - intros a Hx Hy. rewrite H1 by assumption. symmetry. same_bytes.
  - unfold u16_ok. repeat (apply Forall_cons; [first [assumption | unfold is_u16 in *; lia]|]). apply Forall_nil.
  - split; [assumption|]. split; [|assumption]. unfold rx_rsr. scbn. rewrite H10. unfold wsub. apply Z.mod_small. unfold is_u16 in *. lia.
Qed.

(** *** Any register *)
Lemma command_ok v x : command_try_from v = Ok x -> v = command_raw x.
Proof.
  unfold command_try_from. intros H.
  repeat match goal with X : (if ?c then _ else _) = _ |- _ => destruct c eqn:?; [injection X as <-; cbn; lia|] end. discriminate.
Qed.
Lemma wr_step dbg sn m c ns a v ns' m' : same_state m c -> is_u8 v -> sn_alike (sim_socket m sn) ns a v = true ->
  socket_reg_wr dbg m ns a v sn = (IoOk tt, ns', m') ->
  exists l, (a <> 1 -> l = []) /\ step_to sn m m' (fold_left sock_ev l (sreg_wr (c_sock c (sn_raw sn)) a v)).
Proof.
  intros H Hv Ha E. pose proof (ss_sock _ _ H sn) as Hk. set (s := sim_socket m sn) in *. set (k := c_sock c (sn_raw sn)) in *.
  unfold sn_alike in Ha. destruct (SnReg_try_from a) as [r|] eqn:Er; [|discriminate Ha]. pose proof (snreg_addr _ _ Er) as A.
  assert (Skip : m' = m -> sreg_wr k a v = k -> exists l, (a <> 1 -> l = []) /\ step_to sn m m' (fold_left sock_ev l (sreg_wr k a v))).
  { intros -> ->. exists []. split; [reflexivity|]. split; [exact Hk|apply only_refl]. }
  destruct (plain r) eqn:Hpl.
  { destruct (plain_write dbg m ns a v sn r (s_net m) k Hk Hv Er Hpl) as (s' & E1 & G). rewrite E1 in E. injection E as <- <-.
    exists []. split; [reflexivity|]. split; [|apply only_put]. rewrite put_socket. exact G. }
  unfold socket_reg_wr in E. rewrite Er in E. cbv zeta in E. fold s in E.
  destruct r; try discriminate Hpl; try discriminate E; subst a;
    try (injection E as <- <-; apply Skip; reflexivity).
  - (* a command *)
    change (sreg_wr k (SnReg_addr S_CR) v) with (exec_cmd k v).
    assert (Hv' := Ha). unfold command_alike in Ha.
    destruct (command_try_from v) as [x|] eqn:Ec; [|discriminate Ha]. apply command_ok in Ec. subst v.
    destruct x; try discriminate E; cbn [command_raw] in *.
    + exists [EvCommit 0 0]. split; [intros N; elim N; reflexivity|]. eapply open_step; eassumption.
    + destruct (listen_step _ _ _ _ _ _ H Hv' E) as [l G]. exists l. split; [intros N; elim N; reflexivity|exact G].
    + destruct (connect_step _ _ _ _ _ _ H Hv' E) as [l G]. exists l. split; [intros N; elim N; reflexivity|exact G].
    + injection E as <- <-. exists [EvCommit 0 0]. split; [intros N; elim N; reflexivity|]. eapply close_step; eassumption.
    + destruct (send_step _ _ _ _ _ _ _ H Hv' E) as [l G]. exists l. split; [intros N; elim N; reflexivity|exact G].
    + destruct (socket_cmd_recv m sn) as [r1 m1] eqn:E1. injection E as -> <- <-. exists []. split; [intros N; elim N; reflexivity|].
      eapply recv_step; eassumption.
  - (* flags *)
    exists []. split; [reflexivity|]. cbn [fold_left]. change (sreg_wr k (SnReg_addr S_IR) v) with (with_ir k (Z.land (s_ir k) (255 - v))).
    destruct (_ =? 0) in E; injection E as <- <-; split.
    + change (sim_socket _ sn) with (sim_socket (sim_put m sn (k_set_ir s (cleared (k_ir s) v))) sn). rewrite put_socket. apply clear_same; assumption.
    + eapply only_trans; [apply only_put|]. constructor; [right; eexists; reflexivity|reflexivity|exists []; cbn; rewrite app_nil_r; auto].
    + rewrite put_socket. apply clear_same; assumption.
    + apply only_put.
  - (* receive buffer size *)
    destruct (bufsize_try_from v) as [b|] eqn:Eb; [|discriminate E]. injection E as <- <-.
    exists []. split; [reflexivity|]. split; [|apply only_put]. rewrite put_socket.
    apply (rxsize_same sn (s_net m) s k v b); [exact Hk|exact Eb|lia].
  - (* transmit buffer size *)
    apply Z.eqb_eq in Ha. subst v. injection E as <- <-.
    exists []. split; [reflexivity|]. split; [|apply only_put]. rewrite put_socket. apply txsize_same. exact Hk.
Qed.
