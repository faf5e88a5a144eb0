(** The simulator at the level of bus transactions; comparison with the chip. *)
From Verif Require Import Proof.Base Model.Prelude Model.Bus Model.Chip Model.Specifiers Model.LlAddr Model.LlBits
  Spec.Sock Spec.Hoare Proof.ChipP Model.Regsim Spec.Regsim Spec.RegsimCases Proof.RegsimRegP Proof.RegsimSnP Proof.RegsimEvP
  Proof.RegsimCmdP Proof.RegsimRunP Proof.RegsimMoreP.

Lemma sn_blocks sn : block_type (sn_block sn) = Some (BSocket sn) /\ block_type (sn_tx_block sn) = Some (BTx sn) /\
  block_type (sn_rx_block sn) = Some (BRx sn).
Proof. destruct sn; repeat split. Qed.

(** ** Transfer *)
Lemma simulates {A} dbg (p : prog A) ns m c o ns' m' : same_state m c -> alike dbg p ns m = true ->
  sim_run dbg p ns m = (o, ns', m') -> o <> Panicked ->
  exists sch c' evs, no_faults sch /\ run p sch c = (o, [], c') /\ same_state m' (chip_evs c' evs).
Proof. intros S. exact (sim_simulates dbg p ns m c [] o ns' m' S). Qed.
Lemma transfer {A} dbg (p : prog A) ns m c n Q o ns' m' : ensures p n c Q -> same_state m c -> alike dbg p ns m = true ->
  sim_run dbg p ns m = (o, ns', m') -> o <> Panicked ->
  exists a c' evs, o = Done a /\ Q a (c_sock c' n) /\ same_state m' (chip_evs c' evs).
Proof.
  intros E S Al R N. destruct (simulates dbg p ns m c o ns' m' S Al R N) as (sch & c' & evs & F & Ru & S').
  destruct (E sch F) as (a & sch' & c2 & Ru2 & Hq). rewrite Ru in Ru2. injection Ru2 as -> <- <-. now exists a, c', evs.
Qed.

(** ** Commands and single bytes *)
Lemma cmd_write dbg m ns sn v : sim_write dbg m ns 0x01 (sn_block sn) [v] =
  let '(r, ns, m) := socket_reg_wr dbg m ns 0x01 v sn in (match r with IoOk _ => IoOk tt | r => r end, ns, m).
Proof.
  unfold sim_write. rewrite (proj1 (sn_blocks sn)). cbn [socket_wrs].
  destruct (socket_reg_wr dbg m ns 1 v sn) as [[[[]| |] ns'] m']; reflexivity.
Qed.
Lemma one_read m ns sn a : SnReg_try_from a <> Ok S_RX_RSR0 -> sim_read m ns a (sn_block sn) 1 =
  let '(r, ns, m') := check_socket m ns sn in
  (match r with IoOk _ => IoOk [socket_byte (sim_socket m sn) a] | IoErr => IoErr | IoPanic => IoPanic end, ns, m').
Proof.
  intros N. unfold sim_read. rewrite (proj1 (sn_blocks sn)). change (Z.to_nat 1) with 1%nat. cbn [socket_rds]. unfold socket_reg_rd.
  assert (E : match SnReg_try_from a with Ok S_RX_RSR0 => false | _ => true end = true).
  { destruct (SnReg_try_from a) as [[]|]; try reflexivity. now elim N. }
  rewrite E. destruct (check_socket m ns sn) as [[[[]| |] ns'] m']; reflexivity.
Qed.
Lemma not_rsr a : a <> 0x26 -> SnReg_try_from a <> Ok S_RX_RSR0.
Proof. intros N E. apply snreg_addr in E. now apply N. Qed.
Lemma stream_read m ns sn a ip port data : rx_ok (sim_socket m sn) -> streaming (sim_socket m sn) ->
  a <> 0x26 -> answer_of ns = AData ip port data -> data <> [] ->
  let s := sim_socket m sn in
  let got := ztake (bufsize_in_bytes (k_rxbuf_size s)) data in
  exists m', sim_read m ns a (sn_block sn) 1 = (IoOk [socket_byte s a], tl ns, m') /\
    s_net m' = s_net m ++ [NGot sn got] /\
    rx_added s (sim_socket m' sn) (ztake (free_rx s) got) /\
    k_ir (sim_socket m' sn) = Z.lor (k_ir s) 4.
Proof.
  cbv zeta. intros H1 H2 H3 H4 H5. destruct (stream_rx m ns sn ip port data H1 H2 H4 H5) as (m' & E & R).
  exists m'. split; [|exact R]. rewrite one_read by (apply not_rsr, H3). rewrite E. reflexivity.
Qed.
Lemma udp_read m ns sn a ip port data : rx_ok (sim_socket m sn) -> k_inner (sim_socket m sn) = Some TUdp ->
  a <> 0x26 -> answer_of ns = AData ip port data ->
  let s := sim_socket m sn in
  let got := ztake (bufsize_in_bytes (k_rxbuf_size s)) data in
  exists m', sim_read m ns a (sn_block sn) 1 = (IoOk [socket_byte s a], tl ns, m') /\
    s_net m' = s_net m ++ [NDgram sn ip port got] /\
    rx_added s (sim_socket m' sn) (ztake (free_rx s) (udp_image ip port got)) /\
    k_ir (sim_socket m' sn) = Z.lor (k_ir s) 4.
Proof.
  cbv zeta. intros H1 H2 H3 H4. destruct (udp_rx m ns sn ip port data H1 H2 H4) as (m' & E & R).
  exists m'. split; [|exact R]. rewrite one_read by (apply not_rsr, H3). rewrite E. reflexivity.
Qed.
(** What was added is what a read of the buffer gives. *)
Lemma added_read m ns sn s data : is_u16 (k_rx_wr s) -> rx_ok s -> rx_added s (sim_socket m sn) data ->
  sim_read m ns (k_rx_wr s) (sn_rx_block sn) (zlen data) = (IoOk data, ns, m).
Proof.
  intros Hw (H1 & H2 & _) (_ & _ & _ & A4 & A5 & _). unfold sim_read. destruct (sn_blocks sn) as (_ & _ & ->).
  pose proof (buf_range _ H1). pose proof (zlen_nonneg data). unfold vec_rds. rewrite A4. replace (v_len (k_rx_buf s) =? 0) with false by lia. cbn [andb].
  do 2 f_equal. f_equal. rewrite <- A5 at 2. unfold ring. apply ztab_ext. intros i Hi. unfold slot, wadd. reflexivity.
Qed.
Lemma recv_write dbg m ns sn : k_rx_rd (sim_socket m sn) <= k_rx_wr (sim_socket m sn) ->
  exists m', sim_write dbg m ns 0x01 (sn_block sn) [0x40] = (IoOk tt, ns, m') /\ s_net m' = s_net m /\
    sim_socket m' sn = k_set_rx_rsr (sim_socket m sn) (k_rx_wr (sim_socket m sn) - k_rx_rd (sim_socket m sn)).
Proof.
  intros H. destruct (recv_fine m sn H) as (m' & E & S). exists m'. rewrite cmd_write.
  change (socket_reg_wr dbg m ns 1 64 sn) with (let '(r, m) := socket_cmd_recv m sn in (r, ns, m)). rewrite E.
  split; [reflexivity|]. split; [|exact S]. unfold socket_cmd_recv in E. cbv zeta in E. replace (_ <=? _) with true in E by lia. injection E as <-. reflexivity.
Qed.
Lemma recv_write_wrap dbg m ns sn : k_rxbuf_size (sim_socket m sn) <> KB0 ->
  is_u16 (k_rx_rd (sim_socket m sn)) -> is_u16 (k_rx_wr (sim_socket m sn)) ->
  k_rx_wr (sim_socket m sn) < k_rx_rd (sim_socket m sn) ->
  wsub (k_rx_wr (sim_socket m sn)) (k_rx_rd (sim_socket m sn)) <= bufsize_in_bytes (k_rxbuf_size (sim_socket m sn)) ->
  sim_write dbg m ns 0x01 (sn_block sn) [0x40] = (IoPanic, ns, m).
Proof.
  intros H1 H2 H3 H4 H5. rewrite cmd_write.
  change (socket_reg_wr dbg m ns 1 64 sn) with (let '(r, m) := socket_cmd_recv m sn in (r, ns, m)).
  now rewrite recv_wrap.
Qed.
Lemma close_write dbg m ns sn : exists m', sim_write dbg m ns 0x01 (sn_block sn) [0x10] = (IoOk tt, ns, m') /\
  k_sr (sim_socket m' sn) = Closed /\ s_net m' = s_net m /\
  forall ns a n, exists l, sim_read m' ns a (sn_block sn) n = (IoOk l, ns, m').
Proof.
  exists (socket_cmd_close m sn). split; [|apply close_quiet]. rewrite cmd_write. reflexivity.
Qed.

(** ** Sending *)
Lemma vec_wrs_some data : forall v a, 0 < v_len v -> vec_wrs v a data <> None.
Proof.
  induction data as [|b data IH]; intros v a H; cbn [vec_wrs]; [discriminate|].
  replace (v_len v =? 0) with false by lia. apply IH. exact H.
Qed.
Lemma wr_word v x : is_u16 v -> is_u16 x -> w1 (w0 v ((x / 256) mod 256)) (x mod 256) = x.
Proof.
  intros Hv Hx. unfold is_u16 in *. rewrite w1_val; [|apply u16_w0; unfold is_u8; lia|unfold is_u8; lia].
  rewrite w0_val by (unfold is_u8; lia). lia.
Qed.
Lemma txwr_write dbg m ns sn x : is_u16 (k_tx_wr (sim_socket m sn)) -> is_u16 x ->
  exists m', sim_write dbg m ns 0x24 (sn_block sn) (be16 x) = (IoOk tt, ns, m') /\ s_net m' = s_net m /\
    sim_socket m' sn = k_set_tx_wr (sim_socket m sn) x.
Proof.
  intros Hv Hx. unfold sim_write. rewrite (proj1 (sn_blocks sn)). unfold be16. cbn [socket_wrs].
  set (hi := (x / 256) mod 256). set (lo := x mod 256). set (s := sim_socket m sn) in *.
  change (socket_reg_wr dbg m ns 36 hi sn) with (@IoOk unit tt, ns, sim_put m sn (k_set_tx_wr s (w0 (k_tx_wr s) hi))). cbv iota beta.
  set (m1 := sim_put m sn (k_set_tx_wr s (w0 (k_tx_wr s) hi))).
  change (wadd 36 1) with 37.
  change (socket_reg_wr dbg m1 ns 37 lo sn) with (@IoOk unit tt, ns, sim_put m1 sn (k_set_tx_wr (sim_socket m1 sn) (w1 (k_tx_wr (sim_socket m1 sn)) lo))).
  cbv iota beta. eexists. split; [reflexivity|]. split; [reflexivity|]. rewrite put_socket. unfold m1. rewrite put_socket.
  change (k_tx_wr (k_set_tx_wr s (w0 (k_tx_wr s) hi))) with (w0 (k_tx_wr s) hi).
  unfold hi, lo. rewrite wr_word by assumption. reflexivity.
Qed.
Lemma send_write dbg m ns sn : sim_write dbg m ns 0x01 (sn_block sn) [0x20] = socket_cmd_send dbg m ns sn.
Proof.
  rewrite cmd_write. change (socket_reg_wr dbg m ns 1 32 sn) with (socket_cmd_send dbg m ns sn).
  destruct (socket_cmd_send dbg m ns sn) as [[[[]| |] ns'] m']; reflexivity.
Qed.
Lemma put_sends dbg m ns sn data : let s := sim_socket m sn in
  sendable s -> k_txbuf_size s <> KB0 -> v_len (k_tx_buf s) = bufsize_in_bytes (k_txbuf_size s) ->
  is_u16 (k_tx_wr s) -> k_tx_rd s = k_tx_wr s -> data <> [] -> zlen data <= bufsize_in_bytes (k_txbuf_size s) ->
  k_tx_wr s + zlen data < 65536 -> (forall k, answer_of ns <> AFail k) ->
  exists m', sim_run dbg (script (put_send sn (k_tx_wr s) data) []) ns m = (Done [], tl ns, m') /\
    s_net m' = s_net m ++ [NSent sn (send_dest s) data] /\
    k_tx_rd (sim_socket m' sn) = k_tx_wr s + zlen data /\ k_tx_wr (sim_socket m' sn) = k_tx_wr s + zlen data.
Proof.
  cbv zeta. set (s := sim_socket m sn). intros Hs Hb Hl Hw Hr Hd Hn Hp Ha. pose proof (buf_range _ Hb).
  assert (Hz : 0 < zlen data) by (destruct data; [now elim Hd|rewrite zlen_cons; pose proof (zlen_nonneg data); lia]).
  unfold put_send, wr_cmd. cbn [script app]. cbn [sim_run].
  destruct (sn_blocks sn) as (_ & Bt & _). unfold sim_write at 1. rewrite Bt. fold s.
  destruct (vec_wrs (k_tx_buf s) (k_tx_wr s) data) as [w|] eqn:Ew; [|elim (vec_wrs_some data (k_tx_buf s) (k_tx_wr s) ltac:(lia) Ew)].
  pose proof (vec_wrs_ring data _ _ _ Hw Ew) as Er. cbn [sim_run].
  set (p := k_tx_wr s) in *. rewrite Z.mod_small by (unfold is_u16 in Hw; lia).
  set (m1 := sim_put m sn (k_set_tx_buf s w)).
  assert (S1 : sim_socket m1 sn = k_set_tx_buf s w) by apply put_socket.
  assert (W1 : k_tx_wr (sim_socket m1 sn) = p) by (rewrite S1; reflexivity).
  destruct (txwr_write dbg m1 ns sn (p + zlen data)) as (m2 & E2 & N2 & S2); [rewrite W1; exact Hw|unfold is_u16 in *; lia|].
  rewrite E2. cbn [sim_run]. rewrite send_write. rewrite S1 in S2.
  assert (T2 : k_tx_wr (sim_socket m2 sn) = p + zlen data) by (rewrite S2; reflexivity).
  assert (R2 : k_tx_rd (sim_socket m2 sn) = p) by (rewrite S2; exact Hr).
  assert (B2 : k_tx_buf (sim_socket m2 sn) = w) by (rewrite S2; reflexivity).
  assert (Z2 : k_txbuf_size (sim_socket m2 sn) = k_txbuf_size s) by (rewrite S2; reflexivity).
  assert (I2 : k_inner (sim_socket m2 sn) = k_inner s) by (rewrite S2; reflexivity).
  assert (C2 : k_client (sim_socket m2 sn) = k_client s) by (rewrite S2; reflexivity).
  assert (D2 : send_dest (sim_socket m2 sn) = send_dest s) by (rewrite S2; reflexivity).
  assert (L2 : v_len w = v_len (k_tx_buf s)) by (rewrite Er; reflexivity).
  unfold is_u16 in Hw.
  destruct (send_data dbg m2 ns sn) as (m3 & E3 & N3 & S3).
  - unfold sendable, streaming in *. rewrite I2, C2. exact Hs.
  - rewrite B2, Z2, L2. exact Hl.
  - rewrite Z2. exact Hb.
  - rewrite R2. exact Hw.
  - rewrite T2. unfold is_u16. lia.
  - rewrite T2, R2. lia.
  - rewrite T2, R2, Z2. unfold wsub. replace (p + zlen data - p) with (zlen data) by lia. rewrite Z.mod_small by lia. exact Hn.
  - rewrite T2, R2. lia.
  - exact Ha.
  - rewrite E3. exists m3. split; [reflexivity|]. split; [|rewrite S3, <- T2; split; reflexivity].
    rewrite N3, N2, D2. change (s_net m1) with (s_net m). rewrite T2, R2, B2, L2. replace (p <? p + zlen data) with true by lia.
    replace (p + zlen data - p) with (zlen data) by lia. rewrite Er. cbn [v_at]. rewrite Hl.
    rewrite ring_write_same; [reflexivity|apply buf_size_ok, Hb|exact Hn].
Qed.

(** ** Sn_TX_FSR *)
Lemma closed_ev k e : s_sr k = 0 -> s_pend k = None -> s_txq k = [] -> exists i, sock_ev k e = with_ir k i.
Proof.
  intros H1 H2 H3. exists (match e with EvIr v => if byteb v then Z.lor (s_ir k) v else s_ir k | _ => s_ir k end).
  assert (I : with_ir k (s_ir k) = k) by (destruct k; reflexivity).
  destruct e; cbn [sock_ev]; rewrite ?H1, ?H2, ?H3; cbn; try (symmetry; exact I).
  destruct (byteb v); [reflexivity|symmetry; exact I].
Qed.
Lemma with_ir_self k : with_ir k (s_ir k) = k.
Proof. destruct k; reflexivity. Qed.
Lemma closed_evs l : forall c n, s_sr (c_sock c n) = 0 -> s_pend (c_sock c n) = None -> s_txq (c_sock c n) = [] ->
  exists i, c_sock (chip_evs c l) n = with_ir (c_sock c n) i.
Proof.
  induction l as [|e l IH]; intros c n H1 H2 H3.
  - exists (s_ir (c_sock c n)). rewrite with_ir_self. reflexivity.
  - unfold chip_evs in *. cbn [fold_left].
    assert (X : exists i, c_sock (chip_ev c e) n = with_ir (c_sock c n) i).
    { unfold chip_ev. cbn [c_sock]. unfold upd. destruct (n =? ev_sn e) eqn:E.
      - apply Z.eqb_eq in E. subst n. apply closed_ev; assumption.
      - exists (s_ir (c_sock c n)). rewrite with_ir_self. reflexivity. }
    destruct X as [i Ei]. destruct (IH (chip_ev c e) n) as [j Ej]; try (rewrite Ei; assumption).
    exists j. rewrite Ej, Ei. reflexivity.
Qed.
Lemma fsr_chip sch : no_faults sch -> exists sch' c', run (script fsr_prog []) sch reset_chip = (Done [Some [64; 0]], sch', c').
Proof.
  intros F. unfold fsr_prog. cbn [script app].
  assert (W : forall c i, c_sock c 4 = with_ir reset_sock i ->
     c_sock (chip_wrs c (sn_block Sn4) 0x1F [16]) 4 = with_ir (with_reg reset_sock (upd reset_reg 0x1F 16)) i).
  { intros c i E. cbn. rewrite E. reflexivity. }
  assert (R : forall c i, c_sock c 4 = with_ir (with_reg reset_sock (upd reset_reg 0x1F 16)) i ->
     chip_rds c (sn_block Sn4) 0x20 2 = [64; 0]).
  { intros c i E. cbn. rewrite E. reflexivity. }
  assert (V : forall l c i, c_sock c 4 = with_ir reset_sock i -> exists j, c_sock (chip_evs c l) 4 = with_ir reset_sock j).
  { intros l c i E. destruct (closed_evs l c 4) as [j Ej]; try (rewrite E; reflexivity). exists j. rewrite Ej, E. reflexivity. }
  assert (V2 : forall l c i, c_sock c 4 = with_ir (with_reg reset_sock (upd reset_reg 0x1F 16)) i ->
     exists j, c_sock (chip_evs c l) 4 = with_ir (with_reg reset_sock (upd reset_reg 0x1F 16)) j).
  { intros l c i E. destruct (closed_evs l c 4) as [j Ej]; try (rewrite E; reflexivity). exists j. rewrite Ej, E. reflexivity. }
  assert (I0 : c_sock reset_chip 4 = with_ir reset_sock 0) by reflexivity.
  cbn [run]. destruct sch as [|t sch].
  - rewrite (R _ 0) by (apply W, I0). eexists _, _. reflexivity.
  - pose proof (Forall_inv F) as F1. pose proof (Forall_inv_tail F) as F2. cbn beta in F1. rewrite F1.
    destruct (V (t_evs t) _ _ I0) as [j Ej]. apply W in Ej. destruct sch as [|t2 sch].
    + rewrite (R _ j) by exact Ej. eexists _, _. reflexivity.
    + pose proof (Forall_inv F2) as F3. cbn beta in F3. rewrite F3. destruct (V2 (t_evs t2) _ _ Ej) as [i Ei].
      rewrite (R _ i) by exact Ei. eexists _, _. reflexivity.
Qed.

(** ** No program of transactions panics by itself *)
Lemma script_done l : forall got sch c, exists g sch' c', run (script l got) sch c = (Done g, sch', c').
Proof.
  induction l as [|[a b n|a b d] l IH]; intros got sch c; cbn [script run].
  - eexists _, _, _. reflexivity.
  - destruct sch as [|t sch]; [apply IH|]. destruct (t_fault t); apply IH.
  - destruct sch as [|t sch]; [apply IH|]. destruct (t_fault t); apply IH.
Qed.

(** ** The common registers *)
Lemma common_wr_keeps m a v : a <> 0 -> s_sn (common_reg_wr m a v) = s_sn m /\ s_net (common_reg_wr m a v) = s_net m.
Proof.
  intros N. unfold common_reg_wr. destruct (Reg_try_from a) as [r|] eqn:E; [|split; reflexivity].
  apply reg_addr in E. destruct r; try (split; reflexivity). now elim N.
Qed.
Lemma common_keeps dbg m ns a d : 0 < a -> a + zlen d <= 65536 ->
  (forall n, snd (sim_read m ns a 0 n) = m) /\
  (forall sn, sim_socket (snd (sim_write dbg m ns a 0 d)) sn = sim_socket m sn) /\ s_net (snd (sim_write dbg m ns a 0 d)) = s_net m.
Proof.
  intros Ha Hd. split; [reflexivity|].
  change (snd (sim_write dbg m ns a 0 d)) with (common_wrs m a d).
  assert (E : s_sn (common_wrs m a d) = s_sn m /\ s_net (common_wrs m a d) = s_net m).
  { revert m a Ha Hd. induction d as [|v d IH]; intros m a Ha Hd; [split; reflexivity|]. cbn [common_wrs].
    rewrite zlen_cons in Hd. pose proof (zlen_nonneg d). destruct (common_wr_keeps m a v ltac:(lia)) as [E1 E2].
    destruct d as [|v2 d]; [cbn [common_wrs]; auto|]. rewrite zlen_cons in Hd. pose proof (zlen_nonneg d).
    destruct (IH (common_reg_wr m a v) (wadd a 1)) as [E3 E4]; try (unfold wadd; rewrite ?zlen_cons; rewrite Z.mod_small by lia; lia).
    rewrite E3, E4. auto. }
  destruct E as [E1 E2]. split; [|exact E2]. intros sn. unfold sim_socket. now rewrite E1.
Qed.
