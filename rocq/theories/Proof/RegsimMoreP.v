(** The simulator by itself: independence of the sockets, sending, receiving, closing; the state after
    a reset. *)
From Verif Require Import Proof.Base Model.Prelude Model.Bus Model.Chip Model.Specifiers Model.LlAddr Model.LlBits
  Spec.Sock Spec.Hoare Proof.ChipP Model.Regsim Spec.Regsim Proof.RegsimRegP Proof.RegsimSnP Proof.RegsimEvP
  Proof.RegsimCmdP Proof.RegsimRunP.

(** ** After a reset *)
Lemma reset_same : same_state (sim_default []) reset_chip.
Proof.
  constructor.
  - intros a Ha N. cbn [c_common reset_chip s_regs sim_default].
    destruct (Reg_try_from a) as [r|] eqn:E.
    + pose proof (reg_addr _ _ E) as A. rewrite A in *. clear E. destruct r; reflexivity.
    + unfold common_reg_rd. rewrite E. unfold reset_common.
      repeat match goal with |- context[?x =? ?y] => destruct (Z.eqb_spec x y); [subst a; discriminate E|] end.
      reflexivity.
  - cbn. unfold u16_ok. repeat (apply Forall_cons; [unfold is_u16; lia|]). apply Forall_nil.
  - cbn. repeat split.
  - intros sn. change (sim_socket (sim_default []) sn) with socket_reset. cbn [c_sock reset_chip s_net sim_default].
    constructor; try (cbn; repeat split; fail).
    + intros a Ha Hd. cbn [s_reg reset_sock].
      destruct (SnReg_try_from a) as [r|] eqn:E.
      * pose proof (snreg_addr _ _ E) as A. rewrite A in *. destruct r; try reflexivity; discriminate Hd.
      * unfold socket_byte. rewrite E. unfold reset_reg.
        destruct ((6 <=? a) && (a <=? 11)) eqn:E6.
        { assert (C : In a [6; 7; 8; 9; 10; 11]) by (cbn [In]; lia). cbn [In] in C.
          repeat (destruct C as [C|C]; [subst a; discriminate E|]). contradiction. }
        repeat match goal with |- context[?x =? ?y] => destruct (Z.eqb_spec x y); [subst a; discriminate E|] end.
        reflexivity.
    + cbn. unfold u16_ok. repeat (apply Forall_cons; [unfold is_u16; lia|]). apply Forall_nil.
    + cbn. repeat split; lia.
    + cbn. repeat split; try lia. discriminate.
    + cbn. repeat split; lia.
    + cbn. constructor.
    + cbn. left. reflexivity.
Qed.

(** ** Independence *)
Lemma only_touch sn m m' : only_sn sn m m' -> only_touches sn m m'.
Proof.
  intros [R S [e [L F]]]. split; [|split; [|exists e; exact L]].
  - intros n N. destruct (of_sn_other sn n e F N) as [E1 E2]. rewrite L, sent_app, got_app, E1, E2, !app_nil_r.
    split; [|split; reflexivity]. apply S. intros C. apply N, sn_raw_inj, C.
  - intros a Ha. destruct R as [-> | [v ->]]; [reflexivity|]. now apply sir_rd.
Qed.
Lemma only_regs sn m v : only_sn sn m (sim_regs m (g_set_sir (s_regs m) v)).
Proof. constructor; [right; eexists; reflexivity|reflexivity|exists []; cbn; rewrite app_nil_r; auto]. Qed.
Ltac only1 := first [apply only_sr | apply only_ir | apply only_put | apply only_log; reflexivity | apply only_regs].
Ltac tonly := cbn [snd]; solve [repeat first [apply only_refl | only1 | eapply only_trans; [|only1]]].

Lemma only_stored sn m ns parts : only_sn sn m (snd (stored m ns sn parts)).
Proof. unfold stored. destruct (fold_left _ _ _); tonly. Qed.
Lemma only_read sn m ns b : only_sn sn m (snd (read_stream m ns sn b)).
Proof.
  unfold read_stream. destruct (answer_of ns); try tonly. cbv zeta. destruct (0 <? _); [|tonly].
  eapply only_trans; [|apply only_stored]. tonly.
Qed.
Lemma only_check sn m ns : only_sn sn m (snd (check_socket m ns sn)).
Proof.
  unfold check_socket. cbv zeta. destruct (k_inner _) as [[]|]; try tonly.
  - destruct (answer_of ns); try tonly. eapply only_trans; [|apply only_stored]. tonly.
  - destruct (k_client _); [apply only_read|]. destruct (answer_of ns); tonly.
  - apply only_read.
Qed.
Lemma only_reg_rd sn m ns a : only_sn sn m (snd (socket_reg_rd m ns a sn)).
Proof.
  unfold socket_reg_rd. pose proof (only_check sn m ns) as H. destruct (check_socket m ns sn) as [[r ns'] m'].
  cbn [snd] in H. destruct (match SnReg_try_from a with Ok S_RX_RSR0 => false | _ => true end); [exact H|tonly].
Qed.
Lemma only_rds sn n : forall m ns a, only_sn sn m (snd (socket_rds m ns a sn n)).
Proof.
  induction n as [|n IH]; intros m ns a; cbn [socket_rds]; [tonly|].
  pose proof (only_reg_rd sn m ns a) as H. destruct (socket_reg_rd m ns a sn) as [[r ns'] m']. cbn [snd] in H.
  destruct r; [|exact H|exact H]. specialize (IH m' ns' (wadd a 1)).
  destruct (socket_rds m' ns' (wadd a 1) sn n) as [[r2 ns2] m2]. cbn [snd] in *. eapply only_trans; eassumption.
Qed.
Lemma only_wr dbg sn m ns a v : only_sn sn m (snd (socket_reg_wr dbg m ns a v sn)).
Proof.
  unfold socket_reg_wr. cbv zeta. destruct (SnReg_try_from a) as [r|]; [|tonly].
  destruct r; try tonly.
  - destruct (command_try_from v) as [x|]; [|tonly]. destruct x; try tonly.
    + unfold socket_cmd_open. cbv zeta. destruct (SocketMode_protocol _) as [[]|]; try tonly.
      * destruct (answer_of ns); tonly.
      * destruct (sn_eqb sn Sn0); tonly.
    + unfold socket_cmd_listen. cbv zeta. destruct (negb _); [tonly|]. destruct (answer_of ns); tonly.
    + unfold socket_cmd_connect. cbv zeta. destruct (negb _); [tonly|]. destruct (answer_of ns); tonly.
    + unfold socket_cmd_send. cbv zeta. destruct (_ =? _); [tonly|]. destruct (dbg && _); [tonly|].
      destruct (_ && _); [tonly|]. destruct (dbg && _); [tonly|].
      destruct (k_inner _) as [[]|]; [destruct (answer_of ns); tonly|destruct (k_client _); [destruct (answer_of ns); tonly|tonly]|destruct (answer_of ns); tonly|tonly].
    + unfold socket_cmd_recv. cbv zeta. destruct (_ <=? _); [tonly|]. destruct (_ <? 0); [tonly|]. destruct (65535 <? _); tonly.
  - destruct (_ =? 0); tonly.
  - destruct (bufsize_try_from v); tonly.
  - destruct (bufsize_try_from v); tonly.
Qed.
Lemma only_wrs dbg sn d : forall m ns a, only_sn sn m (snd (socket_wrs dbg m ns a sn d)).
Proof.
  induction d as [|v d IH]; intros m ns a; cbn [socket_wrs]; [tonly|].
  pose proof (only_wr dbg sn m ns a v) as H. destruct (socket_reg_wr dbg m ns a v sn) as [[r ns'] m']. cbn [snd] in H.
  destruct r; [|exact H|exact H]. eapply only_trans; [exact H|apply IH].
Qed.

Lemma block_socket_only sn b : b = sn_block sn \/ b = sn_tx_block sn \/ b = sn_rx_block sn ->
  block_type b = Some (BSocket sn) \/ block_type b = Some (BTx sn) \/ block_type b = Some (BRx sn).
Proof. intros [-> | [-> | ->]]; destruct sn; cbn; auto. Qed.
Lemma independent dbg sn b : b = sn_block sn \/ b = sn_tx_block sn \/ b = sn_rx_block sn ->
  forall m ns a, (forall n, only_touches sn m (snd (sim_read m ns a b n))) /\
                 (forall d, only_touches sn m (snd (sim_write dbg m ns a b d))).
Proof.
  intros Hb m ns a. apply block_socket_only in Hb. split; intros x; apply only_touch.
  - unfold sim_read. destruct Hb as [-> | [-> | ->]]; [apply only_rds|tonly|tonly].
  - unfold sim_write. destruct Hb as [-> | [-> | ->]]; [apply only_wrs| |]; destruct (vec_wrs _ _ _); tonly.
Qed.

(** ** Receiving *)
Lemma zlen_ztake' n (l : list Z) : 0 <= n -> zlen (ztake n l) = Z.min n (zlen l).
Proof. intros H. unfold zlen, ztake. rewrite firstn_length. lia. Qed.
Lemma set_rx_prefix data : forall s, 0 < v_len (k_rx_buf s) <= 16384 -> 0 <= k_rx_rsr s <= v_len (k_rx_buf s) -> is_u16 (k_rx_wr s) ->
  set_rx_buf s data = Some (grown s (ztake (v_len (k_rx_buf s) - k_rx_rsr s) data)).
Proof.
  induction data as [|b data IH]; intros s Hl Hr Hw.
  - replace (ztake _ []) with (@nil Z) by (unfold ztake; now rewrite firstn_nil). apply set_rx_fit; try assumption; try lia. rewrite zlen_nil. lia.
  - rewrite set_rx_cons. replace (v_len (k_rx_buf s) =? 0) with false by lia.
    destruct (v_len (k_rx_buf s) <? k_rx_rsr s + 1) eqn:E.
    + replace (v_len (k_rx_buf s) - k_rx_rsr s) with 0 by lia. change (ztake 0 (b :: data)) with (@nil Z).
      rewrite <- (set_rx_fit [] s); [reflexivity|assumption|lia|assumption|rewrite zlen_nil; lia].
    + replace (65535 <? k_rx_rsr s + 1) with false by lia.
      rewrite IH; rewrite ?put_rx_buf, ?put_rx_wr, ?put_rx_rsr; unfold vec_set; cbn [v_len]; try lia; [|unfold wadd, is_u16; lia].
      assert (Et : ztake (v_len (k_rx_buf s) - k_rx_rsr s) (b :: data) = [b] ++ ztake (v_len (k_rx_buf s) - (k_rx_rsr s + 1)) data).
      { unfold ztake. replace (Z.to_nat (v_len (k_rx_buf s) - k_rx_rsr s)) with (S (Z.to_nat (v_len (k_rx_buf s) - (k_rx_rsr s + 1)))) by lia. reflexivity. }
      rewrite Et, <- grown_app. do 2 f_equal. unfold grown. cbn [ring_write]. unfold slot.
      rewrite (Z.mod_small (k_rx_wr s) 65536) by exact Hw. change (zlen [b]) with 1. reflexivity.
Qed.
Lemma ztake_app' n (a b : list Z) : 0 <= n -> ztake n (a ++ b) = ztake n a ++ ztake (n - zlen (ztake n a)) b.
Proof.
  intros H. rewrite zlen_ztake' by exact H. unfold ztake. rewrite firstn_app. f_equal.
  destruct (Z.le_gt_cases n (zlen a)).
  - replace (Z.to_nat n - length a)%nat with O by (unfold zlen in *; lia). replace (Z.to_nat (n - Z.min n (zlen a))) with O by lia. reflexivity.
  - f_equal. unfold zlen in *. lia.
Qed.
Lemma grown_parts_any parts : forall s, 0 < v_len (k_rx_buf s) <= 16384 -> 0 <= k_rx_rsr s <= v_len (k_rx_buf s) -> is_u16 (k_rx_wr s) ->
  fold_left (fun o part => match o with None => None | Some s => set_rx_buf s part end) parts (Some s) =
  Some (grown s (ztake (v_len (k_rx_buf s) - k_rx_rsr s) (concat parts))).
Proof.
  induction parts as [|p parts IH]; intros s Hl Hr Hw.
  - cbn [fold_left concat]. rewrite <- (set_rx_prefix []) by assumption. reflexivity.
  - cbn [fold_left concat]. rewrite set_rx_prefix by assumption.
    set (f := v_len (k_rx_buf s) - k_rx_rsr s). pose proof (zlen_nonneg p). pose proof (zlen_ztake' f p ltac:(unfold f; lia)) as Z1.
    rewrite IH.
    + rewrite grown_app, ztake_app' by (unfold f; lia). do 4 f_equal. unfold grown. rewrite put_rx_buf, put_rx_rsr. cbn [v_len]. unfold f. lia.
    + unfold grown. rewrite put_rx_buf. exact Hl.
    + unfold grown. rewrite put_rx_rsr, put_rx_buf. cbn [v_len]. unfold f in *. lia.
    + unfold grown. rewrite put_rx_wr. unfold is_u16. clear. lia.
Qed.
Lemma stored_any m ns sn e parts : rx_ok (sim_socket m sn) ->
  stored (sim_log m e) ns sn parts =
  (IoOk tt, ns, raise_sn_ir (sim_put (sim_log m e) sn
     (grown (sim_socket m sn) (ztake (free_rx (sim_socket m sn)) (concat parts)))) sn SocketInterrupt_RECV_MASK).
Proof.
  intros (H1 & H2 & H3 & H4). unfold stored. pose proof (buf_range _ H1). rewrite log_socket, grown_parts_any by (rewrite ?H2; assumption || lia).
  unfold free_rx. rewrite H2. reflexivity.
Qed.
Lemma buf_size_ok b : b <> KB0 -> size_ok (bufsize_in_bytes b).
Proof. destruct b; intros H; try (elim H; reflexivity); unfold size_ok; cbn; auto 6. Qed.
Lemma grown_added s data : rx_ok s -> zlen data <= free_rx s -> rx_added s (grown s data) data.
Proof.
  intros (H1 & H2 & H3 & H4) Hf. unfold free_rx in Hf. pose proof (buf_size_ok _ H1) as Hs. pose proof (zlen_nonneg data).
  unfold rx_added, grown. rewrite put_rx_rsr, put_rx_wr, put_rx_buf. cbn [v_len v_at]. rewrite H2.
  repeat split.
  - apply ring_write_same; [exact Hs|lia].
  - intros q n Hn Hle E. apply ring_write_before; [exact Hs|exact Hn|exact Hle|]. unfold is_u16 in H4. lia.
Qed.

(** What a stream delivers. *)
Lemma stream_rx m ns sn ip port data : rx_ok (sim_socket m sn) -> streaming (sim_socket m sn) ->
  answer_of ns = AData ip port data -> data <> [] ->
  let s := sim_socket m sn in
  let got := ztake (bufsize_in_bytes (k_rxbuf_size s)) data in
  exists m', check_socket m ns sn = (IoOk tt, tl ns, m') /\ s_net m' = s_net m ++ [NGot sn got] /\
    rx_added s (sim_socket m' sn) (ztake (free_rx s) got) /\
    k_ir (sim_socket m' sn) = Z.lor (k_ir s) 4.
Proof.
  intros Hok Hst Ha Hd. cbv zeta. pose proof Hok as (H1 & H2 & H3 & H4). pose proof (buf_range _ H1).
  set (s := sim_socket m sn) in *. set (got := ztake (bufsize_in_bytes (k_rxbuf_size s)) data).
  assert (E : check_socket m ns sn = read_stream m ns sn (bufsize_in_bytes (k_rxbuf_size s))).
  { unfold check_socket. cbv zeta. fold s. destruct Hst as [-> | [-> ->]]; reflexivity. }
  assert (Hg : 0 < zlen got).
  { unfold got. rewrite zlen_ztake' by lia. destruct data as [|b data]; [now elim Hd|]. rewrite zlen_cons. pose proof (zlen_nonneg data). lia. }
  rewrite E. unfold read_stream. rewrite Ha. cbv zeta. fold got. replace (0 <? zlen got) with true by lia.
  rewrite stored_any by exact Hok. cbn [concat]. rewrite app_nil_r. fold s.
  eexists. split; [reflexivity|]. split; [reflexivity|]. rewrite ir_socket, put_socket.
  assert (Hl : zlen (ztake (free_rx s) got) <= free_rx s) by (unfold free_rx in *; rewrite zlen_ztake' by lia; lia).
  split; [|reflexivity]. exact (grown_added s _ Hok Hl).
Qed.

(** What a UDP socket delivers. *)
Lemma udp_rx m ns sn ip port data : rx_ok (sim_socket m sn) -> k_inner (sim_socket m sn) = Some TUdp ->
  answer_of ns = AData ip port data ->
  let s := sim_socket m sn in
  let got := ztake (bufsize_in_bytes (k_rxbuf_size s)) data in
  exists m', check_socket m ns sn = (IoOk tt, tl ns, m') /\ s_net m' = s_net m ++ [NDgram sn ip port got] /\
    rx_added s (sim_socket m' sn) (ztake (free_rx s) (udp_image ip port got)) /\
    k_ir (sim_socket m' sn) = Z.lor (k_ir s) 4.
Proof.
  intros Hok Hst Ha. cbv zeta. pose proof Hok as (H1 & H2 & H3 & H4). pose proof (buf_range _ H1).
  set (s := sim_socket m sn) in *. set (got := ztake (bufsize_in_bytes (k_rxbuf_size s)) data).
  unfold check_socket. cbv zeta. fold s. rewrite Hst, Ha. fold got.
  rewrite stored_any by exact Hok. fold s.
  replace (concat [ip; be16 port; be16 (zlen got); got]) with (udp_image ip port got) by (unfold udp_image; cbn [concat]; now rewrite app_nil_r).
  eexists. split; [reflexivity|]. split; [reflexivity|]. rewrite ir_socket, put_socket.
  assert (Hl : zlen (ztake (free_rx s) (udp_image ip port got)) <= free_rx s) by (unfold free_rx in *; rewrite zlen_ztake' by lia; lia).
  split; [|reflexivity]. exact (grown_added s _ Hok Hl).
Qed.

(** Releasing. *)
Lemma recv_fine m sn : k_rx_rd (sim_socket m sn) <= k_rx_wr (sim_socket m sn) ->
  exists m', socket_cmd_recv m sn = (IoOk tt, m') /\
    sim_socket m' sn = k_set_rx_rsr (sim_socket m sn) (k_rx_wr (sim_socket m sn) - k_rx_rd (sim_socket m sn)).
Proof.
  intros H. unfold socket_cmd_recv. cbv zeta. replace (_ <=? _) with true by lia. eexists. split; [reflexivity|]. apply put_socket.
Qed.
Lemma recv_wrap m sn : k_rxbuf_size (sim_socket m sn) <> KB0 ->
  is_u16 (k_rx_rd (sim_socket m sn)) -> is_u16 (k_rx_wr (sim_socket m sn)) ->
  k_rx_wr (sim_socket m sn) < k_rx_rd (sim_socket m sn) ->
  wsub (k_rx_wr (sim_socket m sn)) (k_rx_rd (sim_socket m sn)) <= bufsize_in_bytes (k_rxbuf_size (sim_socket m sn)) ->
  socket_cmd_recv m sn = (IoPanic, m).
Proof.
  intros Hb Hr Hw Hlt Hu. unfold socket_cmd_recv. cbv zeta. set (s := sim_socket m sn) in *. pose proof (buf_range _ Hb).
  replace (k_rx_rd s <=? k_rx_wr s) with false by lia.
  destruct (_ <? 0); [reflexivity|]. unfold wsub, is_u16 in *.
  replace (65535 <? _) with true by lia. reflexivity.
Qed.

(** ** Sending *)
Lemma send_data dbg m ns sn : let s := sim_socket m sn in
  sendable s -> v_len (k_tx_buf s) = bufsize_in_bytes (k_txbuf_size s) -> k_txbuf_size s <> KB0 ->
  is_u16 (k_tx_rd s) -> is_u16 (k_tx_wr s) -> k_tx_rd s <> k_tx_wr s ->
  wsub (k_tx_wr s) (k_tx_rd s) <= bufsize_in_bytes (k_txbuf_size s) -> (k_tx_wr s < k_tx_rd s -> wsub (k_tx_wr s) (k_tx_rd s) <> 1) ->
  (forall k, answer_of ns <> AFail k) ->
  let data := if k_tx_rd s <? k_tx_wr s then ring (v_at (k_tx_buf s)) (v_len (k_tx_buf s)) (k_tx_rd s) (k_tx_wr s - k_tx_rd s)
              else ring (v_at (k_tx_buf s)) (v_len (k_tx_buf s)) (k_tx_rd s) (65535 - k_tx_rd s) ++
                   ring (v_at (k_tx_buf s)) (v_len (k_tx_buf s)) 0 (k_tx_wr s) in
  exists m', socket_cmd_send dbg m ns sn = (IoOk tt, tl ns, m') /\
    s_net m' = s_net m ++ [NSent sn (send_dest s) data] /\
    sim_socket m' sn = k_set_tx_rd s (k_tx_wr s).
Proof.
  cbv zeta. set (s := sim_socket m sn). intros Hs Hl Hb Hr Hw Hne Hsz H1 Ha. unfold is_u16 in *. pose proof (buf_range _ Hb).
  unfold socket_cmd_send. cbv zeta. fold s. replace (k_tx_wr s =? k_tx_rd s) with false by lia.
  assert (Sz : (if k_tx_rd s <=? k_tx_wr s then k_tx_wr s - k_tx_rd s else 65535 + k_tx_wr s - k_tx_rd s) <= bufsize_in_bytes (k_txbuf_size s)).
  { unfold wsub in *. destruct (Z.leb_spec (k_tx_rd s) (k_tx_wr s)); lia. }
  replace (bufsize_in_bytes (k_txbuf_size s) <? _) with false by lia. rewrite andb_false_r.
  replace (v_len (k_tx_buf s) =? 0) with false by lia. cbn [andb].
  assert (V : forall a b, 0 <= a -> b <= 65536 -> vec_range (k_tx_buf s) a b = ring (v_at (k_tx_buf s)) (v_len (k_tx_buf s)) a (b - a)).
  { intros a b Ha' Hb'. unfold vec_range, ring. apply ztab_ext. intros i Hi. unfold slot. rewrite (Z.mod_small (a + i) 65536) by lia. reflexivity. }
  rewrite !V by lia. replace (k_tx_wr s - 0) with (k_tx_wr s) by lia.
  replace (k_tx_rd s <=? k_tx_wr s) with (k_tx_rd s <? k_tx_wr s) by lia.
  set (data := if k_tx_rd s <? k_tx_wr s then _ else _).
  assert (Hd : zlen data =? 0 = false).
  { unfold data. unfold wsub in *. destruct (Z.ltb_spec (k_tx_rd s) (k_tx_wr s)); rewrite ?zlen_app, ?ring_len; lia. }
  rewrite Hd, andb_false_r. unfold send_dest.
  destruct Hs as [Ei|[Ei|[Ei Ec]]]; rewrite Ei; try rewrite Ec;
    (destruct (answer_of ns) as [| |k|ip port d] eqn:En; [| |now elim (Ha k)|]);
    (eexists; split; [reflexivity|split; [reflexivity|apply put_socket]]).
Qed.

(** ** Closing *)
Lemma closed_rd m ns a sn : k_inner (sim_socket m sn) = None ->
  socket_reg_rd m ns a sn = (IoOk (socket_byte (sim_socket m sn) a), ns, m).
Proof.
  intros H. unfold socket_reg_rd, check_socket. cbv zeta. rewrite H.
  destruct (match SnReg_try_from a with Ok S_RX_RSR0 => false | _ => true end); reflexivity.
Qed.
Lemma closed_quiet sn n : forall m ns a, k_inner (sim_socket m sn) = None -> exists l, socket_rds m ns a sn n = (IoOk l, ns, m).
Proof.
  induction n as [|n IH]; intros m ns a H; cbn [socket_rds]; [eexists; reflexivity|].
  rewrite closed_rd by exact H. destruct (IH m ns (wadd a 1) H) as [l ->]. eexists; reflexivity.
Qed.
Lemma close_quiet m sn : let m' := socket_cmd_close m sn in
  k_sr (sim_socket m' sn) = Closed /\ s_net m' = s_net m /\
  forall ns a n, exists l, sim_read m' ns a (sn_block sn) n = (IoOk l, ns, m').
Proof.
  cbv zeta. assert (E : sim_socket (socket_cmd_close m sn) sn = k_set_sr (k_set_inner (sim_socket m sn) None) Closed).
  { unfold socket_cmd_close. rewrite sr_socket, put_socket. reflexivity. }
  split; [rewrite E; reflexivity|]. split; [reflexivity|]. intros ns a n. unfold sim_read.
  assert (B : block_type (sn_block sn) = Some (BSocket sn)) by (destruct sn; reflexivity). rewrite B.
  apply closed_quiet. rewrite E. reflexivity.
Qed.
