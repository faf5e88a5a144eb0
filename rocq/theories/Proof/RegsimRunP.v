(** Whole transactions and whole runs of the simulator. *)
From Verif Require Import Proof.Base Model.Prelude Model.Bus Model.Chip Model.Specifiers Model.LlAddr Model.LlBits
  Spec.Hoare Proof.ChipP Model.Regsim Spec.Regsim Proof.RegsimRegP Proof.RegsimSnP Proof.RegsimEvP Proof.RegsimCmdP.

(** ** Reading registers of a socket *)
Definition untornP (a n : Z) : Prop :=
  forall i j, 0 <= i -> i < j -> j < n -> (a + i) mod 65536 = 0x26 \/ steady ((a + j) mod 65536) = true.
Lemma untorn_P a n : untorn a n = true -> untornP a n.
Proof.
  unfold untorn, untornP. intros H i j Hi Hij Hj. rewrite forallb_forall in H.
  specialize (H (Z.to_nat i)). rewrite in_seq in H. specialize (H ltac:(lia)). cbv zeta in H.
  rewrite Z2Nat.id in H by lia. apply orb_true_iff in H. destruct H as [H|H]; [left; lia|right].
  rewrite forallb_forall in H. specialize (H (Z.to_nat (j - i - 1))). rewrite in_seq in H. specialize (H ltac:(lia)).
  rewrite Z2Nat.id in H by lia. replace (a + i + 1 + (j - i - 1)) with (a + j) in H by lia. exact H.
Qed.

Lemma reg_rd_check m ns addr sn : 0 <= addr < 65536 -> addr <> 0x26 ->
  socket_reg_rd m ns addr sn =
  (let '(r, ns', m') := check_socket m ns sn in
   (match r with IoOk _ => IoOk (socket_byte (sim_socket m sn) addr) | IoErr => IoErr | IoPanic => IoPanic end, ns', m')).
Proof.
  intros Ha N. unfold socket_reg_rd. destruct (SnReg_try_from addr) as [r|] eqn:E; [|reflexivity].
  pose proof (snreg_addr _ _ E) as A. destruct r; try reflexivity. elim N. exact A.
Qed.
Lemma reg_rd_quiet m ns sn addr : addr = 0x26 -> socket_reg_rd m ns addr sn = (IoOk (socket_byte (sim_socket m sn) addr), ns, m).
Proof. intros ->. reflexivity. Qed.

Lemma evs_app sn l l' c : chip_evs (chip_evs c (evs_of sn l)) (evs_of sn l') = chip_evs c (evs_of sn (l ++ l')).
Proof. unfold chip_evs, evs_of. now rewrite map_app, fold_left_app. Qed.

Lemma rds_steady sn n : forall m c ns addr r ns' m', same_state m c -> 0 <= addr < 65536 ->
  (forall j, 0 <= j < Z.of_nat n -> steady ((addr + j) mod 65536) = true) ->
  checks_alike m ns addr sn n = true -> socket_rds m ns addr sn n = (r, ns', m') ->
  r = IoOk (ztab (Z.of_nat n) (fun j => socket_byte (sim_socket m sn) ((addr + j) mod 65536))) /\
  exists l, same_state m' (chip_evs c (evs_of sn l)).
Proof.
  induction n as [|n IH]; intros m c ns addr r ns' m' H Ha Hs Hc E.
  - cbn [socket_rds] in E. injection E as <- <- <-. split; [reflexivity|]. exists []. exact H.
  - cbn [socket_rds checks_alike] in *. apply andb_true_iff in Hc. destruct Hc as [Hc Hr].
    assert (S0 : steady addr = true) by (specialize (Hs 0 ltac:(lia)); rewrite Z.add_0_r, Z.mod_small in Hs by lia; exact Hs).
    assert (N : addr <> 0x26) by (intros ->; discriminate S0).
    replace (addr =? 0x26) with false in Hc by lia.
    rewrite reg_rd_check in E, Hr by assumption.
    destruct (check_socket m ns sn) as [[r1 ns1] m1] eqn:E1.
    destruct (check_step _ _ _ _ _ _ _ H Hc E1) as (-> & l & G & Hb).
    destruct (socket_rds m1 ns1 (wadd addr 1) sn n) as [[r2 ns2] m2] eqn:E2.
    destruct (IH m1 _ ns1 (wadd addr 1) r2 ns2 m2 G) as (-> & l2 & G2); try assumption.
    + unfold wadd. lia.
    + intros j Hj. unfold wadd. rewrite Z.add_mod_idemp_l by lia. specialize (Hs (j + 1) ltac:(lia)).
      replace (addr + 1 + j) with (addr + (j + 1)) by lia. exact Hs.
    + injection E as <- <- <-. split.
      * f_equal. rewrite (ztab_S (Z.of_nat (S n))) by lia. rewrite Z.add_0_r, Z.mod_small by lia. f_equal.
        replace (Z.of_nat (S n) - 1) with (Z.of_nat n) by lia. apply ztab_ext. intros j Hj.
        unfold wadd. rewrite Z.add_mod_idemp_l by lia. replace (addr + 1 + j) with (addr + (1 + j)) by lia. apply Hb. apply Hs. lia.
      * exists (l ++ l2). rewrite <- evs_app. exact G2.
Qed.

Lemma rds_untorn sn n : forall m c ns addr r ns' m', same_state m c -> 0 <= addr < 65536 ->
  untornP addr (Z.of_nat n) ->
  checks_alike m ns addr sn n = true -> socket_rds m ns addr sn n = (r, ns', m') ->
  r = IoOk (ztab (Z.of_nat n) (fun j => socket_byte (sim_socket m sn) ((addr + j) mod 65536))) /\
  exists l, same_state m' (chip_evs c (evs_of sn l)).
Proof.
  induction n as [|n IH]; intros m c ns addr r ns' m' H Ha Hs Hc E.
  - cbn [socket_rds] in E. injection E as <- <- <-. split; [reflexivity|]. exists []. exact H.
  - cbn [socket_rds checks_alike] in *. apply andb_true_iff in Hc. destruct Hc as [Hc Hr].
    destruct (Z.eq_dec addr 0x26) as [Ea|N].
    + rewrite (reg_rd_quiet m ns sn addr Ea) in E, Hr.
      destruct (socket_rds m ns (wadd addr 1) sn n) as [[r2 ns2] m2] eqn:E2.
      destruct (IH m c ns (wadd addr 1) r2 ns2 m2 H) as (-> & l2 & G2); try assumption.
      * unfold wadd. lia.
      * intros i j Hi Hij Hj. specialize (Hs (i + 1) (j + 1) ltac:(lia) ltac:(lia) ltac:(lia)).
        unfold wadd. rewrite !Z.add_mod_idemp_l by lia.
        replace (addr + 1 + i) with (addr + (i + 1)) by lia. replace (addr + 1 + j) with (addr + (j + 1)) by lia. exact Hs.
      * injection E as <- <- <-. split; [|exists l2; exact G2].
        f_equal. rewrite (ztab_S (Z.of_nat (S n))) by lia. rewrite Z.add_0_r, Z.mod_small by lia. f_equal.
        replace (Z.of_nat (S n) - 1) with (Z.of_nat n) by lia. apply ztab_ext. intros j Hj.
        unfold wadd. rewrite Z.add_mod_idemp_l by lia. now replace (addr + 1 + j) with (addr + (1 + j)) by lia.
    + replace (addr =? 0x26) with false in Hc by lia.
      rewrite reg_rd_check in E, Hr by assumption.
      destruct (check_socket m ns sn) as [[r1 ns1] m1] eqn:E1.
      destruct (check_step _ _ _ _ _ _ _ H Hc E1) as (-> & l & G & Hb).
      destruct (socket_rds m1 ns1 (wadd addr 1) sn n) as [[r2 ns2] m2] eqn:E2.
      assert (Hs' : forall j, 1 <= j < Z.of_nat (S n) -> steady ((addr + j) mod 65536) = true).
      { intros j Hj. destruct (Hs 0 j ltac:(lia) ltac:(lia) ltac:(lia)) as [C|C]; [|exact C].
        rewrite Z.add_0_r, Z.mod_small in C by lia. now elim N. }
      destruct (rds_steady sn n m1 _ ns1 (wadd addr 1) r2 ns2 m2 G) as (-> & l2 & G2); try assumption.
      * unfold wadd. lia.
      * intros j Hj. unfold wadd. rewrite Z.add_mod_idemp_l by lia. specialize (Hs' (j + 1) ltac:(lia)).
        replace (addr + 1 + j) with (addr + (j + 1)) by lia. exact Hs'.
      * injection E as <- <- <-. split.
        -- f_equal. rewrite (ztab_S (Z.of_nat (S n))) by lia. rewrite Z.add_0_r, Z.mod_small by lia. f_equal.
           replace (Z.of_nat (S n) - 1) with (Z.of_nat n) by lia. apply ztab_ext. intros j Hj.
           unfold wadd. rewrite Z.add_mod_idemp_l by lia. replace (addr + 1 + j) with (addr + (1 + j)) by lia. apply Hb. apply Hs'. lia.
        -- exists (l ++ l2). rewrite <- evs_app. exact G2.
Qed.

(** ** Blocks *)
Lemma sn_ok v sn : sn_try_from v = Ok sn -> v = sn_raw sn.
Proof.
  unfold sn_try_from. intros H.
  repeat match goal with X : (if ?c then _ else _) = _ |- _ => destruct c eqn:?; [injection X as <-; cbn; lia|] end. discriminate.
Qed.
Lemma block_ok b t : block_type b = Some t ->
  b = match t with BCommon => 0 | BSocket sn => 4 * sn_raw sn + 1 | BTx sn => 4 * sn_raw sn + 2 | BRx sn => 4 * sn_raw sn + 3 end.
Proof.
  unfold block_type. destruct (Z.eqb_spec b 0) as [E|N]; [intros H; injection H as <-; exact E|].
  change SOCKET_SPACING with 4. destruct (sn_try_from (b / 4)) as [sn|] eqn:E; [|discriminate]. apply sn_ok in E. cbv zeta.
  destruct (b - b / 4 * 4 =? 1) eqn:E1; [intros H; injection H as <-; lia|].
  destruct (b - b / 4 * 4 =? 2) eqn:E2; [intros H; injection H as <-; lia|].
  destruct (b - b / 4 * 4 =? 3) eqn:E3; [intros H; injection H as <-; lia|]. discriminate.
Qed.
Lemma raw_range sn : 0 <= sn_raw sn < 8.
Proof. destruct sn; cbn; lia. Qed.

Lemma read_step_ok m c ns a b n r ns' m' : same_state m c -> read_alike m ns a b n = true ->
  sim_read m ns a b n = (r, ns', m') -> r <> IoPanic ->
  r = IoOk (chip_rds c b a n) /\ exists evs, same_state m' (chip_evs c evs).
Proof.
  intros H Ha E Hr. unfold read_alike in Ha. apply andb_true_iff in Ha. destruct Ha as [Ha Hx].
  assert (Hra : 0 <= a < 65536) by lia. clear Ha.
  assert (Z0 : exists evs, same_state m (chip_evs c evs)) by (exists []; exact H).
  unfold sim_read in E. destruct (block_type b) as [t|] eqn:Eb; [|injection E as <- <- <-; now elim Hr].
  pose proof (block_ok _ _ Eb) as B. destruct t as [|sn|sn|sn].
  - injection E as <- <- <-. split; [|exact Z0]. f_equal. subst b. unfold common_rds, chip_rds. apply ztab_ext. intros i Hi.
    unfold chip_rd. cbn [Z.eqb]. unfold wadd. symmetry. apply (ss_common _ _ H); [lia|].
    intros C. apply negb_true_iff in Hx. unfold reads_sir in Hx.
    assert (D : existsb (fun i => (a + Z.of_nat i) mod 65536 =? 0x17) (seq 0 (Z.to_nat n)) = true); [|rewrite Hx in D; discriminate D].
    apply existsb_exists. exists (Z.to_nat i). rewrite in_seq, Z2Nat.id by lia. split; [lia|]. lia.
  - apply andb_true_iff in Hx. destruct Hx as [Hx Hc]. apply andb_true_iff in Hx. destruct Hx as [Hu Hf].
    apply untorn_P in Hu.
    assert (Hu' : untornP a (Z.of_nat (Z.to_nat n))).
    { intros i j Hi Hij Hj. apply Hu; lia. }
    destruct (rds_untorn sn (Z.to_nat n) m c ns a r ns' m' H Hra Hu' Hc E) as (-> & l & G). split; [|exists (evs_of sn l); exact G].
    f_equal. subst b. rewrite chip_rds_sock by (pose proof (raw_range sn); lia). unfold sock_rds.
    destruct (Z.le_gt_cases n 0) as [Hn|Hn].
    { rewrite (ztab_neg n) by exact Hn. rewrite (ztab_neg (Z.of_nat _)) by lia. reflexivity. }
    rewrite Z2Nat.id by lia. apply ztab_ext. intros j Hj. unfold sock_rd. cbn [Z.eqb Pos.eqb]. symmetry.
    apply (sock_read sn (s_net m)); [apply (ss_sock _ _ H)|lia|]. intros Hfs.
    apply orb_true_iff in Hf. destruct Hf as [Hf|Hf]; [|lia]. apply negb_true_iff in Hf. unfold reads_fsr in Hf.
    assert (D : existsb (fun i => let b := (a + Z.of_nat i) mod 65536 in (b =? 0x20) || (b =? 0x21)) (seq 0 (Z.to_nat n)) = true); [|cbv zeta in D; rewrite Hf in D; discriminate D].
    apply existsb_exists. exists (Z.to_nat j). rewrite in_seq. cbv zeta. rewrite Z2Nat.id by lia. split; [lia|exact Hfs].
  - injection E as <- <- <-. pose proof (ss_sock _ _ H sn) as Hk. destruct (chip_words _ _ _ _ Hk) as (_ & _ & _ & _ & Hsz & _ & _).
    destruct (sm_txbuf _ _ _ _ Hk) as (_ & _ & L & Hm). unfold vec_rds in *. rewrite L in *. cbn [Z.eqb andb] in *.
    split; [|exact Z0]. f_equal. subst b. rewrite chip_rds_sock by (pose proof (raw_range sn); lia).
    rewrite sock_rds_tx. unfold ring. rewrite Hsz. apply ztab_ext. intros i Hi. unfold slot, wadd. symmetry. apply Hm. apply Z.mod_pos_bound. lia.
  - pose proof (ss_sock _ _ H sn) as Hk. destruct (chip_words _ _ _ _ Hk) as (_ & _ & _ & _ & _ & Hsz & _).
    destruct (sm_rxbuf _ _ _ _ Hk) as (B0 & L & Hm & _). pose proof (buf_range _ B0). unfold vec_rds in E. rewrite L in E.
    replace (bufsize_in_bytes (k_rxbuf_size (sim_socket m sn)) =? 0) with false in E by lia. cbn [andb] in E.
    injection E as <- <- <-.
    split; [|exact Z0]. f_equal. subst b. rewrite chip_rds_sock by (pose proof (raw_range sn); lia).
    rewrite sock_rds_rx. unfold ring. rewrite Hsz. apply ztab_ext. intros i Hi. unfold slot, wadd. symmetry. apply Hm. apply Z.mod_pos_bound. lia.
Qed.

(** ** Writes *)
Lemma chip_wrs_mod c b l : forall a a', a mod 65536 = a' mod 65536 -> chip_wrs c b a l = chip_wrs c b a' l.
Proof.
  revert c. induction l as [|v l IH]; intros c a a' E; [reflexivity|]. cbn [chip_wrs]. rewrite E. apply IH. lia.
Qed.
Lemma chip_wr_sock c sn a v : 
  c_common (chip_wr c (4 * sn_raw sn + 1) a v) = c_common c /\
  c_sock (chip_wr c (4 * sn_raw sn + 1) a v) (sn_raw sn) = sreg_wr (c_sock c (sn_raw sn)) a v /\
  (forall n, n <> sn_raw sn -> c_sock (chip_wr c (4 * sn_raw sn + 1) a v) n = c_sock c n).
Proof.
  pose proof (raw_range sn). unfold chip_wr, blk_sock, blk_kind. replace (4 * sn_raw sn + 1 =? 0) with false by lia.
  replace ((4 * sn_raw sn + 1) / 4) with (sn_raw sn) by lia. replace ((4 * sn_raw sn + 1) mod 4) with 1 by lia.
  cbn [c_common c_sock]. split; [reflexivity|]. split; [now rewrite upd_same|]. intros n N. now rewrite upd_other.
Qed.

Lemma step_state sn m m' c a v l : same_state m c ->
  step_to sn m m' (fold_left sock_ev l (sreg_wr (c_sock c (sn_raw sn)) a v)) ->
  same_state m' (chip_evs (chip_wr c (4 * sn_raw sn + 1) a v) (evs_of sn l)).
Proof.
  intros H [G O]. destruct (chip_wr_sock c sn a v) as (C1 & C2 & C3).
  destruct (evs_of_run sn l (chip_wr c (4 * sn_raw sn + 1) a v)) as (D1 & D2 & D3).
  eapply state_step; [exact H|exact O|now rewrite D1|intros n N; now rewrite D3, C3|]. rewrite D2, C2. exact G.
Qed.

Lemma bytesb_cons v l : bytesb (v :: l) = true -> is_u8 v /\ bytesb l = true.
Proof. unfold bytesb. cbn [forallb]. unfold byteb at 1, is_u8. intros H. apply andb_true_iff in H. destruct H. split; [lia|assumption]. Qed.

Lemma wrs_step dbg sn data : forall m c ns addr ns' m', same_state m c -> 0 <= addr < 65536 -> bytesb data = true ->
  writes_alike dbg m ns addr sn data = true -> socket_wrs dbg m ns addr sn data = (IoOk tt, ns', m') ->
  exists evs, same_state m' (chip_evs (chip_wrs c (4 * sn_raw sn + 1) addr data) evs).
Proof.
  induction data as [|v data IH]; intros m c ns addr ns' m' H Ha Hb Hw E.
  - cbn [socket_wrs] in E. injection E as <- <-. exists []. exact H.
  - cbn [socket_wrs writes_alike chip_wrs] in *. apply bytesb_cons in Hb. destruct Hb as [Hv Hb].
    destruct (socket_reg_wr dbg m ns addr v sn) as [[r1 ns1] m1] eqn:E1.
    apply andb_true_iff in Hw. destruct Hw as [Hw Hr]. apply andb_true_iff in Hw. destruct Hw as [Hw Hl].
    destruct r1 as [[]| |]; try discriminate E.
    destruct (wr_step _ _ _ _ _ _ _ _ _ H Hv Hw E1) as (l & Hn & G). apply (step_state sn m m1 c addr v l H) in G.
    rewrite (Z.mod_small addr) by exact Ha.
    destruct data as [|w data].
    + cbn [socket_wrs] in E. injection E as <- <-. exists (evs_of sn l). exact G.
    + destruct (Z.eqb_spec addr 1) as [->|N]; [discriminate Hl|]. rewrite (Hn N) in G.
      change (chip_evs _ (evs_of sn [])) with (chip_wr c (4 * sn_raw sn + 1) addr v) in G.
      rewrite (chip_wrs_mod _ _ _ (addr + 1) (wadd addr 1)) by (unfold wadd; rewrite Z.mod_mod; lia).
      eapply IH; try exact E; try assumption. unfold wadd. lia.
Qed.

Lemma commons_step data : forall m c addr, same_state m c -> 0 <= addr < 65536 -> bytesb data = true ->
  commons_alike addr data = true -> same_state (common_wrs m addr data) (chip_wrs c 0 addr data).
Proof.
  induction data as [|v data IH]; intros m c addr H Ha Hb Hw; [exact H|].
  cbn [common_wrs commons_alike chip_wrs] in *. apply bytesb_cons in Hb. destruct Hb as [Hv Hb].
  apply andb_true_iff in Hw. destruct Hw as [Hw Hr]. rewrite (Z.mod_small addr) by exact Ha.
  rewrite (chip_wrs_mod _ _ _ (addr + 1) (wadd addr 1)) by (unfold wadd; rewrite Z.mod_mod; lia).
  apply IH; try assumption; [|unfold wadd; lia].
  destruct H as [H1 H2 H3 H4].
  destruct (common_write m addr v (mkCwf _ H2 H3) Hv Hw) as (E1 & E2 & [W1 W2] & E3).
  assert (N15 : addr <> 0x15) by (intros ->; discriminate Hw).
  constructor; try assumption.
  - intros a Hx Hy. rewrite E3 by exact Hy. unfold chip_wr. cbn [Z.eqb].
    destruct (common_ro addr); [now apply H1|]. cbn [c_common]. unfold upd. destruct (a =? addr); [|now apply H1].
    now replace (addr =? 21) with false by lia.
  - intros sn. unfold sim_socket. rewrite E1, E2. unfold chip_wr. cbn [Z.eqb].
    destruct (common_ro addr); apply (H4 sn).
Qed.

Lemma vec_wrs_ring data : forall v addr w, 0 <= addr < 65536 -> vec_wrs v addr data = Some w ->
  w = mkVec (v_len v) (ring_write (v_at v) (v_len v) addr data).
Proof.
  induction data as [|b data IH]; intros v addr w Ha E.
  - cbn in E. injection E as <-. now destruct v.
  - cbn [vec_wrs] in E. destruct (v_len v =? 0); [discriminate E|]. apply IH in E; [|unfold wadd; lia]. rewrite E.
    unfold vec_set. cbn [v_len v_at ring_write]. f_equal. unfold slot at 1. rewrite (Z.mod_small addr 65536) by exact Ha.
    apply ring_write_mod. unfold wadd. lia.
Qed.
Lemma sock_wrs_rx l : forall s p,
  exists m, sock_wrs s 3 p l = with_rx s m (s_rx_wr s) (s_rxlog s) /\
            forall x, m x = ring_write (s_rxmem s) (rx_size s) p l x.
Proof.
  induction l as [|v l IH]; intros s p.
  - exists (s_rxmem s). destruct s; easy.
  - cbn [sock_wrs ring_write]. unfold sock_wr; cbn [Z.eqb Pos.eqb].
    destruct (IH (with_rx s (upd (s_rxmem s) (slot (rx_size s) (p mod 65536)) v) (s_rx_wr s) (s_rxlog s)) (p + 1))
      as (m & E & Hm).
    rewrite E. exists m. split; [reflexivity|]. intros x. rewrite Hm.
    cbn [with_rx s_rxmem rx_size s_reg].
    now rewrite slot_add16.
Qed.
Lemma ring_write_ext_below size l : 0 < size -> forall m m' p, (forall i, 0 <= i < size -> m i = m' i) ->
  forall i, 0 <= i < size -> ring_write m size p l i = ring_write m' size p l i.
Proof.
  intros Hs. induction l as [|b l IH]; intros m m' p H i Hi; [now apply H|].
  cbn [ring_write]. apply IH; [|exact Hi]. intros j Hj. unfold upd. now rewrite H.
Qed.

Lemma buf_step sn m c s' kd a d : same_state m c -> 2 <= kd <= 3 ->
  same_socket sn (s_net m) s' (sock_wrs (c_sock c (sn_raw sn)) kd a d) ->
  same_state (sim_put m sn s') (chip_wrs c (4 * sn_raw sn + kd) a d).
Proof.
  intros H Hk G. destruct (chip_wrs_sock d c (sn_raw sn) kd a ltac:(pose proof (raw_range sn); lia) ltac:(lia)) as (C1 & C2 & C3).
  eapply state_step; [exact H|apply only_put|exact C1|exact C3|]. rewrite put_socket, C2. exact G.
Qed.

Lemma write_step_ok dbg m c ns a b d ns' m' : same_state m c -> write_alike dbg m ns a b d = true ->
  sim_write dbg m ns a b d = (IoOk tt, ns', m') ->
  exists evs, same_state m' (chip_evs (chip_wrs c b a d) evs).
Proof.
  intros H Ha E. unfold write_alike in Ha. apply andb_true_iff in Ha. destruct Ha as [Ha Hx].
  apply andb_true_iff in Ha. destruct Ha as [Ha Hb]. assert (Hra : 0 <= a < 65536) by lia. clear Ha.
  unfold sim_write in E. destruct (block_type b) as [t|] eqn:Eb; [|discriminate E].
  pose proof (block_ok _ _ Eb) as B. destruct t as [|sn|sn|sn].
  - injection E as <- <-. exists []. subst b. apply commons_step; assumption.
  - subst b. eapply wrs_step; eassumption.
  - destruct (vec_wrs _ a d) as [w|] eqn:Ew in E; [|discriminate E]. injection E as <- <-. exists []. subst b.
    apply vec_wrs_ring in Ew; [|exact Hra]. cbn [chip_evs fold_left]. apply buf_step; [exact H|lia|].
    pose proof (ss_sock _ _ H sn) as Hk. destruct (chip_words _ _ _ _ Hk) as (_ & _ & _ & _ & Hsz & _ & _).
    destruct (sock_wrs_tx d (c_sock c (sn_raw sn)) a) as (mem & -> & Hm).
    destruct Hk as [H1 H2 H3 H4 H5 H6 (H7 & H7a & H7b & H7c) H8 H9 H10 H11 H12 H13].
    rewrite Ew. constructor; kcbn; scbn; cbn [v_len v_at]; try assumption.
    + repeat split; try assumption. intros i Hi. rewrite Hm, Hsz, H7b. apply ring_write_ext_below; [lia|assumption|exact Hi].
  - destruct (vec_wrs _ a d) as [w|] eqn:Ew in E; [|discriminate E]. injection E as <- <-. exists []. subst b.
    apply vec_wrs_ring in Ew; [|exact Hra]. cbn [chip_evs fold_left]. apply buf_step; [exact H|lia|].
    pose proof (ss_sock _ _ H sn) as Hk. destruct (chip_words _ _ _ _ Hk) as (_ & _ & _ & _ & _ & Hsz & _).
    destruct (sock_wrs_rx d (c_sock c (sn_raw sn)) a) as (mem & -> & Hm).
    destruct Hk as [H1 H2 H3 H4 H5 H6 H7 (H8 & H8a & H8b & H8c) H9 H10 H11 H12 H13]. pose proof (buf_range _ H8).
    rewrite Ew. constructor; kcbn; scbn; cbn [v_len v_at]; try assumption.
    + repeat split; try assumption.
      * intros i Hi. rewrite Hm, Hsz, H8a. apply ring_write_ext; [lia|assumption|exact Hi].
      * intros i Hi. rewrite ring_write_above by lia. now apply H8c.
Qed.

(** ** Runs *)
Theorem sim_simulates {A} dbg (p : prog A) : forall ns m c pend o ns' m',
  same_state m (chip_evs c pend) -> alike dbg p ns m = true -> sim_run dbg p ns m = (o, ns', m') -> o <> Panicked ->
  exists sch c' evs, no_faults sch /\ run p sch c = (o, [], c') /\ same_state m' (chip_evs c' evs).
Proof.
  induction p as [x|a b n k IH|a b d k IH| |]; intros ns m c pend o ns' m' H Ha E Ho; cbn [alike sim_run] in *.
  - injection E as <- <- <-. exists [], c, pend. split; [constructor|split; [reflexivity|exact H]].
  - apply andb_true_iff in Ha. destruct Ha as [Ha Hr]. destruct (sim_read m ns a b n) as [[r ns1] m1] eqn:E1.
    destruct (read_step_ok _ _ _ _ _ _ _ _ _ H Ha E1) as (-> & evs & G).
    { intros ->. injection E as <- <- <-. now elim Ho. }
    destruct (IH _ _ _ _ _ _ _ _ G Hr E Ho) as (sch & c' & evs' & Hn & R & S).
    exists ({| t_evs := pend; t_fault := None |} :: sch), c', evs'. split; [constructor; [reflexivity|exact Hn]|split; [exact R|exact S]].
  - apply andb_true_iff in Ha. destruct Ha as [Ha Hr]. destruct (sim_write dbg m ns a b d) as [[r ns1] m1] eqn:E1.
    destruct r as [[]| |]; [|discriminate Hr|injection E as <- <- <-; now elim Ho].
    destruct (write_step_ok _ _ _ _ _ _ _ _ _ H Ha E1) as (evs & G).
    destruct (IH _ _ _ _ _ _ _ _ G Hr E Ho) as (sch & c' & evs' & Hn & R & S).
    exists ({| t_evs := pend; t_fault := None |} :: sch), c', evs'. split; [constructor; [reflexivity|exact Hn]|split; [exact R|exact S]].
  - injection E as <- <- <-. now elim Ho.
  - injection E as <- <- <-. exists [], c, pend. split; [constructor|split; [reflexivity|exact H]].
Qed.
