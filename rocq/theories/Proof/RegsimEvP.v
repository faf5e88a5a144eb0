(** What the network does to the simulator is an event of the chip. *)
From Verif Require Import Proof.Base Model.Prelude Model.Bus Model.Chip Model.Specifiers Model.LlAddr Model.LlBits
  Model.Regsim Spec.Regsim Proof.RegsimRegP Proof.RegsimSnP.

(** ** The record of the network *)
Lemma sent_app n l e : sent_by n (l ++ e) = sent_by n l ++ sent_by n e.
Proof. apply flat_map_app. Qed.
Lemma got_app n l e : got_by n (l ++ e) = got_by n l ++ got_by n e.
Proof. apply flat_map_app. Qed.
Lemma sn_eqb_refl n : sn_eqb n n = true.
Proof. destruct n; reflexivity. Qed.
Lemma sn_eqb_neq a b : a <> b -> sn_eqb a b = false.
Proof. destruct a, b; intros H; reflexivity || (elim H; reflexivity). Qed.
Lemma sn_raw_inj a b : sn_raw a = sn_raw b -> a = b.
Proof. destruct a, b; intros H; reflexivity || discriminate H. Qed.

Definition of_sn (sn : Sn) (e : netev) : Prop :=
  match e with
  | NBound n _ _ | NConnected n _ _ | NListening n _ | NAccepted n | NSent n _ _ | NGot n _ | NDgram n _ _ _ => n = sn
  end.
Lemma of_sn_other sn n e : Forall (of_sn sn) e -> n <> sn -> sent_by n e = [] /\ got_by n e = [].
Proof.
  intros He Hn. induction He as [|x e Hx He [IH1 IH2]]; [split; reflexivity|].
  unfold sent_by, got_by in *. cbn [flat_map]. rewrite IH1, IH2.
  destruct x; cbn in Hx; subst; cbn; rewrite ?(sn_eqb_neq sn n) by congruence; split; reflexivity.
Qed.

(** ** One socket changes *)
Definition evs_of (sn : Sn) (l : list sevent) : list event := map (fun e => {| ev_sn := sn_raw sn; ev_what := e |}) l.
Lemma evs_of_run sn l : forall c,
  c_common (chip_evs c (evs_of sn l)) = c_common c /\
  c_sock (chip_evs c (evs_of sn l)) (sn_raw sn) = fold_left sock_ev l (c_sock c (sn_raw sn)) /\
  (forall n, n <> sn_raw sn -> c_sock (chip_evs c (evs_of sn l)) n = c_sock c n).
Proof.
  induction l as [|e l IH]; intros c; [repeat split; reflexivity|].
  cbn [evs_of map]. unfold chip_evs in *. cbn [fold_left]. change (map _ l) with (evs_of sn l).
  destruct (IH (chip_ev c {| ev_sn := sn_raw sn; ev_what := e |})) as (H1 & H2 & H3).
  split; [exact H1|]. split.
  - rewrite H2. cbn. now rewrite upd_same.
  - intros n Hn. rewrite H3 by exact Hn. cbn. now rewrite upd_other.
Qed.

(** Everything but socket [sn] stays. *)
Record only_sn (sn : Sn) (m m' : sim) : Prop := mkOnly
  { on_regs : s_regs m' = s_regs m \/ exists v, s_regs m' = g_set_sir (s_regs m) v
  ; on_socks : forall n, n <> sn_raw sn -> s_sn m' n = s_sn m n
  ; on_log : exists e, s_net m' = s_net m ++ e /\ Forall (of_sn sn) e }.

Lemma sir_rd r v a : a <> 0x17 -> common_reg_rd (g_set_sir r v) a = common_reg_rd r a.
Proof.
  intros H. unfold common_reg_rd. destruct (Reg_try_from a) as [x|] eqn:E; [|reflexivity].
  pose proof (reg_addr _ _ E) as A. destruct x; try reflexivity. elim H. exact A.
Qed.

Lemma state_step sn m c m' c' : same_state m c -> only_sn sn m m' ->
  c_common c' = c_common c -> (forall n, n <> sn_raw sn -> c_sock c' n = c_sock c n) ->
  same_socket sn (s_net m') (sim_socket m' sn) (c_sock c' (sn_raw sn)) -> same_state m' c'.
Proof.
  intros [H1 H2 H3 H4] [Hr Hs [e [He Hf]]] Hc Ho Hk. constructor.
  - intros a Ha Ha'. rewrite Hc, H1 by assumption. destruct Hr as [->|[v ->]]; [reflexivity|].
    symmetry. apply sir_rd; exact Ha'.
  - destruct Hr as [->|[v ->]]; exact H2.
  - destruct Hr as [->|[v ->]]; exact H3.
  - intros n. destruct (Z.eq_dec (sn_raw n) (sn_raw sn)) as [E|N].
    + apply sn_raw_inj in E. subst n. exact Hk.
    + unfold sim_socket. rewrite Hs, Ho by exact N.
      destruct (of_sn_other sn n e Hf) as [E1 E2]; [intros ->; now apply N|].
      destruct (H4 n). rewrite He. constructor; try assumption.
      * now rewrite sent_app, E1, app_nil_r.
      * now rewrite got_app, E2, app_nil_r.
Qed.

Lemma only_refl sn m : only_sn sn m m.
Proof. constructor; [now left|auto|exists []; rewrite app_nil_r; auto]. Qed.
Lemma only_trans sn a b c : only_sn sn a b -> only_sn sn b c -> only_sn sn a c.
Proof.
  intros [R1 S1 [e1 [L1 F1]]] [R2 S2 [e2 [L2 F2]]]. constructor.
  - destruct R1 as [E1|[v1 E1]], R2 as [E2|[v2 E2]]; rewrite E2, E1; eauto.
    right. exists v2. destruct (s_regs a); reflexivity.
  - intros n H. rewrite S2, S1; auto.
  - exists (e1 ++ e2). rewrite L2, L1, app_assoc. split; [reflexivity|]. apply Forall_app; auto.
Qed.
Lemma only_put sn m s : only_sn sn m (sim_put m sn s).
Proof. constructor; [now left|intros n H; cbn; now rewrite upd_other|exists []; cbn; rewrite app_nil_r; auto]. Qed.
Lemma only_log sn m e : of_sn sn e -> only_sn sn m (sim_log m e).
Proof. intros H. constructor; [now left|reflexivity|exists [e]; cbn; auto]. Qed.
Lemma only_sr sn m st : only_sn sn m (sim_set_sn_sr m sn st).
Proof. apply only_put. Qed.
Lemma only_ir sn m i : only_sn sn m (raise_sn_ir m sn i).
Proof.
  unfold raise_sn_ir. eapply only_trans; [|apply only_put].
  constructor; [right; eexists; reflexivity|reflexivity|exists []; cbn; rewrite app_nil_r; auto].
Qed.
Lemma put_socket m sn s : sim_socket (sim_put m sn s) sn = s.
Proof. apply upd_same. Qed.
Lemma log_socket m sn e : sim_socket (sim_log m e) sn = sim_socket m sn.
Proof. reflexivity. Qed.
Lemma sr_socket m sn st : sim_socket (sim_set_sn_sr m sn st) sn = k_set_sr (sim_socket m sn) st.
Proof. apply upd_same. Qed.
Lemma ir_socket m sn i : sim_socket (raise_sn_ir m sn i) sn = k_set_ir (sim_socket m sn) (Z.lor (k_ir (sim_socket m sn)) i).
Proof. unfold raise_sn_ir. rewrite put_socket. reflexivity. Qed.

(** ** Events *)
Lemma lor_ir ir i : 0 <= ir < 32 -> 0 <= i < 32 -> 0 <= Z.lor ir i < 32.
Proof.
  intros H G. split; [apply Z.lor_nonneg; lia|].
  destruct (Z.eq_dec (Z.lor ir i) 0) as [E|E]; [lia|].
  change 32 with (2 ^ 5). apply Z.log2_lt_pow2; [assert (0 <= Z.lor ir i) by (apply Z.lor_nonneg; lia); lia|].
  rewrite Z.log2_lor by lia. apply Z.max_lub_lt.
  - destruct (Z.eq_dec ir 0) as [->|N]; [cbn; lia|]. apply Z.log2_lt_pow2; lia.
  - destruct (Z.eq_dec i 0) as [->|N]; [cbn; lia|]. apply Z.log2_lt_pow2; lia.
Qed.

Lemma byte_eq s s' a : k_mr s' = k_mr s -> k_port s' = k_port s -> k_dhar s' = k_dhar s -> k_dipr s' = k_dipr s ->
  k_dport s' = k_dport s -> k_mssr s' = k_mssr s -> k_tos s' = k_tos s -> k_ttl s' = k_ttl s ->
  k_rxbuf_size s' = k_rxbuf_size s -> k_txbuf_size s' = k_txbuf_size s -> k_tx_wr s' = k_tx_wr s ->
  k_rx_rd s' = k_rx_rd s -> k_imr s' = k_imr s -> k_frag s' = k_frag s -> k_kpalvtr s' = k_kpalvtr s ->
  dynamic a = false -> socket_byte s' a = socket_byte s a.
Proof.
  intros E1 E2 E3 E4 E5 E6 E7 E8 E9 E10 E11 E12 E13 E14 E15 Hd. unfold socket_byte.
  destruct (SnReg_try_from a) as [r|] eqn:E; [|reflexivity]. pose proof (snreg_addr _ _ E) as A. subst a.
  destruct r; try discriminate Hd;
    now rewrite ?E1, ?E2, ?E3, ?E4, ?E5, ?E6, ?E7, ?E8, ?E9, ?E10, ?E11, ?E12, ?E13, ?E14, ?E15.
Qed.
Ltac same_bytes := apply byte_eq; try reflexivity; try assumption.

Lemma ir_same sn log s k i : same_socket sn log s k -> 0 <= i < 32 ->
  same_socket sn log (k_set_ir s (Z.lor (k_ir s) i)) (sock_ev k (EvIr i)).
Proof.
  intros [H1 H2 H3 H4 [H5 H5'] H6 H7 H8 H9 H10 H11 H12 H13] Hi.
  cbn [sock_ev]. replace (byteb i) with true by (unfold byteb; lia).
  constructor; kcbn; cbn; try assumption.
  - intros a Ha Hd. rewrite H1 by assumption. symmetry. same_bytes.
  - rewrite H5. split; [reflexivity|]. apply lor_ir; assumption.
Qed.

(** A new status, with the socket of the host that belongs to it. *)
Lemma sr_same sn log s k st i b : same_socket sn log s k ->
  inner_ok (k_set_client (k_set_inner (k_set_sr s st) i) b) ->
  same_socket sn log (k_set_client (k_set_inner (k_set_sr s st) i) b) (with_sr k (status_raw st)).
Proof.
  intros [H1 H2 H3 [H4 H4'] H5 H6 H7 H8 H9 H10 H11 H12 H13] Hi.
  constructor; kcbn; cbn; try assumption.
  - intros a Ha Hd. rewrite H1 by assumption. symmetry. same_bytes.
  - split; [reflexivity|assumption].
Qed.

(** The record grows by something that is not data of this socket. *)
Lemma log_same sn log s k e : same_socket sn log s k -> sent_by sn [e] = [] -> got_by sn [e] = [] ->
  same_socket sn (log ++ [e]) s k.
Proof.
  intros [H1 H2 H3 H4 H5 H6 H7 H8 H9 H10 H11 H12 H13] E1 E2. constructor; try assumption.
  - now rewrite sent_app, E1, app_nil_r.
  - now rewrite got_app, E2, app_nil_r.
Qed.

(** ** Data arrives *)
Lemma ring_write_mod l : forall mem size p q, p mod 65536 = q mod 65536 -> ring_write mem size p l = ring_write mem size q l.
Proof.
  induction l as [|b l IH]; intros mem size p q H; [reflexivity|]. cbn [ring_write].
  unfold slot at 1 2. rewrite H. apply IH. lia.
Qed.

(** The receive buffer of a socket replaced. *)
Definition put_rx (s : socket) (v : vec) (wr rsr : Z) : socket :=
  k_set_rx_rsr (k_set_rx_wr (k_set_rx_buf s v) wr) rsr.
Lemma put_rx_put s v wr rsr v' wr' rsr' : put_rx (put_rx s v wr rsr) v' wr' rsr' = put_rx s v' wr' rsr'.
Proof. reflexivity. Qed.
Lemma put_rx_buf s v wr rsr : k_rx_buf (put_rx s v wr rsr) = v.
Proof. reflexivity. Qed.
Lemma put_rx_wr s v wr rsr : k_rx_wr (put_rx s v wr rsr) = wr.
Proof. reflexivity. Qed.
Lemma put_rx_rsr s v wr rsr : k_rx_rsr (put_rx s v wr rsr) = rsr.
Proof. reflexivity. Qed.
Lemma put_rx_self s : put_rx s (k_rx_buf s) (k_rx_wr s) (k_rx_rsr s) = s.
Proof. destruct s. reflexivity. Qed.

Lemma set_rx_cons s b data :
  set_rx_buf s (b :: data) =
  if v_len (k_rx_buf s) =? 0 then None else
  if v_len (k_rx_buf s) <? k_rx_rsr s + 1 then Some s else
  if 65535 <? k_rx_rsr s + 1 then None else
  set_rx_buf (put_rx s (vec_set (k_rx_buf s) (k_rx_wr s mod v_len (k_rx_buf s)) b) (wadd (k_rx_wr s) 1) (k_rx_rsr s + 1)) data.
Proof. reflexivity. Qed.

Definition grown (s : socket) (data : list Z) : socket :=
  put_rx s (mkVec (v_len (k_rx_buf s)) (ring_write (v_at (k_rx_buf s)) (v_len (k_rx_buf s)) (k_rx_wr s) data))
    ((k_rx_wr s + zlen data) mod 65536) (k_rx_rsr s + zlen data).

Lemma set_rx_fit data : forall s, 0 < v_len (k_rx_buf s) <= 16384 -> 0 <= k_rx_rsr s -> is_u16 (k_rx_wr s) ->
  k_rx_rsr s + zlen data <= v_len (k_rx_buf s) -> set_rx_buf s data = Some (grown s data).
Proof.
  induction data as [|b data IH]; intros s Hl Hr Hw Hf.
  - unfold grown. rewrite zlen_nil, !Z.add_0_r, Z.mod_small by exact Hw. cbn [ring_write set_rx_buf]. f_equal.
    rewrite <- (put_rx_self s) at 1. f_equal. now destruct (k_rx_buf s).
  - rewrite zlen_cons in Hf. pose proof (zlen_nonneg data). rewrite set_rx_cons.
    replace (v_len (k_rx_buf s) =? 0) with false by lia.
    replace (v_len (k_rx_buf s) <? k_rx_rsr s + 1) with false by lia.
    replace (65535 <? k_rx_rsr s + 1) with false by lia.
    remember (k_rx_buf s) as rb eqn:Erb. remember (k_rx_wr s) as wr eqn:Ewr. remember (k_rx_rsr s) as rsr eqn:Er.
    rewrite IH; rewrite ?put_rx_buf, ?put_rx_wr, ?put_rx_rsr; unfold vec_set; cbn [v_len].
    + f_equal. unfold grown. rewrite !put_rx_buf, !put_rx_wr, !put_rx_rsr, put_rx_put, <- Erb, <- Ewr, <- Er, zlen_cons.
      cbn [v_len v_at ring_write].
      assert (E1 : rsr + 1 + zlen data = rsr + (zlen data + 1)) by (clear; lia).
      assert (E2 : (wadd wr 1 + zlen data) mod 65536 = (wr + (zlen data + 1)) mod 65536) by (clear; unfold wadd; lia).
      assert (E3 : ring_write (upd (v_at rb) (wr mod v_len rb) b) (v_len rb) (wadd wr 1) data =
                   ring_write (upd (v_at rb) (slot (v_len rb) wr) b) (v_len rb) (wr + 1) data).
      { unfold slot. rewrite (Z.mod_small wr 65536) by exact Hw. apply ring_write_mod. clear. unfold wadd. lia. }
      rewrite E1, E2, E3. reflexivity.
    + exact Hl.
    + lia.
    + clear. unfold wadd, is_u16. lia.
    + lia.
Qed.
Lemma ring_write_app a : forall mem size p b, ring_write mem size p (a ++ b) = ring_write (ring_write mem size p a) size (p + zlen a) b.
Proof.
  induction a as [|x a IH]; intros mem size p b; [now rewrite zlen_nil, Z.add_0_r|].
  cbn [app ring_write]. rewrite IH, zlen_cons. f_equal. lia.
Qed.
Lemma grown_app s a b : grown (grown s a) b = grown s (a ++ b).
Proof.
  unfold grown. rewrite !put_rx_buf, !put_rx_wr, !put_rx_rsr, put_rx_put, zlen_app. cbn [v_len v_at].
  f_equal; [|clear; lia|clear; lia].
  f_equal. rewrite ring_write_app. apply ring_write_mod. clear. lia.
Qed.
Lemma grown_parts parts : forall s, 0 < v_len (k_rx_buf s) <= 16384 -> 0 <= k_rx_rsr s -> is_u16 (k_rx_wr s) ->
  k_rx_rsr s + zlen (concat parts) <= v_len (k_rx_buf s) ->
  fold_left (fun o part => match o with None => None | Some s => set_rx_buf s part end) parts (Some s) =
  Some (grown s (concat parts)).
Proof.
  induction parts as [|p parts IH]; intros s Hl Hr Hw Hf.
  - cbn [concat fold_left]. rewrite <- set_rx_fit; [reflexivity|assumption..].
  - cbn [concat fold_left] in *. rewrite zlen_app in Hf. pose proof (zlen_nonneg p). pose proof (zlen_nonneg (concat parts)).
    rewrite set_rx_fit by (assumption || lia). rewrite IH.
    + now rewrite grown_app.
    + unfold grown. rewrite put_rx_buf. exact Hl.
    + unfold grown. rewrite put_rx_rsr. lia.
    + unfold grown. rewrite put_rx_wr. unfold is_u16. clear. lia.
    + unfold grown. rewrite put_rx_rsr, put_rx_buf. cbn [v_len]. lia.
Qed.

Lemma slot_range size p : 0 < size -> 0 <= slot size p < size.
Proof. intros H. unfold slot. apply Z.mod_pos_bound. exact H. Qed.
Lemma ring_write_ext size l : 0 < size -> forall m m' p, (forall i, 0 <= i -> m i = m' i) ->
  forall i, 0 <= i -> ring_write m size p l i = ring_write m' size p l i.
Proof.
  intros Hs. induction l as [|b l IH]; intros m m' p H i Hi; [now apply H|].
  cbn [ring_write]. apply IH; [|exact Hi]. intros j Hj. unfold upd. now rewrite H.
Qed.
Lemma ring_write_above size l : 0 < size -> forall m p i, size <= i -> ring_write m size p l i = m i.
Proof.
  intros Hs. induction l as [|b l IH]; intros m p i Hi; [reflexivity|].
  cbn [ring_write]. rewrite IH by exact Hi. apply upd_other. pose proof (slot_range size p Hs). lia.
Qed.
Lemma buf_range b : b <> KB0 -> 1024 <= bufsize_in_bytes b <= 16384.
Proof. destruct b; intros H; try (elim H; reflexivity); cbn; lia. Qed.

Lemma rx_same sn log s k data e : same_socket sn log s k ->
  k_rx_rsr s + zlen data <= bufsize_in_bytes (k_rxbuf_size s) -> sent_by sn [e] = [] -> got_by sn [e] = data ->
  same_socket sn (log ++ [e]) (grown s data) (rx_store k data).
Proof.
  intros H Hf Es Eg. destruct (chip_words _ _ _ _ H) as (_ & _ & _ & _ & _ & Hsz & _).
  destruct H as [H1 H2 H3 H4 H5 H6 H7 (H8 & H8a & H8b & H8c) H9 (H10 & H10a & H10b) H11 H12 H13].
  pose proof (buf_range _ H8). pose proof (zlen_nonneg data). inv_u16 H2.
  unfold rx_store. rewrite Hsz, H10a. replace (zlen data <=? _) with true by lia.
  constructor; unfold grown, put_rx; kcbn; cbn [s_reg s_sr s_pend s_ir s_txmem s_rxmem s_tx_rd s_tx_cmd s_txq s_wire s_rx_base s_rx_wr s_rxlog with_rx v_len v_at]; try assumption.
  - intros a Ha Hd. rewrite H1 by assumption. symmetry. same_bytes.
  - unfold u16_ok. repeat (apply Forall_cons; [first [assumption | unfold is_u16 in *; lia]|]). apply Forall_nil.
  - repeat split; try assumption.
    + intros i Hi. rewrite H8a, H10. apply ring_write_ext; [lia|assumption|exact Hi].
    + intros i Hi. rewrite ring_write_above by lia. now apply H8c.
  - split; [now rewrite H10|]. split; [|assumption]. unfold rx_rsr in *. cbn [s_rx_wr s_rx_base with_rx].
    unfold wsub, is_u16 in *. clear - H10 H10a Hf H H0. lia.
  - rewrite sent_app, Es, app_nil_r. exact H11.
  - rewrite got_app, Eg, H12. reflexivity.
Qed.

(** ** Looking at the host's socket *)
Lemma ptrs_same sn log s k : same_socket sn log s k -> k_rx_rsr s = 0 -> k_rx_rd s = k_rx_wr s -> k_tx_rd s = k_tx_wr s ->
  same_socket sn log s (reset_ptrs k (k_tx_wr s) (k_rx_rd s)).
Proof.
  intros [H1 H2 H3 H4 H5 H6 H7 H8 H9 H10 H11 H12 H13] E1 E2 E3. pose proof H2 as H2'. inv_u16 H2'.
  unfold reset_ptrs. rewrite (Z.mod_small (k_tx_wr s)), (Z.mod_small (k_rx_rd s)) by assumption.
  constructor; cbn [s_reg s_sr s_pend s_ir s_txmem s_rxmem s_tx_rd s_tx_cmd s_txq s_wire s_rx_base s_rx_wr s_rxlog]; try assumption.
  - intros a Ha Hd. unfold upd.
    destruct (Z.eqb_spec a 0x29) as [->|]; [reflexivity|]. destruct (Z.eqb_spec a 0x28) as [->|]; [reflexivity|].
    destruct (Z.eqb_spec a 0x25) as [->|]; [reflexivity|]. destruct (Z.eqb_spec a 0x24) as [->|]; [reflexivity|].
    now apply H1.
  - rewrite E3. repeat split.
  - split; [assumption|]. split; [|assumption]. unfold rx_rsr. cbn [s_rx_wr s_rx_base]. unfold wsub. rewrite Z.sub_diag, E1. reflexivity.
Qed.

Lemma steady_eq s s' a : k_mr s' = k_mr s -> k_cr s' = k_cr s -> k_port s' = k_port s -> k_dhar s' = k_dhar s -> k_dipr s' = k_dipr s ->
  k_dport s' = k_dport s -> k_mssr s' = k_mssr s -> k_tos s' = k_tos s -> k_ttl s' = k_ttl s ->
  k_rxbuf_size s' = k_rxbuf_size s -> k_txbuf_size s' = k_txbuf_size s -> k_tx_fsr s' = k_tx_fsr s -> k_tx_rd s' = k_tx_rd s ->
  k_tx_wr s' = k_tx_wr s ->
  k_rx_rd s' = k_rx_rd s -> k_imr s' = k_imr s -> k_frag s' = k_frag s -> k_kpalvtr s' = k_kpalvtr s ->
  steady a = true -> socket_byte s' a = socket_byte s a.
Proof.
  intros E1 E2 E3 E4 E5 E6 E7 E8 E9 E10 E11 E12 E13 E14 E15 E16 E17 E18 Hd. unfold socket_byte.
  destruct (SnReg_try_from a) as [r|] eqn:E; [|reflexivity]. pose proof (snreg_addr _ _ E) as A. subst a.
  destruct r; try discriminate Hd;
    now rewrite ?E1, ?E2, ?E3, ?E4, ?E5, ?E6, ?E7, ?E8, ?E9, ?E10, ?E11, ?E12, ?E13, ?E14, ?E15, ?E16, ?E17, ?E18.
Qed.

Lemma stored_fit m ns sn e parts : 0 < v_len (k_rx_buf (sim_socket m sn)) <= 16384 ->
  0 <= k_rx_rsr (sim_socket m sn) -> is_u16 (k_rx_wr (sim_socket m sn)) ->
  k_rx_rsr (sim_socket m sn) + zlen (concat parts) <= v_len (k_rx_buf (sim_socket m sn)) ->
  stored (sim_log m e) ns sn parts =
  (IoOk tt, ns, raise_sn_ir (sim_put (sim_log m e) sn (grown (sim_socket m sn) (concat parts))) sn SocketInterrupt_RECV_MASK).
Proof. intros. unfold stored. rewrite log_socket, grown_parts by assumption. reflexivity. Qed.

Lemma forallb_bytesb l : bytesb l = forallb byteb l.
Proof. reflexivity. Qed.

(** Data stored, and the event of the chip. *)
Lemma stored_step sn m c e parts ev : same_state m c -> of_sn sn e -> sent_by sn [e] = [] -> got_by sn [e] = concat parts ->
  k_rx_rsr (sim_socket m sn) + zlen (concat parts) <= bufsize_in_bytes (k_rxbuf_size (sim_socket m sn)) ->
  sock_ev (c_sock c (sn_raw sn)) ev = rx_store (c_sock c (sn_raw sn)) (concat parts) ->
  forall ns ns' r m', stored (sim_log m e) ns sn parts = (r, ns', m') ->
  r = IoOk tt /\ exists l, same_state m' (chip_evs c (evs_of sn l)) /\
    forall a, steady a = true -> socket_byte (sim_socket m' sn) a = socket_byte (sim_socket m sn) a.
Proof.
  intros H Ho Es Eg Hf Hev ns ns' r m' E. pose proof (ss_sock _ _ H sn) as Hk.
  destruct (sm_rxbuf _ _ _ _ Hk) as (B1 & B2 & _). pose proof (buf_range _ B1).
  pose proof (sm_wide _ _ _ _ Hk) as W. inv_u16 W.
  rewrite stored_fit in E; try assumption; try (rewrite ?B2; unfold is_u16 in *; lia).
  injection E as <- <- <-. split; [reflexivity|]. exists [ev; EvIr SocketInterrupt_RECV_MASK].
  destruct (evs_of_run sn [ev; EvIr SocketInterrupt_RECV_MASK] c) as (C1 & C2 & C3).
  split.
  - eapply state_step; [exact H| |exact C1|exact C3|].
    + eapply only_trans; [|apply only_ir]. eapply only_trans; [|apply only_put]. apply only_log; exact Ho.
    + rewrite C2. cbn [fold_left]. rewrite ir_socket, put_socket, Hev. apply ir_same; [|cbv; split; congruence].
      change (s_net (raise_sn_ir (sim_put (sim_log m e) sn (grown (sim_socket m sn) (concat parts))) sn SocketInterrupt_RECV_MASK))
        with (s_net m ++ [e]).
      apply rx_same; assumption.
  - intros a Ha. rewrite ir_socket, put_socket. apply steady_eq; try reflexivity; exact Ha.
Qed.

Lemma ztake_fit n (l : list Z) : zlen l <= n -> ztake n l = l.
Proof. intros H. unfold ztake. apply firstn_all2. unfold zlen in H. lia. Qed.

Lemma inner_status s : inner_ok s -> match k_inner s with
  | None => True | Some TUdp => status_raw (k_sr s) = 0x22 | Some TStream => status_raw (k_sr s) = 0x17
  | Some TListener => status_raw (k_sr s) = if k_client s then 0x17 else 0x14 end.
Proof. unfold inner_ok. destruct (k_inner s) as [[]|]; intros H; try exact I; rewrite H; try reflexivity. now destruct (k_client s). Qed.

Lemma read_step sn m c ns r ns' m' : same_state m c -> s_sr (c_sock c (sn_raw sn)) = 0x17 ->
  match answer_of ns with AFail _ => false | AData _ _ data => bytesb data && (zlen data <=? free_rx (sim_socket m sn)) | _ => true end = true ->
  read_stream m ns sn (bufsize_in_bytes (k_rxbuf_size (sim_socket m sn))) = (r, ns', m') ->
  r = IoOk tt /\ exists l, same_state m' (chip_evs c (evs_of sn l)) /\
    forall a, steady a = true -> socket_byte (sim_socket m' sn) a = socket_byte (sim_socket m sn) a.
Proof.
  intros H Hsr Ha E. unfold read_stream in E. pose proof (ss_sock _ _ H sn) as Hk.
  assert (Z0 : exists l, same_state m (chip_evs c (evs_of sn l)) /\ forall a, steady a = true -> socket_byte (sim_socket m sn) a = socket_byte (sim_socket m sn) a).
  { exists []. split; [exact H|reflexivity]. }
  destruct (answer_of ns) as [| |q|ip port data]; try discriminate Ha;
    try (injection E as <- <- <-; split; [reflexivity|exact Z0]).
  apply andb_true_iff in Ha. destruct Ha as [Hb Hf]. unfold free_rx in Hf.
  pose proof (sm_wide _ _ _ _ Hk) as W. inv_u16 W.
  rewrite ztake_fit in E by (unfold is_u16 in *; lia).
  destruct (0 <? zlen data); [|injection E as <- <- <-; split; [reflexivity|exact Z0]].
  eapply (stored_step sn m c (NGot sn data) [data] (EvRx data)); try exact E; try assumption.
  - reflexivity.
  - reflexivity.
  - cbn. now rewrite sn_eqb_refl, app_nil_r.
  - cbn [concat]. rewrite app_nil_r. lia.
  - cbn [concat]. rewrite app_nil_r. cbn [sock_ev]. rewrite Hsr. cbn [data_state Z.eqb Pos.eqb orb andb].
    rewrite <- forallb_bytesb, Hb. reflexivity.
Qed.

Lemma check_step sn m c ns r ns' m' : same_state m c -> check_alike (sim_socket m sn) ns = true ->
  check_socket m ns sn = (r, ns', m') ->
  r = IoOk tt /\ exists l, same_state m' (chip_evs c (evs_of sn l)) /\
    forall a, steady a = true -> socket_byte (sim_socket m' sn) a = socket_byte (sim_socket m sn) a.
Proof.
  intros H Ha E. pose proof (ss_sock _ _ H sn) as Hk.
  assert (Z0 : exists l, same_state m (chip_evs c (evs_of sn l)) /\ forall a, steady a = true -> socket_byte (sim_socket m sn) a = socket_byte (sim_socket m sn) a).
  { exists []. split; [exact H|reflexivity]. }
  pose proof (inner_status _ (sm_inner _ _ _ _ Hk)) as Hi. destruct (sm_status _ _ _ _ Hk) as [Hs Hp].
  pose proof (sm_wide _ _ _ _ Hk) as W. inv_u16 W.
  unfold check_socket in E. unfold check_alike in Ha.
  destruct (k_inner (sim_socket m sn)) as [[]|] eqn:Ei.
  - (* UDP *)
    destruct (answer_of ns) as [| |q|ip port data]; try discriminate Ha;
      try (injection E as <- <- <-; split; [reflexivity|exact Z0]).
    repeat (apply andb_true_iff in Ha; destruct Ha as [Ha ?]). unfold free_rx in *.
    pose proof (zlen_nonneg data).
    rewrite ztake_fit in E by (unfold is_u16 in *; lia).
    assert (Ec : concat [ip; be16 port; be16 (zlen data); data] = udp_image ip port data).
    { unfold udp_image. cbn [concat]. now rewrite app_nil_r. }
    eapply (stored_step sn m c (NDgram sn ip port data) [ip; be16 port; be16 (zlen data); data] (EvUdp ip port data));
      try exact E; try assumption.
    + reflexivity.
    + reflexivity.
    + rewrite Ec. cbn. now rewrite sn_eqb_refl, app_nil_r.
    + rewrite Ec. unfold udp_image. rewrite !zlen_app. change (zlen (be16 port)) with 2. change (zlen (be16 (zlen data))) with 2. lia.
    + rewrite Ec. cbn [sock_ev]. rewrite Hs, Hi. unfold bytesb in *.
      repeat match goal with X : _ = true |- _ => rewrite X end. reflexivity.
  - (* a listener *)
    destruct (k_client (sim_socket m sn)) eqn:Ecl.
    + eapply read_step; try exact E; try assumption; try (rewrite Hs; exact Hi).
    + destruct (answer_of ns) as [| |q|ip port data]; try discriminate Ha;
        try (injection E as <- <- <-; split; [reflexivity|exact Z0]).
      injection E as <- <- <-. split; [reflexivity|].
      repeat (apply andb_true_iff in Ha; destruct Ha as [Ha ?]).
      set (s := sim_socket m sn) in *. set (k := c_sock c (sn_raw sn)) in *.
      exists [EvConnected (k_tx_wr s) (k_rx_rd s); EvIr SocketInterrupt_CON_MASK].
      destruct (evs_of_run sn [EvConnected (k_tx_wr s) (k_rx_rd s); EvIr SocketInterrupt_CON_MASK] c) as (C1 & C2 & C3).
      split.
      * eapply state_step; [exact H| |exact C1|exact C3|].
        -- eapply only_trans; [|apply only_sr]. eapply only_trans; [|apply only_ir]. eapply only_trans; [|apply only_put].
           apply only_log. reflexivity.
        -- rewrite C2. cbn [fold_left]. fold k. rewrite sr_socket, ir_socket, put_socket.
           match goal with |- same_socket sn ?l _ _ => change l with (s_net m ++ [NAccepted sn]) end.
           match goal with |- same_socket _ _ ?x (sock_ev ?y _) =>
             assert (G : same_socket sn (s_net m ++ [NAccepted sn]) (k_set_client (k_set_inner (k_set_sr s Established) (k_inner s)) true) y) end.
           { cbn [sock_ev]. rewrite Hs, Hi. cbn [opening_state Z.eqb Pos.eqb orb].
             apply (sr_same sn _ s _ Established (k_inner s) true).
             - apply ptrs_same; [apply log_same; [exact Hk|reflexivity|reflexivity]|lia..].
             - unfold inner_ok. kcbn. rewrite Ei. reflexivity. }
           apply (ir_same _ _ _ _ SocketInterrupt_CON_MASK) in G; [exact G|cbv; split; congruence].
      * intros a Hst. rewrite sr_socket, ir_socket, put_socket. apply steady_eq; try reflexivity; exact Hst.
  - (* a stream *)
    eapply read_step; try exact E; try assumption; try (rewrite Hs; exact Hi).
  - injection E as <- <- <-. split; [reflexivity|exact Z0].
Qed.
