(** Setting up the sockets of the clients. *)
From Verif Require Export Proof.ChipIfP Spec.Setup Spec.MqttMsg Spec.SntpMsg.
From Verif Require Import Model.Prelude Model.Bus Model.Chip Model.Specifiers Model.LlAddr Model.LlBits Model.Ll Model.HlCommon Model.HlTcp Model.HlUdp
  Model.DhcpClient Model.Sntp Model.Mqtt Model.TlsBuf Model.TlsRecord Model.TlsClient Spec.Sock Spec.Calls Spec.Hoare Proof.Base Proof.SockP Proof.OpenP.

Section Pre.
Context (sn : Sn).
Let n := snz sn.

(** A chip on the way from [c0]: the common registers are [f]. *)
Definition at_ (c0 : chip) (f : Z -> Z) (c : chip) : Prop :=
  sizes_ok (c_sock c n) /\ (dest_ip (c_sock c n), dest_port (c_sock c n)) = (dest_ip (c_sock c0 n), dest_port (c_sock c0 n)) /\
  tx_size (c_sock c n) = tx_size (c_sock c0 n) /\
  wire_ext (c_sock c0 n) (c_sock c n) /\ (forall m, m <> n -> env (c_sock c0 m) (c_sock c m)) /\ c_common c = f.
Definition imr (c : chip) : Z := s_reg (c_sock c n) 0x2C.

Lemma at_start c : sizes_ok (c_sock c n) -> at_ c (c_common c) c.
Proof. intros H. split; [exact H|]. split; [reflexivity|]. split; [reflexivity|]. split; [exists []; now rewrite app_nil_r|]. split; [intros; apply env_refl|reflexivity]. Qed.
Lemma at_evs c0 f c evs : at_ c0 f c -> at_ c0 f (chip_evs c evs) /\ imr (chip_evs c evs) = imr c /\ rx_size (c_sock (chip_evs c evs) n) = rx_size (c_sock c n).
Proof.
  intros (H1 & H2 & H3 & H4 & H5 & H6). pose proof (env_evs c evs n) as E. destruct (sizes_env _ _ H1 E) as (S1 & S2). destruct (keeps_env _ _ E) as (K & _).
  split; [|split; [apply K; lia|unfold rx_size; rewrite K by lia; reflexivity]]. split; [exact S1|]. split; [congruence|]. split; [rewrite (tx_size_env _ _ E); exact H3|].
  split; [eapply wire_trans; [exact H4|apply wire_env, E]|].
  split; [intros m Hm; eapply env_trans; [apply H5, Hm|apply env_evs]|]. now rewrite common_evs.
Qed.
(** Writes to the common registers. *)
Lemma at_common c0 f c g : at_ c0 f c -> at_ c0 g (mkChip g (c_sock c)).
Proof. intros (H1 & H2 & H3 & H4 & H5 & H6). repeat (split; [assumption|]). reflexivity. Qed.
Lemma at_simr P c0 f c : at_ c0 f c -> wpc P simr c (fun r c' => r = Ok (f 0x18) /\ at_ c0 f c' /\ imr c' = imr c /\ rx_size (c_sock c' n) = rx_size (c_sock c n)).
Proof.
  intros H. unfold simr. apply wpc_bindM, wpc_wpe, wpe_read. intros evs. cbv zeta. apply wpc_ret. destruct (at_evs _ _ _ evs H) as (A & B).
  split; [|split; [exact A|exact B]]. destruct H as (_ & _ & _ & _ & _ & <-). f_equal. change (c_common (chip_evs c evs) 0x18 = c_common c 0x18). now rewrite common_evs.
Qed.
Lemma at_set_simr P c0 f c v : at_ c0 f c ->
  wpc P (set_simr v) c (fun r c' => r = Ok tt /\ at_ c0 (upd f 0x18 v) c' /\ imr c' = imr c /\ rx_size (c_sock c' n) = rx_size (c_sock c n)).
Proof.
  intros H. unfold set_simr. apply wpc_wpe, wpe_write. intros evs. cbv zeta. split; [reflexivity|]. destruct (at_evs _ _ _ evs H) as (A & B).
  split; [|exact B]. destruct H as (_ & _ & _ & _ & _ & <-). rewrite <- (common_evs c evs). exact (at_common _ _ _ _ A).
Qed.
Definition put4 (f : Z -> Z) (v : list Z) : Z -> Z := upd (upd (upd (upd f 15 (Prelude.at_ v 0)) 16 (Prelude.at_ v 1)) 17 (Prelude.at_ v 2)) 18 (Prelude.at_ v 3).
Lemma at_set_sipr P c0 f c v : zlen v = 4 -> at_ c0 f c ->
  wpc P (set_sipr v) c (fun r c' => r = Ok tt /\ at_ c0 (put4 f v) c' /\ imr c' = imr c /\ rx_size (c_sock c' n) = rx_size (c_sock c n)).
Proof.
  intros Hv H. unfold set_sipr. apply wpc_wpe, wpe_write. intros evs. cbv zeta. split; [reflexivity|]. destruct (at_evs _ _ _ evs H) as (A & B).
  destruct v as [|b0 [|b1 [|b2 [|b3 [|b4 l]]]]]; try (exfalso; revert Hv; unfold zlen; cbn [length]; lia).
  change (Reg_addr R_SIPR0) with 15. change COMMON_BLOCK_OFFSET with 0. rewrite chip_wrs_low4 by lia. cbn [c_sock].
  split; [|exact B]. destruct H as (_ & _ & _ & _ & _ & <-). rewrite <- (common_evs c evs). exact (at_common _ _ _ _ A).
Qed.
(** Programs on the socket. *)
Lemma at_wps {A} P (p : prog A) c0 f c (Q : A -> sock -> Prop) : at_ c0 f c -> wps p n (c_sock c n) True Q ->
  wpc P p c (fun r c' => Q r (c_sock c' n) /\ (forall m, m <> n -> env (c_sock c0 m) (c_sock c' m)) /\ c_common c' = f).
Proof.
  intros (_ & _ & _ & _ & H5 & H6) H. eapply wpc_mono; [exact (wpc_wps P p sn c Q H)|]. intros r c' (H1 & H2 & H3). split; [exact H1|].
  split; [intros m Hm; eapply env_trans; [apply H5, Hm|apply H3, Hm]|]. congruence.
Qed.
Lemma at_set_imr P c0 f c v : at_ c0 f c ->
  wpc P (set_sn_imr sn v) c (fun r c' => r = Ok tt /\ at_ c0 f c' /\ imr c' = v /\ rx_size (c_sock c' n) = rx_size (c_sock c n)).
Proof.
  intros H. eapply wpc_mono; [apply (at_wps P (set_sn_imr sn v) c0 f c (fun r s' => r = Ok tt /\ exists s1, env (c_sock c n) s1 /\ s' = with_reg s1 (upd (s_reg s1) 0x2C v)) H)|].
  - unfold set_sn_imr. cbn [wps write]. exists 1. split; [lia|]. split; [apply sn_block_eq|]. intros s1 E1. split; [reflexivity|]. exists s1. split; [exact E1|reflexivity].
  - intros r c' ((-> & s1 & E1 & E2) & H1 & H2). split; [reflexivity|]. destruct H as (S & D & T & W & _). destruct (sizes_env _ _ S E1) as (S1 & D1).
    destruct (keeps_env _ _ E1) as (K & _).
    split; [|split; unfold imr, rx_size; rewrite E2; cbn [with_reg s_reg]; [now rewrite upd_same|rewrite upd_other by lia; rewrite K by lia; reflexivity]].
    unfold at_. rewrite E2. split; [exact S1|]. split; [rewrite <- D, <- D1; reflexivity|]. split; [rewrite <- T, <- (tx_size_env _ _ E1); reflexivity|].
    split; [exact (wire_trans _ _ _ W (wire_env _ _ E1))|]. split; assumption.
Qed.
Lemma at_close P c0 f c : at_ c0 f c ->
  wpc P (close sn) c (fun r c' => r = Ok tt /\ at_ c0 f c' /\ imr c' = imr c /\ rx_size (c_sock c' n) = rx_size (c_sock c n)).
Proof.
  intros H. eapply wpc_mono; [apply (at_wps P (close sn) c0 f c (fun r s' => r = Ok tt /\ exists s1, env (c_sock c n) s1 /\ s' = exec_cmd s1 (command_raw CClose)) H)|].
  - apply wps_set_cr. intros s1 E1. split; [reflexivity|]. exists s1. auto.
  - intros r c' ((-> & s1 & E1 & E2) & H1 & H2). split; [reflexivity|]. destruct H as (S & D & T & W & _). destruct (sizes_env _ _ S E1) as (S1 & D1).
    destruct (keeps_env _ _ E1) as (K & _).
    split; [|split; [unfold imr; rewrite E2; apply (K 44); lia|unfold rx_size; rewrite E2; f_equal; apply (K 0x1E); lia]].
    unfold at_. rewrite E2. split; [exact S1|]. split; [rewrite <- D, <- D1; reflexivity|]. split; [rewrite <- T, <- (tx_size_env _ _ E1); reflexivity|].
    split; [exact (wire_trans _ _ _ W (wire_env _ _ E1))|]. split; assumption.
Qed.
Lemma at_rxbuf P c0 f c b : at_ c0 f c ->
  wpc P (set_sn_rxbuf_size sn b) c (fun r c' => r = Ok tt /\ at_ c0 f c' /\ rx_size (c_sock c' n) = 1024 * bufsize_raw b).
Proof.
  intros H. eapply wpc_mono; [apply (at_wps P (set_sn_rxbuf_size sn b) c0 f c (fun r s' => r = Ok tt /\ exists s1, env (c_sock c n) s1 /\ s' = with_reg s1 (upd (s_reg s1) 0x1E (bufsize_raw b))) H)|].
  - unfold set_sn_rxbuf_size. cbn [wps write]. exists 1. split; [lia|]. split; [apply sn_block_eq|]. intros s1 E1. split; [reflexivity|]. exists s1. split; [exact E1|reflexivity].
  - intros r c' ((-> & s1 & E1 & E2) & H1 & H2). split; [reflexivity|]. destruct H as (S & D & T & W & _). destruct (sizes_env _ _ S E1) as (S1 & D1).
    assert (rx_size (c_sock c' n) = 1024 * bufsize_raw b) as R by (unfold rx_size; rewrite E2; cbn [with_reg s_reg]; now rewrite upd_same).
    split; [|exact R]. unfold at_. split; [split; [rewrite R; destruct b; unfold size_ok; cbn; lia|rewrite E2; apply S1]|].
    rewrite E2. split; [rewrite <- D, <- D1; reflexivity|]. split; [rewrite <- T, <- (tx_size_env _ _ E1); reflexivity|].
    split; [exact (wire_trans _ _ _ W (wire_env _ _ E1))|]. split; assumption.
Qed.
End Pre.

(** ** Opening *)
(** Registers no opening call writes: Sn_RXBUF_SIZE and Sn_IMR. *)
Definition kept (x : Z) : Prop := x = 0x1E \/ x = 0x2C.
Lemma kept_settings x : kept x -> settings x.
Proof. unfold kept, settings. lia. Qed.
Lemma kept_reg sn a d : 0 <= a -> a + zlen d <= 0x1E -> quiet kept (write a (sn_block sn) d).
Proof. intros H1 H2. pose proof (zlen_nonneg d). apply quiet_write_reg; [exact H1|lia|]. unfold kept. lia. Qed.
Lemma kept_poll fuel sn want : quiet kept (poll_status fuel sn want).
Proof.
  induction fuel as [|fuel IH]; cbn [poll_status]; [exact I|]. apply quiet_bindM; [unfold sn_sr; apply quiet_bindM; [apply quiet_read|intros; exact I]|].
  intros st. destruct (rstatus_eqb st (Ok want)); [exact I|exact IH].
Qed.
Ltac kept_w := unfold set_sn_cr, set_sn_mr, set_sn_port, set_sn_dest; apply kept_reg; vm_compute SnReg_addr; unfold zlen; cbn [length]; unfold be16; cbn [length]; lia.
Lemma kept_bind fuel sn port : quiet kept (udp_bind false fuel sn port).
Proof. unfold udp_bind. repeat (apply quiet_bindM; [first [exact I|apply kept_poll|kept_w]|intros _]). exact I. Qed.
Lemma kept_connect fuel sn port addr : quiet kept (tcp_connect false fuel sn port addr).
Proof. unfold tcp_connect. destruct addr as [ip dp]. repeat (apply quiet_bindM; [first [exact I|apply kept_poll|kept_w]|intros _]). kept_w. Qed.

Lemma wpc_asserted (g : M unit) dbg sn port c Q :
  (forall evs, wpc (dbg = true) g (chip_evs c evs) Q) -> wpc (dbg = true) g c Q -> wpc (dbg = true) (debug_assert dbg (port_is_unique sn port) ;;; g) c Q.
Proof.
  intros H H0. destruct dbg; [|exact H0]. unfold debug_assert. apply wpc_bindM, wpc_bindM. apply wpc_wpe.
  eapply wpe_mono; [| |apply (unique_loop port (filter (fun s => negb (sn_eqb s sn)) SOCKETS) c)]; [contradiction|].
  intros r c1 ((evs & Ec) & [(-> & _)|(-> & _)]); [apply wpc_ret; rewrite Ec; apply H|apply wpc_panic; reflexivity].
Qed.
Definition others (sn : Sn) (f : Z -> Z) (c0 c : chip) : Prop := (forall m, m <> snz sn -> env (c_sock c0 m) (c_sock c m)) /\ c_common c = f.

Lemma at_bind dbg fuel sn port c0 f c : is_u16 port -> at_ sn c0 f c ->
  wpc (dbg = true) (udp_bind dbg fuel sn port) c (fun r c' => r = Ok tt /\ others sn f c0 c' /\ imr sn c' = imr sn c /\
    let s := c_sock c0 (snz sn) in let s' := c_sock c' (snz sn) in
    configured s' 2 port (dest_ip s, dest_port s) /\ tx_size s' = tx_size s /\ pending s' = 0 /\
    exists new more, udp_view s' new (s_wire s ++ more) (dest_ip s, dest_port s)).
Proof.
  intros Hp H. change (udp_bind dbg fuel sn port) with (debug_assert dbg (port_is_unique sn port) ;;; udp_bind false fuel sn port).
  assert (forall c1, at_ sn c0 f c1 -> imr sn c1 = imr sn c -> wpc (dbg = true) (udp_bind false fuel sn port) c1 (fun r c' => r = Ok tt /\ others sn f c0 c' /\ imr sn c' = imr sn c /\
    let s := c_sock c0 (snz sn) in let s' := c_sock c' (snz sn) in
    configured s' 2 port (dest_ip s, dest_port s) /\ tx_size s' = tx_size s /\ pending s' = 0 /\
    exists new more, udp_view s' new (s_wire s ++ more) (dest_ip s, dest_port s))) as G.
  { intros c1 H1 HI. pose proof H1 as (S & D & T & (w & W) & _).
    pose proof (wps_quiet kept _ (snz sn) True _ kept_settings (kept_bind fuel sn port) _ (udp_bind_spec sn fuel port _ Hp S)) as U.
    eapply wpc_mono; [exact (at_wps sn (dbg = true) _ c0 f c1 _ H1 U)|]. cbv beta.
    intros r c' (((-> & _ & C & _ & T' & P' & new & more & V) & K) & O). split; [reflexivity|]. split; [exact O|].
    split; [rewrite <- HI; apply K; right; reflexivity|]. rewrite D in C, V. cbv zeta. split; [exact C|]. split; [congruence|]. split; [exact P'|].
    exists new, (w ++ more). rewrite app_assoc, <- W. exact V. }
  apply wpc_asserted; [intros evs; destruct (at_evs sn _ _ _ evs H) as (A & B & _); apply G; assumption|apply G; auto].
Qed.
Lemma at_connect dbg fuel sn port addr c0 f c : is_u16 port -> addr_ok addr -> at_ sn c0 f c ->
  wpc (dbg = true) (tcp_connect dbg fuel sn port addr) c (fun r c' => r = Ok tt /\ others sn f c0 c' /\ imr sn c' = imr sn c /\
    rx_size (c_sock c' (snz sn)) = rx_size (c_sock c (snz sn)) /\
    let s := c_sock c0 (snz sn) in let s' := c_sock c' (snz sn) in
    configured s' 1 port addr /\ s_sr s' = 0x15 /\ (exists more, s_wire s' = s_wire s ++ more) /\ starts s').
Proof.
  intros Hp Ha H. change (tcp_connect dbg fuel sn port addr) with (debug_assert dbg (port_is_unique sn port) ;;; tcp_connect false fuel sn port addr).
  assert (forall c1, at_ sn c0 f c1 -> imr sn c1 = imr sn c -> rx_size (c_sock c1 (snz sn)) = rx_size (c_sock c (snz sn)) -> wpc (dbg = true) (tcp_connect false fuel sn port addr) c1 (fun r c' => r = Ok tt /\ others sn f c0 c' /\ imr sn c' = imr sn c /\
    rx_size (c_sock c' (snz sn)) = rx_size (c_sock c (snz sn)) /\
    let s := c_sock c0 (snz sn) in let s' := c_sock c' (snz sn) in
    configured s' 1 port addr /\ s_sr s' = 0x15 /\ (exists more, s_wire s' = s_wire s ++ more) /\ starts s')) as G.
  { intros c1 H1 HI HR. pose proof H1 as (S & D & T & (w & W) & _).
    pose proof (wps_quiet kept _ (snz sn) True _ kept_settings (kept_connect fuel sn port addr) _ (tcp_connect_spec sn fuel port addr _ Hp Ha S)) as U.
    eapply wpc_mono; [exact (at_wps sn (dbg = true) _ c0 f c1 _ H1 U)|]. cbv beta.
    intros r c' (((-> & _ & C & _ & T' & (more & V) & X) & K) & O). split; [reflexivity|]. split; [exact O|].
    split; [rewrite <- HI; apply K; right; reflexivity|]. split; [rewrite <- HR; unfold rx_size; f_equal; apply K; left; reflexivity|].
    cbv zeta. split; [exact C|]. split; [exact T'|]. split; [|exact X].
    exists (w ++ more). rewrite app_assoc, <- W. exact V. }
  apply wpc_asserted; [intros evs; destruct (at_evs sn _ _ _ evs H) as (A & B1 & B2); apply G; assumption|apply G; auto].
Qed.

(** ** The clients *)
Lemma unmask_bits sn x k : Z.testbit (Z.lor (sn_bitmask sn) x) k = true <-> k = snz sn \/ Z.testbit x k = true.
Proof.
  unfold sn_bitmask. rewrite Z.lor_spec, Bool.orb_true_iff. change (sn_raw sn) with (snz sn). pose proof (snz_range sn) as R.
  rewrite Z.shiftl_spec_alt || idtac. enough (Z.testbit (Z.shiftl 1 (snz sn)) k = true <-> k = snz sn) as -> by reflexivity.
  destruct (Z_lt_le_dec k 0) as [L|L].
  - rewrite Z.testbit_neg_r by exact L. split; [discriminate|lia].
  - rewrite Z.shiftl_spec by exact L. destruct (Z.eq_dec k (snz sn)) as [->|N].
    + rewrite Z.sub_diag. split; reflexivity.
    + split; [|contradiction]. intros H. exfalso. destruct (Z_lt_le_dec (k - snz sn) 0) as [L'|L'].
      * rewrite Z.testbit_neg_r in H by exact L'. discriminate.
      * change 1 with (2 ^ 0) in H. rewrite Z.pow2_bits_false in H by lia. discriminate.
Qed.
Lemma enables_imr (v : Z) (on : list Z) s : s_reg s 0x2C = v ->
  forallb (fun k => Bool.eqb (Z.testbit v k) (existsb (Z.eqb k) on)) [0; 1; 2; 3; 4] = true -> enables s on.
Proof.
  intros E H k Hk. rewrite E. rewrite forallb_forall in H. specialize (H k ltac:(cbn [In]; lia)). apply Bool.eqb_prop in H. rewrite H.
  rewrite existsb_exists. split; [intros (x & Hx & Ex); apply Z.eqb_eq in Ex; now subst|intros Hx; exists k; split; [exact Hx|apply Z.eqb_refl]].
Qed.
Lemma set_up_others sn c c' v on except f : others sn f c c' -> imr sn c' = v ->
  forallb (fun k => Bool.eqb (Z.testbit v k) (existsb (Z.eqb k) on)) [0; 1; 2; 3; 4] = true ->
  f 0x18 = Z.lor (sn_bitmask sn) (c_common c 0x18) -> (forall a, a <> 0x18 -> ~ In a except -> f a = c_common c a) ->
  set_up c c' (snz sn) on except.
Proof.
  intros (O & Cm) I H F G. split; [exact (enables_imr v on _ I H)|]. split; [intros k; rewrite Cm, F; apply unmask_bits|].
  split; [intros a A B; rewrite Cm; exact (G a A B)|exact O].
Qed.
Ltac at_step L := eapply wpc_mono; [apply L; eassumption|]; cbv beta.

Lemma dhcp_setup dbg fuel cl c : is_u16 (cl_port cl) -> zlen (cl_ip cl) = 4 -> sizes_ok (c_sock c (sn_raw (cl_sn cl))) ->
  wpc (dbg = true) (setup_socket dbg fuel cl) c (fun r c' => r = Ok tt /\ set_up c c' (sn_raw (cl_sn cl)) [2] SIPR /\
    map (c_common c') SIPR = cl_ip cl /\
    let s := c_sock c (sn_raw (cl_sn cl)) in let s' := c_sock c' (sn_raw (cl_sn cl)) in
    configured s' 2 (cl_port cl) (dest_ip s, dest_port s) /\ tx_size s' = tx_size s /\ pending s' = 0 /\
    exists new more, udp_view s' new (s_wire s ++ more) (dest_ip s, dest_port s)).
Proof.
  intros Hp Hi Hz. set (sn := cl_sn cl) in *. pose proof (at_start sn c Hz) as A0. unfold setup_socket. fold sn.
  apply wpc_bindM. eapply wpc_mono; [exact (at_simr sn _ _ _ _ A0)|]. intros r1 c1 (-> & A1 & _).
  apply wpc_bindM. eapply wpc_mono; [exact (at_set_simr sn _ _ _ _ (Z.lor (sn_bitmask sn) (c_common c 24)) A1)|]. intros r2 c2 (-> & A2 & _).
  apply wpc_bindM. eapply wpc_mono; [exact (at_set_imr sn _ _ _ _ _ A2)|]. intros r3 c3 (-> & A3 & I3 & _).
  apply wpc_bindM. eapply wpc_mono; [exact (at_close sn _ _ _ _ A3)|]. intros r4 c4 (-> & A4 & I4 & _).
  apply wpc_bindM. eapply wpc_mono; [exact (at_set_sipr sn _ _ _ _ _ Hi A4)|]. intros r5 c5 (-> & A5 & I5 & _).
  eapply wpc_mono; [exact (at_bind dbg fuel sn (cl_port cl) _ _ _ Hp A5)|]. intros r6 c6 (-> & O & I6 & V). split; [reflexivity|].
  rewrite I5, I4, I3 in I6. split; [|split; [|exact V]].
  - apply (set_up_others sn c c6 _ [2] SIPR _ O I6); [reflexivity|reflexivity|]. intros a Ha Hb. unfold put4. unfold SIPR in Hb. cbn [In] in Hb.
    rewrite !upd_other by lia. reflexivity.
  - destruct O as (_ & ->). destruct (cl_ip cl) as [|b0 [|b1 [|b2 [|b3 [|b4 l]]]]]; try (exfalso; revert Hi; unfold zlen; cbn [length]; lia). reflexivity.
Qed.
Lemma sntp_setup dbg fuel cl c : is_u16 (sc_port cl) -> addr_ok (sc_server cl) -> sizes_ok (c_sock c (sn_raw (sc_sn cl))) ->
  wpc (dbg = true) (sntp_setup_socket dbg fuel cl) c (fun r c' => r = Ok tt /\ set_up c c' (sn_raw (sc_sn cl)) [2] [] /\
    let s := c_sock c (sn_raw (sc_sn cl)) in let s' := c_sock c' (sn_raw (sc_sn cl)) in
    configured s' 2 (sc_port cl) (sc_server cl) /\ tx_size s' = tx_size s /\
    exists new more, udp_view s' new (s_wire s ++ more) (sc_server cl)).
Proof.
  intros Hp Hi Hz. set (sn := sc_sn cl) in *. pose proof (at_start sn c Hz) as A0. unfold sntp_setup_socket. fold sn.
  apply wpc_bindM. eapply wpc_mono; [exact (at_simr sn _ _ _ _ A0)|]. intros r1 c1 (-> & A1 & _).
  apply wpc_bindM. eapply wpc_mono; [exact (at_set_simr sn _ _ _ _ (Z.lor (sn_bitmask sn) (c_common c 24)) A1)|]. intros r2 c2 (-> & A2 & _).
  apply wpc_bindM. eapply wpc_mono; [exact (at_set_imr sn _ _ _ _ _ A2)|]. intros r3 c3 (-> & A3 & I3 & _).
  apply wpc_bindM. eapply wpc_mono; [exact (at_close sn _ _ _ _ A3)|]. intros r4 c4 (-> & A4 & I4 & _).
  apply wpc_bindM. eapply wpc_mono; [exact (at_bind dbg fuel sn (sc_port cl) _ _ _ Hp A4)|]. intros r5 c5 (-> & (O1 & O2) & I5 & C5 & T5 & _ & new & more & V5).
  rewrite I4, I3 in I5.
  assert (wps (set_sn_dest sn (sc_server cl)) (snz sn) (c_sock c5 (snz sn)) True (fun r s' => r = Ok tt /\ exists s1, env (c_sock c5 (snz sn)) s1 /\ s' = with_reg s1 (put_dest (s_reg s1) (sc_server cl)))) as W.
  { apply wps_set_dest. intros s1 E1. split; [reflexivity|]. exists s1. auto. }
  eapply wpc_mono; [exact (wpc_wps (dbg = true) _ sn c5 _ W)|]. cbv beta. intros r6 c6 ((-> & s1 & E1 & E6) & (F1 & F2)). split; [reflexivity|].
  destruct (keeps_env _ _ E1) as (K & _). destruct (uview_env _ _ _ _ _ V5 E1) as (n1 & V1). destruct (uview_dest sn _ _ _ _ _ V1 Hi) as (V2 & Z2 & P2).
  split; [|cbv zeta; change (sn_raw sn) with (snz sn) in *; rewrite E6; split; [|split; [rewrite Z2, (tx_size_env _ _ E1); exact T5|eauto]]].
  - apply (set_up_others sn c c6 228 [2] [] (upd (c_common c) 24 (Z.lor (sn_bitmask sn) (c_common c 24)))); [| |reflexivity|reflexivity|].
    + split; [intros m Hm; eapply env_trans; [apply O1, Hm|apply F2, Hm]|]. congruence.
    + unfold imr. rewrite E6. cbn [with_reg s_reg]. unfold put_dest. destruct (sc_server cl) as [ip p]. cbn [fst snd]. rewrite !upd_other by lia. rewrite K by lia. exact I5.
    + intros a Ha _. rewrite upd_other by lia. reflexivity.
  - destruct C5 as (C1 & C2 & _). destruct V2 as (_ & _ & _ & _ & _ & D). unfold configured, local_port, of_word in *. split; [|split; [|exact D]].
    + cbn [with_reg s_reg]. unfold put_dest. destruct (sc_server cl). rewrite !upd_other by lia. rewrite K by lia. exact C1.
    + cbn [with_reg s_reg]. unfold put_dest. destruct (sc_server cl). rewrite !upd_other by lia. rewrite !K by lia. exact C2.
Qed.
Lemma wpc_qio {A B} P (p : M A) cl (f : A -> QM B) c Q :
  wpc P p c (fun r c' => match r with Ok a => wpc P (f a) c' Q | Err e => Q (Err MOther, cl) c' end) -> wpc P (q_io p cl f) c Q.
Proof. intros H. apply wpc_bind. eapply wpc_mono; [exact H|]. intros [a|e] c' H'; [exact H'|now apply wpc_ret]. Qed.
Lemma mqtt_setup dbg fuel cl now c : is_u16 (mq_src_port cl) -> addr_ok (mq_server cl) -> sizes_ok (c_sock c (sn_raw (mq_sn cl))) ->
  st_state (mq_st cl) = MInit ->
  wpc (dbg = true) (mqtt_process dbg fuel cl now) c (fun x c' => x = (Ok (MECallAfter 10), mq_set_timeout cl WaitConInt now) /\
    set_up c c' (sn_raw (mq_sn cl)) [0; 1; 2; 3] [] /\
    let s := c_sock c (sn_raw (mq_sn cl)) in let s' := c_sock c' (sn_raw (mq_sn cl)) in
    configured s' 1 (mq_src_port cl) (mq_server cl) /\ s_sr s' = 0x15 /\ (exists more, s_wire s' = s_wire s ++ more) /\
    forall s'', only_events s' s'' -> tcp_open s'' -> tcp_view s'' (s_rxlog s') (sent s')).
Proof.
  intros Hp Ha Hz Hst. set (sn := mq_sn cl) in *. pose proof (at_start sn c Hz) as A0. unfold mqtt_process. rewrite Hst. cbn [mstate_eqb].
  unfold mq_after. apply wpc_bind. unfold mqtt_tcp_connect. fold sn.
  apply wpc_qio. eapply wpc_mono; [exact (at_simr sn _ _ _ _ A0)|]. intros r1 c1 (-> & A1 & _).
  apply wpc_qio. eapply wpc_mono; [exact (at_set_simr sn _ _ _ _ (Z.lor (sn_bitmask sn) (c_common c 24)) A1)|]. intros r2 c2 (-> & A2 & _).
  apply wpc_qio. eapply wpc_mono; [exact (at_set_imr sn _ _ _ _ _ A2)|]. intros r3 c3 (-> & A3 & I3 & _).
  apply wpc_qio. eapply wpc_mono; [exact (at_connect dbg fuel sn _ _ _ _ _ Hp Ha A3)|]. intros r5 c5 (-> & O & I5 & _ & V).
  apply wpc_ret. cbn [fst snd]. apply wpc_ret. split; [reflexivity|]. rewrite I3 in I5. split; [|exact V].
  apply (set_up_others sn c c5 _ [0; 1; 2; 3] [] _ O I5); [reflexivity|reflexivity|]. intros a Hx _. rewrite upd_other by lia. reflexivity.
Qed.
Lemma wpc_aio {A B S} P e (p : M A) (cl : S) (f : A -> prog (res Z B * S)) c Q :
  wpc P p c (fun r c' => match r with Ok a => wpc P (f a) c' Q | Err x => Q (Err (e x), cl) c' end) -> wpc P (a_io e p cl f) c Q.
Proof. intros H. apply wpc_bind. eapply wpc_mono; [exact H|]. intros [a|x] c' H'; [exact H'|now apply wpc_ret]. Qed.
Lemma tls_setup cx dbg fuel cl rng now c : is_u16 (tc_src_port cl) -> addr_ok (tc_dst cl) -> sizes_ok (c_sock c (sn_raw (tc_sn cl))) ->
  tc_state cl = TReset -> forall sch x sch' c', no_faults sch -> seen_ir sch c (sn_raw (tc_sn cl)) = 0 ->
  run (tls_process cx dbg fuel cl rng now) sch c = (Done x, sch', c') ->
  x = (Ok (TCallAfter 10), set_state_with_timeout cl TWaitConInt now) /\
    set_up c c' (sn_raw (tc_sn cl)) [0; 1; 2; 3; 4] [] /\
    let s := c_sock c (sn_raw (tc_sn cl)) in let s' := c_sock c' (sn_raw (tc_sn cl)) in
    rx_size s' = zlen (b_buf (tc_rx cl)) /\
    configured s' 1 (tc_src_port cl) (tc_dst cl) /\ s_sr s' = 0x15 /\ (exists more, s_wire s' = s_wire s ++ more) /\
    forall s'', only_events s' s'' -> tcp_open s'' -> tcp_view s'' (s_rxlog s') (sent s').
Proof.
  intros Hp Ha Hz Hst sch x sch' c' Hn Hir E. set (sn := tc_sn cl) in *.
  assert (forall c0, at_ sn c (c_common c) c0 -> wpc (b_N (tc_rx cl) = 0 \/ True) (process_state cx dbg fuel cl now) c0 (fun x c' =>
    x = (Ok (TCallAfter 10), set_state_with_timeout cl TWaitConInt now) /\
    set_up c c' (sn_raw sn) [0; 1; 2; 3; 4] [] /\
    let s := c_sock c (sn_raw sn) in let s' := c_sock c' (sn_raw sn) in
    rx_size s' = zlen (b_buf (tc_rx cl)) /\
    configured s' 1 (tc_src_port cl) (tc_dst cl) /\ s_sr s' = 0x15 /\ (exists more, s_wire s' = s_wire s ++ more) /\
    forall s'', only_events s' s'' -> tcp_open s'' -> tcp_view s'' (s_rxlog s') (sent s'))) as G.
  { intros c0 A0. unfold process_state. rewrite Hst. unfold or_alert. apply wpc_bind. unfold tls_tcp_connect. fold sn.
    apply wpc_aio. eapply wpc_mono; [exact (at_close sn _ _ _ _ A0)|]. intros r1 c1 (-> & A1 & _).
    unfold unwrap. destruct (size_to_buffersize (b_N (tc_rx cl))) as [b|] eqn:Eb; [|apply wpc_panic; auto].
    apply wpc_aio. eapply wpc_mono; [exact (at_rxbuf sn _ _ _ _ b A1)|]. intros r2 c2 (-> & A2 & R2).
    apply wpc_aio. eapply wpc_mono; [exact (at_simr sn _ _ _ _ A2)|]. intros r3 c3 (-> & A3 & _ & R3).
    apply wpc_aio. eapply wpc_mono; [exact (at_set_simr sn _ _ _ _ (Z.lor (sn_bitmask sn) (c_common c 24)) A3)|]. intros r4 c4 (-> & A4 & _ & R4).
    apply wpc_aio. eapply wpc_mono; [exact (at_set_imr sn _ _ _ _ _ A4)|]. intros r5 c5 (-> & A5 & I5 & R5).
    apply wpc_aio. intros s Hs. pose proof (at_connect dbg fuel sn _ _ _ _ _ Hp Ha A5 s Hs) as H6.
    destruct (run _ s c5) as [[[r6| |] s6] c6]; auto. destruct H6 as (-> & O & I6 & R6 & V).
    cbn [run]. intros s7 Hs7. cbn [run]. split; [reflexivity|]. rewrite I5 in I6. split; [|split; [|exact V]].
    - apply (set_up_others sn c c6 _ [0; 1; 2; 3; 4] [] _ O I6); [reflexivity|reflexivity|]. intros a Hx _. rewrite upd_other by lia. reflexivity.
    - change (sn_raw sn) with (snz sn). rewrite R6, R5, R4, R3, R2. change (zlen (b_buf (tc_rx cl))) with (b_N (tc_rx cl)). revert Eb. unfold size_to_buffersize.
      repeat (match goal with |- context [b_N ?z =? ?k] => destruct (Z.eqb_spec (b_N z) k) as [->|] end; [intros Eb; injection Eb as <-; reflexivity|]). discriminate. }
  unfold tls_process in E. rewrite run_bind in E. unfold sn_ir, bindM in E. rewrite run_bind in E. fold sn in E.
  assert (exists sch1 evs, run (read (SnReg_addr S_IR) (sn_block sn) 1) sch c = (Done (Ok (chip_rds (chip_evs c evs) (sn_block sn) (SnReg_addr S_IR) 1)), sch1, chip_evs c evs) /\
    seen_ir sch c (sn_raw sn) = s_ir (c_sock (chip_evs c evs) (sn_raw sn)) /\ no_faults sch1) as (sch1 & evs & R & Ei & Hn1).
  { destruct sch as [|t sch1]; [exists [], []; auto|]. exists sch1, (t_evs t). inversion Hn; subst. split; [|split; [reflexivity|assumption]].
    unfold read. cbn [run]. rewrite H1. reflexivity. }
  rewrite R in E. cbn [run ret] in E.
  replace (Ll.byte0 (chip_rds (chip_evs c evs) (sn_block sn) (SnReg_addr S_IR) 1)) with 0 in E.
  - change (SocketInterrupt_any_raised 0) with false in E. cbv iota in E.
    destruct (at_evs sn c (c_common c) c evs (at_start sn c Hz)) as (A & _). specialize (G _ A sch1 Hn1). rewrite E in G. exact G.
  - rewrite <- Hir, Ei. destruct sn; reflexivity.
Qed.
