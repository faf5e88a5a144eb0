(** How events affect one socket, and weakest preconditions for programs on one socket. *)
From Verif Require Export Proof.ChipP Model.LlAddr Model.Ll.

Lemma size_ok_range z : size_ok z -> 0 <= z <= 16384.
Proof. unfold size_ok. lia. Qed.

(** ** One event *)
Definition evo (s s' : sock) : Prop :=
  idle s' /\
  s_reg s' = s_reg s /\ s_pend s' = s_pend s /\ s_txmem s' = s_txmem s /\ s_tx_cmd s' = s_tx_cmd s /\
  s_rx_base s' = s_rx_base s /\ s_cmdlog s' = s_cmdlog s /\
  (tcp_open s -> tcp_open s') /\ (udp_open s -> udp_open s') /\
  (rx_wf s -> rx_wf s' /\ exists new, bytes_ok new /\ unread s' = unread s ++ new /\
     s_rxlog s' = s_rxlog s ++ new) /\
  (rx_wf s -> udp_open s -> exists ds, Forall dgram_ok ds /\ unread s' = unread s ++ images ds /\
     s_rxlog s' = s_rxlog s ++ images ds) /\
  (tx_wf s -> tx_wf s' /\ tx_stream s' = tx_stream s /\ pending s' <= pending s /\
     (udp_open s -> tx_frames s' = tx_frames s)).

Lemma evo_refl s : idle s -> evo s s.
Proof.
  intros H. unfold evo. split; [exact H|]. repeat (split; [reflexivity|]).
  split; [tauto|]. split; [tauto|]. split; [|split].
  - intros X. split; [exact X|]. exists []. rewrite !app_nil_r. repeat split. constructor.
  - intros _ _. exists []. unfold images; cbn. rewrite !app_nil_r. repeat split. constructor.
  - intros X. split; [exact X|]. split; [reflexivity|]. split; [lia|]. reflexivity.
Qed.

Lemma images_app a b : images (a ++ b) = images a ++ images b.
Proof. unfold images. now rewrite map_app, concat_app. Qed.

Lemma evo_trans a b c : evo a b -> evo b c -> evo a c.
Proof.
  intros (I1 & R1 & P1 & M1 & C1 & B1 & L1 & T1 & U1 & X1 & Y1 & W1)
         (I2 & R2 & P2 & M2 & C2 & B2 & L2 & T2 & U2 & X2 & Y2 & W2).
  unfold evo. split; [exact I2|].
  repeat (split; [congruence|]).
  split; [tauto|]. split; [tauto|]. split; [|split].
  - intros H. destruct (X1 H) as (H1 & n1 & Hn1 & E1 & F1). destruct (X2 H1) as (H2 & n2 & Hn2 & E2 & F2).
    split; [exact H2|]. exists (n1 ++ n2). rewrite E2, E1, F2, F1, !app_assoc.
    split; [now apply bytes_ok_app|]. auto.
  - intros H Hu. destruct (X1 H) as (H1 & _). destruct (Y1 H Hu) as (d1 & Hd1 & E1 & F1).
    destruct (Y2 H1 (U1 Hu)) as (d2 & Hd2 & E2 & F2).
    exists (d1 ++ d2). rewrite images_app, E2, E1, F2, F1, !app_assoc.
    split; [now apply Forall_app|]. auto.
  - intros H. destruct (W1 H) as (H1 & S1 & D1 & F1). destruct (W2 H1) as (H2 & S2 & D2 & F2).
    split; [exact H2|]. split; [congruence|]. split; [lia|]. intros Hu. rewrite F2 by tauto. tauto.
Qed.

(** Receiving appends. *)
Lemma rx_store_spec s l : rx_wf s ->
  let s' := rx_store s l in
  rx_wf s' /\
  ((unread s' = unread s ++ l /\ s_rxlog s' = s_rxlog s ++ l) \/ s' = s).
Proof.
  intros (Hs & Hb & Hw & Hr). unfold rx_store.
  destruct (Z.leb_spec (zlen l) (rx_size s - rx_rsr s)) as [Hl|Hl]; [|cbv zeta; split; [split; auto|right; auto]].
  pose proof (size_ok_range _ Hs) as Hsz. pose proof (zlen_nonneg l) as Hl0.
  assert (rx_rsr (with_rx s (ring_write (s_rxmem s) (rx_size s) (s_rx_wr s) l)
      ((s_rx_wr s + zlen l) mod 65536) (s_rxlog s ++ l)) = rx_rsr s + zlen l) as E.
  { unfold rx_rsr, wsub in *. cbn [with_rx s_rx_wr s_rx_base]. unfold is_u16 in *. lia. }
  assert (0 <= rx_rsr s) as Hr0 by (unfold rx_rsr, wsub; lia).
  cbv zeta. split.
  - unfold rx_wf. rewrite E. cbn [with_rx s_rx_base s_rx_wr]. change (rx_size (with_rx _ _ _ _)) with (rx_size s).
    repeat split; auto; try (unfold is_u16 in *; lia).
  - left. split; [|reflexivity]. unfold unread. rewrite E.
    change (rx_size (with_rx _ _ _ _)) with (rx_size s). cbn [with_rx s_rxmem s_rx_base].
    rewrite ring_app by lia. f_equal.
    + apply ring_write_before; auto; [lia|]. unfold rx_rsr, wsub, is_u16 in *. lia.
    + assert (ring (ring_write (s_rxmem s) (rx_size s) (s_rx_wr s) l) (rx_size s)
         ((s_rx_base s + rx_rsr s) mod 65536) (zlen l) = l) as E2.
      { replace ((s_rx_base s + rx_rsr s) mod 65536) with (s_rx_wr s)
          by (unfold rx_rsr, wsub, is_u16 in *; lia).
        apply ring_write_same; auto. lia. }
      now rewrite ring_mod in E2.
Qed.

Lemma rx_store_other s l :
  s_reg (rx_store s l) = s_reg s /\ s_pend (rx_store s l) = s_pend s /\
  s_txmem (rx_store s l) = s_txmem s /\ s_tx_cmd (rx_store s l) = s_tx_cmd s /\
  s_rx_base (rx_store s l) = s_rx_base s /\ s_cmdlog (rx_store s l) = s_cmdlog s /\
  s_sr (rx_store s l) = s_sr s /\ s_tx_rd (rx_store s l) = s_tx_rd s /\
  s_txq (rx_store s l) = s_txq s /\ s_wire (rx_store s l) = s_wire s.
Proof. unfold rx_store. destruct (zlen l <=? rx_size s - rx_rsr s); repeat split. Qed.

Lemma forallb_byteb l : forallb byteb l = true -> bytes_ok l.
Proof.
  intros H. rewrite forallb_forall in H. apply Forall_forall. intros x Hx. specialize (H x Hx).
  unfold byteb in H. unfold is_u8. lia.
Qed.

(** The transmit side and status do not depend on the receive side. *)
Lemma tx_same s s' :
  s_reg s' = s_reg s -> s_tx_rd s' = s_tx_rd s -> s_tx_cmd s' = s_tx_cmd s -> s_txq s' = s_txq s ->
  s_txmem s' = s_txmem s -> s_wire s' = s_wire s ->
  (tx_wf s -> tx_wf s') /\ tx_stream s' = tx_stream s /\ pending s' = pending s /\
  tx_frames s' = tx_frames s.
Proof.
  intros E1 E2 E3 E4 E5 E6. unfold tx_wf, tx_stream, tx_frames, sent, unsent, pending, tx_size.
  rewrite E1, E2, E3, E4, E5, E6. tauto.
Qed.
Lemma rx_same s s' :
  s_reg s' = s_reg s -> s_rx_base s' = s_rx_base s -> s_rx_wr s' = s_rx_wr s -> s_rxmem s' = s_rxmem s ->
  (rx_wf s -> rx_wf s') /\ unread s' = unread s.
Proof.
  intros E1 E2 E3 E4. unfold rx_wf, unread, rx_rsr, rx_size. rewrite E1, E2, E3, E4. tauto.
Qed.

Lemma evo_rx s l : idle s -> bytes_ok l ->
  (udp_open s -> rx_wf s -> rx_rsr s + zlen l <= rx_size s ->
     exists d, dgram_ok d /\ l = dgram_image d) ->
  evo s (rx_store s l).
Proof.
  intros I B U. destruct (rx_store_other s l) as (E1&E2&E3&E4&E5&E6&E7&E8&E9&E10).
  pose proof (tx_same s (rx_store s l) E1 E8 E4 E9 E3 E10) as (T1 & T2 & T3 & T4).
  unfold evo. split; [unfold idle in *; now rewrite E2, E7|].
  repeat (split; [assumption|]).
  split; [unfold tcp_open; now rewrite E2, E7|].
  split; [unfold udp_open; now rewrite E2, E7|].
  split; [|split].
  - intros H. destruct (rx_store_spec s l H) as (H1 & [[H2 H3]|H2]).
    + split; [exact H1|]. exists l. auto.
    + rewrite H2. split; [exact H|]. exists []. rewrite !app_nil_r. repeat split. constructor.
  - intros H Hu. destruct (Z.leb_spec (zlen l) (rx_size s - rx_rsr s)) as [C|C].
    + destruct (U Hu H ltac:(lia)) as (d & Hd & El).
      destruct (rx_store_spec s l H) as (H1 & [[H2 H3]|H2]).
      * exists [d]. split; [constructor; [exact Hd|constructor]|]. unfold images. cbn [map concat].
        rewrite app_nil_r, <- El. auto.
      * rewrite H2. exists []. unfold images; cbn. rewrite !app_nil_r. repeat split. constructor.
    + assert (rx_store s l = s) as ->.
      { unfold rx_store. replace (zlen l <=? rx_size s - rx_rsr s) with false by lia. reflexivity. }
      exists []. unfold images; cbn. rewrite !app_nil_r. repeat split. constructor.
  - intros H. split; [tauto|]. split; [assumption|]. split; [lia|]. auto.
Qed.

Lemma sum_len_nonneg q : Forall (fun t => 0 <= te_len t) q -> 0 <= sum_len q.
Proof. induction 1; cbn [sum_len]; lia. Qed.
Lemma queued_mod mem size q : forall p, queued mem size (p mod 65536) q = queued mem size p q.
Proof.
  induction q as [|t q IH]; intros p; [reflexivity|]. cbn [queued]. rewrite ring_mod. f_equal.
  rewrite <- (IH (p mod 65536 + te_len t)), <- (IH (p + te_len t)). f_equal. lia.
Qed.

Lemma evo_tx s k : idle s -> evo s (sock_ev s (EvTx k)).
Proof.
  intros I. cbn [sock_ev]. destruct (s_txq s) as [|t q] eqn:Eq; [now apply evo_refl|].
  set (k' := if s_sr s =? 34 then te_len t else Z.min (te_len t) (Z.max 0 k)).
  destruct ((s_sr s =? 34) || (s_sr s =? 23) || (s_sr s =? 28)); [|now apply evo_refl].
  set (s' := with_tx _ _ _ _ _).
  unfold evo. split; [exact I|]. repeat (split; [reflexivity|]).
  split; [tauto|]. split; [tauto|].
  assert (unread s' = unread s /\ (rx_wf s -> rx_wf s')) as [R1 R2] by (split; [reflexivity|tauto]).
  split; [|split].
  - intros H. split; [tauto|]. exists []. rewrite !app_nil_r. repeat split. constructor.
  - intros H Hu. exists []. unfold images; cbn [map concat]. rewrite !app_nil_r. repeat split. constructor.
  - intros (Hs & Hr & Hc & Hq & Hp & Hle). rewrite Eq in *.
    inversion Hq as [|? ? Ht Hq']; subst. pose proof (sum_len_nonneg _ Hq') as Hq0.
    cbn [sum_len] in Hp. pose proof (size_ok_range _ Hs) as Hsz.
    assert (0 <= k' <= te_len t) as Hk by (unfold k'; destruct (s_sr s =? 34); lia).
    assert (pending s' = pending s - k') as Ep.
    { unfold pending, s', wsub, is_u16 in *. cbn [with_tx s_tx_cmd s_tx_rd]. lia. }
    assert (unsent s' = zdrop k' (unsent s)) as Eu.
    { unfold unsent at 2. rewrite ring_drop by lia. unfold unsent. rewrite Ep.
      change (tx_size s') with (tx_size s). unfold s'. cbn [with_tx s_txmem s_tx_rd].
      now rewrite ring_mod. }
    assert (sent s' = sent s ++ ring (s_txmem s) (tx_size s) (s_tx_rd s) k') as Es.
    { unfold sent, s'. cbn [with_tx s_wire]. rewrite map_app, concat_app. cbn. now rewrite app_nil_r. }
    assert (tx_wf s') as Hwf.
    { unfold tx_wf. rewrite Ep. change (tx_size s') with (tx_size s).
      unfold s'. cbn [with_tx s_tx_rd s_tx_cmd s_txq].
      split; [assumption|]. split; [unfold is_u16; lia|]. split; [assumption|].
      destruct (Z.eqb_spec k' (te_len t)); [split; [assumption|lia]|].
      split; [constructor; [cbn; lia|assumption]|]. cbn [sum_len te_len]. lia. }
    split; [exact Hwf|]. split; [|split; [lia|]].
    + unfold tx_stream. rewrite Es, Eu. rewrite <- app_assoc. f_equal.
      unfold unsent at 2. rewrite <- (ztake_zdrop k' (ring _ _ _ (pending s))). f_equal.
      now rewrite ring_take by lia.
    + intros [_ Hu]. assert (k' = te_len t) as Ek by (unfold k'; now rewrite Hu).
      unfold tx_frames. change (tx_size s') with (tx_size s). unfold s'.
      cbn [with_tx s_wire s_txq s_txmem s_tx_rd]. rewrite Ek, Z.eqb_refl, Eq.
      rewrite <- app_assoc. f_equal. cbn [queued app]. f_equal. apply queued_mod.
Qed.

Lemma evo_same s s' : idle s -> idle s' ->
  s_reg s' = s_reg s -> s_pend s' = s_pend s -> s_txmem s' = s_txmem s -> s_tx_cmd s' = s_tx_cmd s ->
  s_rx_base s' = s_rx_base s -> s_cmdlog s' = s_cmdlog s ->
  s_tx_rd s' = s_tx_rd s -> s_txq s' = s_txq s -> s_wire s' = s_wire s ->
  s_rx_wr s' = s_rx_wr s -> s_rxmem s' = s_rxmem s -> s_rxlog s' = s_rxlog s ->
  (tcp_open s -> tcp_open s') -> (udp_open s -> udp_open s') ->
  evo s s'.
Proof.
  intros I I' E1 E2 E3 E4 E5 E6 E7 E8 E9 E10 E11 E12 T U.
  destruct (tx_same s s') as (T1 & T2 & T3 & T4); auto.
  destruct (rx_same s s') as (R1 & R2); auto.
  unfold evo. repeat (split; [assumption|]). split; [|split].
  - intros H. split; [tauto|]. exists []. rewrite !app_nil_r. repeat split; auto. constructor.
  - intros H Hu. exists []. unfold images; cbn. rewrite !app_nil_r. repeat split; auto.
  - intros H. split; [tauto|]. split; [assumption|]. split; [lia|]. auto.
Qed.

Lemma evo_ev s e : idle s -> evo s (sock_ev s e).
Proof.
  intros I. destruct e as [seg|ip port data|k|v|v|ptx prx|ptx prx]; cbn [sock_ev].
  - destruct (data_state (s_sr s)) eqn:Ed; [|now apply evo_refl]. cbn [andb].
    destruct (forallb byteb seg) eqn:Ef; [|now apply evo_refl].
    apply evo_rx; auto using forallb_byteb.
    intros [_ Hu]. rewrite Hu in Ed. discriminate.
  - destruct ((s_sr s =? 34) && (zlen ip =? 4) && forallb byteb ip && (0 <=? port) && (port <? 65536) &&
      forallb byteb data) eqn:E; [|now apply evo_refl].
    rewrite !andb_true_iff in E. destruct E as (((((E1 & E2) & E3) & E4) & E5) & E6).
    apply forallb_byteb in E3, E6.
    assert (bytes_ok (udp_image ip port data)) as Hb.
    { unfold udp_image. repeat (apply bytes_ok_app; split); auto using bytes_ok_be16. }
    apply evo_rx; auto. intros _ H Hl.
    exists {| d_ip := ip; d_port := port; d_data := data |}. split; [|reflexivity].
    unfold udp_image in Hl. rewrite !zlen_app, !zlen_be16 in Hl. destruct H as (Hs & _).
    apply size_ok_range in Hs. assert (0 <= rx_rsr s) by (unfold rx_rsr, wsub; lia).
    unfold dgram_ok, is_u16; cbn. repeat split; auto; lia.
  - now apply evo_tx.
  - destruct I as [I1 I2]. rewrite I2. rewrite andb_false_l, orb_false_r.
    destruct (data_state (s_sr s)) eqn:Ed; [|now apply evo_refl]. cbn [andb].
    destruct (data_state v || (v =? 0)) eqn:Ev; [|now apply evo_refl].
    assert (opening_state v = false) as Ho.
    { apply orb_true_iff in Ev. destruct Ev as [Ev|Ev].
      - unfold data_state in Ev. unfold opening_state. lia.
      - unfold opening_state. lia. }
    apply evo_same; try reflexivity; try (split; assumption).
    + intros [Hp _]. split; [exact Hp|]. cbn. apply orb_true_iff in Ev. destruct Ev; [auto|right; lia].
    + intros [_ Hu]. rewrite Hu in Ed. discriminate.
  - destruct (byteb v); [|now apply evo_refl]. apply evo_same; try reflexivity; auto.
  - destruct I as [I1 I2]. rewrite I2. now apply evo_refl.
  - destruct I as [I1 I2]. rewrite I1. now apply evo_refl.
Qed.

Lemma evo_env s s' : idle s -> env s s' -> evo s s'.
Proof.
  intros I [l ->]. revert s I. induction l as [|e l IH]; intros s I; [now apply evo_refl|].
  unfold sock_evs in *. cbn [fold_left]. pose proof (evo_ev s e I) as H.
  eapply evo_trans; [exact H|]. apply IH. apply H.
Qed.

Lemma tcp_idle s : tcp_open s -> idle s.
Proof.
  intros [H1 [H2|H2]]; split; auto; unfold opening_state, data_state in *; lia.
Qed.
Lemma udp_idle s : udp_open s -> idle s.
Proof. intros [H1 H2]. split; auto. rewrite H2. reflexivity. Qed.

(** ** Programs on one socket *)
Fixpoint wps {A} (p : prog A) (n : Z) (s : sock) (D : Prop) (Q : A -> sock -> Prop) : Prop :=
  match p with
  | Ret a => Q a s
  | Rd a b len k =>
      (exists kd, 1 <= kd <= 3 /\ b = 4 * n + kd /\
        forall s1, env s s1 -> wps (k (Some (sock_rds s1 kd a len))) n s1 D Q)
  | Wr a b d k =>
      (exists kd, 1 <= kd <= 3 /\ b = 4 * n + kd /\
        forall s1, env s s1 -> wps (k true) n (sock_wrs s1 kd a d) D Q)
  | Panic => False
  | Diverge => D
  end.

(** The rest of the chip only sees events. *)
Definition frame_ok (n : Z) (c c' : chip) : Prop :=
  c_common c' = c_common c /\ forall m, m <> n -> env (c_sock c m) (c_sock c' m).

Lemma frame_refl n c : frame_ok n c c.
Proof. split; [reflexivity|]. intros. apply env_refl. Qed.
Lemma frame_trans n a b c : frame_ok n a b -> frame_ok n b c -> frame_ok n a c.
Proof.
  intros [H1 H2] [H3 H4]. split; [congruence|]. intros m Hm. eapply env_trans; eauto.
Qed.
Lemma frame_evs n c evs : frame_ok n c (chip_evs c evs).
Proof.
  split; [apply (chip_evs_sock evs c 0)|]. intros. apply env_evs.
Qed.
Lemma frame_wrs n kd c a d : 0 <= n -> 1 <= kd <= 3 -> frame_ok n c (chip_wrs c (4 * n + kd) a d).
Proof.
  intros H1 H2. destruct (chip_wrs_sock d c n kd a H1 H2) as (E1 & _ & E3). split; [exact E1|].
  intros m Hm. rewrite E3 by assumption. apply env_refl.
Qed.

Lemma wps_sound {A} (p : prog A) : forall n c D (Q : A -> sock -> Prop) sch,
  0 <= n -> wps p n (c_sock c n) D Q -> no_faults sch ->
  match run p sch c with
  | (Done a, sch', c') => Q a (c_sock c' n) /\ no_faults sch' /\ frame_ok n c c'
  | (Panicked, _, _) => False
  | (Diverged, _, _) => D
  end.
Proof.
  induction p as [a|a b len k IH|a b d k IH| |]; intros n c D Q sch Hn H Hs; cbn [run wps] in *.
  - split; [assumption|]. split; [assumption|]. apply frame_refl.
  - destruct H as (kd & Hk & -> & H).
    assert (forall c1, env (c_sock c n) (c_sock c1 n) -> frame_ok n c c1 -> forall sch', no_faults sch' ->
      match run (k (Some (chip_rds c1 (4 * n + kd) a len))) sch' c1 with
      | (Done a, sch', c') => Q a (c_sock c' n) /\ no_faults sch' /\ frame_ok n c c'
      | (Panicked, _, _) => False
      | (Diverged, _, _) => D
      end) as G.
    { intros c1 He Hf sch' Hs'. rewrite chip_rds_sock by assumption.
      specialize (IH _ n c1 D Q sch' Hn (H _ He) Hs').
      destruct (run _ sch' c1) as [[[x| |] sc] c']; auto.
      destruct IH as (I1 & I2 & I3). split; [assumption|]. split; [assumption|].
      eapply frame_trans; eassumption. }
    destruct sch as [|t sch].
    + apply G; auto using env_refl, frame_refl.
    + inversion Hs as [|? ? Ht Hs']; subst. rewrite Ht. apply G; auto using env_evs, frame_evs.
  - destruct H as (kd & Hk & -> & H).
    assert (forall c1, env (c_sock c n) (c_sock c1 n) -> frame_ok n c c1 -> forall sch', no_faults sch' ->
      match run (k true) sch' (chip_wrs c1 (4 * n + kd) a d) with
      | (Done a, sch', c') => Q a (c_sock c' n) /\ no_faults sch' /\ frame_ok n c c'
      | (Panicked, _, _) => False
      | (Diverged, _, _) => D
      end) as G.
    { intros c1 He Hf sch' Hs'.
      destruct (chip_wrs_sock d c1 n kd a Hn Hk) as (_ & E2 & _).
      specialize (IH true n (chip_wrs c1 (4 * n + kd) a d) D Q sch' Hn).
      rewrite E2 in IH. specialize (IH (H _ He) Hs').
      destruct (run _ sch' _) as [[[x| |] sc] c']; auto.
      destruct IH as (I1 & I2 & I3). split; [assumption|]. split; [assumption|].
      eapply frame_trans; [eassumption|]. eapply frame_trans; [|eassumption].
      now apply frame_wrs. }
    destruct sch as [|t sch].
    + apply G; auto using env_refl, frame_refl.
    + inversion Hs as [|? ? Ht Hs']; subst. rewrite Ht. apply G; auto using env_evs, frame_evs.
  - contradiction.
  - assumption.
Qed.

Lemma wps_mono {A} (p : prog A) : forall n s (D D' : Prop) (Q Q' : A -> sock -> Prop),
  (D -> D') -> (forall a s', Q a s' -> Q' a s') -> wps p n s D Q -> wps p n s D' Q'.
Proof.
  induction p as [a|a b len k IH|a b d k IH| |]; intros n s D D' Q Q' HD HQ H; cbn [wps] in *; auto.
  - destruct H as (kd & Hk & Hb & H). exists kd. split; [assumption|]. split; [assumption|].
    intros s1 He. eapply IH; eauto.
  - destruct H as (kd & Hk & Hb & H). exists kd. split; [assumption|]. split; [assumption|].
    intros s1 He. eapply IH; eauto.
Qed.
Lemma wps_bind {A B} (p : prog A) (f : A -> prog B) : forall n s D (Q : B -> sock -> Prop),
  wps p n s D (fun a s' => wps (f a) n s' D Q) -> wps (bind p f) n s D Q.
Proof.
  induction p as [a|a b len k IH|a b d k IH| |]; intros n s D Q H; cbn [wps bind] in *; auto.
  - destruct H as (kd & Hk & Hb & H). exists kd. auto.
  - destruct H as (kd & Hk & Hb & H). exists kd. auto.
Qed.
Lemma wps_bindM {A B} (p : M A) (f : A -> M B) n s D (Q : res err B -> sock -> Prop) :
  wps p n s D (fun r s' => match r with Ok a => wps (f a) n s' D Q | Err e => Q (Err e) s' end) ->
  wps (bindM p f) n s D Q.
Proof.
  intros H. apply wps_bind. eapply wps_mono; [| |exact H]; auto. intros [a|e] s'; auto.
Qed.
Lemma wps_ret {A} (a : A) n s D (Q : res err A -> sock -> Prop) : Q (Ok a) s -> wps (ret a) n s D Q.
Proof. auto. Qed.
Lemma wps_fail {A} e n s D (Q : res err A -> sock -> Prop) : Q (Err e) s -> wps (fail e) n s D Q.
Proof. auto. Qed.

(** ** Accessor rules *)
Section Rules.
Context (sn : Sn).
Let n := snz sn.

Lemma wps_get {B} (get : M B) lo len dec s D (Q : res err B -> sock -> Prop) :
  get = (l <- read lo (sn_block sn) len ;; ret (dec l)) ->
  (forall s1, env s s1 -> Q (Ok (dec (sock_rds s1 1 lo len))) s1) ->
  wps get n s D Q.
Proof. intros -> H. cbn. exists 1. split; [lia|]. split; [apply sn_block_eq|]. exact H. Qed.

Lemma hi_lo v : is_u16 v -> of_be16 (hi8 v) (lo8 v) = v.
Proof. apply of_be16_hi_lo. Qed.
Lemma tx_fsr_u16 s : size_ok (tx_size s) -> is_u16 (tx_fsr s).
Proof. intros H. apply size_ok_range in H. unfold tx_fsr, is_u16, wsub. lia. Qed.

Lemma wps_rx_rsr s D (Q : res err Z -> sock -> Prop) :
  (forall s1, env s s1 -> Q (Ok (rx_rsr s1)) s1) -> wps (sn_rx_rsr sn) n s D Q.
Proof.
  intros H. apply (wps_get _ 38 2 word0); [reflexivity|]. intros s1 He.
  change (word0 (sock_rds s1 1 38 2)) with (of_be16 (hi8 (rx_rsr s1)) (lo8 (rx_rsr s1))).
  rewrite hi_lo by apply wsub_range. now apply H.
Qed.
Lemma wps_rx_rd s D (Q : res err Z -> sock -> Prop) :
  (forall s1, env s s1 -> Q (Ok (rx_rd s1)) s1) -> wps (sn_rx_rd sn) n s D Q.
Proof. intros H. apply (wps_get _ 40 2 word0); [reflexivity|]. exact H. Qed.
Lemma wps_tx_wr s D (Q : res err Z -> sock -> Prop) :
  (forall s1, env s s1 -> Q (Ok (tx_wr s1)) s1) -> wps (sn_tx_wr sn) n s D Q.
Proof. intros H. apply (wps_get _ 36 2 word0); [reflexivity|]. exact H. Qed.
Lemma wps_port s D (Q : res err Z -> sock -> Prop) :
  (forall s1, env s s1 -> Q (Ok (of_word (s_reg s1) 4)) s1) -> wps (sn_port sn) n s D Q.
Proof. intros H. apply (wps_get _ 4 2 word0); [reflexivity|]. exact H. Qed.
Lemma wps_sr s D (Q : res err (res Z SocketStatus) -> sock -> Prop) :
  (forall s1, env s s1 -> Q (Ok (status_try_from (s_sr s1))) s1) -> wps (sn_sr sn) n s D Q.
Proof. intros H. apply (wps_get _ 3 1 (fun l => status_try_from (byte0 l))); [reflexivity|]. exact H. Qed.
Lemma wps_tx_fsr s D (Q : res err Z -> sock -> Prop) :
  (forall s1, env s s1 -> size_ok (tx_size s1)) ->
  (forall s1, env s s1 -> Q (Ok (tx_fsr s1)) s1) -> wps (sn_tx_fsr sn) n s D Q.
Proof.
  intros Hs H. apply (wps_get _ 32 2 word0); [reflexivity|]. intros s1 He.
  change (word0 (sock_rds s1 1 32 2)) with (of_be16 (hi8 (tx_fsr s1)) (lo8 (tx_fsr s1))).
  rewrite hi_lo by (apply tx_fsr_u16; auto). now apply H.
Qed.
Lemma wps_tx_ptrs s D (Q : res err TxPtrs -> sock -> Prop) :
  (forall s1, env s s1 -> size_ok (tx_size s1)) ->
  (forall s1, env s s1 -> Q (Ok {| txp_fsr := tx_fsr s1; txp_wr := tx_wr s1 |}) s1) ->
  wps (sn_tx_ptrs sn) n s D Q.
Proof.
  intros Hs H.
  apply (wps_get _ 32 6 (fun l => {| txp_fsr := word0 l; txp_wr := word0 (zdrop 4 l) |})); [reflexivity|].
  intros s1 He. cbv beta.
  change (word0 (sock_rds s1 1 32 6)) with (of_be16 (hi8 (tx_fsr s1)) (lo8 (tx_fsr s1))).
  rewrite hi_lo by (apply tx_fsr_u16; auto). now apply H.
Qed.
Lemma wps_rx_buf p len s D (Q : res err (list Z) -> sock -> Prop) :
  (forall s1, env s s1 -> Q (Ok (ring (s_rxmem s1) (rx_size s1) p len)) s1) ->
  wps (sn_rx_buf sn p len) n s D Q.
Proof.
  intros H. cbn. exists 3. split; [lia|]. split; [apply sn_rx_block_eq|].
  intros s1 He. rewrite sock_rds_rx. now apply H.
Qed.
Lemma wps_set_tx_buf p l s D (Q : res err unit -> sock -> Prop) :
  (forall s1 m, env s s1 -> (forall x, m x = ring_write (s_txmem s1) (tx_size s1) p l x) ->
     Q (Ok tt) (with_txmem s1 m)) ->
  wps (set_sn_tx_buf sn p l) n s D Q.
Proof.
  intros H. cbn. exists 2. split; [lia|]. split; [apply sn_tx_block_eq|].
  intros s1 He. destruct (sock_wrs_tx l s1 p) as (m & -> & Hm). now apply H.
Qed.

(** Plain registers: at most six bytes, none of the special addresses. *)
Lemma wps_set_word (lo : Z) v s D (Q : res err unit -> sock -> Prop) :
  (forall x y, sock_wrs x 1 lo (be16 y) =
     with_reg x (upd (upd (s_reg x) lo (hi8 y)) (lo + 1) (lo8 y))) ->
  (forall s1, env s s1 ->
     Q (Ok tt) (with_reg s1 (upd (upd (s_reg s1) lo (hi8 v)) (lo + 1) (lo8 v)))) ->
  wps (write lo (sn_block sn) (be16 v)) n s D Q.
Proof.
  intros E H. cbn [wps write]. exists 1. split; [lia|]. split; [apply sn_block_eq|].
  intros s1 He. rewrite E. now apply H.
Qed.
Lemma wps_set_rx_rd v s D (Q : res err unit -> sock -> Prop) :
  (forall s1, env s s1 ->
     Q (Ok tt) (with_reg s1 (upd (upd (s_reg s1) 0x28 (hi8 v)) 0x29 (lo8 v)))) ->
  wps (set_sn_rx_rd sn v) n s D Q.
Proof. apply (wps_set_word 0x28). reflexivity. Qed.
Lemma wps_set_tx_wr v s D (Q : res err unit -> sock -> Prop) :
  (forall s1, env s s1 ->
     Q (Ok tt) (with_reg s1 (upd (upd (s_reg s1) 0x24 (hi8 v)) 0x25 (lo8 v)))) ->
  wps (set_sn_tx_wr sn v) n s D Q.
Proof. apply (wps_set_word 0x24). reflexivity. Qed.
Lemma wps_set_port v s D (Q : res err unit -> sock -> Prop) :
  (forall s1, env s s1 ->
     Q (Ok tt) (with_reg s1 (upd (upd (s_reg s1) 0x04 (hi8 v)) 0x05 (lo8 v)))) ->
  wps (set_sn_port sn v) n s D Q.
Proof. apply (wps_set_word 0x04). reflexivity. Qed.
Lemma wps_set_mr v s D (Q : res err unit -> sock -> Prop) :
  (forall s1, env s s1 -> Q (Ok tt) (with_reg s1 (upd (s_reg s1) 0x00 v))) ->
  wps (set_sn_mr sn v) n s D Q.
Proof.
  intros H. cbn [wps set_sn_mr write]. exists 1. split; [lia|]. split; [apply sn_block_eq|]. exact H.
Qed.
Definition put_dest (r : Z -> Z) (addr : list Z * Z) : Z -> Z :=
  upd (upd (upd (upd (upd (upd r 0x0C (at_ (fst addr) 0)) 0x0D (at_ (fst addr) 1)) 0x0E (at_ (fst addr) 2))
    0x0F (at_ (fst addr) 3)) 0x10 (hi8 (snd addr))) 0x11 (lo8 (snd addr)).
Lemma wps_set_dest addr s D (Q : res err unit -> sock -> Prop) :
  (forall s1, env s s1 -> Q (Ok tt) (with_reg s1 (put_dest (s_reg s1) addr))) ->
  wps (set_sn_dest sn addr) n s D Q.
Proof.
  intros H. destruct addr as [ip port]. unfold set_sn_dest. cbn [wps write].
  exists 1. split; [lia|]. split; [apply sn_block_eq|]. intros s1 He.
  unfold u8. rewrite Z.shiftr_div_pow2 by lia. exact (H s1 He).
Qed.
Lemma wps_set_cr cmd s D (Q : res err unit -> sock -> Prop) :
  (forall s1, env s s1 -> Q (Ok tt) (exec_cmd s1 (command_raw cmd))) ->
  wps (set_sn_cr sn cmd) n s D Q.
Proof.
  intros H. cbn [wps set_sn_cr write]. exists 1. split; [lia|]. split; [apply sn_block_eq|]. exact H.
Qed.
Lemma wps_debug_assert dbg (c : M bool) s D (Q : res err unit -> sock -> Prop) :
  (dbg = false -> Q (Ok tt) s) ->
  (dbg = true -> wps c n s D (fun r s' => r = Ok true /\ Q (Ok tt) s' \/ exists e, r = Err e /\ Q (Err e) s')) ->
  wps (debug_assert dbg c) n s D Q.
Proof.
  unfold debug_assert. destruct dbg; intros H1 H2; [|now apply H1].
  apply wps_bindM. eapply wps_mono; [| |exact (H2 eq_refl)]; [auto|].
  intros r s' [[-> H]|[e [-> H]]]; exact H.
Qed.
End Rules.
