(** The receive and the transmit side of a socket under events and driver operations. *)
From Verif Require Export Proof.SockP Proof.CursorP Model.HlIo Spec.Hoare Spec.Cursor.

(** The receive side only saw events. *)
Definition rx_ev (s s' : sock) : Prop :=
  rx_rd s' = rx_rd s /\ s_rx_base s' = s_rx_base s /\ rx_size s' = rx_size s /\
  (rx_wf s -> rx_wf s' /\ exists new, bytes_ok new /\ unread s' = unread s ++ new /\
     s_rxlog s' = s_rxlog s ++ new) /\
  (rx_wf s -> udp_open s -> exists ds, Forall dgram_ok ds /\ unread s' = unread s ++ images ds /\
     s_rxlog s' = s_rxlog s ++ images ds).
(** The transmit side only saw events. *)
Definition tx_ev (s s' : sock) : Prop :=
  tx_wr s' = tx_wr s /\ s_tx_cmd s' = s_tx_cmd s /\ s_txmem s' = s_txmem s /\ tx_size s' = tx_size s /\
  (tx_wf s -> tx_wf s' /\ tx_stream s' = tx_stream s /\ pending s' <= pending s /\
     (udp_open s -> tx_frames s' = tx_frames s)).
(** The status class is kept. *)
Definition st_ev (s s' : sock) : Prop :=
  (idle s -> idle s') /\ (tcp_open s -> tcp_open s') /\ (udp_open s -> udp_open s').
Definition dest_ev (s s' : sock) : Prop := dest_ip s' = dest_ip s /\ dest_port s' = dest_port s.

Lemma rx_ev_refl s : rx_ev s s.
Proof.
  unfold rx_ev. repeat (split; [reflexivity|]). split.
  - intros H. split; [exact H|]. exists []. rewrite !app_nil_r. repeat split. constructor.
  - intros _ _. exists []. unfold images; cbn. rewrite !app_nil_r. repeat split. constructor.
Qed.
Lemma tx_ev_refl s : tx_ev s s.
Proof.
  unfold tx_ev. repeat (split; [reflexivity|]). intros H. split; [exact H|]. split; [reflexivity|].
  split; [lia|]. reflexivity.
Qed.
Lemma rx_ev_trans a b c : st_ev a b -> rx_ev a b -> rx_ev b c -> rx_ev a c.
Proof.
  intros (_ & _ & U1) (R1 & B1 & Z1 & X1 & Y1) (R2 & B2 & Z2 & X2 & Y2).
  unfold rx_ev. repeat (split; [congruence|]). split.
  - intros H. destruct (X1 H) as (H1 & n1 & Hn1 & E1 & F1). destruct (X2 H1) as (H2 & n2 & Hn2 & E2 & F2).
    split; [exact H2|]. exists (n1 ++ n2). rewrite E2, E1, F2, F1, !app_assoc.
    split; [now apply bytes_ok_app|]. auto.
  - intros H Hu. destruct (X1 H) as (H1 & _). destruct (Y1 H Hu) as (d1 & Hd1 & E1 & F1).
    destruct (Y2 H1 (U1 Hu)) as (d2 & Hd2 & E2 & F2).
    exists (d1 ++ d2). rewrite images_app, E2, E1, F2, F1, !app_assoc.
    split; [now apply Forall_app|]. auto.
Qed.
Lemma tx_ev_trans a b c : st_ev a b -> tx_ev a b -> tx_ev b c -> tx_ev a c.
Proof.
  intros (_ & _ & U1) (R1 & B1 & Z1 & W1 & X1) (R2 & B2 & Z2 & W2 & X2).
  unfold tx_ev. repeat (split; [congruence|]).
  intros H. destruct (X1 H) as (H1 & S1 & D1 & F1). destruct (X2 H1) as (H2 & S2 & D2 & F2).
  split; [exact H2|]. split; [congruence|]. split; [lia|]. intros Hu. rewrite F2 by tauto. tauto.
Qed.
Lemma st_ev_refl s : st_ev s s.
Proof. unfold st_ev. tauto. Qed.
Lemma st_ev_trans a b c : st_ev a b -> st_ev b c -> st_ev a c.
Proof. unfold st_ev. tauto. Qed.

Lemma evo_st s s' : idle s -> evo s s' -> st_ev s s'.
Proof. intros I (I' & _ & _ & _ & _ & _ & _ & T & U & _). unfold st_ev. tauto. Qed.
Lemma evo_rx_ev s s' : evo s s' -> rx_ev s s'.
Proof.
  intros (I' & R & _ & _ & _ & B & _ & T & U & X & Y & _). unfold rx_ev, rx_rd, rx_size, of_word.
  rewrite R. auto.
Qed.
Lemma evo_tx_ev s s' : evo s s' -> tx_ev s s'.
Proof.
  intros (I' & R & _ & M & C & B & _ & T & U & X & Y & W). unfold tx_ev, tx_wr, tx_size, of_word.
  rewrite R. auto.
Qed.
Lemma evo_dest s s' : evo s s' -> dest_ev s s'.
Proof. intros (I' & R & _). unfold dest_ev, dest_ip, dest_port. rewrite R. auto. Qed.

Lemma env_all s s' : idle s -> env s s' ->
  idle s' /\ st_ev s s' /\ rx_ev s s' /\ tx_ev s s' /\ dest_ev s s'.
Proof.
  intros I E. pose proof (evo_env s s' I E) as H. split; [apply H|].
  auto using evo_st, evo_rx_ev, evo_tx_ev, evo_dest.
Qed.

(** ** Register writes *)
Definition put16 (s : sock) (a v : Z) : sock :=
  with_reg s (upd (upd (s_reg s) a (hi8 v)) (a + 1) (lo8 v)).

Lemma rx_ev_reg s r : r 0x1E = s_reg s 0x1E -> r 0x28 = s_reg s 0x28 -> r 0x29 = s_reg s 0x29 ->
  rx_ev s (with_reg s r).
Proof.
  intros E1 E2 E3. pose proof (rx_ev_refl s) as (_ & _ & _ & X & Y).
  assert (rx_size (with_reg s r) = rx_size s) as Es by (unfold rx_size; cbn; now rewrite E1).
  unfold rx_ev. split; [unfold rx_rd, of_word; cbn; now rewrite E2, E3|].
  split; [reflexivity|]. split; [exact Es|].
  assert (unread (with_reg s r) = unread s) as Eu by (unfold unread; now rewrite Es).
  assert (rx_wf s -> rx_wf (with_reg s r)) as Ew by (unfold rx_wf; now rewrite Es).
  rewrite Eu. split; [|exact Y]. intros H. destruct (X H). auto.
Qed.
Lemma tx_same_size s r : r 0x1F = s_reg s 0x1F ->
  tx_size (with_reg s r) = tx_size s /\
  (tx_wf s -> tx_wf (with_reg s r)) /\ tx_stream (with_reg s r) = tx_stream s /\
  tx_frames (with_reg s r) = tx_frames s.
Proof.
  intros E. assert (tx_size (with_reg s r) = tx_size s) as Es by (unfold tx_size; cbn; now rewrite E).
  split; [exact Es|]. unfold tx_wf, tx_stream, unsent, tx_frames. rewrite Es. tauto.
Qed.
Lemma tx_ev_reg s r : r 0x1F = s_reg s 0x1F -> r 0x24 = s_reg s 0x24 -> r 0x25 = s_reg s 0x25 ->
  tx_ev s (with_reg s r).
Proof.
  intros E1 E2 E3. destruct (tx_same_size s r E1) as (S1 & S2 & S3 & S4).
  unfold tx_ev. split; [unfold tx_wr, of_word; cbn; now rewrite E2, E3|].
  split; [reflexivity|]. split; [reflexivity|]. split; [exact S1|].
  intros H. split; [tauto|]. split; [assumption|]. split; [unfold pending; cbn; lia|]. auto.
Qed.
Lemma st_ev_reg s r : st_ev s (with_reg s r).
Proof. unfold st_ev. auto. Qed.

(** ** Releasing received data *)
Lemma release s k v s2 : idle s -> rx_wf s -> 0 <= k <= rx_rsr s -> is_u16 v ->
  v = (s_rx_base s + k) mod 65536 -> env (put16 s 0x28 v) s2 ->
  let s3 := exec_cmd s2 0x40 in
  idle s3 /\ st_ev s s3 /\ tx_ev s s3 /\ dest_ev s s3 /\ rx_ready s3 /\
  (exists new, bytes_ok new /\ unread s3 = zdrop k (unread s) ++ new /\ s_rxlog s3 = s_rxlog s ++ new) /\
  (udp_open s -> exists ds, Forall dgram_ok ds /\ unread s3 = zdrop k (unread s) ++ images ds /\
     s_rxlog s3 = s_rxlog s ++ images ds).
Proof.
  intros I W Hk Hv Ev He. cbv zeta.
  set (s1 := put16 s 0x28 v) in *.
  assert (idle s1) as I1 by exact I.
  destruct (env_all s1 s2 I1 He) as (I2 & S12 & R12 & T12 & D12).
  assert (st_ev s s1) as S01 by apply st_ev_reg.
  assert (tx_ev s s1) as T01 by (apply tx_ev_reg; reflexivity).
  assert (dest_ev s s1) as D01 by (split; reflexivity).
  assert (rx_wf s1) as W1.
  { destruct W as (W1 & W2 & W3 & W4). repeat split; auto; try apply W2; try apply W3. }
  destruct R12 as (Rrd & Rb & Rz & RX & RY). destruct (RX W1) as (W2 & _). clear W1.
  set (s3 := exec_cmd s2 0x40).
  assert (rx_rd s2 = v) as Erd.
  { rewrite Rrd. unfold s1, put16, rx_rd, of_word. cbn. now apply hi_lo. }
  assert (s_rx_base s3 = v) as Eb by exact Erd.
  assert (forall new, unread s2 = unread s1 ++ new -> unread s3 = zdrop k (unread s) ++ new /\ rx_wf s3) as U.
  { intros new Hn. assert (s_rx_base s2 = s_rx_base s) as Eb2 by exact Rb.
    destruct W2 as (Z2 & B2 & Wr2 & L2). pose proof (size_ok_range _ Z2).
    change (unread s1) with (unread s) in Hn.
    assert (rx_rsr s <= rx_rsr s2) as Hle.
    { apply (f_equal zlen) in Hn. rewrite zlen_app in Hn. unfold unread in Hn. rewrite !ring_len in Hn.
      pose proof (zlen_nonneg new). pose proof (wsub_range (s_rx_wr s) (s_rx_base s)).
      pose proof (wsub_range (s_rx_wr s2) (s_rx_base s2)). unfold rx_rsr, is_u16 in *. lia. }
    assert (rx_rsr s3 = rx_rsr s2 - k) as Er.
    { unfold rx_rsr in *. rewrite Eb. change (s_rx_wr s3) with (s_rx_wr s2).
      rewrite Eb2 in *. unfold wsub, is_u16 in *. lia. }
    split.
    - unfold unread at 1. rewrite Er. change (s_rxmem s3) with (s_rxmem s2).
      change (rx_size s3) with (rx_size s2). rewrite Eb, Ev, ring_mod. rewrite <- Eb2.
      rewrite <- ring_drop by lia. fold (unread s2). rewrite Hn.
      apply zdrop_app_l. unfold unread. rewrite ring_len. lia.
    - unfold rx_wf. rewrite Er, Eb. change (rx_size s3) with (rx_size s2).
      change (s_rx_wr s3) with (s_rx_wr s2). repeat split; auto; try lia; try apply Hv; try apply Wr2. }
  destruct (RX) as (_ & new & Hnew & Eu & El).
  { destruct W as (W1 & W2' & W3 & W4). repeat split; auto; try apply W2'; try apply W3. }
  destruct (U new Eu) as (U1 & U2).
  assert (st_ev s s3) as S03.
  { eapply st_ev_trans; [exact S01|]. eapply st_ev_trans; [exact S12|]. unfold st_ev. auto. }
  split; [now apply S03|]. split; [exact S03|]. split; [|split; [|split; [|split]]].
  - eapply tx_ev_trans; [exact S01|exact T01|]. eapply tx_ev_trans; [exact S12|exact T12|]. exact (tx_ev_refl s2 : tx_ev s2 s3).
  - destruct D01 as [a b], D12 as [c d]. split; [exact (eq_trans c a)|exact (eq_trans d b)].
  - split; [exact U2|]. change (rx_rd s3) with (rx_rd s2). congruence.
  - exists new. auto.
  - intros Hu. destruct RY as (ds & Hd & Eu' & El').
    { destruct W as (W1 & W2' & W3 & W4). repeat split; auto; try apply W2'; try apply W3. }
    { apply S01, Hu. }
    exists ds. split; [exact Hd|]. split; [now apply U|exact El'].
Qed.

(** ** Filling free transmit memory *)
Definition window (s : sock) (n : Z) : list Z := ring (s_txmem s) (tx_size s) (s_tx_cmd s) n.

Lemma ring_overlay mem size p n off l : size_ok size -> 0 <= off -> off + zlen l <= n -> n <= size ->
  ring (ring_write mem size (p + off) l) size p n = overlay (ring mem size p n) off l.
Proof.
  intros Hs Ho Hl Hn. pose proof (zlen_nonneg l). unfold overlay.
  rewrite ring_take, ring_drop by lia.
  replace n with (off + (zlen l + (n - (off + zlen l)))) at 1 by lia.
  rewrite !ring_app by lia. f_equal; [|f_equal].
  - apply ring_write_before; auto; lia.
  - apply ring_write_same; auto. lia.
  - rewrite <- Z.add_assoc. apply ring_ext. intros i Hi. apply ring_write_other. intros j Hj C.
    rewrite <- !Z.add_assoc in C. apply slot_inj in C; auto; lia.
Qed.

(** Writing [l] at offset [off] of the free space. *)
Lemma fill s p off l m n : tx_wf s -> 0 <= off -> off + zlen l <= n -> pending s + n <= tx_size s ->
  p = (s_tx_cmd s + off) mod 65536 ->
  (forall x, m x = ring_write (s_txmem s) (tx_size s) p l x) ->
  let s' := with_txmem s m in
  tx_wf s' /\ tx_stream s' = tx_stream s /\ tx_frames s' = tx_frames s /\ pending s' = pending s /\
  window s' n = overlay (window s n) off l.
Proof.
  intros (Hs & Hr & Hc & Hq & Hp & Hle) Ho Hl Hn Ep Hm s'. pose proof (zlen_nonneg l).
  pose proof (wsub_range (s_tx_cmd s) (s_tx_rd s)) as Hpr. fold (pending s) in Hpr. unfold is_u16 in Hpr.
  assert (forall q k, 0 <= k -> k + zlen l <= tx_size s -> p mod 65536 = (q + k) mod 65536 ->
    ring m (tx_size s) q k = ring (s_txmem s) (tx_size s) q k) as K.
  { intros q k H1 H2 H3. erewrite ring_ext; [apply (ring_write_before (s_txmem s) (tx_size s) p q k l); auto|].
    intros; apply Hm. }
  assert (unsent s' = unsent s) as Eu.
  { unfold unsent. change (pending s') with (pending s). change (tx_size s') with (tx_size s).
    cbn [s' with_txmem s_txmem s_tx_rd].
    transitivity (ztake (pending s) (ring m (tx_size s) (s_tx_rd s) (pending s + off))).
    - now rewrite ring_take by lia.
    - rewrite K by (try lia; unfold pending, wsub, is_u16 in *; lia). now rewrite ring_take by lia. }
  split; [|split; [|split; [|split]]].
  - repeat split; auto; try apply Hr; try apply Hc.
  - unfold tx_stream. now rewrite Eu.
  - unfold tx_frames. change (tx_size s') with (tx_size s). cbn [s' with_txmem s_wire s_txmem s_tx_rd s_txq].
    f_equal.
    assert (forall q a, Forall (fun t => 0 <= te_len t) q -> 0 <= a -> a + sum_len q = pending s ->
      queued m (tx_size s) (s_tx_rd s + a) q = queued (s_txmem s) (tx_size s) (s_tx_rd s + a) q) as G.
    { induction q as [|t q IH]; intros a Hq0 Ha Hsum; [reflexivity|].
      inversion Hq0 as [|? ? Ht Hq0']; subst. cbn [queued sum_len] in *.
      pose proof (sum_len_nonneg _ Hq0').
      rewrite <- Z.add_assoc, IH by (auto; lia). f_equal. f_equal.
      (* the bytes of this entry lie inside the unsent bytes *)
      assert (ring m (tx_size s) (s_tx_rd s) (pending s) =
              ring (s_txmem s) (tx_size s) (s_tx_rd s) (pending s)) as Er by exact Eu.
      apply (f_equal (fun x => ztake (te_len t) (zdrop a x))) in Er.
      rewrite !ring_drop, !ring_take in Er by lia. exact Er. }
    specialize (G (s_txq s) 0 Hq). rewrite Z.add_0_r in G. apply G; lia.
  - reflexivity.
  - unfold window. change (tx_size s') with (tx_size s). cbn [s' with_txmem s_txmem s_tx_cmd].
    rewrite <- ring_overlay by (auto; lia). apply ring_ext. intros i Hi. rewrite Hm.
    (* writing at [p] or at [tx_cmd + off] is the same *)
    subst p.
    assert (forall mem q l' x, ring_write mem (tx_size s) (q mod 65536) l' x =
      ring_write mem (tx_size s) q l' x) as RM.
    { clear. intros mem q l'. revert mem q. induction l' as [|b l' IH]; intros mem q x; [reflexivity|].
      cbn [ring_write]. rewrite slot_add16.
      rewrite <- (IH _ (q mod 65536 + 1)), <- (IH _ (q + 1)). f_equal. lia. }
    apply RM.
Qed.

(** ** Committing transmit data *)
Lemma queued_app mem size q : forall p t,
  queued mem size p (q ++ [t]) = queued mem size p q ++
    [{| f_ip := te_ip t; f_port := te_port t; f_data := ring mem size (p + sum_len q) (te_len t) |}].
Proof.
  induction q as [|u q IH]; intros p t; cbn [app queued sum_len].
  - now rewrite Z.add_0_r.
  - rewrite IH. now rewrite Z.add_assoc.
Qed.
Lemma sum_len_app q t : sum_len (q ++ [t]) = sum_len q + te_len t.
Proof. induction q as [|u q IH]; cbn [app sum_len]; lia. Qed.

Lemma commit s k v s2 : idle s -> tx_wf s -> 0 <= k -> pending s + k <= tx_size s -> is_u16 v ->
  v = (s_tx_cmd s + k) mod 65536 -> env (put16 s 0x24 v) s2 ->
  let s3 := exec_cmd s2 0x20 in
  idle s3 /\ st_ev s s3 /\ rx_ev s s3 /\ dest_ev s s3 /\ tx_ready s3 /\
  pending s3 <= pending s + k /\ tx_size s3 = tx_size s /\
  tx_stream s3 = tx_stream s ++ window s k /\
  (udp_open s -> tx_frames s3 = tx_frames s ++
     [{| f_ip := dest_ip s; f_port := dest_port s; f_data := window s k |}]).
Proof.
  intros I W Hk Hle Hv Ev He. cbv zeta.
  set (s1 := put16 s 0x24 v) in *.
  assert (idle s1) as I1 by exact I.
  destruct (env_all s1 s2 I1 He) as (I2 & S12 & R12 & T12 & D12).
  assert (st_ev s s1) as S01 by apply st_ev_reg.
  assert (rx_ev s s1) as R01 by (apply rx_ev_reg; reflexivity).
  assert (dest_ev s s1) as D01 by (split; reflexivity).
  destruct (tx_same_size s (s_reg s1)) as (Z1 & W1 & Str1 & Fr1); [reflexivity|].
  change (with_reg s (s_reg s1)) with s1 in *.
  destruct T12 as (Twr & Tcmd & Tmem & Tsz & TX). destruct (TX (W1 W)) as (W2 & Str2 & Pd2 & Fr2). clear W1.
  set (s3 := exec_cmd s2 0x20).
  change (s_tx_cmd s1) with (s_tx_cmd s) in Tcmd. change (s_txmem s1) with (s_txmem s) in Tmem.
  change (pending s1) with (pending s) in Pd2. change (tx_size s1) with (tx_size s) in Tsz.
  assert (tx_wr s2 = v) as Ewr.
  { rewrite Twr. unfold s1, put16, tx_wr, of_word. cbn. now apply hi_lo. }
  assert (s_tx_cmd s3 = v) as Ecmd by exact Ewr.
  destruct W as (Hs & Hr & Hc & _). destruct W2 as (Hs2 & Hr2 & Hc2 & Hq2 & Hp2 & Hle2).
  pose proof (size_ok_range _ Hs) as Hsz.
  pose proof (wsub_range (s_tx_cmd s2) (s_tx_rd s2)) as Hpr. fold (pending s2) in Hpr. unfold is_u16 in Hpr.
  assert (wsub v (s_tx_cmd s2) = k) as Ek.
  { rewrite Ev, Tcmd. unfold wsub, is_u16 in *. lia. }
  assert (pending s3 = pending s2 + k) as Ep.
  { unfold pending in *. rewrite Ecmd. change (s_tx_rd s3) with (s_tx_rd s2).
    rewrite Tcmd in *. unfold wsub, is_u16 in *. lia. }
  assert (s_txq s3 = s_txq s2 ++ [{| te_ip := dest_ip s; te_port := dest_port s; te_len := k |}]) as Eq.
  { destruct D12 as [D1 D2]. cbn. change (dest_ip (with_cmdlog s2 _)) with (dest_ip s2).
    change (dest_port (with_cmdlog s2 _)) with (dest_port s2).
    change (tx_wr (with_cmdlog s2 _)) with (tx_wr s2).
    rewrite Ewr, Ek, D1, D2. reflexivity. }
  assert (ring (s_txmem s2) (tx_size s2) (s_tx_rd s2 + pending s2) k = window s k) as Ewin.
  { unfold window. rewrite <- (ring_mod _ _ (s_tx_rd s2 + pending s2)).
    replace ((s_tx_rd s2 + pending s2) mod 65536) with (s_tx_cmd s2)
      by (unfold pending, wsub, is_u16 in *; lia).
    now rewrite Tmem, Tsz, Tcmd. }
  assert (st_ev s s3) as S03.
  { eapply st_ev_trans; [exact S01|]. eapply st_ev_trans; [exact S12|]. unfold st_ev. auto. }
  split; [now apply S03|]. split; [exact S03|].
  split; [|split; [|split; [|split; [|split; [|split]]]]].
  - eapply rx_ev_trans; [exact S01|exact R01|]. eapply rx_ev_trans; [exact S12|exact R12|]. exact (rx_ev_refl s2 : rx_ev s2 s3).
  - destruct D01 as [a b], D12 as [c d]. split; [exact (eq_trans c a)|exact (eq_trans d b)].
  - split; [|change (tx_wr s3) with (tx_wr s2); congruence].
    unfold tx_wf. rewrite Ep, Eq, Ecmd, sum_len_app. change (tx_size s3) with (tx_size s2).
    change (s_tx_rd s3) with (s_tx_rd s2). cbn [te_len].
    split; [assumption|]. split; [assumption|]. split; [assumption|].
    split; [apply Forall_app; split; [assumption|constructor; [cbn; lia|constructor]]|]. lia.
  - lia.
  - exact Tsz.
  - unfold tx_stream. change (sent s3) with (sent s2). unfold unsent at 1. rewrite Ep.
    change (s_txmem s3) with (s_txmem s2). change (tx_size s3) with (tx_size s2).
    change (s_tx_rd s3) with (s_tx_rd s2). rewrite ring_app by lia.
    rewrite Ewin. rewrite app_assoc. fold (unsent s2). fold (tx_stream s2). now rewrite Str2, Str1.
  - intros Hu. unfold tx_frames. change (s_wire s3) with (s_wire s2). rewrite Eq.
    change (s_txmem s3) with (s_txmem s2). change (tx_size s3) with (tx_size s2).
    change (s_tx_rd s3) with (s_tx_rd s2). rewrite queued_app. cbn [te_ip te_port te_len].
    rewrite <- Hp2, Ewin, app_assoc. fold (tx_frames s2).
    rewrite Fr2 by now apply S01. now rewrite Fr1.
Qed.
