(** Opening a socket: C19. *)
From Verif Require Export Proof.CallsP.

Lemma env_step (R : sock -> sock -> Prop) : (forall s, R s s) ->
  (forall s x e, R s x -> R s (sock_ev x e)) -> forall s s', env s s' -> R s s'.
Proof. intros Hr Hs s s' E. apply (env_ind (R s) s s'); auto. Qed.

Ltac ev_cases := repeat match goal with
  | |- context [if ?b then _ else _] => destruct b eqn:?
  | |- context [match ?l with [] => _ | _ => _ end] => destruct l eqn:?
  | |- context [match ?l with None => _ | _ => _ end] => destruct l eqn:?
  end.

(** Registers no event changes: everything but the buffer pointers. *)
Definition keeps (s s' : sock) : Prop :=
  (forall a, a <> 0x24 -> a <> 0x25 -> a <> 0x28 -> a <> 0x29 -> s_reg s' a = s_reg s a) /\
  s_cmdlog s' = s_cmdlog s.
Lemma keeps_ev s x e : keeps s x -> keeps s (sock_ev x e).
Proof.
  assert (forall x p q, keeps x (reset_ptrs x p q)) as R.
  { clear. intros x p q. split; [|reflexivity]. intros a H1 H2 H3 H4. cbn. rewrite !upd_other by lia. reflexivity. }
  assert (forall a b c, keeps a b -> keeps b c -> keeps a c) as T.
  { intros a b c [A1 A2] [B1 B2]. split; [|congruence]. intros r H1 H2 H3 H4. rewrite B1, A1 by assumption. reflexivity. }
  intros K. destruct e; cbn [sock_ev]; unfold rx_store; ev_cases; try exact K;
    apply (T _ _ _ K); first [exact (R x _ _)|split; [intros; reflexivity|reflexivity]].
Qed.
Lemma keeps_env s s' : env s s' -> keeps s s'.
Proof. apply env_step; [intros; split; reflexivity|apply keeps_ev]. Qed.
Lemma keeps_trans a b c : keeps a b -> keeps b c -> keeps a c.
Proof. intros [A1 A2] [B1 B2]. split; [|congruence]. intros r H1 H2 H3 H4. rewrite B1, A1 by assumption. reflexivity. Qed.

(** The wire only grows. *)
Definition wire_ext (s s' : sock) : Prop := exists more, s_wire s' = s_wire s ++ more.
Lemma wire_env s s' : env s s' -> wire_ext s s'.
Proof.
  apply env_step; [intros; exists []; now rewrite app_nil_r|].
  intros s0 x e (m & Hm). destruct e; cbn [sock_ev]; unfold rx_store; ev_cases; try (exists m; exact Hm).
  all: eexists; cbn [with_tx s_wire]; rewrite Hm, <- app_assoc; reflexivity.
Qed.
Lemma wire_trans a b c : wire_ext a b -> wire_ext b c -> wire_ext a c.
Proof. intros (m & Hm) (k & Hk). exists (m ++ k). rewrite Hk, Hm, <- app_assoc. reflexivity. Qed.

(** A CLOSE is pending or done. *)
Definition closing (s : sock) : Prop := s_pend s = Some 0 \/ (s_pend s = None /\ s_sr s = 0).
Lemma closing_env s s' : closing s -> env s s' -> closing s'.
Proof.
  intros C E. apply (env_ind closing s s'); auto. clear. intros x e [H|[H H']]; destruct e; cbn [sock_ev];
    unfold rx_store; rewrite ?H, ?H'; cbn [data_state opening_state Z.eqb orb andb]; ev_cases;
    try discriminate; try (left; exact H); try (right; split; assumption); try (right; split; reflexivity).
Qed.

(** Closed for good until the next command: events change nothing but the interrupt flags. *)
Definition shut (s : sock) : Prop := closing s /\ s_sr s = 0.
Definition same (s s' : sock) : Prop :=
  s_reg s' = s_reg s /\ s_txmem s' = s_txmem s /\ s_rxmem s' = s_rxmem s /\ s_tx_rd s' = s_tx_rd s /\
  s_tx_cmd s' = s_tx_cmd s /\ s_txq s' = s_txq s /\ s_wire s' = s_wire s /\ s_rx_base s' = s_rx_base s /\
  s_rx_wr s' = s_rx_wr s /\ s_rxlog s' = s_rxlog s /\ s_cmdlog s' = s_cmdlog s.
Lemma same_refl s : same s s.
Proof. unfold same. repeat split. Qed.
Lemma same_trans a b c : same a b -> same b c -> same a c.
Proof. unfold same. intuition congruence. Qed.
Lemma shut_env s s' : shut s -> env s s' -> shut s' /\ same s s'.
Proof.
  intros C E. apply (env_ind (fun x => shut x /\ same s x) s s'); auto using same_refl. clear.
  intros x e [[H H'] S]. destruct e; cbn [sock_ev]; rewrite ?H'; cbn [data_state opening_state Z.eqb orb andb]; ev_cases;
    try (split; [split|]; assumption); try discriminate.
  - apply Z.eqb_eq in Heqb. rewrite Heqb. split; [|exact S]. split; [|reflexivity]. right. split; reflexivity.
  - exfalso. destruct H as [H|[H _]]; rewrite H in Heqo; [|discriminate]. injection Heqo as <-. discriminate.
Qed.

(** After OPEN, until the chip has opened the socket. *)
Definition waiting (v : Z) (s0 s : sock) : Prop := s_sr s = 0 /\ s_pend s = Some v /\ same s0 s.
Definition fresh (v : Z) (s0 s : sock) : Prop :=
  s_sr s = v /\ s_pend s = None /\ keeps s0 s /\ s_wire s = s_wire s0 /\ s_rxlog s = s_rxlog s0 /\
  is_u16 (s_tx_rd s) /\ s_tx_cmd s = s_tx_rd s /\ tx_wr s = s_tx_rd s /\ s_txq s = [] /\
  is_u16 (s_rx_base s) /\ s_rx_wr s = s_rx_base s /\ rx_rd s = s_rx_base s.
Lemma waiting_env v s0 s s' : v <> 0 -> waiting v s0 s -> env s s' ->
  waiting v s0 s' \/ exists x, fresh v s0 x /\ env x s'.
Proof.
  intros Hv W E. apply (env_ind (fun y => waiting v s0 y \/ exists x, fresh v s0 x /\ env x y) s s'); auto.
  clear W E. intros x e [(H1 & H2 & S)|(y & F & Ey)].
  - destruct e; cbn [sock_ev]; rewrite ?H1, ?H2; cbn [data_state opening_state Z.eqb orb andb]; ev_cases;
      try (left; split; [exact H1|split; [exact H2|exact S]]); try discriminate; try lia.
    right. eexists. split; [|apply env_refl].
    pose proof S as (S1 & S2 & S3 & S4 & S5 & S6 & S7 & S8 & S9 & S10 & S11).
    split; [reflexivity|]. split; [reflexivity|]. split.
    { split; [|exact S11]. intros a A1 A2 A3 A4. cbn. rewrite !upd_other by lia. now rewrite S1. }
    split; [exact S7|]. split; [exact S10|]. cbn.
    assert (is_u16 (ptx mod 65536) /\ is_u16 (prx mod 65536)) as [U1 U2] by (unfold is_u16; lia).
    split; [exact U1|]. split; [reflexivity|]. split; [unfold tx_wr, of_word; cbn; now apply hi_lo|].
    split; [reflexivity|]. split; [exact U2|]. split; [reflexivity|]. unfold rx_rd, of_word; cbn; now apply hi_lo.
  - right. exists y. split; [exact F|]. eapply env_trans; [exact Ey|]. now exists [e].
Qed.

Lemma fresh_ready v s0 s : fresh v s0 s -> size_ok (rx_size s0) -> size_ok (tx_size s0) ->
  rx_ready s /\ tx_ready s /\ unread s = [] /\ unsent s = [] /\ pending s = 0 /\
  queued (s_txmem s) (tx_size s) (s_tx_rd s) (s_txq s) = [].
Proof.
  intros (F1 & F2 & [F3 _] & F4 & F5 & F6 & F7 & F8 & F9 & F10 & F11 & F12) Hr Ht.
  assert (rx_size s = rx_size s0) as Er by (unfold rx_size; rewrite F3 by lia; reflexivity).
  assert (tx_size s = tx_size s0) as Et by (unfold tx_size; rewrite F3 by lia; reflexivity).
  pose proof (size_ok_range _ Hr). pose proof (size_ok_range _ Ht).
  assert (rx_rsr s = 0) as Rz by (unfold rx_rsr, wsub; rewrite F11, Z.sub_diag; reflexivity).
  assert (pending s = 0) as Pz by (unfold pending, wsub; rewrite F7, Z.sub_diag; reflexivity).
  split; [|split; [|split; [|split; [|split]]]].
  - split; [|exact F12]. unfold rx_wf. rewrite Er, Rz, F11. split; [exact Hr|]. split; [exact F10|]. split; [exact F10|lia].
  - split; [|congruence]. unfold tx_wf. rewrite Et, Pz, F7, F9. split; [exact Ht|]. split; [exact F6|].
    split; [exact F6|]. split; [constructor|]. cbn [sum_len]. lia.
  - unfold unread. rewrite Rz. reflexivity.
  - unfold unsent. rewrite Pz. reflexivity.
  - exact Pz.
  - rewrite F9. reflexivity.
Qed.

(** A TCP socket after OPEN does nothing but wait for LISTEN or CONNECT. *)
Lemma init_env v s0 s s' : v = 0x13 -> fresh v s0 s -> env s s' -> fresh v s0 s'.
Proof.
  intros Ev F E. apply (env_ind (fresh v s0) s s'); auto. clear F E. intros x e F.
  pose proof F as (F1 & F2 & _). rewrite Ev in F1.
  destruct e; cbn [sock_ev]; rewrite ?F1, ?F2; cbn [data_state opening_state Z.eqb Pos.eqb orb andb];
    ev_cases; try exact F; try discriminate.
Qed.

(** While a connection is being established nothing moves; then the streams start empty. *)
Lemma opening_env s s' : s_pend s = None -> opening_state (s_sr s) = true ->
  rx_ready s -> tx_ready s -> unread s = [] -> unsent s = [] -> env s s' -> forall s2, s2 = s' ->
  (s_pend s' = None /\ opening_state (s_sr s') = true /\ same s s') \/ tcp_view s' (s_rxlog s) (sent s).
Proof.
  intros P O R T U N E s2 _.
  apply (env_ind (fun x => (s_pend x = None /\ opening_state (s_sr x) = true /\ same s x) \/ tcp_view x (s_rxlog s) (sent s)) s s');
    [|left; auto using same_refl|exact E].
  clear E. intros x e [(Px & Ox & S)|V].
  - pose proof S as (S1 & S2 & S3 & S4 & S5 & S6 & S7 & S8 & S9 & S10 & S11).
    assert (data_state (s_sr x) = false) as Dx.
    { unfold opening_state in Ox. unfold data_state.
      destruct (Z.eqb_spec (s_sr x) 0x14) as [->|]; [reflexivity|].
      destruct (Z.eqb_spec (s_sr x) 0x15) as [->|]; [reflexivity|].
      destruct (Z.eqb_spec (s_sr x) 0x16) as [->|]; [reflexivity|discriminate]. }
    assert ((s_sr x =? 0x22) = false /\ (s_sr x =? 0x17) = false /\ (s_sr x =? 0x1C) = false) as (Ux & Wx & Wy).
    { unfold opening_state in Ox.
      destruct (Z.eqb_spec (s_sr x) 0x14) as [->|]; [repeat split; reflexivity|].
      destruct (Z.eqb_spec (s_sr x) 0x15) as [->|]; [repeat split; reflexivity|].
      destruct (Z.eqb_spec (s_sr x) 0x16) as [->|]; [repeat split; reflexivity|discriminate]. }
    assert (forall y, same s y -> s_pend y = None -> (data_state (s_sr y) = true \/ s_sr y = 0) -> tcp_view y (s_rxlog s) (sent s)) as Vw.
    { intros y (Y1 & Y2 & Y3 & Y4 & Y5 & Y6 & Y7 & Y8 & Y9 & Y10 & Y11) Py Dy.
      destruct (tx_same s y Y1 Y4 Y5 Y6 Y2 Y7) as (T1 & T2 & T3 & T4).
      destruct (rx_same s y Y1 Y8 Y9 Y3) as (R1 & R2).
      split; [split; assumption|]. split.
      { split; [apply R1, R|]. unfold rx_rd. rewrite Y1, Y8. apply R. }
      split.
      { split; [apply T1, T|]. unfold tx_wr. rewrite Y1, Y5. apply T. }
      split; [rewrite R2, U, Y10, app_nil_r; reflexivity|].
      rewrite T2. unfold tx_stream. rewrite N, app_nil_r. reflexivity. }
    destruct e; cbn [sock_ev]; rewrite ?Dx, ?Ox, ?Px, ?Ux, ?Wx, ?Wy; cbn [orb andb]; ev_cases;
      try (left; split; [exact Px|split; [exact Ox|exact S]]); try congruence.
    + apply orb_true_iff in Heqb. destruct Heqb as [Hb|Hb].
      * left. split; [exact Px|]. split; [|exact S]. cbn [with_sr s_sr]. apply Z.eqb_eq in Hb. rewrite Hb. reflexivity.
      * right. apply Vw; [exact S|exact Px|]. right. cbn. now apply Z.eqb_eq.
    + right. 
      set (z := with_sr (reset_ptrs x ptx prx) 0x17).
      assert (is_u16 (ptx mod 65536) /\ is_u16 (prx mod 65536)) as [U1 U2] by (unfold is_u16; lia).
      assert (fresh 0x17 s z) as F.
      { split; [reflexivity|]. split; [exact Px|]. split.
        { split; [|exact S11]. intros a A1 A2 A3 A4. cbn. rewrite !upd_other by lia. now rewrite S1. }
        split; [exact S7|]. split; [exact S10|]. cbn.
        split; [exact U1|]. split; [reflexivity|]. split; [unfold tx_wr, of_word; cbn; now apply hi_lo|].
        split; [reflexivity|]. split; [exact U2|]. split; [reflexivity|]. unfold rx_rd, of_word; cbn; now apply hi_lo. }
      destruct (fresh_ready _ _ _ F) as (Z1 & Z2 & Z3 & Z4 & Z5 & _); [apply R|apply T|].
      split; [split; [exact Px|left; reflexivity]|]. split; [exact Z1|]. split; [exact Z2|].
      split; [rewrite Z3, app_nil_r; exact S10|].
      unfold tx_stream. rewrite Z4, app_nil_r. unfold sent. cbn. now rewrite S7.
    + left. split; [reflexivity|split; assumption].
  - right. apply (view_env x (sock_ev x e) _ _ V). now exists [e].
Qed.

(** ** The programs *)
Section Open.
Context (sn : Sn).
Let n := snz sn.

Lemma poll_spec (I : sock -> Prop) want fuel : forall s (Q : res err unit -> sock -> Prop),
  I s -> (forall a b, I a -> env a b -> I b) ->
  (forall s1, I s1 -> status_try_from (s_sr s1) = Ok want -> Q (Ok tt) s1) ->
  wps (poll_status fuel sn want) n s True Q.
Proof.
  induction fuel as [|fuel IH]; intros s Q Hi Hs HQ; cbn [poll_status]; [exact Logic.I|].
  apply wps_bindM, wps_sr. intros s1 E1.
  assert (I s1) as H1 by eauto.
  destruct (rstatus_eqb (status_try_from (s_sr s1)) (Ok want)) eqn:Er.
  - apply wps_ret, HQ; [exact H1|]. destruct (status_try_from (s_sr s1)) as [st|]; [|discriminate].
    destruct st, want; try discriminate; reflexivity.
  - apply IH; auto.
Qed.

Definition regs_kept (s s' : sock) : Prop :=
  forall a, a <> 0x24 -> a <> 0x25 -> a <> 0x28 -> a <> 0x29 -> s_reg s' a = s_reg s a.

Lemma close_spec {B} fuel s (f : unit -> M B) (Q : res err B -> sock -> Prop) :
  (forall s1 c1, shut s1 -> regs_kept s s1 -> wire_ext s s1 -> s_cmdlog s1 = s_cmdlog s ++ [c1] -> cr_cmd c1 = 0x10 ->
     wps (f tt) n s1 True Q) ->
  wps (set_sn_cr sn CClose ;;; (poll_status fuel sn Closed ;;; f tt)) n s True Q.
Proof.
  intros H. apply wps_bindM, wps_set_cr. intros s0 E0. set (s0' := exec_cmd s0 (command_raw CClose)).
  apply wps_bindM.
  assert (exists c1, cr_cmd c1 = 0x10 /\ s_cmdlog s0' = s_cmdlog s ++ [c1]) as (c1 & Hc1 & Hl1).
  { eexists. split; [|unfold s0'; cbn; now rewrite (proj2 (keeps_env _ _ E0))]. reflexivity. }
  apply (poll_spec (fun x => closing x /\ regs_kept s x /\ wire_ext s x /\ s_cmdlog x = s_cmdlog s ++ [c1])).
  - split; [left; reflexivity|]. split; [exact (proj1 (keeps_env _ _ E0))|]. split; [exact (wire_env _ _ E0)|exact Hl1].
  - intros a b (A1 & A2 & A3 & A4) Eb. destruct (keeps_env _ _ Eb) as [K1 K2].
    split; [now apply (closing_env a)|]. split; [intros r R1 R2 R3 R4; rewrite K1, A2 by assumption; reflexivity|].
    split; [eapply wire_trans; [exact A3|now apply wire_env]|congruence].
  - intros s1 (A1 & A2 & A3 & A4) Hs. apply (H s1 c1); try assumption. split; [exact A1|].
    revert Hs. unfold status_try_from. repeat (match goal with |- context [s_sr s1 =? ?k] => destruct (Z.eqb_spec (s_sr s1) k) end; [try discriminate|]); try discriminate; auto.
Qed.

Lemma same_with F a b : same a b -> same (with_reg a (F (s_reg a))) (with_reg b (F (s_reg b))).
Proof. intros (S1 & S). split; [cbn; now rewrite S1|exact S]. Qed.
Lemma shut_with r s : shut s -> shut (with_reg s r).
Proof. auto. Qed.

Lemma cfg_port {B} v s (f : unit -> M B) (Q : res err B -> sock -> Prop) : shut s ->
  (forall s1, shut s1 -> same (with_reg s (upd (upd (s_reg s) 0x04 (hi8 v)) 0x05 (lo8 v))) s1 ->
     wps (f tt) n s1 True Q) ->
  wps (set_sn_port sn v ;;; f tt) n s True Q.
Proof.
  intros S H. apply wps_bindM, wps_set_port. intros s0 E. destruct (shut_env _ _ S E) as [S0 M].
  apply H; [now apply shut_with|]. exact (same_with (fun r => upd (upd r 4 (hi8 v)) 5 (lo8 v)) _ _ M).
Qed.
Lemma cfg_mode {B} v s (f : unit -> M B) (Q : res err B -> sock -> Prop) : shut s ->
  (forall s1, shut s1 -> same (with_reg s (upd (s_reg s) 0x00 v)) s1 -> wps (f tt) n s1 True Q) ->
  wps (set_sn_mr sn v ;;; f tt) n s True Q.
Proof.
  intros S H. apply wps_bindM, wps_set_mr. intros s0 E. destruct (shut_env _ _ S E) as [S0 M].
  apply H; [now apply shut_with|]. exact (same_with (fun r => upd r 0 v) _ _ M).
Qed.

Definition cmd_of (s : sock) (v : Z) : cmdrec :=
  {| cr_cmd := v; cr_sr := s_sr s; cr_mr := s_reg s 0x00; cr_port := of_word (s_reg s) 0x04;
     cr_dip := dest_ip s; cr_dport := dest_port s |}.
Definition logged (s : sock) (v : Z) : sock := with_cmdlog s (s_cmdlog s ++ [cmd_of s v]).

Lemma open_cmd {B} s (f : unit -> M B) (Q : res err B -> sock -> Prop) : shut s ->
  (forall s1, waiting (open_status (s_reg s 0)) (logged s 1) s1 -> wps (f tt) n s1 True Q) ->
  wps (set_sn_cr sn COpen ;;; f tt) n s True Q.
Proof.
  intros S H. apply wps_bindM, wps_set_cr. intros s0 E. destruct (shut_env _ _ S E) as [S0 M].
  apply H. pose proof M as (S1 & S2 & S3 & S4 & S5 & S6 & S7 & S8 & S9 & S10 & S11).
  split; [exact (proj2 S0)|]. split; [cbn; now rewrite S1|].
  unfold same. cbn. rewrite ?S1, ?S2, ?S3, ?S4, ?S5, ?S6, ?S7, ?S8, ?S9, ?S10, ?S11.
  repeat (split; [reflexivity|]). unfold cmd_of, dest_ip, dest_port. rewrite S1, (proj2 S0), (proj2 S). reflexivity.
Qed.

(** CLOSE, wait, configure, OPEN. *)
Definition ready_for (v : Z) (mode port : Z) (s x : sock) : Prop :=
  regs_kept (with_reg s (upd (upd (upd (s_reg s) 0x00 mode) 0x04 (hi8 port)) 0x05 (lo8 port))) x /\
  wire_ext s x /\ reopened s x [command 1 0 mode port (dest_ip s, dest_port s)].
Lemma reg_at s x mode port : regs_kept (with_reg s (upd (upd (upd (s_reg s) 0x00 mode) 0x04 (hi8 port)) 0x05 (lo8 port))) x ->
  is_u16 port -> configured x mode port (dest_ip s, dest_port s) /\ rx_size x = rx_size s /\ tx_size x = tx_size s.
Proof.
  intros H Hp. unfold configured, local_port, dest_ip, dest_port, of_word, rx_size, tx_size. rewrite !H by lia. cbn.
  split; [|split; reflexivity]. split; [reflexivity|]. split; [now apply hi_lo|reflexivity].
Qed.
Lemma configure_udp {B} mode fuel port s (f : unit -> M B) (Q : res err B -> sock -> Prop) : open_status mode = 0x22 -> is_u16 port ->
  (forall s0 s1, ready_for 0x22 mode port s s0 -> waiting 0x22 s0 s1 -> wps (f tt) n s1 True Q) ->
  wps (set_sn_cr sn CClose ;;; (poll_status fuel sn Closed ;;; (set_sn_port sn port ;;; (set_sn_mr sn mode ;;;
    (set_sn_cr sn COpen ;;; f tt))))) n s True Q.
Proof.
  intros Hm Hp H. apply (close_spec fuel s (fun _ => set_sn_port sn port ;;; (set_sn_mr sn mode ;;; (set_sn_cr sn COpen ;;; f tt)))).
  intros s1 c1 S1 K1 W1 L1 Hc. apply (cfg_port port s1 (fun _ => set_sn_mr sn mode ;;; (set_sn_cr sn COpen ;;; f tt))); [exact S1|].
  intros s2 S2 M2. apply (cfg_mode _ s2 (fun _ => set_sn_cr sn COpen ;;; f tt)); [exact S2|].
  intros s3 S3 M3. apply (open_cmd s3 f); [exact S3|]. intros s4 W4.
  destruct M2 as (R2 & _ & _ & _ & _ & _ & Wi2 & _ & _ & _ & L2). destruct M3 as (R3 & _ & _ & _ & _ & _ & Wi3 & _ & _ & _ & L3).
  assert (regs_kept (with_reg s (upd (upd (upd (s_reg s) 0x00 mode) 0x04 (hi8 port)) 0x05 (lo8 port))) s3) as K3.
  { intros a A1 A2 A3 A4. rewrite R3. cbn. rewrite R2. cbn. unfold upd.
    rewrite K1 by assumption. destruct (a =? 0) eqn:E0, (a =? 5) eqn:E5, (a =? 4) eqn:E4; try reflexivity; lia. }
  destruct (reg_at _ _ _ _ K3 Hp) as ((C1 & C2 & C3) & _).
  apply (H (logged s3 1)).
  - split; [exact K3|]. split.
    + unfold wire_ext in *. cbn [logged with_cmdlog s_wire]. rewrite Wi3. cbn [with_reg s_wire]. rewrite Wi2. exact W1.
    + exists c1. split; [exact Hc|]. cbn. rewrite L3. cbn. rewrite L2. cbn. rewrite L1, <- app_assoc. cbn. unfold cmd_of, command.
      rewrite (proj2 S3), C1. fold (local_port s3). rewrite C2. rewrite <- C3. reflexivity.
  - rewrite C1, Hm in W4. exact W4.
Qed.
Lemma configure_tcp fuel port s (f : unit -> M unit) (Q : res err unit -> sock -> Prop) : is_u16 port ->
  (forall s0 s1, ready_for 0x13 1 port s s0 -> waiting 0x13 s0 s1 -> wps (f tt) n s1 True Q) ->
  wps (set_sn_cr sn CClose ;;; (poll_status fuel sn Closed ;;; (set_sn_mr sn MODE_TCP ;;; (set_sn_port sn port ;;;
    (set_sn_cr sn COpen ;;; f tt))))) n s True Q.
Proof.
  intros Hp H. apply (close_spec fuel s (fun _ => set_sn_mr sn MODE_TCP ;;; (set_sn_port sn port ;;; (set_sn_cr sn COpen ;;; f tt)))).
  intros s1 c1 S1 K1 W1 L1 Hc. apply (cfg_mode _ s1 (fun _ => set_sn_port sn port ;;; (set_sn_cr sn COpen ;;; f tt))); [exact S1|].
  intros s2 S2 M2. apply (cfg_port _ s2 (fun _ => set_sn_cr sn COpen ;;; f tt)); [exact S2|].
  intros s3 S3 M3. apply (open_cmd s3 f); [exact S3|]. intros s4 W4.
  destruct M2 as (R2 & _ & _ & _ & _ & _ & Wi2 & _ & _ & _ & L2). destruct M3 as (R3 & _ & _ & _ & _ & _ & Wi3 & _ & _ & _ & L3).
  assert (regs_kept (with_reg s (upd (upd (upd (s_reg s) 0x00 1) 0x04 (hi8 port)) 0x05 (lo8 port))) s3) as K3.
  { intros a A1 A2 A3 A4. rewrite R3. cbn. rewrite R2. cbn. unfold upd.
    rewrite K1 by assumption. destruct (a =? 0) eqn:E0, (a =? 5) eqn:E5, (a =? 4) eqn:E4; try reflexivity; lia. }
  destruct (reg_at _ _ _ _ K3 Hp) as ((C1 & C2 & C3) & _).
  apply (H (logged s3 1)).
  - split; [exact K3|]. split.
    + unfold wire_ext in *. cbn [logged with_cmdlog s_wire]. rewrite Wi3. cbn [with_reg s_wire]. rewrite Wi2. exact W1.
    + exists c1. split; [exact Hc|]. cbn. rewrite L3. cbn. rewrite L2. cbn. rewrite L1, <- app_assoc. cbn. unfold cmd_of, command.
      rewrite (proj2 S3), C1. fold (local_port s3). rewrite C2. rewrite <- C3. reflexivity.
  - rewrite C1 in W4. exact W4.
Qed.

(** What opening in a UDP mode leads to. *)
Definition udp_opened (mode port : Z) (s s' : sock) : Prop :=
  reopened s s' [command 1 0 mode port (dest_ip s, dest_port s)] /\
  configured s' mode port (dest_ip s, dest_port s) /\ sizes_ok s' /\
  tx_size s' = tx_size s /\ pending s' = 0 /\
  (exists new more, udp_view s' new (s_wire s ++ more) (dest_ip s, dest_port s)) /\
  regs_kept (with_reg s (upd (upd (upd (s_reg s) 0x00 mode) 0x04 (hi8 port)) 0x05 (lo8 port))) s'.
Lemma open_udp {B} mode fuel port s (f : unit -> M B) (Q : res err B -> sock -> Prop) :
  open_status mode = 0x22 -> is_u16 port -> sizes_ok s ->
  (forall s', udp_opened mode port s s' -> wps (f tt) n s' True Q) ->
  wps (set_sn_cr sn CClose ;;; (poll_status fuel sn Closed ;;; (set_sn_port sn port ;;; (set_sn_mr sn mode ;;;
    (set_sn_cr sn COpen ;;; (poll_status fuel sn Udp ;;; f tt)))))) n s True Q.
Proof.
  intros Hm Hp [Hr Ht] HQ. apply (configure_udp mode fuel port s (fun _ => poll_status fuel sn Udp ;;; f tt)); [exact Hm|exact Hp|].
  intros s0 s1 (K0 & (more & W0) & c1 & Hc & L0) W1.
  destruct (reg_at _ _ _ _ K0 Hp) as ((C1 & C2 & C3) & Sr & St).
  apply wps_bindM, (poll_spec (fun x => waiting 0x22 s0 x \/ exists y, fresh 0x22 s0 y /\ env y x)); [now left| |].
  - intros a b [Wa|(y & Fy & Ey)] Eb.
    + apply (waiting_env 0x22 s0 a b); [lia|exact Wa|exact Eb].
    + right. exists y. split; [exact Fy|]. eapply env_trans; eassumption.
  - intros s2 Hs Hst. destruct Hs as [(Z0 & _)|(y & Fy & Ey)].
    { rewrite Z0 in Hst. discriminate. }
    apply HQ. unfold udp_opened.
    destruct (fresh_ready _ _ _ Fy) as (R1 & R2 & R3 & R4 & R5 & R6); [now rewrite Sr|now rewrite St|].
    pose proof Fy as (F1 & F2 & [F3 F3'] & F4 & _). destruct (keeps_env _ _ Ey) as [E1 E2].
    assert (regs_kept (with_reg s (upd (upd (upd (s_reg s) 0x00 mode) 0x04 (hi8 port)) 0x05 (lo8 port))) s2) as K2.
    { intros a A1 A2 A3 A4. rewrite E1, F3, K0 by assumption. reflexivity. }
    destruct (reg_at _ _ _ _ K2 Hp) as (C & Sr2 & St2).
    assert (udp_view y [] (s_wire s ++ more) (dest_ip s, dest_port s)) as V.
    { split; [split; assumption|]. split; [exact R1|]. split; [exact R2|].
      split; [split; [exact R3|constructor]|]. split; [unfold tx_frames; rewrite R6, app_nil_r; congruence|].
      unfold dest_ip, dest_port, of_word in *. rewrite !F3 by lia. rewrite <- C3. reflexivity. }
    destruct (uview_env y s2 _ _ _ V Ey) as (new & V2).
    split; [exists c1; split; [exact Hc|congruence]|]. split; [exact C|]. split; [split; congruence|]. split; [congruence|].
    split; [|split; [exists new, more; apply V2|exact K2]].
    destruct (tx_work_env y s2 (uview_idle _ _ _ _ V) (proj1 R2) Ey) as (_ & _ & _ & _ & _ & _ & _ & _ & _ & Ep & _).
    pose proof (wsub_range (s_tx_cmd s2) (s_tx_rd s2)) as Hq. fold (pending s2) in Hq. unfold is_u16 in Hq.
    assert (pending y = 0) as P0. { destruct Fy as (_ & _ & _ & _ & _ & _ & G & _). unfold pending. rewrite G. unfold wsub. rewrite Z.sub_diag. reflexivity. }
    lia.
Qed.
Lemma udp_bind_spec fuel port s : is_u16 port -> sizes_ok s ->
  wps (udp_bind false fuel sn port) n s True (fun r s' => r = Ok tt /\
    reopened s s' [command 1 0 2 port (dest_ip s, dest_port s)] /\
    configured s' 2 port (dest_ip s, dest_port s) /\ sizes_ok s' /\
    tx_size s' = tx_size s /\ pending s' = 0 /\
    exists new more, udp_view s' new (s_wire s ++ more) (dest_ip s, dest_port s)).
Proof.
  intros Hp Hz. unfold udp_bind. change (debug_assert false (port_is_unique sn port)) with (ret tt : M unit).
  apply wps_bindM, wps_ret. apply (open_udp 2 fuel port s (fun _ => ret tt)); [reflexivity|exact Hp|exact Hz|].
  intros s' (H1 & H2 & H3 & H4 & H5 & H6 & _). apply wps_ret. auto 9.
Qed.

(** OPEN of a TCP socket: waiting or open, and nothing else happens. *)
Definition tcp_wait (s0 x : sock) : Prop := waiting 0x13 s0 x \/ fresh 0x13 s0 x.
Lemma tcp_wait_env s0 a b : tcp_wait s0 a -> env a b -> tcp_wait s0 b.
Proof.
  intros [W|F] E; [|right; now apply (init_env 0x13 s0 a)].
  destruct (waiting_env 0x13 s0 a b ltac:(lia) W E) as [W'|(y & Fy & Ey)]; [now left|right].
  now apply (init_env 0x13 s0 y).
Qed.
Lemma put_dest_at r addr a : ~ (0x0C <= a <= 0x11) -> put_dest r addr a = r a.
Proof. intros H. unfold put_dest. rewrite !upd_other by lia. reflexivity. Qed.
Lemma put_dest_ext r r' addr a : r a = r' a -> put_dest r addr a = put_dest r' addr a.
Proof. intros H. unfold put_dest, upd. rewrite H. reflexivity. Qed.
Lemma tcp_wait_dest s0 x addr : tcp_wait s0 x ->
  tcp_wait (with_reg s0 (put_dest (s_reg s0) addr)) (with_reg x (put_dest (s_reg x) addr)).
Proof.
  intros [(W1 & W2 & S)|F].
  - left. split; [exact W1|]. split; [exact W2|]. exact (same_with (fun r => put_dest r addr) _ _ S).
  - right. destruct F as (F1 & F2 & [F3 F3'] & F4 & F5 & F6 & F7 & F8 & F9 & F10 & F11 & F12).
    split; [exact F1|]. split; [exact F2|]. split.
    { split; [|exact F3']. intros a A1 A2 A3 A4. apply put_dest_ext. now apply F3. }
    split; [exact F4|]. split; [exact F5|]. split; [exact F6|]. split; [exact F7|]. split; [exact F8|].
    split; [exact F9|]. split; [exact F10|]. split; [exact F11|exact F12].
Qed.

(** What a listening or connecting socket becomes. *)
Definition starts (s' : sock) : Prop := forall s'', only_events s' s'' ->
  tcp_open s'' -> tcp_view s'' (s_rxlog s') (sent s').
Lemma finish_spec fuel cmd st s0 s1 : (cmd = CListen /\ st = 0x14 \/ cmd = CConnect /\ st = 0x15) ->
  size_ok (rx_size s0) -> size_ok (tx_size s0) -> tcp_wait s0 s1 ->
  wps (poll_status fuel sn Init ;;; set_sn_cr sn cmd) n s1 True (fun r s' => r = Ok tt /\
    s_sr s' = st /\ regs_kept s0 s' /\ s_wire s' = s_wire s0 /\
    s_cmdlog s' = s_cmdlog s0 ++ [command (command_raw cmd) 0x13 (s_reg s0 0) (local_port s0) (dest_ip s0, dest_port s0)] /\
    starts s').
Proof.
  intros Hcmd Hr Ht W1. apply wps_bindM, (poll_spec (tcp_wait s0)); [exact W1|apply tcp_wait_env|].
  intros s2 [(Z0 & _)|F] Hst; [rewrite Z0 in Hst; discriminate|].
  apply wps_set_cr. intros s3 E3. pose proof (init_env 0x13 s0 s2 s3 eq_refl F E3) as F3.
  destruct (fresh_ready _ _ _ F3 Hr Ht) as (R1 & R2 & R3 & R4 & R5 & R6).
  pose proof F3 as (G1 & G2 & [G3 G3'] & G4 & G5 & _).
  set (s' := exec_cmd s3 (command_raw cmd)).
  assert (s' = with_sr (logged s3 (command_raw cmd)) st) as Es.
  { unfold s'. destruct Hcmd as [[-> ->]|[-> ->]]; unfold exec_cmd; cbn [command_raw Z.eqb Pos.eqb];
    unfold logged, cmd_of; cbn [with_cmdlog s_sr]; rewrite G1; reflexivity. }
  rewrite Es. split; [reflexivity|]. split; [reflexivity|]. split; [exact G3|]. split; [exact G4|]. split.
  { cbn. rewrite G3'. unfold cmd_of, command, local_port, dest_ip, dest_port, of_word. rewrite G1, !G3 by lia. reflexivity. }
  intros s'' E'' To.
  destruct (opening_env (with_sr (logged s3 (command_raw cmd)) st) s'') with (s2 := s'') as [(P & O & _)|V]; try assumption; try reflexivity.
  - cbn. destruct Hcmd as [[_ ->]|[_ ->]]; reflexivity.
  - exfalso. destruct To as [_ To]. unfold opening_state in O. unfold data_state in To. lia.
Qed.

Lemma tcp_listen_spec fuel port s : is_u16 port -> sizes_ok s ->
  wps (tcp_listen false fuel sn port) n s True (fun r s' => r = Ok tt /\
    reopened s s' [command 1 0 1 port (dest_ip s, dest_port s); command 2 0x13 1 port (dest_ip s, dest_port s)] /\
    configured s' 1 port (dest_ip s, dest_port s) /\ sizes_ok s' /\
    s_sr s' = 0x14 /\ (exists more, s_wire s' = s_wire s ++ more) /\ starts s').
Proof.
  intros Hp [Hr Ht]. unfold tcp_listen. change (debug_assert false (port_is_unique sn port)) with (ret tt : M unit).
  apply wps_bindM, wps_ret. apply (configure_tcp fuel port s (fun _ => poll_status fuel sn Init ;;; set_sn_cr sn CListen)); [exact Hp|].
  intros s0 s1 (K0 & (more & W0) & c1 & Hc & L0) W1.
  destruct (reg_at _ _ _ _ K0 Hp) as ((C1 & C2 & C3) & Sr & St).
  eapply wps_mono; [| |apply (finish_spec fuel CListen 0x14 s0 s1)]; auto; try (now left); try congruence.
  intros r s' (-> & H1 & H2 & H3 & H4 & H5). split; [reflexivity|]. split.
  { exists c1. split; [exact Hc|]. rewrite H4, L0, <- app_assoc. rewrite C1, C2, C3. reflexivity. }
  assert (regs_kept (with_reg s (upd (upd (upd (s_reg s) 0x00 1) 0x04 (hi8 port)) 0x05 (lo8 port))) s') as K2.
  { intros a A1 A2 A3 A4. rewrite H2, K0 by assumption. reflexivity. }
  destruct (reg_at _ _ _ _ K2 Hp) as (C & Sr2 & St2).
  split; [exact C|]. split; [split; congruence|]. split; [exact H1|]. split; [exists more; congruence|exact H5].
Qed.

Lemma tcp_connect_spec fuel port addr s : is_u16 port -> addr_ok addr -> sizes_ok s ->
  wps (tcp_connect false fuel sn port addr) n s True (fun r s' => r = Ok tt /\
    reopened s s' [command 1 0 1 port (dest_ip s, dest_port s); command 4 0x13 1 port addr] /\
    configured s' 1 port addr /\ sizes_ok s' /\
    s_sr s' = 0x15 /\ (exists more, s_wire s' = s_wire s ++ more) /\ starts s').
Proof.
  intros Hp Ha [Hr Ht]. unfold tcp_connect. change (debug_assert false (port_is_unique sn port)) with (ret tt : M unit).
  apply wps_bindM, wps_ret.
  apply (configure_tcp fuel port s (fun _ => set_sn_dest sn addr ;;; (poll_status fuel sn Init ;;; set_sn_cr sn CConnect))); [exact Hp|].
  intros s0 s1 (K0 & (more & W0) & c1 & Hc & L0) W1.
  destruct (reg_at _ _ _ _ K0 Hp) as ((C1 & C2 & C3) & Sr & St).
  apply wps_bindM, wps_set_dest. intros s2 E2.
  assert (tcp_wait s0 s2) as T2 by (apply (tcp_wait_env s0 s1); [now left|exact E2]).
  pose proof (tcp_wait_dest _ _ addr T2) as T3. set (z0 := with_reg s0 (put_dest (s_reg s0) addr)) in *.
  assert ((dest_ip z0, dest_port z0) = addr) as Dz.
  { destruct addr as [ip p]. destruct Ha as (A1 & A2 & A3). cbn [fst snd] in *. 
    destruct ip as [|b0 [|b1 [|b2 [|b3 [|b4 l]]]]]; try (exfalso; revert A1; unfold zlen; cbn [length]; lia).
    unfold dest_ip, dest_port, of_word. cbn. f_equal. now apply hi_lo. }
  eapply wps_mono; [| |apply (finish_spec fuel CConnect 0x15 z0 _)]; auto; try (now right).
  - intros r s' (-> & H1 & H2 & H3 & H4 & H5). split; [reflexivity|]. split.
    { exists c1. split; [exact Hc|]. rewrite H4. cbn [z0 with_reg s_cmdlog]. rewrite L0, <- app_assoc.
      change (s_reg z0 0) with (s_reg s0 0). change (local_port z0) with (local_port s0). rewrite C1, C2, Dz. reflexivity. }
    split; [|split; [|split; [exact H1|split; [exists more; rewrite H3; exact W0|exact H5]]]].
    + split; [rewrite H2 by lia; exact C1|]. split.
      { unfold local_port, of_word. rewrite !H2 by lia. exact C2. }
      rewrite <- Dz. unfold dest_ip, dest_port, of_word. rewrite !H2 by lia. reflexivity.
    + split; unfold rx_size, tx_size; rewrite H2 by lia.
      * change (size_ok (rx_size s0)). now rewrite Sr.
      * change (size_ok (tx_size s0)). now rewrite St.
  - change (size_ok (rx_size s0)). now rewrite Sr.
  - change (size_ok (tx_size s0)). now rewrite St.
Qed.
End Open.

Lemma returns_wps {A} (p : prog A) sn c (Q : A -> sock -> Prop) :
  wps p (snz sn) (c_sock c (snz sn)) True Q -> if_returns p (sn_raw sn) c Q.
Proof.
  intros H sch a sch' c' Hs E. pose proof (wps_sound p (snz sn) c True Q sch ltac:(apply snz_range) H Hs) as R.
  rewrite E in R. apply R.
Qed.

(** The debug assertion lets only events happen. *)
Lemma assert_first (p : bool -> M unit) fuel sn port c (Q : sock -> res err unit -> sock -> Prop) dbg :
  opens fuel sn port p ->
  (forall s, only_events (c_sock c (sn_raw sn)) s -> wps (p false) (snz sn) s True (Q s)) ->
  if_returns (p dbg) (sn_raw sn) c (fun r s' => exists s, only_events (c_sock c (sn_raw sn)) s /\ Q s r s').
Proof.
  intros Hp H. destruct dbg.
  - rewrite (opens_assert _ _ _ _ Hp). intros sch r sch' c' Hs E. unfold bindM in E. rewrite run_bind in E.
    unfold debug_assert, bindM in E. rewrite run_bind in E.
    pose proof (wpe_sound _ c False _ sch (unique_loop port (filter (fun s => negb (sn_eqb s sn)) SOCKETS) c) Hs) as W.
    fold (port_is_unique sn port) in W.
    destruct (run (port_is_unique sn port) sch c) as [[[r1| |] sch1] c1]; try contradiction.
    destruct W as (((evs & Ec) & Hr) & Hs1).
    assert (only_events (c_sock c (sn_raw sn)) (c_sock c1 (sn_raw sn))) as Eo.
    { rewrite Ec. apply (env_evs c evs (sn_raw sn)). }
    destruct Hr as [(-> & _)|(-> & _)]; cbn in E; [|discriminate].
    exists (c_sock c1 (sn_raw sn)). split; [exact Eo|].
    exact (returns_wps _ sn c1 _ (H _ Eo) sch1 r sch' c' Hs1 E).
  - intros sch r sch' c' Hs E. exists (c_sock c (sn_raw sn)). split; [exists []; reflexivity|].
    refine (returns_wps _ sn c _ (H _ _) sch r sch' c' Hs E). exists []; reflexivity.
Qed.

Lemma sizes_env s s' : sizes_ok s -> env s s' -> sizes_ok s' /\ (dest_ip s', dest_port s') = (dest_ip s, dest_port s).
Proof.
  intros [H1 H2] E. destruct (keeps_env _ _ E) as [K _]. unfold sizes_ok, rx_size, tx_size, dest_ip, dest_port, of_word.
  rewrite !K by lia. auto.
Qed.
Lemma tx_size_env s s' : env s s' -> tx_size s' = tx_size s.
Proof. intros E. destruct (keeps_env _ _ E) as [K _]. unfold tx_size. now rewrite K by lia. Qed.
Lemma reopened_env s0 s s' l : env s0 s -> reopened s s' l -> reopened s0 s' l.
Proof. intros E (c & Hc & H). exists c. split; [exact Hc|]. now rewrite <- (proj2 (keeps_env _ _ E)). Qed.

Lemma udp_bind_run dbg fuel sn port c : let s := c_sock c (sn_raw sn) in
  is_u16 port -> sizes_ok s ->
  if_returns (udp_bind dbg fuel sn port) (sn_raw sn) c (fun r s' => r = Ok tt /\
    reopened s s' [command 0x01 0x00 2 port (dest_ip s, dest_port s)] /\
    configured s' 2 port (dest_ip s, dest_port s) /\ tx_size s' = tx_size s /\ pending s' = 0 /\
    exists new more, udp_view s' new (s_wire s ++ more) (dest_ip s, dest_port s)).
Proof.
  intros s Hp Hz sch r sch' c' Hs E.
  unshelve epose proof (assert_first (fun d => udp_bind d fuel sn port) fuel sn port c (fun s r s' => r = Ok tt /\
    reopened s s' [command 1 0 2 port (dest_ip s, dest_port s)] /\
    configured s' 2 port (dest_ip s, dest_port s) /\ sizes_ok s' /\ tx_size s' = tx_size s /\ pending s' = 0 /\
    exists new more, udp_view s' new (s_wire s ++ more) (dest_ip s, dest_port s)) dbg _ _ sch r sch' c' Hs E) as P; [now left| |].
  - intros s0 Eo. apply udp_bind_spec; [exact Hp|]. apply (sizes_env s s0 Hz Eo).
  - destruct P as (s0 & Eo & H1 & H2 & H3 & _ & Z1 & Z2 & new & more & H4). destruct (sizes_env s s0 Hz Eo) as [_ Ed]. rewrite Ed in *. split; [exact H1|].
    split; [now apply (reopened_env s s0)|]. split; [exact H3|].
    split; [rewrite Z1; apply (tx_size_env s s0 Eo)|]. split; [exact Z2|]. destruct (wire_env s s0 Eo) as (m & Em).
    exists new, (m ++ more). rewrite app_assoc, <- Em. exact H4.
Qed.

Lemma tcp_listen_run dbg fuel sn port c : let s := c_sock c (sn_raw sn) in
  is_u16 port -> sizes_ok s ->
  if_returns (tcp_listen dbg fuel sn port) (sn_raw sn) c (fun r s' => r = Ok tt /\
    reopened s s' [command 0x01 0x00 1 port (dest_ip s, dest_port s); command 0x02 0x13 1 port (dest_ip s, dest_port s)] /\
    configured s' 1 port (dest_ip s, dest_port s) /\ s_sr s' = 0x14 /\
    (exists more, s_wire s' = s_wire s ++ more) /\
    forall s'', only_events s' s'' -> tcp_open s'' -> tcp_view s'' (s_rxlog s') (sent s')).
Proof.
  intros s Hp Hz sch r sch' c' Hs E.
  unshelve epose proof (assert_first (fun d => tcp_listen d fuel sn port) fuel sn port c (fun s r s' => r = Ok tt /\
    reopened s s' [command 1 0 1 port (dest_ip s, dest_port s); command 2 0x13 1 port (dest_ip s, dest_port s)] /\
    configured s' 1 port (dest_ip s, dest_port s) /\ sizes_ok s' /\
    s_sr s' = 0x14 /\ (exists more, s_wire s' = s_wire s ++ more) /\ starts s') dbg _ _ sch r sch' c' Hs E) as P; [right; now left| |].
  - intros s0 Eo. apply tcp_listen_spec; [exact Hp|]. apply (sizes_env s s0 Hz Eo).
  - destruct P as (s0 & Eo & H1 & H2 & H3 & _ & H4 & H5 & H6). destruct (sizes_env s s0 Hz Eo) as [_ Ed]. rewrite Ed in *. split; [exact H1|].
    split; [now apply (reopened_env s s0)|]. split; [exact H3|]. split; [exact H4|].
    split; [exact (wire_trans _ _ _ (wire_env s s0 Eo) H5)|exact H6].
Qed.

Lemma tcp_connect_run dbg fuel sn port addr c : let s := c_sock c (sn_raw sn) in
  is_u16 port -> addr_ok addr -> sizes_ok s ->
  if_returns (tcp_connect dbg fuel sn port addr) (sn_raw sn) c (fun r s' => r = Ok tt /\
    reopened s s' [command 0x01 0x00 1 port (dest_ip s, dest_port s); command 0x04 0x13 1 port addr] /\
    configured s' 1 port addr /\ s_sr s' = 0x15 /\
    (exists more, s_wire s' = s_wire s ++ more) /\
    forall s'', only_events s' s'' -> tcp_open s'' -> tcp_view s'' (s_rxlog s') (sent s')).
Proof.
  intros s Hp Ha Hz sch r sch' c' Hs E.
  unshelve epose proof (assert_first (fun d => tcp_connect d fuel sn port addr) fuel sn port c (fun s r s' => r = Ok tt /\
    reopened s s' [command 1 0 1 port (dest_ip s, dest_port s); command 4 0x13 1 port addr] /\
    configured s' 1 port addr /\ sizes_ok s' /\
    s_sr s' = 0x15 /\ (exists more, s_wire s' = s_wire s ++ more) /\ starts s') dbg _ _ sch r sch' c' Hs E) as P; [right; right; now exists addr| |].
  - intros s0 Eo. apply tcp_connect_spec; [exact Hp|exact Ha|]. apply (sizes_env s s0 Hz Eo).
  - destruct P as (s0 & Eo & H1 & H2 & H3 & _ & H4 & H5 & H6). destruct (sizes_env s s0 Hz Eo) as [_ Ed]. rewrite Ed in *. split; [exact H1|].
    split; [now apply (reopened_env s s0)|]. split; [exact H3|]. split; [exact H4|].
    split; [exact (wire_trans _ _ _ (wire_env s s0 Eo) H5)|exact H6].
Qed.

From Verif Require Import Spec.Cases.
Lemma case_holds : holds_port (c_sock case_udp 3) 80.
Proof.
  split; [reflexivity|]. intros s' E.
  assert (udp_open (c_sock case_udp 3)) as U by (split; reflexivity).
  assert (s_sr s' = 0x22) as ->; [|unfold port_free; lia].
  apply (env_ind (fun x => udp_open x) _ s') in E; [exact (proj2 E)| |exact U].
  intros x e [H1 H2]. destruct e; cbn [sock_ev]; unfold rx_store; rewrite ?H1, ?H2;
    cbn [data_state opening_state Z.eqb Pos.eqb orb andb]; ev_cases; try (split; assumption); try discriminate.
Qed.
