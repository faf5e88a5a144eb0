(** Partial correctness of programs that touch the common registers and one socket: every fault-free run
    that returns satisfies [Q]; it may panic only if [P]. *)
From Verif Require Export Proof.DgramP Proof.QuietP.
From Verif Require Import Model.LlAddr Model.Ll Model.HlCommon.

Definition wpc {A} (P : Prop) (p : prog A) (c : chip) (Q : A -> chip -> Prop) : Prop :=
  forall sch, no_faults sch ->
  match run p sch c with
  | (Done a, _, c') => Q a c'
  | (Panicked, _, _) => P
  | (Diverged, _, _) => True
  end.
Lemma wpc_ret {A} P (a : A) c (Q : A -> chip -> Prop) : Q a c -> wpc P (Ret a) c Q.
Proof. intros H sch Hs. exact H. Qed.
Lemma wpc_panic {A} (P : Prop) c (Q : A -> chip -> Prop) : P -> wpc P Panic c Q.
Proof. intros H sch Hs. exact H. Qed.
Lemma wpc_diverge {A} (P : Prop) c (Q : A -> chip -> Prop) : wpc P Diverge c Q.
Proof. intros sch Hs. exact I. Qed.
Lemma wpc_mono {A} (P : Prop) (p : prog A) c (Q Q' : A -> chip -> Prop) : wpc P p c Q -> (forall a c', Q a c' -> Q' a c') -> wpc P p c Q'.
Proof. intros H HQ sch Hs. specialize (H sch Hs). destruct (run p sch c) as [[[a| |] sch'] c']; auto. Qed.
Lemma wpc_bind {A B} (P : Prop) (p : prog A) (f : A -> prog B) c Q :
  wpc P p c (fun a c' => wpc P (f a) c' Q) -> wpc P (bind p f) c Q.
Proof.
  intros H sch Hs. specialize (H sch Hs). rewrite run_bind. destruct (run p sch c) as [[[a| |] sch1] c1] eqn:E; auto.
  apply H. eapply run_no_faults; eassumption.
Qed.
Lemma wpc_bindM {A B} (P : Prop) (p : M A) (f : A -> M B) c Q :
  wpc P p c (fun r c' => match r with Ok a => wpc P (f a) c' Q | Err e => Q (Err e) c' end) -> wpc P (bindM p f) c Q.
Proof. intros H. apply wpc_bind. eapply wpc_mono; [exact H|]. intros [a|e] c' H'; [exact H'|now apply wpc_ret]. Qed.
Lemma wpc_wpe {A} (P : Prop) (p : prog A) c Q : wpe p c True Q -> wpc P p c Q.
Proof.
  intros H sch Hs. pose proof (wpe_sound p c True Q sch H Hs) as R. destruct (run p sch c) as [[[a| |] sch'] c']; [apply R|contradiction|exact I].
Qed.
Lemma wpc_wps {A} (P : Prop) (p : prog A) sn c (Q : A -> sock -> Prop) : wps p (snz sn) (c_sock c (snz sn)) True Q ->
  wpc P p c (fun a c' => Q a (c_sock c' (snz sn)) /\ frame_ok (snz sn) c c').
Proof.
  intros H sch Hs. pose proof (wps_sound p (snz sn) c True Q sch ltac:(apply snz_range) H Hs) as R.
  destruct (run p sch c) as [[[a| |] sch'] c']; [|contradiction|exact I]. destruct R as (R1 & _ & R2). auto.
Qed.
(** The size of the transmit buffer. *)
Definition size_reg (x : Z) : Prop := x = 0x1F.
Lemma size_reg_settings x : size_reg x -> settings x.
Proof. unfold size_reg, settings. lia. Qed.
Lemma wpc_sock {A} (P : Prop) (p : prog A) sn c (Q : A -> sock -> Prop) : quiet size_reg p -> wps p (snz sn) (c_sock c (snz sn)) True Q ->
  wpc P p c (fun a c' => Q a (c_sock c' (snz sn)) /\ frame_ok (snz sn) c c' /\ tx_size (c_sock c' (snz sn)) = tx_size (c_sock c (snz sn))).
Proof.
  intros Hq H. eapply wpc_mono; [apply (wpc_wps P p sn c (fun r s' => Q r s' /\ forall x, size_reg x -> s_reg s' x = s_reg (c_sock c (snz sn)) x))|].
  - apply wps_quiet; auto. exact size_reg_settings.
  - intros a c' ((H1 & H2) & H3). split; [exact H1|]. split; [exact H3|]. unfold tx_size. rewrite H2; reflexivity.
Qed.

(** Common registers. *)
Lemma common_evs c evs : c_common (chip_evs c evs) = c_common c.
Proof. apply (chip_evs_sock evs c 0). Qed.
Lemma chip_wr_low c a v : 0 <= a < 0x15 -> chip_wr c 0 a v = mkChip (upd (c_common c) a v) (c_sock c).
Proof.
  intros H. unfold chip_wr, common_ro. change (0 =? 0) with true. cbn match.
  destruct (Z.eqb_spec a 0x17), (Z.leb_spec 0x28 a), (Z.leb_spec a 0x2D), (Z.eqb_spec a 0x39), (Z.eqb_spec a 0x15); try lia. reflexivity.
Qed.
Lemma chip_wrs_low4 c a b0 b1 b2 b3 : 0 <= a <= 16 ->
  chip_wrs c 0 a [b0; b1; b2; b3] =
  mkChip (upd (upd (upd (upd (c_common c) a b0) (a + 1) b1) (a + 2) b2) (a + 3) b3) (c_sock c).
Proof.
  intros H. cbn [chip_wrs]. rewrite !Z.mod_small by lia. rewrite !chip_wr_low by lia. cbn [c_common c_sock].
  replace (a + 1 + 1) with (a + 2) by lia. replace (a + 2 + 1) with (a + 3) by lia. reflexivity.
Qed.

(** The port assertion reads the other sockets. *)
Lemma sizes_of_view s q fs a : udp_view s q fs a -> sizes_ok s.
Proof. intros (_ & ((Hr & _) & _) & ((Ht & _) & _) & _). split; assumption. Qed.
Lemma wpc_udp_bind dbg fuel sn port c : is_u16 port -> sizes_ok (c_sock c (snz sn)) ->
  wpc (dbg = true) (udp_bind dbg fuel sn port) c (fun r c' => r = Ok tt /\
    tx_size (c_sock c' (snz sn)) = tx_size (c_sock c (snz sn)) /\ pending (c_sock c' (snz sn)) = 0 /\
    (exists new f a, udp_view (c_sock c' (snz sn)) new f a) /\ frame_ok (snz sn) c c').
Proof.
  intros Hp Hz. assert (forall c1, env (c_sock c (snz sn)) (c_sock c1 (snz sn)) -> frame_ok (snz sn) c c1 ->
    wpc (dbg = true) (udp_bind false fuel sn port) c1 (fun r c' => r = Ok tt /\
    tx_size (c_sock c' (snz sn)) = tx_size (c_sock c (snz sn)) /\ pending (c_sock c' (snz sn)) = 0 /\
    (exists new f a, udp_view (c_sock c' (snz sn)) new f a) /\ frame_ok (snz sn) c c')) as G.
  { intros c1 E1 F1. eapply wpc_mono; [apply (wpc_wps _ _ sn c1 _ (udp_bind_spec sn fuel port _ Hp (proj1 (sizes_env _ _ Hz E1))))|].
    intros r c' ((H1 & _ & _ & _ & H2 & H3 & new & more & H4) & F2). split; [exact H1|]. split; [rewrite H2; apply (tx_size_env _ _ E1)|].
    split; [exact H3|]. split; [eauto|]. eapply frame_trans; eassumption. }
  destruct dbg.
  - change (udp_bind true fuel sn port) with (debug_assert true (port_is_unique sn port) ;;; udp_bind false fuel sn port).
    unfold debug_assert. apply wpc_bindM, wpc_bindM. apply wpc_wpe.
    eapply wpe_mono; [| |apply (unique_loop port (filter (fun s => negb (sn_eqb s sn)) SOCKETS) c)]; [contradiction|].
    intros r c1 ((evs & Ec) & [(-> & _)|(-> & _)]).
    + apply wpc_ret. apply G; rewrite Ec; [apply env_evs|apply frame_evs].
    + apply wpc_panic. reflexivity.
  - apply G; [apply env_refl|apply frame_refl].
Qed.
