(** All socket calls: C18, C20, C21. *)
From Verif Require Export Proof.UdpP Model.HlCommon Model.LlBits Spec.Calls.

(** ** Footprint *)
Fixpoint wonly {A} (n : Z) (p : prog A) : Prop :=
  match p with
  | Ret _ | Panic | Diverge => True
  | Rd _ _ _ k => forall r, wonly n (k r)
  | Wr _ b _ k => (exists kd, 1 <= kd <= 3 /\ b = 4 * n + kd) /\ forall r, wonly n (k r)
  end.
Lemma wonly_bind {A B} n (p : prog A) (f : A -> prog B) :
  wonly n p -> (forall a, wonly n (f a)) -> wonly n (bind p f).
Proof.
  intros H Hf. revert H. induction p as [a|a b l k IH|a b d k IH| |]; cbn [wonly bind]; intros H; auto.
  destruct H as [Hb H]. split; auto.
Qed.
Lemma wonly_bindM {A B} n (p : M A) (f : A -> M B) :
  wonly n p -> (forall a, wonly n (f a)) -> wonly n (bindM p f).
Proof. intros H Hf. apply wonly_bind; [exact H|]. intros [a|e]; [apply Hf|exact I]. Qed.
Lemma wonly_read n a b l : wonly n (read a b l).
Proof. intros [d|]; exact I. Qed.
Lemma wonly_write n a b d kd : 1 <= kd <= 3 -> b = 4 * n + kd -> wonly n (write a b d).
Proof. intros H1 H2. split; [eauto|]. intros [|]; exact I. Qed.

Lemma evs_of_for m evs : evs_of m evs = map ev_what (filter (fun e => ev_sn e =? m) evs).
Proof. reflexivity. Qed.
Lemma wonly_sound {A} (p : prog A) : forall n sch c o sch' c', 0 <= n -> wonly n p -> run p sch c = (o, sch', c') ->
  exists used, sch = used ++ sch' /\ c_common c' = c_common c /\
    forall m, m <> n -> c_sock c' m = fold_left sock_ev (events_for m used) (c_sock c m).
Proof.
  induction p as [a|a b l k IH|a b d k IH| |]; intros n sch c o sch' c' Hn H E; cbn [run wonly] in *;
    try (injection E as <- <- <-; exists []; split; [reflexivity|]; split; [reflexivity|]; reflexivity).
  - destruct sch as [|t sch].
    + destruct (IH _ n [] c o sch' c' Hn (H _) E) as (used & E1 & E2). exists used. auto.
    + assert (exists r, run (k r) sch (chip_evs c (t_evs t)) = (o, sch', c')) as (r & Er)
        by (destruct (t_fault t); eauto).
      destruct (IH _ n sch _ o sch' c' Hn (H _) Er) as (used & -> & E2 & E3).
      exists (t :: used). split; [reflexivity|].
      split; [rewrite E2; apply (chip_evs_sock (t_evs t) c 0)|]. intros m Hm. rewrite E3 by exact Hm.
      destruct (chip_evs_sock (t_evs t) c m) as (_ & ->). unfold events_for. cbn [map concat].
      now rewrite fold_left_app.
  - destruct H as [(kd & Hk & ->) H]. destruct sch as [|t sch].
    + destruct (IH _ n [] _ o sch' c' Hn (H _) E) as (used & E1 & E2 & E3).
      destruct (chip_wrs_sock d c n kd a Hn Hk) as (W1 & _ & W3).
      exists used. split; [exact E1|]. split; [congruence|]. intros m Hm. rewrite E3, W3 by exact Hm. reflexivity.
    + assert (exists r d', run (k r) sch (chip_wrs (chip_evs c (t_evs t)) (4 * n + kd) a d') = (o, sch', c')) as (r & d' & Er)
        by (destruct (t_fault t); eauto).
      destruct (IH _ n sch _ o sch' c' Hn (H _) Er) as (used & -> & E2 & E3).
      destruct (chip_wrs_sock d' (chip_evs c (t_evs t)) n kd a Hn Hk) as (W1 & _ & W3).
      exists (t :: used). split; [reflexivity|].
      split; [rewrite E2, W1; apply (chip_evs_sock (t_evs t) c 0)|]. intros m Hm. rewrite E3, W3 by exact Hm.
      destruct (chip_evs_sock (t_evs t) c m) as (_ & ->). unfold events_for. cbn [map concat].
      now rewrite fold_left_app.
Qed.

(** ** Faults *)
Fixpoint strict {A} (p : M A) : Prop :=
  match p with
  | Ret _ | Panic | Diverge => True
  | Rd _ _ _ k => (forall l, strict (k (Some l))) /\ k None = Ret (Err Other)
  | Wr _ _ _ k => strict (k true) /\ k false = Ret (Err Other)
  end.
Lemma strict_bindM {A B} (p : M A) (f : A -> M B) : strict p -> (forall a, strict (f a)) -> strict (bindM p f).
Proof.
  intros H Hf. revert H. induction p as [[a|e]|a b l k IH|a b d k IH| |]; cbn [strict bindM bind]; intros H; auto.
  - destruct H as [H1 H2]. split; [intros l'; apply IH, H1|]. now rewrite H2.
  - destruct H as [H1 H2]. split; [apply IH, H1|]. now rewrite H2.
Qed.
Lemma strict_read a b l : strict (read a b l).
Proof. split; [intros; exact I|reflexivity]. Qed.
Lemma strict_write a b d : strict (write a b d).
Proof. split; [exact I|reflexivity]. Qed.
Lemma strict_sound {A} (p : M A) : forall sch c o sch' c', strict p -> run p sch c = (o, sch', c') ->
  exists used, sch = used ++ sch' /\
    (no_faults used \/
     exists u t, used = u ++ [t] /\ no_faults u /\ t_fault t <> None /\ o = Done (Err Other)).
Proof.
  induction p as [a|a b l k IH|a b d k IH| |]; intros sch c o sch' c' H E; cbn [run strict] in *;
    try (injection E as <- <- <-; exists []; split; [reflexivity|]; left; constructor).
  - destruct H as [H1 H2]. destruct sch as [|t sch].
    + destruct (IH _ [] c o sch' c' (H1 _) E) as (used & E1 & E2). exists used. auto.
    + destruct (t_fault t) as [m|] eqn:Ef.
      * rewrite H2 in E. cbn [run] in E. injection E as <- <- <-. exists [t]. split; [reflexivity|]. right.
        exists [], t. split; [reflexivity|]. split; [constructor|]. split; [congruence|reflexivity].
      * destruct (IH _ sch _ o sch' c' (H1 _) E) as (used & -> & D).
        exists (t :: used). split; [reflexivity|]. destruct D as [D|(u & t' & -> & D1 & D2)].
        -- left. now constructor.
        -- right. exists (t :: u), t'. split; [reflexivity|]. split; [now constructor|exact D2].
  - destruct H as [H1 H2]. destruct sch as [|t sch].
    + destruct (IH _ [] _ o sch' c' H1 E) as (used & E1 & E2). exists used. auto.
    + destruct (t_fault t) as [m|] eqn:Ef.
      * rewrite H2 in E. cbn [run] in E. injection E as <- <- <-. exists [t]. split; [reflexivity|]. right.
        exists [], t. split; [reflexivity|]. split; [constructor|]. split; [congruence|reflexivity].
      * destruct (IH _ sch _ o sch' c' H1 E) as (used & -> & D).
        exists (t :: used). split; [reflexivity|]. destruct D as [D|(u & t' & -> & D1 & D2)].
        -- left. now constructor.
        -- right. exists (t :: u), t'. split; [reflexivity|]. split; [now constructor|exact D2].
Qed.

(** ** Panics and loops: [P] whether the program may panic, [L] whether it may run out of fuel. *)
Fixpoint may {A} (P L : Prop) (p : prog A) : Prop :=
  match p with
  | Ret _ => True
  | Panic => P
  | Diverge => L
  | Rd _ _ _ k => forall r, may P L (k r)
  | Wr _ _ _ k => forall r, may P L (k r)
  end.
Lemma may_bindM {A B} P L (p : M A) (f : A -> M B) : may P L p -> (forall a, may P L (f a)) -> may P L (bindM p f).
Proof.
  intros H Hf. revert H. induction p as [[a|e]|a b l k IH|a b d k IH| |]; cbn [may bindM bind]; intros H; auto.
  - intros r. apply IH, H.
  - intros r. apply IH, H.
Qed.
Lemma may_read P L a b l : may P L (read a b l).
Proof. intros [d|]; exact I. Qed.
Lemma may_write P L a b d : may P L (write a b d).
Proof. intros [|]; exact I. Qed.
Lemma may_sound {A} P L (p : prog A) o : may P L p -> any_bus p o ->
  match o with Done _ => True | Panicked => P | Diverged => L end.
Proof. intros H B. revert H. induction B; cbn [may]; intros H'; auto; apply IHB, H'. Qed.

(** ** All calls *)
Section Rules.
Context (sn : Sn).
Let n := snz sn.
Ltac blk := first [apply (wonly_write n _ _ _ 1); [lia|apply sn_block_eq]
                  |apply (wonly_write n _ _ _ 2); [lia|apply sn_tx_block_eq]].

Lemma wonly_loop l port : wonly n (port_is_unique_loop l port).
Proof.
  induction l as [|s l IH]; cbn [port_is_unique_loop]; [exact I|].
  apply wonly_bindM; [apply wonly_bindM; [apply wonly_read|intros; exact I]|]. intros p.
  destruct (p =? port); [|exact IH].
  apply wonly_bindM; [apply wonly_bindM; [apply wonly_read|intros; exact I]|]. intros st.
  destruct (negb (closed_status st)); [exact I|exact IH].
Qed.
Lemma wonly_poll fuel s want : wonly n (poll_status fuel s want).
Proof.
  induction fuel as [|f IH]; cbn [poll_status]; [exact I|].
  apply wonly_bindM; [apply wonly_bindM; [apply wonly_read|intros; exact I]|]. intros st.
  destruct (rstatus_eqb st (Ok want)); [exact I|exact IH].
Qed.
Lemma wonly_assert dbg c : wonly n c -> wonly n (debug_assert dbg c).
Proof. intros H. destruct dbg; [|exact I]. apply wonly_bindM; [exact H|]. intros [|]; exact I. Qed.
End Rules.

Lemma strict_loop l port : strict (port_is_unique_loop l port).
Proof.
  induction l as [|s l IH]; cbn [port_is_unique_loop]; [exact I|].
  apply strict_bindM; [apply strict_bindM; [apply strict_read|intros; exact I]|]. intros p.
  destruct (p =? port); [|exact IH].
  apply strict_bindM; [apply strict_bindM; [apply strict_read|intros; exact I]|]. intros st.
  destruct (negb (closed_status st)); [exact I|exact IH].
Qed.
Lemma strict_poll fuel s want : strict (poll_status fuel s want).
Proof.
  induction fuel as [|f IH]; cbn [poll_status]; [exact I|].
  apply strict_bindM; [apply strict_bindM; [apply strict_read|intros; exact I]|]. intros st.
  destruct (rstatus_eqb st (Ok want)); [exact I|exact IH].
Qed.
Lemma strict_assert dbg c : strict c -> strict (debug_assert dbg c).
Proof. intros H. destruct dbg; [|exact I]. apply strict_bindM; [exact H|]. intros [|]; exact I. Qed.
Lemma may_loop P L l port : may P L (port_is_unique_loop l port).
Proof.
  induction l as [|s l IH]; cbn [port_is_unique_loop]; [exact I|].
  apply may_bindM; [apply may_bindM; [apply may_read|intros; exact I]|]. intros p.
  destruct (p =? port); [|exact IH].
  apply may_bindM; [apply may_bindM; [apply may_read|intros; exact I]|]. intros st.
  destruct (negb (closed_status st)); [exact I|exact IH].
Qed.
Lemma may_poll (P L : Prop) fuel s want : L -> may P L (poll_status fuel s want).
Proof.
  intros HL. induction fuel as [|f IH]; cbn [poll_status]; [exact HL|].
  apply may_bindM; [apply may_bindM; [apply may_read|intros; exact I]|]. intros st.
  destruct (rstatus_eqb st (Ok want)); [exact I|exact IH].
Qed.
Lemma may_assert (P L : Prop) dbg c : (dbg = true -> P) -> may P L c -> may P L (debug_assert dbg c).
Proof.
  intros HP H. destruct dbg; [|exact I]. apply may_bindM; [exact H|]. intros [|]; [exact I|]. cbn. auto.
Qed.

Ltac walk := repeat (cbv beta zeta; match goal with
  | |- forall _, _ => intros ?
  | |- wonly _ (if ?b then _ else _) => destruct b
  | |- strict (if ?b then _ else _) => destruct b
  | |- may _ _ (if ?b then _ else _) => destruct b
  | |- wonly _ (bindM _ _) => apply wonly_bindM
  | |- strict (bindM _ _) => apply strict_bindM
  | |- may _ _ (bindM _ _) => apply may_bindM
  | |- wonly _ (debug_assert _ _) => apply wonly_assert
  | |- strict (debug_assert _ _) => apply strict_assert
  | |- may _ _ (debug_assert _ _) => apply may_assert; [now auto|]
  | |- wonly _ (read _ _ _) => apply wonly_read
  | |- strict (read _ _ _) => apply strict_read
  | |- may _ _ (read _ _ _) => apply may_read
  | |- strict (write _ _ _) => apply strict_write
  | |- may _ _ (write _ _ _) => apply may_write
  | |- wonly _ (write _ (sn_block _) _) => apply (wonly_write _ _ _ _ 1); [lia|apply sn_block_eq]
  | |- wonly _ (write _ (sn_tx_block _) _) => apply (wonly_write _ _ _ _ 2); [lia|apply sn_tx_block_eq]
  | |- wonly _ (port_is_unique_loop _ _) => apply wonly_loop
  | |- strict (port_is_unique_loop _ _) => apply strict_loop
  | |- may _ _ (port_is_unique_loop _ _) => apply may_loop
  | |- wonly _ (poll_status _ _ _) => apply wonly_poll
  | |- strict (poll_status _ _ _) => apply strict_poll
  | |- may _ _ (poll_status _ _ _) => apply may_poll; reflexivity
  | |- wonly _ (ret _) => exact I
  | |- strict (ret _) => exact I
  | |- may _ _ (ret _) => exact I
  | |- wonly _ (fail _) => exact I
  | |- strict (fail _) => exact I
  | |- may _ _ (fail _) => exact I
  | |- wonly _ (let '(_, _) := ?a in _) => destruct a
  | |- strict (let '(_, _) := ?a in _) => destruct a
  | |- may _ _ (let '(_, _) := ?a in _) => destruct a
  end).
Ltac open_calls := unfold unit_of, local_addr, close, is_state_closed, is_state_tcp, is_state_udp, tcp_connect,
  tcp_listen, tcp_read, tcp_write, tcp_disconnect, tcp_reader, tx_writer, udp_bind, udp_recv_from, udp_peek_from,
  udp_peek_from_header, udp_send_to, udp_send, udp_send_to_if_free, udp_send_if_free, udp_reader, cur_read,
  cur_read_exact, tcp_reader_done, udp_reader_done, cur_write, cur_write_all, udp_writer_send_to, cur_send,
  tcp_state_ok, udp_state_ok, port_is_unique, udp_send, cur_send in *;
  unfold sn_port, sn_sr, sipr, sn_rx_rsr, sn_rx_rd, sn_rx_buf, sn_tx_fsr, sn_tx_wr, sn_tx_ptrs, set_sn_tx_buf,
  set_sn_tx_wr, set_sn_rx_rd, set_sn_cr, set_sn_port, set_sn_mr, set_sn_dest in *.

Lemma call_wonly dbg fuel sn k : call_on sn k -> wonly (snz sn) (call_run dbg fuel sn k).
Proof.
  destruct k; cbn [call_on call_run]; intros Hc; try (rewrite <- Hc); open_calls; walk; try exact I.
Qed.
Lemma call_strict dbg fuel sn k : strict (call_run dbg fuel sn k).
Proof. destruct k; cbn [call_run]; open_calls; walk; try exact I. Qed.
Lemma call_may dbg fuel sn k :
  may (dbg = true /\ has_assertion k = true) (is_opening k = true) (call_run dbg fuel sn k).
Proof. destruct k; cbn [call_run]; open_calls; walk; try exact I. Qed.

Lemma calls_wonly dbg fuel sn ks : Forall (call_on sn) ks -> wonly (snz sn) (calls_run dbg fuel sn ks).
Proof.
  induction 1 as [|k ks Hk _ IH]; cbn [calls_run]; [exact I|].
  apply wonly_bind; [now apply call_wonly|]. intros x. apply wonly_bind; [exact IH|]. intros; exact I.
Qed.

Lemma isolation dbg fuel sn ks : Forall (call_on sn) ks -> forall sch c o sch' c',
  run (calls_run dbg fuel sn ks) sch c = (o, sch', c') ->
  exists used, sch = used ++ sch' /\ c_common c' = c_common c /\
    forall m, m <> sn_raw sn -> c_sock c' m = fold_left sock_ev (events_for m used) (c_sock c m).
Proof.
  intros H sch c o sch' c' E. exact (wonly_sound _ (snz sn) sch c o sch' c' (proj1 (snz_range sn)) (calls_wonly dbg fuel sn ks H) E).
Qed.
Lemma fault_stops dbg fuel sn k : forall sch c o sch' c',
  run (call_run dbg fuel sn k) sch c = (o, sch', c') ->
  exists used, sch = used ++ sch' /\
    (no_faults used \/
     exists u t, used = u ++ [t] /\ no_faults u /\ t_fault t <> None /\ o = Done (Err Other)).
Proof. intros sch c o sch' c' E. eapply strict_sound; [apply call_strict|exact E]. Qed.
Lemma no_panic dbg fuel sn k o : any_bus (call_run dbg fuel sn k) o ->
  (o = Panicked -> dbg = true /\ has_assertion k = true) /\ (o = Diverged -> is_opening k = true).
Proof.
  intros B. pose proof (may_sound _ _ _ o (call_may dbg fuel sn k) B) as H.
  split; intros ->; exact H.
Qed.

(** ** Port uniqueness *)
Lemma closed_status_free v : closed_status (status_try_from v) = true <-> port_free v.
Proof.
  unfold port_free. split.
  - unfold status_try_from. repeat match goal with
    | |- context [v =? ?k] => destruct (Z.eqb_spec v k); [subst; cbn; intuition (congruence || discriminate)|]
    end. cbn. discriminate.
  - intros [->|[->| ->]]; reflexivity.
Qed.

Lemma env_port s s' : env s s' -> local_port s' = local_port s /\ s_reg s' 0 = s_reg s 0.
Proof.
  intros E. unfold local_port, of_word.
  apply (env_ind (fun x => of_be16 (s_reg x 4) (s_reg x (4 + 1)) = of_be16 (s_reg s 4) (s_reg s (4 + 1)) /\ s_reg x 0 = s_reg s 0) s s'); auto.
  intros x e [Hx Hy]. destruct e; cbn [sock_ev]; repeat match goal with
    | |- context [if ?b then _ else _] => destruct b
    | |- context [match ?l with [] => _ | _ => _ end] => destruct l
    | |- context [match ?l with None => _ | _ => _ end] => destruct l
    end; auto; unfold rx_store; try (destruct (_ <=? _)); auto.
Qed.

Lemma sock_rds_port s : of_be16 (sock_rd s 1 4) (sock_rd s 1 5) = local_port s.
Proof. reflexivity. Qed.

Lemma unique_loop port l : forall c, wpe (port_is_unique_loop l port) c False (fun r c' =>
  (exists evs, c' = chip_evs c evs) /\
  ((r = Ok true /\ forall s, In s l -> local_port (c_sock c (snz s)) = port ->
      exists x, env (c_sock c (snz s)) x /\ port_free (s_sr x)) \/
   (r = Ok false /\ exists s, In s l /\ local_port (c_sock c (snz s)) = port /\
      exists x, env (c_sock c (snz s)) x /\ ~ port_free (s_sr x)))).
Proof.
  induction l as [|s l IH]; intros c; cbn [port_is_unique_loop].
  - cbn. split; [now exists []|]. left. split; [reflexivity|]. intros s [].
  - apply wpe_bindM. unfold sn_port. apply wpe_bindM, wpe_read. intros evs1. cbv zeta.
    set (c1 := chip_evs c evs1). cbn [wpe ret].
    rewrite sn_block_eq, chip_rds_sock by (pose proof (snz_range s); lia).
    change (word0 (sock_rds (c_sock c1 (snz s)) 1 (SnReg_addr S_PORT0) 2)) with (local_port (c_sock c1 (snz s))).
    pose proof (env_evs c evs1 (snz s)) as E1. fold c1 in E1.
    destruct (env_port _ _ E1) as [P1 _]. rewrite P1.
    assert (forall c2 evs2, c2 = chip_evs c evs2 -> wpe (port_is_unique_loop l port) c2 False (fun r c' =>
      (exists evs, c' = chip_evs c evs) /\
      ((r = Ok true /\ forall s, In s l -> local_port (c_sock c (snz s)) = port ->
          exists x, env (c_sock c (snz s)) x /\ port_free (s_sr x)) \/
       (r = Ok false /\ exists s, In s l /\ local_port (c_sock c (snz s)) = port /\
          exists x, env (c_sock c (snz s)) x /\ ~ port_free (s_sr x))))) as G.
    { intros c2 evs2 ->. eapply wpe_mono; [| |apply IH]; [auto|].
      intros r c' ((evs & ->) & H). split.
      - exists (evs2 ++ evs). unfold chip_evs. now rewrite fold_left_app.
      - assert (forall s0, local_port (c_sock (chip_evs c evs2) (snz s0)) = local_port (c_sock c (snz s0))) as Ps.
        { intros s0. apply env_port, env_evs. }
        destruct H as [(-> & H)|(-> & s0 & Hi & Hp & x & Ex & Hx)].
        + left. split; [reflexivity|]. intros s0 Hi Hp. destruct (H s0 Hi) as (x & Ex & Hx); [now rewrite Ps|].
          exists x. split; [|exact Hx]. eapply env_trans; [apply env_evs|exact Ex].
        + right. split; [reflexivity|]. exists s0. split; [exact Hi|]. rewrite Ps in Hp. split; [exact Hp|].
          exists x. split; [|exact Hx]. eapply env_trans; [apply env_evs|exact Ex]. }
    destruct (Z.eqb_spec (local_port (c_sock c (snz s))) port) as [Ep|Ep].
    + apply wpe_bindM. unfold sn_sr. apply wpe_bindM, wpe_read. intros evs2. cbv zeta.
      set (c2 := chip_evs c1 evs2). cbn [wpe ret].
      rewrite sn_block_eq, chip_rds_sock by (pose proof (snz_range s); lia).
      change (byte0 (sock_rds (c_sock c2 (snz s)) 1 (SnReg_addr S_SR) 1)) with (s_sr (c_sock c2 (snz s))).
      assert (env (c_sock c (snz s)) (c_sock c2 (snz s))) as E2.
      { eapply env_trans; [exact E1|]. apply env_evs. }
      assert (c2 = chip_evs c (evs1 ++ evs2)) as Ec.
      { unfold c2, c1, chip_evs. now rewrite fold_left_app. }
      destruct (closed_status (status_try_from (s_sr (c_sock c2 (snz s))))) eqn:Ecs; cbn [negb].
      * eapply wpe_mono; [| |exact (G c2 _ Ec)]; [auto|].
        intros r c' (Hc & [(-> & H)|(-> & s0 & Hi & H)]); (split; [exact Hc|]).
        -- left. split; [reflexivity|]. intros s0 [<-|Hi]; [|now apply H]. intros _.
           exists (c_sock c2 (snz s)). split; [exact E2|]. now apply closed_status_free.
        -- right. split; [reflexivity|]. exists s0. split; [now right|exact H].
      * cbn [wpe ret]. split; [eauto|]. right. split; [reflexivity|]. exists s. split; [now left|].
        split; [exact Ep|]. exists (c_sock c2 (snz s)). split; [exact E2|].
        rewrite <- closed_status_free. congruence.
    + eapply wpe_mono; [| |exact (G c1 _ eq_refl)]; [auto|].
      intros r c' (Hc & [(-> & H)|(-> & s0 & Hi & H)]); (split; [exact Hc|]).
      * left. split; [reflexivity|]. intros s0 [<-|Hi]; [|now apply H]. intros C. contradiction.
      * right. split; [reflexivity|]. exists s0. split; [now right|exact H].
Qed.

Lemma others_in sn m : In m (filter (fun s => negb (sn_eqb s sn)) SOCKETS) <-> m <> sn.
Proof. destruct sn, m; cbn; intuition congruence. Qed.

Lemma opens_assert fuel sn port p : opens fuel sn port p ->
  p true = (debug_assert true (port_is_unique sn port) ;;; p false).
Proof. intros [->|[->|[a ->]]]; reflexivity. Qed.

Lemma ports_refused fuel sn port p c m : opens fuel sn port p -> m <> sn ->
  holds_port (c_sock c (sn_raw m)) port -> forall sch, no_faults sch ->
  exists sch' c', run (p true) sch c = (Panicked, sch', c').
Proof.
  intros Hp Hm [H1 H2] sch Hs. rewrite (opens_assert _ _ _ _ Hp). unfold bindM. rewrite run_bind.
  unfold debug_assert, bindM. rewrite run_bind.
  pose proof (wpe_sound _ c False _ sch (unique_loop port (filter (fun s => negb (sn_eqb s sn)) SOCKETS) c) Hs) as W. fold (port_is_unique sn port) in W.
  destruct (run (port_is_unique sn port) sch c) as [[[r| |] sch1] c1]; try contradiction.
  destruct W as ((_ & [(-> & H)|(-> & _)]) & _).
  - exfalso. destruct (H m) as (x & Ex & Hx); [now apply others_in|exact H1|]. exact (H2 x Ex Hx).
  - cbn. eauto.
Qed.
Lemma ports_unique fuel sn port p c : opens fuel sn port p -> forall sch r sch' c', no_faults sch ->
  run (p true) sch c = (Done r, sch', c') ->
  forall m, m <> sn -> local_port (c_sock c' (sn_raw m)) = port ->
    exists s, only_events (c_sock c (sn_raw m)) s /\ port_free (s_sr s).
Proof.
  intros Hp sch r sch' c' Hs E m Hm Hl.
  assert (exists k, call_on sn k /\ run (call_run true fuel sn k) sch c = (Done r, sch', c')) as (k & Hk & Ek).
  { assert (forall q : M unit, run q sch c = (Done r, sch', c') -> run (unit_of q) sch c = (Done r, sch', c')) as U.
    { intros q Eq. unfold unit_of, bindM. rewrite run_bind, Eq. destruct r as [[]|]; reflexivity. }
    destruct Hp as [->|[->|[a ->]]]; [exists (KBind port)|exists (KListen port)|exists (KConnect port a)];
      (split; [exact I|]); cbn [call_run]; apply U; exact E. }
  destruct (wonly_sound _ (snz sn) sch c _ sch' c' (proj1 (snz_range sn)) (call_wonly true fuel sn k Hk) Ek)
    as (used & _ & _ & F).
  assert (snz m <> snz sn) as Hmn by (intros C; apply Hm, snz_inj, C).
  assert (env (c_sock c (snz m)) (c_sock c' (snz m))) as Em by (rewrite F by exact Hmn; eexists; reflexivity).
  destruct (env_port _ _ Em) as [Pm _]. change (sn_raw m) with (snz m) in *. rewrite Pm in Hl.
  rewrite (opens_assert _ _ _ _ Hp) in E. unfold bindM in E. rewrite run_bind in E.
  unfold debug_assert, bindM in E. rewrite run_bind in E.
  pose proof (wpe_sound _ c False _ sch (unique_loop port (filter (fun s => negb (sn_eqb s sn)) SOCKETS) c) Hs) as W. fold (port_is_unique sn port) in W.
  destruct (run (port_is_unique sn port) sch c) as [[[r1| |] sch1] c1]; try contradiction.
  destruct W as ((_ & [(-> & H)|(-> & _)]) & _).
  - apply (H m); [now apply others_in|exact Hl].
  - cbn in E. discriminate.
Qed.
