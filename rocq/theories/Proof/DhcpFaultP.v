(** The DHCP client on a bus that may fail or lie. *)
From Verif Require Import Proof.LeafP.
From Verif Require Import Model.Prelude Model.Bus Model.Chip Model.Specifiers Model.HlUdp Model.Stream Model.DhcpPkt Model.DhcpClient Spec.Hoare
  Spec.DhcpRfc Spec.DhcpHist Spec.DhcpFault.

Section Acts.
Variables (dbg : bool) (fuel : nat) (now : Z).

Lemma same_refl c : same_config c c. Proof. unfold same_config; auto. Qed.
Lemma same_trans a b c : same_config a b -> same_config b c -> same_config a c.
Proof. unfold same_config. intuition congruence. Qed.
Lemma acts_trans a l b l' c : acts_at now a l b -> acts_at now b l' c -> acts_at now a (l ++ l') c.
Proof. induction 1; cbn [app]; [auto|]. intros H'. econstructor; eauto. Qed.
Lemma acts_one a b : act now a b -> acts_at now a [b] b.
Proof. intros H. eapply AaCons; [exact H|apply AaNil]. Qed.

(** [E]: what holds of the client when the method fails, [P]: when it succeeds. *)
Definition lc {A} (p : CM A) (E : Client -> Prop) (P : A -> Client -> Prop) : Prop :=
  leaves p (fun x => match fst x with Ok a => P a (snd x) | Err _ => E (snd x) end).
Lemma lc_ret {A} (a : A) c E (P : A -> Client -> Prop) : P a c -> lc (c_ret a c) E P.
Proof. auto. Qed.
Lemma lc_io {A B} (p : M A) c (f : A -> CM B) (E : Client -> Prop) P : E c -> (forall a, lc (f a) E P) -> lc (c_io p c f) E P.
Proof. intros HE H. apply leaves_seq. intros [a|e]; [apply H|exact HE]. Qed.
Lemma lc_pkt {A B} (p : PD A) k c (f : A -> pkt -> CM B) (E : Client -> Prop) P : E c -> (forall a k', lc (f a k') E P) -> lc (c_pkt p k c f) E P.
Proof. intros HE H. apply leaves_seq. intros [[[a|e] q] cu]; [apply H|exact HE]. Qed.
Lemma lc_bind {A B} (p : CM A) (f : A -> Client -> CM B) E P : lc p E (fun a c => lc (f a c) E P) -> lc (c_bind p f) E P.
Proof. intros H. apply leaves_bind. eapply leaves_mono; [exact H|]. intros [[a|e] c]; cbn; auto. Qed.
Lemma lc_mono {A} (p : CM A) (E E' : Client -> Prop) (P P' : A -> Client -> Prop) :
  lc p E P -> (forall c, E c -> E' c) -> (forall a c, P a c -> P' a c) -> lc p E' P'.
Proof. intros H HE HP. eapply leaves_mono; [exact H|]. intros [[a|e] c]; cbn; auto. Qed.

Ltac same := repeat split; reflexivity.

Lemma discover_acts c :
  lc (discover dbg fuel c now) (fun c' => same_config c c' /\ act now c c') (fun _ c' => same_config c c' /\ act now c c').
Proof.
  unfold discover.
  assert (same_config c (next_xid (put_ip c IP_UNSPECIFIED)) /\ act now c (next_xid (put_ip c IP_UNSPECIFIED))) as F.
  { unfold next_xid. destruct (rand_next_u32 _). split; [same|]. apply AForget; reflexivity. }
  repeat (apply lc_io; [exact F|intros ?]). apply lc_ret.
  unfold next_xid. destruct (rand_next_u32 _). split; [same|]. apply ARestart; reflexivity.
Qed.

(** [request] only draws a new transaction number. *)
Definition redrawn (c c' : Client) : Prop :=
  same_config c c' /\ cl_state c' = cl_state c /\ cl_state_timeout c' = cl_state_timeout c /\ cl_ip c' = cl_ip c /\ lease_of c' = lease_of c.
Lemma request_acts c : lc (request c) (redrawn c) (fun _ => redrawn c).
Proof.
  unfold request. assert (redrawn c (next_xid c)) as F by (unfold next_xid; destruct (rand_next_u32 _); repeat split; reflexivity).
  apply lc_io; [exact F|]. intros _. now apply lc_ret.
Qed.

Definition moved (c c' : Client) : Prop := same_config c c' /\ act now c c'.
Lemma moved_none c : moved c c.
Proof. split; [apply same_refl|]. now apply ANone. Qed.

Lemma return_acts c c0 : moved c0 c -> lc (c_return c now) (moved c0) (fun _ => moved c0).
Proof. unfold c_return. intros H. destruct (next_call c now); [apply lc_ret; exact H|exact I]. Qed.

Lemma install_acts c0 c subnet gateway dns ntp : same_config c0 c -> cl_state c = cl_state c0 -> cl_state_timeout c = cl_state_timeout c0 ->
  cl_ip c = cl_ip c0 -> t_start (lease_of c) = now -> asking (cl_state c0) ->
  lc (install c now subnet gateway dns ntp) (moved c0) (fun _ => moved c0).
Proof.
  intros H1 H2 H3 H4 H5 H6.
  assert (moved c0 c) as F by (split; [exact H1|]; apply AAck; auto).
  assert (moved c0 (set_state (put_servers c dns ntp) Bound)) as G.
  { split; [exact H1|]. apply AAck; cbn; auto. }
  assert (forall p : M unit, lc (c_io p c (fun _ => c_ret Continue (set_state (put_servers c dns ntp) Bound))) (moved c0) (fun _ => moved c0)) as L.
  { intros p. apply lc_io; [exact F|]. intros _. now apply lc_ret. }
  unfold install. destruct subnet as [m|]; [apply lc_io; [exact F|intros _]|destruct (state_eqb (cl_state c) Renewing); [|now apply return_acts]];
    (destruct gateway as [g|]; [apply lc_io; [exact F|intros _; apply L]|try (destruct (state_eqb (cl_state c) Renewing); [|now apply return_acts]); apply L]).
Qed.
Lemma ack_acts c k : asking (cl_state c) -> lc (on_ack fuel c now k) (moved c) (fun _ => moved c).
Proof.
  intros H. pose proof (moved_none c) as N. unfold on_ack. repeat (apply lc_pkt; [exact N|intros ? ?]).
  destruct a3; [|now apply return_acts]. repeat (apply lc_pkt; [exact N|intros ? ?]).
  apply lc_io; [split; [same|apply AAck; auto]|]. intros _. apply install_acts; auto; same.
Qed.
Lemma packet_acts c k : lc (on_packet dbg fuel c now k) (moved c) (fun _ => moved c).
Proof.
  pose proof (moved_none c) as N. unfold on_packet.
  assert (asking (cl_state c) ->
    lc (c_pkt (msg_type fuel) k c (fun mt k =>
      match mt with
      | Some Ack => on_ack fuel c now k
      | Some Nak => c_io (udp_reader_done (fst k)) c (fun _ => c_bind (discover dbg fuel c now) (fun _ c => c_ret Continue c))
      | Some _ => c_io (udp_reader_done (fst k)) c (fun _ => c_ret Continue c)
      | None => c_io (udp_reader_done (fst k)) c (fun _ => c_ret Continue c)
      end)) (moved c) (fun _ => moved c)) as A.
  { intros H. apply lc_pkt; [exact N|]. intros [[]|] k'; try (apply lc_io; [exact N|intros _; apply lc_ret; exact N]).
    - now apply ack_acts.
    - apply lc_io; [exact N|]. intros _. apply lc_bind. eapply lc_mono; [apply discover_acts|auto|].
      intros [] c1 H1. apply lc_ret. exact H1. }
  unfold asking in A.
  destruct (cl_state c) eqn:Es; try (apply lc_io; [exact N|intros _; apply lc_ret; exact N]); auto.
  apply lc_pkt; [exact N|]. intros ip k1.
  assert (forall c', same_config c c' -> cl_state c' = Selecting -> cl_state_timeout c' = cl_state_timeout c ->
    lease_of c' = lease_of c -> moved c c') as O by (intros c' h1 h2 h3 h4; split; [exact h1|apply AOffer; auto]).
  apply lc_pkt; [apply O; [same|exact Es| |]; reflexivity|]. intros sid k2.
  apply lc_io; [apply O; [same|exact Es| |]; reflexivity|]. intros _. apply lc_bind.
  eapply lc_mono; [apply request_acts| |].
  - intros c' (h1 & h2 & h3 & h4 & h5). apply O; [exact h1|rewrite h2; exact Es|exact h3|exact h5].
  - intros _ c' (h1 & h2 & h3 & h4 & h5). apply lc_ret. split; [exact h1|].
    apply AOffer; [exact Es| |exact h5]. right. split; reflexivity.
Qed.

Definition went (c c' : Client) : Prop := same_config c c' /\ exists l, acts_at now c l c'.
Lemma went_nil c : went c c. Proof. split; [apply same_refl|]. exists []. constructor. Qed.
Lemma went_step a b c : moved a b -> went b c -> went a c.
Proof. intros (H1 & H2) (H3 & l & H4). split; [eapply same_trans; eauto|]. exists (b :: l). econstructor; eauto. Qed.
Lemma went_snoc a b c : went a b -> moved b c -> went a c.
Proof.
  intros (H1 & l & H2) (H3 & H4). split; [eapply same_trans; eauto|]. exists (l ++ [c]).
  eapply acts_trans; [exact H2|now apply acts_one].
Qed.
Lemma loop_acts f : forall c, lc (recv_loop dbg fuel f c now) (went c) (fun _ => went c).
Proof.
  induction f as [|f IH]; intros c; [exact I|]. cbn [recv_loop]. apply lc_io; [apply went_nil|].
  intros [k|]; [|apply lc_ret, went_nil]. apply lc_bind. eapply lc_mono; [apply packet_acts| |].
  - intros c' H. eapply went_step; [exact H|apply went_nil].
  - intros [|d] c' H; [|apply lc_ret; eapply went_step; [exact H|apply went_nil]].
    eapply lc_mono; [apply IH| |]; cbn; intros; eapply went_step; eauto.
Qed.
Lemma timer_acts c : lc (on_timer dbg fuel c now) (moved c) (fun _ => moved c).
Proof.
  pose proof (moved_none c) as N. unfold on_timer.
  assert (forall s, (cl_state c = Bound /\ s = Renewing) \/ ((cl_state c = Bound \/ cl_state c = Renewing) /\ s = Rebinding) ->
    lc (c_bind (request c) (fun _ c => c_ret tt (set_state c s))) (moved c) (fun _ => moved c)) as R.
  { intros s Hs. apply lc_bind. eapply lc_mono; [apply request_acts| |].
    - intros c' (h1 & h2 & h3 & h4 & h5). split; [exact h1|]. now apply ANone.
    - intros _ c' (h1 & h2 & h3 & h4 & h5). apply lc_ret. split; [exact h1|]. apply AExtend; auto. }
  destruct (timeout_elapsed_secs c now) as [[e|]|]; [|exact I|].
  - destruct (_ <? _); [apply discover_acts|apply lc_ret; exact N].
  - destruct (cl_state c) eqn:Es; try (apply lc_ret; exact N); try apply discover_acts;
      (destruct (_ <? _); [apply discover_acts|]; cbn [state_eqb negb];
       rewrite ?andb_false_r, ?andb_true_r;
       repeat (destruct (_ <? _); [apply R; auto|]); apply lc_ret; exact N).
Qed.
Lemma process_acts c : lc (process dbg fuel c now) (went c) (fun _ => went c).
Proof.
  pose proof (went_nil c) as N. unfold process. repeat (apply lc_io; [exact N|intros ?]).
  destruct (negb _); [apply lc_ret; exact N|]. apply lc_bind. eapply lc_mono; [apply loop_acts|auto|].
  intros [d|] c' H; [apply lc_ret; exact H|]. apply lc_bind.
  eapply lc_mono; [apply timer_acts| |].
  - intros c2 H2. eapply went_snoc; eauto.
  - intros [] c2 H2. assert (went c c2) as W by (eapply went_snoc; eauto).
    destruct (next_call c2 now); [apply lc_ret; exact W|exact I].
Qed.
End Acts.

Lemma process_any dbg fuel c now r c' : any_bus (process dbg fuel c now) (Done (r, c')) ->
  same_config c c' /\ exists l, acts_at now c l c'.
Proof.
  intros H. pose proof (process_acts dbg fuel now c) as L. unfold lc in L.
  pose proof (leaves_any _ _ _ H L _ eq_refl) as X. cbn [fst snd] in X. destruct r; exact X.
Qed.

(** ** Histories *)
Lemma acts_at_acts now a l b : acts_at now a l b -> acts a l b.
Proof. induction 1; econstructor; eauto. Qed.
Lemma acts_app a l b l' c : acts a l b -> acts b l' c -> acts a (l ++ l') c.
Proof. induction 1; cbn [app]; [auto|]. intros H'. econstructor; eauto. Qed.
Lemma calls_acts dbg c c' : bus_calls dbg c c' -> same_config c c' /\ exists l, acts c l c'.
Proof.
  induction 1 as [cl|now fuel cl r cl1 cl2 H _ (S2 & l2 & A2)].
  - split; [apply same_refl|]. exists []. constructor.
  - destruct (process_any _ _ _ _ _ _ H) as (S1 & l1 & A1). split; [eapply same_trans; eauto|].
    exists (l1 ++ l2). eapply acts_app; [eapply acts_at_acts; exact A1|exact A2].
Qed.
Lemma act_timed now a b : act now a b -> timed a -> timed b.
Proof.
  unfold timed. intros [] T; repeat match goal with
    | H : _ \/ _ |- _ => destruct H
    | H : _ /\ _ |- _ => destruct H
    | H : asking _ |- _ => unfold asking in H
    | H : cl_state b = cl_state a |- _ => rewrite H in *
    | H : cl_state_timeout b = _ |- _ => rewrite H in *; clear H
    | H : cl_state _ = _ |- _ => rewrite H in *; clear H
    end; eauto.
Qed.
Lemma acts_timed a l b : acts a l b -> timed a -> timed b.
Proof. induction 1; auto. intros T. apply IHacts. eapply act_timed; eauto. Qed.
Lemma process_timed dbg fuel c now r c' : any_bus (process dbg fuel c now) (Done (r, c')) -> timed c -> timed c'.
Proof.
  intros H. destruct (process_any _ _ _ _ _ _ H) as (_ & l & A). apply (acts_timed _ l). eapply acts_at_acts; exact A.
Qed.

(** ** The leased address *)
Definition granted (h : list Client) (ip : list Z) : Prop :=
  exists a b, next_to a b h /\ cl_state a = Requesting /\ cl_state b = Bound /\ cl_ip a = ip /\ cl_ip b = ip.
Definition offered (h : list Client) (ip : list Z) : Prop :=
  exists a b, next_to a b h /\ cl_state a = Selecting /\ cl_ip b = ip.
Definition truthful (h : list Client) (c : Client) : Prop :=
  (leased (cl_state c) -> cl_ip c = unspecified \/ (granted h (cl_ip c) /\ offered h (cl_ip c))) /\
  (cl_state c = Requesting -> cl_ip c = unspecified \/ offered h (cl_ip c)).
Lemma next_app {A} (a b : A) h h' : next_to a b h -> next_to a b (h ++ h').
Proof. intros (l1 & l2 & ->). exists l1, (l2 ++ h'). now rewrite <- app_assoc. Qed.
Lemma next_last {A} (a b : A) pre : next_to a b ((pre ++ [a]) ++ [b]).
Proof. exists pre, []. now rewrite <- app_assoc. Qed.
Lemma act_truthful now pre a b : act now a b -> truthful (pre ++ [a]) a -> truthful ((pre ++ [a]) ++ [b]) b.
Proof.
  intros H (T1 & T2).
  assert (forall ip, granted (pre ++ [a]) ip -> granted ((pre ++ [a]) ++ [b]) ip) as G.
  { intros ip (x & y & N & R). exists x, y. split; [now apply next_app|exact R]. }
  assert (forall ip, offered (pre ++ [a]) ip -> offered ((pre ++ [a]) ++ [b]) ip) as O.
  { intros ip (x & y & N & R). exists x, y. split; [now apply next_app|exact R]. }
  assert (cl_ip b = cl_ip a -> leased (cl_state a) ->
    cl_ip b = unspecified \/ (granted ((pre ++ [a]) ++ [b]) (cl_ip b) /\ offered ((pre ++ [a]) ++ [b]) (cl_ip b))) as K.
  { intros E L. rewrite E. destruct (T1 L) as [X|(X & Y)]; [auto|right; auto]. }
  assert (cl_ip b = cl_ip a -> cl_state a = Requesting -> cl_ip b = unspecified \/ offered ((pre ++ [a]) ++ [b]) (cl_ip b)) as R.
  { intros E L. rewrite E. destruct (T2 L); auto. }
  unfold leased in *. destruct H as [H1 H2 H3 H4|H1 H2 H3 H4|H1 H2 H3 H4|H1 H2 H3|H1 H2 H3 H4|H1 H2 H3 H4].
  - split; rewrite H1; auto.
  - split; auto.
  - split; auto.
  - split.
    + intros L. destruct H2 as [[E _]|[E _]]; destruct L as [L|[L|L]]; congruence.
    + intros _. right. exists a, b. split; [apply next_last|auto].
  - destruct H2 as [[E _]|[E _]].
    + split; rewrite E; auto.
    + split; [|rewrite E; discriminate]. intros _. destruct H1 as [X|X]; [|apply K; auto; tauto].
      destruct (R H3 X) as [Y|Y]; [auto|right]. split; [|exact Y]. exists a, b. split; [apply next_last|auto].
  - split; [|intros E; destruct H1 as [[_ X]|[_ X]]; congruence]. intros _. apply K; [exact H3|]. tauto.
Qed.
Lemma acts_truthful a l b : acts a l b -> forall pre, truthful (pre ++ [a]) a -> truthful (pre ++ a :: l) b.
Proof.
  induction 1 as [a|now a b l c H _ IH]; intros pre T; [exact T|].
  replace (pre ++ a :: b :: l) with ((pre ++ [a]) ++ b :: l) by now rewrite <- app_assoc.
  apply IH. eapply act_truthful; eauto.
Qed.
Lemma calls_granted dbg c c' ip : bus_calls dbg c c' -> cl_state c = Init -> leased_ip c' = Some ip ->
  ip = unspecified \/ exists l, acts c l c' /\
    (exists a b, next_to a b (c :: l) /\ cl_state a = Requesting /\ cl_state b = Bound /\ cl_ip a = ip /\ cl_ip b = ip) /\
    (exists a b, next_to a b (c :: l) /\ cl_state a = Selecting /\ cl_ip b = ip).
Proof.
  intros H Ei L. destruct (calls_acts _ _ _ H) as (_ & l & A).
  assert (truthful [c] c) as T0.
  { split; [|congruence]. unfold leased. intros [X|[X|X]]; congruence. }
  destruct (acts_truthful _ _ _ A [] T0) as (T & _). cbn [app] in T.
  unfold leased_ip, has_lease in L.
  assert (leased (cl_state c') /\ cl_ip c' = ip) as (Hl & <-).
  { unfold leased. destruct (cl_state c'); try discriminate; injection L as <-; auto. }
  destruct (T Hl) as [X|(X & Y)]; [auto|right]. exists l. auto.
Qed.
Lemma calls_timed dbg c c' : bus_calls dbg c c' -> timed c -> timed c' /\ same_config c c'.
Proof. intros H T. destruct (calls_acts _ _ _ H) as (S & l & A). split; [eapply acts_timed; eauto|exact S]. Qed.
