(** Lemmas about the chip model: accesses to one socket, rings, environment steps. *)
From Verif Require Export Proof.Base Model.Bus Model.Specifiers Model.Chip Spec.Sock Spec.Hoare.

(** ** Socket-level transactions *)
Definition sock_rds (s : sock) (k a n : Z) : list Z :=
  ztab n (fun i => sock_rd s k ((a + i) mod 65536)).
Fixpoint sock_wrs (s : sock) (k a : Z) (l : list Z) : sock :=
  match l with
  | [] => s
  | v :: r => sock_wrs (sock_wr s k (a mod 65536) v) k (a + 1) r
  end.

Definition snz (sn : Sn) : Z := sn_raw sn.
Lemma snz_range sn : 0 <= snz sn < 8.
Proof. destruct sn; cbv; intuition congruence. Qed.
Lemma snz_inj a b : snz a = snz b -> a = b.
Proof. destruct a, b; cbv; congruence. Qed.
Lemma sn_block_eq sn : sn_block sn = 4 * snz sn + 1.
Proof. reflexivity. Qed.
Lemma sn_tx_block_eq sn : sn_tx_block sn = 4 * snz sn + 2.
Proof. reflexivity. Qed.
Lemma sn_rx_block_eq sn : sn_rx_block sn = 4 * snz sn + 3.
Proof. reflexivity. Qed.

Lemma chip_rds_sock c n k a len : 0 <= n -> 1 <= k <= 3 ->
  chip_rds c (4 * n + k) a len = sock_rds (c_sock c n) k a len.
Proof.
  intros. unfold chip_rds, sock_rds, chip_rd. apply ztab_ext. intros i Hi.
  destruct (Z.eqb_spec (4 * n + k) 0); [lia|].
  unfold blk_sock, blk_kind. now replace ((4 * n + k) / 4) with n by lia;
    replace ((4 * n + k) mod 4) with k by lia.
Qed.

Lemma chip_wrs_sock l : forall c n k a, 0 <= n -> 1 <= k <= 3 ->
  c_common (chip_wrs c (4 * n + k) a l) = c_common c /\
  c_sock (chip_wrs c (4 * n + k) a l) n = sock_wrs (c_sock c n) k a l /\
  forall m, m <> n -> c_sock (chip_wrs c (4 * n + k) a l) m = c_sock c m.
Proof.
  induction l as [|v l IH]; intros c n k a Hn Hk; [easy|].
  cbn [chip_wrs sock_wrs].
  specialize (IH (chip_wr c (4 * n + k) (a mod 65536) v) n k (a + 1) Hn Hk).
  destruct IH as (IH1 & IH2 & IH3). rewrite IH1, IH2. clear IH1 IH2.
  assert (chip_wr c (4 * n + k) (a mod 65536) v = mkChip (c_common c)
    (upd (c_sock c) n (sock_wr (c_sock c n) k (a mod 65536) v))) as E.
  { unfold chip_wr. destruct (Z.eqb_spec (4 * n + k) 0); [lia|].
    unfold blk_sock, blk_kind. now replace ((4 * n + k) / 4) with n by lia;
      replace ((4 * n + k) mod 4) with k by lia. }
  rewrite E in *. cbn [c_common c_sock] in *. rewrite upd_same.
  split; [reflexivity|]. split; [reflexivity|].
  intros m Hm. rewrite IH3 by assumption. now rewrite upd_other.
Qed.

(** ** Events *)
Definition sock_evs (s : sock) (l : list sevent) : sock := fold_left sock_ev l s.
(** [env s s']: [s'] is reachable from [s] by events alone. *)
Definition env (s s' : sock) : Prop := exists l, s' = sock_evs s l.

Definition evs_of (n : Z) (l : list event) : list sevent :=
  map ev_what (filter (fun e => ev_sn e =? n) l).

Lemma chip_evs_sock l : forall c n,
  c_common (chip_evs c l) = c_common c /\
  c_sock (chip_evs c l) n = sock_evs (c_sock c n) (evs_of n l).
Proof.
  induction l as [|e l IH]; intros c n; [easy|].
  unfold chip_evs in *. cbn [fold_left]. destruct (IH (chip_ev c e) n) as (IH1 & IH2).
  rewrite IH1, IH2. split; [reflexivity|]. unfold evs_of. cbn [filter].
  unfold chip_ev; cbn [c_sock]. unfold upd.
  destruct (Z.eqb_spec n (ev_sn e)); destruct (Z.eqb_spec (ev_sn e) n); try congruence.
  subst. reflexivity.
Qed.

Lemma env_refl s : env s s.
Proof. now exists []. Qed.
Lemma env_trans a b c : env a b -> env b c -> env a c.
Proof.
  intros [l ->] [l' ->]. exists (l ++ l'). unfold sock_evs. now rewrite fold_left_app.
Qed.
Lemma env_evs c l n : env (c_sock c n) (c_sock (chip_evs c l) n).
Proof. destruct (chip_evs_sock l c n) as (_ & ->). now eexists. Qed.
Lemma env_ind (P : sock -> Prop) s s' :
  (forall x e, P x -> P (sock_ev x e)) -> P s -> env s s' -> P s'.
Proof.
  intros H Hs [l ->]. revert s Hs. induction l as [|e l IH]; intros s Hs; [assumption|].
  unfold sock_evs in *. cbn [fold_left]. apply IH. now apply H.
Qed.

(** ** Weakest preconditions for fault-free runs with arbitrary events *)
Fixpoint wpe {A} (p : prog A) (c : chip) (D : Prop) (Q : A -> chip -> Prop) : Prop :=
  match p with
  | Ret a => Q a c
  | Rd a b n k => forall evs, let c1 := chip_evs c evs in wpe (k (Some (chip_rds c1 b a n))) c1 D Q
  | Wr a b d k => forall evs, let c1 := chip_evs c evs in wpe (k true) (chip_wrs c1 b a d) D Q
  | Panic => False
  | Diverge => D
  end.


Lemma wpe_sound {A} (p : prog A) : forall c D Q sch, wpe p c D Q -> no_faults sch ->
  match run p sch c with
  | (Done a, sch', c') => Q a c' /\ no_faults sch'
  | (Panicked, _, _) => False
  | (Diverged, _, _) => D
  end.
Proof.
  induction p as [a|a b n k IH|a b d k IH| |]; intros c D Q sch H Hs; cbn [run wpe] in *.
  - easy.
  - destruct sch as [|t sch].
    + apply (IH _ _ D Q []); [exact (H [])|constructor].
    + inversion Hs as [|? ? Ht Hs']; subst. rewrite Ht. apply IH; [|assumption]. apply H.
  - destruct sch as [|t sch].
    + apply (IH _ _ D Q []); [exact (H [])|constructor].
    + inversion Hs as [|? ? Ht Hs']; subst. rewrite Ht. apply IH; [|assumption]. apply H.
  - contradiction.
  - assumption.
Qed.

Lemma wpe_mono {A} (p : prog A) : forall c (D D' : Prop) (Q Q' : A -> chip -> Prop),
  (D -> D') -> (forall a c', Q a c' -> Q' a c') -> wpe p c D Q -> wpe p c D' Q'.
Proof.
  induction p as [a|a b n k IH|a b d k IH| |]; intros c D D' Q Q' HD HQ H; cbn [wpe] in *; auto.
  - intros evs. eapply IH; [exact HD|exact HQ|apply H].
  - intros evs. eapply IH; [exact HD|exact HQ|apply H].
Qed.

Lemma wpe_bind {A B} (p : prog A) (f : A -> prog B) : forall c D Q,
  wpe p c D (fun a c' => wpe (f a) c' D Q) -> wpe (bind p f) c D Q.
Proof.
  induction p as [a|a b n k IH|a b d k IH| |]; intros c D Q H; cbn [wpe bind] in *; auto.
Qed.
Lemma wpe_bindM {A B} (p : M A) (f : A -> M B) c D Q :
  wpe p c D (fun r c' => match r with Ok a => wpe (f a) c' D Q | Err e => Q (Err e) c' end) ->
  wpe (bindM p f) c D Q.
Proof.
  intros H. apply wpe_bind. eapply wpe_mono; [| |exact H]; auto.
  intros [a|e] c'; auto.
Qed.
Lemma wpe_ret {A} (a : A) c D (Q : res err A -> chip -> Prop) : Q (Ok a) c -> wpe (ret a) c D Q.
Proof. auto. Qed.
Lemma wpe_fail {A} e c D (Q : res err A -> chip -> Prop) : Q (Err e) c -> wpe (fail e) c D Q.
Proof. auto. Qed.
Lemma wpe_read a b n c D (Q : res err (list Z) -> chip -> Prop) :
  (forall evs, let c1 := chip_evs c evs in Q (Ok (chip_rds c1 b a n)) c1) -> wpe (read a b n) c D Q.
Proof. intros H evs. apply H. Qed.
Lemma wpe_write a b d c D (Q : res err unit -> chip -> Prop) :
  (forall evs, let c1 := chip_evs c evs in Q (Ok tt) (chip_wrs c1 b a d)) -> wpe (write a b d) c D Q.
Proof. intros H evs. apply H. Qed.

(** The monad law used to compute runs of composed programs. *)
Lemma run_bind {A B} (p : prog A) (f : A -> prog B) : forall sch c,
  run (bind p f) sch c =
  match run p sch c with
  | (Done a, s, c') => run (f a) s c'
  | (Panicked, s, c') => (Panicked, s, c')
  | (Diverged, s, c') => (Diverged, s, c')
  end.
Proof.
  induction p as [a|a b n k IH|a b d k IH| |]; intros sch c; cbn [run bind]; auto.
  - destruct sch as [|t sch]; [apply IH|]. destruct (t_fault t); apply IH.
  - destruct sch as [|t sch]; [apply IH|]. destruct (t_fault t); apply IH.
Qed.

(** ** Rings *)

Lemma slot_mod size p : size_ok size -> size <> 0 -> slot size p = p mod size.
Proof.
  intros [->|[->|[->|[->|[->| ->]]]]] Hz; [congruence|..]; unfold slot; lia.
Qed.
Lemma slot_add16 size p : slot size (p mod 65536) = slot size p.
Proof. unfold slot. f_equal. lia. Qed.
Lemma slot_inj size p i j : size_ok size -> 0 <= i < size -> 0 <= j < size ->
  slot size (p + i) = slot size (p + j) -> i = j.
Proof.
  intros Hs Hi Hj. rewrite !slot_mod by (auto; lia).
  destruct Hs as [->|[->|[->|[->|[->| ->]]]]]; lia.
Qed.

Lemma ring_len mem size p n : zlen (ring mem size p n) = Z.max 0 n.
Proof. apply zlen_ztab. Qed.
Lemma ring_app mem size p a b : 0 <= a -> 0 <= b ->
  ring mem size p (a + b) = ring mem size p a ++ ring mem size (p + a) b.
Proof.
  intros. unfold ring. rewrite ztab_app by assumption. f_equal.
  apply ztab_ext. intros. do 2 f_equal. lia.
Qed.
Lemma ring_mod mem size p n : ring mem size (p mod 65536) n = ring mem size p n.
Proof.
  unfold ring. apply ztab_ext. intros i Hi. f_equal. unfold slot. f_equal. lia.
Qed.
Lemma ring_0 mem size p : ring mem size p 0 = [].
Proof. reflexivity. Qed.
Lemma ring_ext mem mem' size p n :
  (forall i, 0 <= i < n -> mem (slot size (p + i)) = mem' (slot size (p + i))) ->
  ring mem size p n = ring mem' size p n.
Proof. apply ztab_ext. Qed.
Lemma ring_take mem size p n k : 0 <= k <= n -> ztake k (ring mem size p n) = ring mem size p k.
Proof.
  intros. replace n with (k + (n - k)) by lia. rewrite ring_app by lia.
  rewrite ztake_app_l by (rewrite ring_len; lia). apply ztake_all. rewrite ring_len. lia.
Qed.
Lemma ring_drop mem size p n k : 0 <= k <= n -> zdrop k (ring mem size p n) = ring mem size (p + k) (n - k).
Proof.
  intros. replace n with (k + (n - k)) at 1 by lia. rewrite ring_app by lia.
  rewrite zdrop_app_r by (rewrite ring_len; lia). rewrite ring_len.
  replace (k - Z.max 0 k) with 0 by lia. apply zdrop_0.
Qed.

Lemma ring_write_other l : forall mem size p x,
  (forall i, 0 <= i < zlen l -> x <> slot size (p + i)) -> ring_write mem size p l x = mem x.
Proof.
  induction l as [|b l IH]; intros mem size p x H; [reflexivity|].
  cbn [ring_write]. rewrite zlen_cons in H. pose proof (zlen_nonneg l). rewrite IH.
  - apply upd_other. specialize (H 0 ltac:(lia)). now rewrite Z.add_0_r in H.
  - intros i Hi. specialize (H (i + 1) ltac:(lia)). now replace (p + 1 + i) with (p + (i + 1)) by lia.
Qed.

Lemma ring_write_at l : forall mem size p i, size_ok size -> zlen l <= size -> 0 <= i < zlen l ->
  ring_write mem size p l (slot size (p + i)) = at_ l (Z.to_nat i).
Proof.
  induction l as [|b l IH]; intros mem size p i Hs Hl Hi; [unfold zlen in Hi; cbn [length] in Hi; lia|].
  cbn [ring_write]. rewrite zlen_cons in *.
  destruct (Z.eq_dec i 0) as [->|Hz].
  - rewrite ring_write_other.
    + rewrite Z.add_0_r. apply upd_same.
    + intros j Hj E. replace (p + 1 + j) with (p + (1 + j)) in E by lia.
      apply slot_inj in E; auto; lia.
  - replace (p + i) with (p + 1 + (i - 1)) by lia. rewrite IH by (auto; lia).
    replace (Z.to_nat i) with (S (Z.to_nat (i - 1))) by lia. reflexivity.
Qed.

Lemma ring_write_same mem size p l : size_ok size -> zlen l <= size ->
  ring (ring_write mem size p l) size p (zlen l) = l.
Proof.
  intros. rewrite <- (ztab_at l) at 3. apply ztab_ext. intros i Hi. now rewrite ring_write_at.
Qed.

(** A write of [l] at [p] does not disturb the [k] bytes before [p] if both fit in the ring. *)
Lemma ring_write_before mem size p q k l : size_ok size -> 0 <= k -> k + zlen l <= size ->
  p mod 65536 = (q + k) mod 65536 ->
  ring (ring_write mem size p l) size q k = ring mem size q k.
Proof.
  intros Hs Hk Hl E. apply ring_ext. intros i Hi. apply ring_write_other. intros j Hj C.
  assert (slot size (p + j) = slot size (q + (k + j))) as E2.
  { unfold slot. f_equal. rewrite <- (Z.add_mod_idemp_l p) by lia. rewrite E.
    rewrite Z.add_mod_idemp_l by lia. f_equal. lia. }
  rewrite E2 in C. apply slot_inj in C; auto; lia.
Qed.

(** Writing through the bus into a buffer block is [ring_write]. *)
Lemma sock_wrs_tx l : forall s p,
  exists m, sock_wrs s 2 p l = with_txmem s m /\
            forall x, m x = ring_write (s_txmem s) (tx_size s) p l x.
Proof.
  induction l as [|v l IH]; intros s p.
  - exists (s_txmem s). destruct s; easy.
  - cbn [sock_wrs ring_write]. unfold sock_wr; cbn [Z.eqb Pos.eqb].
    destruct (IH (with_txmem s (upd (s_txmem s) (slot (tx_size s) (p mod 65536)) v)) (p + 1))
      as (m & E & Hm).
    rewrite E. exists m. split; [reflexivity|]. intros x. rewrite Hm.
    cbn [with_txmem s_txmem tx_size s_reg].
    now rewrite slot_add16.
Qed.
Lemma sock_rds_rx s a n : sock_rds s 3 a n = ring (s_rxmem s) (rx_size s) a n.
Proof.
  unfold sock_rds, ring. apply ztab_ext. intros i _. unfold sock_rd. cbn [Z.eqb Pos.eqb].
  now rewrite slot_add16.
Qed.
Lemma sock_rds_tx s a n : sock_rds s 2 a n = ring (s_txmem s) (tx_size s) a n.
Proof.
  unfold sock_rds, ring. apply ztab_ext. intros i _. unfold sock_rd. cbn [Z.eqb Pos.eqb].
  now rewrite slot_add16.
Qed.
