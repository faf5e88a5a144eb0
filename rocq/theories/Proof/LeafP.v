(** Results of programs on an arbitrary bus, and runs without events on a socket. *)
From Verif Require Export Proof.SockP.
From Verif Require Import Model.HlIo Model.Stream Spec.Hoare Spec.Cursor Spec.Silent.

(** ** Every result satisfies [P] *)
Fixpoint leaves {A} (p : prog A) (P : A -> Prop) : Prop :=
  match p with
  | Ret a => P a
  | Rd _ _ _ k => forall r, leaves (k r) P
  | Wr _ _ _ k => forall b, leaves (k b) P
  | Panic | Diverge => True
  end.
Lemma leaves_any {A} (p : prog A) P o : any_bus p o -> leaves p P -> forall a, o = Done a -> P a.
Proof.
  induction 1 as [a|addr block len k r o Hr H IH|addr block d k r o H IH| |]; cbn [leaves]; intros L x E; try discriminate.
  - injection E as <-. exact L.
  - exact (IH (L r) x E).
  - exact (IH (L r) x E).
Qed.
Lemma leaves_true {A} (p : prog A) (P : A -> Prop) : (forall a, P a) -> leaves p P.
Proof. intros H. induction p; cbn [leaves]; auto. Qed.
Lemma leaves_mono {A} (p : prog A) (P P' : A -> Prop) : leaves p P -> (forall a, P a -> P' a) -> leaves p P'.
Proof. intros H HP. induction p; cbn [leaves] in *; auto. Qed.
Lemma leaves_bind {A B} (p : prog A) (f : A -> prog B) P : leaves p (fun a => leaves (f a) P) -> leaves (bind p f) P.
Proof. induction p; cbn [leaves bind]; auto. Qed.
Lemma leaves_seq {A B} (p : prog A) (f : A -> prog B) P : (forall a, leaves (f a) P) -> leaves (bind p f) P.
Proof. intros H. apply leaves_bind, leaves_true, H. Qed.

Fixpoint sleaves {A} (p : sprog A) (P : A -> Prop) : Prop :=
  match p with
  | SRet a => P a
  | SCall _ k => forall r, sleaves (k r) P
  | SAsk _ k => forall r, sleaves (k r) P
  | SPanic | SDiverge => True
  end.
Lemma sleaves_cursor {A} (p : sprog A) P : sleaves p P -> forall c, leaves (on_cursor c p) (fun x => P (fst x)).
Proof.
  induction p as [a|o k IH|q k IH| |]; cbn [sleaves on_cursor leaves]; intros H c; auto.
  apply leaves_seq. intros x. apply IH, H.
Qed.
Lemma sleaves_true {A} (p : sprog A) (P : A -> Prop) : (forall a, P a) -> sleaves p P.
Proof. intros H. induction p; cbn [sleaves]; auto. Qed.
Lemma sleaves_seq {A B} (p : sprog A) (f : A -> sprog B) P : (forall a, sleaves (f a) P) -> sleaves (sbind p f) P.
Proof. intros H. induction p; cbn [sleaves sbind]; auto. Qed.

(** ** Runs without events on socket [n] *)
Fixpoint wpq {A} (p : prog A) (n : Z) (s : sock) (Q : A -> sock -> Prop) : Prop :=
  match p with
  | Ret a => Q a s
  | Rd a b len k => exists kd, 1 <= kd <= 3 /\ b = 4 * n + kd /\ wpq (k (Some (sock_rds s kd a len))) n s Q
  | Wr a b d k => exists kd, 1 <= kd <= 3 /\ b = 4 * n + kd /\ wpq (k true) n (sock_wrs s kd a d) Q
  | Panic | Diverge => False
  end.
Lemma silent_evs l n : Forall (fun e => ev_sn e <> n) l -> forall c, c_sock (chip_evs c l) n = c_sock c n.
Proof.
  induction 1 as [|e l He Hl IH]; intros c; [reflexivity|]. unfold chip_evs in *. cbn [fold_left]. rewrite IH.
  unfold chip_ev, upd. cbn [c_sock]. destruct (Z.eqb_spec n (ev_sn e)) as [E|E]; [now destruct He|reflexivity].
Qed.
Lemma wpq_sound {A} (p : prog A) : forall n c (Q : A -> sock -> Prop) sch, 0 <= n -> wpq p n (c_sock c n) Q -> silent sch n ->
  exists a sch' c', run p sch c = (Done a, sch', c') /\ Q a (c_sock c' n) /\ silent sch' n.
Proof.
  induction p as [a|a b len k IH|a b d k IH| |]; intros n c Q sch Hn H Hs; cbn [run wpq] in *; try contradiction.
  - eauto 6.
  - destruct H as (kd & Hk & -> & H). destruct sch as [|t sch].
    + rewrite chip_rds_sock by assumption. now apply IH.
    + inversion Hs as [|? ? (Ht & He) Hs']; subst. rewrite Ht. rewrite chip_rds_sock by assumption.
      apply IH; auto. rewrite silent_evs by exact He. exact H.
  - destruct H as (kd & Hk & -> & H). destruct sch as [|t sch].
    + destruct (chip_wrs_sock d c n kd a Hn Hk) as (_ & E2 & _). apply IH; auto. rewrite E2. exact H.
    + inversion Hs as [|? ? (Ht & He) Hs']; subst. rewrite Ht.
      destruct (chip_wrs_sock d (chip_evs c (t_evs t)) n kd a Hn Hk) as (_ & E2 & _). apply IH; auto. rewrite E2.
      rewrite silent_evs by exact He. exact H.
Qed.
Lemma wpq_bind {A B} (p : prog A) (f : A -> prog B) : forall n s (Q : B -> sock -> Prop),
  wpq p n s (fun a s' => wpq (f a) n s' Q) -> wpq (bind p f) n s Q.
Proof.
  induction p as [a|a b len k IH|a b d k IH| |]; intros n s Q H; cbn [wpq bind] in *; auto.
  - destruct H as (kd & Hk & E & H). exists kd. auto.
  - destruct H as (kd & Hk & E & H). exists kd. auto.
Qed.
