(** Programs that leave a register of the socket alone. *)
From Verif Require Import Model.Prelude Model.Bus Model.Chip Model.Specifiers Model.LlAddr Model.Ll Model.HlIo Model.HlUdp Model.Stream
  Spec.Sock Spec.Hoare Spec.Cursor Proof.Base Proof.SockP Proof.OpenP.

Fixpoint quiet {A} (P : Z -> Prop) (p : prog A) : Prop :=
  match p with
  | Ret _ | Panic | Diverge => True
  | Rd _ _ _ k => forall r, quiet P (k r)
  | Wr a b d k => (b mod 4 = 1 -> 0 <= a /\ a + zlen d <= 65536 /\ forall x, P x -> ~ (a <= x < a + zlen d)) /\ forall r, quiet P (k r)
  end.
Lemma quiet_bind {A B} (P : Z -> Prop) (p : prog A) (f : A -> prog B) :
  quiet P p -> (forall a, quiet P (f a)) -> quiet P (bind p f).
Proof.
  intros H Hf. revert H. induction p as [a|a b l k IH|a b d k IH| |]; cbn [quiet bind]; intros H; auto.
  destruct H as [Hb H]. split; auto.
Qed.
Lemma quiet_bindM {A B} (P : Z -> Prop) (p : M A) (f : A -> M B) :
  quiet P p -> (forall a, quiet P (f a)) -> quiet P (bindM p f).
Proof. intros H Hf. apply quiet_bind; [exact H|]. intros [a|e]; [apply Hf|exact I]. Qed.
Lemma quiet_read (P : Z -> Prop) a b l : quiet P (read a b l).
Proof. intros [d|]; exact I. Qed.
Lemma quiet_write_reg (P : Z -> Prop) a sn d : 0 <= a -> a + zlen d <= 65536 -> (forall x, P x -> ~ (a <= x < a + zlen d)) -> quiet P (write a (sn_block sn) d).
Proof. intros H1 H2 H3. split; [auto|]. intros [|]; exact I. Qed.
Lemma quiet_tx_buf (P : Z -> Prop) sn p d : quiet P (set_sn_tx_buf sn p d).
Proof. split; [destruct sn; cbn; discriminate|]. intros [|]; exact I. Qed.

Lemma exec_reg s v x : s_reg (exec_cmd s v) x = s_reg s x.
Proof. unfold exec_cmd. repeat match goal with |- context [if ?b then _ else _] => destruct b end; reflexivity. Qed.
Lemma sock_wrs_reg x l : forall s kd a, (kd = 1 -> 0 <= a /\ a + zlen l <= 65536 /\ ~ (a <= x < a + zlen l)) ->
  s_reg (sock_wrs s kd a l) x = s_reg s x.
Proof.
  induction l as [|v l IH]; intros s kd a H; cbn [sock_wrs]; [reflexivity|]. rewrite zlen_cons in H. pose proof (zlen_nonneg l).
  rewrite IH by (intros E; specialize (H E); lia). unfold sock_wr.
  destruct (Z.eqb_spec kd 1) as [E|_].
  - specialize (H E). unfold sreg_wr. rewrite Z.mod_small by lia.
    repeat match goal with |- context [if ?b then _ else _] => destruct b end; try reflexivity; [apply exec_reg|].
    cbn [with_reg s_reg]. rewrite upd_other by lia. reflexivity.
  - destruct (kd =? 2); [reflexivity|]. destruct (kd =? 3); reflexivity.
Qed.
Definition settings (x : Z) : Prop := x <> 0x01 /\ x <> 0x24 /\ x <> 0x25 /\ x <> 0x28 /\ x <> 0x29.
Lemma wps_quiet {A} (P : Z -> Prop) (p : prog A) n D (Q : A -> sock -> Prop) :
  (forall x, P x -> settings x) -> quiet P p ->
  forall s, wps p n s D Q -> wps p n s D (fun r s' => Q r s' /\ forall x, P x -> s_reg s' x = s_reg s x).
Proof.
  intros X. induction p as [a|a b l k IH|a b d k IH| |]; cbn [quiet wps]; intros Hq s H; auto.
  - destruct H as (kd & Hk & Hb & H). exists kd. split; [exact Hk|]. split; [exact Hb|]. intros s1 E1.
    eapply wps_mono; [| |apply (IH _ (Hq _) s1 (H s1 E1))]; [auto|]. intros r s' [H1 H2]. split; [exact H1|].
    destruct (keeps_env _ _ E1) as [K _]. intros x Px. destruct (X x Px) as (_ & X1 & X2 & X3 & X4). rewrite H2, K by assumption. reflexivity.
  - destruct H as (kd & Hk & Hb & H). destruct Hq as [Hw Hq]. exists kd. split; [exact Hk|]. split; [exact Hb|]. intros s1 E1.
    eapply wps_mono; [| |apply (IH _ (Hq _) _ (H s1 E1))]; [auto|]. intros r s' [H1 H2]. split; [exact H1|].
    destruct (keeps_env _ _ E1) as [K _]. intros x Px. destruct (X x Px) as (_ & X1 & X2 & X3 & X4).
    rewrite H2, sock_wrs_reg, K by (auto; intros ->; assert (b mod 4 = 1) as Hb1 by (subst b; lia); destruct (Hw Hb1) as (A1 & A2 & A3); auto). reflexivity.
Qed.

Lemma quiet_cop (P : Z -> Prop) c o : quiet P (cop_run c o).
Proof.
  destruct o as [p| |k|k|buf|buf]; cbn [cop_run]; try exact I; (apply quiet_bind; [|intros; exact I]).
  - unfold cur_read. destruct (negb _); [|exact I]. apply quiet_bindM; [apply quiet_read|intros; exact I].
  - unfold cur_read_exact. destruct (negb _); [exact I|]. apply quiet_bindM; [apply quiet_read|intros; exact I].
  - unfold cur_write. destruct (negb _); [|exact I]. apply quiet_bindM; [apply quiet_tx_buf|intros; exact I].
  - unfold cur_write_all. destruct (negb _); [exact I|]. apply quiet_bindM; [apply quiet_tx_buf|intros; exact I].
Qed.
Lemma quiet_cursor {A} (P : Z -> Prop) (p : sprog A) : forall c, quiet P (on_cursor c p).
Proof.
  induction p as [a|o k IH|q k IH| |]; intros c; cbn [on_cursor]; try exact I; auto.
  apply quiet_bind; [apply quiet_cop|auto].
Qed.
Lemma quiet_send (P : Z -> Prop) c : (forall x, P x -> settings x) -> quiet P (cur_send c).
Proof.
  intros H. unfold cur_send. apply quiet_bindM; [|intros _; apply quiet_bindM; [|intros; exact I]].
  - apply quiet_write_reg; vm_compute SnReg_addr; change (zlen (be16 _)) with 2; [lia|lia|].
    intros x Px. specialize (H x Px). unfold settings in H. lia.
  - apply quiet_write_reg; vm_compute SnReg_addr; change (zlen [_]) with 1; [lia|lia|].
    intros x Px. specialize (H x Px). unfold settings in H. lia.
Qed.
