(** Programs that write a fixed string of bytes through a writer. *)
From Verif Require Export Proof.DnsQueryP.
From Verif Require Import Proof.SprogP.

(** [p] started at offset [a] writes [d] there, or reports that there is no room. *)
Definition emits (a : Z) (p : SM unit) (d : list Z) : Prop :=
  forall D acc N w pos, N <= 65535 -> zlen acc = a -> wrote acc N w pos ->
  wpa wr_ok p w pos D (fun r w' pos' => zlen w' = N /\
    (r = Err OutOfMemory /\ N < a + zlen d \/ r = Ok tt /\ wrote (acc ++ d) N w' pos')).
Lemma emits_write a d : bytes_ok d -> zlen d <= 65535 -> emits a (s_write_all d) d.
Proof.
  intros Hd Hl D acc N w pos HN Ha Hw. pose proof Hw as (W1 & W2 & W3 & W4). pose proof (zlen_nonneg acc). pose proof (zlen_nonneg d).
  cbn [s_write_all wpa astep]. split; [split; [cbn; auto|reflexivity]|].
  destruct (Z.leb_spec (zlen d) (zlen w - pos)); cbn [wpa sret sfail].
  - split; [rewrite overlay_len; lia|]. right. split; [reflexivity|].
    split; [rewrite overlay_len; lia|]. split; [rewrite zlen_app; lia|]. split; [lia|]. rewrite ztake_overlay by lia. now rewrite W4.
  - split; [exact W1|]. left. split; [reflexivity|lia].
Qed.
Lemma emits_seek a : 0 <= a <= 65535 -> emits a (s_seek (SStart a)) [].
Proof.
  intros Hr D acc N w pos HN Ha Hw. pose proof Hw as (W1 & W2 & W3 & W4). cbn [s_seek wpa astep target].
  split; [split; [cbn; unfold is_u16; lia|reflexivity]|]. destruct (Z.leb_spec 0 a), (Z.leb_spec a (zlen w)); try lia. cbn [andb wpa sret].
  split; [exact W1|]. right. split; [reflexivity|]. rewrite app_nil_r. replace a with pos by lia. exact Hw.
Qed.
Lemma emits_seq a p d q e : emits a p d -> emits (a + zlen d) q e -> emits a (sbindM p (fun _ => q)) (d ++ e).
Proof.
  intros Hp Hq D acc N w pos HN Ha Hw. apply wpa_bindM. eapply wpa_conseq; [apply (Hp D acc N w pos HN Ha Hw)|].
  pose proof (zlen_nonneg e). intros r w1 p1 (L1 & [(-> & Hn)|(-> & W1)]).
  - split; [exact L1|]. left. split; [reflexivity|]. rewrite zlen_app. lia.
  - eapply wpa_conseq; [apply (Hq D (acc ++ d) N w1 p1 HN); [rewrite zlen_app; lia|exact W1]|].
    intros r w2 p2 (L2 & [(-> & Hn)|(-> & W2)]); (split; [exact L2|]).
    + left. split; [reflexivity|]. rewrite zlen_app. lia.
    + right. split; [reflexivity|]. rewrite app_assoc. exact W2.
Qed.
Lemma emits_eq a p d d' : emits a p d -> d = d' -> emits a p d'.
Proof. now intros H <-. Qed.
Lemma emits_start p d D w : emits 0 p d -> zlen w <= 65535 ->
  wpa wr_ok p w 0 D (fun r w' pos' => zlen w' = zlen w /\
    (r = Err OutOfMemory /\ zlen w < zlen d \/ r = Ok tt /\ ztake pos' w' = d /\ pos' = zlen d)).
Proof.
  intros H Hw. eapply wpa_conseq; [apply (H D [] (zlen w) w 0 Hw)|].
  - reflexivity.
  - split; [reflexivity|]. split; [reflexivity|]. split; [apply zlen_nonneg|reflexivity].
  - intros r w' pos' (L & [(-> & Hn)|(-> & (W1 & W2 & W3 & W4))]); (split; [exact L|]); [left; split; [reflexivity|lia]|right].
    split; [reflexivity|]. cbn [app] in *. auto.
Qed.
