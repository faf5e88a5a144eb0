(** Hostnames: C22, C23. *)
From Verif Require Export Proof.Base Model.HlHostname Spec.Hostname.

Lemma split_nonnil l : split_dot l <> [].
Proof. induction l as [|b r IH]; cbn; [discriminate|]. destruct (b =? 46); [discriminate|]. destruct (split_dot r); discriminate. Qed.
Lemma join_split l : join (split_dot l) = l.
Proof.
  induction l as [|b r IH]; [reflexivity|]. cbn. destruct (Z.eqb_spec b 46) as [->|Hb].
  - destruct (split_dot r) as [|x xs] eqn:E; [now destruct (split_nonnil r)|]. change (join ([] :: x :: xs)) with (46 :: join (x :: xs)). now rewrite IH.
  - destruct (split_dot r) as [|x xs] eqn:E; [now destruct (split_nonnil r)|]. destruct xs as [|y ys]; cbn in *; now rewrite IH.
Qed.
Definition nodot (l : list Z) : Prop := ~ In 46 l.
Lemma split_nodot l : nodot l -> split_dot l = [l].
Proof.
  unfold nodot. induction l as [|b r IH]; intros H; [reflexivity|]. cbn. destruct (Z.eqb_spec b 46); [exfalso; apply H; now left|].
  rewrite IH; [reflexivity|]. intros C. apply H. now right.
Qed.
Lemma split_app l r : nodot l -> split_dot (l ++ 46 :: r) = l :: split_dot r.
Proof.
  unfold nodot. induction l as [|b l IH]; intros H; [reflexivity|]. cbn [app split_dot]. destruct (Z.eqb_spec b 46); [exfalso; apply H; now left|].
  rewrite IH; [reflexivity|]. intros C. apply H. now right.
Qed.
Lemma split_join ls : ls <> [] -> Forall nodot ls -> split_dot (join ls) = ls.
Proof.
  induction ls as [|l ls IH]; intros Hn Hf; [congruence|]. inversion Hf as [|? ? H1 H2]; subst.
  destruct ls as [|m ls]; [now apply split_nodot|]. change (join (l :: m :: ls)) with (l ++ 46 :: join (m :: ls)).
  rewrite split_app by exact H1. rewrite IH; [reflexivity|discriminate|exact H2].
Qed.
Lemma split_labels_nodot l : Forall nodot (split_dot l).
Proof.
  induction l as [|b r IH]; cbn; [repeat constructor; intros []|]. destruct (Z.eqb_spec b 46).
  - constructor; [intros []|exact IH].
  - destruct (split_dot r) as [|x xs]; [repeat constructor; intros [C|[]]; congruence|].
    inversion IH; subst. constructor; [|assumption]. intros [C|C]; [congruence|contradiction].
Qed.

Definition char_ok (b : Z) : Prop := letter_or_digit b \/ b = hyphen \/ b = dot.
Lemma valid_char_iff b : is_valid_char b = true <-> char_ok b.
Proof. unfold is_valid_char, is_ascii_alphanumeric, char_ok, letter_or_digit, hyphen, dot. lia. Qed.

Lemma hd_not (l : list Z) : l <> [] -> (hd 0 l =? 45) = false <-> (forall r, l <> 45 :: r).
Proof.
  destruct l as [|b l]; [congruence|]. intros _. cbn. split.
  - intros H r C. injection C as -> ->. discriminate.
  - intros H. apply Z.eqb_neq. intros ->. now apply (H l).
Qed.
Lemma last_not (l : list Z) : (last l 0 =? 45) = false <-> (forall r, l <> r ++ [45]).
Proof.
  split.
  - intros H r ->. rewrite last_last in H. discriminate.
  - intros H. apply Z.eqb_neq. intros C. destruct l as [|b l]; [discriminate C|].
    destruct (exists_last (l := b :: l)) as (r & x & E); [discriminate|]. rewrite E in C. rewrite last_last in C. subst x.
    now apply (H r).
Qed.
Lemma bad_label_iff l : bad_label l = false <-> (1 <= zlen l <= 63 /\ (forall r, l <> hyphen :: r) /\ (forall r, l <> r ++ [hyphen])).
Proof.
  unfold bad_label, hyphen. rewrite <- last_not. pose proof (zlen_nonneg l) as Hn.
  destruct (Z.eq_dec (zlen l) 0) as [E|E].
  - rewrite E. cbn. split; [discriminate|lia].
  - assert (l <> []) as Hl by (intros ->; apply E; reflexivity). rewrite <- (hd_not l Hl).
    destruct (last l 0 =? 45), (hd 0 l =? 45); cbn; rewrite ?orb_true_r, ?orb_false_r; split; intros H; try lia; try (destruct H as (? & ? & ?); discriminate).
Qed.

Lemma join_chars ls (P : Z -> Prop) : P dot -> Forall (Forall P) ls -> Forall P (join ls).
Proof.
  intros Pd. induction 1 as [|l ls Hl Hls IH]; cbn; [constructor|]. destruct ls; [exact Hl|].
  apply Forall_app. split; [exact Hl|]. constructor; [exact Pd|exact IH].
Qed.
Lemma split_chars h (P : Z -> Prop) : Forall P h -> Forall (Forall P) (split_dot h).
Proof.
  induction 1 as [|b r Hb Hr IH]; cbn; [repeat constructor|]. destruct (b =? 46); [constructor; [constructor|exact IH]|].
  destruct (split_dot r); [repeat constructor; assumption|]. inversion IH; subst. constructor; [constructor; assumption|assumption].
Qed.

Lemma label_ok_nodot l : label_ok l -> nodot l.
Proof.
  intros (_ & H & _) C. rewrite Forall_forall in H. apply H in C. unfold letter_or_digit, hyphen in C. lia.
Qed.
Lemma label_ok_iff l : label_ok l <-> bad_label l = false /\ Forall char_ok l /\ nodot l.
Proof.
  rewrite bad_label_iff. split.
  - intros H. pose proof (label_ok_nodot l H) as Hd. destruct H as (H1 & H2 & H3 & H4). split; [auto|]. split; [|exact Hd].
    eapply Forall_impl; [|exact H2]. unfold char_ok. intros; intuition.
  - intros ((H1 & H3 & H4) & H2 & Hd). split; [exact H1|]. split; [|auto]. rewrite Forall_forall in *. intros b Hb.
    destruct (H2 b Hb) as [A|[A|A]]; auto. exfalso. apply Hd. unfold dot in A. subst b. exact Hb.
Qed.

Lemma existsb_false {A} (f : A -> bool) l : existsb f l = false <-> Forall (fun x => f x = false) l.
Proof.
  induction l as [|a l IH]; cbn; [intuition constructor|]. rewrite orb_false_iff, IH. split.
  - intros [H1 H2]; now constructor.
  - inversion 1; auto.
Qed.

Definition accepts (h : list Z) : bool :=
  negb ((zlen h =? 0) || (253 <? zlen h) || existsb (fun b => negb (is_valid_char b)) h || existsb bad_label (split_dot h)).

Lemma accepts_iff h : accepts h = true <-> hostname_ok h.
Proof.
  unfold accepts. rewrite negb_true_iff, !orb_false_iff, !existsb_false. split.
  - intros (((H1 & H2) & H3) & H4). split; [pose proof (zlen_nonneg h); lia|].
    exists (split_dot h). split; [symmetry; apply join_split|].
    assert (Forall char_ok h) as Hc.
    { eapply Forall_impl; [|exact H3]. intros b Hb. apply valid_char_iff. now apply negb_false_iff. }
    pose proof (split_chars _ _ Hc) as Hs. pose proof (split_labels_nodot h) as Hd.
    rewrite Forall_forall in *. intros l Hl. apply label_ok_iff. repeat split; auto.
  - intros (H1 & ls & E & Hl). assert (ls <> []) as Hne.
    { intros ->. subst h. cbn in H1. unfold zlen in H1. cbn in H1. lia. }
    assert (split_dot h = ls) as Es.
    { rewrite E. apply split_join; [exact Hne|]. eapply Forall_impl; [|exact Hl]. apply label_ok_nodot. }
    split; [split; [split; lia|]|].
    + assert (Forall char_ok h) as Hc.
      { rewrite E. apply join_chars; [right; right; reflexivity|]. eapply Forall_impl; [|exact Hl].
        intros l H. now apply label_ok_iff in H. }
      eapply Forall_impl; [|exact Hc]. intros b Hb. apply negb_false_iff. now apply valid_char_iff.
    + rewrite Es. eapply Forall_impl; [|exact Hl]. intros l H. now apply label_ok_iff in H.
Qed.

Lemma try_from_accepts h : hostname_try_from h = if accepts h then Ok h else Err tt.
Proof. unfold hostname_try_from, accepts. destruct (_ || _ || _ || _); reflexivity. Qed.

(** The index loop of the const constructor. *)
Lemma segment_ok pre cur post : is_valid_segment (pre ++ cur ++ post) (length pre) (length pre + length cur) = negb (bad_label cur).
Proof.
  unfold is_valid_segment, bad_label. replace (length pre + length cur - length pre)%nat with (length cur) by lia.
  unfold zlen. destruct cur as [|c cur]; [reflexivity|]. cbn [length]. 
  replace (S (length cur) =? 0)%nat with false by reflexivity. replace (Z.of_nat (S (length cur)) =? 0) with false by lia. cbn [orb].
  replace (63 <? Z.of_nat (S (length cur))) with (63 <? S (length cur))%nat by lia.
  destruct (63 <? S (length cur))%nat; [reflexivity|]. cbn [orb].
  unfold at_. rewrite app_nth2, Nat.sub_diag by lia. cbn [app nth hd].
  replace (length pre + S (length cur) - 1)%nat with (length pre + length cur)%nat by lia.
  rewrite app_nth2 by lia. replace (length pre + length cur - length pre)%nat with (length cur) by lia.
  replace (nth (length cur) (c :: cur ++ post) 0) with (last (c :: cur) 0).
  - destruct (c =? 45), (last (c :: cur) 0 =? 45); reflexivity.
  - destruct (exists_last (l := c :: cur)) as (r & x & E); [discriminate|]. change (c :: cur ++ post) with ((c :: cur) ++ post).
    rewrite E, last_last. assert (length r = length cur) as <- by (apply (f_equal (@length Z)) in E; rewrite app_length in E; cbn in E; lia).
    rewrite <- app_assoc. cbn. rewrite app_nth2, Nat.sub_diag by lia. reflexivity.
Qed.
Lemma loop_spec rest : forall pre cur, nodot cur ->
  hostname_loop (pre ++ cur ++ rest) rest (length pre + length cur) (length pre) =
  negb (existsb (fun b => negb (is_valid_char b)) rest || existsb bad_label (split_dot (cur ++ rest))).
Proof.
  induction rest as [|b rest IH]; intros pre cur Hc; cbn [hostname_loop].
  - rewrite segment_ok, app_nil_r, split_nodot by exact Hc. cbn. now rewrite orb_false_r.
  - cbn [existsb]. destruct (is_valid_char b); cbn [negb orb]; [|reflexivity].
    destruct (Z.eqb_spec b 46) as [->|Hb].
    + rewrite segment_ok, split_app by exact Hc. cbn [existsb]. destruct (bad_label cur); cbn [negb orb].
      * now rewrite orb_true_r.
      * specialize (IH (pre ++ cur ++ [46]) []). cbn [app] in IH.
        replace ((pre ++ cur ++ [46]) ++ rest) with (pre ++ cur ++ 46 :: rest) in IH by (rewrite <- !app_assoc; reflexivity).
        rewrite !app_length in IH. cbn [length] in IH.
        replace (length pre + (length cur + 1) + 0)%nat with (S (length pre + length cur)) in IH by lia.
        replace (length pre + (length cur + 1))%nat with (S (length pre + length cur)) in IH by lia.
        apply IH. intros [].
    + specialize (IH pre (cur ++ [b])). rewrite app_length in IH. cbn [length] in IH.
      replace (length pre + (length cur + 1))%nat with (S (length pre + length cur)) in IH by lia.
      replace (pre ++ (cur ++ [b]) ++ rest) with (pre ++ cur ++ b :: rest) in IH by (rewrite <- !app_assoc; reflexivity).
      rewrite IH; [now rewrite <- app_assoc|]. intros C. apply in_app_or in C. destruct C as [C|[C|[]]]; [now apply Hc|congruence].
Qed.
Lemma new_accepts h : hostname_new h = if accepts h then Some h else None.
Proof.
  unfold hostname_new, accepts. destruct ((zlen h =? 0) || (253 <? zlen h)); [reflexivity|]. cbn [orb].
  pose proof (loop_spec h [] []) as L. cbn [app length Nat.add] in L. rewrite L by (intros []). reflexivity.
Qed.

Lemma hostname_new_iff h : (hostname_new h = Some h <-> hostname_ok h) /\ (hostname_new h = None <-> ~ hostname_ok h).
Proof.
  rewrite new_accepts, <- accepts_iff. destruct (accepts h); split; split; intros; try congruence; try discriminate.
Qed.
Lemma hostname_try_from_iff h : (hostname_try_from h = Ok h <-> hostname_ok h) /\ (hostname_try_from h = Err tt <-> ~ hostname_ok h).
Proof.
  rewrite try_from_accepts, <- accepts_iff. destruct (accepts h); split; split; intros; try congruence; try discriminate.
Qed.
Lemma constructors_agree h r : hostname_new h = Some r <-> hostname_try_from h = Ok r.
Proof. rewrite new_accepts, try_from_accepts. destruct (accepts h); split; congruence. Qed.

Lemma labels_ok h : hostname_ok h ->
  join (hostname_labels h) = h /\ Forall label_ok (hostname_labels h) /\ hostname_len h = zlen h.
Proof.
  intros H. split; [apply join_split|]. pose proof H as (H1 & ls & E & Hl). split.
  - unfold hostname_labels. rewrite E, split_join; [exact Hl| |].
    + intros ->. subst h. unfold zlen in H1. cbn in H1. lia.
    + eapply Forall_impl; [|exact Hl]. apply label_ok_nodot.
  - unfold hostname_len, u8. apply Z.mod_small. lia.
Qed.
Lemma labels_join ls : ls <> [] -> Forall label_ok ls -> hostname_labels (join ls) = ls.
Proof. intros H Hl. apply split_join; [exact H|]. eapply Forall_impl; [|exact Hl]. apply label_ok_nodot. Qed.
