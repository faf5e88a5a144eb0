(** DHCP packets: C29-C32. *)
From Verif Require Export Proof.EmitP Proof.DnsMainP Spec.DhcpMsg Model.DhcpPkt.
From Verif Require Import Proof.SprogP.

(** ** Rules for the methods of a packet over a received datagram [w] *)
Definition wpp {A} (p : PD A) (k : cache) (w : list Z) (pos : Z) (D : Prop) (Q : res err A -> cache -> Z -> Prop) : Prop :=
  wpa rd_ok (p k) w pos D (fun x w' pos' => w' = w /\ 0 <= pos' <= zlen w /\ Q (fst x) (snd x) pos').
Lemma wpp_conseq {A} (p : PD A) k w pos D (Q Q' : res err A -> cache -> Z -> Prop) :
  wpp p k w pos D Q -> (forall r k' pos', 0 <= pos' <= zlen w -> Q r k' pos' -> Q' r k' pos') -> wpp p k w pos D Q'.
Proof. intros H HQ. eapply wpa_conseq; [exact H|]. intros x w' pos' (-> & Hp & Hx). auto. Qed.
Lemma wpp_ret {A} (a : A) k w pos D (Q : res err A -> cache -> Z -> Prop) : 0 <= pos <= zlen w -> Q (Ok a) k pos -> wpp (pd_ret a) k w pos D Q.
Proof. intros Hp H. split; [reflexivity|]. split; [exact Hp|exact H]. Qed.
Lemma wpp_bind {A B} (p : PD A) (f : A -> PD B) k w pos D (Q : res err B -> cache -> Z -> Prop) :
  wpp p k w pos D (fun r k' pos' => match r with Ok a => wpp (f a) k' w pos' D Q | Err e => Q (Err e) k' pos' end) ->
  wpp (pd_bind p f) k w pos D Q.
Proof.
  intros H. unfold wpp, pd_bind. apply wpa_bind. eapply wpa_conseq; [exact H|].
  intros [[a|e] k'] w' pos' (-> & Hp & Hx); cbn [fst snd] in *; [exact Hx|]. split; [reflexivity|]. split; [exact Hp|exact Hx].
Qed.
Lemma wpp_io {A} (p : SM A) k w pos D (Q : res err A -> cache -> Z -> Prop) : 0 <= pos <= zlen w ->
  wpa rd_ok p w pos D (fun r _ pos' => Q r k pos') -> wpp (pd_io p) k w pos D Q.
Proof.
  intros Hp H. unfold wpp, pd_io. apply wpa_bind. eapply wpa_conseq; [exact (wpa_reader p w pos D _ Hp H)|].
  intros r w' pos' (-> & Hp' & Hr). split; [reflexivity|]. split; [exact Hp'|exact Hr].
Qed.
Lemma wpp_seek q k w pos D (Q : res err unit -> cache -> Z -> Prop) : 0 <= pos <= zlen w -> 0 <= q <= 65535 ->
  (q <= zlen w -> Q (Ok tt) k q) -> (zlen w < q -> Q (Err UnexpectedEof) k pos) -> wpp (pd_io (s_seek (SStart q))) k w pos D Q.
Proof.
  intros Hp Hq H1 H2. apply wpp_io; [exact Hp|]. cbn [s_seek wpa astep target]. split; [split; [cbn; unfold is_u16; lia|reflexivity]|].
  destruct (Z.leb_spec 0 q); [|lia]. destruct (Z.leb_spec q (zlen w)); cbn; auto.
Qed.
Lemma wpp_move q k w pos D (Q : res err unit -> cache -> Z -> Prop) : 0 <= pos <= zlen w -> -1 <= q <= 255 ->
  (0 <= pos + q <= zlen w -> Q (Ok tt) k (pos + q)) -> (~ (0 <= pos + q <= zlen w) -> Q (Err UnexpectedEof) k pos) ->
  wpp (pd_io (s_seek (SCurrent q))) k w pos D Q.
Proof.
  intros Hp Hq H1 H2. apply wpp_io; [exact Hp|]. cbn [s_seek wpa astep target]. split; [split; [cbn; unfold is_i16; lia|reflexivity]|].
  destruct (Z.leb_spec 0 (pos + q)), (Z.leb_spec (pos + q) (zlen w)); cbn; auto; apply H2; lia.
Qed.
Lemma wpp_exact n k w pos D (Q : res err (list Z) -> cache -> Z -> Prop) : 0 <= pos <= zlen w -> 0 <= n <= 65535 ->
  (pos + n <= zlen w -> Q (Ok (ztake n (zdrop pos w))) k (pos + n)) -> (zlen w < pos + n -> Q (Err UnexpectedEof) k pos) ->
  wpp (pd_io (s_read_exact n)) k w pos D Q.
Proof.
  intros Hp Hq H1 H2. apply wpp_io; [exact Hp|]. cbn [s_read_exact wpa astep]. split; [split; [cbn; unfold is_u16; lia|reflexivity]|].
  destruct (Z.leb_spec n (zlen w - pos)); cbn [wpa sret sfail]; [apply H1|apply H2]; lia.
Qed.
Lemma wpp_map {A B} (f : A -> B) (p : PD A) k w pos D (Q : res err B -> cache -> Z -> Prop) :
  wpp p k w pos D (fun r k' pos' => Q (res_map f r) k' pos') -> wpp (pd_map f p) k w pos D Q.
Proof.
  intros H. apply wpp_bind. eapply wpp_conseq; [exact H|]. intros [a|e] k' pos' Hp HQ; cbn in HQ; [now apply wpp_ret|exact HQ].
Qed.

(** ** Scanning *)
Lemma zdrop_cons (w : list Z) p : 0 <= p < zlen w -> zdrop p w = at_ w (Z.to_nat p) :: zdrop (p + 1) w.
Proof.
  intros H. replace (p + 1) with (1 + p) by lia. rewrite <- (zdrop_zdrop 1 p) by lia.
  unfold at_. replace (nth (Z.to_nat p) w 0) with (nth 0 (zdrop p w) 0).
  - pose proof (zlen_zdrop p w). destruct (zdrop p w) as [|x l] eqn:E; [rewrite zlen_nil in *; lia|reflexivity].
  - unfold zdrop. rewrite <- (firstn_skipn (Z.to_nat p) w) at 2. rewrite app_nth2; rewrite firstn_length_le; unfold zlen in H; try lia.
    now rewrite Nat.sub_diag.
Qed.
Lemma finds_skip code c len w p f : c <> 0 -> c <> 255 -> c <> code -> 0 <= len -> 0 <= p -> p + len <= zlen w ->
  finds code (zdrop (p + len) w) f -> finds code (c :: len :: zdrop p w) f.
Proof.
  intros H1 H2 H3 Hl Hp Hz H. rewrite <- (ztake_zdrop len (zdrop p w)). rewrite zdrop_zdrop by lia.
  replace (len + p) with (p + len) by lia. assert (len = zlen (ztake len (zdrop p w))) as E by (rewrite zlen_ztake, zlen_zdrop; lia).
  rewrite E at 1. now apply FSkip.
Qed.

(** Pads from [p] to [q]. *)
Definition pads (w : list Z) (p q : Z) : Prop := p <= q <= zlen w /\ forall i, p <= i < q -> at_ w (Z.to_nat i) = 0.
Lemma pads_finds code w p q f : 0 <= p -> pads w p q -> finds code (zdrop q w) f -> finds code (zdrop p w) f.
Proof.
  intros Hp [Hq Hz] H. remember (Z.to_nat (q - p)) as n eqn:En. revert p Hp Hq Hz En.
  induction n as [|n IH]; intros p Hp Hq Hz En; [replace p with q by lia; exact H|].
  assert (finds code (zdrop (p + 1) w) f) as H1 by (apply IH; try lia; intros i Hi; apply Hz; lia).
  rewrite zdrop_cons by lia. rewrite Hz by lia.
  destruct (zdrop (p + 1) w) as [|b r] eqn:E; [inversion H1; constructor|now apply FPad].
Qed.

(** The cached options: the first ones of the area, up to offset [e]. *)
Inductive chain (w : list Z) : Z -> list OptionLocation -> Z -> Prop :=
| ChNil p : chain w p [] p
| ChCons p q c len es e : pads w p q -> q + 2 <= zlen w -> at_ w (Z.to_nat q) = c -> at_ w (Z.to_nat (q + 1)) = len ->
    c <> 0 -> c <> 255 -> chain w (q + 2 + len) es e -> chain w p (mkLoc c (q + 2) len :: es) e.
Lemma chain_snoc w es : forall p e q c len, chain w p es e -> pads w e q -> q + 2 <= zlen w ->
  at_ w (Z.to_nat q) = c -> at_ w (Z.to_nat (q + 1)) = len -> c <> 0 -> c <> 255 ->
  chain w p (es ++ [mkLoc c (q + 2) len]) (q + 2 + len).
Proof.
  induction es as [|x es IH]; intros p e q c len H; inversion H; subst; intros.
  - eapply ChCons; eauto. constructor.
  - cbn [app]. eapply ChCons; eauto.
Qed.
(** The array: the entries, then empty ones. *)
Definition arr (es : list OptionLocation) : cache := es ++ repeat loc_default (9 - length es).
Definition cached (w : list Z) (k : cache) : Prop :=
  exists es e, k = arr es /\ (length es <= 9)%nat /\ chain w 240 es e.
Lemma chain_opts w es : forall p e, chain w p es e -> Forall (fun l => ol_option l <> 0) es.
Proof. induction es as [|x es IH]; intros p e H; inversion H; subst; constructor; eauto. Qed.
Lemma put_full es l n : Forall (fun l => ol_option l <> 0) es -> cache_put (es ++ repeat loc_default (S n)) l = (es ++ [l]) ++ repeat loc_default n.
Proof.
  induction 1 as [|x es Hx _ IH]; [reflexivity|]. cbn [app cache_put]. destruct (Z.eqb_spec (ol_option x) 0); [easy|]. now rewrite IH.
Qed.
Lemma put_none es l : Forall (fun l => ol_option l <> 0) es -> cache_put es l = es.
Proof.
  induction 1 as [|x es Hx _ IH]; [reflexivity|]. cbn [app cache_put]. destruct (Z.eqb_spec (ol_option x) 0); [easy|]. now rewrite IH.
Qed.
Lemma put_arr es l : Forall (fun l => ol_option l <> 0) es -> (length es <= 9)%nat ->
  (length es = 9%nat /\ cache_put (arr es) l = arr es) \/ (length (es ++ [l]) <= 9)%nat /\ cache_put (arr es) l = arr (es ++ [l]).
Proof.
  intros H L. unfold arr. rewrite app_length. cbn [length]. destruct (Nat.eq_dec (length es) 9) as [E|E].
  - left. split; [exact E|]. rewrite E, Nat.sub_diag. cbn [repeat]. rewrite app_nil_r. now apply put_none.
  - right. split; [lia|]. replace (9 - length es)%nat with (S (9 - (length es + 1))) by lia. now apply put_full.
Qed.

(** What a search reports. *)
Definition search (w : list Z) (f : found) (r : res err (option Z)) (pos : Z) : Prop :=
  match f with
  | Absent => r = Ok None
  | Cut => r = Err UnexpectedEof
  | Present len rest => r = Ok (Some len) /\ zdrop pos w = rest /\ is_u8 len
  end.
Lemma bytes_u8 w i : bytes_ok w -> 0 <= at_ w i < 256.
Proof. intros H. exact (bytes_at w i H). Qed.
Lemma loop_search w D code : bytes_ok w -> code <> 0 -> code <> 255 -> forall fuel es e pos,
  (length es <= 9)%nat -> chain w 240 es e -> length es = 9%nat \/ pads w e pos -> 0 <= pos <= zlen w ->
  D \/ zlen w - pos < Z.of_nat fuel ->
  wpp (option_loop fuel code) (arr es) w pos D (fun r k' pos' => cached w k' /\ exists f, finds code (zdrop pos w) f /\ search w f r pos').
Proof.
  intros Hw C0 C1. induction fuel as [|fuel IH]; intros es e pos L9 Hc Hf Hp Hfuel.
  { destruct Hfuel as [Hd|Hd]; [exact Hd|lia]. }
  pose proof (chain_opts _ _ _ _ Hc) as Ho.
  assert (forall q, pos < q -> D \/ zlen w - q < Z.of_nat fuel) as Fu.
  { intros q Hq. destruct Hfuel as [Hd|Hd]; [now left|right; lia]. }
  assert (cached w (arr es)) as Kd by (exists es, e; auto).
  cbn [option_loop]. apply wpp_bind. apply wpp_io; [exact Hp|]. cbn [s_read wpa astep sret].
  split; [split; [cbn; unfold is_u16; lia|reflexivity]|]. cbn [negb].
  destruct (Z.lt_ge_cases (zlen w - pos) 2) as [Hs|Hs].
  { rewrite zlen_ztake, zlen_zdrop. destruct (Z.eqb_spec (Z.min (Z.max 0 (Z.min (zlen w - pos) 2)) (zlen w - Z.min (Z.max 0 pos) (zlen w))) 2); [lia|].
    cbn [negb]. apply wpp_ret; [lia|]. split; [exact Kd|]. exists Absent. split; [|reflexivity].
    destruct (Z.eq_dec pos (zlen w)) as [->|Hne]; [rewrite zdrop_all by lia; constructor|].
    rewrite zdrop_cons by lia. rewrite (zdrop_all (pos + 1)) by lia. constructor. }
  rewrite Z.min_r by lia. rewrite zlen_ztake, zlen_zdrop.
  destruct (Z.eqb_spec (Z.min (Z.max 0 2) (zlen w - Z.min (Z.max 0 pos) (zlen w))) 2); [|lia]. cbn [negb].
  assert (ztake 2 (zdrop pos w) = [at_ w (Z.to_nat pos); at_ w (Z.to_nat (pos + 1))]) as ->.
  { rewrite zdrop_cons by lia. rewrite zdrop_cons by lia. reflexivity. }
  change (at_ [?a; ?b] 0) with a. change (at_ [?a; ?b] 1) with b.
  assert (zdrop pos w = at_ w (Z.to_nat pos) :: at_ w (Z.to_nat (pos + 1)) :: zdrop (pos + 2) w) as Ew.
  { rewrite zdrop_cons by lia. rewrite zdrop_cons by lia. do 2 f_equal. f_equal. lia. }
  pose proof (bytes_u8 w (Z.to_nat pos) Hw) as B0. pose proof (bytes_u8 w (Z.to_nat (pos + 1)) Hw) as B1.
  change (at_ [at_ w (Z.to_nat pos); at_ w (Z.to_nat (pos + 1))] 0) with (at_ w (Z.to_nat pos)).
  change (at_ [at_ w (Z.to_nat pos); at_ w (Z.to_nat (pos + 1))] 1) with (at_ w (Z.to_nat (pos + 1))).
  set (b0 := at_ w (Z.to_nat pos)) in *. set (b1 := at_ w (Z.to_nat (pos + 1))) in *.
  destruct (Z.eqb_spec b0 255) as [E255|N255].
  { apply wpp_ret; [lia|]. split; [exact Kd|]. exists Absent. split; [|reflexivity]. rewrite Ew, E255. constructor. }
  destruct (Z.eqb_spec b0 0) as [E0|N0].
  { assert (forall q, pos < q <= pos + 2 -> (forall i, pos <= i < q -> at_ w (Z.to_nat i) = 0) -> length es = 9%nat \/ pads w e q) as Pd.
    { intros q Hq Hz. destruct Hf as [Hf|[Hf1 Hf2]]; [now left|right]. split; [lia|]. intros i Hi.
      destruct (Z.lt_ge_cases i pos); [apply Hf2; lia|apply Hz; lia]. }
    destruct (Z.eqb_spec b1 0) as [E1|N1].
    - assert (forall i, pos <= i < pos + 2 -> at_ w (Z.to_nat i) = 0) as Hz.
      { intros i Hi. assert (i = pos \/ i = pos + 1) as [->| ->] by lia; assumption. }
      eapply wpp_conseq; [apply (IH es e (pos + 2)); auto; try (apply Fu; lia); try (apply Pd; [lia|exact Hz]); try lia|].
      intros r k' pos' Hp' (K & f & F & S). split; [exact K|]. exists f. split; [|exact S].
      apply (pads_finds code w pos (pos + 2)); [lia| |exact F]. split; [lia|exact Hz].
    - apply wpp_bind. apply wpp_move; [lia|lia| |lia]. intros _. replace (pos + 2 + -1) with (pos + 1) by lia.
      assert (forall i, pos <= i < pos + 1 -> at_ w (Z.to_nat i) = 0) as Hz.
      { intros i Hi. assert (i = pos) as -> by lia. assumption. }
      eapply wpp_conseq; [apply (IH es e (pos + 1)); auto; try (apply Fu; lia); try (apply Pd; [lia|exact Hz]); try lia|].
      intros r k' pos' Hp' (K & f & F & S). split; [exact K|]. exists f. split; [|exact S].
      apply (pads_finds code w pos (pos + 1)); [lia| |exact F]. split; [lia|exact Hz]. }
  assert (exists es' e', cache_put (arr es) (mkLoc b0 (pos + 2) b1) = arr es' /\ (length es' <= 9)%nat /\ chain w 240 es' e' /\
     (length es' = 9%nat \/ e' = pos + 2 + b1)) as (es' & e' & Ep & L9' & Hc' & Hf').
  { destruct Hf as [Hf|Hf].
    - exists es, e. destruct (put_arr es (mkLoc b0 (pos + 2) b1) Ho L9) as [[_ H]|[H _]]; [auto|rewrite app_length in H; cbn in H; lia].
    - destruct (put_arr es (mkLoc b0 (pos + 2) b1) Ho L9) as [[H9 H]|[H9 H]]; [exists es, e; auto|].
      exists (es ++ [mkLoc b0 (pos + 2) b1]), (pos + 2 + b1). split; [exact H|]. split; [exact H9|]. split; [|now right].
      eapply chain_snoc; eauto; lia. }
  destruct (Z.eqb_spec b0 code) as [Ec|Nc].
  { apply wpp_bind. unfold cache_insert, wpp at 1. cbn [wpa aask fst snd]. split; [reflexivity|]. split; [lia|].
    apply wpp_ret; [lia|]. rewrite Ep. split; [exists es', e'; auto|]. exists (Present b1 (zdrop (pos + 2) w)).
    split; [rewrite Ew, Ec; now constructor|]. split; [reflexivity|]. split; [reflexivity|unfold is_u8; lia]. }
  apply wpp_bind. unfold cache_insert, wpp at 1. cbn [wpa aask fst snd]. split; [reflexivity|]. split; [lia|]. rewrite Ep.
  apply wpp_bind. apply wpp_move; [lia|lia| |].
  - intros Hin. eapply wpp_conseq; [apply (IH es' e' (pos + 2 + b1)); auto; try (apply Fu; lia); try lia|].
    { destruct Hf' as [Hf'|Hf']; [now left|right]. subst e'. split; [lia|lia]. }
    intros r k' pos' Hp' (K & f & F & S). split; [exact K|]. exists f. split; [|exact S].
    rewrite Ew. apply finds_skip; auto; lia.
  - intros Hout. split; [exists es', e'; auto|]. exists Cut. split; [|reflexivity]. rewrite Ew. apply FCut; auto. rewrite zlen_zdrop. lia.
Qed.

(** Scanning the cache. *)
Lemma scan_spec w code es : bytes_ok w -> zlen w <= 65280 -> code <> 0 -> code <> 255 -> forall p e n, 0 <= p -> chain w p es e ->
  (exists l, cache_scan (es ++ repeat loc_default n) code p = Some (inl l) /\ 0 <= ol_ptr l <= zlen w /\ is_u8 (ol_len l) /\
     finds code (zdrop p w) (Present (ol_len l) (zdrop (ol_ptr l) w))) \/
  (cache_scan (es ++ repeat loc_default n) code p = Some (inr e) /\ p <= e <= 65535 /\
     ((e <= zlen w -> forall f, finds code (zdrop e w) f -> finds code (zdrop p w) f) /\
      (zlen w < e -> p <= zlen w -> finds code (zdrop p w) Cut))) \/ zlen w < p.
Proof.
  intros Hw Hz C0 C1. induction es as [|x es IH]; intros p e n Hp H.
  - inversion H; subst. destruct (Z.lt_ge_cases (zlen w) e); [auto|]. right; left. split; [destruct n; reflexivity|]. split; [lia|]. split; [auto|lia].
  - destruct (Z.lt_ge_cases (zlen w) p); [auto|]. inversion H as [|p' q c len es' e' Pd Hq Hc Hl N0 N255 Hr]; subst.
    pose proof (bytes_u8 w (Z.to_nat q) Hw) as B0. pose proof (bytes_u8 w (Z.to_nat (q + 1)) Hw) as B1.
    set (b0 := at_ w (Z.to_nat q)) in *. set (b1 := at_ w (Z.to_nat (q + 1))) in *.
    pose proof Pd as [Pd1 _].
    assert (zdrop q w = b0 :: b1 :: zdrop (q + 2) w) as Ew.
    { rewrite zdrop_cons by lia. rewrite zdrop_cons by lia. unfold b0, b1. do 2 f_equal. f_equal. lia. }
    cbn [app cache_scan ol_option ol_ptr ol_len]. destruct (Z.eqb_spec b0 0); [easy|]. cbn [negb].
    destruct (Z.eqb_spec b0 code) as [Ec|Nc].
    { left. exists (mkLoc b0 (q + 2) b1). split; [reflexivity|]. cbn [ol_ptr ol_len]. split; [lia|]. split; [unfold is_u8; lia|].
      apply (pads_finds code w p q); auto. rewrite Ew, Ec. now constructor. }
    destruct (Z.ltb_spec 65535 (q + 2 + b1)); [lia|].
    assert (forall f, q + 2 + b1 <= zlen w -> finds code (zdrop (q + 2 + b1) w) f -> finds code (zdrop p w) f) as Step.
    { intros f Hle F. apply (pads_finds code w p q); auto. rewrite Ew. apply finds_skip; auto; lia. }
    assert (zlen w < q + 2 + b1 -> finds code (zdrop p w) Cut) as StepC.
    { intros Hlt. apply (pads_finds code w p q); auto. rewrite Ew. apply FCut; auto. rewrite zlen_zdrop. lia. }
    destruct (IH (q + 2 + b1) e n ltac:(lia) Hr) as [(l & E & E1 & E2 & E3)|[(E & E1 & E2 & E3)|Hlt]].
    + left. exists l. split; [exact E|]. split; [exact E1|]. split; [exact E2|].
      destruct (Z.lt_ge_cases (zlen w) (q + 2 + b1)); [|apply Step; auto; lia].
      exfalso. inversion Hr; subst; [cbn [app] in E; destruct n; discriminate E|].
      match goal with Hx : pads w (q + 2 + b1) _ |- _ => destruct Hx as [Hx _] end. lia.
    + right; left. split; [exact E|]. split; [lia|]. split.
      * intros Hle f F. apply Step; [lia|]. now apply E2.
      * intros Hlt _. destruct (Z.lt_ge_cases (zlen w) (q + 2 + b1)); [now apply StepC|]. apply Step; [lia|]. apply E3; lia.
    + right; left. inversion Hr as [? E|? ? ? ? ? ? Hx]; subst; [|destruct Hx as [Hx _]; lia].
      split; [destruct n; reflexivity|]. split; [lia|]. split; [lia|]. intros _ _. now apply StepC.
Qed.
Lemma wpp_hit fuel code k l w pos D Q : cache_scan k code 240 = Some (inl l) ->
  wpp (_ <+ pd_io (s_seek (SStart (ol_ptr l))) ;; pd_ret (Some (ol_len l))) k w pos D Q -> wpp (seek_to_option fuel code) k w pos D Q.
Proof. intros E H. unfold wpp, seek_to_option. rewrite E. exact H. Qed.
Lemma wpp_miss fuel code k e w pos D Q : cache_scan k code 240 = Some (inr e) ->
  wpp (_ <+ pd_io (s_seek (SStart e)) ;; option_loop fuel code) k w pos D Q -> wpp (seek_to_option fuel code) k w pos D Q.
Proof. intros E H. unfold wpp, seek_to_option. rewrite E. exact H. Qed.
Lemma seek_search w D fuel code k pos : bytes_ok w -> zlen w <= 65280 -> code <> 0 -> code <> 255 -> cached w k ->
  0 <= pos <= zlen w -> D \/ zlen w < Z.of_nat fuel ->
  wpp (seek_to_option fuel code) k w pos D (fun r k' pos' => cached w k' /\
    (zlen w < 240 /\ r = Err UnexpectedEof \/ 240 <= zlen w /\ exists f, finds code (zdrop 240 w) f /\ search w f r pos')).
Proof.
  intros Hw Hz C0 C1 Hk Hp Hfuel. pose proof Hk as (es & e & -> & L9 & Hc).
  destruct (scan_spec w code es Hw Hz C0 C1 240 e (9 - length es) ltac:(lia) Hc) as [(l & Ek & E1 & E2 & E3)|[(Ek & E1 & E2 & E3)|Hlt]].
  - assert (240 <= zlen w) as H240.
    { inversion Hc as [? X|? ? ? ? ? ? [X _]]; subst; [|lia].
      destruct (Z.lt_ge_cases (zlen w) 240) as [Hx|]; [|assumption]. rewrite zdrop_all in E3 by lia. inversion E3. }
    apply (wpp_hit _ _ _ _ _ _ _ _ Ek). apply wpp_bind. apply wpp_seek; [exact Hp|lia| |lia]. intros _. apply wpp_ret; [lia|].
    split; [exact Hk|]. right. split; [exact H240|]. eexists. split; [exact E3|]. split; [reflexivity|]. split; [reflexivity|exact E2].
  - apply (wpp_miss _ _ _ _ _ _ _ _ Ek). apply wpp_bind. apply wpp_seek; [exact Hp|lia| |].
    + intros Hle. eapply wpp_conseq; [apply (loop_search w D code Hw C0 C1 fuel es e e L9 Hc)|].
      * right. split; [lia|lia].
      * lia.
      * destruct Hfuel as [Hd|Hd]; [now left|right; lia].
      * intros r k' pos' Hp' (K & f & F & S). split; [exact K|]. right. split; [lia|]. exists f. auto.
    + intros Hlt. split; [exact Hk|]. destruct (Z.lt_ge_cases (zlen w) 240); [left; auto|right]. split; [lia|].
      exists Cut. split; [apply E3; lia|reflexivity].
  - assert (es = [] /\ e = 240) as [-> ->].
    { inversion Hc as [? X|? ? ? ? ? ? [X _]]; subst; [auto|lia]. }
    apply (wpp_miss _ _ _ 240); [reflexivity|]. apply wpp_bind. apply wpp_seek; [exact Hp|lia|lia|]. intros _. split; [|left; auto].
    exact Hk.
Qed.

(** ** Accessors *)
Definition answered (w : list Z) (g : getter) (r : res err answer) (k' : cache) (pos' : Z) : Prop := cached w k' /\ answers w g r.
Lemma fixed_size w D fuel n code k pos : bytes_ok w -> zlen w <= 65280 -> code <> 0 -> code <> 255 -> cached w k -> 0 <= n <= 255 ->
  0 <= pos <= zlen w -> D \/ zlen w < Z.of_nat fuel ->
  wpp (find_option_fixed_size fuel n code) k w pos D (fun r k' pos' => cached w k' /\
    (zlen w < 240 /\ r = Err UnexpectedEof \/ 240 <= zlen w /\ exists f, finds code (zdrop 240 w) f /\ r = exactly n f)).
Proof.
  intros Hw Hz C0 C1 Hk Hn Hp Hf. apply wpp_bind. eapply wpp_conseq; [apply (seek_search w D fuel code k pos); auto|].
  intros r k' pos' Hp' (K & [(L & ->)|(L & f & F & S)]); [split; [exact K|]; left; auto|].
  destruct f as [| |len rest]; cbn [search] in S.
  - subst r. apply wpp_ret; [lia|]. split; [exact K|]. right. split; [exact L|]. exists Absent. auto.
  - subst r. split; [exact K|]. right. split; [exact L|]. exists Cut. auto.
  - destruct S as (-> & Er & B). destruct (Z.eqb_spec len n) as [E|E]; cbn [negb].
    + apply wpp_bind. apply wpp_exact; [lia|lia| |].
      * intros Hle. apply wpp_ret; [lia|]. split; [exact K|]. right. split; [exact L|]. eexists. split; [exact F|].
        unfold exactly. rewrite E, Z.eqb_refl. cbn [negb]. rewrite Er. assert (zlen rest = zlen w - pos') as El by (rewrite <- Er, zlen_zdrop; lia).
        destruct (Z.leb_spec n (zlen rest)); [reflexivity|lia].
      * intros Hlt. split; [exact K|]. right. split; [exact L|]. eexists. split; [exact F|].
        unfold exactly. rewrite E, Z.eqb_refl. cbn [negb]. assert (zlen rest = zlen w - pos') as El by (rewrite <- Er, zlen_zdrop; lia).
        destruct (Z.leb_spec n (zlen rest)); [lia|reflexivity].
    + apply wpp_ret; [lia|]. split; [exact K|]. right. split; [exact L|]. eexists. split; [exact F|].
      unfold exactly. destruct (Z.eqb_spec len n); [easy|reflexivity].
Qed.
Lemma ipv4_list w D fuel code k pos : bytes_ok w -> zlen w <= 65280 -> code <> 0 -> code <> 255 -> cached w k ->
  0 <= pos <= zlen w -> D \/ zlen w < Z.of_nat fuel ->
  wpp (find_option_ipv4_list fuel code) k w pos D (fun r k' pos' => cached w k' /\
    (zlen w < 240 /\ r = Err UnexpectedEof \/ 240 <= zlen w /\ exists f, finds code (zdrop 240 w) f /\ r = first_addr f)).
Proof.
  intros Hw Hz C0 C1 Hk Hp Hf. apply wpp_bind. eapply wpp_conseq; [apply (seek_search w D fuel code k pos); auto|].
  intros r k' pos' Hp' (K & [(L & ->)|(L & f & F & S)]); [split; [exact K|]; left; auto|].
  destruct f as [| |len rest]; cbn [search] in S.
  - subst r. apply wpp_ret; [lia|]. split; [exact K|]. right. split; [exact L|]. exists Absent. auto.
  - subst r. split; [exact K|]. right. split; [exact L|]. exists Cut. auto.
  - destruct S as (-> & Er & B). assert (zlen rest = zlen w - pos') as El by (rewrite <- Er, zlen_zdrop; lia).
    destruct (Z.eqb_spec (len mod 4) 0) as [E|E]; cbn [negb orb].
    + destruct (Z.ltb_spec len 4).
      * apply wpp_ret; [lia|]. split; [exact K|]. right. split; [exact L|]. eexists. split; [exact F|]. unfold first_addr.
        destruct (Z.leb_spec 4 len); [lia|]. now rewrite andb_false_r.
      * apply wpp_bind. apply wpp_exact; [lia|lia| |]; intros Hle; [apply wpp_ret; [lia|]|]; (split; [exact K|]; right; split; [exact L|]; eexists; split; [exact F|]);
          unfold first_addr; rewrite E; (destruct (Z.leb_spec 4 len); [|lia]); cbn [andb Z.eqb]; (destruct (Z.leb_spec 4 (zlen rest)); [|try lia]); try lia; try reflexivity.
        now rewrite Er.
    + apply wpp_ret; [lia|]. split; [exact K|]. right. split; [exact L|]. eexists. split; [exact F|]. unfold first_addr.
      destruct (Z.eqb_spec (len mod 4) 0); [easy|reflexivity].
Qed.
Lemma type_of_eq b : msg_type_try_from b = type_of b.
Proof.
  unfold msg_type_try_from, type_of. destruct (Z.lt_ge_cases b 1); [destruct b as [|p|p]; try lia; reflexivity|].
  destruct (Z.lt_ge_cases 8 b).
  - repeat (match goal with |- context [b =? ?x] => destruct (Z.eqb_spec b x); [lia|] end).
    destruct b as [|p|p]; [reflexivity| |reflexivity]. repeat (destruct p as [p|p|]; try reflexivity; try lia).
  - assert (b = 1 \/ b = 2 \/ b = 3 \/ b = 4 \/ b = 5 \/ b = 6 \/ b = 7 \/ b = 8) as Hb by lia.
    repeat (destruct Hb as [->|Hb]; [reflexivity|]). subst. reflexivity.
Qed.
Lemma field_read w D off n k pos : zlen w <= 65280 -> 0 <= off <= 255 -> 0 <= n <= 255 -> 0 <= pos <= zlen w -> forall {A} (f : list Z -> A) (Q : res err A -> cache -> Z -> Prop),
  (forall pos', Q (res_map f (bytes_at_ w off n)) k pos') ->
  wpp (_ <+ pd_io (s_seek (SStart off)) ;; b <+ pd_io (s_read_exact n) ;; pd_ret (f b)) k w pos D Q.
Proof.
  intros Hz Ho Hn Hp A f Q H. unfold bytes_at_ in H. apply wpp_bind. apply wpp_seek; [exact Hp|lia| |].
  - intros Hle. apply wpp_bind. apply wpp_exact; [lia|lia| |].
    + intros Hle2. apply wpp_ret; [lia|]. destruct (Z.leb_spec (off + n) (zlen w)); [apply H|lia].
    + intros Hlt. destruct (Z.leb_spec (off + n) (zlen w)); [lia|apply H].
  - intros Hlt. destruct (Z.leb_spec (off + n) (zlen w)); [lia|apply H].
Qed.
Lemma get_answers w D fuel g k pos : bytes_ok w -> zlen w <= 65280 -> cached w k -> 0 <= pos <= zlen w -> D \/ zlen w < Z.of_nat fuel ->
  wpp (get fuel g) k w pos D (answered w g).
Proof.
  intros Hw Hz Hk Hp Hf. destruct g; cbn [get]; apply wpp_map.
  - apply (field_read w D 0 1 k pos Hz ltac:(lia) ltac:(lia) Hp (fun b => at_ b 0 =? BOOTREQUEST)). intros pos'. split; [exact Hk|].
    replace (res_map AIsRequest _) with (res_map (fun l => AIsRequest (at_ l 0 =? 1)) (bytes_at_ w 0 1)); [constructor|].
    unfold bytes_at_. now destruct (_ <=? _).
  - apply (field_read w D 4 4 k pos Hz ltac:(lia) ltac:(lia) Hp word). intros pos'. split; [exact Hk|].
    replace (res_map AXid _) with (res_map (fun l => AXid (word l)) (bytes_at_ w 4 4)); [constructor|].
    unfold bytes_at_. now destruct (_ <=? _).
  - unfold yiaddr. apply wpp_bind. apply wpp_seek; [exact Hp|lia| |].
    + intros Hle. apply wpp_exact; [lia|lia| |]; intros Hle2; (split; [exact Hk|]).
      * replace (res_map AAddr _) with (res_map AAddr (bytes_at_ w 16 4)); [constructor|]. unfold bytes_at_. destruct (Z.leb_spec (16 + 4) (zlen w)); [reflexivity|lia].
      * replace (res_map AAddr _) with (res_map AAddr (bytes_at_ w 16 4)); [constructor|]. unfold bytes_at_. destruct (Z.leb_spec (16 + 4) (zlen w)); [lia|reflexivity].
    + intros Hlt. split; [exact Hk|]. replace (res_map AAddr _) with (res_map AAddr (bytes_at_ w 16 4)); [constructor|].
      unfold bytes_at_. destruct (Z.leb_spec (16 + 4) (zlen w)); [lia|reflexivity].
  - apply wpp_bind. eapply wpp_conseq; [apply (fixed_size w D fuel 1 53 k pos); auto; lia|].
    intros r k' pos' Hp' (K & [(L & ->)|(L & f & F & ->)]).
    + split; [exact K|]. now apply (AnsShort w GMsgType 53).
    + pose proof (AnsOption w GMsgType 53 f eq_refl L F) as An. cbn [read_found] in An.
      destruct (exactly 1 f) as [o|e]; [|split; [exact K|exact An]]. apply wpp_ret; [lia|]. split; [exact K|]. cbn [res_map] in *.
      destruct o as [l|]; [rewrite type_of_eq|]; exact An.
  - eapply wpp_conseq; [apply (fixed_size w D fuel 4 1 k pos); auto; lia|].
    intros r k' pos' Hp' (K & [(L & ->)|(L & f & F & ->)]); (split; [exact K|]); [now apply (AnsShort w GSubnet 1)|exact (AnsOption w GSubnet 1 f eq_refl L F)].
  - eapply wpp_conseq; [apply (ipv4_list w D fuel 54 k pos); auto; lia|].
    intros r k' pos' Hp' (K & [(L & ->)|(L & f & F & ->)]); (split; [exact K|]); [now apply (AnsShort w GServer 54)|exact (AnsOption w GServer 54 f eq_refl L F)].
  - eapply wpp_conseq; [apply (ipv4_list w D fuel 6 k pos); auto; lia|].
    intros r k' pos' Hp' (K & [(L & ->)|(L & f & F & ->)]); (split; [exact K|]); [now apply (AnsShort w GDns 6)|exact (AnsOption w GDns 6 f eq_refl L F)].
  - eapply wpp_conseq; [apply (ipv4_list w D fuel 42 k pos); auto; lia|].
    intros r k' pos' Hp' (K & [(L & ->)|(L & f & F & ->)]); (split; [exact K|]); [now apply (AnsShort w GNtp 42)|exact (AnsOption w GNtp 42 f eq_refl L F)].
  - apply wpp_bind. eapply wpp_conseq; [apply (fixed_size w D fuel 4 51 k pos); auto; lia|].
    intros r k' pos' Hp' (K & [(L & ->)|(L & f & F & ->)]); [split; [exact K|]; now apply (AnsShort w GLease 51)|].
    pose proof (AnsOption w GLease 51 f eq_refl L F) as An. cbn [read_found] in An.
    destruct (exactly 4 f) as [[l|]|e]; [apply wpp_ret; [lia|]|apply wpp_ret; [lia|]|]; (split; [exact K|exact An]).
  - apply wpp_bind. eapply wpp_conseq; [apply (fixed_size w D fuel 4 58 k pos); auto; lia|].
    intros r k' pos' Hp' (K & [(L & ->)|(L & f & F & ->)]); [split; [exact K|]; now apply (AnsShort w GRenewal 58)|].
    pose proof (AnsOption w GRenewal 58 f eq_refl L F) as An. cbn [read_found] in An.
    destruct (exactly 4 f) as [[l|]|e]; [apply wpp_ret; [lia|]|apply wpp_ret; [lia|]|]; (split; [exact K|exact An]).
  - apply wpp_bind. eapply wpp_conseq; [apply (fixed_size w D fuel 4 59 k pos); auto; lia|].
    intros r k' pos' Hp' (K & [(L & ->)|(L & f & F & ->)]); [split; [exact K|]; now apply (AnsShort w GRebinding 59)|].
    pose proof (AnsOption w GRebinding 59 f eq_refl L F) as An. cbn [read_found] in An.
    destruct (exactly 4 f) as [[l|]|e]; [apply wpp_ret; [lia|]|apply wpp_ret; [lia|]|]; (split; [exact K|exact An]).
Qed.
Lemma cached_new w : cached w cache_new.
Proof. exists [], 240. split; [reflexivity|]. split; [cbn; lia|constructor]. Qed.
Lemma gets_answers w D fuel gs : bytes_ok w -> zlen w <= 65280 -> D \/ zlen w < Z.of_nat fuel -> forall k pos, cached w k -> 0 <= pos <= zlen w ->
  wpa rd_ok (gets fuel gs k) w pos D (fun x w' pos' => w' = w /\ 0 <= pos' <= zlen w /\ cached w (snd x) /\ Forall2 (answers w) gs (fst x)).
Proof.
  intros Hw Hz Hf. induction gs as [|g gs IH]; intros k pos Hk Hp; cbn [gets].
  - cbn. auto.
  - apply wpa_bind. eapply wpa_conseq; [apply (get_answers w D fuel g k pos); auto|].
    intros x w1 p1 (-> & Hp1 & K1 & A1). apply wpa_bind. eapply wpa_conseq; [apply (IH (snd x) p1); auto|].
    intros y w2 p2 (-> & Hp2 & K2 & A2). cbn. auto.
Qed.

(** ** The answers are determined by the packet *)
Lemma app_inv_len {A} (a b c d : list A) : a ++ b = c ++ d -> zlen a = zlen c -> a = c /\ b = d.
Proof.
  revert c. induction a as [|x a IH]; intros [|y c] E L; rewrite ?zlen_cons, ?zlen_nil in L; cbn in E; auto;
    try (pose proof (zlen_nonneg c); lia); try (pose proof (zlen_nonneg a); lia).
  injection E as -> E. destruct (IH c E ltac:(lia)) as [-> ->]. auto.
Qed.
Lemma finds_fun code l f f' : finds code l f -> finds code l f' -> f = f'.
Proof.
  intros H. revert f'. induction H; intros f' H'; inversion H'; subst; try congruence; auto; try easy.
  - apply IHfinds. match goal with Hx : ?a ++ ?b = ?c ++ ?d |- _ => apply app_inv_len in Hx; [destruct Hx as [_ ->]; assumption|] end.
    congruence.
  - rewrite zlen_app in *. pose proof (zlen_nonneg r). lia.
  - rewrite zlen_app in *. pose proof (zlen_nonneg r0). lia.
Qed.
Lemma answers_fun w g r r' : answers w g r -> answers w g r' -> r = r'.
Proof.
  intros H H'. destruct H; inversion H'; subst; try reflexivity; try discriminate; try lia.
  assert (code = code0) as <- by congruence. f_equal. eapply finds_fun; eassumption.
Qed.
Lemma get_arun w fuel g k pos : bytes_ok w -> zlen w <= 65280 -> zlen w < Z.of_nat fuel -> cached w k -> 0 <= pos <= zlen w ->
  exists r k' pos', arun (get fuel g k) w pos = (Done (r, k'), w, pos') /\ answers w g r.
Proof.
  intros Hw Hz Hf Hk Hp. destruct (wpa_arun _ _ _ _ _ (get_answers w False fuel g k pos Hw Hz Hk Hp (or_intror Hf))) as ([r k'] & w' & pos' & E & -> & _ & _ & An).
  eauto.
Qed.
Lemma gets_arun w fuel gs pos : bytes_ok w -> zlen w <= 65280 -> zlen w < Z.of_nat fuel -> 0 <= pos <= zlen w ->
  exists rs k' pos', arun (gets fuel gs cache_new) w pos = (Done (rs, k'), w, pos') /\ 0 <= pos' <= zlen w /\ Forall2 (answers w) gs rs.
Proof.
  intros Hw Hz Hf Hp. destruct (wpa_arun _ _ _ _ _ (gets_answers w False fuel gs Hw Hz (or_intror Hf) cache_new pos (cached_new w) Hp)) as ([r k'] & w' & pos' & E & -> & Hp' & _ & An).
  eauto 6.
Qed.
Lemma gets_fresh w fuel gs pos : bytes_ok w -> zlen w <= 65280 -> zlen w < Z.of_nat fuel -> 0 <= pos <= zlen w ->
  exists rs k' pos', arun (gets fuel gs cache_new) w pos = (Done (rs, k'), w, pos') /\
    Forall2 (fun g r => exists k1 p1, arun (get fuel g cache_new) w 0 = (Done (r, k1), w, p1)) gs rs.
Proof.
  intros Hw Hz Hf Hp. destruct (gets_arun w fuel gs pos Hw Hz Hf Hp) as (rs & k' & pos' & E & _ & F). exists rs, k', pos'. split; [exact E|].
  clear E. induction F as [|g r gs rs An _ IH]; constructor; auto.
  destruct (get_arun w fuel g cache_new 0 Hw Hz Hf (cached_new w) ltac:(pose proof (zlen_nonneg w); lia)) as (r' & k1 & p1 & E1 & An').
  rewrite (answers_fun _ _ _ _ An An'). eauto.
Qed.
(** Every packet has an answer. *)
Lemma answers_total w g : bytes_ok w -> zlen w <= 65280 -> exists r, answers w g r.
Proof.
  intros Hw Hz. destruct (get_arun w (S (length w)) g cache_new 0 Hw Hz ltac:(unfold zlen; lia) (cached_new w) ltac:(pose proof (zlen_nonneg w); lia)) as (r & _ & _ & _ & An).
  eauto.
Qed.

(** ** Well-formed areas *)
Lemma area_cons i l : area (i :: l) = item_bytes i ++ area l.
Proof. reflexivity. Qed.
Lemma area_finds code items rest : 1 <= code <= 254 -> Forall item_ok items ->
  exists tail, finds code (area items ++ 255 :: rest)
    (match first_opt code items with Some v => Present (zlen v) (v ++ tail) | None => Absent end).
Proof.
  intros Hc. induction 1 as [|i items Hi _ (tail & IH)].
  - exists []. cbn. destruct rest; constructor.
  - rewrite area_cons. destruct i as [|c v]; cbn [first_opt item_bytes app].
    + exists tail. assert (exists b r, area items ++ 255 :: rest = b :: r) as (b & r & E) by (destruct (area items); cbn; eauto).
      rewrite E in *. now apply FPad.
    + destruct Hi as (H1 & H2 & H3). destruct (Z.eqb_spec c code) as [->|Hn].
      * exists (area items ++ 255 :: rest). rewrite <- app_assoc. constructor; lia.
      * exists tail. rewrite <- app_assoc. apply FSkip; [lia|lia|exact Hn|exact IH].
Qed.
Lemma area_value g code items rest f : code_of g = Some code -> Forall item_ok items ->
  finds code (area items ++ 255 :: rest) f -> read_found g f = Ok (opt_answer g (first_opt code items)).
Proof.
  intros Hg Hi Hf. assert (1 <= code <= 254) as Hc by (destruct g; cbn in Hg; try discriminate; injection Hg as <-; lia).
  destruct (area_finds code items rest Hc Hi) as (tail & F). rewrite (finds_fun _ _ _ _ Hf F). clear Hf F f.
  assert (forall v, first_opt code items = Some v -> zlen v <= 255) as Hv.
  { induction Hi as [|i items Hi _ IH]; cbn [first_opt]; [discriminate|]. destruct i as [|c w]; [auto|].
    destruct (c =? code); [|auto]. intros v E. injection E as <-. apply Hi. }
  destruct (first_opt code items) as [v|]; [|destruct g; cbn in Hg; try discriminate; reflexivity].
  specialize (Hv v eq_refl).
  assert (forall n, 0 <= n -> (n <=? zlen (v ++ tail)) = true \/ zlen v < n) as Hl.
  { intros n Hn. rewrite zlen_app. pose proof (zlen_nonneg tail). destruct (Z.lt_ge_cases (zlen v) n); [auto|left; lia]. }
  assert (forall n, exactly n (Present (zlen v) (v ++ tail)) = Ok (if zlen v =? n then Some v else None)) as Ex.
  { intros n. cbn [exactly]. destruct (Z.eqb_spec (zlen v) n) as [<-|]; cbn [negb]; [|reflexivity].
    pose proof (zlen_nonneg v). rewrite ztake_app_l, ztake_all by lia. rewrite zlen_app. pose proof (zlen_nonneg tail).
    destruct (Z.leb_spec (zlen v) (zlen v + zlen tail)); [reflexivity|lia]. }
  assert (first_addr (Present (zlen v) (v ++ tail)) = Ok (if (zlen v mod 4 =? 0) && (4 <=? zlen v) then Some (ztake 4 v) else None)) as Fa.
  { cbn [first_addr]. destruct (_ =? 0); cbn [andb]; [|reflexivity]. destruct (Z.leb_spec 4 (zlen v)); [|reflexivity].
    rewrite ztake_app_l by lia. rewrite zlen_app. pose proof (zlen_nonneg tail). destruct (Z.leb_spec 4 (zlen v + zlen tail)); [reflexivity|lia]. }
  assert (zlen v = 1 -> exists a, v = [a]) as L1.
  { destruct v as [|a [|b v]]; rewrite ?zlen_cons, ?zlen_nil; intros; try lia; eauto. pose proof (zlen_nonneg v). lia. }
  assert (zlen v = 4 -> exists a b c d, v = [a; b; c; d]) as L4.
  { clear. destruct v as [|a [|b [|c [|d [|e v]]]]]; rewrite ?zlen_cons, ?zlen_nil; intros; try lia; eauto 6. pose proof (zlen_nonneg v). lia. }
  assert (4 <= zlen v -> exists a b c d more, v = a :: b :: c :: d :: more) as G4.
  { clear. destruct v as [|a [|b [|c [|d v]]]]; rewrite ?zlen_cons, ?zlen_nil; intros; try lia; eauto 6. }
  assert (forall (x : list Z), zlen x <> 4 -> (match x with [a; b; c; d] => Some [a; b; c; d] | _ => None end) = None) as N4.
  { clear. intros [|a [|b [|c [|d [|e v]]]]] H; try reflexivity. easy. }
  assert (forall (x : list Z), zlen x <> 4 -> (match x with [a; b; c; d] => Some (of_be32 a b c d) | _ => None end) = None) as N4'.
  { clear. intros [|a [|b [|c [|d [|e v]]]]] H; try reflexivity. easy. }
  assert (forall (x : list Z), zlen x < 4 -> (match x with a :: b :: c :: d :: more => if zlen more mod 4 =? 0 then Some [a; b; c; d] else None | _ => None end) = None) as S4.
  { clear. intros [|a [|b [|c [|d v]]]] H; try reflexivity. rewrite !zlen_cons in H. pose proof (zlen_nonneg v). lia. }
  assert (forall n, zlen v =? n = false \/ zlen v = n) as Dec by (intros n; destruct (Z.eqb_spec (zlen v) n); auto).
  destruct g; cbn in Hg; try discriminate; cbn [read_found opt_answer]; rewrite ?Ex, ?Fa.
  - destruct (Dec 1) as [E|E]; [|destruct (L1 E) as (a & ->); reflexivity]. rewrite E. cbn [res_map].
    destruct v as [|a [|b v]]; try reflexivity. discriminate E.
  - destruct (Dec 4) as [E|E]; [rewrite E; cbn [res_map]; rewrite N4 by lia; reflexivity|]. destruct (L4 E) as (a & b & c & d & ->). reflexivity.
  - destruct (Z.leb_spec 4 (zlen v)) as [E|E]; [|rewrite andb_false_r; cbn [res_map]; now rewrite S4 by lia].
    destruct (G4 E) as (a & b & c & d & more & ->). rewrite andb_true_r. rewrite !zlen_cons. replace (zlen more + 1 + 1 + 1 + 1) with (zlen more + 1 * 4) by lia.
    rewrite Z.mod_add by lia. reflexivity.
  - destruct (Z.leb_spec 4 (zlen v)) as [E|E]; [|rewrite andb_false_r; cbn [res_map]; now rewrite S4 by lia].
    destruct (G4 E) as (a & b & c & d & more & ->). rewrite andb_true_r. rewrite !zlen_cons. replace (zlen more + 1 + 1 + 1 + 1) with (zlen more + 1 * 4) by lia.
    rewrite Z.mod_add by lia. reflexivity.
  - destruct (Z.leb_spec 4 (zlen v)) as [E|E]; [|rewrite andb_false_r; cbn [res_map]; now rewrite S4 by lia].
    destruct (G4 E) as (a & b & c & d & more & ->). rewrite andb_true_r. rewrite !zlen_cons. replace (zlen more + 1 + 1 + 1 + 1) with (zlen more + 1 * 4) by lia.
    rewrite Z.mod_add by lia. reflexivity.
  - destruct (Dec 4) as [E|E]; [rewrite E; cbn [res_map opt_map]; rewrite N4' by lia; reflexivity|]. destruct (L4 E) as (a & b & c & d & ->). reflexivity.
  - destruct (Dec 4) as [E|E]; [rewrite E; cbn [res_map opt_map]; rewrite N4' by lia; reflexivity|]. destruct (L4 E) as (a & b & c & d & ->). reflexivity.
  - destruct (Dec 4) as [E|E]; [rewrite E; cbn [res_map opt_map]; rewrite N4' by lia; reflexivity|]. destruct (L4 E) as (a & b & c & d & ->). reflexivity.
Qed.
Lemma answers_value w pre items rest g code r : w = pre ++ area items ++ 255 :: rest -> zlen pre = 240 -> Forall item_ok items ->
  code_of g = Some code -> answers w g r -> r = Ok (opt_answer g (first_opt code items)).
Proof.
  intros Ew Hp Hi Hg An. assert (240 <= zlen w) as Hl by (rewrite Ew, zlen_app; pose proof (zlen_nonneg (area items ++ 255 :: rest)); lia).
  inversion An; subst; try discriminate; try lia. assert (code0 = code) as -> by congruence.
  match goal with H : finds _ (zdrop 240 _) _ |- _ => rewrite zdrop_app_r in H by lia; rewrite Hp in H; rewrite Z.sub_diag, zdrop_0 in H end.
  eapply area_value; eassumption.
Qed.
Lemma gets_values pre items rest fuel gs pos w : w = pre ++ area items ++ 255 :: rest -> zlen pre = 240 -> Forall item_ok items ->
  bytes_ok w -> zlen w <= 65280 -> zlen w < Z.of_nat fuel -> 0 <= pos <= zlen w ->
  exists rs k' pos', arun (gets fuel gs cache_new) w pos = (Done (rs, k'), w, pos') /\
    Forall2 (fun g r => forall code, code_of g = Some code -> r = Ok (opt_answer g (first_opt code items))) gs rs.
Proof.
  intros Ew Hpre Hi Hw Hz Hf Hp. destruct (gets_arun w fuel gs pos Hw Hz Hf Hp) as (rs & k' & pos' & E & _ & F). exists rs, k', pos'. split; [exact E|].
  clear E. induction F as [|g r gs rs An _ IH]; constructor; auto. intros code Hg. eapply answers_value; eassumption.
Qed.

(** ** Writing messages *)
Lemma emits_set a d : 0 <= a <= 65535 -> bytes_ok d -> zlen d <= 65535 -> emits a (set_at a d) d.
Proof.
  intros Ha Hd Hl. apply (emits_seq a (s_seek (SStart a)) [] (s_write_all d) d); [now apply emits_seek|now apply emits_write].
Qed.
Definition client_head (xid : Z) (mac : list Z) : list Z :=
  bootp 1 1 6 0 xid 0 0x8000 (nothing 4) (nothing 4) (nothing 4) (nothing 4) (mac ++ nothing 10) (nothing 64) (nothing 128) ++ cookie.
Lemma client_head_len xid mac : zlen mac = 6 -> zlen (client_head xid mac) = 240.
Proof. intros H. unfold client_head, bootp. rewrite !zlen_app, H, !zlen_be16, !zlen_be32. reflexivity. Qed.
Lemma bytes_zeros n : bytes_ok (zeros n).
Proof. apply Forall_forall. intros x Hx. apply repeat_spec in Hx. subst. unfold is_u8. lia. Qed.
Lemma prepare_emits mac xid : zlen mac = 6 -> bytes_ok mac -> emits 0 (prepare_message mac xid) (client_head xid mac).
Proof.
  intros Hm Bm. pose proof (bytes_zeros 10) as Z10. pose proof (bytes_zeros 64) as Z64. pose proof (bytes_ok_be32 xid) as Bx.
  eapply emits_eq.
  - unfold prepare_message.
    apply emits_seq; [apply emits_set; [lia|apply bytes_check; reflexivity|cbn; lia]|].
    apply emits_seq; [apply emits_set; [cbn; lia|apply bytes_check; reflexivity|cbn; lia]|].
    apply emits_seq; [apply emits_set; [cbn; lia|apply bytes_check; reflexivity|cbn; lia]|].
    apply emits_seq; [apply emits_set; [cbn; lia|apply bytes_check; reflexivity|cbn; lia]|].
    apply emits_seq; [apply emits_set; [cbn; lia|exact Bx|rewrite zlen_be32; lia]|rewrite zlen_be32].
    apply emits_seq; [apply emits_set; [cbn; lia|apply bytes_check; reflexivity|cbn; lia]|].
    apply emits_seq; [apply emits_set; [cbn; lia|apply bytes_check; reflexivity|cbn; lia]|].
    apply emits_seq; [apply emits_set; [cbn; lia|apply bytes_check; reflexivity|cbn; lia]|].
    apply emits_seq; [apply emits_set; [cbn; lia|apply bytes_check; reflexivity|cbn; lia]|].
    apply emits_seq; [apply emits_set; [cbn; lia|apply bytes_check; reflexivity|cbn; lia]|].
    apply emits_seq; [apply emits_set; [cbn; lia|apply bytes_check; reflexivity|cbn; lia]|].
    apply emits_seq; [apply emits_set; [cbn; lia|exact Bm|lia]|rewrite Hm].
    apply emits_seq; [apply emits_write; [exact Z10|cbn; lia]|].
    apply emits_seq; [apply emits_set; [cbn; lia|exact Z64|cbn; lia]|].
    apply emits_seq; [apply emits_set; [cbn; lia|exact Z64|cbn; lia]|].
    apply emits_seq; [apply emits_write; [exact Z64|cbn; lia]|].
    apply emits_seq; [apply emits_set; [cbn; lia|apply bytes_check; reflexivity|cbn; lia]|].
    apply emits_seek. cbn. lia.
  - unfold client_head, bootp. rewrite <- !app_assoc. reflexivity.
Qed.
Lemma opt_emits2 a c v : bytes_ok [c; zlen v] -> bytes_ok v -> zlen v <= 255 ->
  emits a (s_write_all [c; zlen v] ~;; s_write_all v) (area [Opt c v]).
Proof.
  intros Bc Bv L. eapply emits_eq.
  - apply emits_seq; [apply emits_write; [exact Bc|cbn; lia]|apply emits_write; [exact Bv|lia]].
  - cbn. now rewrite app_nil_r.
Qed.
Lemma area_app l m : area (l ++ m) = area l ++ area m.
Proof. unfold area. now rewrite map_app, concat_app. Qed.
Lemma discover_emits mac hostname xid : zlen mac = 6 -> bytes_ok mac -> zlen hostname <= 255 -> bytes_ok hostname ->
  emits 0 (dhcp_discover mac hostname xid) (client_msg xid mac (discover_opts mac hostname)).
Proof.
  intros Hm Bm Hh Bh. pose proof (zlen_nonneg hostname). assert (u8 (zlen hostname) = zlen hostname) as Eu by (unfold u8; lia). eapply emits_eq.
  - unfold dhcp_discover. apply emits_seq; [now apply prepare_emits|]. rewrite client_head_len by exact Hm.
    apply emits_seq; [apply emits_write; [apply bytes_check; reflexivity|cbn; lia]|].
    apply emits_seq; [apply emits_seq; [apply emits_write; [apply bytes_check; reflexivity|cbn; lia]|apply emits_write; [exact Bm|lia]]|].
    apply emits_seq; [unfold set_option_hostname; rewrite Eu; apply opt_emits2; auto; repeat constructor; unfold is_u8, OPT_HOSTNAME; lia|].
    apply emits_write; [apply bytes_check; reflexivity|cbn; lia].
  - unfold client_msg, client_head, discover_opts. rewrite !area_cons. change (area []) with (@nil Z).
    cbn [item_bytes]. replace (zlen (1 :: mac)) with 7 by (rewrite zlen_cons; lia). cbn [app]. rewrite !app_nil_r, <- !app_assoc. cbn [app]. reflexivity.
Qed.
Lemma request_emits mac ip hostname server xid : zlen mac = 6 -> bytes_ok mac -> zlen hostname <= 255 -> bytes_ok hostname ->
  zlen ip = 4 -> bytes_ok ip -> match server with Some s => zlen s = 4 /\ bytes_ok s | None => True end ->
  emits 0 (dhcp_request mac ip hostname server xid) (client_msg xid mac (request_opts mac hostname ip server)).
Proof.
  intros Hm Bm Hh Bh Hi Bi Hs. pose proof (zlen_nonneg hostname). assert (u8 (zlen hostname) = zlen hostname) as Eu by (unfold u8; lia). eapply emits_eq.
  - unfold dhcp_request. apply emits_seq; [now apply prepare_emits|]. rewrite client_head_len by exact Hm.
    apply emits_seq; [apply emits_write; [apply bytes_check; reflexivity|cbn; lia]|].
    apply emits_seq; [apply emits_seq; [apply emits_write; [apply bytes_check; reflexivity|cbn; lia]|apply emits_write; [exact Bm|lia]]|].
    apply emits_seq; [unfold set_option_hostname; rewrite Eu; apply opt_emits2; auto; repeat constructor; unfold is_u8, OPT_HOSTNAME; lia|].
    apply emits_seq; [apply emits_write; [apply bytes_check; reflexivity|cbn; lia]|].
    apply emits_seq; [unfold set_option_requested_ip; rewrite <- Hi; apply opt_emits2; auto; [rewrite Hi; apply bytes_check; reflexivity|lia]|].
    instantiate (1 := match server with Some s => area [Opt 54 s] | None => [] end ++ [255]). destruct server as [s|].
    + destruct Hs as [Hs Bs]. apply emits_seq; [unfold set_option_server_id; rewrite <- Hs; apply opt_emits2; auto; [rewrite Hs; apply bytes_check; reflexivity|lia]|].
      apply emits_write; [apply bytes_check; reflexivity|cbn; lia].
    + apply emits_write; [apply bytes_check; reflexivity|cbn; lia].
  - unfold client_msg, client_head, request_opts. rewrite area_app. rewrite !area_cons. change (area []) with (@nil Z).
    cbn [item_bytes]. replace (zlen (1 :: mac)) with 7 by (rewrite zlen_cons; lia). cbn [app]. rewrite !app_nil_r, <- !app_assoc. cbn [app]. rewrite <- !app_assoc. cbn [app]. destruct server; reflexivity.
Qed.
