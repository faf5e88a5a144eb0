(** Termination of the DNS parser: C26. *)
From Verif Require Export Proof.DnsNameP.

Lemma hop_range m p q : bytes_ok m -> hop m p q -> 0 <= p < zlen m /\ 0 <= q <= zlen m.
Proof.
  intros Hm [p' k Hk H Hz|p' hi lo Hh H Hz].
  - apply has_bounds in H. change (zlen [k]) with 1 in H. lia.
  - assert (is_u8 lo) as Hlo.
    { destruct H as (a & b & -> & _). apply bytes_ok_app in Hm. destruct Hm as [_ Hm].
      apply bytes_ok_app in Hm. destruct Hm as [Hm _]. apply Forall_inv_tail in Hm. now apply Forall_inv in Hm. }
    apply has_bounds in H. change (zlen [hi; lo]) with 2 in H. unfold is_u8 in Hlo. lia.
Qed.
Lemma loops_hop m p : name_loops m p -> exists p', hop m p p' /\ name_loops m p'.
Proof.
  intros (q & H1 & H2). destruct H1 as [|p' q Hp Hq].
  - assert (forall b, clos_trans_1n Z (hop m) p b -> exists y, hop m p y /\ clos_refl_trans_1n Z (hop m) y b) as G.
    { intros b [y Hy|y z Hy Hz]; exists y; (split; [exact Hy|]); [constructor|].
      clear - Hz. induction Hz; [econstructor; [eassumption|constructor]|econstructor; eassumption]. }
    destruct (G _ H2) as (y & Hy & Hr). exists y. split; [exact Hy|]. exists p. auto.
  - exists p'. split; [exact Hp|]. now exists q.
Qed.
Lemma hop_loops m p p' : hop m p p' -> name_loops m p' -> name_loops m p.
Proof. intros H (q & H1 & H2). exists q. split; [econstructor; eassumption|exact H2]. Qed.

(** A name that loops keeps [read_labels] busy for ever. *)
Lemma loop_diverges m : bytes_ok m -> zlen m <= 65535 -> forall fuel labels idx st p, name_loops m p -> 0 <= idx ->
  wpa rd_ok (read_labels_loop fuel labels idx st) m p True (fun _ _ _ => False).
Proof.
  intros Hm Hz. induction fuel as [|fuel IH]; intros labels idx st p Hl Hi; [exact I|].
  destruct (loops_hop _ _ Hl) as (p' & Hh & Hl'). destruct Hh as [p k Hk H He|p hi lo Hh H He].
  - pose proof (has_bounds _ _ _ H) as Hb. change (zlen [k]) with 1 in Hb. pose proof (has_byte _ _ _ H) as B.
    apply iter_label; auto; rewrite ?B; try lia.
    destruct (Z.ltb_spec (p + 1) (zlen m)); [|lia]. rewrite Z.mod_small by lia. cbn zeta.
    destruct (Z.leb_spec (p + 1 + k) (zlen m)); [|lia].
    destruct (store labels idx (ztake k (zdrop (p + 1) m))) as [l2 i2] eqn:E. intros _. apply IH; [exact Hl'|].
    unfold store in E. pose proof (zlen_nonneg (ztake k (zdrop (p + 1) m))).
    destruct (negb (idx =? 0)); injection E as _ <-; lia.
  - pose proof (has_bounds _ _ _ H) as Hb. change (zlen [hi; lo]) with 2 in Hb. apply has_cons in H. destruct H as [H0 H1].
    pose proof (has_byte _ _ _ H0) as B. pose proof (has_byte _ _ _ H1) as B1.
    apply iter_ptr; auto; rewrite ?B, ?B1; try lia. cbn zeta.
    destruct (Z.leb_spec (hi mod 64 * 256 + lo) (zlen m)); [|lia]. now apply IH.
Qed.
Lemma wpa_diverges {A} ok (p : sprog A) : forall w pos, wpa ok p w pos True (fun _ _ _ => False) ->
  fst (fst (arun p w pos)) = Diverged.
Proof.
  intros w pos H. destruct (wpa_arun_div _ _ _ _ _ H) as [(w' & pos' & ->)|(a & w' & pos' & _ & [])]. reflexivity.
Qed.
Lemma read_labels_diverges m p buf fuel : bytes_ok m -> zlen m <= 65535 -> name_loops m p ->
  fst (fst (arun (read_labels fuel buf) m p)) = Diverged.
Proof.
  intros Hm Hz Hl. apply (wpa_diverges rd_ok). unfold read_labels. apply wpa_bindM.
  eapply wpa_mono; [| | |apply (loop_diverges m Hm Hz fuel buf 0 0 p Hl ltac:(lia))]; auto. contradiction.
Qed.

(** ** Otherwise it is done after at most one iteration per byte *)
Definition parsed {A} (m : list Z) (r : res err A) (w : list Z) (pos : Z) : Prop :=
  w = m /\ 0 <= pos <= zlen m /\ (r = Err UnexpectedEof \/ exists a, r = Ok a).
Definition visits (m : list Z) (vs : list Z) (p : Z) : Prop :=
  NoDup vs /\ Forall (fun v => clos_trans_1n Z (hop m) v p) vs.
Lemma visits_in m vs p : bytes_ok m -> visits m vs p -> Forall (fun v => 0 <= v < zlen m) vs.
Proof.
  intros Hm [_ H]. eapply Forall_impl; [|exact H]. intros v [q Hq|q z Hq _]; apply (hop_range _ _ _ Hm Hq).
Qed.
Lemma pigeon (N : nat) vs : NoDup vs -> Forall (fun v => 0 <= v < Z.of_nat N) vs -> (length vs <= N)%nat.
Proof.
  intros Hn Hf. assert (length vs <= length (zseq 0 N))%nat as H.
  { apply NoDup_incl_length; [exact Hn|]. intros v Hv. rewrite Forall_forall in Hf. apply Hf in Hv.
    clear - Hv. assert (forall N a, a <= v < a + Z.of_nat N -> In v (zseq a N)) as G.
    { intros N'. induction N' as [|N' IH]; intros a Ha; [lia|]. cbn. destruct (Z.eq_dec a v); [now left|right; apply IH; lia]. }
    apply G. lia. }
  assert (forall N a, length (zseq a N) = N) as L by (induction N0; cbn; intros; auto).
  now rewrite L in H.
Qed.
Lemma trans_step m v p q : clos_trans_1n Z (hop m) v p -> hop m p q -> clos_trans_1n Z (hop m) v q.
Proof.
  induction 1 as [x y H|x y z H _ IH]; intros Hq.
  - eapply Relation_Operators.t1n_trans; [exact H|]. now constructor.
  - eapply Relation_Operators.t1n_trans; [exact H|auto].
Qed.
Lemma visits_step m vs p q : visits m vs p -> ~ name_loops m p -> hop m p q -> visits m (p :: vs) q.
Proof.
  intros [V1 V2] Hl Hq. split.
  - constructor; [|exact V1]. intros Hin. apply Hl. exists p. split; [constructor|].
    rewrite Forall_forall in V2. now apply V2.
  - constructor; [now constructor|]. eapply Forall_impl; [|exact V2]. intros v Hv. exact (trans_step m v p q Hv Hq).
Qed.

Definition loop_post (m : list Z) (r : res err (list Z * Z * Z)) (w : list Z) (pos : Z) : Prop :=
  w = m /\ 0 <= pos <= zlen m /\ match r with Ok (_, _, st) => 0 <= st <= zlen m | Err e => e = UnexpectedEof end.
(** [D] is required when the fuel runs out. *)
Lemma loop_any m (D : Prop) : bytes_ok m -> zlen m <= 65535 -> forall fuel vs labels idx st p,
  0 <= p <= zlen m -> 0 <= idx -> 0 <= st <= zlen m ->
  (D \/ (visits m vs p /\ ~ name_loops m p /\ (length m + 2 <= fuel + length vs)%nat)) ->
  wpa rd_ok (read_labels_loop fuel labels idx st) m p D (loop_post m).
Proof.
  intros Hm Hz. induction fuel as [|fuel IH]; intros vs labels idx st p Hp Hi Hs Hd.
  - destruct Hd as [Hd|(V & _ & Hf)]; [exact Hd|exfalso]. pose proof (visits_in _ _ _ Hm V) as Hv. unfold zlen in Hv.
    pose proof (pigeon _ _ (proj1 V) Hv). lia.
  - destruct (Z.eq_dec p (zlen m)) as [->|Hne].
    { apply iter_eof; [reflexivity|]. split; [reflexivity|]. split; [lia|reflexivity]. }
    pose proof (bytes_at m (Z.to_nat p) Hm) as B0. unfold is_u8 in B0.
    assert (forall q, hop m p q -> D \/ (visits m (p :: vs) q /\ ~ name_loops m q /\ (length m + 2 <= fuel + length (p :: vs))%nat)) as Step.
    { intros q Hq. destruct Hd as [Hd|(V & Nl & Hf)]; [now left|right]. split; [now apply visits_step|].
      split; [intros C; apply Nl; eapply hop_loops; eassumption|]. cbn [length]. lia. }
    destruct (Z.lt_ge_cases (p + 1) (zlen m)) as [H1|H1].
    + destruct (Z.lt_ge_cases (at_ m (Z.to_nat p)) 64) as [Hb|Hb].
      * destruct (Z.eq_dec (at_ m (Z.to_nat p)) 0) as [Z0|Z0].
        { apply iter_end; auto; rewrite ?Z0; try lia. split; [reflexivity|]. split; [destruct (_ <? _); lia|exact Hs]. }
        apply iter_label; auto; try lia. destruct (Z.ltb_spec (p + 1) (zlen m)); [|lia]. cbn zeta.
        rewrite Z.mod_small by lia. set (k := at_ m (Z.to_nat p)) in *.
        destruct (Z.leb_spec (p + 1 + k) (zlen m)); [|split; [reflexivity|]; split; [lia|reflexivity]].
        destruct (store labels idx (ztake k (zdrop (p + 1) m))) as [l2 i2] eqn:E. intros _. apply (IH (p :: vs)); auto; try lia.
        { unfold store in E. pose proof (zlen_nonneg (ztake k (zdrop (p + 1) m))). destruct (negb (idx =? 0)); injection E as _ <-; lia. }
        apply Step. apply HopLabel; [lia| |lia]. unfold k. apply byte_has. lia.
      * pose proof (bytes_at m (Z.to_nat (p + 1)) Hm) as B1. unfold is_u8 in B1.
        apply iter_ptr; auto; try lia. cbn zeta. set (q := at_ m (Z.to_nat p) mod 64 * 256 + at_ m (Z.to_nat (p + 1))) in *.
        assert (0 <= q) by (unfold q; lia).
        destruct (Z.leb_spec q (zlen m)); [|split; [reflexivity|]; split; [lia|reflexivity]].
        apply (IH (p :: vs)); auto; [destruct (st =? 0); lia|]. apply Step. apply HopPtr; [lia| |exact H0].
        apply has_cons. split; apply byte_has; lia.
    + destruct (Z.eq_dec (at_ m (Z.to_nat p) mod 64) 0) as [Z0|Z0].
      { apply iter_end; auto; try lia. split; [reflexivity|]. split; [destruct (_ <? _); lia|exact Hs]. }
      apply iter_label; auto; try lia. destruct (Z.ltb_spec (p + 1) (zlen m)); [lia|]. cbn zeta.
      set (k := at_ m (Z.to_nat p) mod 64) in *. assert (0 <= k) by (unfold k; lia).
      destruct (Z.leb_spec (p + k) (zlen m)); [|split; [reflexivity|]; split; [lia|reflexivity]].
      assert (p + k = zlen m) as -> by lia.
      destruct (store labels idx (ztake k (zdrop p m))) as [l2 i2]. intros _.
      destruct fuel as [|fuel].
      * destruct Hd as [Hd|(V & Nl & Hf)]; [exact Hd|exfalso]. pose proof (visits_in _ _ _ Hm V) as Hv. unfold zlen in Hv.
        pose proof (pigeon _ _ (proj1 V) Hv). lia.
      * apply iter_eof; [reflexivity|]. split; [reflexivity|]. split; [lia|reflexivity].
Qed.
Definition fuel_for (D : Prop) (m : list Z) (fuel : nat) : Prop := D \/ (no_loops m /\ (length m + 2 <= fuel)%nat).

Lemma parsed_bind {A B} m D (p : SM A) (f : A -> SM B) pos :
  wpa rd_ok p m pos D (parsed m) -> (forall a pos', 0 <= pos' <= zlen m -> wpa rd_ok (f a) m pos' D (parsed m)) ->
  wpa rd_ok (sbindM p f) m pos D (parsed m).
Proof.
  intros H1 H2. apply wpa_bindM. eapply wpa_conseq; [exact H1|]. intros r w pos' (-> & Hp & [->|(a & ->)]).
  - split; [reflexivity|]. split; [exact Hp|now left].
  - now apply H2.
Qed.
Lemma parsed_ret {A} m (a : A) pos D : 0 <= pos <= zlen m -> wpa rd_ok (sret a) m pos D (parsed m).
Proof. intros H. split; [reflexivity|]. split; [exact H|right; now exists a]. Qed.
Lemma parsed_eof {A} m pos D : 0 <= pos <= zlen m -> wpa rd_ok (sfail (A := A) UnexpectedEof) m pos D (parsed m).
Proof. intros H. split; [reflexivity|]. split; [exact H|now left]. Qed.
Lemma parsed_seek {A} m pos D q (f : unit -> SM A) : 0 <= pos <= zlen m -> 0 <= q <= 65535 ->
  (0 <= q <= zlen m -> wpa rd_ok (f tt) m q D (parsed m)) -> wpa rd_ok (sbindM (s_seek (SStart q)) f) m pos D (parsed m).
Proof.
  intros Hp Hq H. apply wpa_seek_start; [split; [cbn; unfold is_u16; lia|reflexivity]|lia|].
  destruct (Z.leb_spec q (zlen m)); [apply H; lia|now apply parsed_eof].
Qed.
Lemma parsed_skip {A} m pos D q (f : unit -> SM A) : 0 <= pos <= zlen m -> 0 <= q <= 32767 ->
  (forall pos', 0 <= pos' <= zlen m -> wpa rd_ok (f tt) m pos' D (parsed m)) -> wpa rd_ok (sbindM (s_seek (SCurrent q)) f) m pos D (parsed m).
Proof.
  intros Hp Hq H. apply wpa_seek_cur; [split; [cbn; unfold is_i16; lia|reflexivity]|].
  destruct ((0 <=? pos + q) && (pos + q <=? zlen m)) eqn:E; [apply H; lia|now apply parsed_eof].
Qed.
Lemma parsed_exact {A} m pos D n (f : list Z -> SM A) : bytes_ok m -> 0 <= pos <= zlen m -> 0 <= n <= 65535 ->
  (forall d pos', zlen d = n -> bytes_ok d -> 0 <= pos' <= zlen m -> wpa rd_ok (f d) m pos' D (parsed m)) -> wpa rd_ok (sbindM (s_read_exact n) f) m pos D (parsed m).
Proof.
  intros Hm Hp Hn H. apply wpa_read_exact; [split; [cbn; unfold is_u16; lia|reflexivity]|].
  destruct (Z.leb_spec n (zlen m - pos)); [|now apply parsed_eof].
  apply H; [rewrite zlen_ztake, zlen_zdrop; lia| |lia]. apply bytes_ok_ztake, bytes_ok_zdrop, Hm.
Qed.
Lemma read_labels_any m D fuel buf p : bytes_ok m -> zlen m <= 65535 -> 0 <= p <= zlen m -> fuel_for D m fuel ->
  wpa rd_ok (read_labels fuel buf) m p D (parsed m).
Proof.
  intros Hm Hz Hp Hf. unfold read_labels. apply wpa_bindM.
  eapply wpa_conseq; [apply (loop_any m D Hm Hz fuel [] buf 0 0 p)|]; try lia.
  { destruct Hf as [Hf|[Nl Hf]]; [now left|right]. split; [split; constructor|]. split; [apply Nl|cbn; lia]. }
  intros [[[l' idx'] st']|e] w pos (-> & Hq & H); [|subst e; split; [reflexivity|]; split; [exact Hq|now left]].
  destruct (negb (st' =? 0)).
  - apply parsed_seek; [exact Hq|lia|]. intros Hs. destruct (_ <=? _); now apply parsed_ret.
  - apply wpa_sret. destruct (_ <=? _); now apply parsed_ret.
Qed.
Lemma read_u16_any m D p : bytes_ok m -> 0 <= p <= zlen m -> wpa rd_ok read_u16 m p D (fun r w pos => parsed m r w pos /\ (forall v, r = Ok v -> is_u16 v)).
Proof.
  intros Hm Hp. unfold read_u16. apply wpa_read_exact; [split; [cbn; unfold is_u16; lia|reflexivity]|].
  destruct (Z.leb_spec 2 (zlen m - p)) as [L|L].
  - split; [apply (parsed_ret m _ (p + 2) D); lia|]. intros v E. injection E as <-.
    assert (bytes_ok (ztake 2 (zdrop p m))) as B by (apply bytes_ok_ztake, bytes_ok_zdrop, Hm).
    pose proof (bytes_at _ 0 B). pose proof (bytes_at _ 1 B). unfold is_u8, is_u16, of_be16 in *. lia.
  - split; [apply (parsed_eof m p D); lia|discriminate].
Qed.
Lemma parsed_u16 {A} m pos D (f : Z -> SM A) : bytes_ok m -> 0 <= pos <= zlen m ->
  (forall v pos', is_u16 v -> 0 <= pos' <= zlen m -> wpa rd_ok (f v) m pos' D (parsed m)) -> wpa rd_ok (sbindM read_u16 f) m pos D (parsed m).
Proof.
  intros Hm Hp H. apply wpa_bindM. eapply wpa_conseq; [apply (read_u16_any m D pos Hm Hp)|].
  intros r w pos' ((-> & Hp' & [->|(v & ->)]) & Hv).
  - split; [reflexivity|]. split; [exact Hp'|now left].
  - apply H; auto.
Qed.
Lemma read_rr_any m D fuel buf p : bytes_ok m -> zlen m <= 65535 -> 0 <= p <= zlen m -> fuel_for D m fuel ->
  wpa rd_ok (read_rr fuel buf) m p D (parsed m).
Proof.
  intros Hm Hz Hp Hf. unfold read_rr. apply parsed_bind; [now apply read_labels_any|]. intros name p1 H1.
  apply parsed_u16; auto. intros qt p2 _ H2. apply parsed_u16; auto. intros cl p3 _ H3.
  apply parsed_bind. { unfold read_u32. apply parsed_exact; auto; [lia|]. intros d pos' _ _ H'. now apply parsed_ret. }
  intros ttl p4 H4. apply parsed_u16; auto. intros rdlen p5 Hr H5. apply wpa_position.
  apply parsed_bind.
  { destruct (Qtype_try_from qt) as [[]|]; try (now apply parsed_ret).
    - apply parsed_exact; auto; [lia|]. intros d pos' _ _ H'. now apply parsed_ret.
    - apply parsed_u16; auto. intros a q1 _ K1. apply parsed_u16; auto. intros b q2 _ K2. apply parsed_u16; auto.
      intros c q3 _ K3. now apply parsed_ret. }
  intros rd p6 H6. destruct (negb (rdlen =? 0)).
  - unfold is_u16 in Hr. apply parsed_seek; [exact H6|lia|]. intros H. now apply parsed_ret.
  - apply wpa_sret. now apply parsed_ret.
Qed.
Lemma next_rr_any m D fuel h buf i p : bytes_ok m -> zlen m <= 65535 -> 0 <= p <= zlen m -> fuel_for D m fuel ->
  wpa rd_ok (next_rr_s fuel h buf i) m p D (fun _ w pos => w = m /\ 0 <= pos <= zlen m).
Proof.
  intros Hm Hz Hp Hf. unfold next_rr_s. destruct (_ <=? _); [cbn; auto|]. apply wpa_bind.
  eapply wpa_conseq; [apply (read_rr_any m D fuel buf p Hm Hz Hp Hf)|]. intros r w pos (-> & H & _). cbn. auto.
Qed.
Lemma skip_any m D fuel n : bytes_ok m -> zlen m <= 65535 -> fuel_for D m fuel -> forall p, 0 <= p <= zlen m ->
  wpa rd_ok (skip_questions fuel n) m p D (parsed m).
Proof.
  intros Hm Hz Hf. induction n as [|n IH]; intros p Hp; cbn [skip_questions]; [now apply parsed_ret|].
  apply parsed_bind; [now apply read_labels_any|]. intros _ p1 H1. apply parsed_skip; [exact H1|lia|exact IH].
Qed.
Lemma body_any m D fuel want p : bytes_ok m -> zlen m <= 65535 -> 0 <= p <= zlen m -> fuel_for D m fuel ->
  wpa rd_ok (response_body fuel want) m p D (parsed m).
Proof.
  intros Hm Hz Hp Hf. unfold response_body. apply wpa_read; [split; [cbn; unfold is_u16, DNS_HEADER_LEN; lia|reflexivity]|].
  set (h := ztake _ _). set (p1 := p + _). assert (0 <= p1 <= zlen m) as H1 by (unfold p1, DNS_HEADER_LEN; lia).
  destruct (negb (zlen h =? DNS_HEADER_LEN)); [now apply parsed_ret|].
  destruct (negb (hdr_qr h)); [now apply parsed_ret|].
  destruct (match want with Some id => negb (hdr_id h =? id) | None => false end); [now apply parsed_ret|].
  apply parsed_bind; [now apply skip_any|]. intros _ p2 H2. now apply parsed_ret.
Qed.
