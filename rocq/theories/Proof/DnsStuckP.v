(** Datagrams that stop a DNS or mDNS client. *)
From Verif Require Export Proof.DnsRespP Proof.DnsQueryP Proof.DnsMainP Spec.DnsStuck.

(** ** The parser *)
Lemma loop_cut m : bytes_ok m -> zlen m <= 65535 -> forall p, name_cut m p ->
  exists f0, forall fuel, (f0 <= fuel)%nat -> forall labels idx st, 0 <= idx ->
  wpa rd_ok (read_labels_loop fuel labels idx st) m p False (fun r w pos => w = m /\ r = Err UnexpectedEof).
Proof.
  intros Hm Hz. induction 1 as [|p k Hk H Hz'|p hi lo Hh H Hz'|p q Hq Hc (f0 & IH)].
  - exists 1%nat. intros [|fuel] Hf labels idx st Hi; [lia|]. apply iter_eof; auto.
  - exists 2%nat. intros fuel Hf labels idx st Hi. destruct fuel as [|[|fuel]]; [lia|lia|].
    pose proof (has_bounds _ _ _ H) as Hb. change (zlen [k]) with 1 in Hb. pose proof (has_byte _ _ _ H) as B.
    apply iter_label; auto; rewrite ?B; try lia. rewrite Z.mod_small by lia. cbn zeta.
    destruct (Z.ltb_spec (p + 1) (zlen m)).
    + destruct (Z.leb_spec (p + 1 + k) (zlen m)); [lia|]. auto.
    + destruct (Z.leb_spec (p + k) (zlen m)); [|auto]. destruct (store _ _ _) as [l2 i2]. intros _.
      apply iter_eof; [lia|auto].
  - exists 1%nat. intros [|fuel] Hf labels idx st Hi; [lia|].
    pose proof (has_bounds _ _ _ H) as Hb. change (zlen [hi; lo]) with 2 in Hb. apply has_cons in H. destruct H as [H0 H1].
    pose proof (has_byte _ _ _ H0) as B. pose proof (has_byte _ _ _ H1) as B1.
    apply iter_ptr; auto; rewrite ?B, ?B1; try lia. cbn zeta.
    destruct (Z.leb_spec (hi mod 64 * 256 + lo) (zlen m)); [lia|]. auto.
  - exists (S f0). intros [|fuel] Hf labels idx st Hi; [lia|]. destruct Hq as [p k Hk H He|p hi lo Hh H He].
    + pose proof (has_bounds _ _ _ H) as Hb. change (zlen [k]) with 1 in Hb. pose proof (has_byte _ _ _ H) as B.
      apply iter_label; auto; rewrite ?B; try lia.
      destruct (Z.ltb_spec (p + 1) (zlen m)); [|lia]. rewrite Z.mod_small by lia. cbn zeta.
      destruct (Z.leb_spec (p + 1 + k) (zlen m)); [|lia].
      destruct (store labels idx (ztake k (zdrop (p + 1) m))) as [l2 i2] eqn:E. intros _. apply IH; [lia|].
      unfold store in E. pose proof (zlen_nonneg (ztake k (zdrop (p + 1) m))).
      destruct (negb (idx =? 0)); injection E as _ <-; lia.
    + pose proof (has_bounds _ _ _ H) as Hb. change (zlen [hi; lo]) with 2 in Hb. apply has_cons in H. destruct H as [H0 H1].
      pose proof (has_byte _ _ _ H0) as B. pose proof (has_byte _ _ _ H1) as B1.
      apply iter_ptr; auto; rewrite ?B, ?B1; try lia. cbn zeta.
      destruct (Z.leb_spec (hi mod 64 * 256 + lo) (zlen m)); [|lia]. apply IH; [lia|exact Hi].
Qed.
Lemma skip_cut m : bytes_ok m -> zlen m <= 65535 -> forall p k, quests_cut m p k ->
  exists f0, forall fuel, (f0 <= fuel)%nat ->
  wpa rd_ok (skip_questions fuel (Z.to_nat k)) m p False (fun x w pos => w = m /\ x = Err UnexpectedEof).
Proof.
  intros Hm Hz. induction 1 as [p k Hk Hc|p k ls e Hk Hn He Ht|p k q p1 Hk Hq Hc (f1 & IH)].
  - destruct (loop_cut m Hm Hz p Hc) as (f0 & H). exists f0. intros fuel Hf.
    destruct (Z.to_nat k) as [|j] eqn:Ej; [lia|]. cbn [skip_questions]. apply wpa_bindM. unfold read_labels. apply wpa_bindM.
    eapply wpa_conseq; [apply (H fuel Hf [] 0 0); lia|]. intros r w pos (-> & ->). cbn. auto.
  - destruct (read_labels_wpa m p ls e Hm Hz Hn He) as (f0 & H). exists f0. intros fuel Hf. pose proof (name_bounds _ _ _ _ Hn) as Hb.
    destruct (Z.to_nat k) as [|j] eqn:Ej; [lia|]. cbn [skip_questions]. apply wpa_bindM.
    eapply wpa_conseq; [apply (H fuel Hf [])|]. intros x w pos (-> & -> & v & -> & _). cbn beta iota.
    apply wpa_seek_cur; [split; [cbn; unfold is_i16; lia|reflexivity]|].
    destruct (Z.leb_spec (e + 4) (zlen m)); [lia|]. rewrite andb_false_r. auto.
  - destruct Hq as (pn & Hn & Hh & ->). pose proof (has_bounds _ _ _ Hh) as Hb. rewrite zlen_app, !zlen_be16 in Hb.
    destruct (read_labels_wpa m p _ pn Hm Hz Hn ltac:(lia)) as (f0 & H0). exists (Nat.max f0 f1). intros fuel Hf.
    destruct (Z.to_nat k) as [|j] eqn:Ej; [lia|]. cbn [skip_questions]. apply wpa_bindM.
    eapply wpa_conseq; [apply (H0 fuel ltac:(lia) [])|]. intros x w pos (-> & -> & v & -> & _). cbn beta iota.
    apply wpa_seek_cur; [split; [cbn; unfold is_i16; lia|reflexivity]|].
    destruct (Z.leb_spec 0 (pn + 4)), (Z.leb_spec (pn + 4) (zlen m)); try lia. cbn [andb].
    replace j with (Z.to_nat (k - 1)) by lia. apply IH. lia.
Qed.
Lemma body_head m want fuel D Q : bytes_ok m -> zlen m <= 65535 -> response_to m want ->
  (forall h, hdr_qdcount h = question_count m ->
   wpa rd_ok (skip_questions fuel (Z.to_nat (question_count m)) ~;; sret (Some h)) m 12 D Q) ->
  wpa rd_ok (response_body fuel want) m 0 D Q.
Proof.
  intros Hm Hz (L & Hq & Hi) H. unfold response_body. apply wpa_read; [split; [cbn; unfold is_u16, DNS_HEADER_LEN; lia|reflexivity]|].
  unfold DNS_HEADER_LEN. rewrite Z.sub_0_r. change (zdrop 0 m) with m.
  replace (Z.min (zlen m) 12) with 12 by lia. rewrite zlen_ztake. replace (Z.min (Z.max 0 12) (zlen m)) with 12 by lia. cbn [Z.eqb Pos.eqb negb].
  assert (forall i, (i < 12)%nat -> at_ (ztake 12 m) i = at_ m i) as At.
  { intros i Hi'. unfold at_. rewrite <- (ztake_zdrop 12 m) at 2. rewrite app_nth1; [reflexivity|].
    assert (zlen (ztake 12 m) = 12) as L2 by (rewrite zlen_ztake; lia). unfold zlen in L2. lia. }
  assert (hdr_qdcount (ztake 12 m) = question_count m) as Eq by (unfold hdr_qdcount, question_count; now rewrite !At by lia).
  specialize (H _ Eq). rewrite Eq.
  unfold hdr_qr, hdr_id. rewrite !At by lia.
  pose proof (bytes_at m 2 Hm) as B2. unfold is_u8 in B2. rewrite qr_bit by lia.
  destruct (Z.leb_spec 128 (at_ m 2)); [|lia]. cbn [negb].
  replace (match want with Some id => negb (of_be16 (at_ m 0) (at_ m 1) =? id) | None => false end) with false
    by (destruct want; [rewrite Hi, Z.eqb_refl|]; reflexivity).
  exact H.
Qed.
Lemma body_cut m want : bytes_ok m -> zlen m <= 65535 -> cut_response m want ->
  exists f0, forall fuel, (f0 <= fuel)%nat ->
  wpa rd_ok (response_body fuel want) m 0 False (fun x w pos => w = m /\ x = Err UnexpectedEof).
Proof.
  intros Hm Hz (Hr & Hc). destruct (skip_cut m Hm Hz _ _ Hc) as (f0 & H). exists f0. intros fuel Hf.
  apply body_head; auto. intros h _. apply wpa_bindM. eapply wpa_conseq; [apply (H fuel Hf)|].
  intros x w pos (-> & ->). cbn. auto.
Qed.
Lemma body_there m want : bytes_ok m -> zlen m <= 65535 -> response_to m want -> questions_there m ->
  exists f0, forall fuel, (f0 <= fuel)%nat ->
  wpa rd_ok (response_body fuel want) m 0 False (fun x w pos => w = m /\ exists h, x = Ok (Some h)).
Proof.
  intros Hm Hz Hr (qs & p1 & Hq & E). destruct (questions_skip m 12 qs p1 Hm Hz Hq) as (f0 & H). exists f0. intros fuel Hf.
  apply body_head; auto. intros h _. apply wpa_bindM. rewrite <- E. unfold zlen. rewrite Nat2Z.id.
  eapply wpa_conseq; [apply (H fuel Hf)|]. intros x w pos (-> & -> & ->). cbn. split; [reflexivity|]. now exists h.
Qed.
Lemma body_other D fuel want m : bytes_ok m -> zlen m <= 65535 -> ~ response_to m want ->
  wpa rd_ok (response_body fuel want) m 0 D (fun r w pos => w = m /\ r = Ok None).
Proof.
  intros Hm Hz Hn. unfold response_body. apply wpa_read; [split; [cbn; unfold is_u16, DNS_HEADER_LEN; lia|reflexivity]|].
  unfold DNS_HEADER_LEN. rewrite Z.sub_0_r. change (zdrop 0 m) with m. pose proof (zlen_nonneg m).
  rewrite zlen_ztake. destruct (Z.eqb_spec (Z.min (Z.max 0 (Z.min (zlen m) 12)) (zlen m)) 12) as [E|E]; cbn [negb]; [|cbn; auto].
  replace (Z.min (zlen m) 12) with 12 by lia.
  assert (forall i, (i < 12)%nat -> at_ (ztake 12 m) i = at_ m i) as At.
  { intros i Hi. unfold at_. rewrite <- (ztake_zdrop 12 m) at 2. rewrite app_nth1; [reflexivity|].
    assert (zlen (ztake 12 m) = 12) as L by (rewrite zlen_ztake; lia). unfold zlen in L. lia. }
  unfold hdr_qr, hdr_id. rewrite !At by lia.
  pose proof (bytes_at m 2 Hm) as B2. unfold is_u8 in B2. rewrite qr_bit by lia.
  destruct (Z.leb_spec 128 (at_ m 2)); cbn [negb]; [|cbn; auto].
  destruct want as [id|]; [|exfalso; apply Hn; split; [lia|split; [lia|exact I]]].
  destruct (Z.eqb_spec (of_be16 (at_ m 0) (at_ m 1)) id) as [Ei|]; cbn [negb]; [|cbn; auto].
  exfalso. apply Hn. split; [lia|]. split; [lia|exact Ei].
Qed.

Lemma classic_response m want : response_to m want \/ ~ response_to m want.
Proof.
  unfold response_to. destruct (Z_le_dec 12 (zlen m)); [|right; tauto]. destruct (Z_le_dec 128 (at_ m 2)); [|right; tauto].
  destruct want as [id|]; [|left; auto]. destruct (Z.eq_dec (of_be16 (at_ m 0) (at_ m 1)) id); [left; auto|right; tauto].
Qed.

(** ** On the chip *)
Section Chip.
Context (sn : Sn).
Let n := snz sn.

Lemma head_data_ok s d q fs a : udp_view s (d :: q) fs a -> bytes_ok (d_data d) /\ zlen (d_data d) <= 65535.
Proof. intros V. pose proof (head_of _ _ _ _ _ V) as (_ & _ & _ & (_ & _ & _ & O1 & O2) & _). split; [exact O1|lia]. Qed.
Lemma take_cut dbg s d q fs a want : udp_view s (d :: q) fs a -> cut_response (d_data d) want ->
  exists f0, forall fuel, (f0 <= fuel)%nat -> forall s q bufs, udp_view s (d :: q) fs a ->
  wps (take_response fuel (recv_response dbg fuel sn want) bufs) n s False (fun r s' =>
    r = Err UnexpectedEof /\ exists new, udp_view s' (d :: q ++ new) fs a).
Proof.
  intros V0 Hc. destruct (head_data_ok _ _ _ _ _ V0) as (O1 & O2).
  destruct (body_cut _ _ O1 O2 Hc) as (f0 & H). exists f0. intros fuel Hf s1 q1 bufs V.
  unfold take_response, recv_response. apply wps_bindM, wps_bindM.
  eapply wps_mono; [| |apply (ureader_open sn False dbg s1 (d :: q1) fs a V)]; [auto|].
  intros r s2 (n1 & [(_ & C & _)|(c & d' & q' & Eq & -> & R1 & Hp)]); [discriminate C|].
  cbn [app] in Eq. injection Eq as <- <-. cbn [ur_inner]. apply wps_bind.
  eapply wps_mono; [| |eapply (ureading_run sn False s2 c d _ fs a _ _ R1); rewrite Hp; apply (H fuel Hf)]; [auto|].
  intros [x c2] s3 (n2 & R2 & (_ & ->)). cbn [fst snd]. apply wps_ret_prog. split; [reflexivity|].
  exists (n1 ++ n2). rewrite app_assoc. exact (ureading_view _ _ _ _ _ _ _ R2).
Qed.
Lemma take_other dbg fuel s d q fs a want bufs : udp_view s (d :: q) fs a -> ~ response_to (d_data d) want ->
  wps (take_response fuel (recv_response dbg fuel sn want) bufs) n s False (fun r s' =>
    r = Err WouldBlock /\ exists new, udp_view s' (q ++ new) fs a).
Proof.
  intros V Hn. destruct (head_data_ok _ _ _ _ _ V) as (O1 & O2).
  unfold take_response, recv_response. apply wps_bindM, wps_bindM.
  eapply wps_mono; [| |apply (ureader_open sn False dbg s (d :: q) fs a V)]; [auto|].
  intros r s2 (n1 & [(_ & C & _)|(c & d' & q' & Eq & -> & R1 & Hp)]); [discriminate C|].
  cbn [app] in Eq. injection Eq as <- <-. cbn [ur_inner]. apply wps_bind.
  eapply wps_mono; [| |eapply (ureading_run sn False s2 c d _ fs a _ _ R1); rewrite Hp; apply (body_other False fuel want _ O1 O2 Hn)]; [auto|].
  intros [x c2] s3 (n2 & R2 & (_ & ->)). cbn [fst snd]. apply wps_bindM.
  eapply wps_mono; [| |apply (ureading_done sn False s3 c2 d _ fs a R2)]; [auto|].
  intros r4 s4 (-> & n4 & V4). cbn. split; [reflexivity|]. exists (n1 ++ n2 ++ n4). now rewrite !app_assoc.
Qed.
Lemma take_there dbg s d q fs a want : udp_view s (d :: q) fs a -> response_to (d_data d) want -> questions_there (d_data d) ->
  no_loops (d_data d) -> exists f0, forall fuel, (f0 <= fuel)%nat -> forall bufs,
  wps (take_response fuel (recv_response dbg fuel sn want) bufs) n s False (fun r s' =>
    (exists x, r = Ok x) /\ exists new, udp_view s' (q ++ new) fs a).
Proof.
  intros V Hr Ht Hl. destruct (head_data_ok _ _ _ _ _ V) as (O1 & O2).
  destruct (body_there _ _ O1 O2 Hr Ht) as (f0 & H). exists (Nat.max f0 (length (d_data d) + 2)). intros fuel Hf bufs.
  unfold take_response, recv_response. apply wps_bindM, wps_bindM.
  eapply wps_mono; [| |apply (ureader_open sn False dbg s (d :: q) fs a V)]; [auto|].
  intros r s2 (n1 & [(_ & C & _)|(c & d' & q' & Eq & -> & R1 & Hp)]); [discriminate C|].
  cbn [app] in Eq. injection Eq as <- <-. cbn [ur_inner]. apply wps_bind.
  eapply wps_mono; [| |eapply (ureading_run sn False s2 c d _ fs a _ _ R1); rewrite Hp; apply (H fuel ltac:(lia))]; [auto|].
  intros [x c2] s3 (n2 & R2 & (_ & h & ->)). cbn [fst snd]. apply wps_ret_prog. cbn beta iota. apply wps_bind.
  eapply wps_mono; [| |apply (next_rrs_any sn False fuel bufs {| rs_reader := c2; rs_header := h; rs_rr_idx := 0 |} s3 d _ fs a R2)]; [auto| |].
  2: { right. split; [exact Hl|lia]. }
  intros [ys r3] s4 (n3 & R3). cbn [fst snd] in *. apply wps_bindM.
  eapply wps_mono; [| |apply (ureading_done sn False s4 _ d _ fs a R3)]; [auto|].
  intros r4 s5 (-> & n4 & V4). apply wps_ret_prog. split; [eexists; reflexivity|]. exists (n1 ++ n2 ++ n3 ++ n4). now rewrite !app_assoc.
Qed.
(** The fuel depends on the message only. *)
Lemma take_msg dbg m id rcode qs an au ex : bytes_ok m -> zlen m <= 65535 -> response_msg m id rcode qs an au ex ->
  exists f0, forall fuel, (f0 <= fuel)%nat -> forall want bufs, wanted want id -> forall s d q fs a, udp_view s (d :: q) fs a -> d_data d = m ->
  wps (take_response fuel (recv_response dbg fuel sn want) bufs) n s False (fun r s' => exists new x,
    r = Ok x /\ udp_view s' (q ++ new) fs a /\
    decodes rcode_number rcode (dr_code x) /\ dr_answers x = zlen an /\
    records_seen (an ++ au ++ ex) bufs (dr_records x)).
Proof.
  intros O1 O2 Hm. destruct (body_at _ _ _ _ _ _ _ O1 O2 Hm) as (p1 & e & f0 & H). exists f0. intros fuel Hf want bufs Hw s d q fs a V <-.
  destruct (H fuel Hf) as [Ch Hb]. unfold take_response, recv_response. apply wps_bindM, wps_bindM.
  eapply wps_mono; [| |apply (ureader_open sn False dbg s (d :: q) fs a V)]; [auto|].
  intros r s1 (n1 & [(_ & C & _)|(c & d' & q' & Eq & -> & R1 & Hp)]); [discriminate C|].
  cbn [app] in Eq. injection Eq as <- <-. cbn [ur_inner]. apply wps_bind.
  eapply wps_mono; [| |eapply (ureading_run sn False s1 c d _ fs a _ _ R1); rewrite Hp; apply (Hb want Hw)]; [auto|].
  intros [x c2] s2 (n2 & R2 & (_ & P2 & h & -> & E1 & E2 & E3)). cbn [fst snd] in *. apply wps_ret_prog. cbn beta iota.
  apply wps_bind.
  eapply wps_mono; [| |apply (next_rrs_seen sn fuel bufs {| rs_reader := c2; rs_header := h; rs_rr_idx := 0 |} s2 d _ fs a (an ++ au ++ ex) e R2)]; [auto| | |].
  - intros [ys r3] s3 (n3 & R3 & Hs). cbn [fst snd] in *. apply wps_bindM.
    eapply wps_mono; [| |apply (ureading_done sn False s3 _ d _ fs a R3)]; [auto|].
    intros r4 s4 (-> & n4 & V4). apply wps_ret_prog. exists (n1 ++ n2 ++ n3 ++ n4). eexists. split; [reflexivity|].
    split; [rewrite <- !app_assoc in V4; exact V4|]. cbn [dr_code dr_answers dr_records]. auto.
  - cbn [rs_reader]. rewrite P2. exact Ch.
  - cbn [rs_header rs_rr_idx]. exact E3.
Qed.
End Chip.

Lemma next_response dbg sn want c d g q fs a id rcode qs an au ex : udp_view (c_sock c (sn_raw sn)) (d :: g :: q) fs a ->
  ~ response_to (d_data d) want \/ (questions_there (d_data d) /\ no_loops (d_data d)) ->
  response_msg (d_data g) id rcode qs an au ex -> wanted want id ->
  exists f0, forall fuel, (f0 <= fuel)%nat -> forall bufs1 bufs,
  ensures (x <-- take_response fuel (recv_response dbg fuel sn want) bufs1 ;;
           y <-- take_response fuel (recv_response dbg fuel sn want) bufs ;; Ret (x, y)) (sn_raw sn) c (fun r s' =>
    exists new y, snd r = Ok y /\ udp_view s' (q ++ new) fs a /\
    decodes rcode_number rcode (dr_code y) /\ dr_answers y = zlen an /\ records_seen (an ++ au ++ ex) bufs (dr_records y)).
Proof.
  intros V Hd Hg Hw.
  assert (bytes_ok (d_data g) /\ zlen (d_data g) <= 65535) as (G1 & G2).
  { destruct V as (_ & _ & _ & (_ & F) & _). apply Forall_inv_tail in F. apply Forall_inv in F.
    destruct F as (_ & _ & _ & F1 & F2). split; [exact F1|lia]. }
  destruct (take_msg sn dbg _ _ _ _ _ _ _ G1 G2 Hg) as (f2 & H2).
  assert (exists f1, forall fuel, (f1 <= fuel)%nat -> forall bufs,
    wps (take_response fuel (recv_response dbg fuel sn want) bufs) (snz sn) (c_sock c (sn_raw sn)) False (fun r s' =>
      exists new, udp_view s' ((g :: q) ++ new) fs a)) as (f1 & H1).
  { destruct Hd as [Hd|(Ht & Hl)].
    - exists O. intros fuel _ bufs. eapply wps_mono; [| |apply (take_other sn dbg fuel _ d (g :: q) fs a want bufs V Hd)]; [auto|].
      intros r s' (_ & X). exact X.
    - destruct (classic_response (d_data d) want) as [Hr|Hr].
      + destruct (take_there sn dbg _ d (g :: q) fs a want V Hr Ht Hl) as (f1 & H). exists f1. intros fuel Hf bufs.
        eapply wps_mono; [| |apply (H fuel Hf bufs)]; [auto|]. intros r s' (_ & X). exact X.
      + exists O. intros fuel _ bufs. eapply wps_mono; [| |apply (take_other sn dbg fuel _ d (g :: q) fs a want bufs V Hr)]; [auto|].
        intros r s' (_ & X). exact X. }
  exists (Nat.max f1 f2). intros fuel Hf bufs1 bufs. apply ensures_wps. apply wps_bind.
  eapply wps_mono; [| |apply (H1 fuel ltac:(lia) bufs1)]; [auto|]. intros r1 s1 (n1 & V1). cbn [app] in V1. apply wps_bind.
  eapply wps_mono; [| |apply (H2 fuel ltac:(lia) want bufs Hw s1 g (q ++ n1) fs a V1 eq_refl)]; [auto|].
  intros r2 s2 (n2 & y & -> & V2 & Y). apply wps_ret_prog. exists (n1 ++ n2), y. rewrite app_assoc. auto.
Qed.
Lemma polls_cut dbg sn want c d q fs a : udp_view (c_sock c (sn_raw sn)) (d :: q) fs a -> cut_response (d_data d) want ->
  exists f0, forall rs c', polls f0 (fun fuel => recv_response dbg fuel sn want) c rs c' ->
  Forall (fun r => r = Err UnexpectedEof) rs /\ exists new, udp_view (c_sock c' (sn_raw sn)) (d :: q ++ new) fs a.
Proof.
  intros V Hc. destruct (take_cut sn dbg _ d q fs a want V Hc) as (f0 & H). exists f0. intros rs c' P. revert q V.
  induction P as [c|fuel bufs sch c r sch' c1 rs c2 Hf Hs Hr P IH]; intros q V.
  - split; [constructor|]. exists []. now rewrite app_nil_r.
  - specialize (H fuel Hf _ _ bufs V). apply ensures_wps in H. destruct (H sch Hs) as (r' & sch1 & c1' & E & -> & n1 & V1).
    rewrite Hr in E. injection E as -> <- <-. destruct (IH _ V1) as (F & n2 & V2).
    split; [constructor; [reflexivity|exact F]|]. exists (n1 ++ n2). now rewrite app_assoc.
Qed.


(** ** Whose responses are taken *)
Lemma response_taken dbg fuel cl c q fs a id sch x sch' c' : udp_view (c_sock c (sn_raw (dc_sn cl))) q fs a -> no_faults sch ->
  run (dns_response dbg fuel cl id) sch c = (Done (Ok x), sch', c') ->
  exists new d q', q ++ new = d :: q' /\ udp_view (c_sock c' (sn_raw (dc_sn cl))) (d :: q') fs a /\ answers_query (d_data d) id.
Proof.
  intros V Hs Hr.
  assert (wps (dns_response dbg fuel cl id) (snz (dc_sn cl)) (c_sock c (snz (dc_sn cl))) True (fun r s' => forall x, r = Ok x ->
    exists new d q', q ++ new = d :: q' /\ udp_view s' (d :: q') fs a /\ answers_query (d_data d) id)) as W.
  { unfold dns_response, recv_response. apply wps_bindM.
    eapply wps_mono; [| |apply (ureader_open (dc_sn cl) True dbg _ q fs a V)]; [auto|].
    intros r s1 (n1 & [(-> & _ & V1)|(c1 & d & q' & Eq & -> & R1 & Hp)]); [discriminate|].
    cbn [ur_inner]. apply wps_bind. destruct (ureading_data _ _ _ _ _ _ _ R1) as (B1 & B2 & B3).
    destruct (classic_response (d_data d) (Some id)) as [H|H].
    - eapply wps_mono; [| |eapply (ureading_run _ True s1 c1 d _ fs a _ _ R1); apply (body_any (d_data d) True fuel (Some id) _ B1 B2 B3)]; [auto| |].
      2: { now left. }
      intros [y c2] s2 (n2 & R2 & _). cbn [fst snd].
      destruct y as [[h|]|e].
      + apply wps_ret_prog. intros _ _. exists (n1 ++ n2), d, (q' ++ n2). rewrite app_assoc, Eq. split; [reflexivity|].
        split; [exact (ureading_view _ _ _ _ _ _ _ R2)|exact H].
      + apply wps_bindM. eapply wps_mono; [| |apply (ureading_done _ True s2 c2 d _ fs a R2)]; [auto|].
        intros r s3 (-> & _). apply wps_ret_prog. discriminate.
      + apply wps_ret_prog. discriminate.
    - eapply wps_mono; [| |eapply (ureading_run _ True s1 c1 d _ fs a _ _ R1); rewrite Hp; apply (body_other True fuel (Some id) _ B1 B2 H)]; [auto|].
      intros [y c2] s2 (n2 & R2 & (_ & ->)). cbn [fst snd].
      apply wps_bindM. eapply wps_mono; [| |apply (ureading_done _ True s2 c2 d _ fs a R2)]; [auto|].
      intros r s3 (-> & _). apply wps_ret_prog. discriminate. }
  pose proof (wps_sound _ (snz (dc_sn cl)) c True _ sch ltac:(apply snz_range) W Hs) as R. rewrite Hr in R. cbn in R.
  exact (proj1 R x eq_refl).
Qed.
