(** DNS responses: C26, C27 and C65. *)
From Verif Require Export Proof.DgramP Proof.DnsTermP.

(** ** Reading fields *)
Lemma wpa_take {A} m p l k D (f : list Z -> SM A) Q : has m p l -> k = zlen l -> k <= 65535 ->
  wpa rd_ok (f l) m (p + k) D Q -> wpa rd_ok (sbindM (s_read_exact k) f) m p D Q.
Proof.
  intros Hh -> Hk H. pose proof (has_bounds _ _ _ Hh) as Hb. pose proof (zlen_nonneg l).
  apply wpa_read_exact; [split; [cbn; unfold is_u16; lia|reflexivity]|].
  destruct (Z.leb_spec (zlen l) (zlen m - p)); [|lia]. now rewrite (has_take _ _ _ _ Hh eq_refl).
Qed.
Lemma wpa_u16 {A} m p v D (f : Z -> SM A) Q : has m p (be16 v) -> is_u16 v ->
  wpa rd_ok (f v) m (p + 2) D Q -> wpa rd_ok (sbindM read_u16 f) m p D Q.
Proof.
  intros Hh Hv H. unfold is_u16 in Hv. apply wpa_bindM. unfold read_u16.
  apply (wpa_take m p (be16 v)); [exact Hh|now rewrite zlen_be16|lia|]. cbn [wpa sret].
  change (at_ (be16 v) 0) with ((v / 256) mod 256). change (at_ (be16 v) 1) with (v mod 256).
  now rewrite of_be16_hi_lo.
Qed.
Lemma of_be32_be32 v : is_u32 v -> of_be32 (at_ (be32 v) 0) (at_ (be32 v) 1) (at_ (be32 v) 2) (at_ (be32 v) 3) = v.
Proof. unfold is_u32, be32, of_be32, at_. cbn [nth]. lia. Qed.
Lemma zlen_be32 v : zlen (be32 v) = 4.
Proof. reflexivity. Qed.

Lemma qtype_decodes v : decodes type_number v (Qtype_try_from v).
Proof.
  unfold Qtype_try_from, decodes.
  repeat (match goal with |- context [v =? Qtype_val ?k] =>
    destruct (Z.eqb_spec v (Qtype_val k)) as [->|?]; [left; exists k; split; reflexivity|] end).
  right. split; [reflexivity|]. intros []; cbn in *; congruence.
Qed.
Lemma qtype_case v : (v = 1 -> Qtype_try_from v = Ok QA) /\ (v = 33 -> Qtype_try_from v = Ok QSVR) /\
  (v <> 1 -> v <> 33 -> forall {B} (a b c : B), match Qtype_try_from v with Ok QA => a | Ok QSVR => b | _ => c end = c).
Proof.
  split; [intros ->; reflexivity|]. split; [intros ->; reflexivity|]. intros H1 H2 B a b c.
  destruct (qtype_decodes v) as [(q & -> & Hq)|(-> & _)]; [|reflexivity]. destruct q; cbn in Hq; try reflexivity; congruence.
Qed.

Lemma read_rr_at m p r e : bytes_ok m -> zlen m <= 65535 -> record_at m p r e ->
  exists f0, forall fuel, (f0 <= fuel)%nat -> forall buf,
  wpa rd_ok (read_rr fuel buf) m p False (fun x w pos => w = m /\ pos = e /\
    exists rr, x = Ok rr /\ record_seen r (zlen buf) rr).
Proof.
  intros Hm Hz ((T1 & T2 & T3 & T4 & Ta & Ts) & p1 & Hn & Hh & ->).
  pose proof (has_bounds _ _ _ Hh) as Hb. rewrite !zlen_app, !zlen_be16, zlen_be32 in Hb. pose proof (zlen_nonneg (r_data r)) as Hr.
  destruct (read_labels_wpa m p _ p1 Hm Hz Hn ltac:(lia)) as (f0 & Hl). exists f0. intros fuel Hf buf.
  apply has_app in Hh. destruct Hh as [Ht Hh]. rewrite zlen_be16 in Hh.
  apply has_app in Hh. destruct Hh as [Hc Hh]. rewrite zlen_be16 in Hh.
  apply has_app in Hh. destruct Hh as [Htl Hh]. rewrite zlen_be32 in Hh.
  apply has_app in Hh. destruct Hh as [Hrl Hrd]. rewrite zlen_be16 in Hrd.
  unfold read_rr. apply wpa_bindM. eapply wpa_conseq; [apply (Hl fuel Hf buf)|].
  intros x w pos (-> & -> & name & -> & Hname). cbn beta iota.
  apply (wpa_u16 m p1 (r_type r)); auto. apply (wpa_u16 m (p1 + 2) (r_class r)); auto.
  apply wpa_bindM. unfold read_u32. apply (wpa_take m (p1 + 2 + 2) (be32 (r_ttl r))); [exact Htl|now rewrite zlen_be32|lia|].
  cbn [wpa sret]. rewrite of_be32_be32 by exact T3.
  apply (wpa_u16 m (p1 + 2 + 2 + 4) (zlen (r_data r))); [exact Hrl|unfold is_u16; lia|]. apply wpa_position.
  replace (p1 + 2 + 2 + 4 + 2) with (p1 + 10) in * by lia.
  assert (forall rd pos, rd = (if r_type r =? 1 then RD_A (r_data r) else if r_type r =? 33 then
       RD_SVR (of_be16 (at_ (r_data r) 0) (at_ (r_data r) 1)) (of_be16 (at_ (r_data r) 2) (at_ (r_data r) 3))
              (of_be16 (at_ (r_data r) 4) (at_ (r_data r) 5)) else RD_Unsupported) ->
    (zlen (r_data r) = 0 -> pos = p1 + 10) ->
    wpa rd_ok ((if negb (zlen (r_data r) =? 0) then s_seek (SStart (Z.min 65535 (p1 + 10 + zlen (r_data r)))) else sret tt) ~;;
      sret {| rr_name := name; rr_qtype := Qtype_try_from (r_type r); rr_class := Qclass_try_from (r_class r); rr_ttl := r_ttl r; rr_rdata := rd |})
      m pos False (fun x w pos => w = m /\ pos = p1 + 10 + zlen (r_data r) /\ exists rr, x = Ok rr /\ record_seen r (zlen buf) rr)) as Fin.
  { intros rd pos Hrd' Hpos. destruct (Z.eqb_spec (zlen (r_data r)) 0) as [Z0|Z0]; cbn [negb].
    - apply wpa_sret. rewrite Hpos by exact Z0. split; [reflexivity|]. split; [lia|]. eexists. split; [reflexivity|].
      split; [exact Hname|]. split; [apply qtype_decodes|]. split; [reflexivity|]. split; [reflexivity|exact Hrd'].
    - rewrite Z.min_r by lia. apply wpa_seek_start; [split; [cbn; unfold is_u16; lia|reflexivity]|lia|].
      destruct (Z.leb_spec (p1 + 10 + zlen (r_data r)) (zlen m)); [|lia].
      split; [reflexivity|]. split; [reflexivity|]. eexists. split; [reflexivity|].
      split; [exact Hname|]. split; [apply qtype_decodes|]. split; [reflexivity|]. split; [reflexivity|exact Hrd']. }
  destruct (qtype_case (r_type r)) as (Q1 & Q33 & Qo).
  destruct (Z.eqb_spec (r_type r) 1) as [E1|E1]; [|destruct (Z.eqb_spec (r_type r) 33) as [E33|E33]].
  - rewrite (Q1 E1) in *. apply wpa_bindM. apply (wpa_take m (p1 + 10) (r_data r)); [exact Hrd|now rewrite Ta|lia|]. cbn [wpa sret].
    apply Fin; [reflexivity|]. rewrite Ta by exact E1. lia.
  - rewrite (Q33 E33) in *. specialize (Ts E33).
    assert (exists a b c d e f t, r_data r = [a; b] ++ [c; d] ++ [e; f] ++ t) as (a & b & c & d & e & g & t & Ed).
    { destruct (r_data r) as [|a [|b [|c [|d [|e [|g t]]]]]]; unfold zlen in Ts; cbn [length] in Ts; try lia.
      exists a, b, c, d, e, g, t. reflexivity. }
    assert (bytes_ok (r_data r)) as Bd.
    { destruct Hrd as (x & y & -> & _). apply bytes_ok_app in Hm. destruct Hm as [_ Hm]. apply bytes_ok_app in Hm. apply Hm. }
    pose proof (bytes_at _ 0 Bd) as B0. pose proof (bytes_at _ 1 Bd) as B1. pose proof (bytes_at _ 2 Bd) as B2.
    pose proof (bytes_at _ 3 Bd) as B3. pose proof (bytes_at _ 4 Bd) as B4. pose proof (bytes_at _ 5 Bd) as B5.
    rewrite Ed in Hrd, B0, B1, B2, B3, B4, B5. cbn [app at_ nth] in B0, B1, B2, B3, B4, B5.
    apply has_app in Hrd. destruct Hrd as [X1 Hrd]. apply has_app in Hrd. destruct Hrd as [X2 Hrd]. apply has_app in Hrd. destruct Hrd as [X3 _].
    change (zlen [a; b]) with 2 in *. change (zlen [c; d]) with 2 in *.
    rewrite <- be16_of_be16 in X1, X2, X3 by assumption.
    apply wpa_bindM.
    apply (wpa_u16 m (p1 + 10) (of_be16 a b)); [exact X1|now apply of_be16_range|].
    apply (wpa_u16 m (p1 + 10 + 2) (of_be16 c d)); [exact X2|now apply of_be16_range|].
    apply (wpa_u16 m (p1 + 10 + 2 + 2) (of_be16 e g)); [exact X3|now apply of_be16_range|]. cbn [wpa sret].
    apply Fin; [|lia]. rewrite Ed. reflexivity.
  - rewrite Qo by assumption. apply wpa_sret. apply Fin; [reflexivity|auto].
Qed.

(** Records one after the other. *)
Inductive rr_chain (fuel : nat) (m : list Z) : Z -> list record -> Z -> Prop :=
| ChNil p : rr_chain fuel m p [] p
| ChCons p r p1 rs e :
    (forall buf, wpa rd_ok (read_rr fuel buf) m p False (fun x w pos => w = m /\ pos = p1 /\
      exists rr, x = Ok rr /\ record_seen r (zlen buf) rr)) ->
    rr_chain fuel m p1 rs e -> rr_chain fuel m p (r :: rs) e.
Lemma records_chain m p rs e : bytes_ok m -> zlen m <= 65535 -> records_at m p rs e ->
  exists f0, forall fuel, (f0 <= fuel)%nat -> rr_chain fuel m p rs e.
Proof.
  intros Hm Hz. induction 1 as [p|p r p1 rs e H _ (f1 & IH)]; [exists O; constructor|].
  destruct (read_rr_at m p r p1 Hm Hz H) as (f0 & H0). exists (Nat.max f0 f1). intros fuel Hf. econstructor.
  - apply H0. lia.
  - apply IH. lia.
Qed.
Lemma questions_skip m p qs e : bytes_ok m -> zlen m <= 65535 -> quests_at m p qs e ->
  exists f0, forall fuel, (f0 <= fuel)%nat -> wpa rd_ok (skip_questions fuel (length qs)) m p False (fun x w pos =>
    w = m /\ pos = e /\ x = Ok tt).
Proof.
  intros Hm Hz. induction 1 as [p|p q p1 qs e H _ (f1 & IH)]; [exists O; intros; cbn; auto|].
  destruct H as (pn & Hn & Hh & ->). pose proof (has_bounds _ _ _ Hh) as Hb. rewrite zlen_app, !zlen_be16 in Hb.
  destruct (read_labels_wpa m p _ pn Hm Hz Hn ltac:(lia)) as (f0 & H0). exists (Nat.max f0 f1). intros fuel Hf.
  cbn [length skip_questions]. apply wpa_bindM. eapply wpa_conseq; [apply (H0 fuel ltac:(lia) [])|].
  intros x w pos (-> & -> & v & -> & _). cbn beta iota.
  apply wpa_seek_cur; [split; [cbn; unfold is_i16; lia|reflexivity]|].
  destruct (Z.leb_spec 0 (pn + 4)), (Z.leb_spec (pn + 4) (zlen m)); try lia. cbn [andb]. apply IH. lia.
Qed.
Lemma qr_bit b : 0 <= b <= 255 -> negb (Z.land b 128 =? 0) = (128 <=? b).
Proof.
  intros H. apply eqb_prop. apply (zseq_all (fun b => Bool.eqb (negb (Z.land b 128 =? 0)) (128 <=? b)) 256 0); [vm_compute; reflexivity|lia].
Qed.
Lemma rcode_bits b : Z.land b 15 = b mod 16.
Proof. exact (Z.land_ones b 4 ltac:(lia)). Qed.
Lemma rcode_decodes v : decodes rcode_number v (ResponseCode_try_from v).
Proof.
  unfold ResponseCode_try_from, decodes.
  destruct (Z.eqb_spec v 0) as [->|?]; [left; exists NoError; split; reflexivity|].
  destruct (Z.eqb_spec v 1) as [->|?]; [left; exists FormatError; split; reflexivity|].
  destruct (Z.eqb_spec v 2) as [->|?]; [left; exists ServerFailure; split; reflexivity|].
  destruct (Z.eqb_spec v 3) as [->|?]; [left; exists NameError; split; reflexivity|].
  destruct (Z.eqb_spec v 4) as [->|?]; [left; exists NotImplemented; split; reflexivity|].
  destruct (Z.eqb_spec v 5) as [->|?]; [left; exists Refused; split; reflexivity|].
  right. split; [reflexivity|]. intros []; cbn; congruence.
Qed.

Definition wanted (want : option Z) (id : Z) : Prop := want = None \/ want = Some id.
Lemma body_at m id rcode qs an au ex : bytes_ok m -> zlen m <= 65535 -> response_msg m id rcode qs an au ex ->
  exists p1 e f0, forall fuel, (f0 <= fuel)%nat -> rr_chain fuel m p1 (an ++ au ++ ex) e /\
  forall want, wanted want id ->
  wpa rd_ok (response_body fuel want) m 0 False (fun x w pos => w = m /\ pos = p1 /\
    exists h, x = Ok (Some h) /\ decodes rcode_number rcode (hdr_rcode h) /\ hdr_ancount h = zlen an /\
    hdr_rr_count h = zlen (an ++ au ++ ex)).
Proof.
  intros Hm Hz (f1 & f2 & p1 & e & F1 & F2 & F3 & Hid & Lq & Lr & Hh & Hq & Hr).
  destruct (records_chain _ _ _ _ Hm Hz Hr) as (fr & Cr). destruct (questions_skip _ _ _ _ Hm Hz Hq) as (fq & Cq).
  exists p1, e, (Nat.max fr fq). intros fuel Hf. split; [apply Cr; lia|]. intros want Hw.
  rewrite !zlen_app in *. pose proof (zlen_nonneg an). pose proof (zlen_nonneg au). pose proof (zlen_nonneg ex). pose proof (zlen_nonneg qs).
  set (h := be16 id ++ [f1; f2] ++ be16 (zlen qs) ++ be16 (zlen an) ++ be16 (zlen au) ++ be16 (zlen ex)) in *.
  assert (zlen h = 12) as Lh by reflexivity.
  pose proof (has_bounds _ _ _ Hh) as Hb. rewrite Lh in Hb.
  unfold response_body. apply wpa_read; [split; [cbn; unfold is_u16, DNS_HEADER_LEN; lia|reflexivity]|].
  unfold DNS_HEADER_LEN. replace (Z.min (zlen m - 0) 12) with 12 by lia. rewrite (has_take _ _ _ _ Hh (eq_sym Lh)), Lh.
  cbn [Z.eqb Pos.eqb negb]. unfold is_u16 in Hid.
  assert (hdr_id h = id) as ->. { unfold hdr_id, h, be16. cbn [app at_ nth]. apply of_be16_hi_lo; lia. }
  assert (hdr_qr h = true) as ->. { unfold hdr_qr, h, be16. cbn [app at_ nth]. rewrite qr_bit by lia. apply Z.leb_le. lia. }
  cbn [negb]. replace (match want with Some id0 => negb (id =? id0) | None => false end) with false
    by (destruct Hw as [->| ->]; [reflexivity|now rewrite Z.eqb_refl]).
  assert (hdr_qdcount h = zlen qs) as ->. { unfold hdr_qdcount, h, be16. cbn [app at_ nth]. apply of_be16_hi_lo; lia. }
  unfold zlen at 1. rewrite Nat2Z.id. apply wpa_bindM. change (0 + 12) with 12.
  eapply wpa_conseq; [apply (Cq fuel ltac:(lia))|]. intros x w pos (-> & -> & ->). cbn beta iota. cbn [wpa sret].
  split; [reflexivity|]. split; [reflexivity|]. exists h. split; [reflexivity|].
  split. { unfold hdr_rcode, h, be16. cbn [app at_ nth]. rewrite rcode_bits, F3. apply rcode_decodes. }
  assert (hdr_ancount h = zlen an) as Ea. { unfold hdr_ancount, h, be16. cbn [app at_ nth]. apply of_be16_hi_lo; lia. }
  assert (hdr_nscount h = zlen au) as Eu. { unfold hdr_nscount, h, be16. cbn [app at_ nth]. apply of_be16_hi_lo; lia. }
  assert (hdr_arcount h = zlen ex) as Ex. { unfold hdr_arcount, h, be16. cbn [app at_ nth]. apply of_be16_hi_lo; lia. }
  split; [exact Ea|]. unfold hdr_rr_count. rewrite Ea, Eu, Ex. lia.
Qed.

(** ** On the chip *)
Section Chip.
Context (sn : Sn).
Let n := snz sn.

Lemma ureading_data s c d q fs a : ureading sn s c d q fs a -> bytes_ok (d_data d) /\ zlen (d_data d) <= 65535 /\ 0 <= cur_pos c <= zlen (d_data d).
Proof.
  intros (V & Hsn & Hc & Hl & Hh & Ht). pose proof (head_of _ _ _ _ _ V) as (_ & _ & _ & (_ & _ & _ & O1 & O2) & _).
  pose proof (cur_accounting c Hc). split; [exact O1|]. split; lia.
Qed.

Lemma next_rr_seen fuel r b s d q fs a rs e : ureading sn s (rs_reader r) d q fs a ->
  rr_chain fuel (d_data d) (cur_pos (rs_reader r)) rs e ->
  hdr_rr_count (rs_header r) = rs_rr_idx r + zlen rs ->
  wps (next_rr fuel r b) n s False (fun x s' => exists new, ureading sn s' (rs_reader (snd x)) d (q ++ new) fs a /\
    rs_header (snd x) = rs_header r /\
    match rs with
    | [] => fst x = Ok None /\ rs_rr_idx (snd x) = rs_rr_idx r /\ cur_pos (rs_reader (snd x)) = cur_pos (rs_reader r)
    | r0 :: rs' => (exists y, fst x = Ok (Some y) /\ record_seen r0 (zlen b) y) /\ rs_rr_idx (snd x) = rs_rr_idx r + 1 /\
        rr_chain fuel (d_data d) (cur_pos (rs_reader (snd x))) rs' e
    end).
Proof.
  intros R Ch Hc. unfold next_rr. apply wps_bind.
  assert (hdr_rr_count (rs_header r) <= 65535) as Hm by (unfold hdr_rr_count; lia).
  eapply wps_mono; [| |apply (ureading_run sn False s (rs_reader r) d q fs a
    (next_rr_s fuel (rs_header r) b (rs_rr_idx r)) (fun x w pos =>
    match rs with
    | [] => fst x = Ok None /\ snd x = rs_rr_idx r /\ pos = cur_pos (rs_reader r)
    | r0 :: rs' => (exists y, fst x = Ok (Some y) /\ record_seen r0 (zlen b) y) /\ snd x = rs_rr_idx r + 1 /\
        rr_chain fuel (d_data d) pos rs' e end) R)]; [auto| |].
  - intros [[v idx] c'] s' (new & R' & H). cbn [fst snd] in *. apply wps_ret_prog. exists new. cbn [fst snd rs_reader rs_header rs_rr_idx].
    split; [exact R'|]. split; [reflexivity|]. exact H.
  - unfold next_rr_s. rewrite Hc. destruct rs as [|r0 rs'].
    + rewrite zlen_nil, Z.add_0_r. rewrite Z.leb_refl. cbn. auto.
    + rewrite zlen_cons in *. pose proof (zlen_nonneg rs'). destruct (Z.leb_spec (rs_rr_idx r + (zlen rs' + 1)) (rs_rr_idx r)); [lia|].
      inversion Ch as [|? ? p1 ? ? Hr Ch']; subst. apply wpa_bind. eapply wpa_conseq; [apply Hr|].
      intros x w pos (-> & -> & rr & -> & Hs). cbn [wpa fst snd]. split; [exists rr; auto|]. split; [lia|exact Ch'].
Qed.
Lemma records_seen_cons r rs b bufs y xs : record_seen r (zlen b) y -> records_seen rs bufs xs ->
  records_seen (r :: rs) (b :: bufs) (Ok (Some y) :: xs).
Proof.
  intros H1 [L H2]. split; [cbn; now f_equal|]. intros [|i] b' E; cbn [nth_error] in *.
  - injection E as <-. eauto.
  - now apply H2.
Qed.
Lemma records_seen_nil b bufs xs : records_seen [] bufs xs -> records_seen [] (b :: bufs) (Ok None :: xs).
Proof.
  intros [L H2]. split; [cbn; now f_equal|]. intros [|i] b' E; cbn [nth_error] in *; [reflexivity|].
  specialize (H2 i b' E). now destruct i.
Qed.
Lemma next_rrs_seen fuel bufs : forall r s d q fs a rs e, ureading sn s (rs_reader r) d q fs a ->
  rr_chain fuel (d_data d) (cur_pos (rs_reader r)) rs e ->
  hdr_rr_count (rs_header r) = rs_rr_idx r + zlen rs ->
  wps (next_rrs fuel r bufs) n s False (fun x s' => exists new, ureading sn s' (rs_reader (snd x)) d (q ++ new) fs a /\
    records_seen rs bufs (fst x)).
Proof.
  induction bufs as [|b bufs IH]; intros r s d q fs a rs e R Ch Hc; cbn [next_rrs].
  - apply wps_ret_prog. exists []. rewrite app_nil_r. split; [exact R|]. split; [reflexivity|]. intros i b E. destruct i; discriminate.
  - apply wps_bind. eapply wps_mono; [| |apply (next_rr_seen fuel r b s d q fs a rs e R Ch Hc)]; [auto|].
    intros [v r1] s1 (n1 & R1 & H1 & H). cbn [fst snd] in *. apply wps_bind.
    destruct rs as [|r0 rs'].
    + destruct H as (-> & Hi & Hp). eapply wps_mono; [| |apply (IH r1 s1 d (q ++ n1) fs a [] e R1)]; [auto| | |].
      * intros [ys r2] s2 (n2 & R2 & Hs). cbn [fst snd] in *. apply wps_ret_prog. exists (n1 ++ n2). rewrite app_assoc.
        split; [exact R2|]. now apply records_seen_nil.
      * rewrite Hp. exact Ch.
      * rewrite H1, Hi. exact Hc.
    + destruct H as ((y & -> & Hy) & Hi & Ch'). eapply wps_mono; [| |apply (IH r1 s1 d (q ++ n1) fs a rs' e R1 Ch')]; [auto| |].
      * intros [ys r2] s2 (n2 & R2 & Hs). cbn [fst snd] in *. apply wps_ret_prog. exists (n1 ++ n2). rewrite app_assoc.
        split; [exact R2|]. now apply records_seen_cons.
      * rewrite H1, Hi. rewrite zlen_cons in Hc. lia.
Qed.

Lemma take_response_spec dbg s d q fs a id rcode qs an au ex : udp_view s (d :: q) fs a ->
  response_msg (d_data d) id rcode qs an au ex ->
  exists f0, forall fuel, (f0 <= fuel)%nat -> forall want bufs, wanted want id ->
  wps (take_response fuel (recv_response dbg fuel sn want) bufs) n s False (fun r s' => exists new x,
    r = Ok x /\ udp_view s' (q ++ new) fs a /\
    decodes rcode_number rcode (dr_code x) /\ dr_answers x = zlen an /\
    records_seen (an ++ au ++ ex) bufs (dr_records x)).
Proof.
  intros V Hm. pose proof (head_of _ _ _ _ _ V) as (_ & _ & _ & (_ & _ & _ & O1 & O2) & _).
  destruct (body_at _ _ _ _ _ _ _ O1 ltac:(lia) Hm) as (p1 & e & f0 & H). exists f0. intros fuel Hf want bufs Hw.
  destruct (H fuel Hf) as [Ch Hb]. unfold take_response, recv_response. apply wps_bindM, wps_bindM.
  eapply wps_mono; [| |apply (ureader_open sn False dbg s (d :: q) fs a V)]; [auto|].
  intros r s1 (n1 & [(_ & C & _)|(c & d' & q' & Eq & -> & R1 & Hp)]); [discriminate C|].
  cbn [app] in Eq. injection Eq as <- <-. cbn [ur_inner]. apply wps_bind.
  eapply wps_mono; [| |eapply (ureading_run sn False s1 c d _ fs a _ _ R1); rewrite Hp; apply (Hb want Hw)]; [auto|].
  intros [x c2] s2 (n2 & R2 & (_ & P2 & h & -> & E1 & E2 & E3)). cbn [fst snd] in *. apply wps_ret_prog. cbn beta iota.
  apply wps_bind.
  eapply wps_mono; [| |apply (next_rrs_seen fuel bufs {| rs_reader := c2; rs_header := h; rs_rr_idx := 0 |} s2 d _ fs a (an ++ au ++ ex) e R2)]; [auto| | |].
  - intros [ys r3] s3 (n3 & R3 & Hs). cbn [fst snd] in *. apply wps_bindM.
    eapply wps_mono; [| |apply (ureading_done sn False s3 _ d _ fs a R3)]; [auto|].
    intros r4 s4 (-> & n4 & V4). apply wps_ret_prog. exists (n1 ++ n2 ++ n3 ++ n4). eexists. split; [reflexivity|].
    split; [rewrite <- !app_assoc in V4; exact V4|]. cbn [dr_code dr_answers dr_records]. auto.
  - cbn [rs_reader]. rewrite P2. exact Ch.
  - cbn [rs_header rs_rr_idx]. exact E3.
Qed.

(** Any datagram. *)
Lemma next_rrs_any D fuel bufs : forall r s d q fs a, ureading sn s (rs_reader r) d q fs a -> fuel_for D (d_data d) fuel ->
  wps (next_rrs fuel r bufs) n s D (fun x s' => exists new, ureading sn s' (rs_reader (snd x)) d (q ++ new) fs a).
Proof.
  induction bufs as [|b bufs IH]; intros r s d q fs a R Hf; cbn [next_rrs].
  - apply wps_ret_prog. exists []. now rewrite app_nil_r.
  - destruct (ureading_data _ _ _ _ _ _ R) as (B1 & B2 & B3). apply wps_bind. unfold next_rr. apply wps_bind.
    eapply wps_mono; [| |eapply (ureading_run sn D s (rs_reader r) d q fs a _ _ R); apply (next_rr_any (d_data d) D fuel _ b _ _ B1 B2 B3 Hf)]; [auto|].
    intros [[v idx] c'] s1 (n1 & R1 & _). cbn [fst snd] in *. apply wps_ret_prog. cbn [fst snd]. apply wps_bind.
    eapply wps_mono; [| |apply (IH {| rs_reader := c'; rs_header := rs_header r; rs_rr_idx := idx |} s1 d _ fs a R1 Hf)]; [auto|].
    intros [ys r2] s2 (n2 & R2). cbn [fst snd] in *. apply wps_ret_prog. exists (n1 ++ n2). rewrite app_assoc. exact R2.
Qed.
Lemma take_response_any D dbg fuel want bufs s q fs a : udp_view s q fs a -> (D \/ (q <> [] /\ forall d, hd_error q = Some d -> fuel_for D (d_data d) fuel)) ->
  wps (take_response fuel (recv_response dbg fuel sn want) bufs) n s D (fun r s' => exists q', udp_view s' q' fs a /\
    (r = Err WouldBlock \/ r = Err UnexpectedEof \/ exists x, r = Ok x)).
Proof.
  intros V Hf. unfold take_response, recv_response. apply wps_bindM, wps_bindM.
  eapply wps_mono; [| |apply (ureader_open sn D dbg s q fs a V)]; [auto|].
  intros r s1 (n1 & [(-> & _ & V1)|(c & d & q' & Eq & -> & R1 & Hp)]); [exists (q ++ n1); auto|].
  assert (fuel_for D (d_data d) fuel) as Hd.
  { destruct Hf as [Hf|[Hn Hf]]; [now left|]. apply Hf. destruct q; [congruence|]. now injection Eq as -> _. }
  cbn [ur_inner]. apply wps_bind. destruct (ureading_data _ _ _ _ _ _ R1) as (B1 & B2 & B3).
  eapply wps_mono; [| |eapply (ureading_run sn D s1 c d _ fs a _ _ R1); apply (body_any (d_data d) D fuel want _ B1 B2 B3 Hd)]; [auto|].
  intros [x c2] s2 (n2 & R2 & (_ & _ & Hx)). cbn [fst snd] in *.
  destruct Hx as [->|([h|] & ->)].
  - apply wps_ret_prog. exists (d :: q' ++ n2). split; [exact (ureading_view _ _ _ _ _ _ _ R2)|auto].
  - apply wps_ret_prog. cbn beta iota. apply wps_bind.
    eapply wps_mono; [| |apply (next_rrs_any D fuel bufs {| rs_reader := c2; rs_header := h; rs_rr_idx := 0 |} s2 d _ fs a R2 Hd)]; [auto|].
    intros [ys r3] s3 (n3 & R3). cbn [fst snd] in *. apply wps_bindM.
    eapply wps_mono; [| |apply (ureading_done sn D s3 _ d _ fs a R3)]; [auto|].
    intros r4 s4 (-> & n4 & V4). apply wps_ret_prog. eexists. split; [exact V4|]. right. right. eauto.
  - apply wps_bindM. eapply wps_mono; [| |apply (ureading_done sn D s2 c2 d _ fs a R2)]; [auto|].
    intros r4 s4 (-> & n4 & V4). cbn. eexists. split; [exact V4|auto].
Qed.
End Chip.
