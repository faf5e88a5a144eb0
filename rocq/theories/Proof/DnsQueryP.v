(** DNS queries: C24, C28 and the response filter C65. *)
From Verif Require Export Proof.DnsRespP.

(** ** Writing at the end of what has been written *)
Definition wrote (acc : list Z) (N : Z) (w : list Z) (pos : Z) : Prop :=
  zlen w = N /\ pos = zlen acc /\ pos <= N /\ ztake pos w = acc.
Lemma wrote_write {A} acc N w pos d D (f : unit -> SM A) Q : wrote acc N w pos -> bytes_ok d -> zlen d <= 65535 ->
  (zlen acc + zlen d <= N -> forall w', wrote (acc ++ d) N w' (pos + zlen d) -> wpa wr_ok (f tt) w' (pos + zlen d) D Q) ->
  (N < zlen acc + zlen d -> Q (Err OutOfMemory) w pos) ->
  wpa wr_ok (sbindM (s_write_all d) f) w pos D Q.
Proof.
  intros (L & P & Hp & E) Hd Hl H1 H2. pose proof (zlen_nonneg acc). pose proof (zlen_nonneg d).
  apply wpa_write_all; [split; [cbn; auto|reflexivity]|].
  destruct (Z.leb_spec (zlen d) (zlen w - pos)); [|apply H2; lia]. apply H1; [lia|].
  split; [rewrite overlay_len; lia|]. split; [rewrite zlen_app; lia|]. split; [lia|].
  rewrite ztake_overlay by lia. now rewrite E.
Qed.
Definition enc_labels (ls : list (list Z)) : list Z := concat (map (fun l => zlen l :: l) ls).
Lemma label_bytes l : label_ok l -> bytes_ok l.
Proof.
  intros (_ & H & _). eapply Forall_impl; [|exact H]. intros b. unfold letter_or_digit, hyphen, is_u8. lia.
Qed.
Lemma write_labels_wpa D ls : Forall label_ok ls -> forall acc N w pos, wrote acc N w pos ->
  wpa wr_ok (write_labels ls) w pos D (fun r w' pos' => zlen w' = N /\
    (r = Err OutOfMemory /\ N < zlen acc + zlen (enc_labels ls) \/
     r = Ok tt /\ wrote (acc ++ enc_labels ls) N w' pos')).
Proof.
  induction 1 as [|l ls Hl _ IH]; intros acc N w pos Hw; cbn [write_labels].
  - cbn [wpa sret]. split; [apply Hw|]. right. split; [reflexivity|]. change (enc_labels []) with (@nil Z). now rewrite app_nil_r.
  - assert (enc_labels (l :: ls) = [zlen l] ++ l ++ enc_labels ls) as -> by reflexivity.
    pose proof (zlen_nonneg (enc_labels ls)). rewrite !zlen_app. change (zlen [zlen l]) with 1.
    destruct (Hl) as (Hlen & _). assert (u8 (zlen l) = zlen l) as Eu by (unfold u8; lia). rewrite Eu.
    eapply wrote_write; [exact Hw|constructor; [unfold is_u8; lia|constructor]|change (zlen [zlen l]) with 1; lia| |].
    + intros _ w1 W1. eapply wrote_write; [exact W1|now apply label_bytes|lia| |].
      * intros _ w2 W2. eapply wpa_conseq; [apply (IH _ _ _ _ W2)|].
        intros r w' pos' (L & [(-> & Hn)|(-> & Hn)]).
        -- split; [exact L|]. left. split; [reflexivity|]. rewrite !zlen_app in Hn. change (zlen [zlen l]) with 1 in Hn. lia.
        -- split; [exact L|]. right. split; [reflexivity|]. rewrite <- !app_assoc in Hn. exact Hn.
      * intros Hn. destruct W1 as (W1 & _). split; [exact W1|]. left. split; [reflexivity|].
        rewrite zlen_app in Hn. change (zlen [zlen l]) with 1 in Hn. lia.
    + intros Hn. destruct Hw as (W1 & _). split; [exact W1|]. left. split; [reflexivity|]. change (zlen [zlen l]) with 1 in Hn. pose proof (zlen_nonneg l). lia.
Qed.
Definition enc_quest (q : Qtype * list Z) : list Z :=
  enc_labels (hostname_labels (snd q)) ++ [0] ++ be16 (type_number (fst q)) ++ be16 1.
Lemma enc_labels_len ls : ls <> [] -> zlen (enc_labels ls) = zlen (join ls) + 1.
Proof.
  induction ls as [|l ls IH]; intros H; [congruence|]. change (enc_labels (l :: ls)) with ((zlen l :: l) ++ enc_labels ls).
  rewrite zlen_app, zlen_cons. destruct ls as [|l2 ls].
  - change (enc_labels []) with (@nil Z). rewrite zlen_nil. cbn [join]. lia.
  - rewrite IH by discriminate. change (join (l :: l2 :: ls)) with (l ++ dot :: join (l2 :: ls)).
    rewrite zlen_app, zlen_cons. lia.
Qed.
Lemma enc_quest_len t h : hostname_ok h -> zlen (enc_quest (t, h)) = zlen h + 6.
Proof.
  intros H. destruct (labels_ok h H) as (J & _ & _). unfold enc_quest. cbn [fst snd]. rewrite !zlen_app, !zlen_be16.
  rewrite enc_labels_len by apply split_nonnil. rewrite J. change (zlen [0]) with 1. lia.
Qed.
Lemma qtype_bytes t : Qtype_high_byte t = (type_number t / 256) mod 256 /\ Qtype_low_byte t = type_number t mod 256.
Proof. destruct t; split; reflexivity. Qed.
Lemma question_wpa D hd t h acc N w pos : hostname_ok h -> wrote acc N w pos ->
  wpa wr_ok (question hd t h) w pos D (fun r w' pos' => zlen w' = N /\
    (r = Err OutOfMemory /\ N < zlen acc + zlen (enc_quest (t, h)) \/
     r = Ok (hdr_increment_qdcount hd) /\ wrote (acc ++ enc_quest (t, h)) N w' pos')).
Proof.
  intros H Hw. destruct (labels_ok h H) as (J & F & L). pose proof H as (Hl & _). rewrite (enc_quest_len t h H).
  unfold question. apply wpa_remain. rewrite L. pose proof Hw as (W1 & W2 & W3 & W4).
  destruct (Z.ltb_spec (zlen w - pos) (zlen h + 5)).
  { cbn [wpa sfail]. split; [exact W1|]. left. split; [reflexivity|lia]. }
  apply wpa_bindM. eapply wpa_conseq; [apply (write_labels_wpa D _ F acc N w pos Hw)|].
  pose proof (enc_labels_len (hostname_labels h) (split_nonnil h)) as El. rewrite J in El.
  intros r w1 p1 (L1 & [(-> & Hn)|(-> & Hn)]).
  { split; [exact L1|]. left. split; [reflexivity|lia]. }
  destruct (qtype_bytes t) as [-> ->].
  eapply wrote_write; [exact Hn| |cbn; lia| |].
  { repeat (constructor; [unfold is_u8; vm_compute Qclass_high_byte; vm_compute Qclass_low_byte; lia|]). constructor. }
  - intros _ w2 W'. cbn [wpa sret]. split; [apply W'|]. right. split; [reflexivity|]. rewrite <- app_assoc in W'. exact W'.
  - intros Hn'. split; [exact L1|]. left. split; [reflexivity|]. rewrite zlen_app in Hn'. change (zlen [_; _; _; _; _]) with 5 in Hn'. lia.
Qed.

(** ** The header *)
Definition query_header (id n : Z) : list Z := be16 id ++ [1; 0] ++ be16 n ++ [0; 0; 0; 0; 0; 0].
Lemma new_query_header id : hdr_new_query id = query_header id 0.
Proof. reflexivity. Qed.
Lemma inc_header id n : 0 <= n < 65535 -> hdr_increment_qdcount (query_header id n) = query_header id (n + 1).
Proof.
  intros H. unfold hdr_increment_qdcount. assert (hdr_qdcount (query_header id n) = n) as ->.
  { unfold hdr_qdcount, query_header, be16. cbn [app at_ nth]. apply of_be16_hi_lo; lia. }
  rewrite Z.min_r by lia. reflexivity.
Qed.
Lemma write_header_wpa D h acc N w pos : zlen h = 12 -> bytes_ok h -> 12 <= zlen acc -> wrote acc N w pos -> N <= 65535 ->
  wpa wr_ok (write_header h) w pos D (fun r w' pos' => r = Ok tt /\ wrote (h ++ zdrop 12 acc) N w' pos').
Proof.
  intros Lh Bh La (W1 & W2 & W3 & W4) HN. unfold write_header. apply wpa_position, wpa_rewind; [split; [exact I|reflexivity]|].
  apply wpa_write_all; [split; [cbn; try exact I; auto|reflexivity]|].
  destruct (Z.leb_spec (zlen h) (zlen w - 0)); [|lia].
  assert (zlen (overlay w 0 h) = N) as Lo by (rewrite overlay_len; lia).
  cbn [s_seek wpa astep target]. split; [split; [cbn; unfold is_u16; lia|reflexivity]|].
  rewrite Lo. destruct (Z.leb_spec 0 pos), (Z.leb_spec pos N); try lia. cbn [andb wpa sret]. split; [reflexivity|].
  split; [exact Lo|]. split; [rewrite zlen_app, zlen_zdrop; lia|]. split; [lia|].
  unfold overlay. rewrite ztake_0. cbn [app]. rewrite ztake_app_r by lia. f_equal.
  rewrite Lh. change (0 + 12) with 12. rewrite <- W4. unfold ztake, zdrop. rewrite skipn_firstn_comm. f_equal. lia.
Qed.

(** ** What has been written is the query *)
Lemma has_mid a l b : has (a ++ l ++ b) (zlen a) l.
Proof. now exists a, b. Qed.
Lemma name_enc ls : Forall (fun l => 1 <= zlen l <= 63) ls -> forall a b,
  name_at (a ++ enc_labels ls ++ [0] ++ b) (zlen a) ls (zlen a + zlen (enc_labels ls) + 1).
Proof.
  induction 1 as [|l ls Hl _ IH]; intros a b.
  - change (enc_labels []) with (@nil Z). cbn [app]. replace (zlen a + zlen (@nil Z) + 1) with (zlen a + 1) by (rewrite (@zlen_nil Z); lia). constructor. apply (has_mid a [0] b).
  - change (enc_labels (l :: ls)) with ((zlen l :: l) ++ enc_labels ls).
    specialize (IH (a ++ zlen l :: l) b). rewrite <- !app_assoc in *.
    apply NameLabel; [exact Hl|apply has_mid|]. rewrite !zlen_app, zlen_cons in *.
    replace (zlen a + 1 + zlen l) with (zlen a + (zlen l + 1)) by lia.
    replace (zlen a + (zlen l + 1 + zlen (enc_labels ls)) + 1) with (zlen a + (zlen l + 1) + zlen (enc_labels ls) + 1) by lia.
    exact IH.
Qed.
Definition asked (q : Qtype * list Z) : quest :=
  {| q_name := split_dot (snd q); q_type := type_number (fst q); q_class := 1 |}.
Lemma asked_asks q : hostname_ok (snd q) -> asks q (asked q).
Proof. intros H. destruct (labels_ok _ H) as (J & F & _). split; [symmetry; exact J|]. split; [exact F|]. split; reflexivity. Qed.
Lemma quest_enc q a b : hostname_ok (snd q) ->
  quest_at (a ++ enc_quest q ++ b) (zlen a) (asked q) (zlen a + zlen (enc_quest q)).
Proof.
  intros H. destruct (labels_ok _ H) as (_ & F & _). unfold quest_at, enc_quest. cbn [asked q_name q_type q_class].
  exists (zlen a + zlen (enc_labels (hostname_labels (snd q))) + 1). split; [|split].
  - rewrite <- !app_assoc. apply name_enc. eapply Forall_impl; [|exact F]. intros l (Hl & _). exact Hl.
  - set (e := enc_labels _). set (t := be16 _ ++ be16 1).
    replace (a ++ (e ++ [0] ++ t) ++ b) with ((a ++ e ++ [0]) ++ t ++ b) by now rewrite <- !app_assoc.
    replace (zlen a + zlen e + 1) with (zlen (a ++ e ++ [0])) by (rewrite !zlen_app; change (zlen [0]) with 1; lia).
    apply has_mid.
  - rewrite !zlen_app, !zlen_be16. change (zlen [0]) with 1. lia.
Qed.
Lemma quests_enc qs : Forall (fun q => hostname_ok (snd q)) qs -> forall a,
  quests_at (a ++ concat (map enc_quest qs)) (zlen a) (map asked qs) (zlen (a ++ concat (map enc_quest qs))).
Proof.
  induction 1 as [|q qs Hq _ IH]; intros a; cbn [map concat].
  - rewrite app_nil_r. constructor.
  - econstructor; [apply (quest_enc q a _ Hq)|]. rewrite <- zlen_app, app_assoc. apply IH.
Qed.
Lemma query_enc id qs : Forall (fun q => hostname_ok (snd q)) qs ->
  query_msg (query_header id (zlen qs) ++ concat (map enc_quest qs)) id (map asked qs).
Proof.
  intros H. split.
  - assert (zlen (map asked qs) = zlen qs) as -> by (unfold zlen; now rewrite map_length).
    apply (has_mid [] (query_header id (zlen qs))).
  - exact (quests_enc qs H (query_header id (zlen qs))).
Qed.

(** ** On the chip *)
Section Chip.
Context (sn : Sn).
Let n := snz sn.

Lemma qsize_enc qs : Forall (fun q => hostname_ok (snd q)) qs -> zlen (concat (map enc_quest qs)) = qsize qs.
Proof.
  induction 1 as [|[t h] qs Hq _ IH]; [reflexivity|]. cbn [map concat qsize]. rewrite zlen_app, enc_quest_len by exact Hq. now rewrite IH.
Qed.
Lemma qsize_nonneg (qs : list (Qtype * list Z)) : 0 <= qsize qs.
Proof. induction qs as [|[t h] qs IH]; cbn [qsize]; [lia|]. pose proof (zlen_nonneg h). lia. Qed.
Lemma ask_all_spec D id qs : Forall (fun q => hostname_ok (snd q)) qs -> forall c k s w q fs a pre,
  uwriting sn s c w q fs a -> wrote pre (zlen w) w (cur_pos c) -> 0 <= k -> 7 * k <= zlen pre ->
  wps (ask_all {| qu_writer := c; qu_header := query_header id k |} qs) n s D (fun r s' => exists new,
    (r = Err OutOfMemory /\ zlen w < zlen pre + qsize qs /\ udp_view s' (q ++ new) fs a) \/
    (exists c' w', r = Ok {| qu_writer := c'; qu_header := query_header id (k + zlen qs) |} /\
       zlen pre + qsize qs <= zlen w /\
       uwriting sn s' c' w' (q ++ new) fs a /\ wrote (pre ++ concat (map enc_quest qs)) (zlen w) w' (cur_pos c'))).
Proof.
  induction 1 as [|[t h] qs Hq _ IH]; intros c k s w q fs a pre U W Hk Hp; cbn [ask_all].
  - cbn [map concat]. apply wps_ret. exists []. right. exists c, w. rewrite !app_nil_r, zlen_nil, Z.add_0_r.
    split; [reflexivity|]. cbn [qsize]. destruct W as (? & ? & ? & ?).
    split; [lia|]. split; [exact U|]. split; auto.
  - cbn [snd] in Hq. unfold query_question. apply wps_bindM, wps_bind. cbn [qu_writer qu_header].
    eapply wps_mono; [| |eapply (uwriting_run sn D s c w q fs a _ _ U); apply (question_wpa D (query_header id k) t h pre (zlen w) w _ Hq W)]; [auto|].
    intros [r c1] s1 (n1 & w1 & U1 & L1 & HQ). cbn [fst snd] in *.
    assert (qsize ((t, h) :: qs) = zlen (enc_quest (t, h)) + qsize qs) as Es by (cbn [qsize]; now rewrite enc_quest_len by exact Hq).
    pose proof (qsize_nonneg qs) as Hn0.
    destruct HQ as [(-> & Hn)|(-> & W1)].
    + apply wps_ret_prog. exists n1. left. split; [reflexivity|]. split; [lia|]. apply U1.
    + apply wps_ret. cbn beta iota.
      pose proof (enc_quest_len t h Hq) as Lq. pose proof Hq as ((Hh & _) & _).
      destruct (uwriting_len _ _ _ _ _ _ _ U) as (_ & _ & Hmax). pose proof W1 as (_ & Wp & Wn & _). rewrite zlen_app in Wp.
      rewrite inc_header by lia. rewrite <- L1.
      eapply wps_mono; [| |apply (IH c1 (k + 1) s1 w1 (q ++ n1) fs a (pre ++ enc_quest (t, h)) U1)]; [auto| | | |].
      * intros r s2 (n2 & H). exists (n1 ++ n2). rewrite app_assoc. rewrite zlen_app in H. rewrite zlen_cons.
        replace (k + (zlen qs + 1)) with (k + 1 + zlen qs) by lia.
        destruct H as [(-> & H1 & H2)|(c' & w' & -> & H1 & H2 & H3)].
        -- left. split; [reflexivity|]. split; [lia|exact H2].
        -- right. exists c', w'. split; [reflexivity|]. split; [lia|]. split; [exact H2|]. cbn [map concat].
           rewrite app_assoc. exact H3.
      * now rewrite L1.
      * lia.
      * rewrite zlen_app. lia.
Qed.

(** A query under construction. *)
Definition querying (s : sock) (q : Query) (id k : Z) (pre : list Z) (N : Z) (qd : list dgram) (fs : list frame) (a : addr) : Prop :=
  qu_header q = query_header id k /\ exists w, uwriting sn s (qu_writer q) w qd fs a /\ zlen w = N /\
  wrote pre N w (cur_pos (qu_writer q)).
Lemma ask_open D id addr s q fs a : udp_view s q fs a -> addr_ok addr -> pending s = 0 -> size_ok (tx_size s) -> 0 < tx_size s ->
  wps (set_sn_dest sn addr ;;; (w <- tx_writer sn ;; query_at w id)) n s D (fun r s' => exists new qy pre,
    r = Ok qy /\ zlen pre = 12 /\ querying s' qy id 0 pre (tx_size s) (q ++ new) fs addr).
Proof.
  intros V Ha P0 Hz Hz0. apply wps_bindM.
  eapply wps_mono; [| |apply (uview_set_dest sn D s q fs a addr V Ha)]; [auto|].
  intros r s1 (-> & n1 & V1 & Z1 & P1). apply wps_bindM.
  eapply wps_mono; [| |apply (uwriter_open sn D s1 _ fs addr V1)]; [auto|].
  intros r s2 (n2 & c & w & -> & U & Hp & Lw).
  pose proof (wsub_range (s_tx_cmd s1) (s_tx_rd s1)) as Hq1. fold (pending s1) in Hq1. unfold is_u16 in Hq1.
  assert (zlen w = tx_size s) as Ew by lia.
  assert (1024 <= tx_size s) as Hz' by (unfold size_ok in Hz; lia).
  destruct (uwriting_len _ _ _ _ _ _ _ U) as (L1 & L2 & L3). pose proof U as (_ & _ & Hc & _).
  unfold query_at. apply wps_bindM. unfold cur_seekM, DNS_HEADER_LEN.
  destruct (cur_seek_spec c (SStart 12) Hc) as [(Ht & p & -> & Hq & Eq)|(Ht & _)]; [unfold seek_ok; cbn; unfold is_u16; lia| |cbn [target] in Ht; lia].
  apply wps_ret_prog. cbn beta iota. apply wps_ret. rewrite new_query_header.
  assert (same_window c (cur_at c p)) as Sw by (split; [reflexivity|split; reflexivity]).
  pose proof (uwriting_seek sn s2 c w _ fs addr (cur_at c p) U Hq Sw) as U2. cbn [target] in Eq.
  exists (n1 ++ n2). eexists. exists (ztake 12 w). split; [reflexivity|]. split; [rewrite zlen_ztake; lia|].
  split; [reflexivity|]. exists w. cbn [qu_writer]. rewrite app_assoc. split; [exact U2|]. split; [exact Ew|].
  split; [exact Ew|]. rewrite zlen_ztake. split; [lia|]. split; [lia|]. now rewrite Eq.
Qed.
(** Asking the questions and sending. *)
Definition ask_post (id : Z) (qs : list (Qtype * list Z)) (N : Z) (qd : list dgram) (fs : list frame) (a : addr) (r : res err Z) (s' : sock) : Prop :=
  exists new,
  (qs <> [] /\ 12 + qsize qs <= N /\ r = Ok id /\ exists data,
     udp_view s' (qd ++ new) (fs ++ [frame_to a data]) a /\ query_msg data id (map asked qs) /\ Forall2 asks qs (map asked qs)) \/
  (qs <> [] /\ N < 12 + qsize qs /\ r = Err OutOfMemory /\ udp_view s' (qd ++ new) fs a) \/
  (qs = [] /\ r = Ok id /\ udp_view s' (qd ++ new) fs a).
Lemma ask_tail D id qs s qy pre N qd fs addr : is_u16 id -> Forall (fun q => hostname_ok (snd q)) qs -> zlen pre = 12 -> 
  querying s qy id 0 pre N qd fs addr ->
  wps (qy <- ask_all qy qs ;; query_send qy) n s D (ask_post id qs N qd fs addr).
Proof.
  intros Hid Hqs L12 (Hh & w & U & Lw & W). unfold is_u16 in Hid. destruct qy as [c hd]. cbn [qu_header qu_writer] in *. subst hd N.
  destruct (uwriting_len _ _ _ _ _ _ _ U) as (_ & _ & L3). apply wps_bindM. pose proof W as (_ & _ & W12 & _).
  eapply wps_mono; [| |apply (ask_all_spec D id qs Hqs c 0 s w _ fs addr pre U W ltac:(lia) ltac:(lia))]; [auto|].
  rewrite L12. intros r s3 (n3 & H). destruct H as [(-> & H1 & V3)|(c' & w' & -> & H1 & U3 & W3)].
  - exists n3. right. left. split; [intros ->; cbn in H1; destruct W as (_ & W & _); lia|].
    split; [lia|]. split; [reflexivity|exact V3].
  - rewrite Z.add_0_l. unfold query_send. cbn [qu_header qu_writer].
    assert (forall k, 0 <= k <= 65535 -> hdr_qdcount (query_header id k) = k) as Hqd.
    { intros k Hk. unfold hdr_qdcount, query_header, be16. cbn [app at_ nth]. apply of_be16_hi_lo; lia. }
    assert (hdr_id (query_header id (zlen qs)) = id) as Hi.
    { unfold hdr_id, query_header, be16. cbn [app at_ nth]. apply of_be16_hi_lo; lia. }
    assert (zlen qs <= qsize qs) as Hn.
    { clear - sn. induction qs as [|[t h] qs IH]; [unfold zlen; cbn; lia|]. cbn [qsize].
      rewrite zlen_cons. pose proof (zlen_nonneg h). lia. }
    pose proof (zlen_nonneg qs). rewrite Hqd by lia.
    destruct (Z.eqb_spec (zlen qs) 0) as [E0|E0].
    + destruct qs; [|rewrite zlen_cons in E0; pose proof (zlen_nonneg qs); lia].
      apply wps_ret. exists n3. right. right. split; [reflexivity|]. rewrite Hi. split; [reflexivity|]. apply U3.
    + assert (qs <> []) as Hne by (intros ->; apply E0; reflexivity).
      apply wps_bind.
      eapply wps_mono; [| |eapply (uwriting_run sn D s3 c' w' _ fs addr _ _ U3);
        apply (write_header_wpa D (query_header id (zlen qs)) (pre ++ concat (map enc_quest qs)) (zlen w) w' (cur_pos c'))]; [auto| | | | | |lia].
      * intros [r4 c4] s4 (n4 & w4 & U4 & -> & W4). cbn [fst snd] in *. apply wps_bindM.
        eapply wps_mono; [| |apply (uwriting_send sn D s4 c4 w4 _ fs addr U4)]; [auto|].
        intros r5 s5 (-> & n5 & V5). apply wps_ret. exists (n3 ++ n4 ++ n5). left.
        split; [exact Hne|]. split; [lia|]. split; [now rewrite Hi|].
        destruct W4 as (_ & _ & _ & W4). rewrite W4 in V5. rewrite zdrop_app_r, L12, Z.sub_diag in V5 by lia.
        eexists. rewrite !app_assoc in *. split; [exact V5|]. split; [now apply query_enc|].
        clear - Hqs. induction Hqs; cbn [map]; constructor; [now apply asked_asks|assumption].
      * reflexivity.
      * repeat (apply bytes_ok_app; split); try apply bytes_ok_be16; repeat (constructor; [unfold is_u8; lia|]); constructor.
      * rewrite zlen_app, L12. pose proof (zlen_nonneg (concat (map enc_quest qs))). lia.
      * exact W3.
Qed.
End Chip.

(** ** The client *)
Lemma wps_unbind {A B} (p : prog A) (f : A -> prog B) : forall n s D (Q : B -> sock -> Prop),
  wps (bind p f) n s D Q -> wps p n s D (fun a s' => wps (f a) n s' D Q).
Proof.
  induction p as [a|a b len k IH|a b d k IH| |]; intros n s D Q H; cbn [wps bind] in *; auto.
  - destruct H as (kd & Hk & Hb & H). exists kd. auto.
  - destruct H as (kd & Hk & Hb & H). exists kd. auto.
Qed.
Lemma rand_u16 st : is_u16 (snd (rand_next_u16 st)).
Proof. unfold rand_next_u16. destruct (rand_next_u32 st) as [s r]. cbn [snd]. unfold is_u16. lia. Qed.
Lemma dns_query_run dbg fuel cl c : let s := c_sock c (sn_raw (dc_sn cl)) in
  dns_ready cl -> sizes_ok s -> 0 < tx_size s ->
  if_returns (dns_query dbg fuel cl) (sn_raw (dc_sn cl)) c (fun r s' => exists new more qy cl' id pre,
    r = Ok (qy, cl') /\ is_u16 id /\ zlen pre = 12 /\ dc_sn cl' = dc_sn cl /\ dc_port cl' = dc_port cl /\ dc_server cl' = dc_server cl /\
    querying (dc_sn cl) s' qy id 0 pre (tx_size s) new (s_wire s ++ more) (dc_server cl)).
Proof.
  intros s [Hp Ha] Hz H0. unfold dns_query. eapply if_returns_bindM; [apply (udp_bind_run dbg fuel (dc_sn cl) (dc_port cl) c Hp Hz)| |].
  - intros e c1 (C & _). discriminate C.
  - intros _ c1 (_ & _ & _ & Z1 & P1 & new & more & V). fold s in V, Z1.
    apply returns_wps. pose proof (rand_u16 (dc_rng cl)) as Hid. destruct (rand_next_u16 (dc_rng cl)) as [rng id]. cbn [snd] in Hid.
    assert (size_ok (tx_size (c_sock c1 (sn_raw (dc_sn cl))))) as Sz by (rewrite Z1; apply Hz).
    pose proof (ask_open (dc_sn cl) True id (dc_server cl) _ _ _ _ V Ha P1 Sz ltac:(lia)) as W.
    apply wps_bindM. unfold bindM in W. apply wps_unbind in W. eapply wps_mono; [| |exact W]; [auto|].
    intros [[]|e] s2 W2; [|cbn in W2; destruct W2 as (? & ? & ? & C & _); discriminate C].
    apply wps_bindM. apply wps_unbind in W2. eapply wps_mono; [| |exact W2]; [auto|].
    intros [w|e] s3 W3; [|cbn in W3; destruct W3 as (? & ? & ? & C & _); discriminate C].
    apply wps_bindM. eapply wps_mono; [| |exact W3]; [auto|].
    intros r s4 (new' & qy & pre & -> & L12 & Q4). apply wps_ret. rewrite Z1 in Q4.
    exists (new ++ new'), more, qy. eexists. exists id, pre. split; [reflexivity|]. cbn. auto 8.
Qed.

Lemma ask_post_result cl cl' s id qs new more r s' : is_u16 id -> dc_sn cl' = dc_sn cl -> dc_port cl' = dc_port cl -> dc_server cl' = dc_server cl ->
  ask_post id qs (tx_size s) new (s_wire s ++ more) (dc_server cl) r s' -> asked_result cl s qs (r, cl') s'.
Proof.
  intros Hid E1 E2 E3 (n1 & H). exists (new ++ n1), more. cbn [fst snd]. split; [exact E1|]. split; [exact E2|]. split; [exact E3|].
  destruct H as [(Hne & Hs & -> & data & V & Hm & Ha)|[H|(Hn & -> & V)]]; [left|right; left|right; right].
  - split; [exact Hne|]. split; [exact Hs|]. exists id, data, (map asked qs). rewrite <- app_assoc in V. auto.
  - exact H.
  - split; [exact Hn|]. split; [eauto|exact V].
Qed.
Lemma dns_ask_run dbg fuel cl c qs : let s := c_sock c (sn_raw (dc_sn cl)) in
  dns_ready cl -> sizes_ok s -> 0 < tx_size s -> Forall (fun q => hostname_ok (snd q)) qs ->
  if_returns (dns_ask dbg fuel cl qs) (sn_raw (dc_sn cl)) c (asked_result cl s qs).
Proof.
  intros s Hr Hz H0 Hqs. unfold dns_ask. eapply if_returns_bind; [apply (dns_query_run dbg fuel cl c Hr Hz H0)|].
  intros r c1 (new & more & qy & cl' & id & pre & -> & Hid & L12 & E1 & E2 & E3 & Q1).
  apply returns_wps. apply wps_bind. eapply wps_mono; [| |apply (ask_tail (dc_sn cl) True id qs _ qy pre _ _ _ _ Hid Hqs L12 Q1)]; [auto|].
  intros r s' H. apply wps_ret_prog. eapply ask_post_result; eassumption.
Qed.
Lemma dns_a_question_run dbg fuel cl c h : let s := c_sock c (sn_raw (dc_sn cl)) in
  dns_ready cl -> sizes_ok s -> 0 < tx_size s -> hostname_ok h ->
  if_returns (dns_a_question dbg fuel cl h) (sn_raw (dc_sn cl)) c (asked_result cl s [(QA, h)]).
Proof.
  intros s Hr Hz H0 Hh. unfold dns_a_question. eapply if_returns_bind; [apply (dns_query_run dbg fuel cl c Hr Hz H0)|].
  intros r c1 (new & more & qy & cl' & id & pre & -> & Hid & L12 & E1 & E2 & E3 & Q1).
  apply returns_wps. apply wps_bind. 
  pose proof (ask_tail (dc_sn cl) True id [(QA, h)] _ qy pre _ _ _ _ Hid (Forall_cons (QA, h) (Hh : hostname_ok (snd (QA, h))) (Forall_nil _)) L12 Q1) as W.
  unfold bindM in W at 1. apply wps_unbind in W. cbn [ask_all] in W. unfold bindM in W at 1. apply wps_unbind in W.
  unfold bindM at 1. apply wps_bind. eapply wps_mono; [| |exact W]; [auto|]. intros [q2|e] s2 W2; cbn [wps ret] in W2.
  - eapply wps_mono; [| |exact W2]; [auto|]. intros r s' H. apply wps_ret_prog. eapply ask_post_result; eassumption.
  - apply wps_ret_prog, wps_ret_prog. eapply ask_post_result; eassumption.
Qed.

(** ** Which datagrams are taken for a response *)
Lemma body_reject D fuel id m : bytes_ok m -> zlen m <= 65535 -> ~ answers_query m id ->
  wpa rd_ok (response_body fuel (Some id)) m 0 D (fun r w pos => w = m /\ r = Ok None).
Proof.
  intros Hm Hz Hn. unfold response_body. apply wpa_read; [split; [cbn; unfold is_u16, DNS_HEADER_LEN; lia|reflexivity]|].
  unfold DNS_HEADER_LEN. rewrite Z.sub_0_r. change (zdrop 0 m) with m. pose proof (zlen_nonneg m).
  rewrite zlen_ztake. destruct (Z.eqb_spec (Z.min (Z.max 0 (Z.min (zlen m) 12)) (zlen m)) 12) as [E|E]; cbn [negb]; [|cbn; auto].
  replace (Z.min (zlen m) 12) with 12 by lia.
  assert (forall i, (i < 12)%nat -> at_ (ztake 12 m) i = at_ m i) as At.
  { intros i Hi. unfold at_. rewrite <- (ztake_zdrop 12 m) at 2. rewrite app_nth1; [reflexivity|].
    assert (zlen (ztake 12 m) = 12) as L by (rewrite zlen_ztake; lia). unfold zlen in L. lia. }
  unfold hdr_qr, hdr_id. rewrite !At by lia.
  pose proof (bytes_at m 2 Hm) as B2. unfold is_u8 in B2. rewrite qr_bit by lia.
  destruct (Z.leb_spec 128 (at_ m 2)); cbn [negb]; [|cbn; auto].
  destruct (Z.eqb_spec (of_be16 (at_ m 0) (at_ m 1)) id) as [Ei|]; cbn [negb]; [|cbn; auto].
  exfalso. apply Hn. split; [lia|]. split; [lia|exact Ei].
Qed.
Lemma response_reject dbg fuel cl c d q fs a id : udp_view (c_sock c (sn_raw (dc_sn cl))) (d :: q) fs a ->
  ~ answers_query (d_data d) id ->
  ensures (dns_response dbg fuel cl id) (sn_raw (dc_sn cl)) c (fun r s' => r = Err WouldBlock /\ exists new, udp_view s' (q ++ new) fs a).
Proof.
  intros V Hn. apply ensures_wps. unfold dns_response, recv_response. apply wps_bindM.
  eapply wps_mono; [| |apply (ureader_open (dc_sn cl) False dbg _ (d :: q) fs a V)]; [auto|].
  intros r s1 (n1 & [(_ & C & _)|(c1 & d' & q' & Eq & -> & R1 & Hp)]); [discriminate C|].
  cbn [app] in Eq. injection Eq as <- <-. cbn [ur_inner]. apply wps_bind.
  destruct (ureading_data _ _ _ _ _ _ _ R1) as (B1 & B2 & _).
  eapply wps_mono; [| |eapply (ureading_run _ False s1 c1 d _ fs a _ _ R1); rewrite Hp; apply (body_reject False fuel id _ B1 B2 Hn)]; [auto|].
  intros [x c2] s2 (n2 & R2 & (_ & ->)). cbn [fst snd] in *. apply wps_bindM.
  eapply wps_mono; [| |apply (ureading_done _ False s2 c2 d _ fs a R2)]; [auto|].
  intros r s3 (-> & n3 & V3). apply wps_ret_prog. split; [reflexivity|]. exists (n1 ++ n2 ++ n3). now rewrite !app_assoc.
Qed.

(** ** C28 *)
Lemma class_low v c : 0 <= v -> Qclass_try_from v = Ok c <-> v mod 128 = Qclass_val c.
Proof.
  intros Hv. unfold Qclass_try_from. change 127 with (Z.ones 7). rewrite Z.land_ones by lia. change (2 ^ 7) with 128.
  repeat match goal with |- context [?x =? Qclass_val ?k] => destruct (Z.eqb_spec x (Qclass_val k)) as [?E|?N] end;
    (split; [intros E0; (injection E0 as <-; assumption) || discriminate E0|]; intros E0; destruct c; try congruence;
     exfalso; unfold Qclass_val in *; lia).
Qed.
Lemma class_unknown v x : 0 <= v -> Qclass_try_from v = Err x -> x = v mod 128.
Proof.
  intros Hv. unfold Qclass_try_from. change 127 with (Z.ones 7). rewrite Z.land_ones by lia. change (2 ^ 7) with 128.
  repeat match goal with |- context [?x =? Qclass_val ?k] => destruct (x =? Qclass_val k); [discriminate|] end.
  intros E. now injection E as <-.
Qed.
(** For classes with a zero in bits 7 to 14 the classification is the assigned one, except for ANY. *)
Lemma class_small v : is_u16 v -> (v mod 32768) < 128 -> v mod 32768 <> 5 ->
  decodes class_number (v mod 32768) (Qclass_try_from v).
Proof.
  unfold is_u16. intros Hv Hs H5. assert (v mod 32768 = v mod 128) as E by lia. rewrite E in *. unfold decodes.
  destruct (Qclass_try_from v) as [c|x] eqn:Ec.
  - left. exists c. split; [reflexivity|]. apply class_low in Ec; [|lia]. destruct c; cbn in *; try lia.
  - right. pose proof (class_unknown v x ltac:(lia) Ec) as ->. split; [reflexivity|].
    intros c Hc. assert (c <> QC_ANY) as Ha by (intros ->; cbn in Hc; lia).
    assert (Qclass_val c = v mod 128) as Hq by (destruct c; cbn in *; congruence).
    symmetry in Hq. apply (class_low v c) in Hq; [congruence|lia].
Qed.
