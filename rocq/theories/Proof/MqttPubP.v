(** PUBLISH packets, and arbitrary bytes. *)
From Verif Require Export Proof.MqttProcP.
From Verif Require Import Model.HlTcp Model.LlBits Model.Ll Model.LlAddr Model.Stream Model.Mqtt Proof.SprogP.

(** Reading a part of the window. *)
Lemma read_part_wpa idx len k w pos D (Q : res err (list Z) -> list Z -> Z -> Prop) : is_u16 idx -> idx <= zlen w -> 0 <= len -> 0 <= k ->
  let m := Z.min (len16 k) len in
  Q (if m <=? zlen w - idx then Ok (ztake m (zdrop idx w)) else Err UnexpectedEof) w (if m <=? zlen w - idx then idx + m else idx) ->
  wpa rd_ok (read_part idx len k) w pos D Q.
Proof.
  intros Hi Hw Hl Hk m H. unfold read_part. pose proof Hi as (Hi0 & _). cbn [sbindM sbind s_seek wpa astep target sret].
  split; [split; [exact Hi|reflexivity]|]. destruct (Z.leb_spec 0 idx); [|lia]. destruct (Z.leb_spec idx (zlen w)); [|lia]. cbn [andb wpa sbind sret s_read_exact astep].
  split; [split; [|reflexivity]|].
  { cbn [cop_ok]. rewrite len16_spec. lia. }
  fold m. destruct (m <=? zlen w - idx); exact H.
Qed.

Section Pub.
Context (sn : Sn).
Let n := snz sn.
Notation view := tcp_view.

(** A reader of a well-formed PUBLISH. *)
Definition pub_at (p : PublishReader) (w topic payload : list Z) (e : Z) : Prop :=
  0 <= pr_topic_idx p /\ pr_topic_len p = zlen topic /\ ztake (zlen topic) (zdrop (pr_topic_idx p) w) = topic /\
  0 <= pr_payload_idx p /\ pr_payload_len p = zlen payload /\ ztake (zlen payload) (zdrop (pr_payload_idx p) w) = payload /\
  pr_topic_idx p + zlen topic <= zlen w /\ pr_payload_idx p + zlen payload = e /\ e <= zlen w.
Lemma part_of idx part w k : 0 <= idx -> 0 <= k -> zlen w <= 16384 -> ztake (zlen part) (zdrop idx w) = part -> idx + zlen part <= zlen w ->
  let m := Z.min (len16 k) (zlen part) in
  (if m <=? zlen w - idx then Ok (ztake m (zdrop idx w)) else @Err err (list Z) UnexpectedEof) = Ok (ztake k part).
Proof.
  intros Hi Hk Hw E Hl m. pose proof (zlen_nonneg part) as Hn. assert (m = Z.min (Z.min k 65535) (zlen part)) as Em by (unfold m; now rewrite len16_spec).
  destruct (Z.leb_spec m (zlen w - idx)); [|lia]. f_equal.
  assert (ztake m (zdrop idx w) = ztake m part) as -> by (transitivity (ztake m (ztake (zlen part) (zdrop idx w))); [rewrite ztake_ztake; f_equal; lia|now rewrite E]).
  destruct (Z.leb_spec k (zlen part)); [f_equal; lia|]. rewrite !ztake_all by lia. reflexivity.
Qed.
Lemma pr_read_wps D idx len p k part s w rd tx : treading sn s (pr_reader p) w rd tx -> 0 <= idx -> 0 <= k -> zlen w <= 16384 ->
  len = zlen part -> ztake (zlen part) (zdrop idx w) = part -> idx + zlen part <= zlen w ->
  wps (pr_read idx len p k) n s D (fun x s' => fst x = Ok (ztake k part) /\ treading sn s' (pr_reader (snd x)) w rd tx /\
    pr_topic_len (snd x) = pr_topic_len p /\ pr_topic_idx (snd x) = pr_topic_idx p /\
    pr_payload_len (snd x) = pr_payload_len p /\ pr_payload_idx (snd x) = pr_payload_idx p).
Proof.
  intros T Hi Hk Hw -> E Hl. pose proof (zlen_nonneg part). unfold pr_read. apply wps_bind.
  eapply wps_mono; [| |apply (treading_run sn D s _ w rd tx (read_part idx (zlen part) k) (fun r _ _ => r = Ok (ztake k part)) T)]; [auto| |].
  - intros [r cur] s' (T' & Hr & _). cbn [fst snd] in *. subst r. cbn [mq_err wps fst snd pr_reader pr_topic_len pr_topic_idx pr_payload_len pr_payload_idx]. auto 6.
  - apply read_part_wpa; try lia. { unfold is_u16. lia. } now apply part_of.
Qed.
Lemma pub_run_wps D topic payload e w rd tx ops : zlen w <= 16384 -> Forall pub_op_ok ops -> forall p s, treading sn s (pr_reader p) w rd tx ->
  pub_at p w topic payload e ->
  wps (pub_run p ops) n s D (fun x s' => fst x = map (pub_answer topic payload) ops /\ treading sn s' (pr_reader (snd x)) w rd tx /\
    pub_at (snd x) w topic payload e).
Proof.
  intros Hw. induction 1 as [|o ops Ho Hops IH]; intros p s T A; cbn [pub_run wps]; [auto|].
  pose proof A as (A1 & A2 & A3 & A4 & A5 & A6 & A7 & A8 & A9). apply wps_bind.
  apply wps_mono with (D := D) (Q := fun x s' => fst x = pub_answer topic payload o /\ treading sn s' (pr_reader (snd x)) w rd tx /\ pub_at (snd x) w topic payload e); [auto| |].
  - intros [r p1] s1 (E1 & T1 & B1). cbn [fst snd] in *. apply wps_bind. eapply wps_mono; [| |exact (IH p1 s1 T1 B1)]; [auto|].
    intros [rs p2] s2 (E2 & T2 & B2). cbn [fst snd wps map] in *. split; [now rewrite E1, E2|]. auto.
  - destruct o as [k|k]; cbn [pub_op_ok pub_answer] in *.
    + eapply wps_mono; [| |apply (pr_read_wps D (pr_topic_idx p) (pr_topic_len p) p k topic s w rd tx)]; auto; try lia.
      intros x s' (X1 & X2 & X3 & X4 & X5 & X6). split; [exact X1|]. split; [exact X2|]. unfold pub_at. rewrite X3, X4, X5, X6. exact A.
    + eapply wps_mono; [| |apply (pr_read_wps D (pr_payload_idx p) (pr_payload_len p) p k payload s w rd tx)]; auto; try lia.
      intros x s' (X1 & X2 & X3 & X4 & X5 & X6). split; [exact X1|]. split; [exact X2|]. unfold pub_at. rewrite X3, X4, X5, X6. exact A.
Qed.
Lemma pr_done_wps D p s w rd tx : treading sn s (pr_reader p) w rd tx -> zlen w <= 16384 ->
  0 <= pr_payload_idx p -> 0 <= pr_payload_len p -> pr_payload_idx p + pr_payload_len p <= zlen w ->
  wps (pr_done p) n s D (fun x s' => x = Ok tt /\ view s' (rd ++ ztake (pr_payload_idx p + pr_payload_len p) w) tx).
Proof.
  intros T Hw Hi Hl Hs. unfold pr_done. destruct (Z.leb_spec 65536 (pr_payload_idx p + pr_payload_len p)); [lia|]. apply wps_bind.
  set (e := pr_payload_idx p + pr_payload_len p) in *.
  eapply wps_mono; [| |apply (treading_run sn D s _ w rd tx (s_seek (SStart e)) (fun r _ pos => r = Ok tt /\ pos = e) T)]; [auto| |].
  - intros [r cur] s1 (T1 & (E & Ep) & _). cbn [fst snd] in *. subst r. cbn [mq_err]. apply wps_bind.
    eapply wps_mono; [| |exact (treading_done sn D s1 cur w rd tx T1)]; [auto|].
    intros d s2 (-> & V2 & _). cbn [wps]. rewrite Ep in V2. auto.
  - cbn [s_seek wpa astep target sret]. split; [split; [cbn; unfold is_u16; lia|reflexivity]|].
    destruct (Z.leb_spec 0 e); [|lia]. destruct (Z.leb_spec e (zlen w)); [|lia]. cbn [andb]. cbn [wpa sret]. auto.
Qed.

Lemma publish_session dbg fuel c now ch rd tx retain topic props payload more ops fin :
  mq_sn c = sn -> st_state (mq_st c) <> MInit -> view (c_sock ch n) rd tx -> clock_ok c now -> bytes_ok (unread (c_sock ch n)) ->
  zlen props < 128 -> Forall pub_op_ok ops -> let pkt := publish_packet retain topic props payload in unread (c_sock ch n) = pkt ++ more ->
  ensures_ir no_link_change (pub_session dbg fuel c now ops fin) n ch (fun x s' =>
    x = (Some (map (pub_answer topic payload) ops, Ok tt), c) /\ view s' (rd ++ (if fin then pkt else [])) tx).
Proof.
  intros Hsn Hst V Hc Hb Hp Ho pkt U. pose proof (snz_range sn) as Hsr.
  pose proof (zlen_nonneg topic) as Ht. pose proof (zlen_nonneg payload) as Hpl. pose proof (zlen_nonneg props) as Hpr.
  set (f := if retain then 1 else 0). assert (0 <= f < 16) as Hf by (unfold f; destruct retain; lia).
  set (body := mstr topic ++ mprops props ++ payload). set (h := zlen (varint (zlen body)) + 1).
  assert (pkt = mpacket 3 f body) as Epk by reflexivity.
  assert (mprops props = zlen props :: props) as Ep by (unfold mprops, varint; destruct (Z.ltb_spec (zlen props) 128); [reflexivity|lia]).
  assert (zlen body = 3 + zlen topic + zlen props + zlen payload) as Lb.
  { unfold body. rewrite Ep. unfold mstr. rewrite !zlen_app, zlen_cons. change (zlen (two (zlen topic))) with 2. lia. }
  assert (zlen pkt = h + zlen body) as Lp by (rewrite Epk, packet_len; unfold h; lia).
  assert (0 < h) as Hh by (unfold h; pose proof (varint_pos (zlen body)); lia).
  assert (forall new, zdrop h (pkt ++ new) = body ++ new) as Hd.
  { intros new. rewrite Epk. unfold mpacket. cbn [app]. rewrite <- app_assoc. change (?x :: ?l) with ([x] ++ l) at 1. rewrite app_assoc.
    replace h with (zlen ([16 * 3 + f] ++ varint (zlen body))) by (rewrite zlen_app; unfold h; change (zlen [16 * 3 + f]) with 1; lia).
    apply zdrop_exact. }
  unfold pub_session. eapply ensures_ir_bind; [lia| |].
  - apply (process_rx sn) with (rd := rd) (tx := tx)
      (R := fun e w pos => e = RxPublish (zlen topic) (h + 2) (zlen payload) (h + 2 + zlen topic + 1 + zlen props))
      (Q := fun x s' => exists cur new, x = (Ok (MEPublish (mkPR cur (zlen topic) (h + 2) (zlen payload) (h + 2 + zlen topic + 1 + zlen props))), c) /\
        zlen (pkt ++ new) <= 16384 /\ treading sn s' cur (pkt ++ new) rd tx); auto; fold n.
    + intros new w Hw Lw. unfold w in *. rewrite U, <- app_assoc in *. rewrite Epk in *. apply recv_publish_ok; try lia; [fold body; lia|reflexivity].
    + intros x s' [(X & _)|(new & e & pos & rest & Hw & Lw & -> & HL & cur & Hx & T)].
      * rewrite U in X. apply app_eq_nil in X as (X & _). rewrite Epk in X. discriminate.
      * rewrite U, <- app_assoc in *. exists cur, (more ++ new). split; [exact Hx|]. split; [lia|exact T].
  - intros x s (cur & new & -> & Lw & T). cbn [fst snd]. set (p := mkPR _ _ _ _ _). set (w := pkt ++ new) in *.
    assert (zlen w = h + zlen body + zlen new) as Lw' by (unfold w; rewrite zlen_app; lia). pose proof (zlen_nonneg new) as Hnn.
    assert (pub_at p w topic payload (zlen pkt)) as A.
    { assert (forall k, 0 <= k -> zdrop (h + k) w = zdrop k (body ++ new)) as Hk.
      { intros k Hk. replace (h + k) with (k + h) by lia. rewrite <- zdrop_zdrop by lia. unfold w. now rewrite Hd. }
      unfold pub_at, p. cbn [pr_topic_idx pr_topic_len pr_payload_idx pr_payload_len].
      split; [lia|]. split; [reflexivity|]. split.
      { rewrite Hk by lia. unfold body, mstr. rewrite <- !app_assoc. change 2 with (zlen (two (zlen topic))). rewrite zdrop_exact. apply ztake_exact. }
      split; [lia|]. split; [reflexivity|]. split; [|lia].
      replace (h + 2 + zlen topic + 1 + zlen props) with (h + (3 + zlen topic + zlen props)) by lia. rewrite Hk by lia. unfold body. rewrite Ep. unfold mstr.
      replace (3 + zlen topic + zlen props) with (zlen ((two (zlen topic) ++ topic) ++ (zlen props :: props))) by
        (rewrite !zlen_app, zlen_cons; change (zlen (two (zlen topic))) with 2; lia).
      rewrite <- app_assoc. rewrite (app_assoc (two (zlen topic) ++ topic)), <- (app_assoc _ payload new), zdrop_exact. apply ztake_exact. }
    apply wps_bind. eapply wps_mono; [| |exact (pub_run_wps False topic payload (zlen pkt) w rd tx ops ltac:(lia) Ho p s T A)]; [auto|].
    intros [rs p'] s1 (E1 & T1 & A1). cbn [fst snd] in *. apply wps_bind. destruct fin.
    + pose proof A1 as (A2 & A3 & A4 & A5 & A6 & A7 & A8 & A9 & A10).
      eapply wps_mono; [| |apply (pr_done_wps False p' s1 w rd tx T1)]; [auto| |lia|lia|lia|lia].
      intros d s2 (-> & V2). cbn [wps]. rewrite A6, A9 in V2. unfold w in V2. rewrite ztake_exact, <- E1 in *. split; [reflexivity|exact V2].
    + cbn [wps]. rewrite app_nil_r, E1. split; [reflexivity|apply T1].
Qed.

(** ** Arbitrary bytes *)
Definition pub_fine (p : PublishReader) (w : list Z) : Prop :=
  0 <= pr_topic_idx p <= zlen w /\ 0 <= pr_topic_len p /\ 0 <= pr_payload_idx p <= zlen w /\ 0 <= pr_payload_len p <= zlen w.
Lemma pr_read_any D idx len p k s w rd tx : treading sn s (pr_reader p) w rd tx -> zlen w <= 16384 -> 0 <= idx <= zlen w -> 0 <= len -> 0 <= k ->
  wps (pr_read idx len p k) n s D (fun x s' => fst x <> Err MOther /\ treading sn s' (pr_reader (snd x)) w rd tx /\
    (pub_fine p w -> pub_fine (snd x) w)).
Proof.
  intros T Hw Hi Hl Hk. unfold pr_read. apply wps_bind.
  eapply wps_mono; [| |apply (treading_run sn D s _ w rd tx (read_part idx len k) (fun r _ _ => (exists l, r = Ok l) \/ r = Err UnexpectedEof) T)]; [auto| |].
  - intros [r cur] s' (T' & Hr & _). cbn [fst snd] in *. destruct Hr as [(l & ->)| ->]; cbn [mq_err map_w5500 wps fst snd pr_reader].
    + split; [discriminate|]. split; [exact T'|]. intros H. exact H.
    + split; [discriminate|]. split; [exact T'|]. intros H. exact H.
  - apply read_part_wpa; try lia. { unfold is_u16. lia. } destruct (_ <=? _); eauto.
Qed.
Lemma pub_run_any D w rd tx ops : zlen w <= 16384 -> Forall pub_op_ok ops -> forall p s, treading sn s (pr_reader p) w rd tx -> pub_fine p w ->
  wps (pub_run p ops) n s D (fun x s' => ~ In (Err MOther) (fst x) /\ treading sn s' (pr_reader (snd x)) w rd tx /\ pub_fine (snd x) w).
Proof.
  intros Hw. induction 1 as [|o ops Ho Hops IH]; intros p s T A; cbn [pub_run wps]; [auto|]. apply wps_bind.
  apply wps_mono with (D := D) (Q := fun x s' => fst x <> Err MOther /\ treading sn s' (pr_reader (snd x)) w rd tx /\ pub_fine (snd x) w); [auto| |].
  - intros [r p1] s1 (E1 & T1 & B1). cbn [fst snd] in *. apply wps_bind. eapply wps_mono; [| |exact (IH p1 s1 T1 B1)]; [auto|].
    intros [rs p2] s2 (E2 & T2 & B2). cbn [fst snd wps In] in *. split; [intros [X|X]; [congruence|contradiction]|]. auto.
  - pose proof A as (A1 & A2 & A3 & A4). destruct o as [k|k]; cbn [pub_op_ok] in *.
    + eapply wps_mono; [| |apply (pr_read_any D (pr_topic_idx p) (pr_topic_len p) p k s w rd tx)]; auto. cbn. intros x s' (X & Y & Z). auto.
    + eapply wps_mono; [| |apply (pr_read_any D (pr_payload_idx p) (pr_payload_len p) p k s w rd tx)]; auto; try lia. cbn. intros x s' (X & Y & Z). auto.
Qed.
Lemma pr_done_any D p s w rd tx : treading sn s (pr_reader p) w rd tx -> zlen w <= 16384 -> pub_fine p w ->
  wps (pr_done p) n s D (fun x s' => x <> Err MOther /\ exists rd', view s' (rd ++ rd') tx).
Proof.
  intros T Hw (A1 & A2 & A3 & A4). unfold pr_done. destruct (Z.leb_spec 65536 (pr_payload_idx p + pr_payload_len p)); [lia|]. apply wps_bind.
  set (e := pr_payload_idx p + pr_payload_len p) in *.
  eapply wps_mono; [| |apply (treading_run sn D s _ w rd tx (s_seek (SStart e)) (fun r _ pos => r = Ok tt \/ r = Err UnexpectedEof) T)]; [auto| |].
  - intros [r cur] s1 (T1 & [->| ->] & _); cbn [mq_err map_w5500 fst snd].
    + apply wps_bind. eapply wps_mono; [| |exact (treading_done sn D s1 cur w rd tx T1)]; [auto|].
      intros d s2 (-> & V2 & _). cbn [wps]. split; [discriminate|eauto].
    + cbn [wps]. split; [discriminate|]. exists []. rewrite app_nil_r. apply T1.
  - cbn [s_seek wpa astep target sret]. split; [split; [cbn; unfold is_u16; lia|reflexivity]|].
    destruct ((0 <=? e) && (e <=? zlen w)); cbn [wpa sret sfail]; auto.
Qed.
(** No server makes a session panic or hang. *)
Lemma session_any dbg fuel c now ch rd tx ops fin :
  mq_sn c = sn -> st_state (mq_st c) <> MInit -> view (c_sock ch n) rd tx -> clock_ok c now -> bytes_ok (unread (c_sock ch n)) ->
  (forall i, mq_client_id c = Some i -> zlen i <= 23) -> Forall pub_op_ok ops ->
  ensures (pub_session dbg fuel c now ops fin) n ch (fun _ s' => served rd tx (connect_of c (c_sock ch n)) s').
Proof.
  intros Hsn Hst V Hc Hb Hi Ho. pose proof (snz_range sn) as Hsr.
  assert (ensures_ir (fun _ => True) (pub_session dbg fuel c now ops fin) n ch (fun _ s' => served rd tx (connect_of c (c_sock ch n)) s')) as G.
  2:{ intros sch Hs. exact (G sch Hs I). }
  unfold pub_session. eapply ensures_ir_bind; [lia| |].
  - apply (process_ir sn) with (rd := rd) (tx := tx)
     (Q := fun x s' => (exists p w, fst x = Ok (MEPublish p) /\ treading sn s' (pr_reader p) w rd tx /\ zlen w <= 16384 /\ pub_fine p w) \/
       ((forall p, fst x <> Ok (MEPublish p)) /\ served rd tx (connect_of c (c_sock ch n)) s')); auto.
    intros v s1 n1 _ V1 U1 B1 Hr Rz. fold n in V1, U1, Hr, Rz |- *.
    assert (served rd tx (connect_of c (c_sock ch n)) s1) as S1 by (exists []; left; now rewrite app_nil_r).
    destruct (Z.testbit v 1); [|destruct (Z.testbit v 0); [|destruct (Z.testbit v 3)]].
    + cbn [wps]. right. split; [discriminate|exact S1].
    + eapply wps_mono; [| |exact (after_connect sn False c now s1 rd tx Hsn V1 Hi)]; [auto|]. unfold connect_of. rewrite Rz.
      intros x s' [(-> & V')|(-> & _ & V')]; right; (split; [discriminate|]); exists []; [now right|left; now rewrite app_nil_r].
    + cbn [wps]. right. split; [discriminate|exact S1].
    + assert (bytes_ok (unread s1)) as Hb1 by (rewrite U1; apply bytes_ok_app; auto).
      eapply wps_mono; [| |apply (rx_spec sn False dbg c now s1 rd tx rx_fine Hsn V1 Hc Hb1)]; [auto| |].
      2:{ intros new Hw Lw. now apply recv_total. }
      assert (forall c now x p, waits c now x -> fst x <> Ok (MEPublish p)) as Hwt.
      { intros c0 now0 x p W. unfold waits in W. destruct (st_timeout (mq_st c0)); [destruct W as [(_ & ->)|(_ & ->)]|subst x]; discriminate. }
      intros x s' [(_ & W & V')|(new & e & pos & rest & Hw & Lw & F & HL & P)].
      { right. split; [intros p; now apply (Hwt c now)|]. exists []. left. now rewrite app_nil_r. }
      destruct e as [|e i|st r|tl ti pl pi]; cbn [rx_post rx_fine] in *.
      * right. destruct P as (W & V'). split; [intros p; now apply (Hwt c now)|]. exists []. left. now rewrite app_nil_r.
      * right. destruct P as (-> & V'). split; [discriminate|]. exists []. left. now rewrite app_nil_r.
      * right. destruct P as (V' & W). split; [|eexists; left; exact V'].
        destruct r as [[a|]|e]; [subst x; destruct a; discriminate|intros p; now apply (Hwt (rx_state c st) now)|subst x; discriminate].
      * left. destruct P as (cur & -> & T). exists (mkPR cur tl ti pl pi), (unread s1 ++ new). split; [reflexivity|]. split; [exact T|].
        split; [lia|]. unfold pub_fine. cbn. lia.
  - intros [r c'] s [(p & w & E & T & Lw & F)|(E & S)]; cbn [fst snd] in *.
    + subst r. apply wps_bind. eapply wps_mono; [| |exact (pub_run_any False w rd tx ops Lw Ho p s T F)]; [auto|].
      intros [rs p'] s1 (_ & T1 & F1). cbn [fst snd] in *. apply wps_bind. destruct fin.
      * eapply wps_mono; [| |exact (pr_done_any False p' s1 w rd tx T1 Lw F1)]; [auto|]. intros d s2 (_ & rd' & V2). cbn [wps]. exists rd'. now left.
      * cbn [wps]. exists []. left. rewrite app_nil_r. apply T1.
    + destruct r as [[]|]; cbn [wps]; try exact S. now destruct (E p).
Qed.
End Pub.
