(** Packets that the MQTT client receives: [recv] on a window of received bytes. *)
From Verif Require Export Proof.MqttSendP.
From Verif Require Import Model.HlTcp Model.LlBits Model.Ll Model.LlAddr Model.Stream Model.Mqtt Proof.DnsNameP Proof.SprogP.

(** ** Rules *)
Section Rules.
Context (w : list Z) (D : Prop) (Q : rx_end -> list Z -> Z -> Prop).
Lemma rx_read k f pos : 0 <= k ->
  wpa rd_ok (f (ztake (Z.min (zlen w - pos) k) (zdrop pos w))) w (pos + Z.min (zlen w - pos) k) D Q ->
  wpa rd_ok (rx_io (s_read k) f) w pos D Q.
Proof. intros Hk H. cbn [rx_io sbind s_read wpa astep sret]. split; [split; [exact Hk|reflexivity]|exact H]. Qed.
Lemma rx_exact k f pos : 0 <= k ->
  (if k <=? zlen w - pos then wpa rd_ok (f (ztake k (zdrop pos w))) w (pos + k) D Q else Q (RxErr MDecode false) w pos) ->
  wpa rd_ok (rx_try (s_read_exact k) f) w pos D Q.
Proof.
  intros Hk H. cbn [rx_try sbind s_read_exact wpa astep sret]. split; [split; [exact Hk|reflexivity]|].
  destruct (k <=? zlen w - pos); exact H.
Qed.
Lemma rx_start o f pos : is_u16 o ->
  (if o <=? zlen w then wpa rd_ok (f tt) w o D Q else Q (RxErr MDecode false) w pos) ->
  wpa rd_ok (rx_try (s_seek (SStart o)) f) w pos D Q.
Proof.
  intros Hk H. cbn [rx_try sbind s_seek wpa astep sret target]. split; [split; [exact Hk|reflexivity]|].
  unfold is_u16 in Hk. destruct (Z.leb_spec 0 o); [|lia]. cbn [andb]. destruct (o <=? zlen w); exact H.
Qed.
Lemma rx_cur o f pos : is_i16 o -> 0 <= pos -> 0 <= o ->
  (if pos + o <=? zlen w then wpa rd_ok (f tt) w (pos + o) D Q else Q (RxErr MDecode false) w pos) ->
  wpa rd_ok (rx_try (s_seek (SCurrent o)) f) w pos D Q.
Proof.
  intros Hk Hp Ho H. cbn [rx_try sbind s_seek wpa astep sret target]. split; [split; [exact Hk|reflexivity]|].
  destruct (Z.leb_spec 0 (pos + o)); [|lia]. cbn [andb]. destruct (pos + o <=? zlen w); exact H.
Qed.
Lemma rx_skip (b : bool) o f pos : is_i16 o -> 0 <= pos -> 0 <= o -> b = negb (o =? 0) ->
  (if pos + o <=? zlen w then wpa rd_ok (f tt) w (pos + o) D Q else Q (RxErr MDecode false) w pos) -> pos <= zlen w ->
  wpa rd_ok (rx_try (if b then s_seek (SCurrent o) else sret tt) f) w pos D Q.
Proof.
  intros Hk Hp Ho -> H Hw. destruct (Z.eqb_spec o 0) as [->|_]; cbn [negb]; [|now apply rx_cur].
  cbn [rx_try sbind sret wpa]. rewrite Z.add_0_r in H. destruct (Z.leb_spec pos (zlen w)); [exact H|lia].
Qed.
End Rules.

(** ** The fixed header *)
Lemma ctrl_find b : 0 <= b < 256 -> exists c, find (fun c => Z.shiftr b 4 =? ctrl_u8 c) ctrl_all = Some c /\ ctrl_u8 c = b / 16.
Proof.
  intros H. apply (zseq_all (fun b => match find (fun c => Z.shiftr b 4 =? ctrl_u8 c) ctrl_all with
    Some c => ctrl_u8 c =? b / 16 | None => false end) 256) in H; [|vm_compute; reflexivity].
  cbv beta in H. destruct (find _ ctrl_all) as [c|]; [|discriminate]. exists c. split; [reflexivity|now apply Z.eqb_eq].
Qed.
Lemma header_ok b l rest n : 0 <= b < 256 -> vbi n l -> zlen l <= 4 -> exists c, ctrl_u8 c = b / 16 /\
  header_deser (ztake (Z.min (zlen (b :: l ++ rest) - 0) 5) (zdrop 0 (b :: l ++ rest))) =
    Some (if 65536 <=? n then Err Decode else Ok (mkFH c (Z.land b 0xF) n (zlen l + 1))).
Proof.
  intros Hb V L. destruct (ctrl_find b Hb) as (c & Hf & Hc). exists c. split; [exact Hc|].
  rewrite zdrop_0, ztake_cons by (rewrite zlen_cons; pose proof (zlen_nonneg (l ++ rest)); lia).
  rewrite zlen_cons, zlen_app. pose proof (zlen_nonneg rest). pose proof (zlen_nonneg l). rewrite ztake_app_r by lia.
  unfold header_deser. rewrite Hf, (decode_exact n _ _ V L). destruct (65536 <=? n); reflexivity.
Qed.
Lemma header_short b l : 0 <= b < 256 -> more_bytes l -> 
  header_deser (ztake (Z.min (zlen (b :: l) - 0) 5) (zdrop 0 (b :: l))) = Some (Err Fragment).
Proof.
  intros Hb V. destruct (ctrl_find b Hb) as (c & Hf & Hc). rewrite zdrop_0, ztake_cons by (rewrite zlen_cons; pose proof (zlen_nonneg l); lia).
  unfold header_deser. rewrite Hf, decode_fragment; [reflexivity|now apply Forall_ztake|rewrite zlen_ztake; lia].
Qed.
(** Every window: a header that is not complete in five bytes, or one that is. *)
Lemma window_cases w : bytes_ok w -> 0 < zlen w -> exists b r, w = b :: r /\ 0 <= b < 256 /\
  (more_bytes (ztake 4 r) \/ exists n l rest, r = l ++ rest /\ vbi n l /\ zlen l <= 4).
Proof.
  intros Hb Hl. destruct w as [|b r]; [change (zlen (@nil Z)) with 0 in Hl; lia|]. exists b, r. split; [reflexivity|].
  split; [exact (Forall_inv Hb)|]. apply Forall_inv_tail in Hb.
  destruct (vbi_scan (ztake 4 r) (Forall_ztake _ 4 _ Hb)) as [M|(n & l & rest & V & E)]; [left; exact M|right].
  exists n, l, (rest ++ zdrop 4 r). split; [rewrite app_assoc, <- E; symmetry; apply ztake_zdrop|]. split; [exact V|].
  assert (zlen (l ++ rest) <= 4) as L by (rewrite <- E, zlen_ztake; lia). rewrite zlen_app in L. pose proof (zlen_nonneg rest). lia.
Qed.
Lemma header_fragment b r : 0 <= b < 256 -> more_bytes (ztake 4 r) ->
  header_deser (ztake (Z.min (zlen (b :: r) - 0) 5) (zdrop 0 (b :: r))) = Some (Err Fragment).
Proof.
  intros Hb V. destruct (ctrl_find b Hb) as (c & Hf & Hc). rewrite zdrop_0, ztake_cons by (rewrite zlen_cons; pose proof (zlen_nonneg r); lia).
  unfold header_deser. rewrite Hf. rewrite zlen_cons.
  assert (ztake (Z.min (zlen r + 1 - 0) 5 - 1) r = ztake 4 r) as ->.
  { destruct (Z.le_gt_cases 4 (zlen r)); [f_equal; lia|]. rewrite !ztake_all by lia. reflexivity. }
  rewrite decode_fragment; [reflexivity|exact V|rewrite zlen_ztake; lia].
Qed.

(** ** Incomplete packets *)
Lemma recv_fragment st b r D (Q : rx_end -> list Z -> Z -> Prop) : 0 <= b < 256 -> more_bytes (ztake 4 r) -> Q RxNone (b :: r) (Z.min (zlen (b :: r) - 0) 5) ->
  wpa rd_ok (recv_pkt st) (b :: r) 0 D Q.
Proof. intros Hb M H. apply rx_read; [lia|]. rewrite header_fragment by assumption. exact H. Qed.
(** A complete header: what remains to be done. *)
Lemma recv_header st b l rest n D (Q : rx_end -> list Z -> Z -> Prop) : 0 <= b < 256 -> vbi n l -> zlen l <= 4 -> let w := b :: l ++ rest in
  (if 65536 <=? n then Q (RxErr MDecode true) w (Z.min (zlen w - 0) 5) else
   if zlen rest <? n then Q RxNone w (zlen l + 1) else
   forall c, ctrl_u8 c = b / 16 -> let h := mkFH c (Z.land b 0xF) n (zlen l + 1) in
   wpa rd_ok (match c with
     | RESERVED => SRet (RxErr MDecode true)
     | CONNACK => recv_connack h st
     | SUBACK => recv_sub suback_try_from ASubAck
     | UNSUBACK => recv_sub unsuback_try_from AUnSubAck
     | PUBLISH => recv_publish h
     | _ => rx_try (s_seek (SCurrent (clamp_i16 n))) (fun _ => SRet (RxDone None (Ok None)))
     end) w (zlen l + 1) D Q) ->
  wpa rd_ok (recv_pkt st) w 0 D Q.
Proof.
  intros Hb V L w H. pose proof (vbi_len _ _ V). apply rx_read; [lia|]. destruct (header_ok b l rest n Hb V L) as (c & Hc & Eh).
  fold w in Eh. rewrite Eh. destruct (65536 <=? n); [exact H|].
  assert (zlen w = zlen l + zlen rest + 1) as Lw by (unfold w; rewrite zlen_cons, zlen_app; lia). pose proof (zlen_nonneg rest).
  apply rx_start; cbn [fh_len fh_remaining fh_ctrl]; [unfold is_u16; lia|]. destruct (Z.leb_spec (zlen l + 1) (zlen w)); [|lia].
  cbn [sbind s_remain wpa sret aask]. replace (zlen w - (zlen l + 1)) with (zlen rest) by lia.
  destruct (zlen rest <? n); [exact H|]. specialize (H c Hc). cbv zeta in H. destruct c; exact H.
Qed.

Definition wire_ok (t f : Z) (body : list Z) : Prop := 0 <= t < 16 /\ 0 <= f < 16 /\ zlen body <= 65535.
Lemma prefix_cons {A} (x : A) l got missing : got ++ missing = x :: l -> (got = [] \/ exists g, got = x :: g /\ g ++ missing = l).
Proof. destruct got as [|y g]; [now left|]. cbn. intros E. injection E as -> E. right. eauto. Qed.
Lemma prefix_app {A} (l1 l2 got missing : list A) : got ++ missing = l1 ++ l2 ->
  (exists m, got ++ m = l1 /\ m <> []) \/ exists g, got = l1 ++ g /\ g ++ missing = l2.
Proof.
  revert got. induction l1 as [|x l1 IH]; intros got E; cbn [app] in *.
  - right. exists got. auto.
  - destruct (prefix_cons _ _ _ _ E) as [->|(g & -> & E')].
    + left. exists (x :: l1). split; [reflexivity|discriminate].
    + destruct (IH g E') as [(m & E1 & Hm)|(g' & -> & E1)]; [left; exists m|right; exists g']; cbn; (split; [congruence|assumption]).
Qed.
Lemma vbi_prefix n l g m : vbi n l -> g ++ m = l -> m <> [] -> more_bytes g.
Proof.
  intros V. revert g. induction V as [b Hb|b n l Hb _ IH]; intros g E Hm; (destruct (prefix_cons _ _ _ _ E) as [->|(g' & -> & E')]; [constructor|]).
  - destruct g'; [cbn in E'; congruence|discriminate].
  - constructor; [exact Hb|now apply IH].
Qed.
Lemma recv_incomplete st t f body got missing D (Q : rx_end -> list Z -> Z -> Prop) : wire_ok t f body -> got <> [] -> missing <> [] ->
  got ++ missing = mpacket t f body -> (forall pos, Q RxNone got pos) -> wpa rd_ok (recv_pkt st) got 0 D Q.
Proof.
  intros (Ht & Hf & Hl) Hg Hm E HQ. unfold mpacket in E. pose proof (zlen_nonneg body) as Hn.
  destruct (prefix_cons _ _ _ _ E) as [->|(g & -> & E1)]; [contradiction|].
  pose proof (varint_vbi (zlen body) ltac:(lia)) as V.
  destruct (prefix_app _ _ _ _ E1) as [(m & E2 & Hm2)|(g2 & -> & E2)].
  - apply recv_fragment; [lia| |apply HQ]. apply Forall_ztake. eapply vbi_prefix; eassumption.
  - apply recv_header with (n := zlen body); [lia|exact V|rewrite varint_len by lia; destruct (zlen body <? 128), (zlen body <? 16384), (zlen body <? 2097152); lia|].
    destruct (Z.leb_spec 65536 (zlen body)); [lia|].
    assert (zlen g2 < zlen body) as Hlt.
    { rewrite <- E2, zlen_app. destruct missing as [|x r]; [contradiction|]. rewrite zlen_cons. pose proof (zlen_nonneg r). lia. }
    destruct (Z.ltb_spec (zlen g2) (zlen body)); [apply HQ|lia].
Qed.

(** ** Complete packets *)
Lemma recv_complete st t f body rest D (Q : rx_end -> list Z -> Z -> Prop) : wire_ok t f body -> let w := mpacket t f body ++ rest in
  let h := zlen (varint (zlen body)) + 1 in
  (forall c, ctrl_u8 c = t -> zdrop h w = body ++ rest -> zlen w = h + zlen body + zlen rest -> 2 <= h <= 5 ->
   wpa rd_ok (match c with
     | RESERVED => SRet (RxErr MDecode true)
     | CONNACK => recv_connack (mkFH c f (zlen body) h) st
     | SUBACK => recv_sub suback_try_from ASubAck
     | UNSUBACK => recv_sub unsuback_try_from AUnSubAck
     | PUBLISH => recv_publish (mkFH c f (zlen body) h)
     | _ => rx_try (s_seek (SCurrent (clamp_i16 (zlen body)))) (fun _ => SRet (RxDone None (Ok None)))
     end) w h D Q) ->
  wpa rd_ok (recv_pkt st) w 0 D Q.
Proof.
  intros (Ht & Hf & Hl) w h H. pose proof (zlen_nonneg body) as Hn. pose proof (zlen_nonneg rest) as Hr.
  assert (w = (16 * t + f) :: varint (zlen body) ++ body ++ rest) as Ew by (unfold w, mpacket; cbn [app]; now rewrite <- app_assoc).
  pose proof (varint_len (zlen body) ltac:(lia)) as Lv.
  assert (1 <= zlen (varint (zlen body)) <= 4) as Lr.
  { rewrite Lv. destruct (zlen body <? 128), (zlen body <? 16384), (zlen body <? 2097152); lia. }
  rewrite Ew. apply recv_header with (n := zlen body); [lia|apply varint_vbi; lia|lia|].
  destruct (Z.leb_spec 65536 (zlen body)); [lia|]. rewrite zlen_app. destruct (Z.ltb_spec (zlen body + zlen rest) (zlen body)); [lia|].
  intros c Hc. fold h. rewrite <- Ew.
  assert (Z.land (16 * t + f) 15 = f) as -> by (change 15 with (Z.ones 4); rewrite Z.land_ones by lia; change (2 ^ 4) with 16; lia).
  apply H; [lia| | |unfold h; lia].
  - rewrite Ew. unfold h. change (?x :: ?l) with ([x] ++ l) at 1. rewrite app_assoc, zdrop_app_r by (rewrite zlen_app; change (zlen [16 * t + f]) with 1; lia).
    rewrite zlen_app. change (zlen [16 * t + f]) with 1. replace (zlen (varint (zlen body)) + 1 - (1 + zlen (varint (zlen body)))) with 0 by lia. reflexivity.
  - rewrite Ew, zlen_cons, !zlen_app. unfold h. lia.
Qed.
Lemma ctrl_is c t : ctrl_u8 c = t -> nth (Z.to_nat t) ctrl_all RESERVED = c.
Proof. intros <-. destruct c; reflexivity. Qed.

(** CONNACK. *)
Definition connack_end (code : Z) : rx_end :=
  match connect_try_from code with
  | Err 0 => RxDone (Some Ready) (Ok (Some AConnAck))
  | Ok code => RxDone (Some MInit) (Err (MConnAck code))
  | Err _ => RxDone (Some MInit) (Err MProtocol)
  end.
Lemma recv_connack_ok f flags code props rest D (Q : rx_end -> list Z -> Z -> Prop) :
  let body := [flags; code] ++ mprops props in let pkt := mpacket 2 f body in 0 <= f < 16 -> zlen body < 128 ->
  Q (connack_end code) (pkt ++ rest) (zlen pkt) -> wpa rd_ok (recv_pkt WaitConAck) (pkt ++ rest) 0 D Q.
Proof.
  intros body pkt Hf Hl H. pose proof (zlen_nonneg body) as Hn. pose proof (zlen_nonneg rest) as Hr.
  assert (2 <= zlen body) as H2 by (unfold body; rewrite zlen_app; change (zlen [flags; code]) with 2; pose proof (zlen_nonneg (mprops props)); lia).
  assert (zlen (varint (zlen body)) = 1) as Lv by (rewrite varint_len by lia; destruct (Z.ltb_spec (zlen body) 128); lia).
  assert (zlen pkt = zlen body + 2) as Lp by (unfold pkt; rewrite packet_len, Lv; lia).
  apply recv_complete; [repeat split; lia|]. intros c Hc Hd Lw Hh. apply ctrl_is in Hc. cbn in Hc. subst c. rewrite Lv in *.
  unfold recv_connack. cbn [mstate_eqb negb fh_remaining]. apply rx_exact; [lia|]. fold pkt in Lw |- *.
  destruct (Z.leb_spec 2 (zlen (pkt ++ rest) - (1 + 1))); [|lia].
  apply rx_start; [unfold is_u16; lia|]. destruct (Z.leb_spec (Z.min 65535 (zlen body + 2)) (zlen (pkt ++ rest))); [|lia].
  fold pkt in Hd. rewrite Hd. replace (Z.min 65535 (zlen body + 2)) with (zlen pkt) by lia.
  change (at_ (ztake 2 (body ++ rest)) 1) with code. exact H.
Qed.
Lemma recv_connack_early st t f body rest D (Q : rx_end -> list Z -> Z -> Prop) : st <> WaitConAck -> t = 2 -> wire_ok t f body ->
  (forall pos, Q (RxErr MProtocol false) (mpacket t f body ++ rest) pos) -> wpa rd_ok (recv_pkt st) (mpacket t f body ++ rest) 0 D Q.
Proof.
  intros Hst -> Hw H. apply recv_complete; [exact Hw|]. intros c Hc Hd Lw Hh. apply ctrl_is in Hc. cbn in Hc. subst c.
  unfold recv_connack. destruct st; try contradiction; cbn [mstate_eqb negb wpa]; apply H.
Qed.

(** SUBACK and UNSUBACK. *)
Lemma recv_sub_ok {A} (try_from : Z -> res Z A) (event : Z -> A -> mack) id props code rest w h D (Q : rx_end -> list Z -> Z -> Prop) :
  is_u16 id -> zlen props < 128 -> zdrop h w = two id ++ mprops props ++ code :: rest -> 0 <= h <= zlen w ->
  Q (match try_from code with Err _ => RxErr MProtocol true | Ok c => RxDone None (Ok (Some (event id c))) end) w (h + 4 + zlen props) ->
  wpa rd_ok (recv_sub try_from event) w h D Q.
Proof.
  intros Hi Hp Hd Hh H. pose proof (zlen_nonneg props) as Hn. pose proof (zlen_nonneg rest) as Hr. unfold is_u16 in Hi.
  unfold mprops, varint in Hd. destruct (Z.ltb_spec (zlen props) 128); [|lia]. cbn [app two] in Hd.
  assert (zlen w - h = 4 + zlen props + zlen rest) as Lw.
  { transitivity (zlen (zdrop h w)); [rewrite zlen_zdrop; lia|]. rewrite Hd. rewrite !zlen_cons, zlen_app, zlen_cons. lia. }
  unfold recv_sub. apply rx_read; [lia|]. rewrite Hd. replace (Z.min (zlen w - h) 3) with 3 by lia.
  change (ztake 3 (id / 256 :: id mod 256 :: zlen props :: props ++ code :: rest)) with [id / 256; id mod 256; zlen props].
  change (zlen [id / 256; id mod 256; zlen props] =? 3) with true. cbn [negb at_ nth].
  apply rx_skip; [unfold is_i16; lia|lia|lia|reflexivity| |lia].
  destruct (Z.leb_spec (h + 3 + zlen props) (zlen w)); [|lia]. apply rx_exact; [lia|].
  destruct (Z.leb_spec 1 (zlen w - (h + 3 + zlen props))); [|lia].
  assert (ztake 1 (zdrop (h + 3 + zlen props) w) = [code]) as ->.
  { replace (h + 3 + zlen props) with (3 + zlen props + h) by lia. rewrite <- zdrop_zdrop by lia. rewrite Hd.
    change (id / 256 :: id mod 256 :: zlen props :: props ++ code :: rest) with ([id / 256; id mod 256; zlen props] ++ props ++ code :: rest).
    rewrite zdrop_app_r by (change (zlen [id / 256; id mod 256; zlen props]) with 3; lia). change (zlen [id / 256; id mod 256; zlen props]) with 3.
    rewrite zdrop_app_r by lia. replace (3 + zlen props - 3 - zlen props) with 0 by lia. reflexivity. }
  cbn [at_ nth]. replace (of_be16 (id / 256) (id mod 256)) with id by (unfold of_be16; lia).
  replace (h + 3 + zlen props + 1) with (h + 4 + zlen props) by lia.
  destruct (try_from code); exact H.
Qed.
Lemma recv_suback_ok {A} (try_from : Z -> res Z A) (event : Z -> A -> mack) st t f id props code codes rest D (Q : rx_end -> list Z -> Z -> Prop) :
  (t = 9 /\ (forall w h D Q, wpa rd_ok (recv_sub try_from event) w h D Q -> wpa rd_ok (recv_sub suback_try_from ASubAck) w h D Q) \/
   t = 11 /\ (forall w h D Q, wpa rd_ok (recv_sub try_from event) w h D Q -> wpa rd_ok (recv_sub unsuback_try_from AUnSubAck) w h D Q)) ->
  let body := two id ++ mprops props ++ code :: codes in let pkt := mpacket t f body in
  0 <= f < 16 -> is_u16 id -> zlen props < 128 -> zlen body <= 65535 ->
  Q (match try_from code with Err _ => RxErr MProtocol true | Ok c => RxDone None (Ok (Some (event id c))) end)
    (pkt ++ rest) (zlen pkt - zlen codes) ->
  wpa rd_ok (recv_pkt st) (pkt ++ rest) 0 D Q.
Proof.
  intros Ht body pkt Hf Hi Hp Hl H. pose proof (zlen_nonneg rest) as Hr. pose proof (zlen_nonneg codes) as Hr2. pose proof (zlen_nonneg props) as Hr3.
  assert (zlen body = 4 + zlen props + zlen codes) as Lb.
  { unfold body, mprops. rewrite !zlen_app, zlen_cons. rewrite varint_len by lia. destruct (Z.ltb_spec (zlen props) 128); [|lia].
    change (zlen (two id)) with 2. lia. }
  apply recv_complete; [repeat split; lia|]. intros c Hc Hd Lw Hh. apply ctrl_is in Hc.
  assert (wpa rd_ok (recv_sub try_from event) (mpacket t f body ++ rest) (zlen (varint (zlen body)) + 1) D Q) as G.
  { eapply recv_sub_ok with (id := id) (props := props) (code := code) (rest := codes ++ rest).
    - exact Hi.
    - exact Hp.
    - rewrite Hd. unfold body. rewrite <- !app_assoc. reflexivity.
    - lia.
    - assert (zlen (varint (zlen body)) + 1 + 4 + zlen props = zlen pkt - zlen codes) as -> by (unfold pkt; rewrite packet_len; lia).
      exact H. }
  destruct Ht as [(-> & Hf1)|(-> & Hf1)]; cbn in Hc; subst c; apply Hf1, G.
Qed.

(** PUBLISH. *)
Lemma recv_publish_ok st f topic props payload rest D (Q : rx_end -> list Z -> Z -> Prop) :
  let body := mstr topic ++ mprops props ++ payload in let pkt := mpacket 3 f body in let h := zlen (varint (zlen body)) + 1 in
  0 <= f < 16 -> zlen props < 128 -> zlen (pkt ++ rest) <= 16384 ->
  Q (RxPublish (zlen topic) (h + 2) (zlen payload) (h + 2 + zlen topic + 1 + zlen props)) (pkt ++ rest) (h + 2 + zlen topic + 1 + zlen props) ->
  wpa rd_ok (recv_pkt st) (pkt ++ rest) 0 D Q.
Proof.
  intros body pkt h Hf Hp Hl H. pose proof (zlen_nonneg rest) as Hr. pose proof (zlen_nonneg topic) as Hr2.
  pose proof (zlen_nonneg props) as Hr3. pose proof (zlen_nonneg payload) as Hr4. pose proof (varint_pos (zlen body)) as Lv.
  assert (mprops props = zlen props :: props) as Ep by (unfold mprops, varint; destruct (Z.ltb_spec (zlen props) 128); [reflexivity|lia]).
  assert (zlen body = 3 + zlen topic + zlen props + zlen payload) as Lb.
  { unfold body. rewrite Ep. unfold mstr. rewrite !zlen_app, zlen_cons. change (zlen (two (zlen topic))) with 2. lia. }
  assert (zlen pkt = h + zlen body) as Lp by (unfold pkt; rewrite packet_len; unfold h; lia).
  rewrite zlen_app in Hl. apply recv_complete; [repeat split; lia|]. fold h pkt. intros c Hc Hd Lw Hh. apply ctrl_is in Hc. cbn in Hc. subst c.
  unfold body, mstr in Hd. rewrite Ep, <- !app_assoc in Hd. cbn [app two] in Hd.
  unfold recv_publish. cbn [fh_remaining]. apply rx_exact; [lia|]. destruct (Z.leb_spec 2 (zlen (pkt ++ rest) - h)); [|lia].
  assert (of_be16 (at_ (ztake 2 (zdrop h (pkt ++ rest))) 0) (at_ (ztake 2 (zdrop h (pkt ++ rest))) 1) = zlen topic) as ->.
  { rewrite Hd. change (zlen topic / 256 * 256 + zlen topic mod 256 = zlen topic). lia. }
  cbn [sbind s_position wpa aask sret]. unfold clamp_i16. replace (Z.min (zlen topic) 32767) with (zlen topic) by lia.
  apply rx_cur; [unfold is_i16; lia|lia|lia|]. destruct (Z.leb_spec (h + 2 + zlen topic) (zlen (pkt ++ rest))); [|lia].
  apply rx_exact; [lia|]. destruct (Z.leb_spec 1 (zlen (pkt ++ rest) - (h + 2 + zlen topic))); [|lia].
  assert (at_ (ztake 1 (zdrop (h + 2 + zlen topic) (pkt ++ rest))) 0 = zlen props) as ->.
  { replace (h + 2 + zlen topic) with (2 + zlen topic + h) by lia. rewrite <- zdrop_zdrop by lia. rewrite Hd.
    change (?a :: ?b :: ?l) with ([a; b] ++ l) at 1. rewrite zdrop_app_r by (change (zlen [zlen topic / 256; zlen topic mod 256]) with 2; lia).
    change (zlen [zlen topic / 256; zlen topic mod 256]) with 2. rewrite zdrop_app_r by lia.
    replace (2 + zlen topic - 2 - zlen topic) with 0 by lia. reflexivity. }
  apply rx_skip; [unfold is_i16; lia|lia|lia|reflexivity| |lia].
  destruct (Z.leb_spec (h + 2 + zlen topic + 1 + zlen props) (zlen (pkt ++ rest))); [|lia].
  cbn [sbind s_position wpa aask sret]. unfold sat_sub16, PROPERTY_LEN_LEN.
  replace (Z.max 0 (Z.max 0 (Z.max 0 (Z.max 0 (zlen body - zlen topic) - 2) - 1) - zlen props)) with (zlen payload) by lia.
  exact H.
Qed.
(** Other packets are skipped. *)
Lemma recv_skip_ok st t f body rest D (Q : rx_end -> list Z -> Z -> Prop) : let pkt := mpacket t f body in wire_ok t f body ->
  ~ In t [0; 2; 3; 9; 11] -> zlen (pkt ++ rest) <= 16384 ->
  Q (RxDone None (Ok None)) (pkt ++ rest) (zlen pkt) -> wpa rd_ok (recv_pkt st) (pkt ++ rest) 0 D Q.
Proof.
  intros pkt Hw Ht Hl H. pose proof Hw as (Hw1 & Hw2 & Hw3). pose proof (zlen_nonneg rest) as Hr. pose proof (zlen_nonneg body) as Hn.
  apply recv_complete; [exact Hw|]. fold pkt. intros c Hc Hd Lw Hh.
  assert (zlen pkt = zlen (varint (zlen body)) + 1 + zlen body) as Lp by (unfold pkt; rewrite packet_len; lia).
  assert (wpa rd_ok (rx_try (s_seek (SCurrent (clamp_i16 (zlen body)))) (fun _ => SRet (RxDone None (Ok None)))) (pkt ++ rest)
    (zlen (varint (zlen body)) + 1) D Q) as G.
  { unfold clamp_i16. apply rx_cur; [unfold is_i16; lia|lia|lia|]. rewrite zlen_app in *. replace (Z.min (zlen body) 32767) with (zlen body) by lia.
    rewrite <- Lp. destruct (Z.leb_spec (zlen pkt) (zlen pkt + zlen rest)); [|lia]. exact H. }
  destruct c; try exact G; exfalso; apply Ht; subst t; cbn; auto 6.
Qed.

(** ** Any bytes at all *)
Definition rx_fine (e : rx_end) (w : list Z) (pos : Z) : Prop :=
  match e with
  | RxErr e _ => e = MDecode \/ e = MProtocol
  | RxPublish tl ti pl pi => 0 <= ti /\ 0 <= tl < 65536 /\ ti <= zlen w /\ 0 <= pi <= zlen w /\ 0 <= pl <= zlen w
  | RxDone _ _ => 0 < pos
  | RxNone => True
  end.
Lemma byte_at w i : bytes_ok w -> 0 <= at_ w i < 256.
Proof.
  intros H. unfold at_. destruct (Nat.lt_ge_cases i (length w)) as [L|L]; [|rewrite nth_overflow by exact L; lia].
  unfold bytes_ok in H. rewrite Forall_forall in H. apply (H (nth i w 0)). now apply nth_In.
Qed.
Lemma connack_fine code w pos : 0 < pos -> rx_fine (connack_end code) w pos.
Proof. intros H. unfold connack_end. destruct (connect_try_from code) as [c|[| |]]; exact H. Qed.
Lemma recv_total st w D : bytes_ok w -> 0 < zlen w <= 16384 -> wpa rd_ok (recv_pkt st) w 0 D rx_fine.
Proof.
  intros Hb Hl. destruct (window_cases w Hb ltac:(lia)) as (b & r & -> & H0 & [M|(n & l & rest & -> & V & L)]).
  { now apply recv_fragment. }
  apply recv_header with (n := n); auto. set (w := b :: l ++ rest) in *. destruct (65536 <=? n); [now left|].
  destruct (Z.ltb_spec (zlen rest) n) as [_|Hn]; [exact I|]. intros c Hc. cbv zeta.
  pose proof (vbi_len _ _ V) as Lv. pose proof (vbi_range _ _ V) as Rv.
  assert (zlen w = zlen l + 1 + zlen rest) as Lw by (unfold w; rewrite zlen_cons, zlen_app; lia).
  assert (forall k i q, 0 <= at_ (ztake k (zdrop q w)) i < 256) as Hat by (intros; apply byte_at, bytes_ok_ztake, bytes_ok_zdrop, Hb).
  assert (forall A (tf : Z -> res Z A) ev, wpa rd_ok (recv_sub tf ev) w (zlen l + 1) D rx_fine) as Hsub.
  { intros A tf ev. unfold recv_sub. apply rx_read; [lia|].
    destruct (zlen (ztake (Z.min (zlen w - (zlen l + 1)) 3) (zdrop (zlen l + 1) w)) =? 3) eqn:E3; cbn [negb]; [|now left].
    apply Z.eqb_eq in E3. rewrite zlen_ztake, zlen_zdrop in E3. 
    pose proof (Hat (Z.min (zlen w - (zlen l + 1)) 3) 2%nat (zlen l + 1)) as Hp.
    apply rx_skip; [unfold is_i16; lia|lia|lia|reflexivity| |lia].
    match goal with |- if ?b then _ else _ => destruct b eqn:E4 end; [|now left]. apply rx_exact; [lia|].
    match goal with |- if ?b then _ else _ => destruct b eqn:E5 end; [|now left].
    assert (zlen w >= zlen l + 1 + 3) as Hw3 by lia.
    match goal with |- context [tf ?x] => destruct (tf x) end; [|now right]. cbn [wpa sret rx_fine]. lia. }
  assert (wpa rd_ok (rx_try (s_seek (SCurrent (clamp_i16 n))) (fun _ => SRet (RxDone None (Ok None)))) w (zlen l + 1) D rx_fine) as Hskip.
  { unfold clamp_i16. apply rx_cur; [unfold is_i16; lia|lia|lia|].
    match goal with |- if ?b then _ else _ => destruct b eqn:E4 end; [cbn; lia|now left]. }
  destruct c; try exact Hskip; try apply Hsub.
  - now left.
  - unfold recv_connack. destruct (mstate_eqb st WaitConAck); cbn [negb]; [|now right]. apply rx_exact; [lia|].
    match goal with |- if ?b then _ else _ => destruct b eqn:E4 end; [|now left]. apply rx_start; cbn [fh_remaining]; [unfold is_u16; lia|].
    match goal with |- if ?b then _ else _ => destruct b eqn:E5 end; [|now left]. apply connack_fine. lia.
  - unfold recv_publish. cbn [fh_remaining]. apply rx_exact; [lia|].
    match goal with |- if ?b then _ else _ => destruct b eqn:E4 end; [|now left].
    pose proof (Hat 2 0%nat (zlen l + 1)) as B0. pose proof (Hat 2 1%nat (zlen l + 1)) as B1.
    set (tl := of_be16 _ _). assert (0 <= tl < 65536) as Ht by (unfold tl, of_be16; lia).
    cbn [sbind s_position wpa aask sret]. unfold clamp_i16. apply rx_cur; [unfold is_i16; lia|lia|lia|].
    match goal with |- if ?b then _ else _ => destruct b eqn:E5 end; [|now left]. apply rx_exact; [lia|].
    match goal with |- if ?b then _ else _ => destruct b eqn:E6 end; [|now left].
    match goal with |- context [at_ ?x 0] => pose proof (byte_at x 0 ltac:(apply bytes_ok_ztake, bytes_ok_zdrop, Hb)) as Hp; set (pl := at_ x 0) in * end.
    apply rx_skip; [unfold is_i16; lia|lia|lia|reflexivity| |lia].
    match goal with |- if ?b then _ else _ => destruct b eqn:E7 end; [|now left].
    cbn [sbind s_position wpa aask sret rx_fine]. unfold sat_sub16, PROPERTY_LEN_LEN. lia.
Qed.
