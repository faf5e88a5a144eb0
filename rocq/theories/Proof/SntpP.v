(** The SNTP client. *)
From Verif Require Export Proof.ChipIfP Proof.DhcpChipP Spec.SntpMsg.
From Verif Require Import Model.LlAddr Model.LlBits Model.Ll Model.HlCommon Model.HlTcp Proof.SprogP Proof.DhcpClientP Proof.DhcpBlockP Model.Sntp.

(** ** Fields *)
Lemma of_be64 v : is_u64 v -> u64_from_be (be64 v) = v.
Proof.
  intros H. unfold is_u64 in H. unfold u64_from_be.
  change (of_be32 (at_ (be64 v) 0) (at_ (be64 v) 1) (at_ (be64 v) 2) (at_ (be64 v) 3)) with
    (let x := be32 (v / 4294967296) in of_be32 (at_ x 0) (at_ x 1) (at_ x 2) (at_ x 3)).
  change (of_be32 (at_ (be64 v) 4) (at_ (be64 v) 5) (at_ (be64 v) 6) (at_ (be64 v) 7)) with
    (let x := be32 (v mod 4294967296) in of_be32 (at_ x 0) (at_ x 1) (at_ x 2) (at_ x 3)).
  cbv zeta. pose proof (Z.div_mod v 4294967296 ltac:(lia)) as E. pose proof (Z.mod_pos_bound v 4294967296 ltac:(lia)) as B.
  set (x := v / 4294967296) in *. set (y := v mod 4294967296) in *. clearbody x y. rewrite (of_be32_be32 x), (of_be32_be32 y) by (unfold is_u32; lia). lia.
Qed.
Lemma be64_of a b c d e f g h : is_u8 a -> is_u8 b -> is_u8 c -> is_u8 d -> is_u8 e -> is_u8 f -> is_u8 g -> is_u8 h ->
  exists v, is_u64 v /\ be64 v = [a; b; c; d; e; f; g; h].
Proof.
  intros. exists (of_be32 a b c d * 4294967296 + of_be32 e f g h).
  assert (is_u32 (of_be32 a b c d)) as H7 by (unfold is_u8, is_u32, of_be32 in *; lia).
  assert (is_u32 (of_be32 e f g h)) as H8 by (unfold is_u8, is_u32, of_be32 in *; lia).
  unfold is_u32 in *. split; [unfold is_u64; lia|]. unfold be64.
  replace ((of_be32 a b c d * 4294967296 + of_be32 e f g h) / 4294967296) with (of_be32 a b c d) by lia.
  replace ((of_be32 a b c d * 4294967296 + of_be32 e f g h) mod 4294967296) with (of_be32 e f g h) by lia.
  rewrite !be32_of_be32 by assumption. reflexivity.
Qed.
Lemma is_u32_of a b c d : is_u8 a -> is_u8 b -> is_u8 c -> is_u8 d -> is_u32 (of_be32 a b c d).
Proof. unfold is_u8, is_u32, of_be32. lia. Qed.
Lemma ntp_len p : ntp_ok p -> zlen (ntp_bytes p) = 48.
Proof.
  intros (_ & _ & _ & _ & _ & _ & _ & _ & H & _). unfold ntp_bytes, be64. rewrite !zlen_app, !zlen_be32, H. reflexivity.
Qed.
(** Every 48 bytes are a packet. *)
Lemma ntp_all l : zlen l = 48 -> bytes_ok l -> exists p, ntp_ok p /\ ntp_bytes p = l.
Proof.
  intros Hl Hb.
  do 48 (destruct l as [|? l]; [exfalso; revert Hl; unfold zlen; cbn [length]; lia|]).
  destruct l as [|? l]; [|exfalso; revert Hl; unfold zlen; cbn [length]; lia].
  repeat (apply Forall_inv in Hb as ?B; apply Forall_inv_tail in Hb).
  repeat match goal with H : _ |- _ => apply Forall_inv_tail in Hb end. clear Hl.
  match goal with |- exists p, _ /\ _ = ?L =>
    destruct (be64_of (nth 16 L 0) (nth 17 L 0) (nth 18 L 0) (nth 19 L 0) (nth 20 L 0) (nth 21 L 0) (nth 22 L 0) (nth 23 L 0)) as (v1 & V1 & E1); try assumption;
    destruct (be64_of (nth 24 L 0) (nth 25 L 0) (nth 26 L 0) (nth 27 L 0) (nth 28 L 0) (nth 29 L 0) (nth 30 L 0) (nth 31 L 0)) as (v2 & V2 & E2); try assumption;
    destruct (be64_of (nth 32 L 0) (nth 33 L 0) (nth 34 L 0) (nth 35 L 0) (nth 36 L 0) (nth 37 L 0) (nth 38 L 0) (nth 39 L 0)) as (v3 & V3 & E3); try assumption;
    destruct (be64_of (nth 40 L 0) (nth 41 L 0) (nth 42 L 0) (nth 43 L 0) (nth 44 L 0) (nth 45 L 0) (nth 46 L 0) (nth 47 L 0)) as (v4 & V4 & E4); try assumption;
    exists (mkNtp (nth 0 L 0 / 64) (nth 0 L 0 / 8 mod 8) (nth 0 L 0 mod 8) (nth 1 L 0) (nth 2 L 0) (as_i8 (nth 3 L 0))
      (of_be32 (nth 4 L 0) (nth 5 L 0) (nth 6 L 0) (nth 7 L 0)) (of_be32 (nth 8 L 0) (nth 9 L 0) (nth 10 L 0) (nth 11 L 0))
      [nth 12 L 0; nth 13 L 0; nth 14 L 0; nth 15 L 0] v1 v2 v3 v4)
  end; cbn [nth] in *; split.
  - unfold ntp_ok. cbn [p_leap p_version p_mode p_stratum p_poll p_precision p_delay p_dispersion p_refid p_reference p_originate p_receive p_transmit].
    unfold is_u8 in *. split; [lia|]. split; [lia|]. split; [lia|]. split; [assumption|]. split; [assumption|].
    split; [unfold as_i8; match goal with |- context [?x <? 128] => destruct (Z.ltb_spec x 128) end; lia|].
    split; [apply is_u32_of; assumption|]. split; [apply is_u32_of; assumption|]. split; [reflexivity|].
    split; [do 4 (apply Forall_cons; [assumption|]); apply Forall_nil|]. auto.
  - unfold ntp_bytes. cbn [p_leap p_version p_mode p_stratum p_poll p_precision p_delay p_dispersion p_refid p_reference p_originate p_receive p_transmit].
    rewrite E1, E2, E3, E4, !be32_of_be32 by assumption. cbn [app]. unfold is_u8 in *. f_equal; [lia|]. do 2 f_equal. f_equal.
    unfold as_i8. match goal with |- context [?x <? 128] => destruct (Z.ltb_spec x 128) end; lia.
Qed.
Lemma first_byte l v m : 0 <= l < 4 -> 0 <= v < 8 -> 0 <= m < 8 ->
  Z.land (l * 64 + v * 8 + m) 7 = m /\ Z.land (Z.shiftr (l * 64 + v * 8 + m) 3) 7 = v /\ Z.land (Z.shiftr (l * 64 + v * 8 + m) 6) 3 = l.
Proof.
  intros Hl Hv Hm. set (b := l * 64 + v * 8 + m).
  assert (forall x, Z.land x 7 = x mod 8) as L7 by (intros x; change 7 with (Z.ones 3); now rewrite Z.land_ones by lia).
  assert (forall x, Z.land x 3 = x mod 4) as L3 by (intros x; change 3 with (Z.ones 2); now rewrite Z.land_ones by lia).
  rewrite !L7, !L3, !Z.shiftr_div_pow2 by lia. change (2 ^ 3) with 8. change (2 ^ 6) with 64. unfold b. lia.
Qed.
Lemma decode_spec p : ntp_ok p -> (usable p /\ decode_reply (ntp_bytes p) = ret (reply_of p)) \/
  (~ usable p /\ decode_reply (ntp_bytes p) = fail WouldBlock).
Proof.
  destruct p as [l v m st po pr dl ds rid t1 t2 t3 t4].
  intros (Hl & Hv & Hm & Hst & Hpo & Hpr & Hdl & Hds & Hr & Hb & H1 & H2 & H3 & H4).
  cbn [p_leap p_version p_mode p_stratum p_poll p_precision p_delay p_dispersion p_refid p_reference p_originate p_receive p_transmit] in *.
  destruct (first_byte l v m Hl Hv Hm) as (F1 & F2 & F3).
  unfold decode_reply, usable. cbn [p_leap p_version p_mode p_stratum p_poll].
  change (at_ (ntp_bytes _) 0) with (l * 64 + v * 8 + m). change (at_ (ntp_bytes _) 1) with st. change (at_ (ntp_bytes _) 2) with po.
  change (at_ (ntp_bytes _) 3) with (pr mod 256). rewrite F1, F2. unfold mode_try_from. cbn [mode_u8].
  destruct (Z.eqb_spec m 1); [right; split; [lia|reflexivity]|]. destruct (Z.eqb_spec m 2); [right; split; [lia|reflexivity]|].
  destruct (Z.eqb_spec m 3); [right; split; [lia|reflexivity]|]. destruct (Z.eqb_spec m 4);
    [|right; split; [lia|]; destruct (Z.eqb_spec m 5); reflexivity].
  unfold VERSION_NUMBER. destruct (Z.eqb_spec v 4); cbn [negb]; [|right; split; [lia|reflexivity]].
  unfold leap_from_bits. rewrite F3. cbn [leap_u8].
  assert (forall (P : Prop) (lp : LeapIndicator), lp = match l with 0 => NoWarning | 1 => LastMin61Sec | 2 => LastMin59Sec | _ => Alarm end ->
    let rhs := match stratum_try_from st with
      | Ok stratum => if negb (po =? 0) then fail WouldBlock else ret (mkReply lp stratum (as_i8 (pr mod 256)) dl ds rid t1 t2 t3 t4)
      | Err _ => fail WouldBlock end in
    (usable (mkNtp l v m st po pr dl ds rid t1 t2 t3 t4) /\ rhs = ret (reply_of (mkNtp l v m st po pr dl ds rid t1 t2 t3 t4))) \/
    (~ usable (mkNtp l v m st po pr dl ds rid t1 t2 t3 t4) /\ rhs = fail WouldBlock)) as G.
  { intros _ lp -> rhs. unfold rhs, usable, reply_of. cbn [p_leap p_version p_mode p_stratum p_poll p_precision p_delay p_dispersion p_refid p_reference p_originate p_receive p_transmit].
    replace (as_i8 (pr mod 256)) with pr by (unfold as_i8; destruct (Z.ltb_spec (pr mod 256) 128); lia).
    unfold stratum_try_from, is_u8 in *.
    destruct (Z.eqb_spec st 0) as [->|]; [|destruct (Z.eqb_spec st 1) as [->|]; [|destruct (Z.leb_spec 2 st); [|lia]; destruct (Z.leb_spec st 15); cbn [andb]; [|right; split; [lia|reflexivity]]]];
      (destruct (Z.eqb_spec po 0); cbn [negb]; [left; split; [lia|]|right; split; [lia|reflexivity]]); try reflexivity.
    f_equal. f_equal. f_equal. destruct st as [|[q|q|]|]; try lia; reflexivity. }
  assert (slice (ntp_bytes (mkNtp l v m st po pr dl ds rid t1 t2 t3 t4)) 4 4 = be32 dl) as -> by reflexivity.
  assert (slice (ntp_bytes (mkNtp l v m st po pr dl ds rid t1 t2 t3 t4)) 8 4 = be32 ds) as -> by reflexivity.
  destruct rid as [|r0 [|r1 [|r2 [|r3 [|r4 rr]]]]]; try (exfalso; revert Hr; unfold zlen; cbn [length]; lia).
  set (rid := [r0; r1; r2; r3]) in *.
  assert (slice (ntp_bytes (mkNtp l v m st po pr dl ds rid t1 t2 t3 t4)) 12 4 = rid) as -> by reflexivity.
  assert (slice (ntp_bytes (mkNtp l v m st po pr dl ds rid t1 t2 t3 t4)) 16 8 = be64 t1) as -> by reflexivity.
  assert (slice (ntp_bytes (mkNtp l v m st po pr dl ds rid t1 t2 t3 t4)) 24 8 = be64 t2) as -> by reflexivity.
  assert (slice (ntp_bytes (mkNtp l v m st po pr dl ds rid t1 t2 t3 t4)) 32 8 = be64 t3) as -> by reflexivity.
  assert (slice (ntp_bytes (mkNtp l v m st po pr dl ds rid t1 t2 t3 t4)) 40 8 = be64 t4) as -> by reflexivity.
  assert (forall x, is_u32 x -> u32_from_be (be32 x) = x) as B32.
  { intros x Hx. unfold u32_from_be. apply of_be32_be32. exact Hx. }
  rewrite !B32, !of_be64 by assumption.
  destruct (Z.eqb_spec l 0) as [->|]; [exact (G True NoWarning eq_refl)|]. destruct (Z.eqb_spec l 1) as [->|]; [exact (G True LastMin61Sec eq_refl)|].
  destruct (Z.eqb_spec l 2) as [->|]; [exact (G True LastMin59Sec eq_refl)|]. destruct (Z.eqb_spec l 3) as [->|]; [exact (G True Alarm eq_refl)|]. lia.
Qed.
Lemma addr_eqb_eq a b : addr_eqb a b = true <-> a = b.
Proof.
  unfold addr_eqb. destruct a as [i p], b as [i' p']. cbn [fst snd]. destruct (list_eq_dec Z.eq_dec i i') as [->|N].
  - rewrite Z.eqb_eq. split; [intros ->; reflexivity|congruence].
  - split; [discriminate|congruence].
Qed.

(** ** On the chip *)
Section OnChip.
Context (sn : Sn).
Let n := snz sn.
Lemma request_wps D cl s q fs a : sc_sn cl = sn -> udp_view s q fs a ->
  wps (sntp_request cl) n s D (dispatched (tx_size s - pending s) q fs a a (ntp_bytes client_request)).
Proof.
  intros <- V. unfold sntp_request. apply (write_msg (sc_sn cl) D s q fs a a _ _ cur_send V).
  - change (ntp_bytes client_request) with REQUEST_PKT. apply emits_write; [|vm_compute; discriminate].
    unfold bytes_ok. apply Forall_forall. intros x Hx. assert (existsb (Z.eqb x) REQUEST_PKT = true) as E.
    { apply existsb_exists. exists x. split; [exact Hx|apply Z.eqb_refl]. }
    cbn in Hx. unfold is_u8. repeat (destruct Hx as [<-|Hx]; [lia|]). contradiction.
  - intros s1 c w q1 W. exact (uwriting_send (sc_sn cl) D s1 c w q1 fs a W).
Qed.
Lemma on_recv_wps D dbg cl s q fs a : sc_sn cl = sn -> udp_view s q fs a ->
  wps (on_recv_interrupt dbg cl) n s D (fun r s' => exists new q', udp_view s' q' fs a /\
    ((r = Err WouldBlock /\ q = [] /\ q' = new) \/
     exists d q1, q ++ new = d :: q1 /\ exists q2 more, q' = q2 ++ more /\ handles (sc_server cl) d q1 r q2)).
Proof.
  intros <- V. unfold on_recv_interrupt.
  assert (forall (f : Z -> M Reply) Q, (forall v s1 new, udp_view s1 (q ++ new) fs a -> (q = [] \/ True) -> wps (f v) n s1 D Q) ->
    wps (bindM (sn_ir (sc_sn cl)) f) n s D Q) as Gi.
  { intros f Q H. apply wps_bindM. unfold sn_ir. apply wps_bindM. cbn [wps read]. exists 1. split; [lia|]. split; [apply sn_block_eq|].
    intros s1 E1. destruct (uview_env _ _ _ _ _ V E1) as (new & V1). cbn [wps ret]. apply (H _ _ new); auto. }
  apply Gi. clear Gi. intros v s1 n1 V1 _.
  apply wps_bindM. eapply wps_mono with (Q := fun r s' => r = Ok tt /\ exists new, udp_view s' (q ++ new) fs a); [intros HD; exact HD| |].
  2:{ destruct (SocketInterrupt_any_raised v).
      - cbn [wps set_sn_ir write]. exists 1. split; [lia|]. split; [apply sn_block_eq|]. intros s2 E2. split; [reflexivity|].
        destruct (uview_env _ _ _ _ _ V1 E2) as (n2 & V2). exists (n1 ++ n2). rewrite app_assoc. exact V2.
      - cbn [wps ret]. split; [reflexivity|]. exists n1. exact V1. }
  intros r s2 (-> & n2 & V2). apply wps_bindM. eapply wps_mono; [| |exact (ureader_open (sc_sn cl) D dbg s2 _ fs a V2)]; [auto|].
  intros r s3 (n3 & [(-> & E & V3)|(c & d & q1 & E & -> & R3 & P3)]).
  { rewrite E in V3. apply app_eq_nil in E as [-> ->]. exists n3, n3. split; [exact V3|]. left. auto. }
  rewrite <- app_assoc in E. cbn [ur_header ur_inner header_of uh_origin].
  destruct (addr_eqb (d_ip d, d_port d) (sc_server cl)) eqn:Ea; cbn [negb].
  - apply addr_eqb_eq in Ea. apply wps_bind.
    eapply wps_mono; [| |eapply (ureading_run (sc_sn cl) D s3 c d q1 fs a _ (fun r w' _ => w' = d_data d /\
      r = if 48 <=? zlen (d_data d) then Ok (ztake 48 (d_data d)) else Err UnexpectedEof) R3)]; [auto| |].
    + intros [r c4] s4 (n4 & R4 & _ & Er). cbn [fst snd] in *. destruct (Z.leb_spec 48 (zlen (d_data d))); subst r; cbn [wps fail].
      * apply wps_bindM. eapply wps_mono; [| |exact (ureading_done (sc_sn cl) D s4 c4 d _ fs a R4)]; [auto|].
        intros r s5 (-> & n5 & V5).
        destruct (head_fits (sc_sn cl) _ _ _ _ _ (ureading_view _ _ _ _ _ _ _ R4)) as (Bd & Ld).
        destruct (ntp_all (ztake 48 (d_data d))) as (p & Hp & Ep); [rewrite zlen_ztake; lia|now apply bytes_ok_ztake|].
        rewrite <- Ep. assert (d_data d = ntp_bytes p ++ zdrop 48 (d_data d)) as Ed by (rewrite Ep; symmetry; apply firstn_skipn).
        destruct (decode_spec p Hp) as [(U & ->)|(U & ->)]; cbn [wps ret fail]; exists (n2 ++ n3), (q1 ++ n4 ++ n5);
          (split; [rewrite app_assoc; exact V5|]); right; exists d, q1; (split; [exact E|]); exists q1, (n4 ++ n5); (split; [reflexivity|]).
        -- eapply HReply; eauto.
        -- eapply HUnusable; eauto.
      * exists (n2 ++ n3), (d :: q1 ++ n4). split; [apply R4|]. right. exists d, q1. split; [exact E|].
        exists (d :: q1), n4. split; [reflexivity|]. now apply HShort.
    + rewrite P3. cbn [wpa s_read_exact astep]. split; [split; [cbn; lia|reflexivity]|]. rewrite Z.sub_0_r.
      destruct (48 <=? zlen (d_data d)); cbn; auto.
  - assert ((d_ip d, d_port d) <> sc_server cl) as Na by (intros X; apply addr_eqb_eq in X; congruence).
    apply wps_bindM. eapply wps_mono; [| |exact (ureading_done (sc_sn cl) D s3 c d _ fs a R3)]; [auto|].
    intros r s5 (-> & n5 & V5). cbn [wps fail]. exists (n2 ++ n3), (q1 ++ n5). split; [exact V5|]. right. exists d, q1. split; [exact E|].
    exists q1, n5. split; [reflexivity|]. now apply HForeign.
Qed.
End OnChip.
