(** [core::str::from_utf8] accepts exactly well-formed UTF-8. *)
From Verif Require Export Proof.Base Model.Utf8 Spec.Utf8.

Lemma in_range_iff lo hi b : in_range lo hi b = true <-> lo <= b <= hi.
Proof. unfold in_range. lia. Qed.

Lemma encode_valid c l : scalar c -> utf8_valid (encode_char c ++ l) = utf8_valid l.
Proof.
  unfold scalar, encode_char. intros H.
  destruct (Z.ltb_spec c 0x80).
  { cbn [app utf8_valid]. destruct (Z.ltb_spec c 128); [reflexivity|lia]. }
  destruct (Z.ltb_spec c 0x800).
  { cbn [app utf8_valid]. destruct (Z.ltb_spec (0xC0 + c / 64) 128); [lia|].
    replace (in_range 194 223 (0xC0 + c / 64)) with true by (symmetry; apply in_range_iff; lia).
    replace (in_range 128 191 (0x80 + c mod 64)) with true by (symmetry; apply in_range_iff; lia). reflexivity. }
  destruct (Z.ltb_spec c 0x10000).
  { cbn [app utf8_valid]. destruct (Z.ltb_spec (0xE0 + c / 4096) 128); [lia|].
    replace (in_range 194 223 (0xE0 + c / 4096)) with false by (symmetry; apply not_true_iff_false; rewrite in_range_iff; lia).
    replace (in_range 224 239 (0xE0 + c / 4096)) with true by (symmetry; apply in_range_iff; lia).
    replace (in_range 128 191 (0x80 + c mod 64)) with true by (symmetry; apply in_range_iff; lia).
    replace (in_range _ _ (0x80 + (c / 64) mod 64)) with true; [reflexivity|].
    symmetry. apply in_range_iff. destruct (Z.eqb_spec (0xE0 + c / 4096) 224), (Z.eqb_spec (0xE0 + c / 4096) 237); lia. }
  cbn [app utf8_valid]. destruct (Z.ltb_spec (0xF0 + c / 262144) 128); [lia|].
  replace (in_range 194 223 (0xF0 + c / 262144)) with false by (symmetry; apply not_true_iff_false; rewrite in_range_iff; lia).
  replace (in_range 224 239 (0xF0 + c / 262144)) with false by (symmetry; apply not_true_iff_false; rewrite in_range_iff; lia).
  replace (in_range 240 244 (0xF0 + c / 262144)) with true by (symmetry; apply in_range_iff; lia).
  replace (in_range 128 191 (0x80 + c mod 64)) with true by (symmetry; apply in_range_iff; lia).
  replace (in_range 128 191 (0x80 + (c / 64) mod 64)) with true by (symmetry; apply in_range_iff; lia).
  replace (in_range _ _ (0x80 + (c / 4096) mod 64)) with true; [reflexivity|].
  symmetry. apply in_range_iff. destruct (Z.eqb_spec (0xF0 + c / 262144) 240), (Z.eqb_spec (0xF0 + c / 262144) 244); lia.
Qed.

Lemma utf8_cons c l : scalar c -> is_utf8 l -> is_utf8 (encode_char c ++ l).
Proof. intros H (cs & Hc & ->). exists (c :: cs). split; [now constructor|reflexivity]. Qed.

Lemma utf8_valid_iff l : bytes_ok l -> (utf8_valid l = true <-> is_utf8 l).
Proof.
  intros Hb. split.
  - assert (exists k, (length l <= k)%nat) as [k Hk] by eauto. revert l Hb Hk.
    induction k as [|k IH]; intros l Hb Hk Hv.
    { destruct l; [exists []; split; [constructor|reflexivity]|cbn in Hk; lia]. }
    destruct l as [|b0 r]; [exists []; split; [constructor|reflexivity]|].
    pose proof (Forall_inv Hb) as B0. pose proof (Forall_inv_tail Hb) as Br. cbn [utf8_valid length] in *. unfold is_u8 in B0.
    destruct (Z.ltb_spec b0 128).
    { replace (b0 :: r) with (encode_char b0 ++ r).
      - apply utf8_cons; [unfold scalar; lia|]. apply IH; auto; lia.
      - unfold encode_char. destruct (Z.ltb_spec b0 0x80); [reflexivity|lia]. }
    destruct r as [|b1 r]; [discriminate|]. pose proof (Forall_inv Br) as B1. apply Forall_inv_tail in Br. cbn [length] in *. unfold is_u8 in B1.
    destruct (in_range 194 223 b0) eqn:E2.
    { rewrite in_range_iff in E2. apply andb_true_iff in Hv. destruct Hv as [E3 Hv]. rewrite in_range_iff in E3.
      set (c := (b0 - 0xC0) * 64 + (b1 - 0x80)).
      replace (b0 :: b1 :: r) with (encode_char c ++ r).
      - apply utf8_cons; [unfold scalar, c; lia|]. apply IH; auto; lia.
      - unfold encode_char, c. destruct (Z.ltb_spec ((b0 - 192) * 64 + (b1 - 128)) 0x80); [lia|].
        destruct (Z.ltb_spec ((b0 - 192) * 64 + (b1 - 128)) 0x800); [|lia]. cbn [app]. repeat f_equal; lia. }
    destruct r as [|b2 r]; [discriminate|]. pose proof (Forall_inv Br) as B2. apply Forall_inv_tail in Br. cbn [length] in *. unfold is_u8 in B2.
    destruct (in_range 224 239 b0) eqn:E3.
    { rewrite in_range_iff in E3. rewrite !andb_true_iff, !in_range_iff in Hv. destruct Hv as [[H1 H2] Hv].
      set (c := (b0 - 0xE0) * 4096 + (b1 - 0x80) * 64 + (b2 - 0x80)).
      replace (b0 :: b1 :: b2 :: r) with (encode_char c ++ r).
      - apply utf8_cons; [|apply IH; auto; lia]. unfold scalar, c.
        destruct (Z.eqb_spec b0 224), (Z.eqb_spec b0 237); lia.
      - unfold encode_char. assert (0x800 <= c < 0x10000) by (unfold c; destruct (Z.eqb_spec b0 224), (Z.eqb_spec b0 237); lia).
        destruct (Z.ltb_spec c 0x80); [lia|]. destruct (Z.ltb_spec c 0x800); [lia|]. destruct (Z.ltb_spec c 0x10000); [|lia].
        assert (0 <= b1 - 128 < 64 /\ 0 <= b2 - 128 < 64) by (destruct (Z.eqb_spec b0 224), (Z.eqb_spec b0 237); lia).
        cbn [app]. unfold c. repeat f_equal; lia. }
    destruct r as [|b3 r]; [discriminate|]. pose proof (Forall_inv Br) as B3. apply Forall_inv_tail in Br. cbn [length] in *. unfold is_u8 in B3.
    rewrite !andb_true_iff, !in_range_iff in Hv. destruct Hv as [[[[H0 H1] H2] H3] Hv].
    set (c := (b0 - 0xF0) * 262144 + (b1 - 0x80) * 4096 + (b2 - 0x80) * 64 + (b3 - 0x80)).
    assert (0 <= b1 - 128 < 64 /\ 0 <= b2 - 128 < 64 /\ 0 <= b3 - 128 < 64) by (destruct (Z.eqb_spec b0 240), (Z.eqb_spec b0 244); lia).
    assert (0x10000 <= c <= 0x10FFFF) by (unfold c; destruct (Z.eqb_spec b0 240), (Z.eqb_spec b0 244); lia).
    replace (b0 :: b1 :: b2 :: b3 :: r) with (encode_char c ++ r).
    + apply utf8_cons; [|apply IH; auto; lia]. unfold scalar. lia.
    + unfold encode_char.
      destruct (Z.ltb_spec c 0x80); [lia|]. destruct (Z.ltb_spec c 0x800); [lia|]. destruct (Z.ltb_spec c 0x10000); [lia|].
      cbn [app]. unfold c. repeat f_equal; lia.
  - intros (cs & Hc & ->). clear Hb. induction Hc as [|c cs Hc Hcs IH]; [reflexivity|]. cbn [map concat]. now rewrite encode_valid.
Qed.
Lemma ascii_utf8 l : Forall (fun b => 0 <= b < 128) l -> is_utf8 l.
Proof.
  intros H. exists l. split; [eapply Forall_impl; [|exact H]; unfold scalar; intros; cbn in *; lia|].
  induction H as [|b r Hb Hr IH]; [reflexivity|]. cbn [map concat]. unfold encode_char at 1.
  destruct (Z.ltb_spec b 0x80); [|lia]. cbn [app]. now rewrite <- IH.
Qed.
