(** Register accessors against the plain-storage specification. *)
From Verif Require Import Proof.ChipP Model.LlAddr Model.Ll Spec.RegFile.

Definition ext_read (f : Z -> Z) a n := ztab n (fun i => f (a + i)).

Lemma chip_rds_common c a n : 0 <= a -> a + n <= 65536 ->
  chip_rds c 0 a n = ext_read (c_common c) a n.
Proof.
  intros. unfold chip_rds, ext_read. apply ztab_ext. intros i Hi. unfold chip_rd. cbn [Z.eqb].
  rewrite Z.mod_small by lia. reflexivity.
Qed.

Definition common_plain (a : Z) : bool := negb (common_ro a || (a =? 0x15)).

Lemma chip_wrs_common l : forall c a, 0 <= a -> a + zlen l <= 65536 ->
  (forall i, 0 <= i < zlen l -> common_plain (a + i) = true) ->
  c_sock (chip_wrs c 0 a l) = c_sock c /\
  forall x, c_common (chip_wrs c 0 a l) x =
    if (a <=? x) && (x <? a + zlen l) then at_ l (Z.to_nat (x - a)) else c_common c x.
Proof.
  induction l as [|b l IH]; intros c a Ha Hl Hr; cbn [chip_wrs].
  - split; [reflexivity|]. intros x. unfold zlen; cbn [length].
    destruct (a <=? x) eqn:E1; destruct (x <? a + Z.of_nat 0) eqn:E2; cbn [andb]; try reflexivity. lia.
  - rewrite zlen_cons in *. pose proof (zlen_nonneg l).
    specialize (IH (chip_wr c 0 (a mod 65536) b) (a + 1) ltac:(lia) ltac:(lia)).
    destruct IH as [IH1 IH2].
    { intros i Hi. replace (a + 1 + i) with (a + (i + 1)) by lia. apply Hr. lia. }
    rewrite IH1. rewrite Z.mod_small in * by lia.
    assert (chip_wr c 0 a b = mkChip (upd (c_common c) a b) (c_sock c)) as E.
    { unfold chip_wr. cbn [Z.eqb]. specialize (Hr 0 ltac:(lia)). rewrite Z.add_0_r in Hr.
      unfold common_plain in Hr. apply negb_true_iff, orb_false_iff in Hr. destruct Hr as [-> ->]. reflexivity. }
    rewrite E in *. split; [reflexivity|]. intros x. rewrite IH2. cbn [c_common].
    destruct (Z.eq_dec x a) as [->|Hx].
    + rewrite upd_same.
      replace (a + 1 <=? a) with false by lia. cbn [andb].
      replace (a <=? a) with true by lia. replace (a <? a + (zlen l + 1)) with true by lia.
      cbn [andb]. now rewrite Z.sub_diag.
    + rewrite upd_other by assumption.
      replace (a + 1 <=? x) with (a <=? x) by lia.
      replace (x <? a + 1 + zlen l) with (x <? a + (zlen l + 1)) by lia.
      destruct ((a <=? x) && (x <? a + (zlen l + 1))) eqn:E1; [|reflexivity].
      replace (Z.to_nat (x - a)) with (S (Z.to_nat (x - (a + 1)))) by lia. reflexivity.
Qed.

(** Registers of the socket block that are plain storage. *)
Definition plain (a : Z) : bool :=
  negb ((a =? 0x01) || (a =? 0x02) ||
    ((a =? 0x03) || (a =? 0x20) || (a =? 0x21) || (a =? 0x22) || (a =? 0x23) ||
     (a =? 0x26) || (a =? 0x27) || (a =? 0x2A) || (a =? 0x2B))).

Lemma sreg_rd_plain s a : plain a = true -> sreg_rd s a = s_reg s a.
Proof.
  unfold plain, sreg_rd. rewrite negb_true_iff, !orb_false_iff.
  intros ((?&?)&((((((((?&?)&?)&?)&?)&?)&?)&?)&?)).
  repeat match goal with H : (a =? _) = false |- _ => rewrite H; clear H end. reflexivity.
Qed.
Lemma sreg_wr_plain s a v : plain a = true -> sreg_wr s a v = with_reg s (upd (s_reg s) a v).
Proof.
  unfold plain, sreg_wr. rewrite negb_true_iff, !orb_false_iff.
  intros ((?&?)&((((((((?&?)&?)&?)&?)&?)&?)&?)&?)).
  repeat match goal with H : (a =? _) = false |- _ => rewrite H; clear H end. reflexivity.
Qed.

Definition all_plain (a n : Z) : Prop := forall i, 0 <= i < n -> plain (a + i) = true.

Lemma sock_rds_plain s a n : 0 <= a -> a + n <= 65536 -> all_plain a n ->
  sock_rds s 1 a n = ext_read (s_reg s) a n.
Proof.
  intros Ha Hn Hp. unfold sock_rds, ext_read. apply ztab_ext. intros i Hi.
  unfold sock_rd. cbn [Z.eqb Pos.eqb]. rewrite Z.mod_small by lia. apply sreg_rd_plain. now apply Hp.
Qed.

Lemma sock_wrs_plain l : forall s a, 0 <= a -> a + zlen l <= 65536 -> all_plain a (zlen l) ->
  exists r, sock_wrs s 1 a l = with_reg s r /\
  forall x, r x = if (a <=? x) && (x <? a + zlen l) then at_ l (Z.to_nat (x - a)) else s_reg s x.
Proof.
  induction l as [|b l IH]; intros s a Ha Hl Hp; cbn [sock_wrs].
  - exists (s_reg s). split; [now destruct s|]. intros x. unfold zlen; cbn [length].
    destruct (a <=? x) eqn:E1; destruct (x <? a + Z.of_nat 0) eqn:E2; cbn [andb]; try reflexivity. lia.
  - rewrite zlen_cons in *. pose proof (zlen_nonneg l).
    assert (sock_wr s 1 (a mod 65536) b = with_reg s (upd (s_reg s) a b)) as E.
    { unfold sock_wr. cbn [Z.eqb Pos.eqb]. rewrite Z.mod_small by lia. apply sreg_wr_plain.
      specialize (Hp 0 ltac:(lia)). now rewrite Z.add_0_r in Hp. }
    rewrite E.
    destruct (IH (with_reg s (upd (s_reg s) a b)) (a + 1) ltac:(lia) ltac:(lia)) as (r & Er & Hr).
    { intros i Hi. replace (a + 1 + i) with (a + (i + 1)) by lia. apply Hp. lia. }
    exists r. rewrite Er. split; [reflexivity|]. intros x. rewrite Hr. cbn [with_reg s_reg].
    destruct (Z.eq_dec x a) as [->|Hx].
    + rewrite upd_same.
      replace (a + 1 <=? a) with false by lia. cbn [andb].
      replace (a <=? a) with true by lia. replace (a <? a + (zlen l + 1)) with true by lia.
      cbn [andb]. now rewrite Z.sub_diag.
    + rewrite upd_other by assumption.
      replace (a + 1 <=? x) with (a <=? x) by lia.
      replace (x <? a + 1 + zlen l) with (x <? a + (zlen l + 1)) by lia.
      destruct ((a <=? x) && (x <? a + (zlen l + 1))) eqn:E1; [|reflexivity].
      replace (Z.to_nat (x - a)) with (S (Z.to_nat (x - (a + 1)))) by lia. reflexivity.
Qed.

Definition common_rw_range (lo : Z) (n : nat) : bool :=
  (0 <=? lo) && (lo + Z.of_nat n <=? 65536) &&
  forallb (fun i => common_plain (lo + Z.of_nat i)) (seq 0 n).
Definition plain_range (lo : Z) (n : nat) : bool :=
  (0 <=? lo) && (lo + Z.of_nat n <=? 65536) && forallb (fun i => plain (lo + Z.of_nat i)) (seq 0 n).

Lemma ztab_seq n f : ztab (Z.of_nat n) f = map (fun i => f (Z.of_nat i)) (seq 0 n).
Proof. unfold ztab. now rewrite Nat2Z.id. Qed.

Lemma map_seq_img (f : Z -> Z) lo img : holds f lo img ->
  map (fun i => f (lo + Z.of_nat i)) (seq 0 (length img)) = img.
Proof.
  intros H. apply nth_ext with (d := 0) (d' := 0).
  - now rewrite map_length, seq_length.
  - rewrite map_length, seq_length. intros i Hi.
    rewrite nth_indep with (d' := (fun i => f (lo + Z.of_nat i)) 0%nat)
      by now rewrite map_length, seq_length.
    rewrite (map_nth (fun i => f (lo + Z.of_nat i))). rewrite seq_nth by assumption. now apply H.
Qed.

Lemma common_getter {B} (get : M B) lo n dec :
  get = (l <- read lo 0 (Z.of_nat n) ;; ret (dec l)) ->
  (0 <=? lo) && (lo + Z.of_nat n <=? 65536) = true -> common_get get lo n dec.
Proof.
  intros -> H c. unfold reads, bindM, read. cbn [bind run ret]. rewrite chip_rds_common by lia.
  unfold ext_read. rewrite ztab_seq. reflexivity.
Qed.

Lemma common_pair {A B} (valid : A -> Prop) set (get : M B) val lo n img dec :
  common_get get lo n dec ->
  (forall v, set v = write lo 0 (img v)) ->
  (forall v, valid v -> length (img v) = n /\ dec (img v) = val v) ->
  common_rw_range lo n = true ->
  common_reg valid set get val lo img.
Proof.
  intros Hg Hs Hv Hr c v V. destruct (Hv v V) as [Hl Hd]. rewrite Hs. unfold write. cbn [run].
  unfold common_rw_range in Hr. rewrite !andb_true_iff, forallb_forall in Hr. destruct Hr as [[R1 R2] R3].
  destruct (chip_wrs_common (img v) c lo) as [E1 E2]; try (unfold zlen; lia).
  { intros i Hi. specialize (R3 (Z.to_nat i)). cbv beta in R3. rewrite Z2Nat.id in R3 by lia.
    apply R3. apply in_seq. unfold zlen in Hi. lia. }
  eexists. split; [reflexivity|].
  assert (holds (c_common (chip_wrs c 0 lo (img v))) lo (img v)) as Hh.
  { intros i Hi. rewrite E2.
    replace (lo <=? lo + Z.of_nat i) with true by lia.
    replace (lo + Z.of_nat i <? lo + zlen (img v)) with true by (unfold zlen; lia).
    cbn [andb]. unfold at_. f_equal. lia. }
  repeat split; try assumption.
  - rewrite <- Hd. rewrite <- (map_seq_img _ _ _ Hh) at 2. rewrite Hl. apply Hg.
  - intros a Ha Ho. rewrite E2.
    destruct ((lo <=? a) && (a <? lo + zlen (img v))) eqn:E; [unfold zlen in E; lia|reflexivity].
Qed.

Lemma sock_getter {B} (get : Sn -> M B) lo n dec :
  (forall sn, get sn = (l <- read lo (sn_block sn) (Z.of_nat n) ;; ret (dec l))) ->
  sock_get get (fun s => dec (sock_rds s 1 lo (Z.of_nat n))).
Proof.
  intros H sn c. rewrite H. unfold reads, bindM, read. cbn [bind run ret].
  rewrite sn_block_eq, chip_rds_sock by (try apply snz_range; lia). reflexivity.
Qed.

Lemma sock_pair {A B} (valid : A -> Prop) set (get : Sn -> M B) val lo n img dec :
  (forall sn, get sn = (l <- read lo (sn_block sn) (Z.of_nat n) ;; ret (dec l))) ->
  (forall sn v, set sn v = write lo (sn_block sn) (img v)) ->
  (forall v, valid v -> length (img v) = n /\ dec (img v) = val v) ->
  plain_range lo n = true ->
  sock_reg valid set get val lo img.
Proof.
  intros Hg Hs Hv Hr sn c v V. destruct (Hv v V) as [Hl Hd]. rewrite Hs. unfold write. cbn [run].
  unfold plain_range in Hr. rewrite !andb_true_iff, forallb_forall in Hr. destruct Hr as [[R1 R2] R3].
  assert (all_plain lo (zlen (img v))) as Hp.
  { intros i Hi. specialize (R3 (Z.to_nat i)). cbv beta in R3. rewrite Z2Nat.id in R3 by lia.
    apply R3. apply in_seq. unfold zlen in Hi. lia. }
  pose proof (snz_range sn) as Hsn.
  destruct (chip_wrs_sock (img v) c (snz sn) 1 lo) as (E1 & E2 & E3); [lia|lia|].
  rewrite <- sn_block_eq in *.
  destruct (sock_wrs_plain (img v) (c_sock c (snz sn)) lo) as (r & Er & Hr); try assumption;
    try (unfold zlen; lia).
  exists (chip_wrs c (sn_block sn) lo (img v)), r. split; [reflexivity|].
  assert (holds r lo (img v)) as Hh.
  { intros i Hi. rewrite Hr.
    replace (lo <=? lo + Z.of_nat i) with true by lia.
    replace (lo + Z.of_nat i <? lo + zlen (img v)) with true by (unfold zlen; lia).
    cbn [andb]. unfold at_. f_equal. lia. }
  fold (snz sn). repeat split; try assumption.
  - pose proof (sock_getter get lo n dec Hg sn (chip_wrs c (sn_block sn) lo (img v))) as G.
    cbv beta in G. fold (snz sn) in G. rewrite E2, Er in G.
    rewrite sock_rds_plain in G by (try lia; intros i Hi; apply Hp; unfold zlen; lia).
    unfold ext_read in G. rewrite ztab_seq in G. cbn [with_reg s_reg] in G. rewrite <- Hl in G.
    rewrite map_seq_img in G by assumption. now rewrite Hd in G.
  - now rewrite E2, Er.
  - intros a Ha Ho. rewrite Hr.
    destruct ((lo <=? a) && (a <? lo + zlen (img v))) eqn:E; [unfold zlen in E; lia|reflexivity].
Qed.

Lemma word_img v : is_u16 v -> length (be16 v) = 2%nat /\ word0 (be16 v) = v.
Proof. intros H. split; [reflexivity|]. now apply of_be16_hi_lo. Qed.
Lemma byte_img v : is_u8 v -> length [v] = 1%nat /\ byte0 [v] = v.
Proof. easy. Qed.
Lemma octets_img n l : octets n l -> length l = n /\ id_ l = l.
Proof. now intros [H _]. Qed.

Ltac creg_ n dec img := eapply (common_pair _ _ _ _ _ n _ dec);
  [eapply (common_getter _ _ n dec); [reflexivity|reflexivity]
  |reflexivity
  |exact img
  |reflexivity].
Ltac creg := first [creg_ 1%nat byte0 byte_img|creg_ 2%nat word0 word_img
  |creg_ 4%nat (fun l : list Z => l) (octets_img 4)|creg_ 6%nat (fun l : list Z => l) (octets_img 6)].
Ltac sreg_ n dec img := eapply (sock_pair _ _ _ _ _ n _ dec);
  [reflexivity
  |reflexivity
  |exact img
  |reflexivity].
Ltac sreg := first [sreg_ 1%nat byte0 byte_img|sreg_ 2%nat word0 word_img
  |sreg_ 4%nat (fun l : list Z => l) (octets_img 4)|sreg_ 6%nat (fun l : list Z => l) (octets_img 6)].

Definition byte_image (v : Z) : list Z := [v].
Lemma byte_img' v : is_u8 v -> length (byte_image v) = 1%nat /\ byte0 (byte_image v) = v.
Proof. easy. Qed.

Lemma common_registers :
  common_reg is_u8 set_mr mr id_ 0x00 byte_image /\
  common_reg (octets 4) set_gar gar id_ 0x01 id_ /\
  common_reg (octets 4) set_subr subr id_ 0x05 id_ /\
  common_reg (octets 6) set_shar shar id_ 0x09 id_ /\
  common_reg (octets 4) set_sipr sipr id_ 0x0F id_ /\
  common_reg is_u16 set_intlevel intlevel id_ 0x13 be16 /\
  common_reg is_u8 set_imr imr id_ 0x16 byte_image /\
  common_reg is_u8 set_simr simr id_ 0x18 byte_image /\
  common_reg is_u16 set_rtr rtr id_ 0x19 be16 /\
  common_reg is_u8 set_rcr rcr id_ 0x1B byte_image /\
  common_reg is_u8 set_ptimer ptimer id_ 0x1C byte_image /\
  common_reg is_u8 set_pmagic pmagic id_ 0x1D byte_image /\
  common_reg (octets 6) set_phar phar id_ 0x1E id_ /\
  common_reg is_u16 set_psid psid id_ 0x24 be16 /\
  common_reg is_u16 set_pmru pmru id_ 0x26 be16 /\
  common_reg is_u8 set_phycfgr phycfgr id_ 0x2E byte_image.
Proof.
  repeat match goal with |- _ /\ _ => split end.
  all: unfold id_, byte_image; creg.
Qed.

Lemma common_ro_registers :
  common_get sir 0x17 1 byte0 /\
  common_get uipr 0x28 4 id_ /\
  common_get uportr 0x2C 2 word0 /\
  common_get version 0x39 1 byte0.
Proof.
  repeat match goal with |- _ /\ _ => split end; unfold id_;
    (eapply common_getter; [reflexivity|reflexivity]).
Qed.

(** Socket interrupts: reading returns the raised flags, writing clears exactly the given ones. *)
Lemma land_compl a v : is_u8 a -> is_u8 v -> Z.land a (255 - v) = Z.ldiff a v.
Proof.
  intros Ha Hv.
  assert (forall x i, is_u8 x -> Z.testbit x i = true -> 0 <= i < 8) as B.
  { intros x i Hx E. destruct (Z.ltb_spec i 0); [now rewrite Z.testbit_neg_r in E|].
    destruct (Z.ltb_spec i 8); [lia|]. exfalso. unfold is_u8 in Hx.
    rewrite Z.bits_above_log2 in E; [discriminate|lia|].
    destruct (Z.eq_dec x 0) as [Z0|Z0]; [rewrite Z0 in *; cbn; lia|].
    apply Z.lt_le_trans with 8; [|lia]. apply Z.log2_lt_pow2; lia. }
  replace (255 - v) with (Z.ldiff 255 v).
  - apply Z.bits_inj. intros i. rewrite Z.land_spec, !Z.ldiff_spec.
    destruct (Z.testbit a i) eqn:E; [|reflexivity]. cbn [andb]. apply B in E; [|assumption].
    change 255 with (Z.ones 8). rewrite Z.ones_spec_low by lia. reflexivity.
  - symmetry. rewrite Z.sub_nocarry_ldiff; [reflexivity|].
    apply Z.bits_inj. intros i. rewrite Z.ldiff_spec, Z.bits_0.
    destruct (Z.testbit v i) eqn:E; [|reflexivity]. apply B in E; [|assumption].
    change 255 with (Z.ones 8). rewrite Z.ones_spec_low by lia. reflexivity.
Qed.

Lemma common_ir c v : is_u8 (c_common c 0x15) -> is_u8 v ->
  exists c', run (set_ir v) [] c = (Done (Ok tt), [], c') /\
    reads ir c (c_common c 0x15) /\
    reads ir c' (Z.ldiff (c_common c 0x15) v) /\
    same_outside (c_common c) (c_common c') 0x15 1 /\ c_sock c' = c_sock c.
Proof.
  intros Hc Hv. unfold set_ir, write. cbn [run chip_wrs]. eexists. split; [reflexivity|].
  split; [reflexivity|]. split.
  - rewrite <- land_compl by assumption. reflexivity.
  - split; [|reflexivity]. intros a Ha Ho. unfold chip_wr. cbn -[upd Z.land].
    rewrite upd_other; [reflexivity|lia].
Qed.

Lemma dest_img v : octets 4 (fst v) /\ is_u16 (snd v) ->
  length (fst v ++ be16 (snd v)) = 6%nat /\
  (ztake 4 (fst v ++ be16 (snd v)), of_be16 (at_ (fst v ++ be16 (snd v)) 4) (at_ (fst v ++ be16 (snd v)) 5)) = v.
Proof.
  destruct v as [ip port]; cbn [fst snd]. intros [[Hl _] Hp].
  destruct ip as [|a [|b [|c [|d [|]]]]]; try discriminate Hl. split; [reflexivity|].
  cbn -[of_be16]. unfold ztake. cbn [Z.to_nat Pos.to_nat]. f_equal.
  apply of_be16_hi_lo. exact Hp.
Qed.
Lemma bufsize_img v : True -> length [bufsize_raw v] = 1%nat /\
  bufsize_try_from (byte0 [bufsize_raw v]) = Ok v.
Proof. intros _. now destruct v. Qed.

Lemma socket_registers :
  sock_reg is_u8 set_sn_mr sn_mr id_ 0x00 byte_image /\
  sock_reg is_u16 set_sn_port sn_port id_ 0x04 be16 /\
  sock_reg (octets 6) set_sn_dhar sn_dhar id_ 0x06 id_ /\
  sock_reg (octets 4) set_sn_dipr sn_dipr id_ 0x0C id_ /\
  sock_reg is_u16 set_sn_dport sn_dport id_ 0x10 be16 /\
  sock_reg (fun v => octets 4 (fst v) /\ is_u16 (snd v)) set_sn_dest sn_dest id_ 0x0C
    (fun v => fst v ++ be16 (snd v)) /\
  sock_reg is_u16 set_sn_mssr sn_mssr id_ 0x12 be16 /\
  sock_reg is_u8 set_sn_tos sn_tos id_ 0x15 byte_image /\
  sock_reg is_u8 set_sn_ttl sn_ttl id_ 0x16 byte_image /\
  sock_reg (fun _ => True) set_sn_rxbuf_size sn_rxbuf_size Ok 0x1E (fun v => [bufsize_raw v]) /\
  sock_reg (fun _ => True) set_sn_txbuf_size sn_txbuf_size Ok 0x1F (fun v => [bufsize_raw v]) /\
  sock_reg is_u16 set_sn_tx_wr sn_tx_wr id_ 0x24 be16 /\
  sock_reg is_u16 set_sn_rx_rd sn_rx_rd id_ 0x28 be16 /\
  sock_reg is_u8 set_sn_imr sn_imr id_ 0x2C byte_image /\
  sock_reg is_u16 set_sn_frag sn_frag id_ 0x2D be16 /\
  sock_reg is_u8 set_sn_kpalvtr sn_kpalvtr id_ 0x2F byte_image.
Proof.
  repeat match goal with |- _ /\ _ => split end.
  all: unfold id_, byte_image.
  all: try solve [sreg].
  - (* dest *)
    intros sn c v V.
    assert (set_sn_dest sn v = write 12 (sn_block sn) (fst v ++ be16 (snd v))) as E.
    { destruct v as [ip port]. destruct V as [[Hl _] Hp]. cbn [fst snd] in *.
      destruct ip as [|a [|b [|x [|d [|]]]]]; try discriminate Hl.
      unfold set_sn_dest, be16, u8, at_. rewrite Z.shiftr_div_pow2 by lia. reflexivity. }
    revert sn c v V E.
    pose proof (sock_pair (fun v => octets 4 (fst v) /\ is_u16 (snd v))
      (fun sn v => write 12 (sn_block sn) (fst v ++ be16 (snd v))) sn_dest (fun v => v) 12 6
      (fun v => fst v ++ be16 (snd v)) (fun l => (ztake 4 l, of_be16 (at_ l 4) (at_ l 5)))) as H.
    intros sn c v V E. rewrite E. apply H; [reflexivity|reflexivity|exact dest_img|reflexivity|exact V].
  - eapply (sock_pair _ _ _ _ _ 1%nat _ (fun l => bufsize_try_from (byte0 l)));
      [reflexivity|reflexivity|exact bufsize_img|reflexivity].
  - eapply (sock_pair _ _ _ _ _ 1%nat _ (fun l => bufsize_try_from (byte0 l)));
      [reflexivity|reflexivity|exact bufsize_img|reflexivity].
Qed.

Lemma of_be16_hi8 v : is_u16 v -> of_be16 (hi8 v) (lo8 v) = v.
Proof. apply of_be16_hi_lo. Qed.
Lemma tx_fsr_range s : 0 <= tx_size s < 65536 -> is_u16 (tx_fsr s).
Proof. unfold tx_fsr, is_u16, wsub. lia. Qed.

Lemma socket_ro_registers :
  sock_get sn_cr (fun _ => 0) /\
  sock_get sn_ir s_ir /\
  sock_get sn_sr (fun s => status_try_from (s_sr s)) /\
  (forall sn c, 0 <= tx_size (c_sock c (sn_raw sn)) < 65536 ->
     reads (sn_tx_fsr sn) c (tx_fsr (c_sock c (sn_raw sn)))) /\
  (forall sn c, is_u16 (s_tx_rd (c_sock c (sn_raw sn))) ->
     reads (sn_tx_rd sn) c (s_tx_rd (c_sock c (sn_raw sn)))) /\
  sock_get sn_rx_rsr rx_rsr /\
  (forall sn c, is_u16 (s_rx_wr (c_sock c (sn_raw sn))) ->
     reads (sn_rx_wr sn) c (s_rx_wr (c_sock c (sn_raw sn)))) /\
  (forall sn c, 0 <= tx_size (c_sock c (sn_raw sn)) < 65536 ->
     reads (sn_tx_ptrs sn) c {| txp_fsr := tx_fsr (c_sock c (sn_raw sn));
                                txp_wr := tx_wr (c_sock c (sn_raw sn)) |}) /\
  sock_get sn_rx_ptrs (fun s => {| rxp_rsr := rx_rsr s; rxp_rd := rx_rd s |}).
Proof.
  assert (forall B (get : Sn -> M B) lo n dec sn c,
    get sn = (l <- read lo (sn_block sn) (Z.of_nat n) ;; ret (dec l)) ->
    reads (get sn) c (dec (sock_rds (c_sock c (sn_raw sn)) 1 lo (Z.of_nat n)))) as G.
  { intros B get lo n dec sn c H. rewrite H. unfold reads, bindM, read. cbn [bind run ret].
    rewrite sn_block_eq, chip_rds_sock by (try apply snz_range; lia). reflexivity. }
  repeat match goal with |- _ /\ _ => split end.
  - intros sn c. exact (G _ sn_cr 1 1%nat byte0 sn c eq_refl).
  - intros sn c. exact (G _ sn_ir 2 1%nat byte0 sn c eq_refl).
  - intros sn c. exact (G _ sn_sr 3 1%nat (fun l => status_try_from (byte0 l)) sn c eq_refl).
  - intros sn c H. pose proof (G _ sn_tx_fsr 32 2%nat word0 sn c eq_refl) as R.
    change (word0 (sock_rds ?s 1 32 (Z.of_nat 2))) with (of_be16 (hi8 (tx_fsr s)) (lo8 (tx_fsr s))) in R.
    now rewrite of_be16_hi8 in R by now apply tx_fsr_range.
  - intros sn c H. pose proof (G _ sn_tx_rd 34 2%nat word0 sn c eq_refl) as R.
    change (word0 (sock_rds ?s 1 34 (Z.of_nat 2))) with (of_be16 (hi8 (s_tx_rd s)) (lo8 (s_tx_rd s))) in R.
    now rewrite of_be16_hi8 in R.
  - intros sn c. pose proof (G _ sn_rx_rsr 38 2%nat word0 sn c eq_refl) as R.
    change (word0 (sock_rds ?s 1 38 (Z.of_nat 2))) with (of_be16 (hi8 (rx_rsr s)) (lo8 (rx_rsr s))) in R.
    now rewrite of_be16_hi8 in R by apply wsub_range.
  - intros sn c H. pose proof (G _ sn_rx_wr 42 2%nat word0 sn c eq_refl) as R.
    change (word0 (sock_rds ?s 1 42 (Z.of_nat 2))) with (of_be16 (hi8 (s_rx_wr s)) (lo8 (s_rx_wr s))) in R.
    now rewrite of_be16_hi8 in R.
  - intros sn c H. pose proof (G _ sn_tx_ptrs 32 6%nat
      (fun l => {| txp_fsr := word0 l; txp_wr := word0 (zdrop 4 l) |}) sn c eq_refl) as R.
    cbv beta in R.
    change (word0 (sock_rds ?s 1 32 (Z.of_nat 6))) with (of_be16 (hi8 (tx_fsr s)) (lo8 (tx_fsr s))) in R.
    rewrite of_be16_hi8 in R by now apply tx_fsr_range. exact R.
  - intros sn c. pose proof (G _ sn_rx_ptrs 38 4%nat
      (fun l => {| rxp_rsr := word0 l; rxp_rd := word0 (zdrop 2 l) |}) sn c eq_refl) as R.
    cbv beta in R.
    change (word0 (sock_rds ?s 1 38 (Z.of_nat 4))) with (of_be16 (hi8 (rx_rsr s)) (lo8 (rx_rsr s))) in R.
    rewrite of_be16_hi8 in R by apply wsub_range. exact R.
Qed.

Lemma socket_ir sn c v : is_u8 (s_ir (c_sock c (sn_raw sn))) -> is_u8 v ->
  exists c', run (set_sn_ir sn v) [] c = (Done (Ok tt), [], c') /\
    c_sock c' (sn_raw sn) = with_ir (c_sock c (sn_raw sn)) (Z.ldiff (s_ir (c_sock c (sn_raw sn))) v) /\
    (forall m, m <> sn_raw sn -> c_sock c' m = c_sock c m) /\ c_common c' = c_common c.
Proof.
  intros Hi Hv. unfold set_sn_ir, write. cbn [run]. pose proof (snz_range sn).
  destruct (chip_wrs_sock [v] c (snz sn) 1 2) as (E1 & E2 & E3); [lia|lia|].
  rewrite <- sn_block_eq in *. eexists. split; [reflexivity|].
  split; [|split; assumption]. fold (snz sn). change (SnReg_addr S_IR) with 2. rewrite E2.
  rewrite <- land_compl by assumption. reflexivity.
Qed.

(** Buffer accesses: the addressed bytes of the ring, nothing else. *)
Lemma buffers sn c p : is_u16 p ->
  (forall n, reads (sn_rx_buf sn p n) c
     (ring (s_rxmem (c_sock c (sn_raw sn))) (rx_size (c_sock c (sn_raw sn))) p n)) /\
  (forall n, reads (sn_tx_buf sn p n) c
     (ring (s_txmem (c_sock c (sn_raw sn))) (tx_size (c_sock c (sn_raw sn))) p n)) /\
  (forall l, size_ok (tx_size (c_sock c (sn_raw sn))) -> zlen l <= tx_size (c_sock c (sn_raw sn)) ->
    exists c' m, run (set_sn_tx_buf sn p l) [] c = (Done (Ok tt), [], c') /\
      c_sock c' (sn_raw sn) = with_txmem (c_sock c (sn_raw sn)) m /\
      ring m (tx_size (c_sock c (sn_raw sn))) p (zlen l) = l /\
      ring m (tx_size (c_sock c (sn_raw sn))) (p + zlen l) (tx_size (c_sock c (sn_raw sn)) - zlen l) =
        ring (s_txmem (c_sock c (sn_raw sn))) (tx_size (c_sock c (sn_raw sn))) (p + zlen l)
          (tx_size (c_sock c (sn_raw sn)) - zlen l) /\
      (forall m, m <> sn_raw sn -> c_sock c' m = c_sock c m) /\ c_common c' = c_common c).
Proof.
  intros Hp. pose proof (snz_range sn). repeat split.
  - intros n. unfold reads, sn_rx_buf, read. cbn [run].
    rewrite sn_rx_block_eq, chip_rds_sock by lia. rewrite sock_rds_rx. reflexivity.
  - intros n. unfold reads, sn_tx_buf, read. cbn [run].
    rewrite sn_tx_block_eq, chip_rds_sock by lia. rewrite sock_rds_tx. reflexivity.
  - intros l Hs Hl. unfold set_sn_tx_buf, write. cbn [run].
    destruct (chip_wrs_sock l c (snz sn) 2 p) as (E1 & E2 & E3); [lia|lia|].
    rewrite <- sn_tx_block_eq in *. fold (snz sn) in *.
    destruct (sock_wrs_tx l (c_sock c (snz sn)) p) as (m & E & Hm).
    exists (chip_wrs c (sn_tx_block sn) p l), m. split; [reflexivity|].
    rewrite E2, E. split; [reflexivity|]. split; [|split; [|split; assumption]].
    + erewrite ring_ext; [apply ring_write_same; assumption|]. intros i Hi. cbv beta. apply Hm.
    + apply ring_ext. intros i Hi. rewrite Hm. apply ring_write_other. intros j Hj C.
      rewrite <- Z.add_assoc in C. apply slot_inj in C; auto; pose proof (zlen_nonneg l); lia.
Qed.
