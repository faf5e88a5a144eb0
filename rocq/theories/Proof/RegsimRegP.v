(** The registers of the simulator: writing one byte changes that byte and no other. *)
From Verif Require Import Proof.Base Model.Prelude Model.Bus Model.Chip Model.Specifiers Model.LlAddr Model.LlBits
  Model.Regsim Spec.Regsim.

Lemma lor_add8 a b : 0 <= a < 256 -> 0 <= b -> Z.lor a (Z.shiftl b 8) = a + 256 * b.
Proof.
  intros Ha Hb. assert (HZ : Z.land a (Z.shiftl b 8) = 0).
  { apply Z.bits_inj'. intros n Hn. rewrite Z.land_spec, Z.bits_0.
    destruct (Z.lt_ge_cases n 8) as [H|H].
    - rewrite Z.shiftl_spec_low by lia. apply andb_false_r.
    - replace a with (a mod 2 ^ 8) by (apply Z.mod_small; lia).
      rewrite Z.mod_pow2_bits_high by lia. reflexivity. }
  rewrite <- Z.lxor_lor by exact HZ. rewrite <- Z.add_nocarry_lxor by exact HZ.
  rewrite Z.shiftl_mul_pow2 by lia. change (2 ^ 8) with 256. lia.
Qed.
Lemma w0_val v x : is_u8 x -> w0 v x = v mod 256 + 256 * x.
Proof.
  intros [Hx _]. unfold w0. change 0x00FF with (Z.ones 8). rewrite Z.land_ones by lia. change (2 ^ 8) with 256.
  apply lor_add8; [apply Z.mod_pos_bound; lia|exact Hx].
Qed.
Lemma land_ff00 v : is_u16 v -> Z.land v 0xFF00 = Z.shiftl (v / 256) 8.
Proof.
  intros Hv. apply Z.bits_inj'. intros n Hn. rewrite Z.land_spec. change 0xFF00 with (Z.shiftl (Z.ones 8) 8).
  destruct (Z.lt_ge_cases n 8) as [H|H].
  - rewrite !Z.shiftl_spec_low by lia. apply andb_false_r.
  - rewrite !Z.shiftl_spec by lia. change 256 with (2 ^ 8). rewrite <- Z.shiftr_div_pow2 by lia.
    rewrite Z.shiftr_spec by lia. replace (n - 8 + 8) with n by lia.
    destruct (Z.lt_ge_cases n 16) as [G|G].
    + rewrite Z.ones_spec_low by lia. apply andb_true_r.
    + rewrite Z.ones_spec_high by lia. rewrite andb_false_r.
      replace v with (v mod 2 ^ 16) by (apply Z.mod_small; change (2 ^ 16) with 65536; exact Hv).
      now rewrite Z.mod_pow2_bits_high by lia.
Qed.
Lemma w1_val v x : is_u16 v -> is_u8 x -> w1 v x = 256 * (v / 256) + x.
Proof.
  intros Hv Hx. unfold w1. rewrite land_ff00 by exact Hv. rewrite Z.lor_comm.
  rewrite lor_add8; [lia|exact Hx|]. unfold is_u16 in Hv. lia.
Qed.
Lemma b0_w0 v x : is_u8 x -> b0 (w0 v x) = x.
Proof. intros H. rewrite w0_val by exact H. unfold b0, is_u8 in *. lia. Qed.
Lemma b1_w0 v x : is_u8 x -> b1 (w0 v x) = b1 v.
Proof. intros H. rewrite w0_val by exact H. unfold b1, is_u8 in *. lia. Qed.
Lemma b0_w1 v x : is_u16 v -> is_u8 x -> b0 (w1 v x) = b0 v.
Proof. intros H G. rewrite w1_val by assumption. unfold b0, is_u8, is_u16 in *. lia. Qed.
Lemma b1_w1 v x : is_u16 v -> is_u8 x -> b1 (w1 v x) = x.
Proof. intros H G. rewrite w1_val by assumption. unfold b1, is_u8, is_u16 in *. lia. Qed.
Lemma u16_w0 v x : is_u8 x -> is_u16 (w0 v x).
Proof. intros H. rewrite w0_val by exact H. unfold is_u8, is_u16 in *. lia. Qed.
Lemma u16_w1 v x : is_u16 v -> is_u8 x -> is_u16 (w1 v x).
Proof. intros H G. rewrite w1_val by assumption. unfold is_u8, is_u16 in *. lia. Qed.
Lemma b_word v : is_u16 v -> of_be16 (b0 v) (b1 v) = v.
Proof. unfold of_be16, b0, b1, is_u16. lia. Qed.

(** Names and addresses. *)
Lemma snreg_addr a r : SnReg_try_from a = Ok r -> a = SnReg_addr r.
Proof.
  unfold SnReg_try_from. intros H.
  repeat match type of H with
  | (if ?a =? ?x then _ else _) = _ => destruct (Z.eqb_spec a x); [injection H as <-; assumption|]
  end. discriminate.
Qed.
Lemma reg_addr a r : Reg_try_from a = Ok r -> a = Reg_addr r.
Proof.
  unfold Reg_try_from. intros H.
  repeat match type of H with
  | (if ?a =? ?x then _ else _) = _ => destruct (Z.eqb_spec a x); [injection H as <-; assumption|]
  end. discriminate.
Qed.

(** ** Lists of octets *)
Lemma len4 (l : list Z) : zlen l = 4 -> exists a b c d, l = [a; b; c; d].
Proof.
  unfold zlen. destruct l as [|a [|b [|c [|d [|]]]]]; cbn [length]; try lia. now exists a, b, c, d.
Qed.
Lemma len6 (l : list Z) : zlen l = 6 -> exists a b c d e f, l = [a; b; c; d; e; f].
Proof.
  unfold zlen. destruct l as [|a [|b [|c [|d [|e [|f [|]]]]]]]; cbn [length]; try lia. now exists a, b, c, d, e, f.
Qed.

(** ** The common registers *)
Record cwf (r : common) : Prop := mkCwf
  { cw_wide : u16_ok [g_intlevel r; g_rtr r; g_psid r; g_pmru r; g_uportr r]
  ; cw_octets : zlen (g_gar r) = 4 /\ zlen (g_subr r) = 4 /\ zlen (g_sipr r) = 4 /\
                zlen (g_shar r) = 6 /\ zlen (g_phar r) = 6 }.

Ltac inv_u16 H := unfold u16_ok in H; repeat match goal with
  | H : Forall is_u16 (_ :: _) |- _ => let A := fresh "W" in pose proof (Forall_inv H) as A; apply Forall_inv_tail in H
  end.

Ltac wide := unfold u16_ok; repeat (apply Forall_cons; [solve [auto using u16_w0, u16_w1]|]); apply Forall_nil.

Lemma common_write m a v : cwf (s_regs m) -> is_u8 v -> common_alike a v = true ->
  let m' := common_reg_wr m a v in
  s_sn m' = s_sn m /\ s_net m' = s_net m /\ cwf (s_regs m') /\
  forall b, b <> 0x17 ->
    common_reg_rd (s_regs m') b = if common_ro a then common_reg_rd (s_regs m) b else
                                  if b =? a then v else common_reg_rd (s_regs m) b.
Proof.
  intros [Hw Ho] Hv Ha. unfold common_alike in Ha.
  destruct Ho as (O1 & O2 & O3 & O4 & O5).
  destruct (len4 _ O1) as (x1 & x2 & x3 & x4 & E1), (len4 _ O2) as (y1 & y2 & y3 & y4 & E2),
    (len4 _ O3) as (z1 & z2 & z3 & z4 & E3), (len6 _ O4) as (t1 & t2 & t3 & t4 & t5 & t6 & E4),
    (len6 _ O5) as (p1 & p2 & p3 & p4 & p5 & p6 & E5).
  inv_u16 Hw. cbv zeta.
  destruct (Reg_try_from a) as [r|e] eqn:Er.
  2:{ unfold common_reg_wr. rewrite Er. split; [reflexivity|split; [reflexivity|split]].
      - constructor; [wide|repeat split; assumption].
      - intros b Hb. unfold common_ro. replace ((40 <=? a) && (a <=? 45)) with true by lia.
        rewrite orb_true_r. reflexivity. }
  pose proof (reg_addr _ _ Er) as Aa.
  assert (Hmr : r = R_MR -> Z.land v Mode_RST_MASK = 0).
  { intros ->. apply Z.bits_inj'. intros n Hn. rewrite Z.land_spec, Z.bits_0.
    unfold Mode_RST_MASK. rewrite Z.shiftl_spec by lia.
    destruct (Z.eq_dec n 7) as [->|N].
    - replace v with (v mod 2 ^ 7) by (apply Z.mod_small; unfold is_u8 in Hv; lia).
      rewrite Z.mod_pow2_bits_high by lia. reflexivity.
    - replace (Z.testbit 1 (n - 7)) with false; [apply andb_false_r|].
      destruct (Z.lt_ge_cases n 7); [symmetry; apply Z.testbit_neg_r; lia|].
      symmetry. apply (Z.bits_above_log2 1); cbn; lia. }
  destruct m as [rg sk lg]. cbn [s_regs s_sn s_net] in *.
  unfold common_reg_wr. rewrite Er. cbn [s_regs s_sn s_net sim_regs].
  destruct r; try discriminate Ha; try (rewrite Hmr by reflexivity); cbn [negb Z.eqb s_regs s_sn s_net sim_regs];
    (split; [reflexivity|split; [reflexivity|split]]).
  all: try (constructor; cbn; rewrite ?E1, ?E2, ?E3, ?E4, ?E5; cbn;
    [wide|repeat split; reflexivity || assumption]; fail).
  all: intros b Hb; destruct (Reg_try_from b) as [r'|e'] eqn:Eb;
    [pose proof (reg_addr _ _ Eb) as Ab|];
    unfold common_reg_rd; rewrite Eb.
  all: try (destruct (Z.eqb_spec b a) as [->|Nb]; [rewrite Er in Eb; discriminate|];
            destruct (common_ro a); reflexivity).
  all: rewrite Aa, Ab; destruct r'; try (elim Hb; exact Ab); cbn [Reg_addr common_ro Z.eqb Pos.eqb Z.leb Z.compare Pos.compare Pos.compare_cont andb orb];
    cbn [g_mr g_gar g_subr g_shar g_sipr g_intlevel g_ir g_imr g_sir g_simr g_rtr g_rcr g_ptimer g_pmagic g_phar
         g_psid g_pmru g_uipr g_uportr g_phycfgr g_versionr
         g_set_mr g_set_gar g_set_subr g_set_shar g_set_sipr g_set_intlevel g_set_ir g_set_imr g_set_sir g_set_simr
         g_set_rtr g_set_rcr g_set_ptimer g_set_pmagic g_set_phar g_set_psid g_set_pmru g_set_phycfgr];
    rewrite ?E1, ?E2, ?E3, ?E4, ?E5; try reflexivity;
    auto using b0_w0, b1_w0, b0_w1, b1_w1.
Qed.
