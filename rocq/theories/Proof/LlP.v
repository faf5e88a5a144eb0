(** Register addresses, bit fields and specifiers. *)
From Verif Require Import Proof.Base Model.Specifiers Model.LlBits Model.LlAddr Spec.Bits Proof.SpiP.

(** Lifting a finite check over all bytes. *)
Lemma forall_bytes (P : Z -> bool) :
  forallb P (zrange 256) = true -> forall r, is_u8 r -> P r = true.
Proof.
  intros H r Hr. rewrite forallb_forall in H. apply H. apply in_zrange. exact Hr.
Qed.

Lemma testbit_high r i : is_u8 r -> 8 <= i -> Z.testbit r i = false.
Proof.
  unfold is_u8; intros Hr Hi. destruct (Z.eq_dec r 0) as [->|Hz]; [apply Z.testbit_0_l|].
  apply Z.bits_above_log2; [lia|]. apply Z.lt_le_trans with 8; [|lia].
  apply Z.log2_lt_pow2; [lia|]. change (2 ^ 8) with 256. lia.
Qed.

Definition wb_check (f : Z -> Z) (k : Z) (b : bool) : bool :=
  forallb (fun r => (0 <=? f r) && (f r <? 256) &&
    forallb (fun i => Bool.eqb (Z.testbit (f r) i) (if i =? k then b else Z.testbit r i)) (zrange 8))
    (zrange 256).
Lemma wb_check_ok f k b : 0 <= k < 8 -> wb_check f k b = true -> writes_bit f k b.
Proof.
  intros Hk H r Hr. pose proof (forall_bytes _ H r Hr) as C. cbv beta in C.
  apply andb_true_iff in C. destruct C as [C1 C2]. assert (is_u8 (f r)) as Hf by (unfold is_u8; lia).
  split; [assumption|]. intros i Hi. destruct (Z.ltb_spec i 8).
  - rewrite forallb_forall in C2. specialize (C2 i (in_zrange 8 i ltac:(lia))). cbv beta in C2.
    now apply Bool.eqb_prop in C2.
  - rewrite !testbit_high by (auto; lia). destruct (Z.eqb_spec i k); [lia|reflexivity].
Qed.
Definition rb_check (g : Z -> bool) (k : Z) (n : bool) : bool :=
  forallb (fun r => Bool.eqb (g r) (xorb n (Z.testbit r k))) (zrange 256).
Lemma rb_check_ok g k : rb_check g k false = true -> reads_bit g k.
Proof.
  intros H r Hr. pose proof (forall_bytes _ H r Hr) as C. cbv beta in C. apply Bool.eqb_prop in C.
  now rewrite xorb_false_l in C.
Qed.
Lemma rnb_check_ok g k : rb_check g k true = true -> reads_nbit g k.
Proof.
  intros H r Hr. pose proof (forall_bytes _ H r Hr) as C. cbv beta in C. apply Bool.eqb_prop in C.
  now rewrite xorb_true_l in C.
Qed.

Ltac bit_solve :=
  match goal with
  | |- writes_bit _ _ _ => apply wb_check_ok; [lia|vm_compute; reflexivity]
  | |- reads_bit _ _ => apply rb_check_ok; vm_compute; reflexivity
  | |- reads_nbit _ _ => apply rnb_check_ok; vm_compute; reflexivity
  end.

Lemma mode_bits :
  writes_bit Mode_rst 7 true /\
  flag 5 Mode_wol_enabled Mode_enable_wol Mode_disable_wol /\
  flag 4 Mode_pb_enabled Mode_enable_pb Mode_disable_pb /\
  flag 3 Mode_pppoe_enabled Mode_enable_pppoe Mode_disable_pppoe /\
  flag 1 Mode_farp_enabled Mode_enable_farp Mode_disable_farp.
Proof. unfold flag. repeat match goal with |- _ /\ _ => split end; bit_solve. Qed.

Lemma interrupt_bits :
  flag 7 Interrupt_conflict Interrupt_set_conflict Interrupt_clear_conflict /\
  flag 6 Interrupt_unreach Interrupt_set_unreach Interrupt_clear_unreach /\
  flag 5 Interrupt_pppoe Interrupt_set_pppoe Interrupt_clear_pppoe /\
  flag 4 Interrupt_mp Interrupt_set_mp Interrupt_clear_mp.
Proof. unfold flag. repeat match goal with |- _ /\ _ => split end; bit_solve. Qed.

Lemma phycfg_bits :
  writes_bit PhyCfg_rst 7 false /\
  flag 6 PhyCfg_opmd PhyCfg_software_op PhyCfg_hardware_op /\
  (forall r, is_u8 r ->
     PhyCfg_opmdc r = opmode_from_raw ((r / 8) mod 8) /\
     PhyCfg_dpx r = duplex_of_bool (Z.testbit r 2) /\
     PhyCfg_spd r = speed_of_bool (Z.testbit r 1) /\
     PhyCfg_lnk r = link_of_bool (Z.testbit r 0)) /\
  (forall r m, is_u8 r ->
     PhyCfg_opmdc (PhyCfg_set_opmdc r m) = m /\ is_u8 (PhyCfg_set_opmdc r m) /\
     forall i, 0 <= i -> Z.testbit (PhyCfg_set_opmdc r m) i =
       if (3 <=? i) && (i <=? 5) then Z.testbit (opmode_raw m) (i - 3)
       else if i =? 6 then true else Z.testbit r i).
Proof.
  split; [bit_solve|]. split; [unfold flag; repeat match goal with |- _ /\ _ => split end; bit_solve|].
  split.
  - assert (forallb (fun r =>
       (opmode_raw (PhyCfg_opmdc r) =? opmode_raw (opmode_from_raw ((r / 8) mod 8))) &&
       (duplex_raw (PhyCfg_dpx r) =? duplex_raw (duplex_of_bool (Z.testbit r 2))) &&
       (speed_raw (PhyCfg_spd r) =? speed_raw (speed_of_bool (Z.testbit r 1))) &&
       (link_raw (PhyCfg_lnk r) =? link_raw (link_of_bool (Z.testbit r 0)))) (zrange 256) = true) as H
      by (vm_compute; reflexivity).
    intros r Hr. pose proof (forall_bytes _ H r Hr) as C. cbv beta in C.
    repeat rewrite andb_true_iff in C. destruct C as [[[C1 C2] C3] C4].
    apply Z.eqb_eq in C1, C2, C3, C4.
    repeat split.
    + destruct (PhyCfg_opmdc r), (opmode_from_raw ((r / 8) mod 8)); cbn in C1; congruence.
    + destruct (PhyCfg_dpx r), (duplex_of_bool (Z.testbit r 2)); cbn in C2; congruence.
    + destruct (PhyCfg_spd r), (speed_of_bool (Z.testbit r 1)); cbn in C3; congruence.
    + destruct (PhyCfg_lnk r), (link_of_bool (Z.testbit r 0)); cbn in C4; congruence.
  - assert (forall m, forallb (fun r =>
       (opmode_raw (PhyCfg_opmdc (PhyCfg_set_opmdc r m)) =? opmode_raw m) &&
       ((0 <=? PhyCfg_set_opmdc r m) && (PhyCfg_set_opmdc r m <? 256)) &&
       forallb (fun i => Bool.eqb (Z.testbit (PhyCfg_set_opmdc r m) i)
          (if (3 <=? i) && (i <=? 5) then Z.testbit (opmode_raw m) (i - 3)
           else if i =? 6 then true else Z.testbit r i)) (zrange 8)) (zrange 256) = true) as H
      by (intros []; vm_compute; reflexivity).
    intros r m Hr. pose proof (forall_bytes _ (H m) r Hr) as C. cbv beta in C.
    repeat rewrite andb_true_iff in C. destruct C as [[C1 C2] C3].
    apply Z.eqb_eq in C1.
    assert (is_u8 (PhyCfg_set_opmdc r m)) as Hu by (unfold is_u8; lia).
    split; [destruct (PhyCfg_opmdc (PhyCfg_set_opmdc r m)), m; cbn in C1; congruence|].
    split; [assumption|]. intros i Hi. destruct (Z.ltb_spec i 8).
    + rewrite forallb_forall in C3. specialize (C3 i (in_zrange 8 i ltac:(lia))). cbv beta in C3.
      now apply Bool.eqb_prop in C3.
    + rewrite !testbit_high by (auto; lia). destruct ((3 <=? i) && (i <=? 5)) eqn:E; [lia|].
      destruct (Z.eqb_spec i 6); [lia|]. now rewrite testbit_high by (auto; lia).
Qed.

Lemma socketmode_bits :
  flag 7 SocketMode_multi_enabled SocketMode_enable_multi SocketMode_disable_multi /\
  flag 7 SocketMode_mfen_enabled SocketMode_enable_mfen SocketMode_disable_mfen /\
  flag 6 SocketMode_bcastb_enabled SocketMode_enable_bcastb SocketMode_disable_bcastb /\
  flag 5 SocketMode_nd_enabled SocketMode_enable_nd SocketMode_disable_nd /\
  flag 5 SocketMode_mc SocketMode_set_igmp_v1 SocketMode_set_igmp_v2 /\
  flag 5 SocketMode_mmb_enabled SocketMode_enable_mmb SocketMode_disable_mmb /\
  flag 4 SocketMode_ucastb_enabled SocketMode_enable_ucastb SocketMode_disable_ucastb /\
  flag 4 SocketMode_mip6b_enabled SocketMode_enable_mip6b SocketMode_disable_mip6b /\
  (forall r, is_u8 r -> SocketMode_protocol r = protocol_from_raw (r mod 16)) /\
  (forall r p, is_u8 r ->
     SocketMode_protocol (SocketMode_set_protocol r p) = Ok p /\
     SocketMode_set_protocol r p = r / 16 * 16 + protocol_raw p).
Proof.
  unfold flag. repeat match goal with |- _ /\ _ => split end; try bit_solve.
  - intros r _. unfold SocketMode_protocol, SocketMode_PROTOCOL_MASK.
    change 15 with (Z.ones 4). rewrite Z.land_ones by lia. reflexivity.
  - assert (forall p, forallb (fun r =>
      match SocketMode_protocol (SocketMode_set_protocol r p) with
      | Ok q => protocol_raw q =? protocol_raw p | Err _ => false end &&
      (SocketMode_set_protocol r p =? r / 16 * 16 + protocol_raw p)) (zrange 256) = true) as H
      by (intros []; vm_compute; reflexivity).
    intros r p Hr. pose proof (forall_bytes _ (H p) r Hr) as C. cbv beta in C.
    apply andb_true_iff in C. destruct C as [C1 C2]. split; [|lia].
    destruct (SocketMode_protocol (SocketMode_set_protocol r p)) as [q|]; [|discriminate].
    destruct q, p; cbn in C1; congruence.
Qed.

Lemma socketinterrupt_bits :
  (reads_bit SocketInterrupt_con_raised 0 /\ writes_bit SocketInterrupt_clear_con 0 true) /\
  (reads_bit SocketInterrupt_discon_raised 1 /\ writes_bit SocketInterrupt_clear_discon 1 true) /\
  (reads_bit SocketInterrupt_recv_raised 2 /\ writes_bit SocketInterrupt_clear_recv 2 true) /\
  (reads_bit SocketInterrupt_timeout_raised 3 /\ writes_bit SocketInterrupt_clear_timeout 3 true) /\
  (reads_bit SocketInterrupt_sendok_raised 4 /\ writes_bit SocketInterrupt_clear_sendok 4 true) /\
  (forall r, is_u8 r -> SocketInterrupt_any_raised r =
     Z.testbit r 0 || Z.testbit r 1 || Z.testbit r 2 || Z.testbit r 3 || Z.testbit r 4).
Proof.
  repeat match goal with |- _ /\ _ => split end; try bit_solve.
  assert (forallb (fun r => Bool.eqb (SocketInterrupt_any_raised r)
     (Z.testbit r 0 || Z.testbit r 1 || Z.testbit r 2 || Z.testbit r 3 || Z.testbit r 4)) (zrange 256)
     = true) as H by (vm_compute; reflexivity).
  intros r Hr. pose proof (forall_bytes _ H r Hr) as C. cbv beta in C. now apply Bool.eqb_prop in C.
Qed.

Lemma socketinterruptmask_bits :
  nflag 0 SocketInterruptMask_con_masked SocketInterruptMask_unmask_con SocketInterruptMask_mask_con /\
  nflag 1 SocketInterruptMask_discon_masked SocketInterruptMask_unmask_discon SocketInterruptMask_mask_discon /\
  nflag 2 SocketInterruptMask_recv_masked SocketInterruptMask_unmask_recv SocketInterruptMask_mask_recv /\
  nflag 3 SocketInterruptMask_timeout_masked SocketInterruptMask_unmask_timeout SocketInterruptMask_mask_timeout /\
  nflag 4 SocketInterruptMask_sendok_masked SocketInterruptMask_unmask_sendok SocketInterruptMask_mask_sendok /\
  (forall i, 0 <= i < 5 -> Z.testbit SocketInterruptMask_ALL_MASKED i = false).
Proof.
  unfold nflag. repeat match goal with |- _ /\ _ => split end; try bit_solve.
  intros i Hi. assert (i = 0 \/ i = 1 \/ i = 2 \/ i = 3 \/ i = 4) as [->|[->|[->|[->| ->]]]] by lia;
    reflexivity.
Qed.

(** Any sequence of single-bit operations: the last one on a bit wins, untouched bits are kept. *)
Lemma setter_sequence (ops : list ((Z -> Z) * Z * bool)) :
  Forall (fun o => writes_bit (fst (fst o)) (snd (fst o)) (snd o)) ops ->
  forall r, is_u8 r ->
  let r' := fold_left (fun r o => fst (fst o) r) ops r in
  is_u8 r' /\
  forall i, 0 <= i -> Z.testbit r' i =
    fold_left (fun b o => if i =? snd (fst o) then snd o else b) ops (Z.testbit r i).
Proof.
  induction ops as [|o ops IH]; intros H r Hr; cbn [fold_left]; [easy|].
  inversion H as [|? ? Ho H']; subst. destruct (Ho r Hr) as [Hu Hb].
  destruct (IH H' (fst (fst o) r) Hu) as [IH1 IH2]. split; [assumption|].
  intros i Hi. rewrite IH2 by assumption. now rewrite Hb by assumption.
Qed.

(** ** Specifiers *)
Lemma status_conv : forall v,
  match status_try_from v with Ok s => status_raw s = v | Err e => e = v end.
Proof.
  intros v. unfold status_try_from.
  repeat match goal with |- context [if ?a =? ?b then _ else _] => destruct (Z.eqb_spec a b); [now subst|] end.
  reflexivity.
Qed.
Lemma status_conv_raw s : status_try_from (status_raw s) = Ok s.
Proof. now destruct s. Qed.
Lemma command_conv v : match command_try_from v with Ok s => command_raw s = v | Err e => e = v end.
Proof.
  unfold command_try_from.
  repeat match goal with |- context [if ?a =? ?b then _ else _] => destruct (Z.eqb_spec a b); [now subst|] end.
  reflexivity.
Qed.
Lemma command_conv_raw s : command_try_from (command_raw s) = Ok s.
Proof. now destruct s. Qed.
Lemma protocol_conv v : match protocol_from_raw v with Ok s => protocol_raw s = v | Err e => e = v end.
Proof.
  unfold protocol_from_raw.
  repeat match goal with |- context [if ?a =? ?b then _ else _] => destruct (Z.eqb_spec a b); [now subst|] end.
  reflexivity.
Qed.
Lemma protocol_conv_raw s : protocol_from_raw (protocol_raw s) = Ok s.
Proof. now destruct s. Qed.
Lemma bufsize_conv v : match bufsize_try_from v with Ok s => bufsize_raw s = v | Err e => e = v end.
Proof.
  unfold bufsize_try_from.
  repeat match goal with |- context [if ?a =? ?b then _ else _] => destruct (Z.eqb_spec a b); [now subst|] end.
  reflexivity.
Qed.
Lemma bufsize_conv_raw s : bufsize_try_from (bufsize_raw s) = Ok s.
Proof. now destruct s. Qed.
Lemma sn_conv v : match sn_try_from v with Ok s => sn_raw s = v | Err e => e = v end.
Proof.
  unfold sn_try_from.
  repeat match goal with |- context [if ?a =? ?b then _ else _] => destruct (Z.eqb_spec a b); [now subst|] end.
  reflexivity.
Qed.
Lemma sn_conv_raw s : sn_try_from (sn_raw s) = Ok s.
Proof. now destruct s. Qed.

(** ** Addresses *)
Lemma SnReg_try_from_ok v : match SnReg_try_from v with Ok r => SnReg_addr r = v | Err e => e = v end.
Proof.
  unfold SnReg_try_from.
  repeat match goal with |- context [if ?a =? ?b then _ else _] =>
    destruct (Z.eqb_spec a b); [now subst|] end.
  reflexivity.
Qed.
Lemma SnReg_roundtrip r : SnReg_try_from (SnReg_addr r) = Ok r.
Proof. now destruct r. Qed.
Lemma Reg_try_from_ok v : match Reg_try_from v with Ok r => Reg_addr r = v | Err e => e = v end.
Proof.
  unfold Reg_try_from.
  repeat match goal with |- context [if ?a =? ?b then _ else _] =>
    destruct (Z.eqb_spec a b); [now subst|] end.
  reflexivity.
Qed.
Lemma Reg_roundtrip_partial r :
  Reg_try_from (Reg_addr r) = (match r with R_UIPR1 | R_UIPR2 | R_UIPR3 => Err (Reg_addr r) | _ => Ok r end).
Proof. now destruct r. Qed.
Lemma Reg_addr_inj a b : Reg_addr a = Reg_addr b -> a = b.
Proof.
  intros E.
  destruct a; destruct b; solve [reflexivity|exfalso; vm_compute in E; discriminate E].
Qed.

Lemma Reg_bijection_partial :
  (forall r, r <> R_UIPR1 -> r <> R_UIPR2 -> r <> R_UIPR3 -> Reg_try_from (Reg_addr r) = Ok r) /\
  (forall v, match Reg_try_from v with Ok r => Reg_addr r = v | Err e => e = v end) /\
  (forall a b, Reg_addr a = Reg_addr b -> a = b).
Proof.
  split; [|split; [exact Reg_try_from_ok|exact Reg_addr_inj]].
  intros r H1 H2 H3. rewrite Reg_roundtrip_partial. now destruct r.
Qed.
Lemma Reg_bijection_refuted : exists r, Reg_try_from (Reg_addr r) <> Ok r.
Proof. exists R_UIPR1. discriminate. Qed.

Lemma enum_conversions :
  (forall s, status_try_from (status_raw s) = Ok s) /\
  (forall v, match status_try_from v with Ok s => status_raw s = v | Err e => e = v end) /\
  (forall s, command_try_from (command_raw s) = Ok s) /\
  (forall v, match command_try_from v with Ok s => command_raw s = v | Err e => e = v end) /\
  (forall s, protocol_from_raw (protocol_raw s) = Ok s) /\
  (forall v, match protocol_from_raw v with Ok s => protocol_raw s = v | Err e => e = v end) /\
  (forall s, bufsize_try_from (bufsize_raw s) = Ok s) /\
  (forall v, match bufsize_try_from v with Ok s => bufsize_raw s = v | Err e => e = v end) /\
  (forall s, sn_try_from (sn_raw s) = Ok s) /\
  (forall v, match sn_try_from v with Ok s => sn_raw s = v | Err e => e = v end) /\
  (forall m, opmode_from_raw (opmode_raw m) = m) /\
  (forall b, bufsize_in_bytes b = 1024 * bufsize_raw b) /\
  (forall s, sn_bitmask s = 2 ^ sn_raw s) /\
  (forall b, link_raw (link_of_bool b) = Z.b2z b /\ speed_raw (speed_of_bool b) = Z.b2z b /\
     duplex_raw (duplex_of_bool b) = Z.b2z b).
Proof.
  split; [exact status_conv_raw|]. split; [exact status_conv|].
  split; [exact command_conv_raw|]. split; [exact command_conv|].
  split; [exact protocol_conv_raw|]. split; [exact protocol_conv|].
  split; [exact bufsize_conv_raw|]. split; [exact bufsize_conv|].
  split; [exact sn_conv_raw|]. split; [exact sn_conv|].
  split; [now intros []|]. split; [now intros []|]. split; [now intros []|]. now intros [].
Qed.
Lemma encodings :
  map status_raw [Closed; Init; Listen; Established; CloseWait; Udp; Macraw; SynSent; SynRecv; FinWait;
    Closing; TimeWait; LastAck] =
    [0x00; 0x13; 0x14; 0x17; 0x1C; 0x22; 0x42; 0x15; 0x16; 0x18; 0x1A; 0x1B; 0x1D] /\
  map command_raw [CAccepted; COpen; CListen; CConnect; CDisconnect; CClose; CSend; CSendMac; CSendKeep;
    CRecv] = [0; 0x01; 0x02; 0x04; 0x08; 0x10; 0x20; 0x21; 0x22; 0x40] /\
  map sn_raw SOCKETS = [0; 1; 2; 3; 4; 5; 6; 7].
Proof. repeat split. Qed.
