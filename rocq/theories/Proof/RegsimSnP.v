(** The sockets of the simulator and of the chip: single bytes. *)
From Verif Require Import Proof.Base Model.Prelude Model.Bus Model.Chip Model.Specifiers Model.LlAddr Model.LlBits
  Model.Regsim Spec.Regsim Proof.RegsimRegP.

Ltac kcbn := cbn [k_mr k_cr k_ir k_sr k_port k_dhar k_dipr k_dport k_mssr k_tos k_ttl k_rxbuf_size k_txbuf_size
  k_tx_fsr k_tx_rd k_tx_wr k_rx_rsr k_rx_rd k_rx_wr k_imr k_frag k_kpalvtr k_tx_buf k_rx_buf k_inner k_client
  k_set_mr k_set_ir k_set_sr k_set_port k_set_dhar k_set_dipr k_set_dport k_set_ttl k_set_rxbuf_size
  k_set_txbuf_size k_set_tx_rd k_set_tx_wr k_set_rx_rsr k_set_rx_rd k_set_rx_wr k_set_imr k_set_tx_buf k_set_rx_buf
  k_set_inner k_set_client].
Ltac zcbn := cbn [SnReg_addr dynamic Z.eqb Pos.eqb Z.leb Z.compare Pos.compare Pos.compare_cont andb orb].

Definition plain (r : SnReg) : bool :=
  match r with
  | S_MR | S_PORT0 | S_PORT1 | S_DHAR0 | S_DHAR1 | S_DHAR2 | S_DHAR3 | S_DHAR4 | S_DHAR5
  | S_DIPR0 | S_DIPR1 | S_DIPR2 | S_DIPR3 | S_DPORT0 | S_DPORT1 | S_TTL
  | S_TX_WR0 | S_TX_WR1 | S_RX_RD0 | S_RX_RD1 | S_IMR => true
  | _ => false
  end.

Lemma with_reg_same k : with_reg k (s_reg k) = k.
Proof. destruct k; reflexivity. Qed.

Lemma plain_write dbg m ns a v sn r log k : same_socket sn log (sim_socket m sn) k ->
  is_u8 v -> SnReg_try_from a = Ok r -> plain r = true ->
  exists s', socket_reg_wr dbg m ns a v sn = (IoOk tt, ns, sim_put m sn s') /\
    same_socket sn log s' (sreg_wr k a v).
Proof.
  intros H Hv Er Hp. pose proof (snreg_addr _ _ Er) as Aa.
  destruct H as [Hpl Hw [O1 O2] H4 H5 H6 H7 H8 H9 H10 H11 H12 H13].
  remember (sim_socket m sn) as s eqn:Es.
  destruct (len6 _ O1) as (x1 & x2 & x3 & x4 & x5 & x6 & E1), (len4 _ O2) as (y1 & y2 & y3 & y4 & E2).
  inv_u16 Hw. unfold socket_reg_wr. rewrite Er, <- Es.
  replace (sreg_wr k a v) with (with_reg k (upd (s_reg k) a v)) by (rewrite Aa; destruct r; discriminate || reflexivity).
  destruct r; try discriminate Hp; eexists; (split; [reflexivity|]).
  all: constructor; kcbn; try assumption.
  all: try (wide; fail).
  all: try (rewrite ?E1, ?E2; split; reflexivity || assumption; fail).
  all: intros b Hb Hd; specialize (Hpl b Hb Hd); cbn [s_reg with_reg]; unfold upd; rewrite Hpl; clear Hpl;
    unfold socket_byte; destruct (SnReg_try_from b) as [r'|e'] eqn:Eb;
    [pose proof (snreg_addr _ _ Eb) as Ab|].
  all: try (destruct (Z.eqb_spec b a) as [->|Nb]; [rewrite Er in Eb; discriminate|reflexivity]).
  all: rewrite Aa, Ab; rewrite Ab in Hd; destruct r'; zcbn; kcbn; rewrite ?E1, ?E2; try reflexivity;
    try (symmetry; auto using b0_w0, b1_w0, b0_w1, b1_w1; fail); try discriminate Hd.
Qed.

(** Reading. *)
Lemma sock_read sn log s k a : same_socket sn log s k -> 0 <= a < 65536 ->
  ((a =? 0x20) || (a =? 0x21) = true -> k_tx_wr s = k_tx_rd s) -> sreg_rd k a = socket_byte s a.
Proof.
  intros H Ha Hf. destruct (dynamic a) eqn:Ed.
  2:{ rewrite <- (sm_plain _ _ _ _ H) by assumption. unfold sreg_rd. unfold dynamic in Ed.
      repeat (apply orb_false_iff in Ed; destruct Ed as [Ed ?]).
      repeat match goal with |- context[if ?a =? ?b then _ else _] => destruct (Z.eqb_spec a b); [lia|] end.
      reflexivity. }
  destruct H as [Hpl Hw _ [H4 _] [H5 _] H6 (T1 & T2 & _) _ (X1 & X2 & X3) (R1 & R2 & _) _ _ _]. inv_u16 Hw.
  assert (Hwr : tx_wr k = k_tx_wr s).
  { unfold tx_wr, of_word. rewrite !Hpl by (reflexivity || lia). cbn [Z.add Pos.add Pos.succ Pos.add_carry].
    change (socket_byte s 0x24) with (b0 (k_tx_wr s)). change (socket_byte s 0x25) with (b1 (k_tx_wr s)).
    apply b_word; assumption. }
  assert (Hsz : tx_size k = 2048).
  { unfold tx_size. rewrite Hpl by (reflexivity || lia). change (socket_byte s 0x1F) with (bufsize_raw (k_txbuf_size s)).
    rewrite T1. reflexivity. }
  assert (Hfsr : (a =? 0x20) || (a =? 0x21) = true -> tx_fsr k = 2048).
  { intros E. unfold tx_fsr. rewrite Hsz, Hwr, X1, (Hf E). unfold wsub. rewrite Z.sub_diag. reflexivity. }
  unfold dynamic in Ed.
  assert (Hc : In a [0x01; 0x02; 0x03; 0x20; 0x21; 0x22; 0x23; 0x26; 0x27; 0x2A; 0x2B]) by (cbn [In]; lia).
  cbn [In] in Hc.
  repeat (destruct Hc as [Hc|Hc]; [rewrite <- Hc in *|]); try contradiction; unfold sreg_rd; cbn [Z.eqb Pos.eqb orb];
    rewrite ?H5, ?H4, ?X1, ?R1, ?R2, ?Hfsr by reflexivity.
  - change (socket_byte s 1) with (k_cr s). now rewrite H6.
  - reflexivity.
  - reflexivity.
  - change (socket_byte s 0x20) with (b0 (k_tx_fsr s)). now rewrite T2.
  - change (socket_byte s 0x21) with (b1 (k_tx_fsr s)). now rewrite T2.
  - reflexivity.
  - reflexivity.
  - reflexivity.
  - reflexivity.
  - reflexivity.
  - reflexivity.
Qed.

(** ** Words of the register file of the chip *)
Lemma chip_words sn log s k : same_socket sn log s k ->
  tx_wr k = k_tx_wr s /\ rx_rd k = k_rx_rd s /\ dest_ip k = k_dipr s /\ dest_port k = k_dport s /\
  tx_size k = 2048 /\ rx_size k = bufsize_in_bytes (k_rxbuf_size s) /\ s_reg k 0 = k_mr s.
Proof.
  intros [Hpl Hw [O1 O2] _ _ _ (T1 & _) (R1 & _) _ _ _ _ _]. inv_u16 Hw.
  destruct (len4 _ O2) as (y1 & y2 & y3 & y4 & E2).
  unfold tx_wr, rx_rd, dest_ip, dest_port, tx_size, rx_size, of_word.
  rewrite !Hpl by (reflexivity || lia). cbn [Z.add Pos.add Pos.succ Pos.add_carry].
  change (socket_byte s 0x24) with (b0 (k_tx_wr s)). change (socket_byte s 0x25) with (b1 (k_tx_wr s)).
  change (socket_byte s 0x28) with (b0 (k_rx_rd s)). change (socket_byte s 0x29) with (b1 (k_rx_rd s)).
  change (socket_byte s 0x10) with (b0 (k_dport s)). change (socket_byte s 0x11) with (b1 (k_dport s)).
  change (socket_byte s 0x1F) with (bufsize_raw (k_txbuf_size s)).
  change (socket_byte s 0x1E) with (bufsize_raw (k_rxbuf_size s)).
  change (socket_byte s 0x0C) with (at_ (k_dipr s) 0). change (socket_byte s 0x0D) with (at_ (k_dipr s) 1).
  change (socket_byte s 0x0E) with (at_ (k_dipr s) 2). change (socket_byte s 0x0F) with (at_ (k_dipr s) 3).
  rewrite !b_word by assumption. rewrite E2, T1.
  repeat split; try reflexivity. destruct (k_rxbuf_size s); reflexivity.
Qed.
