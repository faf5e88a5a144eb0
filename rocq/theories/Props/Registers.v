(** Registers, bit fields and specifiers: C03, C04, C05, C06. *)
From Verif Require Import Model.Prelude Model.Bus Model.Specifiers Model.LlBits Model.LlAddr Model.Ll
  Model.Chip Spec.Bits Spec.RegFile Spec.Sock.
From Verif Require Proof.LlP Proof.RegP.

(** C03: read/write registers of the common block. *)
Theorem C03_common_registers :
  common_reg is_u8 set_mr mr id_ 0x00 (fun v => [v]) /\
  common_reg (octets 4) set_gar gar id_ 0x01 id_ /\
  common_reg (octets 4) set_subr subr id_ 0x05 id_ /\
  common_reg (octets 6) set_shar shar id_ 0x09 id_ /\
  common_reg (octets 4) set_sipr sipr id_ 0x0F id_ /\
  common_reg is_u16 set_intlevel intlevel id_ 0x13 be16 /\
  common_reg is_u8 set_imr imr id_ 0x16 (fun v => [v]) /\
  common_reg is_u8 set_simr simr id_ 0x18 (fun v => [v]) /\
  common_reg is_u16 set_rtr rtr id_ 0x19 be16 /\
  common_reg is_u8 set_rcr rcr id_ 0x1B (fun v => [v]) /\
  common_reg is_u8 set_ptimer ptimer id_ 0x1C (fun v => [v]) /\
  common_reg is_u8 set_pmagic pmagic id_ 0x1D (fun v => [v]) /\
  common_reg (octets 6) set_phar phar id_ 0x1E id_ /\
  common_reg is_u16 set_psid psid id_ 0x24 be16 /\
  common_reg is_u16 set_pmru pmru id_ 0x26 be16 /\
  common_reg is_u8 set_phycfgr phycfgr id_ 0x2E (fun v => [v]).
Proof. exact RegP.common_registers. Qed.
Print Assumptions C03_common_registers.
Example C03_common_case : is_u16 0x1234 /\ octets 4 [192; 168; 0; 1] /\
  (exists c', run (set_intlevel 0x1234) [] (mkChip (fun _ => 7) (fun _ => mkSock (fun _ => 0) 0 None 0
     (fun _ => 0) (fun _ => 0) 0 0 [] [] 0 0 [] [])) = (Done (Ok tt), [], c') /\
   c_common c' 0x13 = 0x12 /\ c_common c' 0x14 = 0x34 /\ c_common c' 0x15 = 7).
Proof.
  repeat split; try (unfold bytes_ok; repeat constructor); try discriminate.
  eexists; repeat split.
Qed.

(** C03: common registers without a setter decode their own bytes. *)
Theorem C03_common_ro_registers :
  common_get sir 0x17 1 byte0 /\
  common_get uipr 0x28 4 id_ /\
  common_get uportr 0x2C 2 word0 /\
  common_get version 0x39 1 byte0.
Proof. exact RegP.common_ro_registers. Qed.
Print Assumptions C03_common_ro_registers.

(** C03: the interrupt register is cleared by writing ones. *)
Theorem C03_common_ir c v : is_u8 (c_common c 0x15) -> is_u8 v ->
  exists c', run (set_ir v) [] c = (Done (Ok tt), [], c') /\
    reads ir c (c_common c 0x15) /\
    reads ir c' (Z.ldiff (c_common c 0x15) v) /\
    same_outside (c_common c) (c_common c') 0x15 1 /\ c_sock c' = c_sock c.
Proof. exact (RegP.common_ir c v). Qed.
Print Assumptions C03_common_ir.
Example C03_common_ir_case : is_u8 0xF0 /\ is_u8 0x80 /\ Z.ldiff 0xF0 0x80 = 0x70.
Proof. repeat split; discriminate. Qed.

(** C03: read/write registers of every socket. *)
Theorem C03_socket_registers :
  sock_reg is_u8 set_sn_mr sn_mr id_ 0x00 (fun v => [v]) /\
  sock_reg is_u16 set_sn_port sn_port id_ 0x04 be16 /\
  sock_reg (octets 6) set_sn_dhar sn_dhar id_ 0x06 id_ /\
  sock_reg (octets 4) set_sn_dipr sn_dipr id_ 0x0C id_ /\
  sock_reg is_u16 set_sn_dport sn_dport id_ 0x10 be16 /\
  sock_reg (fun v => octets 4 (fst v) /\ is_u16 (snd v)) set_sn_dest sn_dest id_ 0x0C
    (fun v => fst v ++ be16 (snd v)) /\
  sock_reg is_u16 set_sn_mssr sn_mssr id_ 0x12 be16 /\
  sock_reg is_u8 set_sn_tos sn_tos id_ 0x15 (fun v => [v]) /\
  sock_reg is_u8 set_sn_ttl sn_ttl id_ 0x16 (fun v => [v]) /\
  sock_reg (fun _ => True) set_sn_rxbuf_size sn_rxbuf_size Ok 0x1E (fun v => [bufsize_raw v]) /\
  sock_reg (fun _ => True) set_sn_txbuf_size sn_txbuf_size Ok 0x1F (fun v => [bufsize_raw v]) /\
  sock_reg is_u16 set_sn_tx_wr sn_tx_wr id_ 0x24 be16 /\
  sock_reg is_u16 set_sn_rx_rd sn_rx_rd id_ 0x28 be16 /\
  sock_reg is_u8 set_sn_imr sn_imr id_ 0x2C (fun v => [v]) /\
  sock_reg is_u16 set_sn_frag sn_frag id_ 0x2D be16 /\
  sock_reg is_u8 set_sn_kpalvtr sn_kpalvtr id_ 0x2F (fun v => [v]).
Proof. exact RegP.socket_registers. Qed.
Print Assumptions C03_socket_registers.
Example C03_socket_case : octets 4 (fst ([10; 0; 0; 9], 8080)) /\ is_u16 8080 /\
  exists c', run (set_sn_dest Sn3 ([10; 0; 0; 9], 8080)) []
    (mkChip (fun _ => 7) (fun _ => mkSock (fun _ => 5) 0 None 0
     (fun _ => 0) (fun _ => 0) 0 0 [] [] 0 0 [] [])) = (Done (Ok tt), [], c') /\
   dest_ip (c_sock c' 3) = [10; 0; 0; 9] /\ dest_port (c_sock c' 3) = 8080 /\
   dest_port (c_sock c' 2) = 1285.
Proof.
  repeat split; try (unfold bytes_ok; repeat constructor); try discriminate.
  eexists; repeat split.
Qed.

(** C03: socket registers written by the chip. *)
Theorem C03_socket_ro_registers :
  sock_get sn_cr (fun _ => 0) /\
  sock_get sn_ir s_ir /\
  sock_get sn_sr (fun s => status_try_from (s_sr s)) /\
  (forall sn c, 0 <= tx_size (c_sock c (sn_raw sn)) < 65536 ->
     reads (sn_tx_fsr sn) c (tx_fsr (c_sock c (sn_raw sn)))) /\
  (forall sn c, is_u16 (s_tx_rd (c_sock c (sn_raw sn))) ->
     reads (sn_tx_rd sn) c (s_tx_rd (c_sock c (sn_raw sn)))) /\
  sock_get sn_rx_rsr rx_rsr /\
  (forall sn c, is_u16 (s_rx_wr (c_sock c (sn_raw sn))) ->
     reads (sn_rx_wr sn) c (s_rx_wr (c_sock c (sn_raw sn)))) /\
  (forall sn c, 0 <= tx_size (c_sock c (sn_raw sn)) < 65536 ->
     reads (sn_tx_ptrs sn) c {| txp_fsr := tx_fsr (c_sock c (sn_raw sn));
                                txp_wr := tx_wr (c_sock c (sn_raw sn)) |}) /\
  sock_get sn_rx_ptrs (fun s => {| rxp_rsr := rx_rsr s; rxp_rd := rx_rd s |}).
Proof. exact RegP.socket_ro_registers. Qed.
Print Assumptions C03_socket_ro_registers.

Theorem C03_socket_ir sn c v : is_u8 (s_ir (c_sock c (sn_raw sn))) -> is_u8 v ->
  exists c', run (set_sn_ir sn v) [] c = (Done (Ok tt), [], c') /\
    c_sock c' (sn_raw sn) = with_ir (c_sock c (sn_raw sn)) (Z.ldiff (s_ir (c_sock c (sn_raw sn))) v) /\
    (forall m, m <> sn_raw sn -> c_sock c' m = c_sock c m) /\ c_common c' = c_common c.
Proof. exact (RegP.socket_ir sn c v). Qed.
Print Assumptions C03_socket_ir.

(** C03: socket buffers. *)
Theorem C03_buffers sn c p : is_u16 p ->
  (forall n, reads (sn_rx_buf sn p n) c
     (ring (s_rxmem (c_sock c (sn_raw sn))) (rx_size (c_sock c (sn_raw sn))) p n)) /\
  (forall n, reads (sn_tx_buf sn p n) c
     (ring (s_txmem (c_sock c (sn_raw sn))) (tx_size (c_sock c (sn_raw sn))) p n)) /\
  (forall l, size_ok (tx_size (c_sock c (sn_raw sn))) -> zlen l <= tx_size (c_sock c (sn_raw sn)) ->
    exists c' m, run (set_sn_tx_buf sn p l) [] c = (Done (Ok tt), [], c') /\
      c_sock c' (sn_raw sn) = with_txmem (c_sock c (sn_raw sn)) m /\
      ring m (tx_size (c_sock c (sn_raw sn))) p (zlen l) = l /\
      ring m (tx_size (c_sock c (sn_raw sn))) (p + zlen l) (tx_size (c_sock c (sn_raw sn)) - zlen l) =
        ring (s_txmem (c_sock c (sn_raw sn))) (tx_size (c_sock c (sn_raw sn))) (p + zlen l)
          (tx_size (c_sock c (sn_raw sn)) - zlen l) /\
      (forall m, m <> sn_raw sn -> c_sock c' m = c_sock c m) /\ c_common c' = c_common c).
Proof. exact (RegP.buffers sn c p). Qed.
Print Assumptions C03_buffers.
Example C03_buffers_case : is_u16 65530 /\ size_ok 2048 /\ zlen [1; 2; 3] <= 2048.
Proof. repeat split; try discriminate. unfold size_ok. tauto. Qed.

(** C04: every register name but three survives the trip to its address and back; an address is either
    rejected with itself or names the returned register; no two names share an address. *)
Theorem C04_snreg_bijection :
  (forall r, SnReg_try_from (SnReg_addr r) = Ok r) /\
  (forall v, match SnReg_try_from v with Ok r => SnReg_addr r = v | Err e => e = v end).
Proof. exact (conj LlP.SnReg_roundtrip LlP.SnReg_try_from_ok). Qed.
Print Assumptions C04_snreg_bijection.
Example C04_snreg_case : SnReg_try_from 0x28 = Ok S_RX_RD0 /\ SnReg_try_from 0x17 = Err 0x17.
Proof. split; reflexivity. Qed.

Theorem C04_reg_bijection_partial :
  (forall r, r <> R_UIPR1 -> r <> R_UIPR2 -> r <> R_UIPR3 -> Reg_try_from (Reg_addr r) = Ok r) /\
  (forall v, match Reg_try_from v with Ok r => Reg_addr r = v | Err e => e = v end) /\
  (forall a b, Reg_addr a = Reg_addr b -> a = b).
Proof. exact LlP.Reg_bijection_partial. Qed.
Print Assumptions C04_reg_bijection_partial.
Example C04_reg_case : Reg_try_from 0x39 = Ok R_VERSIONR /\ R_VERSIONR <> R_UIPR1.
Proof. split; [reflexivity|discriminate]. Qed.

(** C04 as stated is false: three register names are not recovered from their address. *)
Theorem C04_reg_bijection_refuted : exists r, Reg_try_from (Reg_addr r) <> Ok r.
Proof. exact LlP.Reg_bijection_refuted. Qed.
Print Assumptions C04_reg_bijection_refuted.

(** C05 *)
Theorem C05_mode_bits :
  writes_bit Mode_rst 7 true /\
  flag 5 Mode_wol_enabled Mode_enable_wol Mode_disable_wol /\
  flag 4 Mode_pb_enabled Mode_enable_pb Mode_disable_pb /\
  flag 3 Mode_pppoe_enabled Mode_enable_pppoe Mode_disable_pppoe /\
  flag 1 Mode_farp_enabled Mode_enable_farp Mode_disable_farp.
Proof. exact LlP.mode_bits. Qed.
Print Assumptions C05_mode_bits.

Theorem C05_interrupt_bits :
  flag 7 Interrupt_conflict Interrupt_set_conflict Interrupt_clear_conflict /\
  flag 6 Interrupt_unreach Interrupt_set_unreach Interrupt_clear_unreach /\
  flag 5 Interrupt_pppoe Interrupt_set_pppoe Interrupt_clear_pppoe /\
  flag 4 Interrupt_mp Interrupt_set_mp Interrupt_clear_mp.
Proof. exact LlP.interrupt_bits. Qed.
Print Assumptions C05_interrupt_bits.

Theorem C05_phycfg_bits :
  writes_bit PhyCfg_rst 7 false /\
  flag 6 PhyCfg_opmd PhyCfg_software_op PhyCfg_hardware_op /\
  (forall r, is_u8 r ->
     PhyCfg_opmdc r = opmode_from_raw ((r / 8) mod 8) /\
     PhyCfg_dpx r = duplex_of_bool (Z.testbit r 2) /\
     PhyCfg_spd r = speed_of_bool (Z.testbit r 1) /\
     PhyCfg_lnk r = link_of_bool (Z.testbit r 0)) /\
  (forall r m, is_u8 r ->
     PhyCfg_opmdc (PhyCfg_set_opmdc r m) = m /\ is_u8 (PhyCfg_set_opmdc r m) /\
     forall i, 0 <= i -> Z.testbit (PhyCfg_set_opmdc r m) i =
       if (3 <=? i) && (i <=? 5) then Z.testbit (opmode_raw m) (i - 3)
       else if i =? 6 then true else Z.testbit r i).
Proof. exact LlP.phycfg_bits. Qed.
Print Assumptions C05_phycfg_bits.

Theorem C05_socketmode_bits :
  flag 7 SocketMode_multi_enabled SocketMode_enable_multi SocketMode_disable_multi /\
  flag 7 SocketMode_mfen_enabled SocketMode_enable_mfen SocketMode_disable_mfen /\
  flag 6 SocketMode_bcastb_enabled SocketMode_enable_bcastb SocketMode_disable_bcastb /\
  flag 5 SocketMode_nd_enabled SocketMode_enable_nd SocketMode_disable_nd /\
  flag 5 SocketMode_mc SocketMode_set_igmp_v1 SocketMode_set_igmp_v2 /\
  flag 5 SocketMode_mmb_enabled SocketMode_enable_mmb SocketMode_disable_mmb /\
  flag 4 SocketMode_ucastb_enabled SocketMode_enable_ucastb SocketMode_disable_ucastb /\
  flag 4 SocketMode_mip6b_enabled SocketMode_enable_mip6b SocketMode_disable_mip6b /\
  (forall r, is_u8 r -> SocketMode_protocol r = protocol_from_raw (r mod 16)) /\
  (forall r p, is_u8 r ->
     SocketMode_protocol (SocketMode_set_protocol r p) = Ok p /\
     SocketMode_set_protocol r p = r / 16 * 16 + protocol_raw p).
Proof. exact LlP.socketmode_bits. Qed.
Print Assumptions C05_socketmode_bits.

Theorem C05_socketinterrupt_bits :
  (reads_bit SocketInterrupt_con_raised 0 /\ writes_bit SocketInterrupt_clear_con 0 true) /\
  (reads_bit SocketInterrupt_discon_raised 1 /\ writes_bit SocketInterrupt_clear_discon 1 true) /\
  (reads_bit SocketInterrupt_recv_raised 2 /\ writes_bit SocketInterrupt_clear_recv 2 true) /\
  (reads_bit SocketInterrupt_timeout_raised 3 /\ writes_bit SocketInterrupt_clear_timeout 3 true) /\
  (reads_bit SocketInterrupt_sendok_raised 4 /\ writes_bit SocketInterrupt_clear_sendok 4 true) /\
  (forall r, is_u8 r -> SocketInterrupt_any_raised r =
     Z.testbit r 0 || Z.testbit r 1 || Z.testbit r 2 || Z.testbit r 3 || Z.testbit r 4).
Proof. exact LlP.socketinterrupt_bits. Qed.
Print Assumptions C05_socketinterrupt_bits.

Theorem C05_socketinterruptmask_bits :
  nflag 0 SocketInterruptMask_con_masked SocketInterruptMask_unmask_con SocketInterruptMask_mask_con /\
  nflag 1 SocketInterruptMask_discon_masked SocketInterruptMask_unmask_discon SocketInterruptMask_mask_discon /\
  nflag 2 SocketInterruptMask_recv_masked SocketInterruptMask_unmask_recv SocketInterruptMask_mask_recv /\
  nflag 3 SocketInterruptMask_timeout_masked SocketInterruptMask_unmask_timeout SocketInterruptMask_mask_timeout /\
  nflag 4 SocketInterruptMask_sendok_masked SocketInterruptMask_unmask_sendok SocketInterruptMask_mask_sendok /\
  (forall i, 0 <= i < 5 -> Z.testbit SocketInterruptMask_ALL_MASKED i = false).
Proof. exact LlP.socketinterruptmask_bits. Qed.
Print Assumptions C05_socketinterruptmask_bits.

Theorem C05_setter_sequence (ops : list ((Z -> Z) * Z * bool)) :
  Forall (fun o => writes_bit (fst (fst o)) (snd (fst o)) (snd o)) ops ->
  forall r, is_u8 r ->
  let r' := fold_left (fun r o => fst (fst o) r) ops r in
  is_u8 r' /\
  forall i, 0 <= i -> Z.testbit r' i =
    fold_left (fun b o => if i =? snd (fst o) then snd o else b) ops (Z.testbit r i).
Proof. exact (LlP.setter_sequence ops). Qed.
Print Assumptions C05_setter_sequence.
Example C05_setter_sequence_case :
  fold_left (fun r o => fst (fst o) r)
    [((Mode_enable_wol, 5), true); ((Mode_disable_pb, 4), false); ((Mode_disable_wol, 5), false)] 0x12 = 2 /\
  Forall (fun o => writes_bit (fst (fst o)) (snd (fst o)) (snd o))
    [((Mode_enable_wol, 5), true); ((Mode_disable_pb, 4), false); ((Mode_disable_wol, 5), false)].
Proof.
  destruct C05_mode_bits as (_ & (_ & W & W') & (_ & _ & P) & _).
  split; [reflexivity|].
  repeat (apply Forall_cons; [assumption|]). apply Forall_nil.
Qed.

(** C06 *)
Theorem C06_enum_conversions :
  (forall s, status_try_from (status_raw s) = Ok s) /\
  (forall v, match status_try_from v with Ok s => status_raw s = v | Err e => e = v end) /\
  (forall s, command_try_from (command_raw s) = Ok s) /\
  (forall v, match command_try_from v with Ok s => command_raw s = v | Err e => e = v end) /\
  (forall s, protocol_from_raw (protocol_raw s) = Ok s) /\
  (forall v, match protocol_from_raw v with Ok s => protocol_raw s = v | Err e => e = v end) /\
  (forall s, bufsize_try_from (bufsize_raw s) = Ok s) /\
  (forall v, match bufsize_try_from v with Ok s => bufsize_raw s = v | Err e => e = v end) /\
  (forall s, sn_try_from (sn_raw s) = Ok s) /\
  (forall v, match sn_try_from v with Ok s => sn_raw s = v | Err e => e = v end) /\
  (forall m, opmode_from_raw (opmode_raw m) = m) /\
  (forall b, bufsize_in_bytes b = 1024 * bufsize_raw b) /\
  (forall s, sn_bitmask s = 2 ^ sn_raw s) /\
  (forall b, link_raw (link_of_bool b) = Z.b2z b /\ speed_raw (speed_of_bool b) = Z.b2z b /\
     duplex_raw (duplex_of_bool b) = Z.b2z b).
Proof. exact LlP.enum_conversions. Qed.
Print Assumptions C06_enum_conversions.

(** C06: the documented encodings (W5500 datasheet, quoted in ll/src/specifiers.rs). *)
Theorem C06_encodings :
  map status_raw [Closed; Init; Listen; Established; CloseWait; Udp; Macraw; SynSent; SynRecv; FinWait;
    Closing; TimeWait; LastAck] =
    [0x00; 0x13; 0x14; 0x17; 0x1C; 0x22; 0x42; 0x15; 0x16; 0x18; 0x1A; 0x1B; 0x1D] /\
  map command_raw [CAccepted; COpen; CListen; CConnect; CDisconnect; CClose; CSend; CSendMac; CSendKeep;
    CRecv] = [0; 0x01; 0x02; 0x04; 0x08; 0x10; 0x20; 0x21; 0x22; 0x40] /\
  map sn_raw SOCKETS = [0; 1; 2; 3; 4; 5; 6; 7].
Proof. exact LlP.encodings. Qed.
Print Assumptions C06_encodings.
