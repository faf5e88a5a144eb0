(** ll/src/registers.rs: register bit fields.

    Every register struct is a newtype around [u8]; it is represented by that byte.
    [!m] on [u8] is [u8not m].  The [Display]/[defmt] implementations are not modelled. *)
From Verif Require Import Model.Prelude Model.Specifiers.

(** [!m] for [m: u8]. *)
Definition u8not (m : Z) : Z := 255 - m.

(** [self.0 & m != 0]. *)
Definition any_set (r m : Z) : bool := negb (Z.land r m =? 0).

(** registers.rs 41. *)
Definition Mode_RESET : Z := 0.
(** registers.rs 68. *)
Definition Mode_RST_MASK : Z := Z.shiftl 1 7.
(** registers.rs 70. *)
Definition Mode_WOL_MASK : Z := Z.shiftl 1 5.
(** registers.rs 72. *)
Definition Mode_PB_MASK : Z := Z.shiftl 1 4.
(** registers.rs 74. *)
Definition Mode_PPPOE_MASK : Z := Z.shiftl 1 3.
(** registers.rs 76. *)
Definition Mode_FARP_MASK : Z := Z.shiftl 1 1.
(** registers.rs 82-85. *)
Definition Mode_rst (r : Z) : Z := Z.lor r Mode_RST_MASK.
(** registers.rs 104-106. *)
Definition Mode_wol_enabled (r : Z) : bool := any_set r Mode_WOL_MASK.
(** registers.rs 110-113. *)
Definition Mode_enable_wol (r : Z) : Z := Z.lor r Mode_WOL_MASK.
(** registers.rs 117-120. *)
Definition Mode_disable_wol (r : Z) : Z := Z.land r (u8not Mode_WOL_MASK).
(** registers.rs 138-140. *)
Definition Mode_pb_enabled (r : Z) : bool := any_set r Mode_PB_MASK.
(** registers.rs 144-147. *)
Definition Mode_enable_pb (r : Z) : Z := Z.lor r Mode_PB_MASK.
(** registers.rs 151-154. *)
Definition Mode_disable_pb (r : Z) : Z := Z.land r (u8not Mode_PB_MASK).
(** registers.rs 172-174. *)
Definition Mode_pppoe_enabled (r : Z) : bool := any_set r Mode_PPPOE_MASK.
(** registers.rs 178-181. *)
Definition Mode_enable_pppoe (r : Z) : Z := Z.lor r Mode_PPPOE_MASK.
(** registers.rs 185-188. *)
Definition Mode_disable_pppoe (r : Z) : Z := Z.land r (u8not Mode_PPPOE_MASK).
(** registers.rs 206-208. *)
Definition Mode_farp_enabled (r : Z) : bool := any_set r Mode_FARP_MASK.
(** registers.rs 212-215. *)
Definition Mode_enable_farp (r : Z) : Z := Z.lor r Mode_FARP_MASK.
(** registers.rs 219-222. *)
Definition Mode_disable_farp (r : Z) : Z := Z.land r (u8not Mode_FARP_MASK).
(** registers.rs 276. *)
Definition Interrupt_RESET : Z := 0.
(** registers.rs 301. *)
Definition Interrupt_CONFLICT_MASK : Z := Z.shiftl 1 7.
(** registers.rs 303. *)
Definition Interrupt_UNREACH_MASK : Z := Z.shiftl 1 6.
(** registers.rs 305. *)
Definition Interrupt_PPPOE_MASK : Z := Z.shiftl 1 5.
(** registers.rs 307. *)
Definition Interrupt_MP_MASK : Z := Z.shiftl 1 4.
(** registers.rs 326-328. *)
Definition Interrupt_conflict (r : Z) : bool := any_set r Interrupt_CONFLICT_MASK.
(** registers.rs 332-335. *)
Definition Interrupt_set_conflict (r : Z) : Z := Z.lor r Interrupt_CONFLICT_MASK.
(** registers.rs 339-342. *)
Definition Interrupt_clear_conflict (r : Z) : Z := Z.land r (u8not Interrupt_CONFLICT_MASK).
(** registers.rs 368-370. *)
Definition Interrupt_unreach (r : Z) : bool := any_set r Interrupt_UNREACH_MASK.
(** registers.rs 374-377. *)
Definition Interrupt_set_unreach (r : Z) : Z := Z.lor r Interrupt_UNREACH_MASK.
(** registers.rs 381-384. *)
Definition Interrupt_clear_unreach (r : Z) : Z := Z.land r (u8not Interrupt_UNREACH_MASK).
(** registers.rs 402-404. *)
Definition Interrupt_pppoe (r : Z) : bool := any_set r Interrupt_PPPOE_MASK.
(** registers.rs 408-411. *)
Definition Interrupt_set_pppoe (r : Z) : Z := Z.lor r Interrupt_PPPOE_MASK.
(** registers.rs 415-418. *)
Definition Interrupt_clear_pppoe (r : Z) : Z := Z.land r (u8not Interrupt_PPPOE_MASK).
(** registers.rs 437-439. *)
Definition Interrupt_mp (r : Z) : bool := any_set r Interrupt_MP_MASK.
(** registers.rs 443-446. *)
Definition Interrupt_set_mp (r : Z) : Z := Z.lor r Interrupt_MP_MASK.
(** registers.rs 450-453. *)
Definition Interrupt_clear_mp (r : Z) : Z := Z.land r (u8not Interrupt_MP_MASK).
(** registers.rs 499. *)
Definition PhyCfg_RESET : Z := 184.
(** registers.rs 528. *)
Definition PhyCfg_RST_MASK : Z := Z.shiftl 1 7.
(** registers.rs 530. *)
Definition PhyCfg_OPMD_MASK : Z := Z.shiftl 1 6.
(** registers.rs 532. *)
Definition PhyCfg_OPMDC_MASK : Z := Z.shiftl 7 3.
(** registers.rs 534. *)
Definition PhyCfg_DPX_MASK : Z := Z.shiftl 1 2.
(** registers.rs 536. *)
Definition PhyCfg_SPD_MASK : Z := Z.shiftl 1 1.
(** registers.rs 538. *)
Definition PhyCfg_LNK_MASK : Z := Z.shiftl 1 0.
(** registers.rs 542-545. *)
Definition PhyCfg_rst (r : Z) : Z := Z.land r (u8not PhyCfg_RST_MASK).
(** registers.rs 551-553. *)
Definition PhyCfg_opmd (r : Z) : bool := any_set r PhyCfg_OPMD_MASK.
(** registers.rs 583-586. *)
Definition PhyCfg_hardware_op (r : Z) : Z := Z.land r (u8not PhyCfg_OPMD_MASK).
(** registers.rs 601-604. *)
Definition PhyCfg_software_op (r : Z) : Z := Z.lor r PhyCfg_OPMD_MASK.
(** registers.rs 618-621. *)
Definition PhyCfg_opmdc (r : Z) : OperationMode := opmode_from_raw (Z.shiftr r 3).
(** registers.rs 642-647. *)
Definition PhyCfg_set_opmdc (r : Z) (m : OperationMode) : Z :=
  let r := PhyCfg_software_op r in
  let r := Z.land r (u8not PhyCfg_OPMDC_MASK) in
  Z.lor r (u8 (Z.shiftl (opmode_raw m) 3)).
(** registers.rs 659-664. *)
Definition PhyCfg_dpx (r : Z) : DuplexStatus :=
  if Z.land r PhyCfg_DPX_MASK =? PhyCfg_DPX_MASK then DFull else DHalf.
(** registers.rs 676-681. *)
Definition PhyCfg_spd (r : Z) : SpeedStatus :=
  if Z.land r PhyCfg_SPD_MASK =? PhyCfg_SPD_MASK then Mbps100 else Mbps10.
(** registers.rs 693-698. *)
Definition PhyCfg_lnk (r : Z) : LinkStatus :=
  if Z.land r PhyCfg_LNK_MASK =? PhyCfg_LNK_MASK then LinkUp else LinkDown.
(** registers.rs 741. *)
Definition SocketMode_RESET : Z := 0.
(** registers.rs 774. *)
Definition SocketMode_MULTI_MASK : Z := Z.shiftl 1 7.
(** registers.rs 776. *)
Definition SocketMode_MFEN_MASK : Z := Z.shiftl 1 7.
(** registers.rs 778. *)
Definition SocketMode_BCASTB_MASK : Z := Z.shiftl 1 6.
(** registers.rs 780. *)
Definition SocketMode_ND_MASK : Z := Z.shiftl 1 5.
(** registers.rs 782. *)
Definition SocketMode_MC_MASK : Z := Z.shiftl 1 5.
(** registers.rs 784. *)
Definition SocketMode_MMB_MASK : Z := Z.shiftl 1 5.
(** registers.rs 786. *)
Definition SocketMode_UCASTB_MASK : Z := Z.shiftl 1 4.
(** registers.rs 788. *)
Definition SocketMode_MIP6B_MASK : Z := Z.shiftl 1 4.
(** registers.rs 790. *)
Definition SocketMode_PROTOCOL_MASK : Z := 15.
(** registers.rs 805-807. *)
Definition SocketMode_protocol (r : Z) : res Z Protocol :=
  protocol_from_raw (Z.land r SocketMode_PROTOCOL_MASK).
(** registers.rs 819-822. *)
Definition SocketMode_set_protocol (r : Z) (p : Protocol) : Z :=
  Z.lor (Z.land r 240) (Z.land (protocol_raw p) 15).
(** registers.rs 847-849. *)
Definition SocketMode_multi_enabled (r : Z) : bool := any_set r SocketMode_MULTI_MASK.
(** registers.rs 853-856. *)
Definition SocketMode_enable_multi (r : Z) : Z := Z.lor r SocketMode_MULTI_MASK.
(** registers.rs 860-863. *)
Definition SocketMode_disable_multi (r : Z) : Z := Z.land r (u8not SocketMode_MULTI_MASK).
(** registers.rs 888-890. *)
Definition SocketMode_mfen_enabled (r : Z) : bool := any_set r SocketMode_MFEN_MASK.
(** registers.rs 894-897. *)
Definition SocketMode_enable_mfen (r : Z) : Z := Z.lor r SocketMode_MFEN_MASK.
(** registers.rs 901-904. *)
Definition SocketMode_disable_mfen (r : Z) : Z := Z.land r (u8not SocketMode_MFEN_MASK).
(** registers.rs 922-924. *)
Definition SocketMode_bcastb_enabled (r : Z) : bool := any_set r SocketMode_BCASTB_MASK.
(** registers.rs 928-931. *)
Definition SocketMode_enable_bcastb (r : Z) : Z := Z.lor r SocketMode_BCASTB_MASK.
(** registers.rs 935-938. *)
Definition SocketMode_disable_bcastb (r : Z) : Z := Z.land r (u8not SocketMode_BCASTB_MASK).
(** registers.rs 963-965. *)
Definition SocketMode_nd_enabled (r : Z) : bool := any_set r SocketMode_ND_MASK.
(** registers.rs 976-979. *)
Definition SocketMode_enable_nd (r : Z) : Z := Z.lor r SocketMode_ND_MASK.
(** registers.rs 969-972. *)
Definition SocketMode_disable_nd (r : Z) : Z := Z.land r (u8not SocketMode_ND_MASK).
(** registers.rs 1038-1040. *)
Definition SocketMode_mmb_enabled (r : Z) : bool := any_set r SocketMode_MMB_MASK.
(** registers.rs 1044-1047. *)
Definition SocketMode_enable_mmb (r : Z) : Z := Z.lor r SocketMode_MMB_MASK.
(** registers.rs 1051-1054. *)
Definition SocketMode_disable_mmb (r : Z) : Z := Z.land r (u8not SocketMode_MMB_MASK).
(** registers.rs 1072-1074. *)
Definition SocketMode_ucastb_enabled (r : Z) : bool := any_set r SocketMode_UCASTB_MASK.
(** registers.rs 1078-1081. *)
Definition SocketMode_enable_ucastb (r : Z) : Z := Z.lor r SocketMode_UCASTB_MASK.
(** registers.rs 1085-1088. *)
Definition SocketMode_disable_ucastb (r : Z) : Z := Z.land r (u8not SocketMode_UCASTB_MASK).
(** registers.rs 1108-1110. *)
Definition SocketMode_mip6b_enabled (r : Z) : bool := any_set r SocketMode_MIP6B_MASK.
(** registers.rs 1114-1117. *)
Definition SocketMode_enable_mip6b (r : Z) : Z := Z.lor r SocketMode_MIP6B_MASK.
(** registers.rs 1121-1124. *)
Definition SocketMode_disable_mip6b (r : Z) : Z := Z.land r (u8not SocketMode_MIP6B_MASK).
(** registers.rs 1002-1004. *)
Definition SocketMode_mc (r : Z) : bool := any_set r SocketMode_MC_MASK.
(** registers.rs 1008-1011. *)
Definition SocketMode_set_igmp_v1 (r : Z) : Z := Z.lor r SocketMode_MC_MASK.
(** registers.rs 1015-1018. *)
Definition SocketMode_set_igmp_v2 (r : Z) : Z := Z.land r (u8not SocketMode_MC_MASK).
(** registers.rs 1178. *)
Definition SocketInterrupt_RESET : Z := 0.
(** registers.rs 1205. *)
Definition SocketInterrupt_CON_MASK : Z := Z.shiftl 1 0.
(** registers.rs 1207. *)
Definition SocketInterrupt_DISCON_MASK : Z := Z.shiftl 1 1.
(** registers.rs 1209. *)
Definition SocketInterrupt_RECV_MASK : Z := Z.shiftl 1 2.
(** registers.rs 1211. *)
Definition SocketInterrupt_TIMEOUT_MASK : Z := Z.shiftl 1 3.
(** registers.rs 1213. *)
Definition SocketInterrupt_SENDOK_MASK : Z := Z.shiftl 1 4.
(** registers.rs 1215-1219. *)
Definition SocketInterrupt_ALL_MASK : Z :=
  Z.lor (Z.lor (Z.lor (Z.lor SocketInterrupt_CON_MASK SocketInterrupt_DISCON_MASK)
    SocketInterrupt_RECV_MASK) SocketInterrupt_TIMEOUT_MASK) SocketInterrupt_SENDOK_MASK.
(** registers.rs 1234-1236. *)
Definition SocketInterrupt_con_raised (r : Z) : bool := any_set r SocketInterrupt_CON_MASK.
(** registers.rs 1240-1243. *)
Definition SocketInterrupt_clear_con (r : Z) : Z := Z.lor r SocketInterrupt_CON_MASK.
(** registers.rs 1258-1260. *)
Definition SocketInterrupt_discon_raised (r : Z) : bool := any_set r SocketInterrupt_DISCON_MASK.
(** registers.rs 1264-1267. *)
Definition SocketInterrupt_clear_discon (r : Z) : Z := Z.lor r SocketInterrupt_DISCON_MASK.
(** registers.rs 1282-1284. *)
Definition SocketInterrupt_recv_raised (r : Z) : bool := any_set r SocketInterrupt_RECV_MASK.
(** registers.rs 1288-1291. *)
Definition SocketInterrupt_clear_recv (r : Z) : Z := Z.lor r SocketInterrupt_RECV_MASK.
(** registers.rs 1306-1308. *)
Definition SocketInterrupt_timeout_raised (r : Z) : bool := any_set r SocketInterrupt_TIMEOUT_MASK.
(** registers.rs 1312-1315. *)
Definition SocketInterrupt_clear_timeout (r : Z) : Z := Z.lor r SocketInterrupt_TIMEOUT_MASK.
(** registers.rs 1332-1334. *)
Definition SocketInterrupt_sendok_raised (r : Z) : bool := any_set r SocketInterrupt_SENDOK_MASK.
(** registers.rs 1338-1341. *)
Definition SocketInterrupt_clear_sendok (r : Z) : Z := Z.lor r SocketInterrupt_SENDOK_MASK.
(** registers.rs 1352-1354. *)
Definition SocketInterrupt_any_raised (r : Z) : bool := any_set r SocketInterrupt_ALL_MASK.
(** registers.rs 1400. *)
Definition SocketInterruptMask_RESET : Z := 255.
(** registers.rs 1428. *)
Definition SocketInterruptMask_ALL_MASKED : Z := 224.
(** registers.rs 1444-1446. *)
Definition SocketInterruptMask_con_masked (r : Z) : bool := Z.land r SocketInterrupt_CON_MASK =? 0.
(** registers.rs 1450-1453. *)
Definition SocketInterruptMask_unmask_con (r : Z) : Z := Z.lor r SocketInterrupt_CON_MASK.
(** registers.rs 1457-1460. *)
Definition SocketInterruptMask_mask_con (r : Z) : Z := Z.land r (u8not SocketInterrupt_CON_MASK).
(** registers.rs 1476-1478. *)
Definition SocketInterruptMask_discon_masked (r : Z) : bool := Z.land r SocketInterrupt_DISCON_MASK =? 0.
(** registers.rs 1482-1485. *)
Definition SocketInterruptMask_unmask_discon (r : Z) : Z := Z.lor r SocketInterrupt_DISCON_MASK.
(** registers.rs 1489-1492. *)
Definition SocketInterruptMask_mask_discon (r : Z) : Z := Z.land r (u8not SocketInterrupt_DISCON_MASK).
(** registers.rs 1508-1510. *)
Definition SocketInterruptMask_recv_masked (r : Z) : bool := Z.land r SocketInterrupt_RECV_MASK =? 0.
(** registers.rs 1514-1517. *)
Definition SocketInterruptMask_unmask_recv (r : Z) : Z := Z.lor r SocketInterrupt_RECV_MASK.
(** registers.rs 1521-1524. *)
Definition SocketInterruptMask_mask_recv (r : Z) : Z := Z.land r (u8not SocketInterrupt_RECV_MASK).
(** registers.rs 1540-1542. *)
Definition SocketInterruptMask_timeout_masked (r : Z) : bool := Z.land r SocketInterrupt_TIMEOUT_MASK =? 0.
(** registers.rs 1546-1549. *)
Definition SocketInterruptMask_unmask_timeout (r : Z) : Z := Z.lor r SocketInterrupt_TIMEOUT_MASK.
(** registers.rs 1553-1556. *)
Definition SocketInterruptMask_mask_timeout (r : Z) : Z := Z.land r (u8not SocketInterrupt_TIMEOUT_MASK).
(** registers.rs 1572-1574. *)
Definition SocketInterruptMask_sendok_masked (r : Z) : bool := Z.land r SocketInterrupt_SENDOK_MASK =? 0.
(** registers.rs 1578-1581. *)
Definition SocketInterruptMask_unmask_sendok (r : Z) : Z := Z.lor r SocketInterrupt_SENDOK_MASK.
(** registers.rs 1585-1588. *)
Definition SocketInterruptMask_mask_sendok (r : Z) : Z := Z.land r (u8not SocketInterrupt_SENDOK_MASK).
