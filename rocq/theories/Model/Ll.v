(** ll/src/lib.rs: the provided methods of the [Registers] trait.

    [Ipv4Addr] is the list of its four octets, [Eui48Addr] of its six, [SocketAddrV4] the pair of
    address and port, register structs their byte.  [reg[0]] and friends index an array whose static
    length is the length of the transaction. *)
From Verif Require Import Model.Prelude Model.Bus Model.Specifiers Model.LlAddr.

(** ll/src/lib.rs 397-407, 409-419: pointer pairs. *)
Record TxPtrs : Type := { txp_fsr : Z; txp_wr : Z }.
Record RxPtrs : Type := { rxp_rsr : Z; rxp_rd : Z }.

(** Decoders for the arrays filled by [read]. *)
Definition byte0 (l : list Z) : Z := at_ l 0.
Definition word0 (l : list Z) : Z := of_be16 (at_ l 0) (at_ l 1).

(** ll/src/lib.rs 470-474. *)
Definition mr : M Z :=
  l <- read (Reg_addr R_MR) COMMON_BLOCK_OFFSET 1 ;; ret (byte0 l).
(** ll/src/lib.rs 495-497. *)
Definition set_mr (mode : Z) : M unit :=
  write (Reg_addr R_MR) COMMON_BLOCK_OFFSET [mode].
(** ll/src/lib.rs 518-522. *)
Definition gar : M (list Z) :=
  l <- read (Reg_addr R_GAR0) COMMON_BLOCK_OFFSET 4 ;; ret (l).
(** ll/src/lib.rs 542-544. *)
Definition set_gar (gar : list Z) : M unit :=
  write (Reg_addr R_GAR0) COMMON_BLOCK_OFFSET gar.
(** ll/src/lib.rs 565-569. *)
Definition subr : M (list Z) :=
  l <- read (Reg_addr R_SUBR0) COMMON_BLOCK_OFFSET 4 ;; ret (l).
(** ll/src/lib.rs 589-591. *)
Definition set_subr (subr : list Z) : M unit :=
  write (Reg_addr R_SUBR0) COMMON_BLOCK_OFFSET subr.
(** ll/src/lib.rs 612-616. *)
Definition shar : M (list Z) :=
  l <- read (Reg_addr R_SHAR0) COMMON_BLOCK_OFFSET 6 ;; ret (l).
(** ll/src/lib.rs 636-638. *)
Definition set_shar (shar : list Z) : M unit :=
  write (Reg_addr R_SHAR0) COMMON_BLOCK_OFFSET shar.
(** ll/src/lib.rs 659-663. *)
Definition sipr : M (list Z) :=
  l <- read (Reg_addr R_SIPR0) COMMON_BLOCK_OFFSET 4 ;; ret (l).
(** ll/src/lib.rs 683-685. *)
Definition set_sipr (sipr : list Z) : M unit :=
  write (Reg_addr R_SIPR0) COMMON_BLOCK_OFFSET sipr.
(** ll/src/lib.rs 720-724. *)
Definition intlevel : M Z :=
  l <- read (Reg_addr R_INTLEVEL0) COMMON_BLOCK_OFFSET 2 ;; ret (word0 l).
(** ll/src/lib.rs 746-752. *)
Definition set_intlevel (intlevel : Z) : M unit :=
  write (Reg_addr R_INTLEVEL0) COMMON_BLOCK_OFFSET (be16 intlevel).
(** ll/src/lib.rs 775-779. *)
Definition ir : M Z :=
  l <- read (Reg_addr R_IR) COMMON_BLOCK_OFFSET 1 ;; ret (byte0 l).
(** ll/src/lib.rs 806-808. *)
Definition set_ir (interrupt : Z) : M unit :=
  write (Reg_addr R_IR) COMMON_BLOCK_OFFSET [interrupt].
(** ll/src/lib.rs 831-835. *)
Definition imr : M Z :=
  l <- read (Reg_addr R_IMR) COMMON_BLOCK_OFFSET 1 ;; ret (byte0 l).
(** ll/src/lib.rs 864-866. *)
Definition set_imr (mask : Z) : M unit :=
  write (Reg_addr R_IMR) COMMON_BLOCK_OFFSET [mask].
(** ll/src/lib.rs 900-904. *)
Definition sir : M Z :=
  l <- read (Reg_addr R_SIR) COMMON_BLOCK_OFFSET 1 ;; ret (byte0 l).
(** ll/src/lib.rs 930-934. *)
Definition simr : M Z :=
  l <- read (Reg_addr R_SIMR) COMMON_BLOCK_OFFSET 1 ;; ret (byte0 l).
(** ll/src/lib.rs 957-959. *)
Definition set_simr (simr : Z) : M unit :=
  write (Reg_addr R_SIMR) COMMON_BLOCK_OFFSET [simr].
(** ll/src/lib.rs 990-994. *)
Definition rtr : M Z :=
  l <- read (Reg_addr R_RTR0) COMMON_BLOCK_OFFSET 2 ;; ret (word0 l).
(** ll/src/lib.rs 1016-1018. *)
Definition set_rtr (rtr : Z) : M unit :=
  write (Reg_addr R_RTR0) COMMON_BLOCK_OFFSET (be16 rtr).
(** ll/src/lib.rs 1045-1049. *)
Definition rcr : M Z :=
  l <- read (Reg_addr R_RCR) COMMON_BLOCK_OFFSET 1 ;; ret (byte0 l).
(** ll/src/lib.rs 1071-1073. *)
Definition set_rcr (rcr : Z) : M unit :=
  write (Reg_addr R_RCR) COMMON_BLOCK_OFFSET [rcr].
(** ll/src/lib.rs 1098-1102. *)
Definition ptimer : M Z :=
  l <- read (Reg_addr R_PTIMER) COMMON_BLOCK_OFFSET 1 ;; ret (byte0 l).
(** ll/src/lib.rs 1124-1126. *)
Definition set_ptimer (ptimer : Z) : M unit :=
  write (Reg_addr R_PTIMER) COMMON_BLOCK_OFFSET [ptimer].
(** ll/src/lib.rs 1149-1153. *)
Definition pmagic : M Z :=
  l <- read (Reg_addr R_PMAGIC) COMMON_BLOCK_OFFSET 1 ;; ret (byte0 l).
(** ll/src/lib.rs 1175-1177. *)
Definition set_pmagic (pmagic : Z) : M unit :=
  write (Reg_addr R_PMAGIC) COMMON_BLOCK_OFFSET [pmagic].
(** ll/src/lib.rs 1198-1202. *)
Definition phar : M (list Z) :=
  l <- read (Reg_addr R_PHAR0) COMMON_BLOCK_OFFSET 6 ;; ret (l).
(** ll/src/lib.rs 1222-1224. *)
Definition set_phar (phar : list Z) : M unit :=
  write (Reg_addr R_PHAR0) COMMON_BLOCK_OFFSET phar.
(** ll/src/lib.rs 1248-1252. *)
Definition psid : M Z :=
  l <- read (Reg_addr R_PSID0) COMMON_BLOCK_OFFSET 2 ;; ret (word0 l).
(** ll/src/lib.rs 1274-1276. *)
Definition set_psid (psid : Z) : M unit :=
  write (Reg_addr R_PSID0) COMMON_BLOCK_OFFSET (be16 psid).
(** ll/src/lib.rs 1299-1303. *)
Definition pmru : M Z :=
  l <- read (Reg_addr R_PMRU0) COMMON_BLOCK_OFFSET 2 ;; ret (word0 l).
(** ll/src/lib.rs 1325-1327. *)
Definition set_pmru (pmru : Z) : M unit :=
  write (Reg_addr R_PMRU0) COMMON_BLOCK_OFFSET (be16 pmru).
(** ll/src/lib.rs 1355-1359. *)
Definition uipr : M (list Z) :=
  l <- read (Reg_addr R_UIPR0) COMMON_BLOCK_OFFSET 4 ;; ret (l).
(** ll/src/lib.rs 1381-1385. *)
Definition uportr : M Z :=
  l <- read (Reg_addr R_UPORTR0) COMMON_BLOCK_OFFSET 2 ;; ret (word0 l).
(** ll/src/lib.rs 1406-1410. *)
Definition phycfgr : M Z :=
  l <- read (Reg_addr R_PHYCFGR) COMMON_BLOCK_OFFSET 1 ;; ret (byte0 l).
(** ll/src/lib.rs 1431-1433. *)
Definition set_phycfgr (phycfg : Z) : M unit :=
  write (Reg_addr R_PHYCFGR) COMMON_BLOCK_OFFSET [phycfg].
(** ll/src/lib.rs 1459-1463. *)
Definition version : M Z :=
  l <- read (Reg_addr R_VERSIONR) COMMON_BLOCK_OFFSET 1 ;; ret (byte0 l).
(** ll/src/lib.rs 1484-1488. *)
Definition sn_mr (sn : Sn) : M Z :=
  l <- read (SnReg_addr S_MR) (sn_block sn) 1 ;; ret (byte0 l).
(** ll/src/lib.rs 1509-1511. *)
Definition set_sn_mr (sn : Sn) (mode : Z) : M unit :=
  write (SnReg_addr S_MR) (sn_block sn) [mode].
(** ll/src/lib.rs 1543-1547. *)
Definition sn_cr (sn : Sn) : M Z :=
  l <- read (SnReg_addr S_CR) (sn_block sn) 1 ;; ret (byte0 l).
(** ll/src/lib.rs 1567-1569. *)
Definition set_sn_cr (sn : Sn) (cmd : SocketCommand) : M unit :=
  write (SnReg_addr S_CR) (sn_block sn) [command_raw cmd].
(** ll/src/lib.rs 1589-1593. *)
Definition sn_ir (sn : Sn) : M Z :=
  l <- read (SnReg_addr S_IR) (sn_block sn) 1 ;; ret (byte0 l).
(** ll/src/lib.rs 1639-1641. *)
Definition set_sn_ir (sn : Sn) (sn_ir : Z) : M unit :=
  write (SnReg_addr S_IR) (sn_block sn) [sn_ir].
(** ll/src/lib.rs 1678-1682. *)
Definition sn_sr (sn : Sn) : M (res Z SocketStatus) :=
  l <- read (SnReg_addr S_SR) (sn_block sn) 1 ;; ret (status_try_from (byte0 l)).
(** ll/src/lib.rs 1705-1709. *)
Definition sn_port (sn : Sn) : M Z :=
  l <- read (SnReg_addr S_PORT0) (sn_block sn) 2 ;; ret (word0 l).
(** ll/src/lib.rs 1731-1733. *)
Definition set_sn_port (sn : Sn) (port : Z) : M unit :=
  write (SnReg_addr S_PORT0) (sn_block sn) (be16 port).
(** ll/src/lib.rs 1757-1761. *)
Definition sn_dhar (sn : Sn) : M (list Z) :=
  l <- read (SnReg_addr S_DHAR0) (sn_block sn) 6 ;; ret (l).
(** ll/src/lib.rs 1784-1786. *)
Definition set_sn_dhar (sn : Sn) (dhar : list Z) : M unit :=
  write (SnReg_addr S_DHAR0) (sn_block sn) dhar.
(** ll/src/lib.rs 1820-1824. *)
Definition sn_dipr (sn : Sn) : M (list Z) :=
  l <- read (SnReg_addr S_DIPR0) (sn_block sn) 4 ;; ret (l).
(** ll/src/lib.rs 1846-1848. *)
Definition set_sn_dipr (sn : Sn) (dipr : list Z) : M unit :=
  write (SnReg_addr S_DIPR0) (sn_block sn) dipr.
(** ll/src/lib.rs 1882-1886. *)
Definition sn_dport (sn : Sn) : M Z :=
  l <- read (SnReg_addr S_DPORT0) (sn_block sn) 2 ;; ret (word0 l).
(** ll/src/lib.rs 1908-1910. *)
Definition set_sn_dport (sn : Sn) (port : Z) : M unit :=
  write (SnReg_addr S_DPORT0) (sn_block sn) (be16 port).
(** ll/src/lib.rs 1938-1945. *)
Definition sn_dest (sn : Sn) : M (list Z * Z) :=
  l <- read (SnReg_addr S_DIPR0) (sn_block sn) 6 ;; ret ((ztake 4 l, of_be16 (at_ l 4) (at_ l 5))).
(** ll/src/lib.rs 1973-1983. *)
Definition set_sn_dest (sn : Sn) (addr : list Z * Z) : M unit :=
  let '(ip, port) := addr in
  write (SnReg_addr S_DIPR0) (sn_block sn)
    [at_ ip 0; at_ ip 1; at_ ip 2; at_ ip 3; u8 (Z.shiftr port 8); u8 port].
(** ll/src/lib.rs 2035-2039. *)
Definition sn_mssr (sn : Sn) : M Z :=
  l <- read (SnReg_addr S_MSSR0) (sn_block sn) 2 ;; ret (word0 l).
(** ll/src/lib.rs 2061-2063. *)
Definition set_sn_mssr (sn : Sn) (mssr : Z) : M unit :=
  write (SnReg_addr S_MSSR0) (sn_block sn) (be16 mssr).
(** ll/src/lib.rs 2091-2095. *)
Definition sn_tos (sn : Sn) : M Z :=
  l <- read (SnReg_addr S_TOS) (sn_block sn) 1 ;; ret (byte0 l).
(** ll/src/lib.rs 2117-2119. *)
Definition set_sn_tos (sn : Sn) (tos : Z) : M unit :=
  write (SnReg_addr S_TOS) (sn_block sn) [tos].
(** ll/src/lib.rs 2144-2148. *)
Definition sn_ttl (sn : Sn) : M Z :=
  l <- read (SnReg_addr S_TTL) (sn_block sn) 1 ;; ret (byte0 l).
(** ll/src/lib.rs 2170-2172. *)
Definition set_sn_ttl (sn : Sn) (ttl : Z) : M unit :=
  write (SnReg_addr S_TTL) (sn_block sn) [ttl].
(** ll/src/lib.rs 2213-2217. *)
Definition sn_rxbuf_size (sn : Sn) : M (res Z BufferSize) :=
  l <- read (SnReg_addr S_RXBUF_SIZE) (sn_block sn) 1 ;; ret (bufsize_try_from (byte0 l)).
(** ll/src/lib.rs 2239-2241. *)
Definition set_sn_rxbuf_size (sn : Sn) (size : BufferSize) : M unit :=
  write (SnReg_addr S_RXBUF_SIZE) (sn_block sn) [bufsize_raw size].
(** ll/src/lib.rs 2282-2286. *)
Definition sn_txbuf_size (sn : Sn) : M (res Z BufferSize) :=
  l <- read (SnReg_addr S_TXBUF_SIZE) (sn_block sn) 1 ;; ret (bufsize_try_from (byte0 l)).
(** ll/src/lib.rs 2308-2310. *)
Definition set_sn_txbuf_size (sn : Sn) (size : BufferSize) : M unit :=
  write (SnReg_addr S_TXBUF_SIZE) (sn_block sn) [bufsize_raw size].
(** ll/src/lib.rs 2352-2356. *)
Definition sn_tx_fsr (sn : Sn) : M Z :=
  l <- read (SnReg_addr S_TX_FSR0) (sn_block sn) 2 ;; ret (word0 l).
(** ll/src/lib.rs 2393-2397. *)
Definition sn_tx_rd (sn : Sn) : M Z :=
  l <- read (SnReg_addr S_TX_RD0) (sn_block sn) 2 ;; ret (word0 l).
(** ll/src/lib.rs 2430-2434. *)
Definition sn_tx_wr (sn : Sn) : M Z :=
  l <- read (SnReg_addr S_TX_WR0) (sn_block sn) 2 ;; ret (word0 l).
(** ll/src/lib.rs 2441-2443. *)
Definition set_sn_tx_wr (sn : Sn) (ptr : Z) : M unit :=
  write (SnReg_addr S_TX_WR0) (sn_block sn) (be16 ptr).
(** ll/src/lib.rs 2449-2456. *)
Definition sn_tx_ptrs (sn : Sn) : M TxPtrs :=
  l <- read (SnReg_addr S_TX_FSR0) (sn_block sn) 6 ;; ret ({| txp_fsr := word0 l; txp_wr := word0 (zdrop 4 l) |}).
(** ll/src/lib.rs 2482-2486. *)
Definition sn_rx_rsr (sn : Sn) : M Z :=
  l <- read (SnReg_addr S_RX_RSR0) (sn_block sn) 2 ;; ret (word0 l).
(** ll/src/lib.rs 2518-2522. *)
Definition sn_rx_rd (sn : Sn) : M Z :=
  l <- read (SnReg_addr S_RX_RD0) (sn_block sn) 2 ;; ret (word0 l).
(** ll/src/lib.rs 2528-2530. *)
Definition set_sn_rx_rd (sn : Sn) (ptr : Z) : M unit :=
  write (SnReg_addr S_RX_RD0) (sn_block sn) (be16 ptr).
(** ll/src/lib.rs 2553-2557. *)
Definition sn_rx_wr (sn : Sn) : M Z :=
  l <- read (SnReg_addr S_RX_WR0) (sn_block sn) 2 ;; ret (word0 l).
(** ll/src/lib.rs 2563-2570. *)
Definition sn_rx_ptrs (sn : Sn) : M RxPtrs :=
  l <- read (SnReg_addr S_RX_RSR0) (sn_block sn) 4 ;; ret ({| rxp_rsr := word0 l; rxp_rd := word0 (zdrop 2 l) |}).
(** ll/src/lib.rs 2591-2595. *)
Definition sn_imr (sn : Sn) : M Z :=
  l <- read (SnReg_addr S_IMR) (sn_block sn) 1 ;; ret (byte0 l).
(** ll/src/lib.rs 2615-2617. *)
Definition set_sn_imr (sn : Sn) (mask : Z) : M unit :=
  write (SnReg_addr S_IMR) (sn_block sn) [mask].
(** ll/src/lib.rs 2640-2644. *)
Definition sn_frag (sn : Sn) : M Z :=
  l <- read (SnReg_addr S_FRAG0) (sn_block sn) 2 ;; ret (word0 l).
(** ll/src/lib.rs 2666-2668. *)
Definition set_sn_frag (sn : Sn) (frag : Z) : M unit :=
  write (SnReg_addr S_FRAG0) (sn_block sn) (be16 frag).
(** ll/src/lib.rs 2706-2710. *)
Definition sn_kpalvtr (sn : Sn) : M Z :=
  l <- read (SnReg_addr S_KPALVTR) (sn_block sn) 1 ;; ret (byte0 l).
(** ll/src/lib.rs 2733-2735. *)
Definition set_sn_kpalvtr (sn : Sn) (kpalvtr : Z) : M unit :=
  write (SnReg_addr S_KPALVTR) (sn_block sn) [kpalvtr].
(** ll/src/lib.rs 2794-2796. *)
Definition set_sn_tx_buf (sn : Sn) (ptr : Z) (buf : list Z) : M unit := write ptr (sn_tx_block sn) buf.
(** ll/src/lib.rs 2820-2822; [len] is [buf.len()], the filled buffer is returned. *)
Definition sn_tx_buf (sn : Sn) (ptr len : Z) : M (list Z) := read ptr (sn_tx_block sn) len.
(** ll/src/lib.rs 2877-2879; [len] is [buf.len()], the filled buffer is returned. *)
Definition sn_rx_buf (sn : Sn) (ptr len : Z) : M (list Z) := read ptr (sn_rx_block sn) len.
(** ll/src/lib.rs 2903-2905. *)
Definition set_sn_rx_buf (sn : Sn) (ptr : Z) (buf : list Z) : M unit := write ptr (sn_rx_block sn) buf.
