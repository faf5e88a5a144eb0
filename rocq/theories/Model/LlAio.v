(** ll/src/aio.rs: the provided methods of the asynchronous [Registers] trait.

    An [async fn] that is awaited to its end makes its transactions in program order; the points where it may be
    suspended are the transactions, and what happens on the chip meanwhile is the same as between the transactions
    of blocking code.  The types are represented as in [Ll]. *)
From Verif Require Import Model.Prelude Model.Bus Model.Specifiers Model.LlAddr.
From Verif Require Model.Ll.

(** ll/src/aio.rs 53-58. *)
Definition mr : M Z :=
  l <- read (Reg_addr R_MR) COMMON_BLOCK_OFFSET 1 ;; ret (Ll.byte0 l).
(** ll/src/aio.rs 80-83. *)
Definition set_mr (mode : Z) : M unit :=
  write (Reg_addr R_MR) COMMON_BLOCK_OFFSET [mode].
(** ll/src/aio.rs 105-110. *)
Definition gar : M (list Z) :=
  l <- read (Reg_addr R_GAR0) COMMON_BLOCK_OFFSET 4 ;; ret (l).
(** ll/src/aio.rs 131-134. *)
Definition set_gar (gar : list Z) : M unit :=
  write (Reg_addr R_GAR0) COMMON_BLOCK_OFFSET gar.
(** ll/src/aio.rs 156-161. *)
Definition subr : M (list Z) :=
  l <- read (Reg_addr R_SUBR0) COMMON_BLOCK_OFFSET 4 ;; ret (l).
(** ll/src/aio.rs 182-185. *)
Definition set_subr (subr : list Z) : M unit :=
  write (Reg_addr R_SUBR0) COMMON_BLOCK_OFFSET subr.
(** ll/src/aio.rs 207-212. *)
Definition shar : M (list Z) :=
  l <- read (Reg_addr R_SHAR0) COMMON_BLOCK_OFFSET 6 ;; ret (l).
(** ll/src/aio.rs 235-238. *)
Definition set_shar (shar : list Z) : M unit :=
  write (Reg_addr R_SHAR0) COMMON_BLOCK_OFFSET shar.
(** ll/src/aio.rs 260-265. *)
Definition sipr : M (list Z) :=
  l <- read (Reg_addr R_SIPR0) COMMON_BLOCK_OFFSET 4 ;; ret (l).
(** ll/src/aio.rs 286-289. *)
Definition set_sipr (sipr : list Z) : M unit :=
  write (Reg_addr R_SIPR0) COMMON_BLOCK_OFFSET sipr.
(** ll/src/aio.rs 325-330. *)
Definition intlevel : M Z :=
  l <- read (Reg_addr R_INTLEVEL0) COMMON_BLOCK_OFFSET 2 ;; ret (Ll.word0 l).
(** ll/src/aio.rs 353-360. *)
Definition set_intlevel (intlevel : Z) : M unit :=
  write (Reg_addr R_INTLEVEL0) COMMON_BLOCK_OFFSET (be16 intlevel).
(** ll/src/aio.rs 384-389. *)
Definition ir : M Z :=
  l <- read (Reg_addr R_IR) COMMON_BLOCK_OFFSET 1 ;; ret (Ll.byte0 l).
(** ll/src/aio.rs 417-420. *)
Definition set_ir (interrupt : Z) : M unit :=
  write (Reg_addr R_IR) COMMON_BLOCK_OFFSET [interrupt].
(** ll/src/aio.rs 444-449. *)
Definition imr : M Z :=
  l <- read (Reg_addr R_IMR) COMMON_BLOCK_OFFSET 1 ;; ret (Ll.byte0 l).
(** ll/src/aio.rs 479-482. *)
Definition set_imr (mask : Z) : M unit :=
  write (Reg_addr R_IMR) COMMON_BLOCK_OFFSET [mask].
(** ll/src/aio.rs 517-522. *)
Definition sir : M Z :=
  l <- read (Reg_addr R_SIR) COMMON_BLOCK_OFFSET 1 ;; ret (Ll.byte0 l).
(** ll/src/aio.rs 549-554. *)
Definition simr : M Z :=
  l <- read (Reg_addr R_SIMR) COMMON_BLOCK_OFFSET 1 ;; ret (Ll.byte0 l).
(** ll/src/aio.rs 578-581. *)
Definition set_simr (simr : Z) : M unit :=
  write (Reg_addr R_SIMR) COMMON_BLOCK_OFFSET [simr].
(** ll/src/aio.rs 613-618. *)
Definition rtr : M Z :=
  l <- read (Reg_addr R_RTR0) COMMON_BLOCK_OFFSET 2 ;; ret (Ll.word0 l).
(** ll/src/aio.rs 641-644. *)
Definition set_rtr (rtr : Z) : M unit :=
  write (Reg_addr R_RTR0) COMMON_BLOCK_OFFSET (be16 rtr).
(** ll/src/aio.rs 672-677. *)
Definition rcr : M Z :=
  l <- read (Reg_addr R_RCR) COMMON_BLOCK_OFFSET 1 ;; ret (Ll.byte0 l).
(** ll/src/aio.rs 700-703. *)
Definition set_rcr (rcr : Z) : M unit :=
  write (Reg_addr R_RCR) COMMON_BLOCK_OFFSET [rcr].
(** ll/src/aio.rs 729-734. *)
Definition ptimer : M Z :=
  l <- read (Reg_addr R_PTIMER) COMMON_BLOCK_OFFSET 1 ;; ret (Ll.byte0 l).
(** ll/src/aio.rs 757-760. *)
Definition set_ptimer (ptimer : Z) : M unit :=
  write (Reg_addr R_PTIMER) COMMON_BLOCK_OFFSET [ptimer].
(** ll/src/aio.rs 784-789. *)
Definition pmagic : M Z :=
  l <- read (Reg_addr R_PMAGIC) COMMON_BLOCK_OFFSET 1 ;; ret (Ll.byte0 l).
(** ll/src/aio.rs 812-815. *)
Definition set_pmagic (pmagic : Z) : M unit :=
  write (Reg_addr R_PMAGIC) COMMON_BLOCK_OFFSET [pmagic].
(** ll/src/aio.rs 837-842. *)
Definition phar : M (list Z) :=
  l <- read (Reg_addr R_PHAR0) COMMON_BLOCK_OFFSET 6 ;; ret (l).
(** ll/src/aio.rs 865-868. *)
Definition set_phar (phar : list Z) : M unit :=
  write (Reg_addr R_PHAR0) COMMON_BLOCK_OFFSET phar.
(** ll/src/aio.rs 893-898. *)
Definition psid : M Z :=
  l <- read (Reg_addr R_PSID0) COMMON_BLOCK_OFFSET 2 ;; ret (Ll.word0 l).
(** ll/src/aio.rs 921-924. *)
Definition set_psid (psid : Z) : M unit :=
  write (Reg_addr R_PSID0) COMMON_BLOCK_OFFSET (be16 psid).
(** ll/src/aio.rs 948-953. *)
Definition pmru : M Z :=
  l <- read (Reg_addr R_PMRU0) COMMON_BLOCK_OFFSET 2 ;; ret (Ll.word0 l).
(** ll/src/aio.rs 976-979. *)
Definition set_pmru (pmru : Z) : M unit :=
  write (Reg_addr R_PMRU0) COMMON_BLOCK_OFFSET (be16 pmru).
(** ll/src/aio.rs 1008-1013. *)
Definition uipr : M (list Z) :=
  l <- read (Reg_addr R_UIPR0) COMMON_BLOCK_OFFSET 4 ;; ret (l).
(** ll/src/aio.rs 1036-1041. *)
Definition uportr : M Z :=
  l <- read (Reg_addr R_UPORTR0) COMMON_BLOCK_OFFSET 2 ;; ret (Ll.word0 l).
(** ll/src/aio.rs 1063-1068. *)
Definition phycfgr : M Z :=
  l <- read (Reg_addr R_PHYCFGR) COMMON_BLOCK_OFFSET 1 ;; ret (Ll.byte0 l).
(** ll/src/aio.rs 1090-1093. *)
Definition set_phycfgr (phycfg : Z) : M unit :=
  write (Reg_addr R_PHYCFGR) COMMON_BLOCK_OFFSET [phycfg].
(** ll/src/aio.rs 1120-1125. *)
Definition version : M Z :=
  l <- read (Reg_addr R_VERSIONR) COMMON_BLOCK_OFFSET 1 ;; ret (Ll.byte0 l).
(** ll/src/aio.rs 1147-1151. *)
Definition sn_mr (sn : Sn) : M Z :=
  l <- read (SnReg_addr S_MR) (sn_block sn) 1 ;; ret (Ll.byte0 l).
(** ll/src/aio.rs 1173-1176. *)
Definition set_sn_mr (sn : Sn) (mode : Z) : M unit :=
  write (SnReg_addr S_MR) (sn_block sn) [mode].
(** ll/src/aio.rs 1209-1213. *)
Definition sn_cr (sn : Sn) : M Z :=
  l <- read (SnReg_addr S_CR) (sn_block sn) 1 ;; ret (Ll.byte0 l).
(** ll/src/aio.rs 1234-1237. *)
Definition set_sn_cr (sn : Sn) (cmd : SocketCommand) : M unit :=
  write (SnReg_addr S_CR) (sn_block sn) [command_raw cmd].
(** ll/src/aio.rs 1258-1262. *)
Definition sn_ir (sn : Sn) : M Z :=
  l <- read (SnReg_addr S_IR) (sn_block sn) 1 ;; ret (Ll.byte0 l).
(** ll/src/aio.rs 1312-1316. *)
Definition set_sn_ir (sn : Sn) (sn_ir : Z) : M unit :=
  write (SnReg_addr S_IR) (sn_block sn) [sn_ir].
(** ll/src/aio.rs 1354-1358. *)
Definition sn_sr (sn : Sn) : M (res Z SocketStatus) :=
  l <- read (SnReg_addr S_SR) (sn_block sn) 1 ;; ret (status_try_from (Ll.byte0 l)).
(** ll/src/aio.rs 1382-1386. *)
Definition sn_port (sn : Sn) : M Z :=
  l <- read (SnReg_addr S_PORT0) (sn_block sn) 2 ;; ret (Ll.word0 l).
(** ll/src/aio.rs 1409-1412. *)
Definition set_sn_port (sn : Sn) (port : Z) : M unit :=
  write (SnReg_addr S_PORT0) (sn_block sn) (be16 port).
(** ll/src/aio.rs 1437-1442. *)
Definition sn_dhar (sn : Sn) : M (list Z) :=
  l <- read (SnReg_addr S_DHAR0) (sn_block sn) 6 ;; ret (l).
(** ll/src/aio.rs 1466-1469. *)
Definition set_sn_dhar (sn : Sn) (dhar : list Z) : M unit :=
  write (SnReg_addr S_DHAR0) (sn_block sn) dhar.
(** ll/src/aio.rs 1504-1509. *)
Definition sn_dipr (sn : Sn) : M (list Z) :=
  l <- read (SnReg_addr S_DIPR0) (sn_block sn) 4 ;; ret (l).
(** ll/src/aio.rs 1534-1537. *)
Definition set_sn_dipr (sn : Sn) (dipr : list Z) : M unit :=
  write (SnReg_addr S_DIPR0) (sn_block sn) dipr.
(** ll/src/aio.rs 1572-1577. *)
Definition sn_dport (sn : Sn) : M Z :=
  l <- read (SnReg_addr S_DPORT0) (sn_block sn) 2 ;; ret (Ll.word0 l).
(** ll/src/aio.rs 1600-1603. *)
Definition set_sn_dport (sn : Sn) (port : Z) : M unit :=
  write (SnReg_addr S_DPORT0) (sn_block sn) (be16 port).
(** ll/src/aio.rs 1633-1640. *)
Definition sn_dest (sn : Sn) : M (list Z * Z) :=
  l <- read (SnReg_addr S_DIPR0) (sn_block sn) 6 ;; ret ((ztake 4 l, of_be16 (at_ l 4) (at_ l 5))).
(** ll/src/aio.rs 1670-1680. *)
Definition set_sn_dest (sn : Sn) (addr : list Z * Z) : M unit :=
  let '(ip, port) := addr in
  write (SnReg_addr S_DIPR0) (sn_block sn)
    [at_ ip 0; at_ ip 1; at_ ip 2; at_ ip 3; u8 (Z.shiftr port 8); u8 port].
(** ll/src/aio.rs 1733-1737. *)
Definition sn_mssr (sn : Sn) : M Z :=
  l <- read (SnReg_addr S_MSSR0) (sn_block sn) 2 ;; ret (Ll.word0 l).
(** ll/src/aio.rs 1760-1763. *)
Definition set_sn_mssr (sn : Sn) (mssr : Z) : M unit :=
  write (SnReg_addr S_MSSR0) (sn_block sn) (be16 mssr).
(** ll/src/aio.rs 1792-1796. *)
Definition sn_tos (sn : Sn) : M Z :=
  l <- read (SnReg_addr S_TOS) (sn_block sn) 1 ;; ret (Ll.byte0 l).
(** ll/src/aio.rs 1819-1821. *)
Definition set_sn_tos (sn : Sn) (tos : Z) : M unit :=
  write (SnReg_addr S_TOS) (sn_block sn) [tos].
(** ll/src/aio.rs 1847-1851. *)
Definition sn_ttl (sn : Sn) : M Z :=
  l <- read (SnReg_addr S_TTL) (sn_block sn) 1 ;; ret (Ll.byte0 l).
(** ll/src/aio.rs 1874-1876. *)
Definition set_sn_ttl (sn : Sn) (ttl : Z) : M unit :=
  write (SnReg_addr S_TTL) (sn_block sn) [ttl].
(** ll/src/aio.rs 1918-1923. *)
Definition sn_rxbuf_size (sn : Sn) : M (res Z BufferSize) :=
  l <- read (SnReg_addr S_RXBUF_SIZE) (sn_block sn) 1 ;; ret (bufsize_try_from (Ll.byte0 l)).
(** ll/src/aio.rs 1946-1949. *)
Definition set_sn_rxbuf_size (sn : Sn) (size : BufferSize) : M unit :=
  write (SnReg_addr S_RXBUF_SIZE) (sn_block sn) [bufsize_raw size].
(** ll/src/aio.rs 1991-1996. *)
Definition sn_txbuf_size (sn : Sn) : M (res Z BufferSize) :=
  l <- read (SnReg_addr S_TXBUF_SIZE) (sn_block sn) 1 ;; ret (bufsize_try_from (Ll.byte0 l)).
(** ll/src/aio.rs 2019-2022. *)
Definition set_sn_txbuf_size (sn : Sn) (size : BufferSize) : M unit :=
  write (SnReg_addr S_TXBUF_SIZE) (sn_block sn) [bufsize_raw size].
(** ll/src/aio.rs 2065-2070. *)
Definition sn_tx_fsr (sn : Sn) : M Z :=
  l <- read (SnReg_addr S_TX_FSR0) (sn_block sn) 2 ;; ret (Ll.word0 l).
(** ll/src/aio.rs 2108-2113. *)
Definition sn_tx_rd (sn : Sn) : M Z :=
  l <- read (SnReg_addr S_TX_RD0) (sn_block sn) 2 ;; ret (Ll.word0 l).
(** ll/src/aio.rs 2147-2152. *)
Definition sn_tx_wr (sn : Sn) : M Z :=
  l <- read (SnReg_addr S_TX_WR0) (sn_block sn) 2 ;; ret (Ll.word0 l).
(** ll/src/aio.rs 2159-2162. *)
Definition set_sn_tx_wr (sn : Sn) (ptr : Z) : M unit :=
  write (SnReg_addr S_TX_WR0) (sn_block sn) (be16 ptr).
(** ll/src/aio.rs 2168-2176. *)
Definition sn_tx_ptrs (sn : Sn) : M Ll.TxPtrs :=
  l <- read (SnReg_addr S_TX_FSR0) (sn_block sn) 6 ;; ret ({| Ll.txp_fsr := Ll.word0 l; Ll.txp_wr := Ll.word0 (zdrop 4 l) |}).
(** ll/src/aio.rs 2203-2208. *)
Definition sn_rx_rsr (sn : Sn) : M Z :=
  l <- read (SnReg_addr S_RX_RSR0) (sn_block sn) 2 ;; ret (Ll.word0 l).
(** ll/src/aio.rs 2241-2246. *)
Definition sn_rx_rd (sn : Sn) : M Z :=
  l <- read (SnReg_addr S_RX_RD0) (sn_block sn) 2 ;; ret (Ll.word0 l).
(** ll/src/aio.rs 2252-2255. *)
Definition set_sn_rx_rd (sn : Sn) (ptr : Z) : M unit :=
  write (SnReg_addr S_RX_RD0) (sn_block sn) (be16 ptr).
(** ll/src/aio.rs 2279-2284. *)
Definition sn_rx_wr (sn : Sn) : M Z :=
  l <- read (SnReg_addr S_RX_WR0) (sn_block sn) 2 ;; ret (Ll.word0 l).
(** ll/src/aio.rs 2290-2298. *)
Definition sn_rx_ptrs (sn : Sn) : M Ll.RxPtrs :=
  l <- read (SnReg_addr S_RX_RSR0) (sn_block sn) 4 ;; ret ({| Ll.rxp_rsr := Ll.word0 l; Ll.rxp_rd := Ll.word0 (zdrop 2 l) |}).
(** ll/src/aio.rs 2320-2324. *)
Definition sn_imr (sn : Sn) : M Z :=
  l <- read (SnReg_addr S_IMR) (sn_block sn) 1 ;; ret (Ll.byte0 l).
(** ll/src/aio.rs 2347-2350. *)
Definition set_sn_imr (sn : Sn) (mask : Z) : M unit :=
  write (SnReg_addr S_IMR) (sn_block sn) [mask].
(** ll/src/aio.rs 2374-2378. *)
Definition sn_frag (sn : Sn) : M Z :=
  l <- read (SnReg_addr S_FRAG0) (sn_block sn) 2 ;; ret (Ll.word0 l).
(** ll/src/aio.rs 2401-2404. *)
Definition set_sn_frag (sn : Sn) (frag : Z) : M unit :=
  write (SnReg_addr S_FRAG0) (sn_block sn) (be16 frag).
(** ll/src/aio.rs 2443-2448. *)
Definition sn_kpalvtr (sn : Sn) : M Z :=
  l <- read (SnReg_addr S_KPALVTR) (sn_block sn) 1 ;; ret (Ll.byte0 l).
(** ll/src/aio.rs 2472-2475. *)
Definition set_sn_kpalvtr (sn : Sn) (kpalvtr : Z) : M unit :=
  write (SnReg_addr S_KPALVTR) (sn_block sn) [kpalvtr].
(** ll/src/aio.rs 2535-2537. *)
Definition set_sn_tx_buf (sn : Sn) (ptr : Z) (buf : list Z) : M unit := write ptr (sn_tx_block sn) buf.
(** ll/src/aio.rs 2562-2564; [len] is [buf.len()], the filled buffer is returned. *)
Definition sn_tx_buf (sn : Sn) (ptr len : Z) : M (list Z) := read ptr (sn_tx_block sn) len.
(** ll/src/aio.rs 2620-2622; [len] is [buf.len()], the filled buffer is returned. *)
Definition sn_rx_buf (sn : Sn) (ptr len : Z) : M (list Z) := read ptr (sn_rx_block sn) len.
(** ll/src/aio.rs 2647-2649. *)
Definition set_sn_rx_buf (sn : Sn) (ptr : Z) (buf : list Z) : M unit := write ptr (sn_rx_block sn) buf.
