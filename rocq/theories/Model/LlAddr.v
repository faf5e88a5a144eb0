(** ll/src/addr.rs: register addresses. *)
From Verif Require Import Model.Prelude.

(** addr.rs 5-102. *)
Inductive Reg : Type :=
| R_MR
| R_GAR0
| R_GAR1
| R_GAR2
| R_GAR3
| R_SUBR0
| R_SUBR1
| R_SUBR2
| R_SUBR3
| R_SHAR0
| R_SHAR1
| R_SHAR2
| R_SHAR3
| R_SHAR4
| R_SHAR5
| R_SIPR0
| R_SIPR1
| R_SIPR2
| R_SIPR3
| R_INTLEVEL0
| R_INTLEVEL1
| R_IR
| R_IMR
| R_SIR
| R_SIMR
| R_RTR0
| R_RTR1
| R_RCR
| R_PTIMER
| R_PMAGIC
| R_PHAR0
| R_PHAR1
| R_PHAR2
| R_PHAR3
| R_PHAR4
| R_PHAR5
| R_PSID0
| R_PSID1
| R_PMRU0
| R_PMRU1
| R_UIPR0
| R_UIPR1
| R_UIPR2
| R_UIPR3
| R_UPORTR0
| R_UPORTR1
| R_PHYCFGR
| R_VERSIONR.

(** Discriminants, addr.rs 7-101; [Reg::addr] and [From<Reg> for u16]. *)
Definition Reg_addr (r : Reg) : Z :=
  match r with
  | R_MR => 0x0000
  | R_GAR0 => 0x0001
  | R_GAR1 => 0x0002
  | R_GAR2 => 0x0003
  | R_GAR3 => 0x0004
  | R_SUBR0 => 0x0005
  | R_SUBR1 => 0x0006
  | R_SUBR2 => 0x0007
  | R_SUBR3 => 0x0008
  | R_SHAR0 => 0x0009
  | R_SHAR1 => 0x000a
  | R_SHAR2 => 0x000b
  | R_SHAR3 => 0x000c
  | R_SHAR4 => 0x000d
  | R_SHAR5 => 0x000e
  | R_SIPR0 => 0x000f
  | R_SIPR1 => 0x0010
  | R_SIPR2 => 0x0011
  | R_SIPR3 => 0x0012
  | R_INTLEVEL0 => 0x0013
  | R_INTLEVEL1 => 0x0014
  | R_IR => 0x0015
  | R_IMR => 0x0016
  | R_SIR => 0x0017
  | R_SIMR => 0x0018
  | R_RTR0 => 0x0019
  | R_RTR1 => 0x001a
  | R_RCR => 0x001b
  | R_PTIMER => 0x001c
  | R_PMAGIC => 0x001d
  | R_PHAR0 => 0x001e
  | R_PHAR1 => 0x001f
  | R_PHAR2 => 0x0020
  | R_PHAR3 => 0x0021
  | R_PHAR4 => 0x0022
  | R_PHAR5 => 0x0023
  | R_PSID0 => 0x0024
  | R_PSID1 => 0x0025
  | R_PMRU0 => 0x0026
  | R_PMRU1 => 0x0027
  | R_UIPR0 => 0x0028
  | R_UIPR1 => 0x0029
  | R_UIPR2 => 0x002a
  | R_UIPR3 => 0x002b
  | R_UPORTR0 => 0x002c
  | R_UPORTR1 => 0x002d
  | R_PHYCFGR => 0x002e
  | R_VERSIONR => 0x0039
  end.

(** All variants, in declaration order (addr.rs 7-101). *)
Definition Reg_all : list Reg :=
  [R_MR; R_GAR0; R_GAR1; R_GAR2; R_GAR3; R_SUBR0; R_SUBR1; R_SUBR2; R_SUBR3; R_SHAR0; R_SHAR1; R_SHAR2; R_SHAR3; R_SHAR4; R_SHAR5; R_SIPR0; R_SIPR1; R_SIPR2; R_SIPR3; R_INTLEVEL0; R_INTLEVEL1; R_IR; R_IMR; R_SIR; R_SIMR; R_RTR0; R_RTR1; R_RCR; R_PTIMER; R_PMAGIC; R_PHAR0; R_PHAR1; R_PHAR2; R_PHAR3; R_PHAR4; R_PHAR5; R_PSID0; R_PSID1; R_PMRU0; R_PMRU1; R_UIPR0; R_UIPR1; R_UIPR2; R_UIPR3; R_UPORTR0; R_UPORTR1; R_PHYCFGR; R_VERSIONR].

(** addr.rs 110-163. *)
Definition Reg_try_from (v : Z) : res Z Reg :=
  if v =? Reg_addr R_MR then Ok R_MR else
  if v =? Reg_addr R_GAR0 then Ok R_GAR0 else
  if v =? Reg_addr R_GAR1 then Ok R_GAR1 else
  if v =? Reg_addr R_GAR2 then Ok R_GAR2 else
  if v =? Reg_addr R_GAR3 then Ok R_GAR3 else
  if v =? Reg_addr R_SUBR0 then Ok R_SUBR0 else
  if v =? Reg_addr R_SUBR1 then Ok R_SUBR1 else
  if v =? Reg_addr R_SUBR2 then Ok R_SUBR2 else
  if v =? Reg_addr R_SUBR3 then Ok R_SUBR3 else
  if v =? Reg_addr R_SHAR0 then Ok R_SHAR0 else
  if v =? Reg_addr R_SHAR1 then Ok R_SHAR1 else
  if v =? Reg_addr R_SHAR2 then Ok R_SHAR2 else
  if v =? Reg_addr R_SHAR3 then Ok R_SHAR3 else
  if v =? Reg_addr R_SHAR4 then Ok R_SHAR4 else
  if v =? Reg_addr R_SHAR5 then Ok R_SHAR5 else
  if v =? Reg_addr R_SIPR0 then Ok R_SIPR0 else
  if v =? Reg_addr R_SIPR1 then Ok R_SIPR1 else
  if v =? Reg_addr R_SIPR2 then Ok R_SIPR2 else
  if v =? Reg_addr R_SIPR3 then Ok R_SIPR3 else
  if v =? Reg_addr R_INTLEVEL0 then Ok R_INTLEVEL0 else
  if v =? Reg_addr R_INTLEVEL1 then Ok R_INTLEVEL1 else
  if v =? Reg_addr R_IR then Ok R_IR else
  if v =? Reg_addr R_IMR then Ok R_IMR else
  if v =? Reg_addr R_SIR then Ok R_SIR else
  if v =? Reg_addr R_SIMR then Ok R_SIMR else
  if v =? Reg_addr R_RTR0 then Ok R_RTR0 else
  if v =? Reg_addr R_RTR1 then Ok R_RTR1 else
  if v =? Reg_addr R_RCR then Ok R_RCR else
  if v =? Reg_addr R_PTIMER then Ok R_PTIMER else
  if v =? Reg_addr R_PMAGIC then Ok R_PMAGIC else
  if v =? Reg_addr R_PHAR0 then Ok R_PHAR0 else
  if v =? Reg_addr R_PHAR1 then Ok R_PHAR1 else
  if v =? Reg_addr R_PHAR2 then Ok R_PHAR2 else
  if v =? Reg_addr R_PHAR3 then Ok R_PHAR3 else
  if v =? Reg_addr R_PHAR4 then Ok R_PHAR4 else
  if v =? Reg_addr R_PHAR5 then Ok R_PHAR5 else
  if v =? Reg_addr R_PSID0 then Ok R_PSID0 else
  if v =? Reg_addr R_PSID1 then Ok R_PSID1 else
  if v =? Reg_addr R_PMRU0 then Ok R_PMRU0 else
  if v =? Reg_addr R_PMRU1 then Ok R_PMRU1 else
  if v =? Reg_addr R_UIPR0 then Ok R_UIPR0 else
  if v =? Reg_addr R_UPORTR0 then Ok R_UPORTR0 else
  if v =? Reg_addr R_UPORTR1 then Ok R_UPORTR1 else
  if v =? Reg_addr R_PHYCFGR then Ok R_PHYCFGR else
  if v =? Reg_addr R_VERSIONR then Ok R_VERSIONR else
  Err v.

(** addr.rs 189-200. *)
Definition Reg_is_ro (r : Reg) : bool :=
  match r with
  | R_UIPR0 | R_UIPR1 | R_UIPR2 | R_UIPR3 | R_UPORTR0 | R_UPORTR1 | R_VERSIONR => true
  | _ => false
  end.

(** addr.rs 207-288. *)
Inductive SnReg : Type :=
| S_MR
| S_CR
| S_IR
| S_SR
| S_PORT0
| S_PORT1
| S_DHAR0
| S_DHAR1
| S_DHAR2
| S_DHAR3
| S_DHAR4
| S_DHAR5
| S_DIPR0
| S_DIPR1
| S_DIPR2
| S_DIPR3
| S_DPORT0
| S_DPORT1
| S_MSSR0
| S_MSSR1
| S_TOS
| S_TTL
| S_RXBUF_SIZE
| S_TXBUF_SIZE
| S_TX_FSR0
| S_TX_FSR1
| S_TX_RD0
| S_TX_RD1
| S_TX_WR0
| S_TX_WR1
| S_RX_RSR0
| S_RX_RSR1
| S_RX_RD0
| S_RX_RD1
| S_RX_WR0
| S_RX_WR1
| S_IMR
| S_FRAG0
| S_FRAG1
| S_KPALVTR.

(** Discriminants, addr.rs 209-287; [SnReg::addr] and [From<SnReg> for u16]. *)
Definition SnReg_addr (r : SnReg) : Z :=
  match r with
  | S_MR => 0x0000
  | S_CR => 0x0001
  | S_IR => 0x0002
  | S_SR => 0x0003
  | S_PORT0 => 0x0004
  | S_PORT1 => 0x0005
  | S_DHAR0 => 0x0006
  | S_DHAR1 => 0x0007
  | S_DHAR2 => 0x0008
  | S_DHAR3 => 0x0009
  | S_DHAR4 => 0x000a
  | S_DHAR5 => 0x000b
  | S_DIPR0 => 0x000c
  | S_DIPR1 => 0x000d
  | S_DIPR2 => 0x000e
  | S_DIPR3 => 0x000f
  | S_DPORT0 => 0x0010
  | S_DPORT1 => 0x0011
  | S_MSSR0 => 0x0012
  | S_MSSR1 => 0x0013
  | S_TOS => 0x0015
  | S_TTL => 0x0016
  | S_RXBUF_SIZE => 0x001e
  | S_TXBUF_SIZE => 0x001f
  | S_TX_FSR0 => 0x0020
  | S_TX_FSR1 => 0x0021
  | S_TX_RD0 => 0x0022
  | S_TX_RD1 => 0x0023
  | S_TX_WR0 => 0x0024
  | S_TX_WR1 => 0x0025
  | S_RX_RSR0 => 0x0026
  | S_RX_RSR1 => 0x0027
  | S_RX_RD0 => 0x0028
  | S_RX_RD1 => 0x0029
  | S_RX_WR0 => 0x002a
  | S_RX_WR1 => 0x002b
  | S_IMR => 0x002c
  | S_FRAG0 => 0x002d
  | S_FRAG1 => 0x002e
  | S_KPALVTR => 0x002f
  end.

(** All variants, in declaration order (addr.rs 209-287). *)
Definition SnReg_all : list SnReg :=
  [S_MR; S_CR; S_IR; S_SR; S_PORT0; S_PORT1; S_DHAR0; S_DHAR1; S_DHAR2; S_DHAR3; S_DHAR4; S_DHAR5; S_DIPR0; S_DIPR1; S_DIPR2; S_DIPR3; S_DPORT0; S_DPORT1; S_MSSR0; S_MSSR1; S_TOS; S_TTL; S_RXBUF_SIZE; S_TXBUF_SIZE; S_TX_FSR0; S_TX_FSR1; S_TX_RD0; S_TX_RD1; S_TX_WR0; S_TX_WR1; S_RX_RSR0; S_RX_RSR1; S_RX_RD0; S_RX_RD1; S_RX_WR0; S_RX_WR1; S_IMR; S_FRAG0; S_FRAG1; S_KPALVTR].

(** addr.rs 296-344. *)
Definition SnReg_try_from (v : Z) : res Z SnReg :=
  if v =? SnReg_addr S_MR then Ok S_MR else
  if v =? SnReg_addr S_CR then Ok S_CR else
  if v =? SnReg_addr S_IR then Ok S_IR else
  if v =? SnReg_addr S_SR then Ok S_SR else
  if v =? SnReg_addr S_PORT0 then Ok S_PORT0 else
  if v =? SnReg_addr S_PORT1 then Ok S_PORT1 else
  if v =? SnReg_addr S_DHAR0 then Ok S_DHAR0 else
  if v =? SnReg_addr S_DHAR1 then Ok S_DHAR1 else
  if v =? SnReg_addr S_DHAR2 then Ok S_DHAR2 else
  if v =? SnReg_addr S_DHAR3 then Ok S_DHAR3 else
  if v =? SnReg_addr S_DHAR4 then Ok S_DHAR4 else
  if v =? SnReg_addr S_DHAR5 then Ok S_DHAR5 else
  if v =? SnReg_addr S_DIPR0 then Ok S_DIPR0 else
  if v =? SnReg_addr S_DIPR1 then Ok S_DIPR1 else
  if v =? SnReg_addr S_DIPR2 then Ok S_DIPR2 else
  if v =? SnReg_addr S_DIPR3 then Ok S_DIPR3 else
  if v =? SnReg_addr S_DPORT0 then Ok S_DPORT0 else
  if v =? SnReg_addr S_DPORT1 then Ok S_DPORT1 else
  if v =? SnReg_addr S_MSSR0 then Ok S_MSSR0 else
  if v =? SnReg_addr S_MSSR1 then Ok S_MSSR1 else
  if v =? SnReg_addr S_TOS then Ok S_TOS else
  if v =? SnReg_addr S_TTL then Ok S_TTL else
  if v =? SnReg_addr S_RXBUF_SIZE then Ok S_RXBUF_SIZE else
  if v =? SnReg_addr S_TXBUF_SIZE then Ok S_TXBUF_SIZE else
  if v =? SnReg_addr S_TX_FSR0 then Ok S_TX_FSR0 else
  if v =? SnReg_addr S_TX_FSR1 then Ok S_TX_FSR1 else
  if v =? SnReg_addr S_TX_RD0 then Ok S_TX_RD0 else
  if v =? SnReg_addr S_TX_RD1 then Ok S_TX_RD1 else
  if v =? SnReg_addr S_TX_WR0 then Ok S_TX_WR0 else
  if v =? SnReg_addr S_TX_WR1 then Ok S_TX_WR1 else
  if v =? SnReg_addr S_RX_RSR0 then Ok S_RX_RSR0 else
  if v =? SnReg_addr S_RX_RSR1 then Ok S_RX_RSR1 else
  if v =? SnReg_addr S_RX_RD0 then Ok S_RX_RD0 else
  if v =? SnReg_addr S_RX_RD1 then Ok S_RX_RD1 else
  if v =? SnReg_addr S_RX_WR0 then Ok S_RX_WR0 else
  if v =? SnReg_addr S_RX_WR1 then Ok S_RX_WR1 else
  if v =? SnReg_addr S_IMR then Ok S_IMR else
  if v =? SnReg_addr S_FRAG0 then Ok S_FRAG0 else
  if v =? SnReg_addr S_FRAG1 then Ok S_FRAG1 else
  if v =? SnReg_addr S_KPALVTR then Ok S_KPALVTR else
  Err v.

(** addr.rs 370-381. *)
Definition SnReg_is_ro (r : SnReg) : bool :=
  match r with
  | S_SR | S_TX_FSR0 | S_TX_FSR1 | S_TX_RD0 | S_TX_RD1 | S_RX_RSR0 | S_RX_RSR1 => true
  | _ => false
  end.
