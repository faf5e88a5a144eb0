(** Asynchronous access and the bus drivers: C72, C73, C74. *)
From Verif Require Import Model.Prelude Model.Bus Model.Specifiers Model.LlAddr Model.Ll Model.Chip Model.Spi Model.Drivers
  Spec.Bits Spec.RegFile Spec.Sock Spec.SpiBus Spec.Drivers Spec.Cases.
From Verif Require Model.LlAio Proof.RegP Proof.Drivers2P.

(** C72: each asynchronous accessor does what the blocking accessor of the same name does, whatever the chip does and
    whichever transactions fail. *)
Theorem C72_same_as_blocking :
  (same (LlAio.mr) (Ll.mr)) /\
  (forall v, same (LlAio.set_mr v) (Ll.set_mr v)) /\
  (same (LlAio.gar) (Ll.gar)) /\
  (forall v, same (LlAio.set_gar v) (Ll.set_gar v)) /\
  (same (LlAio.subr) (Ll.subr)) /\
  (forall v, same (LlAio.set_subr v) (Ll.set_subr v)) /\
  (same (LlAio.shar) (Ll.shar)) /\
  (forall v, same (LlAio.set_shar v) (Ll.set_shar v)) /\
  (same (LlAio.sipr) (Ll.sipr)) /\
  (forall v, same (LlAio.set_sipr v) (Ll.set_sipr v)) /\
  (same (LlAio.intlevel) (Ll.intlevel)) /\
  (forall v, same (LlAio.set_intlevel v) (Ll.set_intlevel v)) /\
  (same (LlAio.ir) (Ll.ir)) /\
  (forall v, same (LlAio.set_ir v) (Ll.set_ir v)) /\
  (same (LlAio.imr) (Ll.imr)) /\
  (forall v, same (LlAio.set_imr v) (Ll.set_imr v)) /\
  (same (LlAio.sir) (Ll.sir)) /\
  (same (LlAio.simr) (Ll.simr)) /\
  (forall v, same (LlAio.set_simr v) (Ll.set_simr v)) /\
  (same (LlAio.rtr) (Ll.rtr)) /\
  (forall v, same (LlAio.set_rtr v) (Ll.set_rtr v)) /\
  (same (LlAio.rcr) (Ll.rcr)) /\
  (forall v, same (LlAio.set_rcr v) (Ll.set_rcr v)) /\
  (same (LlAio.ptimer) (Ll.ptimer)) /\
  (forall v, same (LlAio.set_ptimer v) (Ll.set_ptimer v)) /\
  (same (LlAio.pmagic) (Ll.pmagic)) /\
  (forall v, same (LlAio.set_pmagic v) (Ll.set_pmagic v)) /\
  (same (LlAio.phar) (Ll.phar)) /\
  (forall v, same (LlAio.set_phar v) (Ll.set_phar v)) /\
  (same (LlAio.psid) (Ll.psid)) /\
  (forall v, same (LlAio.set_psid v) (Ll.set_psid v)) /\
  (same (LlAio.pmru) (Ll.pmru)) /\
  (forall v, same (LlAio.set_pmru v) (Ll.set_pmru v)) /\
  (same (LlAio.uipr) (Ll.uipr)) /\
  (same (LlAio.uportr) (Ll.uportr)) /\
  (same (LlAio.phycfgr) (Ll.phycfgr)) /\
  (forall v, same (LlAio.set_phycfgr v) (Ll.set_phycfgr v)) /\
  (same (LlAio.version) (Ll.version)) /\
  (forall sn, same (LlAio.sn_mr sn) (Ll.sn_mr sn)) /\
  (forall sn v, same (LlAio.set_sn_mr sn v) (Ll.set_sn_mr sn v)) /\
  (forall sn, same (LlAio.sn_cr sn) (Ll.sn_cr sn)) /\
  (forall sn v, same (LlAio.set_sn_cr sn v) (Ll.set_sn_cr sn v)) /\
  (forall sn, same (LlAio.sn_ir sn) (Ll.sn_ir sn)) /\
  (forall sn v, same (LlAio.set_sn_ir sn v) (Ll.set_sn_ir sn v)) /\
  (forall sn, same (LlAio.sn_sr sn) (Ll.sn_sr sn)) /\
  (forall sn, same (LlAio.sn_port sn) (Ll.sn_port sn)) /\
  (forall sn v, same (LlAio.set_sn_port sn v) (Ll.set_sn_port sn v)) /\
  (forall sn, same (LlAio.sn_dhar sn) (Ll.sn_dhar sn)) /\
  (forall sn v, same (LlAio.set_sn_dhar sn v) (Ll.set_sn_dhar sn v)) /\
  (forall sn, same (LlAio.sn_dipr sn) (Ll.sn_dipr sn)) /\
  (forall sn v, same (LlAio.set_sn_dipr sn v) (Ll.set_sn_dipr sn v)) /\
  (forall sn, same (LlAio.sn_dport sn) (Ll.sn_dport sn)) /\
  (forall sn v, same (LlAio.set_sn_dport sn v) (Ll.set_sn_dport sn v)) /\
  (forall sn, same (LlAio.sn_dest sn) (Ll.sn_dest sn)) /\
  (forall sn v, same (LlAio.set_sn_dest sn v) (Ll.set_sn_dest sn v)) /\
  (forall sn, same (LlAio.sn_mssr sn) (Ll.sn_mssr sn)) /\
  (forall sn v, same (LlAio.set_sn_mssr sn v) (Ll.set_sn_mssr sn v)) /\
  (forall sn, same (LlAio.sn_tos sn) (Ll.sn_tos sn)) /\
  (forall sn v, same (LlAio.set_sn_tos sn v) (Ll.set_sn_tos sn v)) /\
  (forall sn, same (LlAio.sn_ttl sn) (Ll.sn_ttl sn)) /\
  (forall sn v, same (LlAio.set_sn_ttl sn v) (Ll.set_sn_ttl sn v)) /\
  (forall sn, same (LlAio.sn_rxbuf_size sn) (Ll.sn_rxbuf_size sn)) /\
  (forall sn v, same (LlAio.set_sn_rxbuf_size sn v) (Ll.set_sn_rxbuf_size sn v)) /\
  (forall sn, same (LlAio.sn_txbuf_size sn) (Ll.sn_txbuf_size sn)) /\
  (forall sn v, same (LlAio.set_sn_txbuf_size sn v) (Ll.set_sn_txbuf_size sn v)) /\
  (forall sn, same (LlAio.sn_tx_fsr sn) (Ll.sn_tx_fsr sn)) /\
  (forall sn, same (LlAio.sn_tx_rd sn) (Ll.sn_tx_rd sn)) /\
  (forall sn, same (LlAio.sn_tx_wr sn) (Ll.sn_tx_wr sn)) /\
  (forall sn v, same (LlAio.set_sn_tx_wr sn v) (Ll.set_sn_tx_wr sn v)) /\
  (forall sn, same (LlAio.sn_tx_ptrs sn) (Ll.sn_tx_ptrs sn)) /\
  (forall sn, same (LlAio.sn_rx_rsr sn) (Ll.sn_rx_rsr sn)) /\
  (forall sn, same (LlAio.sn_rx_rd sn) (Ll.sn_rx_rd sn)) /\
  (forall sn v, same (LlAio.set_sn_rx_rd sn v) (Ll.set_sn_rx_rd sn v)) /\
  (forall sn, same (LlAio.sn_rx_wr sn) (Ll.sn_rx_wr sn)) /\
  (forall sn, same (LlAio.sn_rx_ptrs sn) (Ll.sn_rx_ptrs sn)) /\
  (forall sn, same (LlAio.sn_imr sn) (Ll.sn_imr sn)) /\
  (forall sn v, same (LlAio.set_sn_imr sn v) (Ll.set_sn_imr sn v)) /\
  (forall sn, same (LlAio.sn_frag sn) (Ll.sn_frag sn)) /\
  (forall sn v, same (LlAio.set_sn_frag sn v) (Ll.set_sn_frag sn v)) /\
  (forall sn, same (LlAio.sn_kpalvtr sn) (Ll.sn_kpalvtr sn)) /\
  (forall sn v, same (LlAio.set_sn_kpalvtr sn v) (Ll.set_sn_kpalvtr sn v)) /\
  (forall sn ptr buf, same (LlAio.set_sn_tx_buf sn ptr buf) (Ll.set_sn_tx_buf sn ptr buf)) /\
  (forall sn ptr len, same (LlAio.sn_tx_buf sn ptr len) (Ll.sn_tx_buf sn ptr len)) /\
  (forall sn ptr len, same (LlAio.sn_rx_buf sn ptr len) (Ll.sn_rx_buf sn ptr len)) /\
  (forall sn ptr buf, same (LlAio.set_sn_rx_buf sn ptr buf) (Ll.set_sn_rx_buf sn ptr buf)).
Proof. exact Drivers2P.aio_same. Qed.
Print Assumptions C72_same_as_blocking.

(** C72: what is set is read back and nothing else changes. *)
Theorem C72_common_registers :
  common_reg is_u8 LlAio.set_mr LlAio.mr id_ 0x00 (fun v => [v]) /\
  common_reg (octets 4) LlAio.set_gar LlAio.gar id_ 0x01 id_ /\
  common_reg (octets 4) LlAio.set_subr LlAio.subr id_ 0x05 id_ /\
  common_reg (octets 6) LlAio.set_shar LlAio.shar id_ 0x09 id_ /\
  common_reg (octets 4) LlAio.set_sipr LlAio.sipr id_ 0x0F id_ /\
  common_reg is_u16 LlAio.set_intlevel LlAio.intlevel id_ 0x13 be16 /\
  common_reg is_u8 LlAio.set_imr LlAio.imr id_ 0x16 (fun v => [v]) /\
  common_reg is_u8 LlAio.set_simr LlAio.simr id_ 0x18 (fun v => [v]) /\
  common_reg is_u16 LlAio.set_rtr LlAio.rtr id_ 0x19 be16 /\
  common_reg is_u8 LlAio.set_rcr LlAio.rcr id_ 0x1B (fun v => [v]) /\
  common_reg is_u8 LlAio.set_ptimer LlAio.ptimer id_ 0x1C (fun v => [v]) /\
  common_reg is_u8 LlAio.set_pmagic LlAio.pmagic id_ 0x1D (fun v => [v]) /\
  common_reg (octets 6) LlAio.set_phar LlAio.phar id_ 0x1E id_ /\
  common_reg is_u16 LlAio.set_psid LlAio.psid id_ 0x24 be16 /\
  common_reg is_u16 LlAio.set_pmru LlAio.pmru id_ 0x26 be16 /\
  common_reg is_u8 LlAio.set_phycfgr LlAio.phycfgr id_ 0x2E (fun v => [v]).
Proof. exact RegP.common_registers. Qed.
Print Assumptions C72_common_registers.

(** C72: what is set is read back and nothing else changes. *)
Theorem C72_socket_registers :
  sock_reg is_u8 LlAio.set_sn_mr LlAio.sn_mr id_ 0x00 (fun v => [v]) /\
  sock_reg is_u16 LlAio.set_sn_port LlAio.sn_port id_ 0x04 be16 /\
  sock_reg (octets 6) LlAio.set_sn_dhar LlAio.sn_dhar id_ 0x06 id_ /\
  sock_reg (octets 4) LlAio.set_sn_dipr LlAio.sn_dipr id_ 0x0C id_ /\
  sock_reg is_u16 LlAio.set_sn_dport LlAio.sn_dport id_ 0x10 be16 /\
  sock_reg (fun v => octets 4 (fst v) /\ is_u16 (snd v)) LlAio.set_sn_dest LlAio.sn_dest id_ 0x0C
    (fun v => fst v ++ be16 (snd v)) /\
  sock_reg is_u16 LlAio.set_sn_mssr LlAio.sn_mssr id_ 0x12 be16 /\
  sock_reg is_u8 LlAio.set_sn_tos LlAio.sn_tos id_ 0x15 (fun v => [v]) /\
  sock_reg is_u8 LlAio.set_sn_ttl LlAio.sn_ttl id_ 0x16 (fun v => [v]) /\
  sock_reg (fun _ => True) LlAio.set_sn_rxbuf_size LlAio.sn_rxbuf_size Ok 0x1E (fun v => [bufsize_raw v]) /\
  sock_reg (fun _ => True) LlAio.set_sn_txbuf_size LlAio.sn_txbuf_size Ok 0x1F (fun v => [bufsize_raw v]) /\
  sock_reg is_u16 LlAio.set_sn_tx_wr LlAio.sn_tx_wr id_ 0x24 be16 /\
  sock_reg is_u16 LlAio.set_sn_rx_rd LlAio.sn_rx_rd id_ 0x28 be16 /\
  sock_reg is_u8 LlAio.set_sn_imr LlAio.sn_imr id_ 0x2C (fun v => [v]) /\
  sock_reg is_u16 LlAio.set_sn_frag LlAio.sn_frag id_ 0x2D be16 /\
  sock_reg is_u8 LlAio.set_sn_kpalvtr LlAio.sn_kpalvtr id_ 0x2F (fun v => [v]).
Proof. exact RegP.socket_registers. Qed.
Print Assumptions C72_socket_registers.
(** An asynchronous write and read back on a chip with an established connection, with a transaction failing between
    two others. *)
Example C72_case :
  let p (set : Sn -> Z -> M unit) (get : Sn -> M Z) : M Z := set Sn3 0xBEEF ;;; get Sn3 in
  fst (fst (run (p LlAio.set_sn_port LlAio.sn_port) [tick_of []; tick_of [EvTx 5]] case_tcp)) = Done (Ok 0xBEEF) /\
  fst (fst (run (p LlAio.set_sn_port LlAio.sn_port) [tick_of []; {| t_evs := []; t_fault := Some O |}] case_tcp)) = Done (Err Other).
Proof. vm_compute. auto. Qed.

(** C73: for any device behind the bus, every driver reads and writes the consecutive addresses it was asked for and
    leaves the bus so that the next access works: deselected, or between two frames when the device is always
    selected. *)
Theorem C73_selected_reads : forall St (d : device St) fill w addr block data,
  0 <= addr < 65536 -> 0 <= block < 32 -> ready w ->
  Forall (fun p : driver => exists w',
    drive d fill (p addr block data) no_fault 0 w =
      (Some (Ok (snd (burst_rd d (w_dev w) block addr (length data)))), w', []) /\
    w_dev w' = fst (burst_rd d (w_dev w) block addr (length data)) /\ w_low w' = false) vdm_reads.
Proof. exact @Drivers2P.vdm_read_all. Qed.
Print Assumptions C73_selected_reads.
Theorem C73_selected_writes : forall St (d : device St) fill w addr block data,
  0 <= addr < 65536 -> 0 <= block < 32 -> ready w ->
  Forall (fun p : driver => exists w',
    drive d fill (p addr block data) no_fault 0 w = (Some (Ok []), w', []) /\
    w_dev w' = burst_wr d (w_dev w) block addr data /\ w_low w' = false) vdm_writes.
Proof. exact @Drivers2P.vdm_write_all. Qed.
Print Assumptions C73_selected_writes.
Theorem C73_tied_reads : forall St (d : device St) fill w addr block data,
  0 <= addr < 65536 -> 0 <= block < 32 -> tied w ->
  Forall (fun p : driver => exists w',
    drive d fill (p addr block data) no_fault 0 w =
      (Some (Ok (snd (burst_rd d (w_dev w) block addr (length data)))), w', []) /\
    w_dev w' = fst (burst_rd d (w_dev w) block addr (length data)) /\ tied w') fdm_reads.
Proof. exact @Drivers2P.fdm_read_all. Qed.
Print Assumptions C73_tied_reads.
Theorem C73_tied_writes : forall St (d : device St) fill w addr block data,
  0 <= addr < 65536 -> 0 <= block < 32 -> tied w ->
  Forall (fun p : driver => exists w',
    drive d fill (p addr block data) no_fault 0 w = (Some (Ok []), w', []) /\
    w_dev w' = burst_wr d (w_dev w) block addr data /\ tied w') fdm_writes.
Proof. exact @Drivers2P.fdm_write_all. Qed.
Print Assumptions C73_tied_writes.
(** A device whose reads have side effects, accessed across the wrap at 0xFFFF. *)
Example C73_case :
  let d := {| dv_rd := fun (s : Z) b a => (s * 3 + a, s + b); dv_wr := fun s b a v => s + b * a + v |} in
  let idle := mkWire 1 (PData 5 5 true None) false in
  ready idle /\ tied (mkWire 1 (PHead []) true) /\
  map (fun p : driver => let '(r, w, _) := drive d 0 (p 65534 5 [1;2;3;4;5;6;7]) no_fault 0 idle in (r, w_dev w, w_low w)) vdm_reads =
  repeat (Some (Ok [6; 65542; 262151; 786443; 2359320; 7077952; 21233849]), 63701536, false) 5 /\
  map (fun p : driver => let '(r, w, _) := drive d 0 (p 65534 5 [1;2;3;4;5;6;7]) no_fault 0 (mkWire 1 (PHead []) true) in (r, w_dev w, w_low w)) fdm_reads =
  repeat (Some (Ok [6; 65542; 262151; 786443; 2359320; 7077952; 21233849]), 63701536, true) 2.
Proof. vm_compute. intuition. Qed.

(** C74: when an operation of an access fails, the failure is reported to the caller as it was, the access is given up
    and nothing but a prefix of it has been done to the device.  The device is deselected (or between frames), so the
    next access does what C73 says.  Releasing the chip select must not fail. *)
Theorem C74_failed_reads_partial : forall St (d : device St) fill w addr block data,
  0 <= addr < 65536 -> 0 <= block < 32 -> forall fs, ready w -> (forall i, fs i BHigh = None) ->
  let contained (p : driver) :=
    let '(r, w', failed) := drive d fill (p addr block data) fs 0 w in
    ready w' /\ read_part d (w_dev w) (w_dev w') block addr data /\
    forall o f rest, failed = (o, f) :: rest -> rest = [] /\ r = Some (Err (told o f)) in
  Forall contained [eh0_vdm_read; eh1_vdm_read; eha1_vdm_read] /\
  ((forall i, fs i BLow = None) -> contained eh0_gpio_read).
Proof. exact @Drivers2P.contained_reads. Qed.
Print Assumptions C74_failed_reads_partial.
Theorem C74_failed_writes_partial : forall St (d : device St) fill w addr block data,
  0 <= addr < 65536 -> 0 <= block < 32 -> forall fs, ready w -> (forall i, fs i BHigh = None) ->
  let contained (p : driver) :=
    let '(r, w', failed) := drive d fill (p addr block data) fs 0 w in
    ready w' /\ written_part d (w_dev w) (w_dev w') block addr data /\
    forall o f rest, failed = (o, f) :: rest -> rest = [] /\ r = Some (Err (told o f)) in
  Forall contained [eh0_vdm_write; eh1_vdm_write; eha1_vdm_write] /\
  ((forall i, fs i BLow = None) -> contained eh0_gpio_write).
Proof. exact @Drivers2P.contained_writes. Qed.
Print Assumptions C74_failed_writes_partial.
(** Whatever fails, the access does not return success. *)
Theorem C74_reported : forall St (d : device St) fill w addr block data,
  0 <= addr < 65536 -> 0 <= block < 32 -> forall fs, ready w ->
  Forall (fun p : driver =>
    let '(r, w', failed) := drive d fill (p addr block data) fs 0 w in failed <> [] -> exists e, r = Some (Err e))
  [eh0_vdm_read; eh1_vdm_read; eha1_vdm_read; eh0_vdm_write; eh1_vdm_write; eha1_vdm_write].
Proof. exact @Drivers2P.reported. Qed.
Print Assumptions C74_reported.
(** The third byte of a read fails: one error, two bytes read, deselected.  The chip select cannot be lowered: nothing
    was done. *)
Example C74_case :
  let d := {| dv_rd := fun (s : list Z) b a => (s ++ [a], a mod 256); dv_wr := fun s b a v => s ++ [v] |} in
  let third : faults := fun i o => match o with BTransfer _ => Some (mkFault 42 2 false) | _ => None end in
  let pin : faults := fun i o => match o with BLow => Some (mkFault 9 0 true) | _ => None end in
  (forall i, third i BHigh = None) /\ (forall i, pin i BHigh = None) /\
  drive d 0 (eh0_vdm_read 0x1234 5 [0;0;0;0]) third 0 (mkWire [] (PHead []) false) =
    (Some (Err (ESpi 42)), mkWire [0x1234; 0x1235] (PData 0x1236 5 false None) false, [(BTransfer [0;0;0;0], mkFault 42 2 false)]) /\
  drive d 0 (eh0_vdm_read 0x1234 5 [0;0;0;0]) pin 0 (mkWire [] (PHead []) false) =
    (Some (Err (EPin 9)), mkWire [] (PHead []) true, [(BLow, mkFault 9 0 true)]).
Proof. repeat split. Qed.
(** The drivers for a device that is always selected: the failure is reported, and a prefix was done.  Missing: the
    next access. *)
Theorem C74_tied_partial : forall St (d : device St) fill w addr block data,
  0 <= addr < 65536 -> 0 <= block < 32 -> forall fs, tied w ->
  Forall (fun p : driver =>
    let '(r, w', failed) := drive d fill (p addr block data) fs 0 w in
    read_part d (w_dev w) (w_dev w') block addr data /\
    forall o f rest, failed = (o, f) :: rest -> rest = [] /\ r = Some (Err (told o f))) fdm_reads /\
  Forall (fun p : driver =>
    let '(r, w', failed) := drive d fill (p addr block data) fs 0 w in
    written_part d (w_dev w) (w_dev w') block addr data /\
    forall o f rest, failed = (o, f) :: rest -> rest = [] /\ r = Some (Err (told o f))) fdm_writes.
Proof. exact @Drivers2P.fdm_partial. Qed.
Print Assumptions C74_tied_partial.
(** After a failed access the device that is always selected is still in the middle of a frame: the next write, none
    of whose operations fails, returns success and does something else.  Here one byte at 0x0010 is written, and the
    device writes the header of that frame to 0x0002 and 0x0003. *)
Theorem C74_tied_refuted : exists (d : device (list (Z * Z * Z))) fs w w' w'' e,
  tied w /\
  drive d 0 (eh0_fdm_write 0x0000 1 [1;2;3;4]) fs 0 w = (Some (Err (ESpi e)), w', [(BWrite [1;2;3;4], mkFault e 2 false)]) /\
  drive d 0 (eh0_fdm_write 0x0010 1 [7]) no_fault 0 w' = (Some (Ok []), w'', []) /\
  w_dev w = [] /\ w_dev w'' = [(1, 0, 1); (1, 1, 2); (1, 2, 0); (1, 3, 16)] /\
  w_dev w'' <> burst_wr d (w_dev w') 1 0x0010 [7].
Proof. exact Drivers2P.tied_refuted. Qed.
Print Assumptions C74_tied_refuted.
(** The same after the chip select could not be released. *)
Theorem C74_release_refuted : exists (d : device (list (Z * Z * Z))) fs w w' w'' e,
  ready w /\
  drive d 0 (eh0_vdm_write 0x0000 1 [1;2]) fs 0 w = (Some (Err (EPin e)), w', [(BHigh, mkFault e 0 false)]) /\
  drive d 0 (eh0_vdm_write 0x0010 1 [7]) no_fault 0 w' = (Some (Ok []), w'', []) /\
  w_dev w = [] /\ w_dev w'' = [(1, 0, 1); (1, 1, 2); (1, 2, 0); (1, 3, 16); (1, 4, 12); (1, 5, 7)] /\
  w_dev w'' <> burst_wr d (w_dev w') 1 0x0010 [7].
Proof. exact Drivers2P.release_refuted. Qed.
Print Assumptions C74_release_refuted.
