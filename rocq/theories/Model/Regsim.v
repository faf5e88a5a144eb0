(** regsim/src/lib.rs: the simulated W5500, an implementation of the [Registers] trait on top of the
    sockets of the host.

    The operating system is the environment: every call of [std::net] takes its outcome from a list of
    answers ([net]), and what the simulator did to the host's sockets is recorded ([s_net]).  Left
    out: logging ([log!], [set_socket_buffer_logging], the [Display] and [PartialEq] implementations)
    and the corpus file ([set_corpus_file], [log_byte]; lines 328-356), which records bytes read and
    whose failure is a panic.  Arithmetic overflow is a panic. *)
From Verif Require Import Model.Prelude Model.Bus Model.Chip Model.Specifiers Model.LlAddr Model.LlBits.

(** [Vec<u8>]: the length and the elements. *)
Record vec : Type := mkVec { v_len : Z; v_at : Z -> Z }.
(** [vec![0; n]]. *)
Definition vec_zero (n : Z) : vec := mkVec n (fun _ => 0).
(** [Vec::resize(n, 0)]. *)
Definition vec_resize (v : vec) (n : Z) : vec :=
  mkVec n (fun i => if i <? Z.min (v_len v) n then v_at v i else 0).
(** [v[i] = b] for [i] in range. *)
Definition vec_set (v : vec) (i b : Z) : vec := mkVec (v_len v) (upd (v_at v) i b).

(** regsim/src/lib.rs 91-96: [SocketType], without the handles of the operating system. *)
Inductive SocketType : Type := TUdp | TListener | TStream.

(** regsim/src/lib.rs 109-115, 133-147: [BlockType], [block_type]; [None] is the panic for an invalid
    block. *)
Inductive BlockType : Type := BCommon | BSocket (sn : Sn) | BTx (sn : Sn) | BRx (sn : Sn).
Definition block_type (block : Z) : option BlockType :=
  if block =? 0 then Some BCommon else
  let sn_val := block / SOCKET_SPACING in
  match sn_try_from sn_val with
  | Err _ => None
  | Ok sn =>
      let k := block - sn_val * SOCKET_SPACING in
      if k =? 1 then Some (BSocket sn) else
      if k =? 2 then Some (BTx sn) else
      if k =? 3 then Some (BRx sn) else None
  end.

(** regsim/src/lib.rs 149-172: [CommonRegs].  An [Ipv4Addr] is the list of its four octets, an
    [Eui48Addr] of its six, here and below. *)
Record common : Type := mkCommon
  { g_mr : Z; g_gar : list Z; g_subr : list Z; g_shar : list Z;
    g_sipr : list Z; g_intlevel : Z; g_ir : Z; g_imr : Z; g_sir : Z; g_simr : Z; g_rtr : Z; g_rcr :
    Z; g_ptimer : Z; g_pmagic : Z; g_phar : list Z; g_psid : Z; g_pmru : Z; g_uipr : list Z;
    g_uportr : Z; g_phycfgr : Z; g_versionr : Z }.
Definition g_set_mr (r : common) (v : Z) : common :=
  mkCommon v (g_gar r) (g_subr r) (g_shar r) (g_sipr r) (g_intlevel r) (g_ir r) (g_imr r) (g_sir
    r) (g_simr r) (g_rtr r) (g_rcr r) (g_ptimer r) (g_pmagic r) (g_phar r) (g_psid r) (g_pmru r)
    (g_uipr r) (g_uportr r) (g_phycfgr r) (g_versionr r).
Definition g_set_gar (r : common) (v : list Z) : common :=
  mkCommon (g_mr r) v (g_subr r) (g_shar r) (g_sipr r) (g_intlevel r) (g_ir r) (g_imr r) (g_sir
    r) (g_simr r) (g_rtr r) (g_rcr r) (g_ptimer r) (g_pmagic r) (g_phar r) (g_psid r) (g_pmru r)
    (g_uipr r) (g_uportr r) (g_phycfgr r) (g_versionr r).
Definition g_set_subr (r : common) (v : list Z) : common :=
  mkCommon (g_mr r) (g_gar r) v (g_shar r) (g_sipr r) (g_intlevel r) (g_ir r) (g_imr r) (g_sir
    r) (g_simr r) (g_rtr r) (g_rcr r) (g_ptimer r) (g_pmagic r) (g_phar r) (g_psid r) (g_pmru r)
    (g_uipr r) (g_uportr r) (g_phycfgr r) (g_versionr r).
Definition g_set_shar (r : common) (v : list Z) : common :=
  mkCommon (g_mr r) (g_gar r) (g_subr r) v (g_sipr r) (g_intlevel r) (g_ir r) (g_imr r) (g_sir
    r) (g_simr r) (g_rtr r) (g_rcr r) (g_ptimer r) (g_pmagic r) (g_phar r) (g_psid r) (g_pmru r)
    (g_uipr r) (g_uportr r) (g_phycfgr r) (g_versionr r).
Definition g_set_sipr (r : common) (v : list Z) : common :=
  mkCommon (g_mr r) (g_gar r) (g_subr r) (g_shar r) v (g_intlevel r) (g_ir r) (g_imr r) (g_sir
    r) (g_simr r) (g_rtr r) (g_rcr r) (g_ptimer r) (g_pmagic r) (g_phar r) (g_psid r) (g_pmru r)
    (g_uipr r) (g_uportr r) (g_phycfgr r) (g_versionr r).
Definition g_set_intlevel (r : common) (v : Z) : common :=
  mkCommon (g_mr r) (g_gar r) (g_subr r) (g_shar r) (g_sipr r) v (g_ir r) (g_imr r) (g_sir r)
    (g_simr r) (g_rtr r) (g_rcr r) (g_ptimer r) (g_pmagic r) (g_phar r) (g_psid r) (g_pmru r)
    (g_uipr r) (g_uportr r) (g_phycfgr r) (g_versionr r).
Definition g_set_ir (r : common) (v : Z) : common :=
  mkCommon (g_mr r) (g_gar r) (g_subr r) (g_shar r) (g_sipr r) (g_intlevel r) v (g_imr r) (g_sir
    r) (g_simr r) (g_rtr r) (g_rcr r) (g_ptimer r) (g_pmagic r) (g_phar r) (g_psid r) (g_pmru r)
    (g_uipr r) (g_uportr r) (g_phycfgr r) (g_versionr r).
Definition g_set_imr (r : common) (v : Z) : common :=
  mkCommon (g_mr r) (g_gar r) (g_subr r) (g_shar r) (g_sipr r) (g_intlevel r) (g_ir r) v (g_sir
    r) (g_simr r) (g_rtr r) (g_rcr r) (g_ptimer r) (g_pmagic r) (g_phar r) (g_psid r) (g_pmru r)
    (g_uipr r) (g_uportr r) (g_phycfgr r) (g_versionr r).
Definition g_set_sir (r : common) (v : Z) : common :=
  mkCommon (g_mr r) (g_gar r) (g_subr r) (g_shar r) (g_sipr r) (g_intlevel r) (g_ir r) (g_imr r)
    v (g_simr r) (g_rtr r) (g_rcr r) (g_ptimer r) (g_pmagic r) (g_phar r) (g_psid r) (g_pmru r)
    (g_uipr r) (g_uportr r) (g_phycfgr r) (g_versionr r).
Definition g_set_simr (r : common) (v : Z) : common :=
  mkCommon (g_mr r) (g_gar r) (g_subr r) (g_shar r) (g_sipr r) (g_intlevel r) (g_ir r) (g_imr r)
    (g_sir r) v (g_rtr r) (g_rcr r) (g_ptimer r) (g_pmagic r) (g_phar r) (g_psid r) (g_pmru r)
    (g_uipr r) (g_uportr r) (g_phycfgr r) (g_versionr r).
Definition g_set_rtr (r : common) (v : Z) : common :=
  mkCommon (g_mr r) (g_gar r) (g_subr r) (g_shar r) (g_sipr r) (g_intlevel r) (g_ir r) (g_imr r)
    (g_sir r) (g_simr r) v (g_rcr r) (g_ptimer r) (g_pmagic r) (g_phar r) (g_psid r) (g_pmru r)
    (g_uipr r) (g_uportr r) (g_phycfgr r) (g_versionr r).
Definition g_set_rcr (r : common) (v : Z) : common :=
  mkCommon (g_mr r) (g_gar r) (g_subr r) (g_shar r) (g_sipr r) (g_intlevel r) (g_ir r) (g_imr r)
    (g_sir r) (g_simr r) (g_rtr r) v (g_ptimer r) (g_pmagic r) (g_phar r) (g_psid r) (g_pmru r)
    (g_uipr r) (g_uportr r) (g_phycfgr r) (g_versionr r).
Definition g_set_ptimer (r : common) (v : Z) : common :=
  mkCommon (g_mr r) (g_gar r) (g_subr r) (g_shar r) (g_sipr r) (g_intlevel r) (g_ir r) (g_imr r)
    (g_sir r) (g_simr r) (g_rtr r) (g_rcr r) v (g_pmagic r) (g_phar r) (g_psid r) (g_pmru r)
    (g_uipr r) (g_uportr r) (g_phycfgr r) (g_versionr r).
Definition g_set_pmagic (r : common) (v : Z) : common :=
  mkCommon (g_mr r) (g_gar r) (g_subr r) (g_shar r) (g_sipr r) (g_intlevel r) (g_ir r) (g_imr r)
    (g_sir r) (g_simr r) (g_rtr r) (g_rcr r) (g_ptimer r) v (g_phar r) (g_psid r) (g_pmru r)
    (g_uipr r) (g_uportr r) (g_phycfgr r) (g_versionr r).
Definition g_set_phar (r : common) (v : list Z) : common :=
  mkCommon (g_mr r) (g_gar r) (g_subr r) (g_shar r) (g_sipr r) (g_intlevel r) (g_ir r) (g_imr r)
    (g_sir r) (g_simr r) (g_rtr r) (g_rcr r) (g_ptimer r) (g_pmagic r) v (g_psid r) (g_pmru r)
    (g_uipr r) (g_uportr r) (g_phycfgr r) (g_versionr r).
Definition g_set_psid (r : common) (v : Z) : common :=
  mkCommon (g_mr r) (g_gar r) (g_subr r) (g_shar r) (g_sipr r) (g_intlevel r) (g_ir r) (g_imr r)
    (g_sir r) (g_simr r) (g_rtr r) (g_rcr r) (g_ptimer r) (g_pmagic r) (g_phar r) v (g_pmru r)
    (g_uipr r) (g_uportr r) (g_phycfgr r) (g_versionr r).
Definition g_set_pmru (r : common) (v : Z) : common :=
  mkCommon (g_mr r) (g_gar r) (g_subr r) (g_shar r) (g_sipr r) (g_intlevel r) (g_ir r) (g_imr r)
    (g_sir r) (g_simr r) (g_rtr r) (g_rcr r) (g_ptimer r) (g_pmagic r) (g_phar r) (g_psid r) v
    (g_uipr r) (g_uportr r) (g_phycfgr r) (g_versionr r).
Definition g_set_phycfgr (r : common) (v : Z) : common :=
  mkCommon (g_mr r) (g_gar r) (g_subr r) (g_shar r) (g_sipr r) (g_intlevel r) (g_ir r) (g_imr r)
    (g_sir r) (g_simr r) (g_rtr r) (g_rcr r) (g_ptimer r) (g_pmagic r) (g_phar r) (g_psid r)
    (g_pmru r) (g_uipr r) (g_uportr r) v (g_versionr r).

(** regsim/src/lib.rs 174-199: [CommonRegs::RESET]; ll/src/lib.rs 114: [VERSION]. *)
Definition common_reset : common :=
  mkCommon 0 (zeros 4) (zeros 4) (zeros 6) (zeros 4) 0 0 0 0 0 0x07D0 0x08 0x28 0 (zeros 6) 0 0xFFFF
    (zeros 4) 0 0xBF 4.

(** regsim/src/lib.rs 201-225, 259-266: [SocketRegs] and the [Socket] around it in one record; a
    [client] stream is there or not. *)
Record socket : Type := mkSocket
  { k_mr : Z; k_cr : Z; k_ir : Z; k_sr : SocketStatus; k_port :
    Z; k_dhar : list Z; k_dipr : list Z; k_dport : Z; k_mssr : Z; k_tos : Z; k_ttl : Z; k_rxbuf_size
    : BufferSize; k_txbuf_size : BufferSize; k_tx_fsr : Z; k_tx_rd : Z; k_tx_wr : Z; k_rx_rsr : Z;
    k_rx_rd : Z; k_rx_wr : Z; k_imr : Z; k_frag : Z; k_kpalvtr : Z; k_tx_buf : vec; k_rx_buf : vec;
    k_inner : option SocketType; k_client : bool }.
Definition k_set_mr (r : socket) (v : Z) : socket :=
  mkSocket v (k_cr r) (k_ir r) (k_sr r) (k_port r) (k_dhar r) (k_dipr r) (k_dport r) (k_mssr r)
    (k_tos r) (k_ttl r) (k_rxbuf_size r) (k_txbuf_size r) (k_tx_fsr r) (k_tx_rd r) (k_tx_wr r)
    (k_rx_rsr r) (k_rx_rd r) (k_rx_wr r) (k_imr r) (k_frag r) (k_kpalvtr r) (k_tx_buf r)
    (k_rx_buf r) (k_inner r) (k_client r).
Definition k_set_ir (r : socket) (v : Z) : socket :=
  mkSocket (k_mr r) (k_cr r) v (k_sr r) (k_port r) (k_dhar r) (k_dipr r) (k_dport r) (k_mssr r)
    (k_tos r) (k_ttl r) (k_rxbuf_size r) (k_txbuf_size r) (k_tx_fsr r) (k_tx_rd r) (k_tx_wr r)
    (k_rx_rsr r) (k_rx_rd r) (k_rx_wr r) (k_imr r) (k_frag r) (k_kpalvtr r) (k_tx_buf r)
    (k_rx_buf r) (k_inner r) (k_client r).
Definition k_set_sr (r : socket) (v : SocketStatus) : socket :=
  mkSocket (k_mr r) (k_cr r) (k_ir r) v (k_port r) (k_dhar r) (k_dipr r) (k_dport r) (k_mssr r)
    (k_tos r) (k_ttl r) (k_rxbuf_size r) (k_txbuf_size r) (k_tx_fsr r) (k_tx_rd r) (k_tx_wr r)
    (k_rx_rsr r) (k_rx_rd r) (k_rx_wr r) (k_imr r) (k_frag r) (k_kpalvtr r) (k_tx_buf r)
    (k_rx_buf r) (k_inner r) (k_client r).
Definition k_set_port (r : socket) (v : Z) : socket :=
  mkSocket (k_mr r) (k_cr r) (k_ir r) (k_sr r) v (k_dhar r) (k_dipr r) (k_dport r) (k_mssr r)
    (k_tos r) (k_ttl r) (k_rxbuf_size r) (k_txbuf_size r) (k_tx_fsr r) (k_tx_rd r) (k_tx_wr r)
    (k_rx_rsr r) (k_rx_rd r) (k_rx_wr r) (k_imr r) (k_frag r) (k_kpalvtr r) (k_tx_buf r)
    (k_rx_buf r) (k_inner r) (k_client r).
Definition k_set_dhar (r : socket) (v : list Z) : socket :=
  mkSocket (k_mr r) (k_cr r) (k_ir r) (k_sr r) (k_port r) v (k_dipr r) (k_dport r) (k_mssr r)
    (k_tos r) (k_ttl r) (k_rxbuf_size r) (k_txbuf_size r) (k_tx_fsr r) (k_tx_rd r) (k_tx_wr r)
    (k_rx_rsr r) (k_rx_rd r) (k_rx_wr r) (k_imr r) (k_frag r) (k_kpalvtr r) (k_tx_buf r)
    (k_rx_buf r) (k_inner r) (k_client r).
Definition k_set_dipr (r : socket) (v : list Z) : socket :=
  mkSocket (k_mr r) (k_cr r) (k_ir r) (k_sr r) (k_port r) (k_dhar r) v (k_dport r) (k_mssr r)
    (k_tos r) (k_ttl r) (k_rxbuf_size r) (k_txbuf_size r) (k_tx_fsr r) (k_tx_rd r) (k_tx_wr r)
    (k_rx_rsr r) (k_rx_rd r) (k_rx_wr r) (k_imr r) (k_frag r) (k_kpalvtr r) (k_tx_buf r)
    (k_rx_buf r) (k_inner r) (k_client r).
Definition k_set_dport (r : socket) (v : Z) : socket :=
  mkSocket (k_mr r) (k_cr r) (k_ir r) (k_sr r) (k_port r) (k_dhar r) (k_dipr r) v (k_mssr r)
    (k_tos r) (k_ttl r) (k_rxbuf_size r) (k_txbuf_size r) (k_tx_fsr r) (k_tx_rd r) (k_tx_wr r)
    (k_rx_rsr r) (k_rx_rd r) (k_rx_wr r) (k_imr r) (k_frag r) (k_kpalvtr r) (k_tx_buf r)
    (k_rx_buf r) (k_inner r) (k_client r).
Definition k_set_ttl (r : socket) (v : Z) : socket :=
  mkSocket (k_mr r) (k_cr r) (k_ir r) (k_sr r) (k_port r) (k_dhar r) (k_dipr r) (k_dport r)
    (k_mssr r) (k_tos r) v (k_rxbuf_size r) (k_txbuf_size r) (k_tx_fsr r) (k_tx_rd r) (k_tx_wr
    r) (k_rx_rsr r) (k_rx_rd r) (k_rx_wr r) (k_imr r) (k_frag r) (k_kpalvtr r) (k_tx_buf r)
    (k_rx_buf r) (k_inner r) (k_client r).
Definition k_set_rxbuf_size (r : socket) (v : BufferSize) : socket :=
  mkSocket (k_mr r) (k_cr r) (k_ir r) (k_sr r) (k_port r) (k_dhar r) (k_dipr r) (k_dport r)
    (k_mssr r) (k_tos r) (k_ttl r) v (k_txbuf_size r) (k_tx_fsr r) (k_tx_rd r) (k_tx_wr r)
    (k_rx_rsr r) (k_rx_rd r) (k_rx_wr r) (k_imr r) (k_frag r) (k_kpalvtr r) (k_tx_buf r)
    (k_rx_buf r) (k_inner r) (k_client r).
Definition k_set_txbuf_size (r : socket) (v : BufferSize) : socket :=
  mkSocket (k_mr r) (k_cr r) (k_ir r) (k_sr r) (k_port r) (k_dhar r) (k_dipr r) (k_dport r)
    (k_mssr r) (k_tos r) (k_ttl r) (k_rxbuf_size r) v (k_tx_fsr r) (k_tx_rd r) (k_tx_wr r)
    (k_rx_rsr r) (k_rx_rd r) (k_rx_wr r) (k_imr r) (k_frag r) (k_kpalvtr r) (k_tx_buf r)
    (k_rx_buf r) (k_inner r) (k_client r).
Definition k_set_tx_rd (r : socket) (v : Z) : socket :=
  mkSocket (k_mr r) (k_cr r) (k_ir r) (k_sr r) (k_port r) (k_dhar r) (k_dipr r) (k_dport r)
    (k_mssr r) (k_tos r) (k_ttl r) (k_rxbuf_size r) (k_txbuf_size r) (k_tx_fsr r) v (k_tx_wr r)
    (k_rx_rsr r) (k_rx_rd r) (k_rx_wr r) (k_imr r) (k_frag r) (k_kpalvtr r) (k_tx_buf r)
    (k_rx_buf r) (k_inner r) (k_client r).
Definition k_set_tx_wr (r : socket) (v : Z) : socket :=
  mkSocket (k_mr r) (k_cr r) (k_ir r) (k_sr r) (k_port r) (k_dhar r) (k_dipr r) (k_dport r)
    (k_mssr r) (k_tos r) (k_ttl r) (k_rxbuf_size r) (k_txbuf_size r) (k_tx_fsr r) (k_tx_rd r) v
    (k_rx_rsr r) (k_rx_rd r) (k_rx_wr r) (k_imr r) (k_frag r) (k_kpalvtr r) (k_tx_buf r)
    (k_rx_buf r) (k_inner r) (k_client r).
Definition k_set_rx_rsr (r : socket) (v : Z) : socket :=
  mkSocket (k_mr r) (k_cr r) (k_ir r) (k_sr r) (k_port r) (k_dhar r) (k_dipr r) (k_dport r)
    (k_mssr r) (k_tos r) (k_ttl r) (k_rxbuf_size r) (k_txbuf_size r) (k_tx_fsr r) (k_tx_rd r)
    (k_tx_wr r) v (k_rx_rd r) (k_rx_wr r) (k_imr r) (k_frag r) (k_kpalvtr r) (k_tx_buf r)
    (k_rx_buf r) (k_inner r) (k_client r).
Definition k_set_rx_rd (r : socket) (v : Z) : socket :=
  mkSocket (k_mr r) (k_cr r) (k_ir r) (k_sr r) (k_port r) (k_dhar r) (k_dipr r) (k_dport r)
    (k_mssr r) (k_tos r) (k_ttl r) (k_rxbuf_size r) (k_txbuf_size r) (k_tx_fsr r) (k_tx_rd r)
    (k_tx_wr r) (k_rx_rsr r) v (k_rx_wr r) (k_imr r) (k_frag r) (k_kpalvtr r) (k_tx_buf r)
    (k_rx_buf r) (k_inner r) (k_client r).
Definition k_set_rx_wr (r : socket) (v : Z) : socket :=
  mkSocket (k_mr r) (k_cr r) (k_ir r) (k_sr r) (k_port r) (k_dhar r) (k_dipr r) (k_dport r)
    (k_mssr r) (k_tos r) (k_ttl r) (k_rxbuf_size r) (k_txbuf_size r) (k_tx_fsr r) (k_tx_rd r)
    (k_tx_wr r) (k_rx_rsr r) (k_rx_rd r) v (k_imr r) (k_frag r) (k_kpalvtr r) (k_tx_buf r)
    (k_rx_buf r) (k_inner r) (k_client r).
Definition k_set_imr (r : socket) (v : Z) : socket :=
  mkSocket (k_mr r) (k_cr r) (k_ir r) (k_sr r) (k_port r) (k_dhar r) (k_dipr r) (k_dport r)
    (k_mssr r) (k_tos r) (k_ttl r) (k_rxbuf_size r) (k_txbuf_size r) (k_tx_fsr r) (k_tx_rd r)
    (k_tx_wr r) (k_rx_rsr r) (k_rx_rd r) (k_rx_wr r) v (k_frag r) (k_kpalvtr r) (k_tx_buf r)
    (k_rx_buf r) (k_inner r) (k_client r).
Definition k_set_tx_buf (r : socket) (v : vec) : socket :=
  mkSocket (k_mr r) (k_cr r) (k_ir r) (k_sr r) (k_port r) (k_dhar r) (k_dipr r) (k_dport r)
    (k_mssr r) (k_tos r) (k_ttl r) (k_rxbuf_size r) (k_txbuf_size r) (k_tx_fsr r) (k_tx_rd r)
    (k_tx_wr r) (k_rx_rsr r) (k_rx_rd r) (k_rx_wr r) (k_imr r) (k_frag r) (k_kpalvtr r) v
    (k_rx_buf r) (k_inner r) (k_client r).
Definition k_set_rx_buf (r : socket) (v : vec) : socket :=
  mkSocket (k_mr r) (k_cr r) (k_ir r) (k_sr r) (k_port r) (k_dhar r) (k_dipr r) (k_dport r)
    (k_mssr r) (k_tos r) (k_ttl r) (k_rxbuf_size r) (k_txbuf_size r) (k_tx_fsr r) (k_tx_rd r)
    (k_tx_wr r) (k_rx_rsr r) (k_rx_rd r) (k_rx_wr r) (k_imr r) (k_frag r) (k_kpalvtr r)
    (k_tx_buf r) v (k_inner r) (k_client r).
Definition k_set_inner (r : socket) (v : option SocketType) : socket :=
  mkSocket (k_mr r) (k_cr r) (k_ir r) (k_sr r) (k_port r) (k_dhar r) (k_dipr r) (k_dport r)
    (k_mssr r) (k_tos r) (k_ttl r) (k_rxbuf_size r) (k_txbuf_size r) (k_tx_fsr r) (k_tx_rd r)
    (k_tx_wr r) (k_rx_rsr r) (k_rx_rd r) (k_rx_wr r) (k_imr r) (k_frag r) (k_kpalvtr r)
    (k_tx_buf r) (k_rx_buf r) v (k_client r).
Definition k_set_client (r : socket) (v : bool) : socket :=
  mkSocket (k_mr r) (k_cr r) (k_ir r) (k_sr r) (k_port r) (k_dhar r) (k_dipr r) (k_dport r)
    (k_mssr r) (k_tos r) (k_ttl r) (k_rxbuf_size r) (k_txbuf_size r) (k_tx_fsr r) (k_tx_rd r)
    (k_tx_wr r) (k_rx_rsr r) (k_rx_rd r) (k_rx_wr r) (k_imr r) (k_frag r) (k_kpalvtr r)
    (k_tx_buf r) (k_rx_buf r) (k_inner r) v.

(** regsim/src/lib.rs 227-252, 279-289: [SocketRegs::RESET], [Socket::default]. *)
Definition socket_reset : socket :=
  mkSocket 0 0 0 Closed 0 [255; 255; 255; 255; 255; 255] (zeros 4) 0 0 0 0x80 KB2 KB2 0x0800 0 0 0 0 0
    0xFF 0x4000 0 (vec_zero 2048) (vec_zero 2048) None false.

(** What the simulator asked of the sockets of the host. *)
Inductive netev : Type :=
| NBound (sn : Sn) (ip : list Z) (port : Z)
| NConnected (sn : Sn) (ip : list Z) (port : Z)
| NListening (sn : Sn) (port : Z)
| NAccepted (sn : Sn)
| NSent (sn : Sn) (dest : option (list Z * Z)) (data : list Z)   (* [None]: on the stream *)
| NGot (sn : Sn) (data : list Z)                                 (* read from the stream *)
| NDgram (sn : Sn) (ip : list Z) (port : Z) (data : list Z).

(** The outcome of one use of a host socket: [AQuiet], success and nothing received; [ARefused],
    [bind] or [connect] fails; [AFail k], an error is returned to the caller (a [write_all] has
    written [k] bytes before); [AData], what a receiving call finds. *)
Inductive answer : Type :=
| AQuiet
| ARefused
| AFail (k : Z)
| AData (ip : list Z) (port : Z) (data : list Z).
Definition net : Type := list answer.
Definition answer_of (ns : net) : answer := match ns with [] => AQuiet | a :: _ => a end.

(** regsim/src/lib.rs 291-298: [W5500], with the record of what happened to the host's sockets. *)
Record sim : Type := mkSim { s_regs : common; s_sn : Z -> socket; s_net : list netev }.
(** regsim/src/lib.rs 1104-1113: [W5500::default]. *)
Definition sim_default (log : list netev) : sim := mkSim common_reset (fun _ => socket_reset) log.

(** regsim/src/lib.rs 462-468: [socket], [socket_mut]. *)
Definition sim_socket (m : sim) (sn : Sn) : socket := s_sn m (sn_raw sn).
Definition sim_put (m : sim) (sn : Sn) (s : socket) : sim :=
  mkSim (s_regs m) (upd (s_sn m) (sn_raw sn) s) (s_net m).
Definition sim_regs (m : sim) (r : common) : sim := mkSim r (s_sn m) (s_net m).
Definition sim_log (m : sim) (e : netev) : sim := mkSim (s_regs m) (s_sn m) (s_net m ++ [e]).

(** Results: [io::Result] or a panic. *)
Inductive io (A : Type) : Type := IoOk (a : A) | IoErr | IoPanic.
Arguments IoOk {A} a.
Arguments IoErr {A}.
Arguments IoPanic {A}.

(** regsim/src/lib.rs 358-360: [reset].  The record of the past stays. *)
Definition sim_reset (m : sim) : sim := sim_default (s_net m).

(** regsim/src/lib.rs 254-256: [SocketRegs::dest]. *)
Definition k_dest (s : socket) : list Z * Z := (k_dipr s, k_dport s).

(** regsim/src/lib.rs 470-477: [sim_set_sn_sr]. *)
Definition sim_set_sn_sr (m : sim) (sn : Sn) (st : SocketStatus) : sim :=
  sim_put m sn (k_set_sr (sim_socket m sn) st).

(** regsim/src/lib.rs 590-594: [raise_sn_ir]. *)
Definition raise_sn_ir (m : sim) (sn : Sn) (int : Z) : sim :=
  let m := sim_regs m (g_set_sir (s_regs m) (Z.lor (g_sir (s_regs m)) (sn_bitmask sn))) in
  sim_put m sn (k_set_ir (sim_socket m sn) (Z.lor (k_ir (sim_socket m sn)) int)).

(** regsim/src/lib.rs 362-410: [socket_cmd_open].  [set_nonblocking] and [set_ttl] fail with
    [AFail]. *)
Definition socket_cmd_open (m : sim) (ns : net) (sn : Sn) : io unit * net * sim :=
  let ip := g_sipr (s_regs m) in
  let s := sim_socket m sn in
  let s := k_set_rx_wr s 0 in
  let s := k_set_rx_rd s 0 in
  let s := k_set_tx_rd s 0 in
  let s := k_set_tx_wr s 0 in
  let m := sim_put m sn s in
  match SocketMode_protocol (k_mr s) with
  | Ok PClosed => (IoOk tt, ns, m)
  | Ok PTcp => (IoOk tt, ns, sim_set_sn_sr (sim_put m sn (k_set_inner s None)) sn Init)
  | Ok PUdp =>
      match answer_of ns with
      | ARefused => (IoOk tt, tl ns, sim_set_sn_sr m sn Closed)
      | AFail _ => (IoErr, tl ns, m)
      | AQuiet | AData _ _ _ =>
          let m := sim_log m (NBound sn ip (k_port s)) in
          (IoOk tt, tl ns, sim_set_sn_sr (sim_put m sn (k_set_inner s (Some TUdp))) sn Udp)
      end
  | Ok PMacraw => if sn_eqb sn Sn0 then (IoPanic, ns, m) else (IoOk tt, ns, m)
  | Err _ => (IoOk tt, ns, m)
  end.

(** regsim/src/lib.rs 412-436: [socket_cmd_connect]. *)
Definition socket_cmd_connect (m : sim) (ns : net) (sn : Sn) : io unit * net * sim :=
  let s := sim_socket m sn in
  if negb (status_eqb (k_sr s) Init) then (IoPanic, ns, m) else
  match answer_of ns with
  | ARefused =>
      (IoOk tt, tl ns, sim_set_sn_sr (raise_sn_ir m sn SocketInterrupt_DISCON_MASK) sn Closed)
  | AFail _ => (IoErr, tl ns, m)
  | AQuiet | AData _ _ _ =>
      let m := sim_log m (NConnected sn (fst (k_dest s)) (snd (k_dest s))) in
      let m := sim_put m sn (k_set_inner s (Some TStream)) in
      (IoOk tt, tl ns, sim_set_sn_sr (raise_sn_ir m sn SocketInterrupt_CON_MASK) sn Established)
  end.

(** regsim/src/lib.rs 438-460: [socket_cmd_listen]. *)
Definition socket_cmd_listen (m : sim) (ns : net) (sn : Sn) : io unit * net * sim :=
  let s := sim_socket m sn in
  if negb (status_eqb (k_sr s) Init) then (IoPanic, ns, m) else
  match answer_of ns with
  | ARefused =>
      (IoOk tt, tl ns, raise_sn_ir (sim_set_sn_sr m sn Closed) sn SocketInterrupt_TIMEOUT_MASK)
  | AFail _ => (IoErr, tl ns, m)
  | AQuiet | AData _ _ _ =>
      let m := sim_log m (NListening sn (k_port s)) in
      let m := sim_put m sn (k_set_inner s (Some TListener)) in
      (IoOk tt, tl ns, sim_set_sn_sr m sn Listen)
  end.

(** regsim/src/lib.rs 479-483: [socket_cmd_close]. *)
Definition socket_cmd_close (m : sim) (sn : Sn) : sim :=
  sim_set_sn_sr (sim_put m sn (k_set_inner (sim_socket m sn) None)) sn Closed.

(** [for buffer_adr in a..b { push(tx_buf[buffer_adr % len]) }], regsim/src/lib.rs 513-526. *)
Definition vec_range (v : vec) (a b : Z) : list Z :=
  ztab (b - a) (fun i => v_at v ((a + i) mod v_len v)).

(** regsim/src/lib.rs 485-555: [socket_cmd_send].  [% len] panics for an empty buffer.  A datagram is
    sent whole or not at all, so that the assertion of line 536 holds. *)
Definition socket_cmd_send (dbg : bool) (m : sim) (ns : net) (sn : Sn) : io unit * net * sim :=
  let s := sim_socket m sn in
  let tail := k_tx_rd s in
  let head := k_tx_wr s in
  if head =? tail then (IoOk tt, ns, m) else
  let size := if tail <=? head then head - tail else 65535 + head - tail in
  if dbg && (bufsize_in_bytes (k_txbuf_size s) <? size) then (IoPanic, ns, m) else
  if (v_len (k_tx_buf s) =? 0) && (0 <? size) then (IoPanic, ns, m) else
  let data :=
    if tail <=? head then vec_range (k_tx_buf s) tail head
    else vec_range (k_tx_buf s) tail 65535 ++ vec_range (k_tx_buf s) 0 head in
  if dbg && (zlen data =? 0) then (IoPanic, ns, m) else
  let sent dest m := sim_put (sim_log m (NSent sn dest data)) sn (k_set_tx_rd s head) in
  let write_all m ns :=
    match answer_of ns with
    | AFail k => (IoErr, tl ns, sim_log m (NSent sn None (ztake k data)))
    | _ => (IoOk tt, tl ns, sent None m)
    end in
  match k_inner s with
  | Some TStream => write_all m ns
  | Some TUdp =>
      match answer_of ns with
      | AFail _ => (IoErr, tl ns, m)
      | _ => (IoOk tt, tl ns, sent (Some (k_dest s)) m)
      end
  | Some TListener =>
      if k_client s then write_all m ns else (IoOk tt, ns, sim_put m sn (k_set_tx_rd s head))
  | None => (IoPanic, ns, m)
  end.

(** regsim/src/lib.rs 560-572: [socket_cmd_recv]. *)
Definition socket_cmd_recv (m : sim) (sn : Sn) : io unit * sim :=
  let s := sim_socket m sn in
  if k_rx_rd s <=? k_rx_wr s then
    (IoOk tt, sim_put m sn (k_set_rx_rsr s (k_rx_wr s - k_rx_rd s)))
  else
    let d := bufsize_in_bytes (k_rxbuf_size s) - k_rx_wr s in
    if d <? 0 then (IoPanic, m) else
    if 65535 <? d + k_rx_rd s then (IoPanic, m) else
    (IoOk tt, sim_put m sn (k_set_rx_rsr s (d + k_rx_rd s))).

(** regsim/src/lib.rs 574-588: [sim_set_sn_rx_buf]; [None] is a panic ([% 0], [checked_add]). *)
Fixpoint set_rx_buf (s : socket) (data : list Z) : option socket :=
  match data with
  | [] => Some s
  | byte :: rest =>
      let buf_len := v_len (k_rx_buf s) in
      if buf_len =? 0 then None else
      let buf_idx := k_rx_wr s mod buf_len in
      if buf_len <? k_rx_rsr s + 1 then Some s else
      if 65535 <? k_rx_rsr s + 1 then None else
      let s := k_set_rx_buf s (vec_set (k_rx_buf s) buf_idx byte) in
      let s := k_set_rx_wr s (wadd (k_rx_wr s) 1) in
      let s := k_set_rx_rsr s (k_rx_rsr s + 1) in
      set_rx_buf s rest
  end.

(** The receiving calls of [check_socket] store what they got and raise RECV. *)
Definition stored (m : sim) (ns : net) (sn : Sn) (parts : list (list Z)) : io unit * net * sim :=
  match fold_left (fun o part => match o with None => None | Some s => set_rx_buf s part end) parts
          (Some (sim_socket m sn)) with
  | None => (IoPanic, ns, m)
  | Some s => (IoOk tt, ns, raise_sn_ir (sim_put m sn s) sn SocketInterrupt_RECV_MASK)
  end.
(** [stream.read(&mut buf)]: a stream of the socket, of a client or of a listener's client. *)
Definition read_stream (m : sim) (ns : net) (sn : Sn) (bufsize : Z) : io unit * net * sim :=
  match answer_of ns with
  | AFail _ => (IoErr, tl ns, m)
  | AData _ _ data =>
      let data := ztake bufsize data in
      if 0 <? zlen data then stored (sim_log m (NGot sn data)) (tl ns) sn [data]
      else (IoOk tt, tl ns, m)
  | AQuiet | ARefused => (IoOk tt, tl ns, m)
  end.
(** regsim/src/lib.rs 596-670: [check_socket]. *)
Definition check_socket (m : sim) (ns : net) (sn : Sn) : io unit * net * sim :=
  let s := sim_socket m sn in
  let bufsize := bufsize_in_bytes (k_rxbuf_size s) in
  match k_inner s with
  | Some TUdp =>
      match answer_of ns with
      | AFail _ => (IoErr, tl ns, m)
      | AData ip port data =>
          let data := ztake bufsize data in
          stored (sim_log m (NDgram sn ip port data)) (tl ns) sn
            [ip; be16 port; be16 (zlen data); data]
      | AQuiet | ARefused => (IoOk tt, tl ns, m)
      end
  | Some TStream => read_stream m ns sn bufsize
  | Some TListener =>
      if k_client s then read_stream m ns sn bufsize
      else
        match answer_of ns with
        | AFail _ => (IoErr, tl ns, m)
        | AData _ _ _ =>
            let m := sim_log m (NAccepted sn) in
            let m := sim_put m sn (k_set_client s true) in
            (IoOk tt, tl ns, sim_set_sn_sr (raise_sn_ir m sn SocketInterrupt_CON_MASK) sn Established)
        | AQuiet | ARefused => (IoOk tt, tl ns, m)
        end
  | None => (IoOk tt, ns, m)
  end.

(** [u16::to_be_bytes()[0]] and [[1]]; the two ways a byte of a 16-bit register is replaced. *)
Definition b0 (v : Z) : Z := (v / 256) mod 256.
Definition b1 (v : Z) : Z := v mod 256.
Definition w0 (v byte : Z) : Z := Z.lor (Z.land v 0x00FF) (Z.shiftl byte 8).
Definition w1 (v byte : Z) : Z := Z.lor (Z.land v 0xFF00) byte.
(** [octets[i] = byte]; [let [a, _, c, d] = x.octets(); Ipv4Addr::new(a, byte, c, d)]. *)
Definition oct (l : list Z) (i : nat) (byte : Z) : list Z := firstn i l ++ [byte] ++ skipn (S i) l.

(** regsim/src/lib.rs 672-734: [common_reg_rd]. *)
Definition common_reg_rd (r : common) (addr : Z) : Z :=
  match Reg_try_from addr with
  | Ok R_MR => g_mr r
  | Ok R_GAR0 => at_ (g_gar r) 0 | Ok R_GAR1 => at_ (g_gar r) 1
  | Ok R_GAR2 => at_ (g_gar r) 2 | Ok R_GAR3 => at_ (g_gar r) 3
  | Ok R_SUBR0 => at_ (g_subr r) 0 | Ok R_SUBR1 => at_ (g_subr r) 1
  | Ok R_SUBR2 => at_ (g_subr r) 2 | Ok R_SUBR3 => at_ (g_subr r) 3
  | Ok R_SHAR0 => at_ (g_shar r) 0 | Ok R_SHAR1 => at_ (g_shar r) 1 | Ok R_SHAR2 => at_ (g_shar r) 2
  | Ok R_SHAR3 => at_ (g_shar r) 3 | Ok R_SHAR4 => at_ (g_shar r) 4 | Ok R_SHAR5 => at_ (g_shar r) 5
  | Ok R_SIPR0 => at_ (g_sipr r) 0 | Ok R_SIPR1 => at_ (g_sipr r) 1
  | Ok R_SIPR2 => at_ (g_sipr r) 2 | Ok R_SIPR3 => at_ (g_sipr r) 3
  | Ok R_INTLEVEL0 => b0 (g_intlevel r) | Ok R_INTLEVEL1 => b1 (g_intlevel r)
  | Ok R_IR => g_ir r | Ok R_IMR => g_imr r | Ok R_SIR => g_sir r | Ok R_SIMR => g_simr r
  | Ok R_RTR0 => b0 (g_rtr r) | Ok R_RTR1 => b1 (g_rtr r)
  | Ok R_RCR => g_rcr r | Ok R_PTIMER => g_ptimer r | Ok R_PMAGIC => g_pmagic r
  | Ok R_PHAR0 => at_ (g_phar r) 0 | Ok R_PHAR1 => at_ (g_phar r) 1 | Ok R_PHAR2 => at_ (g_phar r) 2
  | Ok R_PHAR3 => at_ (g_phar r) 3 | Ok R_PHAR4 => at_ (g_phar r) 4 | Ok R_PHAR5 => at_ (g_phar r) 5
  | Ok R_PSID0 => b0 (g_psid r) | Ok R_PSID1 => b1 (g_psid r)
  | Ok R_PMRU0 => b0 (g_pmru r) | Ok R_PMRU1 => b1 (g_pmru r)
  | Ok R_UIPR0 => at_ (g_uipr r) 0 | Ok R_UIPR1 => at_ (g_uipr r) 1
  | Ok R_UIPR2 => at_ (g_uipr r) 2 | Ok R_UIPR3 => at_ (g_uipr r) 3
  | Ok R_UPORTR0 => b0 (g_uportr r) | Ok R_UPORTR1 => b1 (g_uportr r)
  | Ok R_PHYCFGR => g_phycfgr r | Ok R_VERSIONR => g_versionr r
  | Err _ => 0
  end.

(** regsim/src/lib.rs 736-883: [common_reg_wr]; it does not fail. *)
Definition common_reg_wr (m : sim) (addr byte : Z) : sim :=
  let r := s_regs m in
  let put := sim_regs m in
  match Reg_try_from addr with
  | Ok R_MR =>
      let m := put (g_set_mr r byte) in
      if negb (Z.land byte Mode_RST_MASK =? 0) then sim_reset m else m
  | Ok R_GAR0 => put (g_set_gar r (oct (g_gar r) 0 byte))
  | Ok R_GAR1 => put (g_set_gar r (oct (g_gar r) 1 byte))
  | Ok R_GAR2 => put (g_set_gar r (oct (g_gar r) 2 byte))
  | Ok R_GAR3 => put (g_set_gar r (oct (g_gar r) 3 byte))
  | Ok R_SUBR0 => put (g_set_subr r (oct (g_subr r) 0 byte))
  | Ok R_SUBR1 => put (g_set_subr r (oct (g_subr r) 1 byte))
  | Ok R_SUBR2 => put (g_set_subr r (oct (g_subr r) 2 byte))
  | Ok R_SUBR3 => put (g_set_subr r (oct (g_subr r) 3 byte))
  | Ok R_SHAR0 => put (g_set_shar r (oct (g_shar r) 0 byte))
  | Ok R_SHAR1 => put (g_set_shar r (oct (g_shar r) 1 byte))
  | Ok R_SHAR2 => put (g_set_shar r (oct (g_shar r) 2 byte))
  | Ok R_SHAR3 => put (g_set_shar r (oct (g_shar r) 3 byte))
  | Ok R_SHAR4 => put (g_set_shar r (oct (g_shar r) 4 byte))
  | Ok R_SHAR5 => put (g_set_shar r (oct (g_shar r) 5 byte))
  | Ok R_SIPR0 => put (g_set_sipr r (oct (g_sipr r) 0 byte))
  | Ok R_SIPR1 => put (g_set_sipr r (oct (g_sipr r) 1 byte))
  | Ok R_SIPR2 => put (g_set_sipr r (oct (g_sipr r) 2 byte))
  | Ok R_SIPR3 => put (g_set_sipr r (oct (g_sipr r) 3 byte))
  | Ok R_INTLEVEL0 => put (g_set_intlevel r (w0 (g_intlevel r) byte))
  | Ok R_INTLEVEL1 => put (g_set_intlevel r (w1 (g_intlevel r) byte))
  | Ok R_IR => put (g_set_ir r byte)
  | Ok R_IMR => put (g_set_imr r byte)
  | Ok R_SIR => put (g_set_sir r byte)
  | Ok R_SIMR => put (g_set_simr r byte)
  | Ok R_RTR0 => put (g_set_rtr r (w0 (g_rtr r) byte))
  | Ok R_RTR1 => put (g_set_rtr r (w1 (g_rtr r) byte))
  | Ok R_RCR => put (g_set_rcr r byte)
  | Ok R_PTIMER => put (g_set_ptimer r byte)
  | Ok R_PMAGIC => put (g_set_pmagic r byte)
  | Ok R_PHAR0 => put (g_set_phar r (oct (g_phar r) 0 byte))
  | Ok R_PHAR1 => put (g_set_phar r (oct (g_phar r) 1 byte))
  | Ok R_PHAR2 => put (g_set_phar r (oct (g_phar r) 2 byte))
  | Ok R_PHAR3 => put (g_set_phar r (oct (g_phar r) 3 byte))
  | Ok R_PHAR4 => put (g_set_phar r (oct (g_phar r) 4 byte))
  | Ok R_PHAR5 => put (g_set_phar r (oct (g_phar r) 5 byte))
  | Ok R_PSID0 => put (g_set_psid r (w0 (g_psid r) byte))
  | Ok R_PSID1 => put (g_set_psid r (w1 (g_psid r) byte))
  | Ok R_PMRU0 => put (g_set_pmru r (w0 (g_pmru r) byte))
  | Ok R_PMRU1 => put (g_set_pmru r (w1 (g_pmru r) byte))
  | Ok R_UIPR0 | Ok R_UIPR1 | Ok R_UIPR2 | Ok R_UIPR3 | Ok R_UPORTR0 | Ok R_UPORTR1 => m
  | Ok R_PHYCFGR => put (g_set_phycfgr r byte)
  | Ok R_VERSIONR => m
  | Err _ => m
  end.

(** regsim/src/lib.rs 889-932: the value read in [socket_reg_rd]. *)
Definition socket_byte (s : socket) (addr : Z) : Z :=
  match SnReg_try_from addr with
  | Ok S_MR => k_mr s | Ok S_CR => k_cr s | Ok S_IR => k_ir s | Ok S_SR => status_raw (k_sr s)
  | Ok S_PORT0 => b0 (k_port s) | Ok S_PORT1 => b1 (k_port s)
  | Ok S_DHAR0 => at_ (k_dhar s) 0 | Ok S_DHAR1 => at_ (k_dhar s) 1 | Ok S_DHAR2 => at_ (k_dhar s) 2
  | Ok S_DHAR3 => at_ (k_dhar s) 3 | Ok S_DHAR4 => at_ (k_dhar s) 4 | Ok S_DHAR5 => at_ (k_dhar s) 5
  | Ok S_DIPR0 => at_ (k_dipr s) 0 | Ok S_DIPR1 => at_ (k_dipr s) 1
  | Ok S_DIPR2 => at_ (k_dipr s) 2 | Ok S_DIPR3 => at_ (k_dipr s) 3
  | Ok S_DPORT0 => b0 (k_dport s) | Ok S_DPORT1 => b1 (k_dport s)
  | Ok S_MSSR0 => b0 (k_mssr s) | Ok S_MSSR1 => b1 (k_mssr s)
  | Ok S_TOS => k_tos s | Ok S_TTL => k_ttl s
  | Ok S_RXBUF_SIZE => bufsize_raw (k_rxbuf_size s) | Ok S_TXBUF_SIZE => bufsize_raw (k_txbuf_size s)
  | Ok S_TX_FSR0 => b0 (k_tx_fsr s) | Ok S_TX_FSR1 => b1 (k_tx_fsr s)
  | Ok S_TX_RD0 => b0 (k_tx_rd s) | Ok S_TX_RD1 => b1 (k_tx_rd s)
  | Ok S_TX_WR0 => b0 (k_tx_wr s) | Ok S_TX_WR1 => b1 (k_tx_wr s)
  | Ok S_RX_RSR0 => b0 (k_rx_rsr s) | Ok S_RX_RSR1 => b1 (k_rx_rsr s)
  | Ok S_RX_RD0 => b0 (k_rx_rd s) | Ok S_RX_RD1 => b1 (k_rx_rd s)
  | Ok S_RX_WR0 => b0 (k_rx_wr s) | Ok S_RX_WR1 => b1 (k_rx_wr s)
  | Ok S_IMR => k_imr s
  | Ok S_FRAG0 => b0 (k_frag s) | Ok S_FRAG1 => b1 (k_frag s)
  | Ok S_KPALVTR => k_kpalvtr s
  | Err _ => 0
  end.

(** regsim/src/lib.rs 885-944: [socket_reg_rd]. *)
Definition socket_reg_rd (m : sim) (ns : net) (addr : Z) (sn : Sn) : io Z * net * sim :=
  let ret := socket_byte (sim_socket m sn) addr in
  let check := match SnReg_try_from addr with Ok S_RX_RSR0 => false | _ => true end in
  if check then
    let '(r, ns, m) := check_socket m ns sn in
    (match r with IoOk _ => IoOk ret | IoErr => IoErr | IoPanic => IoPanic end, ns, m)
  else (IoOk ret, ns, m).

(** regsim/src/lib.rs 966-991: clearing of interrupt flags. *)
Definition clear_flag (raised : Z -> bool) (mask : Z) (ir byte : Z) : Z :=
  if raised ir && raised byte then Z.land (u8not mask) ir else ir.
Definition cleared (ir byte : Z) : Z :=
  let ir := clear_flag SocketInterrupt_con_raised SocketInterrupt_CON_MASK ir byte in
  let ir := clear_flag SocketInterrupt_discon_raised SocketInterrupt_DISCON_MASK ir byte in
  let ir := clear_flag SocketInterrupt_recv_raised SocketInterrupt_RECV_MASK ir byte in
  let ir := clear_flag SocketInterrupt_timeout_raised SocketInterrupt_TIMEOUT_MASK ir byte in
  clear_flag SocketInterrupt_sendok_raised SocketInterrupt_SENDOK_MASK ir byte.

(** regsim/src/lib.rs 946-1101: [socket_reg_wr]. *)
Definition socket_reg_wr (dbg : bool) (m : sim) (ns : net) (addr byte : Z) (sn : Sn)
  : io unit * net * sim :=
  let s := sim_socket m sn in
  let put s := (IoOk tt, ns, sim_put m sn s) in
  let skip := (IoOk tt, ns, m) in
  let todo := (IoPanic, ns, m) in
  match SnReg_try_from addr with
  | Ok S_MR => put (k_set_mr s byte)
  | Ok S_CR =>
      match command_try_from byte with
      | Ok COpen => socket_cmd_open m ns sn
      | Ok CConnect => socket_cmd_connect m ns sn
      | Ok CClose => (IoOk tt, ns, socket_cmd_close m sn)
      | Ok CSend => socket_cmd_send dbg m ns sn
      | Ok CRecv => let '(r, m) := socket_cmd_recv m sn in (r, ns, m)
      | Ok CListen => socket_cmd_listen m ns sn
      | _ => todo
      end
  | Ok S_IR =>
      let ir := cleared (k_ir s) byte in
      let m := sim_put m sn (k_set_ir s ir) in
      if Z.land (Z.land ir (k_imr s)) 0x1F =? 0 then
        (IoOk tt, ns,
         sim_regs m (g_set_sir (s_regs m) (Z.land (g_sir (s_regs m)) (u8not (sn_bitmask sn)))))
      else (IoOk tt, ns, m)
  | Ok S_SR => skip
  | Ok S_PORT0 => put (k_set_port s (w0 (k_port s) byte))
  | Ok S_PORT1 => put (k_set_port s (w1 (k_port s) byte))
  | Ok S_DHAR0 => put (k_set_dhar s (oct (k_dhar s) 0 byte))
  | Ok S_DHAR1 => put (k_set_dhar s (oct (k_dhar s) 1 byte))
  | Ok S_DHAR2 => put (k_set_dhar s (oct (k_dhar s) 2 byte))
  | Ok S_DHAR3 => put (k_set_dhar s (oct (k_dhar s) 3 byte))
  | Ok S_DHAR4 => put (k_set_dhar s (oct (k_dhar s) 4 byte))
  | Ok S_DHAR5 => put (k_set_dhar s (oct (k_dhar s) 5 byte))
  | Ok S_DIPR0 => put (k_set_dipr s (oct (k_dipr s) 0 byte))
  | Ok S_DIPR1 => put (k_set_dipr s (oct (k_dipr s) 1 byte))
  | Ok S_DIPR2 => put (k_set_dipr s (oct (k_dipr s) 2 byte))
  | Ok S_DIPR3 => put (k_set_dipr s (oct (k_dipr s) 3 byte))
  | Ok S_DPORT0 => put (k_set_dport s (w0 (k_dport s) byte))
  | Ok S_DPORT1 => put (k_set_dport s (w1 (k_dport s) byte))
  | Ok S_MSSR0 | Ok S_MSSR1 | Ok S_TOS => todo
  | Ok S_TTL => put (k_set_ttl s byte)
  | Ok S_RXBUF_SIZE =>
      match bufsize_try_from byte with
      | Ok bs => put (k_set_rxbuf_size (k_set_rx_buf s (vec_resize (k_rx_buf s) (bufsize_in_bytes bs))) bs)
      | Err _ => todo
      end
  | Ok S_TXBUF_SIZE =>
      match bufsize_try_from byte with
      | Ok bs => put (k_set_txbuf_size (k_set_tx_buf s (vec_resize (k_tx_buf s) (bufsize_in_bytes bs))) bs)
      | Err _ => todo
      end
  | Ok S_TX_FSR0 | Ok S_TX_FSR1 | Ok S_TX_RD0 | Ok S_TX_RD1 => skip
  | Ok S_TX_WR0 => put (k_set_tx_wr s (w0 (k_tx_wr s) byte))
  | Ok S_TX_WR1 => put (k_set_tx_wr s (w1 (k_tx_wr s) byte))
  | Ok S_RX_RSR0 | Ok S_RX_RSR1 => skip
  | Ok S_RX_RD0 => put (k_set_rx_rd s (w0 (k_rx_rd s) byte))
  | Ok S_RX_RD1 => put (k_set_rx_rd s (w1 (k_rx_rd s) byte))
  | Ok S_RX_WR0 | Ok S_RX_WR1 => todo
  | Ok S_IMR => put (k_set_imr s byte)
  | Ok S_FRAG0 | Ok S_FRAG1 | Ok S_KPALVTR => todo
  | Err _ => skip
  end.

(** regsim/src/lib.rs 1119-1127, 1136-1147: a read of the common block; of a buffer, [None] for the
    panic of [% 0]. *)
Definition common_rds (r : common) (addr n : Z) : list Z := ztab n (fun i => common_reg_rd r (wadd addr i)).
Definition vec_rds (v : vec) (addr n : Z) : option (list Z) :=
  if (v_len v =? 0) && (0 <? n) then None else Some (ztab n (fun i => v_at v (wadd addr i mod v_len v))).
(** regsim/src/lib.rs 1128-1135: a read of a socket register block, byte by byte. *)
Fixpoint socket_rds (m : sim) (ns : net) (addr : Z) (sn : Sn) (n : nat) : io (list Z) * net * sim :=
  match n with
  | O => (IoOk [], ns, m)
  | S n =>
      let '(r, ns, m) := socket_reg_rd m ns addr sn in
      match r with
      | IoOk byte =>
          let '(r, ns, m) := socket_rds m ns (wadd addr 1) sn n in
          (match r with IoOk l => IoOk (byte :: l) | IoErr => IoErr | IoPanic => IoPanic end, ns, m)
      | IoErr => (IoErr, ns, m)
      | IoPanic => (IoPanic, ns, m)
      end
  end.
(** regsim/src/lib.rs 1118-1163: [Registers::read]. *)
Definition sim_read (m : sim) (ns : net) (addr block n : Z) : io (list Z) * net * sim :=
  match block_type block with
  | None => (IoPanic, ns, m)
  | Some BCommon => (IoOk (common_rds (s_regs m) addr n), ns, m)
  | Some (BSocket sn) => socket_rds m ns addr sn (Z.to_nat n)
  | Some (BRx sn) =>
      (match vec_rds (k_rx_buf (sim_socket m sn)) addr n with Some l => IoOk l | None => IoPanic end, ns, m)
  | Some (BTx sn) =>
      (match vec_rds (k_tx_buf (sim_socket m sn)) addr n with Some l => IoOk l | None => IoPanic end, ns, m)
  end.

(** regsim/src/lib.rs 1170-1176, 1184-1205: a write to the common block; to a buffer. *)
Fixpoint common_wrs (m : sim) (addr : Z) (data : list Z) : sim :=
  match data with
  | [] => m
  | byte :: rest => common_wrs (common_reg_wr m addr byte) (wadd addr 1) rest
  end.
Fixpoint vec_wrs (v : vec) (addr : Z) (data : list Z) : option vec :=
  match data with
  | [] => Some v
  | byte :: rest =>
      if v_len v =? 0 then None else vec_wrs (vec_set v (addr mod v_len v) byte) (wadd addr 1) rest
  end.
(** regsim/src/lib.rs 1177-1183: a write to a socket register block. *)
Fixpoint socket_wrs (dbg : bool) (m : sim) (ns : net) (addr : Z) (sn : Sn) (data : list Z)
  : io unit * net * sim :=
  match data with
  | [] => (IoOk tt, ns, m)
  | byte :: rest =>
      let '(r, ns, m) := socket_reg_wr dbg m ns addr byte sn in
      match r with
      | IoOk _ => socket_wrs dbg m ns (wadd addr 1) sn rest
      | IoErr => (IoErr, ns, m)
      | IoPanic => (IoPanic, ns, m)
      end
  end.
(** regsim/src/lib.rs 1166-1207: [Registers::write]. *)
Definition sim_write (dbg : bool) (m : sim) (ns : net) (addr block : Z) (data : list Z)
  : io unit * net * sim :=
  match block_type block with
  | None => (IoPanic, ns, m)
  | Some BCommon => (IoOk tt, ns, common_wrs m addr data)
  | Some (BSocket sn) => socket_wrs dbg m ns addr sn data
  | Some (BRx sn) =>
      match vec_wrs (k_rx_buf (sim_socket m sn)) addr data with
      | None => (IoPanic, ns, m)
      | Some v => (IoOk tt, ns, sim_put m sn (k_set_rx_buf (sim_socket m sn) v))
      end
  | Some (BTx sn) =>
      match vec_wrs (k_tx_buf (sim_socket m sn)) addr data with
      | None => (IoPanic, ns, m)
      | Some v => (IoOk tt, ns, sim_put m sn (k_set_tx_buf (sim_socket m sn) v))
      end
  end.

(** A program run with [W5500] as its [Registers]; the asynchronous trait (regsim/src/lib.rs
    1210-1220) is the same. *)
Fixpoint sim_run {A} (dbg : bool) (p : prog A) (ns : net) (m : sim) : outcome A * net * sim :=
  match p with
  | Ret a => (Done a, ns, m)
  | Panic => (Panicked, ns, m)
  | Diverge => (Diverged, ns, m)
  | Rd a b n k =>
      let '(r, ns, m) := sim_read m ns a b n in
      match r with
      | IoOk l => sim_run dbg (k (Some l)) ns m
      | IoErr => sim_run dbg (k None) ns m
      | IoPanic => (Panicked, ns, m)
      end
  | Wr a b d k =>
      let '(r, ns, m) := sim_write dbg m ns a b d in
      match r with
      | IoOk _ => sim_run dbg (k true) ns m
      | IoErr => sim_run dbg (k false) ns m
      | IoPanic => (Panicked, ns, m)
      end
  end.
