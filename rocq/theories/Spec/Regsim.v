(** When the simulator is in the same state as the chip, and the known differences between the two. *)
From Verif Require Import Model.Prelude Model.Bus Model.Chip Model.Specifiers Model.LlAddr Model.LlBits
  Model.Regsim.

(** The chip after a reset, as far as the datasheet says: registers, empty buffers, no events. *)
Definition reset_common (a : Z) : Z :=
  if a =? 0x19 then 0x07 else if a =? 0x1A then 0xD0 else if a =? 0x1B then 0x08 else
  if a =? 0x1C then 0x28 else if (a =? 0x26) || (a =? 0x27) then 0xFF else
  if a =? 0x2E then 0xBF else if a =? 0x39 then 0x04 else 0.
Definition reset_reg (a : Z) : Z :=
  if (0x06 <=? a) && (a <=? 0x0B) then 0xFF else if a =? 0x16 then 0x80 else
  if (a =? 0x1E) || (a =? 0x1F) then 2 else if a =? 0x2C then 0xFF else if a =? 0x2D then 0x40 else 0.
Definition reset_sock : sock :=
  mkSock reset_reg 0 None 0 (fun _ => 0) (fun _ => 0) 0 0 [] [] 0 0 [] [].
Definition reset_chip : chip := mkChip reset_common (fun _ => reset_sock).

(** What the host's sockets were given on behalf of a socket, and what they gave to it. *)
Definition sent_by (sn : Sn) (log : list netev) : list (option (list Z * Z) * list Z) :=
  flat_map (fun e => match e with
                     | NSent n dest data => if sn_eqb n sn then [(dest, data)] else []
                     | _ => [] end) log.
Definition got_by (sn : Sn) (log : list netev) : list Z :=
  flat_map (fun e => match e with
                     | NGot n data => if sn_eqb n sn then data else []
                     | NDgram n ip port data => if sn_eqb n sn then udp_image ip port data else []
                     | _ => [] end) log.
(** A frame of the chip is what a socket of the host was given. *)
Definition same_frame (f : frame) (x : option (list Z * Z) * list Z) : Prop :=
  f_data f = snd x /\ (fst x = None \/ fst x = Some (f_ip f, f_port f)).

(** The registers of a socket that are more than storage: Sn_CR, Sn_IR, Sn_SR, Sn_TX_FSR, Sn_TX_RD,
    Sn_RX_RSR, Sn_RX_WR. *)
Definition dynamic (a : Z) : bool :=
  (a =? 0x01) || (a =? 0x02) || (a =? 0x03) || ((0x20 <=? a) && (a <=? 0x23)) ||
  (a =? 0x26) || (a =? 0x27) || (a =? 0x2A) || (a =? 0x2B).

Definition u16_ok (l : list Z) : Prop := Forall is_u16 l.

(** The host's socket belongs to the status. *)
Definition inner_ok (s : socket) : Prop :=
  match k_inner s with
  | None => k_sr s = Closed \/ k_sr s = Init
  | Some TUdp => k_sr s = Udp
  | Some TStream => k_sr s = Established
  | Some TListener => k_sr s = if k_client s then Established else Listen
  end.

(** A socket of the simulator and one of the chip in the same state. *)
Record same_socket (sn : Sn) (log : list netev) (s : socket) (k : sock) : Prop := mkSame
  { sm_plain : forall a, 0 <= a < 65536 -> dynamic a = false -> s_reg k a = socket_byte s a
  ; sm_wide : u16_ok [k_port s; k_dport s; k_mssr s; k_tx_rd s; k_tx_wr s; k_rx_rsr s; k_rx_rd s; k_rx_wr s;
                      k_frag s]
  ; sm_octets : zlen (k_dhar s) = 6 /\ zlen (k_dipr s) = 4
  ; sm_status : s_sr k = status_raw (k_sr s) /\ s_pend k = None
  ; sm_ir : s_ir k = k_ir s /\ 0 <= k_ir s < 32
  ; sm_cr : k_cr s = 0
  ; sm_txbuf : k_txbuf_size s = KB2 /\ k_tx_fsr s = 2048 /\ v_len (k_tx_buf s) = 2048 /\
               (forall i, 0 <= i < 2048 -> s_txmem k i = v_at (k_tx_buf s) i)
  ; sm_rxbuf : k_rxbuf_size s <> KB0 /\ v_len (k_rx_buf s) = bufsize_in_bytes (k_rxbuf_size s) /\
               (forall i, 0 <= i -> s_rxmem k i = v_at (k_rx_buf s) i) /\
               (forall i, v_len (k_rx_buf s) <= i -> v_at (k_rx_buf s) i = 0)
  ; sm_tx : s_tx_rd k = k_tx_rd s /\ s_tx_cmd k = k_tx_rd s /\ s_txq k = []
  ; sm_rx : s_rx_wr k = k_rx_wr s /\ rx_rsr k = k_rx_rsr s /\ is_u16 (s_rx_base k)
  ; sm_sent : Forall2 same_frame (s_wire k) (sent_by sn log)
  ; sm_got : s_rxlog k = got_by sn log
  ; sm_inner : inner_ok s }.

(** The simulator and the chip in the same state.  SIR (0x17) is left out: the chip model has no
    interrupt summary. *)
Record same_state (m : sim) (c : chip) : Prop := mkSameState
  { ss_common : forall a, 0 <= a < 65536 -> a <> 0x17 -> c_common c a = common_reg_rd (s_regs m) a
  ; ss_wide : u16_ok [g_intlevel (s_regs m); g_rtr (s_regs m); g_psid (s_regs m); g_pmru (s_regs m);
                      g_uportr (s_regs m)]
  ; ss_octets : zlen (g_gar (s_regs m)) = 4 /\ zlen (g_subr (s_regs m)) = 4 /\ zlen (g_sipr (s_regs m)) = 4 /\
                zlen (g_shar (s_regs m)) = 6 /\ zlen (g_phar (s_regs m)) = 6
  ; ss_sock : forall sn, same_socket sn (s_net m) (sim_socket m sn) (c_sock c (sn_raw sn)) }.

(** * The differences

    The conditions below are checked along a run ([alike]).  Each excludes one situation in which
    the simulator does not do what the chip does; the theorems ending in [_refuted] show that the most
    important of them matter. *)

Definition bytesb (l : list Z) : bool := forallb byteb l.
Definition free_rx (s : socket) : Z := bufsize_in_bytes (k_rxbuf_size s) - k_rx_rsr s.

(** What a host socket delivers fits into the receive buffer, and the call does not fail.  A
    connection is accepted with empty buffers. *)
Definition check_alike (s : socket) (ns : net) : bool :=
  match k_inner s with
  | None => true
  | Some kind =>
      match answer_of ns with
      | AFail _ => false
      | AQuiet | ARefused => true
      | AData ip port data =>
          match kind, k_client s with
          | TUdp, _ =>
              (zlen ip =? 4) && bytesb ip && (0 <=? port) && (port <? 65536) && bytesb data &&
              (8 + zlen data <=? free_rx s)
          | TListener, false =>
              (k_rx_rsr s =? 0) && (k_rx_rd s =? k_rx_wr s) && (k_tx_rd s =? k_tx_wr s)
          | _, _ => bytesb data && (zlen data <=? free_rx s)
          end
      end
  end.

(** Registers whose value is not changed by the network. *)
Definition steady (a : Z) : bool :=
  negb ((a =? 0x02) || (a =? 0x03) || (a =? 0x26) || (a =? 0x27) || (a =? 0x2A) || (a =? 0x2B)).
(** A read of several bytes is not torn by data arriving in between: after the first byte that lets
    the simulator look at its host socket, all registers read are steady. *)
Definition untorn (a n : Z) : bool :=
  forallb (fun i => let i := Z.of_nat i in
             ((a + i) mod 65536 =? 0x26) ||
             forallb (fun j => steady ((a + i + 1 + Z.of_nat j) mod 65536)) (seq 0 (Z.to_nat (n - 1 - i))))
    (seq 0 (Z.to_nat (n - 1))).
(** Sn_TX_FSR is only read when everything was sent: the simulator's is constant. *)
Definition reads_fsr (a n : Z) : bool :=
  existsb (fun i => let b := (a + Z.of_nat i) mod 65536 in (b =? 0x20) || (b =? 0x21)) (seq 0 (Z.to_nat n)).
(** SIR is not read. *)
Definition reads_sir (a n : Z) : bool :=
  existsb (fun i => (a + Z.of_nat i) mod 65536 =? 0x17) (seq 0 (Z.to_nat n)).

Fixpoint checks_alike (m : sim) (ns : net) (addr : Z) (sn : Sn) (n : nat) : bool :=
  match n with
  | O => true
  | S n =>
      (if addr =? 0x26 then true else check_alike (sim_socket m sn) ns) &&
      (let '(_, ns, m) := socket_reg_rd m ns addr sn in checks_alike m ns (wadd addr 1) sn n)
  end.

Definition read_alike (m : sim) (ns : net) (addr block n : Z) : bool :=
  (0 <=? addr) && (addr <? 65536) &&
  match block_type block with
  | Some BCommon => negb (reads_sir addr n)
  | Some (BSocket sn) =>
      untorn addr n && (negb (reads_fsr addr n) || (k_tx_wr (sim_socket m sn) =? k_tx_rd (sim_socket m sn))) &&
      checks_alike m ns addr sn (Z.to_nat n)
  | _ => true
  end.

(** Writes to the common registers: existing registers that are not IR (where the chip clears flags)
    or SIR, and no software reset. *)
Definition common_alike (a v : Z) : bool :=
  match Reg_try_from a with
  | Ok R_MR => v <? 128
  | Ok R_IR | Ok R_SIR => false
  | Ok _ => true
  | Err _ => (0x28 <=? a) && (a <=? 0x2D)
  end.

(** Commands: OPEN of a TCP or UDP socket with nothing unread, which succeeds; LISTEN without an old
    client; SEND of something, below the end of the 16-bit pointers, on a connected or UDP socket,
    which succeeds; RECV below the end of the pointers. *)
Definition command_alike (s : socket) (ns : net) (v : Z) : bool :=
  match command_try_from v with
  | Ok COpen =>
      (k_rx_rsr s =? 0) &&
      match SocketMode_protocol (k_mr s) with
      | Ok PTcp => true
      | Ok PUdp => match answer_of ns with ARefused | AFail _ => false | _ => true end
      | _ => false
      end
  | Ok CConnect =>
      (k_rx_rsr s =? 0) && (k_rx_rd s =? k_rx_wr s) && (k_tx_rd s =? k_tx_wr s) &&
      match answer_of ns with AFail _ => false | _ => true end
  | Ok CListen => negb (k_client s) && match answer_of ns with AFail _ => false | _ => true end
  | Ok CClose => true
  | Ok CSend =>
      (k_tx_rd s <? k_tx_wr s) &&
      match k_inner s with
      | Some TListener => k_client s
      | Some _ => true
      | None => false
      end &&
      match answer_of ns with AFail _ => false | _ => true end
  | Ok CRecv => k_rx_rd s <=? k_rx_wr s
  | _ => false
  end.

(** Writes to the registers of a socket: existing registers that the simulator implements.  The
    transmit buffer has 2 KiB; the receive buffer does not shrink. *)
Definition sn_alike (s : socket) (ns : net) (a v : Z) : bool :=
  match SnReg_try_from a with
  | Ok S_CR => command_alike s ns v
  | Ok S_RXBUF_SIZE =>
      match bufsize_try_from v with
      | Ok b => bufsize_in_bytes (k_rxbuf_size s) <=? bufsize_in_bytes b
      | Err _ => false
      end
  | Ok S_TXBUF_SIZE => v =? 2
  | Ok _ => true
  | Err _ => false
  end.

Fixpoint writes_alike (dbg : bool) (m : sim) (ns : net) (addr : Z) (sn : Sn) (data : list Z) : bool :=
  match data with
  | [] => true
  | v :: rest =>
      sn_alike (sim_socket m sn) ns addr v &&
      (negb (addr =? 0x01) || match rest with [] => true | _ => false end) &&
      (let '(_, ns, m) := socket_reg_wr dbg m ns addr v sn in writes_alike dbg m ns (wadd addr 1) sn rest)
  end.
Fixpoint commons_alike (addr : Z) (data : list Z) : bool :=
  match data with
  | [] => true
  | v :: rest => common_alike addr v && commons_alike (wadd addr 1) rest
  end.

Definition write_alike (dbg : bool) (m : sim) (ns : net) (addr block : Z) (data : list Z) : bool :=
  (0 <=? addr) && (addr <? 65536) && bytesb data &&
  match block_type block with
  | Some BCommon => commons_alike addr data
  | Some (BSocket sn) => writes_alike dbg m ns addr sn data
  | _ => true
  end.

(** No transaction of the run is one of these. *)
Fixpoint alike {A} (dbg : bool) (p : prog A) (ns : net) (m : sim) : bool :=
  match p with
  | Ret _ | Panic | Diverge => true
  | Rd a b n k =>
      read_alike m ns a b n &&
      (let '(r, ns, m) := sim_read m ns a b n in
       match r with IoOk l => alike dbg (k (Some l)) ns m | IoErr => false | IoPanic => true end)
  | Wr a b d k =>
      write_alike dbg m ns a b d &&
      (let '(r, ns, m) := sim_write dbg m ns a b d in
       match r with IoOk _ => alike dbg (k true) ns m | IoErr => false | IoPanic => true end)
  end.

(** * What is claimed of the simulator itself *)

(** A call on behalf of socket [sn] leaves everything else alone (except the interrupt summary SIR). *)
Definition only_touches (sn : Sn) (m m' : sim) : Prop :=
  (forall n, n <> sn -> sim_socket m' n = sim_socket m n /\
     sent_by n (s_net m') = sent_by n (s_net m) /\ got_by n (s_net m') = got_by n (s_net m)) /\
  (forall a, a <> 0x17 -> common_reg_rd (s_regs m') a = common_reg_rd (s_regs m) a) /\
  exists e, s_net m' = s_net m ++ e.

(** The receive buffer of a socket is sane: there is one, and no more is in it than fits. *)
Definition rx_ok (s : socket) : Prop :=
  k_rxbuf_size s <> KB0 /\ v_len (k_rx_buf s) = bufsize_in_bytes (k_rxbuf_size s) /\
  0 <= k_rx_rsr s <= bufsize_in_bytes (k_rxbuf_size s) /\ is_u16 (k_rx_wr s).
(** The receive buffer of [s'] is that of [s] with [data] behind. *)
Definition rx_added (s s' : socket) (data : list Z) : Prop :=
  k_rx_rsr s' = k_rx_rsr s + zlen data /\ k_rx_wr s' = (k_rx_wr s + zlen data) mod 65536 /\
  k_rx_rd s' = k_rx_rd s /\ v_len (k_rx_buf s') = v_len (k_rx_buf s) /\
  ring (v_at (k_rx_buf s')) (v_len (k_rx_buf s)) (k_rx_wr s) (zlen data) = data /\
  (forall q n, 0 <= n -> n + zlen data <= v_len (k_rx_buf s) -> (q + n) mod 65536 = k_rx_wr s ->
     ring (v_at (k_rx_buf s')) (v_len (k_rx_buf s)) q n = ring (v_at (k_rx_buf s)) (v_len (k_rx_buf s)) q n).

(** A stream that can be read and written: a client's, or one accepted by a listener. *)
Definition streaming (s : socket) : Prop :=
  k_inner s = Some TStream \/ (k_inner s = Some TListener /\ k_client s = true).
(** A socket that can send, and the destination it gives to the host. *)
Definition sendable (s : socket) : Prop := k_inner s = Some TUdp \/ streaming s.
Definition send_dest (s : socket) : option (list Z * Z) :=
  match k_inner s with Some TUdp => Some (k_dipr s, k_dport s) | _ => None end.
