(** Vocabulary for socket-level specifications: what a socket has received, what it will transmit. *)
From Verif Require Import Model.Prelude Model.Chip.

(** Legal socket buffer sizes in bytes. *)
Definition size_ok (z : Z) : Prop := z = 0 \/ z = 1024 \/ z = 2048 \/ z = 4096 \/ z = 8192 \/ z = 16384.

(** ** Receive side *)

(** The bytes received by the chip and not yet released by the host. *)
Definition unread (s : sock) : list Z := ring (s_rxmem s) (rx_size s) (s_rx_base s) (rx_rsr s).

(** The receive pointers are 16-bit and describe at most one buffer full of data. *)
Definition rx_wf (s : sock) : Prop :=
  size_ok (rx_size s) /\ is_u16 (s_rx_base s) /\ is_u16 (s_rx_wr s) /\ rx_rsr s <= rx_size s.
(** ... and the read pointer register points at the oldest unread byte: no reader is half done. *)
Definition rx_ready (s : sock) : Prop := rx_wf s /\ rx_rd s = s_rx_base s.

(** A datagram, and its image in the receive buffer: source address, source port, length, data. *)
Record dgram : Type := { d_ip : list Z; d_port : Z; d_data : list Z }.
Definition dgram_ok (d : dgram) : Prop :=
  zlen (d_ip d) = 4 /\ bytes_ok (d_ip d) /\ is_u16 (d_port d) /\ bytes_ok (d_data d) /\
  zlen (d_data d) < 65536.
Definition dgram_image (d : dgram) : list Z :=
  d_ip d ++ be16 (d_port d) ++ be16 (zlen (d_data d)) ++ d_data d.
Definition images (l : list dgram) : list Z := concat (map dgram_image l).

(** The unread part of the receive buffer is exactly these datagrams, oldest first. *)
Definition rx_queue (s : sock) (l : list dgram) : Prop := unread s = images l /\ Forall dgram_ok l.

(** ** Transmit side *)

(** Bytes covered by SEND commands and not yet transmitted. *)
Definition pending (s : sock) : Z := wsub (s_tx_cmd s) (s_tx_rd s).
Definition unsent (s : sock) : list Z := ring (s_txmem s) (tx_size s) (s_tx_rd s) (pending s).
Definition sent (s : sock) : list Z := concat (map f_data (s_wire s)).
(** Everything transmitted so far followed by everything the chip has been told to transmit. *)
Definition tx_stream (s : sock) : list Z := sent s ++ unsent s.

(** The same for datagrams, keeping their boundaries and destinations. *)
Fixpoint queued (mem : Z -> Z) (size p : Z) (q : list txent) : list frame :=
  match q with
  | [] => []
  | t :: r =>
      {| f_ip := te_ip t; f_port := te_port t; f_data := ring mem size p (te_len t) |} ::
      queued mem size (p + te_len t) r
  end.
Definition tx_frames (s : sock) : list frame :=
  s_wire s ++ queued (s_txmem s) (tx_size s) (s_tx_rd s) (s_txq s).

Fixpoint sum_len (q : list txent) : Z :=
  match q with [] => 0 | t :: r => te_len t + sum_len r end.
(** The transmit pointers are 16-bit, the queue accounts for the bytes between them, and they fit. *)
Definition tx_wf (s : sock) : Prop :=
  size_ok (tx_size s) /\ is_u16 (s_tx_rd s) /\ is_u16 (s_tx_cmd s) /\
  Forall (fun t => 0 <= te_len t) (s_txq s) /\ pending s = sum_len (s_txq s) /\
  pending s <= tx_size s.
(** ... and the write pointer register is at the end of the committed data. *)
Definition tx_ready (s : sock) : Prop := tx_wf s /\ tx_wr s = s_tx_cmd s.

(** ** Status *)

(** No OPEN or CLOSE is pending and no connection is being established. *)
Definition idle (s : sock) : Prop := s_pend s = None /\ opening_state (s_sr s) = false.
(** A TCP socket with a connection, possibly being torn down or already gone. *)
Definition tcp_open (s : sock) : Prop := s_pend s = None /\ (data_state (s_sr s) = true \/ s_sr s = 0).
Definition udp_open (s : sock) : Prop := s_pend s = None /\ s_sr s = 0x22.
