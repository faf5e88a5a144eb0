(** Runs on a bus that may fail, and what a failed call leaves behind. *)
From Verif Require Import Model.Prelude Model.Bus Model.Chip Spec.Sock Spec.UdpClient.

(** For every schedule of events and bus faults, [p] started in [c] neither panics nor diverges, and its
    result and the final state of socket [n] satisfy [Q]. *)
Definition survives {A} (p : prog A) (n : Z) (c : chip) (Q : A -> sock -> Prop) : Prop :=
  forall sch, exists a sch' c', run p sch c = (Done a, sch', c') /\ Q a (c_sock c' n).

(** The host has consumed [rd] and committed [tx], but the transmit write pointer register is not at the
    end of the committed data: the next SEND transmits whatever lies in between. *)
Definition tcp_tx_torn (s : sock) (rd tx : list Z) : Prop :=
  tcp_open s /\ rx_ready s /\ tx_wf s /\ tx_wr s <> s_tx_cmd s /\ s_rxlog s = rd ++ unread s /\ tx_stream s = tx.
(** The same for the receive read pointer register: the next read starts at the wrong byte. *)
Definition tcp_rx_torn (s : sock) (rd tx : list Z) : Prop :=
  tcp_open s /\ rx_wf s /\ rx_rd s <> s_rx_base s /\ tx_ready s /\ s_rxlog s = rd ++ unread s /\ tx_stream s = tx.

(** The same two for datagrams.  Nothing is said about the destination. *)
Definition udp_tx_torn (s : sock) (q : list dgram) (fs : list frame) : Prop :=
  udp_open s /\ rx_ready s /\ tx_wf s /\ tx_wr s <> s_tx_cmd s /\ rx_queue s q /\ tx_frames s = fs.
Definition udp_rx_torn (s : sock) (q : list dgram) (fs : list frame) : Prop :=
  udp_open s /\ rx_wf s /\ rx_rd s <> s_rx_base s /\ tx_ready s /\ rx_queue s q /\ tx_frames s = fs.
