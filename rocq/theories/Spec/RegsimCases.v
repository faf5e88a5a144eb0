(** Programs and runs of the simulator for the examples and counterexamples of Props/Regsim.v. *)
From Verif Require Import Model.Prelude Model.Bus Model.Chip Model.Specifiers Model.LlAddr Model.LlBits Model.Regsim
  Spec.Regsim Model.Ll Model.HlCommon Model.HlUdp Model.HlTcp.

(** A sequence of transactions, and the bytes read. *)
Inductive trans : Type := TRd (a b n : Z) | TWr (a b : Z) (d : list Z).
Fixpoint script (l : list trans) (got : list (option (list Z))) : prog (list (option (list Z))) :=
  match l with
  | [] => Ret got
  | TRd a b n :: l => Rd a b n (fun r => script l (got ++ [r]))
  | TWr a b d :: l => Wr a b d (fun ok => script l (got ++ if ok then [] else [None]))
  end.
(** What the transactions of a fresh simulator return, and what it did to the host's sockets. *)
Definition case_sim (l : list trans) (ns : net) : option (list (option (list Z)) * list netev) :=
  match sim_run true (script l []) ns (sim_default []) with
  | (Done got, _, m) => Some (got, s_net m)
  | _ => None
  end.

(** Transactions of a driver. *)
Definition wr_cmd (sn : Sn) (cmd : Z) : trans := TWr 0x01 (sn_block sn) [cmd].
Definition open_tcp (sn : Sn) : list trans := [TWr 0x00 (sn_block sn) [1]; wr_cmd sn 0x01].
Definition open_udp (sn : Sn) : list trans := [TWr 0x00 (sn_block sn) [2]; wr_cmd sn 0x01].
Definition connect (sn : Sn) : list trans := open_tcp sn ++ [wr_cmd sn 0x04].
(** [data] written at the transmit pointer [p], and SEND. *)
Definition put_send (sn : Sn) (p : Z) (data : list Z) : list trans :=
  [TWr p (sn_tx_block sn) data; TWr 0x24 (sn_block sn) (be16 ((p + zlen data) mod 65536)); wr_cmd sn 0x20].
(** Sn_RX_RD set to [p], and RECV. *)
Definition recv_to (sn : Sn) (p : Z) : list trans := [TWr 0x28 (sn_block sn) (be16 p); wr_cmd sn 0x40].

(** [n] times: 2048 bytes sent from the pointer [p] on. *)
Fixpoint send_many (sn : Sn) (p : Z) (n : nat) : list trans :=
  match n with
  | O => []
  | S n => [TWr 0x24 (sn_block sn) (be16 (p + 2048)); wr_cmd sn 0x20] ++ send_many sn (p + 2048) n
  end.
(** [n] times: 16384 bytes received and released. *)
Fixpoint recv_many (sn : Sn) (p : Z) (n : nat) : list trans :=
  match n with
  | O => []
  | S n => [TRd 0x03 (sn_block sn) 1] ++ recv_to sn (p + 16384) ++ recv_many sn (p + 16384) n
  end.

(** A datagram sent and one received; a request sent on a connection and an answer received. *)
Definition case_udp : M (Z * (list Z * (list Z * Z))) :=
  bindM (udp_bind true 3 Sn2 53) (fun _ =>
  bindM (udp_send_to true Sn2 [1; 2; 3] ([10; 0; 0; 9], 0x1234)) (fun n =>
  bindM (udp_recv_from true Sn2 8) (fun r => Ret (Ok (n, r))))).
Definition case_tcp_talk : M (list Z * Z) :=
  bindM (tcp_connect true 3 Sn1 5000 ([10; 0; 0; 9], 80)) (fun _ =>
  bindM (tcp_write true Sn1 [71; 69; 84]) (fun n =>
  bindM (tcp_read true Sn1 10) (fun r => Ret (Ok (r, n))))).
Definition quiet (n : nat) : net := repeat AQuiet n.
(** Sn_TXBUF_SIZE set to 16 KiB, then Sn_TX_FSR read. *)
Definition fsr_prog : list trans := [TWr 0x1F (sn_block Sn4) [16]; TRd 0x20 (sn_block Sn4) 2].
(** A receive buffer of 1 KiB; what was read; the last thing done to the host. *)
Definition rx_1k (sn : Sn) : trans := TWr 0x1E (sn_block sn) [1].
Definition rx_16k (sn : Sn) : trans := TWr 0x1E (sn_block sn) [16].
Definition status (sn : Sn) : trans := TRd 0x03 (sn_block sn) 1.
Definition unread (sn : Sn) : trans := TRd 0x26 (sn_block sn) 2.
Definition reads_of {A B} (x : option (A * B)) : option A := match x with Some (a, _) => Some a | None => None end.
Definition last_of {A} (x : option (A * list netev)) : option netev :=
  match x with Some (_, l) => nth_error (rev l) 0 | None => None end.
