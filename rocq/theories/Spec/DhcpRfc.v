(** The DHCP client as a state machine (RFC 2131 section 4.4, figure 5), as far as it is implemented:
    what it knows, the network configuration of the chip, the datagrams waiting in its socket and the
    datagrams it has sent. *)
From Verif Require Import Model.Prelude Model.Bus Model.Chip Model.Specifiers Model.DhcpPkt Model.DhcpClient Spec.Sock Spec.UdpClient Spec.DhcpMsg.

(** Gateway, subnet mask and address registers of the chip. *)
Record net : Type := mkNet { n_gar : list Z; n_subr : list Z; n_sipr : list Z }.
Definition net_of (c : chip) : net :=
  mkNet (map (c_common c) [1; 2; 3; 4]) (map (c_common c) [5; 6; 7; 8]) (map (c_common c) [15; 16; 17; 18]).

Record times : Type := mkTimes { t_1 : Z; t_2 : Z; t_lease : Z; t_start : Z }.
Record world : Type := mkWorld {
  w_state : State;            (** state of the client *)
  w_since : option Z;         (** start of the current timeout *)
  w_ip : list Z;              (** address offered or leased *)
  w_server : option (list Z); (** server that made the offer *)
  w_xid : Z;                  (** current transaction *)
  w_times : times;            (** T1, T2, lease duration, start of the lease *)
  w_names : option (list Z) * option (list Z);  (** DNS and NTP servers *)
  w_net : net;
  w_queue : list dgram;
  w_sent : list frame }.
(** What does not change. *)
Record config : Type := mkConfig { k_mac : list Z; k_hostname : list Z; k_broadcast : addr; k_timeout : Z }.

(** A packet of a server for transaction [xid].  As in the code, a packet is taken for a reply unless
    its operation code is 1 (BOOTREQUEST). *)
Definition for_us (w : list Z) (xid : Z) : Prop :=
  answers w GOp (Ok (AIsRequest false)) /\ answers w GXid (Ok (AXid xid)).
Definition has_type (w : list Z) (t : option MsgType) : Prop := answers w GMsgType (Ok (AType t)).
Definition derated (x : Z) : Z := x - x / 8.
Definition given (o : option Z) (x : Z) : Z := match o with Some y => y | None => x end.
(** The times of an ACK: without T1 and T2, half and seven eighths of the lease.  The product with
    seven stops at 2^32 - 1. *)
Definition ack_times (w : list Z) (now : Z) (t : times) : Prop := exists lease t1 t2,
  answers w GLease (Ok (ATime (Some lease))) /\ answers w GRenewal (Ok (ATime t1)) /\ answers w GRebinding (Ok (ATime t2)) /\
  t = mkTimes (derated (given t1 (lease / 2))) (derated (given t2 (Z.min (7 * lease) 4294967295 / 8))) (derated lease) now.
Definition or_old {A} (new old : option A) : option A := match new with Some x => Some x | None => old end.

(** An open offer or lease is being asked for, extended or taken over. *)
Definition asking (s : State) : Prop := s = Requesting \/ s = Renewing \/ s = Rebinding.
Definition leased (s : State) : Prop := s = Bound \/ s = Renewing \/ s = Rebinding.
Definition elapsed (now : Z) (w : world) : Z := (now - t_start (w_times w)) mod 4294967296.

Definition unspecified : list Z := [0; 0; 0; 0].
Definition discover_to (k : config) (xid : Z) : frame :=
  frame_to (k_broadcast k) (client_msg xid (k_mac k) (discover_opts (k_mac k) (k_hostname k))).
Definition request_to (k : config) (xid : Z) (ip : list Z) (server : option (list Z)) : frame :=
  frame_to (k_broadcast k) (client_msg xid (k_mac k) (request_opts (k_mac k) (k_hostname k) ip server)).

(** Why a client starts over. *)
Inductive restarts (k : config) (now : Z) (w : world) : Prop :=
| ReInit : w_state w = Init -> w_since w = None -> restarts k now w
| ReTimeout t : w_since w = Some t -> k_timeout k < now - t -> restarts k now w
| ReExpired : w_since w = None -> leased (w_state w) -> t_lease (w_times w) < elapsed now w -> restarts k now w
| ReNak g q : asking (w_state w) -> w_queue w = g :: q -> for_us (d_data g) (w_xid w) ->
    has_type (d_data g) (Some Nak) -> restarts k now w.

Inductive step (k : config) (now : Z) : world -> world -> Prop :=
(** Datagrams arrive. *)
| SArrive w new :
    step k now w (mkWorld (w_state w) (w_since w) (w_ip w) (w_server w) (w_xid w) (w_times w) (w_names w) (w_net w)
      (w_queue w ++ new) (w_sent w))
(** A DISCOVER is broadcast under a new transaction; the address is given up.  The socket is reopened:
    waiting datagrams, and those not transmitted yet, are lost. *)
| SDiscover w xid q sent : restarts k now w ->
    step k now w (mkWorld Selecting (Some now) unspecified (w_server w) xid (w_times w) (w_names w)
      (mkNet (n_gar (w_net w)) (n_subr (w_net w)) unspecified) q (sent ++ [discover_to k xid]))
(** An offer: the address in it is requested. *)
| SOffer w g q ip server xid : w_state w = Selecting -> w_queue w = g :: q -> for_us (d_data g) (w_xid w) ->
    answers (d_data g) GYiaddr (Ok (AAddr ip)) -> answers (d_data g) GServer (Ok (AIp server)) ->
    step k now w (mkWorld Requesting (Some now) ip server xid (w_times w) (w_names w) (w_net w) q
      (w_sent w ++ [request_to k xid ip server]))
(** ... unless there is no room for the REQUEST, *)
| SOfferFull w g q ip server xid : w_state w = Selecting -> w_queue w = g :: q -> for_us (d_data g) (w_xid w) ->
    answers (d_data g) GYiaddr (Ok (AAddr ip)) -> answers (d_data g) GServer (Ok (AIp server)) ->
    step k now w (mkWorld (w_state w) (w_since w) ip server xid (w_times w) (w_names w) (w_net w) q (w_sent w))
(** ... or the packet ends too early. *)
| SOfferCut w g q ip : w_state w = Selecting -> w_queue w = g :: q -> for_us (d_data g) (w_xid w) ->
    answers (d_data g) GYiaddr (Ok (AAddr ip)) -> answers (d_data g) GServer (Err UnexpectedEof) ->
    step k now w (mkWorld (w_state w) (w_since w) ip (w_server w) (w_xid w) (w_times w) (w_names w) (w_net w) (w_queue w) (w_sent w))
(** An acknowledgement: subnet mask and gateway are installed, and the address if it is new.  Both
    options are needed unless the client is renewing. *)
| SAck w g q t subnet server dns ntp : asking (w_state w) -> w_queue w = g :: q -> for_us (d_data g) (w_xid w) ->
    has_type (d_data g) (Some Ack) -> ack_times (d_data g) now t ->
    answers (d_data g) GSubnet (Ok (AIp subnet)) -> answers (d_data g) GServer (Ok (AIp server)) ->
    answers (d_data g) GDns (Ok (AIp dns)) -> answers (d_data g) GNtp (Ok (AIp ntp)) ->
    (w_state w <> Renewing -> subnet <> None /\ server <> None) ->
    step k now w (mkWorld Bound None (w_ip w) (w_server w) (w_xid w) t (or_old dns (fst (w_names w)), or_old ntp (snd (w_names w)))
      (mkNet (match server with Some a => a | None => n_gar (w_net w) end)
             (match subnet with Some a => a | None => n_subr (w_net w) end)
             (match w_state w with Requesting => w_ip w | _ => n_sipr (w_net w) end)) q (w_sent w))
(** An acknowledgement without them only restarts the clock of the lease; a subnet mask is installed. *)
| SAckBare w g q t subnet server : w_state w = Requesting \/ w_state w = Rebinding -> w_queue w = g :: q ->
    for_us (d_data g) (w_xid w) -> has_type (d_data g) (Some Ack) -> ack_times (d_data g) now t ->
    answers (d_data g) GSubnet (Ok (AIp subnet)) -> answers (d_data g) GServer (Ok (AIp server)) ->
    subnet = None \/ server = None ->
    step k now w (mkWorld (w_state w) (w_since w) (w_ip w) (w_server w) (w_xid w) t (w_names w)
      (mkNet (n_gar (w_net w)) (match subnet with Some a => a | None => n_subr (w_net w) end) (n_sipr (w_net w))) q (w_sent w))
(** Packets the client does not expect are dropped. *)
| SIgnore w g q : w_queue w = g :: q -> for_us (d_data g) (w_xid w) ->
    w_state w = Init \/ w_state w = Bound \/
      (asking (w_state w) /\ exists t, has_type (d_data g) t /\ t <> Some Ack /\ t <> Some Nak) ->
    step k now w (mkWorld (w_state w) (w_since w) (w_ip w) (w_server w) (w_xid w) (w_times w) (w_names w) (w_net w) q (w_sent w))
(** T1 and T2: the lease is asked to be extended. *)
| SRenew w xid : w_state w = Bound -> w_since w = None -> t_1 (w_times w) < elapsed now w <= t_lease (w_times w) ->
    elapsed now w <= t_2 (w_times w) ->
    step k now w (mkWorld Renewing None (w_ip w) (w_server w) xid (w_times w) (w_names w) (w_net w) (w_queue w)
      (w_sent w ++ [request_to k xid (w_ip w) (w_server w)]))
| SRebind w xid : w_state w = Bound \/ w_state w = Renewing -> w_since w = None ->
    t_2 (w_times w) < elapsed now w <= t_lease (w_times w) ->
    step k now w (mkWorld Rebinding None (w_ip w) (w_server w) xid (w_times w) (w_names w) (w_net w) (w_queue w)
      (w_sent w ++ [request_to k xid (w_ip w) (w_server w)]))
(** ... unless there is no room for the REQUEST. *)
| SNoRoom w xid : w_state w = Bound \/ w_state w = Renewing -> w_since w = None ->
    t_1 (w_times w) < elapsed now w \/ t_2 (w_times w) < elapsed now w ->
    step k now w (mkWorld (w_state w) (w_since w) (w_ip w) (w_server w) xid (w_times w) (w_names w) (w_net w) (w_queue w) (w_sent w)).

Inductive steps (k : config) (now : Z) : world -> list world -> world -> Prop :=
| SsNil w : steps k now w [] w
| SsCons w w1 l w2 : step k now w w1 -> steps k now w1 l w2 -> steps k now w (w1 :: l) w2.

(** What the client and the chip are in the machine. *)
Definition config_of (cl : Client) : config := mkConfig (cl_mac cl) (cl_hostname cl) (cl_broadcast cl) (cl_timeout cl).
Definition world_of (cl : Client) (c : chip) (q : list dgram) (fs : list frame) : world :=
  mkWorld (cl_state cl) (cl_state_timeout cl) (cl_ip cl) (cl_server cl) (cl_xid cl)
    (mkTimes (cl_t1 cl) (cl_t2 cl) (cl_lease cl) (cl_lease_secs cl)) (cl_dns cl, cl_ntp cl) (net_of c) q fs.
(** A client as [new] makes it, with a legal hardware address, host name and configuration. *)
Definition client_ok (cl : Client) : Prop :=
  zlen (cl_mac cl) = 6 /\ bytes_ok (cl_mac cl) /\ zlen (cl_hostname cl) <= 255 /\ bytes_ok (cl_hostname cl) /\
  addr_ok (cl_broadcast cl) /\ is_u16 (cl_port cl) /\ zlen (cl_ip cl) = 4 /\ bytes_ok (cl_ip cl) /\
  match cl_server cl with Some x => zlen x = 4 /\ bytes_ok x | None => True end.
(** The socket of the client: open for UDP, with the broadcast address as destination once something
    has been sent, and with some transmit memory. *)
Definition socket_ok (cl : Client) (c : chip) (q : list dgram) (fs : list frame) : Prop :=
  exists a, udp_view (c_sock c (sn_raw (cl_sn cl))) q fs a /\ (cl_state cl <> Init -> a = cl_broadcast cl) /\
    1024 <= tx_size (c_sock c (sn_raw (cl_sn cl))).
