(** What a packet at the head of the queue, or a time that has passed, obliges a DHCP client to do. *)
From Verif Require Import Model.Prelude Model.Bus Model.Chip Model.Specifiers Model.DhcpPkt Model.DhcpClient Spec.Sock Spec.UdpClient Spec.DhcpMsg
  Spec.DhcpRfc Spec.DhcpCases.

(** The offered address has been requested, under the new transaction [xid]; [q] is waiting. *)
Definition requested (k : config) (now : Z) (w : world) (q : list dgram) (ip : list Z) (server : option (list Z)) (xid : Z) : world :=
  mkWorld Requesting (Some now) ip server xid (w_times w) (w_names w) (w_net w) q (w_sent w ++ [request_to k xid ip server]).

(** An ACK with everything the client needs. *)
Record complete_ack (m : list Z) (now : Z) (t : times) (subnet server : list Z) (dns ntp : option (list Z)) : Prop := mkComplete {
  ca_type : has_type m (Some Ack);
  ca_times : ack_times m now t;
  ca_subnet : answers m GSubnet (Ok (AIp (Some subnet)));
  ca_server : answers m GServer (Ok (AIp (Some server)));
  ca_dns : answers m GDns (Ok (AIp dns));
  ca_ntp : answers m GNtp (Ok (AIp ntp)) }.
(** The lease is the client's: its times, servers, gateway and subnet mask are taken from the ACK, and the
    chip has the address that was asked for. *)
Definition lease_taken (w : world) (q : list dgram) (t : times) (subnet server : list Z) (dns ntp : option (list Z)) : world :=
  mkWorld Bound None (w_ip w) (w_server w) (w_xid w) t (or_old dns (fst (w_names w)), or_old ntp (snd (w_names w)))
    (mkNet server subnet (match w_state w with Requesting => w_ip w | _ => n_sipr (w_net w) end)) q (w_sent w).

(** The address has been given up, and a DISCOVER sent through the reopened socket. *)
Definition discovering (k : config) (now : Z) (w : world) (q : list dgram) (sent : list frame) (xid : Z) : world :=
  mkWorld Selecting (Some now) unspecified (w_server w) xid (w_times w) (w_names w)
    (mkNet (n_gar (w_net w)) (n_subr (w_net w)) unspecified) q (sent ++ [discover_to k xid]).
(** The lease has been asked to be extended. *)
Definition extending (k : config) (s : State) (w : world) (q : list dgram) (xid : Z) : world :=
  mkWorld s None (w_ip w) (w_server w) xid (w_times w) (w_names w) (w_net w) q (w_sent w ++ [request_to k xid (w_ip w) (w_server w)]).
(** Nothing has changed but the queue. *)
Definition waiting (w : world) (q : list dgram) : world :=
  mkWorld (w_state w) (w_since w) (w_ip w) (w_server w) (w_xid w) (w_times w) (w_names w) (w_net w) q (w_sent w).

(** The call went on from [w1] to where the client and the chip are now. *)
Definition went_on (k : config) (now : Z) (w1 : world) (cl : Client) (c : chip) : Prop :=
  exists l q fs, steps k now w1 l (world_of cl c q fs) /\ socket_ok cl c q fs.
(** The client and the chip are at [w1]. *)
Definition is_at (w1 : world) (cl : Client) (c : chip) : Prop :=
  exists q fs, world_of cl c q fs = w1 /\ socket_ok cl c q fs.

(** The chip reports a link: bit 0 of the PHY configuration register. *)
Definition link_up (c : chip) : Prop := c_common c 0x2E mod 2 = 1.

(** What is due for a Bound client, [e] seconds after the start of its lease. *)
Inductive due_bound (k : config) (now : Z) (w : world) (q : list dgram) : world -> Prop :=
| DbEnd xid q' sent : t_lease (w_times w) < elapsed now w -> due_bound k now w q (discovering k now w q' sent xid)
| DbT2 xid : elapsed now w <= t_lease (w_times w) -> t_2 (w_times w) < elapsed now w ->
    due_bound k now w q (extending k Rebinding w q xid)
| DbT1 xid : elapsed now w <= t_lease (w_times w) -> elapsed now w <= t_2 (w_times w) -> t_1 (w_times w) < elapsed now w ->
    due_bound k now w q (extending k Renewing w q xid)
| DbNone : elapsed now w <= t_lease (w_times w) -> elapsed now w <= t_2 (w_times w) -> elapsed now w <= t_1 (w_times w) ->
    due_bound k now w q (waiting w q).

(** Nothing is due. *)
Definition nothing_due (k : config) (now : Z) (w : world) : Prop :=
  match w_since w with
  | Some t => now - t <= k_timeout k
  | None => w_state w <> Init /\ (leased (w_state w) -> elapsed now w <= t_lease (w_times w)) /\
      (w_state w = Bound \/ w_state w = Renewing -> elapsed now w <= t_2 (w_times w)) /\
      (w_state w = Bound -> elapsed now w <= t_1 (w_times w))
  end.
(** An ACK that lacks something the client needs. *)
Definition incomplete_ack (m : list Z) : Prop :=
  has_type m (Some Ack) /\
  (answers m GLease (Ok (ATime None)) \/ answers m GSubnet (Ok (AIp None)) \/ answers m GServer (Ok (AIp None))).

(** An OFFER and a NAK for the examples. *)
Definition case_offer : dgram := case_from (case_pkt 2 0x12345678 [Opt 53 [2]; Opt 54 [10; 0; 0; 1]; Opt 1 [255; 255; 255; 0]; Opt 51 [0; 0; 14; 16]]).
Definition case_nak : dgram := case_from (case_pkt 2 0x12345678 [Opt 53 [6]]).
