(** Histories of a DHCP client. *)
From Verif Require Import Model.Prelude Model.Bus Model.Chip Model.Specifiers Spec.Sock Spec.Hoare Spec.UdpClient Spec.DhcpMsg
  Model.DhcpPkt Model.DhcpClient Spec.DhcpRfc.

(** [a] and [b] follow each other in a list. *)
Definition next_to {A} (a b : A) (l : list A) : Prop := exists l1 l2, l = l1 ++ a :: b :: l2.

(** The client becomes Bound, or a gateway, a subnet mask or an address is installed. *)
Definition adopts (a b : world) : Prop :=
  (w_state b = Bound /\ w_state a <> Bound) \/ n_gar (w_net b) <> n_gar (w_net a) \/ n_subr (w_net b) <> n_subr (w_net a) \/
  (n_sipr (w_net b) <> n_sipr (w_net a) /\ n_sipr (w_net b) <> unspecified).
(** The first waiting datagram is an ACK of the current transaction and is taken off the queue. *)
Definition acked (now : Z) (a b : world) (g : dgram) : Prop :=
  asking (w_state a) /\ w_queue a = g :: w_queue b /\ for_us (d_data g) (w_xid a) /\ has_type (d_data g) (Some Ack) /\
  ack_times (d_data g) now (w_times b).

(** The edges of the state graph; starting over leads through Init straight to Selecting. *)
Inductive edge : State -> State -> Prop :=
| EStay s : edge s s
| ESelect s : edge s Selecting
| ERequest : edge Selecting Requesting
| EBind : edge Requesting Bound
| ERenew : edge Bound Renewing
| ERebind1 : edge Bound Rebinding
| ERebind2 : edge Renewing Rebinding
| EExtend1 : edge Renewing Bound
| EExtend2 : edge Rebinding Bound.

(** The clock has not gone back behind a time the client remembers. *)
Definition clock_ok (now : Z) (w : world) : Prop :=
  match w_since w with Some t => t <= now | None => True end /\ t_start (w_times w) <= now.
Definition ordered (t : times) : Prop := t_1 t <= t_2 t <= t_lease t.
(** The times an ACK gives, as far as it gives them. *)
Definition ordered_options (w : list Z) : Prop := exists lease t1 t2,
  answers w GLease (Ok (ATime (Some lease))) /\ answers w GRenewal (Ok (ATime t1)) /\ answers w GRebinding (Ok (ATime t2)) /\
  match t1, t2 with
  | Some x, Some y => x <= y <= lease
  | Some x, None => x <= 7 * lease / 8
  | None, Some y => lease / 2 <= y <= lease
  | None, None => True
  end /\ (t2 = None -> 7 * lease < 4294967296).

(** The next time at which the client has something to do. *)
Definition deadline (k : config) (w : world) : Z :=
  match w_since w with
  | Some t => t + k_timeout k
  | None => t_start (w_times w) +
      match w_state w with Bound => t_1 (w_times w) | Renewing => t_2 (w_times w) | _ => t_lease (w_times w) end
  end.

(** The times the client has to meet in its present state. *)
Inductive due (k : config) (w : world) : Z -> Prop :=
| DueTimeout t : w_since w = Some t -> due k w (t + k_timeout k)
| DueT1 : w_since w = None -> w_state w = Bound -> due k w (t_start (w_times w) + t_1 (w_times w))
| DueT2 : w_since w = None -> w_state w = Bound \/ w_state w = Renewing -> due k w (t_start (w_times w) + t_2 (w_times w))
| DueLease : w_since w = None -> leased (w_state w) -> due k w (t_start (w_times w) + t_lease (w_times w)).

(** A history of the machine, with the time of each step. *)
Inductive history (k : config) : Z -> world -> list (Z * world) -> Z -> world -> Prop :=
| HNil now w : history k now w [] now w
| HStep now now1 w w1 l now2 w2 : now <= now1 -> step k now1 w w1 -> history k now1 w1 l now2 w2 ->
    history k now w ((now1, w1) :: l) now2 w2.

(** A history of the program: calls of [process] at times that do not decrease; between calls, events at
    the socket of the client, and anything that leaves the address registers alone. *)
Inductive calls (dbg : bool) : Z -> Client -> chip -> Z -> Client -> chip -> Prop :=
| CsNil now cl c : calls dbg now cl c now cl c
| CsWait now cl c c1 now2 cl2 c2 :
    only_events (c_sock c (sn_raw (cl_sn cl))) (c_sock c1 (sn_raw (cl_sn cl))) -> net_of c1 = net_of c ->
    calls dbg now cl c1 now2 cl2 c2 -> calls dbg now cl c now2 cl2 c2
| CsCall now now1 fuel cl c sch r cl1 sch1 c1 now2 cl2 c2 : now <= now1 -> no_faults sch ->
    run (process dbg fuel cl now1) sch c = (Done (r, cl1), sch1, c1) ->
    calls dbg now1 cl1 c1 now2 cl2 c2 -> calls dbg now cl c now2 cl2 c2.

(** The lease the client holds: a REQUEST for the address was sent, an ACK for the transaction of that
    REQUEST arrived, the address is in the chip. *)
Definition holds_lease (k : config) (w0 : world) (l : list (Z * world)) (w : world) : Prop :=
  n_sipr (w_net w) = w_ip w /\
  exists now a b g f, next_to a b (w0 :: map snd l) /\ acked now a b g /\ w_state a = Requesting /\ w_state b = Bound /\
    w_ip a = w_ip w /\ w_ip b = w_ip w /\ w_sent a = f ++ [request_to k (w_xid a) (w_ip a) (w_server a)].
