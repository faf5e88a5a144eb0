(** What a DHCP client does to its own state on a bus that may fail or lie. *)
From Verif Require Import Model.Prelude Model.Bus Model.Chip Model.Specifiers Model.DhcpClient Spec.Hoare Spec.DhcpRfc Spec.DhcpHist.

Definition lease_of (c : Client) : times := mkTimes (cl_t1 c) (cl_t2 c) (cl_lease c) (cl_lease_secs c).

(** One act of a client at time [now]: what becomes of its state, the start of its timeout, its address
    and the times of its lease. *)
Inductive act (now : Z) (a b : Client) : Prop :=
| ANone : cl_state b = cl_state a -> cl_state_timeout b = cl_state_timeout a -> cl_ip b = cl_ip a ->
    lease_of b = lease_of a -> act now a b
| AForget : (** it failed to start over *)
    cl_state b = cl_state a -> cl_state_timeout b = cl_state_timeout a -> cl_ip b = unspecified ->
    lease_of b = lease_of a -> act now a b
| ARestart : cl_state b = Selecting -> cl_state_timeout b = Some now -> cl_ip b = unspecified ->
    lease_of b = lease_of a -> act now a b
| AOffer : (** an offer; it may have failed to request the address *)
    cl_state a = Selecting ->
    (cl_state b = Selecting /\ cl_state_timeout b = cl_state_timeout a) \/
    (cl_state b = Requesting /\ cl_state_timeout b = Some now) -> lease_of b = lease_of a -> act now a b
| AAck : (** an ACK; it may have failed to install the configuration *)
    asking (cl_state a) ->
    (cl_state b = cl_state a /\ cl_state_timeout b = cl_state_timeout a) \/
    (cl_state b = Bound /\ cl_state_timeout b = None) ->
    cl_ip b = cl_ip a -> t_start (lease_of b) = now -> act now a b
| AExtend : (cl_state a = Bound /\ cl_state b = Renewing) \/
    ((cl_state a = Bound \/ cl_state a = Renewing) /\ cl_state b = Rebinding) ->
    cl_state_timeout b = None -> cl_ip b = cl_ip a -> lease_of b = lease_of a -> act now a b.

(** Acts that follow each other, at any times. *)
Inductive acts : Client -> list Client -> Client -> Prop :=
| AsNil a : acts a [] a
| AsCons now a b l c : act now a b -> acts b l c -> acts a (b :: l) c.
(** The same at one time. *)
Inductive acts_at (now : Z) : Client -> list Client -> Client -> Prop :=
| AaNil a : acts_at now a [] a
| AaCons a b l c : act now a b -> acts_at now b l c -> acts_at now a (b :: l) c.

(** Calls of [process] at any times, on any bus; calls that panic or do not return are not counted. *)
Inductive bus_calls (dbg : bool) : Client -> Client -> Prop :=
| BcNil cl : bus_calls dbg cl cl
| BcCall now fuel cl r cl1 cl2 : any_bus (process dbg fuel cl now) (Done (r, cl1)) ->
    bus_calls dbg cl1 cl2 -> bus_calls dbg cl cl2.

(** The client has a timeout running exactly while it waits for an answer to DISCOVER or REQUEST without
    having a lease. *)
Definition timed (c : Client) : Prop :=
  match cl_state c with
  | Selecting | Requesting => exists t, cl_state_timeout c = Some t
  | _ => cl_state_timeout c = None
  end.
(** What does not change. *)
Definition same_config (a b : Client) : Prop :=
  cl_sn b = cl_sn a /\ config_of b = config_of a /\ cl_port b = cl_port a.
