(** What the status of a simulated socket says about the socket of the host. *)
From Verif Require Import Model.Prelude Model.Bus Model.Chip Model.Specifiers Model.Regsim Spec.Regsim.

(** A socket that reports to be open has a host socket of that kind; one that is only initialized has none. *)
Definition truthful (s : socket) : Prop :=
  match k_sr s with
  | Closed => True
  | Init => k_inner s = None
  | Udp => k_inner s = Some TUdp
  | Listen => k_inner s = Some TListener
  | Established => streaming s
  | _ => False
  end.

(** A command left the socket [sn] with the status [st] and raised the interrupts [ints]; [did] was done to the
    host's sockets. *)
Definition left_with (sn : Sn) (m m' : sim) (st : SocketStatus) (ints : Z) (did : list netev) : Prop :=
  k_sr (sim_socket m' sn) = st /\ k_ir (sim_socket m' sn) = Z.lor (k_ir (sim_socket m sn)) ints /\
  s_net m' = s_net m ++ did.
(** What the host answers to [bind], [connect] or [listen]. *)
Definition accepted (a : answer) : Prop := match a with AQuiet | AData _ _ _ => True | _ => False end.
