(** What a client's call that sets its socket up has to leave behind. *)
From Verif Require Import Model.Prelude Model.Bus Model.Chip Spec.Hoare.

(** Interrupts of a socket: CON 0, DISCON 1, RECV 2, TIMEOUT 3, SENDOK 4.  The mask register of socket [n]
    (Sn_IMR) lets exactly those in [on] through. *)
Definition enables (s : sock) (on : list Z) : Prop :=
  forall k, 0 <= k <= 4 -> (Z.testbit (s_reg s 0x2C) k = true <-> In k on).
(** The socket interrupt mask register (SIMR) lets socket [n] through, and what it let through before. *)
Definition unmasks (c c' : chip) (n : Z) : Prop :=
  forall k, Z.testbit (c_common c' 0x18) k = true <-> k = n \/ Z.testbit (c_common c 0x18) k = true.
(** Socket [n] is set up: its interrupts reach the interrupt pin, and the common registers outside [except]
    and all other sockets are as if the call had not been made. *)
Definition set_up (c c' : chip) (n : Z) (on except : list Z) : Prop :=
  enables (c_sock c' n) on /\ unmasks c c' n /\
  (forall a, a <> 0x18 -> ~ In a except -> c_common c' a = c_common c a) /\
  forall m, m <> n -> only_events (c_sock c m) (c_sock c' m).
(** The registers of the chip's own address (SIPR). *)
Definition SIPR : list Z := [0x0F; 0x10; 0x11; 0x12].
