(** Schedules in which nothing happens on one socket. *)
From Verif Require Import Model.Prelude Model.Chip.

(** No bus fault, and no event on socket [n]; the other sockets are free. *)
Definition silent (sch : list tick) (n : Z) : Prop :=
  Forall (fun t => t_fault t = None /\ Forall (fun e => ev_sn e <> n) (t_evs t)) sch.
