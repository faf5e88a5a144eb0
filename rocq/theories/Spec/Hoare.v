(** Statements about runs of programs against the chip. *)
From Verif Require Import Model.Prelude Model.Bus Model.Chip.

(** No transaction of the schedule fails; the events in it are arbitrary. *)
Definition no_faults (sch : list tick) : Prop := Forall (fun t => t_fault t = None) sch.

(** For every fault-free schedule of events, [p] started in [c] neither panics nor diverges, and its
    result and the final state of socket [n] satisfy [Q]. *)
Definition ensures {A} (p : prog A) (n : Z) (c : chip) (Q : A -> sock -> Prop) : Prop :=
  forall sch, no_faults sch ->
  exists a sch' c', run p sch c = (Done a, sch', c') /\ Q a (c_sock c' n).

(** The same for schedules that may contain bus faults, for results only. *)
Definition always {A} (p : prog A) (Q : A -> Prop) : Prop :=
  forall sch c, exists a sch' c', run p sch c = (Done a, sch', c') /\ Q a.

(** The same for an arbitrary bus: every read returns either an error or arbitrary bytes of the
    requested length, every write either succeeds or fails.  Out of fuel counts as termination. *)
Inductive any_bus {A} : prog A -> outcome A -> Prop :=
| AbRet a : any_bus (Ret a) (Done a)
| AbRd addr block len k r o :
    match r with Some l => zlen l = Z.max 0 len /\ bytes_ok l | None => True end ->
    any_bus (k r) o -> any_bus (Rd addr block len k) o
| AbWr addr block data k r o : any_bus (k r) o -> any_bus (Wr addr block data k) o
| AbPanic : any_bus Panic Panicked
| AbDiverge : any_bus Diverge Diverged.

(** [s'] is what events alone can make of [s]. *)
Definition only_events (s s' : sock) : Prop := exists l, s' = fold_left sock_ev l s.

(** For every fault-free schedule: if [p] started in [c] returns at all, its result and the final
    state of socket [n] satisfy [Q]. *)
Definition if_returns {A} (p : prog A) (n : Z) (c : chip) (Q : A -> sock -> Prop) : Prop :=
  forall sch a sch' c', no_faults sch -> run p sch c = (Done a, sch', c') -> Q a (c_sock c' n).

(** [p] does not panic, whatever the events. *)
Definition never_panics {A} (p : prog A) (c : chip) : Prop :=
  forall sch, no_faults sch -> fst (fst (run p sch c)) <> Panicked.
