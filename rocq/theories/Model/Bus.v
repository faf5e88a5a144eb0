(** Programs over the [Registers] trait.

    A Rust function generic over [T: Registers] only interacts with the world through
    [Registers::read] and [Registers::write] (ll/src/lib.rs 427-449).  It is modelled by
    a tree of such transactions. *)
From Verif Require Import Model.Prelude.

(** hl/src/lib.rs 134-155: [Error<E>].  The payload of [Other] (the SPI driver's error type) is
    dropped: one value stands for any bus error. *)
Inductive err : Type :=
| UnexpectedEof
| OutOfMemory
| WouldBlock
| Other.

(** A program: the continuation of a read gets [Some data] or [None] for a bus error, that of a
    write gets [true] for success.  [Panic] is a Rust panic, [Diverge] stands for running
    out of fuel in a loop that is unbounded in Rust. *)
Inductive prog (A : Type) : Type :=
| Ret (a : A)
| Rd (addr block len : Z) (k : option (list Z) -> prog A)
| Wr (addr block : Z) (data : list Z) (k : bool -> prog A)
| Panic
| Diverge.
Arguments Ret {A} a.
Arguments Rd {A} addr block len k.
Arguments Wr {A} addr block data k.
Arguments Panic {A}.
Arguments Diverge {A}.

Fixpoint bind {A B} (p : prog A) (f : A -> prog B) : prog B :=
  match p with
  | Ret a => f a
  | Rd a b n k => Rd a b n (fun r => bind (k r) f)
  | Wr a b d k => Wr a b d (fun r => bind (k r) f)
  | Panic => Panic
  | Diverge => Diverge
  end.

(** Fallible programs: [Result<A, Error<E>>] with [?] as [bindM]. *)
Definition M (A : Type) : Type := prog (res err A).
Definition ret {A} (a : A) : M A := Ret (Ok a).
Definition fail {A} (e : err) : M A := Ret (Err e).
Definition bindM {A B} (p : M A) (f : A -> M B) : M B :=
  bind p (fun r => match r with Ok a => f a | Err e => Ret (Err e) end).

Declare Scope prog_scope.
Delimit Scope prog_scope with prog.
Notation "x <- p ;; q" := (bindM p (fun x => q))
  (at level 61, p at next level, right associativity) : prog_scope.
Notation "p ;;; q" := (bindM p (fun _ => q))
  (at level 61, right associativity) : prog_scope.
Notation "x <-- p ;; q" := (bind p (fun x => q))
  (at level 61, p at next level, right associativity) : prog_scope.
Open Scope prog_scope.

(** ll/src/lib.rs 439: [Registers::read]; a bus error becomes [Err Other] under [?]. *)
Definition read (addr block len : Z) : M (list Z) :=
  Rd addr block len (fun r => match r with Some l => ret l | None => fail Other end).

(** ll/src/lib.rs 449: [Registers::write]. *)
Definition write (addr block : Z) (data : list Z) : M unit :=
  Wr addr block data (fun ok => if ok then ret tt else fail Other).

(** [debug_assert!(c)]: [dbg] is [cfg!(debug_assertions)]. *)
Definition debug_assert (dbg : bool) (c : M bool) : M unit :=
  if dbg then b <- c ;; (if b then ret tt else Panic) else ret tt.
