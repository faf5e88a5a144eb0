(** hl/src/io.rs 55-210: the traits [Seek], [Read] and [Write], and code generic over them. *)
From Verif Require Import Model.Prelude Model.Bus Model.HlIo.

(** Calls on a reader or writer that may move it. *)
Inductive cop : Type :=
| OSeek (p : SeekFrom)
| ORewind
| ORead (n : Z)
| OReadExact (n : Z)
| OWrite (buf : list Z)
| OWriteAll (buf : list Z).

(** What the caller sees of one operation. *)
Inductive cres : Type :=
| RErr (e : err)
| RUnit
| RData (l : list Z)
| RCount (n : Z).

(** One call.  An error does not consume the reader or writer: the caller keeps the old value. *)
Definition cop_run (c : cursor) (o : cop) : prog (cres * cursor) :=
  match o with
  | OSeek p => Ret (match cur_seek c p with Ok c' => (RUnit, c') | Err e => (RErr e, c) end)
  | ORewind => Ret (RUnit, cur_rewind c)
  | ORead n => r <-- cur_read c n ;;
      Ret (match r with Ok (d, c') => (RData d, c') | Err e => (RErr e, c) end)
  | OReadExact n => r <-- cur_read_exact c n ;;
      Ret (match r with Ok (d, c') => (RData d, c') | Err e => (RErr e, c) end)
  | OWrite buf => r <-- cur_write c buf ;;
      Ret (match r with Ok (k, c') => (RCount k, c') | Err e => (RErr e, c) end)
  | OWriteAll buf => r <-- cur_write_all c buf ;;
      Ret (match r with Ok c' => (RUnit, c') | Err e => (RErr e, c) end)
  end.

(** [Seek::stream_position], [Seek::remain] and [Seek::stream_len] (hl/src/io.rs 95-135). *)
Inductive ask : Type := APos | ARemain | ALen.
Definition ask_run (c : cursor) (q : ask) : Z :=
  match q with APos => cur_pos c | ARemain => cur_remain c | ALen => cur_len c end.

(** A Rust function generic over [Reader: Read<E> + Seek] or [Writer: Write<E> + Seek] only uses its
    reader or writer through these calls: it is a tree of them.  [SPanic] is a Rust panic, [SDiverge]
    stands for running out of fuel in a loop that is unbounded in Rust. *)
Inductive sprog (A : Type) : Type :=
| SRet (a : A)
| SCall (o : cop) (k : cres -> sprog A)
| SAsk (q : ask) (k : Z -> sprog A)
| SPanic
| SDiverge.
Arguments SRet {A} a.
Arguments SCall {A} o k.
Arguments SAsk {A} q k.
Arguments SPanic {A}.
Arguments SDiverge {A}.

Fixpoint sbind {A B} (p : sprog A) (f : A -> sprog B) : sprog B :=
  match p with
  | SRet a => f a
  | SCall o k => SCall o (fun r => sbind (k r) f)
  | SAsk q k => SAsk q (fun r => sbind (k r) f)
  | SPanic => SPanic
  | SDiverge => SDiverge
  end.

(** Fallible functions with the error type [Error<E>] of w5500-hl, and [?]. *)
Definition SM (A : Type) : Type := sprog (res err A).
Definition sret {A} (a : A) : SM A := SRet (Ok a).
Definition sfail {A} (e : err) : SM A := SRet (Err e).
Definition sbindM {A B} (p : SM A) (f : A -> SM B) : SM B :=
  sbind p (fun r => match r with Ok a => f a | Err e => SRet (Err e) end).

Declare Scope sprog_scope.
Delimit Scope sprog_scope with sprog.
Notation "x <~ p ;; q" := (sbindM p (fun x => q))
  (at level 61, p at next level, right associativity) : sprog_scope.
Notation "p ~;; q" := (sbindM p (fun _ => q))
  (at level 61, right associativity) : sprog_scope.
Notation "x <~~ p ;; q" := (sbind p (fun x => q))
  (at level 61, p at next level, right associativity) : sprog_scope.
Open Scope sprog_scope.

(** The trait functions as programs.  The results that a call cannot produce are mapped to [SPanic];
    no run reaches them. *)
Definition s_seek (p : SeekFrom) : SM unit :=
  SCall (OSeek p) (fun r => match r with RUnit => sret tt | RErr e => sfail e | _ => SPanic end).
Definition s_rewind : SM unit :=
  SCall ORewind (fun r => match r with RUnit => sret tt | RErr e => sfail e | _ => SPanic end).
Definition s_read (n : Z) : SM (list Z) :=
  SCall (ORead n) (fun r => match r with RData l => sret l | RErr e => sfail e | _ => SPanic end).
Definition s_read_exact (n : Z) : SM (list Z) :=
  SCall (OReadExact n) (fun r => match r with RData l => sret l | RErr e => sfail e | _ => SPanic end).
Definition s_write (buf : list Z) : SM Z :=
  SCall (OWrite buf) (fun r => match r with RCount k => sret k | RErr e => sfail e | _ => SPanic end).
Definition s_write_all (buf : list Z) : SM unit :=
  SCall (OWriteAll buf) (fun r => match r with RUnit => sret tt | RErr e => sfail e | _ => SPanic end).
Definition s_position : SM Z := SAsk APos (fun z => sret z).
Definition s_remain : SM Z := SAsk ARemain (fun z => sret z).

(** Running generic code on one of the readers or writers of w5500-hl: the result and the moved
    reader or writer. *)
Fixpoint on_cursor {A} (c : cursor) (p : sprog A) : prog (A * cursor) :=
  match p with
  | SRet a => Ret (a, c)
  | SCall o k => x <-- cop_run c o ;; on_cursor (snd x) (k (fst x))
  | SAsk q k => on_cursor c (k (ask_run c q))
  | SPanic => Panic
  | SDiverge => Diverge
  end.
