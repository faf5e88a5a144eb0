(** Client programs over the [Tcp] trait of an open connection, and their abstract meaning: one
    byte stream in, one byte stream out. *)
From Verif Require Import Model.Prelude Model.Bus Model.Chip Model.Specifiers Model.HlIo Model.HlTcp
  Spec.Sock Spec.Cursor.

(** [fin]: whether the session ends with [done] / [send] or the handle is dropped. *)
Inductive top : Type :=
| TRead (n : Z)
| TWrite (buf : list Z)
| TReader (ops : list cop) (fin : bool)
| TWriter (ops : list cop) (fin : bool)
| TDisconnect.

Inductive tres : Type :=
| XErr (e : err)
| XRead (d : list Z)
| XWrite (k : Z)
| XSession (xs : list cres)
| XUnit.

(** A call that ends in an error reports it and the session goes on. *)
Definition report {A} (f : A -> tres) (p : M A) : prog tres :=
  r <-- p ;; Ret (match r with Ok a => f a | Err e => XErr e end).

Definition top_run (dbg : bool) (sn : Sn) (o : top) : prog tres :=
  match o with
  | TRead n => report XRead (tcp_read dbg sn n)
  | TWrite buf => report XWrite (tcp_write dbg sn buf)
  | TReader ops fin => report XSession (
      c <- tcp_reader dbg sn ;;
      x <-- cops_run c ops ;;
      (if fin then tcp_reader_done (snd x) else ret tt) ;;;
      ret (fst x))
  | TWriter ops fin => report XSession (
      c <- tx_writer sn ;;
      x <-- cops_run c ops ;;
      (if fin then cur_send (snd x) else ret tt) ;;;
      ret (fst x))
  | TDisconnect => report (fun _ => XUnit) (tcp_disconnect dbg sn)
  end.
Fixpoint tops_run (dbg : bool) (sn : Sn) (ops : list top) : prog (list tres) :=
  match ops with
  | [] => Ret []
  | o :: r => x <-- top_run dbg sn o ;; xs <-- tops_run dbg sn r ;; Ret (x :: xs)
  end.

Definition top_ok (o : top) : Prop :=
  match o with
  | TRead n => 0 <= n
  | TWrite buf => True
  | TReader ops _ => Forall cop_ok ops /\ forallb reader_op ops = true
  | TWriter ops _ => Forall cop_ok ops /\ forallb writer_op ops = true
  | TDisconnect => True
  end.

(** What one call may do.  [future]: the bytes received and not consumed, then those still to come;
    [cons]: what the call consumes; [prod]: what it commits for transmission. *)
Inductive top_spec (future : list Z) : top -> tres -> list Z -> list Z -> Prop :=
| TsRead n d rest : future = d ++ rest -> zlen d <= n ->
    top_spec future (TRead n) (XRead d) d []
| TsWrite buf k : 0 <= k <= zlen buf ->
    top_spec future (TWrite buf) (XWrite k) [] (ztake k buf)
| TsNoData ops fin :
    top_spec future (TReader ops fin) (XErr WouldBlock) [] []
| TsReader ops fin w rest xs pos : future = w ++ rest -> w <> [] -> asteps w 0 ops = (xs, w, pos) ->
    top_spec future (TReader ops fin) (XSession xs) (if fin then ztake pos w else []) []
| TsWriter ops fin w0 xs w pos : asteps w0 0 ops = (xs, w, pos) ->
    top_spec future (TWriter ops fin) (XSession xs) [] (if fin then ztake pos w else [])
| TsDisconnect : top_spec future TDisconnect XUnit [] [].

Inductive tops_spec : list Z -> list top -> list tres -> list Z -> list Z -> Prop :=
| TsNil future : tops_spec future [] [] [] []
| TsCons future o x cons prod future' ops xs conss prods :
    top_spec future o x cons prod -> future = cons ++ future' ->
    tops_spec future' ops xs conss prods ->
    tops_spec future (o :: ops) (x :: xs) (cons ++ conss) (prod ++ prods).

(** An open connection over which the host has consumed [rd] and committed [tx]. *)
Definition tcp_view (s : sock) (rd tx : list Z) : Prop :=
  tcp_open s /\ rx_ready s /\ tx_ready s /\ s_rxlog s = rd ++ unread s /\ tx_stream s = tx.
