(** The meaning of code generic over [Read + Seek] or [Write + Seek] on a window of bytes. *)
From Verif Require Import Model.Prelude Model.Bus Model.Chip Model.HlIo Model.Stream Spec.Cursor.

Definition aask (w : list Z) (pos : Z) (q : ask) : Z :=
  match q with APos => pos | ARemain => zlen w - pos | ALen => zlen w end.

(** Run on the window [w] from position [pos]: the outcome, the window and the position afterwards. *)
Fixpoint arun {A} (p : sprog A) (w : list Z) (pos : Z) : outcome A * list Z * Z :=
  match p with
  | SRet a => (Done a, w, pos)
  | SCall o k => let '(x, w', pos') := astep w pos o in arun (k x) w' pos'
  | SAsk q k => arun (k (aask w pos q)) w pos
  | SPanic => (Panicked, w, pos)
  | SDiverge => (Diverged, w, pos)
  end.

(** [p] only makes calls that satisfy [ok], along its run on [w] from [pos]. *)
Fixpoint calls_ok {A} (ok : cop -> Prop) (p : sprog A) (w : list Z) (pos : Z) : Prop :=
  match p with
  | SCall o k => ok o /\ (let '(x, w', pos') := astep w pos o in calls_ok ok (k x) w' pos')
  | SAsk q k => calls_ok ok (k (aask w pos q)) w pos
  | _ => True
  end.

(** Reading and writing calls with arguments in the range of their Rust types. *)
Definition rd_ok (o : cop) : Prop := cop_ok o /\ reader_op o = true.
Definition wr_ok (o : cop) : Prop := cop_ok o /\ writer_op o = true.
