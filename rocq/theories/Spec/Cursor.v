(** Client programs over the stream readers and writers, and their abstract meaning: a window of
    bytes and a position in it. *)
From Verif Require Import Model.Prelude Model.Bus Model.HlIo.
From Verif Require Export Model.Stream.

Fixpoint cops_run (c : cursor) (ops : list cop) : prog (list cres * cursor) :=
  match ops with
  | [] => Ret ([], c)
  | o :: r =>
      x <-- cop_run c o ;;
      y <-- cops_run (snd x) r ;;
      Ret (fst x :: fst y, snd y)
  end.

(** Argument ranges of the Rust types. *)
Definition seek_ok (p : SeekFrom) : Prop :=
  match p with SStart o => is_u16 o | SEnd o => is_i16 o | SCurrent o => is_i16 o end.
Definition cop_ok (o : cop) : Prop :=
  match o with
  | OSeek p => seek_ok p
  | ORewind => True
  | ORead n => 0 <= n
  | OReadExact n => 0 <= n
  | OWrite buf => True
  | OWriteAll buf => True
  end.
Definition reader_op (o : cop) : bool :=
  match o with OWrite _ | OWriteAll _ => false | _ => true end.
Definition writer_op (o : cop) : bool :=
  match o with ORead _ | OReadExact _ => false | _ => true end.

(** std::io::Seek: where a seek in a stream of [len] bytes goes. *)
Definition target (len pos : Z) (p : SeekFrom) : Z :=
  match p with SStart o => o | SEnd o => len + o | SCurrent o => pos + o end.

(** Replace the bytes of [w] from [pos] on. *)
Definition overlay (w : list Z) (pos : Z) (d : list Z) : list Z :=
  ztake pos w ++ d ++ zdrop (pos + zlen d) w.

(** One call on a window [w] at position [pos]. *)
Definition astep (w : list Z) (pos : Z) (o : cop) : cres * list Z * Z :=
  let remain := zlen w - pos in
  match o with
  | OSeek p =>
      let t := target (zlen w) pos p in
      if (0 <=? t) && (t <=? zlen w) then (RUnit, w, t) else (RErr UnexpectedEof, w, pos)
  | ORewind => (RUnit, w, 0)
  | ORead n => let k := Z.min remain n in (RData (ztake k (zdrop pos w)), w, pos + k)
  | OReadExact n =>
      if n <=? remain then (RData (ztake n (zdrop pos w)), w, pos + n)
      else (RErr UnexpectedEof, w, pos)
  | OWrite buf =>
      let k := Z.min remain (zlen buf) in (RCount k, overlay w pos (ztake k buf), pos + k)
  | OWriteAll buf =>
      if zlen buf <=? remain then (RUnit, overlay w pos buf, pos + zlen buf)
      else (RErr OutOfMemory, w, pos)
  end.
Fixpoint asteps (w : list Z) (pos : Z) (ops : list cop) : list cres * list Z * Z :=
  match ops with
  | [] => ([], w, pos)
  | o :: r =>
      let '(x, w1, p1) := astep w pos o in
      let '(xs, w2, p2) := asteps w1 p1 r in (x :: xs, w2, p2)
  end.

(** The same with a bus that may fail, for positions and lengths only: a call that touches the bus
    may instead report the bus error and leave the position alone. *)
Definition bus_error (pos : Z) (x : cres) (pos' : Z) : Prop := x = RErr Other /\ pos' = pos.
Definition pstep (len pos : Z) (o : cop) (x : cres) (pos' : Z) : Prop :=
  match o with
  | OSeek p =>
      let t := target len pos p in
      (0 <= t <= len /\ x = RUnit /\ pos' = t) \/
      (~ 0 <= t <= len /\ x = RErr UnexpectedEof /\ pos' = pos)
  | ORewind => x = RUnit /\ pos' = 0
  | ORead n =>
      (exists l, x = RData l /\ zlen l = Z.min (len - pos) n /\ pos' = pos + zlen l) \/
      bus_error pos x pos'
  | OReadExact n =>
      (n <= len - pos /\ exists l, x = RData l /\ zlen l = n /\ pos' = pos + n) \/
      (n > len - pos /\ x = RErr UnexpectedEof /\ pos' = pos) \/
      bus_error pos x pos'
  | OWrite buf =>
      (let k := Z.min (len - pos) (zlen buf) in x = RCount k /\ pos' = pos + k) \/ bus_error pos x pos'
  | OWriteAll buf =>
      (zlen buf <= len - pos /\ x = RUnit /\ pos' = pos + zlen buf) \/
      (zlen buf > len - pos /\ x = RErr OutOfMemory /\ pos' = pos) \/
      bus_error pos x pos'
  end.
Fixpoint psteps (len pos : Z) (ops : list cop) (xs : list cres) (pos' : Z) : Prop :=
  match ops, xs with
  | [], [] => pos' = pos
  | o :: r, x :: xs => exists p1, pstep len pos o x p1 /\ 0 <= p1 <= len /\ psteps len p1 r xs pos'
  | _, _ => False
  end.

(** A cursor with 16-bit fields whose position is inside its window.  The socket buffers of the
    W5500 have at most 16384 bytes, so the bound on the length holds for every reader and writer. *)
Definition cursor_ok (c : cursor) : Prop :=
  is_u16 (cu_head c) /\ is_u16 (cu_tail c) /\ is_u16 (cu_ptr c) /\ cur_pos c <= cur_len c /\
  cur_len c < 65535.

(** What a sequence of writes without seeks got accepted. *)
Definition is_write (o : cop) : bool := match o with OWrite _ | OWriteAll _ => true | _ => false end.
Definition accepted (ox : cop * cres) : list Z :=
  match ox with
  | (OWrite buf, RCount k) => ztake k buf
  | (OWriteAll buf, RUnit) => buf
  | _ => []
  end.
