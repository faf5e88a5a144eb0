(** The TLS receive buffer seen from outside: a queue of readable application data followed by bytes that
    have not been made readable. *)
From Verif Require Import Model.Prelude Model.Bus Model.HlIo Model.TlsTypes Model.TlsBuf Spec.Cursor.

(** ** The queue *)
Definition queue : Type := list Z * list Z.
Definition q_size (q : queue) : Z := zlen (fst q) + zlen (snd q).

(** What is done with the buffer: append received bytes, take back the last byte (the content type of a
    decrypted record), make the first [n] pending bytes readable, read through a reader - which is then
    [done] or dropped - and start over. *)
Inductive buf_op : Type :=
| BAppend (src : list Z)
| BPop
| BPublish (n : Z)
| BRead (ops : list cop) (done : bool)
| BReset.
Inductive buf_out : Type :=
| OAppended (ok : bool)
| OPopped (x : option Z)
| ORead_ (rs : option (list cres))
| ONone.

(** The operations on a queue that holds at most [cap] bytes.  [None]: not meaningful (nothing pending to pop
    or publish). *)
Definition q_step (cap : Z) (q : queue) (o : buf_op) : option (buf_out * queue) :=
  let (ad, rest) := q in
  match o with
  | BAppend src => if q_size q + zlen src <=? cap then Some (OAppended true, (ad, rest ++ src)) else Some (OAppended false, q)
  | BPop => match rest with [] => None | _ => Some (OPopped (Some (last rest 0)), (ad, removelast rest)) end
  | BPublish n => if (0 <=? n) && (n <=? zlen rest) then Some (ONone, (ad ++ ztake n rest, zdrop n rest)) else None
  | BRead ops done =>
      match ad with
      | [] => Some (ORead_ None, q)
      | _ => let '(rs, _, pos) := asteps ad 0 ops in Some (ORead_ (Some rs), (if done then zdrop pos ad else ad, rest))
      end
  | BReset => Some (ONone, ([], []))
  end.
Fixpoint q_run (cap : Z) (q : queue) (ops : list buf_op) : option (list buf_out * queue) :=
  match ops with
  | [] => Some ([], q)
  | o :: r =>
      match q_step cap q o with
      | None => None
      | Some (x, q1) => match q_run cap q1 r with None => None | Some (xs, q2) => Some (x :: xs, q2) end
      end
  end.

(** ** The same operations on the buffer of the code *)
Fixpoint tr_ops (r : CircleReader) (ops : list cop) : tres (list cres * CircleReader) :=
  match ops with
  | [] => TOk ([], r)
  | o :: rest =>
      match tr_op r o with
      | TOk (x, r1) => match tr_ops r1 rest with TOk (xs, r2) => TOk (x :: xs, r2) | TErr e => TErr e | TPanic => TPanic | TDiverge => TDiverge end
      | TErr e => TErr e
      | TPanic => TPanic
      | TDiverge => TDiverge
      end
  end.
Definition buf_step (dbg : bool) (b : Buffer) (o : buf_op) : tres (buf_out * Buffer) :=
  match o with
  | BAppend src =>
      match b_extend_from_slice dbg b src with
      | TOk b1 => TOk (OAppended true, b1)
      | TErr _ => TOk (OAppended false, b)
      | TPanic => TPanic
      | TDiverge => TDiverge
      end
  | BPop => match b_pop_tail b with Some (x, b1) => TOk (OPopped (Some x), b1) | None => TOk (OPopped None, b) end
  | BPublish n => tbind (b_increment_application_data_tail dbg b n) (fun b1 => TOk (ONone, b1))
  | BRead ops done =>
      match b_app_data_reader b with
      | None => TOk (ORead_ None, b)
      | Some r => tbind (tr_ops r ops) (fun p => TOk (ORead_ (Some (fst p)), if done then b_reader_done b (snd p) else b))
      end
  | BReset => TOk (ONone, b_reset b)
  end.
Fixpoint buf_run (dbg : bool) (b : Buffer) (ops : list buf_op) : tres (list buf_out * Buffer) :=
  match ops with
  | [] => TOk ([], b)
  | o :: r => tbind (buf_step dbg b o) (fun p => tbind (buf_run dbg (snd p) r) (fun q => TOk (fst p :: fst q, snd q)))
  end.

(** Ranges of the arguments. *)
Definition buf_op_ok (o : buf_op) : Prop :=
  match o with BRead ops _ => Forall cop_ok ops /\ forallb reader_op ops = true | _ => True end.
(** No append brings the number of bytes to exactly one more than the capacity. *)
Fixpoint never_one_over (cap : Z) (q : queue) (ops : list buf_op) : Prop :=
  match ops with
  | [] => True
  | o :: r =>
      match o with BAppend src => q_size q + zlen src <> cap + 1 | _ => True end /\
      match q_step cap q o with None => True | Some (_, q1) => never_one_over cap q1 r end
  end.

(** ** Handshake messages *)
Definition hs_message (ty : Z) (body : list Z) : list Z := ty :: zdrop 1 (be32 (zlen body)) ++ body.
(** Nothing in the buffer; all pointers are equal. *)
Definition idle_at (p : Z) (b : Buffer) : Prop :=
  b_head b = p /\ b_ad_tail b = p /\ b_hs_head b = p /\ b_tail b = p /\ 0 <= p < b_N b.
(** The chunks in which a message arrives, each followed by an attempt to take a message out. *)
Fixpoint feed (dbg : bool) (b : Buffer) (hash : list Z) (chunks : list (list Z)) : tres (list (option (HandshakeHeader * list Z)) * list Z * Buffer) :=
  match chunks with
  | [] => TOk ([], hash, b)
  | c :: r =>
      tbind (b_extend_from_slice dbg b c) (fun b =>
      tbind (b_pop_handshake_record b hash) (fun x =>
      match x with
      | None => tbind (feed dbg b hash r) (fun y => let '(xs, hash, b) := y in TOk (None :: xs, hash, b))
      | Some (h, rd, hash, b) => tbind (feed dbg b hash r) (fun y => let '(xs, hash, b) := y in TOk (Some (h, cr_a rd ++ cr_b rd) :: xs, hash, b))
      end))
  end.
(** A message and the chunks in which it arrives; it is complete with the last chunk and not before. *)
Record arriving : Type := mkArr { ar_type : Z; ar_body : list Z; ar_chunks : list (list Z) }.
Definition arriving_ok (room : Z) (m : arriving) : Prop :=
  is_u8 (ar_type m) /\ bytes_ok (ar_body m) /\ zlen (ar_body m) < 16777216 /\ 4 + zlen (ar_body m) <= room /\
  concat (ar_chunks m) = hs_message (ar_type m) (ar_body m) /\ last (ar_chunks m) [] <> [].
(** What [feed] is to return for it. *)
Definition delivered (m : arriving) : list (option (HandshakeHeader * list Z)) :=
  repeat None (length (ar_chunks m) - 1) ++ [Some (ztake 4 (hs_message (ar_type m) (ar_body m)), ar_body m)].
