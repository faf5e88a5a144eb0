(** hl/src/hostname.rs.  A [&str] is the list of its UTF-8 bytes; [str::len], [as_bytes] and
    [split('.')] only depend on the bytes since '.' and '-' are ASCII. *)
From Verif Require Import Model.Prelude.

(** [u8::is_ascii_alphanumeric]. *)
Definition is_ascii_alphanumeric (b : Z) : bool :=
  ((48 <=? b) && (b <=? 57)) || ((65 <=? b) && (b <=? 90)) || ((97 <=? b) && (b <=? 122)).

(** hostname.rs 41-43 and 199-201; b'-' = 45, b'.' = 46. *)
Definition is_valid_char (b : Z) : bool :=
  is_ascii_alphanumeric b || (b =? 45) || (b =? 46).

(** hostname.rs 49-66.  [as_bytes()[start]] and [as_bytes()[end - 1]] are in bounds whenever the
    segment is not empty, which is checked first. *)
Definition is_valid_segment (h : list Z) (start end_ : nat) : bool :=
  let segment_length := (end_ - start)%nat in
  if (segment_length =? 0)%nat || (63 <? segment_length)%nat then false
  else if at_ h start =? 45 then false
  else if at_ h (end_ - 1) =? 45 then false
  else true.

(** hostname.rs 68-89: the loop; [rest] is the part of [h] from [idx] on. *)
Fixpoint hostname_loop (h rest : list Z) (idx segment_start : nat) : bool :=
  match rest with
  | [] => is_valid_segment h segment_start idx
  | byte :: rest' =>
      if negb (is_valid_char byte) then false
      else if byte =? 46 then
        if is_valid_segment h segment_start idx then hostname_loop h rest' (S idx) (S idx) else false
      else hostname_loop h rest' (S idx) segment_start
  end.

(** hostname.rs 37-90: [Some] iff [true]; the value is the string itself. *)
Definition hostname_new (h : list Z) : option (list Z) :=
  if (zlen h =? 0) || (253 <? zlen h) then None
  else if hostname_loop h h 0 0 then Some h else None.

(** [str::split('.')], the iterator collected into a list. *)
Fixpoint split_dot (l : list Z) : list (list Z) :=
  match l with
  | [] => [[]]
  | b :: r =>
      if b =? 46 then [] :: split_dot r
      else match split_dot r with
           | seg :: segs => (b :: seg) :: segs
           | [] => [[b]] (* unreachable: [split_dot] is never empty *)
           end
  end.

(** hostname.rs 206-211. *)
Definition bad_label (l : list Z) : bool :=
  (zlen l =? 0) || (63 <? zlen l) || (last l 0 =? 45) || (hd 0 l =? 45).

(** hostname.rs 195-218. *)
Definition hostname_try_from (h : list Z) : res unit (list Z) :=
  if (zlen h =? 0) || (253 <? zlen h) || existsb (fun b => negb (is_valid_char b)) h
     || existsb bad_label (split_dot h)
  then Err tt else Ok h.

(** hostname.rs 132-134. *)
Definition hostname_labels (h : list Z) : list (list Z) := split_dot h.

(** hostname.rs 148-151. *)
Definition hostname_len (h : list Z) : Z := u8 (zlen h).
