(** The receive buffer of the TLS client and its readers: tls/src/io.rs 17-113 and 260-728.

    [buf] is the memory; the const parameter [N] is its length.  Slices of it are copied, which is
    unobservable because nothing writes to the buffer while a reader borrows it. *)
From Verif Require Import Model.Prelude Model.Bus Model.HlIo Model.Stream Model.TlsTypes.
Local Open Scope tres_scope.

(** 20-24 *)
Record CircleReader : Type := mkCR { cr_a : list Z; cr_b : list Z; cr_ptr : Z }.
(** 27-29 *)
Definition cr_new (a b : list Z) : CircleReader := mkCR a b 0.
Definition cr_seek (r : CircleReader) (p : Z) : CircleReader := mkCR (cr_a r) (cr_b r) p.
(** 31-33 *)
Definition cr_len (r : CircleReader) : Z := u16 (zlen (cr_a r) + zlen (cr_b r)).
(** 35-41 *)
Definition cr_slices (r : CircleReader) : tres (list Z * list Z) :=
  if zlen (cr_a r) <=? cr_ptr r then
    let b_ptr := cr_ptr r - zlen (cr_a r) in
    if zlen (cr_b r) <? b_ptr then TPanic else TOk (zdrop b_ptr (cr_b r), [])
  else TOk (zdrop (cr_ptr r) (cr_a r), cr_b r).
(** 43-53 *)
Definition cr_slices_of_n (r : CircleReader) (n : Z) : tres (option (list Z * list Z)) :=
  '(a, b) <- cr_slices r ;;
  if zlen a + zlen b <? n then TOk None
  else if n <=? zlen a then TOk (Some (ztake n a, []))
  else let b_n := n - zlen a in TOk (Some (a, ztake b_n b)).
(** [self.ptr += n]: u16 *)
Definition cr_advance (r : CircleReader) (n : Z) : tres CircleReader :=
  if cr_ptr r + n <? 65536 then TOk (cr_seek r (cr_ptr r + n)) else TPanic.
(** 55-66: [n] is [buf.len()] *)
Definition cr_read_exact (r : CircleReader) (n : Z) : tres (list Z * CircleReader) :=
  s <- cr_slices_of_n r n ;;
  match s with
  | None => TErr DecodeError
  | Some (a, b) => r' <- cr_advance r (u16 n) ;; TOk (a ++ b, r')
  end.
(** 68-83 *)
Definition cr_read (r : CircleReader) (n : Z) : tres (list Z * CircleReader) :=
  '(a, b) <- cr_slices r ;;
  let copy_a := Z.min (zlen a) n in
  let copy_b := Z.min (zlen b) (Z.max 0 (n - zlen a)) in
  r' <- cr_advance r (u16 (copy_a + copy_b)) ;;
  TOk (ztake copy_a a ++ ztake copy_b b, r').
(** 89-93 *)
Definition cr_next_n (r : CircleReader) (n : Z) : tres (list Z * CircleReader) := cr_read_exact r n.
(** 95-98 *)
Definition cr_next_u8 (r : CircleReader) : tres (Z * CircleReader) :=
  '(d, r) <- cr_next_n r 1 ;; TOk (at_ d 0, r).
(** 100-102 *)
Definition cr_next_u16 (r : CircleReader) : tres (Z * CircleReader) :=
  '(d, r) <- cr_next_n r 2 ;; TOk (of_be16 (at_ d 0) (at_ d 1), r).
(** 104-112 *)
Definition cr_skip_n (r : CircleReader) (n : Z) : tres CircleReader :=
  let next_ptr := cr_ptr r + n in
  if (next_ptr <? 65536) && (next_ptr <=? cr_len r) then TOk (cr_seek r next_ptr) else TErr DecodeError.

(** 489-495 *)
Record Buffer : Type := mkBuf { b_buf : list Z; b_head : Z; b_ad_tail : Z; b_hs_head : Z; b_tail : Z }.
(** 497-507 *)
Definition buffer_from (buf : list Z) : Buffer := mkBuf buf 0 0 0 0.
Definition b_N (b : Buffer) : Z := zlen (b_buf b).
(** 510-531: the macro [as_slices!].  The pointers are below [N]. *)
Definition as_slices (buf : list Z) (tail head n : Z) : list Z * list Z :=
  if tail <=? head then (ztake (n - head) (zdrop head buf), ztake tail buf)
  else (ztake (tail - head) (zdrop head buf), []).
(** 534-536 *)
Definition b_capacity (b : Buffer) : Z := b_N b - 1.
(** 538-544 *)
Definition b_len (b : Buffer) : Z :=
  if b_tail b <? b_head b then b_tail b + b_capacity b - b_head b else b_tail b - b_head b.
(** 546-552 *)
Definition b_hs_len (b : Buffer) : Z :=
  if b_tail b <? b_hs_head b then b_tail b + b_capacity b - b_hs_head b else b_tail b - b_hs_head b.
(** 554-559 *)
Definition b_reset (b : Buffer) : Buffer := mkBuf (b_buf b) 0 0 0 0.
(** 561-563 *)
Definition b_contains_handshake_fragment (b : Buffer) : bool := negb (b_tail b =? b_ad_tail b).
(** 565-568 *)
Definition b_increment_application_data_tail (dbg : bool) (b : Buffer) (n : Z) : tres Buffer :=
  if dbg && (b_capacity b <? n) then TPanic
  else TOk (mkBuf (b_buf b) (b_head b) ((b_ad_tail b + n) mod b_N b) (b_hs_head b) (b_tail b)).
(** 570-572 *)
Definition b_is_empty (b : Buffer) : bool := b_head b =? b_tail b.
(** 574-576 *)
Definition b_remain (b : Buffer) : tres Z := usub (b_capacity b) (b_len b).
(** 578-596 *)
Definition b_pop_handshake_slices_of_n (b : Buffer) (n : Z) : tres (option ((list Z * list Z) * Buffer)) :=
  if b_len b <? n then TOk None
  else
    let '(sa, sb) := as_slices (b_buf b) (b_tail b) (b_hs_head b) (b_N b) in
    let hs_head := (b_hs_head b + n) mod b_N b in
    let b' := if hs_head =? b_tail b then mkBuf (b_buf b) (b_head b) (b_ad_tail b) (b_ad_tail b) (b_ad_tail b)
              else mkBuf (b_buf b) (b_head b) (b_ad_tail b) hs_head (b_tail b) in
    if n <=? zlen sa then TOk (Some ((ztake n sa, []), b'))
    else
      let b_n := n - zlen sa in
      if zlen sb <? b_n then TPanic else TOk (Some ((sa, ztake b_n sb), b')).
(** 599-632: the two mutable slices are given by offset and length.  The assertion is the [debug_assert_ne!]. *)
Definition b_extend_from_slice (dbg : bool) (b : Buffer) (src : list Z) : tres Buffer :=
  remain <- b_remain b ;;
  if remain <? zlen src then TErr InternalError
  else
    let tail := b_tail b in
    let head := b_head b in
    let n := b_N b in
    let '(a_off, a_len, b_len) :=
      if tail =? head then (tail, n - tail, tail)
      else if head <? tail then (tail, n - tail, head)
      else (tail, head - tail, 0) in
    let k := Z.min (zlen src) a_len in
    let src_a := ztake k src in
    let src_b := zdrop k src in
    if b_len <? zlen src_b then TPanic
    else
      let buf := put (put (b_buf b) a_off src_a) 0 src_b in
      let tail' := (tail + zlen src) mod n in
      if dbg && negb (zlen src =? 0) && (head =? tail') then TPanic
      else TOk (mkBuf buf head (b_ad_tail b) (b_hs_head b) tail').
(** 635-642 *)
Definition b_pop_tail (b : Buffer) : option (Z * Buffer) :=
  if b_is_empty b then None
  else
    let tail := if b_tail b =? 0 then b_N b - 1 else b_tail b - 1 in
    Some (nth (Z.to_nat tail) (b_buf b) 0, mkBuf (b_buf b) (b_head b) (b_ad_tail b) (b_hs_head b) tail).
(** 645-660, for [LEN] = 4 *)
Definition b_read_head (b : Buffer) : option (list Z) :=
  if b_len b <? HH_LEN then None
  else Some (map (fun i => nth (Z.to_nat ((b_head b + Z.of_nat i) mod b_N b)) (b_buf b) 0) (seq 0 4)).
(** 662-702.  [hash] is the transcript so far: the bytes given to [Sha256::update]. *)
Definition b_pop_handshake_record (b : Buffer) (hash : list Z) : tres (option (HandshakeHeader * CircleReader * list Z * Buffer)) :=
  match b_read_head b with
  | None => TOk None
  | Some h =>
      if b_capacity b <? hh_length_with_header h then TErr InternalError
      else if b_hs_len b <? hh_length_with_header h then TOk None
      else
        let b := mkBuf (b_buf b) (b_head b) (b_ad_tail b) ((b_hs_head b + HH_LEN) mod b_N b) (b_tail b) in
        s <- b_pop_handshake_slices_of_n b (hh_length h) ;;
        match s with
        | None => TPanic
        | Some ((x, y), b) => TOk (Some (h, cr_new x y, hash ++ h ++ x ++ y, b))
        end
  end.
(** 705-716: used for sending the ClientHello; debug assertions that the buffer is empty *)
Definition b_as_buf (dbg : bool) (b : Buffer) : tres (list Z) :=
  if dbg && negb ((b_head b =? 0) && (b_tail b =? 0)) then TPanic else TOk (b_buf b).
(** 718-727: [None] is [WouldBlock] *)
Definition b_app_data_reader (b : Buffer) : option CircleReader :=
  if b_ad_tail b =? b_head b then None
  else let '(x, y) := as_slices (b_buf b) (b_ad_tail b) (b_head b) (b_N b) in Some (cr_new x y).

(** 313-317, 395-398: [TlsReader::done] *)
Definition b_reader_done (b : Buffer) (r : CircleReader) : Buffer :=
  mkBuf (b_buf b) ((b_head b + cr_ptr r) mod b_N b) (b_ad_tail b) (b_hs_head b) (b_tail b).
(** 319-384: [Seek] for [TlsReader]; [None] is [UnexpectedEof] *)
Definition tr_seek (r : CircleReader) (pos : SeekFrom) : option CircleReader :=
  match pos with
  | SStart n => if cr_len r <? n then None else Some (cr_seek r n)
  | SEnd n => if 0 <? n then None else if cr_len r <? Z.abs n then None else Some (cr_seek r (cr_len r - Z.abs n))
  | SCurrent n =>
      let max_val := Z.min (Z.max 0 (cr_len r - cr_ptr r)) I16_MAX in
      let min_val := 0 - Z.min (cr_ptr r) I16_MAX in
      if (n <? min_val) || (max_val <? n) then None else Some (cr_seek r (wadd (cr_ptr r) n))
  end.
(** One call of the [Seek] and [Read] traits on a [TlsReader]: 319-393 *)
Definition tr_op (r : CircleReader) (o : cop) : tres (cres * CircleReader) :=
  match o with
  | OSeek p => match tr_seek r p with Some r' => TOk (RUnit, r') | None => TOk (RErr UnexpectedEof, r) end
  | ORewind => TOk (RUnit, cr_seek r 0)
  | ORead n => '(d, r') <- cr_read r n ;; TOk (RData d, r')
  | OReadExact n =>
      match cr_read_exact r n with
      | TOk (d, r') => TOk (RData d, r')
      | TErr _ => TOk (RErr UnexpectedEof, r)
      | TPanic => TPanic
      | TDiverge => TDiverge
      end
  | OWrite _ | OWriteAll _ => TPanic (* no such methods *)
  end.
