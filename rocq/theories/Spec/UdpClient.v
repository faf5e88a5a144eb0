(** Client programs over the [Udp] trait of an open UDP socket, and their abstract meaning: a queue of
    received datagrams, a sequence of sent ones, and a current destination. *)
From Verif Require Import Model.Prelude Model.Bus Model.Chip Model.Specifiers Model.HlIo Model.HlTcp
  Model.HlUdp Spec.Sock Spec.Cursor.

Definition addr : Type := (list Z * Z)%type.
Definition addr_ok (a : addr) : Prop := zlen (fst a) = 4 /\ bytes_ok (fst a) /\ is_u16 (snd a).

(** How a writer session ends: dropped, [send], or [send_to]. *)
Inductive wend : Type := WDrop | WSend | WSendTo (a : addr).

Inductive uop : Type :=
| URecv (n : Z)
| UPeek (n : Z)
| UPeekHeader
| USend (buf : list Z)
| USendTo (buf : list Z) (a : addr)
| USendIfFree (buf : list Z)
| USendToIfFree (buf : list Z) (a : addr)
| UReader (ops : list cop) (fin : bool)
| UWriter (ops : list cop) (fin : wend).

Inductive ures : Type :=
| YErr (e : err)
| YRecv (d : list Z) (origin : addr)
| YPeek (d : list Z) (h : UdpHeader)
| YHeader (h : UdpHeader)
| YCount (k : Z)
| YReader (h : UdpHeader) (xs : list cres)
| YWriter (xs : list cres).

Definition ureport {A} (f : A -> ures) (p : M A) : prog ures :=
  r <-- p ;; Ret (match r with Ok a => f a | Err e => YErr e end).

Definition uop_run (dbg : bool) (sn : Sn) (o : uop) : prog ures :=
  match o with
  | URecv n => ureport (fun x => YRecv (fst x) (snd x)) (udp_recv_from dbg sn n)
  | UPeek n => ureport (fun x => YPeek (fst x) (snd x)) (udp_peek_from dbg sn n)
  | UPeekHeader => ureport YHeader (udp_peek_from_header dbg sn)
  | USend buf => ureport YCount (udp_send dbg sn buf)
  | USendTo buf a => ureport YCount (udp_send_to dbg sn buf a)
  | USendIfFree buf => ureport YCount (udp_send_if_free dbg sn buf)
  | USendToIfFree buf a => ureport YCount (udp_send_to_if_free dbg sn buf a)
  | UReader ops fin => ureport (fun y => YReader (fst y) (snd y)) (
      r <- udp_reader dbg sn ;;
      x <-- cops_run (ur_inner r) ops ;;
      (if fin then udp_reader_done (snd x) else ret tt) ;;;
      ret (ur_header r, fst x))
  | UWriter ops fin => ureport YWriter (
      c <- tx_writer sn ;;
      x <-- cops_run c ops ;;
      (match fin with WDrop => ret tt | WSend => cur_send (snd x) | WSendTo a => udp_writer_send_to dbg (snd x) a end) ;;;
      ret (fst x))
  end.
Fixpoint uops_run (dbg : bool) (sn : Sn) (ops : list uop) : prog (list ures) :=
  match ops with
  | [] => Ret []
  | o :: r => x <-- uop_run dbg sn o ;; xs <-- uops_run dbg sn r ;; Ret (x :: xs)
  end.

Definition uop_ok (o : uop) : Prop :=
  match o with
  | URecv n | UPeek n => 0 <= n
  | UPeekHeader => True
  | USend buf | USendIfFree buf => True
  | USendTo buf a | USendToIfFree buf a => addr_ok a
  | UReader ops _ => Forall cop_ok ops /\ forallb reader_op ops = true
  | UWriter ops fin => Forall cop_ok ops /\ forallb writer_op ops = true /\
      match fin with WSendTo a => addr_ok a | _ => True end
  end.

Definition header_of (d : dgram) : UdpHeader :=
  {| uh_origin := (d_ip d, d_port d); uh_len := zlen (d_data d) |}.
Definition frame_to (a : addr) (data : list Z) : frame :=
  {| f_ip := fst a; f_port := snd a; f_data := data |}.
(** A plain send of [k] bytes: one datagram, none for zero bytes. *)
Definition sent_frames (a : addr) (buf : list Z) (k : Z) : list frame :=
  if k =? 0 then [] else [frame_to a (ztake k buf)].

(** What one call may do.  [q]: the unread datagrams followed by those still to arrive, [q'] the same
    afterwards; [a], [a']: the destination before and after; [out]: the datagrams sent. *)
Inductive uop_spec : list dgram -> addr -> uop -> ures -> list dgram -> addr -> list frame -> Prop :=
| UsBlock q a o : match o with URecv _ | UPeek _ | UPeekHeader | UReader _ _ => True | _ => False end ->
    uop_spec q a o (YErr WouldBlock) q a []
| UsRecv d q a n : uop_spec (d :: q) a (URecv n) (YRecv (ztake n (d_data d)) (d_ip d, d_port d)) q a []
| UsPeek d q a n : uop_spec (d :: q) a (UPeek n) (YPeek (ztake n (d_data d)) (header_of d)) (d :: q) a []
| UsPeekHeader d q a : uop_spec (d :: q) a UPeekHeader (YHeader (header_of d)) (d :: q) a []
| UsSend q a buf k : 0 <= k <= zlen buf ->
    uop_spec q a (USend buf) (YCount k) q a (sent_frames a buf k)
| UsSendTo q a buf a' k : 0 <= k <= zlen buf ->
    uop_spec q a (USendTo buf a') (YCount k) q a' (sent_frames a' buf k)
| UsIfFree q a buf k out : (k = zlen buf /\ (out = [] \/ out = [frame_to a buf])) \/ (k = 0 /\ 65535 < zlen buf /\ out = []) ->
    uop_spec q a (USendIfFree buf) (YCount k) q a out
| UsToIfFree q a buf a' k out : (k = zlen buf /\ (out = [] \/ out = [frame_to a' buf])) \/ (k = 0 /\ 65535 < zlen buf /\ out = []) ->
    uop_spec q a (USendToIfFree buf a') (YCount k) q a' out
| UsReader d q a ops fin xs pos : asteps (d_data d) 0 ops = (xs, d_data d, pos) ->
    uop_spec (d :: q) a (UReader ops fin) (YReader (header_of d) xs) (if fin then q else d :: q) a []
| UsWriter q a ops fin w0 xs w pos : asteps w0 0 ops = (xs, w, pos) ->
    uop_spec q a (UWriter ops fin) (YWriter xs) q
      (match fin with WSendTo a' => a' | _ => a end)
      (match fin with
       | WDrop => []
       | WSend => [frame_to a (ztake pos w)]
       | WSendTo a' => [frame_to a' (ztake pos w)]
       end).

Inductive uops_spec : list dgram -> addr -> list uop -> list ures -> list dgram -> addr -> list frame -> Prop :=
| UsNil q a : uops_spec q a [] [] q a []
| UsCons q a o x q1 a1 out ops xs q2 a2 outs :
    uop_spec q a o x q1 a1 out -> uops_spec q1 a1 ops xs q2 a2 outs ->
    uops_spec q a (o :: ops) (x :: xs) q2 a2 (out ++ outs).

(** An open UDP socket with unread datagrams [q], sent datagrams [fs] and destination [a]. *)
Definition udp_view (s : sock) (q : list dgram) (fs : list frame) (a : addr) : Prop :=
  udp_open s /\ rx_ready s /\ tx_ready s /\ rx_queue s q /\ tx_frames s = fs /\
  (dest_ip s, dest_port s) = a.

(** [received sizes xs ds]: the calls that returned data returned the datagrams [ds], in order, each
    cut to the size of that call's buffer; the other calls reported WouldBlock. *)
Inductive received : list Z -> list ures -> list dgram -> Prop :=
| RcNil : received [] [] []
| RcBlock n sizes xs ds : received sizes xs ds -> received (n :: sizes) (YErr WouldBlock :: xs) ds
| RcData n sizes xs d ds : received sizes xs ds ->
    received (n :: sizes) (YRecv (ztake n (d_data d)) (d_ip d, d_port d) :: xs) (d :: ds).
