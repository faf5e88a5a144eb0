(** DHCP messages (RFC 2131 section 2, RFC 2132) and option lookup in an arbitrary packet. *)
From Verif Require Import Model.Prelude Model.Bus Model.Chip Model.Stream Model.DhcpPkt Spec.Sock Spec.UdpClient.

(** ** Option areas (RFC 2132 section 2): pads and code-length-value triples *)
Inductive item : Type := Pad | Opt (code : Z) (val : list Z).
Definition item_ok (i : item) : Prop :=
  match i with Pad => True | Opt c v => 1 <= c <= 254 /\ zlen v <= 255 /\ bytes_ok v end.
Definition item_bytes (i : item) : list Z :=
  match i with Pad => [0] | Opt c v => c :: zlen v :: v end.
Definition area (l : list item) : list Z := concat (map item_bytes l).
(** The value of the first option with a code. *)
Fixpoint first_opt (code : Z) (l : list item) : option (list Z) :=
  match l with
  | [] => None
  | Pad :: r => first_opt code r
  | Opt c v :: r => if c =? code then Some v else first_opt code r
  end.

(** ** Messages (RFC 2131 section 2, figure 1): the fixed part has 236 bytes and is followed by the
    magic cookie 99.130.83.99. *)
Definition bootp (op htype hlen hops xid secs flags : Z) (ciaddr yiaddr siaddr giaddr chaddr sname file : list Z) : list Z :=
  [op; htype; hlen; hops] ++ be32 xid ++ be16 secs ++ be16 flags ++
  ciaddr ++ yiaddr ++ siaddr ++ giaddr ++ chaddr ++ sname ++ file.
Definition cookie : list Z := [99; 130; 83; 99].
Definition nothing (n : nat) : list Z := repeat 0 n.
(** A message of a client that has no address yet and asks for broadcast replies (the BROADCAST bit
    is the most significant bit of the flags). *)
Definition client_msg (xid : Z) (mac : list Z) (opts : list item) : list Z :=
  bootp 1 1 6 0 xid 0 0x8000 (nothing 4) (nothing 4) (nothing 4) (nothing 4) (mac ++ nothing 10) (nothing 64) (nothing 128)
  ++ cookie ++ area opts ++ [255].
(** Client identifier: hardware type and address (RFC 2132 section 9.14). *)
Definition discover_opts (mac hostname : list Z) : list item :=
  [Opt 53 [1]; Opt 61 (1 :: mac); Opt 12 hostname].
(** The parameters asked for: subnet mask, router, DNS, T1, T2, NTP. *)
Definition request_opts (mac hostname ip : list Z) (server : option (list Z)) : list item :=
  [Opt 53 [3]; Opt 61 (1 :: mac); Opt 12 hostname; Opt 55 [1; 3; 6; 58; 59; 42]; Opt 50 ip]
  ++ match server with Some s => [Opt 54 s] | None => [] end.

(** ** Linear scan of an arbitrary area for a code *)
Inductive found : Type :=
| Absent
| Cut                                  (** an option before it runs over the end of the packet *)
| Present (len : Z) (rest : list Z).   (** its length byte, and everything after that byte *)
Inductive finds (code : Z) : list Z -> found -> Prop :=
| FNil : finds code [] Absent
| FOne b : finds code [b] Absent
| FEnd b r : finds code (255 :: b :: r) Absent
| FPad b r f : finds code (b :: r) f -> finds code (0 :: b :: r) f
| FHit len r : code <> 0 -> code <> 255 -> finds code (code :: len :: r) (Present len r)
| FSkip c v r f : c <> 0 -> c <> 255 -> c <> code -> finds code r f -> finds code (c :: zlen v :: v ++ r) f
| FCut c len r : c <> 0 -> c <> 255 -> c <> code -> zlen r < len -> finds code (c :: len :: r) Cut.

(** ** The accessors of a received packet *)
Inductive getter : Type :=
| GOp | GXid | GYiaddr | GMsgType | GSubnet | GServer | GDns | GNtp | GLease | GRenewal | GRebinding.
Inductive answer : Type :=
| AIsRequest (b : bool) | AXid (x : Z) | AAddr (a : list Z) | AType (m : option MsgType)
| AIp (a : option (list Z)) | ATime (t : option Z).
Definition pd_map {A B} (f : A -> B) (p : PD A) : PD B := (a <+ p ;; pd_ret (f a)).
Definition get (fuel : nat) (g : getter) : PD answer :=
  match g with
  | GOp => pd_map AIsRequest is_bootreply
  | GXid => pd_map AXid pkt_xid
  | GYiaddr => pd_map AAddr yiaddr
  | GMsgType => pd_map AType (msg_type fuel)
  | GSubnet => pd_map AIp (subnet_mask fuel)
  | GServer => pd_map AIp (dhcp_server fuel)
  | GDns => pd_map AIp (pkt_dns fuel)
  | GNtp => pd_map AIp (pkt_ntp fuel)
  | GLease => pd_map ATime (lease_time fuel)
  | GRenewal => pd_map ATime (renewal_time fuel)
  | GRebinding => pd_map ATime (rebinding_time fuel)
  end.
(** A sequence of accessor calls on one packet; a failed call does not end the sequence. *)
Fixpoint gets (fuel : nat) (gs : list getter) (k : cache) : sprog (list (res err answer) * cache) :=
  match gs with
  | [] => SRet ([], k)
  | g :: r => x <~~ get fuel g k ;; y <~~ gets fuel r (snd x) ;; SRet (fst x :: fst y, snd y)
  end.

(** What one accessor answers, from the bytes of the packet only. *)
Definition code_of (g : getter) : option Z :=
  match g with
  | GMsgType => Some 53 | GSubnet => Some 1 | GServer => Some 54 | GDns => Some 6 | GNtp => Some 42
  | GLease => Some 51 | GRenewal => Some 58 | GRebinding => Some 59 | _ => None
  end.
(** A value of exactly [n] bytes. *)
Definition exactly (n : Z) (f : found) : res err (option (list Z)) :=
  match f with
  | Absent => Ok None
  | Cut => Err UnexpectedEof
  | Present len rest =>
      if negb (len =? n) then Ok None
      else if n <=? zlen rest then Ok (Some (ztake n rest)) else Err UnexpectedEof
  end.
(** The first address of a list of addresses. *)
Definition first_addr (f : found) : res err (option (list Z)) :=
  match f with
  | Absent => Ok None
  | Cut => Err UnexpectedEof
  | Present len rest =>
      if (len mod 4 =? 0) && (4 <=? len)
      then if 4 <=? zlen rest then Ok (Some (ztake 4 rest)) else Err UnexpectedEof
      else Ok None
  end.
Definition word (l : list Z) : Z := of_be32 (at_ l 0) (at_ l 1) (at_ l 2) (at_ l 3).
Definition res_map {A B} (f : A -> B) (r : res err A) : res err B :=
  match r with Ok a => Ok (f a) | Err e => Err e end.
Definition opt_map {A B} (f : A -> B) (o : option A) : option B :=
  match o with Some a => Some (f a) | None => None end.
Definition type_of (b : Z) : option MsgType :=
  match b with
  | 1 => Some Discover | 2 => Some Offer | 3 => Some Request | 4 => Some Decline
  | 5 => Some Ack | 6 => Some Nak | 7 => Some Release | 8 => Some Inform | _ => None
  end.
Definition read_found (g : getter) (f : found) : res err answer :=
  match g with
  | GMsgType => res_map (fun o => AType (match o with Some l => type_of (at_ l 0) | None => None end)) (exactly 1 f)
  | GSubnet => res_map AIp (exactly 4 f)
  | GServer | GDns | GNtp => res_map AIp (first_addr f)
  | GLease | GRenewal | GRebinding => res_map (fun o => ATime (opt_map word o)) (exactly 4 f)
  | _ => Err UnexpectedEof
  end.
(** The bytes [off..off+n] of the packet. *)
Definition bytes_at_ (w : list Z) (off n : Z) : res err (list Z) :=
  if off + n <=? zlen w then Ok (ztake n (zdrop off w)) else Err UnexpectedEof.
(** The answer of an accessor to a packet [w]: the fixed fields are read at their offsets; for an
    option the area after the cookie is scanned from its start. *)
Inductive answers (w : list Z) : getter -> res err answer -> Prop :=
| AnsOp : answers w GOp (res_map (fun l => AIsRequest (at_ l 0 =? 1)) (bytes_at_ w 0 1))
| AnsXid : answers w GXid (res_map (fun l => AXid (word l)) (bytes_at_ w 4 4))
| AnsYiaddr : answers w GYiaddr (res_map AAddr (bytes_at_ w 16 4))
| AnsShort g code : code_of g = Some code -> zlen w < 240 -> answers w g (Err UnexpectedEof)
| AnsOption g code f : code_of g = Some code -> 240 <= zlen w -> finds code (zdrop 240 w) f ->
    answers w g (read_found g f).

(** The value an accessor makes of the first option with its code, if there is one. *)
Definition opt_answer (g : getter) (o : option (list Z)) : answer :=
  match g with
  | GMsgType => AType (match o with Some [b] => type_of b | _ => None end)
  | GSubnet => AIp (match o with Some [a; b; c; d] => Some [a; b; c; d] | _ => None end)
  | GServer | GDns | GNtp =>
      AIp (match o with
           | Some (a :: b :: c :: d :: more) => if zlen more mod 4 =? 0 then Some [a; b; c; d] else None
           | _ => None
           end)
  | _ => ATime (match o with Some [a; b; c; d] => Some (of_be32 a b c d) | _ => None end)
  end.

(** A UDP socket with unread datagrams [q], sent datagrams [fs] and destination [a] is asked to send
    [msg] to [a'] : either it is sent, or [room] was too small and nothing is.  Datagrams may arrive. *)
Definition dispatched (room : Z) (q : list dgram) (fs : list frame) (a a' : addr) (msg : list Z)
    (r : res err unit) (s' : sock) : Prop :=
  exists new,
    (r = Err OutOfMemory /\ room < zlen msg /\ udp_view s' (q ++ new) fs a) \/
    (r = Ok tt /\ udp_view s' (q ++ new) (fs ++ [frame_to a' msg]) a').
