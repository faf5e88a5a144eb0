(** dns/src: the DNS and mDNS clients.  Logging is not modelled. *)
From Verif Require Import Model.Prelude Model.Bus Model.Specifiers Model.LlAddr Model.LlBits Model.Ll
  Model.HlIo Model.HlCommon Model.HlTcp Model.HlUdp Model.HlHostname Model.Stream Model.Utf8.

(** dns/src/lib.rs 92. *)
Definition DST_PORT : Z := 53.

(** dns/src/qtype.rs 10-55. *)
Inductive Qtype : Type :=
| QA | QNS | QMD | QMF | QCNAME | QSOA | QMB | QMG | QMR | QNULL | QWKS | QPTR | QHINFO | QMINFO | QMX
| QTXT | QAAAA | QSVR | QAXFR | QMAILB | QMAILA | QALL.

(** dns/src/qtype.rs 10-55: the discriminants ([self as u16]). *)
Definition Qtype_val (q : Qtype) : Z :=
  match q with
  | QA => 1 | QNS => 2 | QMD => 3 | QMF => 4 | QCNAME => 5 | QSOA => 6 | QMB => 7 | QMG => 8 | QMR => 9
  | QNULL => 10 | QWKS => 11 | QPTR => 12 | QHINFO => 13 | QMINFO => 14 | QMX => 15 | QTXT => 16
  | QAAAA => 28 | QSVR => 33 | QAXFR => 252 | QMAILB => 253 | QMAILA => 254 | QALL => 255
  end.

(** dns/src/qtype.rs 58-61 and 63-65. *)
Definition Qtype_high_byte (q : Qtype) : Z := u8 (Z.shiftr (Qtype_val q) 8).
Definition Qtype_low_byte (q : Qtype) : Z := u8 (Qtype_val q).

(** dns/src/qtype.rs 71-97. *)
Definition Qtype_try_from (x : Z) : res Z Qtype :=
  if x =? Qtype_val QA then Ok QA
  else if x =? Qtype_val QNS then Ok QNS
  else if x =? Qtype_val QMD then Ok QMD
  else if x =? Qtype_val QMF then Ok QMF
  else if x =? Qtype_val QCNAME then Ok QCNAME
  else if x =? Qtype_val QSOA then Ok QSOA
  else if x =? Qtype_val QMB then Ok QMB
  else if x =? Qtype_val QMG then Ok QMG
  else if x =? Qtype_val QMR then Ok QMR
  else if x =? Qtype_val QNULL then Ok QNULL
  else if x =? Qtype_val QWKS then Ok QWKS
  else if x =? Qtype_val QPTR then Ok QPTR
  else if x =? Qtype_val QHINFO then Ok QHINFO
  else if x =? Qtype_val QMINFO then Ok QMINFO
  else if x =? Qtype_val QMX then Ok QMX
  else if x =? Qtype_val QTXT then Ok QTXT
  else if x =? Qtype_val QAAAA then Ok QAAAA
  else if x =? Qtype_val QSVR then Ok QSVR
  else if x =? Qtype_val QAXFR then Ok QAXFR
  else if x =? Qtype_val QMAILB then Ok QMAILB
  else if x =? Qtype_val QMAILA then Ok QMAILA
  else if x =? Qtype_val QALL then Ok QALL
  else Err x.

(** dns/src/qclass.rs 9-20. *)
Inductive Qclass : Type := QC_IN | QC_CS | QC_CH | QC_HS | QC_ANY.
Definition Qclass_val (q : Qclass) : Z :=
  match q with QC_IN => 1 | QC_CS => 2 | QC_CH => 3 | QC_HS => 4 | QC_ANY => 5 end.

(** dns/src/qclass.rs 23-26 and 28-30. *)
Definition Qclass_high_byte (q : Qclass) : Z := u8 (Z.shiftr (Qclass_val q) 8).
Definition Qclass_low_byte (q : Qclass) : Z := u8 (Qclass_val q).

(** dns/src/qclass.rs 36-47. *)
Definition Qclass_try_from (value : Z) : res Z Qclass :=
  let x := Z.land value 127 in
  if x =? Qclass_val QC_IN then Ok QC_IN
  else if x =? Qclass_val QC_CS then Ok QC_CS
  else if x =? Qclass_val QC_CH then Ok QC_CH
  else if x =? Qclass_val QC_HS then Ok QC_HS
  else if x =? Qclass_val QC_ANY then Ok QC_ANY
  else Err x.

(** dns/src/rand.rs 15-26 ([Rand::next_u32]): the new state and the result; [shift] is 29 - (s >> 61),
    which is never negative. *)
Definition rand_next_u32 (state : Z) : Z * Z :=
  let s := (state * 0xbb2efcec3c39611d + 0x7590ef39) mod 18446744073709551616 in
  let shift := 29 - Z.shiftr s 61 in
  (s, (Z.shiftr s shift) mod 4294967296).

(** dns/src/rand.rs 28-30. *)
Definition rand_next_u16 (state : Z) : Z * Z :=
  let '(s, r) := rand_next_u32 state in (s, r mod 65536).

(** dns/src/header.rs 79. *)
Definition DNS_HEADER_LEN : Z := 12.

(** dns/src/header.rs 74-76: the header is its twelve bytes. *)
Definition Header : Type := list Z.

(** dns/src/header.rs 17-65. *)
Inductive ResponseCode : Type :=
| NoError | FormatError | ServerFailure | NameError | NotImplemented | Refused.
Definition ResponseCode_try_from (x : Z) : res Z ResponseCode :=
  if x =? 0 then Ok NoError
  else if x =? 1 then Ok FormatError
  else if x =? 2 then Ok ServerFailure
  else if x =? 3 then Ok NameError
  else if x =? 4 then Ok NotImplemented
  else if x =? 5 then Ok Refused
  else Err x.

(** dns/src/header.rs 98-107. *)
Definition hdr_id (h : Header) : Z := of_be16 (at_ h 0) (at_ h 1).
Definition hdr_set_id (h : Header) (id : Z) : Header := put h 0 (be16 id).
(** dns/src/header.rs 110-116: [true] is [Qr::Response]. *)
Definition hdr_qr (h : Header) : bool := negb (Z.land (at_ h 2) 128 =? 0).
(** dns/src/header.rs 119-125 for [Qr::Query] and 128-135 for [true]. *)
Definition hdr_set_query (h : Header) : Header := put h 2 [Z.land (at_ h 2) 127].
Definition hdr_set_rd (h : Header) : Header := put h 2 [Z.lor (at_ h 2) 1].
(** dns/src/header.rs 82-89. *)
Definition hdr_new_query (id : Z) : Header := hdr_set_rd (hdr_set_query (hdr_set_id (zeros 12) id)).
(** dns/src/header.rs 137-139. *)
Definition hdr_rcode (h : Header) : res Z ResponseCode := ResponseCode_try_from (Z.land (at_ h 3) 15).
(** dns/src/header.rs 142-168. *)
Definition hdr_qdcount (h : Header) : Z := of_be16 (at_ h 4) (at_ h 5).
Definition hdr_set_qdcount (h : Header) (n : Z) : Header := put h 4 (be16 n).
Definition hdr_increment_qdcount (h : Header) : Header :=
  hdr_set_qdcount h (Z.min 65535 (hdr_qdcount h + 1)).
Definition hdr_ancount (h : Header) : Z := of_be16 (at_ h 6) (at_ h 7).
Definition hdr_nscount (h : Header) : Z := of_be16 (at_ h 8) (at_ h 9).
Definition hdr_arcount (h : Header) : Z := of_be16 (at_ h 10) (at_ h 11).

(** dns/src/lib.rs 192. *)
Definition NAME_PTR_MASK : Z := 49152.

(** dns/src/lib.rs 197-236: the loop of [read_labels], one unit of fuel per iteration.  [labels] is the
    caller's buffer, [idx] is [labels_idx]; the result has the final buffer, index and [seek_to].
    [buf[..n]] is what was read, the rest of [buf] is zero. *)
Fixpoint read_labels_loop (fuel : nat) (labels : list Z) (idx seek_to : Z) : SM (list Z * Z * Z) :=
  match fuel with
  | O => SDiverge
  | S fuel =>
      d <~ s_read 2 ;;
      let n := zlen d in
      if n =? 0 then sfail UnexpectedEof else
      let sequence := of_be16 (at_ d 0) (at_ d 1) in
      if (n =? 2) && negb (Z.land sequence NAME_PTR_MASK =? 0) then
        let ptr := Z.land sequence 16383 in
        seek_to' <~ (if seek_to =? 0 then s_position else sret seek_to) ;;
        s_seek (SStart ptr) ~;;
        read_labels_loop fuel labels idx seek_to'
      else
        s_seek (SCurrent (-1)) ~;;
        let len := Z.land (at_ d 0) 63 in
        if len =? 0 then sret (labels, idx, seek_to) else
        let '(labels1, idx1) :=
          if negb (idx =? 0) then (if idx <? zlen labels then put labels idx [46] else labels, idx + 1)
          else (labels, idx) in
        labels2 <~ (if idx1 + len <=? zlen labels1 then
                      x <~ s_read_exact len ;; sret (put labels1 idx1 x)
                    else s_seek (SCurrent len) ~;; sret labels1) ;;
        read_labels_loop fuel labels2 (idx1 + len) seek_to
  end.

(** dns/src/lib.rs 188-247.  The contents of the caller's buffer after the call are not returned: only
    the name is visible to the caller. *)
Definition read_labels (fuel : nat) (labels : list Z) : SM (option (list Z)) :=
  r <~ read_labels_loop fuel labels 0 0 ;;
  let '(labels', idx, seek_to) := r in
  (if negb (seek_to =? 0) then s_seek (SStart seek_to) else sret tt) ~;;
  if idx <=? zlen labels' then
    let name := ztake idx labels' in
    sret (if utf8_valid name then Some name else None)
  else sret None.

(** dns/src/lib.rs 249-256. *)
Definition read_u16 : SM Z := d <~ s_read_exact 2 ;; sret (of_be16 (at_ d 0) (at_ d 1)).

(** dns/src/lib.rs 258-265. *)
Definition read_u32 : SM Z := d <~ s_read_exact 4 ;; sret (of_be32 (at_ d 0) (at_ d 1) (at_ d 2) (at_ d 3)).

(** dns/src/lib.rs 118-138. *)
Inductive RData : Type :=
| RD_A (addr : list Z)
| RD_SVR (priority weight port : Z)
| RD_Unsupported.

(** dns/src/lib.rs 150-185. *)
Record ResourceRecord : Type := {
  rr_name : option (list Z);
  rr_qtype : res Z Qtype;
  rr_class : res Z Qclass;
  rr_ttl : Z;
  rr_rdata : RData
}.

(** dns/src/lib.rs 272-277 without the buffer, which is an argument of [next_rr]. *)
Record Response : Type := { rs_reader : cursor; rs_header : Header; rs_rr_idx : Z }.

(** dns/src/lib.rs 283-285 and 289-291. *)
Definition response_code (r : Response) : res Z ResponseCode := hdr_rcode (rs_header r).
Definition answer_count (r : Response) : Z := hdr_ancount (rs_header r).

(** dns/src/lib.rs 295-300. *)
Definition hdr_rr_count (h : Header) : Z :=
  Z.min 65535 (Z.min 65535 (hdr_ancount h + hdr_nscount h) + hdr_arcount h).

(** dns/src/lib.rs 319-361: the part of [next_rr] that reads one record. *)
Definition read_rr (fuel : nat) (buf : list Z) : SM ResourceRecord :=
  name <~ read_labels fuel buf ;;
  qtype <~ read_u16 ;;
  class <~ read_u16 ;;
  ttl <~ read_u32 ;;
  rdlength <~ read_u16 ;;
  before <~ s_position ;;
  rdata <~ (match Qtype_try_from qtype with
            | Ok QA => b <~ s_read_exact 4 ;; sret (RD_A b)
            | Ok QSVR =>
                priority <~ read_u16 ;;
                weight <~ read_u16 ;;
                port <~ read_u16 ;;
                sret (RD_SVR priority weight port)
            | _ => sret RD_Unsupported
            end) ;;
  (if negb (rdlength =? 0) then s_seek (SStart (Z.min 65535 (before + rdlength))) else sret tt) ~;;
  sret {| rr_name := name; rr_qtype := Qtype_try_from qtype; rr_class := Qclass_try_from class;
          rr_ttl := ttl; rr_rdata := rdata |}.

(** dns/src/lib.rs 313-363 as a stream program: the result and the new [rr_idx]. *)
Definition next_rr_s (fuel : nat) (h : Header) (buf : list Z) (rr_idx : Z)
  : sprog (res err (option ResourceRecord) * Z) :=
  if hdr_rr_count h <=? rr_idx then SRet (Ok None, rr_idx)
  else
    r <~~ read_rr fuel buf ;;
    SRet (match r with Ok rr => Ok (Some rr) | Err e => Err e end, Z.min 65535 (rr_idx + 1)).

(** dns/src/lib.rs 313-363: the result and the updated [Response]. *)
Definition next_rr (fuel : nat) (r : Response) (buf : list Z)
  : prog (res err (option ResourceRecord) * Response) :=
  x <-- on_cursor (rs_reader r) (next_rr_s fuel (rs_header r) buf (rs_rr_idx r)) ;;
  let '((v, idx), c) := x in
  Ret (v, {| rs_reader := c; rs_header := rs_header r; rs_rr_idx := idx |}).

(** dns/src/lib.rs 369-371. *)
Definition response_done (r : Response) : M unit := udp_reader_done (rs_reader r).

(** dns/src/lib.rs 397-404: the loop over the labels. *)
Fixpoint write_labels (ls : list (list Z)) : SM unit :=
  match ls with
  | [] => sret tt
  | l :: r => s_write_all [u8 (zlen l)] ~;; s_write_all l ~;; write_labels r
  end.

(** dns/src/lib.rs 390-419; [h] is [self.header]. *)
Definition question (h : Header) (qtype : Qtype) (qname : list Z) : SM Header :=
  remain <~ s_remain ;;
  if remain <? hostname_len qname + 5 then sfail OutOfMemory else
  write_labels (hostname_labels qname) ~;;
  s_write_all [0; Qtype_high_byte qtype; Qtype_low_byte qtype;
               Qclass_high_byte QC_IN; Qclass_low_byte QC_IN] ~;;
  sret (hdr_increment_qdcount h).

(** dns/src/lib.rs 426-429: the part of [send] that writes the header. *)
Definition write_header (h : Header) : SM unit :=
  restore <~ s_position ;;
  s_rewind ~;;
  s_write_all h ~;;
  s_seek (SStart restore).

(** dns/src/lib.rs 379-382. *)
Record Query : Type := { qu_writer : cursor; qu_header : Header }.

(** dns/src/lib.rs 390-419. *)
Definition query_question (q : Query) (qtype : Qtype) (qname : list Z) : M Query :=
  x <-- on_cursor (qu_writer q) (question (qu_header q) qtype qname) ;;
  match fst x with
  | Ok h => ret {| qu_writer := snd x; qu_header := h |}
  | Err e => fail e
  end.

(** dns/src/lib.rs 422-433. *)
Definition query_send (q : Query) : M Z :=
  if hdr_qdcount (qu_header q) =? 0 then ret (hdr_id (qu_header q))
  else
    x <-- on_cursor (qu_writer q) (write_header (qu_header q)) ;;
    match fst x with
    | Ok _ => cur_send (snd x) ;;; ret (hdr_id (qu_header q))
    | Err e => fail e
    end.

(** dns/src/lib.rs 439-444. *)
Record DnsClient : Type := { dc_sn : Sn; dc_port : Z; dc_server : list Z * Z; dc_rng : Z }.

(** dns/src/lib.rs 471-478. *)
Definition dns_new (sn : Sn) (port : Z) (server : list Z) (seed : Z) : DnsClient :=
  {| dc_sn := sn; dc_port := port; dc_server := (server, DST_PORT); dc_rng := seed |}.

(** dns/src/lib.rs 498-500 and 517-519. *)
Definition dns_set_server (c : DnsClient) (server : list Z) : DnsClient :=
  {| dc_sn := dc_sn c; dc_port := dc_port c; dc_server := (server, snd (dc_server c)); dc_rng := dc_rng c |}.
Definition dns_server (c : DnsClient) : list Z := fst (dc_server c).

(** [writer.seek(pos)?] as the last step before the query is built. *)
Definition query_at (writer : cursor) (id : Z) : M Query :=
  w <- cur_seekM writer (SStart DNS_HEADER_LEN) ;;
  ret {| qu_writer := w; qu_header := hdr_new_query id |}.

(** dns/src/lib.rs 524-538.  The random number generator is only advanced when everything before
    succeeded, so an error leaves the client as it was. *)
Definition dns_query (dbg : bool) (fuel : nat) (c : DnsClient) : M (Query * DnsClient) :=
  udp_bind dbg fuel (dc_sn c) (dc_port c) ;;;
  set_sn_dest (dc_sn c) (dc_server c) ;;;
  writer <- tx_writer (dc_sn c) ;;
  let '(rng, id) := rand_next_u16 (dc_rng c) in
  q <- query_at writer id ;;
  ret (q, {| dc_sn := dc_sn c; dc_port := dc_port c; dc_server := dc_server c; dc_rng := rng |}).

(** dns/src/lib.rs 554-560: the result and the client afterwards. *)
Definition dns_a_question (dbg : bool) (fuel : nat) (c : DnsClient) (hostname : list Z)
  : prog (res err Z * DnsClient) :=
  r <-- dns_query dbg fuel c ;;
  match r with
  | Err e => Ret (Err e, c)
  | Ok (q, c') =>
      x <-- (q <- query_question q QA hostname ;; query_send q) ;;
      Ret (x, c')
  end.

(** dns/src/lib.rs 608-614 and mdns.rs 168-174. *)
Fixpoint skip_questions (fuel n : nat) : SM unit :=
  match n with
  | O => sret tt
  | S n =>
      read_labels fuel [] ~;;
      s_seek (SCurrent 4) ~;;
      skip_questions fuel n
  end.

(** dns/src/lib.rs 588-614; [None] stands for the three early returns that drop the datagram.
    [want] is the expected id, or [None] for mdns.rs 153-174, which has the same text without that
    check. *)
Definition response_body (fuel : nat) (want : option Z) : SM (option Header) :=
  h <~ s_read DNS_HEADER_LEN ;;
  if negb (zlen h =? DNS_HEADER_LEN) then sret None
  else if negb (hdr_qr h) then sret None
  else if match want with Some id => negb (hdr_id h =? id) | None => false end then sret None
  else
    skip_questions fuel (Z.to_nat (hdr_qdcount h)) ~;;
    sret (Some h).

(** dns/src/lib.rs 580-622 and mdns.rs 146-182. *)
Definition recv_response (dbg : bool) (fuel : nat) (sn : Sn) (want : option Z) : M Response :=
  r <- udp_reader dbg sn ;;
  x <-- on_cursor (ur_inner r) (response_body fuel want) ;;
  match fst x with
  | Err e => fail e
  | Ok None => udp_reader_done (snd x) ;;; fail WouldBlock
  | Ok (Some h) => ret {| rs_reader := snd x; rs_header := h; rs_rr_idx := 0 |}
  end.

(** dns/src/lib.rs 580-622. *)
Definition dns_response (dbg : bool) (fuel : nat) (c : DnsClient) (id : Z) : M Response :=
  recv_response dbg fuel (dc_sn c) (Some id).

(** dns/src/mdns.rs 15-18. *)
Definition MDNS_PORT : Z := 5353.
Definition MDNS_SERVER : list Z * Z := ([224; 0; 0; 251], MDNS_PORT).
Definition MDNS_HARDWARE_DST : list Z := [1; 0; 94; 0; 0; 251].

(** dns/src/mdns.rs 23-27 and 49-55. *)
Record MdnsClient : Type := { mc_sn : Sn; mc_port : Z; mc_server : list Z * Z }.
Definition mdns_new (sn : Sn) (port : option Z) : MdnsClient :=
  {| mc_sn := sn; mc_port := match port with Some p => p | None => MDNS_PORT end;
     mc_server := MDNS_SERVER |}.

(** dns/src/mdns.rs 69-71. *)
Definition MODE_MDNS : Z := SocketMode_enable_multi (SocketMode_set_protocol SocketMode_RESET PUdp).

(** dns/src/mdns.rs 60-86. *)
Definition mdns_query (fuel : nat) (c : MdnsClient) : M Query :=
  set_sn_dhar (mc_sn c) MDNS_HARDWARE_DST ;;;
  set_sn_ttl (mc_sn c) 255 ;;;
  set_sn_cr (mc_sn c) CClose ;;;
  poll_status fuel (mc_sn c) Closed ;;;
  set_sn_port (mc_sn c) (mc_port c) ;;;
  set_sn_mr (mc_sn c) MODE_MDNS ;;;
  set_sn_cr (mc_sn c) COpen ;;;
  poll_status fuel (mc_sn c) Udp ;;;
  set_sn_dest (mc_sn c) (mc_server c) ;;;
  writer <- tx_writer (mc_sn c) ;;
  query_at writer 0.

(** dns/src/mdns.rs 99-106 ([QA]) and 119-126 ([QPTR]). *)
Definition mdns_question (fuel : nat) (c : MdnsClient) (qtype : Qtype) (hostname : list Z) : M unit :=
  q <- mdns_query fuel c ;;
  q <- query_question q qtype hostname ;;
  query_send q ;;;
  ret tt.

(** dns/src/mdns.rs 146-182. *)
Definition mdns_response (dbg : bool) (fuel : nat) (c : MdnsClient) : M Response :=
  recv_response dbg fuel (mc_sn c) None.
