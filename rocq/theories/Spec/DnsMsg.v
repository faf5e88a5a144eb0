(** DNS messages (RFC 1035 section 4): names with compression, questions, resource records. *)
From Coq Require Export Relations.
From Verif Require Import Model.Prelude Model.Bus Model.Chip Model.HlIo Model.HlUdp Spec.Sock Spec.UdpClient Spec.Hostname Spec.Utf8 Model.Dns.

(** [m] has the bytes [l] at offset [p]. *)
Definition has (m : list Z) (p : Z) (l : list Z) : Prop :=
  exists a b, m = a ++ l ++ b /\ zlen a = p.

(** [name_at m p ls e]: at offset [p] of [m] a name with the labels [ls] is encoded; its encoding at
    that place ends before offset [e]. *)
Inductive name_at (m : list Z) : Z -> list (list Z) -> Z -> Prop :=
| NameEnd p : has m p [0] -> name_at m p [] (p + 1)
| NameLabel p l ls e : 1 <= zlen l <= 63 -> has m p (zlen l :: l) -> name_at m (p + 1 + zlen l) ls e ->
    name_at m p (l :: ls) e
| NamePtr p hi lo ls e : 0xC0 <= hi <= 0xFF -> 0 <= lo <= 0xFF -> has m p [hi; lo] ->
    name_at m ((hi - 0xC0) * 256 + lo) ls e -> name_at m p ls (p + 2).

(** What the caller may see of a name with a buffer of [room] bytes. *)
Definition name_seen (ls : list (list Z)) (room : Z) (v : option (list Z)) : Prop :=
  (zlen (join ls) <= room /\ is_utf8 (join ls) -> v = Some (join ls)) /\
  (~ (zlen (join ls) <= room /\ is_utf8 (join ls)) -> v = None).

(** Questions. *)
Record quest : Type := { q_name : list (list Z); q_type : Z; q_class : Z }.
Definition quest_at (m : list Z) (p : Z) (q : quest) (e : Z) : Prop :=
  exists p1, name_at m p (q_name q) p1 /\ has m p1 (be16 (q_type q) ++ be16 (q_class q)) /\ e = p1 + 4.
Inductive quests_at (m : list Z) : Z -> list quest -> Z -> Prop :=
| QsNil p : quests_at m p [] p
| QsCons p q p1 qs e : quest_at m p q p1 -> quests_at m p1 qs e -> quests_at m p (q :: qs) e.

(** Resource records. *)
Record record : Type := { r_name : list (list Z); r_type : Z; r_class : Z; r_ttl : Z; r_data : list Z }.
Definition record_ok (r : record) : Prop :=
  is_u16 (r_type r) /\ is_u16 (r_class r) /\ is_u32 (r_ttl r) /\ zlen (r_data r) <= 65535 /\
  (r_type r = 1 -> zlen (r_data r) = 4) /\ (r_type r = 33 -> 6 <= zlen (r_data r)).
Definition record_at (m : list Z) (p : Z) (r : record) (e : Z) : Prop :=
  record_ok r /\ exists p1, name_at m p (r_name r) p1 /\
  has m p1 (be16 (r_type r) ++ be16 (r_class r) ++ be32 (r_ttl r) ++ be16 (zlen (r_data r)) ++ r_data r) /\
  e = p1 + 10 + zlen (r_data r).
Inductive records_at (m : list Z) : Z -> list record -> Z -> Prop :=
| RsNil p : records_at m p [] p
| RsCons p r p1 rs e : record_at m p r p1 -> records_at m p1 rs e -> records_at m p (r :: rs) e.

(** A response to the query [id] with response code [rcode]. *)
Definition response_msg (m : list Z) (id rcode : Z) (qs : list quest) (answers authority extra : list record) : Prop :=
  exists f1 f2 p1 e, 0x80 <= f1 <= 0xFF /\ 0 <= f2 <= 0xFF /\ f2 mod 16 = rcode /\
  is_u16 id /\ zlen qs <= 65535 /\ zlen (answers ++ authority ++ extra) <= 65535 /\
  has m 0 (be16 id ++ [f1; f2] ++ be16 (zlen qs) ++ be16 (zlen answers) ++ be16 (zlen authority) ++ be16 (zlen extra)) /\
  quests_at m 12 qs p1 /\ records_at m p1 (answers ++ authority ++ extra) e.

(** A recursive query with the questions [qs] and nothing else. *)
Definition query_msg (m : list Z) (id : Z) (qs : list quest) : Prop :=
  has m 0 (be16 id ++ [1; 0] ++ be16 (zlen qs) ++ [0; 0; 0; 0; 0; 0]) /\ quests_at m 12 qs (zlen m).

(** Assigned numbers: RFC 1035 section 3.2.2-3.2.3, RFC 3596 (AAAA), RFC 2782 (SRV). *)
Definition type_number (q : Qtype) : Z :=
  match q with
  | QA => 1 | QNS => 2 | QMD => 3 | QMF => 4 | QCNAME => 5 | QSOA => 6 | QMB => 7 | QMG => 8 | QMR => 9
  | QNULL => 10 | QWKS => 11 | QPTR => 12 | QHINFO => 13 | QMINFO => 14 | QMX => 15 | QTXT => 16
  | QAAAA => 28 | QSVR => 33 | QAXFR => 252 | QMAILB => 253 | QMAILA => 254 | QALL => 255
  end.
(** RFC 1035 section 3.2.4; 255 is the query class [*]. *)
Definition class_number (c : Qclass) : Z :=
  match c with QC_IN => 1 | QC_CS => 2 | QC_CH => 3 | QC_HS => 4 | QC_ANY => 255 end.
Definition decodes {A} (number : A -> Z) (v : Z) (x : res Z A) : Prop :=
  (exists a, x = Ok a /\ number a = v) \/ (x = Err v /\ forall a, number a <> v).

(** What a call of [next_rr] with a buffer of [room] bytes shows of the record [r]. *)
Definition record_seen (r : record) (room : Z) (x : ResourceRecord) : Prop :=
  name_seen (r_name r) room (rr_name x) /\
  decodes type_number (r_type r) (rr_qtype x) /\
  rr_class x = Qclass_try_from (r_class r) /\
  rr_ttl x = r_ttl r /\
  rr_rdata x =
    (if r_type r =? 1 then RD_A (r_data r)
     else if r_type r =? 33 then
       RD_SVR (of_be16 (at_ (r_data r) 0) (at_ (r_data r) 1)) (of_be16 (at_ (r_data r) 2) (at_ (r_data r) 3))
              (of_be16 (at_ (r_data r) 4) (at_ (r_data r) 5))
     else RD_Unsupported).

(** Following a name: one label or one pointer.  The reserved length prefixes 01 and 10, which have no
    assigned meaning, count as pointers. *)
Inductive hop (m : list Z) : Z -> Z -> Prop :=
| HopLabel p k : 1 <= k <= 63 -> has m p [k] -> p + 1 + k <= zlen m -> hop m p (p + 1 + k)
| HopPtr p hi lo : 64 <= hi <= 255 -> has m p [hi; lo] -> (hi mod 64) * 256 + lo <= zlen m ->
    hop m p ((hi mod 64) * 256 + lo).
(** The name at [p] runs into a cycle. *)
Definition name_loops (m : list Z) (p : Z) : Prop :=
  exists q, clos_refl_trans_1n Z (hop m) p q /\ clos_trans_1n Z (hop m) q q.
(** No place of the message does. *)
Definition no_loops (m : list Z) : Prop := forall p, ~ name_loops m p.

(** Response codes, RFC 1035 section 4.1.1. *)
Definition rcode_number (c : ResponseCode) : Z :=
  match c with
  | NoError => 0 | FormatError => 1 | ServerFailure => 2 | NameError => 3 | NotImplemented => 4 | Refused => 5
  end.

(** A client that takes one response: [next_rr] once per buffer in [bufs], then [done]. *)
Fixpoint next_rrs (fuel : nat) (r : Response) (bufs : list (list Z))
  : prog (list (res err (option ResourceRecord)) * Response) :=
  match bufs with
  | [] => Ret ([], r)
  | b :: bufs =>
      x <-- next_rr fuel r b ;;
      y <-- next_rrs fuel (snd x) bufs ;;
      Ret (fst x :: fst y, snd y)
  end.
Record dns_result : Type := {
  dr_code : res Z ResponseCode;
  dr_answers : Z;
  dr_records : list (res err (option ResourceRecord))
}.
Definition take_response (fuel : nat) (get : M Response) (bufs : list (list Z)) : M dns_result :=
  r <- get ;;
  x <-- next_rrs fuel r bufs ;;
  response_done (snd x) ;;;
  ret {| dr_code := response_code r; dr_answers := answer_count r; dr_records := fst x |}.
(** The results of the calls show the records in order, then nothing. *)
Definition records_seen (rs : list record) (bufs : list (list Z)) (xs : list (res err (option ResourceRecord))) : Prop :=
  length xs = length bufs /\
  forall i b, nth_error bufs i = Some b ->
  match nth_error rs i with
  | Some r => exists x, nth_error xs i = Some (Ok (Some x)) /\ record_seen r (zlen b) x
  | None => nth_error xs i = Some (Ok None)
  end.

(** A client that asks several questions in one query. *)
Fixpoint ask_all (q : Query) (qs : list (Qtype * list Z)) : M Query :=
  match qs with
  | [] => ret q
  | (t, h) :: qs => q <- query_question q t h ;; ask_all q qs
  end.
Definition dns_ask (dbg : bool) (fuel : nat) (c : DnsClient) (qs : list (Qtype * list Z)) : prog (res err Z * DnsClient) :=
  r <-- dns_query dbg fuel c ;;
  match r with
  | Err e => Ret (Err e, c)
  | Ok (q, c') => x <-- (q <- ask_all q qs ;; query_send q) ;; Ret (x, c')
  end.

(** The question for a hostname: its labels are what the dots separate. *)
Definition asks (qh : Qtype * list Z) (q : quest) : Prop :=
  snd qh = join (q_name q) /\ Forall label_ok (q_name q) /\ q_type q = type_number (fst qh) /\ q_class q = 1.
(** The size of the questions: a length byte in place of every dot, one in front, and five bytes. *)
Fixpoint qsize (qs : list (Qtype * list Z)) : Z :=
  match qs with [] => 0 | (_, h) :: r => (zlen h + 6) + qsize r end.

Definition dns_ready (c : DnsClient) : Prop := is_u16 (dc_port c) /\ addr_ok (dc_server c).
(** What asking [qs] does: one datagram with the query goes to the server, or there is no room. *)
Definition asked_result (cl : DnsClient) (s : sock) (qs : list (Qtype * list Z)) (r : res err Z * DnsClient) (s' : sock) : Prop :=
  exists new more,
  dc_sn (snd r) = dc_sn cl /\ dc_port (snd r) = dc_port cl /\ dc_server (snd r) = dc_server cl /\
  ((qs <> [] /\ 12 + qsize qs <= tx_size s /\ exists id data qts, fst r = Ok id /\ is_u16 id /\
      udp_view s' new (s_wire s ++ more ++ [frame_to (dc_server cl) data]) (dc_server cl) /\
      query_msg data id qts /\ Forall2 asks qs qts) \/
   (qs <> [] /\ tx_size s < 12 + qsize qs /\ fst r = Err OutOfMemory /\ udp_view s' new (s_wire s ++ more) (dc_server cl)) \/
   (qs = [] /\ (exists id, fst r = Ok id) /\ udp_view s' new (s_wire s ++ more) (dc_server cl))).

(** The datagram is a response to the query [id]. *)
Definition answers_query (m : list Z) (id : Z) : Prop :=
  12 <= zlen m /\ 128 <= at_ m 2 /\ of_be16 (at_ m 0) (at_ m 1) = id.

(** The socket is set up for mDNS (RFC 6762): UDP with multicast enabled, the local port, the multicast
    MAC address 01:00:5E:00:00:FB, TTL 255, destination 224.0.0.251:5353. *)
Definition mdns_configured (s : sock) (port : Z) : Prop :=
  s_reg s 0x00 = 0x82 /\ of_word (s_reg s) 0x04 = port /\
  map (s_reg s) [0x06; 0x07; 0x08; 0x09; 0x0A; 0x0B] = [0x01; 0x00; 0x5E; 0x00; 0x00; 0xFB] /\
  s_reg s 0x16 = 255 /\ dest_ip s = [224; 0; 0; 251] /\ dest_port s = 5353.
Definition mdns_group : list Z * Z := ([224; 0; 0; 251], 5353).
(** What an mDNS question does: one datagram with id 0 goes to the group, or there is no room. *)
Definition mdns_result (s : sock) (t : Qtype) (h : list Z) (r : res err unit) (s' : sock) : Prop :=
  exists new more,
  (12 + (zlen h + 6) <= tx_size s /\ r = Ok tt /\ exists data q,
     udp_view s' new (s_wire s ++ more ++ [frame_to mdns_group data]) mdns_group /\
     query_msg data 0 [q] /\ asks (t, h) q) \/
  (tx_size s < 12 + (zlen h + 6) /\ r = Err OutOfMemory /\ udp_view s' new (s_wire s ++ more) mdns_group).
