(** The SNTP client: sntp/src. *)
From Verif Require Import Model.Prelude Model.Bus Model.Specifiers Model.LlBits Model.Ll Model.HlCommon Model.HlIo Model.HlTcp Model.HlUdp
  Model.Stream.

(** sntp/src/lib.rs 57. *)
Definition VERSION_NUMBER : Z := 4.
(** sntp/src/lib.rs 62-70, 98-100. *)
Record SntpClient : Type := mkSntp { sc_sn : Sn; sc_port : Z; sc_server : list Z * Z }.

(** sntp/src/lib.rs 392-401. *)
Inductive LeapIndicator : Type := NoWarning | LastMin61Sec | LastMin59Sec | Alarm.
Definition leap_u8 (l : LeapIndicator) : Z :=
  match l with NoWarning => 0 | LastMin61Sec => 1 | LastMin59Sec => 2 | Alarm => 3 end.
(** sntp/src/lib.rs 403-413; [None] is [unreachable!()]. *)
Definition leap_from_bits (bits : Z) : option LeapIndicator :=
  let x := Z.land bits 3 in
  if x =? leap_u8 NoWarning then Some NoWarning else
  if x =? leap_u8 LastMin61Sec then Some LastMin61Sec else
  if x =? leap_u8 LastMin59Sec then Some LastMin59Sec else
  if x =? leap_u8 Alarm then Some Alarm else None.
(** sntp/src/lib.rs 424-430. *)
Inductive Mode : Type := SymmetricActive | SymmetricPassive | ModeClient | ModeServer | ModeBroadcast.
Definition mode_u8 (m : Mode) : Z :=
  match m with SymmetricActive => 1 | SymmetricPassive => 2 | ModeClient => 3 | ModeServer => 4 | ModeBroadcast => 5 end.
(** sntp/src/lib.rs 432-445. *)
Definition mode_try_from (bits : Z) : res Z Mode :=
  if bits =? mode_u8 SymmetricActive then Ok SymmetricActive else
  if bits =? mode_u8 SymmetricPassive then Ok SymmetricPassive else
  if bits =? mode_u8 ModeClient then Ok ModeClient else
  if bits =? mode_u8 ModeServer then Ok ModeServer else
  if bits =? mode_u8 ModeBroadcast then Ok ModeBroadcast else Err bits.
(** sntp/src/lib.rs 451-475. *)
Inductive Stratum : Type := KoD | Primary | Secondary (s : Z).
Definition stratum_try_from (bits : Z) : res Z Stratum :=
  if bits =? 0 then Ok KoD else if bits =? 1 then Ok Primary else
  if (2 <=? bits) && (bits <=? 15) then Ok (Secondary bits) else Err bits.

(** sntp/src/lib.rs 346-379. *)
Record Reply : Type := mkReply {
  rp_leap : LeapIndicator; rp_stratum : Stratum; rp_precision : Z; rp_root_delay : Z; rp_root_dispersion : Z;
  rp_refid : list Z; rp_reference : Z; rp_originate : Z; rp_receive : Z; rp_transmit : Z }.

(** sntp/src/lib.rs 128-136. *)
Definition sntp_setup_socket (dbg : bool) (fuel : nat) (c : SntpClient) : M unit :=
  s <- simr ;;
  set_simr (Z.lor (sn_bitmask (sc_sn c)) s) ;;;
  set_sn_imr (sc_sn c) (SocketInterruptMask_unmask_recv SocketInterruptMask_ALL_MASKED) ;;;
  close (sc_sn c) ;;;
  udp_bind dbg fuel (sc_sn c) (sc_port c) ;;;
  set_sn_dest (sc_sn c) (sc_server c).

(** sntp/src/lib.rs 178-205. *)
Definition LI : Z := u8 (Z.shiftl (leap_u8 NoWarning) 6).
Definition VN : Z := u8 (Z.shiftl VERSION_NUMBER 3).
Definition REQUEST_PKT : list Z :=
  [Z.lor (Z.lor LI VN) (mode_u8 ModeClient); 0; 0; 0;
   0; 0; 0; 0; 0; 0; 0; 0; 0; 0; 0; 0;
   0; 0; 0; 0; 0; 0; 0; 0; 0; 0; 0; 0; 0; 0; 0; 0;
   0; 0; 0; 0; 0; 0; 0; 0; 0; 0; 0; 0; 0; 0; 0; 0].
(** sntp/src/lib.rs 177-212. *)
Definition sntp_request (c : SntpClient) : M unit :=
  w <- tx_writer (sc_sn c) ;;
  x <-- on_cursor w (s_write_all REQUEST_PKT) ;;
  match fst x with Err e => fail e | Ok _ => cur_send (snd x) end.

(** [u32::from_be_bytes], [u64::from_be_bytes], and the slice [buf[i..i + n]]. *)
Definition u32_from_be (l : list Z) : Z := of_be32 (at_ l 0) (at_ l 1) (at_ l 2) (at_ l 3).
Definition u64_from_be (l : list Z) : Z :=
  of_be32 (at_ l 0) (at_ l 1) (at_ l 2) (at_ l 3) * 4294967296 + of_be32 (at_ l 4) (at_ l 5) (at_ l 6) (at_ l 7).
Definition slice (l : list Z) (i n : Z) : list Z := ztake n (zdrop i l).
(** [x as i8] *)
Definition as_i8 (x : Z) : Z := if x <? 128 then x else x - 256.

(** sntp/src/lib.rs 281-339, on the 48 bytes read. *)
Definition decode_reply (buf : list Z) : M Reply :=
  match mode_try_from (Z.land (at_ buf 0) 7) with
  | Ok ModeServer =>
      let version_number := Z.land (Z.shiftr (at_ buf 0) 3) 7 in
      if negb (version_number =? VERSION_NUMBER) then fail WouldBlock else
      match leap_from_bits (Z.shiftr (at_ buf 0) 6) with
      | None => Panic
      | Some leap =>
          match stratum_try_from (at_ buf 1) with
          | Err _ => fail WouldBlock
          | Ok stratum =>
              if negb (at_ buf 2 =? 0) then fail WouldBlock else
              ret (mkReply leap stratum (as_i8 (at_ buf 3)) (u32_from_be (slice buf 4 4)) (u32_from_be (slice buf 8 4))
                (slice buf 12 4) (u64_from_be (slice buf 16 8)) (u64_from_be (slice buf 24 8))
                (u64_from_be (slice buf 32 8)) (u64_from_be (slice buf 40 8)))
          end
      end
  | Ok _ => fail WouldBlock
  | Err _ => fail WouldBlock
  end.
(** [SocketAddrV4 != SocketAddrV4] *)
Definition addr_eqb (a b : list Z * Z) : bool :=
  if list_eq_dec Z.eq_dec (fst a) (fst b) then snd a =? snd b else false.
(** sntp/src/lib.rs 261-340. *)
Definition on_recv_interrupt (dbg : bool) (c : SntpClient) : M Reply :=
  ir <- sn_ir (sc_sn c) ;;
  (if SocketInterrupt_any_raised ir then set_sn_ir (sc_sn c) ir else ret tt) ;;;
  reader <- udp_reader dbg (sc_sn c) ;;
  if negb (addr_eqb (uh_origin (ur_header reader)) (sc_server c)) then
    udp_reader_done (ur_inner reader) ;;; fail WouldBlock
  else
    x <-- on_cursor (ur_inner reader) (s_read_exact 48) ;;
    match fst x with
    | Err e => fail e
    | Ok buf => udp_reader_done (snd x) ;;; decode_reply buf
    end.

(** sntp/src/timestamp.rs 14-22, on u64 arguments; [None] is the overflow of [nanos * u32::MAX]. *)
Definition timestamp_new (secs nanos : Z) : option Z :=
  let upper := if secs <? 4294967296 then secs else
    let x := Z.max 0 (secs - 4294967296) in if x <? 4294967296 then x else 4294967295 in
  if 18446744073709551616 <=? nanos * 4294967295 then None else
  let lower := u32 (nanos * 4294967295 / 1000000000) in
  Some (Z.lor (Z.shiftl upper 32) lower).
(** sntp/src/timestamp.rs 26-36. *)
Definition timestamp_secs (bits : Z) : Z :=
  let seconds_bits := u32 (Z.shiftr bits 32) in
  if negb (Z.land seconds_bits 0x80000000 =? 0) then seconds_bits else seconds_bits + 4294967295 + 1.
(** sntp/src/timestamp.rs 40-43.  The product is below 2^62. *)
Definition timestamp_nanos (bits : Z) : Z :=
  u32 (Z.land bits 0xFFFFFFFF * 1000000000 / 4294967295).
(** sntp/src/timestamp.rs 73-88, with a [NaiveDateTime] taken as the number of nanoseconds since 1900 (leap
    seconds, which chrono represents separately, are left out): [num_seconds] rounds towards zero, the
    rest is negative for times before 1900.  The range of [TimeDelta] is not modelled.  Outer [None]: panic;
    [Err]: [TimestampError]. *)
Definition timestamp_from_ns (ns : Z) : option (res unit Z) :=
  let secs := Z.quot ns 1000000000 in
  let nanos := ns - secs * 1000000000 in
  if nanos <? 0 then Some (Err tt) else if secs <? 0 then Some (Err tt) else
  match timestamp_new secs nanos with None => None | Some bits => Some (Ok bits) end.
(** sntp/src/timestamp.rs 95-103 and 110-129, with the same reading; dates up to 2104 are in the range of
    both crates. *)
Definition timestamp_to_ns (bits : Z) : Z := timestamp_secs bits * 1000000000 + timestamp_nanos bits.

(** sntp/src/fixed_point.rs 18-24. *)
Definition raw_whole (bits : Z) : Z := Z.shiftr bits 16.
Definition raw_fractional (bits : Z) : Z := Z.land bits 0xFFFF.
(** sntp/src/fixed_point.rs 28-35: numerator and denominator of the ratio; [None] is an overflow of u32.
    The conversions to f32 and f64 (37-47) compute the same quotient in floating point and are not modelled. *)
Definition fixed_ratio (bits : Z) : option (Z * Z) :=
  let p := raw_whole bits * 65535 in
  if 4294967296 <=? p then None else
  let s := p + raw_fractional bits in
  if 4294967296 <=? s then None else Some (s, 65535).
