(** ll/src/specifiers.rs: enumerations and their raw encodings; ll/src/lib.rs: [Sn]. *)
From Verif Require Import Model.Prelude.

(** ll/src/specifiers.rs 11-139. *)
Inductive SocketStatus : Type :=
| Closed | Init | Listen | SynSent | SynRecv | Established | FinWait | Closing
| TimeWait | CloseWait | LastAck | Udp | Macraw.

(** ll/src/specifiers.rs 140-144 (discriminants 21-138). *)
Definition status_raw (s : SocketStatus) : Z :=
  match s with
  | Closed => 0x00 | Init => 0x13 | Listen => 0x14 | SynSent => 0x15 | SynRecv => 0x16
  | Established => 0x17 | FinWait => 0x18 | Closing => 0x1A | TimeWait => 0x1B
  | CloseWait => 0x1C | LastAck => 0x1D | Udp => 0x22 | Macraw => 0x42
  end.

(** ll/src/specifiers.rs 145-165. *)
Definition status_try_from (v : Z) : res Z SocketStatus :=
  if v =? 0x00 then Ok Closed else
  if v =? 0x13 then Ok Init else
  if v =? 0x14 then Ok Listen else
  if v =? 0x15 then Ok SynSent else
  if v =? 0x16 then Ok SynRecv else
  if v =? 0x17 then Ok Established else
  if v =? 0x18 then Ok FinWait else
  if v =? 0x1A then Ok Closing else
  if v =? 0x1B then Ok TimeWait else
  if v =? 0x1C then Ok CloseWait else
  if v =? 0x1D then Ok LastAck else
  if v =? 0x22 then Ok Udp else
  if v =? 0x42 then Ok Macraw else Err v.

(** Derived [PartialEq] on [Result<SocketStatus, u8>] (specifiers.rs 8). *)
Definition status_eqb (a b : SocketStatus) : bool := status_raw a =? status_raw b.
Definition rstatus_eqb (a b : res Z SocketStatus) : bool :=
  match a, b with
  | Ok x, Ok y => status_eqb x y
  | Err x, Err y => x =? y
  | _, _ => false
  end.

(** ll/src/specifiers.rs 184-326. *)
Inductive SocketCommand : Type :=
| CAccepted | COpen | CListen | CConnect | CDisconnect | CClose | CSend | CSendMac | CSendKeep | CRecv.

(** ll/src/specifiers.rs 327-331 (discriminants 187-325). *)
Definition command_raw (c : SocketCommand) : Z :=
  match c with
  | CAccepted => 0x00 | COpen => 0x01 | CListen => 0x02 | CConnect => 0x04
  | CDisconnect => 0x08 | CClose => 0x10 | CSend => 0x20 | CSendMac => 0x21
  | CSendKeep => 0x22 | CRecv => 0x40
  end.

(** ll/src/specifiers.rs 332-349. *)
Definition command_try_from (v : Z) : res Z SocketCommand :=
  if v =? 0x00 then Ok CAccepted else
  if v =? 0x01 then Ok COpen else
  if v =? 0x02 then Ok CListen else
  if v =? 0x04 then Ok CConnect else
  if v =? 0x08 then Ok CDisconnect else
  if v =? 0x10 then Ok CClose else
  if v =? 0x20 then Ok CSend else
  if v =? 0x21 then Ok CSendMac else
  if v =? 0x22 then Ok CSendKeep else
  if v =? 0x40 then Ok CRecv else Err v.

(** ll/src/specifiers.rs 360-374. *)
Inductive Protocol : Type := PClosed | PTcp | PUdp | PMacraw.

(** ll/src/specifiers.rs 402-406 (discriminants 363-373). *)
Definition protocol_raw (p : Protocol) : Z :=
  match p with PClosed => 0 | PTcp => 1 | PUdp => 2 | PMacraw => 4 end.

(** ll/src/specifiers.rs 392-400, 407-412. *)
Definition protocol_from_raw (v : Z) : res Z Protocol :=
  if v =? 0 then Ok PClosed else
  if v =? 1 then Ok PTcp else
  if v =? 2 then Ok PUdp else
  if v =? 4 then Ok PMacraw else Err v.

(** ll/src/specifiers.rs 423-439. *)
Inductive OperationMode : Type :=
| HalfDuplex10bt | FullDuplex10bt | HalfDuplex100bt | FullDuplex100bt
| HalfDuplex100btAuto | PowerDown | Auto.

(** ll/src/specifiers.rs 486-490 (discriminants 425-438). *)
Definition opmode_raw (m : OperationMode) : Z :=
  match m with
  | HalfDuplex10bt => 0 | FullDuplex10bt => 1 | HalfDuplex100bt => 2 | FullDuplex100bt => 3
  | HalfDuplex100btAuto => 4 | PowerDown => 6 | Auto => 7
  end.

(** ll/src/specifiers.rs 473-484. *)
Definition opmode_from_raw (v : Z) : OperationMode :=
  let x := Z.land v 7 in
  if x =? 0 then HalfDuplex10bt else
  if x =? 1 then FullDuplex10bt else
  if x =? 2 then HalfDuplex100bt else
  if x =? 3 then FullDuplex100bt else
  if x =? 4 then HalfDuplex100btAuto else
  if x =? 6 then PowerDown else Auto.

(** ll/src/specifiers.rs 501-521, 532-552, 563-583: two-valued statuses. *)
Inductive LinkStatus : Type := LinkDown | LinkUp.
Definition link_of_bool (b : bool) : LinkStatus := if b then LinkUp else LinkDown.
Definition link_raw (l : LinkStatus) : Z := match l with LinkDown => 0 | LinkUp => 1 end.
Inductive SpeedStatus : Type := Mbps10 | Mbps100.
Definition speed_of_bool (b : bool) : SpeedStatus := if b then Mbps100 else Mbps10.
Definition speed_raw (l : SpeedStatus) : Z := match l with Mbps10 => 0 | Mbps100 => 1 end.
Inductive DuplexStatus : Type := DHalf | DFull.
Definition duplex_of_bool (b : bool) : DuplexStatus := if b then DFull else DHalf.
Definition duplex_raw (l : DuplexStatus) : Z := match l with DHalf => 0 | DFull => 1 end.

(** ll/src/specifiers.rs 596-609. *)
Inductive BufferSize : Type := KB0 | KB1 | KB2 | KB4 | KB8 | KB16.

(** ll/src/specifiers.rs 610-628. *)
Definition bufsize_raw (b : BufferSize) : Z :=
  match b with KB0 => 0 | KB1 => 1 | KB2 => 2 | KB4 => 4 | KB8 => 8 | KB16 => 16 end.

(** ll/src/specifiers.rs 630-659. *)
Definition bufsize_try_from (v : Z) : res Z BufferSize :=
  if v =? 0 then Ok KB0 else
  if v =? 1 then Ok KB1 else
  if v =? 2 then Ok KB2 else
  if v =? 4 then Ok KB4 else
  if v =? 8 then Ok KB8 else
  if v =? 16 then Ok KB16 else Err v.

(** ll/src/specifiers.rs 691-700. *)
Definition bufsize_in_bytes (b : BufferSize) : Z :=
  match b with
  | KB0 => 0 | KB1 => 1024 | KB2 => 2048 | KB4 => 4096 | KB8 => 8192 | KB16 => 16384
  end.

(** ll/src/lib.rs 120-141: [Sn]. *)
Inductive Sn : Type := Sn0 | Sn1 | Sn2 | Sn3 | Sn4 | Sn5 | Sn6 | Sn7.

(** ll/src/lib.rs 291-296: discriminant. *)
Definition sn_raw (s : Sn) : Z :=
  match s with
  | Sn0 => 0 | Sn1 => 1 | Sn2 => 2 | Sn3 => 3 | Sn4 => 4 | Sn5 => 5 | Sn6 => 6 | Sn7 => 7
  end.

(** ll/src/lib.rs 298-315. *)
Definition sn_try_from (v : Z) : res Z Sn :=
  if v =? 0 then Ok Sn0 else
  if v =? 1 then Ok Sn1 else
  if v =? 2 then Ok Sn2 else
  if v =? 3 then Ok Sn3 else
  if v =? 4 then Ok Sn4 else
  if v =? 5 then Ok Sn5 else
  if v =? 6 then Ok Sn6 else
  if v =? 7 then Ok Sn7 else Err v.

(** ll/src/lib.rs 81-89: block layout constants. *)
Definition COMMON_BLOCK_OFFSET : Z := 0x00.
Definition SOCKET_SPACING : Z := 0x04.
Definition SOCKET_BLOCK_OFFSET : Z := 0x01.
Definition SOCKET_TX_OFFSET : Z := 0x02.
Definition SOCKET_RX_OFFSET : Z := 0x03.

(** ll/src/lib.rs 161-205. *)
Definition sn_block (s : Sn) : Z := SOCKET_SPACING * sn_raw s + SOCKET_BLOCK_OFFSET.
Definition sn_tx_block (s : Sn) : Z := SOCKET_SPACING * sn_raw s + SOCKET_TX_OFFSET.
Definition sn_rx_block (s : Sn) : Z := SOCKET_SPACING * sn_raw s + SOCKET_RX_OFFSET.

(** ll/src/lib.rs 252-254. *)
Definition sn_bitmask (s : Sn) : Z := Z.shiftl 1 (sn_raw s).

(** ll/src/lib.rs 386-395. *)
Definition SOCKETS : list Sn := [Sn0; Sn1; Sn2; Sn3; Sn4; Sn5; Sn6; Sn7].

(** Derived [PartialEq] of [Sn] (ll/src/lib.rs 118). *)
Definition sn_eqb (a b : Sn) : bool := sn_raw a =? sn_raw b.
