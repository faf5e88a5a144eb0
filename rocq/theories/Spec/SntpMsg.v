(** SNTP packets (RFC 4330 section 4). *)
From Verif Require Import Model.Prelude Model.Specifiers Model.Bus Model.Chip Model.Sntp Spec.Sock Spec.UdpClient Spec.Cases.

Record ntp : Type := mkNtp {
  p_leap : Z; p_version : Z; p_mode : Z; p_stratum : Z; p_poll : Z; p_precision : Z;
  p_delay : Z; p_dispersion : Z; p_refid : list Z;
  p_reference : Z; p_originate : Z; p_receive : Z; p_transmit : Z }.
Definition is_u64 (z : Z) : Prop := 0 <= z < 18446744073709551616.
Definition be64 (v : Z) : list Z := be32 (v / 4294967296) ++ be32 (v mod 4294967296).
Definition ntp_ok (p : ntp) : Prop :=
  0 <= p_leap p < 4 /\ 0 <= p_version p < 8 /\ 0 <= p_mode p < 8 /\ is_u8 (p_stratum p) /\ is_u8 (p_poll p) /\
  -128 <= p_precision p < 128 /\ is_u32 (p_delay p) /\ is_u32 (p_dispersion p) /\ zlen (p_refid p) = 4 /\ bytes_ok (p_refid p) /\
  is_u64 (p_reference p) /\ is_u64 (p_originate p) /\ is_u64 (p_receive p) /\ is_u64 (p_transmit p).
Definition ntp_bytes (p : ntp) : list Z :=
  [p_leap p * 64 + p_version p * 8 + p_mode p; p_stratum p; p_poll p; p_precision p mod 256]
  ++ be32 (p_delay p) ++ be32 (p_dispersion p) ++ p_refid p
  ++ be64 (p_reference p) ++ be64 (p_originate p) ++ be64 (p_receive p) ++ be64 (p_transmit p).

(** The request: version 4, mode 3 (client), everything else zero. *)
Definition client_request : ntp := mkNtp 0 4 3 0 0 0 0 0 [0; 0; 0; 0] 0 0 0 0.
(** A reply of a server to it: version 4, mode 4 (server), a stratum that is not reserved, poll copied. *)
Definition usable (p : ntp) : Prop := p_version p = 4 /\ p_mode p = 4 /\ p_stratum p <= 15 /\ p_poll p = 0.
Definition reply_of (p : ntp) : Reply :=
  mkReply (match p_leap p with 0 => NoWarning | 1 => LastMin61Sec | 2 => LastMin59Sec | _ => Alarm end)
    (match p_stratum p with 0 => KoD | 1 => Primary | s => Secondary s end)
    (p_precision p) (p_delay p) (p_dispersion p) (p_refid p)
    (p_reference p) (p_originate p) (p_receive p) (p_transmit p).

(** What one call of [on_recv_interrupt] does with the first datagram [d]; [q'] are the others. *)
Inductive handles (server : addr) (d : dgram) (q' : list dgram) : res err Reply -> list dgram -> Prop :=
| HForeign : (d_ip d, d_port d) <> server -> handles server d q' (Err WouldBlock) q'
| HShort : (d_ip d, d_port d) = server -> zlen (d_data d) < 48 -> handles server d q' (Err UnexpectedEof) (d :: q')
| HUnusable p rest : (d_ip d, d_port d) = server -> ntp_ok p -> d_data d = ntp_bytes p ++ rest -> ~ usable p ->
    handles server d q' (Err WouldBlock) q'
| HReply p rest : (d_ip d, d_port d) = server -> ntp_ok p -> d_data d = ntp_bytes p ++ rest -> usable p ->
    handles server d q' (Ok (reply_of p)) q'.

(** For the examples: the server 10.0.0.1:53 and its reply, which a foreign or short datagram may precede. *)
Definition case_sntp : SntpClient := mkSntp Sn3 123 ([10; 0; 0; 1], 53).
Definition case_ntp : ntp := mkNtp 3 4 4 2 0 (-23) 0x10001 0xFFFF [10; 9; 8; 7] 1 2 3 0xE000000080000000.
Definition case_sntp_chip (ds : list dgram) : chip :=
  mkChip (fun _ => 0) (upd (fun _ => case_sock 0 []) 3 (case_sock 0x22 (images ds))).
