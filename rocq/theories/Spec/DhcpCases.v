(** Concrete packets for the examples beside the DHCP theorems. *)
From Verif Require Import Model.Prelude Model.Bus Model.Chip Model.Specifiers Spec.Sock Spec.Cases Spec.DhcpMsg Model.DhcpClient.

Definition case_mac : list Z := [2; 0; 17; 34; 51; 68].
Definition case_host : list Z := [119; 53; 53; 48; 48].
(** A reply of message type [t] for transaction [xid]: pads, two DNS servers, a lease of one hour, T1. *)
Definition case_items (t : Z) : list item :=
  [Opt 53 [t]; Opt 54 [10; 0; 0; 1]; Pad; Opt 1 [255; 255; 255; 0]; Pad; Pad; Opt 6 [10; 0; 0; 2; 10; 0; 0; 3];
   Opt 51 [0; 0; 14; 16]; Opt 58 [0; 0; 7; 8]; Opt 51 [0; 0; 0; 1]].
Definition case_head (xid : Z) : list Z :=
  bootp 2 1 6 0 xid 0 0x8000 (nothing 4) [10; 0; 0; 77] (nothing 4) (nothing 4) (case_mac ++ nothing 10) (nothing 64) (nothing 128) ++ cookie.
Definition case_reply (xid t : Z) : list Z := case_head xid ++ area (case_items t) ++ 255 :: [0; 0; 0].

(** A client in socket 3 and a chip whose socket 3 talks to the broadcast address; the datagrams in its
    receive buffer come from 10.0.0.1. *)
Definition case_pkt (op xid : Z) (items : list item) : list Z :=
  bootp op 1 6 0 xid 0 0x8000 (nothing 4) [10; 0; 0; 77] (nothing 4) (nothing 4) (case_mac ++ nothing 10) (nothing 64) (nothing 128)
  ++ cookie ++ area items ++ [255].
Definition case_ack (times : list item) : list item := Opt 53 [5] :: Opt 54 [10; 0; 0; 1] :: Opt 1 [255; 255; 255; 0] :: times.
Definition case_from (m : list Z) : dgram := {| d_ip := [10; 0; 0; 1]; d_port := 67; d_data := m |}.
Definition case_dhcp_reg (a : Z) : Z :=
  if (0x0C <=? a) && (a <=? 0x0F) then 255 else if a =? 0x10 then 0 else if a =? 0x11 then 67 else case_reg a.
Definition case_dhcp (ds : list dgram) : chip :=
  mkChip (fun a => if a =? 0x2E then 1 else 0) (upd (fun _ => case_sock 0 []) 3
    (mkSock case_dhcp_reg 0x22 None 0 (fun a => a mod 251) (ring_write (fun _ => 0) 2048 0xFFFE (images ds))
       0xFFF0 0xFFF8 [{| te_ip := [10; 0; 0; 9]; te_port := 0x1234; te_len := 8 |}] []
       0xFFFE ((0xFFFE + zlen (images ds)) mod 65536) (images ds) [])).
Definition case_client (s : State) (since : option Z) (times : Z * Z * Z * Z) : Client :=
  let '(t1, t2, lease, start) := times in
  mkClient Sn3 s since 5 t1 t2 lease start (Some [10; 0; 0; 1]) 0x12345678 0x87654321 case_mac [10; 0; 0; 77] case_host None None
    ([255; 255; 255; 255], 67) 68.
Definition case_asked : Client := case_client Requesting (Some 1000) (0, 0, 0, 0).
(** An hour's lease; the infinite lease; T1 after the end of the lease; another transaction. *)
Definition case_hour : dgram := case_from (case_pkt 2 0x12345678 (case_ack [Opt 51 [0; 0; 14; 16]])).
Definition case_infinite : dgram := case_from (case_pkt 2 0x12345678 (case_ack [Opt 51 [255; 255; 255; 255]])).
Definition case_late_t1 : dgram := case_from (case_pkt 2 0x12345678 (case_ack [Opt 51 [0; 0; 14; 16]; Opt 58 [0; 0; 28; 32]])).
Definition case_foreign : dgram := case_from (case_pkt 2 0x01234567 [Opt 53 [5]]).
Definition case_ticks : list tick := repeat (tick_of [EvCommit 5 6]) 40.
