(** Concrete chips for the examples beside the theorems. *)
From Verif Require Import Model.Prelude Model.Bus Model.Chip Spec.Sock.

(** 2 KiB buffers, read pointer 0xFFFE, write pointer 0xFFF8, port 80, destination 10.0.0.9:4660. *)
Definition case_reg (a : Z) : Z :=
  if a =? 0x04 then 0 else if a =? 0x05 then 80 else
  if a =? 0x0C then 10 else if a =? 0x0F then 9 else if a =? 0x10 then 0x12 else if a =? 0x11 then 0x34 else
  if (a =? 0x1E) || (a =? 0x1F) then 2 else
  if a =? 0x24 then 0xFF else if a =? 0x25 then 0xF8 else
  if a =? 0x28 then 0xFF else if a =? 0x29 then 0xFE else 0.

Definition case_sock (status : Z) (received : list Z) : sock :=
  mkSock case_reg status None 0 (fun a => a mod 251)
    (ring_write (fun _ => 0) 2048 0xFFFE received)
    0xFFF0 0xFFF8 [{| te_ip := [10; 0; 0; 9]; te_port := 0x1234; te_len := 8 |}] []
    0xFFFE ((0xFFFE + zlen received) mod 65536) received [].

(** A connected TCP socket 3 with five unread bytes across the pointer wrap and eight unsent ones. *)
Definition case_tcp : chip :=
  mkChip (fun _ => 0) (upd (fun _ => case_sock 0 []) 3 (case_sock 0x17 [104; 101; 108; 108; 111])).
Definition case_tcp_unsent : list Z := ring (fun a => a mod 251) 2048 0xFFF0 8.

(** A UDP socket 3 with two unread datagrams. *)
Definition case_d1 : dgram := {| d_ip := [10; 0; 0; 1]; d_port := 53; d_data := [1; 2; 3] |}.
Definition case_d2 : dgram := {| d_ip := [10; 0; 0; 2]; d_port := 5353; d_data := [] |}.
Definition case_udp : chip :=
  mkChip (fun _ => 0) (upd (fun _ => case_sock 0 []) 3 (case_sock 0x22 (images [case_d1; case_d2]))).

(** A schedule in which bytes arrive and bytes are transmitted between the transactions. *)
Definition tick_of (l : list sevent) : tick :=
  {| t_evs := map (fun e => {| ev_sn := 3; ev_what := e |}) l; t_fault := None |}.

(** A UDP socket 3 with one datagram from a DNS server. *)
Definition case_dns_d (m : list Z) : dgram := {| d_ip := [10; 0; 0; 1]; d_port := 53; d_data := m |}.
Definition case_dns (m : list Z) : chip :=
  mkChip (fun _ => 0) (upd (fun _ => case_sock 0 []) 3 (case_sock 0x22 (images [case_dns_d m]))).
(** A response to query 0x1234: one question for a.bc, then an A record and an SRV record, whose names
    are compressed: a.bc and x.bc. *)
Definition case_response : list Z :=
  [0x12; 0x34; 0x81; 0x80; 0; 1; 0; 2; 0; 0; 0; 0;
   1; 97; 2; 98; 99; 0; 0; 1; 0; 1;
   0xC0; 12; 0; 1; 0x80; 1; 0; 0; 1; 44; 0; 4; 1; 2; 3; 4;
   1; 120; 0xC0; 14; 0; 33; 0; 1; 0; 0; 0; 60; 0; 8; 0; 1; 0; 2; 0; 80; 0xC0; 12].

(** A connected TCP socket 3 with these unread bytes. *)
Definition case_conn (received : list Z) : chip :=
  mkChip (fun _ => 0) (upd (fun _ => case_sock 0 []) 3 (case_sock 0x17 received)).

(** A bus that answers the reads in order, [None] failing; missing bytes are 0, writes succeed. *)
Definition bus_answer (len : Z) (r : option (list Z)) : option (list Z) :=
  match r with None => None | Some l => Some (map (fun b => b mod 256) (firstn (Z.to_nat len) (l ++ zeros (Z.to_nat len)))) end.
Fixpoint play {A} (p : prog A) (script : list (option (list Z))) : outcome A :=
  match p with
  | Ret a => Done a
  | Rd _ _ len k => match script with [] => play (k (bus_answer len (Some []))) [] | r :: l => play (k (bus_answer len r)) l end
  | Wr _ _ _ k => play (k true) script
  | Panic => Panicked
  | Diverge => Diverged
  end.
