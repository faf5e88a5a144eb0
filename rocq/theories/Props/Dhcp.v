(** DHCP packets: C29 - C32. *)
From Verif Require Import Model.Prelude Model.Bus Model.Chip Model.Specifiers Model.HlIo Model.HlUdp Model.Stream Model.DhcpPkt
  Spec.Sock Spec.Hoare Spec.Cursor Spec.UdpClient Spec.StreamRun Spec.Cases Spec.DhcpMsg Spec.DhcpCases.
From Verif Require Proof.DhcpPktP Proof.DhcpChipP Proof.DhcpCaseP.

(** C29: a DISCOVER is one datagram to the broadcast address holding exactly the RFC 2131 message; if it
    does not fit in the transmit buffer nothing is sent. *)
Theorem C29_discover : forall dbg sn c q fs a mac hostname xid b, let s := c_sock c (sn_raw sn) in
  udp_view s q fs a -> addr_ok b -> zlen mac = 6 -> bytes_ok mac -> zlen hostname <= 255 -> bytes_ok hostname ->
  ensures (send_dhcp_discover dbg sn mac hostname xid b) (sn_raw sn) c
    (dispatched (tx_size s - pending s) q fs a b (client_msg xid mac (discover_opts mac hostname))).
Proof. exact DhcpChipP.send_discover_run. Qed.
Print Assumptions C29_discover.
(** A REQUEST goes to the current destination of the socket. *)
Theorem C29_request : forall sn c q fs a mac ip hostname server xid, let s := c_sock c (sn_raw sn) in
  udp_view s q fs a -> zlen mac = 6 -> bytes_ok mac -> zlen hostname <= 255 -> bytes_ok hostname ->
  zlen ip = 4 -> bytes_ok ip -> match server with Some x => zlen x = 4 /\ bytes_ok x | None => True end ->
  ensures (send_dhcp_request sn mac ip hostname server xid) (sn_raw sn) c
    (dispatched (tx_size s - pending s) q fs a a (client_msg xid mac (request_opts mac hostname ip server))).
Proof. exact DhcpChipP.send_request_run. Qed.
Print Assumptions C29_request.
(** The options of a message are found again by a linear scan of it. *)
Theorem C29_options_found : forall xid mac opts code rest, 1 <= code <= 254 -> zlen mac = 6 -> Forall item_ok opts ->
  exists f, finds code (zdrop 240 (client_msg xid mac opts ++ rest)) f /\
    match first_opt code opts with
    | None => f = Absent
    | Some v => exists more, f = Present (zlen v) (v ++ more)
    end.
Proof. exact DhcpChipP.client_msg_finds. Qed.
Print Assumptions C29_options_found.
Example C29_case :
  udp_view (c_sock case_udp 3) [case_d1; case_d2] [frame_to ([10; 0; 0; 9], 0x1234) case_tcp_unsent] ([10; 0; 0; 9], 0x1234) /\
  let '(o, _, c') := run (send_dhcp_discover true Sn3 case_mac case_host 0x12345678 ([255; 255; 255; 255], 67))
    [tick_of [EvTx 3]] case_udp in
  o = Done (Ok tt) /\
  last (s_wire (fold_left sock_ev [EvTx 1] (c_sock c' 3))) (frame_to ([], 0) []) =
    frame_to ([255; 255; 255; 255], 67) ([1; 1; 6; 0; 0x12; 0x34; 0x56; 0x78; 0; 0; 128; 0] ++ repeat 0 16 ++ case_mac ++ repeat 0 202 ++
      [99; 130; 83; 99; 53; 1; 1; 61; 7; 1] ++ case_mac ++ [12; 5] ++ case_host ++ [255]) /\
  let '(o, _, _) := run (send_dhcp_request Sn3 case_mac [10; 0; 0; 77] (repeat 97 253) (Some [10; 0; 0; 1]) 0) []
    (mkChip (fun _ => 0) (upd (fun _ => case_sock 0 []) 3 (with_reg (case_sock 0x22 []) (upd case_reg 0x1F 0)))) in
  o = Done (Err OutOfMemory).
Proof. split; [exact DhcpCaseP.case_udp_view2|]. vm_compute. auto. Qed.

(** C30: whatever was looked up before, an accessor answers what it answers on a fresh packet with an
    empty cache. *)
Theorem C30_cache_transparent : forall w fuel gs pos,
  bytes_ok w -> zlen w <= 65280 -> zlen w < Z.of_nat fuel -> 0 <= pos <= zlen w ->
  exists rs k' pos', arun (gets fuel gs cache_new) w pos = (Done (rs, k'), w, pos') /\
    Forall2 (fun g r => exists k1 p1, arun (get fuel g cache_new) w 0 = (Done (r, k1), w, p1)) gs rs.
Proof. exact DhcpPktP.gets_fresh. Qed.
Print Assumptions C30_cache_transparent.
(** ... and what a linear scan of the option area from its start finds. *)
Theorem C30_linear_scan : forall w fuel gs pos,
  bytes_ok w -> zlen w <= 65280 -> zlen w < Z.of_nat fuel -> 0 <= pos <= zlen w ->
  exists rs k' pos', arun (gets fuel gs cache_new) w pos = (Done (rs, k'), w, pos') /\
    0 <= pos' <= zlen w /\ Forall2 (answers w) gs rs.
Proof. exact DhcpPktP.gets_arun. Qed.
Print Assumptions C30_linear_scan.
(** The scan is deterministic. *)
Theorem C30_answers_unique : forall w g r r', answers w g r -> answers w g r' -> r = r'.
Proof. exact DhcpPktP.answers_fun. Qed.
Print Assumptions C30_answers_unique.
(** More options than the cache holds, the last two truncated. *)
Example C30_case : let w := repeat 7 240 ++ concat (map (fun c => [c; 1; c]) [12; 15; 2; 3; 4; 5; 7; 8; 9; 10; 11; 53]) ++ [0; 0; 0; 51; 4; 1; 2] in
  let gs := [GMsgType; GLease; GMsgType; GServer; GXid; GMsgType] in
  bytes_ok w /\ zlen w <= 65280 /\
  fst (fst (arun (gets 400 gs cache_new) w 0)) =
    Done ([Ok (AType None); Err UnexpectedEof; Ok (AType None); Err UnexpectedEof; Ok (AXid 0x07070707); Ok (AType None)],
          snd (match fst (fst (arun (gets 400 gs cache_new) w 0)) with Done x => x | _ => ([], []) end)).
Proof. split; [apply DnsMainP.bytes_check; reflexivity|]. split; [discriminate|]. vm_compute. reflexivity. Qed.

(** C31: on the chip, any sequence of accessor calls on any received datagram terminates, does not panic,
    and answers from the bytes of the datagram alone, which stays in the buffer. *)
Theorem C31_accessors_total : forall dbg fuel gs sn c d q fs a,
  udp_view (c_sock c (sn_raw sn)) (d :: q) fs a -> zlen (d_data d) < Z.of_nat fuel ->
  ensures (r <- udp_reader dbg sn ;; x <-- on_cursor (ur_inner r) (gets fuel gs cache_new) ;; ret (fst (fst x))) (sn_raw sn) c
    (fun r s' => exists rs new, r = Ok rs /\ Forall2 (answers (d_data d)) gs rs /\ udp_view s' (d :: q ++ new) fs a).
Proof. exact DhcpChipP.look_up_run. Qed.
Print Assumptions C31_accessors_total.
(** There is an answer for every packet: a value or [UnexpectedEof]. *)
Theorem C31_answers_exist : forall w g, bytes_ok w -> zlen w <= 65280 ->
  exists r, answers w g r /\ (r = Err UnexpectedEof \/ exists v, r = Ok v).
Proof. exact DhcpChipP.answers_shape. Qed.
Print Assumptions C31_answers_exist.
Example C31_case : let c := case_dns (case_reply 0x12345678 5) in
  udp_view (c_sock c 3) [case_dns_d (case_reply 0x12345678 5)] [frame_to ([10; 0; 0; 9], 0x1234) case_tcp_unsent] ([10; 0; 0; 9], 0x1234) /\
  fst (fst (run (r <- udp_reader true Sn3 ;; x <-- on_cursor (ur_inner r) (gets 400 [GNtp; GOp; GXid; GYiaddr; GDns; GLease] cache_new) ;; ret (fst (fst x)))
    [] c)) = Done (Ok [Ok (AIp None); Ok (AIsRequest false); Ok (AXid 0x12345678); Ok (AAddr [10; 0; 0; 77]);
                       Ok (AIp (Some [10; 0; 0; 2])); Ok (ATime (Some 3600))]).
Proof. split; [exact DhcpCaseP.case_reply_view|]. vm_compute. reflexivity. Qed.

(** C32: in a well-formed reply each option accessor returns the value of the first option with its code. *)
Theorem C32_options_decoded : forall pre items rest fuel gs pos w,
  w = pre ++ area items ++ 255 :: rest -> zlen pre = 240 -> Forall item_ok items ->
  bytes_ok w -> zlen w <= 65280 -> zlen w < Z.of_nat fuel -> 0 <= pos <= zlen w ->
  exists rs k' pos', arun (gets fuel gs cache_new) w pos = (Done (rs, k'), w, pos') /\
    Forall2 (fun g r => forall code, code_of g = Some code -> r = Ok (opt_answer g (first_opt code items))) gs rs.
Proof. exact DhcpPktP.gets_values. Qed.
Print Assumptions C32_options_decoded.
Example C32_case : let w := case_reply 0x12345678 5 in
  w = case_head 0x12345678 ++ area (case_items 5) ++ 255 :: [0; 0; 0] /\ zlen (case_head 0x12345678) = 240 /\
  Forall item_ok (case_items 5) /\ bytes_ok w /\ zlen w <= 65280 /\
  map (fun g => opt_answer g (match code_of g with Some k => first_opt k (case_items 5) | None => None end))
    [GMsgType; GSubnet; GServer; GDns; GNtp; GLease; GRenewal; GRebinding] =
  [AType (Some Ack); AIp (Some [255; 255; 255; 0]); AIp (Some [10; 0; 0; 1]); AIp (Some [10; 0; 0; 2]); AIp None;
   ATime (Some 3600); ATime (Some 1800); ATime None].
Proof.
  split; [reflexivity|]. split; [reflexivity|]. split; [apply DhcpCaseP.case_items_ok; lia|]. split; [exact DhcpCaseP.case_reply_bytes|].
  split; [discriminate|reflexivity].
Qed.
