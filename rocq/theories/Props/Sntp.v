(** The SNTP client: C38 - C40. *)
From Verif Require Import Model.Prelude Model.Bus Model.Chip Model.Specifiers Model.HlIo Model.HlUdp Model.Stream Model.Sntp
  Spec.Sock Spec.Hoare Spec.Cursor Spec.UdpClient Spec.Calls Spec.StreamRun Spec.Cases Spec.DhcpMsg Spec.SntpMsg.
From Verif Require Proof.SntpP Proof.SntpNumP Proof.DnsMainP.

(** C38: the request is one datagram to the socket's destination with exactly the NTPv4 client packet; if it
    does not fit in the transmit buffer nothing is sent. *)
Theorem C38_request : forall cl c q fs a, let s := c_sock c (sn_raw (sc_sn cl)) in udp_view s q fs a ->
  ensures (sntp_request cl) (sn_raw (sc_sn cl)) c (dispatched (tx_size s - pending s) q fs a a (ntp_bytes client_request)).
Proof. exact SntpNumP.request_run. Qed.
Print Assumptions C38_request.
(** The setup opens the socket with the server as its destination. *)
Theorem C38_setup : forall dbg fuel cl c sch sch' c',
  is_u16 (sc_port cl) -> addr_ok (sc_server cl) -> sizes_ok (c_sock c (sn_raw (sc_sn cl))) -> no_faults sch ->
  run (sntp_setup_socket dbg fuel cl) sch c = (Done (Ok tt), sch', c') ->
  exists q fs, udp_view (c_sock c' (sn_raw (sc_sn cl))) q fs (sc_server cl).
Proof. exact SntpNumP.sntp_setup_run. Qed.
Print Assumptions C38_setup.
(** A call looks at the first datagram, [new] being those that arrived during the call; [handles] says what is
    reported and which datagrams remain. *)
Theorem C38_reply : forall dbg cl c q fs a, udp_view (c_sock c (sn_raw (sc_sn cl))) q fs a ->
  ensures (on_recv_interrupt dbg cl) (sn_raw (sc_sn cl)) c (fun r s' => exists new q', udp_view s' q' fs a /\
    ((r = Err WouldBlock /\ q = [] /\ q' = new) \/
     exists d q1, q ++ new = d :: q1 /\ exists q2 more, q' = q2 ++ more /\ handles (sc_server cl) d q1 r q2)).
Proof. exact SntpNumP.on_recv_run. Qed.
Print Assumptions C38_reply.
(** Every packet of 48 bytes has the fields that [handles] speaks of, and they determine the outcome. *)
Theorem C38_every_packet : forall b, bytes_ok b -> 48 <= zlen b -> exists p rest, ntp_ok p /\ b = ntp_bytes p ++ rest.
Proof. exact SntpNumP.ntp_every. Qed.
Print Assumptions C38_every_packet.
Theorem C38_reply_determined : forall server d q1 r q2 p rest, handles server d q1 r q2 ->
  (d_ip d, d_port d) = server -> ntp_ok p -> d_data d = ntp_bytes p ++ rest -> usable p -> r = Ok (reply_of p) /\ q2 = q1.
Proof. exact SntpNumP.handles_reply. Qed.
Print Assumptions C38_reply_determined.
Example C38_case : ntp_ok case_ntp /\ usable case_ntp /\
  udp_view (c_sock (case_sntp_chip [case_dns_d (ntp_bytes case_ntp)]) 3) [case_dns_d (ntp_bytes case_ntp)]
    [frame_to ([10; 0; 0; 9], 0x1234) case_tcp_unsent] ([10; 0; 0; 9], 0x1234) /\
  fst (fst (run (on_recv_interrupt true case_sntp) [] (case_sntp_chip [case_dns_d (ntp_bytes case_ntp)]))) =
    Done (Ok (mkReply Alarm (Secondary 2) (-23) 0x10001 0xFFFF [10; 9; 8; 7] 1 2 3 0xE000000080000000)) /\
  sizes_ok (c_sock case_udp 3) /\
  let '(o, _, c') := run (sntp_setup_socket true 9 case_sntp ;;; sntp_request case_sntp)%Z
    (repeat (tick_of [EvCommit 5 6]) 40 ++ [tick_of [EvTx 3]]) case_udp in
  o = Done (Ok tt) /\
  last (s_wire (fold_left sock_ev [EvTx 1] (c_sock c' 3))) (frame_to ([], 0) []) = frame_to ([10; 0; 0; 1], 53) (0x23 :: repeat 0 47).
Proof.
  split; [repeat split; try (vm_compute; discriminate); vm_compute; repeat constructor; discriminate|].
  split; [repeat split; vm_compute; discriminate|]. split; [DnsMainP.case_view|].
  split; [vm_compute; reflexivity|]. split; [split; vm_compute; auto|]. vm_compute. auto.
Qed.

(** C39, seconds: the 64 bits are kept (C38), the upper half counts seconds from 1900 or, with a clear top
    bit, from 2036. *)
Theorem C39_seconds : forall bits, is_u64 bits ->
  timestamp_secs bits = bits / 2 ^ 32 + (if bits <? 2 ^ 63 then 2 ^ 32 else 0).
Proof. exact SntpNumP.secs_spec. Qed.
Print Assumptions C39_seconds.
(** The nanoseconds are within 1 ns of the fraction, and below 10^9 except for the largest fraction. *)
Theorem C39_nanos_partial : forall bits, let f := bits mod 2 ^ 32 in let n := timestamp_nanos bits in
  0 <= n <= 10 ^ 9 /\ (n = 10 ^ 9 -> f = 2 ^ 32 - 1) /\ f * 10 ^ 9 - 2 ^ 32 < n * 2 ^ 32 < f * 10 ^ 9 + 2 ^ 32.
Proof. exact SntpNumP.nanos_spec. Qed.
Print Assumptions C39_nanos_partial.
Theorem C39_nanos_refuted : exists bits, is_u64 bits /\ timestamp_nanos bits = 10 ^ 9.
Proof. exists 0xFFFFFFFF. split; [split; vm_compute; [discriminate|reflexivity]|vm_compute; reflexivity]. Qed.
Print Assumptions C39_nanos_refuted.
(** A date from 1968 to 2104 becomes a timestamp that is at most 1 ns earlier; no date makes the conversion panic. *)
Theorem C39_date_partial : forall ns, 2 ^ 31 * 10 ^ 9 <= ns < (2 ^ 31 + 2 ^ 32) * 10 ^ 9 ->
  exists bits, timestamp_from_ns ns = Some (Ok bits) /\ is_u64 bits /\ ns - 1 <= timestamp_to_ns bits <= ns.
Proof. exact SntpNumP.from_to_ns. Qed.
Print Assumptions C39_date_partial.
Theorem C39_date_no_panic : forall ns, timestamp_from_ns ns <> None.
Proof. exact SntpNumP.from_ns_total. Qed.
Print Assumptions C39_date_no_panic.
(** Earlier dates are accepted too, but come back 136 years later. *)
Theorem C39_date_refuted : exists ns bits, 0 <= ns /\ timestamp_from_ns ns = Some (Ok bits) /\ timestamp_to_ns bits = ns + 2 ^ 32 * 10 ^ 9.
Proof. exists 1577836800000000000, 6776757454425292800. split; [discriminate|]. split; vm_compute; reflexivity. Qed.
Print Assumptions C39_date_refuted.
(** C39, fixed point: the ratio is not raw / 65536, but above it by at most 2^-16. *)
Theorem C39_fixed_partial : forall bits, is_u32 bits -> exists n, fixed_ratio bits = Some (n, 65535) /\
  0 <= n * 65536 - bits * 65535 <= 65535 /\ (n * 65536 = bits * 65535 <-> bits mod 65536 = 0).
Proof. exact SntpNumP.fixed_spec. Qed.
Print Assumptions C39_fixed_partial.
Theorem C39_fixed_refuted : exists bits n d, is_u32 bits /\ fixed_ratio bits = Some (n, d) /\ n * 65536 <> bits * d.
Proof. exists 0x8000, 0x8000, 65535. split; [split; [discriminate|reflexivity]|]. split; [reflexivity|discriminate]. Qed.
Print Assumptions C39_fixed_refuted.
Example C39_case : timestamp_secs 0xE000000080000000 = 3758096384 /\ timestamp_nanos 0xE000000080000000 = 500000000 /\
  timestamp_secs 0x80000000 = 2 ^ 32 /\ timestamp_from_ns 3758096384500000000 = Some (Ok 0xE00000007FFFFFFF) /\
  timestamp_to_ns 0xE00000007FFFFFFF = 3758096384499999999 /\ fixed_ratio 0x30001 = Some (3 * 65535 + 1, 65535).
Proof. vm_compute. repeat split. Qed.

(** C40: a datagram that is from somebody else, or that is not a usable reply, is removed, and the reply
    after it decoded by the next call.  Missing: datagrams of the server shorter than 48 bytes. *)
Theorem C40_next_reply_partial : forall dbg cl c d g q fs a p rest, let s := c_sock c (sn_raw (sc_sn cl)) in
  udp_view s (d :: g :: q) fs a ->
  (d_ip d, d_port d) <> sc_server cl \/ 48 <= zlen (d_data d) ->
  (forall p rest, (d_ip d, d_port d) = sc_server cl -> ntp_ok p -> d_data d = ntp_bytes p ++ rest -> ~ usable p) ->
  (d_ip g, d_port g) = sc_server cl -> ntp_ok p -> d_data g = ntp_bytes p ++ rest -> usable p ->
  ensures (x <-- on_recv_interrupt dbg cl ;; y <-- on_recv_interrupt dbg cl ;; Ret (x, y)) (sn_raw (sc_sn cl)) c
    (fun r s' => r = (Err WouldBlock, Ok (reply_of p)) /\ exists new, udp_view s' (q ++ new) fs a).
Proof. exact SntpNumP.two_calls. Qed.
Print Assumptions C40_next_reply_partial.
(** Those stay at the head of the queue, so that every later call fails in the same way. *)
Theorem C40_short_stays : forall dbg cl c d q fs a, let s := c_sock c (sn_raw (sc_sn cl)) in
  udp_view s (d :: q) fs a -> (d_ip d, d_port d) = sc_server cl -> zlen (d_data d) < 48 ->
  ensures (on_recv_interrupt dbg cl) (sn_raw (sc_sn cl)) c
    (fun r s' => r = Err UnexpectedEof /\ exists new, udp_view s' (d :: q ++ new) fs a).
Proof. exact SntpNumP.short_stays. Qed.
Print Assumptions C40_short_stays.
(** The full statement is false: two datagrams, the second a valid reply, which two calls do not report. *)
Theorem C40_next_reply_refuted : exists c d g, udp_view (c_sock c 3) [d; g] [frame_to ([10; 0; 0; 9], 0x1234) case_tcp_unsent] ([10; 0; 0; 9], 0x1234) /\
  (d_ip g, d_port g) = sc_server case_sntp /\ d_data g = ntp_bytes case_ntp /\ usable case_ntp /\
  fst (fst (run (x <-- on_recv_interrupt true case_sntp ;; y <-- on_recv_interrupt true case_sntp ;; Ret (x, y)) [] c)) =
    Done (Err UnexpectedEof, Err UnexpectedEof).
Proof.
  exists (case_sntp_chip [case_dns_d [1]; case_dns_d (ntp_bytes case_ntp)]), (case_dns_d [1]), (case_dns_d (ntp_bytes case_ntp)).
  split; [DnsMainP.case_view|]. split; [reflexivity|]. split; [reflexivity|]. split; [repeat split; vm_compute; discriminate|].
  vm_compute. reflexivity.
Qed.
Print Assumptions C40_next_reply_refuted.
Example C40_case :
  fst (fst (run (x <-- on_recv_interrupt true case_sntp ;; y <-- on_recv_interrupt true case_sntp ;; Ret (x, y)) []
    (case_sntp_chip [case_d2; case_dns_d (ntp_bytes case_ntp)]))) = Done (Err WouldBlock, Ok (reply_of case_ntp)) /\
  fst (fst (run (x <-- on_recv_interrupt true case_sntp ;; y <-- on_recv_interrupt true case_sntp ;; Ret (x, y)) []
    (case_sntp_chip [case_dns_d (ntp_bytes client_request); case_dns_d (ntp_bytes case_ntp)]))) = Done (Err WouldBlock, Ok (reply_of case_ntp)) /\
  ~ usable client_request.
Proof. split; [vm_compute; reflexivity|]. split; [vm_compute; reflexivity|]. intros (_ & X & _). discriminate. Qed.
