(** UDP: C12 - C17. *)
From Verif Require Import Model.Prelude Model.Bus Model.Chip Model.Specifiers Model.HlIo Model.HlUdp
  Spec.Sock Spec.Hoare Spec.Cursor Spec.UdpClient Spec.Cases.
From Verif Require Proof.UdpP.

(** The hypothesis of every theorem below, for a socket with two unread datagrams (the second one
    empty) and one datagram waiting to be transmitted. *)
Example udp_case : udp_view (c_sock case_udp 3) [case_d1; case_d2]
  [frame_to ([10; 0; 0; 9], 0x1234) case_tcp_unsent] ([10; 0; 0; 9], 0x1234).
Proof. exact UdpP.case_udp_view. Qed.

(** C12: one [udp_recv_from].  [new] are the datagrams that arrived during the call. *)
Theorem C12_udp_recv_from : forall dbg sn c q fs a len,
  udp_view (c_sock c (sn_raw sn)) q fs a -> 0 <= len ->
  ensures (udp_recv_from dbg sn len) (sn_raw sn) c (fun r s' => exists new,
    (r = Err WouldBlock /\ q = [] /\ only_events (c_sock c (sn_raw sn)) s' /\ udp_view s' (q ++ new) fs a) \/
    (exists d q', q ++ new = d :: q' /\ r = Ok (ztake len (d_data d), (d_ip d, d_port d)) /\
       udp_view s' q' fs a)).
Proof. exact UdpP.udp_recv_run. Qed.
Print Assumptions C12_udp_recv_from.
(** Any number of calls: the datagrams come out one per call and in order. *)
Theorem C12_udp_recvs : forall dbg sn c q fs a sizes,
  udp_view (c_sock c (sn_raw sn)) q fs a -> Forall (fun n => 0 <= n) sizes ->
  ensures (uops_run dbg sn (map URecv sizes)) (sn_raw sn) c (fun xs s' => exists new got q',
    q ++ new = got ++ q' /\ udp_view s' q' fs a /\ received sizes xs got).
Proof. exact UdpP.udp_recvs. Qed.
Print Assumptions C12_udp_recvs.
(** Receives, peeks, sends, reader and writer sessions in any order. *)
Theorem C12_udp_session : forall dbg sn c q fs a ops,
  udp_view (c_sock c (sn_raw sn)) q fs a -> Forall uop_ok ops ->
  ensures (uops_run dbg sn ops) (sn_raw sn) c (fun xs s' => exists new q' a' out,
    uops_spec (q ++ new) a ops xs q' a' out /\ udp_view s' q' (fs ++ out) a').
Proof. exact UdpP.udp_session. Qed.
Print Assumptions C12_udp_session.
Example C12_case :
  let '(o, _, _) := run (uops_run true Sn3 (map URecv [2; 0; 9; 1; 9]))
    (repeat (tick_of []) 14 ++ [tick_of [EvUdp [10; 0; 0; 3] 7 [8; 9]]]) case_udp in
  o = Done [YRecv [1; 2] ([10; 0; 0; 1], 53); YRecv [] ([10; 0; 0; 2], 5353);
            YErr WouldBlock; YRecv [8] ([10; 0; 0; 3], 7); YErr WouldBlock].
Proof. vm_compute. auto. Qed.

(** C13: peeking changes nothing: the socket afterwards is what events alone made of it. *)
Theorem C13_udp_peek_from : forall dbg sn c q fs a len,
  udp_view (c_sock c (sn_raw sn)) q fs a -> 0 <= len ->
  ensures (udp_peek_from dbg sn len) (sn_raw sn) c (fun r s' => only_events (c_sock c (sn_raw sn)) s' /\
    exists new, udp_view s' (q ++ new) fs a /\
    ((r = Err WouldBlock /\ q = []) \/
     (exists d q', q ++ new = d :: q' /\ r = Ok (ztake len (d_data d), header_of d)))).
Proof. exact UdpP.udp_peek_run. Qed.
Print Assumptions C13_udp_peek_from.
Theorem C13_udp_peek_from_header : forall dbg sn c q fs a,
  udp_view (c_sock c (sn_raw sn)) q fs a ->
  ensures (udp_peek_from_header dbg sn) (sn_raw sn) c (fun r s' => only_events (c_sock c (sn_raw sn)) s' /\
    exists new, udp_view s' (q ++ new) fs a /\
    ((r = Err WouldBlock /\ q = []) \/ (exists d q', q ++ new = d :: q' /\ r = Ok (header_of d)))).
Proof. exact UdpP.udp_peek_header_run. Qed.
Print Assumptions C13_udp_peek_from_header.
Example C13_case :
  let '(o, _, c') := run (uops_run true Sn3 [UPeek 2; UPeekHeader; URecv 3; UPeek 5]) [] case_udp in
  o = Done [YPeek [1; 2] (header_of case_d1); YHeader (header_of case_d1);
            YRecv [1; 2; 3] ([10; 0; 0; 1], 53); YPeek [] (header_of case_d2)].
Proof. vm_compute. auto. Qed.

(** C14: plain sends.  At least the free space at the time of the call is used. *)
Theorem C14_udp_send_to : forall dbg sn c q fs a buf a',
  udp_view (c_sock c (sn_raw sn)) q fs a -> addr_ok a' ->
  ensures (udp_send_to dbg sn buf a') (sn_raw sn) c (fun r s' => exists k new, r = Ok k /\ 0 <= k <= zlen buf /\
    Z.min (Z.min (zlen buf) 65535) (tx_size (c_sock c (sn_raw sn)) - pending (c_sock c (sn_raw sn))) <= k /\
    udp_view s' (q ++ new) (fs ++ sent_frames a' buf k) a').
Proof. exact UdpP.udp_send_to_run. Qed.
Print Assumptions C14_udp_send_to.
Theorem C14_udp_send : forall dbg sn c q fs a buf,
  udp_view (c_sock c (sn_raw sn)) q fs a ->
  ensures (udp_send dbg sn buf) (sn_raw sn) c (fun r s' => exists k new, r = Ok k /\ 0 <= k <= zlen buf /\
    Z.min (Z.min (zlen buf) 65535) (tx_size (c_sock c (sn_raw sn)) - pending (c_sock c (sn_raw sn))) <= k /\
    udp_view s' (q ++ new) (fs ++ sent_frames a buf k) a).
Proof. exact UdpP.udp_send_run. Qed.
Print Assumptions C14_udp_send.
Example C14_case :
  let '(o, _, c') := run (uops_run true Sn3 [USendTo [1; 2; 3] ([10; 0; 0; 7], 99); USend (repeat 4 3000%nat)]) [] case_udp in
  o = Done [YCount 3; YCount 2037] /\
  tx_frames (c_sock c' 3) = [frame_to ([10; 0; 0; 9], 0x1234) case_tcp_unsent;
    frame_to ([10; 0; 0; 7], 99) [1; 2; 3]; frame_to ([10; 0; 0; 7], 99) (repeat 4 2037%nat)].
Proof. vm_compute. auto. Qed.

(** C15, full statement:

      forall dbg sn c q fs a buf, udp_view (c_sock c (sn_raw sn)) q fs a ->
      ensures (udp_send_if_free dbg sn buf) (sn_raw sn) c (fun r s' => exists new,
        (r = Ok (zlen buf) /\ udp_view s' (q ++ new) (fs ++ [frame_to a buf]) a) \/
        (r = Ok 0 /\ udp_view s' (q ++ new) fs a)).

    It is false: with too little space nothing is sent but the length of the buffer is returned. *)
Theorem C15_udp_send_if_free_refuted : exists c buf q fs a, udp_view (c_sock c 3) q fs a /\
  let '(o, _, c') := run (udp_send_if_free false Sn3 buf) [] c in
  o = Done (Ok (zlen buf)) /\ 0 < zlen buf /\ c_sock c' 3 = c_sock c 3.
Proof. exact UdpP.udp_if_free_wrong. Qed.
Print Assumptions C15_udp_send_if_free_refuted.
(** What does hold: the whole buffer or nothing is sent, and always the whole buffer if it fits. *)
Theorem C15_udp_send_if_free_partial : forall dbg sn c q fs a buf,
  udp_view (c_sock c (sn_raw sn)) q fs a -> zlen buf <= 65535 ->
  ensures (udp_send_if_free dbg sn buf) (sn_raw sn) c (fun r s' => exists out new, r = Ok (zlen buf) /\
    udp_view s' (q ++ new) (fs ++ out) a /\
    (out = [frame_to a buf] \/
     (out = [] /\ tx_size (c_sock c (sn_raw sn)) - pending (c_sock c (sn_raw sn)) < zlen buf))).
Proof. exact UdpP.udp_if_free_run. Qed.
Print Assumptions C15_udp_send_if_free_partial.
Theorem C15_udp_send_to_if_free_partial : forall dbg sn c q fs a buf a',
  udp_view (c_sock c (sn_raw sn)) q fs a -> addr_ok a' -> zlen buf <= 65535 ->
  ensures (udp_send_to_if_free dbg sn buf a') (sn_raw sn) c (fun r s' => exists out new, r = Ok (zlen buf) /\
    udp_view s' (q ++ new) (fs ++ out) a' /\
    (out = [frame_to a' buf] \/
     (out = [] /\ tx_size (c_sock c (sn_raw sn)) - pending (c_sock c (sn_raw sn)) < zlen buf))).
Proof. exact UdpP.udp_to_if_free_run. Qed.
Print Assumptions C15_udp_send_to_if_free_partial.
Example C15_case :
  let '(o, _, c') := run (uops_run true Sn3 [USendToIfFree [1; 2; 3] ([10; 0; 0; 7], 99)]) [] case_udp in
  o = Done [YCount 3] /\
  tx_frames (c_sock c' 3) = [frame_to ([10; 0; 0; 9], 0x1234) case_tcp_unsent; frame_to ([10; 0; 0; 7], 99) [1; 2; 3]].
Proof. vm_compute. auto. Qed.

(** C16: a reader session behaves as the same operations on the payload of the oldest datagram, and
    [done] discards that datagram. *)
Theorem C16_udp_reader : forall dbg sn c q fs a ops (fin : bool),
  udp_view (c_sock c (sn_raw sn)) q fs a -> Forall cop_ok ops -> forallb reader_op ops = true ->
  ensures (uop_run dbg sn (UReader ops fin)) (sn_raw sn) c (fun x s' => exists new,
     (x = YErr WouldBlock /\ q = [] /\ udp_view s' (q ++ new) fs a) \/
     (exists d q' xs pos, q ++ new = d :: q' /\ x = YReader (header_of d) xs /\
        asteps (d_data d) 0 ops = (xs, d_data d, pos) /\
        udp_view s' (if fin then q' else d :: q') fs a)).
Proof. exact UdpP.udp_reader_run. Qed.
Print Assumptions C16_udp_reader.
Example C16_case :
  let '(o, _, c') := run (uops_run true Sn3 [UReader [ORead 9; OSeek (SStart 1); OReadExact 1; OReadExact 2] true; UPeekHeader])
    [] case_udp in
  o = Done [YReader (header_of case_d1) [RData [1; 2; 3]; RUnit; RData [2]; RErr UnexpectedEof];
            YHeader (header_of case_d2)].
Proof. vm_compute. auto. Qed.

(** C17: a writer session sends one datagram: its window up to the final position. *)
Theorem C17_udp_writer : forall dbg sn c q fs a ops (fin : wend),
  udp_view (c_sock c (sn_raw sn)) q fs a -> uop_ok (UWriter ops fin) ->
  ensures (uop_run dbg sn (UWriter ops fin)) (sn_raw sn) c (fun x s' => exists new w0 xs w pos,
    x = YWriter xs /\ asteps w0 0 ops = (xs, w, pos) /\
    tx_size (c_sock c (sn_raw sn)) - pending (c_sock c (sn_raw sn)) <= zlen w0 <= tx_size (c_sock c (sn_raw sn)) /\
    udp_view s' (q ++ new)
      (fs ++ match fin with WDrop => [] | WSend => [frame_to a (ztake pos w)]
             | WSendTo a' => [frame_to a' (ztake pos w)] end)
      (match fin with WSendTo a' => a' | _ => a end)).
Proof. exact UdpP.udp_writer_run. Qed.
Print Assumptions C17_udp_writer.
(** Plain writes: the accepted bytes, in order. *)
Theorem C17_udp_writer_writes : forall dbg sn c q fs a ops a',
  udp_view (c_sock c (sn_raw sn)) q fs a -> addr_ok a' -> forallb is_write ops = true ->
  ensures (uop_run dbg sn (UWriter ops (WSendTo a'))) (sn_raw sn) c (fun x s' => exists new xs,
    x = YWriter xs /\ udp_view s' (q ++ new) (fs ++ [frame_to a' (concat (map accepted (combine ops xs)))]) a').
Proof. exact UdpP.udp_writer_writes. Qed.
Print Assumptions C17_udp_writer_writes.
Example C17_case :
  let '(o, _, c') := run (uops_run true Sn3
      [UWriter [OWriteAll [1; 2; 3]; OSeek (SStart 1); OWrite [9; 9; 9]] (WSendTo ([10; 0; 0; 7], 99)); UWriter [OWrite [5]] WSend])
    [tick_of []; tick_of [EvTx 1]] case_udp in
  o = Done [YWriter [RUnit; RUnit; RCount 3]; YWriter [RCount 1]] /\
  tx_frames (c_sock c' 3) = [frame_to ([10; 0; 0; 9], 0x1234) case_tcp_unsent;
    frame_to ([10; 0; 0; 7], 99) [1; 9; 9; 9]; frame_to ([10; 0; 0; 7], 99) [5]].
Proof. vm_compute. auto. Qed.
