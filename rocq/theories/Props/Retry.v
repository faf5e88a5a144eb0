(** Repeating a call that failed because of the bus: C94. *)
From Verif Require Import Model.Prelude Model.Bus Model.Chip Model.Specifiers Model.HlTcp Model.HlUdp
  Spec.Sock Spec.Hoare Spec.TcpClient Spec.UdpClient Spec.Retry Spec.Cases.
From Verif Require Proof.RetryP Proof.UdpP.

(** C94, full statement:

      forall dbg sn c rd tx buf sch sch' c', tcp_view (c_sock c (sn_raw sn)) rd tx ->
      run (tcp_write dbg sn buf) sch c = (Done (Err Other), sch', c') ->
      ensures (tcp_write dbg sn buf) (sn_raw sn) c' (fun r s' => exists k, r = Ok k /\
        tcp_view s' rd (tx ++ ztake k buf))

    and likewise for [tcp_read], [udp_recv_from] and [udp_send_to]: the repeated call does what the
    failed one was asked to do, once.  It is false: when SEND or RECV is the transaction that fails, the
    pointer register has already moved.

    The write of the SEND command fails without effect; the same call made again transmits the data
    twice. *)
Theorem C94_tcp_write_refuted : exists sch,
  tcp_view (c_sock case_tcp 3) [] case_tcp_unsent /\
  let '(o, _, c1) := run (tcp_write true Sn3 [1; 2; 3]) sch case_tcp in
  let '(o2, _, c2) := run (tcp_write true Sn3 [1; 2; 3]) [] c1 in
  o = Done (Err Other) /\ tx_stream (c_sock c1 3) = case_tcp_unsent /\
  o2 = Done (Ok 3) /\ tx_stream (c_sock c2 3) = case_tcp_unsent ++ [1; 2; 3; 1; 2; 3].
Proof. exact RetryP.write_twice. Qed.
Print Assumptions C94_tcp_write_refuted.
(** The write of the RECV command fails without effect; the same call made again skips the three bytes the
    failed call had read and returns what happens to lie behind them. *)
Theorem C94_tcp_read_refuted : exists sch,
  tcp_view (c_sock case_tcp 3) [] case_tcp_unsent /\
  unread (c_sock case_tcp 3) = [104; 101; 108; 108; 111] /\
  let '(o, _, c1) := run (tcp_read true Sn3 3) sch case_tcp in
  let '(o2, _, c2) := run (tcp_read true Sn3 3) [] c1 in
  o = Done (Err Other) /\ unread (c_sock c1 3) = [104; 101; 108; 108; 111] /\
  o2 = Done (Ok [108; 111; 0]).
Proof. exact RetryP.read_garbage. Qed.
Print Assumptions C94_tcp_read_refuted.
(** Likewise for a datagram: the second call returns the next datagram, and the first one is lost. *)
Theorem C94_udp_recv_refuted : exists sch,
  udp_view (c_sock case_udp 3) [case_d1; case_d2]
    [frame_to ([10; 0; 0; 9], 0x1234) case_tcp_unsent] ([10; 0; 0; 9], 0x1234) /\
  let '(o, _, c1) := run (udp_recv_from true Sn3 9) sch case_udp in
  let '(o2, _, c2) := run (udp_recv_from true Sn3 9) [] c1 in
  o = Done (Err Other) /\ rx_queue (c_sock c1 3) [case_d1; case_d2] /\
  o2 = Done (Ok ([], (d_ip case_d2, d_port case_d2))).
Proof. exact RetryP.recv_skips. Qed.
Print Assumptions C94_udp_recv_refuted.

(** What does hold: on a bus that may fail at any transaction, the call neither panics nor loops; when it
    reports an error the socket is in one of three states, told apart by the pointer register: nothing
    happened; the pointer moved and nothing else; or the call took full effect although it failed. *)
Theorem C94_tcp_write_partial : forall dbg sn c rd tx buf, tcp_view (c_sock c (sn_raw sn)) rd tx ->
  survives (tcp_write dbg sn buf) (sn_raw sn) c (fun r s' => match r with
    | Ok k => tcp_view s' rd (tx ++ ztake k buf) /\ 0 <= k <= zlen buf /\
        Z.min (Z.min (zlen buf) 65535) (tx_size (c_sock c (sn_raw sn)) - pending (c_sock c (sn_raw sn))) <= k
    | Err e => e = Other /\
        ((tcp_view s' rd tx /\ tx_wr s' = tx_wr (c_sock c (sn_raw sn))) \/
         (tcp_tx_torn s' rd tx /\ tx_wr s' <> tx_wr (c_sock c (sn_raw sn))) \/
         (exists k, 0 < k <= zlen buf /\ tcp_view s' rd (tx ++ ztake k buf) /\
            tx_wr s' <> tx_wr (c_sock c (sn_raw sn))))
    end).
Proof. exact RetryP.tcp_write_survives. Qed.
Print Assumptions C94_tcp_write_partial.
(** So if the write pointer register reads as before, the call can be repeated. *)
Theorem C94_tcp_write_again : forall dbg sn c rd tx buf sch e sch' c', tcp_view (c_sock c (sn_raw sn)) rd tx ->
  run (tcp_write dbg sn buf) sch c = (Done (Err e), sch', c') ->
  tx_wr (c_sock c' (sn_raw sn)) = tx_wr (c_sock c (sn_raw sn)) ->
  ensures (tcp_write dbg sn buf) (sn_raw sn) c' (fun r s' => exists k, r = Ok k /\
    tcp_view s' rd (tx ++ ztake k buf) /\ 0 <= k <= zlen buf /\
    Z.min (Z.min (zlen buf) 65535) (tx_size (c_sock c' (sn_raw sn)) - pending (c_sock c' (sn_raw sn))) <= k).
Proof. exact RetryP.tcp_write_again. Qed.
Print Assumptions C94_tcp_write_again.

Theorem C94_tcp_read_partial : forall dbg sn c rd tx len, tcp_view (c_sock c (sn_raw sn)) rd tx -> 0 <= len ->
  survives (tcp_read dbg sn len) (sn_raw sn) c (fun r s' => match r with
    | Ok d => tcp_view s' (rd ++ d) tx /\ zlen d <= len /\
        Z.min (zlen (unread (c_sock c (sn_raw sn)))) (Z.min len 65535) <= zlen d
    | Err e => e = Other /\
        ((tcp_view s' rd tx /\ rx_rd s' = rx_rd (c_sock c (sn_raw sn))) \/
         (tcp_rx_torn s' rd tx /\ rx_rd s' <> rx_rd (c_sock c (sn_raw sn))) \/
         (exists d, d <> [] /\ zlen d <= len /\ tcp_view s' (rd ++ d) tx /\
            rx_rd s' <> rx_rd (c_sock c (sn_raw sn))))
    end).
Proof. exact RetryP.tcp_read_survives. Qed.
Print Assumptions C94_tcp_read_partial.
Theorem C94_tcp_read_again : forall dbg sn c rd tx len sch e sch' c', tcp_view (c_sock c (sn_raw sn)) rd tx -> 0 <= len ->
  run (tcp_read dbg sn len) sch c = (Done (Err e), sch', c') ->
  rx_rd (c_sock c' (sn_raw sn)) = rx_rd (c_sock c (sn_raw sn)) ->
  ensures (tcp_read dbg sn len) (sn_raw sn) c' (fun r s' => exists d, r = Ok d /\
    tcp_view s' (rd ++ d) tx /\ zlen d <= len /\
    Z.min (zlen (unread (c_sock c' (sn_raw sn)))) (Z.min len 65535) <= zlen d).
Proof. exact RetryP.tcp_read_again. Qed.
Print Assumptions C94_tcp_read_again.

(** Datagrams.  [new] are those that arrived during the call. *)
Theorem C94_udp_recv_partial : forall dbg sn c q fs a len, udp_view (c_sock c (sn_raw sn)) q fs a -> 0 <= len ->
  survives (udp_recv_from dbg sn len) (sn_raw sn) c (fun r s' => exists new, match r with
    | Ok (d, o) => exists x q', q ++ new = x :: q' /\ d = ztake len (d_data x) /\ o = (d_ip x, d_port x) /\
        udp_view s' q' fs a
    | Err e =>
        (e = WouldBlock /\ q = [] /\ udp_view s' (q ++ new) fs a) \/
        (e = Other /\
         ((udp_view s' (q ++ new) fs a /\ rx_rd s' = rx_rd (c_sock c (sn_raw sn))) \/
          (udp_rx_torn s' (q ++ new) fs /\ rx_rd s' <> rx_rd (c_sock c (sn_raw sn))) \/
          (exists x q', q ++ new = x :: q' /\ udp_view s' q' fs a /\
             rx_rd s' <> rx_rd (c_sock c (sn_raw sn)))))
    end).
Proof. exact RetryP.udp_recv_survives. Qed.
Print Assumptions C94_udp_recv_partial.
Theorem C94_udp_recv_again : forall dbg sn c q fs a len sch sch' c', udp_view (c_sock c (sn_raw sn)) q fs a -> 0 <= len ->
  run (udp_recv_from dbg sn len) sch c = (Done (Err Other), sch', c') ->
  rx_rd (c_sock c' (sn_raw sn)) = rx_rd (c_sock c (sn_raw sn)) ->
  ensures (udp_recv_from dbg sn len) (sn_raw sn) c' (fun r s' => exists new,
    (r = Err WouldBlock /\ q = [] /\ udp_view s' (q ++ new) fs a) \/
    (exists d q', q ++ new = d :: q' /\ r = Ok (ztake len (d_data d), (d_ip d, d_port d)) /\ udp_view s' q' fs a)).
Proof. exact RetryP.udp_recv_again. Qed.
Print Assumptions C94_udp_recv_again.

(** A failed [udp_send_to] may leave any destination [x], part old and part new. *)
Theorem C94_udp_send_to_partial : forall dbg sn c q fs a buf a', udp_view (c_sock c (sn_raw sn)) q fs a -> addr_ok a' ->
  survives (udp_send_to dbg sn buf a') (sn_raw sn) c (fun r s' => exists new, match r with
    | Ok k => 0 <= k <= zlen buf /\
        Z.min (Z.min (zlen buf) 65535) (tx_size (c_sock c (sn_raw sn)) - pending (c_sock c (sn_raw sn))) <= k /\
        udp_view s' (q ++ new) (fs ++ sent_frames a' buf k) a'
    | Err e => e = Other /\
        ((exists x, udp_view s' (q ++ new) fs x /\ tx_wr s' = tx_wr (c_sock c (sn_raw sn))) \/
         (udp_tx_torn s' (q ++ new) fs /\ tx_wr s' <> tx_wr (c_sock c (sn_raw sn))) \/
         (exists k, 0 < k <= zlen buf /\ udp_view s' (q ++ new) (fs ++ [frame_to a' (ztake k buf)]) a' /\
            tx_wr s' <> tx_wr (c_sock c (sn_raw sn))))
    end).
Proof. exact RetryP.udp_send_to_survives. Qed.
Print Assumptions C94_udp_send_to_partial.
Theorem C94_udp_send_to_again : forall dbg sn c q fs a buf a' sch e sch' c',
  udp_view (c_sock c (sn_raw sn)) q fs a -> addr_ok a' ->
  run (udp_send_to dbg sn buf a') sch c = (Done (Err e), sch', c') ->
  tx_wr (c_sock c' (sn_raw sn)) = tx_wr (c_sock c (sn_raw sn)) ->
  ensures (udp_send_to dbg sn buf a') (sn_raw sn) c' (fun r s' => exists k new, r = Ok k /\ 0 <= k <= zlen buf /\
    Z.min (Z.min (zlen buf) 65535) (tx_size (c_sock c' (sn_raw sn)) - pending (c_sock c' (sn_raw sn))) <= k /\
    udp_view s' (q ++ new) (fs ++ sent_frames a' buf k) a').
Proof. exact RetryP.udp_send_to_again. Qed.
Print Assumptions C94_udp_send_to_again.

(** The buffer write of a TCP send fails after two bytes; the second attempt sends the data once.  The
    destination of a UDP send is written up to the second byte; the second attempt sets it right. *)
Example C94_case :
  (let '(o, _, c1) := run (tcp_write true Sn3 [1; 2; 3])
      [tick_of []; tick_of []; tick_of [EvTx 1]; {| t_evs := []; t_fault := Some 2%nat |}] case_tcp in
   let '(o2, _, c2) := run (tcp_write true Sn3 [1; 2; 3]) [] c1 in
   o = Done (Err Other) /\ tx_wr (c_sock c1 3) = tx_wr (c_sock case_tcp 3) /\
   o2 = Done (Ok 3) /\ tx_stream (c_sock c2 3) = case_tcp_unsent ++ [1; 2; 3]) /\
  (let '(o, _, c1) := run (udp_send_to true Sn3 [7] ([1; 2; 3; 4], 5))
      [{| t_evs := []; t_fault := Some 2%nat |}] case_udp in
   let '(o2, _, c2) := run (udp_send_to true Sn3 [7] ([1; 2; 3; 4], 5)) [] c1 in
   o = Done (Err Other) /\ dest_ip (c_sock c1 3) = [1; 2; 0; 9] /\
   o2 = Done (Ok 1) /\ tx_frames (c_sock c2 3) =
     [frame_to ([10; 0; 0; 9], 0x1234) case_tcp_unsent; frame_to ([1; 2; 3; 4], 5) [7]]).
Proof. vm_compute. auto 10. Qed.
