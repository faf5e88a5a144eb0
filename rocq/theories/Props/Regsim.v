(** The simulator: C85 to C90. *)
From Verif Require Import Model.Prelude Model.Bus Model.Chip Model.Specifiers Model.LlAddr Model.LlBits Model.Regsim
  Spec.Hoare Spec.Sock Spec.Regsim Spec.RegsimCases Model.Ll Model.HlCommon Model.HlUdp Model.HlTcp.
From Verif Require Proof.RegsimMoreP Proof.RegsimCaseP.
Local Open Scope list_scope.

(** C85: a program that runs on the simulator without meeting one of the known differences ([alike])
    runs on the chip in the same way, with the same result: some sequence of network events makes the
    chip do what the host's network made the simulator do.  The two are then again in the same state, up to
    events that are still due.  What is missing: the situations [alike] excludes. *)
Theorem C85_simulates_partial : forall A dbg (p : prog A) ns m c o ns' m', same_state m c -> alike dbg p ns m = true ->
  sim_run dbg p ns m = (o, ns', m') -> o <> Panicked ->
  exists sch c' evs, no_faults sch /\ run p sch c = (o, [], c') /\ same_state m' (chip_evs c' evs).
Proof. exact @RegsimCaseP.simulates. Qed.
Print Assumptions C85_simulates_partial.
(** A new simulator is in the state of the chip after a reset. *)
Theorem C85_reset : same_state (sim_default []) reset_chip.
Proof. exact RegsimMoreP.reset_same. Qed.
Print Assumptions C85_reset.
(** What was proved for the chip holds in the simulator. *)
Theorem C85_transfer_partial : forall A dbg (p : prog A) ns m c n Q o ns' m', ensures p n c Q -> same_state m c ->
  alike dbg p ns m = true -> sim_run dbg p ns m = (o, ns', m') -> o <> Panicked ->
  exists a c' evs, o = Done a /\ Q a (c_sock c' n) /\ same_state m' (chip_evs c' evs).
Proof. exact @RegsimCaseP.transfer. Qed.
Print Assumptions C85_transfer_partial.
(** Sn_TX_FSR does not depend on the size of the buffer: no chip returns what the simulator returns. *)
Theorem C85_free_size_refuted : exists l got, (exists net, case_sim l [] = Some (got, net)) /\
  forall sch, no_faults sch -> exists other sch' c', run (script l []) sch reset_chip = (Done other, sch', c') /\ other <> got.
Proof.
  exists fsr_prog, [Some [8; 0]]. split; [eexists; vm_compute; reflexivity|].
  intros sch F. destruct (RegsimCaseP.fsr_chip sch F) as (sch' & c' & E). exists [Some [64; 0]], sch', c'. split; [exact E|discriminate].
Qed.
Print Assumptions C85_free_size_refuted.
(** A TCP connection cannot be ended by DISCON: the simulator panics. *)
Theorem C85_disconnect_refuted : exists p : prog (list (option (list Z))), fst (fst (sim_run true p [] (sim_default []))) = Panicked /\
  forall sch c, exists a sch' c', run p sch c = (Done a, sch', c').
Proof. exists (script (connect Sn1 ++ [wr_cmd Sn1 0x08]) []). split; [vm_compute; reflexivity|exact (RegsimCaseP.script_done _ [])]. Qed.
Print Assumptions C85_disconnect_refuted.

(** A datagram sent and one received; a request and an answer on a connection. *)
Definition run_case {A} (p : M A) (ns : net) : outcome (res err A) * list netev :=
  let '(o, _, m) := sim_run true p ns (sim_default []) in (o, s_net m).
Example C85_udp : let ns := quiet 5 ++ [AData [10; 0; 0; 9] 0x1234 [7; 8; 9]] in
  alike true case_udp ns (sim_default []) = true /\
  run_case case_udp ns = (Done (Ok (3, ([7; 8; 9], ([10; 0; 0; 9], 0x1234)))),
    [NBound Sn2 [0; 0; 0; 0] 53; NDgram Sn2 [10; 0; 0; 9] 0x1234 [7; 8; 9]; NSent Sn2 (Some ([10; 0; 0; 9], 0x1234)) [1; 2; 3]]).
Proof. vm_compute. split; reflexivity. Qed.
Example C85_tcp : let ns := quiet 4 ++ [AData [] 0 [4; 5]] in
  alike true case_tcp_talk ns (sim_default []) = true /\
  run_case case_tcp_talk ns = (Done (Ok ([4; 5], 3)),
    [NConnected Sn1 [10; 0; 0; 9] 80; NGot Sn1 [4; 5]; NSent Sn1 None [71; 69; 84]]).
Proof. vm_compute. split; reflexivity. Qed.

(** C86: data written to the transmit buffer at the transmit pointer is what SEND gives to the host, to
    the destination in the registers; nothing else is given to it, and the pointers meet.  What is missing:
    data that reaches the end of the 16-bit pointers. *)
Theorem C86_sends_partial : forall dbg m ns sn data, let s := sim_socket m sn in
  sendable s -> k_txbuf_size s <> KB0 -> v_len (k_tx_buf s) = bufsize_in_bytes (k_txbuf_size s) ->
  is_u16 (k_tx_wr s) -> k_tx_rd s = k_tx_wr s -> data <> [] -> zlen data <= bufsize_in_bytes (k_txbuf_size s) ->
  k_tx_wr s + zlen data < 65536 -> (forall k, answer_of ns <> AFail k) ->
  exists m', sim_run dbg (script (put_send sn (k_tx_wr s) data) []) ns m = (Done [], tl ns, m') /\
    s_net m' = s_net m ++ [NSent sn (send_dest s) data] /\
    k_tx_rd (sim_socket m' sn) = k_tx_wr s + zlen data /\ k_tx_wr (sim_socket m' sn) = k_tx_wr s + zlen data.
Proof. exact RegsimCaseP.put_sends. Qed.
Print Assumptions C86_sends_partial.
(** At the end of the pointers a byte is lost: the one at address 65535. *)
Theorem C86_wrap_refuted : exists l, last_of (case_sim (open_udp Sn3 ++ l ++ put_send Sn3 65530 [1; 2; 3; 4; 5; 6; 7; 8; 9; 10]) []) =
  Some (NSent Sn3 (Some ([0; 0; 0; 0], 0)) [1; 2; 3; 4; 5; 7; 8; 9; 10]).
Proof. exists (send_many Sn3 0 31 ++ [TWr 0x24 (sn_block Sn3) (be16 65530); wr_cmd Sn3 0x20]). lazy. reflexivity. Qed.
Print Assumptions C86_wrap_refuted.
(** If the host fails in the middle, the error is reported, and a second SEND repeats the bytes that were sent. *)
Theorem C86_failed_refuted : exists ns, case_sim (connect Sn1 ++ put_send Sn1 0 [1; 2; 3] ++ [wr_cmd Sn1 0x20]) ns =
  Some ([None], [NConnected Sn1 [0; 0; 0; 0] 0; NSent Sn1 None [1; 2]; NSent Sn1 None [1; 2; 3]]).
Proof. exists [AQuiet; AFail 2; AQuiet]. vm_compute. reflexivity. Qed.
Print Assumptions C86_failed_refuted.
Definition sim_after (l : list trans) (ns : net) : sim := snd (sim_run true (script l []) ns (sim_default [])).
Example C86_hyp : let m := sim_after (connect Sn1 ++ put_send Sn1 0 [1; 2; 3]) [] in let s := sim_socket m Sn1 in
  sendable s /\ k_txbuf_size s = KB2 /\ v_len (k_tx_buf s) = 2048 /\ k_tx_rd s = 3 /\ k_tx_wr s = 3.
Proof. split; [right; left; vm_compute; reflexivity|]. vm_compute. repeat split. Qed.

(** C87: bytes that the host's stream delivers are put behind the unread data, as far as there is room,
    and announced; unread data stays.  What is missing: what does not fit is lost. *)
Theorem C87_received_partial : forall m ns sn a ip port data, rx_ok (sim_socket m sn) -> streaming (sim_socket m sn) ->
  a <> 0x26 -> answer_of ns = AData ip port data -> data <> [] ->
  let s := sim_socket m sn in let got := ztake (bufsize_in_bytes (k_rxbuf_size s)) data in
  exists m', sim_read m ns a (sn_block sn) 1 = (IoOk [socket_byte s a], tl ns, m') /\
    s_net m' = s_net m ++ [NGot sn got] /\ rx_added s (sim_socket m' sn) (ztake (free_rx s) got) /\
    k_ir (sim_socket m' sn) = Z.lor (k_ir s) 4.
Proof. exact RegsimCaseP.stream_read. Qed.
Print Assumptions C87_received_partial.
(** What was added can be read at the place where it was announced. *)
Theorem C87_read : forall m ns sn s data, is_u16 (k_rx_wr s) -> rx_ok s -> rx_added s (sim_socket m sn) data ->
  sim_read m ns (k_rx_wr s) (sn_rx_block sn) (zlen data) = (IoOk data, ns, m).
Proof. exact RegsimCaseP.added_read. Qed.
Print Assumptions C87_read.
(** RECV makes room up to the read pointer, unless the unread data crosses the end of the 16-bit pointers. *)
Theorem C87_release_partial : forall dbg m ns sn, k_rx_rd (sim_socket m sn) <= k_rx_wr (sim_socket m sn) ->
  exists m', sim_write dbg m ns 0x01 (sn_block sn) [0x40] = (IoOk tt, ns, m') /\ s_net m' = s_net m /\
    sim_socket m' sn = k_set_rx_rsr (sim_socket m sn) (k_rx_wr (sim_socket m sn) - k_rx_rd (sim_socket m sn)).
Proof. exact RegsimCaseP.recv_write. Qed.
Print Assumptions C87_release_partial.
(** If it does, RECV panics, whatever the size of the buffer and the build. *)
Theorem C87_release_panics : forall dbg m ns sn, k_rxbuf_size (sim_socket m sn) <> KB0 ->
  is_u16 (k_rx_rd (sim_socket m sn)) -> is_u16 (k_rx_wr (sim_socket m sn)) ->
  k_rx_wr (sim_socket m sn) < k_rx_rd (sim_socket m sn) ->
  wsub (k_rx_wr (sim_socket m sn)) (k_rx_rd (sim_socket m sn)) <= bufsize_in_bytes (k_rxbuf_size (sim_socket m sn)) ->
  sim_write dbg m ns 0x01 (sn_block sn) [0x40] = (IoPanic, ns, m).
Proof. exact RegsimCaseP.recv_write_wrap. Qed.
Print Assumptions C87_release_panics.
(** A connection that gets there: 65526 bytes received and released, ten more received, two of them read. *)
Definition case_long : list trans := rx_16k Sn1 :: connect Sn1 ++ recv_many Sn1 0 3 ++ [status Sn1] ++ recv_to Sn1 65530 ++
  [status Sn1; unread Sn1; TRd 65530 (sn_rx_block Sn1) 10; TWr 0x28 (sn_block Sn1) (be16 65532)].
Definition case_long_net : net :=
  AQuiet :: repeat (AData [] 0 (zeros (Z.to_nat 16384))) 3 ++ [AData [] 0 (zeros (Z.to_nat 16378)); AData [] 0 [1; 2; 3; 4; 5; 6; 7; 8; 9; 10]].
Theorem C87_release_refuted :
  reads_of (case_sim case_long case_long_net) =
    Some [Some [0x17]; Some [0x17]; Some [0x17]; Some [0x17]; Some [0x17]; Some [0; 10]; Some [1; 2; 3; 4; 5; 6; 7; 8; 9; 10]] /\
  case_sim (case_long ++ [wr_cmd Sn1 0x40]) case_long_net = None.
Proof. vm_compute. split; reflexivity. Qed.
Print Assumptions C87_release_refuted.
(** Bytes of a stream are lost: of 1027 bytes delivered by the host, 1024 are announced, and none after these
    were released. *)
Theorem C87_lost_refuted : exists data more, zlen data = 1024 /\ more <> [] /\
  case_sim (rx_1k Sn1 :: connect Sn1 ++ [status Sn1; status Sn1; unread Sn1] ++ recv_to Sn1 1024 ++ [status Sn1; unread Sn1])
    [AQuiet; AData [] 0 data; AData [] 0 more] =
  Some ([Some [0x17]; Some [0x17]; Some [4; 0]; Some [0x17]; Some [0; 0]],
        [NConnected Sn1 [0; 0; 0; 0] 0; NGot Sn1 data; NGot Sn1 more]).
Proof. exists (zeros (Z.to_nat 1024)), [1; 2; 3]. split; [reflexivity|]. split; [discriminate|]. vm_compute. reflexivity. Qed.
Print Assumptions C87_lost_refuted.
Example C87_hyp : let m := sim_after (connect Sn1 ++ [status Sn1; TWr 0x28 (sn_block Sn1) (be16 2)]) [AQuiet; AData [] 0 [4; 5; 6]] in
  let s := sim_socket m Sn1 in streaming s /\ k_rxbuf_size s = KB2 /\ v_len (k_rx_buf s) = 2048 /\ k_rx_rsr s = 3 /\ k_rx_wr s = 3 /\ k_rx_rd s = 2.
Proof. split; [left; vm_compute; reflexivity|]. vm_compute. repeat split. Qed.

(** C88: a datagram the host delivers is put behind the unread data with the sender's address, port and
    length in front, whole if there is room.  What is missing: a datagram that does not fit is cut. *)
Theorem C88_datagram_partial : forall m ns sn a ip port data, rx_ok (sim_socket m sn) -> k_inner (sim_socket m sn) = Some TUdp ->
  a <> 0x26 -> answer_of ns = AData ip port data ->
  let s := sim_socket m sn in let got := ztake (bufsize_in_bytes (k_rxbuf_size s)) data in
  exists m', sim_read m ns a (sn_block sn) 1 = (IoOk [socket_byte s a], tl ns, m') /\
    s_net m' = s_net m ++ [NDgram sn ip port got] /\
    rx_added s (sim_socket m' sn) (ztake (free_rx s) (udp_image ip port got)) /\
    k_ir (sim_socket m' sn) = Z.lor (k_ir s) 4.
Proof. exact RegsimCaseP.udp_read. Qed.
Print Assumptions C88_datagram_partial.
(** A datagram of 20 bytes of which 8 are stored, behind a header that says 20. *)
Theorem C88_torn_refuted : exists first, reads_of (case_sim (rx_1k Sn1 :: open_udp Sn1 ++ [status Sn1; status Sn1; unread Sn1; TRd 1008 (sn_rx_block Sn1) 16])
    [AQuiet; AData [10; 0; 0; 1] 1 first; AData [10; 0; 0; 2] 7 (repeat 9 20)]) =
  Some [Some [0x22]; Some [0x22]; Some [4; 0]; Some [10; 0; 0; 2; 0; 7; 0; 20; 9; 9; 9; 9; 9; 9; 9; 9]].
Proof. exists (zeros (Z.to_nat 1000)). vm_compute. reflexivity. Qed.
Print Assumptions C88_torn_refuted.
Example C88_hyp : let m := sim_after (open_udp Sn2 ++ [status Sn2]) [AQuiet; AData [10; 0; 0; 9] 5 [4; 5; 6]] in
  let s := sim_socket m Sn2 in k_inner s = Some TUdp /\ k_rxbuf_size s = KB2 /\ v_len (k_rx_buf s) = 2048 /\ k_rx_rsr s = 11 /\ k_rx_wr s = 11.
Proof. vm_compute. repeat split. Qed.

(** C89: a transaction with one socket's registers or buffers changes no other socket, no common register (but
    the interrupt summary), and does nothing on behalf of another socket; a transaction with the common registers
    that leaves the mode register alone changes no socket. *)
Theorem C89_sockets : forall dbg sn b, b = sn_block sn \/ b = sn_tx_block sn \/ b = sn_rx_block sn ->
  forall m ns a, (forall n, only_touches sn m (snd (sim_read m ns a b n))) /\
                 (forall d, only_touches sn m (snd (sim_write dbg m ns a b d))).
Proof. exact RegsimMoreP.independent. Qed.
Print Assumptions C89_sockets.
Theorem C89_common : forall dbg m ns a d, 0 < a -> a + zlen d <= 65536 ->
  (forall n, snd (sim_read m ns a 0 n) = m) /\
  (forall sn, sim_socket (snd (sim_write dbg m ns a 0 d)) sn = sim_socket m sn) /\ s_net (snd (sim_write dbg m ns a 0 d)) = s_net m.
Proof. exact RegsimCaseP.common_keeps. Qed.
Print Assumptions C89_common.
Example C89_case : let m := sim_after (connect Sn1 ++ open_udp Sn2) [] in let m' := snd (sim_write true m [AFail 1] 0x01 (sn_block Sn2) [0x10]) in
  k_sr (sim_socket m Sn2) = Udp /\ k_sr (sim_socket m' Sn2) = Closed /\ k_sr (sim_socket m' Sn1) = Established.
Proof. vm_compute. repeat split. Qed.

(** C90: after CLOSE the socket is closed, and reading its registers does nothing to the host and changes
    nothing.  What is missing: the client accepted by a listener is kept. *)
Theorem C90_closed_partial : forall dbg m ns sn, exists m', sim_write dbg m ns 0x01 (sn_block sn) [0x10] = (IoOk tt, ns, m') /\
  k_sr (sim_socket m' sn) = Closed /\ s_net m' = s_net m /\
  forall ns a n, exists l, sim_read m' ns a (sn_block sn) n = (IoOk l, ns, m').
Proof. exact RegsimCaseP.close_write. Qed.
Print Assumptions C90_closed_partial.
(** A server that accepted a client, closed the socket and listens again: it still reads from and writes to
    the first client, while its status says that it listens. *)
Theorem C90_old_client_refuted : exists l ns,
  case_sim (open_tcp Sn1 ++ [wr_cmd Sn1 0x02; status Sn1; wr_cmd Sn1 0x10; status Sn1] ++ open_tcp Sn1 ++ [wr_cmd Sn1 0x02] ++ l) ns =
  Some ([Some [0x14]; Some [0x00]; Some [0x14]; Some [0x14]],
        [NListening Sn1 0; NAccepted Sn1; NListening Sn1 0; NGot Sn1 [5; 6]; NSent Sn1 None [1; 2]]).
Proof.
  exists ([status Sn1; status Sn1] ++ put_send Sn1 0 [1; 2]), [AQuiet; AData [] 0 []; AQuiet; AData [] 0 [5; 6]].
  vm_compute. reflexivity.
Qed.
Print Assumptions C90_old_client_refuted.
Example C90_case : let m := sim_after (connect Sn1 ++ [wr_cmd Sn1 0x10]) [] in
  sim_read m [AData [] 0 [1]; AFail 0] 0x00 (sn_block Sn1) 4 = (IoOk [1; 0; 1; 0], [AData [] 0 [1]; AFail 0], m).
Proof. lazy. reflexivity. Qed.
