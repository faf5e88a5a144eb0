(** Cursors and TCP streams: C07 - C11. *)
From Verif Require Import Model.Prelude Model.Bus Model.Chip Model.Specifiers Model.HlIo Model.HlTcp
  Spec.Sock Spec.Hoare Spec.Cursor Spec.TcpClient Spec.Cases.
From Verif Require Proof.CursorP Proof.TcpP.

(** C07: any sequence of operations on a reader or writer, on a bus that may fail at any transaction,
    moves the position exactly as [psteps] says, keeps it inside the window and never panics. *)
Theorem C07_cursor : forall c ops, cursor_ok c -> Forall cop_ok ops ->
  forall sch ch, exists xs c' sch' ch', run (cops_run c ops) sch ch = (Done (xs, c'), sch', ch') /\
    psteps (cur_len c) (cur_pos c) ops xs (cur_pos c') /\
    cursor_ok c' /\ cu_sn c' = cu_sn c /\ cur_len c' = cur_len c /\
    0 <= cur_pos c' <= cur_len c' /\ cur_pos c' + cur_remain c' = cur_len c'.
Proof. exact CursorP.cursor_sessions. Qed.
Print Assumptions C07_cursor.

(** A window that wraps past 65535, a seek out of range, a read cut short at the end. *)
Example C07_case :
  let c := mkCur Sn3 0xFFFE 3 0xFFFE in
  cursor_ok c /\
  (let '(o, _, _) := run (cops_run c [OSeek (SStart 4); OSeek (SCurrent 2); ORead 9; OSeek (SEnd (-5))]) [] case_tcp in
   o = Done ([RUnit; RErr UnexpectedEof; RData [111]; RUnit], mkCur Sn3 0xFFFE 3 0xFFFE)).
Proof. split; [cbv; intuition discriminate|reflexivity]. Qed.

(** C08: a reader session.  Either there is nothing to read, or there is a window [w] of received and
    not yet consumed bytes such that the session behaves as the same operations on [w]; only [done]
    consumes, and exactly the bytes before the final position. *)
Theorem C08_tcp_reader : forall dbg sn c rd tx ops (fin : bool),
  tcp_view (c_sock c (sn_raw sn)) rd tx -> Forall cop_ok ops -> forallb reader_op ops = true ->
  ensures (top_run dbg sn (TReader ops fin)) (sn_raw sn) c (fun x s' =>
    (x = XErr WouldBlock /\ unread (c_sock c (sn_raw sn)) = [] /\ tcp_view s' rd tx) \/
    (exists xs w pos rest, x = XSession xs /\ w <> [] /\ asteps w 0 ops = (xs, w, pos) /\ 0 <= pos <= zlen w /\
        s_rxlog s' = rd ++ w ++ rest /\
        tcp_view s' (rd ++ if fin then ztake pos w else []) tx)).
Proof. exact TcpP.tcp_reader_run. Qed.
Print Assumptions C08_tcp_reader.
Example C08_hyp : tcp_view (c_sock case_tcp 3) [] case_tcp_unsent.
Proof.
  repeat split; try (vm_compute; reflexivity || (intro; discriminate)); try (left; reflexivity);
    try (right; right; left; reflexivity). repeat constructor; discriminate.
Qed.
Example C08_case :
  let '(o, _, c') := run (top_run true Sn3 (TReader [OReadExact 2; ORead 1; OReadExact 9] true))
    [tick_of [EvRx [33]]; tick_of []; tick_of [EvTx 3]; tick_of [EvRx [7; 7]]] case_tcp in
  o = Done (XSession [RData [104; 101]; RData [108]; RErr UnexpectedEof]) /\
  unread (c_sock c' 3) = [108; 111; 33; 7; 7].
Proof. vm_compute. auto. Qed.

(** C09: one [tcp_read]: the next bytes of the stream, as many as asked for or available. *)
Theorem C09_tcp_read : forall dbg sn c rd tx len,
  tcp_view (c_sock c (sn_raw sn)) rd tx -> 0 <= len ->
  ensures (tcp_read dbg sn len) (sn_raw sn) c (fun r s' => exists d, r = Ok d /\
    tcp_view s' (rd ++ d) tx /\ zlen d <= len /\
    Z.min (zlen (unread (c_sock c (sn_raw sn)))) (Z.min len 65535) <= zlen d /\
    (d = [] -> only_events (c_sock c (sn_raw sn)) s')).
Proof. exact TcpP.tcp_read_run. Qed.
Print Assumptions C09_tcp_read.
(** Any number of reads, any buffer sizes: the results concatenate to what was consumed. *)
Theorem C09_tcp_reads : forall dbg sn c rd tx sizes,
  tcp_view (c_sock c (sn_raw sn)) rd tx -> Forall (fun n => 0 <= n) sizes ->
  ensures (tops_run dbg sn (map TRead sizes)) (sn_raw sn) c (fun xs s' =>
    exists ds, xs = map XRead ds /\ Forall2 (fun d n => zlen d <= n) ds sizes /\
      tcp_view s' (rd ++ concat ds) tx).
Proof. exact TcpP.tcp_reads. Qed.
Print Assumptions C09_tcp_reads.
Example C09_case :
  let '(o, _, c') := run (tops_run true Sn3 (map TRead [3; 0; 1; 10; 4]))
    [tick_of []; tick_of []; tick_of [EvRx [33; 34]]] case_tcp in
  o = Done (map XRead [[104; 101; 108]; []; [108]; [111; 33; 34]; []]) /\
  s_rxlog (c_sock c' 3) = [104; 101; 108; 108; 111; 33; 34].
Proof. vm_compute. auto. Qed.

(** C10: one [tcp_write]. *)
Theorem C10_tcp_write : forall dbg sn c rd tx buf,
  tcp_view (c_sock c (sn_raw sn)) rd tx ->
  ensures (tcp_write dbg sn buf) (sn_raw sn) c (fun r s' => exists k, r = Ok k /\
    tcp_view s' rd (tx ++ ztake k buf) /\ 0 <= k <= zlen buf /\
    Z.min (Z.min (zlen buf) 65535) (tx_size (c_sock c (sn_raw sn)) - pending (c_sock c (sn_raw sn))) <= k /\
    (k = 0 -> only_events (c_sock c (sn_raw sn)) s')).
Proof. exact TcpP.tcp_write_run. Qed.
Print Assumptions C10_tcp_write.
(** Any number of writes. *)
Theorem C10_tcp_writes : forall dbg sn c rd tx bufs,
  tcp_view (c_sock c (sn_raw sn)) rd tx ->
  ensures (tops_run dbg sn (map TWrite bufs)) (sn_raw sn) c (fun xs s' =>
    exists ks, xs = map XWrite ks /\ Forall2 (fun k b => 0 <= k <= zlen b) ks bufs /\
      tcp_view s' rd (tx ++ concat (map (fun kb => ztake (fst kb) (snd kb)) (combine ks bufs)))).
Proof. exact TcpP.tcp_writes. Qed.
Print Assumptions C10_tcp_writes.
(** A writer session transmits, on [send], its window up to the final position; the window is at least
    the free space at the start of the session. *)
Theorem C10_tcp_writer : forall dbg sn c rd tx ops (fin : bool),
  tcp_view (c_sock c (sn_raw sn)) rd tx -> Forall cop_ok ops -> forallb writer_op ops = true ->
  ensures (top_run dbg sn (TWriter ops fin)) (sn_raw sn) c (fun x s' => exists w0 xs w pos,
    x = XSession xs /\ asteps w0 0 ops = (xs, w, pos) /\
    tx_size (c_sock c (sn_raw sn)) - pending (c_sock c (sn_raw sn)) <= zlen w0 <= tx_size (c_sock c (sn_raw sn)) /\
    tcp_view s' rd (tx ++ if fin then ztake pos w else [])).
Proof. exact TcpP.tcp_writer_run. Qed.
Print Assumptions C10_tcp_writer.
(** Reads, writes, reader and writer sessions and a disconnect in any order: what the host consumed and
    committed is what the abstract streams say. *)
Theorem C10_tcp_session : forall dbg sn c rd tx ops,
  tcp_view (c_sock c (sn_raw sn)) rd tx -> Forall top_ok ops ->
  ensures (tops_run dbg sn ops) (sn_raw sn) c (fun xs s' => exists cons prod,
    tops_spec (cons ++ unread s') ops xs cons prod /\ tcp_view s' (rd ++ cons) (tx ++ prod)).
Proof. exact TcpP.tcp_session. Qed.
Print Assumptions C10_tcp_session.
Example C10_case :
  let '(o, _, c') := run (tops_run true Sn3 [TWrite [1; 2; 3]; TRead 2;
      TWriter [OWriteAll [4; 5; 6; 7]; OSeek (SCurrent (-2)); OWrite [9]] true; TWrite [8]])
    [tick_of []; tick_of [EvTx 5]; tick_of [EvRx [33; 34]]] case_tcp in
  o = Done [XWrite 3; XRead [104; 101]; XSession [RUnit; RUnit; RCount 1]; XWrite 1] /\
  tx_stream (c_sock c' 3) = case_tcp_unsent ++ [1; 2; 3; 4; 5; 9; 8].
Proof. vm_compute. auto. Qed.

(** C11: write_all, on a bus that may fail.  Running out of space touches neither the bus nor the
    writer. *)
Theorem C11_write_all : forall c buf, cursor_ok c -> forall sch ch,
  exists x c' sch' ch', run (cop_run c (OWriteAll buf)) sch ch = (Done (x, c'), sch', ch') /\
    ((x = RUnit /\ zlen buf <= cur_remain c /\ cur_pos c' = cur_pos c + zlen buf) \/
     (x = RErr OutOfMemory /\ zlen buf > cur_remain c /\ c' = c /\ sch' = sch /\ ch' = ch) \/
     (x = RErr Other /\ zlen buf <= cur_remain c /\ c' = c)).
Proof. exact TcpP.write_all_any. Qed.
Print Assumptions C11_write_all.
(** A session of writes transmits the accepted bytes on [send], and nothing without. *)
Theorem C11_tcp_writer_writes : forall dbg sn c rd tx ops (fin : bool),
  tcp_view (c_sock c (sn_raw sn)) rd tx -> forallb is_write ops = true ->
  ensures (top_run dbg sn (TWriter ops fin)) (sn_raw sn) c (fun x s' =>
    exists xs, x = XSession xs /\
      tcp_view s' rd (tx ++ if fin then concat (map accepted (combine ops xs)) else [])).
Proof. exact TcpP.tcp_writer_writes. Qed.
Print Assumptions C11_tcp_writer_writes.
Example C11_case :
  let '(o, _, c') := run (top_run true Sn3 (TWriter
      [OWriteAll (repeat 5 2000%nat); OWriteAll (repeat 6 41%nat); OWriteAll [7; 7]] true)) [] case_tcp in
  o = Done (XSession [RUnit; RErr OutOfMemory; RUnit]) /\
  tx_stream (c_sock c' 3) = case_tcp_unsent ++ repeat 5 2000%nat ++ [7; 7].
Proof. vm_compute. auto. Qed.
