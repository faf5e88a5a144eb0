(** C55, C56: the TLS receive buffer. *)
From Verif Require Import Model.Prelude Model.Bus Model.HlIo Model.Stream Model.TlsTypes Model.TlsBuf Spec.Cursor Spec.TlsQueue Proof.TlsBufP Proof.TlsHsP.

(** C55, except for an append that brings the number of bytes to exactly one more than the capacity: every
    history of appends, pops, publications, reads and resets gives the results of a bounded queue; no
    assertion fails, nothing panics. *)
Theorem C55_queue_partial : forall dbg buf ops, 2 <= zlen buf <= 16384 -> Forall buf_op_ok ops ->
  never_one_over (zlen buf - 1) ([], []) ops ->
  match q_run (zlen buf - 1) ([], []) ops with
  | None => True
  | Some (xs, _) => exists b', buf_run dbg (buffer_from buf) ops = TOk (xs, b')
  end.
Proof. exact queue_ok. Qed.
Print Assumptions C55_queue_partial.
(** Wraps around the end of eight bytes. *)
Definition case_ops : list buf_op :=
  [BAppend [1; 2; 3; 4; 5; 23]; BPop; BPublish 5; BRead [OReadExact 4] true; BAppend [6; 7; 8; 9; 10; 11]; BAppend [0; 0];
   BPublish 6; BRead [OSeek (SEnd (-3)); ORead 9; ORewind; OReadExact 7] false].
Example C55_case :
  (2 <= zlen (zeros 8) <= 16384 /\ Forall buf_op_ok case_ops /\ never_one_over 7 ([], []) case_ops) /\
  exists b', buf_run true (buffer_from (zeros 8)) case_ops =
    TOk ([OAppended true; OPopped (Some 23); ONone; ORead_ (Some [RData [1; 2; 3; 4]]); OAppended true; OAppended false; ONone;
          ORead_ (Some [RUnit; RData [9; 10; 11]; RUnit; RData [5; 6; 7; 8; 9; 10; 11]])], b').
Proof.
  split; [|eexists; vm_compute; reflexivity]. split; [now vm_compute|]. split.
  - unfold case_ops. repeat constructor; vm_compute; intuition congruence.
  - vm_compute. intuition congruence.
Qed.
(** The excluded case.  Seven bytes are in a buffer with capacity seven and wrap around its end; one more is
    accepted, where the queue refuses it.  With debug assertions the call panics instead. *)
Theorem C55_queue_refuted : exists buf ops, (2 <= zlen buf <= 16384 /\ Forall buf_op_ok ops) /\
  exists q, q_run (zlen buf - 1) ([], []) ops = Some ([OAppended true; ONone; ORead_ (Some [RData [1; 2; 3; 4]]); OAppended true; OAppended false], q) /\
  (exists b', buf_run false (buffer_from buf) ops = TOk ([OAppended true; ONone; ORead_ (Some [RData [1; 2; 3; 4]]); OAppended true; OAppended true], b') /\
     b_is_empty b' = true) /\
  buf_run true (buffer_from buf) ops = TPanic.
Proof.
  exists (zeros 8), [BAppend [1; 2; 3; 4; 5]; BPublish 5; BRead [OReadExact 4] true; BAppend [6; 7; 8; 9; 10; 11]; BAppend [12]].
  split; [split; [now vm_compute|repeat constructor; vm_compute; intuition congruence]|].
  eexists. split; [vm_compute; reflexivity|]. split; [eexists; split; vm_compute; reflexivity|vm_compute; reflexivity].
Qed.
Print Assumptions C55_queue_refuted.

(** C56 for messages that arrive one after the other, each in chunks of any sizes, while the buffer holds
    nothing else and the message does not wrap around its end: each is delivered when its last chunk has
    arrived and not before, with its own header and body, and goes into the transcript. *)
Theorem C56_messages_partial : forall dbg p ms b hash, 2 <= b_N b <= 16384 -> idle_at p b ->
  Forall (arriving_ok (b_N b - p - 1)) ms ->
  exists b', feed dbg b hash (concat (map ar_chunks ms)) =
    TOk (concat (map delivered ms), hash ++ concat (map (fun m => hs_message (ar_type m) (ar_body m)) ms), b') /\ idle_at p b'.
Proof. exact feed_ok. Qed.
Print Assumptions C56_messages_partial.
Definition case_arriving : list arriving :=
  [mkArr 8 [0; 0] [[8; 0]; []; [0; 2; 0]; [0]]; mkArr 14 [] [[14; 0; 0; 0]]; mkArr 20 [1; 2; 3] [[20]; [0; 0; 3; 1; 2; 3]]].
Example C56_case : (2 <= b_N (buffer_from (zeros 8)) <= 16384 /\ idle_at 0 (buffer_from (zeros 8)) /\
    Forall (arriving_ok (b_N (buffer_from (zeros 8)) - 0 - 1)) case_arriving) /\
  concat (map delivered case_arriving) =
    [None; None; None; Some ([8; 0; 0; 2], [0; 0]); Some ([14; 0; 0; 0], []); None; Some ([20; 0; 0; 3], [1; 2; 3])].
Proof.
  split; [|reflexivity]. split; [now vm_compute|]. split; [now vm_compute|]. unfold case_arriving.
  repeat constructor; vm_compute; intuition congruence.
Qed.
(** Two messages in one record: the second is delivered with the header of the first. *)
Theorem C56_two_in_one_refuted : exists buf ty1 body1 ty2 body2, 2 <= zlen buf <= 16384 /\ [ty1] <> [ty2] /\
  exists hash b', feed true (buffer_from buf) [] [hs_message ty1 body1 ++ hs_message ty2 body2; []] =
    TOk ([Some (ztake 4 (hs_message ty1 body1), body1); Some (ztake 4 (hs_message ty1 body2), body2)], hash, b').
Proof. exists (zeros 32), 8, [9], 20, [7]. split; [now vm_compute|]. split; [discriminate|]. do 2 eexists. vm_compute. reflexivity. Qed.
Print Assumptions C56_two_in_one_refuted.
(** A message after application data that has been read completely: its body is taken from the wrong place. *)
Theorem C56_after_data_refuted : exists buf data ty body, 2 <= zlen buf <= 16384 /\
  exists out b, buf_run true (buffer_from buf) [BAppend data; BPublish (zlen data); BRead [OReadExact (zlen data)] true] = TOk (out, b) /\
  b_is_empty b = true /\
  exists other hash b', feed true b [] [hs_message ty body] = TOk ([Some (ztake 4 (hs_message ty body), other)], hash, b') /\ other <> body.
Proof.
  exists (zeros 32), [1; 2; 3; 4], 24, [1]. split; [now vm_compute|]. do 2 eexists. split; [vm_compute; reflexivity|]. split; [reflexivity|].
  do 3 eexists. split; [vm_compute; reflexivity|discriminate].
Qed.
Print Assumptions C56_after_data_refuted.
