(** The status of the simulator's sockets: C93. *)
From Verif Require Import Model.Prelude Model.Bus Model.Chip Model.Specifiers Model.LlAddr Model.LlBits Model.Regsim
  Spec.Regsim Spec.RegsimCases Spec.RegsimStatus.
From Verif Require Proof.RegsimStatusP.
Local Open Scope list_scope.

(** C93: whatever a program does with a new simulator and whatever the host answers, a socket that reports to be open
    has a host socket of that kind.  What is missing: one that reports to be closed may have one, too. *)
Theorem C93_status_partial : forall A dbg (p : prog A) ns log sn,
  truthful (sim_socket (snd (sim_run dbg p ns (sim_default log))) sn).
Proof. exact RegsimStatusP.fresh_truthful. Qed.
Print Assumptions C93_status_partial.
(** OPEN of a UDP socket binds the address and the port of the registers; if the host refuses, the socket is closed;
    if the host fails, the caller gets the error. *)
Theorem C93_open : forall dbg m ns sn, SocketMode_protocol (k_mr (sim_socket m sn)) = Ok PUdp ->
  let s := sim_socket m sn in exists r m', sim_write dbg m ns 0x01 (sn_block sn) [0x01] = (r, tl ns, m') /\
  (accepted (answer_of ns) -> r = IoOk tt /\ left_with sn m m' Udp 0 [NBound sn (g_sipr (s_regs m)) (k_port s)]) /\
  (answer_of ns = ARefused -> r = IoOk tt /\ left_with sn m m' Closed 0 []) /\
  (forall k, answer_of ns = AFail k -> r = IoErr /\ left_with sn m m' (k_sr s) 0 []).
Proof. exact RegsimStatusP.open_udp_does. Qed.
Print Assumptions C93_open.
(** CONNECT connects to the destination of the registers and raises CON (1), or, if the host refuses, DISCON (2). *)
Theorem C93_connect : forall dbg m ns sn, k_sr (sim_socket m sn) = Init ->
  let s := sim_socket m sn in exists r m', sim_write dbg m ns 0x01 (sn_block sn) [0x04] = (r, tl ns, m') /\
  (accepted (answer_of ns) -> r = IoOk tt /\ left_with sn m m' Established 1 [NConnected sn (k_dipr s) (k_dport s)]) /\
  (answer_of ns = ARefused -> r = IoOk tt /\ left_with sn m m' Closed 2 []) /\
  (forall k, answer_of ns = AFail k -> r = IoErr /\ left_with sn m m' Init 0 []).
Proof. exact RegsimStatusP.connect_does. Qed.
Print Assumptions C93_connect.
(** LISTEN listens on the port of the registers; if the host refuses, TIMEOUT (8) is raised. *)
Theorem C93_listen : forall dbg m ns sn, k_sr (sim_socket m sn) = Init ->
  let s := sim_socket m sn in exists r m', sim_write dbg m ns 0x01 (sn_block sn) [0x02] = (r, tl ns, m') /\
  (accepted (answer_of ns) -> r = IoOk tt /\ left_with sn m m' Listen 0 [NListening sn (k_port s)]) /\
  (answer_of ns = ARefused -> r = IoOk tt /\ left_with sn m m' Closed 8 []) /\
  (forall k, answer_of ns = AFail k -> r = IoErr /\ left_with sn m m' Init 0 []).
Proof. exact RegsimStatusP.listen_does. Qed.
Print Assumptions C93_listen.
(** A UDP socket opened a second time, which the host refuses: it reports to be closed, and still receives and sends. *)
Theorem C93_closed_refuted : exists l ns, case_sim (open_udp Sn1 ++ [wr_cmd Sn1 0x01; status Sn1; unread Sn1] ++ l) ns =
  Some ([Some [0x00]; Some [0; 9]],
        [NBound Sn1 [0; 0; 0; 0] 0; NDgram Sn1 [10; 0; 0; 1] 7 [5]; NSent Sn1 (Some ([0; 0; 0; 0], 0)) [1; 2]]).
Proof. exists (put_send Sn1 0 [1; 2]), [AQuiet; ARefused; AData [10; 0; 0; 1] 7 [5]]. vm_compute. reflexivity. Qed.
Print Assumptions C93_closed_refuted.
Example C93_case : reads_of (case_sim (open_udp Sn1 ++ [status Sn1] ++ open_tcp Sn2 ++ [status Sn2; wr_cmd Sn2 0x02; status Sn2; status Sn2])
    [ARefused; AQuiet; AData [] 0 []]) = Some [Some [0x00]; Some [0x13]; Some [0x14]; Some [0x17]].
Proof. vm_compute. reflexivity. Qed.
