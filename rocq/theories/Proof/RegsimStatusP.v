(** The status of the simulator's sockets. *)
From Verif Require Import Proof.Base Model.Prelude Model.Bus Model.Chip Model.Specifiers Model.LlAddr Model.LlBits
  Model.Regsim Spec.Regsim Spec.RegsimStatus Proof.RegsimRegP Proof.RegsimSnP Proof.RegsimEvP Proof.RegsimCmdP
  Proof.RegsimRunP Proof.RegsimMoreP Proof.RegsimCaseP.

Definition vw (s : socket) := (k_sr s, k_inner s, k_client s).
Lemma truthful_vw s s' : vw s' = vw s -> truthful s -> truthful s'.
Proof. unfold vw, truthful, streaming. intros [= -> -> ->]. auto. Qed.

Lemma set_rx_vw data : forall s s', set_rx_buf s data = Some s' -> vw s' = vw s.
Proof.
  induction data as [|b data IH]; intros s s'; cbn [set_rx_buf]; [now intros [= <-]|].
  destruct (_ =? 0); [discriminate|]. destruct (_ <? _); [now intros [= <-]|]. destruct (65535 <? _); [discriminate|].
  intros H. apply IH in H. rewrite H. reflexivity.
Qed.
Lemma parts_vw parts : forall s s', fold_left (fun o part => match o with None => None | Some s => set_rx_buf s part end) parts (Some s) = Some s' ->
  vw s' = vw s.
Proof.
  induction parts as [|p parts IH]; intros s s'; cbn [fold_left]; [now intros [= <-]|].
  destruct (set_rx_buf s p) as [s1|] eqn:E.
  - intros H. apply IH in H. rewrite H. now apply (set_rx_vw p).
  - intros H. exfalso. clear IH E. induction parts as [|q parts IH2]; cbn [fold_left] in H; [discriminate|now apply IH2].
Qed.
Ltac sk := rewrite ?put_socket, ?sr_socket, ?ir_socket, ?log_socket, ?put_socket, ?sr_socket, ?ir_socket, ?log_socket,
  ?put_socket, ?log_socket.
Ltac same := cbn [snd]; sk; first [assumption | eapply truthful_vw; [|eassumption]; reflexivity].

Lemma t_stored m ns sn parts : truthful (sim_socket m sn) -> truthful (sim_socket (snd (stored m ns sn parts)) sn).
Proof.
  intros T. unfold stored. destruct (fold_left _ _ _) as [s|] eqn:E; [|same].
  apply parts_vw in E. cbn [snd]. sk. eapply truthful_vw; [|exact T]. rewrite <- E. reflexivity.
Qed.
Lemma t_read m ns sn b : truthful (sim_socket m sn) -> truthful (sim_socket (snd (read_stream m ns sn b)) sn).
Proof.
  intros T. unfold read_stream. destruct (answer_of ns); try same. cbv zeta. destruct (0 <? _); [|same].
  apply t_stored. exact T.
Qed.
Lemma t_check m ns sn : truthful (sim_socket m sn) -> truthful (sim_socket (snd (check_socket m ns sn)) sn).
Proof.
  intros T. unfold check_socket. cbv zeta. destruct (k_inner _) as [[]|] eqn:EI; try same.
  - destruct (answer_of ns); try same. apply t_stored. exact T.
  - destruct (k_client _); [apply t_read; exact T|]. destruct (answer_of ns); try same.
    cbn [snd]. sk. unfold truthful, streaming. cbn. right. split; [exact EI|reflexivity].
  - apply t_read. exact T.
Qed.
Lemma t_reg_rd sn m ns a : truthful (sim_socket m sn) -> truthful (sim_socket (snd (socket_reg_rd m ns a sn)) sn).
Proof.
  intros T. unfold socket_reg_rd. pose proof (t_check m ns sn T) as H. destruct (check_socket m ns sn) as [[r ns'] m'].
  cbn [snd] in H. destruct (match SnReg_try_from a with Ok S_RX_RSR0 => false | _ => true end); [exact H|same].
Qed.
Lemma t_rds sn n : forall m ns a, truthful (sim_socket m sn) -> truthful (sim_socket (snd (socket_rds m ns a sn n)) sn).
Proof.
  induction n as [|n IH]; intros m ns a T; cbn [socket_rds]; [same|].
  pose proof (t_reg_rd sn m ns a T) as H. destruct (socket_reg_rd m ns a sn) as [[r ns'] m']. cbn [snd] in H.
  destruct r; [|exact H|exact H]. specialize (IH m' ns' (wadd a 1) H).
  destruct (socket_rds m' ns' (wadd a 1) sn n) as [[r2 ns2] m2]. exact IH.
Qed.
Lemma t_wr dbg sn m ns a v : truthful (sim_socket m sn) -> truthful (sim_socket (snd (socket_reg_wr dbg m ns a v sn)) sn).
Proof.
  intros T. unfold socket_reg_wr. cbv zeta. destruct (SnReg_try_from a) as [r|]; [|same].
  destruct r; try same.
  - destruct (command_try_from v) as [x|]; [|same]. destruct x; try same.
    + unfold socket_cmd_open. cbv zeta. destruct (SocketMode_protocol _) as [[]|]; try same.
      * cbn [snd]. sk. reflexivity.
      * destruct (answer_of ns); try same; cbn [snd]; sk; first [reflexivity|exact I].
      * destruct (sn_eqb sn Sn0); same.
    + unfold socket_cmd_listen. cbv zeta. destruct (negb _); [same|]. destruct (answer_of ns); try same; cbn [snd]; sk; first [reflexivity|exact I].
    + unfold socket_cmd_connect. cbv zeta. destruct (negb _); [same|].
      destruct (answer_of ns); try same; cbn [snd]; sk; first [exact I|left; reflexivity].
    + unfold socket_cmd_close. cbn [snd]. sk. exact I.
    + unfold socket_cmd_send. cbv zeta. destruct (_ =? _); [same|]. destruct (dbg && _); [same|].
      destruct (_ && _); [same|]. destruct (dbg && _); [same|].
      destruct (k_inner _) as [[]|]; [destruct (answer_of ns); same|destruct (k_client _); [destruct (answer_of ns); same|same]|destruct (answer_of ns); same|same].
    + unfold socket_cmd_recv. cbv zeta. destruct (_ <=? _); [same|]. destruct (_ <? 0); [same|]. destruct (65535 <? _); same.
  - destruct (_ =? 0); cbn [snd]; [|same].
    match goal with |- truthful (sim_socket (sim_regs ?x ?y) sn) => change (truthful (sim_socket x sn)) end. same.
  - destruct (bufsize_try_from v); same.
  - destruct (bufsize_try_from v); same.
Qed.
Lemma t_wrs dbg sn d : forall m ns a, truthful (sim_socket m sn) -> truthful (sim_socket (snd (socket_wrs dbg m ns a sn d)) sn).
Proof.
  induction d as [|v d IH]; intros m ns a T; cbn [socket_wrs]; [same|].
  pose proof (t_wr dbg sn m ns a v T) as H. destruct (socket_reg_wr dbg m ns a v sn) as [[r ns'] m']. cbn [snd] in H.
  destruct r; [|exact H|exact H]. apply IH. exact H.
Qed.

Definition all_truthful (m : sim) : Prop := forall sn, truthful (sim_socket m sn).
Lemma only_all sn m m' : only_sn sn m m' -> all_truthful m -> truthful (sim_socket m' sn) -> all_truthful m'.
Proof.
  intros O T H n. destruct (only_touch _ _ _ O) as [S _]. assert (Sd : {n = sn} + {n <> sn}) by decide equality. destruct Sd as [-> | N]; [exact H|].
  rewrite (proj1 (S n N)). apply T.
Qed.
Lemma all_default log : all_truthful (sim_default log).
Proof. intros sn. exact I. Qed.
Lemma common_all m a v : all_truthful m -> all_truthful (common_reg_wr m a v).
Proof.
  intros T. unfold common_reg_wr. cbv zeta. destruct (Reg_try_from a) as [r|]; [|exact T].
  destruct r; try exact T. destruct (negb _); [apply all_default|exact T].
Qed.
Lemma commons_all d : forall m a, all_truthful m -> all_truthful (common_wrs m a d).
Proof. induction d as [|v d IH]; intros m a T; cbn [common_wrs]; [exact T|]. apply IH, common_all, T. Qed.
Lemma read_all m ns a b n : all_truthful m -> all_truthful (snd (sim_read m ns a b n)).
Proof.
  intros T. unfold sim_read. destruct (block_type b) as [[|sn|sn|sn]|]; try exact T.
  eapply only_all; [apply only_rds|exact T|]. apply t_rds, T.
Qed.
Lemma write_all_ok dbg m ns a b d : all_truthful m -> all_truthful (snd (sim_write dbg m ns a b d)).
Proof.
  intros T. unfold sim_write. destruct (block_type b) as [[|sn|sn|sn]|]; try exact T.
  - apply commons_all, T.
  - eapply only_all; [apply only_wrs|exact T|]. apply t_wrs, T.
  - destruct (vec_wrs _ _ _); [|exact T]. eapply only_all; [apply only_put|exact T|]. cbn [snd]. rewrite put_socket. eapply truthful_vw; [|apply T]. reflexivity.
  - destruct (vec_wrs _ _ _); [|exact T]. eapply only_all; [apply only_put|exact T|]. cbn [snd]. rewrite put_socket. eapply truthful_vw; [|apply T]. reflexivity.
Qed.
Lemma run_truthful A dbg (p : prog A) : forall ns m, all_truthful m -> all_truthful (snd (sim_run dbg p ns m)).
Proof.
  induction p as [x|a b n k IH|a b d k IH| |]; intros ns m T; cbn [sim_run]; try exact T.
  - pose proof (read_all m ns a b n T) as H. destruct (sim_read m ns a b n) as [[[l| |] ns'] m']; [apply IH, H|apply IH, H|exact H].
  - pose proof (write_all_ok dbg m ns a b d T) as H. destruct (sim_write dbg m ns a b d) as [[[l| |] ns'] m']; [apply IH, H|apply IH, H|exact H].
Qed.
Lemma fresh_truthful A dbg (p : prog A) ns log sn : truthful (sim_socket (snd (sim_run dbg p ns (sim_default log))) sn).
Proof. apply run_truthful, all_default. Qed.

(** ** The commands *)
Ltac fin := unfold left_with; sk; cbn; rewrite ?app_nil_r, ?Z.lor_0_r; repeat split; reflexivity.
Lemma open_udp_does dbg m ns sn : SocketMode_protocol (k_mr (sim_socket m sn)) = Ok PUdp ->
  let s := sim_socket m sn in exists r m', sim_write dbg m ns 0x01 (sn_block sn) [0x01] = (r, tl ns, m') /\
  (accepted (answer_of ns) -> r = IoOk tt /\ left_with sn m m' Udp 0 [NBound sn (g_sipr (s_regs m)) (k_port s)]) /\
  (answer_of ns = ARefused -> r = IoOk tt /\ left_with sn m m' Closed 0 []) /\
  (forall k, answer_of ns = AFail k -> r = IoErr /\ left_with sn m m' (k_sr s) 0 []).
Proof.
  intros HM s. rewrite cmd_write. change (socket_reg_wr dbg m ns 1 1 sn) with (socket_cmd_open m ns sn).
  unfold socket_cmd_open. cbv zeta.
  set (s0 := k_set_tx_wr _ _).
  assert (EM : k_mr s0 = k_mr (sim_socket m sn)) by reflexivity. rewrite EM, HM.
  destruct (answer_of ns) eqn:EA; (do 2 eexists; split; [reflexivity|]); (split; [intros A|split; [intros A|intros k0 A]]);
    try discriminate; try contradiction; (split; [reflexivity|fin]).
Qed.
Lemma connect_does dbg m ns sn : k_sr (sim_socket m sn) = Init ->
  let s := sim_socket m sn in exists r m', sim_write dbg m ns 0x01 (sn_block sn) [0x04] = (r, tl ns, m') /\
  (accepted (answer_of ns) -> r = IoOk tt /\ left_with sn m m' Established 1 [NConnected sn (k_dipr s) (k_dport s)]) /\
  (answer_of ns = ARefused -> r = IoOk tt /\ left_with sn m m' Closed 2 []) /\
  (forall k, answer_of ns = AFail k -> r = IoErr /\ left_with sn m m' Init 0 []).
Proof.
  intros HM s. rewrite cmd_write. change (socket_reg_wr dbg m ns 1 4 sn) with (socket_cmd_connect m ns sn).
  unfold socket_cmd_connect. cbv zeta. rewrite HM. change (negb (status_eqb Init Init)) with false. cbv iota.
  destruct (answer_of ns) eqn:EA; (do 2 eexists; split; [reflexivity|]); (split; [intros A|split; [intros A|intros k0 A]]);
    try discriminate; try contradiction; (split; [reflexivity|]); try fin.
  unfold left_with. rewrite HM, Z.lor_0_r, app_nil_r. repeat split.
Qed.
Lemma listen_does dbg m ns sn : k_sr (sim_socket m sn) = Init ->
  let s := sim_socket m sn in exists r m', sim_write dbg m ns 0x01 (sn_block sn) [0x02] = (r, tl ns, m') /\
  (accepted (answer_of ns) -> r = IoOk tt /\ left_with sn m m' Listen 0 [NListening sn (k_port s)]) /\
  (answer_of ns = ARefused -> r = IoOk tt /\ left_with sn m m' Closed 8 []) /\
  (forall k, answer_of ns = AFail k -> r = IoErr /\ left_with sn m m' Init 0 []).
Proof.
  intros HM s. rewrite cmd_write. change (socket_reg_wr dbg m ns 1 2 sn) with (socket_cmd_listen m ns sn).
  unfold socket_cmd_listen. cbv zeta. rewrite HM. change (negb (status_eqb Init Init)) with false. cbv iota.
  destruct (answer_of ns) eqn:EA; (do 2 eexists; split; [reflexivity|]); (split; [intros A|split; [intros A|intros k0 A]]);
    try discriminate; try contradiction; (split; [reflexivity|]); try fin.
  unfold left_with. rewrite HM, Z.lor_0_r, app_nil_r. repeat split.
Qed.
