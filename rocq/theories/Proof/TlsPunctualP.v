(** An application that calls [process] when it was asked to is never too late. *)
From Verif Require Import Model.Prelude Model.Bus Model.Chip Model.Specifiers Model.LlBits Model.Ll Model.HlIo Model.HlTcp Model.TlsTypes Model.TlsBuf Model.TlsKeys Model.TlsRecord Model.TlsClient
  Spec.Hoare Spec.Sock Spec.TcpClient Spec.TlsSecrets Spec.TlsMessages Spec.MqttMsg Spec.TlsProtect Spec.TlsQueue Spec.TlsSession Spec.TlsWire Spec.TlsAuth Spec.TlsRx Spec.TlsStream Spec.TlsComplete Spec.TlsArrive Spec.TlsPunctual.
From Verif Require Import Proof.Base Proof.LeafP.
From Verif Require Proof.TlsArriveP.
Ltac Zify.zify_post_hook ::= idtac.
Local Open Scope list_scope.

Lemma run_leaves {A} (p : prog A) (P : A -> Prop) : leaves p P -> forall sch ch a sch' ch', run p sch ch = (Done a, sch', ch') -> P a.
Proof.
  induction p as [a|a b l k IH|a b d k IH| |]; cbn [leaves run]; intros H sch ch x sch' ch' E; try discriminate.
  - injection E as <- <- <-. exact H.
  - destruct sch as [|t sch0]; [eapply IH; [apply H|exact E]|]. destruct (t_fault t); eapply IH; try apply H; exact E.
  - destruct sch as [|t sch0]; [eapply IH; [apply H|exact E]|]. destruct (t_fault t); eapply IH; try apply H; exact E.
Qed.

Section Clock.
Variables (cx : Crypto) (dbg : bool) (fuel : nat).
(** The answer at [now] and the timeout it leaves behind. *)
Definition clocked (now : Z) (x : res TError TEvent * TlsClient) : Prop :=
  match fst x with
  | Ok (TCallAfter k) => k <= 10 /\ tc_timeout (snd x) = Some (now + k - 10)
  | Ok TNone => tc_timeout (snd x) = None
  | Ok TApplicationData => tc_state (snd x) = TConnected
  | _ => True
  end.
Lemma alert_err {A} (P : res TError A * TlsClient -> Prop) c d now : (forall e c', P (Err e, c')) -> leaves (@send_fatal_alert cx A c d now) P.
Proof. intros H. unfold send_fatal_alert. apply leaves_seq. intros c'. apply H. Qed.
Lemma or_alert_leaves {A B} (P : res TError B * TlsClient -> Prop) (p : AM A) now k : (forall e c', P (Err e, c')) -> leaves p (fun x => match fst x with Ok a => leaves (k a (snd x)) P | Err _ => True end) -> leaves (or_alert cx p now k) P.
Proof.
  intros HE H. unfold or_alert. apply leaves_bind. apply (leaves_mono _ _ _ H). intros ([a|e], c) Hx; cbn [fst snd] in Hx; [exact Hx|]. now apply alert_err.
Qed.
Lemma or_alert_any {A B} (P : res TError B * TlsClient -> Prop) (p : AM A) now k : (forall e c', P (Err e, c')) -> (forall a c', leaves (k a c') P) -> leaves (or_alert cx p now k) P.
Proof. intros HE H. apply or_alert_leaves; [exact HE|]. apply leaves_true. intros ([a|e], c); cbn [fst snd]; auto. Qed.
Lemma check_clocked c now : leaves (check_timeout cx c now) (clocked now).
Proof.
  unfold check_timeout. destruct (tc_timeout c) as [t|] eqn:E; [|exact E]. destruct (Z.ltb_spec now t) as [|L]; [exact I|]. unfold T_TIMEOUT_SECS. destruct (10 <? now - t).
  - destruct (tstate_eqb _ _); exact I.
  - cbn [leaves]. unfold clocked. cbn [fst snd]. split; [lia|]. rewrite E. f_equal. lia.
Qed.
Definition plain_event (x : res TError (option TEvent) * TlsClient) : Prop := match fst x with Ok (Some e) => e = TApplicationData /\ tc_state (snd x) = TConnected | _ => True end.
Lemma recv_plain c now : leaves (tls_recv cx dbg c now) plain_event.
Proof.
  unfold tls_recv. apply or_alert_any; [intros; exact I|]. intros [h|] c1; [|exact I]. apply or_alert_any; [intros; exact I|]. intros ct c2.
  destruct (if ct =? ApplicationData then _ else _) as [rx|e| |]; try exact I. destruct (_ && _); [apply alert_err; intros; exact I|].
  destruct (ct =? CtAlert); [apply leaves_seq; intros (e, c3); exact I|]. apply leaves_bind.
  assert (leaves (recv_content cx (tc_set_rx c2 rx) h ct now) plain_event) as H.
  { unfold recv_content. destruct (_ =? _); [apply or_alert_any; intros; exact I|]. destruct (_ =? _).
    - destruct (recv_handshake _ _ _ _) as [([u|e], c3)|e| |]; try exact I. apply alert_err. intros; exact I.
    - destruct (tstate_eqb _ _) eqn:Es; [split; [reflexivity|destruct (tc_state _); cbn in Es; (discriminate || reflexivity)]|apply alert_err; intros; exact I]. }
  apply (leaves_mono _ _ _ H). intros (r, c3) Hx. destruct (_ =? _); [|exact Hx]. destruct (increment_read _); exact Hx || exact I.
Qed.
Lemma state_clocked c now : leaves (process_state cx dbg fuel c now) (clocked now).
Proof.
  assert (leaves (process_rx cx dbg c now) (clocked now)) as RX.
  { unfold process_rx. destruct (_ || _); [apply check_clocked|]. apply or_alert_any; [intros; exact I|]. intros rsr c1. apply leaves_bind.
    apply (leaves_mono _ plain_event); [destruct (_ <=? _); [apply recv_plain|exact I]|]. intros ([[e|]|e], c2) Hx; [cbv [plain_event fst snd] in Hx; destruct Hx as (-> & Hx); exact Hx| |exact I].
    destruct (tstate_eqb _ _); [|apply check_clocked]. apply or_alert_any; intros; exact I. }
  unfold process_state. destruct (tc_state c); try exact RX.
  - apply or_alert_leaves; [intros; exact I|]. unfold tls_tcp_connect.
    assert (forall {A B} f (p : M A) (s : TlsClient) (k : A -> prog (res Z B * TlsClient)) (P : _ -> Prop), (forall e, P (Err e, s)) -> (forall a, leaves (k a) P) -> leaves (a_io f p s k) P) as IO.
    { intros A B f p s k P HE HK. unfold a_io. apply leaves_seq. intros [a|e]; [apply HK|apply HE]. }
    apply IO; [intros; exact I|]. intros _. unfold unwrap. destruct (size_to_buffersize _); [|exact I]. repeat (apply IO; [intros; exact I|]; intros ?).
    cbn [leaves fst snd]. unfold clocked. cbn [fst snd]. split; [reflexivity|]. cbn. f_equal. unfold T_TIMEOUT_SECS. lia.
  - apply or_alert_leaves; [intros; exact I|]. apply leaves_true. intros ([a|e], c1); cbn [fst snd leaves]; [|exact I]. unfold clocked. cbn [fst snd]. split; [reflexivity|]. cbn. f_equal. unfold T_TIMEOUT_SECS. lia.
Qed.
Lemma interrupts_clocked c ir now : leaves (process_interrupts cx dbg fuel c ir now) (clocked now).
Proof.
  unfold process_interrupts. destruct (SocketInterrupt_discon_raised ir); [destruct (negb _); exact I|]. destruct (SocketInterrupt_timeout_raised ir); [exact I|].
  destruct (_ && _); [|apply state_clocked]. cbn [leaves]. unfold clocked. cbn [fst snd]. split; [reflexivity|]. cbn. f_equal. unfold T_TIMEOUT_SECS. lia.
Qed.
Lemma process_clocked c rng now : leaves (tls_process cx dbg fuel c rng now) (clocked now).
Proof.
  unfold tls_process. apply leaves_seq. intros r. set (ir := match r with Ok v => v | Err _ => 0 end). clearbody ir. destruct (SocketInterrupt_any_raised ir); [|apply state_clocked].
  apply or_alert_any; [intros; exact I|]. intros _ c1. destruct (SocketInterrupt_con_raised ir); [|apply interrupts_clocked]. apply or_alert_any; [intros; exact I|]. intros _ c2. apply interrupts_clocked.
Qed.
End Clock.

Theorem never_late cx dbg c ch rd tx later dhs t0 hello extensions share key since l c' ch' : crypto_ok cx -> greeted cx c dhs t0 -> tc_timeout c = Some since ->
  server_hello hello share -> cx_sec1 cx share = Some key -> bytes_ok hello -> zlen (hs_message 2 hello) <= buffer_size c - 22 ->
  encrypted_extensions extensions -> bytes_ok extensions -> zlen (hs_message 8 extensions) <= buffer_size c - 39 -> 58 <= tx_room ch c ->
  tcp_view (c_sock ch (sn_raw (tc_sn c))) rd tx -> tx_bytes (c_sock ch (sn_raw (tc_sn c))) ->
  punctual cx dbg since c ch l c' ch' -> receives ch' c rd (concat (flight cx (tc_psk c) (cx_dh cx dhs key) t0 hello extensions) ++ later) -> handshakes cx dbg c ch (map snd l) c' ch'.
Proof.
  intros CX G T0 Hsh Hk Bh Lh Hee Be Le Room V B P Rv.
  assert (handshakes cx dbg c ch (map snd l) c' ch' /\ clocked (fst (last l (since, Ok (TCallAfter 10)))) (snd (last l (since, Ok (TCallAfter 10))), c')) as (H & _); [|exact H].
  induction P as [|l c1 ch1 fuel rng now sch r sch' c2 ch2 P IH St Asked NF NL E].
  - split; [constructor|]. cbn. split; [lia|]. rewrite T0. f_equal. lia.
  - destruct (IH (TlsArriveP.run_receives _ _ _ _ _ _ _ _ _ _ _ _ _ _ E Rv)) as (H1 & C1).
    split; [|rewrite last_last; exact (run_leaves _ _ (process_clocked cx dbg fuel c1 rng now) _ _ _ _ _ E)].
    rewrite map_app. cbn [map snd]. eapply HProcess with (6 := E); [exact H1|exact St| |exact NF|exact NL].
    destruct (TlsArriveP.arrives cx dbg c ch rd tx later dhs t0 hello extensions share key _ c1 ch1 CX G Hsh Hk Bh Lh Hee Be Le Room V B H1 (TlsArriveP.run_receives _ _ _ _ _ _ _ _ _ _ _ _ _ _ E Rv)) as (k & Lk & Sg & _ & _ & K12 & _).
    assert ((k < 3)%nat) as K. { destruct (Nat.eq_dec k 3) as [->|]; [|lia]. cbn [stage] in Sg. destruct Sg as (Sg & _). contradiction. }
    destruct (K12 K) as (Fl & _).
    assert (goes_on (snd (last l (since, Ok (TCallAfter 10))))) as Gl.
    { destruct l as [|p l0 _] using rev_ind; [right; exists 10; split; [reflexivity|lia]|]. rewrite last_last. rewrite map_app in Fl. apply Forall_app in Fl. destruct Fl as (_ & Fl). now inversion Fl. }
    destruct (last l _) as (t, r0). cbn [fst snd as_asked] in *. destruct Gl as [-> |(secs & -> & Hs)]; unfold clocked in C1; cbn [fst snd] in C1; unfold in_time.
    + rewrite C1. exact I.
    + destruct C1 as (_ & ->). lia.
Qed.
Theorem punctual_answers cx dbg c ch rd tx later dhs t0 hello extensions share key since l c' ch' : crypto_ok cx -> greeted cx c dhs t0 -> tc_timeout c = Some since ->
  server_hello hello share -> cx_sec1 cx share = Some key -> bytes_ok hello -> zlen (hs_message 2 hello) <= buffer_size c - 22 ->
  encrypted_extensions extensions -> bytes_ok extensions -> zlen (hs_message 8 extensions) <= buffer_size c - 39 -> 58 <= tx_room ch c ->
  tcp_view (c_sock ch (sn_raw (tc_sn c))) rd tx -> tx_bytes (c_sock ch (sn_raw (tc_sn c))) ->
  punctual cx dbg since c ch l c' ch' -> receives ch' c rd (concat (flight cx (tc_psk c) (cx_dh cx dhs key) t0 hello extensions) ++ later) -> 
  handshakes cx dbg c ch (map snd l) c' ch' /\ (Forall goes_on (map snd l) \/ exists rs, map snd l = rs ++ [Ok THandshakeFinished] /\ Forall goes_on rs).
Proof.
  intros CX G T0 Hsh Hk Bh Lh Hee Be Le Room V B P Rv. pose proof (never_late cx dbg c ch rd tx later dhs t0 hello extensions share key since l c' ch' CX G T0 Hsh Hk Bh Lh Hee Be Le Room V B P Rv) as H. split; [exact H|].
  destruct (TlsArriveP.arrives cx dbg c ch rd tx later dhs t0 hello extensions share key _ c' ch' CX G Hsh Hk Bh Lh Hee Be Le Room V B H Rv) as (k & Lk & _ & _ & _ & K12 & K3).
  destruct (Nat.eq_dec k 3) as [E|]; [right; exact (proj1 (K3 E))|left; apply K12; lia].
Qed.
(** A delay that was asked for ends ten seconds after the wait began. *)
Theorem asked cx dbg fuel c rng now sch ch secs c' sch' ch' : run (tls_process cx dbg fuel c rng now) sch ch = (Done (Ok (TCallAfter secs), c'), sch', ch') -> secs <= 10 /\ tc_timeout c' = Some (now + secs - 10).
Proof. intros E. exact (run_leaves _ _ (process_clocked cx dbg fuel c rng now) _ _ _ _ _ E). Qed.
