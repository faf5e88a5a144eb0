(** The TLS client on a silent line. *)
From Verif Require Import Model.Prelude Model.Bus Model.Chip Model.Specifiers Model.LlBits Model.Ll Model.HlIo Model.HlTcp Model.TlsTypes Model.TlsBuf Model.TlsKeys
  Model.TlsRecord Model.TlsClient Spec.Sock Spec.Silent Spec.MqttMsg Spec.TlsSession Spec.TlsQuiet.
From Verif Require Import Proof.Base Proof.ChipP Proof.SockP Proof.LeafP Proof.MqttHistP Proof.MqttRxP Proof.MqttMainP.
From Verif Require Import Model.TlsTypes Model.TlsClient.
Ltac Zify.zify_post_hook ::= idtac.

Section Quiet.
Variables (cx : Crypto) (dbg : bool) (fuel : nat).

Lemma check_quiet n s c now : tclock_ok c now -> wpq (check_timeout cx c now) n s (fun x _ => twaits c now x).
Proof.
  intros H. unfold check_timeout, twaits. unfold tclock_ok in H. destruct (tc_timeout c) as [t|]; [|reflexivity]. destruct (Z.ltb_spec now t); [lia|]. unfold T_TIMEOUT_SECS.
  destruct (Z.ltb_spec 10 (now - t)).
  - destruct (tstate_eqb (tc_state c) TWaitDiscon); cbn [wpq]; right; auto.
  - left. split; [lia|reflexivity].
Qed.
Lemma state_quiet s c now : twaiting (tc_state c) -> tclock_ok c now -> rx_rsr s < 5 -> wpq (process_state cx dbg fuel c now) (snz (tc_sn c)) s (fun x _ => twaits c now x).
Proof.
  intros W H Hr. unfold process_state.
  assert (wpq (process_rx cx dbg c now) (snz (tc_sn c)) s (fun x _ => twaits c now x)) as G.
  { unfold process_rx. destruct (_ || _); [now apply check_quiet|]. unfold or_alert, a_io. apply wpq_bind, wpq_bind, wpq_rsr. cbn [wpq bind].
    assert (RH_LEN <=? rx_rsr s = false) as -> by (apply Z.leb_gt; exact Hr). cbn [bind].
    assert (tstate_eqb (tc_state c) TSendFinished = false) as ->; [|now apply check_quiet].
    unfold twaiting in W. cbn [In] in W. destruct (tc_state c); try reflexivity. repeat destruct W as [W|W]; try discriminate W. contradiction. }
  unfold twaiting in W. cbn [In] in W. destruct (tc_state c) eqn:E; auto; repeat destruct W as [W|W]; try discriminate W; contradiction.
Qed.
Lemma process_quiet c rng now ch sch : let s := c_sock ch (sn_raw (tc_sn c)) in twaiting (tc_state c) -> tclock_ok c now -> no_link_change (s_ir s) ->
  (tc_state c = TWaitAlertSendOk -> ~ ir_bit 4 (s_ir s)) -> rx_rsr s < 5 -> silent sch (sn_raw (tc_sn c)) ->
  exists x sch' ch', run (tls_process cx dbg fuel c rng now) sch ch = (Done x, sch', ch') /\ twaits c now x.
Proof.
  intros s W Hc (N0 & N1 & N3) N4 Hr Hs. pose proof (snz_range (tc_sn c)) as Hn. change (sn_raw (tc_sn c)) with (snz (tc_sn c)) in *.
  assert (wpq (tls_process cx dbg fuel c rng now) (snz (tc_sn c)) s (fun x _ => twaits c now x)) as G.
  2:{ destruct (wpq_sound _ (snz (tc_sn c)) ch _ sch ltac:(lia) G Hs) as (x & sch' & ch' & E & X & _). eauto. }
  unfold tls_process. apply wpq_bind, wpq_ir. destruct (SocketInterrupt_any_raised (s_ir s)); [|now apply state_quiet].
  unfold or_alert, a_io. apply wpq_bind, wpq_bind. cbn [wpq set_sn_ir write]. exists 1. split; [lia|]. split; [apply sn_block_eq|]. cbn [wpq ret bind fst snd].
  unfold process_interrupts. destruct (link_bits (s_ir s)) as (-> & -> & ->). unfold ir_bit in *.
  destruct (Z.testbit (s_ir s) 1); [now destruct N1|]. destruct (Z.testbit (s_ir s) 0); [now destruct N0|]. destruct (Z.testbit (s_ir s) 3); [now destruct N3|].
  assert (SocketInterrupt_sendok_raised (s_ir s) && tstate_eqb (tc_state c) TWaitAlertSendOk = false) as ->.
  2:{ apply state_quiet; auto. }
  destruct (tstate_eqb (tc_state c) TWaitAlertSendOk) eqn:E; [|apply Bool.andb_false_r]. rewrite Bool.andb_true_r.
  assert (tc_state c = TWaitAlertSendOk) as E' by (destruct (tc_state c); try discriminate E; reflexivity). specialize (N4 E').
  assert (SocketInterrupt_sendok_raised (s_ir s) = Z.testbit (s_ir s) 4) as -> by (apply bit_raised; [reflexivity|lia]). now apply Bool.not_true_is_false.
Qed.
(** A disconnect interrupt. *)
Lemma process_discon c rng now ch sch : let s := c_sock ch (sn_raw (tc_sn c)) in ir_bit 1 (s_ir s) -> ~ ir_bit 0 (s_ir s) -> silent sch (sn_raw (tc_sn c)) ->
  exists sch' ch', run (tls_process cx dbg fuel c rng now) sch ch =
    (Done (if tstate_eqb (tc_state c) TWaitDiscon then (Err EUnexpectedDisconnect, c) else (Ok TDisconnect, tls_reset cx c)), sch', ch').
Proof.
  intros s N1 N0 Hs. pose proof (snz_range (tc_sn c)) as Hn. change (sn_raw (tc_sn c)) with (snz (tc_sn c)) in *.
  set (R := if tstate_eqb (tc_state c) TWaitDiscon then (Err EUnexpectedDisconnect, c) else (Ok TDisconnect, tls_reset cx c)).
  assert (wpq (tls_process cx dbg fuel c rng now) (snz (tc_sn c)) s (fun x _ => x = R)) as G.
  2:{ destruct (wpq_sound _ (snz (tc_sn c)) ch _ sch ltac:(lia) G Hs) as (x & sch' & ch' & E & -> & _). eauto. }
  unfold tls_process. apply wpq_bind, wpq_ir.
  assert (SocketInterrupt_any_raised (s_ir s) = true) as ->.
  { apply (any_bit _ 1); [lia|exact N1]. }
  unfold or_alert, a_io. apply wpq_bind, wpq_bind. cbn [wpq set_sn_ir write]. exists 1. split; [lia|]. split; [apply sn_block_eq|]. cbn [wpq ret bind fst snd].
  unfold process_interrupts. destruct (link_bits (s_ir s)) as (-> & -> & ->). unfold ir_bit in *. rewrite N1.
  destruct (Z.testbit (s_ir s) 0); [now destruct N0|]. unfold R. destruct (tstate_eqb (tc_state c) TWaitDiscon); reflexivity.
Qed.
End Quiet.
