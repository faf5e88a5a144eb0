(** The ClientHello on a silent line. *)
From Coq Require Import String.
From Verif Require Import Model.Prelude Model.Bus Model.Chip Model.Specifiers Model.LlBits Model.Ll Model.HlIo Model.HlCommon Model.HlTcp
  Spec.Hoare Spec.Sock Spec.Cursor Spec.TcpClient Spec.TlsWire Spec.Silent Spec.TlsSecrets Spec.TlsMessages Spec.MqttMsg Spec.TlsQuiet.
From Verif Require Import Proof.Base Proof.RingP Proof.ChipP Proof.SockP Proof.LeafP Proof.StreamP Proof.TcpP Proof.MqttRxP Proof.MqttHistP Proof.TlsTxP Proof.TlsBufP Proof.TlsHelloP Proof.TlsSendP Proof.TlsRxP Proof.TlsRx2P Proof.TlsRx3P Proof.TlsInvP Proof.TlsQuietP.
From Verif Require Import Model.TlsTypes Model.TlsBuf Model.TlsKeys Model.TlsHello Model.TlsRecord Model.TlsClient Spec.TlsQueue Spec.TlsSession Spec.TlsRx Spec.TlsComplete.
Ltac Zify.zify_post_hook ::= idtac.
Local Open Scope list_scope.

(** What holds with any events holds without. *)
Lemma wps_wpq {A} (p : prog A) n : forall s (Q : A -> sock -> Prop), wps p n s False Q -> wpq p n s (fun a s' => Q a s' /\ s_rxlog s' = s_rxlog s).
Proof.
  induction p as [a|a b l k IH|a b d k IH| |]; cbn [wps wpq]; intros s Q H; auto.
  - destruct H as (kd & H1 & H2 & H3). exists kd. split; [exact H1|]. split; [exact H2|]. apply IH, H3, env_refl.
  - destruct H as (kd & H1 & H2 & H3). exists kd. split; [exact H1|]. split; [exact H2|]. specialize (IH true _ _ (H3 s (env_refl s))). rewrite (log_wrs kd d s a) in IH. exact IH.
Qed.
Lemma wpq_mono {A} (p : prog A) n : forall s (Q Q' : A -> sock -> Prop), (forall a s', Q a s' -> Q' a s') -> wpq p n s Q -> wpq p n s Q'.
Proof.
  induction p as [a|a b l k IH|a b d k IH| |]; cbn [wpq]; intros s Q Q' M H; auto.
  - destruct H as (kd & H1 & H2 & H3). exists kd. split; [exact H1|]. split; [exact H2|]. exact (IH _ _ _ _ M H3).
  - destruct H as (kd & H1 & H2 & H3). exists kd. split; [exact H1|]. split; [exact H2|]. exact (IH _ _ _ _ M H3).
Qed.
Lemma wps_rebind {A B C} (p : prog A) (F : A -> prog B) (G : B -> prog C) (H : A -> prog C) n D (Q : C -> sock -> Prop) :
  (forall a s, wps (bind (F a) G) n s D Q -> wps (H a) n s D Q) -> forall s, wps (bind (bind p F) G) n s D Q -> wps (bind p H) n s D Q.
Proof.
  intros HH. induction p as [a|a b l k IH|a b d k IH| |]; cbn [wps bind]; intros s X; auto.
  - destruct X as (kd & H1 & H2 & H3). exists kd. split; [exact H1|]. split; [exact H2|]. intros s1 E. apply IH. auto.
  - destruct X as (kd & H1 & H2 & H3). exists kd. split; [exact H1|]. split; [exact H2|]. intros s1 E. apply IH. auto.
Qed.
Lemma send_chain {B S} g sn l (c : S) (k : unit -> prog (res Z B * S)) n s D Q :
  wps (w <- tx_writer sn ;; w <- cur_write_all w l ;; cur_send w) n s D (fun r s' => match r with Ok u => wps (k u) n s' D Q | Err e => Q (Err (g e), c) s' end) ->
  wps (a_io g (tx_writer sn) c (fun w => a_io g (cur_write_all w l) c (fun w => a_io g (cur_send w) c k))) n s D Q.
Proof.
  intros H. set (G := fun r : res err unit => match r with Ok a => k a | Err e => Ret (Err (g e), c) end).
  assert (wps (bind (w <- tx_writer sn ;; w <- cur_write_all w l ;; cur_send w) G) n s D Q) as H'.
  { apply wps_bind. eapply wps_mono; [| |exact H]; [auto|]. intros [u|e] s' X; exact X. }
  clear H. unfold a_io. unfold bindM in H'. revert H'. apply wps_rebind. intros [w|e] s1; [|auto].
  apply wps_rebind. intros [w1|e] s2; [|auto]. intros X. exact X.
Qed.

Section Greet.
Context (cx : Crypto) (dbg : bool) (fuel : nat) (c : TlsClient) (rng : Rng) (now : Z).
Hypothesis CX : crypto_ok cx.
Notation sn := (tc_sn c).
Notation h := (greeting c rng).
Hypotheses (CC : connecting cx c) (RG : rng_ok rng) (Lhost : zlen (tc_hostname c) < 256) (Bhost : bytes_ok (tc_hostname c)) (Bid : bytes_ok (tc_identity c))
  (Fits : zlen (hello_record h (zeros 32)) <= buffer_size c).
Definition greets (tx : list Z) (rd : list Z) (x : res Z unit * TlsClient) (s' : sock) : Prop := exists c' b, x = (Ok tt, c') /\
  b = psk_binder cx (tc_psk c) (up_to_binders (hello_message h b)) /\ greeted cx c' (rg_secret rng) (hello_message h b) /\ same_client c c' /\ tc_timeout c' = Some now /\ tcp_view s' rd (tx ++ hello_record h b).
Lemma send_hello f s rd tx b0 w : TlsRxP.wn f s rd tx b0 b0 w -> zlen (hello_record h (zeros 32)) <= fst f -> wps (send_client_hello cx dbg c rng now) (snz sn) s False (greets tx rd).
Proof.
  intros W Room. destruct CC as (Hst & Hks & HN). destruct RG as (R1 & R2 & R3 & R4). unfold buffer_size in *. unfold send_client_hello, new_client_secret. cbn [tc_rx tc_set_rx tc_set_ks].
  assert (b_as_buf dbg (b_reset (tc_rx c)) = TOk (b_buf (tc_rx c))) as -> by (unfold b_as_buf; cbn; now rewrite Bool.andb_false_r). cbn [a_tres].
  set (ks1 := mkKS _ _ _ _ _ _ _ _ _). set (c2 := tc_set_ks _ ks1).
  assert (RECORD_SIZE_LIMIT c2 = buffer_size c - 22) as -> by (unfold RECORD_SIZE_LIMIT, buffer_size, b_N, GCM_TAG_LEN, RH_LEN; change (tc_rx c2) with (b_reset (tc_rx c)); cbn [b_buf b_reset]; lia).
  change (tc_hostname c2) with (tc_hostname c). change (tc_psk c2) with (tc_psk c). change (tc_identity c2) with (tc_identity c). change (tc_ks c2) with ks1.
  pose proof (hello_ok cx (b_buf (tc_rx c)) (rg_random rng) (tc_hostname c) (rg_public rng) ks1 (tc_psk c) (tc_identity c) (buffer_size c - 22) CX R1 R3 Lhost ltac:(unfold b_N in HN; lia)) as (F1 & _).
  fold h in F1. change (mkHello _ _ _ _ _) with h in F1. destruct (F1 Fits) as (b & ks' & Lb & Bb & Es & Ek). clear F1. rewrite Es. cbn [a_tres].
  assert (ks_transcript ks1 = []) as T0 by (unfold ks1; cbn; now rewrite Hks). rewrite T0 in Bb, Ek. cbn [app] in Bb, Ek.
  assert (bytes_ok (hello_record h b)) as Hrec by (apply (hello_bytes h b); cbn; auto; rewrite Bb; apply (zlen_binder cx CX)).
  assert (zlen (hello_record h b) = zlen (hello_record h (zeros 32))) as Elen.
  { transitivity (hello_len (tc_hostname c) (tc_identity c)); [|symmetry]; apply record_len; auto. }
  assert (zlen (hello_record h b ++ zdrop (zlen (hello_record h b)) (b_buf (tc_rx c))) = zlen (b_buf (tc_rx c))) as LN by (unfold b_N in Fits; rewrite zlen_app, zlen_zdrop; pose proof (zlen_nonneg (hello_record h b)); lia).
  rewrite ztake_exact. set (nb := hello_record h b ++ zdrop _ _) in *. clearbody nb. set (c3 := tc_set_rx _ _). apply send_chain.
  eapply wps_mono; [| |exact (plain_alert_wn f sn False s rd tx b0 w _ W Hrec)]; [auto|].
  intros r s' [(-> & V)|((e & ->) & F & _)]; [|lia].
  change (tc_ks c3) with ks'. assert (increment_write ks' = TOk (ks_set_seqs ks' (ks_read_seq ks') (ks_write_seq ks' + 1))) as ->.
  { unfold increment_write. rewrite Ek. cbn [ks_write_seq]. unfold ks1. cbn [ks_write_seq]. change (tc_ks (tc_set_rx c (b_reset (tc_rx c)))) with (tc_ks c). rewrite Hks. reflexivity. }
  cbn [a_tres wps]. eexists _, b. split; [reflexivity|]. split; [exact Bb|]. split; [|split; [|split; [reflexivity|exact V]]].
  - unfold greeted. split; [reflexivity|]. rewrite Ek. split; [reflexivity|]. split; [reflexivity|]. split; [apply (derive_empty _ _ _ CX)|].
    unfold buffer_size, b_N in *. split; [unfold buffer_size, b_N; cbn -[zlen]; rewrite LN; lia|]. unfold idle_at, b_N. cbn -[zlen]. rewrite LN. repeat (split; [reflexivity|]). lia.
  - repeat (split; [reflexivity|]). unfold buffer_size, b_N in *. cbn -[zlen]. exact LN.
Qed.
Theorem client_greets ch sch rd tx : let s := c_sock ch (sn_raw sn) in tcp_view s rd tx -> tx_bytes s -> zlen (unread s) < 5 -> ir_bit 0 (s_ir s) -> ~ ir_bit 1 (s_ir s) -> ~ ir_bit 3 (s_ir s) ->
  zlen (hello_record h (zeros 32)) <= tx_room ch c -> silent sch (sn_raw sn) ->
  exists c' sch' ch' b, run (tls_process cx dbg fuel c rng now) sch ch = (Done (Ok (TCallAfter 10), c'), sch', ch') /\
    b = psk_binder cx (tc_psk c) (up_to_binders (hello_message h b)) /\ greeted cx c' (rg_secret rng) (hello_message h b) /\ same_client c c' /\
    tcp_view (c_sock ch' (sn_raw sn)) rd (tx ++ hello_record h b).
Proof.
  intros s V TB U I0 I1 I3 Room Hs. pose proof (snz_range sn) as Hn. change (sn_raw sn) with (snz sn) in *.
  set (f := (free_space s, rx_size s)). pose proof (view_wn f s rd tx (unread s) [] V TB ltac:(cbn; lia) eq_refl ltac:(now rewrite app_nil_r)) as W.
  set (s1 := sock_wrs s 1 (SnReg_addr S_IR) [s_ir s]).
  assert (TlsRxP.wn f s1 rd tx (s_rx_base s) (s_rx_base s) (unread s)) as W1 by exact W.
  pose proof (wps_wpq _ _ _ _ (send_hello f s1 rd tx _ _ W1 Room)) as G.
  assert (s_rxlog s1 = s_rxlog s) as L1 by reflexivity.
  assert (wpq (tls_process cx dbg fuel c rng now) (snz sn) s (fun x s' => exists c' b, x = (Ok (TCallAfter 10), c') /\ b = psk_binder cx (tc_psk c) (up_to_binders (hello_message h b)) /\
     greeted cx c' (rg_secret rng) (hello_message h b) /\ same_client c c' /\ tcp_view s' rd (tx ++ hello_record h b))) as GG.
  2:{ destruct (wpq_sound _ (snz sn) ch _ sch ltac:(lia) GG Hs) as (x & sch' & ch' & E & (c' & b & -> & X) & _). exists c', sch', ch', b. split; [exact E|exact X]. }
  unfold tls_process. apply wpq_bind, wpq_ir. assert (SocketInterrupt_any_raised (s_ir s) = true) as -> by (apply (any_bit _ 0); [lia|exact I0]).
  unfold or_alert at 1. unfold a_io. apply wpq_bind, wpq_bind. cbn [wpq set_sn_ir write]. exists 1. split; [lia|]. split; [apply sn_block_eq|]. cbn [wpq ret bind fst snd].
  change (sock_wrs s 1 (SnReg_addr S_IR) [s_ir s]) with s1. destruct (link_bits (s_ir s)) as (Q1 & Q0 & Q3). unfold ir_bit in *. rewrite Q0, I0.
  unfold or_alert. apply wpq_bind. eapply wpq_mono; [|exact G]. intros x s2 ((c' & b & -> & Eb & Gr & Sc & Tm & V2) & L2). cbn iota.
  unfold process_interrupts. rewrite Q1, Q3. destruct (Z.testbit (s_ir s) 1); [now destruct I1|]. destruct (Z.testbit (s_ir s) 3); [now destruct I3|].
  pose proof Gr as (Hst & _). rewrite Hst. cbn [tstate_eqb]. rewrite Bool.andb_false_r.
  assert (rx_rsr s2 < 5) as Hr.
  { destruct V as (_ & _ & _ & V & _). pose proof V2 as (_ & (W2 & _) & _ & V2' & _). rewrite L2, L1, V in V2'. apply app_inv_head in V2'.
    assert (zlen (unread s2) = rx_rsr s2) as <- by (apply (unread_len sn)). rewrite <- V2'. exact U. }
  assert (tc_sn c = tc_sn c') as Esn by (symmetry; exact (proj1 Sc)). rewrite Esn.
  assert (wpq (process_state cx dbg fuel c' now) (snz (tc_sn c')) s2 (fun x s3 => x = (Ok (TCallAfter 10), c') /\ s3 = s2)) as SQ'.
  2:{ eapply wpq_mono; [|exact SQ']. intros x s3 (-> & ->). exists c', b. auto. }
  unfold process_state. rewrite Hst. unfold process_rx. rewrite Hst. cbn [tstate_eqb orb].
  unfold or_alert, a_io. apply wpq_bind, wpq_bind, wpq_rsr. cbn [wpq bind].
  assert (RH_LEN <=? rx_rsr s2 = false) as -> by (apply Z.leb_gt; exact Hr). cbn [bind tc_state]. rewrite ?Hst. cbn [tstate_eqb].
  unfold check_timeout. rewrite Tm. destruct (Z.ltb_spec now now); [lia|]. unfold T_TIMEOUT_SECS. destruct (Z.ltb_spec 10 (now - now)); [lia|]. cbn [wpq]. rewrite Z.sub_diag. split; reflexivity.
Qed.
End Greet.
