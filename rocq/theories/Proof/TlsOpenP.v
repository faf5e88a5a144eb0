(** From the ClientHello to the data. *)
From Coq Require Import String.
From Verif Require Import Model.Prelude Model.Bus Model.Chip Model.Specifiers Model.LlBits Model.Ll Model.HlIo Model.HlCommon Model.HlTcp
  Spec.Hoare Spec.Sock Spec.Cursor Spec.TcpClient Spec.TlsWire Spec.Silent Spec.TlsSecrets Spec.TlsMessages Spec.MqttMsg Spec.TlsQuiet.
From Verif Require Import Proof.Base Proof.RingP Proof.ChipP Proof.SockP Proof.LeafP Proof.StreamP Proof.TcpP Proof.MqttRxP Proof.MqttHistP Proof.TlsTxP Proof.TlsBufP Proof.TlsHelloP Proof.TlsSendP Proof.TlsRxP Proof.TlsRx2P Proof.TlsRx3P Proof.TlsInvP Proof.TlsQuietP Proof.TlsWireP Proof.TlsGreetP Proof.TlsWireP.
From Verif Require Proof.TlsArriveP.
From Verif Require Import Model.TlsTypes Model.TlsBuf Model.TlsKeys Model.TlsHello Model.TlsRecord Model.TlsClient Spec.TlsQueue Spec.TlsSession Spec.TlsAuth Spec.TlsRx Spec.TlsProtect Spec.TlsStream Spec.TlsComplete Spec.TlsArrive.
Ltac Zify.zify_post_hook ::= idtac.
Local Open Scope list_scope.

Section Send.
Context (f : Z * Z) (sn : Sn) (D : Prop).
Let n := snz sn.
Notation wn := (TlsRxP.wn f).
Lemma plain_send_wn s rd tx b w l : wn s rd tx b b w -> bytes_ok l ->
  wps (w <- tx_writer sn ;; w <- cur_write_all w l ;; cur_send w) n s D (fun r s' => (r = Ok tt /\ tcp_view s' rd (tx ++ l) /\ tx_bytes s' /\ fst f - zlen l <= free_space s') \/ ((exists e, r = Err e) /\ fst f < zlen l /\ tcp_view s' rd tx)).
Proof.
  intros H Bl. pose proof (wn_view f _ _ _ _ _ H) as V. destruct H as ((_ & _ & _ & _ & _ & TB & F & _) & _). pose proof V as (T & _ & X & _). pose proof (tcp_idle _ T) as I.
  apply wps_bindM. eapply wps_mono; [| |exact (tx_writer_spec sn D s I X)]; [auto|].
  intros r s1 (E1 & c & -> & Hsn & Hc & Hp & Hh & Hl).
  destruct (view_env _ _ _ _ V E1) as (V1 & _). pose proof (view_idle _ _ _ V1) as I1. pose proof V1 as (_ & _ & (X1 & C1) & _).
  destruct X as (X & _). destruct (wk_env s s1 I X E1) as ((_ & _ & _ & _ & _ & _ & Ez & _ & _ & Ep & _) & Bs1). specialize (Bs1 TB).
  pose proof (cur_accounting c Hc) as (A1 & A2 & A3). destruct (at_start s1 (cur_len c) I1 X1 ltac:(lia) ltac:(lia)) as (W1 & L1).
  set (win := window s1 (cur_len c)) in *.
  assert (cw sn s1 s1 c [] win) as W. { unfold cw. cbn [app]. rewrite L1. split; [exact W1|]. repeat (split; [assumption|]). split; [reflexivity|exact Hh]. }
  apply wps_bindM. eapply wps_mono; [| |exact (write_all_cw sn D s1 s1 c [] win l W Bl)]; [auto|].
  intros r s2 [(H1 & c2 & -> & W2)|(H1 & (e & ->) & W2)].
  2:{ right. split; [eauto|]. split; [unfold free_space in F; lia|]. exact (proj1 (view_work _ _ _ _ _ V1 W2)). }
  destruct W2 as (W2 & P1 & P2 & P3 & P4 & P5). apply at_prefix in W2. unfold cur_send. rewrite P1. cbn [app] in *.
  eapply wps_mono; [| |apply (send_at sn D s1 s2 _ _ W2)]; [auto| |rewrite (cur_ptr_pos c2 P2), P5, P3; reflexivity].
  intros r s3 (-> & S3). left. split; [reflexivity|]. destruct (view_sent _ _ _ _ _ V1 S3) as (V6 & F6). split; [exact V6|]. split; [apply S3; exact Bs1|]. unfold free_space in *; lia.
Qed.
End Send.

Section Greet.
Context (cx : Crypto) (dbg : bool) (fuel : nat) (c : TlsClient) (rng : Rng) (now : Z).
Hypothesis CX : crypto_ok cx.
Notation sn := (tc_sn c).
Notation h := (greeting c rng).
Hypotheses (CC : connecting cx c) (RG : rng_ok rng) (Lhost : zlen (tc_hostname c) < 256) (Bhost : bytes_ok (tc_hostname c)) (Bid : bytes_ok (tc_identity c))
  (Fits : zlen (hello_record h (zeros 32)) <= buffer_size c).
Definition greets (room : Z) (tx : list Z) (rd : list Z) (x : res Z unit * TlsClient) (s' : sock) : Prop := exists c' b, x = (Ok tt, c') /\
  b = psk_binder cx (tc_psk c) (up_to_binders (hello_message h b)) /\ greeted cx c' (rg_secret rng) (hello_message h b) /\ same_client c c' /\ tc_timeout c' = Some now /\ tcp_view s' rd (tx ++ hello_record h b) /\ tx_bytes s' /\ room - zlen (hello_record h (zeros 32)) <= free_space s'.
Lemma send_hello f s rd tx b0 w : TlsRxP.wn f s rd tx b0 b0 w -> zlen (hello_record h (zeros 32)) <= fst f -> wps (send_client_hello cx dbg c rng now) (snz sn) s False (greets (fst f) tx rd).
Proof.
  intros W Room. destruct CC as (Hst & Hks & HN). destruct RG as (R1 & R2 & R3 & R4). unfold buffer_size in *. unfold send_client_hello, new_client_secret. cbn [tc_rx tc_set_rx tc_set_ks].
  assert (b_as_buf dbg (b_reset (tc_rx c)) = TOk (b_buf (tc_rx c))) as -> by (unfold b_as_buf; cbn; now rewrite Bool.andb_false_r). cbn [a_tres].
  set (ks1 := mkKS _ _ _ _ _ _ _ _ _). set (c2 := tc_set_ks _ ks1).
  assert (RECORD_SIZE_LIMIT c2 = buffer_size c - 22) as -> by (unfold RECORD_SIZE_LIMIT, buffer_size, b_N, GCM_TAG_LEN, RH_LEN; change (tc_rx c2) with (b_reset (tc_rx c)); cbn [b_buf b_reset]; lia).
  change (tc_hostname c2) with (tc_hostname c). change (tc_psk c2) with (tc_psk c). change (tc_identity c2) with (tc_identity c). change (tc_ks c2) with ks1.
  pose proof (hello_ok cx (b_buf (tc_rx c)) (rg_random rng) (tc_hostname c) (rg_public rng) ks1 (tc_psk c) (tc_identity c) (buffer_size c - 22) CX R1 R3 Lhost ltac:(unfold b_N in HN; lia)) as (F1 & _).
  fold h in F1. change (mkHello _ _ _ _ _) with h in F1. destruct (F1 Fits) as (b & ks' & Lb & Bb & Es & Ek). clear F1. rewrite Es. cbn [a_tres].
  assert (ks_transcript ks1 = []) as T0 by (unfold ks1; cbn; now rewrite Hks). rewrite T0 in Bb, Ek. cbn [app] in Bb, Ek.
  assert (bytes_ok (hello_record h b)) as Hrec by (apply (hello_bytes h b); cbn; auto; rewrite Bb; apply (zlen_binder cx CX)).
  assert (zlen (hello_record h b) = zlen (hello_record h (zeros 32))) as Elen.
  { transitivity (hello_len (tc_hostname c) (tc_identity c)); [|symmetry]; apply record_len; auto. }
  assert (zlen (hello_record h b ++ zdrop (zlen (hello_record h b)) (b_buf (tc_rx c))) = zlen (b_buf (tc_rx c))) as LN by (unfold b_N in Fits; rewrite zlen_app, zlen_zdrop; pose proof (zlen_nonneg (hello_record h b)); lia).
  rewrite ztake_exact. set (nb := hello_record h b ++ zdrop _ _) in *. clearbody nb. set (c3 := tc_set_rx _ _). apply send_chain.
  eapply wps_mono; [| |exact (plain_send_wn f sn False s rd tx b0 w _ W Hrec)]; [auto|].
  intros r s' [(-> & V & TB' & Fr)|((e & ->) & F & _)]; [|lia].
  change (tc_ks c3) with ks'. assert (increment_write ks' = TOk (ks_set_seqs ks' (ks_read_seq ks') (ks_write_seq ks' + 1))) as ->.
  { unfold increment_write. rewrite Ek. cbn [ks_write_seq]. unfold ks1. cbn [ks_write_seq]. change (tc_ks (tc_set_rx c (b_reset (tc_rx c)))) with (tc_ks c). rewrite Hks. reflexivity. }
  cbn [a_tres wps]. eexists _, b. split; [reflexivity|]. split; [exact Bb|]. split; [|split; [|split; [reflexivity|split; [exact V|split; [exact TB'|lia]]]]].
  - unfold greeted. split; [reflexivity|]. rewrite Ek. split; [reflexivity|]. split; [reflexivity|]. split; [apply (derive_empty _ _ _ CX)|].
    unfold buffer_size, b_N in *. split; [unfold buffer_size, b_N; cbn -[zlen]; rewrite LN; lia|]. unfold idle_at, b_N. cbn -[zlen]. rewrite LN. repeat (split; [reflexivity|]). lia.
  - repeat (split; [reflexivity|]). unfold buffer_size, b_N in *. cbn -[zlen]. exact LN.
Qed.
Theorem client_opens ch sch rd tx : let s := c_sock ch (sn_raw sn) in tcp_view s rd tx -> tx_bytes s -> zlen (unread s) < 5 -> ir_bit 0 (s_ir s) -> ~ ir_bit 1 (s_ir s) -> ~ ir_bit 3 (s_ir s) ->
  zlen (hello_record h (zeros 32)) <= tx_room ch c -> silent sch (sn_raw sn) ->
  exists c' sch' ch' b, run (tls_process cx dbg fuel c rng now) sch ch = (Done (Ok (TCallAfter 10), c'), sch', ch') /\
    b = psk_binder cx (tc_psk c) (up_to_binders (hello_message h b)) /\ greeted cx c' (rg_secret rng) (hello_message h b) /\ same_client c c' /\
    tcp_view (c_sock ch' (sn_raw sn)) rd (tx ++ hello_record h b) /\ tx_bytes (c_sock ch' (sn_raw sn)) /\ tx_room ch c - zlen (hello_record h (zeros 32)) <= tx_room ch' c.
Proof.
  intros s V TB U I0 I1 I3 Room Hs. pose proof (snz_range sn) as Hn. change (sn_raw sn) with (snz sn) in *.
  set (f := (free_space s, rx_size s)). pose proof (view_wn f s rd tx (unread s) [] V TB ltac:(cbn; lia) eq_refl ltac:(now rewrite app_nil_r)) as W.
  set (s1 := sock_wrs s 1 (SnReg_addr S_IR) [s_ir s]).
  assert (TlsRxP.wn f s1 rd tx (s_rx_base s) (s_rx_base s) (unread s)) as W1 by exact W.
  pose proof (wps_wpq _ _ _ _ (send_hello f s1 rd tx _ _ W1 Room)) as G.
  assert (s_rxlog s1 = s_rxlog s) as L1 by reflexivity.
  assert (wpq (tls_process cx dbg fuel c rng now) (snz sn) s (fun x s' => exists c' b, x = (Ok (TCallAfter 10), c') /\ b = psk_binder cx (tc_psk c) (up_to_binders (hello_message h b)) /\
     greeted cx c' (rg_secret rng) (hello_message h b) /\ same_client c c' /\ tcp_view s' rd (tx ++ hello_record h b) /\ tx_bytes s' /\ fst f - zlen (hello_record h (zeros 32)) <= free_space s')) as GG.
  2:{ destruct (wpq_sound _ (snz sn) ch _ sch ltac:(lia) GG Hs) as (x & sch' & ch' & E & (c' & b & -> & X) & _). exists c', sch', ch', b. split; [exact E|exact X]. }
  unfold tls_process. apply wpq_bind, wpq_ir. assert (SocketInterrupt_any_raised (s_ir s) = true) as -> by (apply (any_bit _ 0); [lia|exact I0]).
  unfold or_alert at 1. unfold a_io. apply wpq_bind, wpq_bind. cbn [wpq set_sn_ir write]. exists 1. split; [lia|]. split; [apply sn_block_eq|]. cbn [wpq ret bind fst snd].
  change (sock_wrs s 1 (SnReg_addr S_IR) [s_ir s]) with s1. destruct (link_bits (s_ir s)) as (Q1 & Q0 & Q3). unfold ir_bit in *. rewrite Q0, I0.
  unfold or_alert. apply wpq_bind. eapply wpq_mono; [|exact G]. intros x s2 ((c' & b & -> & Eb & Gr & Sc & Tm & V2 & TB2 & F2) & L2). cbn iota.
  unfold process_interrupts. rewrite Q1, Q3. destruct (Z.testbit (s_ir s) 1); [now destruct I1|]. destruct (Z.testbit (s_ir s) 3); [now destruct I3|].
  pose proof Gr as (Hst & _). rewrite Hst. cbn [tstate_eqb]. rewrite Bool.andb_false_r.
  assert (rx_rsr s2 < 5) as Hr.
  { destruct V as (_ & _ & _ & V & _). pose proof V2 as (_ & (W2 & _) & _ & V2' & _). rewrite L2, L1, V in V2'. apply app_inv_head in V2'.
    assert (zlen (unread s2) = rx_rsr s2) as <- by (apply (unread_len sn)). rewrite <- V2'. exact U. }
  assert (tc_sn c = tc_sn c') as Esn by (symmetry; exact (proj1 Sc)). rewrite Esn.
  assert (wpq (process_state cx dbg fuel c' now) (snz (tc_sn c')) s2 (fun x s3 => x = (Ok (TCallAfter 10), c') /\ s3 = s2)) as SQ'.
  2:{ eapply wpq_mono; [|exact SQ']. intros x s3 (-> & ->). exists c', b. split; [reflexivity|]. auto 12. }
  unfold process_state. rewrite Hst. unfold process_rx. rewrite Hst. cbn [tstate_eqb orb].
  unfold or_alert, a_io. apply wpq_bind, wpq_bind, wpq_rsr. cbn [wpq bind].
  assert (RH_LEN <=? rx_rsr s2 = false) as -> by (apply Z.leb_gt; exact Hr). cbn [bind tc_state]. rewrite ?Hst. cbn [tstate_eqb].
  unfold check_timeout. rewrite Tm. destruct (Z.ltb_spec now now); [lia|]. unfold T_TIMEOUT_SECS. destruct (Z.ltb_spec 10 (now - now)); [lia|]. cbn [wpq]. rewrite Z.sub_diag. split; reflexivity.
Qed.
End Greet.

Theorem whole_connection cx dbg fuel c rng now : crypto_ok cx -> connecting cx c -> rng_ok rng -> zlen (tc_hostname c) < 256 -> bytes_ok (tc_hostname c) -> bytes_ok (tc_identity c) ->
  let h := greeting c rng in zlen (hello_record h (zeros 32)) <= buffer_size c ->
  forall ch sch rd tx, let s := c_sock ch (sn_raw (tc_sn c)) in tcp_view s rd tx -> tx_bytes s -> zlen (unread s) < 5 ->
  ir_bit 0 (s_ir s) -> ~ ir_bit 1 (s_ir s) -> ~ ir_bit 3 (s_ir s) -> zlen (hello_record h (zeros 32)) + 58 <= tx_room ch c -> silent sch (sn_raw (tc_sn c)) ->
  exists c0 sch' ch0 b, run (tls_process cx dbg fuel c rng now) sch ch = (Done (Ok (TCallAfter 10), c0), sch', ch0) /\ b = psk_binder cx (tc_psk c) (up_to_binders (hello_message h b)) /\
  forall hello extensions share key, server_hello hello share -> cx_sec1 cx share = Some key -> bytes_ok hello -> zlen (hs_message 2 hello) <= buffer_size c - 22 ->
  encrypted_extensions extensions -> bytes_ok extensions -> zlen (hs_message 8 extensions) <= buffer_size c - 39 ->
  let dhe := cx_dh cx (rg_secret rng) key in let t0 := hello_message h b in let records := flight cx (tc_psk c) dhe t0 hello extensions in
  let traffic := derive cx (master_secret cx (tc_psk c) dhe) "s ap traffic" (upto_finished cx (tc_psk c) dhe t0 hello extensions) in
  forall room datas, Forall bytes_ok datas -> Forall (fun d => zlen d <= room) datas -> 0 <= room <= buffer_size c - 39 -> zlen datas < 2 ^ 64 - 1 ->
  forall rs1 c1 ch1 rs2 got c2 ch2, handshakes cx dbg c0 ch0 rs1 c1 ch1 -> tc_state c1 = TConnected -> uses cx dbg room c1 ch1 rs2 got c2 ch2 -> receives ch2 c rd (concat records ++ record_stream cx traffic 0 datas) ->
  Forall (fun r => r = Ok TNone \/ r = Ok TApplicationData) rs2 /\ (deliveries rs2 <= length datas)%nat /\ got ++ readable c2 = concat (firstn (deliveries rs2) datas) /\
  tcp_view (c_sock ch2 (sn_raw (tc_sn c))) (rd ++ concat records ++ record_stream cx traffic 0 (firstn (deliveries rs2) datas)) (tx ++ hello_record h b ++ reply cx (tc_psk c) dhe t0 hello extensions).
Proof.
  intros CX CC RG Lh Bh Bi h Fits ch sch rd tx s V TB U I0 I1 I3 Room Hs.
  destruct (client_opens cx dbg fuel c rng now CX CC RG Lh Bh Bi Fits ch sch rd tx V TB U I0 I1 I3 ltac:(fold h; lia) Hs) as (c0 & sch' & ch0 & b & Ru & Eb & G & Sm & V0 & TB0 & F0).
  exists c0, sch', ch0, b. split; [exact Ru|]. split; [exact Eb|]. intros hello extensions share key Hsh Hk Bhl Lhl Hee Be Le dhe t0 records traffic room datas Bd Ld Hr Hl rs1 c1 ch1 rs2 got c2 ch2 U1 St U2 Rv.
  pose proof Sm as (Esn & _ & _ & _ & _ & Ep & Eb'). fold h in F0, V0.
  assert (tx_room ch0 c0 = tx_room ch0 c) as Er by (unfold tx_room; now rewrite Esn).
  assert (receives ch2 c0 rd (concat records ++ record_stream cx traffic 0 datas)) as Rv' by (unfold receives in *; now rewrite Esn).
  unfold records, traffic in *. rewrite <- Ep in *.
  destruct (TlsArriveP.whole_session cx dbg c0 ch0 rd (tx ++ hello_record h b) (rg_secret rng) t0 hello extensions share key rs1 c1 ch1 room datas rs2 got c2 ch2 CX G Hsh Hk Bhl ltac:(lia) Hee Be ltac:(lia) ltac:(lia) ltac:(rewrite Esn; exact V0) ltac:(rewrite Esn; exact TB0) Bd Ld ltac:(lia) Hl U1 St U2 Rv') as (R1 & R2 & R3 & R4).
  split; [exact R1|]. split; [exact R2|]. split; [exact R3|]. rewrite Esn, <- app_assoc in R4. exact R4.
Qed.
