(** The statements of Props/TlsRecords.v. *)
From Verif Require Import Model.Prelude Model.Bus Model.Chip Model.Specifiers Model.Stream Spec.Hoare Spec.Sock Spec.Cases Spec.TcpClient Spec.Cursor Spec.TlsSecrets Spec.TlsProtect.
From Verif Require Import Proof.Base Proof.TcpP Proof.TlsTxP Proof.TlsWireP Proof.TlsTalkP Proof.TlsCaseP.
From Verif Require Import Model.TlsTypes Model.TlsBuf Model.TlsKeys Model.TlsRecord Model.TlsClient Spec.TlsSession Spec.TlsWire Spec.TlsTalk Spec.TlsCases.

Lemma case_sock_bytes : tx_bytes (c_sock case_tcp 3).
Proof. intros a. change (is_u8 (a mod 251)). unfold is_u8. lia. Qed.
Lemma case_writes : writes_with case_connected case_client_secret 0.
Proof. unfold writes_with. split; [reflexivity|]. split; [vm_compute; reflexivity|]. split; [reflexivity|lia]. Qed.
Lemma case_free : free_space (c_sock case_tcp 3) = 2040.
Proof. vm_compute. reflexivity. Qed.
Lemma case_view : tcp_view (c_sock case_tcp 3) [] case_tcp_unsent.
Proof. repeat split; try (vm_compute; reflexivity || (intro; discriminate)); try (left; reflexivity);
      try (right; right; left; reflexivity); repeat constructor; discriminate. Qed.

(** Two records with one number. *)
Lemma reuse d1 d2 : bytes_ok d1 -> bytes_ok d2 -> zlen d1 + zlen d2 + 44 <= 2040 ->
  ensures (tcalls_run case_cx true 1 case_connected [KWriteAll d1; KWriteAll d2]) 3 case_tcp (fun r s' =>
    fst r = [NWriteAll (Ok tt); NWriteAll (Ok tt)] /\
    tx_stream s' = case_tcp_unsent ++ protected_record case_cx case_client_secret 0 23 d1 ++ protected_record case_cx case_client_secret 0 23 d2).
Proof.
  intros B1 B2 L. pose proof (zlen_nonneg d1) as N1. pose proof (zlen_nonneg d2) as N2. pose proof case_writes as W.
  change 3 with (sn_raw Sn3). apply ensures_wps. cbn [tcalls_run]. 
  change (snz Sn3) with (snz (tc_sn case_connected)). apply wps_bind.
  eapply wps_mono; [| |exact (write_all_tls case_cx true 1 case_connected case_client_secret 0 False _ [] case_tcp_unsent d1 case_cx_ok W ltac:(lia) case_view case_sock_bytes B1 ltac:(lia))]; [auto|].
  intros (a1 & c1) s1 (S1 & E1 & H1). cbn [fst snd] in *. subst c1.
  change (snz (tc_sn case_connected)) with 3 in H1. rewrite case_free in H1.
  destruct (record_parts case_cx case_client_secret 0 23 d1 case_cx_ok ltac:(lia) B1 ltac:(unfold is_u8; lia) ltac:(lia)) as (L1 & _). rewrite L1 in H1.
  destruct H1 as [(-> & V1 & F1)|(_ & F & _)]; [|lia].
  apply wps_bind. apply wps_bind.
  eapply wps_mono; [| |exact (write_all_tls case_cx true 1 case_connected case_client_secret 0 False s1 [] _ d2 case_cx_ok W ltac:(lia) V1 S1 B2 ltac:(lia))]; [auto|].
  intros (a2 & c2) s2 (S2 & E2 & H2). cbn [fst snd] in *. subst c2.
  destruct H2 as [(-> & V2 & F2)|(_ & F & _)]; [|lia].
  cbn [wps fst snd]. split; [reflexivity|]. rewrite app_assoc. apply V2.
Qed.

Lemma writer_call cx dbg fuel c traffic seq ch rd tx ops (fin : bool) : crypto_ok cx -> writes_with c traffic seq -> seq < 2 ^ 64 - 1 ->
  tcp_view (c_sock ch (sn_raw (tc_sn c))) rd tx -> tx_bytes (c_sock ch (sn_raw (tc_sn c))) ->
  Forall cop_ok ops -> forallb writer_op ops = true -> Forall op_bytes ops ->
  ensures (tcall_run cx dbg fuel c (KWriter ops fin)) (sn_raw (tc_sn c)) ch (fun r s' =>
    tx_bytes s' /\
    ((r = (NWriter (Err internal_warning), c) /\ free_space (c_sock ch (sn_raw (tc_sn c))) < 22 /\ tcp_view s' rd tx) \/
     (exists w0 xs w pos, fst r = NWriter (Ok (xs, if fin then Some (Ok tt) else None)) /\ asteps w0 0 ops = (xs, w, pos) /\
        free_space (c_sock ch (sn_raw (tc_sn c))) <= zlen w0 + 22 /\ 0 <= pos <= zlen w /\
        writes_with (snd r) traffic (if fin then seq + 1 else seq) /\
        tcp_view s' rd (tx ++ if fin then protected_record cx traffic seq 23 (ztake pos w) else [])))).
Proof.
  intros CX W Hs V B Ho Hr Hb. apply ensures_wps.
  eapply wps_mono; [| |exact (writer_session_tls (tc_sn c) cx dbg fuel c traffic seq False _ rd tx ops fin CX eq_refl W Hs V B Ho Hr Hb)]; [auto|].
  intros r s' (B' & [H|(w0 & xs & w & pos & H1 & H2 & H3 & H4 & H5 & H6 & H7 & H8 & H9)]); (split; [exact B'|]); [left; exact H|].
  right. exists w0, xs, w, pos. split; [exact H1|]. split; [exact H2|]. split; [exact (proj1 H3)|]. split; [exact H5|]. split; [exact H8|]. exact (proj1 H9).
Qed.
Lemma write_all_call cx dbg fuel c traffic seq ch rd tx data : crypto_ok cx -> writes_with c traffic seq -> seq < 2 ^ 64 ->
  tcp_view (c_sock ch (sn_raw (tc_sn c))) rd tx -> tx_bytes (c_sock ch (sn_raw (tc_sn c))) -> bytes_ok data -> zlen data <= 65518 ->
  ensures (tcall_run cx dbg fuel c (KWriteAll data)) (sn_raw (tc_sn c)) ch (fun r s' =>
    tx_bytes s' /\ snd r = c /\
    ((fst r = NWriteAll (Ok tt) /\ tcp_view s' rd (tx ++ protected_record cx traffic seq 23 data)) \/
     (fst r = NWriteAll (Err internal_warning) /\ free_space (c_sock ch (sn_raw (tc_sn c))) < zlen data + 22 /\ tcp_view s' rd tx))).
Proof.
  intros CX W Hs V B Hb Hl. apply ensures_wps.
  eapply wps_mono; [| |exact (write_all_tls cx dbg fuel c traffic seq False _ rd tx data CX W Hs V B Hb Hl)]; [auto|].
  intros r s' (B' & E & [(H1 & H2 & _)|H]); (split; [exact B'|]; split; [exact E|]); [left|right]; auto.
Qed.
Lemma write_all_long cx dbg fuel c data : tls_connected c = true -> 65518 < zlen data -> tcall_run cx dbg fuel c (KWriteAll data) = Panic.
Proof.
  intros E L. cbn [tcall_run]. unfold tls_write_all. rewrite E. cbn [negb]. unfold send_encrypted_record. change GCM_TAG_LEN with 16.
  destruct (Z.ltb_spec 65535 (zlen data + 16 + 1)) as [|]; [reflexivity|lia].
Qed.
Lemma writer_calls cx dbg fuel c traffic seq ch rd tx l : crypto_ok cx -> writes_with c traffic seq -> seq + zlen l < 2 ^ 64 ->
  tcp_view (c_sock ch (sn_raw (tc_sn c))) rd tx -> tx_bytes (c_sock ch (sn_raw (tc_sn c))) -> Forall is_session l ->
  ensures (tcalls_run cx dbg fuel c l) (sn_raw (tc_sn c)) ch (fun r s' =>
    exists contents, zlen contents = sent_count (fst r) /\ Forall (fun d => bytes_ok d /\ zlen d + 22 <= 16384) contents /\
      writes_with (snd r) traffic (seq + zlen contents) /\ tcp_view s' rd (tx ++ app_records cx traffic seq contents)).
Proof.
  intros CX W Hs V B Hl. apply ensures_wps.
  eapply wps_mono; [| |exact (sessions_tls cx dbg fuel traffic False rd CX l c _ tx seq W Hs V B Hl)]; [auto|]. intros r s' (_ & _ & H). exact H.
Qed.
