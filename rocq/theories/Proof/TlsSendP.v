(** The TLS writer and [write_all] on an open connection. *)
From Verif Require Import Model.Prelude Model.Bus Model.Chip Model.Specifiers Model.LlBits Model.Ll Model.HlIo Model.HlTcp Model.Stream Model.Gcm Model.TlsTypes Model.TlsBuf
  Model.TlsKeys Model.TlsRecord Spec.Hoare Spec.Sock Spec.TcpClient Spec.Cursor Spec.Gcm38D Spec.Fips197 Spec.GcmCalls Spec.TlsSecrets Spec.TlsProtect Spec.TlsWire.
From Verif Require Import Proof.Base Proof.TcpP Proof.Ghash3P Proof.GcmP Proof.TlsHelloP Proof.TlsTxP.
From Verif Require Import Model.TlsTypes.

Section Send.
Context (sn : Sn).
Notation n := (snz sn).

Lemma at_prefix s0 s l l2 : at_work s0 s (l ++ l2) -> at_work s0 s l.
Proof.
  intros (A1 & A2 & A3 & A4 & A5). pose proof (zlen_nonneg l). pose proof (zlen_nonneg l2). rewrite zlen_app in *. unfold at_work.
  split; [exact A1|]. split; [exact A2|]. split; [lia|]. split; [exact A4|].
  apply (f_equal (ztake (zlen l))) in A5. unfold window in A5. rewrite ring_take in A5 by lia. unfold window. rewrite A5. apply ztake_exact.
Qed.
Lemma at_start s k : idle s -> tx_wf s -> 0 <= k -> pending s + k <= tx_size s -> at_work s s (window s k) /\ zlen (window s k) = k.
Proof.
  intros I W Hk Hp. assert (zlen (window s k) = k) as L by (unfold window; rewrite ring_len; lia). split; [|exact L].
  unfold at_work. rewrite L. split; [exact I|]. split; [exact W|]. split; [exact Hp|]. split; [now apply wk_refl|reflexivity].
Qed.
Lemma at_bytes s0 s l : at_work s0 s l -> tx_bytes s0 -> bytes_ok l.
Proof. intros (_ & _ & _ & (_ & K) & <-) B. unfold window. apply ring_bytes. exact (K B). Qed.
(** Nothing was committed. *)
Lemma view_work s0 s l rd tx : tcp_view s0 rd tx -> at_work s0 s l -> tcp_view s rd tx /\ free_space s0 <= free_space s.
Proof.
  intros V (_ & _ & _ & ((K1 & K2 & K3 & K4 & K5 & K6 & K7 & K8 & K9 & K10 & K11) & _) & _). pose proof V as (_ & _ & (_ & C) & _).
  split; [|unfold free_space; lia]. destruct (view_commit s0 s rd tx []) as (V2 & _); auto.
  - split; [exact K8|congruence].
  - rewrite app_nil_r, K9. apply V.
  - now rewrite app_nil_r in V2.
Qed.
Lemma view_sent s0 s l rd tx : tcp_view s0 rd tx -> sent_from s0 s l -> tcp_view s rd (tx ++ l) /\ free_space s0 - zlen l <= free_space s.
Proof.
  intros V (A1 & A2 & A3 & A4 & _ & A6 & A7). split; [|unfold free_space; lia]. destruct (view_commit s0 s rd tx l) as (V2 & _); auto. rewrite A4. f_equal. apply V.
Qed.

(** ** The writer *)
Lemma writer_new_at D s : idle s -> tx_ready s ->
  wps (tls_writer_new sn) n s D (fun r s' => env s s' /\
    match r with
    | None => tx_size s - pending s < 22
    | Some c => cu_sn c = sn /\ cursor_ok c /\ cur_pos c = 0 /\ cu_head c = (s_tx_cmd s' + 5) mod 65536 /\
        pending s' + (cur_len c + 22) <= tx_size s' /\ tx_size s - pending s <= cur_len c + 22
    end).
Proof.
  intros I [X C]. unfold tls_writer_new. apply wps_bind, wps_tx_fsr.
  { intros s1 E1. destruct (tx_work_env s s1 I X E1) as (_ & _ & _ & _ & _ & _ & -> & _). apply X. }
  intros s1 E1. destruct (tx_work_env s s1 I X E1) as (I1 & _ & _ & _ & A5 & A6 & A7 & A8 & _ & A10 & _).
  assert (tx_ready s1) as R1 by (split; [exact A8|congruence]). rewrite (tx_fsr_ready sn _ R1).
  change TLS_OVERHEAD with 22. destruct (Z.ltb_spec (tx_size s1 - pending s1) 22) as [H|H]; cbn [wps].
  { split; [exact E1|]. lia. }
  apply wps_bind, wps_tx_wr. intros s2 E2. destruct (tx_work_env s1 s2 I1 A8 E2) as (I2 & _ & _ & _ & B5 & B6 & B7 & B8 & _ & B10 & _).
  cbn [wps]. split; [eapply env_trans; eassumption|]. destruct A8 as (Hs & _ & Hc & _ & _ & Hle). pose proof (size_ok_range _ Hs).
  pose proof (wsub_range (s_tx_cmd s1) (s_tx_rd s1)) as Hp. fold (pending s1) in Hp.
  replace (tx_wr s2) with (s_tx_cmd s1) by congruence. rewrite B6. set (p := pending s1) in *. set (z := tx_size s1) in *. set (w := s_tx_cmd s1) in *.
  unfold cursor_ok, cur_pos, cur_len, wsub, wadd, is_u16, RH_LEN in *. cbn [cu_sn cu_head cu_tail cu_ptr]. clearbody p z w. clear - H B7 B10 A7 A10 Hp Hc H0.
  rewrite B7. split; [reflexivity|]. split; [lia|]. split; [lia|]. split; [reflexivity|]. split; lia.
Qed.

(** ** [send_encrypted_record] *)
(** The cursor stands behind [pre]. *)
Definition cw (s0 s : sock) (c : cursor) (pre rest : list Z) : Prop :=
  at_work s0 s (pre ++ rest) /\ cu_sn c = sn /\ cursor_ok c /\ cur_pos c = zlen pre /\ cur_len c = zlen (pre ++ rest) /\ cu_head c = s_tx_cmd s0.
Lemma write_all_cw D s0 s c pre rest l : cw s0 s c pre rest -> bytes_ok l ->
  wps (cur_write_all c l) n s D (fun r s' => (zlen l <= zlen rest /\ exists c', r = Ok c' /\ cw s0 s' c' (pre ++ l) (zdrop (zlen l) rest)) \/
    (zlen rest < zlen l /\ (exists e, r = Err e) /\ at_work s0 s' (pre ++ rest))).
Proof.
  intros (W & Hsn & Hc & Hp & Hl & Hh) Bl. pose proof (cur_accounting c Hc) as (A1 & A2 & A3). pose proof (cur_ptr_pos c Hc) as Ep.
  pose proof (zlen_nonneg l) as Nl. pose proof (zlen_nonneg pre) as Np. rewrite zlen_app in Hl. unfold cur_write_all. rewrite len16_spec.
  destruct (Z.eqb_spec (Z.min (cur_remain c) (Z.min (zlen l) 65535)) (Z.min (zlen l) 65535)) as [E|E]; cbn [negb].
  - assert (zlen l <= zlen rest) as Hle by lia. rewrite Hsn. apply wps_bindM.
    replace (Z.min (cur_remain c) (Z.min (zlen l) 65535)) with (zlen l) by lia.
    rewrite <- (ztake_zdrop (zlen l) rest) in W. destruct (cur_advance c (zlen l) Hc ltac:(lia)) as [M1 M2].
    eapply wps_mono; [| |apply (write_at sn D s0 s _ pre (ztake (zlen l) rest) (zdrop (zlen l) rest) l W)]; auto.
    + intros r s' (-> & W'). cbn [wps ret]. left. split; [exact Hle|]. eexists. split; [reflexivity|]. unfold cw. rewrite <- app_assoc.
      split; [exact W'|]. split; [exact Hsn|]. split; [exact M1|]. split; [rewrite M2, zlen_app; lia|]. split; [|exact Hh].
      change (cur_len (cur_at c (wadd (cu_ptr c) (zlen l)))) with (cur_len c). rewrite !zlen_app, zlen_zdrop. lia.
    + rewrite Ep, Hh, Hp. reflexivity.
    + rewrite zlen_ztake. lia.
  - cbn [wps fail]. right. split; [lia|]. split; [eauto|exact W].
Qed.
Lemma send_chunks_cw D s0 y bs : forall s g g' cs c pre rest, cw s0 s c pre rest -> Forall byte16 bs -> encrypt_blocks g bs = Some (g', cs) -> Forall byte16 cs ->
  wps (send_chunks (length bs) g c (concat bs ++ y)) n s D (fun r s' =>
    (16 * zlen bs <= zlen rest /\ exists c', r = Ok (g', c') /\ cw s0 s' c' (pre ++ concat cs) (zdrop (16 * zlen bs) rest)) \/
    (zlen rest < 16 * zlen bs /\ (exists e, r = Err e) /\ exists l, at_work s0 s' l)).
Proof.
  induction bs as [|b bs IH]; intros s g g' cs c pre rest W Hb He Hc; cbn [encrypt_blocks send_chunks length concat] in *.
  - injection He as <- <-. cbn [wps ret concat]. left. change (zlen (@nil (list Z))) with 0. split; [pose proof (zlen_nonneg rest); lia|].
    exists c. split; [reflexivity|]. rewrite app_nil_r. exact W.
  - inversion Hb as [|? ? Hb1 Hb2]; subst. destruct (encrypt_block_inplace g b) as [(g1, x)|] eqn:Eb; [|discriminate].
    destruct (encrypt_blocks g1 bs) as [(g2, cs2)|] eqn:Ebs; [|discriminate]. injection He as <- <-. inversion Hc as [|? ? Hc1 Hc2]; subst.
    rewrite <- app_assoc. rewrite firstn_app, skipn_app, (proj1 Hb1), Nat.sub_diag, firstn_O, skipn_O, app_nil_r, firstn_all2, skipn_all2 by (rewrite (proj1 Hb1); lia).
    cbn [app]. unfold unwrap. rewrite Eb. apply wps_bindM. rewrite zlen_cons. pose proof (zlen_nonneg bs) as Nb.
    eapply wps_mono; [| |exact (write_all_cw D s0 s c pre rest x W (proj2 Hc1))]; [auto|].
    intros r s1 [(Hle & c' & -> & W1)|(Hlt & (e & ->) & W1)]; rewrite (block16_len x Hc1) in *.
    2:{ right. split; [lia|]. split; [eauto|eauto]. }
    eapply wps_mono; [| |exact (IH s1 g1 g2 cs2 c' (pre ++ x) (zdrop 16 rest) W1 Hb2 Ebs Hc2)]; [auto|].
    cbn beta. rewrite zlen_zdrop. intros r s2 [(Hle2 & c2 & -> & W2)|(Hlt & He & W2)].
    + left. split; [lia|]. exists c2. split; [reflexivity|]. cbn [concat]. rewrite app_assoc. rewrite zdrop_zdrop in W2 by lia.
      replace (16 * (zlen bs + 1)) with (16 * zlen bs + 16) by lia. exact W2.
    + right. split; [lia|]. split; [exact He|exact W2].
Qed.
Lemma send_record_tls D cx ks key nonce s rd tx ct data : client_key_and_nonce cx ks = Some (key, nonce) ->
  length key = 16%nat -> bytes_ok key -> length nonce = 12%nat -> bytes_ok nonce ->
  tcp_view s rd tx -> tx_bytes s -> bytes_ok data -> is_u8 ct -> zlen data <= 65518 ->
  wps (send_encrypted_record cx sn ks ct data) n s D (fun r s' => tx_bytes s' /\
    ((r = Ok tt /\ tcp_view s' rd (tx ++ record key nonce ct data) /\ free_space s - zlen (record key nonce ct data) <= free_space s') \/
     ((exists e, r = Err e) /\ free_space s < zlen data + 22 /\ tcp_view s' rd tx))).
Proof.
  intros Ek K1 K2 K3 K4 V Bs Bd Hct Ld. pose proof V as (T & _ & X & _). pose proof (tcp_idle _ T) as I. pose proof (zlen_nonneg data) as Nd.
  unfold send_encrypted_record. change GCM_TAG_LEN with 16. destruct (Z.ltb_spec 65535 (zlen data + 16 + 1)) as [|_]; [lia|].
  apply wps_bindM. eapply wps_mono; [| |exact (tx_writer_spec sn D s I X)]; [auto|].
  intros r s1 (E1 & c & -> & Hsn & Hc & Hp & Hh & Hl).
  destruct (view_env _ _ _ _ V E1) as (V1 & _). pose proof (view_idle _ _ _ V1) as I1. pose proof V1 as (_ & _ & (X1 & C1) & _).
  destruct X as (X & _). destruct (wk_env s s1 I X E1) as ((_ & _ & _ & _ & _ & _ & Ez & _ & _ & Ep & _) & Bs1). specialize (Bs1 Bs).
  pose proof (cur_accounting c Hc) as (A1 & A2 & A3). destruct (at_start s1 (cur_len c) I1 X1 ltac:(lia) ltac:(lia)) as (W1 & L1).
  set (w := window s1 (cur_len c)) in *.
  assert (cw s1 s1 c [] w) as W. { unfold cw. cbn [app]. rewrite L1. split; [exact W1|]. repeat (split; [assumption|]). split; [reflexivity|exact Hh]. }
  assert (forall s' l, at_work s1 s' l -> zlen w < zlen data + 22 -> tx_bytes s' /\
    (forall e, (@Err err unit e = Ok tt /\ tcp_view s' rd (tx ++ record key nonce ct data) /\ free_space s - zlen (record key nonce ct data) <= free_space s') \/
      ((exists e', @Err err unit e = Err e') /\ free_space s < zlen data + 22 /\ tcp_view s' rd tx))) as Fail.
  { intros s' l W' Hs. split; [destruct W' as (_ & _ & _ & (_ & K) & _); exact (K Bs1)|]. intros e. right. split; [eauto|]. split; [unfold free_space; lia|]. exact (proj1 (view_work _ _ _ _ _ V1 W')). }
  assert ([ApplicationData] ++ be16 V1_2 ++ be16 (zlen data + 16 + 1) = record_aad (zlen data)) as ->.
  { unfold record_aad. replace (zlen data + 16 + 1) with (zlen data + 17) by lia. reflexivity. }
  destruct (aad_ok key nonce K1 K3 (zlen data)) as (La & Ba). set (aad := record_aad (zlen data)) in *. assert (zlen aad = 5) as Laz by (unfold zlen; rewrite La; reflexivity).
  destruct (split_blocks key nonce aad K1 K3 La data Bd) as (bs & rest & Es & Hbs & Brest & Lr & Lbs & Er).
  assert (zlen data = 16 * zlen bs + zlen rest) as Lz by (rewrite Es, zlen_app, (blocks_len bs Hbs); reflexivity).
  assert (0 <= zlen rest < 16) as Lr' by (unfold zlen; lia). pose proof (zlen_nonneg bs) as Nb.
  destruct (calls key nonce K1 K2 K3 K4 ct aad bs rest La Ba Hct Hbs Brest Lr ltac:(lia)) as (g & cs & g' & x & D1 & D2 & D3 & D4 & D5 & D6 & D7 & D8 & D9).
  assert (zlen (concat cs) = 16 * zlen bs) as Lcs by (rewrite (blocks_len cs D2); unfold zlen; lia).
  apply wps_bindM. eapply wps_mono; [| |exact (write_all_cw D s1 s1 c [] w aad W Ba)]; [auto|].
  intros r s2 [(H1 & c2 & -> & W2)|(H1 & (e & ->) & W2)].
  2:{ destruct (Fail _ _ W2 ltac:(lia)) as (F1 & F2). split; [exact F1|apply F2]. }
  unfold unwrap at 1. rewrite Ek. rewrite <- Lbs. rewrite Er.
  apply wps_bindM. rewrite Es at 1. cbn [app] in W2.
  eapply wps_mono; [| |exact (send_chunks_cw D s1 rest bs s2 _ g cs c2 aad _ W2 Hbs D1 D2)]; [auto|].
  cbn beta. intros r s3 [(H2 & c3 & -> & W3)|(H2 & (e & ->) & (l & W3))]; rewrite zlen_zdrop in H2.
  2:{ destruct (Fail _ _ W3 ltac:(lia)) as (F1 & F2). split; [exact F1|apply F2]. }
  cbn iota beta zeta. unfold unwrap. change ContentType with Z. rewrite D4.
  apply wps_bindM. eapply wps_mono; [| |exact (write_all_cw D s1 s3 c3 _ _ _ W3 D5)]; [auto|].
  cbn beta. rewrite !zlen_zdrop. intros r s4 [(H3 & c4 & -> & W4)|(H3 & (e & ->) & W4)].
  2:{ destruct (Fail _ _ W4 ltac:(lia)) as (F1 & F2). split; [exact F1|apply F2]. }
  assert (zlen (gcm_finish g') = 16) as Lg by (unfold zlen; lia).
  apply wps_bindM. eapply wps_mono; [| |exact (write_all_cw D s1 s4 c4 _ _ _ W4 D8)]; [auto|].
  cbn beta. rewrite !zlen_zdrop. intros r s5 [(H4 & c5 & -> & W5)|(H4 & (e & ->) & W5)].
  2:{ destruct (Fail _ _ W5 ltac:(lia)) as (F1 & F2). split; [exact F1|apply F2]. }
  destruct W5 as (W5 & P1 & P2 & P3 & P4 & P5). apply at_prefix in W5. unfold cur_send. rewrite P1.
  eapply wps_mono; [| |apply (send_at sn D s1 s5 _ _ W5)]; [auto| |].
  - intros r s6 (-> & S6). split; [apply S6; exact Bs1|]. left. split; [reflexivity|].
    replace (record key nonce ct data) with (((aad ++ concat cs) ++ ztake (zlen rest + 1) x) ++ gcm_finish g'); [destruct (view_sent _ _ _ _ _ V1 S6) as (V6 & F6); split; [exact V6|]; unfold free_space in *; lia|].
    unfold record. cbv zeta. fold aad. rewrite Es. rewrite <- !app_assoc. rewrite D9. cbn [fst snd]. now rewrite <- !app_assoc.
  - rewrite (cur_ptr_pos c5 P2), P5, P3. reflexivity.
Qed.
End Send.
