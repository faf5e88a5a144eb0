(** C49, C53: the records a connected client transmits. *)
From Coq Require Import String.
From Verif Require Import Model.Prelude Model.Bus Model.Chip Model.Specifiers Model.LlBits Model.Ll Model.HlIo Model.HlTcp Model.Stream Model.Gcm
  Spec.Hoare Spec.Sock Spec.TcpClient Spec.Cursor Spec.Gcm38D Spec.Fips197 Spec.GcmCalls Spec.TlsSecrets Spec.TlsProtect.
From Verif Require Import Proof.Base Proof.TcpP Proof.Ghash3P Proof.GcmP Proof.TlsHelloP Proof.TlsTxP Proof.TlsSendP.
From Verif Require Import Model.TlsTypes Model.TlsBuf Model.TlsKeys Model.TlsRecord Model.TlsClient Spec.TlsSession Spec.TlsWire.
Local Open Scope list_scope.

(** ** Keys and nonces *)
Lemma lxor_0_id a : Z.lxor a 0 = a.
Proof. apply Z.lxor_0_r. Qed.
Lemma seq_bytes_be seq : 0 <= seq < 2 ^ 64 -> seq_bytes seq = [0; 0; 0; 0] ++ be64 seq.
Proof.
  intros H. unfold seq_bytes, be64, be32. cbn [map List.seq app Z.of_nat Pos.of_succ_nat Pos.succ].
  change (256 ^ (11 - 0)) with 309485009821345068724781056. change (256 ^ (11 - 1)) with 1208925819614629174706176. change (256 ^ (11 - 2)) with 4722366482869645213696.
  change (256 ^ (11 - 3)) with 18446744073709551616. change (256 ^ (11 - 4)) with 72057594037927936. change (256 ^ (11 - 5)) with 281474976710656.
  change (256 ^ (11 - 6)) with 1099511627776. change (256 ^ (11 - 7)) with 4294967296. change (256 ^ (11 - 8)) with 16777216. change (256 ^ (11 - 9)) with 65536.
  change (256 ^ (11 - 10)) with 256. change (256 ^ (11 - 11)) with 1. change (2 ^ 64) with 18446744073709551616 in H. repeat (f_equal; try lia).
Qed.
Lemma nonce_eq cx t seq : crypto_ok cx -> 0 <= seq < 2 ^ 64 ->
  key_and_nonce cx (Some t) seq = Some (traffic_key cx t, nonce cx t seq) /\
  length (traffic_key cx t) = 16%nat /\ bytes_ok (traffic_key cx t) /\ length (nonce cx t seq) = 12%nat /\ bytes_ok (nonce cx t seq).
Proof.
  intros CX Hs. unfold key_and_nonce. rewrite !label_eq. destruct CX as (_ & _ & X & _).
  destruct (X t (be16 16 ++ vec8 (ascii_bytes ("tls13 " ++ "key")%string) ++ vec8 []) 16 ltac:(lia)) as (K1 & K2).
  destruct (X t (be16 12 ++ vec8 (ascii_bytes ("tls13 " ++ "iv")%string) ++ vec8 []) 12 ltac:(lia)) as (V1 & V2).
  change (cx_expand cx t (be16 16 ++ vec8 (ascii_bytes ("tls13 " ++ "key")%string) ++ vec8 []) 16) with (traffic_key cx t) in *.
  change (cx_expand cx t (be16 12 ++ vec8 (ascii_bytes ("tls13 " ++ "iv")%string) ++ vec8 []) 12) with (traffic_iv cx t) in *.
  change (expand_label cx t "key" [] 16) with (traffic_key cx t). change (expand_label cx t "iv" [] 12) with (traffic_iv cx t).
  unfold zlen in K1, V1. unfold nonce. rewrite seq_bytes_be by exact Hs. set (iv := traffic_iv cx t) in *.
  assert (bytes_ok ([0; 0; 0; 0] ++ be64 seq)) as Bz.
  { unfold be64, be32. cbn [app]. change (2 ^ 64) with 18446744073709551616 in Hs. repeat constructor; unfold is_u8; lia. }
  assert (length ([0; 0; 0; 0] ++ be64 seq) = 12%nat) as Lz by reflexivity.
  assert (length iv = 12%nat) as Li by lia.
  split.
  - f_equal. f_equal. unfold iv_xor, TlsSecrets.xor_bytes. do 12 (destruct iv as [|? iv]; [discriminate|]). destruct iv; [|discriminate].
    unfold be64, be32. cbn [app firstn skipn combine map fst snd]. rewrite !lxor_0_id. reflexivity.
  - split; [lia|]. split; [exact K2|]. change (TlsSecrets.xor_bytes iv ([0; 0; 0; 0] ++ be64 seq)) with (xor_str iv ([0; 0; 0; 0] ++ be64 seq)).
    split; [rewrite xor_length by lia; lia|]. now apply xor_bytes.
Qed.
(** Different numbers give different nonces. *)
Lemma lxor_cancel a b c : Z.lxor a b = Z.lxor a c -> b = c.
Proof. intros H. apply (f_equal (Z.lxor a)) in H. rewrite <- !Z.lxor_assoc, Z.lxor_nilpotent, !Z.lxor_0_l in H. exact H. Qed.
Lemma nonce_inj cx t i j : crypto_ok cx -> 0 <= i < 2 ^ 64 -> 0 <= j < 2 ^ 64 -> nonce cx t i = nonce cx t j -> i = j.
Proof.
  intros CX Hi Hj. unfold nonce. rewrite !seq_bytes_be by assumption. destruct CX as (_ & _ & X & _).
  destruct (X t (be16 12 ++ vec8 (ascii_bytes ("tls13 " ++ "iv")%string) ++ vec8 []) 12 ltac:(lia)) as (V1 & _).
  change (cx_expand cx t (be16 12 ++ vec8 (ascii_bytes ("tls13 " ++ "iv")%string) ++ vec8 []) 12) with (traffic_iv cx t) in *. unfold zlen in V1.
  set (iv := traffic_iv cx t) in *. assert (length iv = 12%nat) as Li by lia. clearbody iv. do 12 (destruct iv as [|? iv]; [discriminate|]).
  unfold TlsSecrets.xor_bytes, be64, be32. cbn [app combine map fst snd]. intros H. injection H as H1 H2 H3 H4 H5 H6 H7 H8.
  apply lxor_cancel in H1, H2, H3, H4, H5, H6, H7, H8. change (2 ^ 64) with 18446744073709551616 in *.
  clear - Hi Hj H1 H2 H3 H4 H5 H6 H7 H8. lia.
Qed.

Section Writer.
Context (sn : Sn).
Notation n := (snz sn).
(** A session: either there is no space, or the operations see a window; then the record is sent or the window is
    dropped. *)
Lemma writer_session_tls cx dbg fuel c0 traffic seq D s rd tx ops (fin : bool) : crypto_ok cx -> tc_sn c0 = sn -> writes_with c0 traffic seq -> seq < 2 ^ 64 - 1 ->
  tcp_view s rd tx -> tx_bytes s -> Forall cop_ok ops -> forallb writer_op ops = true -> Forall op_bytes ops ->
  wps (tcall_run cx dbg fuel c0 (KWriter ops fin)) n s D
   (fun r s' => tx_bytes s' /\
     ((r = (NWriter (Err internal_warning), c0) /\ free_space s < 22 /\ tcp_view s' rd tx) \/
      (exists w0 xs w pos, fst r = NWriter (Ok (xs, if fin then Some (Ok tt) else None)) /\ asteps w0 0 ops = (xs, w, pos) /\
        free_space s <= zlen w0 + 22 <= tx_size s /\ zlen w = zlen w0 /\ 0 <= pos <= zlen w /\ bytes_ok w /\ tc_sn (snd r) = sn /\
        writes_with (snd r) traffic (if fin then seq + 1 else seq) /\
        let out := if fin then protected_record cx traffic seq 23 (ztake pos w) else [] in tcp_view s' rd (tx ++ out) /\ free_space s - zlen out <= free_space s'))).
Proof.
  intros CX Esn (St & Ek & Esq & Hsq) Hlt V Bs Ho Hr Hb. destruct (nonce_eq cx traffic seq CX ltac:(lia)) as (En & key_len & key_ok & nonce_len & nonce_ok). pose proof V as (T & _ & X & _). pose proof (tcp_idle _ T) as I.
  cbn [tcall_run]. apply wps_bind. unfold tls_writer, tls_connected. rewrite St. cbn [tstate_eqb negb]. rewrite Esn.
  apply wps_bind. eapply wps_mono; [| |exact (writer_new_at sn D s I X)]; [auto|].
  intros r s1 (E1 & Hw). destruct (view_env _ _ _ _ V E1) as (V1 & _). pose proof (view_idle _ _ _ V1) as I1. pose proof V1 as (_ & _ & (X1 & C1) & _).
  destruct X as (X & _). destruct (wk_env s s1 I X E1) as ((_ & _ & _ & _ & _ & _ & Ez & _ & _ & Epd & _) & Bs1). specialize (Bs1 Bs).
  destruct r as [c|].
  2:{ cbn [wps]. split; [exact Bs1|]. left. split; [reflexivity|]. split; [exact Hw|exact V1]. }
  destruct Hw as (Hsn & Hc & Hp & Hh & Hl & Hle). pose proof (cur_accounting c Hc) as (A1 & A2 & A3).
  destruct (at_start s1 (cur_len c + 22) I1 X1 ltac:(lia) ltac:(lia)) as (W1 & L1). set (l := window s1 (cur_len c + 22)) in *.
  assert (l = ztake 5 l ++ ztake (cur_len c) (zdrop 5 l) ++ zdrop (5 + cur_len c) l) as El.
  { rewrite <- (ztake_zdrop 5 l) at 1. f_equal. rewrite <- (ztake_zdrop (cur_len c) (zdrop 5 l)) at 1. f_equal. rewrite zdrop_zdrop by lia. f_equal. lia. }
  set (H0 := ztake 5 l) in *. set (w0 := ztake (cur_len c) (zdrop 5 l)) in *. set (T0 := zdrop (5 + cur_len c) l) in *.
  assert (zlen H0 = 5) as LH by (unfold H0; rewrite zlen_ztake; lia). assert (zlen w0 = cur_len c) as Lw by (unfold w0; rewrite zlen_ztake, zlen_zdrop; lia).
  assert (zlen T0 = 17) as LT by (unfold T0; rewrite zlen_zdrop; lia). rewrite El in W1. clearbody H0 w0 T0 l.
  cbn [wps]. apply wps_bind. eapply wps_mono; [| |apply (writer_session_at sn D s1 H0 T0 ops s1 c w0 W1 Hsn Hc Ho Hr Hb)]; auto; [|now rewrite LH].
  intros (xs & c') s2 (w & W2 & L2 & Hc' & Hw' & Ha). cbn [fst snd] in *. rewrite Hp in Ha. pose proof (cur_accounting c' Hc') as (B1 & B2 & B3).
  pose proof (same_window_len _ _ Hw') as Ln. pose proof (at_bytes _ _ _ W2 Bs1) as Bw. apply Forall_app in Bw. destruct Bw as (_ & Bw). apply Forall_app in Bw. destruct Bw as (Bw & _).
  assert (free_space s <= free_space s1) as Lf by (unfold free_space; lia).
  assert (free_space s <= zlen w0 + 22 <= tx_size s) as Lb.
  { unfold free_space in *. pose proof (wsub_range (s_tx_cmd s1) (s_tx_rd s1)) as Hq. fold (pending s1) in Hq. unfold is_u16 in Hq. lia. }
  assert (0 <= cur_pos c' <= zlen w) as Lp by lia. pose proof Hw' as (Hsn' & Hh' & _).
  destruct fin.
  - set (pos := cur_pos c') in *.
    assert (exists d Tl Tr, ztake pos w = d /\ w ++ T0 = d ++ Tl ++ Tr /\ zlen Tl = 17) as (d & Tl & Tr & Ed & Ew & LTl).
    { exists (ztake pos w), (ztake 17 (zdrop pos (w ++ T0))), (zdrop 17 (zdrop pos (w ++ T0))). split; [reflexivity|]. split.
      - rewrite ztake_zdrop, zdrop_app_l by lia. rewrite app_assoc, ztake_zdrop. reflexivity.
      - rewrite zlen_ztake, zlen_zdrop, zlen_app. lia. }
    rewrite Ew in W2. replace (H0 ++ d ++ Tl ++ Tr) with ((H0 ++ d ++ Tl) ++ Tr) in W2 by (rewrite <- !app_assoc; reflexivity). apply at_prefix in W2.
    assert (zlen d = pos) as Ld by (rewrite <- Ed, zlen_ztake; lia).
    apply wps_bind. unfold tls_writer_send, client_key_and_nonce. rewrite Ek, Esq, En. cbn [unwrap]. apply wps_bind. replace (cu_sn c') with sn by congruence.
    eapply wps_mono; [| |apply (encrypt_record_at sn _ _ key_len key_ok nonce_len nonce_ok D s1 s2 _ _ ApplicationData H0 d Tl W2 LH LTl)].
    + auto.
    + intros r s3 (-> & S3). unfold increment_write. rewrite Esq. change U64_MAX with (2 ^ 64 - 1). destruct (Z.eqb_spec seq (2 ^ 64 - 1)) as [|_]; [lia|].
      cbn [wps fst snd]. split; [apply S3; exact Bs1|]. right. exists w0, xs, w, pos. split; [reflexivity|]. split; [exact Ha|]. split; [exact Lb|]. split; [lia|]. split; [exact Lp|]. split; [exact Bw|].
      split; [exact Esn|]. split; [unfold writes_with; cbn; split; [exact St|]; split; [exact Ek|]; split; [reflexivity|lia]|].
      cbv zeta. rewrite Ed. destruct (view_sent _ _ _ _ _ V1 S3) as (V3 & F3). split; [exact V3|]. change (protected_record cx traffic seq 23 d) with (record (traffic_key cx traffic) (nonce cx traffic seq) ApplicationData d). lia.
    + rewrite <- Ed. now apply bytes_ztake.
    + unfold is_u8, ApplicationData. lia.
    + destruct X1 as (Hs & _). pose proof (size_ok_range _ Hs). pose proof (wsub_range (s_tx_cmd s1) (s_tx_rd s1)) as Hq. fold (pending s1) in Hq. unfold is_u16 in Hq. lia.
    + congruence.
    + rewrite (cur_ptr_pos c' Hc'), Hh', Hh, Ld. fold pos. lia.
  - cbn [wps fst snd]. split; [destruct W2 as (_ & _ & _ & (_ & K) & _); exact (K Bs1)|]. right. exists w0, xs, w, (cur_pos c'). rewrite app_nil_r.
    split; [reflexivity|]. split; [exact Ha|]. split; [exact Lb|]. split; [lia|]. split; [exact Lp|]. split; [exact Bw|]. split; [exact Esn|]. split; [unfold writes_with; auto|].
    destruct (view_work _ _ _ _ _ V1 W2) as (V2 & F2). split; [exact V2|]. change (zlen (@nil Z)) with 0. lia.
Qed.
End Writer.

(** ** The calls of a connected client *)
(** The length of a record; it can be opened. *)
Lemma record_parts cx traffic seq ty content : crypto_ok cx -> 0 <= seq < 2 ^ 64 -> bytes_ok content -> is_u8 ty -> zlen content < 65519 ->
  zlen (protected_record cx traffic seq ty content) = zlen content + 22 /\ opens cx traffic seq (protected_record cx traffic seq ty content) = Some (content ++ [ty]).
Proof.
  intros CX Hs Bc Ht Hl. destruct (nonce_eq cx traffic seq CX Hs) as (_ & K1 & K2 & K3 & K4). unfold opens, protected_record, sealed_record. cbv zeta.
  destruct (aad_ok (traffic_key cx traffic) (nonce cx traffic seq) K1 K3 (zlen content)) as (La & Ba). set (aad := record_aad (zlen content)) in *. set (key := traffic_key cx traffic) in *. set (no := nonce cx traffic seq) in *.
  assert (bytes_ok (content ++ [ty])) as Bp by (apply Forall_app; split; [exact Bc|constructor; [exact Ht|constructor]]).
  assert (zlen (content ++ [ty]) = zlen content + 1) as Lp by (rewrite zlen_app; reflexivity). pose proof (zlen_nonneg content).
  destruct (GCTR_bytes key no aad K1 K2 K3 K4 La (content ++ [ty]) Bp ltac:(lia)) as (L & B & I).
  unfold gcm_encrypt. cbv zeta. cbn [fst snd]. set (c := GCTR _ _ (content ++ [ty])) in *.
  destruct (tag_byte16 key no K1 K2 K3 K4 aad c La) as (Tl & Tb). set (tag := gcm_tag _ _ _ _) in *.
  assert (zlen c = zlen content + 1) as Lc by (rewrite <- Lp; unfold zlen; now rewrite L). assert (zlen tag = 16) as Lt by (unfold zlen; lia). assert (zlen aad = 5) as La' by (unfold zlen; lia).
  split; [rewrite !zlen_app; lia|]. rewrite zdrop_app_r, ztake_app_l, ztake_all by lia. rewrite La', Z.sub_diag, zdrop_0, zlen_app.
  replace (zlen c + zlen tag - 16) with (zlen c) by lia. rewrite ztake_app_l, ztake_all, zdrop_app_r, Z.sub_diag, zdrop_0 by lia.
  unfold gcm_decrypt. fold tag. destruct (list_eq_dec Z.eq_dec tag tag) as [_|N]; [|contradiction]. now rewrite I.
Qed.
Lemma write_all_tls cx dbg fuel c traffic seq D s rd tx data : crypto_ok cx -> writes_with c traffic seq -> seq < 2 ^ 64 ->
  tcp_view s rd tx -> tx_bytes s -> bytes_ok data -> zlen data <= 65518 ->
  wps (tcall_run cx dbg fuel c (KWriteAll data)) (snz (tc_sn c)) s D
   (fun r s' => tx_bytes s' /\ snd r = c /\
     ((fst r = NWriteAll (Ok tt) /\ tcp_view s' rd (tx ++ protected_record cx traffic seq 23 data) /\
        free_space s - zlen (protected_record cx traffic seq 23 data) <= free_space s') \/
      (fst r = NWriteAll (Err internal_warning) /\ free_space s < zlen data + 22 /\ tcp_view s' rd tx))).
Proof.
  intros CX (St & Ek & Esq & Hsq) Hlt V Bs Bd Ld. destruct (nonce_eq cx traffic seq CX ltac:(lia)) as (En & K1 & K2 & K3 & K4).
  cbn [tcall_run]. apply wps_bind. unfold tls_write_all, tls_connected. rewrite St. cbn [tstate_eqb negb].
  apply wps_bind. eapply wps_mono; [| |exact (send_record_tls (tc_sn c) D cx (tc_ks c) (traffic_key cx traffic) (nonce cx traffic seq) s rd tx ApplicationData data
    ltac:(unfold client_key_and_nonce; now rewrite Ek, Esq, En) K1 K2 K3 K4 V Bs Bd ltac:(unfold is_u8, ApplicationData; lia) Ld)]; [auto|].
  intros r s' (Bs' & [(-> & V' & F)|((e & ->) & F & V')]); cbn [wps fst snd]; (split; [exact Bs'|]; split; [reflexivity|]); [left|right]; auto.
Qed.

(** A list of sessions. *)
Lemma sessions_tls cx dbg fuel traffic D rd : crypto_ok cx -> forall l c s tx seq, writes_with c traffic seq -> seq + zlen l < 2 ^ 64 ->
  tcp_view s rd tx -> tx_bytes s -> Forall is_session l ->
  wps (tcalls_run cx dbg fuel c l) (snz (tc_sn c)) s D
   (fun r s' => tx_bytes s' /\ tc_sn (snd r) = tc_sn c /\ exists contents, zlen contents = sent_count (fst r) /\ Forall (fun d => bytes_ok d /\ zlen d + 22 <= 16384) contents /\ writes_with (snd r) traffic (seq + zlen contents) /\
     tcp_view s' rd (tx ++ app_records cx traffic seq contents)).
Proof.
  intros CX. induction l as [|x l IH]; intros c s tx seq Wc Hq V Bs Hl.
  - cbn [tcalls_run wps fst snd sent_count]. split; [exact Bs|]. split; [reflexivity|]. exists []. change (zlen (@nil (list Z))) with 0. rewrite Z.add_0_r. cbn [app_records]. rewrite app_nil_r. auto.
  - inversion Hl as [|? ? Hx Hl']; subst. rewrite zlen_cons in Hq. pose proof (zlen_nonneg l) as Nl. destruct x as [|ops fin| |]; try contradiction. destruct Hx as (Ho & Hr & Hb).
    cbn [tcalls_run]. apply wps_bind. eapply wps_mono; [| |exact (writer_session_tls (tc_sn c) cx dbg fuel c traffic seq D s rd tx ops fin CX eq_refl Wc ltac:(lia) V Bs Ho Hr Hb)]; [auto|].
    intros (a & c1) s1 (B1 & [(E & _ & V1)|(w0 & xs & w & pos & Ea & _ & Hf & Lw & Lp & Bw & Es & W1 & Hv)]); cbn [fst snd] in *.
    { injection E as -> ->. apply wps_bind. eapply wps_mono; [| |exact (IH c s1 tx seq Wc ltac:(lia) V1 B1 Hl')]; [auto|].
      intros (as_ & c2) s2 (B2 & E2 & ct & L & Bc & W2 & V2). cbn [wps fst snd sent_count] in *. split; [exact B2|]. split; [exact E2|]. exists ct. auto. }
    + assert (tx_size s <= 16384) as Lz by (destruct V as (_ & _ & ((Hs & _) & _) & _); unfold size_ok in Hs; lia).
      apply wps_bind. rewrite <- Es. cbv zeta in Hv. destruct Hv as (V1 & _). destruct fin.
      * eapply wps_mono; [| |exact (IH c1 s1 _ (seq + 1) W1 ltac:(lia) V1 B1 Hl')]; [auto|].
        intros (as_ & c2) s2 (B2 & E2 & ct & L & Bc & W2 & V2). cbn [wps fst snd] in *. subst a. cbn [sent_count]. split; [exact B2|]. split; [congruence|]. exists (ztake pos w :: ct).
        rewrite zlen_cons. split; [lia|]. split; [constructor; [split; [now apply bytes_ztake|rewrite zlen_ztake; lia]|exact Bc]|]. split; [replace (seq + (zlen ct + 1)) with (seq + 1 + zlen ct) by lia; exact W2|].
        cbn [app_records]. rewrite app_assoc. exact V2.
      * eapply wps_mono; [| |exact (IH c1 s1 _ seq W1 ltac:(lia) V1 B1 Hl')]; [auto|].
        intros (as_ & c2) s2 (B2 & E2 & ct & L & Bc & W2 & V2). cbn [wps fst snd] in *. subst a. cbn [sent_count]. split; [exact B2|]. split; [congruence|]. exists ct.
        split; [exact L|]. split; [exact Bc|]. split; [exact W2|]. rewrite app_nil_r in V2. exact V2.
Qed.
