(** Records that do not fit behind what the buffer of the client holds. *)
From Coq Require Import String.
From Verif Require Import Model.Prelude Model.Bus Model.Chip Model.Specifiers Model.LlBits Model.Ll Model.LlAddr Model.HlIo Model.HlCommon Model.HlTcp Model.Stream Model.Gcm
  Spec.Hoare Spec.Sock Spec.Cursor Spec.TcpClient Spec.Gcm38D Spec.Fips197 Spec.TlsSecrets Spec.TlsMessages Spec.TlsProtect.
From Verif Require Import Proof.MqttRxP Proof.Base Proof.RingP Proof.ChipP Proof.SockP Proof.StreamP Proof.TcpP Proof.Ghash3P Proof.GcmP Proof.TlsTxP Proof.TlsBufP Proof.TlsHelloP Proof.TlsSendP Proof.TlsWireP Proof.TlsRxP Proof.TlsRx2P Proof.TlsRx3P Proof.TlsRx4P Proof.TlsRx5P.
From Verif Require Import Spec.MqttMsg Spec.TlsQuiet.
From Verif Require Import Model.TlsTypes Model.TlsBuf Model.TlsKeys Model.TlsHello Model.TlsRecord Model.TlsClient Spec.TlsQueue Spec.TlsSession Spec.TlsWire Spec.TlsRx.
Ltac Zify.zify_post_hook ::= idtac.
Local Open Scope list_scope.

Section Rx.
Context (cx : Crypto) (f : Z * Z) (sn : Sn) (dbg : bool) (D : Prop).
Hypothesis CX : crypto_ok cx.
Let n := snz sn.
Notation wn := (TlsRxP.wn f).

Lemma decrypt_loop_over key nonce (header : list Z) (Kl : length key = 16%nat) (Kb : bytes_ok key) (Nl : length nonce = 12%nat) (Nb : bytes_ok nonce) (Hl : length header = 5%nat) rd tx bb q w C more ad rest (Ew : w = C ++ more) (LC : zlen C <= 16384) (BC : bytes_ok C) N :
  N - 1 < zlen ad + zlen rest + zlen C -> (forall k, 0 <= k -> zlen ad + zlen rest + Z.min (16 * k) (zlen C) <> N) ->
  forall fuel g cs x p b s, wn s rd tx bb q w -> gcm_at key nonce header g cs (1 + zlen cs) (16 * zlen cs) -> C = concat cs ++ x -> x <> [] -> (length x <= fuel)%nat -> p mod 65536 = (bb + 16 * zlen cs) mod 65536 ->
  holds b (ad, rest ++ concat (ctr_xor key nonce 1 cs)) -> b_N b = N ->
  wps (decrypt_loop fuel dbg sn g p (zlen x) b) n s D (fun r s' => wn s' rd tx bb q w /\ exists b' pl, r = (Err InternalError, b') /\ holds b' (ad, rest ++ pl) /\ b_N b' = N).
Proof.
  intros Over Odd. induction fuel as [|fuel IH]; intros g cs x p b s H G EC Nx Lf Ep Hh HN; [destruct x; [contradiction|cbn [length] in Lf; lia]|]. cbn [decrypt_loop]. cbv zeta.
  pose proof G as (_ & _ & _ & _ & _ & Hcs). pose proof (zlen_nonneg cs) as Nc. pose proof (zlen_nonneg more) as Nm.
  assert (0 < zlen x) as Px by (destruct x; [contradiction|]; rewrite zlen_cons; pose proof (zlen_nonneg x); lia).
  set (m := Z.min 16 (zlen x)) in *.
  assert (zlen (concat cs) = 16 * zlen cs) as Lcs.
  { destruct x as [|x0 x']; [contradiction|]. pose proof (zlen_concat key nonce header Kl Nl Hl cs [x0] Hcs ltac:(cbn [length]; lia)) as X. rewrite zlen_app in X. change (zlen [x0]) with 1 in X. lia. }
  assert (zlen C = 16 * zlen cs + zlen x) as LC' by (rewrite EC, zlen_app, Lcs; reflexivity).
  apply wps_aio, wps_rx_buf. intros s1 E1. pose proof (wn_env f _ _ _ _ _ _ _ H E1) as H1.
  rewrite (wn_read f s1 rd tx bb q w (16 * zlen cs) m p H1) by (try lia; try exact Ep; rewrite Ew, zlen_app; lia).
  assert (ztake m (zdrop (16 * zlen cs) w) = ztake m x) as -> by (rewrite Ew, EC, <- app_assoc, <- Lcs, zdrop_exact, ztake_app_l by lia; reflexivity).
  set (blk := ztake m x). assert (zlen blk = m) as Lb by (unfold blk; rewrite zlen_ztake; lia).
  assert (bytes_ok x) as Bx by (rewrite EC in BC; now apply Forall_app in BC).
  assert (bytes_ok blk) as Bb by (unfold blk; now apply bytes_ok_ztake).
  assert (1 <= length blk <= 16)%nat as Lb' by (unfold zlen in Lb; lia).
  destruct (decrypt_at key nonce header Kl Kb Nl Nb Hl g cs _ _ blk G ltac:(lia) Bb Lb') as (g1 & -> & G1). cbn [unwrap].
  set (pl := xor_str blk (E key (ctr nonce (1 + zlen cs + 1)))) in *.
  assert (length pl = length blk) as Lpl by (apply (xor_ctr_len key nonce header); auto; lia).
  pose proof (ctr_concat_len sn key nonce header cs Kl Kb Nl Nb Hl Hcs) as Lx. assert (zlen pl = m) as Lm by (rewrite <- Lb; unfold zlen; now rewrite Lpl).
  pose proof (Odd (zlen cs + 1) ltac:(lia)) as Od.
  destruct (Z_le_gt_dec (zlen ad + zlen rest + 16 * zlen cs + m) (N - 1)) as [Fit|Full].
  2:{ rewrite (extend_over dbg b _ pl Hh); [|rewrite HN; unfold q_size; cbn [fst snd]; rewrite zlen_app, Lx; lia|left; rewrite HN; unfold q_size; cbn [fst snd]; rewrite zlen_app, Lx; lia].
      cbn [a_tres wps]. split; [exact H1|]. eexists _, _. split; [reflexivity|]. split; [exact Hh|exact HN]. }
  destruct (extend_fits dbg b _ pl Hh) as (b1 & -> & Hh1 & HN1 & _).
  { rewrite HN. unfold q_size. cbn [fst snd]. rewrite zlen_app, Lx. lia. }
  cbn [fst snd] in Hh1. rewrite <- app_assoc in Hh1. cbn [a_tres].
  destruct (Z.eqb_spec (zlen x - m) 0) as [Ez|Nz]; [lia|].
  assert (length blk = 16%nat) as L16 by (unfold zlen in Lb; lia). assert (padded blk = blk) as Epd by (unfold padded; rewrite L16; apply app_nil_r). rewrite Epd in G1.
  assert (zlen (cs ++ [blk]) = zlen cs + 1) as Lc by (rewrite zlen_app; reflexivity).
  assert (x = blk ++ zdrop m x) as Ex by (unfold blk; now rewrite ztake_zdrop).
  assert (zlen (zdrop m x) = zlen x - m) as Lz by (rewrite zlen_zdrop; lia). rewrite <- Lz.
  apply (IH g1 (cs ++ [blk]) (zdrop m x) (wadd p m) b1 s1 H1).
  - rewrite Lc. replace (1 + (zlen cs + 1)) with (1 + zlen cs + 1) by lia. replace (16 * (zlen cs + 1)) with (16 * zlen cs + zlen blk) by lia. exact G1.
  - rewrite concat_app. cbn [concat]. rewrite app_nil_r, <- app_assoc, <- Ex. exact EC.
  - intros Y. rewrite Y in Lz. change (zlen (@nil Z)) with 0 in Lz. lia.
  - unfold zlen in *. lia.
  - rewrite Lc. unfold wadd. rewrite Z.mod_mod, <- Zplus_mod_idemp_l, Ep, Zplus_mod_idemp_l by lia. f_equal. lia.
  - rewrite (ctr_xor_app key nonce header Kl Nl Hl), concat_app. cbn [concat]. rewrite app_nil_r. exact Hh1.
  - congruence.
Qed.
Lemma decrypt_over key nonce (header : list Z) s rd tx b C tag more ad rest buf : length key = 16%nat -> bytes_ok key -> length nonce = 12%nat -> bytes_ok nonce -> length header = 5%nat ->
  wn s rd tx b b (C ++ tag ++ more) -> rh_length header = zlen C + 16 -> zlen tag = 16 -> C <> [] -> bytes_ok C -> holds buf (ad, rest) -> b_N buf - 1 < zlen ad + zlen rest + zlen C -> (forall k, 0 <= k -> zlen ad + zlen rest + Z.min (16 * k) (zlen C) <> b_N buf) ->
  wps (decrypt_record_inplace dbg sn key nonce header buf) n s D (fun x s' => wn s' rd tx b b (C ++ tag ++ more) /\ exists buf' pl, x = (Err InternalError, buf') /\ holds buf' (ad, rest ++ pl) /\ b_N buf' = b_N buf).
Proof.
  intros K1 K2 K3 K4 H1 H Hlen Lt Nc Bc Hh Over Odd. pose proof (wn_bounds f _ _ _ _ _ _ H) as (Bb & L1 & L2). rewrite !zlen_app in L1.
  pose proof (zlen_nonneg C) as N1. pose proof (zlen_nonneg more) as N2. assert (0 < zlen C) as N3 by (destruct C; [contradiction|rewrite zlen_cons; pose proof (zlen_nonneg C); lia]).
  unfold decrypt_record_inplace. apply wps_aio, wps_rx_rsr. intros s1 E1. pose proof (wn_env f _ _ _ _ _ _ _ H E1) as W1.
  pose proof (wn_bounds f _ _ _ _ _ _ W1) as (_ & L3 & L4). rewrite !zlen_app in L3.
  destruct (Z.ltb_spec (rx_rsr s1) (rh_length header)) as [|_]; [lia|].
  apply wps_aio, wps_rx_rd. intros s2 E2. pose proof (wn_env f _ _ _ _ _ _ _ W1 E2) as W2. assert (rx_rd s2 = b) as -> by apply W2.
  cbv zeta. change GCM_TAG_LEN with 16. replace (Z.max 0 (rh_length header - 16)) with (zlen C) by lia. destruct (Z.eqb_spec (zlen C) 0) as [|_]; [lia|].
  apply wps_bind. eapply wps_mono; [| |apply (decrypt_loop_over key nonce header K1 K2 K3 K4 H1 rd tx b b (C ++ tag ++ more) C (tag ++ more) ad rest eq_refl ltac:(lia) Bc (b_N buf) Over Odd (Z.to_nat (zlen C)) (gcm_new key nonce header) [] C b buf s2 W2)]; [auto| | | | | | | |].
  2: apply gcm_new_at.
  2: reflexivity. 2: exact Nc. 2: unfold zlen; lia. 2: f_equal; change (zlen (@nil (list Z))) with 0; lia. 2: cbn [ctr_xor concat]; rewrite app_nil_r; exact Hh. 2: reflexivity.
  intros r s3 (W3 & b' & pl & -> & Q1 & Q2). cbn iota beta. cbn [wps]. split; [exact W3|]. exists b', pl. auto.
Qed.
Lemma body_over c t seq (h : RecordHeader) s rd tx b body more ad rest : tc_sn c = sn -> ks_server_traffic (tc_ks c) = Some t -> ks_read_seq (tc_ks c) = seq -> 0 <= seq < 2 ^ 64 -> rh_content_type h = 23 -> zlen (h : list Z) = 5 ->
  wn s rd tx b b (body ++ more) -> rh_length h = zlen body -> 17 <= zlen body -> bytes_ok body -> holds (tc_rx c) (ad, rest) ->
  b_N (tc_rx c) - 1 < zlen ad + zlen rest + (zlen body - 16) -> (forall k, 0 <= k -> zlen ad + zlen rest + Z.min (16 * k) (zlen body - 16) <> b_N (tc_rx c)) ->
  wps (recv_body cx dbg c h) n s D (fun x s' => wn s' rd tx b b (body ++ more) /\ exists pl rx, holds rx (ad, rest ++ pl) /\ x = (Err InternalError, tc_set_rx c rx)).
Proof.
  intros Hsn Et Es Hs Hct Lh H Hlen Lb Bb Hh Over Odd. unfold recv_body. rewrite Hct. change (23 =? ApplicationData) with true. cbn iota. unfold server_key_and_nonce. rewrite Et, Es.
  destruct (nonce_eq cx t seq CX Hs) as (-> & K1 & K2 & K3 & K4). rewrite Hsn.
  set (C := ztake (zlen body - 16) body). set (tag := zdrop (zlen body - 16) body).
  assert (body = C ++ tag) as Eb by (symmetry; apply ztake_zdrop). assert (zlen C = zlen body - 16) as LC by (unfold C; rewrite zlen_ztake; lia). assert (zlen tag = 16) as Lt by (unfold tag; rewrite zlen_zdrop; lia).
  assert (bytes_ok C) as BC by (unfold C; now apply bytes_ok_ztake).
  assert (C <> []) as NC by (intros Y; rewrite Y in LC; change (zlen (@nil Z)) with 0 in LC; lia).
  rewrite <- LC in Over, Odd. rewrite Eb in H at 1. rewrite <- app_assoc in H.
  apply wps_bind. eapply wps_mono; [| |apply (decrypt_over (traffic_key cx t) (nonce cx t seq) h s rd tx b C tag more ad rest (tc_rx c) K1 K2 K3 K4 ltac:(unfold zlen in Lh; lia) H)]; auto; try lia.
  intros x s' (W & buf & pl & -> & Q1 & Q2). cbn iota beta. cbn [wps]. split; [rewrite Eb, <- app_assoc; exact W|]. exists pl, buf. auto.
Qed.
End Rx.

Section Main.
Context (cx : Crypto) (dbg : bool) (fuel : nat) (c : TlsClient) (rng : Rng) (now : Z) (ch : chip) (rd tx ad : list Z).
Hypothesis CX : crypto_ok cx.
Notation sn := (tc_sn c).
Notation sk := (c_sock ch (sn_raw sn)).
Notation process := (tls_process cx dbg fuel c rng now).
Let f := (free_space sk, rx_size sk).
Theorem no_room t seq data rest : reads_with c t seq -> listens c -> paired c -> buffer_holds (tc_rx c) ad rest -> bytes_ok data -> zlen data <= buffer_size c - 39 -> buffer_size c - 1 < zlen ad + zlen rest + zlen (data ++ [23]) ->
  (forall k, 0 <= k -> zlen ad + zlen rest + Z.min (16 * k) (zlen (data ++ [23])) <> buffer_size c) -> arrived ch c rd tx (protected_record cx t seq 23 data) ->
  ensures_ir no_link_change process (sn_raw sn) ch (gives_up cx c 80 (tx_room ch c) (rd ++ ztake 5 (protected_record cx t seq 23 data)) tx ad).
Proof.
  intros R Hl P Hh Bd Ld Over Odd A. pose proof R as (R1 & R2 & R3). pose proof Hh as (HN & _). unfold buffer_size in *. pose proof (zlen_nonneg data) as N0.
  rewrite zlen_app in Over, Odd. change (zlen [23]) with 1 in Over, Odd.
  destruct (record_split cx t seq 23 data CX ltac:(lia) Bd ltac:(unfold is_u8; lia) ltac:(lia)) as (body & E & Lb & Bb & Lh & Bh & Hlen).
  rewrite E in *. destruct (arrived_wn c ch rd tx _ A) as (b & W). fold f in W. set (h := record_aad (zlen data)) in *.
  assert (ztake 5 (h ++ body) = h) as -> by (rewrite <- Lh; apply ztake_exact).
  apply (protected_process cx f sn dbg c now rng fuel h body rd tx eq_refl eq_refl Lh ltac:(lia) ltac:(unfold buffer_size; lia) _ ch b [] Hl W).
  intros s1 b1 more W1. unfold after_header, or_alert. cbv zeta. apply wps_bind.
  eapply wps_mono; [| |apply (body_over cx f sn dbg False CX c t seq h s1 (rd ++ h) tx b1 body more ad rest)]; auto; try lia; try (unfold b_N; lia); [|now apply buffer_eq|].
  - intros x s2 (W2 & pl & rx & Q1 & ->). cbn iota beta. apply (gives_up_wn cx f sn CX c (tc_set_rx c rx) InternalError now s2 (rd ++ h) tx b1 (body ++ more) ad (rest ++ pl)); auto. unfold is_u8, InternalError. lia.
  - intros k Hk. unfold b_N. replace (zlen body - 16) with (zlen data + 1) by lia. exact (Odd k Hk).
Qed.
End Main.

(** The client of the examples with a nearly full buffer. *)
From Verif Require Import Spec.TlsCases Spec.TlsTalk.
Lemma at_repeat x k i : 0 <= i < Z.of_nat k -> at_ (repeat x k) (Z.to_nat i) = x.
Proof. intros H. unfold at_. rewrite nth_indep with (d' := x) by (rewrite repeat_length; lia). apply nth_repeat. Qed.
Lemma case_full_holds : buffer_holds (mkBuf (repeat 7 1024) 0 1010 1010 1010) (repeat 7 1010) [].
Proof.
  unfold buffer_holds. cbv zeta. cbn [b_buf b_head b_ad_tail b_hs_head b_tail]. rewrite app_nil_r. change (zlen (repeat 7 1024)) with 1024. change (zlen (repeat 7 1010)) with 1010. change (zlen (@nil Z)) with 0. rewrite !Z.add_0_r, !Z.add_0_l.
  split; [lia|]. split; [lia|]. split; [lia|]. split; [lia|]. split; [reflexivity|]. split; [reflexivity|].
  intros i Hi. rewrite Z.add_0_l, Z.mod_small by lia. rewrite !at_repeat; [reflexivity|lia|lia].
Qed.
