(** The TLS client on an arbitrary bus: what holds in every state. *)
From Coq Require Import String.
From Verif Require Import Model.Prelude Model.Bus Model.Chip Model.Specifiers Model.LlBits Model.Ll Model.HlIo Model.HlTcp Model.TlsTypes Model.TlsBuf Model.TlsKeys Model.TlsHello
  Model.TlsRecord Model.TlsClient Spec.Hoare Spec.TlsSecrets Spec.TlsMessages Spec.TlsQueue Spec.TlsSession.
From Verif Require Import Proof.Base Proof.GcmP Proof.TlsBufP Proof.TlsHsP Proof.TlsParseP Proof.TlsHelloP Proof.TlsLeafP.
Ltac Zify.zify_post_hook ::= idtac.
Local Open Scope list_scope.

Lemma lf_alert {A B} (p : AM A) now (k : A -> TlsClient -> TM B) (cx : Crypto) (P : _ -> Prop) (Q : A -> TlsClient -> Prop) (G : TlsClient -> Prop) :
  lf p (fun x => match fst x with Ok a => Q a (snd x) | Err _ => G (snd x) end) -> (forall a c, Q a c -> lf (k a c) P) ->
  (forall d c, G c -> lf (send_fatal_alert cx c d now) P) -> lf (or_alert cx p now k) P.
Proof. intros H HQ HG. unfold or_alert. apply (lf_then _ _ _ _ H). intros ([a|e], c) Hx; cbn [fst snd] in Hx; auto. Qed.

Section Inv.
Variables (cx : Crypto) (dbg : bool) (fuel : nat) (cf : tconfig) (R : Rng -> Prop).
Hypothesis (CX : crypto_ok cx) (CF : tconfig_ok cf).
Notation N := (zlen (cf_buf cf)).
Notation psk := (cf_psk cf).
Lemma N_ok : 1024 <= N <= 16384.
Proof. destruct CF as (_ & H & _). cbn [In] in H. lia. Qed.

Definition good (c : TlsClient) : Prop :=
  tc_hostname c = cf_hostname cf /\ tc_identity c = cf_identity cf /\ tc_psk c = psk /\ bwf N (tc_rx c).
Definition after (dhe : list Z) (ks : KeySchedule) : Prop := ks_secret ks = derive cx (handshake_secret cx psk dhe) "derived" [].
Definition istage (s : TState) (ks : KeySchedule) : Prop :=
  match s with
  | TReset | TWaitConInt => ks = ks_default cx
  | TWaitServerHello => exists pre dhs, hello_sent cx R cf pre dhs (ks_transcript ks) /\ ks_client_secret ks = Some dhs /\ ks_secret ks = derive cx (early_secret cx psk) "derived" []
  | TWaitEncryptedExtensions => exists pre dhe, hello_answered cx R cf pre dhe (ks_transcript ks) /\ handshake_keys cx cf dhe (ks_transcript ks) ks /\ after dhe ks
  | TWaitFinished => exists pre dhe t1, extensions_received cx R cf pre dhe t1 (ks_transcript ks) /\ handshake_keys cx cf dhe t1 ks /\ after dhe ks
  | TSendFinished => exists pre dhe t1, server_finished cx R cf pre dhe t1 (ks_transcript ks) /\ handshake_keys cx cf dhe t1 ks /\ after dhe ks
  | TConnected => exists pre, established cx R cf pre ks
  | TWaitAlertSendOk | TSendDiscon | TWaitDiscon => True
  end.
Definition timed (s : TState) (t : option Z) : Prop :=
  match s with TReset | TConnected => t = None | TSendDiscon => True | _ => t <> None end.
Definition inv (c : TlsClient) : Prop := good c /\ istage (tc_state c) (tc_ks c) /\ timed (tc_state c) (tc_timeout c).
Lemma inv_stage c : inv c -> stage cx R cf c.
Proof.
  intros (_ & H & _). unfold stage. destruct (tc_state c); cbn [istage] in H; auto.
  - destruct H as (pre & dhs & H & _). eauto.
  - destruct H as (pre & dhe & H1 & H2 & _). eauto.
  - destruct H as (pre & dhe & t1 & H1 & H2 & _). eauto.
  - destruct H as (pre & dhe & t1 & H1 & H2 & _). eauto.
Qed.
Lemma istage_seqs s ks r w : istage s ks -> s <> TReset -> s <> TWaitConInt -> istage s (ks_set_seqs ks r w).
Proof. destruct s; intros H H1 H2; try congruence; exact H. Qed.

(** ** Alerts *)
Definition alerted (now d : Z) {A} (x : res TError A * TlsClient) : Prop :=
  fst x = Err (EClient (new_fatal d)) /\ inv (snd x) /\ (tc_state (snd x) = TWaitAlertSendOk \/ tc_state (snd x) = TSendDiscon) /\ tc_timeout (snd x) = Some now.
Lemma fatal_alert {A} c d now : good c -> lf (@send_fatal_alert cx A c d now) (alerted now d).
Proof.
  intros (H1 & H2 & H3 & H4). unfold send_fatal_alert, send_alert. apply lf_bind. apply lf_seq.
  intros [[]|e]; cbn [lf bind]; unfold alerted, inv; cbn [fst snd]; (split; [reflexivity|]; split; [|cbn; auto]); (split; [unfold good; cbn; auto|]); cbn; split; auto; discriminate.
Qed.

(** ** The ClientHello *)
Lemma bytes_be16 v : bytes_ok (be16 v).
Proof. unfold be16. repeat constructor; apply Z.mod_pos_bound; lia. Qed.
Lemma bytes_be32 v : bytes_ok (be32 v).
Proof. unfold be32. repeat constructor; apply Z.mod_pos_bound; lia. Qed.
Lemma bytes_vec16 l : bytes_ok l -> bytes_ok (vec16 l).
Proof. intros. apply bytes_app; [apply bytes_be16|assumption]. Qed.
Lemma bytes_vec8 l : zlen l < 256 -> bytes_ok l -> bytes_ok (vec8 l).
Proof. intros H Hl. apply bytes_app; [|assumption]. constructor; [|constructor]. pose proof (zlen_nonneg l). split; lia. Qed.
Lemma bytes_ext t l : bytes_ok l -> bytes_ok (ext t l).
Proof. intros. apply bytes_app; [apply bytes_be16|now apply bytes_vec16]. Qed.
Lemma hello_bytes h b : bytes_ok (he_random h) -> bytes_ok (he_hostname h) -> bytes_ok (he_share h) -> bytes_ok (he_identity h) -> bytes_ok b -> zlen b = 32 -> bytes_ok (hello_record h b).
Proof.
  intros H1 H2 H3 H4 H5 H6.
  assert (forall v, is_u8 v -> bytes_ok [v]) as B1 by (intros v Hv; constructor; [exact Hv|constructor]).
  assert (bytes_ok (hello_exts h)) as He.
  { unfold hello_exts. repeat (apply bytes_ext || apply bytes_vec8 || apply bytes_vec16 || apply bytes_be16 || assumption || apply bytes_app); try reflexivity; try (apply B1; split; lia). }
  assert (bytes_ok (hello_body h b)) as Hbody.
  { unfold hello_body, hello_psk. repeat (apply bytes_ext || apply bytes_vec8 || apply bytes_vec16 || apply bytes_be16 || apply bytes_be32 || assumption || apply bytes_app); try reflexivity; try (apply B1; split; lia); try lia; try (repeat constructor; lia). }
  unfold hello_record, hello_message. repeat (apply bytes_vec16 || apply bytes_be16 || assumption || apply bytes_app); try (apply B1; split; lia).
  apply bytes_drop, bytes_be32.
Qed.
Lemma zlen_binder k m : zlen (psk_binder cx k m) = 32 /\ bytes_ok (psk_binder cx k m).
Proof. destruct CX as (_ & _ & _ & H & _). apply H. Qed.

Lemma client_hello c rng now : good c -> R rng -> rng_ok rng -> lf (send_client_hello cx dbg c rng now)
  (fun x => match fst x with Ok _ => inv (snd x) /\ tc_state (snd x) = TWaitServerHello /\ tc_timeout (snd x) = Some now | Err _ => good (snd x) end).
Proof.
  intros (G1 & G2 & G3 & G4) HR (R1 & R2 & R3 & R4). pose proof N_ok as HN. destruct CF as (C1 & _ & C3 & C4 & C5). unfold send_client_hello, new_client_secret.
  apply bwf_reset in G4. set (c1 := tc_set_rx c (b_reset (tc_rx c))) in *. set (ks1 := mkKS _ _ _ _ _ _ _ _ _). set (c2 := tc_set_ks c1 ks1).
  assert (good c2) as Gc2 by (unfold good, c2; cbn; auto).
  apply lf_tres; [intros; exact Gc2|]. intros buf Eb. assert (buf = b_buf (tc_rx c1)) as -> by (unfold b_as_buf in Eb; destruct (_ && _) in Eb; [discriminate|]; now injection Eb as <-).
  set (h := mkHello (rg_random rng) (cf_hostname cf) (rg_public rng) (N - 22) (cf_identity cf)).
  assert (RECORD_SIZE_LIMIT c2 = N - 22) as El by (unfold RECORD_SIZE_LIMIT, b_N, GCM_TAG_LEN, RH_LEN; change (tc_rx c2) with (b_reset (tc_rx c)); rewrite (proj1 G4); lia).
  assert (zlen (b_buf (tc_rx c1)) = N) as LN by exact (proj1 G4).
  rewrite El. change (tc_hostname c2) with (tc_hostname c). change (tc_psk c2) with (tc_psk c). change (tc_identity c2) with (tc_identity c). change (tc_ks c2) with ks1. rewrite G1, G2, G3.
  pose proof (hello_ok cx (b_buf (tc_rx c1)) (rg_random rng) (cf_hostname cf) (rg_public rng) ks1 psk (cf_identity cf) (N - 22) CX R1 R3 C1 ltac:(lia)) as (F1 & F2). fold h in F1, F2.
  destruct (Z.leb_spec (zlen (hello_record h (zeros 32))) (zlen (b_buf (tc_rx c1)))) as [Fit|Over]; [|rewrite (F2 Over); exact I].
  destruct (F1 Fit) as (b & ks' & Lb & Bb & Es & Ek). rewrite Es. clear F1 F2 Es.
  assert (bytes_ok (hello_record h b)) as Hrec by (apply hello_bytes; cbn; auto; rewrite Bb; apply zlen_binder).
  set (buf' := hello_record h b ++ zdrop (zlen (hello_record h b)) (b_buf (tc_rx c1))).
  cbn [a_tres]. set (c3 := tc_set_rx _ _).
  assert (zlen (hello_record h b) = zlen (hello_record h (zeros 32))) as Elen.
  { transitivity (hello_len (cf_hostname cf) (cf_identity cf)); [|symmetry]; apply record_len; auto. }
  assert (bwf N (tc_rx c3)) as W3.
  { destruct G4 as (W1 & W2 & W4). unfold c3, bwf. cbn [tc_rx tc_set_rx b_buf b_head b_ad_tail b_hs_head b_tail]. split; [|split].
    - unfold buf'. rewrite zlen_app, zlen_zdrop. pose proof (zlen_nonneg (hello_record h b)). lia.
    - apply bytes_app; [exact Hrec|]. now apply bytes_drop.
    - exact W4. }
  assert (good c3) as Gc3 by (unfold good; cbn; auto).
  apply lf_io_any; [intros; exact Gc3|]. intros w. apply lf_io_any; [intros; exact Gc3|]. intros w'. apply lf_io_any; [intros; exact Gc3|]. intros _.
  apply lf_tres; [intros; exact Gc3|]. intros ks2 Ei. cbn [lf fst snd].
  assert (ks2 = ks_set_seqs ks' (ks_read_seq ks') (ks_write_seq ks' + 1)) as -> by (unfold increment_write in Ei; change (tc_ks c3) with ks' in Ei; destruct (_ =? _) in Ei; [discriminate|]; now injection Ei as <-).
  split; [|split; reflexivity]. split; [unfold good; cbn; auto|]. split; [|discriminate].
  cbn [tc_state tc_ks tc_set_ks set_state_with_timeout tc_set_st istage]. exists (ks_transcript (tc_ks c)), (rg_secret rng). subst ks'.
  split; [|split].
  - exists rng, b. split; [exact HR|]. split; [reflexivity|]. fold h. split; [exact Bb|]. reflexivity.
  - reflexivity.
  - unfold initialize_early_secret. cbn [ks_secret ks_hkdf ks_set_seqs]. now apply derive_empty.
Qed.

(** ** Handshake messages *)
(** [c'] has moved on to a later state, or is in the same state. *)
Definition moved (now : Z) (c c' : TlsClient) : Prop :=
  (tc_state c' = tc_state c /\ tc_timeout c' = tc_timeout c) \/
  (tc_timeout c' = Some now /\ (tc_state c' = TWaitEncryptedExtensions \/ tc_state c' = TWaitFinished \/ tc_state c' = TSendFinished)).
Lemma tstate_eqb_ok a b : tstate_eqb a b = true <-> a = b.
Proof. destruct a, b; cbn; split; congruence. Qed.
Lemma hs_try {A B} (t : tres A) c (k : A -> tres (res Z B * TlsClient)) (P : tres (res Z B * TlsClient) -> Prop) :
  P TPanic -> P TDiverge -> (forall e, P (TOk (Err e, c))) -> (forall a, t = TOk a -> P (k a)) -> P (h_try t c k).
Proof. intros. unfold h_try. destruct t; auto. Qed.
Definition on_message (now : Z) (c : TlsClient) (hash : list Z) (x : tres (res Z unit * TlsClient)) : Prop :=
  match x with
  | TOk (Ok _, c') => let c2 := tc_set_ks c' (ks_set_transcript (tc_ks c') hash) in inv c2 /\ moved now c c2
  | TOk (Err _, c') => good c'
  | TErr _ => False
  | TPanic | TDiverge => True
  end.
Lemma message c header x y now : inv c -> hh_length header = zlen (x ++ y) -> zlen (x ++ y) < 16384 -> bytes_ok (x ++ y) ->
  let hash := ks_transcript (tc_ks c) ++ hs_message (at_ header 0) (x ++ y) in
  on_message now c hash (recv_message cx c header (cr_new x y) hash now).
Proof.
  intros (G & S & T) HL HZ HB hash. unfold recv_message, hh_msg_type, handshake_type_try_from. destruct (existsb _ _) eqn:Ex; [|exact G]. clear Ex. set (ty := at_ header 0) in *.
  destruct (Z.eqb_spec ty ServerHello) as [->|_].
  { destruct (tstate_eqb (tc_state c) TWaitServerHello) eqn:Es; cbn [negb]; [|exact G]. apply tstate_eqb_ok in Es. rewrite Es in S. destruct S as (pre & dhs & S1 & S2 & S3).
    destruct (server_hello_sound cx x y HB HZ) as [(share & key & Sh & Sk & E)|(al & E)]; rewrite E; cbn [h_try]; [|exact G].
    unfold initialize_handshake_secret, shared_secret. cbn [ks_client_secret ks_server_public ks_set_transcript set_server_public_key]. rewrite S2. cbn [h_try on_message].
    split; [|right; cbn; auto]. split; [exact G|]. split; [|discriminate]. cbn [tc_state tc_ks tc_set_ks set_state_with_timeout tc_set_st istage].
    set (dhe := cx_dh cx dhs key). exists pre, dhe.
    unfold initialize_secrets. cbn [ks_transcript ks_secret ks_client_traffic ks_server_traffic ks_set_transcript set_server_public_key]. rewrite S3.
    change (cx_extract cx (derive cx (early_secret cx psk) "derived" []) dhe) with (handshake_secret cx psk dhe).
    split; [|split].
    - exists dhs, (ks_transcript (tc_ks c)), (x ++ y), share, key. auto.
    - split; exact (f_equal Some (derive_eq cx (handshake_secret cx psk dhe) _ hash)).
    - exact (derive_empty cx (handshake_secret cx psk dhe) "derived" CX). }
  destruct (Z.eqb_spec ty NewSessionTicket) as [E4|_].
  { destruct (tstate_eqb (tc_state c) TConnected) eqn:Es; cbn [negb]; [|exact G]. apply tstate_eqb_ok in Es. rewrite Es in S. destruct S as (pre & dhe & t1 & t3 & posts & S1 & S2 & S3).
    cbn [on_message]. split; [|left; split; reflexivity]. split; [exact G|]. split; [|exact T]. cbn [tc_state tc_ks tc_set_ks]. rewrite Es. cbn [istage].
    exists pre, dhe, t1, t3, (posts ++ [hs_message ty (x ++ y)]). split; [exact S1|]. split.
    - cbn [ks_transcript ks_set_transcript]. unfold hash. rewrite S2, concat_app. cbn [concat]. rewrite app_nil_r. now rewrite app_assoc.
    - intros F. exact (S3 (proj1 (proj1 (Forall_app _ _ _) F))). }
  destruct (Z.eqb_spec ty EncryptedExtensions) as [->|_].
  { destruct (tstate_eqb (tc_state c) TWaitEncryptedExtensions) eqn:Es; cbn [negb]; [|exact G]. apply tstate_eqb_ok in Es. rewrite Es in S. destruct S as (pre & dhe & S1 & S2 & S3).
    destruct (extensions_sound x y HB HZ) as [(Ee & E)|(al & E)]; rewrite E; cbn [h_try]; [|exact G].
    cbn [on_message]. split; [|right; cbn; auto]. split; [exact G|]. split; [|discriminate]. cbn [tc_state tc_ks tc_set_ks set_state_with_timeout tc_set_st istage].
    exists pre, dhe, (ks_transcript (tc_ks c)). split; [|split; [exact S2|exact S3]]. exists (x ++ y). auto. }
  destruct (Z.eqb_spec ty Finished) as [->|_].
  { destruct (tstate_eqb (tc_state c) TWaitFinished) eqn:Es; cbn [negb]; [|exact G]. apply tstate_eqb_ok in Es. rewrite Es in S. destruct S as (pre & dhe & t1 & S1 & (S2 & S3) & S4).
    destruct (Z.eqb_spec (hh_length header) 32) as [E32|]; cbn [negb]; [|exact G].
    assert (reads (cr_new x y) (x ++ y) 0) as Rd by (split; [reflexivity|]; split; [reflexivity|]; pose proof (zlen_nonneg (x ++ y)); split; lia).
    pose proof (reads_exact (cr_new x y) (x ++ y) 0 32 Rd ltac:(lia)) as Re. rewrite <- HL, E32 in Re. cbn [Z.sub Z.leb Z.compare Pos.compare Pos.compare_cont Z.opp Z.add] in Re.
    destruct Re as (r' & Er & _). unfold cr_next_n. rewrite Er. cbn [h_try]. rewrite zdrop_0, ztake_all by lia.
    unfold verify_server_finished. rewrite S3. destruct (list_eq_dec _ _ _) as [Ev|]; cbn [h_try]; [|exact G].
    cbn [on_message]. split; [|right; cbn; auto]. split; [exact G|]. split; [|discriminate]. cbn [tc_state tc_ks tc_set_ks set_state_with_timeout tc_set_st istage].
    exists pre, dhe, t1. split; [|split; [split; assumption|exact S4]]. exists (ks_transcript (tc_ks c)). split; [exact S1|].
    cbn [ks_transcript ks_set_transcript]. unfold hash. f_equal. change Finished with 20. f_equal. rewrite <- Ev. unfold verify_data, transcript_hash_bytes. now rewrite <- label_eq. }
  destruct (Z.eqb_spec ty KeyUpdate) as [E24|_]; [|exact G].
  destruct (tstate_eqb (tc_state c) TConnected) eqn:Es; cbn [negb]; [|exact G]. apply tstate_eqb_ok in Es. rewrite Es in S. destruct S as (pre & dhe & t1 & t3 & posts & S1 & S2 & S3).
  destruct (negb (hh_length header =? 1)); [exact G|].
  assert (forall ks, on_message now c hash (TOk (Ok tt, tc_set_ks c ks))) as Done.
  { intros ks. cbn [on_message]. split; [|left; split; reflexivity]. split; [exact G|]. split; [|exact T]. cbn [tc_state tc_ks tc_set_ks]. rewrite Es. cbn [istage].
    exists pre, dhe, t1, t3, (posts ++ [hs_message ty (x ++ y)]). split; [exact S1|]. split.
    - cbn [ks_transcript ks_set_transcript]. unfold hash. rewrite S2, concat_app. cbn [concat]. rewrite app_nil_r. now rewrite app_assoc.
    - intros F. apply Forall_app in F. destruct F as (_ & F). apply Forall_cons_iff in F. destruct F as ((ty' & b' & Em & Nt) & _). unfold hs_message in Em. injection Em as Et _. unfold KeyUpdate in E24. congruence. }
  apply hs_try; try exact I; [intros; exact G|]. intros (v, r) _. destruct (key_update_request_try_from v) as [q|]; [|exact G]. destruct (q =? 0); [|apply Done].
  replace c with (tc_set_ks c (tc_ks c)) at 1 by now destruct c. apply Done.
Qed.
Definition on_handshake (now : Z) (c : TlsClient) (x : tres (res Z unit * TlsClient)) : Prop :=
  match x with
  | TOk (Ok _, c') => inv c' /\ moved now c c'
  | TOk (Err _, c') => good c'
  | TErr _ => False
  | TPanic | TDiverge => True
  end.
Lemma moved_trans now a b c : moved now a b -> moved now b c -> moved now a c.
Proof. intros [(A1 & A2)|(A1 & A2)] [(B1 & B2)|(B1 & B2)]; unfold moved; rewrite ?B1, ?B2, ?A1, ?A2; auto. Qed.
Lemma handshake now n : forall c, inv c -> on_handshake now c (recv_handshake cx n c now).
Proof.
  induction n as [|n IH]; intros c H; cbn [recv_handshake].
  - pose proof H as (G & _). destruct (b_pop_handshake_record _ _) as [[(((h, r), hash), rx)|]|e| |]; cbn [on_handshake]; auto. split; [exact H|left; auto].
  - pose proof H as ((G1 & G2 & G3 & W) & S & T). destruct (b_pop_handshake_record _ _) as [[(((h, r), hash), rx)|]|e| |] eqn:Ep; cbn [on_handshake]; auto; [|split; [exact H|left; auto]|unfold good; auto].
    destruct (bwf_record N _ _ _ _ _ _ W (proj2 N_ok) Ep) as (ty & x & y & E1 & E2 & E3 & E4 & E5 & E6 & W' & _). subst ty r hash.
    assert (inv (tc_set_rx c rx)) as H1 by (split; [unfold good; cbn; auto|exact (conj S T)]).
    pose proof (message (tc_set_rx c rx) h x y now H1 E2 E5 E6) as M. cbv zeta in M. change (ks_transcript (tc_ks (tc_set_rx c rx))) with (ks_transcript (tc_ks c)) in M.
    destruct (recv_message _ _ _ _ _ _) as [([u|e], c')|e| |]; cbn [on_message on_handshake] in *; try exact M; try contradiction.
    destruct M as (M1 & M2). pose proof (IH _ M1) as Q. destruct (recv_handshake _ _ _ _) as [([u2|e2], c2)|e2| |]; cbn [on_handshake] in *; auto.
    destruct Q as (Q1 & Q2). split; [exact Q1|]. exact (moved_trans now (tc_set_rx c rx) _ _ M2 Q2).
Qed.

(** ** Records *)
Definition on_body (c : TlsClient) {A} (x : res Z A * TlsClient) : Prop :=
  good (snd x) /\ tc_state (snd x) = tc_state c /\ tc_timeout (snd x) = tc_timeout c /\ tc_ks (snd x) = tc_ks c.
Lemma on_body_self c {A} (r : res Z A) : good c -> on_body c (r, c).
Proof. intros H. repeat split; auto; apply H. Qed.
Lemma good_rx c rx : good c -> bwf N rx -> good (tc_set_rx c rx).
Proof. intros (G1 & G2 & G3 & _) W. unfold good. cbn. auto. Qed.
Lemma header_leaf c : good c -> lf (recv_header dbg c) (fun x => snd x = c /\ match fst x with Ok (Some h) => zlen h = 5 /\ bytes_ok h /\ rh_length h <= RECORD_SIZE_LIMIT c | _ => True end).
Proof.
  intros G. unfold recv_header. apply lf_io_any; [intros; cbn; auto|]. intros r.
  apply (lf_io _ _ _ _ _ _ (lf_read_exact r 5)); [intros; cbn; auto|]. intros (d, r') (L & B). cbn [fst] in L, B.
  apply lf_tres; [intros; cbn; auto|]. intros h E. assert (h = d) as -> by (unfold rh_deser in E; destruct (content_type_try_from _) in E; [now injection E as <-|discriminate]).
  destruct (Z.ltb_spec (RECORD_SIZE_LIMIT c) (rh_length d)) as [|Hl]; [cbn; auto|]. destruct (_ <? _); [cbn; auto|]. apply lf_io_any; [intros; cbn; auto|]. intros _. cbn [lf fst snd]. split; [reflexivity|]. split; [exact L|auto].
Qed.
Lemma body_loop c0 : forall n reader remain c, on_body c0 (@Ok Z unit tt, c) -> lf (recv_body_loop dbg n reader remain c) (on_body c0).
Proof.
  induction n as [|n IH]; intros reader remain c H; cbn [recv_body_loop]; destruct (Z.eqb_spec (Z.min remain 64) 0) as [|Nz]; cbn [lf]; try exact H; try exact I.
  apply (lf_io _ _ _ _ _ _ (lf_read_exact reader (Z.min remain 64))); [intros; exact H|]. intros (d, r') (L & B). cbn [fst] in L, B.
  apply lf_tres; [intros; exact H|]. intros rx E. apply IH. destruct H as (H1 & H2). cbn [snd] in *. pose proof H1 as (_ & _ & _ & W). split; [|exact H2].
  apply good_rx; [exact H1|]. exact (proj1 (bwf_extend N dbg _ _ _ W B E)).
Qed.
Lemma key_nonce t n key nc : key_and_nonce cx t n = Some (key, nc) -> length key = 16%nat /\ bytes_ok key /\ length nc = 12%nat /\ bytes_ok nc.
Proof.
  unfold key_and_nonce. destruct t as [t|]; [|discriminate]. injection 1 as <- <-. destruct CX as (_ & _ & X & _).
  destruct (X t (hkdf_label 16 (ascii_bytes "key") []) 16 ltac:(lia)) as (K1 & K2). destruct (X t (hkdf_label 12 (ascii_bytes "iv") []) 12 ltac:(lia)) as (V1 & V2).
  unfold hkdf_expand_label. set (iv := cx_expand cx t (hkdf_label 12 _ _) 12) in *. unfold zlen in K1, V1. split; [lia|]. split; [exact K2|]. unfold iv_xor.
  assert (bytes_ok (be64 n)) as B by (apply bytes_app; apply bytes_be32).
  change (map (fun p => Z.lxor (fst p) (snd p)) (combine (skipn 4 iv) (be64 n))) with (Gcm38D.xor_str (skipn 4 iv) (be64 n)). split.
  - rewrite app_length, firstn_length, GcmP.xor_length, skipn_length by (rewrite skipn_length; change (length (be64 n)) with 8%nat; lia). lia.
  - apply bytes_app; [exact (bytes_take 4 iv V2)|]. apply GcmP.xor_bytes; [exact (bytes_drop 4 iv V2)|exact B].
Qed.
Lemma body_leaf c h : good c -> zlen h = 5 -> bytes_ok h -> lf (recv_body cx dbg c h) (fun x => on_body c x /\ (rh_content_type h = ApplicationData -> ks_server_traffic (tc_ks c) = None -> exists e, fst x = Err e)).
Proof.
  intros G Lh Bh. unfold recv_body. destruct (Z.eqb_spec (rh_content_type h) ApplicationData) as [Ea|Na].
  - unfold server_key_and_nonce. destruct (key_and_nonce _ _ _) as [(key, nc)|] eqn:Ek.
    + destruct (key_nonce _ _ _ _ Ek) as (K1 & K2 & K3 & K4). unfold key_and_nonce in Ek. destruct (ks_server_traffic (tc_ks c)) as [t|]; [|discriminate].
      apply (lf_then _ _ _ (fun x => bwf N (snd x))).
      * unfold decrypt_record_inplace. pose proof G as (_ & _ & _ & W). apply lf_io_any; [intros; exact W|]. intros rsr. destruct (_ <? _); [exact W|].
        apply lf_io_any; [intros; exact W|]. intros rd. set (remain := Z.max 0 _). destruct (Z.eqb_spec remain 0) as [|Nz]; [exact W|].
        assert (0 < remain < 65534) as Hr.
        { unfold remain, rh_length, of_be16, GCM_TAG_LEN in *. pose proof (bytes_nth 3 h Bh). pose proof (bytes_nth 4 h Bh). unfold is_u8, at_ in *. lia. }
        apply (lf_then _ _ _ _ (bwf_decrypt N dbg (tc_sn c) key nc h K1 K2 K3 K4 ltac:(unfold zlen in Lh; lia) (Z.to_nat remain) _ _ 1 0 rd remain (tc_rx c) (gcm_new_at key nc h) ltac:(lia) ltac:(lia) ltac:(lia) W)).
        intros ([((ct, rd'), g)|e], b) (W1 & _); cbn [snd] in W1; [|exact W1].
        repeat (apply lf_io_any; [intros; exact W1|]; intros ?). destruct (list_eq_dec _ _ _); exact W1.
      * intros ([[ct|]|e], rx) W1; cbn [lf snd fst] in *; (split; [|intros _ X; discriminate X]); (split; [now apply good_rx|]); cbn; auto.
    + cbn [lf fst snd]. split; [now apply on_body_self|eauto].
  - apply lf_bind. unfold recv_unencrypted_body. apply lf_io_any; [intros; cbn [lf fst snd]; split; [now apply on_body_self|congruence]|]. intros reader.
    apply (lf_then _ _ _ _ (body_loop c _ reader _ c ltac:(now apply on_body_self))). intros ([r2|e], c2) H2.
    + apply lf_io_any; [intros; cbn [lf fst snd]; split; [exact H2|congruence]|]. intros _. cbn [lf fst snd]. split; [exact H2|congruence].
    + cbn [lf fst snd]. split; [exact H2|congruence].
Qed.

Lemma body_inv {A} c (x : res Z A * TlsClient) : inv c -> on_body c x -> inv (snd x).
Proof. intros (_ & S & T) (G & E1 & E2 & E3). unfold inv. rewrite E1, E2, E3. auto. Qed.
Lemma inv_rx c rx : inv c -> bwf N rx -> inv (tc_set_rx c rx).
Proof. intros (G & S & T) W. split; [now apply good_rx|]. exact (conj S T). Qed.
Definition on_recv (now : Z) (c : TlsClient) (x : res TError (option TEvent) * TlsClient) : Prop :=
  inv (snd x) /\
  match fst x with
  | Ok None => moved now c (snd x)
  | Ok (Some e) => e = TApplicationData /\ tc_state c = TConnected /\ tc_state (snd x) = TConnected
  | Err (EClient _) => ((tc_state (snd x) = TWaitAlertSendOk \/ tc_state (snd x) = TSendDiscon) /\ tc_timeout (snd x) = Some now) \/ tc_state (snd x) = TReset
  | Err (EServer _) => tc_state (snd x) = TReset
  | Err _ => False
  end.
Lemma alert_recv now c c1 d : good c1 -> lf (@send_fatal_alert cx (option TEvent) c1 d now) (on_recv now c).
Proof.
  intros G. apply (lf_mono _ _ _ (fatal_alert c1 d now G)). intros (r, c') (E & I' & S & ET). cbn [fst snd] in *. subst r. split; [exact I'|]. cbn [fst snd]. tauto.
Qed.
Lemma alert_leaf c h now c0 : inv c -> lf (recv_alert cx dbg c h) (fun x => on_recv now c0 (Err (fst x), snd x) /\ tc_state (snd x) = TReset).
Proof.
  intros (G & _). pose proof G as (G1 & G2 & G3 & W).
  assert (forall rx, bwf N rx -> inv (tc_set_rx (tc_set_ks (set_state c TReset) (ks_reset cx (tc_ks (set_state c TReset)))) rx)) as D.
  { intros rx Wr. split; [unfold good; cbn; auto|]. cbn. auto. }
  unfold recv_alert. set (c1 := tc_set_ks _ _) in *.
  assert (inv c1) as D1 by (specialize (D (tc_rx c) W); destruct c; exact D).
  assert (forall rx rx', bwf N rx -> inv (tc_set_rx (tc_set_rx c1 rx') rx)) as D2 by (intros rx rx' Wr; exact (D rx Wr)).
  assert (forall rx rx' rx'', bwf N rx -> inv (tc_set_rx (tc_set_rx (tc_set_rx c1 rx'') rx') rx)) as D3 by (intros rx rx' rx'' Wr; exact (D rx Wr)).
  assert (forall e c', inv c' -> tc_state c' = TReset -> on_recv now c0 (Err (EClient e), c') /\ tc_state c' = TReset) as Dec by (intros e c' Hi Hs; split; [split; cbn; auto|exact Hs]).
  destruct (negb _).
  - apply lf_seq. intros _. cbn [lf fst snd]. apply Dec; [|reflexivity]. apply D, bwf_reset, W.
  - destruct (b_pop_tail (tc_rx c1)) as [(b1, rx1)|] eqn:E1; [|cbn [lf fst snd]; apply Dec; [apply D, bwf_reset, W|reflexivity]].
    destruct (bwf_pop N (tc_rx c) _ _ W E1) as (W1 & _). destruct (description_try_from b1); [|cbn [lf fst snd]; apply Dec; [apply D, W1|reflexivity]].
    cbn [tc_rx tc_set_rx]. destruct (b_pop_tail rx1) as [(b2, rx2)|] eqn:E2; [|cbn [lf fst snd]; apply Dec; [apply D2, bwf_reset, W1|reflexivity]].
    destruct (bwf_pop N _ _ _ W1 E2) as (W2 & _). cbn [lf fst snd]. split; [|reflexivity]. split; [|reflexivity]. apply D3, bwf_reset, W2.
Qed.
Lemma content_leaf c h ct now : inv c -> lf (recv_content cx c h ct now) (fun x => on_recv now c x /\ (tc_state (snd x) = tc_state c \/ (tc_state (snd x) <> TReset /\ tc_state (snd x) <> TWaitConInt))).
Proof.
  intros H. pose proof H as (G & _). pose proof G as (_ & _ & _ & W).
  assert (forall c1 d, good c1 -> lf (@send_fatal_alert cx (option TEvent) c1 d now) (fun x => on_recv now c x /\ (tc_state (snd x) = tc_state c \/ (tc_state (snd x) <> TReset /\ tc_state (snd x) <> TWaitConInt)))) as AL.
  { intros c1 d G1. apply (lf_mono _ _ _ (fatal_alert c1 d now G1)). intros (r, c') (E & I' & S & ET). cbn [fst snd] in *. subst r. split; [split; [exact I'|cbn [fst snd]; tauto]|]. right. destruct S as [-> | ->]; split; discriminate. }
  unfold recv_content. destruct (ct =? ChangeCipherSpec).
  - apply (lf_alert _ _ _ _ _ (fun _ c' => inv c' /\ moved now c c' /\ tc_state c' = tc_state c) good).
    + unfold recv_change_cipher_spec. destruct (negb _); [exact G|]. destruct (b_pop_tail (tc_rx c)) as [(v, rx)|] eqn:E; [|exact G].
      destruct (bwf_pop N _ _ _ W E) as (W1 & _). destruct (negb _); cbn [lf fst snd]; [now apply good_rx|]. split; [now apply inv_rx|]. split; [left; auto|reflexivity].
    + intros _ c' (H1 & H2 & H3). cbn [lf snd]. split; [split; cbn [fst snd]; auto|now left].
    + intros d c' Hc'. now apply AL.
  - destruct (ct =? CtHandshake).
    + pose proof (handshake now (Z.to_nat (b_N (tc_rx c))) c H) as Q. destruct (recv_handshake _ _ _ _) as [([u|e], c')|e| |]; cbn [on_handshake lf] in *; auto.
      destruct Q as (Q1 & Q2). split; [split; cbn [fst snd]; auto|]. cbn [snd]. destruct Q2 as [(Q2 & _)|(_ & Q2)]; [now left|right]. destruct Q2 as [-> |[-> | ->]]; split; discriminate.
    + destruct (tstate_eqb (tc_state c) TConnected) eqn:Es; [|now apply AL]. apply tstate_eqb_ok in Es. cbn [lf snd]. split; [|now left]. split; cbn [fst snd]; auto.
Qed.
Lemma recv_leaf c now : inv c -> lf (tls_recv cx dbg c now) (on_recv now c).
Proof.
  intros H. pose proof H as (G & _). unfold tls_recv. apply (lf_alert _ _ _ _ _ (fun h c' => c' = c /\ match h with Some h => zlen h = 5 /\ bytes_ok h | None => True end) (fun c' => c' = c)).
  - apply (lf_mono _ _ _ (header_leaf c G)). intros ([[h|]|e], c') (E & Hh); cbn [fst snd] in *; subst c'; tauto.
  - intros [h|] c' (-> & Hh); [|cbn [lf]; split; cbn [fst snd]; [exact H|left; auto]]. destruct Hh as (Lh & Bh). set (frag := b_contains_handshake_fragment _). clearbody frag.
    apply (lf_alert _ _ _ _ _ (fun (_ : ContentType) c' => on_body c (@Ok Z unit tt, c') /\ (rh_content_type h = ApplicationData -> ks_server_traffic (tc_ks c) <> None)) good).
    + apply (lf_mono _ _ _ (body_leaf c h G Lh Bh)). intros ([ct|e], c') (Hb & Ha); cbn [fst snd] in *; [|exact (proj1 Hb)]. split; [exact Hb|]. intros Ea En. destruct (Ha Ea En) as (e & X). discriminate.
    + intros ct c' (Hb & Ha). pose proof (body_inv c _ H Hb) as H1. cbn [snd] in H1.
      set (adv := if ct =? ApplicationData then _ else _). assert (forall rx, adv = TOk rx -> bwf N rx) as Hadv.
      { pose proof H1 as ((_ & _ & _ & W1) & _). intros rx. unfold adv. destruct (ct =? ApplicationData); [apply bwf_publish; exact W1|]. injection 1 as <-. exact W1. }
      destruct adv as [rx|e| |]; try exact I. specialize (Hadv rx eq_refl). assert (inv (tc_set_rx c' rx)) as H2 by now apply inv_rx.
      destruct Hb as (_ & Es & Et & Ek). cbn [snd] in Es, Et, Ek.
      assert (forall x, on_recv now (tc_set_rx c' rx) x -> on_recv now c x) as Tr.
      { intros (r, c2) (X1 & X2). split; [exact X1|]. cbn [fst snd] in *. unfold moved in *. cbn [tc_state tc_timeout tc_set_rx] in *. rewrite Es, Et in X2. exact X2. }
      destruct (_ && _); [apply (lf_mono _ _ _ (alert_recv now c (tc_set_rx c' rx) _ (proj1 H2))); auto|].
      destruct (ct =? CtAlert).
      * apply (lf_then _ _ _ _ (alert_leaf (tc_set_rx c' rx) h now c H2)). intros (e, c2) (X & _). exact X.
      * apply (lf_then _ _ _ _ (content_leaf (tc_set_rx c' rx) h ct now H2)). intros (r, c2) (X & Xs). apply Tr in X. cbn [snd] in Xs.
        destruct (Z.eqb_spec (rh_content_type h) ApplicationData) as [Ea|]; [|exact X].
        unfold increment_read. destruct (_ =? _); [exact I|]. cbn [lf]. destruct X as (((X1 & X2 & X3 & X4) & XS & XT) & X5). cbn [fst snd] in *.
        split; [|exact X5]. cbn [snd]. split; [unfold good; cbn; auto|]. split; [|exact XT]. cbn [tc_state tc_ks tc_set_ks].
        assert (tc_state c <> TReset /\ tc_state c <> TWaitConInt) as (N1 & N2).
        { specialize (Ha Ea). destruct H as (_ & S & _). split; intros Ec; rewrite Ec in S; cbn [istage] in S; rewrite S in Ha; now apply Ha. }
        cbn [tc_state tc_set_rx] in Xs. rewrite Es in Xs. apply istage_seqs; [exact XS| |]; destruct Xs as [-> |(Y1 & Y2)]; auto.
    + intros d c' Gc. now apply alert_recv.
  - intros d c' ->. now apply alert_recv.
Qed.

(** ** One call of [process] *)
Definition on_process (now : Z) (c : TlsClient) (x : res TError TEvent * TlsClient) : Prop :=
  inv (snd x) /\
  (tc_state (snd x) = TConnected -> tc_state c = TConnected \/ fst x = Ok THandshakeFinished) /\
  match fst x with
  | Ok (TCallAfter k) => 0 <= k <= 10 /\ tc_timeout (snd x) = Some (now + k - 10) /\
      ((tc_state (snd x) = tc_state c /\ tc_timeout (snd x) = tc_timeout c) \/ k = 10)
  | Ok TApplicationData => tc_state c = TConnected /\ tc_state (snd x) = TConnected
  | Ok THandshakeFinished => tc_state (snd x) = TConnected
  | Ok TDisconnect => tc_state (snd x) = TReset
  | Ok TNone => tc_state c = TConnected /\ tc_state (snd x) = TConnected
  | Err EUnexpectedDisconnect => tc_state c = TWaitDiscon /\ snd x = c
  | Err ETcpTimeout => tc_state (snd x) = TReset
  | Err (EStateTimeout s) => s = tc_state c /\ (exists t, tc_timeout c = Some t /\ 10 < now - t) /\ tc_timeout (snd x) = None /\ tc_state (snd x) = if tstate_eqb s TWaitDiscon then TReset else TSendDiscon
  | Err (EServer _) => tc_state (snd x) = TReset
  | Err (EClient _) => ((tc_state (snd x) = TWaitAlertSendOk \/ tc_state (snd x) = TSendDiscon) /\ tc_timeout (snd x) = Some now) \/ tc_state (snd x) = TReset
  | Err ENotConnected => False
  end.
Lemma alert_process now c c1 d : good c1 -> lf (@send_fatal_alert cx TEvent c1 d now) (on_process now c).
Proof.
  intros G. apply (lf_mono _ _ _ (fatal_alert c1 d now G)). intros (r, c') (E & I' & S & ET). cbn [fst snd] in *. subst r. split; [exact I'|]. cbn [fst snd]. split; [|tauto]. intros X. destruct S; congruence.
Qed.
Lemma inv_reset c : good c -> inv (tls_reset cx c).
Proof. intros (G1 & G2 & G3 & W). split; [unfold good; cbn; auto|]. cbn. auto. Qed.
(** The state may have moved on in this call; then a new wait began. *)
Lemma check_leaf c0 c now : inv c -> tc_state c <> TReset -> tc_state c <> TSendDiscon -> moved now c0 c -> lf (check_timeout cx c now) (on_process now c0).
Proof.
  intros H Nr Ns Mv. pose proof H as (G & S & T). pose proof G as (G1 & G2 & G3 & W). unfold check_timeout. destruct (tc_timeout c) as [to|] eqn:Et.
  - destruct (Z.ltb_spec now to) as [|L]; [exact I|]. unfold T_TIMEOUT_SECS. destruct (Z.ltb_spec 10 (now - to)) as [Ov|Nov].
    + destruct Mv as [(M1 & M2)|(M1 & _)]; [|rewrite Et in M1; injection M1 as ->; lia]. assert (exists t, tc_timeout c0 = Some t /\ 10 < now - t) as Ex by (exists to; split; [congruence|exact Ov]).
      destruct (tstate_eqb (tc_state c) TWaitDiscon) eqn:Ed; cbn [lf]; unfold on_process; cbn [fst snd].
      * split; [now apply inv_reset|]. split; [discriminate|]. rewrite <- M1, Ed. auto.
      * split; [split; [unfold good; cbn; auto|cbn; auto]|]. split; [discriminate|]. rewrite <- M1, Ed. auto.
    + cbn [lf]. unfold on_process. cbn [fst snd]. split; [exact H|].
      assert (tc_state c <> TConnected) as Nc by (intros E; rewrite E in T; discriminate T). split; [intros; contradiction|]. rewrite Et. split; [lia|]. split; [f_equal; lia|].
      destruct Mv as [(M1 & M2)|(M1 & _)]; [left; split; congruence|right; rewrite Et in M1; injection M1 as ->; lia].
  - cbn [lf]. unfold on_process. cbn [fst snd]. split; [exact H|]. assert (tc_state c = TConnected) as Ec by (destruct (tc_state c); cbn [timed] in T; try reflexivity; congruence).
    destruct Mv as [(M1 & M2)|(M1 & _)]; [|congruence]. split; [left; congruence|split; congruence].
Qed.
Lemma finished_leaf c : inv c -> tc_state c = TSendFinished -> lf (send_client_finished cx c) (fun x => match fst x with Ok _ => inv (snd x) /\ tc_state (snd x) = TConnected | Err _ => good (snd x) end).
Proof.
  intros (G & S & T) Es. unfold send_client_finished. apply lf_tres; [intros; exact G|]. intros vd _. apply lf_io_any; [intros; exact G|]. intros _. cbn [lf fst snd]. split; [|reflexivity].
  split; [exact G|]. split; [|reflexivity]. cbn [tc_state tc_ks tc_set_ks set_state tc_set_st istage]. rewrite Es in S. destruct S as (pre & dhe & t1 & S1 & (S2 & S3) & S4).
  exists pre, dhe, t1, (ks_transcript (tc_ks c)), []. split; [exact S1|]. split; [cbn; now rewrite app_nil_r|]. intros _.
  unfold initialize_master_secret, initialize_secrets. unfold after in S4. rewrite S4.
  change (cx_extract cx (derive cx (handshake_secret cx psk dhe) "derived" []) ZEROS_OF_HASH_LEN) with (master_secret cx psk dhe).
  split; exact (f_equal Some (derive_eq cx (master_secret cx psk dhe) _ (ks_transcript (tc_ks c)))).
Qed.
Lemma rx_leaf c now : inv c -> tc_state c <> TReset -> tc_state c <> TSendDiscon -> lf (process_rx cx dbg c now) (on_process now c).
Proof.
  intros H Nr Ns. unfold process_rx. destruct (_ || _); [apply check_leaf; auto; left; auto|].
  apply (lf_alert _ _ _ _ _ (fun _ c' => c' = c) (fun c' => c' = c)).
  - apply lf_io_any; [intros; reflexivity|]. intros rsr. reflexivity.
  - intros rsr c' ->. apply (lf_then _ _ _ (on_recv now c)).
    + destruct (_ <=? _); [now apply recv_leaf|]. split; [exact H|left; auto].
    + intros ([[e|]|e], c') (X1 & X2); cbn [fst snd] in X1, X2.
      * destruct X2 as (-> & Y1 & Y2). cbn [lf]. split; [exact X1|]. cbn [fst snd]. auto.
      * assert (tc_state c' <> TReset /\ tc_state c' <> TSendDiscon) as (N1 & N2) by (destruct X2 as [(-> & _)|(_ & [-> |[-> | ->]])]; split; (assumption || discriminate)).
        destruct (tstate_eqb (tc_state c') TSendFinished) eqn:Ef; [|now apply check_leaf]. apply tstate_eqb_ok in Ef.
        apply (lf_alert _ _ _ _ _ (fun _ c2 => inv c2 /\ tc_state c2 = TConnected) good); [now apply finished_leaf| |intros; now apply alert_process].
        intros _ c2 (Y1 & Y2). cbn [lf]. split; [exact Y1|]. cbn [fst snd]. auto.
      * cbn [lf]. split; [exact X1|]. cbn [fst snd]. destruct e; try contradiction; (split; [|exact X2]); intros E; rewrite E in X2; [discriminate X2|]; destruct X2 as [([X2|X2] & _)|X2]; discriminate X2.
  - intros d c' ->. apply alert_process, H.
Qed.
Lemma state_leaf c now : inv c -> lf (process_state cx dbg fuel c now) (on_process now c).
Proof.
  intros H. pose proof H as (G & S & T). pose proof G as (G1 & G2 & G3 & W). unfold process_state. destruct (tc_state c) eqn:Es;
    try (rewrite <- Es in *; apply rx_leaf; auto; rewrite Es; discriminate).
  - apply (lf_alert _ _ _ _ _ (fun k c' => k = 10 /\ c' = set_state_with_timeout c TWaitConInt now) (fun c' => c' = c)).
    + unfold tls_tcp_connect. apply lf_io_any; [reflexivity|]. intros _. apply lf_unwrap. intros size _. repeat (apply lf_io_any; [reflexivity|]; intros ?). cbn. auto.
    + intros k c' (-> & ->). cbn [lf]. split; cbn [fst snd].
      * split; [exact G|]. split; [cbn in S |- *; exact S|discriminate].
      * split; [discriminate|]. split; [lia|]. split; [cbn; f_equal; lia|now right].
    + intros d c' ->. now apply alert_process.
  - apply (lf_alert _ _ _ _ _ (fun _ c' => c' = c) (fun c' => c' = c)).
    + apply lf_io_any; [reflexivity|]. intros _. reflexivity.
    + intros _ c' ->. cbn [lf]. split; cbn [fst snd].
      * split; [exact G|]. split; [exact I|discriminate].
      * split; [discriminate|]. unfold T_TIMEOUT_SECS. split; [lia|]. split; [cbn; f_equal; lia|now right].
    + intros d c' ->. now apply alert_process.
Qed.
Lemma interrupts_leaf c ir now : inv c -> lf (process_interrupts cx dbg fuel c ir now) (on_process now c).
Proof.
  intros H. pose proof H as (G & S & T). pose proof G as (G1 & G2 & G3 & W). unfold process_interrupts. destruct (SocketInterrupt_discon_raised ir).
  - destruct (tstate_eqb (tc_state c) TWaitDiscon) eqn:Ed; cbn [negb lf]; unfold on_process; cbn [fst snd].
    + apply tstate_eqb_ok in Ed. split; [exact H|]. split; [congruence|auto].
    + split; [now apply inv_reset|]. split; [discriminate|reflexivity].
  - destruct (SocketInterrupt_timeout_raised ir); [cbn [lf]; split; cbn [fst snd]; [now apply inv_reset|split; [discriminate|reflexivity]]|].
    destruct (_ && _); [|now apply state_leaf]. cbn [lf]. unfold on_process. cbn [fst snd]. split; [split; [unfold good; cbn; auto|cbn; auto]|]. split; [discriminate|]. unfold T_TIMEOUT_SECS. split; [lia|]. split; [cbn; f_equal; lia|now right].
Qed.
Lemma process_leaf c rng now : inv c -> R rng -> rng_ok rng -> lf (tls_process cx dbg fuel c rng now) (on_process now c).
Proof.
  intros H HR Hr. unfold tls_process. apply lf_seq. intros r. set (ir := match r with Ok v => v | Err _ => 0 end). clearbody ir. destruct (SocketInterrupt_any_raised ir); [|now apply state_leaf].
  apply (lf_alert _ _ _ _ _ (fun _ c' => c' = c) (fun c' => c' = c)).
  - apply lf_io_any; [reflexivity|]. intros _. reflexivity.
  - intros _ c' ->. destruct (SocketInterrupt_con_raised ir); [|now apply interrupts_leaf].
    apply (lf_alert _ _ _ _ _ (fun _ c' => inv c' /\ tc_state c' = TWaitServerHello /\ tc_timeout c' = Some now) good); [apply client_hello; auto; apply H| |intros; now apply alert_process].
    intros _ c1 (H1 & E1 & E2). apply (lf_mono _ _ _ (interrupts_leaf c1 ir now H1)). intros (r', c2) (X1 & X2 & X3). cbn [fst snd] in *. split; [exact X1|]. cbn [fst snd].
    rewrite E1 in *. split; [intros E; destruct (X2 E) as [Y|Y]; [discriminate Y|now right]|].
    destruct r' as [[k| | | |]|[al|al| | |st|]]; auto; try (destruct X3; discriminate).
    + destruct X3 as (Y1 & Y2 & Y3). split; [exact Y1|]. split; [exact Y2|]. right. destruct Y3 as [(_ & Y3)|Y3]; [|exact Y3]. rewrite Y2, E2 in Y3. injection Y3 as Y3. lia.
    + destruct X3 as (_ & (t & Y1 & Y2) & _). rewrite E2 in Y1. injection Y1 as <-. lia.
  - intros d c' ->. apply alert_process, H.
Qed.
End Inv.
