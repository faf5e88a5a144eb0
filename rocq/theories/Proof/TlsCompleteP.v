(** A handshake with a conforming server. *)
From Coq Require Import String.
From Verif Require Import Model.Prelude Model.Bus Model.Chip Model.Specifiers Model.LlBits Model.Ll Model.LlAddr Model.HlIo Model.HlCommon Model.HlTcp Model.Stream Model.Gcm
  Spec.Hoare Spec.Sock Spec.Cursor Spec.TcpClient Spec.Gcm38D Spec.Fips197 Spec.TlsSecrets Spec.TlsMessages Spec.TlsProtect.
From Verif Require Import Proof.MqttRxP Proof.Base Proof.RingP Proof.ChipP Proof.SockP Proof.StreamP Proof.TcpP Proof.Ghash3P Proof.GcmP Proof.TlsTxP Proof.TlsBufP Proof.TlsHelloP Proof.TlsSendP Proof.TlsWireP Proof.TlsRxP Proof.TlsRx2P Proof.TlsRx3P Proof.TlsRx4P Proof.TlsRx5P Proof.TlsParseP Proof.TlsHsP.
From Verif Require Import Spec.MqttMsg Spec.TlsQuiet.
From Verif Require Import Model.TlsTypes Model.TlsBuf Model.TlsKeys Model.TlsHello Model.TlsRecord Model.TlsClient Spec.TlsQueue Spec.TlsSession Spec.TlsWire Spec.TlsRx Spec.TlsComplete.
Ltac Zify.zify_post_hook ::= idtac.
Local Open Scope list_scope.

(** ** What holds whatever the bus answers *)
Fixpoint lfa {A} (p : prog A) (P : A -> Prop) : Prop :=
  match p with
  | Ret a => P a
  | Rd _ _ _ k => forall r, lfa (k r) P
  | Wr _ _ _ k => forall b, lfa (k b) P
  | Panic | Diverge => True
  end.
Lemma wps_lfa {A} (p : prog A) n D (P : A -> Prop) : lfa p P -> forall s Q, wps p n s D Q -> wps p n s D (fun a s' => P a /\ Q a s').
Proof.
  induction p as [a|a b l k IH|a b d k IH| |]; cbn [lfa wps]; intros HP s Q HQ; auto.
  - destruct HQ as (kd & H1 & H2 & H3). exists kd. split; [exact H1|]. split; [exact H2|]. intros s1 E. apply IH; auto.
  - destruct HQ as (kd & H1 & H2 & H3). exists kd. split; [exact H1|]. split; [exact H2|]. intros s1 E. apply IH; auto.
Qed.
Lemma lfa_true {A} (p : prog A) (P : A -> Prop) : (forall a, P a) -> lfa p P.
Proof. intros H. induction p; cbn [lfa]; auto. Qed.
Lemma lfa_mono {A} (p : prog A) (P P' : A -> Prop) : lfa p P -> (forall a, P a -> P' a) -> lfa p P'.
Proof. intros H HP. induction p; cbn [lfa] in *; auto. Qed.
Lemma lfa_bind {A B} (p : prog A) (f : A -> prog B) P : lfa p (fun a => lfa (f a) P) -> lfa (bind p f) P.
Proof. induction p; cbn [lfa bind]; auto. Qed.
Lemma lfa_then {A B} (p : prog A) (f : A -> prog B) P Q : lfa p Q -> (forall a, Q a -> lfa (f a) P) -> lfa (bind p f) P.
Proof. intros H HQ. apply lfa_bind. exact (lfa_mono p _ _ H HQ). Qed.
Lemma lfa_io {A B S} f (p : M A) (s : S) (k : A -> prog (res Z B * S)) (P : _ -> Prop) : (forall e, P (Err e, s)) -> (forall a, lfa (k a) P) -> lfa (a_io f p s k) P.
Proof. intros HE HQ. unfold a_io. apply lfa_bind, lfa_true. intros [a|e]; cbn [lfa]; auto. Qed.
Lemma lfa_tres {A B S} (t : tres A) (s : S) (k : A -> prog (res Z B * S)) (P : _ -> Prop) : (forall e, P (Err e, s)) -> (forall a, t = TOk a -> lfa (k a) P) -> lfa (a_tres t s k) P.
Proof. intros HE HQ. unfold a_tres. destruct t; cbn [lfa]; auto. Qed.
Lemma lfa_unwrap {A B} (o : option A) (k : A -> prog B) (P : B -> Prop) : (forall a, o = Some a -> lfa (k a) P) -> lfa (unwrap o k) P.
Proof. intros H. unfold unwrap. destruct o; cbn [lfa]; auto. Qed.

(** *** The heads of the buffer are not moved by what arrives *)
Definition kept (b b' : Buffer) : Prop := b_head b' = b_head b /\ b_hs_head b' = b_hs_head b.
Lemma kept_refl b : kept b b. Proof. split; reflexivity. Qed.
Lemma kept_trans a b c : kept a b -> kept b c -> kept a c.
Proof. intros (H1 & H2) (H3 & H4). split; congruence. Qed.
Lemma kept_extend dbg b src b' : b_extend_from_slice dbg b src = TOk b' -> kept b b'.
Proof.
  unfold b_extend_from_slice. destruct (b_remain b); cbn [tbind]; try discriminate. destruct (_ <? _); [discriminate|]. destruct (if b_tail b =? b_head b then _ else _) as ((ao, al), bl).
  destruct (_ <? _); [discriminate|]. repeat match goal with |- context [if ?x then _ else _] => destruct x end; try discriminate; injection 1 as <-; split; reflexivity.
Qed.
Lemma kept_pop b x b' : b_pop_tail b = Some (x, b') -> kept b b'.
Proof. unfold b_pop_tail. destruct (b_is_empty b); [discriminate|]. injection 1 as _ <-. split; reflexivity. Qed.
Lemma kept_decrypt dbg sn : forall fuel g rd remain b, lfa (decrypt_loop fuel dbg sn g rd remain b) (fun x => kept b (snd x)).
Proof.
  induction fuel as [|fuel IH]; intros g rd remain b; cbn [decrypt_loop]; [exact I|]. apply lfa_io; [intros; apply kept_refl|]. intros blk. apply lfa_unwrap. intros (g', pl) _.
  apply lfa_tres; [intros; apply kept_refl|]. intros b1 E1. apply kept_extend in E1. cbv zeta. destruct (_ =? 0).
  - apply lfa_unwrap. intros (y, b2) E2. apply kept_pop in E2. cbn [lfa snd]. exact (kept_trans _ _ _ E1 E2).
  - apply (lfa_mono _ _ _ (IH g' _ _ b1)). intros x Hx. exact (kept_trans _ _ _ E1 Hx).
Qed.
Lemma kept_loop dbg : forall n reader remain c, lfa (recv_body_loop dbg n reader remain c) (fun x => kept (tc_rx c) (tc_rx (snd x))).
Proof.
  induction n as [|n IH]; intros reader remain c; cbn [recv_body_loop]; destruct (_ =? 0); cbn [lfa snd]; try exact I; try apply kept_refl.
  apply lfa_io; [intros; apply kept_refl|]. intros (d, r'). apply lfa_tres; [intros; apply kept_refl|]. intros rx E. apply kept_extend in E.
  apply (lfa_mono _ _ _ (IH r' _ (tc_set_rx c rx))). intros x Hx. exact (kept_trans _ _ _ E Hx).
Qed.
Lemma kept_body cx dbg c h : lfa (recv_body cx dbg c h) (fun x => kept (tc_rx c) (tc_rx (snd x))).
Proof.
  unfold recv_body. destruct (_ =? _).
  - destruct (server_key_and_nonce cx (tc_ks c)) as [(key, nc)|]; [|apply kept_refl]. apply (lfa_then _ _ _ (fun x => kept (tc_rx c) (snd x))).
    + unfold decrypt_record_inplace. apply lfa_io; [intros; apply kept_refl|]. intros rsr. destruct (_ <? _); [apply kept_refl|]. apply lfa_io; [intros; apply kept_refl|]. intros rd. cbv zeta. destruct (_ =? 0); [apply kept_refl|].
      apply (lfa_then _ _ _ _ (kept_decrypt dbg _ _ _ _ _ _)). intros ([((ct, rd'), g)|e], b) K; cbn [snd] in K; [|exact K]. repeat (apply lfa_io; [intros; exact K|]; intros ?). destruct (list_eq_dec _ _ _); exact K.
    + intros ([[ct|]|e], rx) K; exact K.
  - apply lfa_bind. unfold recv_unencrypted_body. apply lfa_io; [intros; apply kept_refl|]. intros reader. apply (lfa_then _ _ _ _ (kept_loop dbg _ _ _ _)). intros ([r2|e], c2) K; cbn [snd] in K; [|exact K].
    apply lfa_io; [intros; exact K|]. intros _. exact K.
Qed.

(** ** One message in the buffer *)
Lemma pop_nothing b hash : pending 0 b [] -> 4 < b_N b -> b_pop_handshake_record b hash = TOk None.
Proof. intros H N. apply (pop_waits 0 b 0 [] [] (hs_message 0 []) hash H eq_refl); [discriminate|reflexivity|exact N]. Qed.
Lemma pending_kept b b' x : pending 0 b [] -> kept b b' -> holds b' ([], x) -> pending 0 b' x.
Proof. intros (_ & H1 & H2) (K1 & K2) H. split; [exact H|]. split; congruence. Qed.
Lemma unused_pending c : unused c -> pending 0 (tc_rx c) [] /\ 1024 <= b_N (tc_rx c) <= 16384.
Proof. intros (N & I). unfold buffer_size in N. split; [|exact N]. apply pending_idle; [unfold b_N; lia|exact I]. Qed.
Lemma pending_unused c rx : pending 0 rx [] -> b_N rx = b_N (tc_rx c) -> 1024 <= b_N (tc_rx c) <= 16384 -> 1024 <= zlen (b_buf rx) <= 16384 /\ idle_at 0 rx.
Proof. intros P E N. fold (b_N rx). rewrite E. split; [exact N|]. apply pending_idle; [rewrite E; lia|exact P]. Qed.

Section Steps.
Context (cx : Crypto) (f : Z * Z) (sn : Sn) (dbg : bool).
Hypothesis CX : crypto_ok cx.
Let n := snz sn.
Notation wn := (TlsRxP.wn f).
Lemma one_message c now ty body ks1 st : pending 0 (tc_rx c) (hs_message ty body) -> zlen body < 16384 -> 4 + zlen body < b_N (tc_rx c) ->
  (forall a b rx, a ++ b = body -> recv_message cx (tc_set_rx c rx) (ztake 4 (hs_message ty body)) (cr_new a b) (ks_transcript (tc_ks c) ++ hs_message ty body) now = TOk (Ok tt, tc_set_st (tc_set_ks (tc_set_rx c rx) ks1) st (Some now))) ->
  exists rx, pending 0 rx [] /\ b_N rx = b_N (tc_rx c) /\ recv_handshake cx (Z.to_nat (b_N (tc_rx c))) c now = TOk (Ok tt, tc_set_st (tc_set_ks (tc_set_rx c rx) (ks_set_transcript ks1 (ks_transcript (tc_ks c) ++ hs_message ty body))) st (Some now)).
Proof.
  intros P Lb Hb K. pose proof (zlen_nonneg body) as N0. destruct (pop_full 0 (tc_rx c) ty body (ks_transcript (tc_ks c)) P ltac:(lia) ltac:(lia)) as (r & rx & E & Er & Ep & P' & N').
  destruct (Z.to_nat (b_N (tc_rx c))) as [|m] eqn:Em; [lia|]. cbn [recv_handshake]. rewrite E.
  assert (r = cr_new (cr_a r) (cr_b r)) as Rr by (destruct r as [ra rb rp]; cbn in Ep |- *; now subst rp). rewrite Rr.
  rewrite (K (cr_a r) (cr_b r) rx Er). exists rx. split; [exact P'|]. split; [exact N'|].
  destruct m; cbn [recv_handshake]; (rewrite pop_nothing; [reflexivity|exact P'|cbn [tc_rx tc_set_rx tc_set_ks tc_set_st]; lia]).
Qed.
(** *** In a record without protection *)
Lemma plain_message c now rng fuel rd tx ch b w ty body ks1 st : let m := hs_message ty body in let h := record_header 22 [3; 3] (zlen m) in
  tc_sn c = sn -> listens c -> unused c -> zlen m <= buffer_size c - 22 -> st <> TSendFinished -> wn (c_sock ch n) rd tx b b ((h ++ m) ++ w) ->
  (forall rx0 a b rx, a ++ b = body -> recv_message cx (tc_set_rx (tc_set_rx c rx0) rx) (ztake 4 m) (cr_new a b) (ks_transcript (tc_ks c) ++ m) now = TOk (Ok tt, tc_set_st (tc_set_ks (tc_set_rx c rx) ks1) st (Some now))) ->
  ensures_ir no_link_change (tls_process cx dbg fuel c rng now) n ch (fun x s' => exists rx, x = (Ok (TCallAfter 10), tc_set_st (tc_set_ks (tc_set_rx c rx) (ks_set_transcript ks1 (ks_transcript (tc_ks c) ++ m))) st (Some now)) /\
    pending 0 rx [] /\ b_N rx = b_N (tc_rx c) /\ tcp_view s' (rd ++ h ++ m) tx).
Proof.
  intros m h Hsn Hl U Lm Hst H K. destruct (unused_pending c U) as (P & N). unfold buffer_size in *. fold (b_N (tc_rx c)) in *. pose proof (zlen_message ty body) as Lmb. fold m in Lmb. pose proof (zlen_nonneg body) as N0. apply wn_prefix in H.
  destruct (header_parts 22 [3; 3] (zlen m) eq_refl ltac:(unfold is_u8; lia) ltac:(repeat constructor; unfold is_u8; lia) ltac:(lia)) as (Lh & Bh & Ct & Hlen). fold h in Lh, Bh, Ct, Hlen.
  apply (process_wn cx f sn dbg c rng now ch rd tx b (h ++ m) _ fuel Hsn Hl H). intros s1 W1.
  apply (rx_recv cx f sn dbg c now s1 rd tx b (h ++ m) _ Hsn Hl W1); [rewrite zlen_app; lia|]. intros s2 W2.
  apply (recv_whole cx f sn dbg c now s2 rd tx b h m _ Hsn W2 Lh); [rewrite Ct; discriminate|exact Hlen|unfold RECORD_SIZE_LIMIT; change (GCM_TAG_LEN) with 16; change RH_LEN with 5; lia|].
  intros s3 b3 more W3. unfold after_header, or_alert. cbv zeta. apply wps_bind.
  assert (wps (recv_body cx dbg c h) n s3 False (fun x s4 => exists rx, x = (Ok 22, tc_set_rx c rx) /\ holds rx ([], m) /\ b_N rx = b_N (tc_rx c) /\ exists b4 w4, wn s4 (rd ++ h ++ m) tx b4 b4 w4)) as G.
  { unfold recv_body, rh_content_type. rewrite Ct. change (22 =? ApplicationData) with false. cbn iota. apply wps_bind.
    eapply wps_mono; [| |apply (plain_wn f sn dbg False c s3 (rd ++ h) tx b3 m more [] [] h Hsn W3)]; [auto| |lia|exact (proj1 P)|change (zlen (@nil Z)) with 0; lia|subst m; discriminate].
    intros x s4 ((b4 & w4 & W4) & rx & -> & Q1 & Q2). cbn [wps]. exists rx. split; [reflexivity|]. split; [exact Q1|]. split; [exact Q2|]. exists b4, w4. rewrite app_assoc. exact W4. }
  eapply wps_mono; [| |exact (wps_lfa _ _ _ _ (kept_body cx dbg c h) _ _ G)]; [auto|].
  intros x s4 (Kp & rx & -> & Q1 & Q2 & b4 & w4 & W4). cbn [snd tc_rx tc_set_rx] in Kp. cbn iota beta. change (22 =? ApplicationData) with false. cbn iota.
  rewrite (no_fragment _ [] (proj1 P)). cbn [andb]. change (22 =? CtAlert) with false. cbn iota. unfold recv_content. change (22 =? ChangeCipherSpec) with false. change (22 =? CtHandshake) with true. cbn iota.
  cbn [tc_rx tc_set_rx]. change (tc_set_rx (tc_set_rx c rx) rx) with (tc_set_rx c rx).
  destruct (one_message (tc_set_rx c rx) now ty body ks1 st (pending_kept _ _ _ P Kp Q1) ltac:(lia) ltac:(cbn [tc_rx tc_set_rx]; lia) (K rx)) as (rx' & P' & N' & E). cbn [tc_rx tc_set_rx] in E, N'. rewrite E. cbn [bind wps].
  unfold rh_content_type. rewrite Ct. change (22 =? ApplicationData) with false. cbn iota. cbn [wps after_recv]. cbn [tc_state tc_set_st].
  assert (tstate_eqb st TSendFinished = false) as -> by (destruct st; reflexivity || contradiction). unfold check_timeout. cbn [tc_timeout tc_set_st]. destruct (Z.ltb_spec now now) as [|_]; [lia|]. unfold T_TIMEOUT_SECS. replace (now - now) with 0 by lia. change (10 <? 0) with false. cbn iota. cbn [wps].
  exists rx'. split; [reflexivity|]. split; [exact P'|]. split; [congruence|]. exact (wn_view f _ _ _ _ _ W4).
Qed.

(** *** In a protected record *)
Lemma protected_message c now rng fuel rd tx ch t seq h body w b ty mb ks1 st Q : let m := hs_message ty mb in
  tc_sn c = sn -> reads_with c t seq -> at_ h 0 = 23 -> zlen h = 5 -> bytes_ok h -> rh_length h = zlen body -> zlen body = zlen m + 17 -> bytes_ok body -> zlen m <= buffer_size c - 39 ->
  listens c -> unused c -> ks_read_seq ks1 = seq -> wn (c_sock ch n) rd tx b b ((h ++ body) ++ w) -> opens cx t seq (h ++ body) = Some (m ++ [22]) ->
  (forall rx0 a b rx, a ++ b = mb -> recv_message cx (tc_set_rx (tc_set_rx c rx0) rx) (ztake 4 m) (cr_new a b) (ks_transcript (tc_ks c) ++ m) now = TOk (Ok tt, tc_set_st (tc_set_ks (tc_set_rx c rx) ks1) st (Some now))) ->
  (forall rx s2 b2 w2, pending 0 rx [] -> b_N rx = b_N (tc_rx c) -> wn s2 (rd ++ h ++ body) tx b2 b2 w2 ->
    wps (after_recv cx (Ok None, tc_set_st (tc_set_ks (tc_set_rx c rx) (ks_set_seqs (ks_set_transcript ks1 (ks_transcript (tc_ks c) ++ m)) (seq + 1) (ks_write_seq ks1))) st (Some now)) now) n s2 False Q) ->
  ensures_ir no_link_change (tls_process cx dbg fuel c rng now) n ch Q.
Proof.
  intros m Hsn R Ct Lh Bh Hlen Lb Bb Lm Hl U Eseq H Ho K KQ. destruct (unused_pending c U) as (P & N). pose proof (zlen_message ty mb) as Lmb. fold m in Lmb. pose proof (zlen_nonneg mb) as N0.
  assert (buffer_holds (tc_rx c) [] []) as Hh by (apply buffer_eq; exact (proj1 P)). assert (buffer_size c = b_N (tc_rx c)) as EN by reflexivity.
  apply (protected_process cx f sn dbg c now rng fuel h body rd tx Hsn Ct Lh Hlen ltac:(lia) Q ch b w Hl H).
  intros s1 b1 more W1. unfold after_header, or_alert. cbv zeta. apply wps_bind.
  eapply wps_mono; [| |apply (wps_lfa _ _ _ _ (kept_body cx dbg c h)); exact (protected_body cx f sn dbg CX c t seq h body [] [] rd tx Hsn R Ct Lh Bh Hlen ltac:(lia) Bb Hh ltac:(change (zlen (@nil Z)) with 0; lia) s1 b1 more W1)]; [auto|].
  rewrite Ho. intros x s2 (Kp & (b' & w' & W2) & pl & rx & Q1 & Q2 & Lp & y & E & ->). apply app_inj_tail in E. destruct E as (<- & <-). change (content_type_try_from 22) with (Some 22). cbn [snd tc_rx tc_set_rx app] in Kp, Q1. cbn iota beta. change (22 =? ApplicationData) with false. cbn iota.
  rewrite (no_fragment _ [] (proj1 P)). cbn [andb]. change (22 =? CtAlert) with false. cbn iota. unfold recv_content. change (22 =? ChangeCipherSpec) with false. change (22 =? CtHandshake) with true. cbn iota.
  cbn [tc_rx tc_set_rx]. change (tc_set_rx (tc_set_rx c rx) rx) with (tc_set_rx c rx).
  destruct (one_message (tc_set_rx c rx) now ty mb ks1 st (pending_kept _ _ _ P Kp Q1) ltac:(lia) ltac:(cbn [tc_rx tc_set_rx]; lia) (K rx)) as (rx' & P' & N' & E). cbn [tc_rx tc_set_rx] in E, N'. rewrite E. cbn [bind wps].
  unfold rh_content_type. rewrite Ct. change (23 =? ApplicationData) with true. cbn iota. destruct R as (_ & _ & R3). unfold increment_read, U64_MAX. cbn [tc_ks tc_set_ks tc_set_st ks_set_transcript ks_read_seq ks_write_seq]. rewrite Eseq. destruct (Z.eqb_spec seq 18446744073709551615) as [|_]; [lia|]. cbn [wps].
  exact (KQ rx' s2 b' w' P' ltac:(congruence) W2).
Qed.
End Steps.

(** ** The messages of the server *)
Section Main.
Context (cx : Crypto) (dbg : bool) (fuel : nat) (c : TlsClient) (rng : Rng) (now : Z) (ch : chip) (rd tx : list Z).
Hypothesis CX : crypto_ok cx.
Notation sn := (tc_sn c).
Notation sk := (c_sock ch (sn_raw sn)).
Notation process := (tls_process cx dbg fuel c rng now).
Let f := (free_space sk, rx_size sk).
Lemma type_of ty body : at_ (ztake 4 (hs_message ty body)) 0 = ty.
Proof. reflexivity. Qed.
Lemma same_self c' : tc_sn c' = tc_sn c -> tc_src_port c' = tc_src_port c -> tc_hostname c' = tc_hostname c -> tc_dst c' = tc_dst c -> tc_identity c' = tc_identity c -> tc_psk c' = tc_psk c -> b_N (tc_rx c') = b_N (tc_rx c) -> same_client c c'.
Proof. intros. repeat (split; [assumption|]). assumption. Qed.

Theorem hello_answer dhs t0 body share key : greeted cx c dhs t0 -> server_hello body share -> cx_sec1 cx share = Some key -> bytes_ok body -> zlen (hs_message 2 body) <= RECORD_SIZE_LIMIT c ->
  arrived ch c rd tx (plaintext_record 22 (hs_message 2 body)) ->
  ensures_ir no_link_change process (sn_raw sn) ch (fun x s' => exists c', x = (Ok (TCallAfter 10), c') /\ tc_state c' = TWaitEncryptedExtensions /\ same_client c c' /\
    agreed cx c' (cx_dh cx dhs key) (t0 ++ hs_message 2 body) (t0 ++ hs_message 2 body) 0 /\ tcp_view s' (rd ++ plaintext_record 22 (hs_message 2 body)) tx).
Proof.
  intros (Hst & S1 & S2 & S3 & U) Hsh Hk Bb Lim A. destruct (unused_pending c U) as (P & N). pose proof (zlen_message 2 body) as Lmb. pose proof (zlen_nonneg body) as N0.
  set (m := hs_message 2 body) in *. set (dhe := cx_dh cx dhs key). set (hash := t0 ++ m).
  unfold RECORD_SIZE_LIMIT in Lim. change GCM_TAG_LEN with 16 in Lim. change RH_LEN with 5 in Lim.
  destruct (arrived_wn c ch rd tx _ A) as (b & W). change (plaintext_record 22 m) with (record_header 22 [3; 3] (zlen m) ++ m) in *.
  set (ks0 := ks_set_transcript (set_server_public_key (tc_ks c) key) hash).
  set (ks1 := initialize_secrets cx ks0 dhe (ascii_bytes "c hs traffic") (ascii_bytes "s hs traffic")).
  intros sch Hs HP.
  destruct (plain_message cx f sn dbg c now rng fuel rd tx ch b [] 2 body ks1 TWaitEncryptedExtensions eq_refl ltac:(unfold listens; now rewrite Hst) U ltac:(unfold buffer_size; unfold b_N in *; fold m; lia) ltac:(discriminate) W) with (sch := sch) as (x & sch' & ch' & Ru & rx & -> & P' & N' & V); [|exact Hs|exact HP|].
  { intros rx0 a b0 rx Eab. unfold recv_message, hh_msg_type. rewrite type_of. change (handshake_type_try_from 2) with (Some ServerHello). change (ServerHello =? ServerHello) with true. cbn iota. cbn [tc_state tc_set_rx]. rewrite Hst. cbn [tstate_eqb negb].
    rewrite (server_hello_complete cx a b0 share key) by (rewrite ?Eab; auto; lia). cbn [h_try]. cbn [tc_ks tc_set_rx]. rewrite S2. fold m. fold hash. fold ks0. unfold initialize_handshake_secret, shared_secret. cbn [ks_client_secret ks_server_public ks0 ks_set_transcript set_server_public_key]. rewrite S1. cbn [h_try]. reflexivity. }
  eexists _, sch', ch'. split; [exact Ru|]. eexists. split; [reflexivity|]. split; [reflexivity|]. split; [apply same_self; try reflexivity; exact N'|]. split; [|exact V].
  cbn [tc_psk tc_ks tc_set_st tc_set_ks tc_set_rx tc_rx]. unfold agreed. cbn [tc_psk tc_ks tc_set_st tc_set_ks tc_set_rx tc_rx]. fold m. rewrite S2. fold hash.
  unfold ks1, initialize_secrets. cbn [ks_transcript ks_secret ks_client_traffic ks_server_traffic ks_set_transcript ks_read_seq ks_write_seq].
  change (ks_secret ks0) with (ks_secret (tc_ks c)). rewrite S3. change (cx_extract cx (derive cx (early_secret cx (tc_psk c)) "derived" []) dhe) with (handshake_secret cx (tc_psk c) dhe). change (transcript_hash_bytes cx ks0) with (cx_sha256 cx hash).
  split; [exact (f_equal Some (derive_eq cx (handshake_secret cx (tc_psk c) dhe) _ hash))|]. split; [exact (f_equal Some (derive_eq cx (handshake_secret cx (tc_psk c) dhe) _ hash))|]. split; [reflexivity|]. split; [exact (derive_empty cx (handshake_secret cx (tc_psk c) dhe) "derived" CX)|].
  split; [reflexivity|]. split; [reflexivity|]. unfold unused, buffer_size. exact (pending_unused c rx P' N' N).
Qed.

Theorem extensions_answer dhe t1 body : agreed cx c dhe t1 t1 0 -> tc_state c = TWaitEncryptedExtensions -> encrypted_extensions body -> bytes_ok body -> zlen (hs_message 8 body ++ [22]) <= RECORD_SIZE_LIMIT c - 16 ->
  arrived ch c rd tx (protected_record cx (server_hs cx (tc_psk c) dhe t1) 0 22 (hs_message 8 body)) ->
  ensures_ir no_link_change process (sn_raw sn) ch (fun x s' => exists c', x = (Ok (TCallAfter 10), c') /\ tc_state c' = TWaitFinished /\ same_client c c' /\
    agreed cx c' dhe t1 (t1 ++ hs_message 8 body) 1 /\ tcp_view s' (rd ++ protected_record cx (server_hs cx (tc_psk c) dhe t1) 0 22 (hs_message 8 body)) tx).
Proof.
  intros (S1 & S2 & S3 & S4 & S5 & S6 & U) Hst He Bb Lim A. destruct (unused_pending c U) as (P & N). pose proof (zlen_message 8 body) as Lmb. pose proof (zlen_nonneg body) as N0.
  set (m := hs_message 8 body) in *. set (t := server_hs cx (tc_psk c) dhe t1) in *.
  unfold RECORD_SIZE_LIMIT in Lim. change GCM_TAG_LEN with 16 in Lim. change RH_LEN with 5 in Lim. rewrite zlen_app in Lim. change (zlen [22]) with 1 in Lim.
  assert (bytes_ok m) as Bm. { unfold m, hs_message. constructor; [unfold is_u8; lia|]. apply Forall_app. split; [|exact Bb]. unfold be32. cbn. repeat constructor; apply Z.mod_pos_bound; lia. }
  assert (reads_with c t 0) as R by (split; [exact S2|]; split; [exact S5|lia]).
  destruct (record_split cx t 0 22 m CX ltac:(lia) Bm ltac:(unfold is_u8; lia) ltac:(lia)) as (rb & E & Lb & Bbd & Lh & Bh & Hlen).
  destruct (record_parts cx t 0 22 m CX ltac:(lia) Bm ltac:(unfold is_u8; lia) ltac:(lia)) as (_ & Ho).
  rewrite E in *. destruct (arrived_wn c ch rd tx _ A) as (b & W).
  apply (protected_message cx f sn dbg CX c now rng fuel rd tx ch t 0 (record_aad (zlen m)) rb [] b 8 body (tc_ks c) TWaitFinished); auto.
  - lia.
  - unfold buffer_size, b_N in *. fold m. lia.
  - unfold listens. now rewrite Hst.
  - intros rx0 a b0 rx Eab. unfold recv_message, hh_msg_type. rewrite type_of. change (handshake_type_try_from 8) with (Some EncryptedExtensions). change (EncryptedExtensions =? ServerHello) with false. change (EncryptedExtensions =? NewSessionTicket) with false. change (EncryptedExtensions =? EncryptedExtensions) with true. cbn iota.
    cbn [tc_state tc_set_rx]. rewrite Hst. cbn [tstate_eqb negb]. rewrite (extensions_complete a b0) by (rewrite ?Eab; auto; lia). cbn [h_try]. reflexivity.
  - intros rx s2 b2 w2 P' N' W2. cbn [after_recv]. cbn [tc_state tc_set_st tstate_eqb]. unfold check_timeout. cbn [tc_timeout tc_set_st]. destruct (Z.ltb_spec now now) as [|_]; [lia|]. unfold T_TIMEOUT_SECS. replace (now - now) with 0 by lia. change (10 <? 0) with false. cbn iota. cbn [wps].
    eexists. split; [reflexivity|]. split; [reflexivity|]. split; [apply same_self; try reflexivity; exact N'|]. split; [|exact (wn_view f _ _ _ _ _ W2)].
    unfold agreed. cbn [tc_psk tc_ks tc_set_st tc_set_ks tc_set_rx tc_rx ks_client_traffic ks_server_traffic ks_transcript ks_set_seqs ks_set_transcript ks_secret ks_read_seq ks_write_seq]. fold m. rewrite S3.
    split; [exact S1|]. split; [exact S2|]. split; [reflexivity|]. split; [exact S4|]. split; [reflexivity|]. split; [exact S6|]. unfold unused, buffer_size. exact (pending_unused c rx P' N' N).
Qed.

(** The server's Finished, and the client's. *)
Notation finished := (finished cx).
Lemma verify_len traffic t : zlen (verify_data cx traffic t) = 32 /\ bytes_ok (verify_data cx traffic t).
Proof. destruct CX as (_ & _ & _ & H & _). apply H. Qed.
Lemma finished_len traffic t : zlen (finished traffic t) = 36 /\ bytes_ok (finished traffic t).
Proof.
  destruct (verify_len traffic t) as (L & B). unfold finished. rewrite zlen_message, L. split; [lia|]. unfold hs_message. constructor; [unfold is_u8; lia|]. apply Forall_app. split; [|exact B]. unfold be32. cbn. repeat constructor; apply Z.mod_pos_bound; lia.
Qed.
Theorem finished_answer dhe t1 t2 : agreed cx c dhe t1 t2 1 -> tc_state c = TWaitFinished -> 58 <= tx_room ch c ->
  let sh := server_hs cx (tc_psk c) dhe t1 in let chs := client_hs cx (tc_psk c) dhe t1 in let t3 := t2 ++ finished sh t2 in
  arrived ch c rd tx (protected_record cx sh 1 22 (finished sh t2)) ->
  ensures_ir no_link_change process (sn_raw sn) ch (fun x s' => exists c', x = (Ok THandshakeFinished, c') /\ same_client c c' /\ secured cx c' dhe t3 /\
    tcp_view s' (rd ++ protected_record cx sh 1 22 (finished sh t2)) (tx ++ protected_record cx chs 0 22 (finished chs t3))).
Proof.
  intros (S1 & S2 & S3 & S4 & S5 & S6 & U) Hst Room sh chs t3 A. fold sh in S2. fold chs in S1. destruct (unused_pending c U) as (P & N). 
  destruct (finished_len sh t2) as (Lm & Bm). set (m := finished sh t2) in *. destruct (verify_len sh t2) as (Lv & _).
  assert (reads_with c sh 1) as R by (split; [exact S2|]; split; [exact S5|lia]).
  destruct (record_split cx sh 1 22 m CX ltac:(lia) Bm ltac:(unfold is_u8; lia) ltac:(lia)) as (rb & E & Lb & Bbd & Lh & Bh & Hlen).
  destruct (record_parts cx sh 1 22 m CX ltac:(lia) Bm ltac:(unfold is_u8; lia) ltac:(lia)) as (_ & Ho).
  rewrite E in *. destruct (arrived_wn c ch rd tx _ A) as (b & W).
  apply (protected_message cx f sn dbg CX c now rng fuel rd tx ch sh 1 (record_aad (zlen m)) rb [] b 20 (verify_data cx sh t2) (tc_ks c) TSendFinished); auto.
  - lia.
  - change (hs_message 20 (verify_data cx sh t2)) with m. unfold buffer_size, b_N in *. lia.
  - unfold listens. now rewrite Hst.
  - intros rx0 a b0 rx Eab. unfold recv_message, hh_msg_type. rewrite type_of. change (handshake_type_try_from 20) with (Some Finished). change (Finished =? ServerHello) with false. change (Finished =? NewSessionTicket) with false. change (Finished =? EncryptedExtensions) with false. change (Finished =? Finished) with true. cbn iota.
    cbn [tc_state tc_set_rx]. rewrite Hst. cbn [tstate_eqb negb].
    destruct (message_header 20 (verify_data cx sh t2)) as (q1 & q2 & q3 & E4 & _ & Ln). rewrite E4. assert (hh_length [20; q1; q2; q3] = 32) as -> by (rewrite <- Lv; exact (Ln ltac:(lia))). change (32 =? 32) with true. cbn [negb].
    assert (reads (cr_new a b0) (a ++ b0) 0) as Rd by (split; [reflexivity|]; split; [reflexivity|]; rewrite Eab; split; lia).
    pose proof (reads_exact (cr_new a b0) (a ++ b0) 0 32 Rd ltac:(lia)) as Re. rewrite Eab, Lv in Re. cbn [Z.sub Z.leb Z.compare Pos.compare Pos.compare_cont Z.opp Z.add] in Re.
    destruct Re as (r' & Er & _). unfold cr_next_n. rewrite Er. cbn [h_try]. rewrite zdrop_0, ztake_all by lia.
    cbn [tc_ks tc_set_rx]. unfold verify_server_finished. rewrite S2. unfold transcript_hash_bytes. rewrite S3, label_eq. fold (verify_data cx sh t2). destruct (list_eq_dec _ _ _) as [_|X]; [|contradiction]. cbn [h_try]. reflexivity.
  - intros rx s2 b2 w2 P' N' W2. set (ks3 := ks_set_seqs _ _ _). cbn [after_recv]. cbn [tc_state tc_set_st tstate_eqb].
    assert (ks_client_traffic ks3 = Some chs) as C1 by exact S1. assert (ks_write_seq ks3 = 0) as C2 by exact S6. assert (ks_transcript ks3 = t3) as C3 by (cbn [ks3 ks_set_seqs ks_transcript ks_set_transcript]; rewrite S3; reflexivity). assert (ks_secret ks3 = ks_secret (tc_ks c)) as C4 by reflexivity. clearbody ks3.
    unfold or_alert, send_client_finished. apply wps_bind. cbn [tc_ks tc_set_st tc_set_ks tc_sn tc_set_rx]. unfold client_finished_verify_data. rewrite C1. cbn [a_tres]. unfold transcript_hash_bytes. rewrite C3, label_eq. fold (verify_data cx chs t3).
    change (client_finished (verify_data cx chs t3)) with (finished chs t3). destruct (finished_len chs t3) as (Lf & Bf).
    apply wps_aio. destruct (nonce_eq cx chs 0 CX ltac:(lia)) as (En & K1 & K2 & K3 & K4). pose proof (wn_view f _ _ _ _ _ W2) as V2. destruct W2 as ((_ & _ & _ & _ & _ & TB & F & _) & _).
    eapply wps_mono; [| |exact (send_record_tls sn False cx ks3 _ _ s2 _ tx CtHandshake (finished chs t3) ltac:(unfold client_key_and_nonce; rewrite C1, C2; exact En) K1 K2 K3 K4 V2 TB Bf ltac:(unfold is_u8, CtHandshake; lia) ltac:(lia))]; [auto|].
    intros r s3 (_ & [(-> & V3 & _)|((e & ->) & F' & _)]).
    2:{ exfalso. unfold tx_room in Room. unfold f in F. cbn [fst] in F. lia. }
    cbn [wps]. eexists. split; [reflexivity|]. split; [apply same_self; try reflexivity; exact N'|]. split; [|exact V3].
    unfold secured. cbn [tc_psk tc_ks tc_set_st set_state tc_set_ks tc_set_rx tc_rx tc_state]. unfold initialize_master_secret, initialize_secrets. rewrite C4, S4.
    change (cx_extract cx (derive cx (handshake_secret cx (tc_psk c) dhe) "derived" []) ZEROS_OF_HASH_LEN) with (master_secret cx (tc_psk c) dhe). unfold transcript_hash_bytes. rewrite C3. cbn [ks_client_traffic ks_server_traffic ks_read_seq ks_write_seq].
    split; [reflexivity|]. split; [exact (f_equal Some (derive_eq cx (master_secret cx (tc_psk c) dhe) _ t3))|]. split; [exact (f_equal Some (derive_eq cx (master_secret cx (tc_psk c) dhe) _ t3))|]. split; [reflexivity|]. split; [reflexivity|]. apply buffer_eq. exact (proj1 P').
Qed.
Theorem hello_fits dhs t0 body share key : greeted cx c dhs t0 -> server_hello body share -> cx_sec1 cx share = Some key -> bytes_ok body -> zlen (hs_message 2 body) <= buffer_size c - 22 ->
  arrived ch c rd tx (plaintext_record 22 (hs_message 2 body)) ->
  ensures_ir no_link_change process (sn_raw sn) ch (fun x s' => exists c', x = (Ok (TCallAfter 10), c') /\ tc_state c' = TWaitEncryptedExtensions /\ same_client c c' /\
    agreed cx c' (cx_dh cx dhs key) (t0 ++ hs_message 2 body) (t0 ++ hs_message 2 body) 0 /\ tcp_view s' (rd ++ plaintext_record 22 (hs_message 2 body)) tx).
Proof. intros H1 H2 H3 H4 H5. apply (hello_answer dhs t0 body share key H1 H2 H3 H4). unfold RECORD_SIZE_LIMIT, buffer_size, b_N in *. change GCM_TAG_LEN with 16. change RH_LEN with 5. lia. Qed.
Theorem extensions_fit dhe t1 body : agreed cx c dhe t1 t1 0 -> tc_state c = TWaitEncryptedExtensions -> encrypted_extensions body -> bytes_ok body -> zlen (hs_message 8 body) <= buffer_size c - 39 ->
  arrived ch c rd tx (protected_record cx (server_hs cx (tc_psk c) dhe t1) 0 22 (hs_message 8 body)) ->
  ensures_ir no_link_change process (sn_raw sn) ch (fun x s' => exists c', x = (Ok (TCallAfter 10), c') /\ tc_state c' = TWaitFinished /\ same_client c c' /\
    agreed cx c' dhe t1 (t1 ++ hs_message 8 body) 1 /\ tcp_view s' (rd ++ protected_record cx (server_hs cx (tc_psk c) dhe t1) 0 22 (hs_message 8 body)) tx).
Proof. intros H1 H2 H3 H4 H5. apply (extensions_answer dhe t1 body H1 H2 H3 H4). unfold RECORD_SIZE_LIMIT, buffer_size, b_N in *. change GCM_TAG_LEN with 16. change RH_LEN with 5. rewrite zlen_app. change (zlen [22]) with 1. lia. Qed.
End Main.
