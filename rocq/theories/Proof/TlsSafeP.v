(** The TLS client on an arbitrary bus: where it can panic. *)
From Coq Require Import String.
From Verif Require Import Model.Prelude Model.Bus Model.Chip Model.Specifiers Model.LlBits Model.Ll Model.HlIo Model.HlCommon Model.HlTcp Model.Gcm Model.TlsTypes Model.TlsBuf Model.TlsKeys Model.TlsHello
  Model.TlsRecord Model.TlsClient Spec.Hoare Spec.Gcm38D Spec.TlsSecrets Spec.TlsMessages Spec.TlsQueue Spec.TlsSession Spec.TlsQuiet.
From Verif Require Import Proof.Base Proof.GcmP Proof.TlsBufP Proof.TlsHsP Proof.TlsParseP Proof.TlsHelloP Proof.TlsLeafP Proof.TlsInvP.
Ltac Zify.zify_post_hook ::= idtac.
Local Open Scope list_scope.

(** ** Every result satisfies [P], a panic is possible only if [E] and running out of fuel only if [D] *)
Fixpoint lz (E D : Prop) {A} (p : prog A) (P : A -> Prop) : Prop :=
  match p with
  | Ret a => P a
  | Rd _ _ len k => forall r, match r with Some l => zlen l = Z.max 0 len /\ bytes_ok l | None => True end -> lz E D (k r) P
  | Wr _ _ _ k => forall b, lz E D (k b) P
  | Panic => E
  | Diverge => D
  end.
Lemma lz_any E D {A} (p : prog A) P o : any_bus p o -> lz E D p P -> match o with Done a => P a | Panicked => E | Diverged => D end.
Proof.
  induction 1 as [a|addr block len k r o Hr H IH|addr block d k r o H IH| |]; cbn [lz]; intros L; auto; exact (IH (L r Hr)) || exact (IH (L r)).
Qed.
Lemma lz_mono E D {A} (p : prog A) (P P' : A -> Prop) : lz E D p P -> (forall a, P a -> P' a) -> lz E D p P'.
Proof. intros H HP. induction p; cbn [lz] in *; auto. Qed.
Lemma lz_bind E D {A B} (p : prog A) (f : A -> prog B) P : lz E D p (fun a => lz E D (f a) P) -> lz E D (bind p f) P.
Proof. induction p; cbn [lz bind]; auto. Qed.
Lemma lz_then E D {A B} (p : prog A) (f : A -> prog B) P Q : lz E D p Q -> (forall a, Q a -> lz E D (f a) P) -> lz E D (bind p f) P.
Proof. intros H HQ. apply lz_bind. exact (lz_mono E D p _ _ H HQ). Qed.
Lemma lz_and E D {A} (p : prog A) P Q : lz E D p P -> lf p Q -> lz E D p (fun a => P a /\ Q a).
Proof. intros H HQ. induction p; cbn [lz lf] in *; auto. Qed.
Lemma lz_lf {A} (p : prog A) P : lz True True p P <-> lf p P.
Proof. split; intros H; induction p; cbn [lz lf] in *; auto. Qed.
Definition np (E D : Prop) {A} (p : prog A) : Prop := lz E D p (fun _ => True).
Lemma np_seq E D {A B} (p : prog A) (f : A -> prog B) P : np E D p -> (forall a, lz E D (f a) P) -> lz E D (bind p f) P.
Proof. intros H HQ. apply (lz_then E D p f P _ H). auto. Qed.
Lemma np_lf E D {A B} (p : prog A) (f : A -> prog B) P Q : np E D p -> lf p Q -> (forall a, Q a -> lz E D (f a) P) -> lz E D (bind p f) P.
Proof. intros H L HQ. apply (lz_then E D p f P _ (lz_and E D p _ _ H L)). intros a (_ & Ha). auto. Qed.
Lemma np_read E D addr block len : np E D (read addr block len).
Proof. unfold np, read. cbn [lz]. intros [l|] _; exact I. Qed.
Lemma np_write E D addr block d : np E D (write addr block d).
Proof. unfold np, write. cbn [lz]. intros [|]; exact I. Qed.
Lemma np_bindM E D {A B} (p : M A) (f : A -> M B) : np E D p -> (forall a, np E D (f a)) -> np E D (bindM p f).
Proof. intros H HQ. unfold bindM. apply np_seq; [exact H|]. intros [a|e]; [apply HQ|exact I]. Qed.
Ltac np_go := repeat first
  [ exact I
  | match goal with |- np _ _ (read _ _ _) => apply np_read | |- np _ _ (write _ _ _) => apply np_write | |- np _ _ (bindM _ _) => apply np_bindM; [|intros ?]
    | |- np _ _ (if ?b then _ else _) => destruct b | |- np _ _ (let '(_, _) := ?x in _) => destruct x end ].
Lemma np_assert E D (c : M bool) : np E D (debug_assert false c).
Proof. exact I. Qed.

Lemma lz_io E D {A B S} f (p : M A) (s : S) (k : A -> prog (res Z B * S)) (P : _ -> Prop) (Q : A -> Prop) : np E D p -> lf p (on_ok Q) -> (forall e, P (Err e, s)) -> (forall a, Q a -> lz E D (k a) P) -> lz E D (a_io f p s k) P.
Proof. intros N H HE HQ. unfold a_io. apply (np_lf E D _ _ _ _ N H). intros [a|e] Ha; cbn [lz on_ok] in *; auto. Qed.
Lemma lz_io_any E D {A B S} f (p : M A) (s : S) (k : A -> prog (res Z B * S)) (P : _ -> Prop) : np E D p -> (forall e, P (Err e, s)) -> (forall a, lz E D (k a) P) -> lz E D (a_io f p s k) P.
Proof. intros N HE HQ. apply (lz_io E D f p s k P (fun _ => True)); auto. apply lf_true. intros [a|e]; exact I. Qed.
Lemma lz_tres (E D : Prop) {A B S} (t : tres A) (s : S) (k : A -> prog (res Z B * S)) (P : _ -> Prop) : (t = TPanic -> E) -> (t = TDiverge -> D) -> (forall e, t = TErr e -> P (Err e, s)) -> (forall a, t = TOk a -> lz E D (k a) P) -> lz E D (a_tres t s k) P.
Proof. intros HP HD HE HQ. unfold a_tres. destruct t; cbn [lz]; auto. Qed.
Lemma lz_unwrap (E D : Prop) {A B} (o : option A) (k : A -> prog B) (P : B -> Prop) : (o = None -> E) -> (forall a, o = Some a -> lz E D (k a) P) -> lz E D (unwrap o k) P.
Proof. intros HN H. unfold unwrap. destruct o; cbn [lz]; auto. Qed.
Lemma lz_alert E D {A B} (p : AM A) now (k : A -> TlsClient -> TM B) (cx : Crypto) (P : _ -> Prop) (Q : A -> TlsClient -> Prop) (G : TlsClient -> Prop) :
  lz E D p (fun x => match fst x with Ok a => Q a (snd x) | Err _ => G (snd x) end) -> (forall a c, Q a c -> lz E D (k a c) P) ->
  (forall d c, G c -> lz E D (send_fatal_alert cx c d now) P) -> lz E D (or_alert cx p now k) P.
Proof. intros H HQ HG. unfold or_alert. apply (lz_then E D _ _ _ _ H). intros ([a|e], c) Hx; cbn [fst snd] in Hx; auto. Qed.

(** Accesses. *)
Lemma np_ir E D sn : np E D (sn_ir sn). Proof. unfold sn_ir. np_go. Qed.
Lemma np_set_ir E D sn v : np E D (set_sn_ir sn v). Proof. unfold set_sn_ir. np_go. Qed.
Lemma np_rsr E D sn : np E D (sn_rx_rsr sn). Proof. unfold sn_rx_rsr. np_go. Qed.
Lemma np_rd E D sn : np E D (sn_rx_rd sn). Proof. unfold sn_rx_rd. np_go. Qed.
Lemma np_set_rd E D sn v : np E D (set_sn_rx_rd sn v). Proof. unfold set_sn_rx_rd. np_go. Qed.
Lemma np_cr E D sn v : np E D (set_sn_cr sn v). Proof. unfold set_sn_cr. np_go. Qed.
Lemma np_rx_buf E D sn p n : np E D (sn_rx_buf sn p n). Proof. unfold sn_rx_buf. np_go. Qed.
Lemma np_reader (E D : Prop) dbg sn : (dbg = true -> E) -> np E D (tcp_reader dbg sn).
Proof.
  intros H. unfold tcp_reader. apply np_bindM; [|intros _; unfold sn_rx_rsr, sn_rx_rd; np_go]. unfold debug_assert. destruct dbg; [|exact I].
  apply np_bindM; [unfold tcp_state_ok, sn_sr; np_go|]. intros [|]; [exact I|exact (H eq_refl)].
Qed.
Lemma np_reader_done E D r : np E D (tcp_reader_done r). Proof. unfold tcp_reader_done, set_sn_rx_rd, set_sn_cr. np_go. Qed.
Lemma np_read_exact E D r n : np E D (cur_read_exact r n).
Proof. unfold cur_read_exact, sn_rx_buf. np_go. Qed.
Lemma np_disconnect (E D : Prop) dbg sn : (dbg = true -> E) -> np E D (tcp_disconnect dbg sn).
Proof.
  intros H. unfold tcp_disconnect. apply np_bindM; [|intros _; apply np_cr]. unfold debug_assert. destruct dbg; [|exact I].
  apply np_bindM; [unfold tcp_state_ok, sn_sr; np_go|]. intros [|]; [exact I|exact (H eq_refl)].
Qed.
Lemma np_tx_writer E D sn : np E D (tx_writer sn). Proof. unfold tx_writer, sn_tx_ptrs. np_go. Qed.
Lemma np_write_all E D w d : np E D (cur_write_all w d).
Proof. unfold cur_write_all, set_sn_tx_buf. np_go. Qed.
Lemma np_send E D w : np E D (cur_send w).
Proof. unfold cur_send, set_sn_tx_wr, set_sn_cr. np_go. Qed.
Lemma np_poll E (D : Prop) sn st : D -> forall fuel, np E D (poll_status fuel sn st).
Proof.
  intros HD. induction fuel as [|fuel IH]; cbn [poll_status]; [exact HD|]. unfold sn_sr. np_go. exact IH.
Qed.
Lemma np_connect (E D : Prop) dbg fuel sn port dst : (dbg = true -> E) -> D -> np E D (tcp_connect dbg fuel sn port dst).
Proof.
  intros H HD. unfold tcp_connect. apply np_bindM.
  - unfold debug_assert. destruct dbg; [|exact I]. apply np_bindM; [|intros [|]; [exact I|exact (H eq_refl)]].
    unfold port_is_unique. induction (filter _ _) as [|s l IH]; cbn [port_is_unique_loop]; [exact I|]. unfold sn_port, sn_sr. np_go; exact IH.
  - intros _. unfold set_sn_cr, set_sn_mr, set_sn_port, set_sn_dest. np_go; try apply np_poll; auto.
Qed.

(** ** A buffer without application data *)
Definition calm (N : Z) (b : Buffer) : Prop := bwf N b /\ b_head b = 0 /\ b_ad_tail b = 0 /\ b_hs_head b <= b_tail b.
Lemma calm_bwf N b : calm N b -> bwf N b. Proof. intros H. apply H. Qed.
Lemma calm_reset N b : bwf N b -> calm N (b_reset b).
Proof. intros H. split; [now apply bwf_reset|]. cbn. lia. Qed.
Lemma calm_extend N dbg b src : calm N b -> bytes_ok src ->
  b_extend_from_slice dbg b src = TErr InternalError \/
  exists b', b_extend_from_slice dbg b src = TOk b' /\ calm N b' /\ b_hs_head b' = b_hs_head b /\ b_tail b' = b_tail b + zlen src.
Proof.
  intros (W & H0 & A0 & Hs) Bs. pose proof W as (E & Hb & Hh & Ha & Hhs & Ht). pose proof (zlen_nonneg src) as Ls.
  assert (forall b', b_extend_from_slice dbg b src = TOk b' -> bwf N b' /\ b_head b' = b_head b /\ b_ad_tail b' = b_ad_tail b /\ b_hs_head b' = b_hs_head b) as X.
  { intros b' Eb. destruct (bwf_extend N dbg b src b' W Bs Eb) as (X1 & X2 & X3 & X4 & _). auto. }
  revert X. unfold b_extend_from_slice, b_remain, b_len, b_capacity, b_N, usub. rewrite E, H0.
  destruct (Z.ltb_spec (b_tail b) 0) as [|_]; [lia|]. destruct (Z.ltb_spec (N - 1) (b_tail b - 0)) as [|_]; [lia|]. cbn [tbind].
  destruct (Z.ltb_spec (N - 1 - (b_tail b - 0)) (zlen src)) as [|Room]; [now left|]. intros X. right.
  assert (exists al bl, (if b_tail b =? 0 then (b_tail b, N - b_tail b, b_tail b) else if 0 <? b_tail b then (b_tail b, N - b_tail b, 0) else (b_tail b, 0 - b_tail b, 0)) = (b_tail b, al, bl) /\ al = N - b_tail b /\ 0 <= bl) as (al & bl & Ec & -> & Hbl).
  { destruct (Z.eqb_spec (b_tail b) 0) as [|]; [do 2 eexists; split; [reflexivity|]; lia|]. destruct (Z.ltb_spec 0 (b_tail b)); [|lia]. do 2 eexists. split; [reflexivity|]. lia. }
  rewrite Ec in *. rewrite (Z.min_l (zlen src)) in * by lia. rewrite (zdrop_all (zlen src) src) in * by lia. change (zlen (@nil Z)) with 0 in *.
  destruct (Z.ltb_spec bl 0) as [|_]; [lia|]. rewrite (Z.mod_small (b_tail b + zlen src) N) in * by lia.
  destruct (dbg && _ && _) eqn:Ed.
  - exfalso. apply andb_true_iff in Ed. destruct Ed as (Ed & Ez). apply andb_true_iff in Ed. destruct Ed as (_ & En). apply Z.eqb_eq in Ez. apply negb_true_iff, Z.eqb_neq in En. lia.
  - eexists. split; [reflexivity|]. destruct (X _ eq_refl) as (X1 & X2 & X3 & X4). unfold calm. cbn [b_head b_ad_tail b_hs_head b_tail] in *. split; [|split; [reflexivity|lia]]. split; [exact X1|lia].
Qed.
Lemma calm_pop N b : calm N b -> b_hs_head b < b_tail b -> exists x b', b_pop_tail b = Some (x, b') /\ calm N b' /\ is_u8 x /\ b_hs_head b' = b_hs_head b /\ b_tail b' = b_tail b - 1.
Proof.
  intros (W & H0 & A0 & Hs) Lt. pose proof W as (E & Hb & Hh & Ha & Hhs & Ht).
  assert (exists x b', b_pop_tail b = Some (x, b') /\ b_tail b' = b_tail b - 1) as (x & b' & Ep & Et).
  { unfold b_pop_tail, b_is_empty. rewrite H0. destruct (Z.eqb_spec 0 (b_tail b)) as [|]; [lia|]. destruct (Z.eqb_spec (b_tail b) 0); [lia|]. do 2 eexists. split; reflexivity. }
  exists x, b'. split; [exact Ep|]. destruct (bwf_pop N b x b' W Ep) as (X1 & X2 & X3 & X4 & X5). split; [|auto]. split; [exact X1|]. rewrite X3, X4, X5, Et. lia.
Qed.
Lemma calm_record N b hash : calm N b -> N <= 16384 ->
  b_pop_handshake_record b hash = TOk None \/ b_pop_handshake_record b hash = TErr InternalError \/
  exists h r hash' b', b_pop_handshake_record b hash = TOk (Some (h, r, hash', b')) /\ calm N b' /\ b_tail b' - b_hs_head b' < b_tail b - b_hs_head b.
Proof.
  intros (W & H0 & A0 & Hs) HN. pose proof W as (E & Hb & Hh & Ha & Hhs & Ht).
  assert (forall h r hash' b', b_pop_handshake_record b hash = TOk (Some (h, r, hash', b')) -> bwf N b' /\ b_head b' = b_head b /\ b_ad_tail b' = b_ad_tail b) as X.
  { intros h r hash' b' Ep. destruct (bwf_record N _ _ _ _ _ _ W HN Ep) as (ty & x & y & _ & _ & _ & _ & _ & _ & X1 & X2 & X3). auto. }
  revert X. unfold b_pop_handshake_record, b_read_head. destruct (b_len b <? HH_LEN); [now left|]. set (hd := map _ _).
  assert (0 <= hh_length hd) as Hl.
  { assert (exists h0 h1 h2 h3, hd = [h0; h1; h2; h3] /\ is_u8 h1 /\ is_u8 h2 /\ is_u8 h3) as (h0 & h1 & h2 & h3 & -> & U1 & U2 & U3) by (do 4 eexists; split; [reflexivity|]; repeat split; now apply bytes_nth).
    unfold hh_length, of_be32, is_u8 in *. cbn [at_ nth]. lia. }
  clearbody hd. unfold hh_length_with_header, HH_LEN. destruct (Z.ltb_spec (b_capacity b) (hh_length hd + 4)) as [|Hc]; [auto|].
  unfold b_hs_len. destruct (Z.ltb_spec (b_tail b) (b_hs_head b)) as [|_]; [lia|]. destruct (Z.ltb_spec (b_tail b - b_hs_head b) (hh_length hd + 4)) as [|Hf]; [now left|].
  unfold b_N. rewrite E, (Z.mod_small (b_hs_head b + 4) N) by lia. unfold b_pop_handshake_slices_of_n, b_len. cbn [b_buf b_head b_ad_tail b_hs_head b_tail]. rewrite H0.
  destruct (Z.ltb_spec (b_tail b) 0) as [|_]; [lia|]. destruct (Z.ltb_spec (b_tail b - 0) (hh_length hd)) as [|_]; [lia|].
  unfold b_N. cbn [b_buf]. rewrite E. destruct (as_slices (b_buf b) (b_tail b) (b_hs_head b + 4) N) as (sa, sb) eqn:Es.
  assert (hh_length hd <= zlen sa) as Lsa.
  { unfold as_slices in Es. pose proof (zlen_zdrop (b_hs_head b + 4) (b_buf b)). destruct (Z.leb_spec (b_tail b) (b_hs_head b + 4)) as [Le|Gt]; injection Es as <- _; rewrite zlen_ztake; lia. }
  destruct (Z.leb_spec (hh_length hd) (zlen sa)) as [_|]; [|lia]. cbn [tbind].
  rewrite (Z.mod_small (b_hs_head b + 4 + hh_length hd)) by lia. intros X. right. right. do 4 eexists. split; [reflexivity|].
  destruct (X _ _ _ _ eq_refl) as (X1 & X2 & X3). clear X. unfold calm. revert X1 X2 X3. destruct (Z.eqb_spec (b_hs_head b + 4 + hh_length hd) (b_tail b)) as [Ee|Ne]; cbn [b_buf b_head b_ad_tail b_hs_head b_tail]; intros X1 X2 X3; (split; [split; [exact X1|]|]); lia.
Qed.

(** ** Sending a record *)
Definition cnt (g : Aes128Gcm) (k : Z) : Prop := exists nonce, length nonce = 12%nat /\ g_counter g = ctr nonce k.
Lemma cnt_new key nonce aad : length nonce = 12%nat -> cnt (gcm_new key nonce aad) 1.
Proof. intros H. exists nonce. split; [exact H|]. reflexivity. Qed.
Lemma cnt_inner g k b : cnt g k -> 0 <= k < 65535 -> exists g' x, crypt_block_inner g b = Some (g', x) /\ cnt g' (k + 1).
Proof.
  intros (nonce & L & H) Hk. unfold crypt_block_inner. rewrite (increment_ok g nonce k) by assumption. do 2 eexists. split; [reflexivity|]. exists nonce. split; [exact L|reflexivity].
Qed.
Lemma cnt_block g k b : cnt g k -> 0 <= k < 65535 -> exists g' x, encrypt_block_inplace g b = Some (g', x) /\ cnt g' (k + 1).
Proof. intros H Hk. destruct (cnt_inner g k b H Hk) as (g' & x & E & C). unfold encrypt_block_inplace. rewrite E. do 2 eexists. split; [reflexivity|exact C]. Qed.
Lemma cnt_remainder g k b n : cnt g k -> 0 <= k < 65535 -> n <= 16 -> exists g' x, encrypt_remainder_inplace g b n = Some (g', x).
Proof.
  intros H Hk Hn. destruct (cnt_inner g k b H Hk) as (g' & x & E & C). unfold encrypt_remainder_inplace. destruct (Z.ltb_spec 16 n); [lia|]. rewrite E. do 2 eexists. reflexivity.
Qed.
Lemma np_chunks E D : forall n g k w data, cnt g k -> 0 <= k -> k + Z.of_nat n < 65535 ->
  lz E D (send_chunks n g w data) (on_ok (fun p => cnt (fst p) (k + Z.of_nat n))).
Proof.
  induction n as [|n IH]; intros g k w data C K0 K1; cbn [send_chunks].
  - cbn [lz ret on_ok fst]. now rewrite Z.add_0_r.
  - destruct (cnt_block g k (firstn 16 data) C ltac:(lia)) as (g' & x & -> & C'). cbn [unwrap]. unfold bindM. apply np_seq; [apply np_write_all|].
    intros [w'|e]; [|exact I]. apply (lz_mono E D _ _ _ (IH g' (k + 1) w' _ C' ltac:(lia) ltac:(lia))). intros [p|e] Hp; cbn [on_ok] in *; [|exact I]. replace (k + Z.of_nat (S n)) with (k + 1 + Z.of_nat n) by lia. exact Hp.
Qed.
Lemma np_record E D cx sn ks ct data : crypto_ok cx -> ks_client_traffic ks <> None -> zlen data <= 65518 -> np E D (send_encrypted_record cx sn ks ct data).
Proof.
  intros CX Hk Hl. unfold send_encrypted_record. change GCM_TAG_LEN with 16. destruct (Z.ltb_spec 65535 (zlen data + 16 + 1)) as [|_]; [lia|].
  apply np_bindM; [apply np_tx_writer|]. intros w. apply np_bindM; [apply np_write_all|]. intros w1.
  unfold client_key_and_nonce. destruct (ks_client_traffic ks) as [t|] eqn:Et; [|congruence].
  destruct (key_and_nonce cx (Some t) (ks_write_seq ks)) as [(key, nc)|] eqn:Ek; [|discriminate]. destruct (key_nonce cx CX _ _ _ _ Ek) as (_ & _ & Ln & _). cbn [unwrap].
  assert (16 * (length data / 16) <= length data)%nat as Hn by (apply Nat.mul_div_le; lia). unfold zlen in Hl.
  unfold np, bindM. set (n := (length data / 16)%nat) in *.
  apply (lz_then E D _ _ _ _ (np_chunks E D n (gcm_new key nc _) 1 w1 data (cnt_new _ _ _ Ln) ltac:(lia) ltac:(lia))). intros [(g, w2)|e] Hc; [|exact I]. cbn [on_ok fst] in Hc.
  set (rem := skipn (16 * n) data). assert (zlen rem < 16) as Lr.
  { unfold rem, zlen. rewrite skipn_length. pose proof (Nat.div_mod (length data) 16 ltac:(lia)). pose proof (Nat.mod_upper_bound (length data) 16 ltac:(lia)). fold n in H. lia. }
  destruct (cnt_remainder g (1 + Z.of_nat n) (padded (rem ++ [ct])) (zlen rem + 1) Hc ltac:(lia) ltac:(lia)) as (g' & x & ->). cbn [unwrap].
  change (np E D (w3 <- cur_write_all w2 (ztake (zlen rem + 1) x) ;; w4 <- cur_write_all w3 (gcm_finish g') ;; cur_send w4)).
  apply np_bindM; [apply np_write_all|]. intros w3. apply np_bindM; [apply np_write_all|]. intros w4. apply np_send.
Qed.

Section Safe.
Variables (cx : Crypto) (dbg : bool) (fuel : nat) (cf : tconfig) (R : Rng -> Prop) (E D : Prop).
Hypothesis (CX : crypto_ok cx) (CF : tconfig_ok cf) (DE : dbg = true -> E) (ED : E -> D).
Notation N := (zlen (cf_buf cf)).
Notation good := (good cf).
Notation inv := (inv cx cf R).

Lemma lz_free {A} (p : prog A) P : E -> lf p P -> lz E D p P.
Proof. intros HE H. induction p; cbn [lz lf] in *; auto. Qed.
Lemma lz_cases {A} (p : prog A) (H : Prop) Q : E \/ H -> (H -> lz E D p Q) -> lz E D p (fun x => H -> Q x).
Proof.
  intros [HE|HH] L.
  - apply (lz_free _ _ HE). clear HE. induction p as [a|? ? ? k IH|? ? ? k IH| |]; cbn [lz lf] in *; auto.
  - apply (lz_mono E D p _ _ (L HH)). auto.
Qed.

(** States of the handshake; the buffer is calm in them, and, if [Qt], when connected. *)
Variable Qt : Prop.
Definition hs (s : TState) : Prop := s = TWaitServerHello \/ s = TWaitEncryptedExtensions \/ s = TWaitFinished \/ s = TSendFinished \/ (Qt /\ s = TConnected).
Definition pair (ks : KeySchedule) : Prop := ks_server_traffic ks <> None -> ks_client_traffic ks <> None.
Definition rq (ks : KeySchedule) : Prop := E \/ ks_read_seq ks <> U64_MAX.
Definition armed (s : TState) (ks : KeySchedule) : Prop := s = TConnected -> ks_client_traffic ks <> None.
Definition K (c : TlsClient) : Prop := (hs (tc_state c) -> calm N (tc_rx c)) /\ pair (tc_ks c) /\ armed (tc_state c) (tc_ks c).
Lemma pair_default : pair (ks_default cx).
Proof. intros H. exact H. Qed.
Lemma rq_default : rq (ks_default cx).
Proof. right. discriminate. Qed.
Lemma K_not c : ~ (hs (tc_state c) \/ tc_state c = TConnected) -> pair (tc_ks c) -> K c.
Proof. intros H1 H2. split; [intros; tauto|]. split; [exact H2|]. intros E1. tauto. Qed.
Ltac not_hs := let H := fresh in unfold hs; cbn; intros [[H|[H|[H|[H|(_ & H)]]]]|H]; discriminate H.

(** What a call leaves. *)
Definition recvd (x : res TError (option TEvent) * TlsClient) : Prop := (fst x = Ok (Some TApplicationData) /\ pair (tc_ks (snd x)) /\ armed (tc_state (snd x)) (tc_ks (snd x))) \/ K (snd x).
Definition fin (x : res TError TEvent * TlsClient) : Prop := (fst x = Ok TApplicationData /\ pair (tc_ks (snd x)) /\ armed (tc_state (snd x)) (tc_ks (snd x))) \/ (K (snd x) /\ (fst x = Ok THandshakeFinished -> calm N (tc_rx (snd x)))).
Lemma fin_k r c : K c -> r <> Ok THandshakeFinished -> fin (r, c).
Proof. intros Hk Hr. right. split; [exact Hk|]. intros Er. contradiction. Qed.

(** *** Alerts *)
Lemma alert_safe {A} c d now (P : res TError A * TlsClient -> Prop) : pair (tc_ks c) -> (forall x, alerted cx cf R now d x -> K (snd x) -> rq (tc_ks (snd x)) -> P x) -> good c -> lz E D (@send_fatal_alert cx A c d now) P.
Proof.
  intros Hp HP G. assert (np E D (@send_fatal_alert cx A c d now)) as H.
  { unfold np, send_fatal_alert, send_alert. apply np_seq; [|intros c'; exact I]. apply np_seq; [|intros [u|e]; exact I]. unfold try_send_alert, server_traffic_secret_exists.
    destruct (ks_server_traffic (tc_ks c)) as [t|] eqn:Et.
    - apply np_record; [exact CX|apply Hp; congruence|cbn; lia].
    - apply np_bindM; [apply np_tx_writer|]. intros w. apply np_bindM; [apply np_write_all|]. intros w'. apply np_send. }
  pose proof (fatal_alert cx cf R (A:=A) c d now G) as F.
  assert (lf (@send_fatal_alert cx A c d now) (fun x => pair (tc_ks (snd x)) /\ rq (tc_ks (snd x)))) as F2.
  { unfold send_fatal_alert, send_alert. apply lf_bind, lf_seq. intros [u|e]; cbn [lf bind snd]; exact (conj pair_default rq_default). }
  apply (lz_mono E D _ _ _ (lz_and E D _ _ _ (lz_and E D _ _ _ H F) F2)). intros x ((_ & X) & Y & Y'). apply HP; [exact X| |exact Y']. apply K_not; [|exact Y].
  destruct X as (_ & _ & [S|S] & _); rewrite S; not_hs.
Qed.

(** *** The body of a record *)
Lemma decrypt_safe sn key nonce header (Kl : length key = 16%nat) (Kb : bytes_ok key) (Nl : length nonce = 12%nat) (Nb : bytes_ok nonce) (Hl : length header = 5%nat) :
  forall fuel g cs k n rd remain b, gcm_at key nonce header g cs k n -> 0 <= k -> k + remain < 65535 -> 0 < remain <= Z.of_nat fuel -> calm N b ->
  lz E D (decrypt_loop fuel dbg sn g rd remain b) (fun p => calm N (snd p) /\ b_hs_head (snd p) = b_hs_head b).
Proof.
  induction fuel0 as [|fl IH]; intros g cs k n rd remain b G K0 K1 Hr W; cbn [decrypt_loop]; [lia|].
  apply (lz_io E D _ _ _ _ _ _ (np_rx_buf E D sn rd (Z.min 16 remain)) (lf_rx_buf sn rd (Z.min 16 remain))); [intros; cbn [snd]; auto|]. intros blk (Bl & Bb).
  assert (1 <= length blk <= 16)%nat as Lb by (unfold zlen in Bl; lia).
  destruct (decrypt_at key nonce header Kl Kb Nl Nb Hl g cs k n blk G ltac:(lia) Bb Lb) as (g1 & -> & G1). cbn [unwrap]. set (pl := xor_str _ _).
  assert (bytes_ok pl) as Pb. { apply xor_bytes; [exact Bb|]. exact (proj2 (proj2 (E_ctr key nonce Kl Kb Nl Nb (k + 1)))). }
  assert (zlen pl = zlen blk) as Lp. { unfold zlen, pl. f_equal. apply xor_length. pose proof (proj1 (proj2 (E_ctr key nonce Kl Kb Nl Nb (k + 1)))). lia. }
  destruct (calm_extend N dbg b pl W Pb) as [->|(b1 & -> & W1 & X1 & X2)]; cbn [a_tres lz snd]; [auto|].
  destruct (Z.eqb_spec (remain - Z.min 16 remain) 0) as [Ez|Nz].
  - destruct (calm_pop N b1 W1) as (x & b2 & -> & W2 & _ & X3 & _); [destruct W as (_ & _ & _ & Hs); lia|]. cbn [unwrap lz snd]. split; [exact W2|congruence].
  - apply (lz_mono E D _ _ _ (IH g1 _ (k + 1) _ (wadd rd (Z.min 16 remain)) (remain - Z.min 16 remain) b1 G1 ltac:(lia) ltac:(lia) ltac:(lia) W1)). intros p (Q1 & Q2). split; [exact Q1|congruence].
Qed.
Definition kept (c : TlsClient) {A} (x : res Z A * TlsClient) : Prop := calm N (tc_rx (snd x)) /\ b_hs_head (tc_rx (snd x)) = b_hs_head (tc_rx c).
Lemma loop_safe c0 : forall n reader remain c, kept c0 (@Ok Z unit tt, c) -> 0 <= remain <= Z.of_nat n -> lz E D (recv_body_loop dbg n reader remain c) (kept c0).
Proof.
  induction n as [|n IH]; intros reader remain c H Hr; cbn [recv_body_loop]; destruct (Z.eqb_spec (Z.min remain 64) 0) as [|Nz]; cbn [lz]; try exact H; [lia|].
  apply (lz_io E D _ _ _ _ _ _ (np_read_exact E D reader (Z.min remain 64)) (lf_read_exact reader (Z.min remain 64))); [intros; exact H|]. intros (d, r') (L & B). cbn [fst] in L, B.
  destruct H as (H1 & H2). cbn [snd] in *. destruct (calm_extend N dbg (tc_rx c) d H1 B) as [->|(b1 & -> & W1 & X1 & X2)]; cbn [a_tres lz]; [split; assumption|].
  apply IH; [|lia]. split; cbn [snd tc_rx tc_set_rx]; [exact W1|congruence].
Qed.
Lemma body_safe c h : zlen h = 5 -> bytes_ok h -> calm N (tc_rx c) -> lz E D (recv_body cx dbg c h) (kept c).
Proof.
  intros Lh Bh W. assert (0 <= rh_length h < 65536) as Hlen.
  { unfold rh_length, of_be16. pose proof (bytes_nth 3 h Bh). pose proof (bytes_nth 4 h Bh). unfold is_u8, at_ in *. lia. }
  unfold recv_body. destruct (Z.eqb_spec (rh_content_type h) ApplicationData) as [Ea|Na].
  - unfold server_key_and_nonce. destruct (key_and_nonce _ _ _) as [(key, nc)|] eqn:Ek; [|split; [exact W|reflexivity]]. destruct (key_nonce cx CX _ _ _ _ Ek) as (K1 & K2 & K3 & K4).
    apply (lz_then E D _ _ _ (fun x => calm N (snd x) /\ b_hs_head (snd x) = b_hs_head (tc_rx c))).
    + unfold decrypt_record_inplace. apply lz_io_any; [apply np_rsr|intros; auto|]. intros rsr. destruct (_ <? _); [cbn; auto|].
      apply lz_io_any; [apply np_rd|intros; auto|]. intros rd. set (remain := Z.max 0 _). destruct (Z.eqb_spec remain 0) as [|Nz]; [cbn; auto|].
      assert (0 < remain < 65534) as Hr by (unfold remain, GCM_TAG_LEN in *; lia).
      apply (lz_then E D _ _ _ _ (decrypt_safe (tc_sn c) key nc h K1 K2 K3 K4 ltac:(unfold zlen in Lh; lia) (Z.to_nat remain) _ _ 1 0 rd remain (tc_rx c) (gcm_new_at key nc h) ltac:(lia) ltac:(lia) ltac:(lia) W)).
      intros ([((ct, rd'), g)|e], b) W1; cbn [snd] in W1; [|exact W1].
      apply lz_io_any; [apply np_rx_buf|intros; exact W1|]. intros tag. apply lz_io_any; [apply np_set_rd|intros; exact W1|]. intros _. apply lz_io_any; [apply np_set_rd|intros; exact W1|]. intros _.
      apply lz_io_any; [apply np_cr|intros; exact W1|]. intros _. destruct (list_eq_dec _ _ _); exact W1.
    + intros ([[ct|]|e], rx) W1; cbn [lz snd fst] in *; exact W1.
  - apply (lz_then E D _ _ _ (kept c)); [|intros ([u|e], c') H; exact H]. unfold recv_unencrypted_body. assert (kept c (@Ok Z unit tt, c)) as S by (split; [exact W|reflexivity]).
    apply lz_io_any; [apply np_reader; exact DE|intros; exact S|]. intros reader.
    apply (lz_then E D _ _ _ _ (loop_safe c (Z.to_nat (rh_length h)) reader (rh_length h) c S ltac:(lia))). intros ([r2|e], c2) H2; [|exact H2].
    apply lz_io_any; [apply np_reader_done|intros; exact H2|]. intros _. exact H2.
Qed.

(** *** Handshake messages *)
Lemma message_safe c header x y now hash : inv c -> hh_length header = zlen (x ++ y) -> zlen (x ++ y) < 16384 -> bytes_ok (x ++ y) ->
  exists r c', recv_message cx c header (cr_new x y) hash now = TOk (r, c') /\ tc_rx c' = tc_rx c /\ (pair (tc_ks c) -> pair (tc_ks c')) /\ (rq (tc_ks c) -> rq (tc_ks c')) /\ (hs (tc_state c') -> hs (tc_state c)) /\ (armed (tc_state c) (tc_ks c) -> armed (tc_state c') (tc_ks c')).
Proof.
  intros (G & S & T) HL HZ HB.
  assert (forall r, exists r' c', TOk (r, c) = @TOk (res Z unit * TlsClient) (r', c') /\ tc_rx c' = tc_rx c /\ (pair (tc_ks c) -> pair (tc_ks c')) /\ (rq (tc_ks c) -> rq (tc_ks c')) /\ (hs (tc_state c') -> hs (tc_state c)) /\ (armed (tc_state c) (tc_ks c) -> armed (tc_state c') (tc_ks c'))) as Same by (intros r; exists r, c; auto 10).
  assert (forall n, 0 <= n <= zlen (x ++ y) -> exists d r', cr_next_n (cr_new x y) n = TOk (d, r')) as Next.
  { intros n Hn. assert (TlsBufP.reads (cr_new x y) (x ++ y) 0) as Rd by (split; [reflexivity|]; split; [reflexivity|]; pose proof (zlen_nonneg (x ++ y)); split; lia).
    pose proof (reads_exact (cr_new x y) (x ++ y) 0 n Rd ltac:(lia)) as Re. destruct (Z.leb_spec n (zlen (x ++ y) - 0)) as [|]; [|lia]. destruct Re as (r' & Er & _). unfold cr_next_n. rewrite Er. eauto. }
  unfold recv_message, hh_msg_type, handshake_type_try_from. destruct (existsb _ _) eqn:Ex; [|apply Same]. clear Ex. set (ty := at_ header 0) in *.
  destruct (Z.eqb_spec ty ServerHello) as [->|_].
  { destruct (tstate_eqb (tc_state c) TWaitServerHello) eqn:Es; cbn [negb]; [|apply Same]. apply tstate_eqb_ok in Es. rewrite Es in S. destruct S as (pre & dhs & S1 & S2 & S3).
    destruct (server_hello_sound cx x y HB HZ) as [(share & key & Sh & Sk & Ee)|(al & Ee)]; rewrite Ee; cbn [h_try]; [|apply Same].
    unfold initialize_handshake_secret, shared_secret. cbn [ks_client_secret ks_server_public ks_set_transcript set_server_public_key]. rewrite S2. cbn [h_try].
    do 2 eexists. split; [reflexivity|]. split; [reflexivity|]. split; [intros _; cbn; intros _; discriminate|]. split; [intros _; right; discriminate|]. split; [intros _; rewrite Es; now left|intros _ X; discriminate X]. }
  destruct (Z.eqb_spec ty NewSessionTicket) as [E4|_]; [destruct (tstate_eqb (tc_state c) TConnected); cbn [negb]; apply Same|].
  destruct (Z.eqb_spec ty EncryptedExtensions) as [->|_].
  { destruct (tstate_eqb (tc_state c) TWaitEncryptedExtensions) eqn:Es; cbn [negb]; [|apply Same]. apply tstate_eqb_ok in Es.
    destruct (extensions_sound x y HB HZ) as [(Ee & Er)|(al & Er)]; rewrite Er; cbn [h_try]; [|apply Same].
    do 2 eexists. split; [reflexivity|]. split; [reflexivity|]. split; [auto|]. split; [auto|]. split; [intros _; rewrite Es; right; now left|intros _ X; discriminate X]. }
  destruct (Z.eqb_spec ty Finished) as [->|_].
  { destruct (tstate_eqb (tc_state c) TWaitFinished) eqn:Es; cbn [negb]; [|apply Same]. apply tstate_eqb_ok in Es. rewrite Es in S. destruct S as (pre & dhe & t1 & S1 & (S2 & S3) & S4).
    destruct (Z.eqb_spec (hh_length header) 32) as [E32|]; cbn [negb]; [|apply Same]. destruct (Next 32 ltac:(lia)) as (d & r' & ->). cbn [h_try].
    unfold verify_server_finished. rewrite S3. destruct (list_eq_dec _ _ _) as [Ev|]; cbn [h_try]; [|apply Same].
    do 2 eexists. split; [reflexivity|]. split; [reflexivity|]. split; [auto|]. split; [auto|]. split; [intros _; rewrite Es; right; right; now left|intros _ X; discriminate X]. }
  destruct (Z.eqb_spec ty KeyUpdate) as [E24|_]; [|apply Same].
  destruct (tstate_eqb (tc_state c) TConnected) eqn:Es; cbn [negb]; [|apply Same].
  destruct (Z.eqb_spec (hh_length header) 1) as [E1|]; cbn [negb]; [|apply Same].
  unfold cr_next_u8. destruct (Next 1 ltac:(lia)) as (d & r' & ->). cbn [tbind h_try]. destruct (key_update_request_try_from _) as [q|]; [|apply Same]. destruct (q =? 0); [apply Same|].
  do 2 eexists. split; [reflexivity|]. split; [reflexivity|]. split; [intros _; cbn; intros _; discriminate|]. split; [intros _; right; discriminate|]. split; [auto|]. intros _ _. discriminate.
Qed.
Definition hs_done (x : tres (res Z unit * TlsClient)) : Prop :=
  match x with
  | TOk (Ok _, c') => K c' /\ rq (tc_ks c')
  | TOk (Err _, c') => pair (tc_ks c')
  | TErr _ => False
  | TPanic => E
  | TDiverge => D
  end.
Lemma handshake_safe now : forall n c, inv c -> K c -> rq (tc_ks c) -> E \/ (calm N (tc_rx c) /\ b_tail (tc_rx c) - b_hs_head (tc_rx c) <= Z.of_nat n) -> hs_done (recv_handshake cx n c now).
Proof.
  pose proof (N_ok cf CF) as HN.
  induction n as [|n IH]; intros c H Hk Hq Sf; cbn [recv_handshake]; pose proof H as ((G1 & G2 & G3 & W) & S & T).
  - destruct Sf as [HE|(C & M)].
    + destruct (b_pop_handshake_record _ _) as [[(((h, r), hash), rx)|]|e| |]; cbn [hs_done]; auto. exact (proj1 (proj2 Hk)).
    + destruct (calm_record N (tc_rx c) (ks_transcript (tc_ks c)) C ltac:(lia)) as [->|[->|(h & r & hash & b' & -> & (_ & _ & _ & Hb) & Lt)]]; cbn [hs_done]; [exact (conj Hk Hq)|exact (proj1 (proj2 Hk))|]. lia.
  - assert (forall h r hash rx, b_pop_handshake_record (tc_rx c) (ks_transcript (tc_ks c)) = TOk (Some (h, r, hash, rx)) ->
      (calm N (tc_rx c) -> calm N rx) -> E \/ (calm N rx /\ b_tail rx - b_hs_head rx <= Z.of_nat n) ->
      hs_done (match recv_message cx (tc_set_rx c rx) h r hash now with TOk (Ok _, c) => recv_handshake cx n (tc_set_ks c (ks_set_transcript (tc_ks c) hash)) now | r => r end)) as Step.
    { intros h r hash rx Ep Hc Sf'. destruct (bwf_record N _ _ _ _ _ _ W ltac:(lia) Ep) as (ty & x & y & E1 & E2 & E3 & E4 & E5 & E6 & W' & _). subst ty r hash.
      assert (inv (tc_set_rx c rx)) as H1 by (split; [unfold TlsInvP.good; cbn; auto|exact (conj S T)]).
      pose proof (message cx cf R CX (tc_set_rx c rx) h x y now H1 E2 E5 E6) as M. cbv zeta in M. change (ks_transcript (tc_ks (tc_set_rx c rx))) with (ks_transcript (tc_ks c)) in M.
      destruct (message_safe (tc_set_rx c rx) h x y now (ks_transcript (tc_ks c) ++ hs_message (at_ h 0) (x ++ y)) H1 E2 E5 E6) as (r & c' & Er & X1 & X2 & X4 & X3 & X5). rewrite Er in M |- *.
      cbn [tc_rx tc_set_rx tc_ks tc_state] in X1, X2, X3, X4, X5. destruct r as [u|e]; cbn [hs_done]; [|apply X2, Hk].
      destruct M as (M1 & M2). apply IH; [exact M1| |exact (X4 Hq)|].
      - split; [|split; [exact (X2 (proj1 (proj2 Hk)))|exact (X5 (proj2 (proj2 Hk)))]]. cbn [tc_state tc_set_ks tc_rx]. intros Hh. rewrite X1. apply Hc, Hk, X3, Hh.
      - cbn [tc_rx tc_set_ks]. rewrite X1. exact Sf'. }
    destruct Sf as [HE|(C & M)].
    + destruct (b_pop_handshake_record (tc_rx c) (ks_transcript (tc_ks c))) as [[(((h, r), hash), rx)|]|e| |] eqn:Ep; cbn [hs_done]; auto; [|exact (proj1 (proj2 Hk))].
      apply (Step h r hash rx eq_refl); [|now left]. intros C. destruct (calm_record N (tc_rx c) (ks_transcript (tc_ks c)) C ltac:(lia)) as [X|[X|(h' & r' & hash' & b' & X & Cb & _)]]; rewrite Ep in X; try discriminate. injection X as _ _ _ <-. exact Cb.
    + destruct (calm_record N (tc_rx c) (ks_transcript (tc_ks c)) C ltac:(lia)) as [X|[X|(h & r & hash & b' & X & Cb & Lt)]]; rewrite X; cbn [hs_done]; [exact (conj Hk Hq)|exact (proj1 (proj2 Hk))|].
      apply (Step h r hash b' X); [auto|]. right. split; [exact Cb|lia].
Qed.

(** *** Records *)
Lemma header_safe c : np E D (recv_header dbg c).
Proof.
  unfold np, recv_header. apply lz_io_any; [apply np_reader; exact DE|auto|]. intros r. apply lz_io_any; [apply np_read_exact|auto|]. intros (d, r').
  unfold a_tres, rh_deser. destruct (content_type_try_from _); [|exact I]. destruct (_ <? _); [exact I|]. destruct (_ <? _); [exact I|]. apply lz_io_any; [apply np_reader_done|auto|]. intros _. exact I.
Qed.
Lemma content_safe c h ct now : inv c -> K c -> rq (tc_ks c) -> (ct <> CtHandshake -> hs (tc_state c) -> b_hs_head (tc_rx c) = 0) -> E \/ calm N (tc_rx c) ->
  lz E D (recv_content cx c h ct now) (fun x => K (snd x) /\ rq (tc_ks (snd x))).
Proof.
  intros H Hk Hq Z0 Sf. pose proof H as (G & _). pose proof G as (_ & _ & _ & W). unfold recv_content. destruct (Z.eqb_spec ct ChangeCipherSpec) as [->|Nc].
  - apply (lz_alert E D _ _ _ _ _ (fun _ c' => K c' /\ rq (tc_ks c')) (fun c' => good c' /\ pair (tc_ks c'))).
    + unfold recv_change_cipher_spec. destruct (negb _); [exact (conj G (proj1 (proj2 Hk)))|]. destruct (b_pop_tail (tc_rx c)) as [(v, rx)|] eqn:Ep; [|exact (conj G (proj1 (proj2 Hk)))].
      destruct (bwf_pop N _ _ _ W Ep) as (W1 & _). destruct (negb _); cbn [lz fst snd]; [split; [now apply good_rx|exact (proj1 (proj2 Hk))]|]. split; [|exact Hq]. split; [|exact (proj2 Hk)]. cbn [tc_state tc_set_rx tc_rx]. intros Hh.
      specialize (Z0 ltac:(discriminate) Hh). pose proof (proj1 Hk Hh) as C. pose proof C as (_ & C0 & _ & Cs).
      assert (b_hs_head (tc_rx c) < b_tail (tc_rx c)) as Lt.
      { unfold b_pop_tail, b_is_empty in Ep. rewrite C0 in Ep. destruct (Z.eqb_spec 0 (b_tail (tc_rx c))); [discriminate|]. lia. }
      destruct (calm_pop N _ C Lt) as (v' & b' & Ep' & C' & _). rewrite Ep in Ep'. injection Ep' as <- <-. exact C'.
    + intros _ c' H1. exact H1.
    + intros d c' (Hg & Hp). apply alert_safe; auto.
  - destruct (Z.eqb_spec ct CtHandshake) as [->|Nh].
    + assert (hs_done (recv_handshake cx (Z.to_nat (b_N (tc_rx c))) c now)) as Q.
      { apply handshake_safe; auto. destruct Sf as [HE|C]; [now left|]. right. split; [exact C|]. destruct C as ((C1 & _ & _ & _ & C4 & C5) & _). unfold b_N. lia. }
      pose proof (handshake cx cf R CX CF now (Z.to_nat (b_N (tc_rx c))) c H) as Q2.
      destruct (recv_handshake _ _ _ _) as [([u|e], c')|e| |]; cbn [hs_done on_handshake lz snd] in *; auto; try contradiction. apply alert_safe; auto.
    + destruct (tstate_eqb (tc_state c) TConnected) eqn:Es; [exact (conj Hk Hq)|]. apply alert_safe; auto. exact (proj1 (proj2 Hk)).
Qed.
Lemma alert_record_safe c h : lz E D (recv_alert cx dbg c h) (fun x => K (snd x)).
Proof.
  assert (forall c', tc_state c' = TReset -> tc_ks c' = ks_default cx -> K c') as X by (intros c' E1 E2; apply K_not; [rewrite E1; not_hs|rewrite E2; exact pair_default]).
  unfold recv_alert. destruct (negb _).
  - apply np_seq; [apply np_disconnect; exact DE|]. intros _. apply X; reflexivity.
  - destruct (b_pop_tail _) as [(b1, rx1)|]; [|apply X; reflexivity]. destruct (description_try_from b1); [|apply X; reflexivity].
    destruct (b_pop_tail _) as [(b2, rx2)|]; apply X; reflexivity.
Qed.
Lemma recv_safe c now : inv c -> K c -> rq (tc_ks c) -> E \/ calm N (tc_rx c) -> lz E D (tls_recv cx dbg c now) recvd.
Proof.
  intros H Hk Hq Sf. pose proof H as (G & _). pose proof (N_ok cf CF) as HN. unfold tls_recv.
  assert (forall c' d, good c' -> tc_ks c' = tc_ks c -> lz E D (@send_fatal_alert cx (option TEvent) c' d now) recvd) as AL.
  { intros c' d Gc Ek. apply alert_safe; [rewrite Ek; exact (proj1 (proj2 Hk))| |exact Gc]. intros x _ X _. now right. }
  apply (lz_alert E D _ _ _ _ _ (fun h c' => c' = c /\ match h with Some h => zlen h = 5 /\ bytes_ok h /\ rh_length h <= RECORD_SIZE_LIMIT c | None => True end) (fun c' => c' = c)).
  - apply (lz_mono E D _ _ _ (lz_and E D _ _ _ (header_safe c) (header_leaf dbg cf c G))). intros ([[h|]|e], c') (_ & Eh & Hh); cbn [fst snd] in *; subst c'; tauto.
  - intros [h|] c' (-> & Hh); [|right; exact Hk]. destruct Hh as (Lh & Bh & Lim). set (frag := b_contains_handshake_fragment (tc_rx c)).
    apply (lz_alert E D _ _ _ _ _ (fun (_ : ContentType) c' => on_body cf c (@Ok Z unit tt, c') /\ (calm N (tc_rx c) -> kept c (@Ok Z unit tt, c'))) (fun c' => good c' /\ tc_ks c' = tc_ks c)).
    { apply (lz_mono E D _ _ _ (lz_and E D _ _ _ (lz_cases _ _ _ Sf (body_safe c h Lh Bh)) (body_leaf cx dbg cf CX c h G Lh Bh))). intros ([ct|e], c') (Hc & Hb & _); cbn [fst snd] in *; [split; [exact Hb|exact Hc]|]. destruct Hb as (B1 & _ & _ & B4). auto. }
    2:{ intros d c' (Gc & Ek). now apply AL. }
    intros ct c' (Hb & Hc). pose proof (body_inv cx cf R c _ H Hb) as H1. cbn [snd] in H1. destruct Hb as (Gb & Es & Et & Ek). cbn [snd] in Gb, Es, Et, Ek. pose proof Gb as (_ & _ & _ & Wb).
    assert (forall p, lz E D p (fun x => recvd x /\ rq (tc_ks (snd x))) ->
      lz E D (x <-- p ;; let '(r, c0) := x in if rh_content_type h =? ApplicationData then match increment_read (tc_ks c0) with TOk ks => Ret (r, tc_set_ks c0 ks) | _ => Panic end else Ret (r, c0))
        recvd) as Fin.
    { intros p Hp. apply (lz_then E D _ _ _ _ Hp). intros (r, c2) (X1 & X2). cbn [snd] in X1, X2. destruct (_ =? _); [|exact X1]. unfold increment_read. destruct (Z.eqb_spec (ks_read_seq (tc_ks c2)) U64_MAX) as [Em|]; [|exact X1].
      destruct X2 as [HE|X2]; [exact HE|contradiction]. }
    destruct (Z.eqb_spec ct ApplicationData) as [->|Na].
    + unfold b_increment_application_data_tail at 1.
      assert (dbg && (b_capacity (tc_rx c') <? Z.max 0 (rh_length h - (GCM_TAG_LEN + 1))) = false) as ->.
      { apply andb_false_iff. right. apply Z.ltb_ge. unfold RECORD_SIZE_LIMIT, b_capacity, b_N, GCM_TAG_LEN, RH_LEN in *. destruct G as (_ & _ & _ & W0 & _). destruct Wb as (Wb & _). lia. }
      set (rx := mkBuf _ _ _ _ _). assert (bwf N rx) as Wx by exact (bwf_publish N false (tc_rx c') (Z.max 0 (rh_length h - (GCM_TAG_LEN + 1))) rx Wb eq_refl).
      clearbody rx. destruct (frag && _); [apply AL; [now apply good_rx|exact Ek]|]. change (ApplicationData =? CtAlert) with false. cbv iota. apply Fin.
      unfold recv_content. change (ApplicationData =? ChangeCipherSpec) with false. change (ApplicationData =? CtHandshake) with false. cbv iota.
      destruct (tstate_eqb (tc_state (tc_set_rx c' rx)) TConnected) eqn:Ec.
      * apply tstate_eqb_ok in Ec. cbn [lz snd]. split; [|cbn [tc_ks tc_set_rx]; rewrite Ek; exact Hq]. left. split; [reflexivity|]. cbn [snd tc_ks tc_state tc_set_rx]. rewrite Ek, Es. exact (proj2 Hk).
      * apply alert_safe; [cbn [tc_ks tc_set_rx]; rewrite Ek; exact (proj1 (proj2 Hk))| |now apply good_rx]. intros x _ X Y. split; [now right|exact Y].
    + replace (tc_set_rx c' (tc_rx c')) with c' by now destruct c'.
      destruct (frag && negb (ct =? CtHandshake)) eqn:Ef; [now apply AL|]. destruct (ct =? CtAlert).
      * apply (lz_then E D _ _ _ _ (alert_record_safe c' h)). intros (e, c2) X. right. exact X.
      * apply Fin. apply (lz_mono E D _ (fun x => K (snd x) /\ rq (tc_ks (snd x)))); [|intros x (X & Y); split; [now right|exact Y]]. apply content_safe; [exact H1| |rewrite Ek; exact Hq| |].
        -- split; [|rewrite Ek, Es; exact (proj2 Hk)]. rewrite Es. intros Hh. exact (proj1 (Hc (proj1 Hk Hh))).
        -- intros Nh. rewrite Es. intros Hh. apply andb_false_iff in Ef. destruct Ef as [Ef|Ef]; [|apply negb_false_iff, Z.eqb_eq in Ef; contradiction].
           pose proof (proj1 Hk Hh) as C. destruct (Hc C) as (_ & Eh). cbn [snd] in Eh. rewrite Eh. destruct C as ((_ & _ & _ & _ & C1 & _) & C2 & C3 & C4).
           unfold frag, b_contains_handshake_fragment in Ef. apply negb_false_iff, Z.eqb_eq in Ef. lia.
        -- destruct Sf as [HE|C]; [now left|right]. exact (proj1 (Hc C)).
  - intros d c' ->. now apply AL.
Qed.

(** *** One call of [process] *)
Lemma check_safe c now : K c -> E \/ tclock_ok c now -> lz E D (check_timeout cx c now) fin.
Proof.
  intros Hk Hc. unfold check_timeout. unfold tclock_ok in Hc. destruct (tc_timeout c) as [to|]; [|apply fin_k; [exact Hk|discriminate]]. destruct (Z.ltb_spec now to) as [L|L]; [destruct Hc as [HE|Hc]; [exact HE|lia]|].
  destruct (_ <? _); [|apply fin_k; [exact Hk|discriminate]]. destruct (tstate_eqb _ _); cbn [lz]; (apply fin_k; [|discriminate]); (apply K_not; [not_hs|]); [exact pair_default|exact (proj1 (proj2 Hk))].
Qed.
Lemma finished_safe c : inv c -> K c -> tc_state c = TSendFinished -> lz E D (send_client_finished cx c) (fun x => match fst x with Ok _ => K (snd x) /\ calm N (tc_rx (snd x)) | Err _ => pair (tc_ks (snd x)) end).
Proof.
  intros (G & S & T) (Hk & Hp & _) Es. assert (calm N (tc_rx c)) as Cm by (apply Hk; unfold hs; auto 6). rewrite Es in S. destruct S as (pre & dhe & t1 & S1 & (S2 & S3) & S4). unfold send_client_finished, client_finished_verify_data. rewrite S2. cbn [a_tres].
  apply lz_io_any; [|intros; exact Hp|].
  - apply np_record; [exact CX|congruence|]. unfold client_finished. destruct CX as (_ & _ & _ & X & _). rewrite !zlen_app. pose proof (X (hkdf_expand_label cx 32 (derive cx (handshake_secret cx (cf_psk cf) dhe) "c hs traffic" t1) (ascii_bytes "finished") []) (transcript_hash_bytes cx (tc_ks c))) as (L & _). rewrite L. assert (L3 : forall v, zlen (zdrop 1 (be32 v)) = 3) by reflexivity. rewrite L3. change (zlen [Finished]) with 1. lia.
  - intros _. cbn [lz fst snd]. split; [|exact Cm]. split; [intros _; exact Cm|]. split; [cbn; intros _; discriminate|]. intros _. discriminate.
Qed.
Lemma clock_moved c c' now : tclock_ok c now -> moved now c c' -> tclock_ok c' now.
Proof. unfold tclock_ok. intros H [(_ & ->)|(-> & _)]; [exact H|lia]. Qed.
Lemma rx_safe c now : inv c -> K c -> rq (tc_ks c) -> E \/ tclock_ok c now -> tc_state c <> TReset -> tc_state c <> TSendDiscon ->
  (tc_state c <> TWaitAlertSendOk -> tc_state c <> TWaitDiscon -> E \/ calm N (tc_rx c)) -> lz E D (process_rx cx dbg c now) fin.
Proof.
  intros H Hk Hq Hc N1 N2 Sf. pose proof H as (G & _). unfold process_rx. destruct (tstate_eqb (tc_state c) TWaitAlertSendOk) eqn:E1; [now apply check_safe|]. destruct (tstate_eqb (tc_state c) TWaitDiscon) eqn:E2; [now apply check_safe|].
  cbn [orb]. assert (E \/ calm N (tc_rx c)) as Sf'. { apply Sf; intros X; rewrite X in E1, E2; discriminate. } clear Sf.
  assert (forall d, lz E D (@send_fatal_alert cx TEvent c d now) fin) as AL by (intros d; apply alert_safe; [exact (proj1 (proj2 Hk))| |exact G]; intros (r, x) (Er & _) X _; apply fin_k; [exact X|cbn in Er; congruence]).
  apply (lz_alert E D _ _ _ _ _ (fun _ c' => c' = c) (fun c' => c' = c)).
  - apply lz_io_any; [apply np_rsr|intros; reflexivity|]. intros rsr. reflexivity.
  - intros rsr c' ->. apply (lz_then E D _ _ _ (fun x => recvd x /\ on_recv cx cf R now c x)).
    + destruct (_ <=? _); [apply lz_and; [now apply recv_safe|now apply recv_leaf]|]. split; [right; exact Hk|]. split; [exact H|left; auto].
    + intros ([[e|]|e], c') (X0 & X1 & X2); cbn [fst snd] in *.
      { destruct X2 as (-> & _). destruct X0 as [(_ & X0)|X0]; [left; split; [reflexivity|exact X0]|apply fin_k; [exact X0|discriminate]]. }
      2:{ destruct X0 as [(X0 & _)|X0]; [discriminate X0|]. apply fin_k; [exact X0|discriminate]. }
      destruct X0 as [(X0 & _)|X0]; [discriminate X0|]. cbn [snd] in X0.
      assert (E \/ tclock_ok c' now) as Hc' by (destruct Hc as [HE|Hc]; [now left|right; exact (clock_moved c c' now Hc X2)]).
      destruct (tstate_eqb (tc_state c') TSendFinished) eqn:Ef; [|now apply check_safe]. apply tstate_eqb_ok in Ef.
      apply (lz_alert E D _ _ _ _ _ (fun _ c2 => K c2 /\ calm N (tc_rx c2)) (fun c2 => pair (tc_ks c2) /\ good c2)); [| |].
      * apply (lz_mono E D _ _ _ (lz_and E D _ _ _ (finished_safe c' X1 X0 Ef) (finished_leaf cx cf R c' X1 Ef))). intros ([u|er], c2) (Y1 & Y2); cbn [fst snd] in *; auto.
      * intros _ c2 (Y1 & Y2). right. split; [exact Y1|intros _; exact Y2].
      * intros d c2 (Y1 & Y2). apply alert_safe; [exact Y1| |exact Y2]. intros (r, x) (Er & _) X _. apply fin_k; [exact X|cbn in Er; congruence].
  - intros d c' ->. apply AL.
Qed.
Definition ready_for (c : TlsClient) : Prop := tc_state c = TConnected \/ tc_state c = TWaitConInt -> E \/ calm N (tc_rx c).
Lemma ready_rx c : K c -> ready_for c -> tc_state c <> TReset -> tc_state c <> TSendDiscon -> tc_state c <> TWaitAlertSendOk -> tc_state c <> TWaitDiscon -> E \/ calm N (tc_rx c).
Proof.
  intros (Hk & _) Hr N1 N2 N3 N4. unfold ready_for, hs in *. destruct (tc_state c); try congruence; auto; right; apply Hk; auto.
Qed.
Lemma state_safe c now : inv c -> K c -> rq (tc_ks c) -> E \/ tclock_ok c now -> ready_for c -> (tc_state c = TReset -> D) -> lz E D (process_state cx dbg fuel c now) fin.
Proof.
  intros H Hk Hq Hc Hr HD. pose proof H as (G & S & T). pose proof (ready_rx c Hk Hr) as Sf. unfold process_state.
  assert (forall d, lz E D (@send_fatal_alert cx TEvent c d now) fin) as AL by (intros d; apply alert_safe; [exact (proj1 (proj2 Hk))| |exact G]; intros (r, x) (Er & _) X _; apply fin_k; [exact X|cbn in Er; congruence]).
  destruct (tc_state c) eqn:Es; try (apply rx_safe; auto; rewrite Es; try discriminate; intros; apply Sf; congruence).
  - apply (lz_alert E D _ _ _ _ _ (fun _ c' => K c') (fun c' => c' = c)).
    + unfold tls_tcp_connect. apply lz_io_any; [unfold close; apply np_cr|reflexivity|]. intros _.
      apply lz_unwrap.
      { unfold size_to_buffersize, b_N. pose proof G as (_ & _ & _ & -> & _). destruct CF as (_ & Hn & _). cbn [In] in Hn. intros X. exfalso. destruct Hn as [Hn|[Hn|[Hn|[Hn|[Hn|[]]]]]]; rewrite <- Hn in X; discriminate X. }
      intros size _. apply lz_io_any; [unfold set_sn_rxbuf_size; np_go|reflexivity|]. intros _. apply lz_io_any; [unfold simr; np_go|reflexivity|]. intros v. apply lz_io_any; [unfold set_simr; np_go|reflexivity|]. intros _.
      apply lz_io_any; [unfold set_sn_imr; np_go|reflexivity|]. intros _. apply lz_io_any; [apply np_connect; auto|reflexivity|]. intros _. cbn [lz fst snd]. apply K_not; [not_hs|exact (proj1 (proj2 Hk))].
    + intros after c' X. apply fin_k; [exact X|discriminate].
    + intros d c' ->. apply AL.
  - apply (lz_alert E D _ _ _ _ _ (fun _ c' => c' = c) (fun c' => c' = c)).
    + apply lz_io_any; [apply np_disconnect; exact DE|reflexivity|]. intros _. reflexivity.
    + intros _ c' ->. cbn [lz]. apply fin_k; [|discriminate]. apply K_not; [not_hs|exact (proj1 (proj2 Hk))].
    + intros d c' ->. apply AL.
Qed.
Lemma interrupts_safe c ir now : inv c -> K c -> rq (tc_ks c) -> E \/ tclock_ok c now -> ready_for c -> (tc_state c = TReset -> D) -> lz E D (process_interrupts cx dbg fuel c ir now) fin.
Proof.
  intros H Hk Hq Hc Hr HD. unfold process_interrupts. assert (K (tls_reset cx c)) as Kr by (apply K_not; [not_hs|exact pair_default]).
  destruct (SocketInterrupt_discon_raised ir); [destruct (negb _); (apply fin_k; [|discriminate]); [exact Kr|exact Hk]|]. destruct (SocketInterrupt_timeout_raised ir); [apply fin_k; [exact Kr|discriminate]|].
  destruct (_ && _); [apply fin_k; [apply K_not; [not_hs|exact pair_default]|discriminate]|]. now apply state_safe.
Qed.
(** The ClientHello fits the buffer. *)
Definition fits (rng : Rng) : Prop := zlen (hello_record (mkHello (rg_random rng) (cf_hostname cf) (rg_public rng) (N - 22) (cf_identity cf)) (zeros 32)) <= N.
Lemma hello_safe c rng now : good c -> R rng -> rng_ok rng -> E \/ (fits rng /\ ks_write_seq (tc_ks c) <> U64_MAX) -> pair (tc_ks c) ->
  lz E D (send_client_hello cx dbg c rng now) (fun x => match fst x with Ok _ => K (snd x) /\ rq (tc_ks (snd x)) /\ calm N (tc_rx (snd x)) | Err _ => pair (tc_ks (snd x)) end).
Proof.
  intros (G1 & G2 & G3 & G4) HR (R1 & R2 & R3 & R4) Hf Hp. pose proof (N_ok cf CF) as HN. destruct CF as (C1 & _ & C3 & C4 & C5). unfold send_client_hello, new_client_secret.
  set (c1 := tc_set_rx c (b_reset (tc_rx c))) in *. set (ks1 := mkKS _ _ _ _ _ _ _ _ _). set (c2 := tc_set_ks c1 ks1).
  assert (pair (tc_ks c2)) as P2 by exact Hp.
  apply lz_tres; [unfold b_as_buf; cbn; destruct dbg; discriminate|unfold b_as_buf; cbn; destruct dbg; discriminate|intros; exact P2|]. intros buf Eb.
  assert (buf = b_buf (tc_rx c1)) as -> by (unfold b_as_buf in Eb; destruct (_ && _) in Eb; [discriminate|]; now injection Eb as <-).
  apply (calm_reset N) in G4. fold c1 in G4. change (b_reset (tc_rx c)) with (tc_rx c1) in G4.
  set (h := mkHello (rg_random rng) (cf_hostname cf) (rg_public rng) (N - 22) (cf_identity cf)).
  assert (zlen (b_buf (tc_rx c1)) = N) as LN by exact (proj1 (proj1 G4)).
  assert (RECORD_SIZE_LIMIT c2 = N - 22) as El by (unfold RECORD_SIZE_LIMIT, b_N, GCM_TAG_LEN, RH_LEN; change (tc_rx c2) with (tc_rx c1); rewrite LN; lia).
  rewrite El. change (tc_hostname c2) with (tc_hostname c). change (tc_psk c2) with (tc_psk c). change (tc_identity c2) with (tc_identity c). change (tc_ks c2) with ks1. rewrite G1, G2, G3.
  pose proof (hello_ok cx (b_buf (tc_rx c1)) (rg_random rng) (cf_hostname cf) (rg_public rng) ks1 (cf_psk cf) (cf_identity cf) (N - 22) CX R1 R3 C1 ltac:(lia)) as (F1 & F2). fold h in F1, F2.
  destruct (Z.leb_spec (zlen (hello_record h (zeros 32))) (zlen (b_buf (tc_rx c1)))) as [Fit|Over].
  2:{ rewrite (F2 Over). cbn [a_tres lz]. destruct Hf as [HE|(Hf & _)]; [exact HE|]. unfold fits in Hf. fold h in Hf. lia. }
  destruct (F1 Fit) as (b & ks' & Lb & Bb & Eser & Ek). rewrite Eser. clear F1 F2 Eser.
  assert (bytes_ok (hello_record h b)) as Hrec by (apply hello_bytes; cbn; auto; rewrite Bb; apply (zlen_binder cx CX)).
  cbn [a_tres]. set (buf' := hello_record h b ++ zdrop (zlen (hello_record h b)) (b_buf (tc_rx c1))). set (c3 := tc_set_rx _ _).
  assert (zlen (hello_record h b) = zlen (hello_record h (zeros 32))) as Elen.
  { transitivity (hello_len (cf_hostname cf) (cf_identity cf)); [|symmetry]; apply record_len; auto. }
  assert (calm N (tc_rx c3)) as W3.
  { destruct G4 as ((W1 & W2 & W4) & Hz). unfold c3, calm. cbn [tc_rx tc_set_rx b_buf b_head b_ad_tail b_hs_head b_tail]. split; [|exact Hz]. unfold bwf. cbn [b_buf b_head b_ad_tail b_hs_head b_tail]. split; [|split].
    - unfold buf'. rewrite zlen_app, zlen_zdrop. pose proof (zlen_nonneg (hello_record h b)). lia.
    - apply bytes_app; [exact Hrec|]. now apply bytes_drop.
    - exact W4. }
  assert (pair (tc_ks c3)) as P3 by (change (tc_ks c3) with ks'; rewrite Ek; exact Hp).
  assert (ks_write_seq ks' = ks_write_seq (tc_ks c)) as Ew by (rewrite Ek; reflexivity).
  apply lz_io_any; [apply np_tx_writer|intros; exact P3|]. intros w. apply lz_io_any; [apply np_write_all|intros; exact P3|]. intros w'. apply lz_io_any; [apply np_send|intros; exact P3|]. intros _.
  unfold increment_write. change (tc_ks c3) with ks'. rewrite Ew. destruct (Z.eqb_spec (ks_write_seq (tc_ks c)) U64_MAX) as [Em|]; cbn [a_tres lz fst snd].
  - destruct Hf as [HE|(_ & Hf)]; [exact HE|contradiction].
  - split; [|split; [right; discriminate|exact W3]]. split; [intros _; exact W3|]. split; [cbn; intros _; discriminate|]. intros X. discriminate X.
Qed.
Lemma process_safe c rng now : inv c -> R rng -> rng_ok rng -> K c -> rq (tc_ks c) -> E \/ tclock_ok c now -> E \/ (fits rng /\ ks_write_seq (tc_ks c) <> U64_MAX) -> ready_for c -> (tc_state c = TReset -> D) ->
  lz E D (tls_process cx dbg fuel c rng now) fin.
Proof.
  intros H HR Hrng Hk Hq Hc Hf Hr HD. pose proof H as (G & _). unfold tls_process. apply np_seq; [apply np_ir|]. intros r. set (ir := match r with Ok v => v | Err _ => 0 end). clearbody ir.
  destruct (SocketInterrupt_any_raised ir); [|now apply state_safe].
  apply (lz_alert E D _ _ _ _ _ (fun _ c' => c' = c) (fun c' => c' = c)).
  - apply lz_io_any; [apply np_set_ir|reflexivity|]. intros _. reflexivity.
  - intros _ c' ->. destruct (SocketInterrupt_con_raised ir); [|now apply interrupts_safe].
    apply (lz_alert E D _ _ _ _ _ (fun _ c1 => (K c1 /\ rq (tc_ks c1) /\ calm N (tc_rx c1)) /\ inv c1 /\ tc_state c1 = TWaitServerHello /\ tc_timeout c1 = Some now) (fun c1 => pair (tc_ks c1) /\ good c1)).
    + apply (lz_mono E D _ _ _ (lz_and E D _ _ _ (hello_safe c rng now G HR Hrng Hf (proj1 (proj2 Hk))) (client_hello cx dbg cf R CX CF c rng now G HR Hrng))). intros ([u|e], c2) (Y1 & Y2); cbn [fst snd] in *; auto.
    + intros _ c1 ((K1 & Q1 & W1) & H1 & E1 & T1). apply interrupts_safe; auto; [right; unfold tclock_ok; rewrite T1; lia|right; exact W1|intros X; congruence].
    + intros d c1 (Y1 & Y2). apply alert_safe; [exact Y1| |exact Y2]. intros (r', x) (Er & _) X _. apply fin_k; [exact X|cbn in Er; congruence].
  - intros d c' ->. apply alert_safe; [exact (proj1 (proj2 Hk))| |exact G]. intros (r', x) (Er & _) X _. apply fin_k; [exact X|cbn in Er; congruence].
Qed.
End Safe.
