(** Results on an arbitrary bus whose reads return bytes, and the memory of the TLS receive buffer. *)
From Verif Require Import Model.Prelude Model.Bus Model.Chip Model.Specifiers Model.Ll Model.HlIo Model.HlTcp Model.Gcm Model.TlsTypes Model.TlsBuf Model.TlsRecord
  Spec.Hoare Spec.Gcm38D Spec.TlsQueue.
From Verif Require Import Proof.Base Proof.GcmP Proof.TlsHsP.
Ltac Zify.zify_post_hook ::= idtac.

(** ** Every result satisfies [P] *)
Fixpoint lf {A} (p : prog A) (P : A -> Prop) : Prop :=
  match p with
  | Ret a => P a
  | Rd _ _ len k => forall r, match r with Some l => zlen l = Z.max 0 len /\ bytes_ok l | None => True end -> lf (k r) P
  | Wr _ _ _ k => forall b, lf (k b) P
  | Panic | Diverge => True
  end.
Lemma lf_any {A} (p : prog A) P o : any_bus p o -> lf p P -> forall a, o = Done a -> P a.
Proof.
  induction 1 as [a|addr block len k r o Hr H IH|addr block d k r o H IH| |]; cbn [lf]; intros L x E; try discriminate.
  - injection E as <-. exact L.
  - exact (IH (L r Hr) x E).
  - exact (IH (L r) x E).
Qed.
Lemma lf_true {A} (p : prog A) (P : A -> Prop) : (forall a, P a) -> lf p P.
Proof. intros H. induction p; cbn [lf]; auto. Qed.
Lemma lf_mono {A} (p : prog A) (P P' : A -> Prop) : lf p P -> (forall a, P a -> P' a) -> lf p P'.
Proof. intros H HP. induction p; cbn [lf] in *; auto. Qed.
Lemma lf_bind {A B} (p : prog A) (f : A -> prog B) P : lf p (fun a => lf (f a) P) -> lf (bind p f) P.
Proof. induction p; cbn [lf bind]; auto. Qed.
Lemma lf_seq {A B} (p : prog A) (f : A -> prog B) P : (forall a, lf (f a) P) -> lf (bind p f) P.
Proof. intros H. apply lf_bind, lf_true, H. Qed.
Lemma lf_then {A B} (p : prog A) (f : A -> prog B) P Q : lf p Q -> (forall a, Q a -> lf (f a) P) -> lf (bind p f) P.
Proof. intros H HQ. apply lf_bind. exact (lf_mono p _ _ H HQ). Qed.

(** Results of [M] that are successes. *)
Definition on_ok {A} (Q : A -> Prop) (r : res err A) : Prop := match r with Ok a => Q a | Err _ => True end.
Lemma lf_read addr block len : lf (read addr block len) (on_ok (fun d => zlen d = Z.max 0 len /\ bytes_ok d)).
Proof. unfold read. cbn [lf]. intros [l|] H; cbn [lf ret fail on_ok]; auto. Qed.
Lemma lf_rx_buf sn ptr len : lf (sn_rx_buf sn ptr len) (on_ok (fun d => zlen d = Z.max 0 len /\ bytes_ok d)).
Proof. apply lf_read. Qed.
Lemma lf_read_exact c n : lf (cur_read_exact c n) (on_ok (fun p => zlen (fst p) = Z.max 0 n /\ bytes_ok (fst p))).
Proof.
  unfold cur_read_exact. destruct (negb _); [exact I|]. unfold bindM. apply (lf_then _ _ _ _ (lf_rx_buf (cu_sn c) (cu_ptr c) n)).
  intros [d|e] H; cbn [lf ret on_ok fst] in *; auto.
Qed.
Lemma lf_io {A B S} f (p : M A) (s : S) (k : A -> prog (res Z B * S)) (P : _ -> Prop) (Q : A -> Prop) : lf p (on_ok Q) -> (forall e, P (Err e, s)) -> (forall a, Q a -> lf (k a) P) -> lf (a_io f p s k) P.
Proof. intros H HE HQ. unfold a_io. apply (lf_then _ _ _ _ H). intros [a|e] Ha; cbn [lf on_ok] in *; auto. Qed.
Lemma lf_io_any {A B S} f (p : M A) (s : S) (k : A -> prog (res Z B * S)) (P : _ -> Prop) : (forall e, P (Err e, s)) -> (forall a, lf (k a) P) -> lf (a_io f p s k) P.
Proof. intros HE HQ. apply (lf_io f p s k P (fun _ => True)); auto. apply lf_true. intros [a|e]; exact I. Qed.
Lemma lf_tres {A B S} (t : tres A) (s : S) (k : A -> prog (res Z B * S)) (P : _ -> Prop) : (forall e, t = TErr e -> P (Err e, s)) -> (forall a, t = TOk a -> lf (k a) P) -> lf (a_tres t s k) P.
Proof. intros HE HQ. unfold a_tres. destruct t; cbn [lf]; auto. Qed.
Lemma lf_unwrap {A B} (o : option A) (k : A -> prog B) (P : B -> Prop) : (forall a, o = Some a -> lf (k a) P) -> lf (unwrap o k) P.
Proof. intros H. unfold unwrap. destruct o; cbn [lf]; auto. Qed.

(** ** The memory of the buffer *)
Definition bwf (N : Z) (b : Buffer) : Prop :=
  zlen (b_buf b) = N /\ bytes_ok (b_buf b) /\ 0 <= b_head b < N /\ 0 <= b_ad_tail b < N /\ 0 <= b_hs_head b < N /\ 0 <= b_tail b < N.
Lemma zlen_put l i d : 0 <= i -> i + zlen d <= zlen l -> zlen (put l i d) = zlen l.
Proof. intros. pose proof (zlen_nonneg d). unfold put. rewrite !zlen_app, zlen_ztake, zlen_zdrop. lia. Qed.
Lemma bytes_take n l : bytes_ok l -> bytes_ok (ztake n l).
Proof. intros H. unfold ztake, bytes_ok in *. rewrite <- (firstn_skipn (Z.to_nat n) l) in H. exact (proj1 (proj1 (Forall_app _ _ _) H)). Qed.
Lemma bytes_drop n l : bytes_ok l -> bytes_ok (zdrop n l).
Proof. intros H. unfold zdrop, bytes_ok in *. rewrite <- (firstn_skipn (Z.to_nat n) l) in H. exact (proj2 (proj1 (Forall_app _ _ _) H)). Qed.
Lemma bytes_app a b : bytes_ok a -> bytes_ok b -> bytes_ok (a ++ b).
Proof. intros. apply Forall_app. now split. Qed.
Lemma bytes_put l i d : bytes_ok l -> bytes_ok d -> bytes_ok (put l i d).
Proof. intros Hl Hd. unfold put. apply bytes_app; [now apply bytes_take|]. apply bytes_app; [exact Hd|now apply bytes_drop]. Qed.
Lemma bytes_nth n l : bytes_ok l -> is_u8 (nth n l 0).
Proof. intros H. destruct (nth_in_or_default n l 0) as [E| ->]; [|split; lia]. exact (proj1 (Forall_forall _ _) H _ E). Qed.

Lemma bwf_from buf : 0 < zlen buf -> bytes_ok buf -> bwf (zlen buf) (buffer_from buf).
Proof. intros H Hb. unfold bwf, buffer_from. cbn. repeat split; try lia; assumption. Qed.
Lemma bwf_reset N b : bwf N b -> bwf N (b_reset b).
Proof. intros (E & Hb & Hh & _). unfold bwf, b_reset. cbn. repeat split; try lia; assumption. Qed.
Lemma bwf_extend N dbg b src b' : bwf N b -> bytes_ok src -> b_extend_from_slice dbg b src = TOk b' -> bwf N b' /\
  b_head b' = b_head b /\ b_ad_tail b' = b_ad_tail b /\ b_hs_head b' = b_hs_head b /\ b_tail b' = (b_tail b + zlen src) mod N.
Proof.
  intros (E & Hb & Hh & Ha & Hs & Ht) Hsrc. unfold b_extend_from_slice. destruct (b_remain b) as [rem| | |]; cbn [tbind]; try discriminate.
  destruct (rem <? zlen src); [discriminate|]. unfold b_N. rewrite E.
  destruct (if b_tail b =? b_head b then _ else _) as ((ao, al), bl) eqn:Ea.
  assert (0 <= ao /\ 0 <= al /\ ao + al <= N /\ bl <= N) as (A1 & A2 & A3 & A4).
  { destruct (Z.eqb_spec (b_tail b) (b_head b)); [injection Ea as <- <- <-; lia|]. destruct (Z.ltb_spec (b_head b) (b_tail b)); injection Ea as <- <- <-; lia. }
  clear Ea. pose proof (zlen_nonneg src). set (k := Z.min (zlen src) al). destruct (Z.ltb_spec bl (zlen (zdrop k src))) as [|L]; [discriminate|].
  destruct (dbg && _ && _); [discriminate|]. injection 1 as <-. unfold bwf. cbn [b_buf b_head b_ad_tail b_hs_head b_tail].
  assert (zlen (ztake k src) <= al) by (rewrite zlen_ztake; lia).
  assert (zlen (put (b_buf b) ao (ztake k src)) = N) as L1 by (rewrite zlen_put; lia).
  pose proof (Z.mod_pos_bound (b_tail b + zlen src) N ltac:(lia)).
  split; [|auto]. split; [rewrite zlen_put; lia|]. split; [|auto]. apply bytes_put; [apply bytes_put; [exact Hb|now apply bytes_take]|now apply bytes_drop].
Qed.
Lemma bwf_pop N b x b' : bwf N b -> b_pop_tail b = Some (x, b') -> bwf N b' /\ is_u8 x /\ b_head b' = b_head b /\ b_ad_tail b' = b_ad_tail b /\ b_hs_head b' = b_hs_head b.
Proof.
  intros (E & Hb & Hh & Ha & Hs & Ht). unfold b_pop_tail. destruct (b_is_empty b); [discriminate|]. injection 1 as <- <-. unfold bwf. cbn [b_buf b_head b_ad_tail b_hs_head b_tail]. unfold b_N. rewrite E.
  split; [|split; [now apply bytes_nth|auto]]. split; [reflexivity|]. split; [exact Hb|]. destruct (Z.eqb_spec (b_tail b) 0); lia.
Qed.
Lemma bwf_publish N dbg b n b' : bwf N b -> b_increment_application_data_tail dbg b n = TOk b' -> bwf N b'.
Proof.
  intros (E & Hb & Hh & Ha & Hs & Ht). unfold b_increment_application_data_tail. destruct (_ && _); [discriminate|]. injection 1 as <-. unfold bwf. cbn [b_buf b_head b_ad_tail b_hs_head b_tail]. unfold b_N. rewrite E.
  pose proof (Z.mod_pos_bound (b_ad_tail b + n) N ltac:(lia)). auto 10.
Qed.
Lemma bwf_done N b r : bwf N b -> bwf N (b_reader_done b r).
Proof.
  intros (E & Hb & Hh & Ha & Hs & Ht). unfold b_reader_done, bwf. cbn [b_buf b_head b_ad_tail b_hs_head b_tail]. unfold b_N. rewrite E.
  pose proof (Z.mod_pos_bound (b_head b + cr_ptr r) N ltac:(lia)). auto 10.
Qed.
(** A message taken out of the buffer. *)
Lemma slices_bytes buf tail head n : bytes_ok buf -> bytes_ok (fst (as_slices buf tail head n)) /\ bytes_ok (snd (as_slices buf tail head n)).
Proof.
  intros H. unfold as_slices. destruct (tail <=? head); cbn [fst snd]; split; repeat (apply bytes_take || apply bytes_drop || exact H); constructor.
Qed.
Lemma bwf_popped N b n x y b' : bwf N b -> 0 <= n -> b_pop_handshake_slices_of_n b n = TOk (Some ((x, y), b')) ->
  bwf N b' /\ zlen (x ++ y) = n /\ bytes_ok (x ++ y) /\ b_head b' = b_head b /\ b_ad_tail b' = b_ad_tail b.
Proof.
  intros (E & Hb & Hh & Ha & Hs & Ht) Hn. unfold b_pop_handshake_slices_of_n. destruct (b_len b <? n); [discriminate|].
  destruct (slices_bytes (b_buf b) (b_tail b) (b_hs_head b) (b_N b) Hb) as (S1 & S2).
  destruct (as_slices (b_buf b) (b_tail b) (b_hs_head b) (b_N b)) as (sa, sb). cbn [fst snd] in S1, S2. unfold b_N. rewrite E.
  set (hh := (b_hs_head b + n) mod N). assert (0 <= hh < N) by (apply Z.mod_pos_bound; lia).
  set (bb := if hh =? b_tail b then _ else _). assert (bwf N bb /\ b_head bb = b_head b /\ b_ad_tail bb = b_ad_tail b) as (B1 & B2 & B3).
  { unfold bb. destruct (hh =? b_tail b); unfold bwf; cbn [b_buf b_head b_ad_tail b_hs_head b_tail]; auto 10. }
  pose proof (zlen_nonneg sa). pose proof (zlen_nonneg sb). destruct (Z.leb_spec n (zlen sa)) as [L|L].
  - injection 1 as <- <- <-. split; [exact B1|]. rewrite app_nil_r, zlen_ztake. split; [lia|]. split; [now apply bytes_take|auto].
  - destruct (Z.ltb_spec (zlen sb) (n - zlen sa)); [discriminate|]. injection 1 as <- <- <-. split; [exact B1|]. rewrite zlen_app, zlen_ztake. split; [lia|].
    split; [apply bytes_app; [exact S1|now apply bytes_take]|auto].
Qed.
Lemma header_message h0 h1 h2 h3 body : is_u8 h1 -> is_u8 h2 -> is_u8 h3 -> of_be32 0 h1 h2 h3 = zlen body -> [h0; h1; h2; h3] ++ body = hs_message h0 body.
Proof.
  unfold is_u8, of_be32. intros H1 H2 H3 E. unfold hs_message, be32. rewrite <- E. cbn [zdrop Z.to_nat Pos.to_nat Pos.iter_op Nat.add skipn app].
  assert ((((0 * 256 + h1) * 256 + h2) * 256 + h3) / 65536 mod 256 = h1) as -> by (Z.div_mod_to_equations; lia).
  assert ((((0 * 256 + h1) * 256 + h2) * 256 + h3) / 256 mod 256 = h2) as -> by (Z.div_mod_to_equations; lia).
  assert ((((0 * 256 + h1) * 256 + h2) * 256 + h3) mod 256 = h3) as -> by (Z.div_mod_to_equations; lia). reflexivity.
Qed.
Lemma bwf_record N b hash h r hash' b' : bwf N b -> N <= 16384 -> b_pop_handshake_record b hash = TOk (Some (h, r, hash', b')) ->
  exists ty x y, let body := x ++ y in at_ h 0 = ty /\ hh_length h = zlen body /\ r = cr_new x y /\ hash' = hash ++ hs_message ty body /\
    zlen body < 16384 /\ bytes_ok body /\ bwf N b' /\ b_head b' = b_head b /\ b_ad_tail b' = b_ad_tail b.
Proof.
  intros W HN. pose proof W as (E & Hb & Hh & Ha & Hs & Ht). unfold b_pop_handshake_record, b_read_head. destruct (b_len b <? HH_LEN); [discriminate|].
  set (hd := map _ _). destruct (Z.ltb_spec (b_capacity b) (hh_length_with_header hd)) as [|Hc]; [discriminate|]. destruct (b_hs_len b <? hh_length_with_header hd); [discriminate|].
  unfold b_N. rewrite E. set (b1 := mkBuf _ _ _ _ _).
  assert (bwf N b1) as W1. { pose proof (Z.mod_pos_bound (b_hs_head b + HH_LEN) N ltac:(lia)). unfold bwf, b1. cbn [b_buf b_head b_ad_tail b_hs_head b_tail]. auto 10. }
  assert (exists h0 h1 h2 h3, hd = [h0; h1; h2; h3] /\ is_u8 h1 /\ is_u8 h2 /\ is_u8 h3) as (h0 & h1 & h2 & h3 & Ehd & U1 & U2 & U3).
  { do 4 eexists. split; [reflexivity|]. repeat split; now apply bytes_nth. }
  clearbody hd.
  assert (0 <= hh_length hd) as Hl by (rewrite Ehd; unfold hh_length, of_be32, is_u8 in *; cbn [at_ nth]; lia).
  destruct (b_pop_handshake_slices_of_n b1 (hh_length hd)) as [[((x, y), b2)|]| | |] eqn:Ep; cbn [tbind]; try discriminate.
  injection 1 as <- <- <- <-. destruct (bwf_popped N b1 (hh_length hd) x y b2 W1 Hl Ep) as (W2 & L & B & H1 & H2).
  exists (at_ hd 0), x, y. cbv zeta. split; [reflexivity|]. split; [now symmetry|]. split; [reflexivity|].
  unfold b_capacity, b_N, hh_length_with_header, HH_LEN in Hc. rewrite E in Hc.
  split; [|split; [lia|split; [exact B|split; [exact W2|split; [rewrite H1; reflexivity|rewrite H2; reflexivity]]]]].
  f_equal. subst hd. change (at_ [h0; h1; h2; h3] 0) with h0. rewrite <- (header_message h0 h1 h2 h3 (x ++ y)); [reflexivity|assumption..|].
  rewrite L. unfold hh_length. cbn [at_ nth]. reflexivity.
Qed.
(** What decryption leaves in the buffer consists of bytes. *)
Lemma bwf_decrypt N dbg sn key nonce header (Kl : length key = 16%nat) (Kb : bytes_ok key) (Nl : length nonce = 12%nat) (Nb : bytes_ok nonce) (Hl : length header = 5%nat) :
  forall fuel g cs k n rd remain b, gcm_at key nonce header g cs k n -> 0 <= k -> k + remain < 65535 -> 0 < remain -> bwf N b ->
  lf (decrypt_loop fuel dbg sn g rd remain b) (fun p => bwf N (snd p) /\ b_head (snd p) = b_head b /\ b_ad_tail (snd p) = b_ad_tail b).
Proof.
  induction fuel as [|fuel IH]; intros g cs k n rd remain b G K0 K1 Hr W; cbn [decrypt_loop]; [exact I|].
  apply (lf_io _ _ _ _ _ _ (lf_rx_buf sn rd (Z.min 16 remain))); [intros; cbn [snd]; auto|]. intros blk (Bl & Bb).
  apply lf_unwrap. intros (g', pl) Ed. assert (1 <= length blk <= 16)%nat as Lb by (unfold zlen in Bl; lia).
  destruct (decrypt_at key nonce header Kl Kb Nl Nb Hl g cs k n blk G ltac:(lia) Bb Lb) as (g1 & Ed1 & G1).
  rewrite Ed in Ed1. injection Ed1 as <- Epl.
  assert (bytes_ok pl) as Pb. { rewrite Epl. apply xor_bytes; [exact Bb|]. exact (proj2 (proj2 (E_ctr key nonce Kl Kb Nl Nb (k + 1)))). }
  apply lf_tres; [intros; cbn [snd]; auto|]. intros b1 E1. destruct (bwf_extend N dbg b pl b1 W Pb E1) as (W1 & X1 & X2 & _).
  destruct (Z.eqb_spec (remain - Z.min 16 remain) 0) as [Ez|Nz].
  - apply lf_unwrap. intros (x, b2) E2. destruct (bwf_pop N b1 x b2 W1 E2) as (W2 & _ & X3 & X4 & _). cbn [lf snd]. split; [exact W2|]. split; congruence.
  - apply (lf_mono _ _ _ (IH g' _ (k + 1) _ (wadd rd (Z.min 16 remain)) (remain - Z.min 16 remain) b1 G1 ltac:(lia) ltac:(lia) ltac:(lia) W1)). intros p (Q1 & Q2 & Q3). split; [exact Q1|]. split; congruence.
Qed.
