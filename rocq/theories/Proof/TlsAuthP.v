(** C54: what becomes readable has been authenticated. *)
From Coq Require Import String.
From Verif Require Import Model.Prelude Model.Bus Model.Chip Model.Specifiers Model.LlBits Model.Ll Model.HlIo Model.HlTcp Model.Stream Model.Gcm
  Spec.Hoare Spec.Cursor Spec.Gcm38D Spec.Fips197 Spec.TlsSecrets Spec.TlsMessages Spec.TlsProtect.
From Verif Require Import Proof.Base Proof.RingP Proof.Ghash3P Proof.GcmP Proof.TlsBufP Proof.TlsHsP Proof.TlsParseP Proof.TlsHelloP Proof.TlsLeafP Proof.TlsInvP Proof.TlsHistP Proof.TlsWireP.
From Verif Require Import Model.TlsTypes Model.TlsBuf Model.TlsKeys Model.TlsHello Model.TlsRecord Model.TlsClient Spec.TlsQueue Spec.TlsSession Spec.TlsWire Spec.TlsAuth.
Ltac Zify.zify_post_hook ::= idtac.
Local Open Scope list_scope.

Lemma lf_and {A} (p : prog A) P Q : lf p P -> lf p Q -> lf p (fun a => P a /\ Q a).
Proof. induction p; cbn [lf]; auto. Qed.

(** ** With the bytes received: [lt p got P] *)
Fixpoint lt {A} (p : prog A) (got : list Z) (P : A -> list Z -> Prop) : Prop :=
  match p with
  | Ret a => P a got
  | Rd _ block len k => forall r, match r with Some l => zlen l = Z.max 0 len /\ bytes_ok l | None => True end ->
      lt (k r) (match r with Some l => if block mod 4 =? 3 then got ++ l else got | None => got end) P
  | Wr _ _ _ k => forall b, lt (k b) got P
  | Panic | Diverge => True
  end.
Lemma lt_any {A} (p : prog A) : forall got P o, lt p got P -> any_bus (received p got) o -> forall a got', o = Done (a, got') -> P a got'.
Proof.
  induction p as [a|addr block len k IH|addr block d k IH| |]; intros got P o L H x got' E; cbn [received lt] in *; inversion H; subst; try discriminate.
  - match goal with E : Done _ = Done _ |- _ => injection E as <- <- end. exact L.
  - eapply IH; [apply L; eassumption|eassumption|reflexivity].
  - eapply IH; [apply L|eassumption|reflexivity].
Qed.
(** The bytes received only grow. *)
Lemma lt_lf {A} (p : prog A) (P : A -> Prop) : forall got, lf p P -> lt p got (fun a got' => P a /\ exists more, got' = got ++ more).
Proof.
  assert (forall got g0 more, g0 = got ++ more -> lf p P -> lt p g0 (fun a got' => P a /\ exists more, got' = got ++ more)) as X.
  2:{ intros got. apply (X got got []). now rewrite app_nil_r. }
  induction p as [a|addr block len k IH|addr block d k IH| |]; intros got g0 more E H; cbn [lf lt] in *; auto.
  - split; eauto.
  - intros r Hr. destruct r as [l|]; [destruct (block mod 4 =? 3)|]; [apply (IH _ got _ (more ++ l)); [rewrite E; now rewrite app_assoc|now apply H]|eapply IH; eauto; now apply H|eapply IH; eauto; now apply H].
  - intros b. eapply IH; eauto.
Qed.
Lemma lt_mono {A} (p : prog A) : forall got (P P' : A -> list Z -> Prop), lt p got P -> (forall a g, P a g -> P' a g) -> lt p got P'.
Proof. induction p as [a|addr block len k IH|addr block d k IH| |]; intros got P P' H HP; cbn [lt] in *; auto; intros; eapply IH; eauto. Qed.
Lemma lt_bind {A B} (p : prog A) (f : A -> prog B) : forall got P, lt p got (fun a g => lt (f a) g P) -> lt (bind p f) got P.
Proof. induction p as [a|addr block len k IH|addr block d k IH| |]; intros got P H; cbn [lt bind] in *; auto. Qed.
Lemma lt_then {A B} (p : prog A) (f : A -> prog B) got P Q : lt p got Q -> (forall a g, Q a g -> lt (f a) g P) -> lt (bind p f) got P.
Proof. intros H HQ. apply lt_bind. exact (lt_mono p got _ _ H HQ). Qed.
Definition more (got got' : list Z) : Prop := exists m, got' = got ++ m.
Lemma more_refl g : more g g. Proof. exists []. now rewrite app_nil_r. Qed.
Lemma more_trans a b c : more a b -> more b c -> more a c. Proof. intros (x & ->) (y & ->). exists (x ++ y). now rewrite app_assoc. Qed.
Lemma lt_seq {A B} (p : prog A) (f : A -> prog B) got P : (forall a g, more got g -> lt (f a) g P) -> lt (bind p f) got P.
Proof. intros H. apply (lt_then _ _ _ _ _ (lt_lf p (fun _ => True) got (lf_true _ _ (fun _ => I)))). intros a g (_ & X). now apply H. Qed.
(** Calls that read no receive buffer. *)
Definition off_rx {A} (p : prog A) : Prop := forall got, lt p got (fun _ g => g = got).
Lemma lt_io {A B S} f (p : M A) (s : S) (k : A -> prog (res Z B * S)) got (P : _ -> list Z -> Prop) (Q : A -> list Z -> Prop) :
  lt p got (fun r g => match r with Ok a => Q a g | Err e => more got g end) -> (forall e g, more got g -> P (Err e, s) g) -> (forall a g, Q a g -> lt (k a) g P) -> lt (a_io f p s k) got P.
Proof. intros H HE HQ. unfold a_io. apply (lt_then _ _ _ _ _ H). intros [a|e] g Ha; cbn [lt] in *; auto. Qed.
Lemma lt_io_off {A B S} f (p : M A) (s : S) (k : A -> prog (res Z B * S)) got (P : _ -> list Z -> Prop) : off_rx p -> (forall e, P (Err e, s) got) -> (forall a, lt (k a) got P) -> lt (a_io f p s k) got P.
Proof. intros H HE HQ. unfold a_io. apply (lt_then _ _ _ _ _ (H got)). intros [a|e] g ->; cbn [lt] in *; auto. Qed.
Lemma lt_tres {A B S} (t : tres A) (s : S) (k : A -> prog (res Z B * S)) got (P : _ -> list Z -> Prop) : (forall e, t = TErr e -> P (Err e, s) got) -> (forall a, t = TOk a -> lt (k a) got P) -> lt (a_tres t s k) got P.
Proof. intros HE HQ. unfold a_tres. destruct t; cbn [lt]; auto. Qed.
Lemma lt_unwrap {A B} (o : option A) (k : A -> prog B) got (P : B -> list Z -> Prop) : (forall a, o = Some a -> lt (k a) got P) -> lt (unwrap o k) got P.
Proof. intros H. unfold unwrap. destruct o; cbn [lt]; auto. Qed.
Lemma off_read addr block len : block mod 4 <> 3 -> off_rx (read addr block len).
Proof. intros H got. unfold read. cbn [lt]. intros r _. destruct (Z.eqb_spec (block mod 4) 3); [contradiction|]. destruct r; reflexivity. Qed.
Lemma off_write addr block d : off_rx (write addr block d).
Proof. intros got. cbn. intros [|]; reflexivity. Qed.
Lemma off_bind {A B} (p : M A) (f : A -> M B) : off_rx p -> (forall a, off_rx (f a)) -> off_rx (bindM p f).
Proof. intros H Hf got. unfold bindM. apply (lt_then _ _ _ _ _ (H got)). intros [a|e] g ->; [apply Hf|reflexivity]. Qed.
Lemma off_ret {A} (a : A) : off_rx (ret a). Proof. intros got. reflexivity. Qed.
Lemma sn_block_off sn : sn_block sn mod 4 <> 3.
Proof. destruct sn; vm_compute; discriminate. Qed.
Lemma rx_block_on sn : sn_rx_block sn mod 4 =? 3 = true.
Proof. destruct sn; reflexivity. Qed.
Lemma off_rsr sn : off_rx (sn_rx_rsr sn).
Proof. unfold sn_rx_rsr. apply off_bind; [apply off_read, sn_block_off|intros; apply off_ret]. Qed.
Lemma off_rd sn : off_rx (sn_rx_rd sn).
Proof. unfold sn_rx_rd. apply off_bind; [apply off_read, sn_block_off|intros; apply off_ret]. Qed.
Lemma off_done r : off_rx (tcp_reader_done r).
Proof. unfold tcp_reader_done. apply off_bind; [apply off_write|]. intros []. apply off_bind; [apply off_write|intros; apply off_ret]. Qed.
Lemma lt_rx_buf sn ptr len got : lt (sn_rx_buf sn ptr len) got (fun r g => match r with Ok d => zlen d = Z.max 0 len /\ bytes_ok d /\ g = got ++ d | Err _ => more got g end).
Proof. unfold sn_rx_buf, read. cbn [lt]. rewrite rx_block_on. intros [l|] H; cbn [lt ret fail]; [tauto|apply more_refl]. Qed.
Lemma lt_read_exact c n got : lt (cur_read_exact c n) got (fun r g => match r with Ok p => zlen (fst p) = Z.max 0 n /\ bytes_ok (fst p) /\ g = got ++ fst p | Err _ => more got g end).
Proof.
  unfold cur_read_exact. destruct (negb _); [apply more_refl|]. unfold bindM. apply (lt_then _ _ _ _ _ (lt_rx_buf (cu_sn c) (cu_ptr c) n got)).
  intros [d|e] g H; cbn [lt ret fst] in *; auto.
Qed.

(** ** The buffer with debug assertions *)
Lemma extend_dbg b ad rest src b' : holds b (ad, rest) -> b_extend_from_slice true b src = TOk b' -> holds b' (ad, rest ++ src).
Proof.
  intros H E. destruct (Z_le_gt_dec (q_size (ad, rest) + zlen src) (b_N b - 1)) as [L|G].
  - destruct (extend_fits true b _ src H L) as (b1 & E1 & H1 & _). rewrite E in E1. injection E1 as <-. exact H1.
  - pose proof H as (((N1 & N2) & Hh & _ & _ & _) & S & _ & T & _). pose proof (zlen_nonneg src).
    destruct (Z.eq_dec (q_size (ad, rest) + zlen src) (b_N b)) as [One|Ne].
    2:{ rewrite (extend_over true b _ src H ltac:(lia) (or_introl Ne)) in E. discriminate. }
    exfalso. revert E. unfold b_extend_from_slice. destruct (b_remain b); cbn [tbind]; try discriminate. destruct (_ <? _); [discriminate|].
    destruct (if b_tail b =? b_head b then _ else _) as ((ao, al), bl). destruct (_ <? _); [discriminate|].
    assert (b_head b = (b_tail b + zlen src) mod b_N b) as <-.
    { rewrite T, Zplus_mod_idemp_l. replace (b_head b + q_size (ad, rest) + zlen src) with (b_head b + 1 * b_N b) by lia. rewrite Z_mod_plus_full, Z.mod_small by lia. reflexivity. }
    rewrite Z.eqb_refl. destruct (Z.eqb_spec (zlen src) 0); [lia|]. discriminate.
Qed.
Lemma pop_dbg b ad rest x b' : holds b (ad, rest) -> rest <> [] -> b_pop_tail b = Some (x, b') -> holds b' (ad, removelast rest) /\ x = last rest 0.
Proof.
  intros H Nr E. pose proof (app_removelast_last 0 Nr) as Er. rewrite Er in H. destruct (pop_ok b ad _ _ H) as (b1 & E1 & H1 & _). rewrite E in E1. injection E1 as -> ->. auto.
Qed.
Lemma fragment_iff b ad rest : holds b (ad, rest) -> b_contains_handshake_fragment b = negb (zlen rest =? 0).
Proof.
  intros ((N & Hh & Ha & Hhs & Ht) & S & A & T & G). unfold q_size in *. cbn [fst snd] in *. pose proof (zlen_nonneg ad). pose proof (zlen_nonneg rest).
  unfold b_contains_handshake_fragment. f_equal. rewrite A, T. rewrite !mod_near by lia.
  destruct (Z.eqb_spec (zlen rest) 0) as [E|E].
  - rewrite E, Z.add_0_r. apply Z.eqb_refl.
  - apply Z.eqb_neq. destruct (Z.ltb_spec (b_head b + zlen ad) (b_N b)), (Z.ltb_spec (b_head b + (zlen ad + zlen rest)) (b_N b)); lia.
Qed.
(** Taking out a message leaves the readable bytes. *)
Lemma popped_holds b ad rest n s b' : holds b (ad, rest) -> b_pop_handshake_slices_of_n b n = TOk (Some (s, b')) -> exists rest', holds b' (ad, rest').
Proof.
  intros H. pose proof H as ((N & Hh & Ha & Hhs & Ht) & S & A & T & G). unfold b_pop_handshake_slices_of_n. destruct (_ <? n); [discriminate|].
  destruct (as_slices _ _ _ _) as (sa, sb). set (hs := (b_hs_head b + n) mod b_N b). assert (0 <= hs < b_N b) by (apply Z.mod_pos_bound; lia).
  set (bb := if hs =? b_tail b then _ else _). assert (exists rest', holds bb (ad, rest')) as X.
  { unfold bb. destruct (hs =? b_tail b).
    - exists []. unfold q_size in *. cbn [fst snd] in *. change (zlen (@nil Z)) with 0. pose proof (zlen_nonneg rest). unfold holds, in_range, q_size, b_N. cbn [b_buf b_head b_ad_tail b_hs_head b_tail fst snd].
      unfold b_N in *. change (zlen (@nil Z)) with 0. rewrite Z.add_0_r. split; [auto 10|]. split; [lia|]. split; [exact A|]. split; [exact A|].
      rewrite app_nil_r. exact (proj1 (ring_split (b_buf b) (b_head b) ad rest ltac:(lia) G)).
    - exists rest. unfold holds, in_range, b_N in *. cbn [b_buf b_head b_ad_tail b_hs_head b_tail fst snd]. auto 10. }
  clearbody bb. destruct (n <=? zlen sa); [|destruct (_ <? _); [discriminate|]]; injection 1 as <- <-; exact X.
Qed.
Lemma record_holds b ad rest hash h r hash' b' : holds b (ad, rest) -> b_pop_handshake_record b hash = TOk (Some (h, r, hash', b')) -> exists rest', holds b' (ad, rest').
Proof.
  intros H. unfold b_pop_handshake_record. destruct (b_read_head b) as [hd|]; [|discriminate]. destruct (_ <? _); [discriminate|]. destruct (_ <? _); [discriminate|].
  destruct (b_pop_handshake_slices_of_n _ _) as [[((x, y), b2)|]| | |] eqn:Ep; cbn [tbind]; try discriminate. injection 1 as <- <- <- <-.
  refine (popped_holds _ ad rest _ _ _ _ Ep). destruct H as ((N & Hh & Ha & Hhs & Ht) & S & A & T & G). pose proof (Z.mod_pos_bound (b_hs_head b + HH_LEN) (b_N b) ltac:(lia)).
  unfold holds, in_range, b_N in *. cbn [b_buf b_head b_ad_tail b_hs_head b_tail fst snd]. auto 10.
Qed.

(** ** Decryption *)
Lemma last_app_ne {A} (a b : list A) d : b <> [] -> last (a ++ b) d = last b d.
Proof. intros H. rewrite (app_removelast_last d H), app_assoc, !last_last. reflexivity. Qed.
Lemma concat_bytes bs : Forall byte16 bs -> bytes_ok (concat bs).
Proof. intros H. apply Forall_concat. eapply Forall_impl; [|exact H]. intros a (_ & Ha). exact Ha. Qed.
Lemma decrypt_auth sn key nonce header (Kl : length key = 16%nat) (Kb : bytes_ok key) (Nl : length nonce = 12%nat) (Nb : bytes_ok nonce) (Hl : length header = 5%nat) (Hb : bytes_ok header) ad rest :
  forall fuel g cs rd remain b, gcm_at key nonce header g cs (1 + zlen cs) (16 * zlen cs) -> 1 + zlen cs + remain < 65535 -> 0 < remain ->
  holds b (ad, rest ++ concat (ctr_xor key nonce 1 cs)) -> forall got,
  lt (decrypt_loop fuel true sn g rd remain b) (got ++ concat cs) (fun p got' =>
    match fst p with
    | Ok (ct, _, g') => exists C pl x, got' = got ++ C /\ gcm_finish g' = gcm_tag (fips_cipher key) nonce header C /\ GCTR (fips_cipher key) (inc32 (J0 nonce)) C = pl ++ [x] /\ zlen C = 16 * zlen cs + remain /\ zlen C = zlen pl + 1 /\ ct = content_type_try_from x /\ holds (snd p) (ad, rest ++ pl)
    | Err _ => exists rest', holds (snd p) (ad, rest')
    end).
Proof.
  induction fuel as [|fuel IH]; intros g cs rd remain b G K1 Hr H got; cbn [decrypt_loop]; [exact I|]. pose proof (zlen_nonneg cs) as Nc.
  apply (lt_io _ _ _ _ _ _ _ (lt_rx_buf sn rd (Z.min 16 remain) _)); [intros; cbn [fst snd]; eauto|]. intros blk got1 (Bl & Bb & ->). rewrite <- app_assoc.
  apply lt_unwrap. intros (g', pl) Ed. assert (1 <= length blk <= 16)%nat as Lb by (unfold zlen in Bl; lia).
  destruct (decrypt_at key nonce header Kl Kb Nl Nb Hl g cs _ _ blk G ltac:(lia) Bb Lb) as (g1 & Ed1 & G1).
  rewrite Ed in Ed1. apply (f_equal (fun o => match o with Some v => v | None => (g', pl) end)) in Ed1. cbv beta iota in Ed1. pose proof (f_equal fst Ed1) as Eg. pose proof (f_equal snd Ed1) as Epl. cbn [fst snd] in Eg, Epl. subst g1. clear Ed Ed1.
  pose proof G as (_ & _ & _ & _ & _ & Hcs).
  assert (length pl = length blk) as Lpl by (rewrite Epl; apply (xor_ctr_len key nonce header); auto; lia).
  apply lt_tres; [intros; cbn [fst snd]; eauto|]. intros b1 E1. apply (extend_dbg _ _ _ _ _ H) in E1. rewrite <- app_assoc in E1.
  destruct (Z.eqb_spec (remain - Z.min 16 remain) 0) as [Ez|Nz].
  - apply lt_unwrap. intros (x, b2) E2.
    assert (concat (ctr_xor key nonce 1 cs) ++ pl <> []) as Ne by (destruct pl; [cbn [length] in Lpl; lia|destruct (concat _); discriminate]).
    assert (rest ++ concat (ctr_xor key nonce 1 cs) ++ pl <> []) as Ne' by (destruct rest; [exact Ne|discriminate]).
    pose proof (app_removelast_last 0 Ne) as Er. set (P := concat (ctr_xor key nonce 1 cs) ++ pl) in *.
    destruct (pop_dbg _ _ _ _ _ E1 Ne' E2) as (H2 & Ex). rewrite removelast_app in H2 by exact Ne. rewrite last_app_ne in Ex by exact Ne.
    cbn [lt fst snd]. exists (concat cs ++ blk), (removelast P), x. split; [reflexivity|].
    split; [apply (finish_stream key nonce header Kl Kb Nl Nb Hl Hb g' cs blk _ G1 Hcs Lb)|].
    split; [|split; [|split; [|split; [reflexivity|exact H2]]]].
    + rewrite Ex, <- Er. unfold P. rewrite Epl. rewrite (GCTR_blocks key nonce header) by (auto; lia). replace (1 + zlen cs + 1) with (zlen cs + 2) by lia. reflexivity.
    + rewrite (zlen_concat key nonce header Kl Nl Hl cs blk Hcs Lb). lia.
    + assert (zlen P = zlen (removelast P) + 1) as <- by (rewrite Er at 1; rewrite zlen_app; reflexivity). rewrite (zlen_concat key nonce header Kl Nl Hl cs blk Hcs Lb). unfold P. rewrite zlen_app.
      assert (length (concat (ctr_xor key nonce 1 cs)) = (16 * length cs)%nat) as Lx.
      { rewrite <- (ctr_xor_length key nonce 1 cs). assert (Forall byte16 (ctr_xor key nonce 1 cs)) as Hx by (apply (ctr_xor_byte16 key nonce header); auto). clear - Hx. induction Hx as [|a l (Ha & _) Hl IH]; [reflexivity|]. cbn [concat]. rewrite app_length, IH, Ha. cbn [length]. lia. }
      unfold zlen in *. lia.
  - assert (length blk = 16%nat) as L16 by (unfold zlen in Bl; lia). assert (padded blk = blk) as Ep by (unfold padded; rewrite L16; apply app_nil_r). rewrite Ep in G1.
    assert (zlen (cs ++ [blk]) = zlen cs + 1) as Lc by (rewrite zlen_app; reflexivity).
    eapply lt_mono; [assert (concat cs ++ blk = concat (cs ++ [blk])) as -> by (rewrite concat_app; cbn [concat]; now rewrite app_nil_r); apply (IH g' (cs ++ [blk]) (wadd rd (Z.min 16 remain)) (remain - Z.min 16 remain) b1)|].
    + rewrite Lc. replace (1 + (zlen cs + 1)) with (1 + zlen cs + 1) by lia. replace (16 * (zlen cs + 1)) with (16 * zlen cs + zlen blk) by lia. exact G1.
    + lia.
    + lia.
    + rewrite (ctr_xor_app key nonce header Kl Nl Hl), concat_app. cbn [concat]. rewrite app_nil_r. rewrite <- Epl. exact E1.
    + intros ([((ct, rd'), g2)|e], b2) gg Q; cbn [fst snd] in *; [|exact Q]. destruct Q as (C & p & x & Q0 & Q1 & Q2 & Q3 & Q4 & Q5 & Q6). exists C, p, x. split; [exact Q0|]. rewrite Lc in Q3. repeat (split; [assumption || lia|]). exact Q6.
Qed.

(** ** The client *)
Definition kq (c : TlsClient) : Prop := 0 <= ks_read_seq (tc_ks c) < 2 ^ 64.
(** The client holds the readable bytes [ad]. *)
Definition aq (c : TlsClient) (ad : list Z) : Prop := kq c /\ exists rest, holds (tc_rx c) (ad, rest).
Lemma aq_readable c ad : aq c ad -> readable c = ad.
Proof.
  intros (_ & rest & H). pose proof (reader_ok _ _ _ H) as X. unfold readable, tls_reader. destruct (b_app_data_reader _) as [r|]; [|now symmetry]. destruct X as (_ & E & _). exact E.
Qed.

Section Auth.
Variables (cx : Crypto) (fuel : nat) (cf : tconfig) (R : Rng -> Prop).
Hypothesis (CX : crypto_ok cx) (CF : tconfig_ok cf).
Notation inv := (inv cx cf R).
Notation good := (good cf).

Definition accepted (got : list Z) (traffic : option (list Z)) (seq : Z) (data : list Z) : Prop :=
  exists t pre record post, traffic = Some t /\ got = pre ++ record ++ post /\ opens cx t seq record = Some (data ++ [23]).
Lemma accepted_more g g' t q d : more g g' -> accepted g t q d -> accepted g' t q d.
Proof. intros (m & ->) (u & pre & r & post & E1 & -> & E2). exists u, pre, r, (post ++ m). split; [exact E1|]. split; [|exact E2]. now rewrite <- !app_assoc. Qed.
(** What may become of the readable bytes. *)
Definition grows (got : list Z) (traffic : option (list Z)) (seq : Z) (ad ad' : list Z) : Prop :=
  ad' = [] \/ ad' = ad \/ exists data, accepted got traffic seq data /\ ad' = ad ++ data.
Lemma grows_more g g' t q ad ad' : more g g' -> grows g t q ad ad' -> grows g' t q ad ad'.
Proof. intros M [H|[H|(d & H & E)]]; [now left|right; now left|]. right. right. exists d. split; [now apply (accepted_more g)|exact E]. Qed.
(** A result of a step from a client [c] with [ad] readable; [F]: a fragment is pending. *)
Definition on_step (c : TlsClient) (ad : list Z) (F : bool) {A E} (x : res E A * TlsClient) (got : list Z) : Prop :=
  exists ad', aq (snd x) ad' /\ (F = false \/ (exists a, fst x = Ok a) -> grows got (ks_server_traffic (tc_ks c)) (ks_read_seq (tc_ks c)) ad ad').
Lemma on_same c ad F {A E} (r : res E A) c' got : aq c' ad -> on_step c ad F (r, c') got.
Proof. intros H. exists ad. split; [exact H|]. intros _. right. now left. Qed.
Lemma lt_alert {A B} (p : AM A) now (k : A -> TlsClient -> TM B) got (P : _ -> list Z -> Prop) (Q : A -> TlsClient -> list Z -> Prop) (G : TlsClient -> Prop) :
  lt p got (fun x g => match fst x with Ok a => Q a (snd x) g | Err _ => G (snd x) end) -> (forall a c g, Q a c g -> lt (k a c) g P) ->
  (forall d c g, G c -> lt (send_fatal_alert cx c d now) g P) -> lt (or_alert cx p now k) got P.
Proof. intros H HQ HG. unfold or_alert. apply (lt_then _ _ _ _ _ H). intros ([a|e], c) g Hx; cbn [fst snd] in Hx; auto. Qed.
Lemma lf_alert' {A B} (p : AM A) now (k : A -> TlsClient -> TM B) got (P : _ -> list Z -> Prop) (Q : A -> TlsClient -> Prop) (G : TlsClient -> Prop) :
  lf p (fun x => match fst x with Ok a => Q a (snd x) | Err _ => G (snd x) end) -> (forall a c g, more got g -> Q a c -> lt (k a c) g P) ->
  (forall d c g, G c -> lt (send_fatal_alert cx c d now) g P) -> lt (or_alert cx p now k) got P.
Proof. intros H HQ HG. unfold or_alert. apply (lt_then _ _ _ _ _ (lt_lf _ _ got H)). intros ([a|e], c) g (Hx & M); cbn [fst snd] in Hx; auto. Qed.

Lemma aq_default c ad : aq c ad -> forall s t, aq (tc_set_st (tc_set_ks c (ks_reset cx (tc_ks c))) s t) ad.
Proof. intros (_ & H) s t. split; [unfold kq; cbn; lia|exact H]. Qed.
Lemma alert_auth {A} c ad d now : aq c ad -> lf (@send_fatal_alert cx A c d now) (fun x => (exists e, fst x = Err e) /\ aq (snd x) ad).
Proof.
  intros H. unfold send_fatal_alert, send_alert. apply lf_bind. apply lf_seq. intros [[]|e]; cbn [lf bind fst snd]; (split; [eauto|]); destruct H as (_ & H); (split; [unfold kq; cbn; lia|exact H]).
Qed.
Lemma alert_step {A} c0 c ad ad0 F d now : aq c ad -> ad = ad0 \/ F = true -> forall got, lt (@send_fatal_alert cx A c d now) got (on_step c0 ad0 F).
Proof.
  intros H HF got. apply (lt_mono _ _ _ _ (lt_lf _ _ got (alert_auth c ad d now H))). intros x g (((e & E) & H') & _). exists ad. split; [exact H'|]. intros [X|(a & X)]; [|congruence]. destruct HF as [-> |HF]; [right; now left|congruence].
Qed.

(** *** Handshake messages *)
Lemma message_rx c header reader hash now ad : aq c ad -> match recv_message cx c header reader hash now with TOk (_, c') => aq c' ad | _ => True end.
Proof.
  intros (K & H). assert (forall c', tc_rx c' = tc_rx c -> 0 <= ks_read_seq (tc_ks c') < 2 ^ 64 -> aq c' ad) as X by (intros c' E1 E2; split; [exact E2|rewrite E1; exact H]). unfold kq in K.
  unfold recv_message, initialize_handshake_secret, h_try. destruct (hh_msg_type header) as [ty|]; [|apply X; auto].
  repeat match goal with
  | |- match (if ?b then _ else _) with _ => _ end => destruct b
  | |- match (match ?b with _ => _ end) with _ => _ end => destruct b eqn:?
  end; auto; apply X; auto; cbn; try lia.
  match goal with E : match shared_secret _ _ with _ => _ end = _ |- _ => destruct (shared_secret _ _) in E; [|discriminate E]; injection E as <- end. cbn. lia.
Qed.
Lemma handshake_rx now : forall n c ad, aq c ad -> match recv_handshake cx n c now with TOk (_, c') => aq c' ad | _ => True end.
Proof.
  induction n as [|n IH]; intros c ad H; cbn [recv_handshake]; pose proof H as (K & rest & H1); destruct (b_pop_handshake_record _ _) as [[(((h, r), hash), rx)|]|e| |] eqn:Ep; auto.
  destruct (record_holds _ _ _ _ _ _ _ _ H1 Ep) as (rest' & H2). assert (aq (tc_set_rx c rx) ad) as A1 by (split; [exact K|exists rest'; exact H2]).
  pose proof (message_rx (tc_set_rx c rx) h r hash now ad A1) as M. destruct (recv_message _ _ _ _ _ _) as [([u|e], c')|e| |]; auto. apply IH. exact M.
Qed.

(** *** The body of a record *)
Definition rx_of (c : TlsClient) (x : list Z) (c' : TlsClient) (ad : list Z) : Prop := tc_ks c' = tc_ks c /\ holds (tc_rx c') (ad, x).
Lemma loop_rx c0 ad rest : forall n reader remain c src, rx_of c0 (rest ++ src) c ad -> 0 <= remain ->
  lf (recv_body_loop true n reader remain c) (fun x => match fst x with Ok _ => exists src', zlen src' = zlen src + remain /\ rx_of c0 (rest ++ src') (snd x) ad | Err _ => exists rest', rx_of c0 rest' (snd x) ad end).
Proof.
  induction n as [|n IH]; intros reader remain c src H Hr; cbn [recv_body_loop]; destruct (Z.eqb_spec (Z.min remain 64) 0) as [Ez|Nz]; cbn [lf fst snd]; try exact I.
  1,2: exists src; split; [lia|exact H].
  apply (lf_io _ _ _ _ _ _ (lf_read_exact reader (Z.min remain 64))); [intros; cbn [fst snd]; eauto|]. intros (d, r') (L & B). cbn [fst] in L, B.
  apply lf_tres; [intros; cbn [fst snd]; eauto|]. intros rx E. destruct H as (H1 & H2). apply (extend_dbg _ _ _ _ _ H2) in E. rewrite <- app_assoc in E.
  eapply lf_mono; [apply (IH r' (remain - Z.min remain 64) (tc_set_rx c rx) (src ++ d)); [split; [exact H1|exact E]|lia]|].
  intros ([rd|e], c') Q; cbn [fst snd] in *; [|exact Q]. destruct Q as (src' & Q1 & Q2). exists src'. split; [rewrite Q1, zlen_app; lia|exact Q2].
Qed.
Lemma rh_length_range h : bytes_ok h -> 0 <= rh_length h <= 65535.
Proof. intros B. unfold rh_length, of_be16. pose proof (bytes_nth 3 h B). pose proof (bytes_nth 4 h B). unfold is_u8, at_ in *. lia. Qed.
(** What a body leaves in the buffer: plaintext, or the content of a record that passes the authentication. *)
Definition on_rx (got : list Z) (c : TlsClient) (h : RecordHeader) (ad rest : list Z) (x : res Z ContentType * TlsClient) (got' : list Z) : Prop :=
  match fst x with
  | Ok ct =>
      (rh_content_type h <> 23 /\ ct = rh_content_type h /\ exists src, zlen src = rh_length h /\ rx_of c (rest ++ src) (snd x) ad) \/
      (rh_content_type h = 23 /\ exists (pl t body post : list Z), let record := (h : list Z) ++ body in zlen pl = rh_length h - 17 /\ got' = got ++ body ++ post /\ ks_server_traffic (tc_ks c) = Some t /\ opens cx t (ks_read_seq (tc_ks c)) record = Some (pl ++ [ct : Z]) /\ rx_of c (rest ++ pl) (snd x) ad)
  | Err _ => exists rest', rx_of c rest' (snd x) ad
  end.
Lemma body_rx c h ad rest : kq c -> holds (tc_rx c) (ad, rest) -> zlen h = 5 -> bytes_ok h -> forall got, lt (recv_body cx true c h) got (on_rx got c h ad rest).
Proof.
  intros K H Lh Bh got. pose proof (rh_length_range h Bh) as Hrl. assert (exists rest', rx_of c rest' c ad) as Same by (exists rest; split; [reflexivity|exact H]). unfold recv_body. destruct (Z.eqb_spec (rh_content_type h) ApplicationData) as [Ea|Na].
  - unfold server_key_and_nonce. destruct (ks_server_traffic (tc_ks c)) as [t|] eqn:Et; [|exact Same].
    destruct (nonce_eq cx t (ks_read_seq (tc_ks c)) CX K) as (En & K1 & K2 & K3 & K4). rewrite En. set (key := traffic_key cx t) in *. set (nc := nonce cx t _) in *.
    assert (length h = 5%nat) as Lh' by (unfold zlen in Lh; lia).
    apply (lt_then _ _ _ _ (fun x got' => match fst x with
      | Ok ct => exists pl tp body post, let record := (h : list Z) ++ body in zlen pl = rh_length h - 17 /\ got' = got ++ body ++ post /\ opens cx t (ks_read_seq (tc_ks c)) record = Some (pl ++ [tp]) /\ ct = content_type_try_from tp /\ holds (snd x) (ad, rest ++ pl)
      | Err _ => exists rest', holds (snd x) (ad, rest') end)).
    + unfold decrypt_record_inplace. apply lt_io_off; [apply off_rsr|intros; cbn [fst snd]; eauto|]. intros rsr. destruct (_ <? _); [cbn [lt fst snd]; eauto|].
      apply lt_io_off; [apply off_rd|intros; cbn [fst snd]; eauto|]. intros rd. set (remain := Z.max 0 _). destruct (Z.eqb_spec remain 0) as [|Nz]; [cbn [lt fst snd]; eauto|].
      assert (0 < remain < 65534 /\ remain = rh_length h - 16) as (Hr & Er) by (unfold remain, GCM_TAG_LEN in *; lia).
      rewrite <- (app_nil_r got). refine (lt_then _ _ _ _ _ (decrypt_auth (tc_sn c) key nc h K1 K2 K3 K4 Lh' Bh ad rest (Z.to_nat remain) _ [] rd remain (tc_rx c) (gcm_new_at key nc h) _ (proj1 Hr) _ got) _).
      * change (zlen (@nil (list Z))) with 0. lia.
      * cbn [ctr_xor concat]. rewrite app_nil_r. exact H.
      * intros ([((ct, rd'), g)|e], b) gg Q; cbn [fst snd] in *; [|exact Q]. destruct Q as (C & pl & x & -> & Q1 & Q2 & Q3 & Q4 & Q5 & Q6).
        apply (lt_io _ _ _ _ _ _ _ (lt_rx_buf (tc_sn c) rd' 16 _)); [intros; cbn [fst snd]; eauto|]. intros tag gg (Lt & Bt & ->).
        apply lt_io_off; [apply off_write|intros; cbn [fst snd]; eauto|]. intros ?. apply lt_io_off; [apply off_write|intros; cbn [fst snd]; eauto|]. intros ?. apply lt_io_off; [apply off_write|intros; cbn [fst snd]; eauto|]. intros ?.
        destruct (list_eq_dec _ _ _) as [Eq|]; cbn [lt fst snd]; [|eauto]. change (zlen (@nil (list Z))) with 0 in Q3.
        exists pl, x, (C ++ tag), []. cbv zeta. split; [lia|]. split; [now rewrite !app_nil_r, <- !app_assoc|]. split; [|split; [exact Q5|exact Q6]]. unfold opens. fold key nc.
        rewrite zdrop_app_r, ztake_app_l, ztake_all by lia. rewrite Lh, Z.sub_diag, zdrop_0, zlen_app. replace (zlen C + zlen tag - 16) with (zlen C) by lia.
        rewrite ztake_app_l, ztake_all, zdrop_app_r, Z.sub_diag, zdrop_0 by lia. unfold gcm_decrypt. rewrite <- Q1, <- Eq.
        destruct (list_eq_dec Z.eq_dec _ _) as [_|Ne]; [|contradiction]. now rewrite Q2.
    + intros ([ct|e], rx) gg Q; cbn [fst snd] in Q.
      * destruct Q as (pl & tp & body & post & Q1 & Q0 & Q2 & Q3 & Q4). destruct ct as [ct|]; cbn [lt]; unfold on_rx; cbn [fst snd]; [|exists (rest ++ pl); split; [reflexivity|exact Q4]].
        right. split; [exact Ea|]. exists pl, t, body, post. split; [exact Q1|]. split; [exact Q0|]. split; [exact Et|]. split; [|split; [reflexivity|exact Q4]].
        rewrite Q2. f_equal. f_equal. f_equal. unfold content_type_try_from in Q3. destruct (_ && _) in Q3; [now injection Q3|discriminate].
      * destruct Q as (rest' & Q). cbn [lt]. exists rest'. split; [reflexivity|exact Q].
  - assert (forall x, match fst x with Ok ct => rh_content_type h <> 23 /\ ct = rh_content_type h /\ exists src, zlen src = rh_length h /\ rx_of c (rest ++ src) (snd x) ad | Err _ => exists rest', rx_of c rest' (snd x) ad end -> forall g, on_rx got c h ad rest x g) as Plain.
    { intros ([ct|e], c2) Q g; [left|]; exact Q. }
    refine (lt_mono _ _ _ _ (lt_lf _ (fun x => match fst x with Ok ct => rh_content_type h <> 23 /\ ct = rh_content_type h /\ exists src, zlen src = rh_length h /\ rx_of c (rest ++ src) (snd x) ad | Err _ => exists rest', rx_of c rest' (snd x) ad end) got _) (fun x g Q => Plain x (proj1 Q) g)).
    apply lf_bind. unfold recv_unencrypted_body. apply lf_io_any; [intros; exact Same|]. intros reader.
    refine (lf_then _ _ _ _ (loop_rx c ad rest _ reader (rh_length h) c [] _ (proj1 Hrl)) _); [rewrite app_nil_r; split; [reflexivity|exact H]|].
    intros ([r2|e], c2) Q; cbn [fst snd] in Q.
    + destruct Q as (src & Q1 & Q2). apply lf_io_any; [intros; exists (rest ++ src); exact Q2|]. intros _. cbn [lf]. split; [exact Na|]. split; [reflexivity|]. exists src. split; [exact Q1|exact Q2].
    + cbn [lf]. exact Q.
Qed.

(** *** Records *)
Lemma alert_rx c ad rest src h : kq c -> holds (tc_rx c) (ad, rest ++ src) -> (rh_length h = 2 -> zlen src = 2) ->
  lf (recv_alert cx true c h) (fun x => exists ad', aq (snd x) ad' /\ (ad' = [] \/ ad' = ad)).
Proof.
  intros K H Hl. unfold recv_alert. set (c1 := tc_set_ks _ _).
  assert (forall c2 rx, tc_ks c2 = tc_ks c1 -> tc_rx c2 = b_reset rx -> (exists q, holds rx q) -> exists ad', aq c2 ad' /\ (ad' = [] \/ ad' = ad)) as Clear.
  { intros c2 rx E1 E2 (q & Hq). exists []. split; [|now left]. split; [unfold kq; rewrite E1; cbn; lia|]. exists []. rewrite E2. exact (holds_reset _ _ Hq). }
  destruct (Z.eqb_spec (rh_length h) 2) as [E2|]; cbn [negb].
  2:{ apply lf_seq. intros _. cbn [lf snd]. eapply Clear; [reflexivity|reflexivity|]. eauto. }
  specialize (Hl E2). destruct src as [|x [|y [|]]]; try (unfold zlen in Hl; cbn [length] in Hl; lia).
  assert (rest ++ [x; y] <> [] /\ rest ++ [x] <> [] /\ removelast (rest ++ [x; y]) = rest ++ [x]) as (R1 & R2 & R3).
  { split; [destruct rest; discriminate|]. split; [destruct rest; discriminate|]. change [x; y] with ([x] ++ [y]). rewrite app_assoc. apply removelast_last. }
  destruct (b_pop_tail (tc_rx c1)) as [(b1, rx1)|] eqn:P1; [|cbn [lf snd]; eapply Clear; [reflexivity|reflexivity|eauto]].
  destruct (pop_dbg _ _ _ _ _ H R1 P1) as (H1 & _). rewrite R3 in H1.
  assert (exists ad', aq (tc_set_rx c1 rx1) ad' /\ (ad' = [] \/ ad' = ad)) as D1 by (exists ad; split; [split; [unfold kq; cbn; lia|exists (rest ++ [x]); exact H1]|now right]).
  destruct (description_try_from b1); [|exact D1]. cbn [tc_rx tc_set_rx].
  destruct (b_pop_tail rx1) as [(b2, rx2)|] eqn:P2; [|cbn [lf snd]; eapply Clear; [reflexivity|reflexivity|eauto]].
  destruct (pop_dbg _ _ _ _ _ H1 R2 P2) as (H2 & _).
  cbn [lf snd]. eapply Clear; [reflexivity|reflexivity|eauto].
Qed.
Lemma content_rx c h ad rest src ct now : kq c -> holds (tc_rx c) (ad, rest ++ src) -> (ct = ChangeCipherSpec -> rh_length h = 1 -> zlen src = 1) ->
  lf (recv_content cx c h ct now) (fun x => aq (snd x) ad).
Proof.
  intros K H Hl. assert (aq c ad) as A by (split; [exact K|eauto]).
  assert (forall c1 d, aq c1 ad -> lf (@send_fatal_alert cx (option TEvent) c1 d now) (fun x => aq (snd x) ad)) as AL by (intros c1 d A1; apply (lf_mono _ _ _ (alert_auth c1 ad d now A1)); intros x Hx; apply Hx).
  unfold recv_content. destruct (Z.eqb_spec ct ChangeCipherSpec) as [Ec|_].
  - apply (lf_alert _ _ _ _ _ (fun _ c' => aq c' ad) (fun c' => aq c' ad)); [|intros _ c' H'; exact H'|intros d c' H'; now apply AL].
    unfold recv_change_cipher_spec. destruct (Z.eqb_spec (rh_length h) 1) as [E1|]; cbn [negb]; [|exact A]. specialize (Hl Ec E1). destruct src as [|x [|]]; try (unfold zlen in Hl; cbn [length] in Hl; lia).
    destruct (b_pop_tail (tc_rx c)) as [(v, rx)|] eqn:P; [|exact A]. destruct (pop_dbg _ _ _ _ _ H ltac:(destruct rest; discriminate) P) as (H1 & _). rewrite removelast_last in H1.
    assert (aq (tc_set_rx c rx) ad) as A1 by (split; [exact K|exists rest; exact H1]). destruct (negb _); exact A1.
  - destruct (ct =? CtHandshake).
    + pose proof (handshake_rx now (Z.to_nat (b_N (tc_rx c))) c ad A) as Q. destruct (recv_handshake _ _ _ _) as [([u|e], c')|e| |]; cbn [lf]; auto.
    + destruct (tstate_eqb _ _); [exact A|now apply AL].
Qed.
Lemma publish_dbg b ad rest n b' : holds b (ad, rest) -> 0 <= n <= zlen rest -> b_increment_application_data_tail true b n = TOk b' -> holds b' (ad ++ ztake n rest, zdrop n rest).
Proof. intros H Hn E. destruct (publish_ok true b ad rest n H Hn) as (b1 & E1 & H1 & _). rewrite E in E1. injection E1 as <-. exact H1. Qed.
Lemma recv_rx c ad rest now : kq c -> holds (tc_rx c) (ad, rest) -> forall got, lt (tls_recv cx true c now) got (on_step c ad (b_contains_handshake_fragment (tc_rx c))).
Proof.
  intros K H got. assert (aq c ad) as A by (split; [exact K|eauto]). unfold tls_recv.
  apply (lt_alert _ _ _ _ _ (fun h c' g => c' = c /\ match h with Some h => zlen h = 5 /\ bytes_ok h /\ exists pre, g = pre ++ h | None => True end) (fun c' => c' = c)).
  - unfold recv_header. unfold a_io at 1. apply lt_seq. intros [r|e] got0 _; [|reflexivity]. apply (lt_io _ _ _ _ _ _ _ (lt_read_exact r 5 got0)); [intros; reflexivity|]. intros (d, r') gg (L & B & ->). cbn [fst] in L, B |- *.
    apply lt_tres; [intros; reflexivity|]. intros h E. assert (h = d) as -> by (unfold rh_deser in E; destruct (content_type_try_from _) in E; [now injection E as <-|discriminate]).
    destruct (_ <? _); [reflexivity|]. destruct (_ <? _); [cbn; auto|]. apply lt_io_off; [apply off_done|intros; reflexivity|]. intros _. cbn [lt fst snd]. split; [reflexivity|]. split; [exact L|]. split; [exact B|]. exists got0. reflexivity.
  - intros [h|] c' got1 (-> & Hh); [|cbn [lt]; now apply on_same]. destruct Hh as (Lh & Bh & gpre & Eg). pose proof (rh_length_range h Bh) as Hrl.
    set (frag := b_contains_handshake_fragment (tc_rx c)). pose proof (fragment_iff _ _ _ H : frag = _) as Ef.
    apply (lt_alert _ _ _ _ _ (fun ct c' g => on_rx got1 c h ad rest (Ok ct, c') g) (fun c' => exists rest', rx_of c rest' c' ad)).
    + apply (lt_mono _ _ _ _ (body_rx c h ad rest K H Lh Bh got1)). intros ([ct|e], c') g Q; exact Q.
    + intros ct c' got2 Q. unfold on_rx in Q. cbn [fst snd] in Q.
      assert (forall rx (ad' : list Z) src, holds rx (ad', src) -> (ad' = ad \/ (frag = false -> grows got2 (ks_server_traffic (tc_ks c)) (ks_read_seq (tc_ks c)) ad ad') /\ ct = 23) ->
        (ct <> 23 -> exists rs, src = rest ++ rs /\ (rh_length h = 2 -> zlen rs = 2) /\ (rh_length h = 1 -> zlen rs = 1)) -> tc_ks c' = tc_ks c ->
        lt (let c0 := tc_set_rx c' rx in
          if frag && negb (ct =? CtHandshake) then send_fatal_alert cx c0 UnexpectedMessage now
          else if ct =? CtAlert then x <-- recv_alert cx true c0 h ;; let '(e, c) := x in Ret (Err e, c)
          else x <-- recv_content cx c0 h ct now ;; let '(r, c) := x in
            if rh_content_type h =? ApplicationData then
              match increment_read (tc_ks c) with TOk ks => Ret (r, tc_set_ks c ks) | _ => Panic end
            else Ret (r, c)) got2 (on_step c ad frag)) as Go.
      { intros rx ad' src Hx Hg Hp Ek. cbv zeta. set (c0 := tc_set_rx c' rx). assert (kq c0) as K0 by (unfold kq; cbn [tc_ks tc_set_rx c0]; rewrite Ek; exact K).
        assert (aq c0 ad') as A0 by (split; [exact K0|exists src; exact Hx]).
        assert (frag = false -> grows got2 (ks_server_traffic (tc_ks c)) (ks_read_seq (tc_ks c)) ad ad') as Hg' by (destruct Hg as [-> |(Hg & _)]; [intros _; right; now left|exact Hg]).
        destruct (frag && negb (ct =? CtHandshake)) eqn:Ff.
        { apply andb_prop in Ff. destruct Ff as (Ff & _). apply (alert_step c c0 ad' ad frag); [exact A0|now right]. }
        assert (ct = 23 -> frag = false) as F23 by (intros ->; destruct frag; [discriminate|reflexivity]).
        destruct (Z.eqb_spec ct CtAlert) as [E21|].
        - destruct Hg as [-> |(_ & X)]; [|exfalso; unfold CtAlert in E21; congruence]. destruct (Hp ltac:(unfold CtAlert in E21; lia)) as (rs & -> & L2 & _).
          apply (lt_then _ _ _ _ _ (lt_lf _ _ _ (alert_rx c0 ad rest rs h K0 Hx L2))). intros (e, c2) g ((ad2 & A2 & D) & _). cbn [lt snd] in *. exists ad2. split; [exact A2|]. intros _. destruct D as [-> | ->]; [now left|right; now left].
        - assert (exists r1 r2, src = r1 ++ r2 /\ (ct = ChangeCipherSpec -> rh_length h = 1 -> zlen r2 = 1)) as (r1 & r2 & -> & L1).
          { destruct (Z.eq_dec ct 23) as [E|E]; [exists src, []; split; [now rewrite app_nil_r|]; intros E' _; unfold ChangeCipherSpec in E'; lia|]. destruct (Hp E) as (rs & -> & _ & L1). exists rest, rs. split; [reflexivity|]. intros _. exact L1. }
          apply (lt_then _ _ _ _ _ (lt_lf _ _ _ (content_rx c0 h ad' r1 r2 ct now K0 Hx L1))). intros (r, c2) g (A2 & M). cbn [snd] in A2.
          assert (forall c3, aq c3 ad' -> on_step c ad frag (r, c3) g) as Fin.
          { intros c3 A3. exists ad'. split; [exact A3|]. intros Hf. destruct Hg as [-> |(Hg & Ec)]; [right; now left|]. apply (grows_more got2 g _ _ _ _ M), Hg, F23, Ec. }
          destruct (rh_content_type h =? ApplicationData); [|now apply Fin]. unfold increment_read. destruct (Z.eqb_spec (ks_read_seq (tc_ks c2)) U64_MAX) as [|Nm]; [exact I|]. cbn [lt]. apply Fin.
          destruct A2 as (K2 & H2). split; [|exact H2]. unfold kq, U64_MAX in *. cbn. change (2 ^ 64) with 18446744073709551616 in K2. lia. }
      destruct Q as [(Na & Ec & src & Ls & Ek & Hs)|(Ea & pl & t & body & post & Lp & Eg2 & Et & Eo & Ek & Hs)].
      * assert (ct <> 23) as N23 by (rewrite Ec; exact Na). destruct (Z.eqb_spec ct ApplicationData) as [E|_]; [contradiction|]. refine (Go (tc_rx c') ad (rest ++ src) Hs (or_introl eq_refl) _ Ek).
        intros _. exists src. split; [reflexivity|]. split; intros X; lia.
      * pose proof (zlen_nonneg pl). pose proof (zlen_nonneg rest). destruct (Z.eqb_spec ct ApplicationData) as [E|N23].
        2:{ refine (Go (tc_rx c') ad (rest ++ pl) Hs (or_introl eq_refl) _ Ek). intros _. exists pl. split; [reflexivity|]. split; intros X; lia. }
        destruct (b_increment_application_data_tail _ _ _) as [rx|e| |] eqn:Ei; try exact I.
        replace (Z.max 0 (rh_length h - (GCM_TAG_LEN + 1))) with (zlen pl) in Ei by (unfold GCM_TAG_LEN; lia).
        assert (0 <= zlen pl <= zlen (rest ++ pl)) as Hpl  by (rewrite zlen_app; lia). apply (publish_dbg _ _ _ _ _ Hs Hpl) in Ei.
        refine (Go rx _ _ Ei (or_intror (conj _ E)) (fun X => False_ind _ (X E)) Ek).
        intros Ff. rewrite Ef in Ff. destruct (Z.eqb_spec (zlen rest) 0) as [Er|]; [|discriminate]. destruct rest; [|unfold zlen in Er; cbn [length] in Er; lia]. cbn [app]. rewrite ztake_all by lia.
        right. right. exists pl. split; [|reflexivity]. exists t, gpre, (h ++ body), post. split; [exact Et|]. split; [rewrite Eg2, Eg, <- !app_assoc; reflexivity|]. rewrite Eo, E. reflexivity.
    + intros d c' g (rest' & Ek & Hs). apply (alert_step c c' ad ad frag); [|now left]. split; [unfold kq; rewrite Ek; exact K|eauto].
  - intros d c' g ->. apply (alert_step c c ad ad); [exact A|now left].
Qed.

(** *** One call of [process] *)
(** A result of a step from [c] with [ad] readable, when what came in between counts from [c0], [ad0]. *)
Lemma check_rx c0 c ad ad0 F now got : aq c ad -> ad = ad0 \/ (F = false \/ True -> grows got (ks_server_traffic (tc_ks c0)) (ks_read_seq (tc_ks c0)) ad0 ad) -> lt (check_timeout cx c now) got (on_step c0 ad0 F).
Proof.
  intros A Hg. assert (forall (r : res TError TEvent) c', aq c' ad -> on_step c0 ad0 F (r, c') got) as Fin.
  { intros r c' A'. exists ad. split; [exact A'|]. intros X. destruct Hg as [-> |Hg]; [right; now left|]. apply Hg. now right. }
  unfold check_timeout. destruct (tc_timeout c) as [to|]; [|now apply Fin]. destruct (_ <? _); [exact I|]. destruct (_ <? _); [|now apply Fin].
  destruct (tstate_eqb _ _); apply Fin; [apply aq_default; exact A|]. exact A.
Qed.
Lemma finished_rx c ad : aq c ad -> lf (send_client_finished cx c) (fun x => aq (snd x) ad).
Proof.
  intros A. unfold send_client_finished. apply lf_tres; [intros; exact A|]. intros vd _. apply lf_io_any; [intros; exact A|]. intros _. cbn [lf snd]. destruct A as (_ & A). split; [unfold kq; cbn; lia|exact A].
Qed.
Lemma process_rx_rx c ad rest now : kq c -> holds (tc_rx c) (ad, rest) -> forall got, lt (process_rx cx true c now) got (on_step c ad (b_contains_handshake_fragment (tc_rx c))).
Proof.
  intros K H got. assert (aq c ad) as A by (split; [exact K|eauto]). unfold process_rx. destruct (_ || _); [apply (check_rx c c ad ad); auto|].
  apply (lf_alert' _ _ _ _ _ (fun _ c' => c' = c) (fun c' => c' = c)).
  - apply lf_io_any; [intros; reflexivity|]. intros rsr. reflexivity.
  - intros rsr c' g _ ->. apply (lt_then _ _ _ _ (on_step c ad (b_contains_handshake_fragment (tc_rx c)))).
    + destruct (_ <=? _); [exact (recv_rx c ad rest now K H g)|]. cbn [lt]. now apply on_same.
    + intros ([[e|]|e], c') gg X.
      * cbn [lt]. destruct X as (ad' & X1 & X2). exists ad'. split; [exact X1|]. intros _. apply X2. right. cbn [fst]. eauto.
      * destruct X as (ad' & X1 & X2). cbn [fst snd] in *. specialize (X2 (or_intror (ex_intro _ _ eq_refl))).
        destruct (tstate_eqb (tc_state c') TSendFinished); [|apply (check_rx c c' ad' ad); auto].
        assert (forall A (r : res TError A) c2 g2, more gg g2 -> aq c2 ad' -> on_step c ad (b_contains_handshake_fragment (tc_rx c)) (r, c2) g2) as Fin by (intros B r c2 g2 M A2; exists ad'; split; [exact A2|intros _; exact (grows_more gg g2 _ _ _ _ M X2)]).
        unfold or_alert. apply (lt_then _ _ _ _ _ (lt_lf _ _ gg (finished_rx c' ad' X1))). intros ([u|d], c2) g2 (A2 & M); cbn [snd] in A2; [now apply Fin|].
        apply (lt_mono _ _ _ _ (lt_lf _ _ g2 (alert_auth c2 ad' d now A2))). intros (r, c3) g3 ((_ & A3) & M'). apply Fin; [exact (more_trans _ _ _ M M')|exact A3].
      * cbn [lt]. destruct X as (ad' & X1 & X2). exists ad'. split; [exact X1|]. intros [Ff|(a & Ea)]; [apply X2; now left|discriminate Ea].
  - intros d c' g ->. apply (alert_step c c ad ad); [exact A|now left].
Qed.
Lemma state_rx c ad rest now : kq c -> holds (tc_rx c) (ad, rest) -> forall got, lt (process_state cx true fuel c now) got (on_step c ad (b_contains_handshake_fragment (tc_rx c))).
Proof.
  intros K H got. assert (aq c ad) as A by (split; [exact K|eauto]). unfold process_state. destruct (tc_state c); try exact (process_rx_rx c ad rest now K H got).
  - apply (lf_alert' _ _ _ _ _ (fun k c' => aq c' ad) (fun c' => aq c' ad)).
    + unfold tls_tcp_connect. apply lf_io_any; [intros; exact A|]. intros _. apply lf_unwrap. intros size _. repeat (apply lf_io_any; [intros; exact A|]; intros ?). exact A.
    + intros k c' g _ A'. cbn [lt]. now apply on_same.
    + intros d c' g A'. apply (alert_step c c' ad ad); [exact A'|now left].
  - apply (lf_alert' _ _ _ _ _ (fun _ c' => c' = c) (fun c' => c' = c)).
    + apply lf_io_any; [intros; reflexivity|]. intros _. reflexivity.
    + intros _ c' g _ ->. cbn [lt]. apply on_same. exact A.
    + intros d c' g ->. apply (alert_step c c ad ad); [exact A|now left].
Qed.
Lemma interrupts_rx c ir ad rest now : kq c -> holds (tc_rx c) (ad, rest) -> forall got, lt (process_interrupts cx true fuel c ir now) got (on_step c ad (b_contains_handshake_fragment (tc_rx c))).
Proof.
  intros K H got. assert (aq c ad) as A by (split; [exact K|eauto]). unfold process_interrupts. destruct (SocketInterrupt_discon_raised ir).
  - destruct (negb _); cbn [lt]; apply on_same; [apply aq_default|]; exact A.
  - destruct (SocketInterrupt_timeout_raised ir); [cbn [lt]; apply on_same, aq_default, A|]. destruct (_ && _); [|exact (state_rx c ad rest now K H got)]. cbn [lt]. apply on_same, aq_default, A.
Qed.
(** The ClientHello empties the buffer. *)
Lemma hello_rx c rng now : good c -> R rng -> rng_ok rng -> kq c -> lf (send_client_hello cx true c rng now) (fun x => kq (snd x) /\ holds (tc_rx (snd x)) ([], []) /\
  match fst x with Ok _ => ks_server_traffic (tc_ks (snd x)) = ks_server_traffic (tc_ks c) /\ ks_read_seq (tc_ks (snd x)) = 0 | Err _ => True end).
Proof.
  intros G HR Hr K. pose proof (N_ok cf CF) as HN.
  assert (lf (send_client_hello cx true c rng now) (fun x => good (snd x))) as L1 by (apply (lf_mono _ _ _ (client_hello cx true cf R CX CF c rng now G HR Hr)); intros ([u|e], c') X; [exact (proj1 (proj1 X))|exact X]).
  assert (forall c', good c' -> (b_head (tc_rx c') = 0 /\ b_ad_tail (tc_rx c') = 0 /\ b_hs_head (tc_rx c') = 0 /\ b_tail (tc_rx c') = 0) -> holds (tc_rx c') ([], [])) as Hz.
  { intros c' (_ & _ & _ & W & _) (E1 & E2 & E3 & E4). unfold holds, in_range, q_size, b_N. rewrite E1, E2, E3, E4. cbn [fst snd]. change (zlen (@nil Z)) with 0. rewrite W. rewrite Z.mod_0_l by lia. cbn [app ring]. repeat split; lia. }
  assert (lf (send_client_hello cx true c rng now) (fun x => kq (snd x) /\ (b_head (tc_rx (snd x)) = 0 /\ b_ad_tail (tc_rx (snd x)) = 0 /\ b_hs_head (tc_rx (snd x)) = 0 /\ b_tail (tc_rx (snd x)) = 0) /\
    match fst x with Ok _ => ks_server_traffic (tc_ks (snd x)) = ks_server_traffic (tc_ks c) /\ ks_read_seq (tc_ks (snd x)) = 0 | Err _ => True end)) as L2.
  { destruct G as (G1 & G2 & G3 & (W & _)). destruct Hr as (R1 & R2 & R3 & R4). pose proof CF as (C1 & _ & C3 & C4 & C5). unfold send_client_hello, new_client_secret.
    apply lf_tres; [intros; cbn [fst snd]; auto 10|]. intros buf Eb. assert (buf = b_buf (tc_rx c)) as -> by (unfold b_as_buf in Eb; destruct (_ && _) in Eb; [discriminate|]; now injection Eb as <-).
    set (c1 := tc_set_ks _ _). set (ks1 := mkKS _ _ _ _ _ _ _ _ _) in *.
    pose proof (hello_ok cx (b_buf (tc_rx c)) (rg_random rng) (tc_hostname c1) (rg_public rng) ks1 (tc_psk c1) (tc_identity c1) (RECORD_SIZE_LIMIT c1) CX R1 R3 ltac:(change (tc_hostname c1) with (tc_hostname c); rewrite G1; exact C1) ltac:(rewrite W; lia)) as (F1 & F2).
    destruct (Z.leb_spec (zlen (hello_record (mkHello (rg_random rng) (tc_hostname c1) (rg_public rng) (RECORD_SIZE_LIMIT c1) (tc_identity c1)) (zeros 32))) (zlen (b_buf (tc_rx c)))) as [Fit|Over].
    2:{ change (tc_ks c1) with ks1. rewrite (F2 Over). exact I. }
    destruct (F1 Fit) as (b & ks' & Lb & Bb & Es & Ek). change (tc_ks c1) with ks1. rewrite Es. clear F1 F2 Es Bb. cbn [a_tres]. subst ks'.
    apply lf_io_any; [intros; cbn [fst snd]; auto 10|]. intros w. apply lf_io_any; [intros; cbn [fst snd]; auto 10|]. intros w'. apply lf_io_any; [intros; cbn [fst snd]; auto 10|]. intros _.
    apply lf_tres; [intros; cbn [fst snd]; auto 10|]. intros ks2 Ei. cbn [lf fst snd]. unfold increment_write in Ei. destruct (_ =? _) in Ei; [discriminate|]. injection Ei as <-.
    unfold kq. cbn. split; [lia|]. auto 10. }
  apply (lf_mono _ _ _ (lf_and _ _ _ L1 L2)). intros x (G' & K' & P & Q). split; [exact K'|]. split; [apply Hz; assumption|exact Q].
Qed.
(** After the call. *)
Definition on_call (c : TlsClient) (ad : list Z) {A} (x : res TError A * TlsClient) (got : list Z) : Prop :=
  exists ad', aq (snd x) ad' /\
    (b_contains_handshake_fragment (tc_rx c) = false \/ (exists a, fst x = Ok a) ->
     grows got (ks_server_traffic (tc_ks c)) (ks_read_seq (tc_ks c)) ad ad' \/ exists data, accepted got (ks_server_traffic (tc_ks c)) 0 data /\ ad' = data).
Lemma step_call c ad {A} (x : res TError A * TlsClient) got : on_step c ad (b_contains_handshake_fragment (tc_rx c)) x got -> on_call c ad x got.
Proof. intros (ad' & X1 & X2). exists ad'. split; [exact X1|]. intros Y. left. exact (X2 Y). Qed.
Lemma process_auth c rng now ad rest : good c -> R rng -> rng_ok rng -> kq c -> holds (tc_rx c) (ad, rest) -> forall got, lt (tls_process cx true fuel c rng now) got (on_call c ad).
Proof.
  intros G HR Hr K H got0. assert (aq c ad) as A by (split; [exact K|eauto]). unfold tls_process. apply lt_seq. intros r got _. set (ir := match r with Ok v => v | Err _ => 0 end). clearbody ir.
  destruct (SocketInterrupt_any_raised ir); [|apply (lt_mono _ _ _ _ (state_rx c ad rest now K H got)); intros x g; apply step_call].
  apply (lf_alert' _ _ _ _ _ (fun _ c' => c' = c) (fun c' => c' = c)).
  - apply lf_io_any; [intros; reflexivity|]. intros _. reflexivity.
  - intros _ c' g _ ->. destruct (SocketInterrupt_con_raised ir); [|apply (lt_mono _ _ _ _ (interrupts_rx c ir ad rest now K H g)); intros x gg; apply step_call].
    apply (lf_alert' _ _ _ _ _ (fun _ c1 => kq c1 /\ holds (tc_rx c1) ([], []) /\ ks_server_traffic (tc_ks c1) = ks_server_traffic (tc_ks c) /\ ks_read_seq (tc_ks c1) = 0) (fun c1 => kq c1 /\ holds (tc_rx c1) ([], []))).
    + apply (lf_mono _ _ _ (hello_rx c rng now G HR Hr K)). intros ([u|e], c1) (Y1 & Y2 & Y3); cbn [fst snd] in *; auto.
    + intros _ c1 g1 _ (K1 & H1 & E1 & E2). apply (lt_mono _ _ _ _ (interrupts_rx c1 ir [] [] now K1 H1 g1)). intros x g2 (ad' & X1 & X2). exists ad'. split; [exact X1|]. intros _.
      rewrite (fragment_iff _ _ _ H1) in X2. specialize (X2 (or_introl eq_refl)). rewrite E1, E2 in X2. destruct X2 as [-> |[-> |(data & Hd & ->)]]; [left; now left|left; now left|]. right. exists data. auto.
    + intros d c1 g1 (K1 & H1). apply (lt_mono _ _ _ _ (lt_lf _ _ g1 (alert_auth c1 [] d now ltac:(split; [exact K1|eauto])))). intros x g2 ((_ & X) & _). exists []. split; [exact X|]. intros _. left. now left.
  - intros d c' g ->. apply (lt_mono _ _ _ _ (alert_step c c ad ad (b_contains_handshake_fragment (tc_rx c)) d now A (or_introl eq_refl) g)). intros x gg. apply step_call.
Qed.

(** *** The other calls *)
Definition auth_step (c : TlsClient) (x : tcall) (a : tans) (c' : TlsClient) (got : list Z) : Prop :=
  match x with
  | KProcess _ _ => (fragment_pending c -> exists e, a = NProcess (Ok e)) -> delivers cx c got c'
  | _ => keeps c x a c'
  end.
Lemma call_auth c x ad : good c -> tcall_ok x -> (forall rng now, x = KProcess rng now -> R rng) -> aq c ad -> forall got,
  lt (tcall_run cx true fuel c x) got (fun y g => (exists ad', aq (snd y) ad') /\ auth_step c x (fst y) (snd y) g).
Proof.
  intros G Hx HR A got. pose proof (aq_readable _ _ A) as Er. pose proof A as (K & rest & H). destruct x as [rng now|ops send|data|ops done]; cbn [tcall_run auth_step keeps].
  { apply (lt_then _ _ _ _ _ (process_auth c rng now ad rest G (HR rng now eq_refl) Hx K H got)). intros (r, c') g (ad' & X1 & X2). cbn [lt fst snd] in *. split; [eauto|]. intros Hf. unfold delivers. rewrite Er, (aq_readable _ _ X1).
    destruct X2 as [[X2|[X2|X2]]|(data & X2 & ->)]; auto. unfold fragment_pending in Hf.
    destruct (b_contains_handshake_fragment (tc_rx c)); [right|now left]. destruct (Hf eq_refl) as (e & Ee). injection Ee as ->. eauto. }
  all: match goal with |- lt ?p _ (fun y g => (@?P y) /\ (@?Q y)) => refine (lt_mono _ _ _ _ (lt_lf p (fun y => P y /\ Q y) got _) _); [|intros y g (Y & _); exact Y] end.
  - apply lf_seq. intros [w|e]; [|cbn [lf fst snd]; split; [eauto|reflexivity]]. apply lf_seq. intros y. destruct send; [|cbn [lf fst snd]; split; [eauto|reflexivity]].
    unfold tls_writer_send. apply lf_bind, lf_unwrap. intros (key, nc) _. apply lf_seq. intros [u|e]; cbn [lf].
    + unfold increment_write. destruct (_ =? _); cbn [lf bind fst snd]; [exact I|]. split; [exists ad; exact A|reflexivity].
    + cbn [bind lf snd fst]. destruct c. split; [exists ad; exact A|reflexivity].
  - apply lf_seq. intros r. cbn [lf fst snd]. split; [eauto|reflexivity].
  - destruct Hx as (Hx1 & Hx2). pose proof (reader_ok _ _ _ H) as Hr. unfold tls_reader. destruct (b_app_data_reader (tc_rx c)) as [r|] eqn:Eb.
    + destruct Hr as (Ne & Hr). pose proof (tr_ops_ok ops r ad 0 Hr Hx1 Hx2) as Ho. rewrite Er. destruct (asteps ad 0 ops) as ((xs, w'), pos). destruct Ho as (_ & r' & -> & Hr').
      cbn [lf fst snd]. destruct Hr' as (_ & P1 & P2 & _). destruct done.
      * pose proof (done_ok _ _ _ r' pos H P1 P2) as Hd. assert (aq (tc_set_rx c (b_reader_done (tc_rx c) r')) (zdrop pos ad)) as Ad by (split; [exact K|exists rest; exact Hd]).
        split; [eauto|]. right. split; [reflexivity|]. exact (aq_readable _ _ Ad).
      * split; [eauto|]. right. split; [reflexivity|exact Er].
    + cbn [lf fst snd]. split; [eauto|]. destruct (asteps (readable c) 0 ops) as ((xs, w'), pos). left. split; [reflexivity|]. split; [congruence|reflexivity].
Qed.
End Auth.

(** An execution has received something. *)
Lemma received_any {A} (p : prog A) : forall got a, any_bus p (Done a) -> exists got', any_bus (received p got) (Done (a, got')).
Proof.
  induction p as [a|addr block len k IH|addr block d k IH| |]; intros got x H; inversion H; subst; cbn [received].
  - eexists. constructor.
  - edestruct IH as (g & X); [eassumption|]. exists g. econstructor; eassumption.
  - edestruct IH as (g & X); [eassumption|]. exists g. econstructor; eassumption.
Qed.
Lemma history_auth cx fuel cf sn sp dst (CX : crypto_ok cx) (CF : tconfig_ok cf) h c : thistory cx true fuel (tls_init cx sn sp dst cf) h c -> exists ad, aq c ad.
Proof.
  induction 1 as [|h c x a c' Hh IH Hx Hb].
  - exists []. split; [unfold kq; cbn; lia|]. exists []. pose proof (N_ok cf CF). unfold tls_init, tls_new, holds, in_range, q_size, b_N, buffer_from. cbn [tc_rx b_buf b_head b_ad_tail b_hs_head b_tail fst snd]. change (zlen (@nil Z)) with 0.
    rewrite Z.mod_0_l by lia. repeat split; try lia.
  - destruct IH as (ad & A). pose proof (history_inv cx true fuel cf CX CF sn sp dst h c Hh (fun _ => True) (fun _ _ => I)) as (G & _). destruct (received_any _ [] _ Hb) as (got & Hg).
    exact (proj1 (lt_any _ _ _ _ (call_auth cx fuel cf (fun _ => True) CX CF c x ad G Hx (fun _ _ _ => I) A []) Hg (a, c') got eq_refl)).
Qed.
Lemma auth_call cx fuel cf sn sp dst h c x a c' got : crypto_ok cx -> tconfig_ok cf -> thistory cx true fuel (tls_init cx sn sp dst cf) h c -> tcall_ok x ->
  any_bus (received (tcall_run cx true fuel c x) []) (Done (a, c', got)) -> auth_step cx c x a c' got.
Proof.
  intros CX CF H Hx Hb. destruct (history_auth cx fuel cf sn sp dst CX CF h c H) as (ad & A). pose proof (history_inv cx true fuel cf CX CF sn sp dst h c H (fun _ => True) (fun _ _ => I)) as (G & _).
  exact (proj2 (lt_any _ _ _ _ (call_auth cx fuel cf (fun _ => True) CX CF c x ad G Hx (fun _ _ _ => I) A []) Hb (a, c') got eq_refl)).
Qed.
