(** The TLS client: no panic, for histories. *)
From Verif Require Import Model.Prelude Model.Bus Model.Chip Model.Specifiers Model.LlBits Model.Ll Model.HlIo Model.HlTcp Model.Stream Model.Gcm Model.TlsTypes Model.TlsBuf Model.TlsKeys Model.TlsHello
  Model.TlsRecord Model.TlsClient Spec.Hoare Spec.Cursor Spec.TlsSecrets Spec.TlsMessages Spec.TlsQueue Spec.TlsSession Spec.TlsQuiet Spec.TlsCrash.
From Verif Require Import Proof.Base Proof.TlsBufP Proof.TlsHelloP Proof.TlsLeafP Proof.TlsInvP Proof.TlsHistP Proof.TlsSafeP.
Ltac Zify.zify_post_hook ::= idtac.

Lemma np_cop E D w o : np E D (cop_run w o).
Proof.
  destruct o; cbn [cop_run]; try exact I; (apply np_seq; [|intros [?|e]; exact I]); unfold cur_read, cur_read_exact, cur_write, cur_write_all, sn_rx_buf, set_sn_tx_buf; np_go.
Qed.
Lemma np_cops E D : forall ops w, np E D (cops_run w ops).
Proof. induction ops as [|o ops IH]; intros w; cbn [cops_run]; [exact I|]. apply np_seq; [apply np_cop|]. intros x. apply np_seq; [apply IH|]. intros y. exact I. Qed.
Lemma np_encrypt E D sn : forall n g k head, cnt g k -> 0 <= k -> k + Z.of_nat n < 65535 -> lz E D (encrypt_loop n sn g head) (on_ok (fun p => cnt (fst p) (k + Z.of_nat n))).
Proof.
  induction n as [|n IH]; intros g k head C K0 K1; cbn [encrypt_loop].
  - cbn [lz ret on_ok fst]. now rewrite Z.add_0_r.
  - unfold bindM. apply np_seq; [unfold sn_tx_buf; np_go|]. intros [blk|e]; [|exact I]. destruct (cnt_block g k blk C ltac:(lia)) as (g' & x & -> & C'). cbn [unwrap].
    apply np_seq; [unfold set_sn_tx_buf; np_go|]. intros [u|e]; [|exact I]. apply (lz_mono E D _ _ _ (IH g' (k + 1) _ C' ltac:(lia) ltac:(lia))). intros [p|e] Hp; cbn [on_ok] in *; [|exact I].
    replace (k + Z.of_nat (S n)) with (k + 1 + Z.of_nat n) by lia. exact Hp.
Qed.
Lemma np_inplace E D sn key nonce head tail ct : length nonce = 12%nat -> np E D (encrypt_record_inplace sn key nonce head tail ct).
Proof.
  intros Ln. unfold encrypt_record_inplace. assert (0 <= wsub tail head < 65536) as Hl by (unfold wsub, u16; apply Z.mod_pos_bound; lia). generalize dependent (wsub tail head). intros len Hl.
  apply np_bindM; [unfold set_sn_tx_buf; np_go|]. intros _. unfold np, bindM. pose proof (Z.div_pos len 16 ltac:(lia) ltac:(lia)). assert (len / 16 < 4096) by (apply Z.div_lt_upper_bound; lia).
  pose proof (Z.mod_pos_bound len 16 ltac:(lia)).
  apply (lz_then E D _ _ _ _ (np_encrypt E D sn (Z.to_nat (len / 16)) (gcm_new key nonce _) 1 head (cnt_new _ _ _ Ln) ltac:(lia) ltac:(lia))). intros [(g, hd)|e] Hc; [|exact I]. cbn [on_ok fst] in Hc.
  apply np_seq; [unfold sn_tx_buf; np_go|]. intros [blk|e]; [|exact I]. cbv zeta.
  destruct (cnt_remainder g _ (padded (blk ++ [ct])) (len mod 16 + 1) Hc ltac:(lia) ltac:(lia)) as (g' & x & ->). cbn [unwrap].
  match goal with |- lz _ _ ?p _ => change (np E D p) end. apply np_bindM; [unfold set_sn_tx_buf; np_go|]. intros _. apply np_bindM; [unfold set_sn_tx_buf; np_go|]. intros _. apply np_bindM; [unfold set_sn_tx_wr; np_go|]. intros _. apply np_cr.
Qed.

Section Hist.
Variables (cx : Crypto) (fuel : nat) (cf : tconfig).
Hypothesis (CX : crypto_ok cx) (CF : tconfig_ok cf).
Notation N := (zlen (cf_buf cf)).
Notation any := (fun _ : Rng => True).

Lemma K_weak (P Q : Prop) c : (Q -> tc_state c = TConnected -> P \/ calm N (tc_rx c)) -> K cf P c -> K cf Q c.
Proof.
  intros PQ (H1 & H2). split; [|exact H2]. unfold hs in *. intros [E|[E|[E|[E|(HQ & E)]]]]; try (apply H1; rewrite E; tauto). destruct (PQ HQ E) as [HP|HC]; [apply H1; tauto|exact HC].
Qed.
Lemma snoc_data h x a : no_data (h ++ [(x, a)]) = match a with NProcess (Ok THandshakeFinished) => true | NProcess (Ok TApplicationData) => false | _ => no_data h end.
Proof. unfold no_data. rewrite fold_left_app. reflexivity. Qed.
Lemma call_keeps dbg c x h : inv cx cf any c -> tcall_ok x -> K cf (no_data h = true) c -> lf (tcall_run cx dbg fuel c x) (fun y => K cf (no_data (h ++ [(x, fst y)]) = true) (snd y)).
Proof.
  intros H Hx Hk. destruct x as [rng now|ops send|data|ops done]; cbn [tcall_run].
  - apply (lf_then _ _ _ (fun x => fin cf (no_data h = true) x /\ on_process cx cf any now c x)).
    + apply lz_lf. apply lz_and; [|exact (process_leaf cx dbg fuel cf any CX CF c rng now H I Hx)].
      apply (process_safe cx dbg fuel cf any True True CX CF); auto; try (left; exact I); intros; left; exact I.
    + intros (r, c') (F & _ & _ & P); cbn [lf fst snd] in *. rewrite snoc_data. destruct F as [(X1 & X2)|(X1 & X2)]; cbn [fst snd] in *.
      * subst r. destruct P as (_ & P). split; [|exact X2]. unfold hs. rewrite P. intros [E|[E|[E|[E|(E & _)]]]]; discriminate E.
      * destruct r as [[k| | | |]|er]; try exact X1; (apply (K_weak (no_data h = true)); [|exact X1]); [discriminate|]. intros _ _. right. now apply X2.
  - apply lf_seq. intros [w|e]; [|cbn [lf fst snd]; rewrite snoc_data; exact Hk]. apply lf_seq. intros y. destruct send; [|cbn [lf fst snd]; rewrite snoc_data; exact Hk].
    unfold tls_writer_send. apply lf_bind, lf_unwrap. intros (key, nc) _. apply lf_seq. intros [u|e]; cbn [lf].
    + unfold increment_write. destruct (_ =? _); cbn [lf bind fst snd]; [exact I|]. rewrite snoc_data. destruct Hk as (H1 & H2). split; [exact H1|exact H2].
    + cbn [bind lf snd fst]. rewrite snoc_data. destruct c; exact Hk.
  - apply lf_seq. intros r. cbn [lf fst snd]. rewrite snoc_data. exact Hk.
  - destruct (tls_reader c) as [r|] eqn:Er; [|cbn [lf fst snd]; rewrite snoc_data; exact Hk]. destruct (tr_ops r ops) as [(xs, r')|e| |]; try exact I. cbn [lf fst snd]. rewrite snoc_data.
    destruct done; [|exact Hk]. destruct Hk as (H1 & H2). split; [|exact H2]. cbn [tc_state tc_set_rx]. intros Hs. exfalso. destruct (H1 Hs) as (_ & Z1 & Z2 & _). unfold tls_reader, b_app_data_reader in Er. rewrite Z1, Z2 in Er. discriminate Er.
Qed.
Lemma init_K Q sn sp dst : K cf Q (tls_init cx sn sp dst cf).
Proof. split; [|split; [intros E; exact E|intros E; discriminate E]]. cbn. unfold hs. intros [E|[E|[E|[E|(_ & E)]]]]; discriminate E. Qed.
Lemma history_K dbg sn sp dst h c : thistory cx dbg fuel (tls_init cx sn sp dst cf) h c -> K cf (no_data h = true) c.
Proof.
  induction 1 as [|h c x a c' Hh IH Hx Hb]; [apply init_K|].
  exact (lf_any _ _ _ Hb (call_keeps dbg c x h (history_inv cx dbg fuel cf CX CF sn sp dst h c Hh any (fun _ _ => I)) Hx IH) (a, c') eq_refl).
Qed.
Lemma fits_len rng : rng_ok rng -> hello_room cf -> fits cf rng.
Proof.
  intros (R1 & R2 & R3 & R4) Hf. pose proof (N_ok cf CF). destruct CF as (C1 & _). unfold fits. refine (Z.le_trans _ _ _ (Z.eq_le_incl _ _ (record_len _ _ _ _ _ _ _ _ _)) Hf); auto.
Qed.
Lemma process_lz dbg sn sp dst h c rng now : thistory cx dbg fuel (tls_init cx sn sp dst cf) h c -> rng_ok rng -> hello_room cf -> tclock_ok c now ->
  ks_read_seq (tc_ks c) <> U64_MAX -> ks_write_seq (tc_ks c) <> U64_MAX ->
  (tls_connected c = true -> no_data h = true) -> (tc_state c = TWaitConInt -> untouched (tc_rx c)) ->
  lz False (tc_state c = TReset) (tls_process cx false fuel c rng now) (fin cf (no_data h = true)).
Proof.
  intros Hh Hr Hf Hc Q1 Q2 Hd Hw. pose proof (history_inv cx dbg fuel cf CX CF sn sp dst h c Hh any (fun _ _ => I)) as H. pose proof (history_K _ _ _ _ _ _ Hh) as Hk.
  pose proof H as ((_ & _ & _ & W) & _).
  apply (process_safe cx false fuel cf any False (tc_state c = TReset) CX CF); auto; try discriminate; try tauto.
  - right. exact Q1.
  - right. split; [now apply fits_len|exact Q2].
  - intros [Es|Es]; right.
    + apply Hk. unfold hs. do 4 right. split; [|exact Es]. apply Hd. now apply tstate_eqb_ok.
    + split; [exact W|exact (Hw Es)].
Qed.
Lemma lz_weak (E D E' D' : Prop) {A} (p : prog A) P : (E -> E') -> (D -> D') -> lz E D p P -> lz E' D' p P.
Proof. intros HE HD H. induction p; cbn [lz] in *; auto. Qed.
Lemma connected_traffic Q c : K cf Q c -> tls_connected c = true -> ks_client_traffic (tc_ks c) <> None.
Proof. intros (_ & _ & H) Ec. apply H. now apply tstate_eqb_ok. Qed.
Lemma writer_safe E D Q c ops send : K cf Q c -> ks_write_seq (tc_ks c) <> U64_MAX -> np E D (tcall_run cx false fuel c (KWriter ops send)).
Proof.
  intros H Hq. cbn [tcall_run]. unfold tls_writer. destruct (tls_connected c) eqn:Ec; cbn [negb]; [|exact I].
  apply np_seq. { apply np_seq; [|intros [w|]; exact I]. unfold tls_writer_new. apply np_seq; [unfold sn_tx_fsr; np_go|]. intros [fsr|e]; [|exact I]. destruct (_ <? _); [exact I|]. apply np_seq; [unfold sn_tx_wr; np_go|]. intros [wr|e]; exact I. }
  intros [w|e]; [|exact I]. apply np_seq; [apply np_cops|]. intros y. destruct send; [|exact I].
  apply np_seq; [|intros z; exact I]. unfold tls_writer_send. destruct (client_key_and_nonce cx (tc_ks c)) as [(key, nc)|] eqn:Ek.
  2:{ exfalso. pose proof (connected_traffic Q c H Ec). unfold client_key_and_nonce, key_and_nonce in Ek. destruct (ks_client_traffic (tc_ks c)); congruence. }
  cbn [unwrap]. destruct (key_nonce cx CX _ _ _ _ Ek) as (_ & _ & Ln & _). apply np_seq; [now apply np_inplace|]. intros [u|e]; [|exact I]. unfold increment_write. destruct (Z.eqb_spec (ks_write_seq (tc_ks c)) U64_MAX); [contradiction|exact I].
Qed.
Lemma reader_safe E D c ops done : inv cx cf any c -> tcall_ok (KReader ops done) -> np E D (tcall_run cx false fuel c (KReader ops done)).
Proof.
  intros ((_ & _ & _ & W1 & _ & W2 & W3 & _) & _) (H1 & H2). pose proof (N_ok cf CF) as HN. cbn [tcall_run]. destruct (tls_reader c) as [r|] eqn:Er; [|exact I]. unfold tls_reader, b_app_data_reader in Er. destruct (Z.eqb_spec (b_ad_tail (tc_rx c)) (b_head (tc_rx c))) as [|Ne]; [discriminate|]. destruct (as_slices _ _ _ _) as (x, y) eqn:Es. injection Er as <-.
  assert (zlen (x ++ y) < 16384) as Lt.
  { rewrite zlen_app. unfold as_slices, b_N in Es. rewrite W1 in Es. destruct (Z.leb_spec (b_ad_tail (tc_rx c)) (b_head (tc_rx c))); injection Es as <- <-; rewrite ?zlen_ztake, ?zlen_zdrop; change (@zlen Z []) with 0; lia. }
  assert (reads (cr_new x y) (x ++ y) 0) as Rd by (split; [reflexivity|]; split; [reflexivity|]; pose proof (zlen_nonneg (x ++ y)); split; lia).
  pose proof (tr_ops_ok ops _ _ _ Rd H1 H2) as X. destruct (asteps _ _ _) as ((xs, w'), pos). destruct X as (_ & r' & -> & _). exact I.
Qed.
Lemma no_crash_call dbg sn sp dst h c x o : thistory cx dbg fuel (tls_init cx sn sp dst cf) h c -> tcall_ok x -> within cf h c x ->
  ks_read_seq (tc_ks c) <> U64_MAX -> ks_write_seq (tc_ks c) <> U64_MAX ->
  any_bus (tcall_run cx false fuel c x) o -> o <> Panicked /\ (o = Diverged -> exists rng now, x = KProcess rng now /\ tc_state c = TReset).
Proof.
  intros Hh Hx Hw Q1 Q2 Ho. pose proof (history_K _ _ _ _ _ _ Hh) as Hk.
  assert (np False (exists rng now, x = KProcess rng now /\ tc_state c = TReset) (tcall_run cx false fuel c x)) as L.
  { destruct x as [rng now|ops send|data|ops done].
    - destruct Hw as (W1 & W2 & W3 & W4). cbn [tcall_run]. apply np_seq; [|intros y; exact I].
      apply (lz_weak False (tc_state c = TReset)); [tauto|eauto|]. exact (lz_mono _ _ _ _ _ (process_lz dbg sn sp dst h c rng now Hh Hx W1 W2 Q1 Q2 W3 W4) (fun _ _ => I)).
    - exact (writer_safe _ _ _ c ops send Hk Q2).
    - cbn [tcall_run]. apply np_seq; [|intros y; exact I]. unfold tls_write_all. destruct (tls_connected c) eqn:Ec; cbn [negb]; [|exact I].
      apply np_seq; [|intros [u|e]; exact I]. apply np_record; [exact CX|exact (connected_traffic _ c Hk Ec)|exact Hw].
    - apply reader_safe; [|exact Hx]. exact (history_inv cx dbg fuel cf CX CF sn sp dst h c Hh any (fun _ _ => I)). }
  pose proof (lz_any _ _ _ _ _ Ho L) as X. split; [intros ->; exact X|]. intros ->. exact X.
Qed.
End Hist.
