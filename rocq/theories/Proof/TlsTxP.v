(** Protected records on the wire: the TLS writer and [write_all] against the chip. *)
From Verif Require Import Model.Prelude Model.Bus Model.Chip Model.Specifiers Model.LlBits Model.Ll Model.HlIo Model.HlTcp Model.Gcm Model.TlsTypes Model.TlsBuf
  Model.TlsKeys Model.TlsRecord Spec.Hoare Spec.Gcm38D Spec.Fips197 Spec.GcmCalls Spec.TlsSecrets Spec.TlsProtect Spec.TlsWire.
From Verif Require Import Proof.Base Proof.TcpP Proof.Ghash3P Proof.GcmP Proof.TlsHelloP.

(** ** Bytes in the transmit memory *)
Definition wk (s s' : sock) : Prop := tx_work s s' /\ (tx_bytes s -> tx_bytes s').
Lemma env_txmem s s' : idle s -> env s s' -> s_txmem s' = s_txmem s.
Proof. intros I E. destruct (env_all _ _ I E) as (_ & _ & _ & (_ & _ & M & _) & _). exact M. Qed.
Lemma wk_env s s' : idle s -> tx_wf s -> env s s' -> wk s s'.
Proof. intros I W E. split; [now apply tx_work_env|]. intros B a. rewrite (env_txmem s s' I E). apply B. Qed.
Lemma wk_refl s : idle s -> tx_wf s -> wk s s.
Proof. intros I W. apply wk_env; auto using env_refl. Qed.
Lemma wk_trans a b c : wk a b -> wk b c -> wk a c.
Proof. intros (A1 & A2) (B1 & B2). split; [eapply (tx_work_trans Sn0); eassumption|auto]. Qed.
Lemma ring_write_bytes l : forall mem size p, (forall a, is_u8 (mem a)) -> bytes_ok l -> forall x, is_u8 (ring_write mem size p l x).
Proof.
  induction l as [|b l IH]; intros mem size p H Hb x; cbn [ring_write]; [apply H|]. inversion Hb; subst. apply IH; [|assumption].
  intros a. unfold upd. destruct (_ =? _); auto.
Qed.
Lemma ring_bytes mem size p k : (forall a, is_u8 (mem a)) -> bytes_ok (ring mem size p k).
Proof.
  intros H. unfold ring, ztab. apply Forall_forall. intros x Hx. apply in_map_iff in Hx. destruct Hx as (i & <- & _). apply H.
Qed.

(** The host is filling the free space, which begins with [l]. *)
Definition at_work (s0 s : sock) (l : list Z) : Prop :=
  idle s0 /\ tx_wf s0 /\ pending s0 + zlen l <= tx_size s0 /\ wk s0 s /\ window s (zlen l) = l.

Section Tx.
Context (sn : Sn).
Notation n := (snz sn).

Lemma wps_tx_buf p len s D (Q : res err (list Z) -> sock -> Prop) :
  (forall s1, env s s1 -> Q (Ok (ring (s_txmem s1) (tx_size s1) p len)) s1) -> wps (sn_tx_buf sn p len) n s D Q.
Proof.
  intros H. cbn. exists 2. split; [lia|]. split; [apply sn_tx_block_eq|]. intros s1 He. rewrite sock_rds_tx. now apply H.
Qed.
Lemma at_env s0 s s1 l : at_work s0 s l -> env s s1 -> at_work s0 s1 l.
Proof.
  intros (A1 & A2 & A3 & A4 & A5) E. pose proof A4 as ((K1 & _ & _ & _ & _ & _ & _ & K8 & _) & _).
  unfold at_work. split; [exact A1|]. split; [exact A2|]. split; [exact A3|]. split; [eapply wk_trans; [exact A4|now apply wk_env]|].
  now rewrite (tx_work_window s s1) by assumption.
Qed.
Lemma read_at D s0 s p A b B : at_work s0 s (A ++ b ++ B) -> p = (s_tx_cmd s0 + zlen A) mod 65536 ->
  wps (sn_tx_buf sn p (zlen b)) n s D (fun r s' => r = Ok b /\ at_work s0 s' (A ++ b ++ B)).
Proof.
  intros H Ep. apply wps_tx_buf. intros s1 E1. pose proof (at_env _ _ _ _ H E1) as H1. split; [|exact H1]. f_equal.
  destruct H1 as (_ & _ & _ & ((_ & _ & _ & _ & _ & K6 & _) & _) & W). rewrite Ep, ring_mod, <- K6.
  pose proof (zlen_nonneg A). pose proof (zlen_nonneg b). pose proof (zlen_nonneg B).
  apply (f_equal (fun l => ztake (zlen b) (zdrop (zlen A) l))) in W. unfold window in W. rewrite !zlen_app in W. rewrite ring_drop, ring_take in W by lia.
  rewrite W, zdrop_exact. apply ztake_exact.
Qed.
Lemma write_at D s0 s p A b B c : at_work s0 s (A ++ b ++ B) -> p = (s_tx_cmd s0 + zlen A) mod 65536 -> zlen c = zlen b -> bytes_ok c ->
  wps (set_sn_tx_buf sn p c) n s D (fun r s' => r = Ok tt /\ at_work s0 s' (A ++ c ++ B)).
Proof.
  intros H Ep Lc Bc. apply wps_set_tx_buf. intros s1 m E1 Hm. split; [reflexivity|]. pose proof (at_env _ _ _ _ H E1) as (A1 & A2 & A3 & A4 & A5).
  pose proof A4 as ((K1 & K2 & K3 & K4 & K5 & K6 & K7 & K8 & K9 & K10 & K11) & K12). pose proof (zlen_nonneg A). pose proof (zlen_nonneg b). pose proof (zlen_nonneg B).
  assert (zlen (A ++ c ++ B) = zlen (A ++ b ++ B)) as L by (rewrite !zlen_app; lia).
  destruct (tx_work_fill Sn0 s1 p (zlen A) c m (zlen (A ++ b ++ B))) as (F1 & F2); auto; try lia.
  { rewrite !zlen_app. lia. }
  unfold at_work. rewrite L. split; [exact A1|]. split; [exact A2|]. split; [exact A3|]. split.
  - eapply wk_trans; [exact A4|]. split; [exact F1|]. intros Bs a. cbn [with_txmem s_txmem]. rewrite Hm. now apply ring_write_bytes.
  - rewrite F2, A5. unfold overlay. rewrite ztake_exact, Lc. f_equal. f_equal. rewrite app_assoc. rewrite <- zlen_app. apply zdrop_exact.
Qed.

(** What a committed record leaves behind. *)
Definition sent_from (s s' : sock) (l : list Z) : Prop :=
  st_ev s s' /\ rx_ev s s' /\ tx_ready s' /\ tx_stream s' = tx_stream s ++ l /\ (tx_bytes s -> tx_bytes s') /\
  tx_size s' = tx_size s /\ pending s' <= pending s + zlen l.
Lemma exec_send_txmem s : s_txmem (exec_cmd s 0x20) = s_txmem s.
Proof. reflexivity. Qed.
Lemma send_at D s0 s p l : at_work s0 s l -> p = (s_tx_cmd s0 + zlen l) mod 65536 ->
  wps (set_sn_tx_wr sn p ;;; set_sn_cr sn CSend) n s D (fun r s' => r = Ok tt /\ sent_from s0 s' l).
Proof.
  intros H Ep. apply wps_bindM, wps_set_tx_wr. intros s1 E1. pose proof (at_env _ _ _ _ H E1) as (A1 & A2 & A3 & A4 & A5).
  pose proof A4 as ((K1 & K2 & K3 & K4 & K5 & K6 & K7 & K8 & K9 & K10 & K11) & K12).
  apply wps_set_cr. intros s2 E2. split; [reflexivity|].
  destruct (commit s1 (zlen l) p s2) as (C1 & C2 & C3 & C4 & C5 & C6 & C7 & C8 & C9); auto; try lia.
  { apply zlen_nonneg. }
  { subst p. unfold is_u16. pose proof (Z.mod_pos_bound (s_tx_cmd s0 + zlen l) 65536). lia. }
  change (command_raw CSend) with 0x20. unfold sent_from. split; [eapply st_ev_trans; eassumption|]. split; [eapply rx_ev_trans; eassumption|].
  split; [exact C5|]. split; [rewrite C8, K9, A5; reflexivity|]. split; [|split; [congruence|lia]]. intros Bs a. rewrite exec_send_txmem.
  rewrite (env_txmem _ s2 (K1 : idle (put16 s1 36 p)) E2). exact (K12 Bs a).
Qed.

(** ** Blocks *)
Lemma wadd_ptr c off k : 0 <= off -> wadd ((c + off) mod 65536) k = (c + (off + k)) mod 65536.
Proof. intros H. unfold wadd. lia. Qed.
Lemma block16_len b : byte16 b -> zlen b = 16.
Proof. intros (H & _). unfold zlen. lia. Qed.
Lemma blocks_len bs : Forall byte16 bs -> zlen (concat bs) = 16 * zlen bs.
Proof. induction 1 as [|b bs H Hb IH]; [reflexivity|]. cbn [concat]. rewrite zlen_app, zlen_cons, IH, (block16_len b H). lia. Qed.
Lemma encrypt_loop_at D s0 bs : forall s g g' cs A B p, at_work s0 s (A ++ concat bs ++ B) -> Forall byte16 bs ->
  encrypt_blocks g bs = Some (g', cs) -> Forall byte16 cs -> p = (s_tx_cmd s0 + zlen A) mod 65536 ->
  wps (encrypt_loop (length bs) sn g p) n s D (fun r s' => r = Ok (g', (s_tx_cmd s0 + zlen (A ++ concat bs)) mod 65536) /\ at_work s0 s' (A ++ concat cs ++ B)).
Proof.
  induction bs as [|b bs IH]; intros s g g' cs A B p H Hb He Hc Ep; cbn [encrypt_blocks encrypt_loop length concat] in *.
  - injection He as <- <-. cbn [wps ret concat]. rewrite app_nil_r. split; [now rewrite Ep|exact H].
  - inversion Hb as [|? ? Hb1 Hb2]; subst. destruct (encrypt_block_inplace g b) as [(g1, c)|] eqn:Eb; [|discriminate].
    destruct (encrypt_blocks g1 bs) as [(g2, cs2)|] eqn:Ebs; [|discriminate]. injection He as <- <-. inversion Hc as [|? ? Hc1 Hc2]; subst.
    rewrite <- app_assoc in H. apply wps_bindM. rewrite <- (block16_len b Hb1).
    eapply wps_mono; [| |exact (read_at D s0 s _ A b _ H eq_refl)]; [auto|]. intros r s1 (-> & H1). unfold unwrap. rewrite Eb.
    apply wps_bindM. eapply wps_mono; [| |apply (write_at D s0 s1 _ A b (concat bs ++ B) c H1 eq_refl)]; auto.
    + intros r s2 (-> & H2). pose proof (zlen_nonneg A).
      eapply wps_mono; [| |apply (IH s2 g1 g2 cs2 (A ++ c) B)]; auto.
      * cbn beta. intros r s3 (-> & H3). cbn [concat]. rewrite !zlen_app, (block16_len b Hb1), (block16_len c Hc1) in *. rewrite <- !app_assoc in *. split; [|exact H3].
        do 4 f_equal. lia.
      * rewrite <- !app_assoc. exact H2.
      * rewrite wadd_ptr by lia. rewrite zlen_app, (block16_len b Hb1), (block16_len c Hc1). reflexivity.
    + now rewrite (block16_len b Hb1), (block16_len c Hc1).
    + apply Hc1.
Qed.
(** ** One record *)
Section Record.
Context (key nonce : list Z).
Hypothesis key_len : length key = 16%nat.
Hypothesis key_ok : bytes_ok key.
Hypothesis nonce_len : length nonce = 12%nat.
Hypothesis nonce_ok : bytes_ok nonce.
Definition record (ct : Z) (data : list Z) : list Z :=
  let aad := record_aad (zlen data) in
  aad ++ fst (gcm_encrypt (fips_cipher key) nonce aad (data ++ [ct])) ++ snd (gcm_encrypt (fips_cipher key) nonce aad (data ++ [ct])).
Lemma aad_ok n0 : length (record_aad n0) = 5%nat /\ bytes_ok (record_aad n0).
Proof. split; [reflexivity|]. unfold record_aad, be16. cbn [app]. repeat constructor; unfold is_u8; lia. Qed.
Lemma tag_byte16 aad C : length aad = 5%nat -> byte16 (gcm_tag (fips_cipher key) nonce aad C).
Proof.
  intros La. unfold gcm_tag. cbv zeta. rewrite ctr_J0. unfold GCTR. set (s := GHASH _ _). assert (byte16 s) as (Hs & Hb) by exact (block_of_byte key nonce aad key_len nonce_len La _).
  unfold blocks_in. rewrite Hs. change ((16 + 15) / 16)%nat with 1%nat. rewrite (gctr_one key nonce aad) by (auto; lia).
  apply (xor_byte16 key nonce aad); auto. now split.
Qed.
(** The calls of the cipher, one after the other. *)
Lemma calls ct aad bs r : length aad = 5%nat -> bytes_ok aad -> is_u8 ct -> Forall byte16 bs -> bytes_ok r -> (length r < 16)%nat -> zlen bs < 65534 ->
  exists g cs g' c, encrypt_blocks (gcm_new key nonce aad) bs = Some (g, cs) /\ Forall byte16 cs /\ length cs = length bs /\
    encrypt_remainder_inplace g (padded (r ++ [ct])) (zlen r + 1) = Some (g', c) /\ bytes_ok (ztake (zlen r + 1) c) /\ zlen (ztake (zlen r + 1) c) = zlen r + 1 /\
    length (gcm_finish g') = 16%nat /\ bytes_ok (gcm_finish g') /\
    gcm_encrypt (fips_cipher key) nonce aad (concat bs ++ r ++ [ct]) = (concat cs ++ ztake (zlen r + 1) c, gcm_finish g').
Proof.
  intros La Ba Hct Hb Hr Hl Hn. pose proof (zlen_nonneg bs).
  assert (bytes_ok (r ++ [ct])) as Hr' by (apply Forall_app; split; [exact Hr|constructor; [exact Hct|constructor]]).
  assert (1 <= length (r ++ [ct]) <= 16)%nat as Hl' by (rewrite app_length; cbn [length]; lia).
  pose proof (encrypt_calls_ok key nonce aad key_len key_ok nonce_len nonce_ok La Ba bs (r ++ [ct]) Hb Hr' Hl' Hn) as Ec.
  unfold encrypt_calls in Ec.
  destruct (encrypt_blocks_at key nonce aad key_len key_ok nonce_len nonce_ok La bs (gcm_new key nonce aad) [] 1 0 (gcm_new_at key nonce aad) Hb ltac:(lia) ltac:(lia)) as (g & E1 & G1).
  rewrite E1 in Ec.
  destruct (encrypt_remainder_at key nonce aad key_len key_ok nonce_len nonce_ok La g _ _ _ (r ++ [ct]) G1 ltac:(lia) Hr' ltac:(lia)) as (g' & E2 & G2).
  rewrite E2 in Ec. apply (f_equal (fun o => match o with Some v => v | None => ([], []) end)) in Ec. cbv beta iota in Ec. exists g, (ctr_xor key nonce 1 bs), g'. eexists. split; [exact E1|].
  assert (zlen (r ++ [ct]) = zlen r + 1) as Lz by (rewrite zlen_app; reflexivity). rewrite Lz in *.
  split; [now apply (ctr_xor_byte16 key nonce aad)|]. split; [apply ctr_xor_length|]. split; [exact E2|].
  set (x := xor_str (r ++ [ct]) _) in *. assert (length x = length (r ++ [ct])) as Lx by (apply (xor_ctr_len key nonce aad); auto; lia).
  assert (ztake (zlen r + 1) (padded x) = x) as Ex.
  { unfold padded, ztake. rewrite <- Lz. unfold zlen. rewrite Nat2Z.id, <- Lx, firstn_app, Nat.sub_diag, firstn_O, app_nil_r. now apply firstn_all2. }
  rewrite Ex in *. split; [now apply xor_ctr_bytes|]. split; [rewrite <- Lz; unfold zlen; now rewrite Lx|].
  assert (byte16 (gcm_finish g')) as (F1 & F2).
  { replace (gcm_finish g') with (snd (gcm_encrypt (fips_cipher key) nonce aad (concat bs ++ r ++ [ct]))) by (rewrite <- Ec; reflexivity).
    now apply tag_byte16. }
  split; [exact F1|]. split; [exact F2|]. symmetry. exact Ec.
Qed.

Lemma encrypt_record_at D s0 s head tail ct H0 data T0 : at_work s0 s (H0 ++ data ++ T0) -> zlen H0 = 5 -> zlen T0 = 17 -> bytes_ok data -> is_u8 ct ->
  zlen data < 65519 ->
  head = (s_tx_cmd s0 + 5) mod 65536 -> tail = (s_tx_cmd s0 + (5 + zlen data)) mod 65536 ->
  wps (encrypt_record_inplace sn key nonce head tail ct) n s D (fun r s' => r = Ok tt /\ sent_from s0 s' (record ct data)).
Proof.
  intros H LH LT Bd Hct Ld Eh Et. pose proof (zlen_nonneg data) as Nd. unfold encrypt_record_inplace.
  assert (wsub tail head = zlen data) as El by (subst; unfold wsub; lia).
  assert (rh_ser ApplicationData (wsub (wadd tail (1 + GCM_TAG_LEN)) head) = record_aad (zlen data)) as ->.
  { unfold rh_ser, record_aad, be16, ApplicationData. cbn [app]. replace (wsub (wadd tail (1 + GCM_TAG_LEN)) head) with (zlen data + 17); [reflexivity|].
    subst. unfold wsub, wadd, GCM_TAG_LEN. lia. }
  rewrite El. destruct (aad_ok (zlen data)) as (La & Ba). set (aad := record_aad (zlen data)) in *.
  apply wps_bindM. eapply wps_mono; [| |apply (write_at D s0 s _ [] H0 (data ++ T0) aad H)]; auto.
  2:{ subst head. unfold wsub, RH_LEN. change (zlen (@nil Z)) with 0. lia. }
  intros r s1 (-> & H1). cbn [app] in H1.
  destruct (split_blocks key nonce aad key_len nonce_len La data Bd) as (bs & rest & Es & Hbs & Brest & Lr & Lbs & Er).
  assert (zlen data = 16 * zlen bs + zlen rest) as Lz by (rewrite Es, zlen_app, (blocks_len bs Hbs); reflexivity).
  assert (0 <= zlen rest < 16) as Lr' by (unfold zlen; lia). pose proof (zlen_nonneg bs) as Nb.
  destruct (calls ct aad bs rest La Ba Hct Hbs Brest Lr ltac:(lia)) as (g & cs & g' & c & C1 & C2 & C3 & C4 & C5 & C6 & C7 & C8 & C9).
  replace (Z.to_nat (zlen data / 16)) with (length bs) by (unfold zlen in *; lia).
  apply wps_bindM. eapply wps_mono; [| |apply (encrypt_loop_at D s0 bs s1 _ g cs aad (rest ++ T0) _)]; try eassumption; auto.
  2:{ rewrite Es, <- app_assoc in H1. exact H1. }
  cbn beta. intros r s2 (-> & H2). cbn iota beta. assert (zlen aad = 5) as Laz by (unfold zlen; rewrite La; reflexivity).
  replace (zlen data mod 16) with (zlen rest) by lia.
  assert (zlen (concat cs) = 16 * zlen bs) as Lcs by (rewrite (blocks_len cs C2); unfold zlen; lia).
  rewrite app_assoc in H2. apply wps_bindM. eapply wps_mono; [| |apply (read_at D s0 s2 _ (aad ++ concat cs) rest T0 H2)]; auto.
  2:{ rewrite !zlen_app, (blocks_len bs Hbs), Lcs. reflexivity. }
  intros r s3 (-> & H3). cbv zeta. unfold unwrap. change ContentType with Z. rewrite C4. cbn iota beta.
  destruct T0 as [|t0 T0]; [unfold zlen in LT; cbn [length] in LT; lia|]. rewrite zlen_cons in LT.
  replace (rest ++ t0 :: T0) with ((rest ++ [t0]) ++ T0) in H3 by (rewrite <- app_assoc; reflexivity).
  apply wps_bindM. eapply wps_mono; [| |apply (write_at D s0 s3 _ (aad ++ concat cs) (rest ++ [t0]) T0 (ztake (zlen rest + 1) c) H3)]; auto.
  2:{ rewrite !zlen_app, (blocks_len bs Hbs), Lcs. reflexivity. }
  2:{ rewrite C6, zlen_app. reflexivity. }
  intros r s4 (-> & H4). set (e := ztake (zlen rest + 1) c) in *.
  assert (zlen (gcm_finish g') = 16) as Lg by (unfold zlen; lia).
  replace ((aad ++ concat cs) ++ e ++ T0) with (((aad ++ concat cs) ++ e) ++ T0 ++ []) in H4 by (rewrite app_nil_r, <- !app_assoc; reflexivity).
  apply wps_bindM. eapply wps_mono; [| |apply (write_at D s0 s4 _ ((aad ++ concat cs) ++ e) T0 [] (gcm_finish g') H4)]; auto; try lia.
  2:{ rewrite wadd_ptr by apply zlen_nonneg. rewrite !zlen_app, (blocks_len bs Hbs), Lcs, C6. try (f_equal; lia). }
  intros r s5 (-> & H5). rewrite app_nil_r in H5.
  eapply wps_mono; [| |apply (send_at D s0 s5 _ _ H5)]; auto.
  - intros r s6 (-> & S6). split; [reflexivity|]. replace (record ct data) with (((aad ++ concat cs) ++ e) ++ gcm_finish g'); [exact S6|].
    unfold record. cbv zeta. fold aad. rewrite Es at 1 2. rewrite <- !app_assoc in *. rewrite C9. cbn [fst snd]. now rewrite <- !app_assoc.
  - rewrite wadd_ptr by apply zlen_nonneg. rewrite wadd_ptr by (pose proof (zlen_nonneg (aad ++ concat bs)); lia).
    rewrite !zlen_app, (blocks_len bs Hbs), Lcs, C6, Lg. unfold GCM_TAG_LEN. try (f_equal; lia).
Qed.
End Record.

(** ** Operations on the writer *)
Lemma bytes_ztake k l : bytes_ok l -> bytes_ok (ztake k l).
Proof. intros H. unfold ztake. rewrite <- (firstn_skipn (Z.to_nat k) l) in H. now apply Forall_app in H. Qed.
Lemma writer_step_at D s0 s c o A w B : at_work s0 s (A ++ w ++ B) -> cu_sn c = sn -> cursor_ok c -> cop_ok o -> writer_op o = true -> op_bytes o ->
  cu_head c = (s_tx_cmd s0 + zlen A) mod 65536 -> zlen w = cur_len c ->
  wps (cop_run c o) n s D (fun r s' => exists w', at_work s0 s' (A ++ w' ++ B) /\ zlen w' = zlen w /\ cursor_ok (snd r) /\ same_window c (snd r) /\
    astep w (cur_pos c) o = (fst r, w', cur_pos (snd r))).
Proof.
  intros Hw Hsn H Ho Hr Hb Hh Lw. pose proof (cur_accounting c H) as (A1 & A2 & A3).
  pose proof (cur_ptr_pos c H) as Ep.
  assert (forall l, bytes_ok l -> cur_pos c + zlen l <= cur_len c ->
    wps (set_sn_tx_buf sn (cu_ptr c) l) n s D (fun r s' => r = Ok tt /\ at_work s0 s' (A ++ overlay w (cur_pos c) l ++ B) /\ zlen (overlay w (cur_pos c) l) = zlen w)) as Wr.
  { intros l Bl Hl. set (q := cur_pos c) in *. pose proof (zlen_nonneg l).
    assert (w = ztake q w ++ ztake (zlen l) (zdrop q w) ++ zdrop (q + zlen l) w) as E.
    { rewrite <- (ztake_zdrop q w) at 1. f_equal. rewrite <- (ztake_zdrop (zlen l) (zdrop q w)) at 1. f_equal. rewrite zdrop_zdrop by lia. f_equal. lia. }
    rewrite E in Hw. rewrite <- !app_assoc in Hw. rewrite app_assoc in Hw.
    eapply wps_mono; [| |apply (write_at D s0 s _ (A ++ ztake q w) (ztake (zlen l) (zdrop q w)) (zdrop (q + zlen l) w ++ B) l Hw)]; auto.
    - intros r s' (-> & Hw'). split; [reflexivity|]. unfold overlay. split; [rewrite <- !app_assoc in *; exact Hw'|].
      rewrite !zlen_app, zlen_ztake, zlen_zdrop. lia.
    - rewrite Ep, Hh, zlen_app, zlen_ztake. unfold wadd. lia.
    - rewrite zlen_ztake, zlen_zdrop. lia. }
  destruct o as [p| |k|k|buf|buf]; try discriminate Hr; cbn [cop_run cop_ok op_bytes astep] in *; try rewrite Lw.
  - destruct (cur_seek_spec c p H Ho) as [(Ht & q & -> & Hq & Eq)|(Ht & ->)]; cbn [wps]; exists w.
    + split; [exact Hw|]. split; [exact Lw|]. split; [exact Hq|]. split; [apply same_window_at|]. cbn [fst snd].
      rewrite Eq. destruct (Z.leb_spec 0 (target (cur_len c) (cur_pos c) p)); [|lia].
      destruct (Z.leb_spec (target (cur_len c) (cur_pos c) p) (cur_len c)); [|lia]. reflexivity.
    + split; [exact Hw|]. split; [exact Lw|]. split; [exact H|]. split; [repeat split|]. cbn [fst snd].
      destruct (Z.leb_spec 0 (target (cur_len c) (cur_pos c) p)); [|reflexivity].
      destruct (Z.leb_spec (target (cur_len c) (cur_pos c) p) (cur_len c)); [lia|reflexivity].
  - cbn [wps]. unfold cur_rewind. destruct (cur_move c 0 H ltac:(lia) (cu_head c)) as [M1 M2].
    { destruct H as (H1 & _). unfold is_u16 in H1. lia. }
    exists w. split; [exact Hw|]. split; [exact Lw|]. split; [exact M1|]. split; [apply same_window_at|]. cbn [fst snd]. now rewrite M2.
  - unfold cur_write. rewrite len16_spec. pose proof (zlen_nonneg buf).
    replace (Z.min (cur_remain c) (Z.min (zlen buf) 65535)) with (Z.min (cur_len c - cur_pos c) (zlen buf)) by lia.
    set (k0 := Z.min (cur_len c - cur_pos c) (zlen buf)).
    destruct (Z.eqb_spec k0 0) as [E|E]; cbn [negb].
    + cbn [wps bind ret]. exists w. split; [exact Hw|]. split; [exact Lw|]. split; [exact H|]. split; [repeat split|]. cbn [fst snd].
      rewrite E, ztake_0, overlay_nil, Z.add_0_r. reflexivity.
    + rewrite Hsn. apply wps_bind, wps_bindM. destruct (cur_advance c k0 H ltac:(lia)) as [M1 M2].
      eapply wps_mono; [| |apply (Wr (ztake k0 buf))]; auto.
      * intros r s1 (-> & F1 & F2). cbn [wps ret]. exists (overlay w (cur_pos c) (ztake k0 buf)).
        split; [exact F1|]. split; [congruence|]. split; [exact M1|]. split; [apply same_window_at|]. cbn [fst snd]. rewrite M2. reflexivity.
      * now apply bytes_ztake.
      * rewrite zlen_ztake. lia.
  - unfold cur_write_all. rewrite len16_spec. pose proof (zlen_nonneg buf).
    destruct (Z.eqb_spec (Z.min (cur_remain c) (Z.min (zlen buf) 65535)) (Z.min (zlen buf) 65535)) as [E|E]; cbn [negb].
    + rewrite Hsn. apply wps_bind, wps_bindM.
      replace (Z.min (cur_remain c) (Z.min (zlen buf) 65535)) with (zlen buf) by lia.
      destruct (cur_advance c (zlen buf) H ltac:(lia)) as [M1 M2].
      eapply wps_mono; [| |apply (Wr buf)]; auto; try lia.
      intros r s1 (-> & F1 & F2). cbn [wps ret]. exists (overlay w (cur_pos c) buf).
      split; [exact F1|]. split; [congruence|]. split; [exact M1|]. split; [apply same_window_at|]. cbn [fst snd].
      destruct (Z.leb_spec (zlen buf) (cur_len c - cur_pos c)); [|lia]. rewrite M2. reflexivity.
    + cbn [wps bind fail]. exists w. split; [exact Hw|]. split; [exact Lw|]. split; [exact H|]. split; [repeat split|]. cbn [fst snd].
      destruct (Z.leb_spec (zlen buf) (cur_len c - cur_pos c)); [lia|]. reflexivity.
Qed.
Lemma writer_session_at D s0 A B ops : forall s c w, at_work s0 s (A ++ w ++ B) -> cu_sn c = sn -> cursor_ok c -> Forall cop_ok ops ->
  forallb writer_op ops = true -> Forall op_bytes ops -> cu_head c = (s_tx_cmd s0 + zlen A) mod 65536 -> zlen w = cur_len c ->
  wps (cops_run c ops) n s D (fun r s' => exists w', at_work s0 s' (A ++ w' ++ B) /\ zlen w' = zlen w /\ cursor_ok (snd r) /\ same_window c (snd r) /\
    asteps w (cur_pos c) ops = (fst r, w', cur_pos (snd r))).
Proof.
  induction ops as [|o ops IH]; intros s c w Hw Hsn H Ho Hr Hb Hh Lw; cbn [cops_run].
  - cbn. exists w. split; [exact Hw|]. split; [reflexivity|]. split; [exact H|]. split; [repeat split|]. reflexivity.
  - pose proof (Forall_inv Ho) as Ho1. pose proof (Forall_inv_tail Ho) as Ho2. pose proof (Forall_inv Hb) as Hb1. pose proof (Forall_inv_tail Hb) as Hb2.
    cbn [forallb] in Hr. apply andb_true_iff in Hr. destruct Hr as [Hr1 Hr2].
    apply wps_bind. eapply wps_mono; [| |exact (writer_step_at D s0 s c o A w B Hw Hsn H Ho1 Hr1 Hb1 Hh Lw)]; [auto|].
    intros [x c1] s1 (w1 & E1 & L1 & H1 & W1 & P1). cbn [fst snd] in *. apply wps_bind.
    pose proof (same_window_len _ _ W1) as Ln.
    eapply wps_mono; [| |apply (IH s1 c1 w1)]; auto; try lia.
    + intros [xs c2] s2 (w2 & E2 & L2 & H2 & W2 & P2). cbn [wps fst snd] in *. exists w2. split; [exact E2|]. split; [lia|]. split; [exact H2|].
      split; [eapply same_window_trans; eassumption|]. cbn [asteps]. rewrite P1, P2. reflexivity.
    + destruct W1 as (-> & _). exact Hsn.
    + destruct W1 as (_ & -> & _). exact Hh.
Qed.
End Tx.
