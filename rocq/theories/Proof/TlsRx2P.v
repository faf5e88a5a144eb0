(** The TLS client over the receive window. *)
From Coq Require Import String.
From Verif Require Import Model.Prelude Model.Bus Model.Chip Model.Specifiers Model.LlBits Model.Ll Model.HlIo Model.HlCommon Model.HlTcp Model.Stream Model.Gcm
  Spec.Hoare Spec.Sock Spec.Cursor Spec.TcpClient Spec.Gcm38D Spec.Fips197 Spec.TlsSecrets Spec.TlsMessages Spec.TlsProtect.
From Verif Require Import Proof.Base Proof.RingP Proof.ChipP Proof.SockP Proof.StreamP Proof.TcpP Proof.Ghash3P Proof.GcmP Proof.TlsBufP Proof.TlsSendP Proof.TlsWireP Proof.TlsRxP.
From Verif Require Import Model.TlsTypes Model.TlsBuf Model.TlsKeys Model.TlsHello Model.TlsRecord Model.TlsClient Spec.TlsQueue Spec.TlsSession Spec.TlsWire.
Ltac Zify.zify_post_hook ::= idtac.
Local Open Scope list_scope.

Lemma wps_aio {A B S} f (p : M A) (c : S) (k : A -> prog (res Z B * S)) n s D Q :
  wps p n s D (fun r s' => match r with Ok a => wps (k a) n s' D Q | Err e => Q (Err (f e), c) s' end) -> wps (a_io f p c k) n s D Q.
Proof. intros H. unfold a_io. apply wps_bind. eapply wps_mono; [| |exact H]; [auto|]. intros [a|e] s' X; exact X. Qed.
Lemma last_app_ne' (a b : list Z) d : b <> [] -> last (a ++ b) d = last b d.
Proof. intros Hb. induction a as [|x a IH]; [reflexivity|]. cbn [app]. destruct (a ++ b) eqn:E; [destruct a, b; cbn in E; congruence|]. rewrite <- E in *. cbn [last]. rewrite <- IH. destruct (a ++ b); [congruence|reflexivity]. Qed.

Section Rx.
Context (f : Z * Z) (sn : Sn) (dbg : bool) (D : Prop).
Notation wn := (wn f).
Let n := snz sn.

(** *** The header *)
Lemma header_wn c s rd tx b w : tc_sn c = sn -> wn s rd tx b b w -> 5 <= zlen w ->
  wps (recv_header dbg c) n s D (fun x s' => exists ext, let W := w ++ ext in let h := ztake 5 w in
    match content_type_try_from (at_ h 0) with
    | None => x = (Err IllegalParameter, c) /\ wn s' rd tx b b W
    | Some _ =>
        if RECORD_SIZE_LIMIT c <? rh_length h then x = (Err RecordOverflow, c) /\ wn s' rd tx b b W
        else if zlen W <? rh_length h + 5 then x = (Ok None, c) /\ wn s' rd tx b b W
        else x = (Ok (Some h), c) /\ exists b', wn s' (rd ++ h) tx b' b' (zdrop 5 W)
    end).
Proof.
  intros Hsn H Hw. unfold recv_header. rewrite Hsn. apply wps_aio. eapply wps_mono; [| |apply (reader_wn f sn D dbg s rd tx b w H)]; [auto| |intros ->; change (zlen (@nil Z)) with 0 in Hw; lia].
  intros r s1 (cu & ext & -> & H1 & C1). pose proof (zlen_nonneg ext). assert (zlen (w ++ ext) = zlen w + zlen ext) as Lw by apply zlen_app.
  apply wps_aio. eapply wps_mono; [| |apply (read_exact_wn f sn D cu s1 rd tx b b (w ++ ext) 0 5 H1 C1)]; [auto| |lia|lia].
  intros r s2 (cu2 & -> & H2 & C2). rewrite zdrop_0, ztake_app_l in * by lia. unfold a_tres, rh_deser.
  destruct (content_type_try_from _) as [ct|] eqn:Ec; [|cbn [wps]; exists ext; cbv zeta; rewrite ?Ec; auto].
  destruct (RECORD_SIZE_LIMIT c <? _) eqn:El; [cbn [wps]; exists ext; cbv zeta; rewrite ?Ec, ?El; auto|].
  destruct C2 as (A1 & A2 & A3 & A4 & A5). rewrite A5. pose proof (wn_bounds f _ _ _ _ _ _ H2) as (_ & Lb & Lc). rewrite len16_spec. change RH_LEN with 5.
  assert (Z.min (rh_length (ztake 5 w) + 5) 65535 <= zlen (w ++ ext) <-> rh_length (ztake 5 w) + 5 <= zlen (w ++ ext)) as Eq by lia.
  destruct (Z.ltb_spec (zlen (w ++ ext)) (Z.min (rh_length (ztake 5 w) + 5) 65535)) as [X|X], (zlen (w ++ ext) <? rh_length (ztake 5 w) + 5) eqn:Y; try lia.
  - cbn [wps]. exists ext. cbv zeta. rewrite ?Ec, ?El, ?Y. auto.
  - apply wps_aio. eapply wps_mono; [| |apply (done_wn f sn D cu2 s2 rd tx b b (w ++ ext) (0 + 5) H2)]; [auto| |repeat split; assumption || apply A2].
    intros r s3 (-> & H3). cbn [wps]. exists ext. cbv zeta. rewrite ?Ec, ?El, ?Y. rewrite ztake_app_l in * by lia. auto.
Qed.

(** *** The body of a record without protection *)
Lemma body_loop_wn rd tx bb w (c0 : TlsClient) ad rest : forall k reader remain c s p, wn s rd tx bb bb w -> cur_at sn reader bb w p -> remain <= Z.of_nat k -> 0 <= remain -> 0 <= p -> p + remain <= zlen w ->
  (exists rx, c = tc_set_rx c0 rx /\ holds rx (ad, rest ++ ztake p w) /\ b_N rx = b_N (tc_rx c0)) -> zlen ad + zlen rest + p + remain <= b_N (tc_rx c0) - 1 ->
  wps (recv_body_loop dbg k reader remain c) n s D (fun x s' => wn s' rd tx bb bb w /\
    exists reader' rx, x = (Ok reader', tc_set_rx c0 rx) /\ cur_at sn reader' bb w (p + remain) /\ holds rx (ad, rest ++ ztake (p + remain) w) /\ b_N rx = b_N (tc_rx c0)).
Proof.
  induction k as [|k IH]; intros reader remain c s p H C Hk Hr Hp Hw (rx & -> & Hh & HN) Room; cbn [recv_body_loop]; destruct (Z.eqb_spec (Z.min remain 64) 0) as [Ez|Nz]; try (change (Z.of_nat 0) with 0 in Hk; lia).
  1,2: cbn [wps]; split; [exact H|]; exists reader, rx; replace (p + remain) with p by lia; auto.
  set (m := Z.min remain 64) in *. apply wps_aio. eapply wps_mono; [| |apply (read_exact_wn f sn D reader s rd tx bb bb w p m H C)]; [auto| |lia|lia].
  intros r s1 (cu & -> & H1 & C1). cbn [tc_rx tc_set_rx].
  assert (zlen (ztake m (zdrop p w)) = m) as Lm by (rewrite zlen_ztake, zlen_zdrop; lia).
  assert (zlen (ztake p w) = p) as Lp by (rewrite zlen_ztake; lia).
  destruct (extend_fits dbg rx (ad, rest ++ ztake p w) (ztake m (zdrop p w)) Hh) as (rx1 & E & Hh1 & HN1 & _).
  { unfold q_size. cbn [fst snd]. rewrite zlen_app, Lm, Lp. lia. }
  cbn [fst snd] in Hh1. assert ((rest ++ ztake p w) ++ ztake m (zdrop p w) = rest ++ ztake (p + m) w) as Ea by (rewrite <- app_assoc, ztake_split by lia; reflexivity).
  rewrite Ea in Hh1. rewrite E. cbn [a_tres]. eapply wps_mono; [| |apply (IH cu (remain - m) _ s1 (p + m) H1 C1)]; [auto| |lia|lia|lia|lia| |lia].
  - intros x s' (Hs & rd' & rx' & X). split; [exact Hs|]. exists rd', rx'. replace (p + m + (remain - m)) with (p + remain) in X by lia. exact X.
  - exists rx1. split; [destruct c0; reflexivity|]. split; [exact Hh1|congruence].
Qed.
Lemma plain_wn c s rd tx b body more ad rest h : tc_sn c = sn -> wn s rd tx b b (body ++ more) -> zlen body = rh_length h -> holds (tc_rx c) (ad, rest) -> zlen ad + zlen rest + zlen body <= b_N (tc_rx c) - 1 -> body <> [] ->
  wps (recv_unencrypted_body dbg c h) n s D (fun x s' => (exists b' w', wn s' (rd ++ body) tx b' b' w') /\ exists rx, x = (Ok tt, tc_set_rx c rx) /\ holds rx (ad, rest ++ body) /\ b_N rx = b_N (tc_rx c)).
Proof.
  intros Hsn H Hl Hh Room Ne. unfold recv_unencrypted_body. rewrite Hsn. apply wps_aio. eapply wps_mono; [| |apply (reader_wn f sn D dbg s rd tx b _ H)]; [auto| |destruct body; [contradiction|discriminate]].
  intros r s1 (cu & ext & -> & H1 & C1). pose proof (zlen_nonneg body) as N1. pose proof (zlen_nonneg more) as N2. pose proof (zlen_nonneg ext) as N3. rewrite <- Hl.
  assert (zlen ((body ++ more) ++ ext) = zlen body + zlen more + zlen ext) as Lw by (rewrite !zlen_app; reflexivity).
  apply wps_bind. eapply wps_mono; [| |apply (body_loop_wn rd tx b _ c ad rest (Z.to_nat (zlen body)) cu (zlen body) c s1 0 H1 C1)]; [auto| |lia|lia|lia|lia| |lia].
  - intros x s2 (H2 & cu2 & rx & -> & C2 & Hh2 & HN). cbn [Z.add] in *. apply wps_aio. eapply wps_mono; [| |apply (done_wn f sn D cu2 s2 rd tx b b _ (zlen body) H2 C2)]; [auto|].
    intros r s3 (-> & b3 & V3). cbn [wps]. assert (ztake (zlen body) ((body ++ more) ++ ext) = body) as Et by (rewrite <- app_assoc, ztake_app_l, ztake_all by lia; reflexivity). rewrite Et in *. split; [eauto|]. exists rx. auto.
  - exists (tc_rx c). split; [destruct c; reflexivity|]. split; [|reflexivity]. rewrite ztake_neg, app_nil_r by lia. exact Hh.
Qed.

(** *** The body of a protected record *)
Lemma ctr_concat_len key nonce (header : list Z) (cs : list (list Z)) : length key = 16%nat -> bytes_ok key -> length nonce = 12%nat -> bytes_ok nonce -> length header = 5%nat -> Forall byte16 cs ->
  zlen (concat (ctr_xor key nonce 1 cs)) = 16 * zlen cs.
Proof.
  intros Kl Kb Nl Nb Hl Hcs. assert (length (concat (ctr_xor key nonce 1 cs)) = (16 * length cs)%nat) as Lx; [|unfold zlen; lia].
  rewrite <- (ctr_xor_length key nonce 1 cs). assert (Forall byte16 (ctr_xor key nonce 1 cs)) as Hx by (apply (ctr_xor_byte16 key nonce header); auto). clear - Hx. induction Hx as [|a l (Ha & _) Hl IH]; [reflexivity|]. cbn [concat]. rewrite app_length, IH, Ha. cbn [length]. lia.
Qed.
Lemma decrypt_loop_wn key nonce (header : list Z) (Kl : length key = 16%nat) (Kb : bytes_ok key) (Nl : length nonce = 12%nat) (Nb : bytes_ok nonce) (Hl : length header = 5%nat) (Hb : bytes_ok header) rd tx bb q w C more ad rest (Ew : w = C ++ more) (LC : zlen C <= 16384) (BC : bytes_ok C) :
  forall fuel g cs x p b s, wn s rd tx bb q w -> gcm_at key nonce header g cs (1 + zlen cs) (16 * zlen cs) -> C = concat cs ++ x -> x <> [] -> (length x <= fuel)%nat -> p mod 65536 = (bb + 16 * zlen cs) mod 65536 ->
  holds b (ad, rest ++ concat (ctr_xor key nonce 1 cs)) -> zlen ad + zlen rest + zlen C <= b_N b - 1 ->
  wps (decrypt_loop fuel dbg sn g p (zlen x) b) n s D (fun r s' => wn s' rd tx bb q w /\
    exists ct p' g' b' pl y, r = (Ok (ct, p', g'), b') /\ is_u16 p' /\ p' = (bb + zlen C) mod 65536 /\ gcm_finish g' = gcm_tag (fips_cipher key) nonce header C /\
      GCTR (fips_cipher key) (inc32 (J0 nonce)) C = pl ++ [y] /\ ct = content_type_try_from y /\ holds b' (ad, rest ++ pl) /\ b_N b' = b_N b).
Proof.
  induction fuel as [|fuel IH]; intros g cs x p b s H G EC Nx Lf Ep Hh Room; [destruct x; [contradiction|cbn [length] in Lf; lia]|]. cbn [decrypt_loop]. cbv zeta.
  pose proof G as (_ & _ & _ & _ & _ & Hcs). pose proof (zlen_nonneg cs) as Nc. pose proof (zlen_nonneg more) as Nm.
  assert (0 < zlen x) as Px by (destruct x; [contradiction|]; rewrite zlen_cons; pose proof (zlen_nonneg x); lia).
  set (m := Z.min 16 (zlen x)) in *.
  assert (zlen (concat cs) = 16 * zlen cs) as Lcs.
  { destruct x as [|x0 x']; [contradiction|]. pose proof (zlen_concat key nonce header Kl Nl Hl cs [x0] Hcs ltac:(cbn [length]; lia)) as X. rewrite zlen_app in X. change (zlen [x0]) with 1 in X. lia. }
  assert (zlen C = 16 * zlen cs + zlen x) as LC' by (rewrite EC, zlen_app, Lcs; reflexivity).
  apply wps_aio, wps_rx_buf. intros s1 E1. pose proof (wn_env f _ _ _ _ _ _ _ H E1) as H1.
  rewrite (wn_read f s1 rd tx bb q w (16 * zlen cs) m p H1) by (try lia; try exact Ep; rewrite Ew, zlen_app; lia).
  assert (ztake m (zdrop (16 * zlen cs) w) = ztake m x) as -> by (rewrite Ew, EC, <- app_assoc, <- Lcs, zdrop_exact, ztake_app_l by lia; reflexivity).
  set (blk := ztake m x). assert (zlen blk = m) as Lb by (unfold blk; rewrite zlen_ztake; lia).
  assert (bytes_ok x) as Bx by (rewrite EC in BC; now apply Forall_app in BC).
  assert (bytes_ok blk) as Bb by (unfold blk; now apply bytes_ok_ztake).
  assert (1 <= length blk <= 16)%nat as Lb' by (unfold zlen in Lb; lia).
  destruct (decrypt_at key nonce header Kl Kb Nl Nb Hl g cs _ _ blk G ltac:(lia) Bb Lb') as (g1 & -> & G1). cbn [unwrap].
  set (pl := xor_str blk (E key (ctr nonce (1 + zlen cs + 1)))) in *.
  assert (length pl = length blk) as Lpl by (apply (xor_ctr_len key nonce header); auto; lia).
  pose proof (ctr_concat_len key nonce header cs Kl Kb Nl Nb Hl Hcs) as Lx.
  destruct (extend_fits dbg b _ pl Hh) as (b1 & -> & Hh1 & HN1 & _).
  { unfold q_size. cbn [fst snd]. rewrite zlen_app, Lx. assert (zlen pl = m) by (rewrite <- Lb; unfold zlen; now rewrite Lpl). lia. }
  cbn [fst snd] in Hh1. rewrite <- app_assoc in Hh1. cbn [a_tres].
  destruct (Z.eqb_spec (zlen x - m) 0) as [Ez|Nz].
  - assert (blk = x) as Eb by (unfold blk; apply ztake_all; lia). clearbody blk. subst blk.
    assert (concat (ctr_xor key nonce 1 cs) ++ pl <> []) as Ne by (intros Y; apply app_eq_nil in Y as (_ & Y); rewrite Y in Lpl; cbn [length] in Lpl; lia).
    pose proof (app_removelast_last 0 Ne) as Er. set (P := concat (ctr_xor key nonce 1 cs) ++ pl) in *.
    rewrite Er in Hh1. rewrite app_assoc in Hh1. destruct (pop_ok _ _ _ _ Hh1) as (b2 & -> & Hh2 & HN2 & _). cbn [unwrap wps]. split; [exact H1|].
    eexists _, _, _, b2, (removelast P), (last P 0). split; [reflexivity|]. split; [apply wadd_range|]. split; [unfold wadd; rewrite <- Zplus_mod_idemp_l, Ep, Zplus_mod_idemp_l; f_equal; lia|].
    split; [rewrite EC; refine (finish_stream key nonce header Kl Kb Nl Nb Hl Hb g1 cs x _ _ Hcs Lb'); exact G1|].
    split; [|split; [reflexivity|split; [exact Hh2|congruence]]].
    rewrite EC, <- Er. unfold P. rewrite (GCTR_blocks key nonce header) by (auto; lia). unfold pl. replace (1 + zlen cs + 1) with (zlen cs + 2) by lia. reflexivity.
  - assert (length blk = 16%nat) as L16 by (unfold zlen in Lb; lia). assert (padded blk = blk) as Epd by (unfold padded; rewrite L16; apply app_nil_r). rewrite Epd in G1.
    assert (zlen (cs ++ [blk]) = zlen cs + 1) as Lc by (rewrite zlen_app; reflexivity).
    assert (x = blk ++ zdrop m x) as Ex by (unfold blk; now rewrite ztake_zdrop).
    assert (zlen (zdrop m x) = zlen x - m) as Lz by (rewrite zlen_zdrop; lia). rewrite <- Lz.
    eapply wps_mono; [| |apply (IH g1 (cs ++ [blk]) (zdrop m x) (wadd p m) b1 s1 H1)]; [auto| | | | | | | |].
    + intros r s' (Hs & ct & p' & g' & b' & pl' & y & Q1 & Q2 & Q3 & Q4 & Q5 & Q6 & Q7 & Q8). split; [exact Hs|]. exists ct, p', g', b', pl', y. repeat (split; [assumption|]). congruence.
    + rewrite Lc. replace (1 + (zlen cs + 1)) with (1 + zlen cs + 1) by lia. replace (16 * (zlen cs + 1)) with (16 * zlen cs + zlen blk) by lia. exact G1.
    + rewrite concat_app. cbn [concat]. rewrite app_nil_r, <- app_assoc, <- Ex. exact EC.
    + intros Y. rewrite Y in Lz. change (zlen (@nil Z)) with 0 in Lz. lia.
    + unfold zlen in *. lia.
    + rewrite Lc. unfold wadd. rewrite Z.mod_mod, <- Zplus_mod_idemp_l, Ep, Zplus_mod_idemp_l by lia. f_equal. lia.
    + rewrite (ctr_xor_app key nonce header Kl Nl Hl), concat_app. cbn [concat]. rewrite app_nil_r. exact Hh1.
    + lia.
Qed.
End Rx.
