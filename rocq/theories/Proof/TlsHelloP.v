(** The ClientHello. *)
From Coq Require Import String.
From Verif Require Import Model.Prelude Model.Bus Model.HlIo Model.TlsTypes Model.TlsBuf Model.TlsKeys Model.TlsHello Spec.TlsSecrets Spec.TlsMessages Proof.Base.
Ltac Zify.zify_post_hook ::= idtac.
Local Open Scope list_scope.

(** ** Labels *)
Lemma ascii_app s t : ascii_bytes (s ++ t) = ascii_bytes s ++ ascii_bytes t.
Proof. unfold ascii_bytes. rewrite <- map_app. f_equal. induction s; cbn; [reflexivity|]. now f_equal. Qed.
Lemma label_eq cx n secret label ctx : hkdf_expand_label cx n secret (ascii_bytes label) ctx = expand_label cx secret label ctx n.
Proof.
  unfold hkdf_expand_label, hkdf_label, expand_label, vec8. rewrite ascii_app. f_equal. rewrite zlen_app. change (zlen (ascii_bytes "tls13 ")) with 6. rewrite Z.add_comm, <- !app_assoc. reflexivity.
Qed.
Lemma derive_eq cx secret label messages : derive_secret cx secret (ascii_bytes label) (cx_sha256 cx messages) = derive cx secret label messages.
Proof. exact (label_eq cx 32 secret label (cx_sha256 cx messages)). Qed.
Lemma derive_empty cx secret label : crypto_ok cx -> derive_secret cx secret (ascii_bytes label) EMPTY_HASH = derive cx secret label [].
Proof. intros (_ & _ & _ & _ & E). unfold derive. rewrite E. exact (label_eq cx 32 secret label EMPTY_HASH). Qed.

(** ** The writer *)
Section Writer.
Variable buf : list Z.
Variable ks : KeySchedule.
Definition written (w : ClientHelloWriter) (n : Z) (out t : list Z) : Prop :=
  w = mkCW (out ++ zdrop n buf) n (ks_set_transcript ks t) /\ zlen out = n.
Lemma put_end out src : zlen out + zlen src <= zlen buf -> put (out ++ zdrop (zlen out) buf) (zlen out) src = (out ++ src) ++ zdrop (zlen out + zlen src) buf.
Proof.
  intros H. pose proof (zlen_nonneg out). pose proof (zlen_nonneg src). unfold put. rewrite ztake_app_l, ztake_all by lia. rewrite zdrop_app_r by lia. replace (zlen out + zlen src - zlen out) with (zlen src) by lia.
  rewrite zdrop_zdrop by lia. rewrite <- app_assoc. do 3 f_equal. lia.
Qed.
Lemma copy_no_hash w n out t src m : written w n out t -> zlen src = m -> n + m <= zlen buf ->
  exists w', cw_copy_no_hash w src = TOk w' /\ written w' (n + m) (out ++ src) t.
Proof.
  intros (-> & <-) <- H. unfold cw_copy_no_hash. cbn [cw_buf cw_len cw_ks]. pose proof (zlen_nonneg out). pose proof (zlen_nonneg src). rewrite zlen_app, zlen_zdrop.
  destruct (Z.ltb_spec (zlen out + (zlen buf - Z.min (Z.max 0 (zlen out)) (zlen buf))) (zlen out + zlen src)); [lia|].
  eexists. split; [reflexivity|]. rewrite put_end by lia. split; [reflexivity|apply zlen_app].
Qed.
Lemma copy w n out t src m : written w n out t -> zlen src = m -> n + m <= zlen buf ->
  exists w', cw_copy w src = TOk w' /\ written w' (n + m) (out ++ src) (t ++ src).
Proof.
  intros W E H. unfold cw_copy. destruct (copy_no_hash w n out t src m W E H) as (w' & -> & (-> & L)). cbn [tbind cw_buf cw_len cw_ks]. eexists. split; [reflexivity|]. now split.
Qed.
Lemma push w n out t v : written w n out t -> n + 1 <= zlen buf -> exists w', cw_push w v = TOk w' /\ written w' (n + 1) (out ++ [v]) (t ++ [v]).
Proof.
  intros (-> & <-) H. unfold cw_push. cbn [cw_buf cw_len cw_ks]. pose proof (zlen_nonneg out). rewrite zlen_app, zlen_zdrop.
  destruct (Z.leb_spec (zlen out + (zlen buf - Z.min (Z.max 0 (zlen out)) (zlen buf))) (zlen out)); [lia|].
  eexists. split; [reflexivity|]. change 1 with (zlen [v]). rewrite put_end by (change (zlen [v]) with 1; lia). split; [reflexivity|apply zlen_app].
Qed.
End Writer.
Lemma uadd_ok a b : a + b < 65536 -> uadd a b = TOk (a + b).
Proof. intros H. unfold uadd. destruct (Z.ltb_spec (a + b) 65536); [reflexivity|lia]. Qed.
(** Without knowing that it fits. *)
Definition grown (buf : list Z) (w : ClientHelloWriter) (n : Z) : Prop := cw_len w = n /\ zlen (cw_buf w) = zlen buf /\ 0 <= n <= zlen buf.
Lemma copy_no_hash_or buf w n src m : grown buf w n -> zlen src = m -> cw_copy_no_hash w src = TPanic \/ exists w', cw_copy_no_hash w src = TOk w' /\ grown buf w' (n + m).
Proof.
  intros (E & L & H) <-. unfold cw_copy_no_hash. pose proof (zlen_nonneg src). destruct (Z.ltb_spec (zlen (cw_buf w)) (cw_len w + zlen src)); [now left|right]. eexists. split; [reflexivity|].
  unfold grown. cbn [cw_len cw_buf]. split; [lia|]. split; [|lia]. unfold put. rewrite !zlen_app, zlen_ztake, zlen_zdrop. lia.
Qed.
Lemma copy_or buf w n src m : grown buf w n -> zlen src = m -> cw_copy w src = TPanic \/ exists w', cw_copy w src = TOk w' /\ grown buf w' (n + m).
Proof.
  intros G E. unfold cw_copy. destruct (copy_no_hash_or buf w n src m G E) as [->|(w' & -> & G')]; [now left|right]. eexists. split; [reflexivity|]. exact G'.
Qed.
Lemma push_or buf w n v : grown buf w n -> cw_push w v = TPanic \/ exists w', cw_push w v = TOk w' /\ grown buf w' (n + 1).
Proof.
  intros (E & L & H). unfold cw_push. destruct (Z.leb_spec (zlen (cw_buf w)) (cw_len w)); [now left|right]. eexists. split; [reflexivity|].
  unfold grown. cbn [cw_len cw_buf]. split; [lia|]. split; [|lia]. unfold put. rewrite !zlen_app, zlen_ztake, zlen_zdrop. change (zlen [v]) with 1. lia.
Qed.
Lemma uadd_or a b : uadd a b = TPanic \/ uadd a b = TOk (a + b).
Proof. unfold uadd. destruct (_ <? _); auto. Qed.
Lemma binder_len cx ks psk t : crypto_ok cx -> zlen (fst (binder cx ks psk t)) = 32.
Proof. intros (_ & _ & _ & H & _). unfold binder. destruct (binder_key cx ks psk). cbn [fst]. apply H. Qed.

(** The length of the record. *)
Definition hello_len (hostname identity : list Z) : Z := 234 + zlen hostname + zlen identity.
Section Hello.
Variables (cx : Crypto) (buf random hostname share : list Z) (ks : KeySchedule) (psk identity : list Z) (limit : Z).
Hypothesis Hcx : crypto_ok cx.
Hypothesis Hr : zlen random = 32.
Hypothesis Hs : zlen share = 65.
Hypothesis Hh : zlen hostname < 256.
Hypothesis Hb : zlen buf < 65536.
Lemma u8_host : u8 (zlen hostname) = zlen hostname.
Proof. unfold u8. apply Z.mod_small. pose proof (zlen_nonneg hostname). lia. Qed.

Ltac adv_u := match goal with |- context [uadd ?a ?b] => destruct (uadd_or a b) as [->| ->]; [reflexivity|]; cbn [tbind] end.
Ltac adv_c G m := match goal with
  | |- context [cw_copy ?w ?x] => let w' := fresh "w" in let G' := fresh "G" in
      destruct (copy_or buf w _ x m G) as [->|(w' & -> & G')]; [first [reflexivity|assumption|vm_compute; reflexivity]|reflexivity|]; cbn [tbind]; clear G; rename G' into G
  end.
Ltac adv_p G := match goal with
  | |- context [cw_push ?w ?x] => let w' := fresh "w" in let G' := fresh "G" in
      destruct (push_or buf w _ x G) as [->|(w' & -> & G')]; [reflexivity|]; cbn [tbind]; clear G; rename G' into G
  end.
Lemma hello_too_long : zlen buf < hello_len hostname identity -> client_hello_ser cx buf random hostname share ks psk identity limit = TPanic.
Proof.
  intros F. unfold hello_len in F. unfold client_hello_ser. do 5 adv_u.
  assert (grown buf (mkCW buf 0 ks) 0) as G by (unfold grown; cbn; pose proof (zlen_nonneg buf); lia).
  destruct (copy_no_hash_or buf _ _ RECORD_HEADER_NO_LENGTH 3 G eq_refl) as [->|(w1 & -> & G1)]; [reflexivity|]. cbn [tbind]. clear G.
  match goal with |- context [cw_copy_no_hash w1 ?x] => destruct (copy_no_hash_or buf _ _ x 2 G1 (zlen_be16 _)) as [->|(w2 & -> & G2)]; [reflexivity|] end. cbn [tbind]. clear G1.
  adv_p G2. adv_p G2. adv_c G2 2. adv_c G2 2. adv_c G2 32. adv_c G2 7. adv_c G2 2. adv_c G2 45. do 2 adv_u. adv_c G2 2. adv_c G2 2. adv_c G2 2. adv_p G2. adv_c G2 2. adv_c G2 (zlen hostname).
  adv_c G2 10. adv_c G2 65. adv_c G2 2. adv_c G2 2. adv_c G2 2. do 5 adv_u. adv_c G2 2. adv_c G2 2. adv_c G2 2. adv_c G2 2. adv_c G2 (zlen identity). adv_c G2 4. adv_c G2 2. adv_c G2 1.
  unfold cw_write_binder. match goal with |- context [binder cx ?k psk ?t] => pose proof (binder_len cx k psk t Hcx) as Lb; destruct (binder cx k psk t) as (b, k') end. cbn [fst] in Lb.
  match goal with |- context [cw_copy ?w ?x] => destruct (copy_or buf w _ x 32 G2 Lb) as [->|(wl & -> & G3)]; [reflexivity|] end.
  exfalso. destruct G3 as (_ & _ & G3). lia.
Qed.

Definition h : hello := mkHello random hostname share limit identity.
Ltac use_c W m := match goal with
  | |- context [cw_copy ?w ?x] => let w' := fresh "w" in let W' := fresh "W" in
      destruct (copy buf ks w _ _ _ x m W) as (w' & -> & W'); [first [reflexivity|assumption|vm_compute; reflexivity]|lia|]; cbn [tbind]; clear W; rename W' into W
  end.
Ltac use_p W := match goal with
  | |- context [cw_push ?w ?x] => let w' := fresh "w" in let W' := fresh "W" in
      destruct (push buf ks w _ _ _ x W) as (w' & -> & W'); [lia|]; cbn [tbind]; clear W; rename W' into W
  end.
Ltac use_u := match goal with |- context [uadd ?a ?b] => rewrite (uadd_ok a b) by lia; cbn [tbind] end.
Lemma exts_len : zlen (hello_exts h) = 135 + zlen hostname.
Proof.
  unfold hello_exts, h. cbn [he_hostname he_share he_limit]. unfold ext, vec16. rewrite !zlen_app, !zlen_be16, Hs. change (zlen [0]) with 1. change (zlen (vec8 [1])) with 2. change (zlen (vec8 (be16 772))) with 3.
  match goal with |- context [concat ?x] => change (zlen (concat x)) with 18 end. lia.
Qed.
Lemma psk_len b : zlen b = 32 -> zlen (hello_psk h b) = 47 + zlen identity.
Proof. intros Lb. unfold hello_psk, h. cbn [he_identity]. unfold ext, vec16, vec8. rewrite !zlen_app, !zlen_be16, zlen_be32, Lb. change (zlen [32]) with 1. lia. Qed.
Lemma vec16_eq x n : zlen x = n -> vec16 x = be16 n ++ x.
Proof. now intros <-. Qed.
Lemma psk_eq b : zlen b = 32 -> hello_psk h b =
  be16 41 ++ be16 (43 + zlen identity) ++ be16 (6 + zlen identity) ++ be16 (zlen identity) ++ identity ++ be32 0 ++ be16 33 ++ [32] ++ b.
Proof.
  intros Lb. unfold hello_psk, ext. change (he_identity h) with identity.
  assert (zlen (vec8 b) = 33) as L8 by (unfold vec8; rewrite zlen_app, Lb; reflexivity).
  assert (zlen (vec16 identity ++ be32 0) = 6 + zlen identity) as L6 by (unfold vec16; rewrite !zlen_app, zlen_be16, zlen_be32; lia).
  rewrite (vec16_eq _ _ L8), (vec16_eq _ _ L6). rewrite (vec16_eq _ (43 + zlen identity)) by (unfold vec16; rewrite !zlen_app, !zlen_be16, zlen_be32, L8; lia).
  unfold vec16, vec8. rewrite Lb, <- !app_assoc. reflexivity.
Qed.
Lemma body_len b : zlen b = 32 -> zlen (hello_body h b) = 225 + zlen hostname + zlen identity.
Proof.
  intros Lb. unfold hello_body. unfold vec16 at 2. rewrite !zlen_app, !zlen_be16, exts_len, psk_len by exact Lb. change (he_random h) with random. rewrite Hr.
  change (zlen (vec8 [])) with 1. change (zlen (vec16 [19; 1])) with 4. change (zlen (vec8 [0])) with 2. lia.
Qed.
Lemma message_len b : zlen b = 32 -> zlen (hello_message h b) = 229 + zlen hostname + zlen identity.
Proof. intros Lb. unfold hello_message. rewrite !zlen_app, body_len by exact Lb. change (zlen [1]) with 1. change (zlen (zdrop 1 (be32 (225 + zlen hostname + zlen identity)))) with 3. lia. Qed.
Lemma record_len b : zlen b = 32 -> zlen (hello_record h b) = hello_len hostname identity.
Proof. intros Lb. unfold hello_record, vec16. rewrite !zlen_app, !zlen_be16, message_len by exact Lb. change (zlen [22]) with 1. unfold hello_len. lia. Qed.
Lemma exts_eq : hello_exts h = CONST_EXTENSIONS ++ be16 0 ++ be16 (zlen hostname + 3 + 2) ++ be16 (zlen hostname + 3) ++ [0] ++ be16 (zlen hostname) ++ hostname ++
  (be16 51 ++ be16 71 ++ be16 69 ++ be16 0x17 ++ be16 65) ++ share ++ be16 28 ++ be16 2 ++ be16 limit.
Proof.
  unfold hello_exts. change (he_hostname h) with hostname. change (he_share h) with share. change (he_limit h) with limit.
  assert (ext 0 (vec16 ([0] ++ vec16 hostname)) = be16 0 ++ be16 (zlen hostname + 3 + 2) ++ be16 (zlen hostname + 3) ++ [0] ++ be16 (zlen hostname) ++ hostname) as ->.
  { unfold ext. assert (zlen ([0] ++ vec16 hostname) = zlen hostname + 3) as L by (unfold vec16; rewrite !zlen_app, zlen_be16; change (zlen [0]) with 1; lia).
    rewrite (vec16_eq _ _ L). rewrite (vec16_eq _ (zlen hostname + 3 + 2)) by (unfold vec16; rewrite !zlen_app, !zlen_be16; change (zlen [0]) with 1; lia). unfold vec16. reflexivity. }
  assert (ext 51 (vec16 (be16 0x17 ++ vec16 share)) = (be16 51 ++ be16 71 ++ be16 69 ++ be16 0x17 ++ be16 65) ++ share) as ->.
  { unfold ext. rewrite (vec16_eq share 65 Hs). rewrite (vec16_eq (be16 0x17 ++ _) 69) by (rewrite !zlen_app, !zlen_be16; lia). rewrite (vec16_eq _ 71) by (rewrite !zlen_app, !zlen_be16; lia). rewrite <- !app_assoc. reflexivity. }
  assert (ext 28 (be16 limit) = be16 28 ++ be16 2 ++ be16 limit) as -> by reflexivity.
  match goal with |- ?a ++ ?b ++ ?c ++ ?d ++ ?r = _ => replace (a ++ b ++ c ++ d ++ r) with ((a ++ b ++ c ++ d) ++ r) by (now rewrite <- !app_assoc); change (a ++ b ++ c ++ d) with CONST_EXTENSIONS end.
  rewrite <- !app_assoc. reflexivity.
Qed.
(** The message up to the binders list. *)
Definition front : list Z :=
  [1; 0] ++ be16 (225 + zlen hostname + zlen identity) ++ be16 0x0303 ++ random ++ [0] ++ be16 2 ++ [0x13; 1] ++ [1; 0] ++
  be16 (182 + zlen hostname + zlen identity) ++ hello_exts h ++ be16 41 ++ be16 (43 + zlen identity) ++ be16 (6 + zlen identity) ++ be16 (zlen identity) ++ identity ++ be32 0.
Hypothesis Hf : hello_len hostname identity <= zlen buf.
Lemma message_eq b : zlen b = 32 -> hello_message h b = front ++ be16 33 ++ [32] ++ b.
Proof.
  intros Lb. unfold hello_message, front. rewrite body_len by exact Lb. pose proof (zlen_nonneg hostname). pose proof (zlen_nonneg identity). unfold hello_len in Hf.
  replace (zdrop 1 (be32 (225 + zlen hostname + zlen identity))) with (0 :: be16 (225 + zlen hostname + zlen identity)).
  2:{ unfold be32, be16. change (zdrop 1 ?x) with (tl x). cbn [tl]. f_equal. rewrite Z.div_small by lia. reflexivity. }
  rewrite <- !app_assoc. cbn [app]. f_equal. f_equal. f_equal. unfold hello_body. change (he_random h) with random. unfold vec16 at 2. rewrite zlen_app, exts_len, psk_len by exact Lb.
  replace (135 + zlen hostname + (47 + zlen identity)) with (182 + zlen hostname + zlen identity) by lia.
  rewrite psk_eq by exact Lb. reflexivity.
Qed.
Lemma up_to b : zlen b = 32 -> up_to_binders (hello_message h b) = front.
Proof.
  intros Lb. unfold up_to_binders. rewrite message_eq by exact Lb. assert (zlen (be16 33 ++ [32] ++ b) = 35) as L by (rewrite !zlen_app, zlen_be16, Lb; reflexivity).
  rewrite zlen_app, L. rewrite ztake_app_l, ztake_all by lia. reflexivity.
Qed.
Lemma hello_fits : exists b ks', zlen b = 32 /\ b = psk_binder cx psk (ks_transcript ks ++ up_to_binders (hello_message h b)) /\
  client_hello_ser cx buf random hostname share ks psk identity limit = TOk (zlen (hello_record h b), hello_record h b ++ zdrop (zlen (hello_record h b)) buf, ks') /\
  ks' = mkKS (ks_client_secret ks) (ks_server_public ks) (ks_transcript ks ++ hello_message h b) (ks_read_seq ks) (ks_write_seq ks) (early_secret cx psk) (early_secret cx psk) (ks_client_traffic ks) (ks_server_traffic ks).
Proof.
  pose proof (zlen_nonneg hostname). pose proof (zlen_nonneg identity). pose proof Hf as F. unfold hello_len in F. unfold client_hello_ser. rewrite u8_host.
  assert (u16 (zlen identity) = zlen identity) as -> by (unfold u16; apply Z.mod_small; lia). change (zlen CONST_EXTENSIONS) with 45. do 5 use_u.
  assert (written buf ks (mkCW buf 0 ks) 0 [] (ks_transcript ks)) as W0 by (split; [destruct ks; reflexivity|reflexivity]).
  destruct (copy_no_hash buf ks _ _ _ _ RECORD_HEADER_NO_LENGTH 3 W0 eq_refl ltac:(lia)) as (w1 & -> & W1). cbn [tbind]. clear W0.
  match goal with |- context [cw_copy_no_hash w1 ?x] => destruct (copy_no_hash buf ks _ _ _ _ x 2 W1 (zlen_be16 _) ltac:(lia)) as (w2 & -> & W2) end. cbn [tbind]. clear W1.
  assert (cw_len w2 = 5) as S5 by (destruct W2 as (-> & _); reflexivity). rewrite S5. clear S5.
  use_p W2. use_p W2. use_c W2 2. match goal with |- context [cw_len ?w] => assert (cw_len w = 9) as S9 by (destruct W2 as (-> & _); reflexivity); rewrite S9; clear S9 end.
  use_c W2 2. use_c W2 32. use_c W2 7. use_c W2 2. match goal with |- context [cw_len ?w] => assert (cw_len w = 52) as S9 by (destruct W2 as (-> & _); reflexivity); rewrite S9; clear S9 end.
  use_c W2 45. do 2 use_u. use_c W2 2. use_c W2 2. use_c W2 2. use_p W2. use_c W2 2. use_c W2 (zlen hostname).
  use_c W2 10. use_c W2 65. use_c W2 2. use_c W2 2. use_c W2 2. do 5 use_u. use_c W2 2. use_c W2 2. use_c W2 2. use_c W2 2. use_c W2 (zlen identity). use_c W2 4.
  set (out := (_ ++ be32 0) : list Z) in W2 at 1. set (tt' := (_ ++ be32 0) : list Z) in W2.
  assert (tt' = ks_transcript ks ++ front) as Et.
  { unfold tt'. unfold front. rewrite exts_eq. rewrite <- !app_assoc. f_equal. cbn [app]. unfold EtPreSharedKey. 
    replace (43 + (137 + 45 + zlen hostname + zlen identity)) with (225 + zlen hostname + zlen identity) by lia.
    replace (137 + 45 + zlen hostname + zlen identity) with (182 + zlen hostname + zlen identity) by lia.
    replace (zlen identity + 4 + 2 + 33 + 2 + 2) with (43 + zlen identity) by lia. replace (zlen identity + 4 + 2) with (6 + zlen identity) by lia. reflexivity. }
  assert (out = [22; 3; 3] ++ be16 (229 + zlen hostname + zlen identity) ++ front) as Eo.
  { unfold out. unfold front. rewrite exts_eq. rewrite <- !app_assoc. cbn [app]. unfold EtPreSharedKey. 
    replace (4 + (43 + (137 + 45 + zlen hostname + zlen identity))) with (229 + zlen hostname + zlen identity) by lia.
    replace (43 + (137 + 45 + zlen hostname + zlen identity)) with (225 + zlen hostname + zlen identity) by lia.
    replace (137 + 45 + zlen hostname + zlen identity) with (182 + zlen hostname + zlen identity) by lia.
    replace (zlen identity + 4 + 2 + 33 + 2 + 2) with (43 + zlen identity) by lia. replace (zlen identity + 4 + 2) with (6 + zlen identity) by lia. reflexivity. }
  clearbody out tt'. subst out tt'.
  match goal with |- context [ks_transcript (cw_ks ?w)] => assert (ks_transcript (cw_ks w) = ks_transcript ks ++ front) as Et by (destruct W2 as (-> & _); reflexivity); rewrite Et; clear Et end.
  use_c W2 2. use_c W2 1. unfold cw_write_binder.
  set (b := psk_binder cx psk (ks_transcript ks ++ front)).
  assert (zlen b = 32) as Lb by (destruct Hcx as (_ & _ & _ & X & _); apply X).
  match goal with |- context [binder cx ?k psk ?t] => assert (fst (binder cx k psk t) = b /\ snd (binder cx k psk t) =
     mkKS (ks_client_secret ks) (ks_server_public ks) (((ks_transcript ks ++ front) ++ be16 33) ++ [32]) (ks_read_seq ks) (ks_write_seq ks) (early_secret cx psk) (early_secret cx psk) (ks_client_traffic ks) (ks_server_traffic ks)) as Eb end.
  { destruct W2 as (-> & _). unfold binder, binder_key. cbn [fst snd]. split; [|reflexivity]. unfold b, psk_binder, verify_data. rewrite (derive_empty _ _ _ Hcx), label_eq. reflexivity. }
  match goal with |- context [binder cx ?k psk ?t] => destruct (binder cx k psk t) as (b', k') end. cbn [fst snd] in Eb. destruct Eb as (-> & ->).
  set (k := mkKS _ _ _ _ _ _ _ _ _).
  match goal with |- context [cw_copy ?w b] => assert (written buf k w (cw_len w) (([22; 3; 3] ++ be16 (229 + zlen hostname + zlen identity) ++ front) ++ be16 33 ++ [32]) (ks_transcript k) /\ cw_len w = hello_len hostname identity - 32) as (Wk & Lk) end.
  { destruct W2 as (-> & L2). cbn [cw_buf cw_len]. split; [split; [|rewrite <- L2; rewrite <- !app_assoc; reflexivity]|unfold hello_len; lia]. rewrite <- !app_assoc. reflexivity. }
  rewrite Lk in Wk. match goal with |- context [cw_copy ?w b] => destruct (copy buf k w _ _ _ b 32 Wk Lb) as (wl & -> & Wl); [unfold hello_len; lia|] end. cbn [tbind].
  exists b. eexists. rewrite up_to by exact Lb. split; [exact Lb|]. split; [reflexivity|]. destruct Wl as (-> & _). cbn [cw_len cw_buf cw_ks]. unfold hello_len.
  assert (forall v n, u16 v =? n = true <-> u16 v = n) as Eq by (intros; apply Z.eqb_eq).
  assert (forall v, 0 <= v < 65536 -> u16 v = v) as Um by (intros v Hv; unfold u16; apply Z.mod_small; lia). rewrite !Um by lia.
  repeat match goal with |- context [?a =? ?b] => replace (a =? b) with true by (symmetry; apply Z.eqb_eq; lia) end. cbn [negb].
  assert (hello_record h b = (([22; 3; 3] ++ be16 (229 + zlen hostname + zlen identity) ++ front) ++ be16 33 ++ [32]) ++ b) as Er.
  { unfold hello_record. rewrite (vec16_eq _ _ (message_len b Lb)), message_eq by exact Lb. rewrite <- !app_assoc. reflexivity. }
  split.
  - rewrite (record_len b Lb). unfold hello_len. replace (234 + zlen hostname + zlen identity - 32 + 32) with (234 + zlen hostname + zlen identity) by lia. rewrite Er. reflexivity.
  - rewrite message_eq by exact Lb. unfold k, ks_set_transcript. cbn [ks_client_secret ks_server_public ks_transcript ks_read_seq ks_write_seq ks_hkdf ks_secret ks_client_traffic ks_server_traffic].
    apply (f_equal (fun t => mkKS _ _ t _ _ _ _ _ _)). rewrite <- !app_assoc. reflexivity.
Qed.
End Hello.
Lemma hello_ok cx buf random hostname share ks psk identity limit :
  crypto_ok cx -> zlen random = 32 -> zlen share = 65 -> zlen hostname < 256 -> zlen buf < 65536 ->
  let h := mkHello random hostname share limit identity in
  (zlen (hello_record h (zeros 32)) <= zlen buf ->
   exists b ks', zlen b = 32 /\ b = psk_binder cx psk (ks_transcript ks ++ up_to_binders (hello_message h b)) /\
     client_hello_ser cx buf random hostname share ks psk identity limit =
       TOk (zlen (hello_record h b), hello_record h b ++ zdrop (zlen (hello_record h b)) buf, ks') /\
     ks' = mkKS (ks_client_secret ks) (ks_server_public ks) (ks_transcript ks ++ hello_message h b) (ks_read_seq ks) (ks_write_seq ks)
             (early_secret cx psk) (early_secret cx psk) (ks_client_traffic ks) (ks_server_traffic ks)) /\
  (zlen buf < zlen (hello_record h (zeros 32)) -> client_hello_ser cx buf random hostname share ks psk identity limit = TPanic).
Proof.
  intros Hcx Hr Hs Hh Hb h0. pose proof (record_len random hostname share identity limit Hr Hs (zeros 32) eq_refl) as L. fold h0 in L. unfold h in L. fold h0 in L. rewrite L. split.
  - intros Hf. exact (hello_fits cx buf random hostname share ks psk identity limit Hcx Hr Hs Hh Hb Hf).
  - intros Hf. apply hello_too_long; trivial.
Qed.
