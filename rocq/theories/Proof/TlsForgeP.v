(** C54 is false: a pending fragment of a handshake message becomes readable. *)
From Verif Require Import Model.Prelude Model.Bus Model.Chip Model.Specifiers Model.Stream Spec.Hoare Spec.Cases Spec.Cursor Spec.Gcm38D Spec.Fips197 Spec.TlsSecrets Spec.TlsMessages Spec.TlsProtect.
From Verif Require Import Proof.Base Proof.MqttMainP Proof.TlsCaseP Proof.TlsTalkP Proof.TlsAuthP.
From Verif Require Import Model.TlsTypes Model.TlsBuf Model.TlsKeys Model.TlsHello Model.TlsClient Spec.TlsQueue Spec.TlsCases Spec.TlsSession Spec.TlsWire Spec.TlsTalk Spec.TlsAuth.
Ltac Zify.zify_post_hook ::= idtac.

Lemma gctr_len ciph : forall n cb x, zlen (gctr ciph n cb x) <= zlen x.
Proof.
  induction n as [|n IH]; intros cb x; cbn [gctr]; [apply zlen_nonneg|]. rewrite zlen_app. specialize (IH (inc32 cb) (skipn 16 x)).
  assert (zlen x = zlen (firstn 16 x) + zlen (skipn 16 x)) as E by (rewrite <- zlen_app, firstn_skipn; reflexivity).
  assert (zlen (xor_str (firstn 16 x) (ciph cb)) <= zlen (firstn 16 x)) by (unfold xor_str, zlen; rewrite map_length, combine_length; lia). lia.
Qed.
Lemma opens_len cx t seq record data ty : opens cx t seq record = Some (data ++ [ty]) -> zlen data + 22 <= zlen record.
Proof.
  unfold opens, gcm_decrypt. destruct (list_eq_dec _ _ _); [|discriminate]. intros E. injection E as E. apply (f_equal zlen) in E. unfold GCTR in E.
  match type of E with context [gctr ?f ?n ?cb ?x] => pose proof (gctr_len f n cb x) as L end. rewrite E, zlen_app in L. change (zlen [ty]) with 1 in L. rewrite zlen_ztake, zlen_zdrop in L. pose proof (zlen_nonneg data). lia.
Qed.
(** A record of the right length is all there is. *)
Lemma authentic_whole cx c got seq data : zlen got = zlen data + 22 -> authentic cx c got seq data ->
  exists t, ks_server_traffic (tc_ks c) = Some t /\ opens cx t seq got = Some (data ++ [23]).
Proof.
  intros L (t & pre & record & post & E1 & E2 & E3). exists t. split; [exact E1|]. pose proof (opens_len _ _ _ _ _ _ E3). rewrite E2, !zlen_app in L. pose proof (zlen_nonneg pre). pose proof (zlen_nonneg post).
  assert (pre = [] /\ post = []) as (-> & ->). { split; apply length_zero_iff_nil; unfold zlen in *; lia. } cbn [app] in E2. rewrite app_nil_r in E2. now subst got.
Qed.

(** The same record is received by a client without and with a fragment. *)
Definition forge_script : reads := record_reads (plaintext_record 22 [33; 0]).
Definition hi_script : reads := record_reads (case_record case_server_secret 0 23 [104; 105]) ++ tx_reads.
Definition hi_record : list Z := Eval vm_compute in case_record case_server_secret 0 23 [104; 105].
Definition fragment_client : TlsClient := Eval vm_compute in client_of (talk case_connected [pcall 110 (fun _ => forge_script)]).
Definition case_received (c : TlsClient) : option (tans * TlsClient * list Z) :=
  match play (received (tcall_run case_cx true 1 c (KProcess talk_rng 111)) []) hi_script with Done y => Some y | _ => None end.
Definition shown (o : option (tans * TlsClient * list Z)) : option (tans * (list Z) * list Z) :=
  match o with Some (a, c, got) => Some (a, readable c, got) | None => None end.
Lemma fragment_talk : exists h, talk case_connected [pcall 110 (fun _ => forge_script)] = Some (h, fragment_client) /\ map snd h = [NProcess (Ok TNone)].
Proof. apply talk_eq; [discriminate|]. vm_compute. reflexivity. Qed.
Lemma hi_received : shown (case_received case_connected) = Some (NProcess (Ok TApplicationData), [104; 105], hi_record).
Proof. vm_compute. reflexivity. Qed.
Lemma forge_received : shown (case_received fragment_client) = Some (NProcess (Err (EClient (mkAlert 1 10))), [33; 0], hi_record).
Proof. vm_compute. reflexivity. Qed.
Lemma fragment_same : ks_server_traffic (tc_ks fragment_client) = ks_server_traffic (tc_ks case_connected) /\ ks_read_seq (tc_ks fragment_client) = 0 /\ ks_read_seq (tc_ks case_connected) = 0 /\
  readable fragment_client = [] /\ readable case_connected = [] /\ b_contains_handshake_fragment (tc_rx case_connected) = false.
Proof. repeat split; vm_compute; reflexivity. Qed.
Lemma shown_some c a rd got : shown (case_received c) = Some (a, rd, got) -> exists c', any_bus (received (tcall_run case_cx true 1 c (KProcess talk_rng 111)) []) (Done (a, c', got)) /\ readable c' = rd.
Proof.
  unfold case_received. destruct (play _ hi_script) as [((a0, c0), g0)| |] eqn:P; cbn [shown]; try discriminate. intros E. injection E as -> <- ->. exists c0. split; [|reflexivity]. now apply (play_done _ hi_script).
Qed.
Lemma fragment_history : exists h, thistory case_cx true 1 talk_init h fragment_client.
Proof.
  destruct connected_history as (h0 & H0). destruct fragment_talk as (h & T & _). exists (h0 ++ h). refine (talk_history talk_init _ case_connected h fragment_client _ T h0 H0).
  repeat (apply Forall_cons || apply Forall_nil); exact talk_rng_ok.
Qed.
Lemma forged : exists h c x a c' got, thistory case_cx true 1 talk_init h c /\ tcall_ok x /\
  any_bus (received (tcall_run case_cx true 1 c x) []) (Done (a, c', got)) /\ readable c = [] /\ readable c' = [33; 0] /\ ~ delivers case_cx c got c'.
Proof.
  destruct fragment_history as (h & H). destruct (shown_some _ _ _ _ forge_received) as (c' & B & E). destruct fragment_same as (S1 & S2 & S3 & S4 & S5 & S6).
  exists h, fragment_client, (KProcess talk_rng 111), (NProcess (Err (EClient (mkAlert 1 10)))), c', hi_record. split; [exact H|]. split; [exact talk_rng_ok|]. split; [exact B|]. split; [exact S4|]. split; [exact E|].
  assert (exists t, ks_server_traffic (tc_ks fragment_client) = Some t /\ opens case_cx t 0 hi_record = Some ([104; 105] ++ [23])) as (t & T1 & T2).
  { destruct connected_history as (h0 & H0). destruct (shown_some _ _ _ _ hi_received) as (c1 & B1 & E1).
    pose proof (auth_call _ _ _ _ _ _ _ _ _ _ _ _ case_cx_ok talk_cf_ok H0 (talk_rng_ok : tcall_ok (KProcess talk_rng 111)) B1) as D. cbn [auth_step] in D.
    assert (authentic case_cx case_connected hi_record 0 [104; 105]) as Au.
    { destruct D as [D|[D|[(data & D & D')|D]]].
      - intros F. unfold fragment_pending in F. congruence.
      - rewrite E1 in D. discriminate.
      - rewrite E1, S5 in D. discriminate.
      - rewrite E1, S5 in D'. cbn [app] in D'. subst data. rewrite S3 in D. exact D.
      - rewrite E1 in D. exact D. }
    destruct (authentic_whole case_cx case_connected hi_record 0 [104; 105] eq_refl Au) as (t & T1 & T2). exists t. rewrite S1. auto. }
  assert (~ authentic case_cx fragment_client hi_record 0 [33; 0]) as No.
  { intros Au. destruct (authentic_whole case_cx fragment_client hi_record 0 [33; 0] eq_refl Au) as (t' & U1 & U2). rewrite T1 in U1. injection U1 as <-. rewrite T2 in U2. discriminate. }
  intros [D|[D|[(data & D & D')|D]]].
  - rewrite E in D. discriminate.
  - rewrite E, S4 in D. discriminate.
  - rewrite E, S4 in D'. cbn [app] in D'. subst data. rewrite S2 in D. contradiction.
  - rewrite E in D. contradiction.
Qed.
