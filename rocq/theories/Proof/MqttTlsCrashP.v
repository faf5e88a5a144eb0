(** The MQTT client over TLS: no panic, for histories. *)
From Verif Require Import Model.Prelude Model.Bus Model.Chip Model.Specifiers Model.LlBits Model.Ll Model.HlIo Model.HlTcp Model.Stream Model.Gcm Model.TlsTypes Model.TlsBuf Model.TlsKeys Model.TlsHello
  Model.TlsRecord Model.Mqtt Model.TlsClient Model.MqttTls Spec.Hoare Spec.Cursor Spec.TlsSecrets Spec.TlsQueue Spec.TlsSession Spec.TlsQuiet Spec.TlsCrash Spec.MqttMsg Spec.MqttTlsMsg Spec.MqttTlsCrash.
From Verif Require Import Proof.Base Proof.TlsBufP Proof.TlsHelloP Proof.TlsLeafP Proof.TlsInvP Proof.TlsHistP Proof.TlsSafeP Proof.TlsSafeHistP Proof.MqttHistP Proof.MqttMainP Proof.MqttTlsRxP Proof.MqttTlsMainP Proof.MqttTlsHistP Proof.MqttTlsHist2P.
Ltac Zify.zify_post_hook ::= idtac.
Open Scope prog_scope.

(** ** Programs that only write, and return what a failed write returned *)
Definition mild {A} (r : res err A) : Prop := mq_err r <> None.
Fixpoint wsafe {A} (p : sprog (res err A)) : Prop :=
  match p with
  | SRet r => mild r
  | SCall (OWriteAll d) k => forall r, match r with RUnit => True | RErr e => mild (@Err _ A e) | _ => False end -> wsafe (k r)
  | SCall _ _ | SPanic | SDiverge => False
  | SAsk _ k => forall z, wsafe (k z)
  end.
Lemma mild_err {A B} e : mild (@Err err A e) -> mild (@Err err B e).
Proof. unfold mild, mq_err. destruct (Mqtt.map_w5500 e); [discriminate|tauto]. Qed.
Lemma wsafe_seq {A B} (p : SM A) (f : A -> SM B) : wsafe p -> (forall a, wsafe (f a)) -> wsafe (sbindM p f).
Proof.
  unfold sbindM. intros H Hf. induction p as [r|o k IH|q k IH| |]; cbn [wsafe sbind] in *; auto.
  - destruct r as [a|e]; [apply Hf|exact (mild_err e H)].
  - destruct o; auto. intros r Hr. apply IH, H. destruct r; auto. exact (mild_err e Hr).
Qed.
Lemma wsafe_write d : wsafe (s_write_all d).
Proof. cbn [s_write_all wsafe]. intros [e| |l|n]; cbn [wsafe sret sfail]; try tauto. discriminate. Qed.
Lemma wsafe_varint n : 0 <= n < 268435456 -> wsafe (write_variable_byte_integer n).
Proof. intros H. unfold write_variable_byte_integer. destruct (encode_bytes n H) as (buf & -> & _). apply wsafe_write. Qed.
Lemma len16_range n : 0 <= n -> 0 <= len16 n < 65536.
Proof. unfold len16. intros. destruct (Z.leb_spec n 65535); lia. Qed.
Lemma wsafe_publish t p : wsafe (write_publish t p).
Proof.
  pose proof (len16_range _ (zlen_nonneg t)). pose proof (len16_range _ (zlen_nonneg p)).
  unfold write_publish. repeat (apply wsafe_seq; [|intros _]); try apply wsafe_write. apply wsafe_varint. lia.
Qed.
Lemma wsafe_subscribe f i : zlen f <= 65532 -> wsafe (write_subscribe f i).
Proof.
  intros H. pose proof (zlen_nonneg f). unfold write_subscribe, FILTER_LEN_LEN, PACKET_ID_LEN, PROPERTY_LEN_LEN. replace (u16 (zlen f)) with (zlen f) by (unfold u16; rewrite Z.mod_small; lia). cbv zeta.
  destruct (Z.leb_spec 65536 (zlen f + 2)); [lia|]. destruct (Z.leb_spec 65536 (zlen f + 2 + 1)); [lia|].
  repeat (apply wsafe_seq; [|intros _]); try apply wsafe_write. apply wsafe_varint. lia.
Qed.
Lemma wsafe_unsubscribe f i : zlen f <= 65533 -> wsafe (write_unsubscribe f i).
Proof.
  intros H. pose proof (zlen_nonneg f). unfold write_unsubscribe, FILTER_LEN_LEN, PACKET_ID_LEN, PROPERTY_LEN_LEN. replace (u16 (zlen f)) with (zlen f) by (unfold u16; rewrite Z.mod_small; lia). cbv zeta.
  destruct (Z.leb_spec 65536 (zlen f + 2)); [lia|].
  repeat (apply wsafe_seq; [|intros _]); try apply wsafe_write. apply wsafe_varint. lia.
Qed.
Lemma wsafe_connect id n : (forall s, id = Some s -> zlen s <= 23) -> wsafe (write_connect id n).
Proof.
  intros H. unfold write_connect. assert (0 <= match id with Some s => u8 (zlen s) | None => 0 end <= 23) as L.
  { destruct id as [s|]; [|lia]. specialize (H s eq_refl). pose proof (zlen_nonneg s). unfold u8. rewrite Z.mod_small; lia. }
  cbv zeta. destruct (Z.leb_spec 256 (18 + match id with Some s => u8 (zlen s) | None => 0 end)); [lia|].
  apply wsafe_seq; [apply wsafe_write|]. intros _. destruct id; [apply wsafe_write|cbn [wsafe sret]; discriminate].
Qed.
Lemma lz_write_all E D c b : lz E D (cur_write_all c b) (fun r => mild r).
Proof. unfold cur_write_all. destruct (negb _); [cbn [lz fail]; discriminate|]. unfold set_sn_tx_buf, write, bindM. cbn [bind lz]. intros [|]; cbn; discriminate. Qed.
Lemma lz_cursor E D {A} (p : SM A) : wsafe p -> forall w, lz E D (on_cursor w p) (fun x => mild (fst x)).
Proof.
  induction p as [r|o k IH|q k IH| |]; cbn [wsafe on_cursor]; intros H w; try contradiction.
  - exact H.
  - destruct o; try contradiction. apply (lz_then E D _ _ _ (fun x => match fst x with RUnit => True | RErr e => mild (@Err _ A e) | _ => False end)); [|intros x Hx; apply IH, H; exact Hx].
    cbn [cop_run]. apply (lz_then E D _ _ _ _ (lz_write_all E D w buf)). intros [c'|e] Hc; cbn [lz fst]; [exact I|exact (mild_err e Hc)].
  - apply IH, H.
Qed.

Lemma lz_unbind E D {A B} (p : prog A) (f : A -> prog B) P : lz E D (bind p f) P -> lz E D p (fun a => lz E D (f a) P).
Proof. induction p; cbn [lz bind]; auto. Qed.

Section Hist.
Variables (cx : Crypto) (fuel : nat) (cf : tconfig).
Hypothesis (CX : crypto_ok cx) (CF : tconfig_ok cf).
Notation any := (fun _ : Rng => True).
Lemma send_safe E D Q {A} (c : MqttTls) (p : option (SM unit)) (a : A) : K cf Q (mt_tls c) -> (tls_connected (mt_tls c) = true -> ks_write_seq (tc_ks (mt_tls c)) <> U64_MAX) ->
  (forall q, p = Some q -> wsafe q) -> np E D (mt_send cx c p a).
Proof using CX.
  intros H Hq Hp. unfold np, mt_send, tls_writer. destruct (tls_connected (mt_tls c)) eqn:Ec; cbn [negb]; [|exact I].
  apply (lz_then E D _ _ _ (fun r => match r with Ok _ => True | Err e => e = internal_warning end)).
  { apply np_seq; [|intros [w|]; cbn [lz]; auto]. unfold tls_writer_new. apply np_seq; [unfold sn_tx_fsr; np_go|]. intros [fsr|e]; [|exact I]. destruct (_ <? _); [exact I|]. apply np_seq; [unfold sn_tx_wr; np_go|]. intros [wr|e]; exact I. }
  intros [w|e] He; [|rewrite He; exact I]. destruct p as [q|]; [|exact I]. apply (lz_then E D _ _ _ _ (lz_cursor E D q (Hp q eq_refl) w)). intros (r, w') Hr. cbn [fst snd] in *. unfold mild in Hr.
  destruct (mq_err r) as [[u|e]|]; [|exact I|contradiction].
  unfold tls_writer_send. destruct (client_key_and_nonce cx (tc_ks (mt_tls c))) as [(key, nc)|] eqn:Ek.
  2:{ exfalso. pose proof (connected_traffic cf Q (mt_tls c) H Ec). unfold client_key_and_nonce, key_and_nonce in Ek. destruct (ks_client_traffic (tc_ks (mt_tls c))); congruence. }
  cbn [unwrap]. destruct (key_nonce cx CX _ _ _ _ Ek) as (_ & _ & Ln & _). apply np_seq; [|intros (r2, ks); destruct r2; exact I]. apply np_seq; [now apply np_inplace|].
  intros [u'|e]; [|exact I]. unfold increment_write. destruct (Z.eqb_spec (ks_write_seq (tc_ks (mt_tls c))) U64_MAX) as [E0|]; [exfalso; exact (Hq eq_refl E0)|exact I].
Qed.

(** ** The record number after the handshake *)
Notation fresh := (fun x : res TError TEvent * TlsClient => fst x = Ok THandshakeFinished -> ks_write_seq (tc_ks (snd x)) = 0).
Lemma alert_fresh now c d : lf (@send_fatal_alert cx TEvent c d now) fresh.
Proof. unfold send_fatal_alert. apply lf_seq. intros c'. cbn [lf fst]. discriminate. Qed.
Lemma check_fresh c now : lf (TlsClient.check_timeout cx c now) fresh.
Proof. unfold TlsClient.check_timeout. destruct (tc_timeout c); [|discriminate]. destruct (_ <? _); [exact I|]. destruct (_ <? _); [|discriminate]. destruct (tstate_eqb _ _); discriminate. Qed.
Lemma rx_fresh dbg c now : inv cx cf any c -> lf (TlsClient.process_rx cx dbg c now) fresh.
Proof using CX CF.
  intros H. unfold TlsClient.process_rx. destruct (_ || _); [apply check_fresh|].
  apply (lf_alert _ _ _ _ _ (fun _ c' => c' = c) (fun c' => c' = c)).
  - apply lf_io_any; [intros; reflexivity|]. intros rsr. reflexivity.
  - intros rsr c' ->. apply (lf_then _ _ _ (fun x => match fst x with Ok (Some e) => e = TApplicationData | _ => True end)).
    + destruct (_ <=? _); [|exact I]. apply (lf_mono _ _ _ (TlsInvP.recv_leaf cx dbg cf any CX CF c now H)). intros ([[e|]|e], c') (_ & X); cbn [fst] in *; auto. apply X.
    + intros ([[e|]|e], c') X; cbn [fst] in X; [rewrite X; discriminate| |discriminate].
      destruct (tstate_eqb (tc_state c') TSendFinished); [|apply check_fresh].
      apply (lf_alert _ _ _ _ _ (fun _ c2 => ks_write_seq (tc_ks c2) = 0) (fun _ => True)); [|intros _ c2 Hc _; exact Hc|intros; apply alert_fresh].
      unfold send_client_finished. apply lf_tres; [intros; exact I|]. intros vd _. apply lf_io_any; [intros; exact I|]. intros _. reflexivity.
  - intros; apply alert_fresh.
Qed.
Lemma state_fresh dbg c now : inv cx cf any c -> lf (TlsClient.process_state cx dbg fuel c now) fresh.
Proof using CX CF.
  intros H. unfold TlsClient.process_state. destruct (tc_state c); try (now apply rx_fresh).
  - apply (lf_alert _ _ _ _ _ (fun _ _ => True) (fun _ => True)); [apply lf_true; intros ([|], ?); exact I|discriminate|intros; apply alert_fresh].
  - apply (lf_alert _ _ _ _ _ (fun _ _ => True) (fun _ => True)); [apply lf_true; intros ([|], ?); exact I|discriminate|intros; apply alert_fresh].
Qed.
Lemma interrupts_fresh dbg c ir now : inv cx cf any c -> lf (process_interrupts cx dbg fuel c ir now) fresh.
Proof using CX CF.
  intros H. unfold process_interrupts. destruct (SocketInterrupt_discon_raised ir); [destruct (negb _); discriminate|]. destruct (SocketInterrupt_timeout_raised ir); [discriminate|]. destruct (_ && _); [discriminate|]. now apply state_fresh.
Qed.
Lemma process_fresh dbg c rng now : inv cx cf any c -> rng_ok rng -> lf (tls_process cx dbg fuel c rng now) fresh.
Proof using CX CF.
  intros H Hr. unfold tls_process. apply lf_seq. intros r. set (ir := match r with Ok v => v | Err _ => 0 end). clearbody ir. destruct (SocketInterrupt_any_raised ir); [|now apply state_fresh].
  apply (lf_alert _ _ _ _ _ (fun _ c' => c' = c) (fun c' => c' = c)); [apply lf_io_any; [reflexivity|]; intros _; reflexivity| |intros; apply alert_fresh].
  intros _ c' ->. destruct (SocketInterrupt_con_raised ir); [|now apply interrupts_fresh].
  apply (lf_alert _ _ _ _ _ (fun _ c' => inv cx cf any c' /\ tc_state c' = TWaitServerHello /\ tc_timeout c' = Some now) (fun _ => True)); [| |intros; apply alert_fresh].
  - apply (lf_mono _ _ _ (TlsInvP.client_hello cx dbg cf any CX CF c rng now (proj1 H) I Hr)). intros ([u|e], c2) Y; cbn [fst snd] in *; auto.
  - intros _ c1 (H1 & _). now apply interrupts_fresh.
Qed.

(** ** Calls *)
Lemma process_lz_at dbg sn sp dst h c rng now : thistory cx dbg fuel (tls_init cx sn sp dst cf) h c -> rng_ok rng -> hello_room cf -> tclock_ok c now ->
  ks_read_seq (tc_ks c) <> U64_MAX -> ks_write_seq (tc_ks c) <> U64_MAX ->
  (tls_connected c = true \/ tc_state c = TWaitConInt -> untouched (tc_rx c)) ->
  lz False (tc_state c = TReset) (tls_process cx false fuel c rng now) (fin cf (no_data h = true)).
Proof using CX CF.
  intros Hh Hr Hf Hc Q1 Q2 Hw. pose proof (history_inv cx dbg fuel cf CX CF sn sp dst h c Hh any (fun _ _ => I)) as H. pose proof (history_K cx fuel cf CX CF _ _ _ _ _ _ Hh) as Hk.
  pose proof H as ((_ & _ & _ & W) & _).
  apply (process_safe cx false fuel cf any False (tc_state c = TReset) CX CF); auto; try discriminate; try tauto.
  - right. exact Q1.
  - right. split; [now apply fits_len|exact Q2].
  - intros [Es|Es]; right; (split; [exact W|]); apply Hw; [left; now apply tstate_eqb_ok|right; exact Es].
Qed.
Lemma mt_no_crash dbg sn sp dst h c x o : mthistory cx dbg fuel (mt_init cx sn sp dst cf) h c -> mtcall_ok x -> mt_within cf c x ->
  ks_read_seq (tc_ks (mt_tls c)) <> U64_MAX -> ks_write_seq (tc_ks (mt_tls c)) <> U64_MAX ->
  any_bus (mtcall_run cx false fuel c x) o -> o <> Panicked /\ (o = Diverged -> exists rng now ops fin, x = YProcess rng now ops fin /\ tc_state (mt_tls c) = TReset).
Proof using CX CF.
  intros Hh Hx Hw Q1 Q2 Ho. destruct (history_did cx dbg fuel cf CX CF sn sp dst h c Hh) as (th & T & _ & _ & Hid & _). pose proof (history_K cx fuel cf CX CF _ _ _ _ _ _ T) as Hk.
  pose proof (history_inv cx dbg fuel cf CX CF sn sp dst th _ T any (fun _ _ => I)) as Hi.
  assert (np False (exists rng now ops fin, x = YProcess rng now ops fin /\ tc_state (mt_tls c) = TReset) (mtcall_run cx false fuel c x)) as L.
  { destruct x as [rng now ops fi|t p|f|f|id].
    - destruct Hw as (W1 & W2 & W3 & W4). destruct Hx as (Hr & Hops). apply (lz_weak False (tc_state (mt_tls c) = TReset)); [tauto|eauto 8|].
      change (mtcall_run cx false fuel c (YProcess rng now ops fi)) with (bind (mt_process cx false fuel c rng now) (after_process ops fi)). unfold mt_process.
      apply lz_bind. pose proof (lz_and _ _ _ _ _ (lz_and _ _ _ _ _ (process_lz_at dbg sn sp dst th (mt_tls c) rng now T Hr W1 W2 Q1 Q2 W4) (TlsInvP.process_leaf cx false fuel cf any CX CF (mt_tls c) rng now Hi I Hr))
        (process_fresh false (mt_tls c) rng now Hi Hr)) as S.
      apply (lz_then _ _ _ _ _ _ S). clear S. intros (r, t) ((S1 & S2) & S3). cbn [fst snd] in S1, S2, S3.
      assert (lz False (tc_state (mt_tls c) = TReset) (mt_rx (mt_put c t) now) (fun y => lz False (tc_state (mt_tls c) = TReset) (after_process ops fi y) (fun _ => True))) as Rx.
      { apply lz_unbind. destruct S2 as (((_ & _ & _ & W) & _) & _). pose proof (N_ok cf CF) as HN.
        destruct (rx_any cx false fuel (mt_put c t) now ops fi (zlen (cf_buf cf)) W ltac:(lia) Hops) as [(a0 & c0 & E & _)|(_ & since & E1 & E2)].
        - rewrite E. exact I.
        - exfalso. specialize (W3 since E1). lia. }
      destruct r as [[k| | | |]|[al|al| | | |]]; try exact I; try exact Rx.
      + unfold mt_send_connect. destruct (Z.ltb_spec (u16 (b_N (tc_rx (mt_tls (mt_put c t))))) 22) as [Lt|Ge].
        { exfalso. destruct S2 as (((_ & _ & _ & W) & _) & _). pose proof (N_ok cf CF) as HN. destruct W as (WN & _). cbn [snd] in WN. cbn [mt_put mt_tls] in Lt. unfold b_N in Lt. rewrite WN in Lt. unfold u16 in Lt. rewrite Z.mod_small in Lt by lia. unfold hello_room in W1. pose proof (zlen_nonneg (cf_hostname cf)). pose proof (zlen_nonneg (cf_identity cf)). lia. }
        apply (np_seq _ _ _ _ _). 2:{ intros (r2, c2). destruct r2; exact I. }
        apply (np_seq _ _ _ _ _). 2:{ intros (r2, c2). destruct r2; exact I. }
        destruct S1 as [(S1 & _)|(S1 & _)]; [discriminate S1|]. apply (send_safe _ _ (no_data th = true)); cbn [mt_put mt_tls mt_client_id]; [exact S1|intros _; rewrite (S3 eq_refl); discriminate|].
        intros q Eq. injection Eq as <-. apply wsafe_connect. intros s Es. exact (proj1 (Hid s Es)).
      + destruct S2 as (_ & _ & F). contradiction.
    - cbn [mtcall_run]. apply np_seq; [|intros y; exact I]. apply (send_safe _ _ _ c _ tt Hk (fun _ => Q2)). intros q Eq. injection Eq as <-. apply wsafe_publish.
    - cbn [mtcall_run]. apply np_seq; [|intros y; exact I]. unfold mt_subscribe. destruct (_ =? 0); apply (send_safe _ _ _ (mt_next_pkt_id c) _ _ Hk (fun _ => Q2)); intros q Eq; [discriminate|]. injection Eq as <-. now apply wsafe_subscribe.
    - cbn [mtcall_run]. apply np_seq; [|intros y; exact I]. unfold mt_unsubscribe. destruct (_ =? 0); apply (send_safe _ _ _ (mt_next_pkt_id c) _ _ Hk (fun _ => Q2)); intros q Eq; [discriminate|]. injection Eq as <-. now apply wsafe_unsubscribe.
    - exact I. }
  pose proof (lz_any _ _ _ _ _ Ho L) as X. split; [intros ->; exact X|]. intros ->. exact X.
Qed.
End Hist.
