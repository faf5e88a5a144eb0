(** The records of a server, delivered and refused. *)
From Coq Require Import String.
From Verif Require Import Model.Prelude Model.Bus Model.Chip Model.Specifiers Model.LlBits Model.Ll Model.LlAddr Model.HlIo Model.HlCommon Model.HlTcp Model.Stream Model.Gcm
  Spec.Hoare Spec.Sock Spec.Cursor Spec.TcpClient Spec.Gcm38D Spec.Fips197 Spec.TlsSecrets Spec.TlsMessages Spec.TlsProtect.
From Verif Require Import Proof.MqttRxP Proof.Base Proof.RingP Proof.ChipP Proof.SockP Proof.StreamP Proof.TcpP Proof.Ghash3P Proof.GcmP Proof.TlsTxP Proof.TlsBufP Proof.TlsHelloP Proof.TlsSendP Proof.TlsWireP Proof.TlsRxP Proof.TlsRx2P Proof.TlsRx3P Proof.TlsRx4P.
From Verif Require Import Spec.MqttMsg Spec.TlsQuiet.
From Verif Require Import Model.TlsTypes Model.TlsBuf Model.TlsKeys Model.TlsHello Model.TlsRecord Model.TlsClient Spec.TlsQueue Spec.TlsSession Spec.TlsWire Spec.TlsRx.
Ltac Zify.zify_post_hook ::= idtac.
Local Open Scope list_scope.

Lemma be16_back (v : Z) (a b c : Z) : 0 <= v < 65536 -> rh_length ([a; b; c] ++ be16 v) = v.
Proof. intros H. unfold rh_length. exact (of_be16_hi_lo v H). Qed.
Lemma record_split cx t seq ty data : crypto_ok cx -> 0 <= seq < 2 ^ 64 -> bytes_ok data -> is_u8 ty -> zlen data < 16384 -> exists body, protected_record cx t seq ty data = record_aad (zlen data) ++ body /\ zlen body = zlen data + 17 /\ bytes_ok body /\
  zlen (record_aad (zlen data)) = 5 /\ bytes_ok (record_aad (zlen data)) /\ rh_length (record_aad (zlen data)) = zlen data + 17.
Proof.
  intros CX Hs Bd Ht Hl. pose proof (zlen_nonneg data) as N0. destruct (record_parts cx t seq ty data CX Hs Bd Ht ltac:(lia)) as (L & _). destruct (nonce_eq cx t seq CX Hs) as (_ & K1 & K2 & K3 & K4).
  destruct (aad_ok (traffic_key cx t) (nonce cx t seq) K1 K3 (zlen data)) as (La & Ba). assert (zlen (record_aad (zlen data)) = 5) as La' by (unfold zlen at 1; lia).
  unfold protected_record, sealed_record in *. cbv zeta in *. set (aad := record_aad (zlen data)) in *. eexists. split; [reflexivity|]. split; [rewrite zlen_app in L; lia|]. split; [|split; [exact La'|split; [exact Ba|]]].
  - assert (bytes_ok (data ++ [ty])) as Bp by (apply Forall_app; split; [exact Bd|constructor; [exact Ht|constructor]]).
    destruct (GCTR_bytes _ _ aad K1 K2 K3 K4 La (data ++ [ty]) Bp ltac:(rewrite zlen_app; change (zlen [ty]) with 1; lia)) as (_ & B & _).
    unfold gcm_encrypt. cbv zeta. cbn [fst snd]. apply Forall_app. split; [exact B|]. apply (tag_byte16 _ _ K1 K2 K3 K4 aad _ La).
  - change aad with ([23; 3; 3] ++ be16 (zlen data + 17)). apply be16_back. lia.
Qed.

Section Main.
Context (cx : Crypto) (dbg : bool) (fuel : nat) (c : TlsClient) (rng : Rng) (now : Z) (ch : chip) (rd tx ad : list Z).
Hypothesis CX : crypto_ok cx.
Notation sn := (tc_sn c).
Notation sk := (c_sock ch (sn_raw sn)).
Notation process := (tls_process cx dbg fuel c rng now).
Let f := (free_space sk, rx_size sk).
Lemma arrived_wn record : arrived ch c rd tx record -> exists b, wn f (c_sock ch (snz sn)) rd tx b b (record ++ []).
Proof. intros (V & B & more & U). eexists. apply (view_wn f _ rd tx (record ++ []) more V B); [reflexivity|reflexivity|]. now rewrite app_nil_r. Qed.

Theorem delivered t seq data : reads_with c t seq -> tc_state c = TConnected -> buffer_holds (tc_rx c) ad [] -> bytes_ok data -> zlen data <= buffer_size c - 39 -> zlen ad + zlen data + 2 <= buffer_size c ->
  arrived ch c rd tx (protected_record cx t seq 23 data) ->
  ensures_ir no_link_change process (sn_raw sn) ch (fun x s' => exists c', x = (Ok TApplicationData, c') /\ tc_state c' = TConnected /\ buffer_holds (tc_rx c') (ad ++ data) [] /\
    ks_server_traffic (tc_ks c') = Some t /\ ks_read_seq (tc_ks c') = seq + 1 /\ ks_client_traffic (tc_ks c') = ks_client_traffic (tc_ks c) /\ ks_write_seq (tc_ks c') = ks_write_seq (tc_ks c) /\
    tcp_view s' (rd ++ protected_record cx t seq 23 data) tx).
Proof.
  intros R Hst Hh Bd Ld Room A. pose proof R as (R1 & R2 & R3). pose proof Hh as (HN & _). unfold buffer_size in *.
  destruct (record_split cx t seq 23 data CX ltac:(lia) Bd ltac:(unfold is_u8; lia) ltac:(lia)) as (body & E & Lb & Bb & Lh & Bh & Hlen).
  destruct (record_parts cx t seq 23 data CX ltac:(lia) Bd ltac:(unfold is_u8; lia) ltac:(lia)) as (_ & Ho). pose proof (zlen_nonneg data) as N0.
  rewrite E in *. destruct (arrived_wn _ A) as (b & W). intros sch Hs HP.
  destruct (data_process cx f sn dbg CX c now rng fuel t seq (record_aad (zlen data)) body ad [] rd tx eq_refl R eq_refl Lh Bh ltac:(lia) ltac:(unfold buffer_size; lia) Bb Hh ltac:(unfold buffer_size; change (zlen (@nil Z)) with 0; lia) ch b [] data eq_refl Hst W Ho sch Hs HP) as (x & sch' & c' & Ru & rx & -> & Q1 & Q2).
  eexists _, sch', c'. split; [exact Ru|]. eexists. split; [reflexivity|]. cbn [tc_state tc_rx tc_ks tc_set_ks tc_set_rx ks_server_traffic ks_client_traffic ks_set_seqs ks_read_seq ks_write_seq].
  split; [exact Hst|]. split; [exact Q1|]. split; [exact R1|]. split; [reflexivity|]. split; [reflexivity|]. split; [reflexivity|exact Q2].
Qed.
(** The parts of a record that is not too long. *)
Lemma header_parts ty v len : zlen v = 2 -> is_u8 ty -> bytes_ok v -> 0 <= len < 65536 -> zlen (record_header ty v len) = 5 /\ bytes_ok (record_header ty v len) /\ at_ (record_header ty v len) 0 = ty /\ rh_length (record_header ty v len) = len.
Proof.
  intros Lv Ht Bv Hl. destruct v as [|v1 [|v2 [|]]]; try (unfold zlen in Lv; cbn [length] in Lv; lia). split; [reflexivity|]. split; [|split; [reflexivity|]].
  - constructor; [exact Ht|]. apply Forall_app. split; [exact Bv|]. unfold be16. repeat constructor; unfold is_u8; Z.div_mod_to_equations; lia.
  - change (record_header ty [v1; v2] len) with ([ty; v1; v2] ++ be16 len). now apply be16_back.
Qed.
Theorem forged t seq v body rest : reads_with c t seq -> listens c -> paired c -> buffer_holds (tc_rx c) ad rest -> zlen v = 2 -> bytes_ok v -> bytes_ok body -> 17 <= zlen body <= buffer_size c - 22 -> zlen ad + zlen rest + zlen body <= buffer_size c + 15 ->
  opens cx t seq (record_header 23 v (zlen body) ++ body) = None -> arrived ch c rd tx (record_header 23 v (zlen body) ++ body) ->
  ensures_ir no_link_change process (sn_raw sn) ch (gives_up cx c 20 (tx_room ch c) (rd ++ record_header 23 v (zlen body) ++ body) tx ad).
Proof.
  intros R Hl P Hh Lv Bv Bb Lb Room Ho A. pose proof Hh as (HN & _). unfold buffer_size in *. destruct (header_parts 23 v (zlen body) Lv ltac:(unfold is_u8; lia) Bv ltac:(lia)) as (Lh & Bh & Ct & Hlen).
  destruct (arrived_wn _ A) as (b & W). exact (forged_process cx f sn dbg CX c now rng fuel t seq _ body ad rest rd tx eq_refl R Ct Lh Bh Hlen Lb Bb Hh Room ch b [] Hl P W Ho).
Qed.
Theorem unknown t seq v body rest m y : reads_with c t seq -> listens c -> paired c -> buffer_holds (tc_rx c) ad rest -> zlen v = 2 -> bytes_ok v -> bytes_ok body -> 17 <= zlen body <= buffer_size c - 22 -> zlen ad + zlen rest + zlen body <= buffer_size c + 15 ->
  opens cx t seq (record_header 23 v (zlen body) ++ body) = Some (m ++ [y]) -> ~ In y [20; 21; 22; 23] -> arrived ch c rd tx (record_header 23 v (zlen body) ++ body) ->
  ensures_ir no_link_change process (sn_raw sn) ch (gives_up cx c 50 (tx_room ch c) (rd ++ record_header 23 v (zlen body) ++ body) tx ad).
Proof.
  intros R Hl P Hh Lv Bv Bb Lb Room Ho Hy A. pose proof Hh as (HN & _). unfold buffer_size in *. destruct (header_parts 23 v (zlen body) Lv ltac:(unfold is_u8; lia) Bv ltac:(lia)) as (Lh & Bh & Ct & Hlen).
  destruct (arrived_wn _ A) as (b & W). apply (unknown_process cx f sn dbg CX c now rng fuel t seq _ body ad rest rd tx eq_refl R Ct Lh Bh Hlen Lb Bb Hh Room ch b [] m y Hl P W Ho).
  cbn [In] in Hy. unfold content_type_try_from. destruct (_ : bool) eqn:E; [|reflexivity]. exfalso. apply Hy. lia.
Qed.
Theorem early t seq data : reads_with c t seq -> listens c -> paired c -> tc_state c <> TConnected -> buffer_holds (tc_rx c) ad [] -> bytes_ok data -> zlen data <= buffer_size c - 39 -> zlen ad + zlen data + 2 <= buffer_size c ->
  arrived ch c rd tx (protected_record cx t seq 23 data) ->
  ensures_ir no_link_change process (sn_raw sn) ch (gives_up cx c 10 (tx_room ch c) (rd ++ protected_record cx t seq 23 data) tx (ad ++ data)).
Proof.
  intros R Hl P Hst Hh Bd Ld Room A. pose proof R as (R1 & R2 & R3). pose proof Hh as (HN & _). unfold buffer_size in *.
  destruct (record_split cx t seq 23 data CX ltac:(lia) Bd ltac:(unfold is_u8; lia) ltac:(lia)) as (body & E & Lb & Bb & Lh & Bh & Hlen).
  destruct (record_parts cx t seq 23 data CX ltac:(lia) Bd ltac:(unfold is_u8; lia) ltac:(lia)) as (_ & Ho). pose proof (zlen_nonneg data) as N0.
  rewrite E in *. destruct (arrived_wn _ A) as (b & W).
  exact (early_process cx f sn dbg CX c now rng fuel t seq (record_aad (zlen data)) body ad [] rd tx eq_refl R eq_refl Lh Bh ltac:(lia) ltac:(unfold buffer_size; lia) Bb Hh ltac:(unfold buffer_size; change (zlen (@nil Z)) with 0; lia) ch b [] data eq_refl Hl P Hst W Ho).
Qed.
Theorem protected_alert t seq level description : reads_with c t seq -> listens c -> buffer_holds (tc_rx c) ad [] -> is_u8 level -> is_u8 description -> 41 <= buffer_size c -> zlen ad + 4 <= buffer_size c ->
  arrived ch c rd tx (protected_record cx t seq 21 [level; description]) ->
  ensures_ir no_link_change process (sn_raw sn) ch (fun x s' => exists c', x = (Err (EClient (mkAlert 2 50)), c') /\ forgot c' /\ tcp_view s' (rd ++ protected_record cx t seq 21 [level; description]) tx).
Proof.
  intros R Hl Hh Bl Bd Ld Room A. pose proof R as (R1 & R2 & R3). pose proof Hh as (HN & _). unfold buffer_size in *. assert (bytes_ok [level; description]) as B2 by (constructor; [exact Bl|constructor; [exact Bd|constructor]]).
  set (data := [level; description]) in *. assert (zlen data = 2) as L2 by reflexivity.
  destruct (record_split cx t seq 21 data CX ltac:(lia) B2 ltac:(unfold is_u8; lia) ltac:(lia)) as (body & E & Lb & Bb & Lh & Bh & Hlen).
  destruct (record_parts cx t seq 21 data CX ltac:(lia) B2 ltac:(unfold is_u8; lia) ltac:(lia)) as (_ & Ho).
  rewrite E in *. destruct (arrived_wn _ A) as (b & W). intros sch Hs HP.
  destruct (alert_process cx f sn dbg CX c now rng fuel t seq (record_aad (zlen data)) body ad [] rd tx eq_refl R eq_refl Lh Bh ltac:(lia) ltac:(unfold buffer_size; lia) Bb Hh ltac:(unfold buffer_size; change (zlen (@nil Z)) with 0; lia) ch b [] data eq_refl Hl W Ho sch Hs HP) as (x & sch' & c2 & Ru & c' & -> & S1 & S2 & S3 & S4 & S5).
  eexists _, sch', c2. split; [exact Ru|]. exists c'. split; [reflexivity|]. split; [|exact S5]. split; [exact S1|]. split; [exact S2|]. split; [exact S3|exact S4].
Qed.
Theorem plain_alert v level description : listens c -> buffer_holds (tc_rx c) ad [] -> zlen v = 2 -> description_try_from description <> None -> 24 <= buffer_size c -> zlen ad + 3 <= buffer_size c ->
  arrived ch c rd tx (record_header 21 v 2 ++ [level; description]) ->
  ensures_ir no_link_change process (sn_raw sn) ch (fun x s' => exists c', x = (Err (EServer (mkAlert (if level =? 1 then 1 else 2) description)), c') /\ forgot c' /\ tcp_view s' (rd ++ record_header 21 v 2 ++ [level; description]) tx).
Proof.
  intros Hl Hh Lv Hd Big Room A. destruct (arrived_wn _ A) as (b & W). intros sch Hs HP.
  destruct (plain_alert_process cx f sn dbg c now rng fuel v ad rd tx ch b [] level description eq_refl Lv Hh Room Big Hl Hd W sch Hs HP) as (x & sch' & c2 & Ru & c' & -> & S1 & S2 & S3 & S4 & S5).
  eexists _, sch', c2. split; [exact Ru|]. exists c'. split; [reflexivity|]. split; [|exact S5]. split; [exact S1|]. split; [exact S2|]. split; [exact S3|exact S4].
Qed.
Theorem too_large ty v len rest : listens c -> paired c -> buffer_holds (tc_rx c) ad rest -> In ty [20; 21; 22; 23] -> zlen v = 2 -> bytes_ok v -> buffer_size c - 22 < len -> 0 <= len < 65536 -> arrived ch c rd tx (record_header ty v len) ->
  ensures_ir no_link_change process (sn_raw sn) ch (gives_up cx c 22 (tx_room ch c) rd tx ad).
Proof.
  intros Hl P Hh Ht Lv Bv Lim Hu A. pose proof Hh as (HN & _). unfold buffer_size in *. destruct (header_parts ty v len Lv ltac:(unfold is_u8; cbn [In] in Ht; lia) Bv ltac:(lia)) as (Lh & Bh & Ct & Hlen).
  destruct (arrived_wn _ A) as (b & W). apply (large_process cx f sn dbg CX c now rng fuel _ ad rest rd tx ch b [] eq_refl Lh); auto; [|unfold buffer_size; lia].
  rewrite Ct. cbn [In] in Ht. destruct Ht as [<-|[<-|[<-|[<-|[]]]]]; discriminate.
Qed.
(** Application data within the advertised limit that is refused. *)
Theorem within_limit t seq data rest : reads_with c t seq -> listens c -> paired c -> buffer_holds (tc_rx c) ad rest -> bytes_ok data -> buffer_size c - 39 < zlen data <= buffer_size c - 23 ->
  arrived ch c rd tx (protected_record cx t seq 23 data) ->
  ensures_ir no_link_change process (sn_raw sn) ch (gives_up cx c 22 (tx_room ch c) rd tx ad).
Proof.
  intros R Hl P Hh Bd Ld A. pose proof R as (R1 & R2 & R3). pose proof Hh as (HN & _). 
  destruct (record_split cx t seq 23 data CX ltac:(lia) Bd ltac:(unfold is_u8; lia) ltac:(unfold buffer_size in *; lia)) as (body & E & Lb & Bb & Lh & Bh & Hlen).
  rewrite E in *. apply (too_large 23 [3; 3] (zlen data + 17) rest Hl P Hh); [cbn; tauto|reflexivity|repeat constructor; discriminate|unfold buffer_size in *; lia|unfold buffer_size in *; pose proof (zlen_nonneg data); lia|].
  destruct A as (V & B & more & U). split; [exact V|]. split; [exact B|]. exists (body ++ more). rewrite U. now rewrite <- app_assoc.
Qed.
Theorem skips_ccs v : listens c -> tc_state c <> TSendFinished -> tclock_ok c now -> buffer_holds (tc_rx c) ad [] -> zlen v = 2 -> 23 <= buffer_size c -> zlen ad + 2 <= buffer_size c -> arrived ch c rd tx (record_header 20 v 1 ++ [1]) ->
  ensures_ir no_link_change process (sn_raw sn) ch (fun x s' => exists rx, buffer_holds rx ad [] /\ twaits (tc_set_rx c rx) now x /\ tcp_view s' (rd ++ record_header 20 v 1 ++ [1]) tx).
Proof.
  intros Hl Hst Hc Hh Lv Big Room A. destruct (arrived_wn _ A) as (b & W). exact (ccs_process cx f sn dbg c now rng fuel v ad rd tx ch b [] eq_refl Lv Hh Room Big Hl Hst Hc W).
Qed.
Theorem within_limit' t seq data rest : reads_with c t seq -> listens c -> paired c -> buffer_holds (tc_rx c) ad rest -> bytes_ok data -> buffer_size c - 39 < zlen data -> zlen (data ++ [23]) <= RECORD_SIZE_LIMIT c ->
  arrived ch c rd tx (protected_record cx t seq 23 data) ->
  ensures_ir no_link_change process (sn_raw sn) ch (gives_up cx c 22 (tx_room ch c) rd tx ad).
Proof.
  intros R Hl P Hh Bd L1 L2. apply (within_limit t seq data rest R Hl P Hh Bd). rewrite zlen_app in L2. change (zlen [23]) with 1 in L2. unfold RECORD_SIZE_LIMIT, b_N in L2. change GCM_TAG_LEN with 16 in L2. change RH_LEN with 5 in L2. unfold buffer_size in *. lia.
Qed.
Theorem plain_alert_connected v level description : tc_state c = TConnected -> buffer_holds (tc_rx c) ad [] -> zlen v = 2 -> description_try_from description <> None -> 24 <= buffer_size c -> zlen ad + 3 <= buffer_size c ->
  arrived ch c rd tx (record_header 21 v 2 ++ [level; description]) ->
  ensures_ir no_link_change process (sn_raw sn) ch (fun x s' => exists c' e, x = (Err (EServer e), c') /\ forgot c').
Proof.
  intros Hst Hh Lv Hd Big Room A sch Hs HP. destruct (plain_alert v level description ltac:(unfold listens; now rewrite Hst) Hh Lv Hd Big Room A sch Hs HP) as (x & sch' & c2 & Ru & c' & E & F & _).
  exists x, sch', c2. split; [exact Ru|]. exists c'. eexists. split; [exact E|exact F].
Qed.
End Main.
Theorem accepted cx dbg fuel c rng now ch rd tx (CX : crypto_ok cx) t seq data : reads_with c t seq -> tc_state c = TConnected -> buffer_holds (tc_rx c) [] [] -> bytes_ok data -> zlen (data ++ [23]) <= RECORD_SIZE_LIMIT c - 16 ->
  arrived ch c rd tx (protected_record cx t seq 23 data) ->
  ensures_ir no_link_change (tls_process cx dbg fuel c rng now) (sn_raw (tc_sn c)) ch (fun x s' => exists c', x = (Ok TApplicationData, c') /\ buffer_holds (tc_rx c') data [] /\ tcp_view s' (rd ++ protected_record cx t seq 23 data) tx).
Proof.
  intros R Hst Hh Bd L A sch Hs HP. rewrite zlen_app in L. change (zlen [23]) with 1 in L. unfold RECORD_SIZE_LIMIT, b_N in L. change GCM_TAG_LEN with 16 in L. change RH_LEN with 5 in L. pose proof (zlen_nonneg data) as N0.
  destruct (delivered cx dbg fuel c rng now ch rd tx [] CX t seq data R Hst Hh Bd ltac:(unfold buffer_size; lia) ltac:(unfold buffer_size; change (zlen (@nil Z)) with 0; lia) A sch Hs HP) as (x & sch' & c2 & Ru & c' & E & _ & Q1 & _ & _ & _ & _ & Q2).
  exists x, sch', c2. split; [exact Ru|]. exists c'. auto.
Qed.

(** The client of the examples and its chip. *)
From Verif Require Import Spec.Cases Spec.TlsCases Spec.TlsTalk Proof.TlsCaseP Proof.TlsTalkP Proof.TlsAuthP Spec.TlsAuth.
Lemma history_buffer cx fuel cf sn sp dst h c : crypto_ok cx -> tconfig_ok cf -> thistory cx true fuel (tls_init cx sn sp dst cf) h c -> exists rest, buffer_holds (tc_rx c) (readable c) rest.
Proof.
  intros CX CF H. destruct (history_auth cx fuel cf sn sp dst CX CF h c H) as (ad & A). pose proof (aq_readable _ _ A) as ->. destruct A as (_ & rest & B). exists rest. now apply buffer_eq.
Qed.
Lemma case_reads : reads_with case_connected case_server_secret 0.
Proof. split; [reflexivity|]. split; [reflexivity|lia]. Qed.
Lemma case_paired : paired case_connected.
Proof. split; [split; discriminate|]. vm_compute. split; [discriminate|reflexivity]. Qed.
Lemma case_buffer : buffer_holds (tc_rx case_connected) [] [].
Proof.
  unfold buffer_holds. cbv zeta. change (zlen (b_buf (tc_rx case_connected))) with 1024. change (zlen (@nil Z) + zlen (@nil Z)) with 0. change (zlen (@nil Z)) with 0.
  split; [lia|]. split; [vm_compute; split; [discriminate|reflexivity]|]. split; [vm_compute; split; [discriminate|reflexivity]|]. split; [lia|]. split; [vm_compute; reflexivity|]. split; [vm_compute; reflexivity|]. intros i Hi. lia.
Qed.
Lemma case_bytes received : tx_bytes (c_sock (case_conn received) 3).
Proof. intros a. change (is_u8 (a mod 251)). unfold is_u8. Z.div_mod_to_equations. lia. Qed.
