(** The MQTT client over TLS makes its connection: the TLS handshake, CONNECT, CONNACK and then packets, however the answers arrive. *)
From Coq Require Import String.
From Verif Require Import Model.Prelude Model.Bus Model.Chip Model.Specifiers Model.HlIo Model.Stream Spec.Hoare Spec.Sock Spec.TcpClient Spec.Cursor Spec.TlsSecrets Spec.TlsMessages Spec.TlsProtect.
From Verif Require Import Model.Mqtt Spec.MqttMsg Spec.MqttStream Proof.MqttRecvP Proof.MqttStuckP.
From Verif Require Import Proof.Base Proof.ChipP Proof.SockP Proof.TcpP Proof.TlsBufP Proof.TlsWireP Proof.TlsRxP Proof.TlsRx3P Proof.TlsRx5P Proof.MqttTlsSendP Proof.MqttTlsRxP Proof.MqttTlsMainP Proof.TlsStreamP Proof.MqttTlsStreamP.
From Verif Require Proof.MqttStreamP Proof.TlsArriveP Proof.TlsCompleteP.
From Verif Require Import Model.TlsTypes Model.TlsBuf Model.TlsKeys Model.TlsRecord Model.TlsClient Model.MqttTls Spec.TlsQueue Spec.TlsSession Spec.TlsWire Spec.TlsAuth Spec.TlsRx Spec.TlsStream Spec.TlsComplete Spec.TlsArrive
  Spec.MqttTlsMsg Spec.MqttTlsStream Spec.MqttTlsConnect.
Ltac Zify.zify_post_hook ::= idtac.
Local Open Scope list_scope.

Lemma unused_holds c : unused c -> buffer_holds (tc_rx c) [] [].
Proof. intros U. destruct (TlsCompleteP.unused_pending c U) as (P & _). apply buffer_eq. exact (proj1 P). Qed.
Lemma handshakes_app cx dbg c ch rs c1 ch1 rs2 c2 ch2 : handshakes cx dbg c ch rs c1 ch1 -> tc_sn c1 = tc_sn c -> handshakes cx dbg c1 ch1 rs2 c2 ch2 -> handshakes cx dbg c ch (rs ++ rs2) c2 ch2.
Proof.
  intros H Es H2. induction H2 as [|rs2 c2 ch2 fuel rng now sch r sch' c3 ch3 H2 IH St Ht Hf Hn Ru]; [now rewrite app_nil_r|]. rewrite app_assoc. rewrite Es in Hn. eapply HProcess; eassumption.
Qed.
Lemma asks_longer cx dbg go c ch l c' ch' : mt_asks cx dbg go c ch l c' ch' -> chip_longer ch ch'.
Proof. induction 1; [apply chip_longer_refl|]. eapply chip_longer_trans; [eassumption|eapply run_longer; eassumption]. Qed.
Lemma longer_receives ch ch' c rd stream : chip_longer ch ch' -> receives ch' c rd stream -> receives ch c rd stream.
Proof. intros L (missing & E). destruct (MqttStreamP.log_before _ _ _ _ (L (sn_raw (tc_sn c))) E) as (mi & E'). exists mi. exact E'. Qed.
Lemma same_refl c : mt_same c c.
Proof. repeat split. Qed.
Lemma connect_same c c' : mt_client_id c' = mt_client_id c -> buffer_size (mt_tls c') = buffer_size (mt_tls c) -> mt_connect_of c' = mt_connect_of c.
Proof. intros E1 E2. unfold mt_connect_of, buffer_size in *. now rewrite E1, E2. Qed.

(** ** The TLS handshake and CONNECT *)
Section Connect.
Context (cx : Crypto) (dbg : bool) (c : MqttTls) (ch : chip) (rd tx later : list Z) (dhs t0 hello extensions share key : list Z).
Hypothesis CX : crypto_ok cx.
Notation k0 := (mt_tls c).
Notation n := (sn_raw (tc_sn (mt_tls c))).
Notation psk := (tc_psk (mt_tls c)).
Notation dhe := (cx_dh cx dhs key).
Notation records := (flight cx psk dhe t0 hello extensions).
Notation t3 := (upto_finished cx psk dhe t0 hello extensions).
Notation server := (derive cx (master_secret cx psk dhe) "s ap traffic" t3).
Notation client := (derive cx (master_secret cx psk dhe) "c ap traffic" t3).
Notation answer := (reply cx psk dhe t0 hello extensions).
Hypotheses (G0 : greeted cx k0 dhs t0) (S0 : mt_st c = mkST MInit None) (Id : client_id_ok c).
Hypotheses (Hsh : server_hello hello share) (Hk : cx_sec1 cx share = Some key) (Bh : bytes_ok hello) (Lh : zlen (hs_message 2 hello) <= buffer_size k0 - 22).
Hypotheses (Hee : encrypted_extensions extensions) (Be : bytes_ok extensions) (Le : zlen (hs_message 8 extensions) <= buffer_size k0 - 39) (Room : 80 + zlen (mt_connect_of c) <= tx_room ch k0).
Hypotheses (V0 : tcp_view (c_sock ch n) rd tx) (B0 : tx_bytes (c_sock ch n)).

Lemma sizes : 1024 <= buffer_size k0 <= 16384.
Proof using G0. destruct G0 as (_ & _ & _ & _ & U & _). exact U. Qed.
Lemma connect_len : 0 <= zlen (mt_connect_of c).
Proof using Type. apply zlen_nonneg. Qed.
(** CONNECT is not sent. *)
Definition before (l : list mtans) (c' : MqttTls) (ch' : chip) (rs : list (res TError TEvent)) : Prop :=
  handshakes cx dbg k0 ch rs (mt_tls c') ch' /\ tc_state (mt_tls c') <> TConnected /\ mt_same c c' /\ mt_st c' = mkST MInit None /\ Forall mt_goes_on l.
Definition sent (l : list mtans) (c' : MqttTls) (ch' : chip) : Prop :=
  (exists l0, l = l0 ++ [WProcess (Ok (SeenCallAfter 10)) [] (Ok tt)] /\ Forall mt_goes_on l0) /\ mt_same c c' /\ (exists since, mt_asked c' server 0 [] since) /\ writes_with (mt_tls c') client 1 /\
  tx_bytes (c_sock ch' n) /\ tcp_view (c_sock ch' n) (rd ++ concat records) (tx ++ answer ++ protected_record cx client 0 23 (mt_connect_of c)).

Lemma step l c1 ch1 rs fuel rng now ops sch a sch' c2 ch2 : before l c1 ch1 rs -> in_time (mt_tls c1) now -> Forall pub_op_ok ops -> no_faults sch -> no_link_change (seen_ir sch ch1 n) ->
  run (mtcall_run cx dbg fuel c1 (YProcess rng now ops true)) sch ch1 = (Done (a, c2), sch', ch2) -> receives ch2 k0 rd (concat records ++ later) ->
  exists r t sch1 ch', run (tls_process cx dbg fuel (mt_tls c1) rng now) sch ch1 = (Done (r, t), sch1, ch') /\ chip_longer ch' ch2 /\
    ((before (l ++ [a]) c2 ch2 (rs ++ [r]) /\ t = mt_tls c2 /\ ch' = ch2) \/ (sent (l ++ [a]) c2 ch2 /\ tc_state t = TConnected)).
Proof using All.
  intros (H & Nc & Sm & St & Fl) Ht Ho Hf Hn Ru Rv. pose proof sizes as Hz. pose proof connect_len as Hc. pose proof Sm as (Esn & Ebs & Eid & Epk).
  pose proof Ru as Ru0. change (mtcall_run cx dbg fuel c1 (YProcess rng now ops true)) with (bind (mt_process cx dbg fuel c1 rng now) (after_process ops true)) in Ru0.
  apply MqttStreamP.run_split in Ru0. destruct Ru0 as (y & sch1 & ch1' & Ra & Rb). unfold mt_process in Ra. apply MqttStreamP.run_split in Ra. destruct Ra as ((r, t) & sch2 & ch2' & Rt & Rc).
  assert (chip_longer ch2' ch2) as Lg by (eapply chip_longer_trans; [exact (run_longer _ _ _ _ _ _ Rc)|exact (run_longer _ _ _ _ _ _ Rb)]).
  exists r, t, sch2, ch2'. split; [exact Rt|]. split; [exact Lg|].
  assert (handshakes cx dbg k0 ch (rs ++ [r]) t ch2') as H' by (eapply HProcess; eassumption).
  assert (receives ch2' k0 rd (concat records ++ later)) as Rv' by (apply (longer_receives _ ch1'); [exact (run_longer _ _ _ _ _ _ Rc)|]; apply (longer_receives _ ch2); [exact (run_longer _ _ _ _ _ _ Rb)|exact Rv]).
  destruct (TlsArriveP.arrives cx dbg k0 ch rd tx later dhs t0 hello extensions share key _ t ch2' CX G0 Hsh Hk Bh Lh Hee Be Le ltac:(lia) V0 B0 H' Rv') as (k & Lk & Sg & Sc & TB & K12 & K3).
  pose proof Sc as (Tsn & _ & _ & _ & _ & Tpsk & Tbs).
  assert (k = 3 \/ k < 3)%nat as [->|Lt] by lia.
  - destruct (K3 eq_refl) as ((rs0 & Er & Fr) & To & V1 & Fr1). apply app_inj_tail in Er. destruct Er as (_ & ->). cbn [stage] in Sg. destruct Sg as (Q1 & Q2 & Q3 & Q4 & Q5 & Q6). rewrite Tpsk in Q2, Q3.
    assert (mt_connect_of (mt_put c1 t) = mt_connect_of c) as Ec by (apply connect_same; cbn [mt_put mt_tls mt_client_id]; congruence).
    right. split; [|exact Q1].
    destruct (connect_more cx dbg fuel c1 rng now ops true sch ch1 t sch2 ch2' client 0 (rd ++ concat records) (tx ++ answer) CX Hf Rt ltac:(congruence)) as (a' & c3 & sch3 & ch3 & E & X).
    + split; [exact Q1|]. split; [exact Q2|]. split; [exact Q5|lia].
    + lia.
    + rewrite Esn. exact V1.
    + rewrite Esn. exact TB.
    + intros i Ei. apply Id. congruence.
    + lia.
    + rewrite Ru in E. injection E as <- <- <- <-. rewrite Ec, Esn in X. unfold tx_room in *.
      destruct X as [(-> & Se & TB2 & kk & Ek)|(e & -> & Se)].
      * destruct Se as [(t' & Ex & W' & Erx & V')|([Ex|Ex] & _)]; [|discriminate Ex|discriminate Ex]. injection Ex as ->. cbn [mt_tls mt_put mt_client_id mt_pkt_id] in *.
        split; [eauto|]. split; [|split; [|split; [exact W'|split; [exact TB2|rewrite app_assoc; exact V']]]].
        -- unfold mt_same. cbn [mt_tls mt_client_id mt_pkt_id]. rewrite Ek. cbn [tc_sn tc_set_ks]. unfold buffer_size in *. cbn [tc_rx tc_set_ks]. repeat split; congruence.
        -- exists now. unfold mt_asked, reads_with. cbn [mt_tls mt_st]. rewrite Ek. cbn [tc_ks tc_set_ks tc_state tc_timeout tc_rx ks_server_traffic ks_set_seqs ks_read_seq]. rewrite Q4. split; [reflexivity|]. split; [split; [exact Q3|split; [reflexivity|lia]]|]. auto.
      * exfalso. destruct Se as [(t' & Ex & _)|(_ & F & _)]; [discriminate Ex|]. lia.
  - destruct (K12 Lt) as (Fr & V1). apply Forall_app in Fr. destruct Fr as (_ & Fr). inversion Fr as [|x xs Hr _]; subst x xs.
    assert (tc_state t <> TConnected /\ unused t) as (Nt & U).
    { destruct k as [|[|[|k]]]; [| | |lia]; cbn [stage] in Sg.
      - destruct Sg as (Q1 & _ & _ & _ & U). rewrite Q1. split; [discriminate|exact U].
      - destruct Sg as (Q1 & _ & _ & _ & _ & _ & _ & U). rewrite Q1. split; [discriminate|exact U].
      - destruct Sg as (Q1 & _ & _ & _ & _ & _ & _ & U). rewrite Q1. split; [discriminate|exact U]. }
    left.
    destruct Hr as [->|(secs & -> & Hsecs)].
    + cbv zeta iota in Rc. unfold mt_rx, tls_reader, b_app_data_reader in Rc. cbn [mt_put mt_tls] in Rc. destruct U as (_ & I1 & I2 & _). rewrite I1, I2 in Rc. cbn [Z.eqb] in Rc.
      unfold mt_timeout, st_elapsed in Rc. cbn [mt_put mt_st] in Rc. rewrite St in Rc. cbn [st_timeout run] in Rc. injection Rc as <- <- <-. cbn [after_process run seen] in Rb. injection Rb as <- <- <- <-.
      split; [|split; reflexivity]. split; [exact H'|]. split; [exact Nt|]. split; [unfold mt_same; cbn [mt_put mt_tls mt_client_id mt_pkt_id]; repeat split; congruence|]. split; [exact St|]. apply Forall_app. split; [exact Fl|]. constructor; [|constructor]. now left.
    + cbv zeta iota in Rc. cbn [run] in Rc. injection Rc as <- <- <-. cbn [after_process run seen] in Rb. injection Rb as <- <- <- <-.
      split; [|split; reflexivity]. split; [exact H'|]. split; [exact Nt|]. split; [unfold mt_same; cbn [mt_put mt_tls mt_client_id mt_pkt_id]; repeat split; congruence|]. split; [exact St|]. apply Forall_app. split; [exact Fl|]. constructor; [|constructor]. right. exists secs. auto.
Qed.

(** Any calls, beginning before CONNECT is sent. *)
Lemma any_asks l0 rs0 c0 ch0 l c' ch' : before l0 c0 ch0 rs0 -> mt_asks cx dbg mt_handshaking c0 ch0 l c' ch' -> receives ch' k0 rd (concat records ++ later) ->
  exists rs, length rs = length l /\ ((before (l0 ++ l) c' ch' (rs0 ++ rs) /\ handshakes cx dbg (mt_tls c0) ch0 rs (mt_tls c') ch') \/
    (sent (l0 ++ l) c' ch' /\ exists t ch'', handshakes cx dbg (mt_tls c0) ch0 rs t ch'' /\ tc_state t = TConnected /\ chip_longer ch'' ch')).
Proof using All.
  intros B A. assert (tc_sn (mt_tls c0) = tc_sn k0) as Esn by (destruct B as (_ & _ & (E & _) & _); exact E).
  induction A as [|l c1 ch1 fuel rng now ops sch a sch' c2 ch2 A IH (Nc & Ht) Ho Hf Hn Ru]; intros Rv.
  - exists []. split; [reflexivity|]. left. rewrite !app_nil_r. split; [exact B|constructor].
  - destruct (IH (longer_receives _ _ _ _ _ (run_longer _ _ _ _ _ _ Ru) Rv)) as (rs & El & [(B1 & H1)|(S1 & _)]).
    2:{ exfalso. destruct S1 as (_ & _ & (since & _ & _ & Sx & _) & _). contradiction. }
    pose proof Hn as Hn0. rewrite Esn in Hn0.
    destruct (step _ c1 ch1 _ fuel rng now ops sch a sch' c2 ch2 B1 Ht Ho Hf Hn0 Ru Rv) as (r & t & sch1 & ch3 & Rt & Lg & X). exists (rs ++ [r]). rewrite !app_length. cbn [length]. split; [lia|]. rewrite !app_assoc.
    assert (handshakes cx dbg (mt_tls c0) ch0 (rs ++ [r]) t ch3) as H2 by (eapply HProcess; eassumption).
    destruct X as [(X & -> & ->)|(X & St)]; [left; auto|right]. split; [exact X|]. exists t, ch3. auto.
Qed.
Lemma before_start : before [] c ch [].
Proof using G0 S0. split; [constructor|]. split; [destruct G0 as (E & _); rewrite E; discriminate|]. split; [apply same_refl|]. split; [exact S0|constructor]. Qed.
End Connect.

Theorem connects cx dbg c ch rd tx later dhs t0 hello extensions share key l c' ch' : crypto_ok cx -> greeted cx (mt_tls c) dhs t0 -> mt_st c = mkST MInit None -> client_id_ok c ->
  server_hello hello share -> cx_sec1 cx share = Some key -> bytes_ok hello -> zlen (hs_message 2 hello) <= buffer_size (mt_tls c) - 22 ->
  encrypted_extensions extensions -> bytes_ok extensions -> zlen (hs_message 8 extensions) <= buffer_size (mt_tls c) - 39 -> 80 + zlen (mt_connect_of c) <= tx_room ch (mt_tls c) ->
  tcp_view (c_sock ch (sn_raw (tc_sn (mt_tls c)))) rd tx -> tx_bytes (c_sock ch (sn_raw (tc_sn (mt_tls c)))) ->
  let psk := tc_psk (mt_tls c) in let dhe := cx_dh cx dhs key in let records := flight cx psk dhe t0 hello extensions in let t3 := upto_finished cx psk dhe t0 hello extensions in
  let server := derive cx (master_secret cx psk dhe) "s ap traffic" t3 in let client := derive cx (master_secret cx psk dhe) "c ap traffic" t3 in
  mt_asks cx dbg mt_handshaking c ch l c' ch' -> receives ch' (mt_tls c) rd (concat records ++ later) ->
  mt_same c c' /\ tx_bytes (c_sock ch' (sn_raw (tc_sn (mt_tls c)))) /\
  ((exists k, (k < 3)%nat /\ stage cx psk dhe t0 hello extensions k dhs (mt_tls c') /\ mt_st c' = mkST MInit None /\ Forall mt_goes_on l /\ tcp_view (c_sock ch' (sn_raw (tc_sn (mt_tls c)))) (rd ++ concat (firstn k records)) tx) \/
   ((exists l0, l = l0 ++ [WProcess (Ok (SeenCallAfter 10)) [] (Ok tt)] /\ Forall mt_goes_on l0) /\ (exists since, mt_asked c' server 0 [] since) /\ writes_with (mt_tls c') client 1 /\
     tcp_view (c_sock ch' (sn_raw (tc_sn (mt_tls c)))) (rd ++ concat records) (tx ++ reply cx psk dhe t0 hello extensions ++ protected_record cx client 0 23 (mt_connect_of c)))).
Proof.
  intros CX G S0 Id Hsh Hk Bh Lh Hee Be Le Room V B psk dhe records t3 server client A Rv. pose proof (zlen_nonneg (mt_connect_of c)) as Hc.
  destruct (any_asks cx dbg c ch rd tx later dhs t0 hello extensions share key CX G S0 Id Hsh Hk Bh Lh Hee Be Le Room V B [] [] c ch l c' ch' (before_start cx dbg c ch dhs t0 G S0) A Rv) as (rs & _ & [((H & Nc & Sm & St & Fl) & _)|(S & _)]).
  - cbn [app] in *. destruct (TlsArriveP.arrives cx dbg (mt_tls c) ch rd tx later dhs t0 hello extensions share key rs (mt_tls c') ch' CX G Hsh Hk Bh Lh Hee Be Le ltac:(lia) V B H Rv) as (k & Lk & Sg & _ & TB & K12 & _).
    split; [exact Sm|]. split; [exact TB|]. left. exists k. assert (k < 3)%nat as Lt. { assert (k <> 3)%nat; [|lia]. intros ->. cbn [stage] in Sg. destruct Sg as (Sg & _). contradiction. }
    destruct (K12 Lt) as (_ & V'). auto 8.
  - cbn [app] in S. destruct S as (El & Sm & As & W & TB & V'). split; [exact Sm|]. split; [exact TB|]. right. auto.
Qed.
(** When all three records have arrived, at most three further calls send CONNECT. *)
Theorem connects_all cx dbg c ch rd tx later dhs t0 hello extensions share key l1 c1 ch1 l2 c2 ch2 : crypto_ok cx -> greeted cx (mt_tls c) dhs t0 -> mt_st c = mkST MInit None -> client_id_ok c ->
  server_hello hello share -> cx_sec1 cx share = Some key -> bytes_ok hello -> zlen (hs_message 2 hello) <= buffer_size (mt_tls c) - 22 ->
  encrypted_extensions extensions -> bytes_ok extensions -> zlen (hs_message 8 extensions) <= buffer_size (mt_tls c) - 39 -> 80 + zlen (mt_connect_of c) <= tx_room ch (mt_tls c) ->
  tcp_view (c_sock ch (sn_raw (tc_sn (mt_tls c)))) rd tx -> tx_bytes (c_sock ch (sn_raw (tc_sn (mt_tls c)))) ->
  let records := flight cx (tc_psk (mt_tls c)) (cx_dh cx dhs key) t0 hello extensions in
  mt_asks cx dbg mt_handshaking c ch l1 c1 ch1 -> (exists more, s_rxlog (c_sock ch1 (sn_raw (tc_sn (mt_tls c)))) = rd ++ concat records ++ more) ->
  mt_asks cx dbg mt_handshaking c1 ch1 l2 c2 ch2 -> receives ch2 (mt_tls c) rd (concat records ++ later) -> (length l2 <= 3)%nat /\ (length l2 = 3%nat -> tc_state (mt_tls c2) = TConnected).
Proof.
  intros CX G S0 Id Hsh Hk Bh Lh Hee Be Le Room V B records A1 All A2 Rv. pose proof (zlen_nonneg (mt_connect_of c)) as Hc.
  pose proof (longer_receives _ _ _ _ _ (asks_longer _ _ _ _ _ _ _ _ A2) Rv) as Rv1.
  destruct (any_asks cx dbg c ch rd tx later dhs t0 hello extensions share key CX G S0 Id Hsh Hk Bh Lh Hee Be Le Room V B [] [] c ch l1 c1 ch1 (before_start cx dbg c ch dhs t0 G S0) A1 Rv1) as (rs1 & _ & [(B1 & _)|(S & _)]).
  2:{ assert (tc_state (mt_tls c1) = TConnected) as T by (destruct S as (_ & _ & (since & _ & _ & T & _) & _); exact T).
      assert (l2 = []) as ->; [|cbn; split; [lia|discriminate]]. clear - A2 T. assert (l2 = [] /\ c2 = c1) as (E & _); [|exact E].
      induction A2 as [|l c3 ch3 fuel rng now ops sch a sch' c4 ch4 A IH (Nc & _)]; [auto|]. destruct IH as (_ & ->). contradiction. }
  cbn [app] in B1. pose proof B1 as (H1 & _).
  destruct (any_asks cx dbg c ch rd tx later dhs t0 hello extensions share key CX G S0 Id Hsh Hk Bh Lh Hee Be Le Room V B l1 rs1 c1 ch1 l2 c2 ch2 B1 A2 Rv) as (rs2 & El & [(B2 & H2)|(S & t & ch3 & H2 & St & Lg)]).
  - destruct (TlsArriveP.arrived_all cx dbg (mt_tls c) ch rd tx later dhs t0 hello extensions share key rs1 (mt_tls c1) ch1 rs2 (mt_tls c2) ch2 CX G Hsh Hk Bh Lh Hee Be Le ltac:(lia) V B H1 All H2 Rv) as (L3 & E3). rewrite El in *. auto.
  - destruct (TlsArriveP.arrived_all cx dbg (mt_tls c) ch rd tx later dhs t0 hello extensions share key rs1 (mt_tls c1) ch1 rs2 t ch3 CX G Hsh Hk Bh Lh Hee Be Le ltac:(lia) V B H1 All H2 (longer_receives _ _ _ _ _ Lg Rv)) as (L3 & _). rewrite El in *. split; [exact L3|]. intros _.
    destruct S as (_ & _ & (since & _ & _ & T & _) & _). exact T.
Qed.

(** ** CONNACK *)
Section Connack.
Context (cx : Crypto) (dbg : bool) (room : Z) (c : MqttTls) (ch : chip) (rd tx ad : list Z) (t : list Z) (seq since flags : Z) (props : list Z) (datas : list (list Z)) (more : list Z).
Hypothesis CX : crypto_ok cx.
Notation sn := (tc_sn (mt_tls c)).
Notation n := (snz (tc_sn (mt_tls c))).
Notation size := (buffer_size (mt_tls c)).
Notation packet := (connack_packet flags 0 props).
Let f := (free_space (c_sock ch n), rx_size (c_sock ch n)).
Hypotheses (L0 : mt_asked c t seq ad since) (Hend : seq + zlen datas < 2 ^ 64 - 1) (Bd : Forall bytes_ok datas) (Ld : Forall (fun d => zlen d <= room) datas) (Hr : 0 <= room <= size - 39).
Hypothesis V0 : tcp_view (c_sock ch n) rd tx /\ tx_bytes (c_sock ch n).
Hypotheses (Hp : zlen props < 125) (Ems : ad ++ concat datas = packet ++ more).
Notation rs := (record_stream cx t seq).

Definition reached2 (l : list mtans) (c' : MqttTls) (ch' : chip) (j : nat) (w : list Z) : Prop :=
  after cx f sn size rd tx t seq datas j (mt_tls c') w (c_sock ch' n) /\ mt_client_id c' = mt_client_id c /\ mt_pkt_id c' = mt_pkt_id c /\
  ((Forall mt_goes_on l /\ mt_st c' = mkST WaitConAck (Some since) /\ w = ad ++ concat (firstn j datas) /\ (s_rxlog (c_sock ch n) = rd ++ rs datas -> (length l <= j)%nat) ) \/
   ((exists l0, l = l0 ++ [WProcess (Ok (SeenAck AConnAck)) [] (Ok tt)] /\ Forall mt_goes_on l0) /\ mt_st c' = mkST Ready None /\ packet ++ w = ad ++ concat (firstn j datas))).

Lemma connack_reaction now ops w missing : since <= now <= since + 10 -> w ++ missing = packet ++ more ->
  (exists rest, w = packet ++ rest /\ reaction (mkST WaitConAck (Some since)) now ops true w (WProcess (Ok (SeenAck AConnAck)) [] (Ok tt)) rest (mkST Ready None)) \/
  (missing <> [] /\ reaction (mkST WaitConAck (Some since)) now ops true w (WProcess (Ok (SeenCallAfter (10 - (now - since)))) [] (Ok tt)) w (mkST WaitConAck (Some since))).
Proof using Hp.
  clear - Hp. intros Ht E. pose proof (zlen_nonneg props) as Np. destruct (prefix_app _ _ _ _ E) as [(mi & Y & Hne)|(rest & -> & Y)].
  - right. split.
    + intros ->. rewrite app_nil_r in E. subst w. rewrite <- app_assoc in Y. rewrite <- (app_nil_r packet) in Y at 2. apply app_inv_head in Y. apply app_eq_nil in Y. tauto.
    + apply (ReactIncomplete _ now ops true w 2 0 ([flags; 0] ++ mprops props) mi); [exact Y|exact Hne|lia|lia| |].
      * unfold mprops. rewrite !zlen_app. assert (zlen (varint (zlen props)) <= 4) by (unfold varint; destruct (_ <? 128); [|destruct (_ <? _); [|destruct (_ <? _)]]; cbn; lia). change (zlen [flags; 0]) with 2. lia.
      * unfold mt_waits. cbn [st_timeout]. split; [lia|]. left. split; [lia|]. auto.
  - left. exists rest. split; [reflexivity|]. exact (ReactConnack (mkST WaitConAck (Some since)) now ops true _ flags 0 props rest eq_refl Hp eq_refl).
Qed.
Lemma reached2_nil : reached2 [] c ch 0 ad.
Proof using V0 L0.
  destruct V0 as (V & B). destruct L0 as (Est & (R1 & R2 & _) & Hst & Hto & Hh). unfold reached2. split; [|split; [reflexivity|split; [reflexivity|left; split; [constructor|split; [exact Est|split; [cbn; now rewrite app_nil_r|cbn; lia]]]]]].
  split; [lia|]. split; [change (Z.of_nat 0) with 0; rewrite Z.add_0_r; unfold streaming; auto 10|].
  exists (s_rx_base (c_sock ch n)), (unread (c_sock ch n)). cbn [firstn record_stream]. rewrite app_nil_r. apply (view_wn f _ rd tx (unread (c_sock ch n)) [] V B); [cbn; lia|reflexivity|now rewrite app_nil_r].
Qed.
Lemma reached2_readable l c1 ch1 j w : reached2 l c1 ch1 j w -> readable (mt_tls c1) = w.
Proof using Type. intros ((_ & (_ & _ & _ & _ & _ & H & _) & _) & _). now apply holds_readable. Qed.
Lemma reached2_step l c1 ch1 j w fuel rng now ops sch a sch' c2 ch2 missing : chip_longer ch ch1 -> reached2 l c1 ch1 j w -> mt_awaiting room c1 now -> Forall pub_op_ok ops ->
  no_faults sch -> no_link_change (seen_ir sch ch1 n) -> run (mtcall_run cx dbg fuel c1 (YProcess rng now ops true)) sch ch1 = (Done (a, c2), sch', ch2) ->
  s_rxlog (c_sock ch2 n) ++ missing = rd ++ rs datas -> exists j' w', reached2 (l ++ [a]) c2 ch2 j' w'.
Proof using All.
  intros Lg R1 (Nc & Ht & Room) Ho Hs HP Ru L. pose proof (reached2_readable _ _ _ _ _ R1) as Er. destruct R1 as (A1 & Ei & Ep & R1).
  destruct R1 as [(Fl & Est & Ew & Len)|(_ & Est & _)]; [|unfold mt_is_connected in Nc; rewrite Est in Nc; discriminate Nc].
  rewrite Est in Ht. specialize (Ht since eq_refl).
  assert (zlen w + room + 2 <= size) as Room' by (unfold roomy in Room; rewrite Er in Room; destruct A1 as (_ & (_ & _ & _ & _ & _ & _ & Q) & _); rewrite Q in Room; exact Room).
  pose proof Ru as Ru0. change (mtcall_run cx dbg fuel c1 (YProcess rng now ops true)) with (bind (mt_process cx dbg fuel c1 rng now) (after_process ops true)) in Ru0.
  apply MqttStreamP.run_split in Ru0. destruct Ru0 as (y & sch1 & ch1' & Ra & Rb). unfold mt_process in Ra. apply MqttStreamP.run_split in Ra. destruct Ra as ((r, tls) & sch2 & ch2' & Rt & Rc).
  destruct (MqttStreamP.log_before _ _ _ _ (run_longer _ _ _ _ _ _ Rb n) L) as (mi & L1). destruct (MqttStreamP.log_before _ _ _ _ (run_longer _ _ _ _ _ _ Rc n) L1) as (mi2 & L2).
  destruct L0 as (_ & (_ & _ & Hq) & _).
  destruct (tls_call cx f sn dbg room size rd tx ad t seq datas CX ltac:(lia) Hend Bd Ld Hr j (mt_tls c1) w ch1 fuel rng now sch r tls sch2 ch2' mi2 A1 Room' Hs HP Rt L2) as (j' & w2 & A2 & Hr2 & Lj & Pr & Ea).
  specialize (Ea [] Ew). cbn [app] in Ea.
  assert (exists e, r = Ok e /\ (e = TApplicationData \/ e = TNone)) as (e & -> & He) by (destruct Hr2 as [-> | ->]; eauto).
  pose proof A2 as (Lj2 & S2 & W2). pose proof S2 as (Q1 & Q2 & Q3 & Q4 & Q5 & Hh2 & Q7).
  assert (w2 ++ concat (skipn j' datas) = packet ++ more) as Ew2 by (rewrite Ea, <- app_assoc, <- concat_app, firstn_skipn; exact Ems).
  assert (forall a0 w' st', reaction (mt_st c1) now ops true w2 a0 w' st' -> a = a0 /\ ch2 = ch2' /\ mt_client_id c2 = mt_client_id c1 /\ mt_pkt_id c2 = mt_pkt_id c1 /\ mt_st c2 = st' /\ exists rx, buffer_holds rx w' [] /\ mt_tls c2 = tc_set_rx tls rx) as K.
  { intros a0 w' st' R. destruct (then_rx cx dbg fuel c1 rng now ops true sch ch1 e tls sch2 ch2' w2 [] a0 w' st' Rt He Hh2 Ho R) as (rx & Hrx & E). rewrite Ru in E. injection E as -> -> _ ->. cbn [mt_st mt_tls mt_client_id mt_pkt_id]. eauto 10. }
  assert (forall rx, mt_tls c2 = tc_set_rx tls rx -> b_N rx = b_N (tc_rx tls)) as Kb.
  { intros rx Et. destruct y as (r2, c2'). apply after_buf in Rb. assert (same_buf (mt_put c1 tls) c2') as X by (destruct He as [-> | ->]; now apply rx_buf in Rc).
    unfold same_buf in *. rewrite X, Et in Rb. cbn [tc_rx tc_set_rx mt_tls mt_put] in Rb. unfold b_N. now rewrite Rb. }
  assert (forall rx w', buffer_holds rx w' [] -> b_N rx = b_N (tc_rx tls) -> after cx f sn size rd tx t seq datas j' (tc_set_rx tls rx) w' (c_sock ch2' n)) as K2.
  { intros rx w' Hrx EN. split; [exact Lj2|]. split; [|exact W2]. split; [exact Q1|]. split; [exact Q2|]. split; [exact Q3|]. split; [exact Q4|]. split; [exact Q5|]. split; [exact Hrx|]. unfold b_N, buffer_size in *. cbn [tc_rx tc_set_rx]. congruence. }
  rewrite Est in K. exists j'. destruct (connack_reaction now ops w2 (concat (skipn j' datas)) Ht Ew2) as [(rest & Er2 & R)|(Hm & R)].
  - destruct (K _ _ _ R) as (-> & -> & Ei2 & Ep2 & Es2 & rx & Hrx & Et). exists rest. unfold reached2. rewrite Et. split; [apply K2; [exact Hrx|exact (Kb rx Et)]|]. split; [congruence|]. split; [congruence|]. right.
    split; [exists l; auto|]. split; [exact Es2|]. now rewrite <- Er2.
  - destruct (K _ _ _ R) as (-> & -> & Ei2 & Ep2 & Es2 & rx & Hrx & Et). exists w2. unfold reached2. rewrite Et. split; [apply K2; [exact Hrx|exact (Kb rx Et)]|]. split; [congruence|]. split; [congruence|]. left.
    split; [apply Forall_app; split; [exact Fl|]; constructor; [|constructor]; right; eexists; split; [reflexivity|lia]|]. split; [exact Es2|]. split; [exact Ea|].
    intros G. specialize (Len G). rewrite app_length. cbn [length]. destruct (Nat.eq_dec j' j) as [E|N]; [|lia]. exfalso. apply Hm.
    assert (s_rxlog (c_sock ch1 n) = rd ++ rs datas) as G1.
    { destruct (MqttStreamP.log_before _ _ _ _ (run_longer _ _ _ _ _ _ Rt n) L2) as (m3 & L3). destruct (Lg n) as (new & _ & F). rewrite F, G, <- app_assoc in L3. rewrite <- (app_nil_r (rd ++ rs datas)) in L3 at 2. apply app_inv_head in L3. apply app_eq_nil in L3. destruct L3 as (-> & _). now rewrite F, G, app_nil_r. }
    rewrite E, (Pr G1 E), skipn_all. reflexivity.
Qed.
Lemma awaits l c' ch' missing : mt_asks cx dbg (mt_awaiting room) c ch l c' ch' -> s_rxlog (c_sock ch' n) ++ missing = rd ++ rs datas -> exists j w, reached2 l c' ch' j w.
Proof using All.
  intros A. revert missing. induction A as [|l c1 ch1 fuel rng now ops sch a sch' c2 ch2 A IH Hg Ho Hs HP Ru]; intros missing L; [exists 0%nat, ad; exact reached2_nil|].
  destruct (MqttStreamP.log_before _ _ _ _ (run_longer _ _ _ _ _ _ Ru n) L) as (mi & L1). destruct (IH mi L1) as (j & w & R).
  exact (reached2_step l c1 ch1 j w fuel rng now ops sch a sch' c2 ch2 missing (asks_longer _ _ _ _ _ _ _ _ A) R Hg Ho Hs HP Ru L).
Qed.
End Connack.

Theorem accepted cx dbg room c ch rd tx ad t seq since flags props datas more l c' ch' : crypto_ok cx -> mt_asks cx dbg (mt_awaiting room) c ch l c' ch' ->
  mt_asked c t seq ad since -> seq + zlen datas < 2 ^ 64 - 1 -> Forall bytes_ok datas -> Forall (fun d => zlen d <= room) datas -> 0 <= room <= buffer_size (mt_tls c) - 39 ->
  tcp_view (c_sock ch (sn_raw (tc_sn (mt_tls c)))) rd tx -> tx_bytes (c_sock ch (sn_raw (tc_sn (mt_tls c)))) -> zlen props < 125 -> ad ++ concat datas = connack_packet flags 0 props ++ more ->
  receives ch' (mt_tls c) rd (record_stream cx t seq datas) ->
  mt_same c c' /\ tx_bytes (c_sock ch' (sn_raw (tc_sn (mt_tls c)))) /\
  exists j, (j <= length datas)%nat /\ tcp_view (c_sock ch' (sn_raw (tc_sn (mt_tls c)))) (rd ++ record_stream cx t seq (firstn j datas)) tx /\
    ((Forall mt_goes_on l /\ mt_asked c' t (seq + Z.of_nat j) (ad ++ concat (firstn j datas)) since) \/
     ((exists l0, l = l0 ++ [WProcess (Ok (SeenAck AConnAck)) [] (Ok tt)] /\ Forall mt_goes_on l0) /\ mt_listens c' t (seq + Z.of_nat j) (readable (mt_tls c')) /\
       connack_packet flags 0 props ++ readable (mt_tls c') = ad ++ concat (firstn j datas))) /\
    (s_rxlog (c_sock ch (sn_raw (tc_sn (mt_tls c)))) = rd ++ record_stream cx t seq datas -> (length datas < length l)%nat -> mt_is_connected c' = true).
Proof.
  intros CX A L0 He Bd Ld Hr V B Hp Ems (missing & L).
  destruct (awaits cx dbg room c ch rd tx ad t seq since flags props datas more CX L0 He Bd Ld Hr (conj V B) Hp Ems l c' ch' missing A L) as (j & w & R).
  pose proof (reached2_readable _ _ _ _ _ _ _ _ _ _ _ _ _ _ _ _ _ R) as Er. rewrite Er.
  destruct R as ((Lj & S & b & wd & W) & Ei & Ep & R). pose proof S as (Q1 & Q2 & Q3 & Q4 & Q5 & Q6 & Q7). destruct L0 as (_ & (_ & _ & Hq) & _).
  assert (reads_with (mt_tls c') t (seq + Z.of_nat j)) as Rw by (split; [exact Q4|]; split; [exact Q5|unfold zlen in He; lia]).
  split; [repeat split; assumption|]. split; [apply W|]. exists j. split; [exact Lj|]. split; [exact (wn_view _ _ _ _ _ _ W)|].
  destruct R as [(Fl & Est & Ew & Len)|(El & Est & Ew)].
  - split; [left; split; [exact Fl|]; split; [exact Est|]; rewrite <- Ew; auto|]. intros G Lt. specialize (Len G). lia.
  - split; [right; split; [exact El|]; split; [split; [unfold mt_is_connected; now rewrite Est|split; [now rewrite Est|auto]]|exact Ew]|]. intros _ _. unfold mt_is_connected. now rewrite Est.
Qed.

(** ** The handshake, CONNACK and then packets *)
Lemma split_stream cx t seq datas j : (j <= length datas)%nat -> record_stream cx t seq datas = record_stream cx t seq (firstn j datas) ++ record_stream cx t (seq + Z.of_nat j) (skipn j datas).
Proof. intros L. rewrite <- (firstn_skipn j datas) at 1. rewrite TlsStreamP.stream_app. do 2 f_equal. unfold zlen. rewrite firstn_length. lia. Qed.
Theorem whole_session cx dbg c ch rd tx dhs t0 hello extensions share key room flags props datas ms l1 c1 ch1 l2 c2 ch2 l3 c3 ch3 : crypto_ok cx -> greeted cx (mt_tls c) dhs t0 -> mt_st c = mkST MInit None -> client_id_ok c ->
  server_hello hello share -> cx_sec1 cx share = Some key -> bytes_ok hello -> zlen (hs_message 2 hello) <= buffer_size (mt_tls c) - 22 ->
  encrypted_extensions extensions -> bytes_ok extensions -> zlen (hs_message 8 extensions) <= buffer_size (mt_tls c) - 39 -> 80 + zlen (mt_connect_of c) <= tx_room ch (mt_tls c) ->
  tcp_view (c_sock ch (sn_raw (tc_sn (mt_tls c)))) rd tx -> tx_bytes (c_sock ch (sn_raw (tc_sn (mt_tls c)))) ->
  zlen datas < 2 ^ 64 - 1 -> Forall bytes_ok datas -> Forall (fun d => zlen d <= room) datas -> 0 <= room <= buffer_size (mt_tls c) - 39 ->
  zlen props < 125 -> Forall message_ok ms -> concat datas = connack_packet flags 0 props ++ message_stream ms ->
  let psk := tc_psk (mt_tls c) in let dhe := cx_dh cx dhs key in let records := flight cx psk dhe t0 hello extensions in let t3 := upto_finished cx psk dhe t0 hello extensions in
  let server := derive cx (master_secret cx psk dhe) "s ap traffic" t3 in let client := derive cx (master_secret cx psk dhe) "c ap traffic" t3 in
  mt_asks cx dbg mt_handshaking c ch l1 c1 ch1 -> tc_state (mt_tls c1) = TConnected -> mt_asks cx dbg (mt_awaiting room) c1 ch1 l2 c2 ch2 -> mt_is_connected c2 = true ->
  mt_polls cx dbg (roomy room (buffer_size (mt_tls c2))) c2 ch2 l3 c3 ch3 -> receives ch3 (mt_tls c) rd (concat records ++ record_stream cx server 0 datas) ->
  (exists l, l1 = l ++ [WProcess (Ok (SeenCallAfter 10)) [] (Ok tt)] /\ Forall mt_goes_on l) /\ (exists l, l2 = l ++ [WProcess (Ok (SeenAck AConnAck)) [] (Ok tt)] /\ Forall mt_goes_on l) /\
  let k := length (mt_news l3) in (k <= length ms)%nat /\ Forall2 (fun p m => snd p = mt_tells m (fst p)) (mt_news l3) (firstn k ms) /\
  exists j, (j <= length datas)%nat /\ mt_listens c3 server (Z.of_nat j) (readable (mt_tls c3)) /\ connack_packet flags 0 props ++ message_stream (firstn k ms) ++ readable (mt_tls c3) = concat (firstn j datas) /\
    tcp_view (c_sock ch3 (sn_raw (tc_sn (mt_tls c)))) (rd ++ concat records ++ record_stream cx server 0 (firstn j datas)) (tx ++ reply cx psk dhe t0 hello extensions ++ protected_record cx client 0 23 (mt_connect_of c)).
Proof.
  intros CX G S0 Id Hsh Hk Bh Lh Hee Be Le Room V B Hl Bd Ld Hr Hp Hms Ed psk dhe records t3 server client A1 T1 A2 T2 P3 Rv3.
  pose proof (longer_receives _ _ _ _ _ (polls_longer cx dbg c2 ch2 _ _ _ _ P3) Rv3) as Rv2. pose proof (longer_receives _ _ _ _ _ (asks_longer _ _ _ _ _ _ _ _ A2) Rv2) as Rv1.
  destruct (connects cx dbg c ch rd tx (record_stream cx server 0 datas) dhs t0 hello extensions share key l1 c1 ch1 CX G S0 Id Hsh Hk Bh Lh Hee Be Le Room V B A1 Rv1) as ((Esn1 & Ebs1 & _) & TB1 & [(k & Lk & Sg & _)|(El1 & (since & As) & _ & V1)]).
  { exfalso. destruct k as [|[|[|k]]]; [| | |lia]; cbn [stage] in Sg; destruct Sg as (Sg & _); rewrite Sg in T1; discriminate T1. }
  fold psk dhe records t3 server client in As, V1. rewrite <- Esn1 in V1, TB1.
  assert (receives ch2 (mt_tls c1) (rd ++ concat records) (record_stream cx server 0 datas)) as Rv2' by (destruct Rv2 as (mi & E); exists mi; rewrite Esn1, <- app_assoc; exact E).
  destruct (accepted cx dbg room c1 ch1 _ _ [] server 0 since flags props datas (message_stream ms) l2 c2 ch2 CX A2 As ltac:(lia) Bd Ld ltac:(lia) V1 TB1 Hp Ed Rv2') as ((Esn2 & Ebs2 & _) & TB2 & j & Lj & V2 & Hor & _).
  destruct Hor as [(_ & Est & _)|(El2 & Li & Ej)]; [unfold mt_is_connected in T2; rewrite Est in T2; discriminate T2|].
  split; [exact El1|]. split; [exact El2|]. rewrite Z.add_0_l in Li. cbn [app] in Ej. rewrite <- Esn2 in V2, TB2.
  assert (readable (mt_tls c2) ++ concat (skipn j datas) = message_stream ms) as Ems.
  { apply (app_inv_head (connack_packet flags 0 props)). rewrite app_assoc, Ej, <- concat_app, firstn_skipn. exact Ed. }
  assert (length (skipn j datas) = length datas - j)%nat as Lsk by apply skipn_length.
  assert (receives ch3 (mt_tls c2) ((rd ++ concat records) ++ record_stream cx server 0 (firstn j datas)) (record_stream cx server (Z.of_nat j) (skipn j datas))) as Rv3'.
  { destruct Rv3 as (mi & E). exists mi. rewrite Esn2, Esn1, E, <- !app_assoc. do 2 f_equal. exact (split_stream cx server 0 datas j Lj). }
  assert (forall (P : list Z -> Prop) i, Forall P datas -> Forall P (skipn i datas)) as Sk by (intros P i F; rewrite <- (firstn_skipn i datas) in F; apply Forall_app in F; apply F).
  destruct (streamed cx dbg room c2 ch2 _ _ (readable (mt_tls c2)) server (Z.of_nat j) (skipn j datas) ms l3 c3 ch3 CX P3 Li ltac:(unfold zlen in *; rewrite Lsk; lia) (Sk _ _ Bd) (Sk _ _ Ld) ltac:(lia) V2 TB2 Hms Ems Rv3') as (Hk3 & F3 & (j3 & Lj3 & V3 & Li3 & E3) & _).
  split; [exact Hk3|]. split; [exact F3|]. exists (j + j3)%nat. rewrite Lsk in Lj3. split; [lia|]. rewrite Nat2Z.inj_add. split; [exact Li3|].
  assert (firstn (j + j3) datas = firstn j datas ++ firstn j3 (skipn j datas)) as Ef.
  { rewrite <- (firstn_skipn j datas) at 1. rewrite firstn_app, firstn_length, Nat.min_l, firstn_all2; [|rewrite firstn_length; lia|lia]. do 2 f_equal. lia. }
  rewrite Ef, concat_app, E3, app_assoc, Ej. split; [reflexivity|]. rewrite Esn2, Esn1 in V3. rewrite TlsStreamP.stream_app.
  replace (0 + zlen (firstn j datas)) with (Z.of_nat j) by (unfold zlen; rewrite firstn_length; lia). rewrite <- !app_assoc in V3. exact V3.
Qed.
