(** What the MQTT client makes of the bytes that the TLS client has decrypted. *)
From Verif Require Import Model.Prelude Model.Bus Model.Chip Model.Specifiers Model.HlIo Model.Stream Spec.Hoare Spec.Sock Spec.TcpClient Spec.Cursor Spec.TlsSecrets Spec.TlsProtect.
From Verif Require Import Model.Mqtt Spec.MqttMsg Proof.MqttVbiP Proof.MqttRecvP Proof.MqttProcP Proof.MqttPubP Proof.SprogP.
From Verif Require Import Proof.Base Proof.TlsBufP Proof.TlsRx3P.
From Verif Require Import Model.TlsTypes Model.TlsBuf Model.TlsKeys Model.TlsRecord Model.TlsClient Model.MqttTls Spec.TlsQueue Spec.TlsSession Spec.TlsWire Spec.TlsRx Spec.MqttTlsMsg.
From Verif Require Import Proof.SprogP.
Local Open Scope list_scope.

(** ** Generic code on a TLS reader *)
Lemma tr_ask_ok r w pos q : reads r w pos -> tr_ask r q = TOk (aask w pos q).
Proof.
  intros H. pose proof (reads_len r w pos H) as L. destruct H as (_ & Ep & Hp & _). destruct q; cbn [tr_ask aask]; rewrite ?L, ?Ep; auto.
  unfold usub. destruct (Z.ltb_spec (zlen w) pos); [lia|reflexivity].
Qed.
Lemma circle_run {A} (p : sprog A) : forall r w pos (Q : A -> list Z -> Z -> Prop), reads r w pos -> wpa rd_ok p w pos False Q ->
  exists a r' pos' ops xs, on_circle r p = TOk (a, r') /\ reads r' w pos' /\ Q a w pos' /\ tr_ops r ops = TOk (xs, r') /\ Forall cop_ok ops /\ forallb reader_op ops = true.
Proof.
  induction p as [a|o k IH|q k IH| |]; cbn [wpa on_circle]; intros r w pos Q H Hp; try contradiction.
  - exists a, r, pos, [], []. auto 8 using Forall_nil.
  - destruct Hp as ((Ho & Hr) & Hp). pose proof (tr_op_ok r w pos o H Ho Hr) as T. destruct (astep w pos o) as ((x, w'), pos'). destruct T as (-> & r1 & E1 & H1).
    destruct (IH x r1 w pos' Q H1 Hp) as (a & r2 & pos2 & ops & xs & E2 & H2 & Q2 & T2 & F2 & B2). exists a, r2, pos2, (o :: ops), (x :: xs). rewrite E1. cbn [tbind fst snd tr_ops forallb]. rewrite E1. cbn [tbind]. rewrite T2. cbn [tbind].
    rewrite Hr, B2. auto 8 using Forall_cons.
  - rewrite (tr_ask_ok r w pos q H). cbn [tbind]. exact (IH _ r w pos Q H Hp).
Qed.

(** ** Waiting *)
Definition fine_clock (st : StateTimeout) (now : Z) : Prop := match st_timeout st with Some since => since <= now | None => True end.
Definition seen_res (r : res mterr mtevent) : res mterr mtseen := match r with Ok e => Ok (seen e) | Err e => Err e end.
Lemma timeout_waits c now r st' : mt_waits (mt_st c) now r st' -> exists e, mt_timeout c now = Ret (e, mt_set_st c st') /\ seen_res e = r /\ forall p, e <> Ok (TEPublish p).
Proof.
  unfold mt_waits, mt_timeout, st_elapsed. destruct c as [tls id [s [t|]] pid]; cbn [mt_st st_timeout st_state].
  - intros (Ht & W). destruct (Z.ltb_spec now t); [lia|]. unfold TIMEOUT_SECS. destruct W as [(W & -> & ->)|(W & -> & ->)].
    + destruct (Z.ltb_spec 10 (now - t)); [lia|]. eexists. split; [reflexivity|]. split; [|discriminate]. replace (Z.max 0 (10 - (now - t))) with (10 - (now - t)) by lia. reflexivity.
    + destruct (Z.ltb_spec 10 (now - t)); [|lia]. eexists. split; [reflexivity|]. split; [reflexivity|discriminate].
  - intros (-> & ->). eexists. split; [reflexivity|]. split; [reflexivity|discriminate].
Qed.

(** ** A message *)
Section Message.
Variables (w topic payload : list Z) (ti pi : Z).
Hypotheses (Hw : zlen w < 16384) (Hti : 0 <= ti) (Et : ztake (zlen topic) (zdrop ti w) = topic) (Lt : ti + zlen topic <= zlen w)
  (Hpi : 0 <= pi) (Ep : ztake (zlen payload) (zdrop pi w) = payload) (Lp : pi + zlen payload <= zlen w).
Lemma tp_read_ok idx part p k pos : reads (tp_reader p) w pos -> 0 <= idx -> ztake (zlen part) (zdrop idx w) = part -> idx + zlen part <= zlen w -> 0 <= k ->
  exists r' pos', tp_read idx (zlen part) p k = TOk (Ok (ztake k part), mkTP r' (tp_topic_len p) (tp_topic_idx p) (tp_payload_len p) (tp_payload_idx p)) /\ reads r' w pos'.
Proof using Hw.
  intros H Hi E L Hk. pose proof (zlen_nonneg part).
  destruct (circle_run (read_part idx (zlen part) k) (tp_reader p) w pos (fun r _ _ => r = Ok (ztake k part)) H) as (a & r' & pos' & _ & _ & E1 & H1 & -> & _).
  - apply read_part_wpa; try lia. { unfold is_u16. lia. } apply (part_of Sn0); auto; lia.
  - unfold tp_read. rewrite E1. cbn [tbind fst snd mq_err]. eauto.
Qed.
Lemma tp_run_ok ops : Forall pub_op_ok ops -> forall r pos, reads r w pos ->
  exists r' pos', tp_run (mkTP r (zlen topic) ti (zlen payload) pi) ops = TOk (map (pub_answer topic payload) ops, mkTP r' (zlen topic) ti (zlen payload) pi) /\ reads r' w pos'.
Proof using Type*.
  induction 1 as [|o ops Ho Hops IH]; intros r pos H; cbn [tp_run map]; [eauto|].
  assert (exists r' pos', match o with PTopic n => tp_read_topic (mkTP r (zlen topic) ti (zlen payload) pi) n | PPayload n => tp_read_payload (mkTP r (zlen topic) ti (zlen payload) pi) n end =
    TOk (pub_answer topic payload o, mkTP r' (zlen topic) ti (zlen payload) pi) /\ reads r' w pos') as (r1 & pos1 & E1 & H1).
  { destruct o as [k|k]; cbn [pub_op_ok pub_answer] in *; [apply (tp_read_ok ti topic (mkTP r (zlen topic) ti (zlen payload) pi) k pos)|apply (tp_read_ok pi payload (mkTP r (zlen topic) ti (zlen payload) pi) k pos)]; auto. }
  rewrite E1. cbn [tbind fst snd]. destruct (IH r1 pos1 H1) as (r2 & pos2 & E2 & H2). rewrite E2. cbn [tbind fst snd]. eauto.
Qed.
Lemma tp_done_ok c r pos : reads r w pos -> exists r', tp_done c (mkTP r (zlen topic) ti (zlen payload) pi) = TOk (Ok tt, mt_reader_done c r') /\ reads r' w (pi + zlen payload).
Proof using Hw Hpi Lp.
  intros H. pose proof (zlen_nonneg payload). unfold tp_done. cbn [tp_payload_idx tp_payload_len tp_reader]. destruct (Z.leb_spec 65536 (pi + zlen payload)); [lia|].
  destruct (circle_run (s_seek (SStart (pi + zlen payload))) r w pos (fun a _ p => a = Ok tt /\ p = pi + zlen payload) H) as (a & r' & pos' & _ & _ & E & H' & (-> & ->) & _).
  - cbn [s_seek wpa astep target sret]. split; [split; [cbn; unfold is_u16; lia|reflexivity]|]. destruct (Z.leb_spec 0 (pi + zlen payload)); [|lia]. destruct (Z.leb_spec (pi + zlen payload) (zlen w)); [|lia]. cbn. auto.
  - rewrite E. cbn [tbind fst snd mq_err]. eauto.
Qed.
End Message.

(** ** One call *)
(** The part of a session behind [process]. *)
Definition after_process (ops : list pub_op) (fin : bool) (y : res mterr mtevent * MqttTls) : prog (mtans * MqttTls) :=
  let '(r, c) := y in
  match r with
  | Err e => Ret (WProcess (Err e) [] (Ok tt), c)
  | Ok (TEPublish p) =>
      lift (tp_run p ops) (fun z =>
      if fin then lift (tp_done c (snd z)) (fun d => Ret (WProcess (Ok (seen (TEPublish p))) (fst z) (fst d), snd d))
      else Ret (WProcess (Ok (seen (TEPublish p))) (fst z) (Ok tt), c))
  | Ok e => Ret (WProcess (Ok (seen e)) [] (Ok tt), c)
  end.
Lemma after_plain ops fin e c : (forall p, e <> Ok (TEPublish p)) -> after_process ops fin (e, c) = Ret (WProcess (seen_res e) [] (Ok tt), c).
Proof. intros H. destruct e as [[| | |]|]; try reflexivity. exfalso. now apply (H p). Qed.

Section React.
Variables (c : MqttTls) (now : Z) (ops : list pub_op) (fin : bool) (w rest : list Z).
Hypotheses (Hh : buffer_holds (tc_rx (mt_tls c)) w rest) (Ho : Forall pub_op_ok ops).
Definition left_at (w' : list Z) (st' : StateTimeout) (c' : MqttTls) : Prop :=
  exists rx, buffer_holds rx w' rest /\ c' = mkMT (tc_set_rx (mt_tls c) rx) (mt_client_id c) st' (mt_pkt_id c).
Lemma left_same : left_at w (mt_st c) c.
Proof using Hh. exists (tc_rx (mt_tls c)). split; [exact Hh|]. destruct c as [[] ? ? ?]. reflexivity. Qed.
Lemma left_state st' : left_at w st' (mt_set_st c st').
Proof using Hh. exists (tc_rx (mt_tls c)). split; [exact Hh|]. destruct c as [[] ? ? ?]. reflexivity. Qed.
Lemma w_small : zlen w < 16384.
Proof using Hh. destruct Hh as (N & _ & _ & L & _). pose proof (zlen_nonneg rest). lia. Qed.
Lemma the_reader : w <> [] -> exists r, tls_reader (mt_tls c) = Some r /\ reads r w 0.
Proof using Hh.
  intros Hw. pose proof (reader_ok _ _ _ (proj1 (buffer_eq _ _ _) Hh)) as R. unfold tls_reader. destruct (b_app_data_reader (tc_rx (mt_tls c))) as [r|]; [|contradiction]. exists r. now split.
Qed.
Lemma left_done r pos st' : reads r w pos -> left_at (zdrop pos w) st' (mt_set_st (mt_reader_done c r) st').
Proof using Hh.
  intros (_ & Ep & Hp & _). exists (b_reader_done (tc_rx (mt_tls c)) r). split; [|reflexivity]. apply buffer_eq. apply done_ok; [now apply buffer_eq|exact Ep|exact Hp].
Qed.
Lemma set_st_same (c1 : MqttTls) st : mt_st c1 = st -> mt_set_st c1 st = c1.
Proof. destruct c1. cbn. now intros <-. Qed.
(** A packet that is taken by [recv]. *)
Lemma rx_taken pkt more st r e st' : w = pkt ++ more -> pkt <> [] ->
  wpa rd_ok (recv_pkt (st_state (mt_st c))) w 0 False (fun x _ pos => x = RxDone st r /\ pos = zlen pkt) ->
  (match r with
   | Err m => e = Err (MTErr m) /\ st' = match st with Some s => mkST s None | None => mt_st c end
   | Ok (Some a) => e = Ok (SeenAck a) /\ st' = match st with Some s => mkST s None | None => mt_st c end
   | Ok None => st = None /\ mt_waits (mt_st c) now e st'
   end) ->
  exists c', bind (mt_rx c now) (after_process ops fin) = Ret (WProcess e [] (Ok tt), c') /\ left_at more st' c'.
Proof using Hh.
  intros Ew Np Hp Hr. destruct (the_reader ltac:(rewrite Ew; now destruct pkt)) as (rd & Er & Hrd).
  destruct (circle_run _ _ _ _ _ Hrd Hp) as (x & r' & pos' & _ & _ & Eo & Hr' & (-> & ->) & _).
  assert (zdrop (zlen pkt) w = more) as Em by (rewrite Ew; apply zdrop_exact).
  unfold mt_rx. rewrite Er, Eo. cbn [lift fst snd].
  assert (forall s, left_at more s (mt_set_st (mt_reader_done c r') s)) as L by (intros s; rewrite <- Em; now apply left_done).
  destruct r as [[a|]|m].
  - destruct Hr as (-> & ->). destruct st as [s|]; eexists; (split; [reflexivity|]); [apply L|].
    rewrite <- (set_st_same (mt_reader_done c r') (mt_st c) eq_refl). apply L.
  - destruct Hr as (-> & W). destruct (timeout_waits (mt_reader_done c r') now e st' W) as (e' & Et & <- & Hne). cbn iota. rewrite Et. cbn [bind]. rewrite after_plain by exact Hne.
    eexists. split; [reflexivity|]. apply L.
  - destruct Hr as (-> & ->). destruct st as [s|]; eexists; (split; [reflexivity|]); [apply L|].
    rewrite <- (set_st_same (mt_reader_done c r') (mt_st c) eq_refl). apply L.
Qed.
Theorem react a w' st' : reaction (mt_st c) now ops fin w a w' st' -> w <> [] ->
  exists c', bind (mt_rx c now) (after_process ops fin) = Ret (a, c') /\ left_at w' st' c'.
Proof using Hh Ho.
  intros R Nw. pose proof w_small as Hs. destruct R as [retain topic props payload more Ew Hp|flags code props more Ew Hp Hst|id props code more r Ew Hi Hp Hm|id props code more r Ew Hi Hp Hm|t f body more r st' Ew Ht Hf Hin Hw|t f body missing r st' Ew Hm Ht Hf Hl Hw].
  - pose proof (zlen_nonneg topic) as Ht. pose proof (zlen_nonneg payload) as Hpl. pose proof (zlen_nonneg props) as Hpr. pose proof (zlen_nonneg more) as Hmr.
    set (pkt := publish_packet retain topic props payload) in *. set (f := if retain then 1 else 0). assert (0 <= f < 16) as Hf by (unfold f; destruct retain; lia).
    set (body := mstr topic ++ mprops props ++ payload). set (h := zlen (varint (zlen body)) + 1).
    assert (pkt = mpacket 3 f body) as Epk by reflexivity.
    assert (mprops props = zlen props :: props) as Ep by (unfold mprops, varint; destruct (Z.ltb_spec (zlen props) 128); [reflexivity|lia]).
    assert (zlen body = 3 + zlen topic + zlen props + zlen payload) as Lb.
    { unfold body. rewrite Ep. unfold mstr. rewrite !zlen_app, zlen_cons. change (zlen (two (zlen topic))) with 2. lia. }
    assert (zlen pkt = h + zlen body) as Lp by (rewrite Epk, packet_len; unfold h; lia).
    assert (0 < h) as Hh0 by (unfold h; pose proof (varint_pos (zlen body)); lia).
    assert (zdrop h w = body ++ more) as Hd.
    { rewrite Ew, Epk. unfold mpacket. cbn [app]. rewrite <- app_assoc. change (?x :: ?l) with ([x] ++ l) at 1. rewrite app_assoc.
      replace h with (zlen ([16 * 3 + f] ++ varint (zlen body))) by (rewrite zlen_app; unfold h; change (zlen [16 * 3 + f]) with 1; lia).
      apply zdrop_exact. }
    assert (zlen w = h + zlen body + zlen more) as Lw by (rewrite Ew, zlen_app; lia).
    destruct (the_reader Nw) as (rd & Er & Hrd).
    destruct (circle_run (recv_pkt (st_state (mt_st c))) rd w 0 (fun e _ _ => e = RxPublish (zlen topic) (h + 2) (zlen payload) (h + 2 + zlen topic + 1 + zlen props)) Hrd) as (x & r' & pos' & _ & _ & Eo & Hr' & -> & _).
    { assert (zlen (mpacket 3 f body ++ more) <= 16384) as Lm by (rewrite <- Epk, <- Ew; lia). rewrite Ew, Epk. apply recv_publish_ok; auto. }
    assert (ztake (zlen topic) (zdrop (h + 2) w) = topic) as Et.
    { replace (h + 2) with (2 + h) by lia. rewrite <- zdrop_zdrop by lia. rewrite Hd. unfold body, mstr. rewrite <- !app_assoc.
      change (two (zlen topic) ++ topic ++ mprops props ++ payload ++ more) with ([zlen topic / 256; zlen topic mod 256] ++ topic ++ mprops props ++ payload ++ more).
      change 2 with (zlen [zlen topic / 256; zlen topic mod 256]). rewrite zdrop_exact. apply ztake_exact. }
    assert (ztake (zlen payload) (zdrop (h + 2 + zlen topic + 1 + zlen props) w) = payload) as Epl.
    { replace (h + 2 + zlen topic + 1 + zlen props) with (zlen (mstr topic ++ mprops props) + h).
      2:{ rewrite Ep. unfold mstr. rewrite !zlen_app, zlen_cons. change (zlen (two (zlen topic))) with 2. lia. }
      rewrite <- zdrop_zdrop by (try lia; apply zlen_nonneg). rewrite Hd. unfold body. rewrite app_assoc, <- app_assoc. rewrite zdrop_exact. apply ztake_exact. }
    destruct (tp_run_ok w topic payload (h + 2) (h + 2 + zlen topic + 1 + zlen props) Hs ltac:(lia) Et ltac:(lia) ltac:(lia) Epl ltac:(lia) ops Ho r' pos' Hr') as (r2 & pos2 & E2 & H2).
    unfold mt_rx. rewrite Er, Eo. cbn [lift fst snd bind after_process]. rewrite E2. cbn [lift fst snd seen tp_topic_len tp_payload_len]. destruct fin.
    + destruct (tp_done_ok w topic payload (h + 2) (h + 2 + zlen topic + 1 + zlen props) Hs ltac:(lia) ltac:(lia) c r2 pos2 H2) as (r3 & E3 & H3). rewrite E3. cbn [lift fst snd].
      eexists. split; [reflexivity|]. rewrite <- (set_st_same (mt_reader_done c r3) (mt_st c) eq_refl).
      assert (more = zdrop (h + 2 + zlen topic + 1 + zlen props + zlen payload) w) as ->.
      { rewrite Ew. replace (h + 2 + zlen topic + 1 + zlen props + zlen payload) with (zlen pkt) by lia. symmetry. apply zdrop_exact. }
      now apply left_done.
    + eexists. split; [reflexivity|]. apply left_same.
  - pose proof (zlen_nonneg props) as Hn. assert (zlen ([flags; code] ++ mprops props) < 128) as Hl.
    { unfold mprops. rewrite !zlen_app, varint_len by lia. change (zlen [flags; code]) with 2. destruct (Z.ltb_spec (zlen props) 128); lia. }
    assert (connack_end code = match meaning connack_codes code with
      | Some r => RxDone (Some MInit) (Err (MConnAck r))
      | None => if code =? 0 then RxDone (Some Ready) (Ok (Some AConnAck)) else RxDone (Some MInit) (Err MProtocol) end) as Ec.
    { unfold connack_end. rewrite connack_meaning. destruct (meaning connack_codes code); [reflexivity|].
      destruct (Z.eqb_spec code 0) as [->|H]; [reflexivity|]. now destruct code. }
    destruct (Z.eqb_spec code 0) as [->|Hz].
    + apply (rx_taken (connack_packet flags 0 props) more (Some Ready) (Ok (Some AConnAck))); auto; [apply packet_ne|].
      rewrite Hst, Ew. apply recv_connack_ok; [lia|exact Hl|]. rewrite Ec. split; reflexivity.
    + destruct (meaning connack_codes code) as [r|].
      * apply (rx_taken (connack_packet flags code props) more (Some MInit) (Err (MConnAck r))); auto; [apply packet_ne|].
        rewrite Hst, Ew. apply recv_connack_ok; [lia|exact Hl|]. rewrite Ec. split; reflexivity.
      * apply (rx_taken (connack_packet flags code props) more (Some MInit) (Err MProtocol)); auto; [apply packet_ne|].
        rewrite Hst, Ew. apply recv_connack_ok; [lia|exact Hl|]. rewrite Ec. split; reflexivity.
  - pose proof (zlen_nonneg props) as Hn. assert (suback_try_from code = Ok r) as Ht by now rewrite suback_meaning, Hm.
    apply (rx_taken (suback_packet id props [code]) more None (Ok (Some (ASubAck id r)))); auto; [apply packet_ne|].
    rewrite Ew. apply (recv_suback_ok suback_try_from ASubAck) with (codes := []); auto; [lia| |].
    + unfold mprops. rewrite !zlen_app, varint_len, zlen_cons by lia. change (zlen (two id)) with 2. change (zlen (@nil Z)) with 0. destruct (Z.ltb_spec (zlen props) 128); lia.
    + rewrite Ht. split; [reflexivity|]. change (zlen (@nil Z)) with 0. unfold suback_packet. lia.
  - pose proof (zlen_nonneg props) as Hn. assert (unsuback_try_from code = Ok r) as Ht by now rewrite unsuback_meaning, Hm.
    apply (rx_taken (unsuback_packet id props [code]) more None (Ok (Some (AUnSubAck id r)))); auto; [apply packet_ne|].
    rewrite Ew. apply (recv_suback_ok unsuback_try_from AUnSubAck) with (codes := []); auto; [lia| |].
    + unfold mprops. rewrite !zlen_app, varint_len, zlen_cons by lia. change (zlen (two id)) with 2. change (zlen (@nil Z)) with 0. destruct (Z.ltb_spec (zlen props) 128); lia.
    + rewrite Ht. split; [reflexivity|]. change (zlen (@nil Z)) with 0. unfold unsuback_packet. lia.
  - assert (zlen body <= 65535) as Hl.
    { rewrite Ew, zlen_app, packet_len in Hs. pose proof (zlen_nonneg more). pose proof (varint_pos (zlen body)). lia. }
    apply (rx_taken (mpacket t f body) more None (Ok None)); auto; [apply packet_ne|].
    rewrite Ew. apply recv_skip_ok; [repeat split; lia|exact Hin|rewrite <- Ew; lia|auto].
  - destruct (the_reader Nw) as (rd & Er & Hrd).
    destruct (circle_run (recv_pkt (st_state (mt_st c))) rd w 0 (fun e _ _ => e = RxNone) Hrd) as (x & r' & pos' & _ & _ & Eo & Hr' & -> & _).
    { eapply recv_incomplete; [split; [exact Ht|split; [exact Hf|exact Hl]]|exact Nw|exact Hm|exact Ew|reflexivity]. }
    unfold mt_rx. rewrite Er, Eo. cbn [lift fst snd]. destruct (timeout_waits c now r st' Hw) as (e & Et & <- & Hne). rewrite Et. cbn [bind]. rewrite after_plain by exact Hne.
    eexists. split; [reflexivity|]. apply left_state.
Qed.
(** Nothing to read. *)
Lemma react_nothing r st' : w = [] -> mt_waits (mt_st c) now r st' -> exists c', bind (mt_rx c now) (after_process ops fin) = Ret (WProcess r [] (Ok tt), c') /\ left_at w st' c'.
Proof using Hh.
  intros Ew W. pose proof (reader_ok _ _ _ (proj1 (buffer_eq _ _ _) Hh)) as R. unfold mt_rx, tls_reader. destruct (b_app_data_reader (tc_rx (mt_tls c))) as [x|]; [destruct R; contradiction|].
  destruct (timeout_waits c now r st' W) as (e & Et & <- & Hne). rewrite Et. cbn [bind]. rewrite after_plain by exact Hne. eexists. split; [reflexivity|]. apply left_state.
Qed.
End React.
