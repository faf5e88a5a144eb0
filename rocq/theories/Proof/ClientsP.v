(** The calls of the clients on any bus. *)
From Verif Require Import Model.Prelude Model.Bus Model.Chip Model.Specifiers Model.LlBits Model.Ll Model.HlIo Model.HlCommon Model.HlTcp Model.HlUdp Model.Stream Model.Dns Model.Sntp
  Model.Mqtt Spec.Hoare Spec.MqttMsg Spec.Clients.
From Verif Require Model.DhcpClient.
From Verif Require Import Proof.Base Proof.DnsNameP Proof.MqttVbiP Proof.TlsSafeP Proof.MqttTlsCrashP.

(** ** Streams with arbitrary data *)
Definition shape (o : cop) (r : cres) : Prop :=
  match o, r with
  | OSeek _, RUnit | ORewind, RUnit | OWriteAll _, RUnit | OWrite _, RCount _ => True
  | ORead n, Stream.RData l => bytes_ok l /\ zlen l <= Z.max 0 n
  | OReadExact _, Stream.RData l => bytes_ok l
  | OSeek _, RErr UnexpectedEof | OReadExact _, RErr UnexpectedEof => True
  | OWriteAll _, RErr OutOfMemory => True
  | OSeek _, RErr _ | ORewind, RErr _ => False
  | _, RErr Other => True
  | _, _ => False
  end.
Fixpoint sz (E D : Prop) {A} (p : sprog A) (P : A -> Prop) : Prop :=
  match p with
  | SRet a => P a
  | SCall o k => forall r, shape o r -> sz E D (k r) P
  | SAsk _ k => forall z, sz E D (k z) P
  | SPanic => E
  | SDiverge => D
  end.
Lemma sz_mono E D {A} (p : sprog A) (P P' : A -> Prop) : sz E D p P -> (forall a, P a -> P' a) -> sz E D p P'.
Proof. intros H HP. induction p; cbn [sz] in *; auto. Qed.
Lemma sz_then E D {A B} (p : sprog A) (f : A -> sprog B) P Q : sz E D p Q -> (forall a, Q a -> sz E D (f a) P) -> sz E D (sbind p f) P.
Proof. intros H HQ. induction p; cbn [sz sbind] in *; auto. Qed.
Definition sn_ (E D : Prop) {A} (p : sprog A) : Prop := sz E D p (fun _ => True).
Lemma sn_bind E D {A B} (p : SM A) (f : A -> SM B) : sn_ E D p -> (forall a, sn_ E D (f a)) -> sn_ E D (sbindM p f).
Proof. intros H Hf. unfold sbindM. apply (sz_then E D _ _ _ _ H). intros [a|e] _; [apply Hf|exact I]. Qed.
Ltac leaf := let r := fresh in intros r; destruct r as [[]| |?|?]; cbn; tauto.
Lemma sn_seek E D p : sn_ E D (s_seek p). Proof. leaf. Qed.
Lemma sn_rewind E D : sn_ E D s_rewind. Proof. leaf. Qed.
Lemma sn_read E D n : sn_ E D (s_read n). Proof. leaf. Qed.
Lemma sn_exact E D n : sn_ E D (s_read_exact n). Proof. leaf. Qed.
Lemma sn_write E D n : sn_ E D (s_write_all n). Proof. leaf. Qed.
Ltac sn_go := repeat (cbv beta zeta; match goal with
  | |- forall _, _ => intros ?
  | |- sn_ _ _ (if ?b then _ else _) => destruct b
  | |- sn_ _ _ (sbindM _ _) => apply sn_bind
  | |- sn_ _ _ (s_seek _) => apply sn_seek
  | |- sn_ _ _ s_rewind => apply sn_rewind
  | |- sn_ _ _ (s_read _) => apply sn_read
  | |- sn_ _ _ (s_read_exact _) => apply sn_exact
  | |- sn_ _ _ (s_write_all _) => apply sn_write
  | |- sn_ _ _ s_position => exact (fun _ => I)
  | |- sn_ _ _ s_remain => exact (fun _ => I)
  | |- sn_ _ _ (sret _) => exact I
  | |- sn_ _ _ (sfail _) => exact I
  | |- sn_ _ _ (match ?x with _ => _ end) => destruct x
  end).
Lemma lz_cop E D c o : lz E D (cop_run c o) (fun x => shape o (fst x)).
Proof.
  destruct o as [p| |n|n|b|b]; cbn [cop_run].
  - cbn [lz]. unfold cur_seek, new_ptr. destruct p; match goal with |- context[if ?b then _ else _] => destruct b end; exact I.
  - exact I.
  - unfold cur_read, sn_rx_buf, read, ret. pose proof (Z.le_max_l 0 n). destruct (Z.eqb_spec (Z.min (cur_remain c) (len16 n)) 0) as [|Ne].
    + cbn. split; [constructor|]. unfold zlen. cbn. lia.
    + cbn [bind bindM lz]. intros [l|] Hl; [|exact I]. cbn. destruct Hl as (Hl & B). split; [exact B|]. revert Hl. unfold len16. destruct (n <=? 65535) eqn:En; [apply Z.leb_le in En|apply Z.leb_gt in En]; intros; lia.
  - unfold cur_read_exact, sn_rx_buf, read, ret. destruct (negb _); [exact I|]. cbn [bind bindM lz]. intros [l|] Hl; [|exact I]. exact (proj2 Hl).
  - unfold cur_write, set_sn_tx_buf, write, ret. destruct (_ =? 0); [exact I|]. cbn [bind bindM lz]. intros [|]; exact I.
  - unfold cur_write_all, set_sn_tx_buf, write, ret. destruct (negb _); [exact I|]. cbn [bind bindM lz]. intros [|]; exact I.
Qed.
Lemma lz_stream E D {A} (p : sprog A) P : sz E D p P -> forall c, lz E D (on_cursor c p) (fun x => P (fst x)).
Proof.
  induction p as [a|o k IH|q k IH| |]; cbn [sz on_cursor lz]; intros H c; auto.
  apply (lz_then E D _ _ _ _ (lz_cop E D c o)). intros x Hx. apply IH, H, Hx.
Qed.
Lemma np_stream E D {A B} (p : sprog A) c (f : A * cursor -> prog B) : sn_ E D p -> (forall x, np E D (f x)) -> np E D (bind (on_cursor c p) f).
Proof. intros H Hf. apply (lz_then E D _ _ _ _ (lz_stream E D p _ H c)). intros x _. apply Hf. Qed.

(** ** Driver calls *)
Ltac go := repeat (cbv beta zeta; first [progress np_go | match goal with |- np _ _ (match ?x with _ => _ end) => destruct x | |- forall _, _ => intros ? end]).
Lemma np_assert_if (E D : Prop) dbg c : (dbg = true -> E) -> np E D c -> np E D (debug_assert dbg c).
Proof. intros H Hc. unfold debug_assert. destruct dbg; [|exact I]. apply np_bindM; [exact Hc|]. intros [|]; [exact I|exact (H eq_refl)]. Qed.
Lemma np_unique E D l port : np E D (port_is_unique_loop l port).
Proof. induction l as [|s l IH]; cbn [port_is_unique_loop]; [exact I|]. unfold sn_port, sn_sr. np_go; exact IH. Qed.
Lemma np_close E D sn : np E D (close sn). Proof. unfold close, set_sn_cr. np_go. Qed.
Lemma np_udp_bind (E D : Prop) dbg fuel sn port : (dbg = true -> E) -> D -> np E D (udp_bind dbg fuel sn port).
Proof.
  intros H HD. unfold udp_bind. apply np_bindM; [apply np_assert_if; [exact H|apply np_unique]|]. intros _.
  unfold set_sn_cr, set_sn_port, set_sn_mr. np_go; try apply np_poll; auto.
Qed.
Lemma np_udp_reader (E D : Prop) dbg sn : (dbg = true -> E) -> np E D (udp_reader dbg sn).
Proof.
  intros H. unfold udp_reader. apply np_bindM; [apply np_assert_if; [exact H|unfold udp_state_ok, sn_sr; np_go]|]. intros _.
  unfold sn_rx_rsr, sn_rx_rd, sn_rx_buf. go.
Qed.
Lemma np_udp_done E D r : np E D (udp_reader_done r). Proof. unfold udp_reader_done, set_sn_rx_rd, set_sn_cr. np_go. Qed.

(** ** SNTP *)
Lemma np_sntp_setup (E D : Prop) dbg fuel c : (dbg = true -> E) -> D -> np E D (sntp_setup_socket dbg fuel c).
Proof.
  intros H HD. unfold sntp_setup_socket, simr, set_simr, set_sn_imr, set_sn_dest, close, set_sn_cr. np_go; apply np_udp_bind; auto.
Qed.
Lemma np_sntp_request E D c : np E D (sntp_request c).
Proof.
  unfold sntp_request. apply np_bindM; [apply np_tx_writer|]. intros w. apply np_stream; [apply sn_write|]. intros ([u|e] & w'); [apply np_send|exact I].
Qed.
Lemma leap_some b : is_u8 b -> leap_from_bits (Z.shiftr b 6) <> None.
Proof.
  intros Hb. assert (forallb (fun b => match leap_from_bits (Z.shiftr b 6) with None => false | _ => true end) (zseq 0 256) = true) as F by (vm_compute; reflexivity).
  pose proof (zseq_all _ 256 0 F b ltac:(unfold is_u8 in Hb; lia)) as X. cbv beta in X. destruct (leap_from_bits _); [discriminate|discriminate X].
Qed.
Lemma at_byte l i : bytes_ok l -> is_u8 (at_ l i).
Proof.
  intros B. unfold at_. destruct (nth_in_or_default i l 0) as [Hin|Hd]; [|rewrite Hd; unfold is_u8; lia].
  unfold bytes_ok in B. rewrite Forall_forall in B. exact (B _ Hin).
Qed.
Lemma np_decode E D b : bytes_ok b -> np E D (decode_reply b).
Proof.
  intros B. unfold decode_reply. destruct (mode_try_from _) as [[]|]; try exact I. cbv zeta. destruct (negb _); [exact I|].
  pose proof (leap_some (at_ b 0) (at_byte b 0 B)) as L. destruct (leap_from_bits _); [|congruence]. destruct (stratum_try_from _); [|exact I]. destruct (negb _); exact I.
Qed.
Lemma np_sntp_look (E D : Prop) dbg c : (dbg = true -> E) -> np E D (on_recv_interrupt dbg c).
Proof.
  intros H. unfold on_recv_interrupt. apply np_bindM; [apply np_ir|]. intros ir. apply np_bindM; [destruct (SocketInterrupt_any_raised ir); [apply np_set_ir|exact I]|]. intros _.
  apply np_bindM; [now apply np_udp_reader|]. intros r. destruct (negb _); [apply np_bindM; [apply np_udp_done|]; intros _; exact I|].
  assert (sz E D (s_read_exact 48) (fun r => match r with Ok b => bytes_ok b | Err _ => True end)) as S by leaf.
  apply (lz_then E D _ _ _ _ (lz_stream E D _ _ S (ur_inner r))). intros ([b|e] & w) Hb; cbn [fst snd] in *; [|exact I].
  apply np_bindM; [apply np_udp_done|]. intros _. now apply np_decode.
Qed.

(** ** DNS *)
Section Names.
Variables (E D : Prop).
Hypothesis HD : D.
Lemma labels_sn fuel : forall labels idx seek_to, sn_ E D (read_labels_loop fuel labels idx seek_to).
Proof using HD. induction fuel as [|fuel IH]; intros labels idx seek_to; cbn [read_labels_loop]; [exact HD|]. sn_go; apply IH. Qed.
Lemma name_sn fuel labels : sn_ E D (read_labels fuel labels).
Proof using HD. unfold read_labels. sn_go. apply labels_sn. Qed.
Lemma skip_sn fuel n : sn_ E D (skip_questions fuel n).
Proof using HD. induction n as [|n IH]; cbn [skip_questions]; sn_go; [apply name_sn|exact IH]. Qed.
Lemma body_sn fuel want : sn_ E D (response_body fuel want).
Proof using HD. unfold response_body. sn_go. apply skip_sn. Qed.
Lemma rr_sn fuel buf : sn_ E D (read_rr fuel buf).
Proof using HD. unfold read_rr, read_u16, read_u32. sn_go; try apply name_sn. Qed.
Lemma np_response dbg fuel sn want : (dbg = true -> E) -> np E D (recv_response dbg fuel sn want).
Proof using HD.
  intros H. unfold recv_response. apply np_bindM; [now apply np_udp_reader|]. intros r. apply np_stream; [apply body_sn|].
  intros ([[h|]|e] & w); cbn [fst]; try exact I. apply np_bindM; [apply np_udp_done|]. intros _. exact I.
Qed.
Lemma np_next fuel r buf : np E D (next_rr fuel r buf).
Proof using HD.
  unfold next_rr. apply np_stream; [|intros ((v & i) & c); exact I]. unfold next_rr_s. destruct (_ <=? _); [exact I|].
  apply (sz_then E D _ _ _ _ (rr_sn fuel buf)). intros a _. exact I.
Qed.
End Names.
Lemma write_labels_sn E D l : sn_ E D (write_labels l).
Proof. induction l as [|x l IH]; cbn [write_labels]; sn_go. exact IH. Qed.
Lemma np_question E D q t h : np E D (query_question q t h).
Proof.
  unfold query_question. apply np_stream; [|intros ([h'|e] & w); exact I]. unfold question. sn_go. apply write_labels_sn.
Qed.
Lemma np_query_send E D q : np E D (query_send q).
Proof.
  unfold query_send. destruct (_ =? 0); [exact I|]. apply np_stream; [unfold write_header; sn_go|]. intros ([u|e] & w); cbn [fst]; [|exact I].
  apply np_bindM; [apply np_send|]. intros _. exact I.
Qed.
Lemma np_query_at E D w id : np E D (query_at w id).
Proof. unfold query_at. apply np_bindM; [unfold cur_seekM; destruct (cur_seek _ _); exact I|]. intros w'. exact I. Qed.
Lemma np_dns_query (E D : Prop) dbg fuel c : (dbg = true -> E) -> D -> np E D (dns_query dbg fuel c).
Proof.
  intros H HD. unfold dns_query, set_sn_dest. np_go; try (apply np_udp_bind; auto); try apply np_tx_writer; try apply np_query_at.
Qed.
Lemma np_mdns_query E (D : Prop) fuel c : D -> np E D (mdns_query fuel c).
Proof.
  intros HD. unfold mdns_query, set_sn_dest, set_sn_cr, set_sn_port, set_sn_mr, set_sn_dhar, set_sn_ttl, close. np_go; try (apply np_poll; auto); try apply np_tx_writer; try apply np_query_at; unfold set_sn_cr; np_go.
Qed.

(** ** MQTT: streams with positions *)
Definition moves (L pos : Z) (o : cop) (r : cres) (pos' : Z) : Prop :=
  match o, r with
  | OSeek (SStart n), RUnit => pos' = n /\ n <= L
  | OSeek (SCurrent n), RUnit => pos' = pos + n /\ pos + n <= L
  | OSeek _, RErr UnexpectedEof => pos' = pos
  | ORead n, Stream.RData l => bytes_ok l /\ zlen l = Z.min (L - pos) n /\ pos' = pos + zlen l
  | OReadExact n, Stream.RData l => bytes_ok l /\ zlen l = n /\ pos' = pos + n /\ pos + n <= L
  | ORead _, RErr Other => pos' = pos
  | OReadExact _, RErr UnexpectedEof | OReadExact _, RErr Other => pos' = pos
  | _, _ => False
  end.
Definition ropk (o : cop) : Prop :=
  match o with OSeek (SStart n) | OSeek (SCurrent n) => 0 <= n | ORead n | OReadExact n => 0 <= n <= 65535 | _ => False end.
Fixpoint sp {A} (p : sprog A) (L pos : Z) (Q : A -> Z -> Prop) : Prop :=
  match p with
  | SRet a => Q a pos
  | SCall o k => ropk o /\ forall r pos', moves L pos o r pos' -> sp (k r) L pos' Q
  | SAsk APos k => sp (k pos) L pos Q
  | SAsk ARemain k => sp (k (L - pos)) L pos Q
  | SAsk _ _ | SPanic | SDiverge => False
  end.
Definition window (c : cursor) : Prop := is_u16 (cu_head c) /\ is_u16 (cu_tail c) /\ is_u16 (cu_ptr c) /\ cur_pos c <= cur_len c.
Lemma window_at c p : window c -> is_u16 p -> wsub p (cu_head c) <= cur_len c -> window (cur_at c p) /\ cur_len (cur_at c p) = cur_len c /\ cur_pos (cur_at c p) = wsub p (cu_head c).
Proof. intros (H1 & H2 & H3 & H4) Hp Hl. unfold window, cur_at, cur_len, cur_pos in *. cbn. auto. Qed.
Lemma remain_is c : window c -> cur_remain c = cur_len c - cur_pos c /\ 0 <= cur_pos c /\ cur_len c <= 65535.
Proof.
  intros (H1 & H2 & H3 & H4). unfold cur_remain, cur_len, cur_pos, wsub, is_u16, u16 in *.
  pose proof (Z.mod_pos_bound (cu_tail c - cu_head c) 65536 ltac:(lia)). pose proof (Z.mod_pos_bound (cu_ptr c - cu_head c) 65536 ltac:(lia)).
  split; [|lia]. lia.
Qed.
Lemma advance c n : window c -> 0 <= n -> cur_pos c + n <= cur_len c ->
  window (cur_at c (wadd (cu_ptr c) n)) /\ cur_len (cur_at c (wadd (cu_ptr c) n)) = cur_len c /\ cur_pos (cur_at c (wadd (cu_ptr c) n)) = cur_pos c + n.
Proof.
  intros W Hn Hl. destruct (remain_is c W) as (R1 & R2 & R3). assert (wsub (wadd (cu_ptr c) n) (cu_head c) = cur_pos c + n) as E.
  { destruct W as (H1 & H2 & H3 & H4). unfold cur_len, cur_pos, wsub, wadd, u16, is_u16 in *. lia. }
  destruct (window_at c (wadd (cu_ptr c) n) W) as (X1 & X2 & X3); [unfold wadd, u16, is_u16; apply Z.mod_pos_bound; lia|lia|]. rewrite E in X3. auto.
Qed.
Lemma lz_move E D c o : window c -> ropk o -> lz E D (cop_run c o) (fun x => window (snd x) /\ cur_len (snd x) = cur_len c /\ moves (cur_len c) (cur_pos c) o (fst x) (cur_pos (snd x))).
Proof.
  intros W R. destruct (remain_is c W) as (R1 & R2 & R3). pose proof W as (W1 & W2 & W3 & W4). destruct o as [[n|n|n]| |n|n|b|b]; cbn [cop_run ropk] in *; try contradiction.
  - cbn [lz]. unfold cur_seek, new_ptr. change (wsub (cu_tail c) (cu_head c)) with (cur_len c). destruct (Z.ltb_spec (cur_len c) n) as [|Ge]; [cbn; auto|].
    assert (wsub (wadd (cu_head c) n) (cu_head c) = n) as En by (unfold wsub, wadd, u16, is_u16 in *; lia).
    destruct (window_at c (wadd (cu_head c) n) W) as (X1 & X2 & X3); [unfold wadd, u16, is_u16; apply Z.mod_pos_bound; lia|lia|]. cbn [fst snd moves]. rewrite En in X3. auto.
  - cbn [lz]. unfold cur_seek, new_ptr. cbv zeta. change (wsub (cu_tail c) (cu_ptr c)) with (cur_remain c).
    destruct (Z.ltb_spec n 0) as [|_]; [lia|]. rewrite (Z.abs_eq n) by lia. cbn [andb]. rewrite orb_false_r.
    destruct ((0 <? n) && (cur_remain c <? n)) eqn:Ec; [cbn; auto|].
    assert (cur_pos c + n <= cur_len c) as Hl by (destruct (Z.ltb_spec 0 n); destruct (Z.ltb_spec (cur_remain c) n); cbn in Ec; try discriminate; lia).
    destruct (advance c n W R Hl) as (X1 & X2 & X3). cbn [fst snd moves]. auto.
  - unfold cur_read, sn_rx_buf, read, ret. assert (len16 n = n) as -> by (unfold len16; destruct (Z.leb_spec n 65535); lia). rewrite R1.
    destruct (Z.eqb_spec (Z.min (cur_len c - cur_pos c) n) 0) as [E0|Ne].
    + cbn. split; [exact W|]. split; [reflexivity|]. split; [constructor|]. unfold zlen. cbn. split; lia.
    + cbn [bind bindM lz]. intros [l|] Hl; [|cbn; auto]. destruct Hl as (Hl & B). cbn.
      destruct (advance c (Z.min (cur_len c - cur_pos c) n) W ltac:(lia) ltac:(lia)) as (X1 & X2 & X3).
      split; [exact X1|]. split; [exact X2|]. split; [exact B|]. rewrite X3. split; lia.
  - unfold cur_read_exact, sn_rx_buf, read, ret. assert (len16 n = n) as -> by (unfold len16; destruct (Z.leb_spec n 65535); lia). rewrite R1.
    destruct (Z.eqb_spec (Z.min (cur_len c - cur_pos c) n) n) as [E0|Ne]; cbn [negb]; [|cbn; auto].
    cbn [bind bindM lz]. rewrite E0. intros [l|] Hl; [|cbn; auto]. destruct Hl as (Hl & B). cbn.
    destruct (advance c n W ltac:(lia) ltac:(lia)) as (X1 & X2 & X3). split; [exact X1|]. split; [exact X2|]. split; [exact B|]. rewrite X3. split; lia.
Qed.
Lemma lz_sp E D {A} (p : sprog A) Q : forall c, window c -> sp p (cur_len c) (cur_pos c) Q -> lz E D (on_cursor c p) (fun x => Q (fst x) (cur_pos (snd x)) /\ window (snd x) /\ cur_len (snd x) = cur_len c).
Proof.
  induction p as [a|o k IH|q k IH| |]; cbn [sp on_cursor lz]; intros c W H; try contradiction; [now auto| |].
  - destruct H as (H1 & H2). apply (lz_then E D _ _ _ _ (lz_move E D c o W H1)). intros (r & c') (X1 & X2 & X3). cbn [fst snd] in *.
    apply (lz_mono _ _ _ _ _ (IH r c' X1 ltac:(rewrite X2; exact (H2 _ _ X3)))). intros x (Y1 & Y2 & Y3). rewrite <- X2. auto.
  - destruct q; cbn [ask_run] in *; try contradiction; [exact (IH _ c W H)|]. apply (IH _ c W). rewrite (proj1 (remain_is c W)). exact H.
Qed.
Lemma sp_mono {A} (p : sprog A) L (Q Q' : A -> Z -> Prop) : forall pos, sp p L pos Q -> (forall a z, Q a z -> Q' a z) -> sp p L pos Q'.
Proof.
  induction p as [a|o k IH|q k IH| |]; cbn [sp]; intros pos H HQ; auto.
  - destruct H as (H1 & H2). split; [exact H1|]. intros r pos' Hm. apply IH; auto.
  - destruct q; auto.
Qed.
Lemma sp_then {A B} (p : sprog A) (f : A -> sprog B) L Q P : forall pos, sp p L pos Q -> (forall a z, Q a z -> sp (f a) L z P) -> sp (sbind p f) L pos P.
Proof.
  induction p as [a|o k IH|q k IH| |]; cbn [sp sbind]; intros pos H HQ; auto.
  - destruct H as (H1 & H2). split; [exact H1|]. intros r pos' Hm. apply IH; auto.
  - destruct q; auto.
Qed.

(** What a message in the receive buffer leads to. *)
Definition pub_fits (L : Z) (x : rx_end) (_ : Z) : Prop :=
  match x with RxPublish tl ti pl pi => 0 <= pl /\ 0 <= pi /\ pi + pl <= L /\ 0 <= ti /\ 0 <= tl < 65536 | _ => True end.
Lemma try_sp {A} (p : SM A) k L pos Q : sp p L pos Q -> (forall e z, Q (Err e) z -> e <> WouldBlock) ->
  (forall a z, Q (Ok a) z -> sp (k a) L z (pub_fits L)) -> sp (rx_try p k) L pos (pub_fits L).
Proof.
  intros H He Hk. unfold rx_try. apply (sp_then _ _ _ _ _ _ H). intros [a|e] z Hz; [exact (Hk a z Hz)|].
  pose proof (He e z Hz). destruct e; cbn; auto; congruence.
Qed.
Lemma io_sp {A} (p : SM A) k L pos Q : sp p L pos Q -> (forall a z, Q (Ok a) z -> sp (k a) L z (pub_fits L)) -> sp (rx_io p k) L pos (pub_fits L).
Proof. intros H Hk. unfold rx_io. apply (sp_then _ _ _ _ _ _ H). intros [a|e] z Hz; [exact (Hk a z Hz)|exact I]. Qed.
Definition at_pos {A} (P : A -> Z -> Prop) (r : res err A) (z : Z) : Prop := match r with Ok a => P a z | Err e => e <> WouldBlock end.
Lemma seek_start L pos n : 0 <= n -> sp (s_seek (SStart n)) L pos (at_pos (fun _ z => z = n /\ n <= L)).
Proof. intros Hn. split; [exact Hn|]. intros [[]| |l|k] z Hm; cbn in *; try contradiction; auto; discriminate. Qed.
Lemma seek_on L pos n : 0 <= n -> sp (s_seek (SCurrent n)) L pos (at_pos (fun _ z => z = pos + n /\ pos + n <= L)).
Proof. intros Hn. split; [exact Hn|]. intros [[]| |l|k] z Hm; cbn in *; try contradiction; auto; discriminate. Qed.
Lemma read_some L pos n : 0 <= n <= 65535 -> sp (s_read n) L pos (at_pos (fun l z => bytes_ok l /\ zlen l = Z.min (L - pos) n /\ z = pos + zlen l)).
Proof. intros Hn. split; [exact Hn|]. intros [[]| |l|k] z Hm; cbn in *; try contradiction; auto; discriminate. Qed.
Lemma read_all L pos n : 0 <= n <= 65535 -> sp (s_read_exact n) L pos (at_pos (fun l z => bytes_ok l /\ zlen l = n /\ z = pos + n /\ pos + n <= L)).
Proof. intros Hn. split; [exact Hn|]. intros [[]| |l|k] z Hm; cbn in *; try contradiction; auto; discriminate. Qed.
Ltac easy_err := let H := fresh in intros ? ? H; exact H.
Lemma opt_seek L pos n : 0 <= n -> sp (if negb (n =? 0) then s_seek (SCurrent n) else sret tt) L pos (at_pos (fun _ z => z = pos + n /\ (pos <= L -> pos + n <= L))).
Proof.
  intros Hn. destruct (Z.eqb_spec n 0) as [->|]; cbn [negb].
  - cbn. split; lia.
  - apply (sp_mono _ _ _ _ _ (seek_on L pos n Hn)). intros [u|e] z Hz; cbn in *; [split; lia|exact Hz].
Qed.
Lemma sub_sp {A} (t : Z -> res Z A) ev L pos : sp (recv_sub t ev) L pos (pub_fits L).
Proof.
  unfold recv_sub. apply (io_sp _ _ _ _ _ (read_some L pos 3 ltac:(lia))). intros b z (B & _). destruct (negb _); [exact I|]. cbv zeta.
  pose proof (at_byte b 2 B) as U. unfold is_u8 in U. apply (try_sp _ _ _ _ _ (opt_seek L z (at_ b 2) ltac:(lia))); [easy_err|]. intros _ z1 _.
  apply (try_sp _ _ _ _ _ (read_all L z1 1 ltac:(lia))); [easy_err|]. intros q z2 _. destruct (t _); exact I.
Qed.
Lemma be16_range b : bytes_ok b -> 0 <= of_be16 (at_ b 0) (at_ b 1) < 65536.
Proof. intros B. pose proof (at_byte b 0 B). pose proof (at_byte b 1 B). unfold of_be16, is_u8 in *. lia. Qed.
Lemma publish_sp h L pos : 0 <= pos -> pos + fh_remaining h <= L -> L <= 65535 -> sp (recv_publish h) L pos (pub_fits L).
Proof.
  intros Hp Hr HL. unfold recv_publish. apply (try_sp _ _ _ _ _ (read_all L pos 2 ltac:(lia))); [easy_err|]. intros b z (B & _ & -> & Z1). cbv zeta.
  pose proof (be16_range b B) as T. set (tl := of_be16 (at_ b 0) (at_ b 1)) in *. cbn [s_position sbind sp sret].
  apply (try_sp _ _ _ _ _ (seek_on L (pos + 2) (clamp_i16 tl) ltac:(unfold clamp_i16; lia))); [easy_err|]. intros _ z (-> & Z2).
  apply (try_sp _ _ _ _ _ (read_all L _ 1 ltac:(lia))); [easy_err|]. intros q z (Bq & _ & -> & Z3).
  pose proof (at_byte q 0 Bq) as U. unfold is_u8 in U. set (pr := at_ q 0) in *.
  apply (try_sp _ _ _ _ _ (opt_seek L _ pr ltac:(lia))); [easy_err|]. intros _ z (-> & Z4). specialize (Z4 Z3). cbn [s_position sbind sp sret pub_fits].
  unfold sat_sub16, clamp_i16, PROPERTY_LEN_LEN in *. repeat split; lia.
Qed.
Lemma connack_sp h s L pos : 0 <= fh_remaining h -> sp (recv_connack h s) L pos (pub_fits L).
Proof.
  intros Hh. unfold recv_connack. destruct (negb _); [exact I|]. apply (try_sp _ _ _ _ _ (read_all L pos 2 ltac:(lia))); [easy_err|]. intros b z _.
  apply (try_sp _ _ _ _ _ (seek_start L z (Z.min 65535 (fh_remaining h + 2)) ltac:(lia))); [easy_err|]. intros _ z' _. destruct (connect_try_from _) as [c|[| |]]; exact I.
Qed.
Lemma vbi_pos n l : vbi n l -> 0 <= n.
Proof. induction 1; lia. Qed.
Lemma header_cases b : bytes_ok b -> zlen b <= 5 ->
  match header_deser b with None => False | Some (Ok h) => 0 <= fh_remaining h /\ 0 <= fh_len h | Some (Err _) => True end.
Proof.
  intros B Hl. destruct b as [|b0 r]; cbn [header_deser]; [exact I|]. inversion B as [|? ? B0 Br]; subst. rewrite zlen_cons in Hl.
  assert (forallb (fun b => match find (fun c => Z.shiftr b 4 =? ctrl_u8 c) ctrl_all with None => false | _ => true end) (zseq 0 256) = true) as F by (vm_compute; reflexivity).
  pose proof (zseq_all _ 256 0 F b0 ltac:(unfold is_u8 in B0; lia)) as X. cbv beta in X. destruct (find _ ctrl_all) as [ct|]; [|discriminate X].
  destruct (decode_short r Br ltac:(lia)) as [(_ & ->)|(n & l & rest & -> & V & ->)]; [exact I|]. destruct (65536 <=? n); [exact I|]. cbn. pose proof (vbi_pos n l V). pose proof (zlen_nonneg l). lia.
Qed.
Lemma recv_sp s L : L <= 65535 -> sp (recv_pkt s) L 0 (pub_fits L).
Proof.
  intros HL. unfold recv_pkt. apply (io_sp _ _ _ _ _ (read_some L 0 5 ltac:(lia))). intros b z (B & Lb & ->).
  pose proof (header_cases b B ltac:(lia)) as Hc. destruct (header_deser b) as [[h|[]]|]; [|exact I|exact I|contradiction]. destruct Hc as (H1 & H2).
  apply (try_sp _ _ _ _ _ (seek_start L _ (fh_len h) H2)); [easy_err|]. intros _ z (-> & Z1). cbn [s_remain sbind sp sret].
  destruct (Z.ltb_spec (L - fh_len h) (fh_remaining h)) as [|Ge]; [exact I|].
  destruct (fh_ctrl h); try (apply (try_sp _ _ _ _ _ (seek_on L _ (clamp_i16 (fh_remaining h)) ltac:(unfold clamp_i16; lia))); [easy_err|]; intros _ z _; exact I);
    try apply sub_sp; [exact I|now apply connack_sp|apply publish_sp; lia].
Qed.

(** ** MQTT: calls *)
Definition good_reader (p : PublishReader) : Prop := pr_payload_idx p + pr_payload_len p < 65536.
Definition good_event (x : res merr mevent) : Prop := match x with Ok (MEPublish p) => good_reader p | _ => True end.
Lemma lz_tcp_reader (E D : Prop) dbg sn : (dbg = true -> E) -> lz E D (tcp_reader dbg sn) (fun r => match r with Ok c => window c /\ cur_pos c = 0 /\ cur_len c <= 65535 | Err e => e = WouldBlock \/ e = Other end).
Proof.
  intros H. unfold tcp_reader. apply (lz_then E D _ _ _ (fun r => match r with Ok _ => True | Err e => e = Other end)).
  { unfold debug_assert. destruct dbg; [|exact I]. unfold tcp_state_ok, sn_sr, bindM, read, ret. cbn [bind lz]. intros [l|] _; cbn [bind lz]; [|reflexivity].
    destruct (status_try_from (byte0 l)) as [[]|]; cbn [lz bind]; first [exact I|exact (H eq_refl)]. }
  intros [u|e] He; cbn [lz]; [|right; exact He]. unfold sn_rx_rsr, sn_rx_rd, bindM, read, ret, fail. cbn [bind lz]. intros [l|] Hl; cbn [bind lz]; [|right; reflexivity].
  destruct (word0 l =? 0); cbn [lz]; [left; reflexivity|]. intros [l2|] Hl2; cbn [bind lz]; [|right; reflexivity].
  assert (forall l, zlen l = Z.max 0 2 /\ bytes_ok l -> is_u16 (word0 l)) as W0.
  { intros m (_ & B). pose proof (be16_range m B) as R. exact R. }
  pose proof (W0 l2 Hl2) as W. pose proof (W0 l Hl) as W'. assert (cur_pos (mkCur sn (word0 l2) (wadd (word0 l2) (word0 l)) (word0 l2)) = 0) as E0.
  { unfold cur_pos. cbn. unfold wsub, u16. rewrite Z.sub_diag. reflexivity. }
  split; [|split; [exact E0|unfold cur_len; cbn; unfold wsub, u16; lia]].
  unfold window. cbn [cu_head cu_tail cu_ptr]. split; [exact W|]. split; [unfold wadd, u16, is_u16; apply Z.mod_pos_bound; lia|]. split; [exact W|]. rewrite E0. unfold cur_len. cbn. unfold wsub, u16. apply Z.mod_pos_bound. lia.
Qed.
Lemma lz_timeout E D c now : clock_ok c now -> lz E D (mqtt_timeout c now) (fun x => good_event (fst x)).
Proof.
  unfold clock_ok, mqtt_timeout, st_elapsed. destruct (st_timeout (mq_st c)) as [t|]; [|intros _; exact I]. intros Ht.
  destruct (Z.ltb_spec now t); [lia|]. destruct (_ <? _); exact I.
Qed.
Lemma lz_rx (E D : Prop) dbg c now : (dbg = true -> E) -> clock_ok c now -> lz E D (mqtt_rx dbg c now) (fun x => good_event (fst x)).
Proof.
  intros H Hc. unfold mqtt_rx. apply (lz_then E D _ _ _ _ (lz_tcp_reader E D dbg (mq_sn c) H)). intros [r|e] He.
  2: { destruct He as [->| ->]; [now apply lz_timeout|exact I]. }
  destruct He as (W & P0 & Lr). apply (lz_then E D _ _ _ (fun x => match fst x with inl r => good_event r | inr _ => clock_ok (snd x) now end)).
  - unfold mqtt_recv. assert (sp (recv_pkt (st_state (mq_st c))) (cur_len r) (cur_pos r) (pub_fits (cur_len r))) as S by (rewrite P0; now apply recv_sp).
    apply (lz_then E D _ _ _ _ (lz_sp E D _ _ r W S)). intros ([|e b|s q|a b d e] & w) (F & _ & _); cbn [fst snd] in *; try exact I; [exact Hc| |].
    + apply np_seq; [apply np_reader_done|]. intros [u|e]; [|exact I]. destruct q as [[m|]|e]; cbn; [|destruct s; exact I || exact Hc|exact I]. destruct m; exact I.
    + unfold pub_fits in F. unfold good_event, good_reader. cbn. lia.
  - intros ([q|u] & c') Hx; cbn [fst snd] in *; [exact Hx|now apply lz_timeout].
Qed.
Lemma lz_weaken E D {A} (p : prog A) (P : A -> Prop) : lz E D p P -> np E D p.
Proof. intros H. exact (lz_mono E D p _ _ H (fun _ _ => I)). Qed.
Lemma lz_io_q E D {A B} (p : M A) c (f : A -> QM B) (P : res merr B * MqttClient -> Prop) : np E D p -> P (Err MOther, c) -> (forall a, lz E D (f a) P) -> lz E D (q_io p c f) P.
Proof. intros H He Hf. unfold q_io. apply np_seq; [exact H|]. intros [a|e]; [apply Hf|exact He]. Qed.
Lemma np_mqtt_send E D {A} c c' p (a : A) d : wsafe p -> np E D (mqtt_send c c' p a d).
Proof.
  intros H. unfold np, mqtt_send. apply lz_io_q; [apply np_tx_writer|exact I|]. intros w. apply (lz_then E D _ _ _ _ (lz_cursor E D p H w)).
  intros (r & w') Hr; cbn [fst snd] in *. unfold mild in Hr. destruct (mq_err r) as [[u|e]|]; [|exact I|contradiction]. apply np_seq; [apply np_send|]. intros [|]; exact I.
Qed.
Lemma lz_after E D p : np E D p -> lz E D (mq_after p) (fun x => good_event (fst x)).
Proof. intros H. unfold mq_after. apply np_seq; [exact H|]. intros ([n|e] & c); exact I. Qed.
Lemma np_mqtt_connect (E D : Prop) dbg fuel c now : (dbg = true -> E) -> D -> np E D (mqtt_tcp_connect dbg fuel c now).
Proof.
  intros H HD. unfold np, mqtt_tcp_connect, simr, set_simr, set_sn_imr. apply lz_io_q; [np_go|exact I|]. intros s. apply lz_io_q; [np_go|exact I|]. intros _. apply lz_io_q; [np_go|exact I|]. intros _.
  apply lz_io_q; [now apply np_connect|exact I|]. intros _. exact I.
Qed.
Lemma lz_process (E D : Prop) dbg fuel c now : (dbg = true -> E) -> (st_state (mq_st c) = MInit -> D) -> mqtt_ok c now -> lz E D (mqtt_process dbg fuel c now) (fun x => good_event (fst x)).
Proof.
  intros H HD (Hc & Hid). unfold mqtt_process. destruct (mstate_eqb (st_state (mq_st c)) MInit) eqn:Es.
  { apply lz_after, np_mqtt_connect; [exact H|]. apply HD. destruct (st_state (mq_st c)); (reflexivity || discriminate Es). }
  apply lz_io_q; [apply np_ir|exact I|]. intros ir. destruct (SocketInterrupt_any_raised ir); [|now apply lz_rx].
  apply lz_io_q; [apply np_set_ir|exact I|]. intros _. destruct (SocketInterrupt_discon_raised ir); [exact I|].
  destruct (SocketInterrupt_con_raised ir); [|destruct (SocketInterrupt_timeout_raised ir); [exact I|now apply lz_rx]].
  apply lz_after. unfold np, mqtt_send_connect, sn_rxbuf_size. apply lz_io_q; [np_go|exact I|]. intros sz'. cbv zeta. apply np_mqtt_send, wsafe_connect, Hid.
Qed.
Lemma np_pr_read E D i l p n : np E D (pr_read i l p n).
Proof.
  unfold pr_read. assert (sz E D (read_part i l n) mild) as S.
  { unfold read_part, sbindM. apply (sz_then E D _ _ _ mild); [intros [[]| |?|?]; cbn; try tauto; discriminate|]. intros [u|e] Hu; [|exact (mild_err e Hu)]. intros [[]| |?|?]; cbn; try tauto; discriminate. }
  apply (lz_then E D _ _ _ _ (lz_stream E D _ _ S (pr_reader p))). intros (r & w) Hr. cbn [fst snd] in *. unfold mild in Hr. destruct (mq_err r); [exact I|contradiction].
Qed.
Lemma pr_read_same i l p n : forall E D, lz E D (pr_read i l p n) (fun x => good_reader p -> good_reader (snd x)).
Proof.
  intros E D. unfold pr_read. assert (sz E D (read_part i l n) mild) as S.
  { unfold read_part, sbindM. apply (sz_then E D _ _ _ mild); [intros [[]| |?|?]; cbn; try tauto; discriminate|]. intros [u|e] Hu; [|exact (mild_err e Hu)]. intros [[]| |?|?]; cbn; try tauto; discriminate. }
  apply (lz_then E D _ _ _ _ (lz_stream E D _ _ S (pr_reader p))). intros (r & w) Hr. cbn [fst snd] in *. unfold mild in Hr. destruct (mq_err r); [|contradiction]. cbn. auto.
Qed.
Lemma np_pr_done E D p : good_reader p -> np E D (pr_done p).
Proof.
  intros G. unfold good_reader in G. unfold pr_done. destruct (Z.leb_spec 65536 (pr_payload_idx p + pr_payload_len p)); [lia|].
  assert (sz E D (s_seek (SStart (pr_payload_idx p + pr_payload_len p))) mild) as S by (intros [[]| |?|?]; cbn; try tauto; discriminate).
  apply (lz_then E D _ _ _ _ (lz_stream E D _ _ S (pr_reader p))). intros (r & w) Hr. cbn [fst snd] in *. unfold mild in Hr. destruct (mq_err r) as [[u|e]|]; [|exact I|contradiction].
  apply np_seq; [apply np_reader_done|]. intros [|]; exact I.
Qed.
Lemma pub_run_good E D ops : forall p, good_reader p -> lz E D (pub_run p ops) (fun x => good_reader (snd x)).
Proof.
  induction ops as [|o r IH]; intros p G; cbn [pub_run]; [exact G|].
  apply (lz_then E D _ _ _ (fun x => good_reader (snd x))).
  { destruct o; (apply (lz_mono E D _ _ _ (pr_read_same _ _ p n E D)); auto). }
  intros x Gx. apply (lz_then E D _ _ _ _ (IH (snd x) Gx)). intros y Gy. exact Gy.
Qed.
Lemma np_session (E D : Prop) dbg fuel c now ops fin : (dbg = true -> E) -> (st_state (mq_st c) = MInit -> D) -> mqtt_ok c now -> np E D (pub_session dbg fuel c now ops fin).
Proof.
  intros H HD Hm. unfold pub_session. apply (lz_then E D _ _ _ _ (lz_process E D dbg fuel c now H HD Hm)). intros ([[]|e] & c') G; cbn [fst snd] in *; try exact I.
  apply (lz_then E D _ _ _ _ (pub_run_good E D ops p G)). intros y Gy. apply np_seq; [destruct fin; [now apply np_pr_done|exact I]|]. intros d. exact I.
Qed.
Lemma session_any dbg fuel c now ops fin o : mqtt_ok c now -> any_bus (pub_session dbg fuel c now ops fin) o ->
  (o = Panicked -> dbg = true) /\ (o = Diverged -> st_state (mq_st c) = MInit).
Proof.
  intros Hm B. pose proof (lz_any _ _ _ _ _ B (np_session (dbg = true) (st_state (mq_st c) = MInit) dbg fuel c now ops fin (fun e => e) (fun e => e) Hm)) as X.
  split; intros ->; exact X.
Qed.

(** ** All calls *)
Lemma np_end E D {A B} (p : prog A) (f : A -> B) : np E D p -> np E D (bind p (fun x => Ret (f x))).
Proof. intros H. apply np_seq; [exact H|]. intros a. exact I. Qed.
Lemma plain_np dbg fuel k : plain_call k -> np (dbg = true /\ asserts k = true) (opening k = true \/ follows_names k = true) (ccall_run dbg fuel k).
Proof.
  destruct k; cbn [plain_call ccall_run asserts opening follows_names]; intros H; try contradiction; apply np_end.
  - apply np_sntp_setup; auto.
  - apply np_sntp_request.
  - apply np_sntp_look; auto.
  - unfold dns_a_question. apply np_seq; [apply np_dns_query; auto|]. intros [(q & c')|e]; [|exact I]. apply np_end. apply np_bindM; [apply np_question|]. intros q'. apply np_query_send.
  - apply np_response; auto.
  - unfold mdns_question. apply np_bindM; [apply np_mdns_query; auto|]. intros q. apply np_bindM; [apply np_question|]. intros q'. apply np_bindM; [apply np_query_send|]. intros _. exact I.
  - apply np_response; auto.
  - apply np_next; auto.
  - apply np_udp_done.
  - unfold DhcpClient.setup_socket, simr, set_simr, set_sn_imr, set_sipr, close, set_sn_cr. np_go; apply np_udp_bind; auto.
  - apply (lz_weaken _ _ _ (fun x => good_event (fst x))). apply lz_process; [auto| |exact H]. intros Es. left. rewrite Es. reflexivity.
  - unfold mqtt_publish. destruct (negb _); [exact I|]. apply np_mqtt_send, wsafe_publish.
  - unfold mqtt_subscribe. destruct (negb _); [exact I|]. cbv zeta. destruct (_ =? 0); [|now apply np_mqtt_send, wsafe_subscribe]. unfold np. apply lz_io_q; [apply np_tx_writer|exact I|]. intros w. exact I.
  - unfold mqtt_unsubscribe. destruct (negb _); [exact I|]. cbv zeta. destruct (_ =? 0); [|now apply np_mqtt_send, wsafe_unsubscribe]. unfold np. apply lz_io_q; [apply np_tx_writer|exact I|]. intros w. exact I.
Qed.
Lemma plain_any dbg fuel k o : plain_call k -> any_bus (ccall_run dbg fuel k) o ->
  (o = Panicked -> dbg = true /\ asserts k = true) /\ (o = Diverged -> opening k = true \/ follows_names k = true).
Proof.
  intros Hk B. pose proof (lz_any _ _ _ _ _ B (plain_np dbg fuel k Hk)) as X. split; intros ->; exact X.
Qed.
