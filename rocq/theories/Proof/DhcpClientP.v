(** The DHCP client refines its state machine. *)
From Verif Require Export Proof.ChipIfP Proof.DhcpChipP Model.DhcpClient Spec.DhcpRfc.
From Verif Require Import Model.LlAddr Model.LlBits Model.Ll Model.HlCommon Model.HlTcp Proof.SprogP.

(** ** Rules for methods of the client *)
Lemma wpc_io {A B} P (p : M A) cl (f : A -> CM B) c Q :
  wpc P p c (fun r c' => match r with Ok a => wpc P (f a) c' Q | Err e => Q (Err e, cl) c' end) -> wpc P (c_io p cl f) c Q.
Proof. intros H. apply wpc_bind. eapply wpc_mono; [exact H|]. intros [a|e] c' H'; [exact H'|now apply wpc_ret]. Qed.
Lemma wpc_cbind {A B} P (p : CM A) (f : A -> Client -> CM B) c Q :
  wpc P p c (fun x c' => match fst x with Ok a => wpc P (f a (snd x)) c' Q | Err e => Q (Err e, snd x) c' end) -> wpc P (c_bind p f) c Q.
Proof. intros H. apply wpc_bind. eapply wpc_mono; [exact H|]. intros [[a|e] cl] c' H'; [exact H'|now apply wpc_ret]. Qed.

(** ** Physical state of the socket and the common registers *)
Definition phys (sn : Sn) (c : chip) (q : list dgram) (fs : list frame) (a : addr) (nt : net) : Prop :=
  udp_view (c_sock c (snz sn)) q fs a /\ 1024 <= tx_size (c_sock c (snz sn)) /\ net_of c = nt.
Definition holds (sn : Sn) (c : chip) (cur : cursor) (d : dgram) (q : list dgram) (fs : list frame) (a : addr) (nt : net) : Prop :=
  ureading sn (c_sock c (snz sn)) cur d q fs a /\ 1024 <= tx_size (c_sock c (snz sn)) /\ net_of c = nt.
Lemma net_frame n c c' : frame_ok n c c' -> net_of c' = net_of c.
Proof. intros (E & _). unfold net_of. now rewrite E. Qed.
Lemma holds_phys sn c cur d q fs a nt : holds sn c cur d q fs a nt -> phys sn c (d :: q) fs a nt.
Proof. intros (H1 & H2). split; [apply H1|exact H2]. Qed.

(** Writing an address register. *)
Lemma wpc_put4 P sn c q fs a nt reg v nt' : 0 <= reg <= 16 -> zlen v = 4 -> phys sn c q fs a nt ->
  (forall f, nt = mkNet (map f [1; 2; 3; 4]) (map f [5; 6; 7; 8]) (map f [15; 16; 17; 18]) ->
    let g := upd (upd (upd (upd f reg (at_ v 0)) (reg + 1) (at_ v 1)) (reg + 2) (at_ v 2)) (reg + 3) (at_ v 3) in
    nt' = mkNet (map g [1; 2; 3; 4]) (map g [5; 6; 7; 8]) (map g [15; 16; 17; 18])) ->
  wpc P (write reg 0 v) c (fun r c' => r = Ok tt /\ exists new, phys sn c' (q ++ new) fs a nt').
Proof.
  intros Hr Hv (V & Ht & <-) Hn. apply wpc_wpe, wpe_write. intros evs. cbv zeta. split; [reflexivity|].
  destruct v as [|b0 [|b1 [|b2 [|b3 [|b4 l]]]]]; try (exfalso; revert Hv; unfold zlen; cbn [length]; lia).
  rewrite chip_wrs_low4 by exact Hr. destruct (uview_env _ _ _ _ _ V (env_evs c evs (snz sn))) as (new & V'). exists new.
  split; [exact V'|]. split; [cbn [c_sock]; now rewrite (tx_size_env _ _ (env_evs c evs (snz sn)))|].
  rewrite (Hn (c_common c) eq_refl). unfold net_of. cbn [c_common]. rewrite common_evs. reflexivity.
Qed.
Ltac four v Hv := destruct v as [|? [|? [|? [|? [|? ?]]]]]; try (exfalso; revert Hv; unfold zlen; cbn [length]; lia).
Lemma wpc_set_sipr P sn c q fs a nt v : zlen v = 4 -> phys sn c q fs a nt ->
  wpc P (set_sipr v) c (fun r c' => r = Ok tt /\ exists new, phys sn c' (q ++ new) fs a (mkNet (n_gar nt) (n_subr nt) v)).
Proof. intros Hv H. apply (wpc_put4 P sn c q fs a nt 15 v); auto; [lia|]. intros f -> g. four v Hv. reflexivity. Qed.
Lemma wpc_set_gar P sn c q fs a nt v : zlen v = 4 -> phys sn c q fs a nt ->
  wpc P (set_gar v) c (fun r c' => r = Ok tt /\ exists new, phys sn c' (q ++ new) fs a (mkNet v (n_subr nt) (n_sipr nt))).
Proof. intros Hv H. apply (wpc_put4 P sn c q fs a nt 1 v); auto; [lia|]. intros f -> g. four v Hv. reflexivity. Qed.
Lemma wpc_set_subr P sn c q fs a nt v : zlen v = 4 -> phys sn c q fs a nt ->
  wpc P (set_subr v) c (fun r c' => r = Ok tt /\ exists new, phys sn c' (q ++ new) fs a (mkNet (n_gar nt) v (n_sipr nt))).
Proof. intros Hv H. apply (wpc_put4 P sn c q fs a nt 5 v); auto; [lia|]. intros f -> g. four v Hv. reflexivity. Qed.

(** ** Programs that leave the buffer size alone *)
Lemma quiet_reg16 sn a d : 0 <= a -> a + zlen d <= 0x1F \/ 0x20 <= a /\ a + zlen d <= 65536 -> quiet size_reg (write a (sn_block sn) d).
Proof.
  intros H1 H2. pose proof (zlen_nonneg d). apply quiet_write_reg; [exact H1|lia|]. intros x ->. lia.
Qed.
Ltac quiet_auto := repeat first
  [ apply quiet_bindM; [|intros ?] | apply quiet_read | exact I | apply quiet_cursor | apply (quiet_send size_reg _ size_reg_settings)
  | apply quiet_reg16; vm_compute SnReg_addr; change (zlen (be16 _)) with 2; change (zlen [_]) with 1; lia
  | apply quiet_bind; [|intros ?]
  | match goal with |- quiet _ (match ?x with _ => _ end) => destruct x end ].
Lemma quiet_reader dbg sn : quiet size_reg (udp_reader dbg sn).
Proof. unfold udp_reader, debug_assert. destruct dbg; quiet_auto. Qed.
Lemma quiet_done cur : quiet size_reg (udp_reader_done cur).
Proof. unfold udp_reader_done. quiet_auto. Qed.
Lemma quiet_dest sn addr : quiet size_reg (set_sn_dest sn addr).
Proof. destruct addr as [ip port]. unfold set_sn_dest. apply quiet_reg16; [vm_compute SnReg_addr; lia|]. left. vm_compute SnReg_addr. unfold zlen. cbn [length]. lia. Qed.
Lemma quiet_discover dbg sn mac hostname xid b : quiet size_reg (send_dhcp_discover dbg sn mac hostname xid b).
Proof.
  unfold send_dhcp_discover, tx_writer, udp_writer_send_to, debug_assert. destruct dbg; quiet_auto; apply quiet_dest.
Qed.
Lemma quiet_request sn mac ip hostname sid xid : quiet size_reg (send_dhcp_request sn mac ip hostname sid xid).
Proof. unfold send_dhcp_request, tx_writer. quiet_auto. Qed.

Lemma wpc_phys {A} P (p : prog A) sn c q fs a nt (Q : A -> sock -> Prop) : quiet size_reg p -> phys sn c q fs a nt ->
  wps p (snz sn) (c_sock c (snz sn)) True Q ->
  wpc P p c (fun r c' => Q r (c_sock c' (snz sn)) /\ 1024 <= tx_size (c_sock c' (snz sn)) /\ net_of c' = nt).
Proof.
  intros Hq (V & Ht & Hn) H. eapply wpc_mono; [exact (wpc_sock P p sn c Q Hq H)|]. intros r c' (H1 & H2 & H3).
  split; [exact H1|]. split; [lia|]. rewrite (net_frame _ _ _ H2). exact Hn.
Qed.

(** ** Reading a packet *)
Lemma wpa_bind_inv {A B} ok (p : sprog A) (f : A -> sprog B) : forall w pos D (Q : B -> list Z -> Z -> Prop),
  wpa ok (sbind p f) w pos D Q -> wpa ok p w pos D (fun a w' pos' => wpa ok (f a) w' pos' D Q).
Proof.
  induction p as [a|o k IH|q k IH| |]; cbn [wpa sbind]; intros w pos D Q; auto.
  intros [H1 H2]. split; [exact H1|]. destruct (astep w pos o) as [[x w'] pos']. auto.
Qed.
Lemma typed_answers {A} w D fuel g (inj : A -> answer) (p : PD A) k pos : get fuel g = pd_map inj p ->
  bytes_ok w -> zlen w <= 65280 -> cached w k -> 0 <= pos <= zlen w -> D \/ zlen w < Z.of_nat fuel ->
  wpp p k w pos D (fun r k' _ => cached w k' /\ answers w g (res_map inj r)).
Proof.
  intros E Hw Hz Hk Hp Hf. pose proof (get_answers w D fuel g k pos Hw Hz Hk Hp Hf) as H. rewrite E in H.
  unfold wpp, pd_map, pd_bind in H. apply wpa_bind_inv in H. eapply wpa_conseq; [exact H|].
  intros [[x|e] k'] w' pos' H'; cbn in H'; destruct H' as (-> & Hp' & Hc & An); cbn; auto.
Qed.
Lemma answers_err w g e : bytes_ok w -> zlen w <= 65280 -> answers w g (Err e) -> e = UnexpectedEof.
Proof.
  intros Hw Hz An. destruct (answers_shape w g Hw Hz) as (r & An' & [E|(v & E)]); pose proof (answers_fun _ _ _ _ An An'); congruence.
Qed.
Lemma wpc_get {A B} P fuel g (inj : A -> answer) (p : PD A) sn c cur k d q fs a nt cl (f : A -> pkt -> CM B) Q :
  get fuel g = pd_map inj p -> holds sn c cur d q fs a nt -> cached (d_data d) k ->
  (forall x cur' k' c' new, holds sn c' cur' d (q ++ new) fs a nt -> cached (d_data d) k' -> answers (d_data d) g (Ok (inj x)) ->
     wpc P (f x (cur', k')) c' Q) ->
  (forall cur' c' new, holds sn c' cur' d (q ++ new) fs a nt -> answers (d_data d) g (Err UnexpectedEof) -> Q (Err UnexpectedEof, cl) c') ->
  wpc P (c_pkt p (cur, k) cl f) c Q.
Proof.
  intros Eg Hh Hk H1 H2. pose proof (holds_phys _ _ _ _ _ _ _ _ Hh) as Hph. destruct Hh as (R & Ht & Hn).
  destruct (head_fits sn _ _ _ _ _ (ureading_view _ _ _ _ _ _ _ R)) as (Bd & Ld).
  assert (0 <= cur_pos cur <= zlen (d_data d)) as Hpos.
  { destruct R as (_ & _ & Hc & Hl & _). pose proof (cur_accounting cur Hc). lia. }
  unfold c_pkt. cbn [fst snd]. apply wpc_bind. eapply wpc_mono.
  - eapply (wpc_phys P _ sn c _ fs a nt _ (quiet_cursor _ _ _) Hph). eapply (ureading_run sn True _ cur d q fs a _ _ R).
    apply (typed_answers (d_data d) True fuel g inj p k (cur_pos cur) Eg); auto. lia.
  - intros [[[x|e] k'] cur'] c' ((new & R' & _ & _ & Hk' & An) & Ht' & Hn'); cbn [fst snd res_map] in *.
    + apply (H1 x cur' k' c' new); auto. split; auto.
    + pose proof (answers_err _ _ _ Bd ltac:(lia) An) as ->. apply wpc_ret. apply (H2 cur' c' new); auto. split; auto.
Qed.
Lemma wpc_done {B} P sn c cur d q fs a nt cl (f : unit -> CM B) Q : holds sn c cur d q fs a nt ->
  (forall c' new, phys sn c' (q ++ new) fs a nt -> wpc P (f tt) c' Q) -> wpc P (c_io (udp_reader_done cur) cl f) c Q.
Proof.
  intros Hh H. apply wpc_io. eapply wpc_mono; [apply (wpc_phys P _ sn c _ fs a nt _ (quiet_done _) (holds_phys _ _ _ _ _ _ _ _ Hh) (ureading_done sn True _ _ _ _ _ _ (proj1 Hh)))|].
  intros r c' ((-> & new & V) & Ht & Hn). apply (H c' new). split; auto.
Qed.

(** *** Shapes of the answers *)
Definition ip_ok (o : option (list Z)) : Prop := match o with Some x => zlen x = 4 /\ bytes_ok x | None => True end.
Lemma finds_bytes code l f : finds code l f -> bytes_ok l -> match f with Present len rest => bytes_ok rest | _ => True end.
Proof.
  induction 1; intros Hb; auto; unfold bytes_ok in *.
  - apply IHfinds. exact (Forall_inv_tail Hb).
  - exact (Forall_inv_tail (Forall_inv_tail Hb)).
  - apply IHfinds. apply Forall_inv_tail, Forall_inv_tail, Forall_app in Hb. apply Hb.
Qed.
Lemma ip_answer w g o : bytes_ok w -> answers w g (Ok (AIp o)) -> ip_ok o.
Proof.
  intros Hw An. inversion An as [E|E|E|g0 code Hg Hs E|g0 code f Hg Hl Hf E]; subst.
  - exfalso. destruct (bytes_at_ w 0 1); discriminate.
  - exfalso. destruct (bytes_at_ w 4 4); discriminate.
  - exfalso. destruct (bytes_at_ w 16 4); discriminate.
  - pose proof (finds_bytes _ _ _ Hf (bytes_ok_zdrop 240 w Hw)) as Hb.
    assert (forall rest, bytes_ok rest -> 4 <= zlen rest -> ip_ok (Some (ztake 4 rest))) as Hip
      by (intros; split; [rewrite zlen_ztake; lia|now apply bytes_ok_ztake]).
    assert (forall n, n = 4 -> forall r, exactly n f = Ok r -> ip_ok r) as H1.
    { intros n -> r. unfold exactly. destruct f as [| |len rest]; [intros [= <-]; exact I|discriminate|].
      destruct (negb _); [intros [= <-]; exact I|]. destruct (Z.leb_spec 4 (zlen rest)); [|discriminate]. intros E. injection E as <-. now apply Hip. }
    assert (forall r, first_addr f = Ok r -> ip_ok r) as H2.
    { intros r. unfold first_addr. destruct f as [| |len rest]; [intros [= <-]; exact I|discriminate|].
      destruct (_ && _); [|intros [= <-]; exact I]. destruct (Z.leb_spec 4 (zlen rest)); [|discriminate]. intros E. injection E as <-. now apply Hip. }
    destruct g; cbn [read_found] in H; try discriminate.
    + destruct (exactly 1 f); discriminate.
    + destruct (exactly 4 f) eqn:E; cbn [res_map] in H; [|discriminate]. injection H as <-. eapply H1; eauto.
    + destruct (first_addr f) eqn:E; cbn [res_map] in H; [|discriminate]. injection H as <-. eapply H2; eauto.
    + destruct (first_addr f) eqn:E; cbn [res_map] in H; [|discriminate]. injection H as <-. eapply H2; eauto.
    + destruct (first_addr f) eqn:E; cbn [res_map] in H; [|discriminate]. injection H as <-. eapply H2; eauto.
    + destruct (exactly 4 f); discriminate.
    + destruct (exactly 4 f); discriminate.
    + destruct (exactly 4 f); discriminate.
Qed.
Lemma addr_answer w x : bytes_ok w -> answers w GYiaddr (Ok (AAddr x)) -> zlen x = 4 /\ bytes_ok x.
Proof.
  intros Hw An. inversion An as [E|E|E|g0 code Hg Hs E|g0 code f Hg Hl Hf E]; subst; try discriminate.
  unfold bytes_at_ in H. destruct (Z.leb_spec (16 + 4) (zlen w)); [|discriminate]. cbn [res_map] in H. injection H as <-.
  split; [rewrite zlen_ztake, zlen_zdrop; lia|]. apply bytes_ok_ztake, bytes_ok_zdrop, Hw.
Qed.

(** ** The parts of the client that send *)
Definition put_xid (cl : Client) (x st : Z) : Client :=
  mkClient (cl_sn cl) (cl_state cl) (cl_state_timeout cl) (cl_timeout cl) (cl_t1 cl) (cl_t2 cl) (cl_lease cl) (cl_lease_secs cl) (cl_server cl)
    x st (cl_mac cl) (cl_ip cl) (cl_hostname cl) (cl_dns cl) (cl_ntp cl) (cl_broadcast cl) (cl_port cl).
Lemma next_xid_eq cl : exists x st, next_xid cl = put_xid cl x st.
Proof. unfold next_xid. destruct (DhcpPkt.rand_next_u32 (cl_rand cl)) as [st x]. now exists x, st. Qed.
Lemma client_msg_len xid mac opts : zlen mac = 6 -> zlen (client_msg xid mac opts) = 241 + zlen (area opts).
Proof.
  intros Hm. unfold client_msg. rewrite app_assoc. fold (client_head xid mac). rewrite !zlen_app, client_head_len by exact Hm.
  change (zlen [255]) with 1. lia.
Qed.
Lemma discover_len xid mac hostname : zlen mac = 6 -> zlen hostname <= 255 -> zlen (client_msg xid mac (discover_opts mac hostname)) <= 510.
Proof.
  intros Hm Hh. rewrite client_msg_len by exact Hm. unfold discover_opts, area. cbn [map concat item_bytes].
  rewrite !zlen_app, !zlen_cons, !zlen_nil, Hm. lia.
Qed.
Lemma discover_spec dbg fuel cl now c q fs a nt : phys (cl_sn cl) c q fs a nt -> client_ok cl ->
  wpc (dbg = true) (discover dbg fuel cl now) c (fun x c' => exists x' st q' sent,
    x = (Ok tt, put_state (put_xid (put_ip cl unspecified) x' st) Selecting (Some now)) /\
    phys (cl_sn cl) c' q' (sent ++ [discover_to (config_of cl) x']) (cl_broadcast cl) (mkNet (n_gar nt) (n_subr nt) unspecified)).
Proof.
  intros Hp (Hm & Bm & Hh & Bh & Hb & Hport & _). unfold discover. destruct (next_xid_eq (put_ip cl IP_UNSPECIFIED)) as (x' & st & ->).
  cbn [put_xid put_ip cl_ip cl_sn cl_port cl_mac cl_hostname cl_xid cl_broadcast]. apply wpc_io.
  eapply wpc_mono; [apply (wpc_set_sipr _ (cl_sn cl) c q fs a nt IP_UNSPECIFIED eq_refl Hp)|].
  intros r c1 (-> & n1 & V1 & T1 & N1). apply wpc_io.
  eapply wpc_mono; [apply (wpc_udp_bind dbg fuel (cl_sn cl) (cl_port cl) c1 Hport (sizes_of_view _ _ _ _ V1))|].
  intros r c2 (-> & T2 & P2 & (new & f & a2 & V2) & F2). apply wpc_io.
  assert (phys (cl_sn cl) c2 new f a2 (mkNet (n_gar nt) (n_subr nt) unspecified)) as Hp2.
  { split; [exact V2|]. split; [lia|]. rewrite (net_frame _ _ _ F2). exact N1. }
  eapply wpc_mono; [apply (wpc_phys _ _ (cl_sn cl) c2 new f a2 _ _ (quiet_discover _ _ _ _ _ _) Hp2 (send_discover_spec (cl_sn cl) True dbg _ new f a2 (cl_mac cl) (cl_hostname cl) x' (cl_broadcast cl) V2 Hb Hm Bm Hh Bh))|].
  intros r c3 ((n3 & [(-> & Hx & _)|(-> & V3)]) & T3 & N3).
  - exfalso. pose proof (discover_len x' (cl_mac cl) (cl_hostname cl) Hm Hh). lia.
  - apply wpc_ret. exists x', st, (new ++ n3), f. split; [reflexivity|]. split; [exact V3|]. auto.
Qed.
Lemma request_spec P cl c q fs nt : phys (cl_sn cl) c q fs (cl_broadcast cl) nt -> client_ok cl ->
  wpc P (request cl) c (fun x c' => exists x' st new, snd x = put_xid cl x' st /\
    (fst x = Err OutOfMemory /\ phys (cl_sn cl) c' (q ++ new) fs (cl_broadcast cl) nt \/
     fst x = Ok tt /\ phys (cl_sn cl) c' (q ++ new) (fs ++ [request_to (config_of cl) x' (cl_ip cl) (cl_server cl)]) (cl_broadcast cl) nt)).
Proof.
  intros Hp (Hm & Bm & Hh & Bh & Hb & Hport & Hi & Bi & Hs). unfold request. destruct (next_xid_eq cl) as (x' & st & ->).
  apply wpc_io. cbn [put_xid cl_ip cl_sn cl_mac cl_hostname cl_xid cl_server].
  eapply wpc_mono; [apply (wpc_phys _ _ (cl_sn cl) c q fs _ _ _ (quiet_request _ _ _ _ _ _) Hp (send_request_spec (cl_sn cl) True _ q fs _ (cl_mac cl) (cl_ip cl) (cl_hostname cl) (cl_server cl) x' (proj1 Hp) Hm Bm Hh Bh Hi Bi Hs))|].
  intros r c3 ((n3 & [(-> & Hx & V3)|(-> & V3)]) & T3 & N3).
  - exists x', st, n3. split; [reflexivity|]. left. split; [reflexivity|]. split; auto.
  - apply wpc_ret. exists x', st, n3. split; [reflexivity|]. right. split; [reflexivity|]. split; auto.
Qed.
Lemma recv_spec P dbg sn xid c q fs a nt : phys sn c q fs a nt ->
  wpc P (recv dbg sn xid) c (fun r c' => exists new,
    ((r = Err UnexpectedEof \/ r = Ok None) /\ phys sn c' (q ++ new) fs a nt) \/
    (exists cur k d q', r = Ok (Some (cur, k)) /\ q ++ new = d :: q' /\ holds sn c' cur d q' fs a nt /\ cached (d_data d) k /\
       for_us (d_data d) xid)).
Proof.
  intros Hp. unfold recv. apply wpc_bind.
  eapply wpc_mono; [apply (wpc_phys _ _ sn c q fs a nt _ (quiet_reader _ _) Hp (ureader_open sn True dbg _ _ _ _ (proj1 Hp)))|].
  intros r c1 ((n1 & [(-> & -> & V1)|(cur & d & q' & E & -> & R1 & Hpos)]) & T1 & N1).
  { apply wpc_ret. exists n1. left. split; [auto|]. split; auto. }
  assert (holds sn c1 cur d q' fs a nt) as Hh by (split; auto).
  destruct (head_fits sn _ _ _ _ _ (ureading_view _ _ _ _ _ _ _ R1)) as (Bd & Ld). pose proof (zlen_nonneg (d_data d)) as Zd.
  cbn [ur_inner ur_header]. destruct (_ <? _).
  { apply wpc_ret. exists n1. left. split; [auto|]. rewrite E. now apply holds_phys with (cur := cur). }
  apply wpc_bind. eapply wpc_mono.
  { eapply (wpc_phys P _ sn c1 _ fs a nt _ (quiet_cursor _ _ _) (holds_phys _ _ _ _ _ _ _ _ Hh)). eapply (ureading_run sn True _ cur d q' fs a _ _ R1).
    apply (typed_answers (d_data d) True O GOp AIsRequest is_bootreply cache_new (cur_pos cur) eq_refl); auto using cached_new; lia. }
  intros [[[x|e] k'] cur'] c2 ((n2 & R2 & _ & Hp2 & Hk2 & An) & T2 & N2); cbn [fst snd res_map] in *.
  2: { pose proof (answers_err _ _ _ Bd ltac:(lia) An) as ->. apply wpc_ret. exists (n1 ++ n2). left. split; [auto|].
       rewrite app_assoc, E. split; [exact (ureading_view _ _ _ _ _ _ _ R2)|auto]. }
  destruct x.
  { apply wpc_ret. exists (n1 ++ n2). left. split; [auto|]. rewrite app_assoc, E. split; [exact (ureading_view _ _ _ _ _ _ _ R2)|auto]. }
  apply wpc_bind. eapply wpc_mono.
  { assert (holds sn c2 cur' d (q' ++ n2) fs a nt) as Hh2 by (split; auto).
    eapply (wpc_phys P _ sn c2 _ fs a nt _ (quiet_cursor _ _ _) (holds_phys _ _ _ _ _ _ _ _ Hh2)). eapply (ureading_run sn True _ cur' d _ fs a _ _ R2).
    apply (typed_answers (d_data d) True O GXid AXid pkt_xid k' (cur_pos cur') eq_refl); auto; lia. }
  intros [[[y|e] k3] cur3] c3 ((n3 & R3 & _ & Hp3 & Hk3 & An3) & T3 & N3); cbn [fst snd res_map] in *.
  2: { pose proof (answers_err _ _ _ Bd ltac:(lia) An3) as ->. apply wpc_ret. exists (n1 ++ n2 ++ n3). left. split; [auto|].
       rewrite !app_assoc, E. split; [exact (ureading_view _ _ _ _ _ _ _ R3)|auto]. }
  destruct (Z.eqb_spec y xid) as [->|Hne]; cbn [negb]; apply wpc_ret; exists (n1 ++ n2 ++ n3).
  - right. exists cur3, k3, d, ((q' ++ n2) ++ n3). split; [reflexivity|]. split; [now rewrite !app_assoc, E|].
    split; [split; auto|]. split; [exact Hk3|]. split; assumption.
  - left. split; [auto|]. rewrite !app_assoc, E. split; [exact (ureading_view _ _ _ _ _ _ _ R3)|auto].
Qed.
