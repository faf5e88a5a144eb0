(** mDNS queries: C66. *)
From Verif Require Import Model.Prelude Model.Bus Model.Chip Model.Specifiers Model.LlAddr Model.Ll Model.HlIo Model.HlUdp Model.Stream Model.Dns
  Spec.Hostname Spec.Sock Spec.Calls Spec.Hoare Spec.Cursor Spec.UdpClient Spec.StreamRun Spec.DnsMsg
  Proof.Base Proof.SockP Proof.TcpP Proof.UdpP Proof.OpenP Proof.DgramP Proof.DnsQueryP Proof.QuietP.

Section Mdns.
Context (sn : Sn).
Let n := snz sn.

Definition put_dhar (r : Z -> Z) (m : list Z) : Z -> Z :=
  upd (upd (upd (upd (upd (upd r 0x06 (at_ m 0)) 0x07 (at_ m 1)) 0x08 (at_ m 2)) 0x09 (at_ m 3)) 0x0A (at_ m 4)) 0x0B (at_ m 5).
Lemma wps_set_dhar s D (Q : res err unit -> sock -> Prop) :
  (forall s1, env s s1 -> Q (Ok tt) (with_reg s1 (put_dhar (s_reg s1) MDNS_HARDWARE_DST))) ->
  wps (set_sn_dhar sn MDNS_HARDWARE_DST) n s D Q.
Proof.
  intros H. unfold set_sn_dhar. cbn [wps write]. exists 1. split; [lia|]. split; [apply sn_block_eq|]. exact H.
Qed.
Lemma wps_set_ttl v s D (Q : res err unit -> sock -> Prop) :
  (forall s1, env s s1 -> Q (Ok tt) (with_reg s1 (upd (s_reg s1) 0x16 v))) ->
  wps (set_sn_ttl sn v) n s D Q.
Proof.
  intros H. unfold set_sn_ttl. cbn [wps write]. exists 1. split; [lia|]. split; [apply sn_block_eq|]. exact H.
Qed.

(** The registers set up before the destination. *)
Definition mdns_reg (x : Z) : Prop := x = 0x00 \/ 0x04 <= x <= 0x0B \/ x = 0x16.
Lemma mdns_reg_settings x : mdns_reg x -> settings x.
Proof. unfold mdns_reg, settings. lia. Qed.
Lemma mdns_tail_quiet t h qy : quiet mdns_reg (q <- query_question qy t h ;; (query_send q ;;; ret tt)).
Proof.
  apply quiet_bindM.
  - unfold query_question. apply quiet_bind; [apply quiet_cursor|]. intros [[x|e] c]; exact I.
  - intros q. apply quiet_bindM; [|intros; exact I]. unfold query_send. destruct (_ =? 0); [exact I|].
    apply quiet_bind; [apply quiet_cursor|]. intros [[x|e] c]; [|exact I]. cbn [fst snd].
    apply quiet_bindM; [apply quiet_send, mdns_reg_settings|intros; exact I].
Qed.
Lemma mdns_open_quiet : quiet mdns_reg (set_sn_dest sn MDNS_SERVER ;;; (w <- tx_writer sn ;; query_at w 0)).
Proof.
  apply quiet_bindM; [|intros _; apply quiet_bindM].
  - unfold set_sn_dest. cbn [MDNS_SERVER]. apply quiet_write_reg; vm_compute SnReg_addr; [lia|vm_compute; discriminate|].
    change (zlen _) with 6. unfold mdns_reg. lia.
  - unfold tx_writer. apply quiet_bindM; [|intros; exact I]. unfold sn_tx_ptrs. apply quiet_bindM; [apply quiet_read|intros; exact I].
  - intros w. unfold query_at. apply quiet_bindM; intros; exact I.
Qed.

Definition mdns_of (port : Z) : MdnsClient := {| mc_sn := sn; mc_port := port; mc_server := MDNS_SERVER |}.
Lemma mdns_question_spec fuel port t h s : is_u16 port -> sizes_ok s -> 0 < tx_size s -> hostname_ok h ->
  wps (mdns_question fuel (mdns_of port) t h) n s True (fun r s' =>
    mdns_result s t h r s' /\ mdns_configured s' port).
Proof.
  intros Hp Hz H0 Hh. unfold mdns_question, mdns_query, mdns_of. cbn [mc_sn mc_port mc_server].
  apply wps_bindM. apply wps_bindM, wps_set_dhar. intros s1 E1. apply wps_bindM, wps_set_ttl. intros s2 E2.
  destruct (keeps_env _ _ E1) as [K1 _]. destruct (keeps_env _ _ E2) as [K2 _].
  destruct (wire_env _ _ E1) as (m1 & W1). destruct (wire_env _ _ E2) as (m2 & W2).
  cbn [with_reg s_reg s_wire] in K2, W2.
  set (s3 := with_reg s2 (upd (s_reg s2) 0x16 255)).
  assert (rx_size s3 = rx_size s /\ tx_size s3 = tx_size s) as [Z1 Z2].
  { unfold rx_size, tx_size, s3. cbn [with_reg s_reg]. rewrite !upd_other by lia. rewrite !K2 by lia. unfold put_dhar.
    rewrite !upd_other by lia. rewrite !K1 by lia. auto. }
  apply (open_udp sn MODE_MDNS fuel port s3 (fun _ => set_sn_dest sn MDNS_SERVER ;;; (w <- tx_writer sn ;; query_at w 0))).
  { reflexivity. } { exact Hp. } { destruct Hz. split; congruence. }
  intros s4 (_ & C4 & Sz4 & T4 & P4 & (new & more & V4) & K4).
  assert (addr_ok MDNS_SERVER) as Ha.
  { split; [reflexivity|]. split; [repeat constructor; cbv; intuition discriminate|cbv; intuition discriminate]. }
  pose proof (ask_open sn True 0 MDNS_SERVER s4 _ _ _ V4 Ha P4 (proj2 Sz4) ltac:(lia)) as W.
  apply (wps_quiet mdns_reg _ n True _ mdns_reg_settings mdns_open_quiet) in W.
  eapply wps_mono; [| |exact W]; [auto|]. intros r s5 ((new5 & qy & pre & -> & L12 & Q5) & R5). clear W.
  assert (Forall (fun q => hostname_ok (snd q)) [(t, h)]) as Hq by (constructor; [exact Hh|constructor]).
  pose proof (ask_tail sn True 0 [(t, h)] s5 qy pre _ _ _ _ ltac:(unfold is_u16; lia) Hq L12 Q5) as W.
  assert (wps (q <- query_question qy t h ;; (query_send q ;;; ret tt)) n s5 True (mdns_result s t h)) as W'.
  { unfold bindM in W at 1. apply wps_unbind in W. cbn [ask_all] in W. unfold bindM in W at 1. apply wps_unbind in W.
    apply wps_bindM. eapply wps_mono; [| |exact W]; [auto|].
    assert (forall r s', ask_post 0 [(t, h)] (tx_size s4) (new ++ new5) (s_wire s3 ++ more) MDNS_SERVER r s' ->
      mdns_result s t h (match r with Ok _ => Ok tt | Err e => Err e end) s') as AP.
    { intros r s' (n6 & H). exists ((new ++ new5) ++ n6), (m1 ++ m2 ++ more).
      assert (s_wire s3 = s_wire s ++ m1 ++ m2) as Ew by (unfold s3; cbn [with_reg s_wire]; rewrite W2, W1, app_assoc; reflexivity).
      rewrite Ew in H. cbn [qsize] in H. rewrite T4, Z2 in H.
      destruct H as [(_ & Hs & -> & data & V & Hm & Hall)|[(_ & Hs & -> & V)|(C & _)]]; [left|right|discriminate C].
      - split; [lia|]. split; [reflexivity|]. exists data, (asked (t, h)). rewrite <- !app_assoc in *. split; [exact V|].
        cbn [map] in *. split; [exact Hm|]. now inversion Hall.
      - split; [lia|]. split; [reflexivity|]. rewrite <- !app_assoc in *. exact V. }
    intros [q2|e] s6 W6; cbn [wps ret bindM bind] in W6.
    - apply wps_bindM. eapply wps_mono; [| |exact W6]; [auto|]. intros [v|e] s7 H7; apply AP in H7; [apply wps_ret|]; exact H7.
    - apply AP in W6. exact W6. }
  apply (wps_quiet mdns_reg _ n True _ mdns_reg_settings (mdns_tail_quiet t h qy)) in W'.
  eapply wps_mono; [| |exact W']; [auto|]. intros r s6 (Hr & R6). split; [exact Hr|].
  assert (forall x, mdns_reg x -> s_reg s6 x = (upd (upd (upd (upd (put_dhar (s_reg s) MDNS_HARDWARE_DST) 0x16 255) 0 MODE_MDNS) 4 (hi8 port)) 5 (lo8 port)) x) as RR.
  { intros x Hx. pose proof (mdns_reg_settings _ Hx) as (_ & X1 & X2 & X3 & X4). rewrite R6, R5, K4 by assumption. cbn [with_reg s_reg]. unfold s3. cbn [with_reg s_reg].
    unfold upd. destruct (x =? 5); [reflexivity|]. destruct (x =? 4); [reflexivity|]. destruct (x =? 0); [reflexivity|]. destruct (x =? 22); [reflexivity|].
    rewrite K2 by assumption. unfold put_dhar, upd. destruct (x =? 11); [reflexivity|]. destruct (x =? 10); [reflexivity|].
    destruct (x =? 9); [reflexivity|]. destruct (x =? 8); [reflexivity|]. destruct (x =? 7); [reflexivity|]. destruct (x =? 6); [reflexivity|]. now apply K1. }
  assert ((dest_ip s6, dest_port s6) = mdns_group) as Ed.
  { destruct Hr as (? & ? & [(_ & _ & ? & ? & (_ & _ & _ & _ & _ & E) & _)|(_ & _ & (_ & _ & _ & _ & _ & E))]); exact E. }
  unfold mdns_reg in RR. unfold mdns_configured. rewrite (f_equal fst Ed : dest_ip s6 = _), (f_equal snd Ed : dest_port s6 = _). unfold of_word. cbn [map].
  rewrite !RR by lia. cbn [upd put_dhar Z.eqb Pos.eqb at_ nth MDNS_HARDWARE_DST].
  split; [reflexivity|]. split; [now apply hi_lo|]. auto.
Qed.
End Mdns.

Lemma mdns_question_run fuel sn port t h c : let s := c_sock c (sn_raw sn) in
  match port with Some p => is_u16 p | None => True end -> sizes_ok s -> 0 < tx_size s -> hostname_ok h ->
  if_returns (mdns_question fuel (mdns_new sn port) t h) (sn_raw sn) c (fun r s' =>
    mdns_result s t h r s' /\ mdns_configured s' match port with Some p => p | None => 5353 end).
Proof.
  intros s Hp Hz H0 Hh. apply returns_wps. apply (mdns_question_spec sn fuel _ t h s); auto.
  destruct port; [exact Hp|unfold is_u16, MDNS_PORT; lia].
Qed.
