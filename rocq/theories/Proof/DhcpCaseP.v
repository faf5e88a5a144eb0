(** The concrete DHCP cases meet the hypotheses of the theorems. *)
From Verif Require Import Model.Prelude Model.Chip Spec.Sock Spec.UdpClient Spec.Cases Spec.DhcpMsg Spec.DhcpCases Spec.DhcpRfc.
From Verif Require Import Proof.DnsMainP Model.DhcpClient Spec.DhcpHist Spec.Hoare Model.Bus.

Lemma case_udp_view2 : udp_view (c_sock case_udp 3) [case_d1; case_d2] [frame_to ([10; 0; 0; 9], 0x1234) case_tcp_unsent] ([10; 0; 0; 9], 0x1234).
Proof. case_view. Qed.
Lemma case_reply_view : udp_view (c_sock (case_dns (case_reply 0x12345678 5)) 3) [case_dns_d (case_reply 0x12345678 5)]
  [frame_to ([10; 0; 0; 9], 0x1234) case_tcp_unsent] ([10; 0; 0; 9], 0x1234).
Proof. case_view. Qed.
Lemma case_items_ok t : 0 <= t < 256 -> Forall item_ok (case_items t).
Proof.
  intros H. repeat constructor; try (cbn; lia); try (unfold is_u8; lia).
Qed.
Lemma case_reply_bytes : bytes_ok (case_reply 0x12345678 5).
Proof. apply bytes_check. reflexivity. Qed.

Definition case_out : list frame := [frame_to ([10; 0; 0; 9], 0x1234) case_tcp_unsent].
Ltac case_socket := eexists; split; [case_view|]; split; [intros; reflexivity|vm_compute; discriminate].
Lemma case_socket_nil : socket_ok (client_new Specifiers.Sn3 7 case_mac case_host) (case_dhcp []) [] case_out.
Proof. case_socket. Qed.
Lemma case_socket_hour s t x : socket_ok (case_client s t x) (case_dhcp [case_hour]) [case_hour] case_out.
Proof. destruct x as [[[? ?] ?] ?]. case_socket. Qed.
Lemma case_socket_foreign s t x : socket_ok (case_client s t x) (case_dhcp [case_foreign; case_hour]) [case_foreign; case_hour] case_out.
Proof. destruct x as [[[? ?] ?] ?]. case_socket. Qed.
Lemma case_client_ok s t x : client_ok (case_client s t x).
Proof. destruct x as [[[? ?] ?] ?]. repeat split; try apply bytes_check; try reflexivity; try discriminate; unfold is_u16; cbn; lia. Qed.
Lemma case_new_ok : client_ok (client_new Specifiers.Sn3 7 case_mac case_host).
Proof. repeat split; try apply bytes_check; try reflexivity; try discriminate; unfold is_u16; cbn; lia. Qed.
Lemma case_hour_type : has_type (d_data case_hour) (Some DhcpPkt.Ack).
Proof.
  unfold has_type. assert (exists r, zdrop 240 (d_data case_hour) = 53 :: 1 :: 5 :: r) as (r & E) by (eexists; vm_compute; reflexivity).
  pose proof (AnsOption (d_data case_hour) GMsgType 53 (Present 1 (5 :: r)) eq_refl) as H.
  specialize (H ltac:(vm_compute; discriminate)). rewrite E in H. specialize (H (FHit 53 1 (5 :: r) ltac:(lia) ltac:(lia))).
  revert H. unfold read_found, exactly. change (1 =? 1) with true. cbv iota.
  replace (1 <=? zlen (5 :: r)) with true; [exact (fun H => H)|]. symmetry. apply Z.leb_le. unfold zlen. cbn [length]. lia.
Qed.

(** Running a program on a concrete chip, without writing down the resulting chip. *)
Lemma run_case {A} (p : prog A) sch c (P : A -> list tick -> chip -> Prop) :
  match run p sch c with (Done a, sch', c') => P a sch' c' | _ => False end ->
  exists a sch' c', run p sch c = (Done a, sch', c') /\ P a sch' c'.
Proof. destruct (run p sch c) as ((o & sch') & c'). destruct o; intros H; try contradiction. eauto. Qed.
Lemma calls_one dbg now now1 fuel cl c sch (P : Client -> Prop) : now <= now1 -> no_faults sch ->
  match run (process dbg fuel cl now1) sch c with (Done (_, cl'), _, _) => P cl' | _ => False end ->
  exists cl' c', calls dbg now cl c now1 cl' c' /\ P cl'.
Proof.
  intros Hn Hf H. destruct (run _ _ _) as ((o & sch') & c') eqn:E. destruct o as [(r & cl')| |]; try contradiction.
  exists cl', c'. split; [|exact H]. eapply CsCall; eauto. apply CsNil.
Qed.

Definition foreign_res := run (process true 400 case_asked 1002) [] (case_dhcp [case_foreign; case_hour]).
Lemma foreign_run : foreign_res = (Done (Ok 3, case_asked), snd (fst foreign_res), snd foreign_res).
Proof.
  assert (fst (fst foreign_res) = Done (Ok 3, case_asked)) as H by (vm_compute; reflexivity). revert H.
  destruct foreign_res as ((o & s) & c). cbn [fst snd]. congruence.
Qed.
