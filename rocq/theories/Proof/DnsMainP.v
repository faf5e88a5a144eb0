(** The DNS lemmas in the form of the property theorems. *)
From Verif Require Import Model.Prelude Model.Bus Model.Chip Model.Specifiers Model.HlIo Model.HlUdp Model.Stream Model.Dns Model.HlHostname
  Spec.Hostname Spec.Sock Spec.Hoare Spec.Cursor Spec.UdpClient Spec.StreamRun Spec.DnsMsg
  Proof.Base Proof.SockP Proof.TcpP Proof.UdpP Proof.OpenP Proof.DgramP Proof.DnsNameP Proof.DnsTermP Proof.DnsRespP Proof.DnsQueryP Proof.HostnameP Proof.SprogP Spec.Cases.

Lemma read_labels_arun m p ls e : bytes_ok m -> zlen m <= 65535 -> name_at m p ls e -> e < zlen m ->
  exists f0, forall fuel, (f0 <= fuel)%nat -> forall buf,
  exists v, arun (read_labels fuel buf) m p = (Done (Ok v), m, e) /\ name_seen ls (zlen buf) v.
Proof.
  intros Hm Hz Hn He. destruct (read_labels_wpa m p ls e Hm Hz Hn He) as (f0 & H). exists f0. intros fuel Hf buf.
  destruct (wpa_arun _ _ _ _ _ (H fuel Hf buf)) as (r & w & pos & E & -> & -> & v & -> & Hv). eauto.
Qed.

Lemma read_labels_total m p buf fuel : bytes_ok m -> zlen m <= 65535 -> 0 <= p <= zlen m -> no_loops m -> (length m + 2 <= fuel)%nat ->
  exists r e, arun (read_labels fuel buf) m p = (Done r, m, e) /\ 0 <= e <= zlen m /\
    (r = Err UnexpectedEof \/ exists v, r = Ok v).
Proof.
  intros Hm Hz Hp Hn Hf.
  destruct (wpa_arun _ _ _ _ _ (read_labels_any m False fuel buf p Hm Hz Hp (or_intror (conj Hn Hf)))) as (r & w & pos & E & -> & H1 & H2).
  exists r, pos. auto.
Qed.

Lemma panics_wps {A} (p : prog A) sn c (Q : A -> sock -> Prop) :
  wps p (snz sn) (c_sock c (snz sn)) True Q -> never_panics p c.
Proof.
  intros H sch Hs. pose proof (wps_sound p (snz sn) c True Q sch ltac:(apply snz_range) H Hs) as R.
  destruct (run p sch c) as [[[a| |] sch'] c']; cbn; congruence || contradiction.
Qed.
Lemma take_never_panics dbg fuel sn want bufs c q fs a : udp_view (c_sock c (sn_raw sn)) q fs a ->
  never_panics (take_response fuel (recv_response dbg fuel sn want) bufs) c.
Proof. intros V. eapply (panics_wps _ sn). apply (take_response_any sn True dbg fuel want bufs _ q fs a V). auto. Qed.
Lemma take_total dbg fuel sn want bufs c d q fs a : udp_view (c_sock c (sn_raw sn)) (d :: q) fs a ->
  no_loops (d_data d) -> (length (d_data d) + 2 <= fuel)%nat ->
  ensures (take_response fuel (recv_response dbg fuel sn want) bufs) (sn_raw sn) c (fun r s' => exists q', udp_view s' q' fs a /\
    (r = Err WouldBlock \/ r = Err UnexpectedEof \/ exists x, r = Ok x)).
Proof.
  intros V Hn Hf. apply ensures_wps. apply (take_response_any sn False dbg fuel want bufs _ (d :: q) fs a V). right.
  split; [discriminate|]. intros d' E. injection E as <-. right. auto.
Qed.
Lemma take_dns dbg cl c d q fs a id rcode qs an au ex : udp_view (c_sock c (sn_raw (dc_sn cl))) (d :: q) fs a ->
  response_msg (d_data d) id rcode qs an au ex ->
  exists f0, forall fuel, (f0 <= fuel)%nat -> forall bufs,
  ensures (take_response fuel (dns_response dbg fuel cl id) bufs) (sn_raw (dc_sn cl)) c (fun r s' => exists new x,
    r = Ok x /\ udp_view s' (q ++ new) fs a /\
    decodes rcode_number rcode (dr_code x) /\ dr_answers x = zlen an /\
    records_seen (an ++ au ++ ex) bufs (dr_records x)).
Proof.
  intros V Hm. destruct (take_response_spec (dc_sn cl) dbg _ d q fs a id rcode qs an au ex V Hm) as (f0 & H).
  exists f0. intros fuel Hf bufs. apply ensures_wps, H; [exact Hf|right; reflexivity].
Qed.
Lemma take_mdns dbg cl c d q fs a id rcode qs an au ex : udp_view (c_sock c (sn_raw (mc_sn cl))) (d :: q) fs a ->
  response_msg (d_data d) id rcode qs an au ex ->
  exists f0, forall fuel, (f0 <= fuel)%nat -> forall bufs,
  ensures (take_response fuel (mdns_response dbg fuel cl) bufs) (sn_raw (mc_sn cl)) c (fun r s' => exists new x,
    r = Ok x /\ udp_view s' (q ++ new) fs a /\
    decodes rcode_number rcode (dr_code x) /\ dr_answers x = zlen an /\
    records_seen (an ++ au ++ ex) bufs (dr_records x)).
Proof.
  intros V Hm. destruct (take_response_spec (mc_sn cl) dbg _ d q fs a id rcode qs an au ex V Hm) as (f0 & H).
  exists f0. intros fuel Hf bufs. apply ensures_wps, H; [exact Hf|left; reflexivity].
Qed.

(** The smallest loop: a pointer to itself. *)
Lemma self_loop : name_loops [192; 0] 0.
Proof.
  exists 0. split; [constructor|]. constructor.
  assert (has [192; 0] 0 [192; 0]) as H by (exists [], []; auto).
  exact (HopPtr [192; 0] 0 192 0 ltac:(lia) H ltac:(vm_compute; discriminate)).
Qed.

(** ** The cases beside the theorems *)
Lemma bytes_check l : forallb (fun b => (0 <=? b) && (b <? 256)) l = true -> bytes_ok l.
Proof.
  intros Hl. apply Forall_forall. intros b Hb. rewrite forallb_forall in Hl. specialize (Hl b Hb).
  unfold is_u8. lia.
Qed.
Ltac case_view :=
  split; [split; reflexivity|]; split;
  [split; [|reflexivity]; split; [right; right; left; reflexivity|]; split; [cbv; intuition discriminate|];
   split; [cbv; intuition discriminate|]; vm_compute; discriminate|];
  split;
  [split; [|reflexivity]; split; [right; right; left; reflexivity|]; split; [cbv; intuition discriminate|];
   split; [cbv; intuition discriminate|]; split; [constructor; [discriminate|constructor]|];
   split; [reflexivity|]; vm_compute; discriminate|];
  split; [|split; reflexivity]; split; [vm_compute; reflexivity|];
  repeat (constructor; [split; [reflexivity|]; split; [apply bytes_check; reflexivity|]; split; [cbv; intuition discriminate|];
    split; [apply bytes_check; reflexivity|reflexivity]|]); constructor.
Lemma case_dns_view : udp_view (c_sock (case_dns case_response) 3) [case_dns_d case_response]
  [frame_to ([10; 0; 0; 9], 0x1234) case_tcp_unsent] ([10; 0; 0; 9], 0x1234).
Proof. case_view. Qed.

Ltac hs := apply has_at; [lia|reflexivity|vm_compute; discriminate|reflexivity].
Lemma case_name_abc : name_at case_response 12 [[97]; [98; 99]] 18.
Proof.
  apply (NameLabel _ 12 [97]); [cbv; intuition discriminate|hs|]. apply (NameLabel _ 14 [98; 99]); [cbv; intuition discriminate|hs|].
  apply (NameEnd _ 17). hs.
Qed.
Lemma case_name_ptr : name_at case_response 22 [[97]; [98; 99]] 24.
Proof. apply (NamePtr _ 22 0xC0 12 _ 18); [lia|lia|hs|exact case_name_abc]. Qed.
Lemma case_name_xbc : name_at case_response 38 [[120]; [98; 99]] 42.
Proof.
  apply (NameLabel _ 38 [120]); [cbv; intuition discriminate|hs|].
  apply (NamePtr _ 40 0xC0 14 _ 18); [lia|lia|hs|].
  apply (NameLabel _ 14 [98; 99]); [cbv; intuition discriminate|hs|]. apply (NameEnd _ 17). hs.
Qed.
Lemma case_response_msg : response_msg case_response 0x1234 0 [{| q_name := [[97]; [98; 99]]; q_type := 1; q_class := 1 |}]
  [{| r_name := [[97]; [98; 99]]; r_type := 1; r_class := 0x8001; r_ttl := 300; r_data := [1; 2; 3; 4] |};
   {| r_name := [[120]; [98; 99]]; r_type := 33; r_class := 1; r_ttl := 60; r_data := [0; 1; 0; 2; 0; 80; 0xC0; 12] |}] [] [].
Proof.
  exists 0x81, 0x80, 22, 60. split; [lia|]. split; [lia|]. split; [reflexivity|]. split; [cbv; intuition discriminate|].
  split; [vm_compute; discriminate|]. split; [vm_compute; discriminate|]. split; [hs|]. split.
  - apply (QsCons _ 12 _ 22); [|constructor]. exists 18. split; [exact case_name_abc|]. split; [hs|reflexivity].
  - apply (RsCons _ 22 _ 38); [|apply (RsCons _ 38 _ 60); [|constructor]].
    + split; [cbv; intuition discriminate|]. exists 24. split; [exact case_name_ptr|]. split; [hs|reflexivity].
    + split; [cbv; intuition discriminate|]. exists 42. split; [exact case_name_xbc|]. split; [hs|reflexivity].
Qed.
(** The names of [case_response] do not run into a cycle: there is a bound on the steps from every place. *)
Definition case_loop : list Z := [0x12; 0x34; 0x81; 0x80; 0; 1; 0; 0; 0; 0; 0; 0; 0xC0; 12].
Lemma case_loop_view : udp_view (c_sock (case_dns case_loop) 3) [case_dns_d case_loop]
  [frame_to ([10; 0; 0; 9], 0x1234) case_tcp_unsent] ([10; 0; 0; 9], 0x1234).
Proof. case_view. Qed.

(** A check for the absence of cycles. *)
Definition next_hop (m : list Z) (p : Z) : option Z :=
  let b := at_ m (Z.to_nat p) in
  if (p <? 0) || (zlen m <=? p) || (b =? 0) then None
  else if b <? 64 then Some (p + 1 + b) else Some ((b mod 64) * 256 + at_ m (Z.to_nat (p + 1))).
Lemma next_hop_hop m p q : hop m p q -> next_hop m p = Some q /\ 0 <= p < zlen m.
Proof.
  unfold next_hop. intros [p' k Hk Hh Hz|p' hi lo Hh Hb Hz].
  - pose proof (has_bounds _ _ _ Hh) as B. change (zlen [k]) with 1 in B. rewrite (has_byte _ _ _ Hh). cbn zeta.
    destruct (Z.ltb_spec p' 0); [lia|]. destruct (Z.leb_spec (zlen m) p'); [lia|]. destruct (Z.eqb_spec k 0); [lia|]. cbn [orb].
    destruct (Z.ltb_spec k 64); [|lia]. split; [reflexivity|lia].
  - pose proof (has_bounds _ _ _ Hb) as B. change (zlen [hi; lo]) with 2 in B. apply has_cons in Hb. destruct Hb as [H0 H1].
    rewrite (has_byte _ _ _ H0), (has_byte _ _ _ H1). cbn zeta.
    destruct (Z.ltb_spec p' 0); [lia|]. destruct (Z.leb_spec (zlen m) p'); [lia|]. destruct (Z.eqb_spec hi 0); [lia|]. cbn [orb].
    destruct (Z.ltb_spec hi 64); [lia|]. split; [reflexivity|lia].
Qed.
Fixpoint rank (n : nat) (m : list Z) (p : Z) : nat :=
  match n with
  | O => O
  | S n => match next_hop m p with None => O | Some q => S (rank n m q) end
  end.
Definition loop_free (m : list Z) : bool :=
  forallb (fun i => match next_hop m (Z.of_nat i) with
                    | None => true
                    | Some q => Nat.ltb (rank (length m) m q) (rank (length m) m (Z.of_nat i)) end) (seq 0 (length m)).
Lemma loop_free_no_loops m : loop_free m = true -> no_loops m.
Proof.
  intros H. assert (forall p q, clos_trans_1n Z (hop m) p q -> (rank (length m) m q < rank (length m) m p)%nat) as R.
  { assert (forall p q, hop m p q -> (rank (length m) m q < rank (length m) m p)%nat) as S.
    { intros p q Hh. apply next_hop_hop in Hh. destruct Hh as [E Hp]. unfold loop_free in H. rewrite forallb_forall in H.
      specialize (H (Z.to_nat p)). rewrite Z2Nat.id in H by lia. rewrite E in H. apply Nat.ltb_lt, H, in_seq. unfold zlen in Hp. lia. }
    intros p q Hc. induction Hc as [x y Hs|x y z Hs Hc IH]; [auto|]. specialize (S _ _ Hs). lia. }
  intros p (q & _ & Hq). apply R in Hq. lia.
Qed.
Lemma case_response_no_loops : no_loops case_response.
Proof. apply loop_free_no_loops. vm_compute. reflexivity. Qed.

(** A response whose first question loops. *)
Lemma body_diverges fuel id m : bytes_ok m -> zlen m <= 65535 -> answers_query m id -> 1 <= of_be16 (at_ m 4) (at_ m 5) ->
  name_loops m 12 -> wpa rd_ok (response_body fuel (Some id)) m 0 True (fun _ _ _ => False).
Proof.
  intros Hm Hz (L & Hq & Hi) Hc Hl. unfold response_body. apply wpa_read; [split; [cbn; unfold is_u16, DNS_HEADER_LEN; lia|reflexivity]|].
  unfold DNS_HEADER_LEN. rewrite Z.sub_0_r. change (zdrop 0 m) with m.
  replace (Z.min (zlen m) 12) with 12 by lia. rewrite zlen_ztake. replace (Z.min (Z.max 0 12) (zlen m)) with 12 by lia. cbn [Z.eqb Pos.eqb negb].
  assert (forall i, (i < 12)%nat -> at_ (ztake 12 m) i = at_ m i) as At.
  { intros i Hi'. unfold at_. rewrite <- (ztake_zdrop 12 m) at 2. rewrite app_nth1; [reflexivity|].
    assert (zlen (ztake 12 m) = 12) as L2 by (rewrite zlen_ztake; lia). unfold zlen in L2. lia. }
  unfold hdr_qr, hdr_id, hdr_qdcount. rewrite !At by lia.
  pose proof (bytes_at m 2 Hm) as B2. unfold is_u8 in B2. rewrite qr_bit by lia.
  destruct (Z.leb_spec 128 (at_ m 2)); [|lia]. cbn [negb]. rewrite Hi, Z.eqb_refl. cbn [negb].
  apply wpa_bindM. destruct (Z.to_nat (of_be16 (at_ m 4) (at_ m 5))) as [|n] eqn:En; [lia|]. cbn [skip_questions].
  apply wpa_bindM. unfold read_labels. apply wpa_bindM. change (0 + 12) with 12.
  eapply wpa_mono; [| | |apply (loop_diverges m Hm Hz fuel [] 0 0 12 Hl ltac:(lia))]; auto. contradiction.
Qed.
Lemma response_diverges dbg fuel cl c d q fs a id : udp_view (c_sock c (sn_raw (dc_sn cl))) (d :: q) fs a ->
  answers_query (d_data d) id -> 1 <= of_be16 (at_ (d_data d) 4) (at_ (d_data d) 5) -> name_loops (d_data d) 12 ->
  forall sch, no_faults sch -> fst (fst (run (dns_response dbg fuel cl id) sch c)) = Diverged.
Proof.
  intros V Ha Hc Hl sch Hs.
  assert (wps (dns_response dbg fuel cl id) (snz (dc_sn cl)) (c_sock c (snz (dc_sn cl))) True (fun _ _ => False)) as W.
  { unfold dns_response, recv_response. apply wps_bindM.
    eapply wps_mono; [| |apply (ureader_open (dc_sn cl) True dbg _ (d :: q) fs a V)]; [auto|].
    intros r s1 (n1 & [(_ & C & _)|(c1 & d' & q' & Eq & -> & R1 & Hp)]); [discriminate C|].
    cbn [app] in Eq. injection Eq as <- <-. cbn [ur_inner]. apply wps_bind.
    destruct (ureading_data _ _ _ _ _ _ _ R1) as (B1 & B2 & _).
    eapply wps_mono; [| |eapply (ureading_run _ True s1 c1 d _ fs a _ _ R1); rewrite Hp; apply (body_diverges fuel id _ B1 B2 Ha Hc Hl)]; [auto|].
    intros [x c2] s2 (n2 & R2 & []). }
  pose proof (wps_sound _ (snz (dc_sn cl)) c True _ sch ltac:(apply snz_range) W Hs) as R.
  destruct (run (dns_response dbg fuel cl id) sch c) as [[[x| |] sch'] c']; cbn in *; tauto.
Qed.
Lemma case_loop_loops : name_loops case_loop 12.
Proof.
  exists 12. split; [constructor|]. constructor.
  assert (has case_loop 12 [192; 12]) as H by hs.
  exact (HopPtr case_loop 12 192 12 ltac:(lia) H ltac:(vm_compute; discriminate)).
Qed.
Lemma response_loop_example : exists c d, udp_view (c_sock c 3) [d] [frame_to ([10; 0; 0; 9], 0x1234) case_tcp_unsent] ([10; 0; 0; 9], 0x1234) /\
  forall dbg fuel sch, no_faults sch -> fst (fst (run (dns_response dbg fuel (dns_new Sn3 45917 [10; 0; 0; 1] 0) 0x1234) sch c)) = Diverged.
Proof.
  exists (case_dns case_loop), (case_dns_d case_loop). split; [exact case_loop_view|]. intros dbg fuel sch Hs.
  eapply (response_diverges dbg fuel (dns_new Sn3 45917 [10; 0; 0; 1] 0)); [exact case_loop_view| | |exact case_loop_loops|exact Hs].
  - split; [vm_compute; discriminate|]. split; [vm_compute; discriminate|reflexivity].
  - vm_compute. discriminate.
Qed.
Lemma name_at_end : exists m p ls e, bytes_ok m /\ name_at m p ls e /\
  forall fuel buf, (2 <= fuel)%nat -> snd (arun (read_labels fuel buf) m p) <> e.
Proof.
  exists [0], 0, [], 1. split; [apply bytes_check; reflexivity|]. split.
  - apply (NameEnd _ 0). hs.
  - intros [|[|fuel]] buf Hf; [lia|lia|]. vm_compute. destruct buf; discriminate.
Qed.
Lemma class_wrong :
  Qclass_try_from 129 = Ok QC_IN /\ Qclass_try_from 200 = Err 72 /\
  Qclass_try_from 5 = Ok QC_ANY /\ Qclass_try_from 255 = Err 127 /\
  Forall (fun v => ~ decodes class_number (v mod 32768) (Qclass_try_from v)) [129; 200; 5; 255].
Proof.
  repeat (split; [reflexivity|]).
  repeat (constructor; [intros [(a & E & N)|[E N]]; vm_compute in E; try discriminate E; injection E as <-; vm_compute in N; discriminate N|]).
  constructor.
Qed.
Lemma case_hostname : hostname_ok [97; 46; 98; 99].
Proof. apply (HostnameP.hostname_new_iff [97; 46; 98; 99]). reflexivity. Qed.
Lemma case_dns_ready : dns_ready (dns_new Sn3 45917 [10; 0; 0; 1] 0).
Proof.
  split; [cbv; intuition discriminate|]. split; [reflexivity|]. split; [apply bytes_check; reflexivity|cbv; intuition discriminate].
Qed.
