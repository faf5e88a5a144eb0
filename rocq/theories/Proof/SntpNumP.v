(** SNTP timestamps and fixed point numbers; opening the socket; two calls. *)
From Verif Require Export Proof.SntpP.
From Verif Require Import Model.LlAddr Model.LlBits Model.Ll Model.HlCommon Model.HlTcp Proof.SprogP Proof.DhcpClientP Proof.DhcpBlockP Spec.DhcpRfc Model.Sntp.

Lemma land32 x : Z.land x 0xFFFFFFFF = x mod 4294967296.
Proof. change 0xFFFFFFFF with (Z.ones 32). now rewrite Z.land_ones by lia. Qed.
Lemma top_bit x : 0 <= x < 4294967296 -> (Z.land x 0x80000000 =? 0) = (x <? 2147483648).
Proof.
  intros H. destruct (Z.ltb_spec x 2147483648); change 0x80000000 with (2 ^ 31) in *.
  - apply Z.eqb_eq. apply Z.bits_inj'. intros i Hi. rewrite Z.land_spec, Z.bits_0, Z.pow2_bits_eqb by lia.
    destruct (Z.eqb_spec 31 i) as [<-|]; [|now rewrite andb_false_r]. rewrite andb_true_r. apply Z.bits_above_log2; [lia|].
    destruct (Z.eq_dec x 0) as [->|]; [reflexivity|]. apply Z.log2_lt_pow2; [lia|]. exact H0.
  - apply Z.eqb_neq. intros E. assert (Z.testbit (Z.land x (2 ^ 31)) 31 = false) as T by (rewrite E; apply Z.bits_0).
    rewrite Z.land_spec, Z.pow2_bits_true, andb_true_r in T by lia. rewrite Z.testbit_false in T by lia.
    change (2 ^ 31) with 2147483648 in *. assert (x / 2147483648 = 1) as E1 by lia. rewrite E1 in T. discriminate.
Qed.
Lemma secs_spec bits : is_u64 bits -> timestamp_secs bits = bits / 4294967296 + (if bits <? 9223372036854775808 then 4294967296 else 0).
Proof.
  intros H. unfold is_u64 in H. unfold timestamp_secs, u32. rewrite Z.shiftr_div_pow2 by lia. change (2 ^ 32) with 4294967296.
  rewrite (Z.mod_small (bits / 4294967296)) by lia. rewrite top_bit by lia.
  destruct (Z.ltb_spec (bits / 4294967296) 2147483648), (Z.ltb_spec bits 9223372036854775808); cbn [negb]; lia.
Qed.
Lemma nanos_eq bits : timestamp_nanos bits = bits mod 4294967296 * 1000000000 / 4294967295.
Proof. unfold timestamp_nanos, u32. rewrite land32. apply Z.mod_small. lia. Qed.
Lemma nanos_spec bits : let f := bits mod 4294967296 in let n := timestamp_nanos bits in
  0 <= n <= 1000000000 /\ (n = 1000000000 -> f = 4294967295) /\
  f * 1000000000 - 4294967296 < n * 4294967296 < f * 1000000000 + 4294967296.
Proof. cbv zeta. rewrite nanos_eq. set (f := bits mod 4294967296). assert (0 <= f < 4294967296) by (unfold f; lia). clearbody f. lia. Qed.
Lemma new_spec secs nanos : 2147483648 <= secs < 6442450944 -> 0 <= nanos < 1000000000 ->
  exists bits, timestamp_new secs nanos = Some bits /\ is_u64 bits /\ timestamp_secs bits = secs /\ nanos - 1 <= timestamp_nanos bits <= nanos.
Proof.
  intros Hs Hn. unfold timestamp_new. destruct (Z.leb_spec 18446744073709551616 (nanos * 4294967295)); [lia|].
  set (lower := u32 (nanos * 4294967295 / 1000000000)).
  assert (lower = nanos * 4294967295 / 1000000000) as El by (unfold lower, u32; apply Z.mod_small; lia).
  set (upper := if secs <? 4294967296 then _ else _).
  assert (upper = if secs <? 4294967296 then secs else secs - 4294967296) as Eu.
  { unfold upper. destruct (Z.ltb_spec secs 4294967296); [reflexivity|]. rewrite Z.max_r by lia.
    destruct (Z.ltb_spec (secs - 4294967296) 4294967296); lia. }
  assert (0 <= upper < 4294967296) as Hu by (rewrite Eu; destruct (Z.ltb_spec secs 4294967296); lia).
  assert (0 <= lower < 4294967295) as Hlo by lia.
  exists (Z.lor (Z.shiftl upper 32) lower). split; [reflexivity|].
  assert (Z.lor (Z.shiftl upper 32) lower = upper * 4294967296 + lower) as E.
  { rewrite Z.shiftl_mul_pow2 by lia. change (2 ^ 32) with 4294967296.
    rewrite <- Z.lxor_lor, <- Z.add_nocarry_lxor; [reflexivity| |].
    all: apply Z.bits_inj'; intros i Hi; rewrite Z.land_spec, Z.bits_0; change 4294967296 with (2 ^ 32); rewrite Z.mul_pow2_bits by lia;
      destruct (Z.ltb_spec i 32); [rewrite (Z.testbit_neg_r upper) by lia; reflexivity|].
    all: apply andb_false_iff; right; destruct (Z.eq_dec lower 0) as [->|]; [apply Z.bits_0|];
      apply Z.bits_above_log2; [lia|]; apply Z.lt_le_trans with 32; [apply Z.log2_lt_pow2; [lia|]; change (2 ^ 32) with 4294967296; lia|lia]. }
  rewrite E. split; [unfold is_u64; lia|]. split.
  - rewrite secs_spec by (unfold is_u64; lia). replace ((upper * 4294967296 + lower) / 4294967296) with upper by lia. rewrite Eu in *.
    destruct (Z.ltb_spec secs 4294967296); match goal with |- context [?x <? 9223372036854775808] => destruct (Z.ltb_spec x 9223372036854775808) end; lia.
  - rewrite nanos_eq. replace ((upper * 4294967296 + lower) mod 4294967296) with lower by lia. clear - El Hn Hlo. clearbody lower. lia.
Qed.
Lemma from_to_ns ns : 2147483648000000000 <= ns < 6442450944000000000 ->
  exists bits, timestamp_from_ns ns = Some (Ok bits) /\ is_u64 bits /\ ns - 1 <= timestamp_to_ns bits <= ns.
Proof.
  intros H. unfold timestamp_from_ns, timestamp_to_ns. rewrite Z.quot_div_nonneg by lia.
  set (secs := ns / 1000000000). set (nanos := ns - secs * 1000000000).
  assert (2147483648 <= secs < 6442450944) as Hs by (unfold secs; lia). assert (0 <= nanos < 1000000000) as Hn by (unfold nanos, secs; lia).
  assert (ns = secs * 1000000000 + nanos) as E by (unfold nanos; lia). clearbody secs nanos.
  destruct (Z.ltb_spec nanos 0); [lia|]. destruct (Z.ltb_spec secs 0); [lia|].
  destruct (new_spec secs nanos Hs Hn) as (bits & -> & U & E1 & E2). exists bits. split; [reflexivity|]. split; [exact U|]. rewrite E1. lia.
Qed.
Lemma from_ns_total ns : timestamp_from_ns ns <> None.
Proof.
  unfold timestamp_from_ns. set (secs := Z.quot ns 1000000000). set (nanos := ns - secs * 1000000000).
  assert (nanos = Z.rem ns 1000000000) as E. { unfold nanos, secs. pose proof (Z.quot_rem' ns 1000000000). lia. }
  destruct (Z.ltb_spec nanos 0); [discriminate|]. destruct (Z.ltb_spec secs 0); [discriminate|]. unfold timestamp_new.
  assert (nanos < 1000000000). { rewrite E. destruct (Z.le_gt_cases 0 ns); [apply Z.rem_bound_pos; lia|]. pose proof (Z.rem_bound_pos (- ns) 1000000000 ltac:(lia) ltac:(lia)).
    rewrite Z.rem_opp_l in * by lia. lia. }
  destruct (Z.leb_spec 18446744073709551616 (nanos * 4294967295)); [lia|discriminate].
Qed.
Lemma fixed_spec bits : is_u32 bits -> exists n, fixed_ratio bits = Some (n, 65535) /\
  0 <= n * 65536 - bits * 65535 <= 65535 /\ (n * 65536 = bits * 65535 <-> bits mod 65536 = 0).
Proof.
  intros H. unfold is_u32 in H. unfold fixed_ratio, raw_whole, raw_fractional. rewrite Z.shiftr_div_pow2 by lia. change (2 ^ 16) with 65536.
  change (Z.land bits 0xFFFF) with (Z.land bits (Z.ones 16)). rewrite Z.land_ones by lia. change (2 ^ 16) with 65536.
  destruct (Z.leb_spec 4294967296 (bits / 65536 * 65535)); [lia|].
  destruct (Z.leb_spec 4294967296 (bits / 65536 * 65535 + bits mod 65536)); [lia|]. eexists. split; [reflexivity|]. lia.
Qed.

(** ** On the chip *)
Lemma request_run cl c q fs a : let s := c_sock c (sn_raw (sc_sn cl)) in udp_view s q fs a ->
  ensures (sntp_request cl) (sn_raw (sc_sn cl)) c (dispatched (tx_size s - pending s) q fs a a (ntp_bytes client_request)).
Proof. intros s V. apply ensures_wps. now apply (request_wps (sc_sn cl)). Qed.
Lemma on_recv_run dbg cl c q fs a : udp_view (c_sock c (sn_raw (sc_sn cl))) q fs a ->
  ensures (on_recv_interrupt dbg cl) (sn_raw (sc_sn cl)) c (fun r s' => exists new q', udp_view s' q' fs a /\
    ((r = Err WouldBlock /\ q = [] /\ q' = new) \/
     exists d q1, q ++ new = d :: q1 /\ exists q2 more, q' = q2 ++ more /\ handles (sc_server cl) d q1 r q2)).
Proof. intros V. apply ensures_wps. now apply (on_recv_wps (sc_sn cl)). Qed.
Lemma ntp_bytes_inj p p' r r' : ntp_ok p -> ntp_ok p' -> ntp_bytes p ++ r = ntp_bytes p' ++ r' -> ntp_bytes p = ntp_bytes p'.
Proof.
  intros H H' E. pose proof (ntp_len p H) as L. pose proof (ntp_len p' H') as L'. apply (f_equal (ztake 48)) in E.
  unfold ztake in E. rewrite !firstn_app in E. unfold zlen in *.
  replace (Z.to_nat 48 - length (ntp_bytes p))%nat with O in E by lia. replace (Z.to_nat 48 - length (ntp_bytes p'))%nat with O in E by lia.
  rewrite !firstn_O, !app_nil_r, !firstn_all2 in E by lia. exact E.
Qed.
Lemma usable_same p p' : ntp_ok p -> ntp_ok p' -> ntp_bytes p = ntp_bytes p' ->
  (usable p <-> usable p') /\ (usable p -> reply_of p = reply_of p').
Proof.
  intros H H' E. destruct (decode_spec p H) as [(U & D)|(U & D)], (decode_spec p' H') as [(U' & D')|(U' & D')]; rewrite E in D; rewrite D in D'.
  - split; [tauto|]. intros _. unfold ret in D'. apply (f_equal (fun x => match x with Ret (Ok v) => v | _ => reply_of p end)) in D'. exact D'.
  - discriminate.
  - discriminate.
  - tauto.
Qed.
(** The outcome is determined by the datagram. *)
Lemma handles_short server d q1 r q2 : handles server d q1 r q2 -> (d_ip d, d_port d) = server -> zlen (d_data d) < 48 ->
  r = Err UnexpectedEof /\ q2 = d :: q1.
Proof.
  intros H E L. destruct H as [N|_ _|p rest _ Hp Ed U|p rest _ Hp Ed U].
  - contradiction.
  - auto.
  - exfalso. rewrite Ed, zlen_app, ntp_len in L by exact Hp. pose proof (zlen_nonneg rest). lia.
  - exfalso. rewrite Ed, zlen_app, ntp_len in L by exact Hp. pose proof (zlen_nonneg rest). lia.
Qed.
Lemma handles_reply server d q1 r q2 p rest : handles server d q1 r q2 -> (d_ip d, d_port d) = server -> ntp_ok p ->
  d_data d = ntp_bytes p ++ rest -> usable p -> r = Ok (reply_of p) /\ q2 = q1.
Proof.
  intros H E Hp Ed U. destruct H as [N|_ L|p' rest' _ Hp' Ed' U'|p' rest' _ Hp' Ed' U'].
  - contradiction.
  - exfalso. rewrite Ed, zlen_app, ntp_len in L by exact Hp. pose proof (zlen_nonneg rest). lia.
  - exfalso. rewrite Ed in Ed'. pose proof (ntp_bytes_inj _ _ _ _ Hp Hp' Ed') as Eb. apply U', (usable_same p p' Hp Hp' Eb), U.
  - rewrite Ed in Ed'. pose proof (ntp_bytes_inj _ _ _ _ Hp Hp' Ed') as Eb. split; [|reflexivity]. f_equal. symmetry. now apply (usable_same p p' Hp Hp' Eb).
Qed.
Lemma handles_bad server d q1 r q2 : handles server d q1 r q2 -> (d_ip d, d_port d) <> server \/ 48 <= zlen (d_data d) ->
  (forall p rest, (d_ip d, d_port d) = server -> ntp_ok p -> d_data d = ntp_bytes p ++ rest -> ~ usable p) -> r = Err WouldBlock /\ q2 = q1.
Proof.
  intros H Hb Hu. destruct H as [N|E L|p rest E Hp Ed U|p rest E Hp Ed U]; auto.
  - exfalso. destruct Hb; [contradiction|lia].
  - exfalso. exact (Hu p rest E Hp Ed U).
Qed.
Lemma two_calls dbg cl c d g q fs a p rest : let s := c_sock c (sn_raw (sc_sn cl)) in
  udp_view s (d :: g :: q) fs a ->
  (d_ip d, d_port d) <> sc_server cl \/ 48 <= zlen (d_data d) ->
  (forall p rest, (d_ip d, d_port d) = sc_server cl -> ntp_ok p -> d_data d = ntp_bytes p ++ rest -> ~ usable p) ->
  (d_ip g, d_port g) = sc_server cl -> ntp_ok p -> d_data g = ntp_bytes p ++ rest -> usable p ->
  ensures (x <-- on_recv_interrupt dbg cl ;; y <-- on_recv_interrupt dbg cl ;; Ret (x, y)) (sn_raw (sc_sn cl)) c
    (fun r s' => r = (Err WouldBlock, Ok (reply_of p)) /\ exists new, udp_view s' (q ++ new) fs a).
Proof.
  intros s V Hb Hu Eg Hp Ed U. apply ensures_wps. apply wps_bind.
  eapply wps_mono; [| |apply (on_recv_wps (sc_sn cl) False dbg cl s _ fs a eq_refl V)]; [auto|].
  intros r s1 (n1 & q' & V1 & [(_ & X & _)|(d1 & q1 & E1 & q2 & more & -> & H1)]); [discriminate|].
  cbn [app] in E1. injection E1 as <- <-. destruct (handles_bad _ _ _ _ _ H1 Hb Hu) as (-> & ->). cbn [app] in V1.
  apply wps_bind. eapply wps_mono; [| |apply (on_recv_wps (sc_sn cl) False dbg cl s1 _ fs a eq_refl V1)]; [auto|].
  intros r s2 (n2 & q' & V2 & [(_ & X & _)|(d1 & q1 & E1 & q2 & more2 & -> & H2)]); [discriminate|].
  cbn [app] in E1. injection E1 as <- <-. destruct (handles_reply _ _ _ _ _ p rest H2 Eg Hp Ed U) as (-> & ->).
  cbn [wps]. split; [reflexivity|]. exists ((n1 ++ more) ++ n2 ++ more2). rewrite <- !app_assoc in V2. rewrite <- !app_assoc. exact V2.
Qed.
Lemma short_stays dbg cl c d q fs a : let s := c_sock c (sn_raw (sc_sn cl)) in
  udp_view s (d :: q) fs a -> (d_ip d, d_port d) = sc_server cl -> zlen (d_data d) < 48 ->
  ensures (on_recv_interrupt dbg cl) (sn_raw (sc_sn cl)) c (fun r s' => r = Err UnexpectedEof /\ exists new, udp_view s' (d :: q ++ new) fs a).
Proof.
  intros s V E L. apply ensures_wps.
  eapply wps_mono; [| |apply (on_recv_wps (sc_sn cl) False dbg cl s _ fs a eq_refl V)]; [auto|].
  intros r s1 (n1 & q' & V1 & [(_ & X & _)|(d1 & q1 & E1 & q2 & more & -> & H1)]); [discriminate|].
  cbn [app] in E1. injection E1 as <- <-. destruct (handles_short _ _ _ _ _ H1 E L) as (-> & ->). split; [reflexivity|].
  exists (n1 ++ more). cbn [app] in V1. rewrite <- app_assoc in V1. exact V1.
Qed.
Lemma sntp_setup_run dbg fuel cl c sch sch' c' : is_u16 (sc_port cl) -> addr_ok (sc_server cl) -> sizes_ok (c_sock c (sn_raw (sc_sn cl))) ->
  no_faults sch -> run (sntp_setup_socket dbg fuel cl) sch c = (Done (Ok tt), sch', c') ->
  exists q fs, udp_view (c_sock c' (sn_raw (sc_sn cl))) q fs (sc_server cl).
Proof.
  intros Hport Hsrv (Z1 & Z2) Hn E. set (sn := sc_sn cl) in *.
  assert (wpc (dbg = true) (sntp_setup_socket dbg fuel cl) c (fun r c' => r = Ok tt ->
    exists q fs, udp_view (c_sock c' (snz sn)) q fs (sc_server cl))) as H.
  { unfold sntp_setup_socket. fold sn.
    apply wpc_bindM. unfold simr. apply wpc_bindM, wpc_wpe, wpe_read. intros e1. cbv zeta. apply wpc_ret.
    set (c1 := chip_evs c e1). assert (sized sn c c1) as S1 by (apply sized_evs; split; reflexivity).
    apply wpc_bindM, wpc_wpe, wpe_write. intros e2. cbv zeta. set (v := Z.lor _ _).
    set (c2 := chip_wrs (chip_evs c1 e2) COMMON_BLOCK_OFFSET (Reg_addr R_SIMR) [v]).
    assert (sized sn c c2) as S2 by (apply (sized_evs sn c c1 e2 S1)).
    apply wpc_bindM, wpc_wpe, wpe_write. intros e3. cbv zeta. set (c3 := chip_wrs (chip_evs c2 e3) _ _ _).
    destruct (size_wrs sn (chip_evs c2 e3) (SnReg_addr S_IMR) [SocketInterruptMask_unmask_recv SocketInterruptMask_ALL_MASKED]) as (R1 & R2 & R3);
      [change (SnReg_addr S_IMR) with 44; lia|change (SnReg_addr S_IMR) with 44; change (zlen [_]) with 1; lia|]. fold c3 in R1, R2, R3.
    assert (sized sn c c3) as S3 by (destruct (sized_evs sn c c2 e3 S2); split; congruence).
    apply wpc_bindM, wpc_wpe. unfold close, set_sn_cr. apply wpe_write. intros e4. cbv zeta. set (c4 := chip_wrs (chip_evs c3 e4) _ _ _).
    destruct (size_wrs sn (chip_evs c3 e4) (SnReg_addr S_CR) [command_raw CClose]) as (R4 & R5 & R6);
      [change (SnReg_addr S_CR) with 1; lia|change (SnReg_addr S_CR) with 1; change (zlen [_]) with 1; lia|]. fold c4 in R4, R5, R6.
    assert (sized sn c c4) as S4 by (destruct (sized_evs sn c c3 e4 S3); split; congruence).
    destruct S4 as (S5 & S6). apply wpc_bindM. eapply wpc_mono; [apply (wpc_udp_bind dbg fuel sn (sc_port cl) c4 Hport)|].
    - split; [rewrite S5|rewrite S6]; assumption.
    - intros r c6 (-> & T6 & _ & (q & fs & a & V) & F).
      eapply wpc_mono; [apply (wpc_wps _ _ sn c6 _ (uview_set_dest sn True _ q fs a (sc_server cl) V Hsrv))|].
      intros r c7 ((-> & new & V7 & _) & _) _. eauto. }
  specialize (H sch Hn). rewrite E in H. exact (H eq_refl).
Qed.
Lemma ntp_every b : bytes_ok b -> 48 <= zlen b -> exists p rest, ntp_ok p /\ b = ntp_bytes p ++ rest.
Proof.
  intros H L. destruct (ntp_all (ztake 48 b)) as (p & Hp & E); [rewrite zlen_ztake; lia|now apply bytes_ok_ztake|].
  exists p, (zdrop 48 b). split; [exact Hp|]. rewrite E. symmetry. apply firstn_skipn.
Qed.
