From Verif Require Import Proof.Base Model.Spi Model.Specifiers Spec.SpiBus.

Definition zrange (n : nat) : list Z := map Z.of_nat (seq 0 n).
Lemma in_zrange n z : 0 <= z < Z.of_nat n -> In z (zrange n).
Proof. intros. unfold zrange. apply in_map_iff. exists (Z.to_nat z). rewrite in_seq. lia. Qed.

Lemma ctrl_value block m om : 0 <= block < 32 -> 0 <= om < 4 ->
  Z.lor (ctrl block m) om = block * 8 + access_raw m * 4 + om.
Proof.
  intros Hb Ho.
  assert (forallb (fun b => forallb (fun o =>
    (Z.lor (ctrl b ARead) o =? b * 8 + 0 * 4 + o) && (Z.lor (ctrl b AWrite) o =? b * 8 + 1 * 4 + o))
    (zrange 4)) (zrange 32) = true) as E by (vm_compute; reflexivity).
  rewrite forallb_forall in E. specialize (E block (in_zrange 32 block Hb)). cbv beta in E.
  rewrite forallb_forall in E. specialize (E om (in_zrange 4 om Ho)). cbv beta in E.
  destruct m; cbn [access_raw]; lia.
Qed.

Lemma addr_split addr : 0 <= addr < 65536 -> u8 (Z.shiftr addr 8) * 256 + u8 addr = addr.
Proof.
  intros. unfold u8. rewrite Z.shiftr_div_pow2 by lia. change (2 ^ 8) with 256. lia.
Qed.

(** The header as the three bytes of the datasheet. *)
Definition header_spec (addr block : Z) (m : AccessMode) (om : Z) : list Z :=
  [addr / 256; addr mod 256; block * 8 + access_raw m * 4 + om].

Lemma hdr_addr addr : 0 <= addr < 65536 -> u8 (Z.shiftr addr 8) = addr / 256.
Proof.
  intros. unfold u8. rewrite Z.shiftr_div_pow2 by lia. change (2 ^ 8) with 256. lia.
Qed.

Lemma vdm_header_spec addr block m : 0 <= addr < 65536 -> 0 <= block < 32 ->
  vdm_header addr block m = header_spec addr block m 0.
Proof.
  intros. unfold vdm_header, header_spec. rewrite hdr_addr by lia.
  rewrite <- ctrl_value by lia. now rewrite Z.lor_0_r.
Qed.
Lemma fdm_header_1b_spec addr block m : 0 <= addr < 65536 -> 0 <= block < 32 ->
  fdm_header_1b addr block m = header_spec addr block m 1.
Proof.
  intros. unfold fdm_header_1b, header_spec. rewrite hdr_addr by lia. now rewrite ctrl_value by lia.
Qed.
Lemma fdm_header_2b_spec addr block m : 0 <= addr < 65536 -> 0 <= block < 32 ->
  fdm_header_2b addr block m = header_spec addr block m 2.
Proof.
  intros. unfold fdm_header_2b, header_spec. rewrite hdr_addr by lia. now rewrite ctrl_value by lia.
Qed.
Lemma fdm_header_4b_spec addr block m : 0 <= addr < 65536 -> 0 <= block < 32 ->
  fdm_header_4b addr block m = header_spec addr block m 3.
Proof.
  intros. unfold fdm_header_4b, header_spec. rewrite hdr_addr by lia. now rewrite ctrl_value by lia.
Qed.

Section Dev.
Context {St : Type} (d : device St) (fill : Z).

Lemma testbit2 block m om : 0 <= block -> 0 <= om < 4 ->
  Z.testbit (block * 8 + access_raw m * 4 + om) 2 = match m with ARead => false | AWrite => true end.
Proof.
  intros. rewrite Z.testbit_odd, Z.shiftr_div_pow2 by lia. change (2 ^ 2) with 4.
  replace ((block * 8 + access_raw m * 4 + om) / 4) with (2 * block + access_raw m)
    by (destruct m; cbn [access_raw]; lia).
  rewrite Z.add_comm, Z.odd_add_mul_2. now destruct m.
Qed.

Lemma shift_out_header s addr block m om : 0 <= addr < 65536 -> 0 <= block < 32 -> 0 <= om < 4 ->
  shift_out d (PHead []) s (header_spec addr block m om) =
  (PData addr block (match m with ARead => false | AWrite => true end) (mode_len om), s).
Proof.
  intros. unfold header_spec. cbn [shift_out clock app]. rewrite testbit2 by lia.
  replace ((block * 8 + access_raw m * 4 + om) / 8) with block by (destruct m; cbn [access_raw]; lia).
  replace ((block * 8 + access_raw m * 4 + om) mod 4) with om by (destruct m; cbn [access_raw]; lia).
  replace (addr / 256 * 256 + addr mod 256) with addr by lia.
  reflexivity.
Qed.

Lemma shift_in_vdm n : forall s addr block,
  exists a', shift_in d fill (PData addr block false None) s n =
  (PData a' block false None, fst (burst_rd d s block addr n), snd (burst_rd d s block addr n)).
Proof.
  induction n as [|n IH]; intros s addr block; cbn [shift_in burst_rd clock].
  - now exists addr.
  - destruct (dv_rd d s block addr) as [s1 v]. cbn [next_phase].
    destruct (IH s1 ((addr + 1) mod 65536) block) as [a' E]. rewrite E.
    exists a'. destruct (burst_rd d s1 block ((addr + 1) mod 65536) n); reflexivity.
Qed.

Lemma shift_out_vdm l : forall s addr block,
  exists a', shift_out d (PData addr block true None) s l =
  (PData a' block true None, burst_wr d s block addr l).
Proof.
  induction l as [|v l IH]; intros s addr block; cbn [shift_out burst_wr clock].
  - now exists addr.
  - cbn [next_phase]. apply IH.
Qed.

Lemma shift_in_fdm n : forall s addr block, (0 < n)%nat ->
  shift_in d fill (PData addr block false (Some (Z.of_nat n))) s n =
  (PHead [], fst (burst_rd d s block addr n), snd (burst_rd d s block addr n)).
Proof.
  induction n as [|n IH]; intros s addr block Hn; [lia|].
  cbn [shift_in burst_rd clock].
  destruct (dv_rd d s block addr) as [s1 v]. unfold next_phase.
  destruct (Z.leb_spec (Z.of_nat (S n)) 1).
  - assert (n = O) by lia. subst. reflexivity.
  - replace (Z.of_nat (S n) - 1) with (Z.of_nat n) by lia. rewrite IH by lia.
    destruct (burst_rd d s1 block ((addr + 1) mod 65536) n); reflexivity.
Qed.

Lemma shift_out_fdm l : forall s addr block, l <> [] ->
  shift_out d (PData addr block true (Some (zlen l))) s l = (PHead [], burst_wr d s block addr l).
Proof.
  induction l as [|v l IH]; intros s addr block Hl; [congruence|].
  cbn [shift_out burst_wr clock]. unfold next_phase. rewrite zlen_cons.
  destruct l as [|w l].
  - reflexivity.
  - destruct (Z.leb_spec (zlen (w :: l) + 1) 1).
    + rewrite zlen_cons in *. pose proof (zlen_nonneg l). lia.
    + replace (zlen (w :: l) + 1 - 1) with (zlen (w :: l)) by lia. apply IH. discriminate.
Qed.

Lemma burst_rd_app a b : forall s block addr, 0 <= addr < 65536 ->
  burst_rd d s block addr (a + b) =
  let '(s1, l1) := burst_rd d s block addr a in
  let '(s2, l2) := burst_rd d s1 block ((addr + Z.of_nat a) mod 65536) b in (s2, l1 ++ l2).
Proof.
  induction a as [|a IH]; intros s block addr Ha.
  - cbn [burst_rd Nat.add]. replace ((addr + Z.of_nat 0) mod 65536) with addr by lia.
    destruct (burst_rd d s block addr b); reflexivity.
  - cbn [burst_rd Nat.add]. destruct (dv_rd d s block addr) as [s1 v].
    rewrite IH by lia.
    destruct (burst_rd d s1 block ((addr + 1) mod 65536) a) as [s2 l1].
    replace (((addr + 1) mod 65536 + Z.of_nat a) mod 65536)
      with ((addr + Z.of_nat (S a)) mod 65536) by lia.
    destruct (burst_rd d s2 block ((addr + Z.of_nat (S a)) mod 65536) b). reflexivity.
Qed.
Lemma burst_wr_app l r : forall s block addr, 0 <= addr < 65536 ->
  burst_wr d s block addr (l ++ r) =
  burst_wr d (burst_wr d s block addr l) block ((addr + zlen l) mod 65536) r.
Proof.
  induction l as [|v l IH]; intros s block addr Ha.
  - cbn [burst_wr app]. rewrite zlen_nil. now replace ((addr + 0) mod 65536) with addr by lia.
  - cbn [burst_wr app]. rewrite IH by lia. rewrite zlen_cons. f_equal. lia.
Qed.

Lemma vdm_read_exec s addr block n : 0 <= addr < 65536 -> 0 <= block < 32 ->
  exists p, spi_exec d fill (PHead []) s (vdm_read addr block n) =
    (p, fst (burst_rd d s block addr (Z.to_nat n)), snd (burst_rd d s block addr (Z.to_nat n))).
Proof.
  intros. unfold vdm_read. cbn [spi_exec]. rewrite vdm_header_spec, shift_out_header by lia.
  change (mode_len 0) with (@None Z).
  destruct (shift_in_vdm (Z.to_nat n) s addr block) as [a' E]. rewrite E. cbn [spi_exec].
  eexists. now rewrite app_nil_r.
Qed.

Lemma vdm_write_exec s addr block data : 0 <= addr < 65536 -> 0 <= block < 32 ->
  exists p, spi_exec d fill (PHead []) s (vdm_write addr block data) =
    (p, burst_wr d s block addr data, []).
Proof.
  intros. unfold vdm_write. cbn [spi_exec]. rewrite vdm_header_spec, shift_out_header by lia.
  change (mode_len 0) with (@None Z).
  destruct (shift_out_vdm data s addr block) as [a' E]. rewrite E. cbn [spi_exec]. now eexists.
Qed.

Lemma fdm_read_exec fuel : forall s addr block n,
  0 <= addr < 65536 -> 0 <= block < 32 -> n <= Z.of_nat fuel ->
  spi_exec d fill (PHead []) s (fdm_read_loop fuel addr block n) =
    (PHead [], fst (burst_rd d s block addr (Z.to_nat n)),
     snd (burst_rd d s block addr (Z.to_nat n))).
Proof.
  induction fuel as [|fuel IH]; intros s addr block n Ha Hb Hn.
  - replace (Z.to_nat n) with O by lia. reflexivity.
  - cbn [fdm_read_loop].
    assert (forall k om hdr rest, k = 1 \/ k = 2 \/ k = 4 -> 0 <= om < 4 -> mode_len om = Some k ->
       hdr = header_spec addr block ARead om -> k <= n ->
       rest = fdm_read_loop fuel (wadd addr k) block (n - k) ->
       spi_exec d fill (PHead []) s (SWrite hdr :: SRead k :: rest) =
       (PHead [], fst (burst_rd d s block addr (Z.to_nat n)),
        snd (burst_rd d s block addr (Z.to_nat n)))) as Step.
    { intros k om hdr rest Hk Ho Hm -> Hkn ->.
      cbn [spi_exec]. rewrite shift_out_header by lia. rewrite Hm.
      replace (Some k) with (Some (Z.of_nat (Z.to_nat k))) by (f_equal; lia).
      rewrite shift_in_fdm by lia.
      rewrite IH by (unfold wadd; lia).
      replace (Z.to_nat n) with (Z.to_nat k + Z.to_nat (n - k))%nat by lia.
      rewrite burst_rd_app by lia.
      destruct (burst_rd d s block addr (Z.to_nat k)) as [s1 l1]. cbn [fst snd].
      replace ((addr + Z.of_nat (Z.to_nat k)) mod 65536) with (wadd addr k) by (unfold wadd; f_equal; lia).
      destruct (burst_rd d s1 block (wadd addr k) (Z.to_nat (n - k))) as [s2 l2].
      reflexivity. }
    destruct (Z.leb_spec 4 n); [|destruct (Z.leb_spec 2 n); [|destruct (Z.leb_spec 1 n)]].
    + apply Step with (om := 3); try lia; try reflexivity. apply fdm_header_4b_spec; lia.
    + apply Step with (om := 2); try lia; try reflexivity. apply fdm_header_2b_spec; lia.
    + apply Step with (om := 1); try lia; try reflexivity. apply fdm_header_1b_spec; lia.
    + replace (Z.to_nat n) with O by lia. reflexivity.
Qed.

Lemma fdm_write_exec fuel : forall s addr block data,
  0 <= addr < 65536 -> 0 <= block < 32 -> (length data <= fuel)%nat ->
  spi_exec d fill (PHead []) s (fdm_write_loop fuel addr block data) =
    (PHead [], burst_wr d s block addr data, []).
Proof.
  induction fuel as [|fuel IH]; intros s addr block data Ha Hb Hn.
  - destruct data; cbn [length] in Hn; [reflexivity|lia].
  - cbn [fdm_write_loop].
    assert (forall c r om hdr rest, c <> [] -> 0 <= om < 4 -> mode_len om = Some (zlen c) ->
       hdr = header_spec addr block AWrite om -> data = c ++ r -> (length r <= fuel)%nat ->
       rest = fdm_write_loop fuel (wadd addr (zlen c)) block r ->
       spi_exec d fill (PHead []) s (SWrite hdr :: SWrite c :: rest) =
       (PHead [], burst_wr d s block addr data, [])) as Step.
    { intros c r om hdr rest Hc Ho Hm -> -> Hr ->.
      cbn [spi_exec]. rewrite shift_out_header by lia. rewrite Hm.
      rewrite shift_out_fdm by assumption.
      rewrite IH by (try assumption; unfold wadd; lia).
      rewrite burst_wr_app by lia. reflexivity. }
    destruct data as [|a [|b [|c [|e r]]]]; cbn [length] in Hn.
    + reflexivity.
    + eapply Step with (c := [a]) (om := 1); try lia; try reflexivity; try discriminate;
        [apply fdm_header_1b_spec; lia|cbn; lia].
    + eapply Step with (c := [a; b]) (om := 2); try lia; try reflexivity; try discriminate;
        [apply fdm_header_2b_spec; lia|cbn; lia].
    + eapply Step with (c := [a; b]) (om := 2) (r := [c]); try lia; try reflexivity; try discriminate;
        [apply fdm_header_2b_spec; lia|cbn; lia].
    + eapply Step with (c := [a; b; c; e]) (om := 3) (r := r); try lia; try reflexivity;
        try discriminate; apply fdm_header_4b_spec; lia.
Qed.

(** C01 *)
Lemma fdm_eq_vdm_read s addr block n : 0 <= addr < 65536 -> 0 <= block < 32 ->
  exists pv s' data,
    spi_exec d fill (PHead []) s (vdm_read addr block n) = (pv, s', data) /\
    spi_exec d fill (PHead []) s (fdm_read addr block n) = (PHead [], s', data) /\
    burst_rd d s block addr (Z.to_nat n) = (s', data).
Proof.
  intros Ha Hb. destruct (vdm_read_exec s addr block n Ha Hb) as [p E].
  unfold fdm_read. rewrite (fdm_read_exec (Z.to_nat n)) by lia.
  destruct (burst_rd d s block addr (Z.to_nat n)) as [s' data]. exists p, s', data. auto.
Qed.
Lemma fdm_eq_vdm_write s addr block data : 0 <= addr < 65536 -> 0 <= block < 32 ->
  exists pv s',
    spi_exec d fill (PHead []) s (vdm_write addr block data) = (pv, s', []) /\
    spi_exec d fill (PHead []) s (fdm_write addr block data) = (PHead [], s', []) /\
    burst_wr d s block addr data = s'.
Proof.
  intros Ha Hb. destruct (vdm_write_exec s addr block data Ha Hb) as [p E].
  unfold fdm_write. rewrite (fdm_write_exec (length data)) by lia. exists p, (burst_wr d s block addr data). auto.
Qed.
End Dev.

(** C02 *)
Lemma headers_ok addr block m :
  0 <= addr < 65536 -> 0 <= block < 32 ->
  Forall (fun p : list Z * Z =>
    let '(h, om) := p in
    h = [addr / 256; addr mod 256; block * 8 + access_raw m * 4 + om] /\ bytes_ok h)
    [(vdm_header addr block m, 0); (fdm_header_1b addr block m, 1);
     (fdm_header_2b addr block m, 2); (fdm_header_4b addr block m, 3)].
Proof.
  intros.
  assert (forall om, 0 <= om < 4 -> bytes_ok (header_spec addr block m om)) as B.
  { intros. unfold header_spec, bytes_ok, is_u8. repeat constructor; destruct m; cbn [access_raw]; lia. }
  rewrite vdm_header_spec, fdm_header_1b_spec, fdm_header_2b_spec, fdm_header_4b_spec by lia.
  repeat (apply Forall_cons || apply Forall_nil); (split; [reflexivity|apply B; lia]).
Qed.

Lemma blocks_ok :
  NoDup (COMMON_BLOCK_OFFSET :: map sn_block SOCKETS ++ map sn_tx_block SOCKETS ++ map sn_rx_block SOCKETS)
  /\ Forall (fun b => 0 <= b < 32)
      (COMMON_BLOCK_OFFSET :: map sn_block SOCKETS ++ map sn_tx_block SOCKETS ++ map sn_rx_block SOCKETS)
  /\ Forall (fun s => sn_block s = 4 * sn_raw s + 1 /\ sn_tx_block s = 4 * sn_raw s + 2 /\
       sn_rx_block s = 4 * sn_raw s + 3) SOCKETS
  /\ forall s : Sn, In s SOCKETS.
Proof.
  split; [|split; [|split]].
  - cbv. repeat constructor; cbn [In]; intuition discriminate.
  - cbv. repeat constructor; intuition discriminate.
  - repeat constructor.
  - intros []; cbn; tauto.
Qed.
