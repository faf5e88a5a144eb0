From Verif Require Import Proof.Base Model.Spi Model.Drivers Spec.SpiBus Spec.Drivers Proof.SpiP.

Section Dev.
Context {St : Type} (d : device St) (fill : Z).
Implicit Types w : wire St.

Lemma shift_out_part_header s addr block m om k :
  exists p, shift_out d (PHead []) s (firstn k (header_spec addr block m om)) = (p, s) /\
    ((3 <= k)%nat -> 0 <= addr < 65536 -> 0 <= block < 32 -> 0 <= om < 4 ->
      p = PData addr block (match m with ARead => false | AWrite => true end) (mode_len om)).
Proof.
  destruct (Nat.le_gt_cases 3 k) as [H|H].
  - rewrite firstn_all2 by (cbn; lia). unfold header_spec. cbn [shift_out clock app].
    eexists. split; [reflexivity|]. intros _ Ha Hb Ho. rewrite testbit2 by lia.
    replace ((block * 8 + access_raw m * 4 + om) / 8) with block by (destruct m; cbn [access_raw]; lia).
    replace ((block * 8 + access_raw m * 4 + om) mod 4) with om by (destruct m; cbn [access_raw]; lia).
    replace (addr / 256 * 256 + addr mod 256) with addr by lia. reflexivity.
  - destruct k as [|[|[|k]]]; try lia; cbn; eexists; (split; [reflexivity|lia]).
Qed.

Lemma exchange_vdm l : forall s addr block,
  exists a', exchange d (PData addr block false None) s l =
  (PData a' block false None, fst (burst_rd d s block addr (length l)), snd (burst_rd d s block addr (length l))).
Proof.
  induction l as [|b l IH]; intros s addr block; cbn [exchange burst_rd clock length].
  - now exists addr.
  - destruct (dv_rd d s block addr) as [s1 v]. cbn [next_phase].
    destruct (IH s1 ((addr + 1) mod 65536) block) as [a' E]. rewrite E.
    exists a'. destruct (burst_rd d s1 block ((addr + 1) mod 65536) (length l)); reflexivity.
Qed.

Lemma select_ready w : ready w -> select w = mkWire (w_dev w) (PHead []) true.
Proof. intros [H|H]; unfold select; rewrite H; [reflexivity|]. destruct (w_low w); reflexivity. Qed.

Section Access.
Variables (addr block : Z).
Hypotheses (Ha : 0 <= addr < 65536) (Hb : 0 <= block < 32).

Lemma hdr_done m s :
  op_done d fill (mkWire s (PHead []) true) (BWrite (vdm_header addr block m)) =
  (mkWire s (PData addr block (match m with ARead => false | AWrite => true end) None) true, []).
Proof.
  cbn [op_done]. unfold shift. cbn [w_low w_phase w_dev spi_exec].
  rewrite vdm_header_spec, shift_out_header by lia. reflexivity.
Qed.
Lemma hdr_failed m s f : exists p,
  op_failed d fill (mkWire s (PHead []) true) (BWrite (vdm_header addr block m)) f = mkWire s p true.
Proof.
  cbn [op_failed cut]. unfold shift. cbn [w_low w_phase w_dev spi_exec].
  rewrite vdm_header_spec by lia.
  destruct (shift_out_part_header s addr block m 0 (f_bytes f)) as [p [E _]]. rewrite E. now exists p.
Qed.
Lemma xfer_done s data : exists p,
  op_done d fill (mkWire s (PData addr block false None) true) (BTransfer data) =
  (mkWire (fst (burst_rd d s block addr (length data))) p true, snd (burst_rd d s block addr (length data))).
Proof.
  cbn [op_done]. unfold swap. cbn [w_low w_phase w_dev].
  destruct (exchange_vdm data s addr block) as [a' E]. rewrite E. now eexists.
Qed.
Lemma xfer_failed s data f : exists p,
  op_failed d fill (mkWire s (PData addr block false None) true) (BTransfer data) f =
  mkWire (fst (burst_rd d s block addr (length (firstn (f_bytes f) data)))) p true.
Proof.
  cbn [op_failed]. unfold swap. cbn [w_low w_phase w_dev].
  destruct (exchange_vdm (firstn (f_bytes f) data) s addr block) as [a' E]. rewrite E. now eexists.
Qed.
Lemma put_done s data : exists p,
  op_done d fill (mkWire s (PData addr block true None) true) (BWrite data) =
  (mkWire (burst_wr d s block addr data) p true, []).
Proof.
  cbn [op_done]. unfold shift. cbn [w_low w_phase w_dev spi_exec].
  destruct (shift_out_vdm d data s addr block) as [a' E]. rewrite E. now eexists.
Qed.
Lemma put_failed s data f : exists p,
  op_failed d fill (mkWire s (PData addr block true None) true) (BWrite data) f =
  mkWire (burst_wr d s block addr (firstn (f_bytes f) data)) p true.
Proof.
  cbn [op_failed cut]. unfold shift. cbn [w_low w_phase w_dev spi_exec].
  destruct (shift_out_vdm d (firstn (f_bytes f) data) s addr block) as [a' E]. rewrite E. now eexists.
Qed.

(** The whole of an access, as a relation between failures, answer and wire. *)
Definition good_read (data : list Z) (s : St) (x : option (res derr (list Z)) * wire St * list (bop * fault)) : Prop :=
  let '(r, w', failed) := x in
  read_part d s (w_dev w') block addr data /\
  (failed = [] -> r = Some (Ok (snd (burst_rd d s block addr (length data)))) /\
    w_dev w' = fst (burst_rd d s block addr (length data)) /\ w_low w' = false).
Definition good_write (data : list Z) (s : St) (x : option (res derr (list Z)) * wire St * list (bop * fault)) : Prop :=
  let '(r, w', failed) := x in
  written_part d s (w_dev w') block addr data /\
  (failed = [] -> r = Some (Ok []) /\ w_dev w' = burst_wr d s block addr data /\ w_low w' = false).
(** With a pin that can be released, a failure is reported and leaves the wire ready. *)
Definition told_all (x : option (res derr (list Z)) * wire St * list (bop * fault)) : Prop :=
  let '(r, w', failed) := x in
  ready w' /\ forall o f rest, failed = (o, f) :: rest -> rest = [] /\ r = Some (Err (told o f)).
Definition told_some (x : option (res derr (list Z)) * wire St * list (bop * fault)) : Prop :=
  let '(r, w', failed) := x in failed <> [] -> exists e, r = Some (Err e).

Lemma rp_none s data : read_part d s s block addr data.
Proof. exists O. split; [lia|reflexivity]. Qed.
Lemma rp_all s data : read_part d s (fst (burst_rd d s block addr (length data))) block addr data.
Proof. eexists. split; [|reflexivity]. lia. Qed.
Lemma rp_part s data k : read_part d s (fst (burst_rd d s block addr (length (firstn k data)))) block addr data.
Proof. eexists. split; [|reflexivity]. rewrite firstn_length. lia. Qed.
Lemma wp_none s data : written_part d s s block addr data.
Proof. exists O. split; [lia|reflexivity]. Qed.
Lemma wp_all s data : written_part d s (burst_wr d s block addr data) block addr data.
Proof. exists (length data). rewrite firstn_all. split; [lia|reflexivity]. Qed.
Lemma wp_part s data k : written_part d s (burst_wr d s block addr (firstn k data)) block addr data.
Proof.
  exists (Nat.min k (length data)). split; [lia|].
  destruct (Nat.le_gt_cases k (length data)); [now rewrite Nat.min_l by lia|].
  rewrite Nat.min_r, firstn_all, firstn_all2 by lia. reflexivity.
Qed.


Ltac kase := match goal with |- context [match ?fs ?i ?o with Some _ => _ | None => _ end] =>
   lazymatch type of fs with faults => destruct (fs i o) as [?f|] eqn:? end end.

(** The frame between [set_low] and [set_high]. *)
Definition read_frame (data : list Z) : drv (res derr (list Z)) :=
  d_try (BWrite (vdm_header addr block ARead)) ESpi (fun _ => d_try (BTransfer data) ESpi (fun l => DRet (Ok l))).
Definition write_frame (data : list Z) : drv (res derr (list Z)) :=
  d_try (BWrite (vdm_header addr block AWrite)) ESpi (fun _ => d_try (BWrite data) ESpi (fun _ => DRet (Ok []))).

Definition frame_read_ok (data : list Z) (s : St) (r : res derr (list Z)) (w' : wire St) (e : list (bop * fault)) : Prop :=
  read_part d s (w_dev w') block addr data /\
  (e = [] /\ r = Ok (snd (burst_rd d s block addr (length data))) /\ w_dev w' = fst (burst_rd d s block addr (length data))
   \/ exists o f, e = [(o, f)] /\ r = Err (told o f)).
Definition frame_write_ok (data : list Z) (s : St) (r : res derr (list Z)) (w' : wire St) (e : list (bop * fault)) : Prop :=
  written_part d s (w_dev w') block addr data /\
  (e = [] /\ r = Ok [] /\ w_dev w' = burst_wr d s block addr data
   \/ exists o f, e = [(o, f)] /\ r = Err (told o f)).

(** Continuing after a frame. *)
Lemma drive_frame {B} (fr : drv (res derr (list Z))) (K : res derr (list Z) -> drv B) (P : res derr (list Z) -> wire St -> list (bop * fault) -> Prop) fs i s :
  (forall (k : res derr (list Z) -> drv B), exists r w' e j, P r w' e /\ drive d fill (dbind fr k) fs i (mkWire s (PHead []) true) =
     let '(a, w2, e2) := drive d fill (k r) fs j w' in (a, w2, e ++ e2)) ->
  exists r w' e j, P r w' e /\ drive d fill (dbind fr K) fs i (mkWire s (PHead []) true) =
     let '(a, w2, e2) := drive d fill (K r) fs j w' in (a, w2, e ++ e2).
Proof. auto. Qed.

Lemma read_frame_run {B} data (K : res derr (list Z) -> drv B) fs i s :
  exists r w' e j, frame_read_ok data s r w' e /\ drive d fill (dbind (read_frame data) K) fs i (mkWire s (PHead []) true) =
     let '(a, w2, e2) := drive d fill (K r) fs j w' in (a, w2, e ++ e2).
Proof.
  unfold read_frame, d_try. cbn [dbind drive]. kase.
  - destruct (hdr_failed ARead s f) as [p E]. rewrite E.
    exists (Err (ESpi (f_err f))), (mkWire s p true), [(BWrite (vdm_header addr block ARead), f)], (S i).
    split; [|reflexivity]. split; [apply rp_none|]. right. do 2 eexists. split; reflexivity.
  - rewrite hdr_done. cbn [dbind drive]. kase.
    + destruct (xfer_failed s data f) as [p E]. rewrite E.
      exists (Err (ESpi (f_err f))). eexists. exists [(BTransfer data, f)]. eexists. split; [|reflexivity]. split; [apply rp_part|]. right. do 2 eexists. split; reflexivity.
    + destruct (xfer_done s data) as [p E]. rewrite E.
      exists (Ok (snd (burst_rd d s block addr (length data)))), (mkWire (fst (burst_rd d s block addr (length data))) p true), [], (S (S i)).
      split; [split; [|left; repeat split]|cbn [dbind]; now destruct drive as [[? ?] ?]].
      apply rp_all.
Qed.
Lemma write_frame_run {B} data (K : res derr (list Z) -> drv B) fs i s :
  exists r w' e j, frame_write_ok data s r w' e /\ drive d fill (dbind (write_frame data) K) fs i (mkWire s (PHead []) true) =
     let '(a, w2, e2) := drive d fill (K r) fs j w' in (a, w2, e ++ e2).
Proof.
  unfold write_frame, d_try. cbn [dbind drive]. kase.
  - destruct (hdr_failed AWrite s f) as [p E]. rewrite E.
    exists (Err (ESpi (f_err f))), (mkWire s p true), [(BWrite (vdm_header addr block AWrite), f)], (S i).
    split; [|reflexivity]. split; [apply wp_none|]. right. do 2 eexists. split; reflexivity.
  - rewrite hdr_done. cbn [dbind drive]. kase.
    + destruct (put_failed s data f) as [p E]. rewrite E.
      exists (Err (ESpi (f_err f))). eexists. exists [(BWrite data, f)]. eexists. split; [|reflexivity]. split; [apply wp_part|]. right. do 2 eexists. split; reflexivity.
    + destruct (put_done s data) as [p E]. rewrite E.
      exists (Ok []), (mkWire (burst_wr d s block addr data) p true), [], (S (S i)).
      split; [split; [|left; repeat split]|cbn [dbind]; now destruct drive as [[? ?] ?]].
      apply wp_all.
Qed.

(** Any frame between the two edges. *)
Definition wrapped (P : res derr (list Z) -> wire St -> list (bop * fault) -> Prop) (s : St)
    (x : option (res derr (list Z)) * wire St * list (bop * fault)) : Prop :=
  let '(r, w', failed) := x in
  (exists f, failed = [(BLow, f)] /\ r = Some (Err (EPin (f_err f))) /\ ready w' /\ w_dev w' = s) \/
  (exists r1 w1 e1 e2, P r1 w1 e1 /\ failed = e1 ++ e2 /\ w_dev w' = w_dev w1 /\
    ((e2 = [] /\ r = Some r1 /\ w_low w' = false) \/ (exists f, e2 = [(BHigh, f)] /\ r = Some (Err (EPin (f_err f)))))).
Lemma enable_run P fr fs w : ready w ->
  (forall (K : res derr (list Z) -> drv (res derr (list Z))), exists r w' e j, P r w' e /\ drive d fill (dbind fr K) fs 1 (mkWire (w_dev w) (PHead []) true) =
     let '(a, w2, e2) := drive d fill (K r) fs j w' in (a, w2, e ++ e2)) ->
  wrapped P (w_dev w) (drive d fill (with_chip_enable fr) fs 0 w).
Proof.
  intros R F. unfold with_chip_enable, d_try. cbn [drive]. kase.
  - cbn [op_failed]. left. exists f. repeat split; destruct (f_moved f); try rewrite select_ready by assumption; auto.
    right. reflexivity.
  - cbn [op_done]. rewrite select_ready by assumption.
    edestruct F as (r & w' & e & j & HP & E). rewrite E. clear E. cbn [drive]. kase.
    + right. exists r, w', e. eexists. split; [exact HP|]. split; [reflexivity|]. cbn [op_failed].
      split; [destruct (f_moved f); reflexivity|]. right. exists f. split; reflexivity.
    + cbn [op_done drive]. kase.
      * right. exists r, w', e. eexists. split; [exact HP|]. split; [reflexivity|]. cbn [op_failed].
        split; [destruct (f_moved f); reflexivity|]. right. exists f. split; reflexivity.
      * right. exists r, w', e, []. split; [exact HP|]. split; [reflexivity|]. split; [reflexivity|]. left. repeat split.
Qed.
Definition pins_ok (fs : faults) : Prop := forall i, fs i BLow = None /\ fs i BHigh = None.
Lemma gpio_run P fr fs w : ready w -> pins_ok fs ->
  (forall (K : res derr (list Z) -> drv (res derr (list Z))), exists r w' e j, P r w' e /\ drive d fill (dbind fr K) fs 1 (mkWire (w_dev w) (PHead []) true) =
     let '(a, w2, e2) := drive d fill (K r) fs j w' in (a, w2, e ++ e2)) ->
  wrapped P (w_dev w) (drive d fill (with_chip_enable_gpio fr) fs 0 w).
Proof.
  intros R Hp F. unfold with_chip_enable_gpio, d_unwrap. cbn [drive].
  rewrite (proj1 (Hp 0%nat)). cbn [op_done]. rewrite select_ready by assumption.
  edestruct F as (r & w' & e & j & HP & E). rewrite E. clear E. cbn [drive].
  rewrite (proj2 (Hp j)). cbn [op_done drive]. rewrite (proj2 (Hp (S j))). cbn [op_done drive].
  right. exists r, w', e, []. split; [exact HP|]. split; [reflexivity|]. split; [reflexivity|]. left. repeat split.
Qed.

Lemma wrapped_read data s x : wrapped (frame_read_ok data s) s x -> good_read data s x.
Proof.
  destruct x as [[r w'] failed]. intros [(f & -> & -> & _ & E)|(r1 & w1 & e1 & e2 & [HP Q] & -> & Ew & H)].
  - split; [rewrite E; apply rp_none|discriminate].
  - split; [now rewrite Ew|]. intros E. apply app_eq_nil in E. destruct E as [-> ->].
    destruct Q as [(_ & -> & Q)|(? & ? & ? & _)]; [|discriminate].
    destruct H as [(_ & -> & H)|(? & ? & _)]; [|discriminate]. rewrite Ew. auto.
Qed.
Lemma wrapped_write data s x : wrapped (frame_write_ok data s) s x -> good_write data s x.
Proof.
  destruct x as [[r w'] failed]. intros [(f & -> & -> & _ & E)|(r1 & w1 & e1 & e2 & [HP Q] & -> & Ew & H)].
  - split; [rewrite E; apply wp_none|discriminate].
  - split; [now rewrite Ew|]. intros E. apply app_eq_nil in E. destruct E as [-> ->].
    destruct Q as [(_ & -> & Q)|(? & ? & ? & _)]; [|discriminate].
    destruct H as [(_ & -> & H)|(? & ? & _)]; [|discriminate]. rewrite Ew. auto.
Qed.
Definition one_told (r : res derr (list Z)) (w' : wire St) (e : list (bop * fault)) : Prop :=
  (e = [] /\ exists l, r = Ok l) \/ exists o f, e = [(o, f)] /\ r = Err (told o f).
Lemma wrapped_some s x : wrapped one_told s x -> told_some x.
Proof.
  destruct x as [[r w'] failed]. intros [(f & -> & -> & _ & E)|(r1 & w1 & e1 & e2 & Q & -> & Ew & H)] N.
  - eauto.
  - destruct H as [(-> & -> & _)|(f & -> & ->)]; [|eauto].
    destruct Q as [[-> _]|(o & f & -> & ->)]; [exfalso; apply N; reflexivity|eauto].
Qed.
Lemma wrapped_told s x : wrapped one_told s x -> ~ (exists f, In (BHigh, f) (snd x)) -> told_all x.
Proof.
  destruct x as [[r w'] failed]. cbn [snd].
  intros [(f & -> & -> & R & E)|(r1 & w1 & e1 & e2 & Q & -> & Ew & H)] N.
  - split; [exact R|]. intros o g rest E'. injection E' as <- <- <-. split; reflexivity.
  - destruct H as [(-> & -> & L)|(f & -> & ->)].
    + split; [left; exact L|]. rewrite app_nil_r. intros o f rest Ee.
      destruct Q as [[-> _]|(o' & f' & -> & ->)]; [discriminate|]. injection Ee as <- <- <-. split; reflexivity.
    + exfalso. apply N. exists f. apply in_or_app. right. left. reflexivity.
Qed.
Lemma wrapped_mono (P Q : res derr (list Z) -> wire St -> list (bop * fault) -> Prop) s x :
  (forall r w' e, P r w' e -> Q r w' e) -> wrapped P s x -> wrapped Q s x.
Proof.
  intros H. destruct x as [[r w'] failed]. intros [A|(r1 & w1 & e1 & e2 & HP & A)]; [left; exact A|right].
  exists r1, w1, e1, e2. split; [now apply H|exact A].
Qed.
Lemma read_told data s r w' e : frame_read_ok data s r w' e -> one_told r w' e.
Proof. intros [_ [(-> & -> & _)|H]]; [left; eauto|right; exact H]. Qed.
Lemma write_told data s r w' e : frame_write_ok data s r w' e -> one_told r w' e.
Proof. intros [_ [(-> & -> & _)|H]]; [left; eauto|right; exact H]. Qed.

Lemma eh0_vdm_read_run data fs w : ready w ->
  wrapped (frame_read_ok data (w_dev w)) (w_dev w) (drive d fill (eh0_vdm_read addr block data) fs 0 w).
Proof. intros R. apply enable_run; [exact R|]. intros K. apply read_frame_run. Qed.
Lemma eh0_vdm_write_run data fs w : ready w ->
  wrapped (frame_write_ok data (w_dev w)) (w_dev w) (drive d fill (eh0_vdm_write addr block data) fs 0 w).
Proof. intros R. apply enable_run; [exact R|]. intros K. apply write_frame_run. Qed.
Lemma eh0_gpio_read_run data fs w : ready w -> pins_ok fs ->
  wrapped (frame_read_ok data (w_dev w)) (w_dev w) (drive d fill (eh0_gpio_read addr block data) fs 0 w).
Proof. intros R Hp. apply gpio_run; [exact R|exact Hp|]. intros K. apply read_frame_run. Qed.
Lemma eh0_gpio_write_run data fs w : ready w -> pins_ok fs ->
  wrapped (frame_write_ok data (w_dev w)) (w_dev w) (drive d fill (eh0_gpio_write addr block data) fs 0 w).
Proof. intros R Hp. apply gpio_run; [exact R|exact Hp|]. intros K. apply write_frame_run. Qed.

(** [SpiDevice] *)
Lemma trans_read w (data : list Z) : ready w -> exists p,
  op_done d fill w (BTransaction [SWrite (vdm_header addr block ARead); SRead (zlen data)]) =
  (mkWire (fst (burst_rd d (w_dev w) block addr (length data))) p false, snd (burst_rd d (w_dev w) block addr (length data))).
Proof.
  intros R. cbn [op_done]. rewrite select_ready by assumption. unfold shift. cbn [w_low w_phase w_dev].
  destruct (vdm_read_exec d fill (w_dev w) addr block (zlen data) Ha Hb) as [p E]. unfold vdm_read in E. rewrite E.
  replace (Z.to_nat (zlen data)) with (length data) by (unfold zlen; lia). now exists p.
Qed.
Lemma trans_write w (data : list Z) : ready w -> exists p,
  op_done d fill w (BTransaction [SWrite (vdm_header addr block AWrite); SWrite data]) =
  (mkWire (burst_wr d (w_dev w) block addr data) p false, []).
Proof.
  intros R. cbn [op_done]. rewrite select_ready by assumption. unfold shift. cbn [w_low w_phase w_dev].
  destruct (vdm_write_exec d fill (w_dev w) addr block data Ha Hb) as [p E]. unfold vdm_write in E. rewrite E. now exists p.
Qed.
Lemma trans_read_failed w (data : list Z) f : ready w -> exists p k, (k <= length data)%nat /\
  op_failed d fill w (BTransaction [SWrite (vdm_header addr block ARead); SRead (zlen data)]) f =
  mkWire (fst (burst_rd d (w_dev w) block addr k)) p false.
Proof.
  intros R. cbn [op_failed cut]. rewrite select_ready by assumption. unfold shift. cbn [w_low w_phase w_dev].
  rewrite vdm_header_spec by lia. change (length (header_spec addr block ARead 0)) with 3%nat.
  destruct (shift_out_part_header (w_dev w) addr block ARead 0 (f_bytes f)) as [p [E Ep]].
  cbn [spi_exec]. rewrite E.
  destruct (Nat.le_gt_cases 3 (f_bytes f)) as [H|H].
  - rewrite Ep by lia. change (mode_len 0) with (@None Z).
    set (k := Z.to_nat (Z.min (zlen data) (Z.of_nat (f_bytes f - 3)))).
    destruct (shift_in_vdm d fill k (w_dev w) addr block) as [a' E2]. rewrite E2.
    do 2 eexists. split; [|reflexivity]. unfold k, zlen. lia.
  - replace (f_bytes f - 3)%nat with O by lia.
    replace (Z.to_nat (Z.min (zlen data) (Z.of_nat 0))) with O by lia. cbn [shift_in].
    exists p, O. split; [lia|reflexivity].
Qed.
Lemma trans_write_failed w (data : list Z) f : ready w -> exists p k,
  op_failed d fill w (BTransaction [SWrite (vdm_header addr block AWrite); SWrite data]) f =
  mkWire (burst_wr d (w_dev w) block addr (firstn k data)) p false.
Proof.
  intros R. cbn [op_failed cut]. rewrite select_ready by assumption. unfold shift. cbn [w_low w_phase w_dev].
  rewrite vdm_header_spec by lia. change (length (header_spec addr block AWrite 0)) with 3%nat.
  destruct (shift_out_part_header (w_dev w) addr block AWrite 0 (f_bytes f)) as [p [E Ep]].
  cbn [spi_exec]. rewrite E.
  destruct (Nat.le_gt_cases 3 (f_bytes f)) as [H|H].
  - rewrite Ep by lia. change (mode_len 0) with (@None Z).
    destruct (shift_out_vdm d (firstn (f_bytes f - 3) data) (w_dev w) addr block) as [a' E2]. rewrite E2.
    do 2 eexists. reflexivity.
  - replace (f_bytes f - 3)%nat with O by lia. cbn [firstn shift_out]. exists p, O. reflexivity.
Qed.
Lemma eh1_read_run data fs w : ready w ->
  let x := drive d fill (eh1_vdm_read addr block data) fs 0 w in good_read data (w_dev w) x /\ told_all x /\ told_some x.
Proof.
  intros R. unfold eh1_vdm_read, d_try. cbn [drive]. kase.
  - destruct (trans_read_failed w data f R) as (p & k & Hk & E). rewrite E. cbn [drive].
    split; [split; [exists k; auto|discriminate]|]. split; [|cbn; eauto].
    split; [left; reflexivity|]. intros o g rest E'. injection E' as <- <- <-. split; reflexivity.
  - destruct (trans_read w data R) as [p E]. rewrite E. cbn [drive].
    split; [split; [apply rp_all|auto]|]. split; [|cbn; congruence]. split; [left; reflexivity|discriminate].
Qed.
Lemma eh1_write_run data fs w : ready w ->
  let x := drive d fill (eh1_vdm_write addr block data) fs 0 w in good_write data (w_dev w) x /\ told_all x /\ told_some x.
Proof.
  intros R. unfold eh1_vdm_write, d_try. cbn [drive]. kase.
  - destruct (trans_write_failed w data f R) as (p & k & E). rewrite E. cbn [drive].
    split; [split; [apply wp_part|discriminate]|]. split; [|cbn; eauto].
    split; [left; reflexivity|]. intros o g rest E'. injection E' as <- <- <-. split; reflexivity.
  - destruct (trans_write w data R) as [p E]. rewrite E. cbn [drive].
    split; [split; [apply wp_all|auto]|]. split; [|cbn; congruence]. split; [left; reflexivity|discriminate].
Qed.
Lemma eh0_infallible_read_run data w : ready w -> good_read data (w_dev w) (drive d fill (eh0_infallible_read addr block data) no_fault 0 w).
Proof.
  intros R. unfold eh0_infallible_read, d_unwrap, d_try. cbn [drive no_fault op_done]. rewrite select_ready by assumption.
  pose proof (hdr_done ARead (w_dev w)) as Hh. cbn [op_done] in Hh. rewrite Hh. cbn [drive no_fault].
  destruct (xfer_done (w_dev w) data) as [p E]. cbn [op_done] in E. rewrite E. cbn.
  split; [apply rp_all|auto].
Qed.
Lemma eh0_infallible_write_run data w : ready w -> good_write data (w_dev w) (drive d fill (eh0_infallible_write addr block data) no_fault 0 w).
Proof.
  intros R. unfold eh0_infallible_write, d_unwrap, d_try. cbn [drive no_fault op_done]. rewrite select_ready by assumption.
  pose proof (hdr_done AWrite (w_dev w)) as Hh. cbn [op_done] in Hh. rewrite Hh. cbn [drive no_fault].
  destruct (put_done (w_dev w) data) as [p E]. cbn [op_done] in E. rewrite E. cbn.
  split; [apply wp_all|auto].
Qed.
End Access.

Lemma exchange_fdm l : forall s addr block, l <> [] ->
  exchange d (PData addr block false (Some (zlen l))) s l =
  (PHead [], fst (burst_rd d s block addr (length l)), snd (burst_rd d s block addr (length l))).
Proof.
  induction l as [|b l IH]; intros s addr block Hl; [congruence|].
  cbn [exchange burst_rd clock length]. destruct (dv_rd d s block addr) as [s1 v]. unfold next_phase. rewrite zlen_cons.
  destruct l as [|b2 l].
  - reflexivity.
  - destruct (Z.leb_spec (zlen (b2 :: l) + 1) 1).
    + rewrite zlen_cons in *. pose proof (zlen_nonneg l). lia.
    + replace (zlen (b2 :: l) + 1 - 1) with (zlen (b2 :: l)) by lia. rewrite IH by discriminate.
      destruct (burst_rd d s1 block ((addr + 1) mod 65536) (length (b2 :: l))); reflexivity.
Qed.
Lemma exchange_part l : forall s addr block n, zlen l <= n ->
  exists p, exchange d (PData addr block false (Some n)) s l =
  (p, fst (burst_rd d s block addr (length l)), snd (burst_rd d s block addr (length l))).
Proof.
  induction l as [|b l IH]; intros s addr block n Hl; cbn [exchange burst_rd clock length].
  - now eexists.
  - rewrite zlen_cons in Hl. pose proof (zlen_nonneg l). destruct (dv_rd d s block addr) as [s1 v]. unfold next_phase.
    destruct (Z.leb_spec n 1).
    + assert (l = []) as -> by (destruct l; [reflexivity|rewrite zlen_cons in *; pose proof (zlen_nonneg l); lia]). now eexists.
    + destruct (IH s1 ((addr + 1) mod 65536) block (n - 1)) as [p E]; [lia|]. rewrite E.
      exists p. destruct (burst_rd d s1 block ((addr + 1) mod 65536) (length l)); reflexivity.
Qed.
Lemma shift_in_part m : forall s addr block n, Z.of_nat m <= n ->
  exists p, shift_in d fill (PData addr block false (Some n)) s m =
  (p, fst (burst_rd d s block addr m), snd (burst_rd d s block addr m)).
Proof.
  induction m as [|m IH]; intros s addr block n Hm; cbn [shift_in burst_rd clock].
  - now eexists.
  - destruct (dv_rd d s block addr) as [s1 v]. unfold next_phase.
    destruct (Z.leb_spec n 1).
    + assert (m = O) as -> by lia. now eexists.
    + destruct (IH s1 ((addr + 1) mod 65536) block (n - 1)) as [p E]; [lia|]. rewrite E.
      exists p. destruct (burst_rd d s1 block ((addr + 1) mod 65536) m); reflexivity.
Qed.
Lemma shift_out_part l : forall s addr block n, zlen l <= n ->
  exists p, shift_out d (PData addr block true (Some n)) s l = (p, burst_wr d s block addr l).
Proof.
  induction l as [|b l IH]; intros s addr block n Hl; cbn [shift_out burst_wr clock].
  - now eexists.
  - rewrite zlen_cons in Hl. pose proof (zlen_nonneg l). unfold next_phase.
    destruct (Z.leb_spec n 1).
    + assert (l = []) as -> by (destruct l; [reflexivity|rewrite zlen_cons in *; pose proof (zlen_nonneg l); lia]). now eexists.
    + apply IH. lia.
Qed.

Definition mk_ok (mk : list Z -> bop) : Prop := forall s addr block c, c <> [] ->
  op_done d fill (mkWire s (PData addr block false (Some (zlen c))) true) (mk c) =
    (mkWire (fst (burst_rd d s block addr (length c))) (PHead []) true, snd (burst_rd d s block addr (length c))) /\
  (forall f, told (mk c) f = ESpi (f_err f) /\ exists p k, (k <= length c)%nat /\
    op_failed d fill (mkWire s (PData addr block false (Some (zlen c))) true) (mk c) f = mkWire (fst (burst_rd d s block addr k)) p true).
Lemma mk_transfer : mk_ok BTransfer.
Proof.
  intros s addr block c Hc. cbn [op_done op_failed]. unfold swap. cbn [w_low w_phase w_dev].
  rewrite exchange_fdm by assumption. split; [reflexivity|]. intros f. split; [reflexivity|].
  destruct (exchange_part (firstn (f_bytes f) c) s addr block (zlen c)) as [p E].
  { unfold zlen. rewrite firstn_length. lia. }
  rewrite E. do 2 eexists. split; [|reflexivity]. rewrite firstn_length. lia.
Qed.
Lemma mk_read : mk_ok (fun chunk => BRead (zlen chunk)).
Proof.
  intros s addr block c Hc. cbn [op_done op_failed cut]. unfold shift. cbn [w_low w_phase w_dev spi_exec].
  pose proof (zlen_nonneg c). assert (0 < length c)%nat by (destruct c; [congruence|cbn; lia]).
  replace (Z.to_nat (zlen c)) with (length c) by (unfold zlen; lia).
  unfold zlen at 1. rewrite shift_in_fdm by assumption. rewrite app_nil_r. split; [reflexivity|].
  intros f. split; [reflexivity|].
  destruct (shift_in_part (Z.to_nat (Z.min (zlen c) (Z.of_nat (f_bytes f)))) s addr block (zlen c)) as [p E]; [lia|].
  rewrite E. do 2 eexists. split; [|reflexivity]. unfold zlen. lia.
Qed.

Definition fdm_read_good (s : St) (block addr : Z) (data got : list Z) (x : option (res derr (list Z)) * wire St * list (bop * fault)) : Prop :=
  let '(r, w', failed) := x in
  read_part d s (w_dev w') block addr data /\
  (failed = [] -> r = Some (Ok (got ++ snd (burst_rd d s block addr (length data)))) /\
    w' = mkWire (fst (burst_rd d s block addr (length data))) (PHead []) true) /\
  (forall o f rest, failed = (o, f) :: rest -> rest = [] /\ r = Some (Err (told o f))).
Definition fdm_write_good (s : St) (block addr : Z) (data : list Z) (x : option (res derr (list Z)) * wire St * list (bop * fault)) : Prop :=
  let '(r, w', failed) := x in
  written_part d s (w_dev w') block addr data /\
  (failed = [] -> r = Some (Ok []) /\ w' = mkWire (burst_wr d s block addr data) (PHead []) true) /\
  (forall o f rest, failed = (o, f) :: rest -> rest = [] /\ r = Some (Err (told o f))).

Lemma fst_burst_app s block addr a b : 0 <= addr < 65536 ->
  fst (burst_rd d s block addr (a + b)) = fst (burst_rd d (fst (burst_rd d s block addr a)) block ((addr + Z.of_nat a) mod 65536) b) /\
  snd (burst_rd d s block addr (a + b)) = snd (burst_rd d s block addr a) ++ snd (burst_rd d (fst (burst_rd d s block addr a)) block ((addr + Z.of_nat a) mod 65536) b).
Proof.
  intros H. rewrite burst_rd_app by assumption. destruct (burst_rd d s block addr a) as [s1 l1]. cbn [fst snd].
  destruct (burst_rd d s1 block ((addr + Z.of_nat a) mod 65536) b). split; reflexivity.
Qed.

Lemma fdm_step_read mk s addr block c r om hdr got fs i K : mk_ok mk ->
  0 <= addr < 65536 -> 0 <= block < 32 -> c <> [] -> 0 <= om < 4 -> mode_len om = Some (zlen c) ->
  hdr = header_spec addr block ARead om ->
  (forall s' got', fdm_read_good s' block (wadd addr (zlen c)) r got' (drive d fill (K got') fs (S (S i)) (mkWire s' (PHead []) true))) ->
  fdm_read_good s block addr (c ++ r) got (drive d fill (fdm_step hdr (mk c) (fun l => K (got ++ l))) fs i (mkWire s (PHead []) true)).
Proof.
  intros Hmk Ha Hb Hc Ho Hm -> HK. unfold fdm_step, d_try. cbn [drive].
  destruct (fs i _) as [f|].
  - cbn [op_failed cut]. unfold shift. cbn [w_low w_phase w_dev spi_exec].
    destruct (shift_out_part_header s addr block ARead om (f_bytes f)) as [p [E _]]. rewrite E. cbn.
    split; [exists O; split; [lia|reflexivity]|]. split; [discriminate|].
    intros o g rest Ee. injection Ee as <- <- <-. split; reflexivity.
  - cbn [op_done]. unfold shift. cbn [w_low w_phase w_dev spi_exec].
    rewrite shift_out_header by lia. rewrite Hm. cbn [drive].
    destruct (Hmk s addr block c Hc) as [Hd Hf].
    destruct (fs (S i) (mk c)) as [f|].
    + destruct (Hf f) as [Ht (p & k & Hk & E)]. rewrite E. cbn.
      split; [exists k; split; [rewrite app_length; lia|reflexivity]|]. split; [discriminate|].
      intros o g rest Ee. injection Ee as <- <- <-. rewrite Ht. split; reflexivity.
    + rewrite Hd. specialize (HK (fst (burst_rd d s block addr (length c))) (got ++ snd (burst_rd d s block addr (length c)))).
      destruct (drive d fill (K _) fs (S (S i)) _) as [[r' w'] failed]. destruct HK as (Hp & Hn & Ht).
      assert (wadd addr (zlen c) = (addr + Z.of_nat (length c)) mod 65536) as Ew by reflexivity. rewrite Ew in *.
      split; [|split].
      * destruct Hp as (k & Hk & Hs). exists (length c + k)%nat. split; [rewrite app_length; lia|].
        rewrite (proj1 (fst_burst_app s block addr (length c) k Ha)). exact Hs.
      * intros Hf0. destruct (Hn Hf0) as [-> ->]. rewrite app_length.
        destruct (fst_burst_app s block addr (length c) (length r) Ha) as [-> ->]. now rewrite app_assoc.
      * exact Ht.
Qed.
Lemma fdm_step_write s addr block c r om hdr fs i K :
  0 <= addr < 65536 -> 0 <= block < 32 -> c <> [] -> 0 <= om < 4 -> mode_len om = Some (zlen c) ->
  hdr = header_spec addr block AWrite om ->
  (forall s', fdm_write_good s' block (wadd addr (zlen c)) r (drive d fill K fs (S (S i)) (mkWire s' (PHead []) true))) ->
  fdm_write_good s block addr (c ++ r) (drive d fill (fdm_step hdr (BWrite c) (fun _ => K)) fs i (mkWire s (PHead []) true)).
Proof.
  intros Ha Hb Hc Ho Hm -> HK. unfold fdm_step, d_try. cbn [drive].
  destruct (fs i _) as [f|].
  - cbn [op_failed cut]. unfold shift. cbn [w_low w_phase w_dev spi_exec].
    destruct (shift_out_part_header s addr block AWrite om (f_bytes f)) as [p [E _]]. rewrite E. cbn.
    split; [exists O; split; [lia|reflexivity]|]. split; [discriminate|].
    intros o g rest Ee. injection Ee as <- <- <-. split; reflexivity.
  - cbn [op_done]. unfold shift. cbn [w_low w_phase w_dev spi_exec].
    rewrite shift_out_header by lia. rewrite Hm. cbn [drive].
    destruct (fs (S i) (BWrite c)) as [f|].
    + cbn [op_failed cut]. unfold shift. cbn [w_low w_phase w_dev spi_exec].
      destruct (shift_out_part (firstn (f_bytes f) c) s addr block (zlen c)) as [p E].
      { unfold zlen. rewrite firstn_length. lia. }
      rewrite E. cbn. split.
      * exists (Nat.min (f_bytes f) (length c)). split; [rewrite app_length; lia|].
        f_equal. rewrite firstn_app. replace (Nat.min (f_bytes f) (length c) - length c)%nat with O by lia.
        cbn [firstn]. rewrite app_nil_r.
        destruct (Nat.le_gt_cases (f_bytes f) (length c)); [now rewrite Nat.min_l by lia|].
        rewrite Nat.min_r, firstn_all, firstn_all2 by lia. reflexivity.
      * split; [discriminate|]. intros o g rest Ee. injection Ee as <- <- <-. split; reflexivity.
    + cbn [op_done]. unfold shift. cbn [w_low w_phase w_dev spi_exec]. rewrite shift_out_fdm by assumption.
      specialize (HK (burst_wr d s block addr c)).
      destruct (drive d fill K fs (S (S i)) _) as [[r' w'] failed]. destruct HK as (Hp & Hn & Ht).
      assert (wadd addr (zlen c) = (addr + zlen c) mod 65536) as Ew by reflexivity. rewrite Ew in *.
      split; [|split].
      * destruct Hp as (k & Hk & Hs). exists (length c + k)%nat. split; [rewrite app_length; lia|].
        rewrite firstn_app_2. rewrite burst_wr_app by assumption. exact Hs.
      * intros Hf0. destruct (Hn Hf0) as [-> ->]. rewrite burst_wr_app by assumption. auto.
      * exact Ht.
Qed.

Lemma fdm_read_run mk fuel : mk_ok mk -> forall s addr block data got fs i,
  0 <= addr < 65536 -> 0 <= block < 32 -> (length data <= fuel)%nat ->
  fdm_read_good s block addr data got (drive d fill (fdm_read_chunks mk fuel addr block data got) fs i (mkWire s (PHead []) true)).
Proof.
  intros Hmk. induction fuel as [|fuel IH]; intros s addr block data got fs i Ha Hb Hn.
  - destruct data; cbn [length] in Hn; [|lia]. cbn. rewrite app_nil_r.
    repeat split; try discriminate. exists O. split; [lia|reflexivity].
  - assert (Hnil : fdm_read_good s block addr [] got (Some (Ok got), mkWire s (PHead []) true, [])).
    { cbn. rewrite app_nil_r. repeat split; try discriminate. exists O. split; [lia|reflexivity]. }
    assert (forall k, 0 <= wadd addr k < 65536) as Hw by (intros; unfold wadd; lia).
    cbn [fdm_read_chunks]. destruct data as [|a [|b [|c [|e r]]]]; cbn [length] in Hn.
    + exact Hnil.
    + eapply (fdm_step_read mk s addr block [a] [] 1); try lia; auto; try discriminate; [apply fdm_header_1b_spec; lia|].
      intros. apply IH; auto. cbn; lia.
    + eapply (fdm_step_read mk s addr block [a; b] [] 2); try lia; auto; try discriminate; [apply fdm_header_2b_spec; lia|].
      intros. apply IH; auto. cbn; lia.
    + eapply (fdm_step_read mk s addr block [a; b] [c] 2); try lia; auto; try discriminate; [apply fdm_header_2b_spec; lia|].
      intros. apply IH; auto. cbn; lia.
    + eapply (fdm_step_read mk s addr block [a; b; c; e] r 3); try lia; auto; try discriminate; [apply fdm_header_4b_spec; lia|].
      intros. apply IH; auto. lia.
Qed.
Lemma fdm_write_run fuel : forall s addr block data fs i,
  0 <= addr < 65536 -> 0 <= block < 32 -> (length data <= fuel)%nat ->
  fdm_write_good s block addr data (drive d fill (fdm_write_chunks fuel addr block data) fs i (mkWire s (PHead []) true)).
Proof.
  induction fuel as [|fuel IH]; intros s addr block data fs i Ha Hb Hn.
  - destruct data; cbn [length] in Hn; [|lia]. cbn.
    repeat split; try discriminate. exists O. split; [lia|reflexivity].
  - assert (Hnil : fdm_write_good s block addr [] (Some (Ok []), mkWire s (PHead []) true, [])).
    { cbn. repeat split; try discriminate. exists O. split; [lia|reflexivity]. }
    assert (forall k, 0 <= wadd addr k < 65536) as Hw by (intros; unfold wadd; lia).
    cbn [fdm_write_chunks]. destruct data as [|a [|b [|c [|e r]]]]; cbn [length] in Hn.
    + exact Hnil.
    + eapply (fdm_step_write s addr block [a] [] 1); try lia; auto; try discriminate; [apply fdm_header_1b_spec; lia|].
      intros. apply IH; auto. cbn; lia.
    + eapply (fdm_step_write s addr block [a; b] [] 2); try lia; auto; try discriminate; [apply fdm_header_2b_spec; lia|].
      intros. apply IH; auto. cbn; lia.
    + eapply (fdm_step_write s addr block [a; b] [c] 2); try lia; auto; try discriminate; [apply fdm_header_2b_spec; lia|].
      intros. apply IH; auto. cbn; lia.
    + eapply (fdm_step_write s addr block [a; b; c; e] r 3); try lia; auto; try discriminate; [apply fdm_header_4b_spec; lia|].
      intros. apply IH; auto. lia.
Qed.
End Dev.
