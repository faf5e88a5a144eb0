From Verif Require Import Proof.Base Model.Bus Model.Specifiers Model.LlAddr Model.Chip Model.Spi Model.Drivers Spec.SpiBus Spec.Drivers Proof.SpiP Proof.DriversP.
From Verif Require Model.Ll Model.LlAio.

Lemma aio_same :
  (same (LlAio.mr) (Ll.mr)) /\
  (forall v, same (LlAio.set_mr v) (Ll.set_mr v)) /\
  (same (LlAio.gar) (Ll.gar)) /\
  (forall v, same (LlAio.set_gar v) (Ll.set_gar v)) /\
  (same (LlAio.subr) (Ll.subr)) /\
  (forall v, same (LlAio.set_subr v) (Ll.set_subr v)) /\
  (same (LlAio.shar) (Ll.shar)) /\
  (forall v, same (LlAio.set_shar v) (Ll.set_shar v)) /\
  (same (LlAio.sipr) (Ll.sipr)) /\
  (forall v, same (LlAio.set_sipr v) (Ll.set_sipr v)) /\
  (same (LlAio.intlevel) (Ll.intlevel)) /\
  (forall v, same (LlAio.set_intlevel v) (Ll.set_intlevel v)) /\
  (same (LlAio.ir) (Ll.ir)) /\
  (forall v, same (LlAio.set_ir v) (Ll.set_ir v)) /\
  (same (LlAio.imr) (Ll.imr)) /\
  (forall v, same (LlAio.set_imr v) (Ll.set_imr v)) /\
  (same (LlAio.sir) (Ll.sir)) /\
  (same (LlAio.simr) (Ll.simr)) /\
  (forall v, same (LlAio.set_simr v) (Ll.set_simr v)) /\
  (same (LlAio.rtr) (Ll.rtr)) /\
  (forall v, same (LlAio.set_rtr v) (Ll.set_rtr v)) /\
  (same (LlAio.rcr) (Ll.rcr)) /\
  (forall v, same (LlAio.set_rcr v) (Ll.set_rcr v)) /\
  (same (LlAio.ptimer) (Ll.ptimer)) /\
  (forall v, same (LlAio.set_ptimer v) (Ll.set_ptimer v)) /\
  (same (LlAio.pmagic) (Ll.pmagic)) /\
  (forall v, same (LlAio.set_pmagic v) (Ll.set_pmagic v)) /\
  (same (LlAio.phar) (Ll.phar)) /\
  (forall v, same (LlAio.set_phar v) (Ll.set_phar v)) /\
  (same (LlAio.psid) (Ll.psid)) /\
  (forall v, same (LlAio.set_psid v) (Ll.set_psid v)) /\
  (same (LlAio.pmru) (Ll.pmru)) /\
  (forall v, same (LlAio.set_pmru v) (Ll.set_pmru v)) /\
  (same (LlAio.uipr) (Ll.uipr)) /\
  (same (LlAio.uportr) (Ll.uportr)) /\
  (same (LlAio.phycfgr) (Ll.phycfgr)) /\
  (forall v, same (LlAio.set_phycfgr v) (Ll.set_phycfgr v)) /\
  (same (LlAio.version) (Ll.version)) /\
  (forall sn, same (LlAio.sn_mr sn) (Ll.sn_mr sn)) /\
  (forall sn v, same (LlAio.set_sn_mr sn v) (Ll.set_sn_mr sn v)) /\
  (forall sn, same (LlAio.sn_cr sn) (Ll.sn_cr sn)) /\
  (forall sn v, same (LlAio.set_sn_cr sn v) (Ll.set_sn_cr sn v)) /\
  (forall sn, same (LlAio.sn_ir sn) (Ll.sn_ir sn)) /\
  (forall sn v, same (LlAio.set_sn_ir sn v) (Ll.set_sn_ir sn v)) /\
  (forall sn, same (LlAio.sn_sr sn) (Ll.sn_sr sn)) /\
  (forall sn, same (LlAio.sn_port sn) (Ll.sn_port sn)) /\
  (forall sn v, same (LlAio.set_sn_port sn v) (Ll.set_sn_port sn v)) /\
  (forall sn, same (LlAio.sn_dhar sn) (Ll.sn_dhar sn)) /\
  (forall sn v, same (LlAio.set_sn_dhar sn v) (Ll.set_sn_dhar sn v)) /\
  (forall sn, same (LlAio.sn_dipr sn) (Ll.sn_dipr sn)) /\
  (forall sn v, same (LlAio.set_sn_dipr sn v) (Ll.set_sn_dipr sn v)) /\
  (forall sn, same (LlAio.sn_dport sn) (Ll.sn_dport sn)) /\
  (forall sn v, same (LlAio.set_sn_dport sn v) (Ll.set_sn_dport sn v)) /\
  (forall sn, same (LlAio.sn_dest sn) (Ll.sn_dest sn)) /\
  (forall sn v, same (LlAio.set_sn_dest sn v) (Ll.set_sn_dest sn v)) /\
  (forall sn, same (LlAio.sn_mssr sn) (Ll.sn_mssr sn)) /\
  (forall sn v, same (LlAio.set_sn_mssr sn v) (Ll.set_sn_mssr sn v)) /\
  (forall sn, same (LlAio.sn_tos sn) (Ll.sn_tos sn)) /\
  (forall sn v, same (LlAio.set_sn_tos sn v) (Ll.set_sn_tos sn v)) /\
  (forall sn, same (LlAio.sn_ttl sn) (Ll.sn_ttl sn)) /\
  (forall sn v, same (LlAio.set_sn_ttl sn v) (Ll.set_sn_ttl sn v)) /\
  (forall sn, same (LlAio.sn_rxbuf_size sn) (Ll.sn_rxbuf_size sn)) /\
  (forall sn v, same (LlAio.set_sn_rxbuf_size sn v) (Ll.set_sn_rxbuf_size sn v)) /\
  (forall sn, same (LlAio.sn_txbuf_size sn) (Ll.sn_txbuf_size sn)) /\
  (forall sn v, same (LlAio.set_sn_txbuf_size sn v) (Ll.set_sn_txbuf_size sn v)) /\
  (forall sn, same (LlAio.sn_tx_fsr sn) (Ll.sn_tx_fsr sn)) /\
  (forall sn, same (LlAio.sn_tx_rd sn) (Ll.sn_tx_rd sn)) /\
  (forall sn, same (LlAio.sn_tx_wr sn) (Ll.sn_tx_wr sn)) /\
  (forall sn v, same (LlAio.set_sn_tx_wr sn v) (Ll.set_sn_tx_wr sn v)) /\
  (forall sn, same (LlAio.sn_tx_ptrs sn) (Ll.sn_tx_ptrs sn)) /\
  (forall sn, same (LlAio.sn_rx_rsr sn) (Ll.sn_rx_rsr sn)) /\
  (forall sn, same (LlAio.sn_rx_rd sn) (Ll.sn_rx_rd sn)) /\
  (forall sn v, same (LlAio.set_sn_rx_rd sn v) (Ll.set_sn_rx_rd sn v)) /\
  (forall sn, same (LlAio.sn_rx_wr sn) (Ll.sn_rx_wr sn)) /\
  (forall sn, same (LlAio.sn_rx_ptrs sn) (Ll.sn_rx_ptrs sn)) /\
  (forall sn, same (LlAio.sn_imr sn) (Ll.sn_imr sn)) /\
  (forall sn v, same (LlAio.set_sn_imr sn v) (Ll.set_sn_imr sn v)) /\
  (forall sn, same (LlAio.sn_frag sn) (Ll.sn_frag sn)) /\
  (forall sn v, same (LlAio.set_sn_frag sn v) (Ll.set_sn_frag sn v)) /\
  (forall sn, same (LlAio.sn_kpalvtr sn) (Ll.sn_kpalvtr sn)) /\
  (forall sn v, same (LlAio.set_sn_kpalvtr sn v) (Ll.set_sn_kpalvtr sn v)) /\
  (forall sn ptr buf, same (LlAio.set_sn_tx_buf sn ptr buf) (Ll.set_sn_tx_buf sn ptr buf)) /\
  (forall sn ptr len, same (LlAio.sn_tx_buf sn ptr len) (Ll.sn_tx_buf sn ptr len)) /\
  (forall sn ptr len, same (LlAio.sn_rx_buf sn ptr len) (Ll.sn_rx_buf sn ptr len)) /\
  (forall sn ptr buf, same (LlAio.set_sn_rx_buf sn ptr buf) (Ll.set_sn_rx_buf sn ptr buf)).
Proof. repeat split; intros; intros sch c; reflexivity. Qed.

Section Final.
Context {St : Type} (d : device St) (fill : Z).
Variables (w : wire St) (addr block : Z) (data : list Z).
Hypotheses (Ha : 0 <= addr < 65536) (Hb : 0 <= block < 32).

Definition read_done (s : St) (x : option (res derr (list Z)) * wire St * list (bop * fault)) (idle : wire St -> Prop) : Prop :=
  let '(r, w', failed) := x in
  failed = [] /\ r = Some (Ok (snd (burst_rd d s block addr (length data)))) /\
  w_dev w' = fst (burst_rd d s block addr (length data)) /\ idle w'.

Lemma no_failed {A} (p : drv A) : forall i w, snd (drive d fill p no_fault i w) = [].
Proof.
  induction p as [a|o k IH|]; intros i w0; cbn; try reflexivity.
  destruct (op_done d fill w0 o) as [w1 l]. apply IH.
Qed.

Lemma vdm_read_all : ready w -> Forall (fun p : driver =>
  exists w', drive d fill (p addr block data) no_fault 0 w = (Some (Ok (snd (burst_rd d (w_dev w) block addr (length data)))), w', []) /\
    w_dev w' = fst (burst_rd d (w_dev w) block addr (length data)) /\ w_low w' = false) vdm_reads.
Proof.
  intros R.
  assert (forall p : driver, good_read d addr block data (w_dev w) (drive d fill (p addr block data) no_fault 0 w) ->
    exists w', drive d fill (p addr block data) no_fault 0 w = (Some (Ok (snd (burst_rd d (w_dev w) block addr (length data)))), w', []) /\
    w_dev w' = fst (burst_rd d (w_dev w) block addr (length data)) /\ w_low w' = false) as G.
  { intros p H. pose proof (no_failed (p addr block data) 0 w) as N.
    destruct (drive d fill (p addr block data) no_fault 0 w) as [[r w'] f]. cbn in N. subst f.
    destruct H as [_ H]. destruct (H eq_refl) as (-> & E & L). exists w'. auto. }
  assert (pins_ok no_fault) as Hp by (split; reflexivity).
  repeat (apply Forall_cons; [|]); [..|apply Forall_nil]; apply G.
  - now apply (wrapped_read d addr block), eh0_vdm_read_run.
  - now apply (wrapped_read d addr block), eh0_gpio_read_run.
  - now apply eh0_infallible_read_run.
  - now apply eh1_read_run.
  - now apply (eh1_read_run d fill addr block).
Qed.
Lemma vdm_write_all : ready w -> Forall (fun p : driver =>
  exists w', drive d fill (p addr block data) no_fault 0 w = (Some (Ok []), w', []) /\
    w_dev w' = burst_wr d (w_dev w) block addr data /\ w_low w' = false) vdm_writes.
Proof.
  intros R.
  assert (forall p : driver, good_write d addr block data (w_dev w) (drive d fill (p addr block data) no_fault 0 w) ->
    exists w', drive d fill (p addr block data) no_fault 0 w = (Some (Ok []), w', []) /\
    w_dev w' = burst_wr d (w_dev w) block addr data /\ w_low w' = false) as G.
  { intros p H. pose proof (no_failed (p addr block data) 0 w) as N.
    destruct (drive d fill (p addr block data) no_fault 0 w) as [[r w'] f]. cbn in N. subst f.
    destruct H as [_ H]. destruct (H eq_refl) as (-> & E & L). exists w'. auto. }
  assert (pins_ok no_fault) as Hp by (split; reflexivity).
  repeat (apply Forall_cons; [|]); [..|apply Forall_nil]; apply G.
  - now apply (wrapped_write d addr block), eh0_vdm_write_run.
  - now apply (wrapped_write d addr block), eh0_gpio_write_run.
  - now apply eh0_infallible_write_run.
  - now apply eh1_write_run.
  - now apply (eh1_write_run d fill addr block).
Qed.
Lemma tied_eq : tied w -> w = mkWire (w_dev w) (PHead []) true.
Proof. destruct w as [s p l]. intros [E1 E2]. cbn in *. now subst. Qed.
Lemma fdm_read_all : tied w -> Forall (fun p : driver =>
  exists w', drive d fill (p addr block data) no_fault 0 w = (Some (Ok (snd (burst_rd d (w_dev w) block addr (length data)))), w', []) /\
    w_dev w' = fst (burst_rd d (w_dev w) block addr (length data)) /\ tied w') fdm_reads.
Proof.
  intros T. rewrite (tied_eq T). cbn [w_dev].
  assert (forall mk, mk_ok d fill mk -> exists w',
    drive d fill (fdm_read_chunks mk (length data) addr block data []) no_fault 0 (mkWire (w_dev w) (PHead []) true) =
     (Some (Ok (snd (burst_rd d (w_dev w) block addr (length data)))), w', []) /\
    w_dev w' = fst (burst_rd d (w_dev w) block addr (length data)) /\ tied w') as G.
  { intros mk Hmk. pose proof (fdm_read_run d fill mk (length data) Hmk (w_dev w) addr block data [] no_fault 0 Ha Hb (le_n _)) as H.
    pose proof (no_failed (fdm_read_chunks mk (length data) addr block data []) 0 (mkWire (w_dev w) (PHead []) true)) as N.
    destruct drive as [[r w'] f]. cbn in N. subst f. destruct H as (_ & H & _). destruct (H eq_refl) as [-> ->].
    eexists. split; [reflexivity|]. split; [reflexivity|]. split; reflexivity. }
  repeat (apply Forall_cons; [|]); [..|apply Forall_nil]; apply G; [apply mk_transfer|apply mk_read].
Qed.
Lemma fdm_write_all : tied w -> Forall (fun p : driver =>
  exists w', drive d fill (p addr block data) no_fault 0 w = (Some (Ok []), w', []) /\
    w_dev w' = burst_wr d (w_dev w) block addr data /\ tied w') fdm_writes.
Proof.
  intros T. rewrite (tied_eq T). cbn [w_dev].
  pose proof (fdm_write_run d fill (length data) (w_dev w) addr block data no_fault 0 Ha Hb (le_n _)) as H.
  pose proof (no_failed (fdm_write_chunks (length data) addr block data) 0 (mkWire (w_dev w) (PHead []) true)) as N.
  repeat (apply Forall_cons; [|]); [..|apply Forall_nil]; unfold eh0_fdm_write, eh1_fdm_write;
  destruct drive as [[r w'] f]; cbn in N; subst f; destruct H as (_ & H & _); destruct (H eq_refl) as [-> ->];
    (eexists; split; [reflexivity|]; split; [reflexivity|]; split; reflexivity).
Qed.

(** Failures *)
Lemma listed {A} (p : drv A) fs : (forall i, fs i BHigh = None) -> forall i w, ~ exists f, In (BHigh, f) (snd (drive d fill p fs i w)).
Proof.
  intros Hh. induction p as [a|o k IH|]; intros i w0 [f Hf]; cbn in Hf; try contradiction.
  destruct (fs i o) as [g|] eqn:E.
  - specialize (IH (Err (f_err g)) (S i) (op_failed d fill w0 o g)).
    destruct (drive d fill (k (Err (f_err g))) fs (S i) (op_failed d fill w0 o g)) as [[a w1] e]. cbn [snd] in *.
    destruct Hf as [Hf|Hf]; [injection Hf as -> _; congruence|]. apply IH. eauto.
  - destruct (op_done d fill w0 o) as [w1 l]. eapply IH. eauto.
Qed.

Definition contained_read (fs : faults) (p : driver) : Prop :=
  let '(r, w', failed) := drive d fill (p addr block data) fs 0 w in
  ready w' /\ read_part d (w_dev w) (w_dev w') block addr data /\
  forall o f rest, failed = (o, f) :: rest -> rest = [] /\ r = Some (Err (told o f)).
Definition contained_write (fs : faults) (p : driver) : Prop :=
  let '(r, w', failed) := drive d fill (p addr block data) fs 0 w in
  ready w' /\ written_part d (w_dev w) (w_dev w') block addr data /\
  forall o f rest, failed = (o, f) :: rest -> rest = [] /\ r = Some (Err (told o f)).
Lemma contained_reads fs : ready w -> (forall i, fs i BHigh = None) ->
  Forall (contained_read fs) [eh0_vdm_read; eh1_vdm_read; eha1_vdm_read] /\ ((forall i, fs i BLow = None) -> contained_read fs eh0_gpio_read).
Proof.
  intros R Hh. split.
  - assert (contained_read fs eh1_vdm_read) as H1.
    { unfold contained_read. destruct (eh1_read_run d fill addr block Ha Hb data fs w R) as (G & T & _).
      destruct drive as [[r w'] f]. destruct G as [G _]. destruct T as [T1 T2]. auto. }
    repeat (apply Forall_cons; [|]); [..|apply Forall_nil]; [|exact H1|exact H1].
    unfold contained_read. pose proof (eh0_vdm_read_run d fill addr block Ha Hb data fs w R) as W.
    pose proof (listed (eh0_vdm_read addr block data) fs Hh 0 w) as N.
    pose proof (wrapped_read d addr block data _ _ W) as G.
    assert (told_all (drive d fill (eh0_vdm_read addr block data) fs 0 w)) as T.
    { eapply wrapped_told; [|exact N]. eapply wrapped_mono; [|exact W]. apply read_told. }
    destruct drive as [[r w'] f]. destruct G as [G _]. destruct T as [T1 T2]. auto.
  - intros Hl. unfold contained_read.
    pose proof (eh0_gpio_read_run d fill addr block Ha Hb data fs w R (fun i => conj (Hl i) (Hh i))) as W.
    pose proof (listed (eh0_gpio_read addr block data) fs Hh 0 w) as N.
    pose proof (wrapped_read d addr block data _ _ W) as G.
    assert (told_all (drive d fill (eh0_gpio_read addr block data) fs 0 w)) as T.
    { eapply wrapped_told; [|exact N]. eapply wrapped_mono; [|exact W]. apply read_told. }
    destruct drive as [[r w'] f]. destruct G as [G _]. destruct T as [T1 T2]. auto.
Qed.
Lemma contained_writes fs : ready w -> (forall i, fs i BHigh = None) ->
  Forall (contained_write fs) [eh0_vdm_write; eh1_vdm_write; eha1_vdm_write] /\ ((forall i, fs i BLow = None) -> contained_write fs eh0_gpio_write).
Proof.
  intros R Hh. split.
  - assert (contained_write fs eh1_vdm_write) as H1.
    { unfold contained_write. destruct (eh1_write_run d fill addr block Ha Hb data fs w R) as (G & T & _).
      destruct drive as [[r w'] f]. destruct G as [G _]. destruct T as [T1 T2]. auto. }
    repeat (apply Forall_cons; [|]); [..|apply Forall_nil]; [|exact H1|exact H1].
    unfold contained_write. pose proof (eh0_vdm_write_run d fill addr block Ha Hb data fs w R) as W.
    pose proof (listed (eh0_vdm_write addr block data) fs Hh 0 w) as N.
    pose proof (wrapped_write d addr block data _ _ W) as G.
    assert (told_all (drive d fill (eh0_vdm_write addr block data) fs 0 w)) as T.
    { eapply wrapped_told; [|exact N]. eapply wrapped_mono; [|exact W]. apply write_told. }
    destruct drive as [[r w'] f]. destruct G as [G _]. destruct T as [T1 T2]. auto.
  - intros Hl. unfold contained_write.
    pose proof (eh0_gpio_write_run d fill addr block Ha Hb data fs w R (fun i => conj (Hl i) (Hh i))) as W.
    pose proof (listed (eh0_gpio_write addr block data) fs Hh 0 w) as N.
    pose proof (wrapped_write d addr block data _ _ W) as G.
    assert (told_all (drive d fill (eh0_gpio_write addr block data) fs 0 w)) as T.
    { eapply wrapped_told; [|exact N]. eapply wrapped_mono; [|exact W]. apply write_told. }
    destruct drive as [[r w'] f]. destruct G as [G _]. destruct T as [T1 T2]. auto.
Qed.
(** Any pin may fail. *)
Lemma reported fs : ready w -> Forall (fun p : driver =>
  let '(r, w', failed) := drive d fill (p addr block data) fs 0 w in failed <> [] -> exists e, r = Some (Err e))
  [eh0_vdm_read; eh1_vdm_read; eha1_vdm_read; eh0_vdm_write; eh1_vdm_write; eha1_vdm_write].
Proof.
  intros R. repeat (apply Forall_cons; [|]); [..|apply Forall_nil].
  - pose proof (eh0_vdm_read_run d fill addr block Ha Hb data fs w R) as W.
    assert (told_some (drive d fill (eh0_vdm_read addr block data) fs 0 w)) as T.
    { eapply wrapped_some. eapply wrapped_mono; [|exact W]. apply read_told. }
    exact T.
  - apply (eh1_read_run d fill addr block Ha Hb data fs w R).
  - apply (eh1_read_run d fill addr block Ha Hb data fs w R).
  - pose proof (eh0_vdm_write_run d fill addr block Ha Hb data fs w R) as W.
    assert (told_some (drive d fill (eh0_vdm_write addr block data) fs 0 w)) as T.
    { eapply wrapped_some. eapply wrapped_mono; [|exact W]. apply write_told. }
    exact T.
  - apply (eh1_write_run d fill addr block Ha Hb data fs w R).
  - apply (eh1_write_run d fill addr block Ha Hb data fs w R).
Qed.
Lemma fdm_partial fs : tied w ->
  Forall (fun p : driver =>
    let '(r, w', failed) := drive d fill (p addr block data) fs 0 w in
    read_part d (w_dev w) (w_dev w') block addr data /\
    forall o f rest, failed = (o, f) :: rest -> rest = [] /\ r = Some (Err (told o f))) fdm_reads /\
  Forall (fun p : driver =>
    let '(r, w', failed) := drive d fill (p addr block data) fs 0 w in
    written_part d (w_dev w) (w_dev w') block addr data /\
    forall o f rest, failed = (o, f) :: rest -> rest = [] /\ r = Some (Err (told o f))) fdm_writes.
Proof.
  intros T. rewrite (tied_eq T). cbn [w_dev]. split.
  - assert (forall mk, mk_ok d fill mk ->
     let '(r, w', failed) := drive d fill (fdm_read_chunks mk (length data) addr block data []) fs 0 (mkWire (w_dev w) (PHead []) true) in
     read_part d (w_dev w) (w_dev w') block addr data /\
     forall o f rest, failed = (o, f) :: rest -> rest = [] /\ r = Some (Err (told o f))) as G.
    { intros mk Hmk. pose proof (fdm_read_run d fill mk (length data) Hmk (w_dev w) addr block data [] fs 0 Ha Hb (le_n _)) as H.
      destruct drive as [[r w'] f]. destruct H as (H1 & _ & H2). auto. }
    repeat (apply Forall_cons; [|]); [..|apply Forall_nil]; apply G; [apply mk_transfer|apply mk_read].
  - pose proof (fdm_write_run d fill (length data) (w_dev w) addr block data fs 0 Ha Hb (le_n _)) as H.
    repeat (apply Forall_cons; [|]); [..|apply Forall_nil]; unfold eh0_fdm_write, eh1_fdm_write;
    destruct drive as [[r w'] f]; destruct H as (H1 & _ & H2); auto.
Qed.
End Final.

Definition log_dev : device (list (Z * Z * Z)) := {| dv_rd := fun s b a => (s, 0); dv_wr := fun s b a v => s ++ [(b, a, v)] |}.
Lemma tied_refuted : exists (d : device (list (Z * Z * Z))) fs w w' w'' e,
  tied w /\
  drive d 0 (eh0_fdm_write 0x0000 1 [1;2;3;4]) fs 0 w = (Some (Err (ESpi e)), w', [(BWrite [1;2;3;4], mkFault e 2 false)]) /\
  drive d 0 (eh0_fdm_write 0x0010 1 [7]) no_fault 0 w' = (Some (Ok []), w'', []) /\
  w_dev w = [] /\ w_dev w'' = [(1, 0, 1); (1, 1, 2); (1, 2, 0); (1, 3, 16)] /\
  w_dev w'' <> burst_wr d (w_dev w') 1 0x0010 [7].
Proof.
  exists log_dev, (fun i o => if (i =? 1)%nat then Some (mkFault 5 2 false) else None), (mkWire [] (PHead []) true).
  eexists _, _, 5. split; [split; reflexivity|]. split; [vm_compute; reflexivity|]. split; [vm_compute; reflexivity|].
  split; [reflexivity|]. split; [reflexivity|]. vm_compute. discriminate.
Qed.
Lemma release_refuted : exists (d : device (list (Z * Z * Z))) fs w w' w'' e,
  ready w /\
  drive d 0 (eh0_vdm_write 0x0000 1 [1;2]) fs 0 w = (Some (Err (EPin e)), w', [(BHigh, mkFault e 0 false)]) /\
  drive d 0 (eh0_vdm_write 0x0010 1 [7]) no_fault 0 w' = (Some (Ok []), w'', []) /\
  w_dev w = [] /\ w_dev w'' = [(1, 0, 1); (1, 1, 2); (1, 2, 0); (1, 3, 16); (1, 4, 12); (1, 5, 7)] /\
  w_dev w'' <> burst_wr d (w_dev w') 1 0x0010 [7].
Proof.
  exists log_dev, (fun i o => match o with BHigh => Some (mkFault 5 0 false) | _ => None end), (mkWire [] (PHead []) false).
  eexists _, _, 5. split; [left; reflexivity|]. split; [vm_compute; reflexivity|]. split; [vm_compute; reflexivity|].
  split; [reflexivity|]. split; [reflexivity|]. vm_compute. discriminate.
Qed.
