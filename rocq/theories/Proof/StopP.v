(** Calls of the clients end at the first failure of the bus. *)
From Verif Require Import Model.Prelude Model.Bus Model.Chip Model.Specifiers Model.LlBits Model.Ll Model.HlIo Model.HlCommon Model.HlTcp Model.HlUdp Model.Stream Model.Dns Model.Sntp
  Model.DhcpPkt Model.Mqtt Spec.Hoare Spec.MqttMsg Spec.Clients.
From Verif Require Import Model.DhcpClient.
From Verif Require Import Proof.Base.

(** A failed access ends the program with a bad result; otherwise the result is a good one. *)
Fixpoint stops {A} (good bad : A -> Prop) (p : prog A) : Prop :=
  match p with
  | Ret a => good a
  | Panic | Diverge => True
  | Rd _ _ _ k => (forall l, stops good bad (k (Some l))) /\ exists a, k None = Ret a /\ bad a
  | Wr _ _ _ k => stops good bad (k true) /\ exists a, k false = Ret a /\ bad a
  end.
Lemma stops_sound {A} good bad (p : prog A) : forall sch c o sch' c', stops good bad p -> run p sch c = (o, sch', c') ->
  exists used, sch = used ++ sch' /\
    ((no_faults used /\ forall a, o = Done a -> good a) \/
     exists u t a, used = u ++ [t] /\ no_faults u /\ t_fault t <> None /\ o = Done a /\ bad a).
Proof.
  induction p as [a|a b l k IH|a b d k IH| |]; intros sch c o sch' c' H E; cbn [run stops] in *;
    try (injection E as <- <- <-; exists []; split; [reflexivity|]; left; split; [constructor|]; intros x Ex; (discriminate Ex || (injection Ex as <-; exact H))).
  - destruct H as [H1 (a0 & H2 & H3)]. destruct sch as [|t sch].
    + destruct (IH _ [] c o sch' c' (H1 _) E) as (used & E1 & E2). exists used. auto.
    + destruct (t_fault t) as [m|] eqn:Ef.
      * rewrite H2 in E. cbn [run] in E. injection E as <- <- <-. exists [t]. split; [reflexivity|]. right.
        exists [], t, a0. split; [reflexivity|]. split; [constructor|]. split; [congruence|]. auto.
      * destruct (IH _ sch _ o sch' c' (H1 _) E) as (used & -> & D).
        exists (t :: used). split; [reflexivity|]. destruct D as [(D1 & D2)|(u & t' & a1 & -> & D1 & D2)].
        -- left. split; [now constructor|exact D2].
        -- right. exists (t :: u), t', a1. split; [reflexivity|]. split; [now constructor|exact D2].
  - destruct H as [H1 (a0 & H2 & H3)]. destruct sch as [|t sch].
    + destruct (IH _ [] _ o sch' c' H1 E) as (used & E1 & E2). exists used. auto.
    + destruct (t_fault t) as [m|] eqn:Ef.
      * rewrite H2 in E. cbn [run] in E. injection E as <- <- <-. exists [t]. split; [reflexivity|]. right.
        exists [], t, a0. split; [reflexivity|]. split; [constructor|]. split; [congruence|]. auto.
      * destruct (IH _ sch _ o sch' c' H1 E) as (used & -> & D).
        exists (t :: used). split; [reflexivity|]. destruct D as [(D1 & D2)|(u & t' & a1 & -> & D1 & D2)].
        -- left. split; [now constructor|exact D2].
        -- right. exists (t :: u), t', a1. split; [reflexivity|]. split; [now constructor|exact D2].
Qed.
Lemma stops_bind {A B} (good1 bad1 : A -> Prop) (good bad : B -> Prop) (p : prog A) (f : A -> prog B) : stops good1 bad1 p ->
  (forall a, good1 a -> stops good bad (f a)) -> (forall a, bad1 a -> exists b, f a = Ret b /\ bad b) -> stops good bad (bind p f).
Proof.
  intros H Hf Hb. revert H. induction p as [a|a b l k IH|a b d k IH| |]; cbn [stops bind]; intros H; auto.
  - destruct H as (H1 & a0 & H2 & H3). split; [auto|]. rewrite H2. cbn [bind]. auto.
  - destruct H as (H1 & a0 & H2 & H3). split; [auto|]. rewrite H2. cbn [bind]. auto.
Qed.

(** Results that are not the error of the bus; results without an error. *)
Definition calm {A} (any : bool) (r : res err A) : Prop := match r with Ok _ => True | Err Other => False | Err _ => any = false end.
Definition bus {A} (r : res err A) : Prop := r = Err Other.
Notation mstops any := (stops (calm any) bus).
Lemma mstops_bind {A B} any (p : M A) (f : A -> M B) : mstops any p -> (forall a, mstops any (f a)) -> mstops any (bindM p f).
Proof.
  intros H Hf. apply (stops_bind (calm any) bus); [exact H| |].
  - intros [a|e] Ha; [apply Hf|]. exact Ha.
  - intros a ->. exists (Err Other). split; reflexivity.
Qed.
Lemma mstops_read any a b l : mstops any (read a b l).
Proof. split; [intros d; exact I|]. exists (Err Other). split; reflexivity. Qed.
Lemma mstops_write any a b d : mstops any (write a b d).
Proof. split; [exact I|]. exists (Err Other). split; reflexivity. Qed.
Lemma mstops_ret {A} any (a : A) : mstops any (ret a). Proof. exact I. Qed.
Lemma mstops_fail {A} e : e <> Other -> stops (@calm A false) bus (fail e). Proof. cbn. destruct e; congruence. Qed.
Ltac st := repeat (cbv beta zeta; match goal with
  | |- forall _, _ => intros ?
  | |- mstops _ (if ?b then _ else _) => destruct b
  | |- mstops _ (bindM _ _) => apply mstops_bind
  | |- mstops _ (read _ _ _) => apply mstops_read
  | |- mstops _ (write _ _ _) => apply mstops_write
  | |- mstops _ (ret _) => apply mstops_ret
  | |- mstops false (fail _) => apply mstops_fail; discriminate
  | |- mstops _ (let '(_, _) := ?a in _) => destruct a
  | |- mstops _ Panic => exact I
  end).
Lemma stops_loop any l port : mstops any (port_is_unique_loop l port).
Proof. induction l as [|s l IH]; cbn [port_is_unique_loop]; unfold sn_port, sn_sr; st; exact IH. Qed.
Lemma stops_poll any fuel s want : mstops any (poll_status fuel s want).
Proof. induction fuel as [|f IH]; cbn [poll_status]; [exact I|]. unfold sn_sr. st. exact IH. Qed.
Lemma stops_assert any dbg c : mstops any c -> mstops any (debug_assert dbg c).
Proof. intros H. unfold debug_assert. destruct dbg; st. exact H. Qed.
Ltac st2 := repeat (st; match goal with
  | |- mstops _ (debug_assert _ _) => apply stops_assert
  | |- mstops _ (port_is_unique _ _) => apply stops_loop
  | |- mstops _ (poll_status _ _ _) => apply stops_poll
  end).
Ltac opn := unfold close, tcp_connect, tcp_reader, tx_writer, udp_bind, udp_reader, cur_read,
  cur_read_exact, tcp_reader_done, udp_reader_done, cur_write, cur_write_all, udp_writer_send_to, cur_send, tcp_state_ok, udp_state_ok in *;
  unfold sn_port, sn_sr, sipr, sn_rx_rsr, sn_rx_rd, sn_rx_buf, sn_tx_fsr, sn_tx_wr, sn_tx_ptrs, set_sn_tx_buf, sn_ir, set_sn_ir, simr, set_simr, set_sn_imr, set_sipr, set_gar, set_subr, phycfgr,
  set_sn_tx_wr, set_sn_rx_rd, set_sn_cr, set_sn_port, set_sn_mr, set_sn_dest, sn_rxbuf_size, set_sn_dhar, set_sn_ttl in *.
Lemma stops_done any r : mstops any (udp_reader_done r). Proof. opn. st. Qed.
Lemma stops_tcp_done any r : mstops any (tcp_reader_done r). Proof. opn. st. Qed.
Lemma stops_udp_reader dbg sn : mstops false (udp_reader dbg sn). Proof. opn. st2. Qed.
Lemma stops_tcp_reader dbg sn : mstops false (tcp_reader dbg sn). Proof. opn. st2. Qed.
Lemma stops_tx_writer any sn : mstops any (tx_writer sn). Proof. opn. st2. Qed.
Lemma stops_send any w : mstops any (cur_send w). Proof. opn. st2. Qed.
Lemma stops_send_to any dbg w a : mstops any (udp_writer_send_to dbg w a). Proof. opn. st2. Qed.
Lemma stops_udp_bind any dbg fuel sn port : mstops any (udp_bind dbg fuel sn port). Proof. opn. st2. Qed.
Lemma stops_close any sn : mstops any (close sn). Proof. opn. st2. Qed.
Lemma stops_connect any dbg fuel sn port d : mstops any (tcp_connect dbg fuel sn port d). Proof. opn. st2. Qed.

(** ** Stream programs *)

(** What a call gives when the bus does not fail. *)
Definition gives (o : cop) (r : cres) : Prop :=
  match o, r with ORead _, RErr _ => False | _, RErr Other => False | _, _ => True end.
Fixpoint sstops {A} (good bad : A -> Prop) (p : sprog A) : Prop :=
  match p with
  | SRet a => good a
  | SPanic | SDiverge => True
  | SCall o k => (forall r, gives o r -> sstops good bad (k r)) /\ exists a, k (RErr Other) = SRet a /\ bad a
  | SAsk _ k => forall z, sstops good bad (k z)
  end.
Lemma stops_cop c o : stops (fun x => gives o (fst x)) (fun x => fst x = RErr Other) (cop_run c o).
Proof.
  assert (forall A any (p : M A) (f : res err A -> cres * cursor), mstops any p -> fst (f (Err Other)) = RErr Other ->
    (forall r, calm any r -> gives o (fst (f r))) -> stops (fun x => gives o (fst x)) (fun x => fst x = RErr Other) (r <-- p ;; Ret (f r))) as G.
  { intros A any p f H E N. apply (stops_bind (calm any) bus); [exact H|intros a Ha; exact (N a Ha)|].
    intros a ->. exists (f (Err Other)). split; [reflexivity|exact E]. }
  destruct o as [p| |n|n|b|b]; cbn [cop_run].
  - cbn [stops]. unfold cur_seek, new_ptr. destruct p; match goal with |- context[if ?b then _ else _] => destruct b end; cbn; exact I.
  - exact I.
  - apply (G _ true _ (fun r => match r with Ok (d, c') => (Stream.RData d, c') | Err e => (RErr e, c) end)); [opn; st|reflexivity|].
    intros [[d c']|[]] H; cbn in *; auto; discriminate.
  - apply (G _ false _ (fun r => match r with Ok (d, c') => (Stream.RData d, c') | Err e => (RErr e, c) end)); [opn; st|reflexivity|].
    intros [[d c']|[]] H; cbn in *; auto; discriminate.
  - apply (G _ false _ (fun r => match r with Ok (d, c') => (RCount d, c') | Err e => (RErr e, c) end)); [opn; st|reflexivity|].
    intros [[d c']|[]] H; cbn in *; auto; discriminate.
  - apply (G _ false _ (fun r => match r with Ok c' => (RUnit, c') | Err e => (RErr e, c) end)); [opn; st|reflexivity|].
    intros [c'|[]] H; cbn in *; auto; discriminate.
Qed.
Lemma stops_cursor {A} good bad (p : sprog A) : sstops good bad p -> forall c, stops (fun x => good (fst x)) (fun x => bad (fst x)) (on_cursor c p).
Proof.
  induction p as [a|o k IH|q k IH| |]; cbn [sstops on_cursor]; intros H c; try exact I; auto.
  destruct H as (H1 & a & H2 & H3). apply (stops_bind _ _ _ _ _ _ (stops_cop c o)).
  - intros x Hx. apply IH, H1, Hx.
  - intros x ->. rewrite H2. cbn [on_cursor]. exists (a, snd x). split; [reflexivity|exact H3].
Qed.
Lemma sstops_bind {A B} (good1 bad1 : A -> Prop) (good bad : B -> Prop) (p : sprog A) (f : A -> sprog B) : sstops good1 bad1 p ->
  (forall a, good1 a -> sstops good bad (f a)) -> (forall a, bad1 a -> exists b, f a = SRet b /\ bad b) -> sstops good bad (sbind p f).
Proof.
  intros H Hf Hb. revert H. induction p as [a|o k IH|q k IH| |]; cbn [sstops sbind]; intros H; auto.
  destruct H as (H1 & a0 & H2 & H3). split; [auto|]. rewrite H2. cbn [sbind]. auto.
Qed.
Notation smstops any := (sstops (calm any) bus).
Lemma smstops_bind {A B} any (p : SM A) (f : A -> SM B) : smstops any p -> (forall a, smstops any (f a)) -> smstops any (sbindM p f).
Proof.
  intros H Hf. apply (sstops_bind (calm any) bus); [exact H| |].
  - intros [a|e] Ha; [apply Hf|]. exact Ha.
  - intros a ->. exists (Err Other). split; reflexivity.
Qed.
Lemma smstops_ret {A} any (a : A) : smstops any (sret a). Proof. exact I. Qed.
Lemma smstops_fail {A} e : e <> Other -> sstops (@calm A false) bus (sfail e). Proof. cbn. destruct e; congruence. Qed.
Ltac one := split; [let H := fresh in intros [[]| |?|?] H; cbn in *; auto; try reflexivity; contradiction|eexists; split; reflexivity].
Lemma smstops_seek p : smstops false (s_seek p). Proof. one. Qed.
Lemma smstops_rewind : smstops false s_rewind. Proof. one. Qed.
Lemma smstops_read any n : smstops any (s_read n). Proof. one. Qed.
Lemma smstops_exact n : smstops false (s_read_exact n). Proof. one. Qed.
Lemma smstops_write n : smstops false (s_write_all n). Proof. one. Qed.
Lemma smstops_pos any : smstops any s_position. Proof. exact (fun _ => I). Qed.
Lemma smstops_remain any : smstops any s_remain. Proof. exact (fun _ => I). Qed.
Ltac ss := repeat (cbv beta zeta; match goal with
  | |- forall _, _ => intros ?
  | |- smstops _ (if ?b then _ else _) => destruct b
  | |- smstops _ (sbindM _ _) => apply smstops_bind
  | |- smstops _ (s_seek _) => apply smstops_seek
  | |- smstops _ s_rewind => apply smstops_rewind
  | |- smstops _ (s_read _) => apply smstops_read
  | |- smstops _ (s_read_exact _) => apply smstops_exact
  | |- smstops _ (s_write_all _) => apply smstops_write
  | |- smstops _ s_position => apply smstops_pos
  | |- smstops _ s_remain => apply smstops_remain
  | |- smstops _ (sret _) => apply smstops_ret
  | |- smstops _ (sfail _) => apply smstops_fail; discriminate
  | |- smstops _ SPanic => exact I
  | |- smstops _ (match ?x with _ => _ end) => destruct x
  end).

(** ** DNS and SNTP *)
Lemma labels_stop fuel : forall labels idx seek_to, smstops false (read_labels_loop fuel labels idx seek_to).
Proof. induction fuel as [|fuel IH]; intros labels idx seek_to; cbn [read_labels_loop]; [exact I|]. ss; apply IH. Qed.
Lemma name_stop fuel labels : smstops false (read_labels fuel labels).
Proof. unfold read_labels. ss. apply labels_stop. Qed.
Lemma skip_stop fuel n : smstops false (skip_questions fuel n).
Proof. induction n as [|n IH]; cbn [skip_questions]; ss; [apply name_stop|exact IH]. Qed.
Lemma body_stop fuel want : smstops false (response_body fuel want).
Proof. unfold response_body. ss. apply skip_stop. Qed.
Lemma rr_stop fuel buf : smstops false (read_rr fuel buf).
Proof. unfold read_rr, read_u16, read_u32. ss; try apply name_stop. Qed.
Lemma write_labels_stop l : smstops false (write_labels l).
Proof. induction l as [|x l IH]; cbn [write_labels]; ss. exact IH. Qed.
Lemma question_stop h t q : smstops false (question h t q).
Proof. unfold question. ss. apply write_labels_stop. Qed.
Lemma header_stop h : smstops false (write_header h).
Proof. unfold write_header. ss. Qed.

Lemma stops_then {A B} (p : SM A) c (f : A -> cursor -> M B) (g : res err A * cursor -> M B) : smstops false p ->
  (forall a w, g (Ok a, w) = f a w) -> (forall e w, g (Err e, w) = fail e) -> (forall a w, mstops false (f a w)) -> mstops false (bind (on_cursor c p) g).
Proof.
  intros H G1 G2 Hf. apply (stops_bind _ _ _ _ _ _ (stops_cursor _ _ _ H c)).
  - intros ([a|e] & w) Ha; [rewrite G1; apply Hf|]. rewrite G2. exact Ha.
  - intros ([a|e] & w) Ha; [discriminate Ha|]. injection Ha as ->. rewrite G2. exists (Err Other). split; reflexivity.
Qed.
Lemma recv_response_stop dbg fuel sn want : mstops false (recv_response dbg fuel sn want).
Proof.
  unfold recv_response. apply mstops_bind; [apply stops_udp_reader|]. intros r.
  apply (stops_then _ _ (fun o w => match o with None => udp_reader_done w ;;; fail WouldBlock | Some h => ret {| rs_reader := w; rs_header := h; rs_rr_idx := 0 |} end));
    [apply body_stop|intros [h|] w; reflexivity|reflexivity|]. intros [h|] w; st. apply stops_done.
Qed.
Lemma question_at_stop q t h : mstops false (query_question q t h).
Proof.
  unfold query_question. apply (stops_then _ _ (fun h w => ret {| qu_writer := w; qu_header := h |})); [apply question_stop|reflexivity|reflexivity|]. st.
Qed.
Lemma query_send_stop q : mstops false (query_send q).
Proof.
  unfold query_send. destruct (_ =? 0); [st|].
  apply (stops_then _ _ (fun _ w => cur_send w ;;; ret (hdr_id (qu_header q)))); [apply header_stop|reflexivity|reflexivity|]. st. apply stops_send.
Qed.
Lemma query_at_stop w id : mstops false (query_at w id).
Proof.
  unfold query_at. apply mstops_bind; [|st]. unfold cur_seekM, cur_seek, new_ptr. destruct (_ <? _); exact I || reflexivity.
Qed.
Lemma dns_query_stop dbg fuel c : mstops false (dns_query dbg fuel c).
Proof.
  unfold dns_query. st; try apply stops_udp_bind; try apply stops_tx_writer; [opn; st|]. apply query_at_stop.
Qed.
Lemma mdns_query_stop fuel c : mstops false (mdns_query fuel c).
Proof. unfold mdns_query. st; try apply stops_poll; try apply stops_tx_writer; try apply query_at_stop; opn; st. Qed.

(** ** Clients with results of other shapes *)
Definition fcalm {A B} (x : res err A * B) : Prop := calm false (fst x).
Definition fbus {A B} (x : res err A * B) : Prop := fst x = Err Other.
Definition mcalm {A} (r : res merr A) : Prop := r <> Err MOther.
Definition mbus {A} (r : res merr A) : Prop := r = Err MOther.
Definition qcalm {A B} (x : res merr A * B) : Prop := mcalm (fst x).
Definition qbus {A B} (x : res merr A * B) : Prop := mbus (fst x).

(** A call that ends with its result. *)
Definition well (x : call_end) : Prop := x <> BusFailure.
Definition badly (x : call_end) : Prop := x = BusFailure.
Lemma ends_m {A} (p : M A) : mstops false p -> stops well badly (r <-- p ;; Ret (ended r)).
Proof.
  intros H. apply (stops_bind _ _ _ _ _ _ H).
  - intros [a|[]] Ha; cbn in *; (contradiction || discriminate).
  - intros a ->. exists BusFailure. split; reflexivity.
Qed.
Lemma ends_f {A B} (p : prog (res err A * B)) : stops fcalm fbus p -> stops well badly (x <-- p ;; Ret (ended (fst x))).
Proof.
  intros H. apply (stops_bind _ _ _ _ _ _ H).
  - intros ([a|[]] & b) Ha; cbn in *; (contradiction || discriminate).
  - intros a Ha. unfold fbus in Ha. exists BusFailure. rewrite Ha. split; reflexivity.
Qed.
Lemma ends_mm {A} (p : prog (res merr A)) : stops mcalm mbus p -> stops well badly (r <-- p ;; Ret (mended r)).
Proof.
  intros H. apply (stops_bind _ _ _ _ _ _ H).
  - intros [a|[]] Ha; cbn in *; try discriminate. exfalso. now apply Ha.
  - intros a ->. exists BusFailure. split; reflexivity.
Qed.
Lemma ends_q {A B} (p : prog (res merr A * B)) : stops qcalm qbus p -> stops well badly (x <-- p ;; Ret (mended (fst x))).
Proof.
  intros H. apply (stops_bind _ _ _ _ _ _ H).
  - intros ([a|[]] & b) Ha; cbn in *; try discriminate. exfalso. now apply Ha.
  - intros a Ha. unfold qbus, mbus in Ha. exists BusFailure. rewrite Ha. split; reflexivity.
Qed.

(** ** DHCP *)
Lemma f_io {A B} (p : M A) c (f : A -> CM B) : mstops false p -> (forall a, stops fcalm fbus (f a)) -> stops fcalm fbus (c_io p c f).
Proof.
  intros H Hf. unfold c_io. apply (stops_bind _ _ _ _ _ _ H).
  - intros [a|e] Ha; [apply Hf|exact Ha].
  - intros a ->. eexists. split; reflexivity.
Qed.
Lemma f_ret {A} (a : A) c : stops fcalm fbus (c_ret a c). Proof. exact I. Qed.
Lemma f_bind {A B} (p : CM A) (f : A -> Client -> CM B) : stops fcalm fbus p -> (forall a c, stops fcalm fbus (f a c)) -> stops fcalm fbus (c_bind p f).
Proof.
  intros H Hf. unfold c_bind. apply (stops_bind _ _ _ _ _ _ H).
  - intros ([a|e] & c) Ha; cbn [fst snd]; [apply Hf|exact Ha].
  - intros a Ha. unfold fbus in Ha. rewrite Ha. eexists. split; reflexivity.
Qed.
Lemma f_pkt {A B} (p : PD A) k c (f : A -> pkt -> CM B) : sstops fcalm fbus (p (snd k)) -> (forall a k, stops fcalm fbus (f a k)) -> stops fcalm fbus (c_pkt p k c f).
Proof.
  intros H Hf. unfold c_pkt. apply (stops_bind _ _ _ _ _ _ (stops_cursor _ _ _ H (fst k))).
  - intros (([a|e] & k') & w) Ha; cbn [fst snd]; [apply Hf|exact Ha].
  - intros x Ha. unfold fbus in Ha. rewrite Ha. eexists. split; reflexivity.
Qed.
Notation pstops p := (forall k, sstops fcalm fbus (p k)).
Lemma p_ret {A} (a : A) : pstops (pd_ret a). Proof. intros k. exact I. Qed.
Lemma p_bind {A B} (p : PD A) (f : A -> PD B) : pstops p -> (forall a, pstops (f a)) -> pstops (pd_bind p f).
Proof.
  intros H Hf k. unfold pd_bind. apply (sstops_bind _ _ _ _ _ _ (H k)).
  - intros ([a|e] & k') Ha; cbn [fst snd]; [apply Hf|exact Ha].
  - intros x Ha. unfold fbus in Ha. rewrite Ha. eexists. split; reflexivity.
Qed.
Lemma p_io {A} (p : SM A) : smstops false p -> pstops (pd_io p).
Proof.
  intros H k. unfold pd_io. apply (sstops_bind _ _ _ _ _ _ H).
  - intros a Ha. exact Ha.
  - intros a ->. eexists. split; reflexivity.
Qed.
Ltac pp := repeat (cbv beta zeta; match goal with
  | |- forall k, sstops fcalm fbus (pd_bind _ _ k) => apply p_bind
  | |- forall k, sstops fcalm fbus (pd_ret _ k) => apply p_ret
  | |- forall k, sstops fcalm fbus (pd_io _ k) => apply p_io; ss
  | |- forall k, sstops fcalm fbus ((if ?b then _ else _) k) => destruct b
  | |- forall k, sstops fcalm fbus ((match ?b with Some _ => _ | None => _ end) k) => destruct b
  | |- forall _, _ => intros ?
  end).
Lemma boot_stop : pstops is_bootreply. Proof. unfold is_bootreply. pp. Qed.
Lemma xid_stop : pstops pkt_xid. Proof. unfold pkt_xid. pp. Qed.
Lemma yiaddr_stop : pstops yiaddr. Proof. unfold yiaddr. pp. Qed.
Lemma insert_stop a b : pstops (cache_insert a b). Proof. intros k z. exact I. Qed.
Lemma option_stop code fuel : pstops (option_loop fuel code).
Proof.
  induction fuel as [|f IH]; cbn [option_loop]; [intros k; exact I|]. cbv zeta.
  apply p_bind; [apply p_io; ss|]. intros b. destruct (negb _); [apply p_ret|]. destruct (_ =? 255); [apply p_ret|]. destruct (_ =? 0).
  - destruct (_ =? 0); [exact IH|]. apply p_bind; [apply p_io; ss|]. intros _. exact IH.
  - destruct (_ =? code); apply p_bind; try apply insert_stop; intros _; [apply p_ret|]. apply p_bind; [apply p_io; ss|]. intros _. exact IH.
Qed.
Lemma seek_stop fuel code : pstops (seek_to_option fuel code).
Proof.
  intros k. unfold seek_to_option. destruct (cache_scan k code 240) as [[l|start]|]; [| |exact I].
  - revert k. apply p_bind; [apply p_io; ss|]. intros _. apply p_ret.
  - revert k. apply p_bind; [apply p_io; ss|]. intros _. apply option_stop.
Qed.
Lemma fixed_stop fuel n code : pstops (find_option_fixed_size fuel n code).
Proof.
  unfold find_option_fixed_size. apply p_bind; [apply seek_stop|]. intros [z|]; [|apply p_ret]. destruct (negb _); [apply p_ret|].
  apply p_bind; [apply p_io; ss|]. intros b. apply p_ret.
Qed.
Lemma u32_stop fuel code : pstops (find_option_u32 fuel code).
Proof. unfold find_option_u32. apply p_bind; [apply fixed_stop|]. intros o. apply p_ret. Qed.
Lemma list_stop fuel code : pstops (find_option_ipv4_list fuel code).
Proof.
  unfold find_option_ipv4_list. apply p_bind; [apply seek_stop|]. intros [z|]; [|apply p_ret]. destruct (_ || _); [apply p_ret|].
  apply p_bind; [apply p_io; ss|]. intros b. apply p_ret.
Qed.
Lemma type_stop fuel : pstops (msg_type fuel).
Proof. unfold msg_type. apply p_bind; [apply fixed_stop|]. intros o. apply p_ret. Qed.

Lemma msg_stop mac xid : smstops false (prepare_message mac xid).
Proof. unfold prepare_message, set_at. ss. Qed.
Lemma discover_msg_stop mac h xid : smstops false (dhcp_discover mac h xid).
Proof. unfold dhcp_discover, set_option_msg_type, set_option_client_id, set_option_hostname, set_option_end. ss. apply msg_stop. Qed.
Lemma request_msg_stop mac ip h sid xid : smstops false (dhcp_request mac ip h sid xid).
Proof.
  unfold dhcp_request, set_option_msg_type, set_option_client_id, set_option_hostname, set_option_end, set_option_parameter_request, set_option_requested_ip, set_option_server_id. ss. apply msg_stop.
Qed.
Lemma discover_send_stop dbg sn mac h xid a : mstops false (send_dhcp_discover dbg sn mac h xid a).
Proof.
  unfold send_dhcp_discover. apply mstops_bind; [apply stops_tx_writer|]. intros w.
  apply (stops_then _ _ (fun _ w => udp_writer_send_to dbg w a)); [apply discover_msg_stop|reflexivity|reflexivity|]. intros. apply stops_send_to.
Qed.
Lemma request_send_stop sn mac ip h sid xid : mstops false (send_dhcp_request sn mac ip h sid xid).
Proof.
  unfold send_dhcp_request. apply mstops_bind; [apply stops_tx_writer|]. intros w.
  apply (stops_then _ _ (fun _ w => cur_send w)); [apply request_msg_stop|reflexivity|reflexivity|]. intros. apply stops_send.
Qed.
Lemma discover_stop dbg fuel c now : stops fcalm fbus (discover dbg fuel c now).
Proof.
  unfold discover. cbv zeta. apply f_io; [opn; st|]. intros _. apply f_io; [apply stops_udp_bind|]. intros _.
  apply f_io; [apply discover_send_stop|]. intros _. apply f_ret.
Qed.
Lemma request_stop c : stops fcalm fbus (request c).
Proof. unfold request. cbv zeta. apply f_io; [apply request_send_stop|]. intros _. apply f_ret. Qed.
Lemma dhcp_recv_stop dbg sn xid : mstops false (recv dbg sn xid).
Proof.
  unfold recv. apply (stops_bind _ _ _ _ _ _ (stops_udp_reader dbg sn)).
  2: { intros a ->. exists (Err Other). split; reflexivity. }
  intros [r|[]] Ha; try (cbn in *; (exact I || contradiction || reflexivity)). destruct (_ <? _); [exact I|].
  apply (stops_bind _ _ _ _ _ _ (stops_cursor _ _ _ (boot_stop _) _)).
  2: { intros x Hx. unfold fbus in Hx. rewrite Hx. exists (Err Other). split; reflexivity. }
  intros (([[]|e] & k) & w) Hx; cbn [fst snd]; [exact I| |exact Hx].
  apply (stops_bind _ _ _ _ _ _ (stops_cursor _ _ _ (xid_stop _) _)).
  2: { intros x Hy. unfold fbus in Hy. rewrite Hy. exists (Err Other). split; reflexivity. }
  intros (([z|e] & k') & w') Hy; cbn [fst snd]; [|exact Hy]. destruct (negb _); exact I.
Qed.
Lemma return_stop c now : stops fcalm fbus (c_return c now).
Proof. unfold c_return. destruct (next_call c now); exact I. Qed.
Lemma install_stop c now a b d e : stops fcalm fbus (install c now a b d e).
Proof.
  unfold install. cbv zeta. assert (stops fcalm fbus (c_io (if state_eqb (cl_state c) Requesting then set_sipr (cl_ip c) else ret tt) c
    (fun _ => c_ret Continue (set_state (put_servers c d e) Bound)))) as L.
  { apply f_io; [opn; st|]. intros _. apply f_ret. }
  match goal with L : stops _ _ ?l |- _ => assert (stops fcalm fbus (match b with Some g => c_io (set_gar g) c (fun _ => l)
    | None => if state_eqb (cl_state c) Renewing then l else c_return c now end)) as G end.
  { destruct b as [g|]; [apply f_io; [opn; st|]; intros _; exact L|]. destruct (state_eqb (cl_state c) Renewing); [exact L|apply return_stop]. }
  destruct a as [m|]; [apply f_io; [opn; st|]; intros _; exact G|]. destruct (state_eqb (cl_state c) Renewing) eqn:Es; [|apply return_stop].
  exact G.
Qed.
Lemma on_ack_stop fuel c now k : stops fcalm fbus (on_ack fuel c now k).
Proof.
  unfold on_ack. apply f_pkt; [apply fixed_stop|]. intros a k1. apply f_pkt; [apply list_stop|]. intros b k2.
  apply f_pkt; [apply list_stop|]. intros d k3. apply f_pkt; [apply list_stop|]. intros e k4. apply f_pkt; [apply u32_stop|]. intros [lt|] k5; [|apply return_stop].
  apply f_pkt; [apply u32_stop|]. intros rn k6. cbv zeta. apply f_pkt; [apply u32_stop|]. intros rb k7. cbv zeta.
  apply f_io; [apply stops_done|]. intros _. apply install_stop.
Qed.
Lemma on_packet_stop dbg fuel c now k : stops fcalm fbus (on_packet dbg fuel c now k).
Proof.
  unfold on_packet. assert (forall k c, stops fcalm fbus (c_io (udp_reader_done (fst (k : pkt))) c (fun _ => c_ret Continue c))) as D.
  { intros k' c'. apply f_io; [apply stops_done|]. intros _. apply f_ret. }
  assert (stops fcalm fbus (c_pkt (msg_type fuel) k c (fun mt k =>
      match mt with
      | Some Ack => on_ack fuel c now k
      | Some Nak => c_io (udp_reader_done (fst k)) c (fun _ => c_bind (discover dbg fuel c now) (fun _ c => c_ret Continue c))
      | Some _ => c_io (udp_reader_done (fst k)) c (fun _ => c_ret Continue c)
      | None => c_io (udp_reader_done (fst k)) c (fun _ => c_ret Continue c)
      end))) as R.
  { apply f_pkt; [apply type_stop|]. intros [[]|] k1; try apply D; [apply on_ack_stop|].
    apply f_io; [apply stops_done|]. intros _. apply f_bind; [apply discover_stop|]. intros _ c1. apply f_ret. }
  destruct (cl_state c); try apply D; try exact R.
  apply f_pkt; [apply yiaddr_stop|]. intros ip k1. cbv zeta. apply f_pkt; [apply list_stop|]. intros sid k2. cbv zeta.
  apply f_io; [apply stops_done|]. intros _. apply f_bind; [apply request_stop|]. intros _ c1. apply f_ret.
Qed.
Lemma recv_loop_stop dbg fuel0 now fuel : forall c, stops fcalm fbus (recv_loop dbg fuel0 fuel c now).
Proof.
  induction fuel as [|f IH]; intros c; cbn [recv_loop]; [exact I|]. apply f_io; [apply dhcp_recv_stop|]. intros [k|]; [|apply f_ret].
  apply f_bind; [apply on_packet_stop|]. intros [|d] c1; [apply IH|apply f_ret].
Qed.
Lemma on_timer_stop dbg fuel c now : stops fcalm fbus (on_timer dbg fuel c now).
Proof.
  unfold on_timer. destruct (timeout_elapsed_secs c now) as [[el|]|]; [destruct (_ <? _); [apply discover_stop|apply f_ret]|exact I|].
  assert (forall s, stops fcalm fbus (c_bind (request c) (fun _ c => c_ret tt (set_state c s)))) as R.
  { intros s. apply f_bind; [apply request_stop|]. intros _ c1. apply f_ret. }
  destruct (cl_state c); try apply discover_stop; try apply f_ret; cbv zeta;
    (destruct (_ <? _); [apply discover_stop|]; destruct (_ && _); [apply R|]; destruct (_ && _); [apply R|apply f_ret]).
Qed.
Lemma dhcp_process_stop dbg fuel c now : stops fcalm fbus (process dbg fuel c now).
Proof.
  unfold process. apply f_io; [opn; st|]. intros ir. apply f_io; [opn; st|]. intros _. apply f_io; [opn; st|]. intros up.
  destruct (negb up); [apply f_ret|]. apply f_bind; [apply recv_loop_stop|]. intros [d|] c1; [apply f_ret|].
  apply f_bind; [apply on_timer_stop|]. intros _ c2. destruct (next_call c2 now); [apply f_ret|exact I].
Qed.
Lemma dhcp_setup_stop dbg fuel c : mstops false (setup_socket dbg fuel c).
Proof. unfold setup_socket. opn. st2. Qed.

(** ** MQTT *)
Lemma q_io_stop {A B} (p : M A) c (f : A -> QM B) : mstops true p -> (forall a, stops qcalm qbus (f a)) -> stops qcalm qbus (q_io p c f).
Proof.
  intros H Hf. unfold q_io. apply (stops_bind _ _ _ _ _ _ H).
  - intros [a|[]] Ha; try apply Hf; cbn in Ha; (contradiction || discriminate).
  - intros a ->. eexists. split; reflexivity.
Qed.
Lemma mq_err_calm {A} (r : res err A) : calm false r -> forall m, mq_err r = Some m -> mcalm m.
Proof. intros H m E C. subst m. destruct r as [a|[]]; cbn in *; try discriminate; contradiction. Qed.
Lemma send_stop {A} c c' p (a : A) done : smstops false p -> stops qcalm qbus (mqtt_send c c' p a done).
Proof.
  intros H. unfold mqtt_send. apply q_io_stop; [apply stops_tx_writer|]. intros w.
  apply (stops_bind _ _ _ _ _ _ (stops_cursor _ _ _ H w)).
  2: { intros x Hx. unfold bus in Hx. rewrite Hx. eexists. split; reflexivity. }
  intros (r & w') Hr; cbn [fst snd] in *. pose proof (mq_err_calm r Hr) as Q. destruct (mq_err r) as [[u|e]|] eqn:Em; [| |exact I].
  - apply (stops_bind _ _ _ _ _ _ (stops_send true w')).
    + intros [b|[]] Hb; cbn in Hb; try contradiction; try discriminate.
    + intros b ->. eexists. split; reflexivity.
  - cbn. unfold qcalm, mcalm. cbn. intros C. apply (Q _ eq_refl). unfold mcalm. congruence.
Qed.
Lemma vbi_stop n : smstops false (write_variable_byte_integer n).
Proof. unfold write_variable_byte_integer. ss. Qed.
Lemma connect_stop id m : smstops false (write_connect id m). Proof. unfold write_connect. ss. Qed.
Lemma publish_stop t p : smstops false (write_publish t p). Proof. unfold write_publish. ss. apply vbi_stop. Qed.
Lemma subscribe_stop f i : smstops false (write_subscribe f i). Proof. unfold write_subscribe. ss. apply vbi_stop. Qed.
Lemma unsubscribe_stop f i : smstops false (write_unsubscribe f i). Proof. unfold write_unsubscribe. ss. apply vbi_stop. Qed.

Definition rcalm (x : rx_end) : Prop := match x with RxErr e _ => e <> MOther | RxDone _ r => r <> Err MOther | _ => True end.
Definition rbus (x : rx_end) : Prop := exists b, x = RxErr MOther b.
Lemma rx_try_stop {A} (p : SM A) k : smstops false p -> (forall a, sstops rcalm rbus (k a)) -> sstops rcalm rbus (rx_try p k).
Proof.
  intros H Hk. unfold rx_try. apply (sstops_bind _ _ _ _ _ _ H).
  - intros [a|[]] Ha; try apply Hk; cbn in *; try contradiction; try exact I; discriminate.
  - intros a ->. eexists. split; [reflexivity|]. now exists false.
Qed.
Lemma rx_io_stop {A} (p : SM A) k : smstops true p -> (forall a, sstops rcalm rbus (k a)) -> sstops rcalm rbus (rx_io p k).
Proof.
  intros H Hk. unfold rx_io. apply (sstops_bind _ _ _ _ _ _ H).
  - intros [a|[]] Ha; try apply Hk; cbn in *; try contradiction; discriminate.
  - intros a ->. eexists. split; [reflexivity|]. now exists false.
Qed.
Lemma recv_sub_stop {A} (t : Z -> res Z A) ev : sstops rcalm rbus (recv_sub t ev).
Proof.
  unfold recv_sub. apply rx_io_stop; [ss|]. intros b. destruct (negb _); [cbn; discriminate|]. cbv zeta.
  apply rx_try_stop; [ss|]. intros _. apply rx_try_stop; [ss|]. intros q. destruct (t _); cbn; discriminate.
Qed.
Lemma recv_publish_stop h : sstops rcalm rbus (recv_publish h).
Proof.
  unfold recv_publish. apply rx_try_stop; [ss|]. intros b. cbv zeta. cbn [s_position sbind sstops sret]. intros z.
  apply rx_try_stop; [ss|]. intros _. apply rx_try_stop; [ss|]. intros p. apply rx_try_stop; [ss|]. intros _. cbn. intros z'. exact I.
Qed.
Lemma recv_connack_stop h s : sstops rcalm rbus (recv_connack h s).
Proof.
  unfold recv_connack. destruct (negb _); [cbn; discriminate|]. apply rx_try_stop; [ss|]. intros b. apply rx_try_stop; [ss|]. intros _.
  destruct (connect_try_from _) as [code|[| |]]; cbn; discriminate.
Qed.
Lemma recv_pkt_stop s : sstops rcalm rbus (recv_pkt s).
Proof.
  unfold recv_pkt. apply rx_io_stop; [ss|]. intros b. destruct (header_deser b) as [[h|[]]|]; [|exact I|cbn; discriminate|exact I].
  apply rx_try_stop; [ss|]. intros _. cbn [s_remain sbind sstops sret]. intros z. destruct (_ <? _); [exact I|].
  destruct (fh_ctrl h); try (apply rx_try_stop; [ss|]; intros _; cbn; discriminate); try apply recv_sub_stop;
    [cbn; discriminate|apply recv_connack_stop|apply recv_publish_stop].
Qed.
Definition icalm (x : (res merr mevent + unit) * MqttClient) : Prop := fst x <> inl (Err MOther).
Definition ibus (x : (res merr mevent + unit) * MqttClient) : Prop := fst x = inl (Err MOther).
Lemma mqtt_recv_stop c r : stops icalm ibus (mqtt_recv c r).
Proof.
  unfold mqtt_recv. apply (stops_bind _ _ _ _ _ _ (stops_cursor _ _ _ (recv_pkt_stop _) r)).
  2: { intros x (b & Hx). rewrite Hx. eexists. split; reflexivity. }
  intros ([|e b|s q|a b d e] & w) Hx; cbn [fst snd] in *; unfold icalm; try (cbn; discriminate).
  - cbn in *. congruence.
  - apply (stops_bind _ _ _ _ _ _ (stops_tcp_done true w)).
    + intros [u|[]] Hu; cbn in Hu; try contradiction; try discriminate. cbn in Hx. destruct q as [[m|]|e]; cbn; congruence.
    + intros u ->. eexists. split; reflexivity.
Qed.
Lemma timeout_stop c now : stops qcalm qbus (mqtt_timeout c now).
Proof. unfold mqtt_timeout. destruct (st_elapsed _ now) as [[e|]|]; [destruct (_ <? _)| |]; cbn; unfold qcalm, mcalm; cbn; auto; discriminate. Qed.
Lemma mqtt_rx_stop dbg c now : stops qcalm qbus (mqtt_rx dbg c now).
Proof.
  unfold mqtt_rx. apply (stops_bind _ _ _ _ _ _ (stops_tcp_reader dbg (mq_sn c))).
  2: { intros a ->. eexists. split; reflexivity. }
  intros [r|[]] Ha; try (cbn in Ha; contradiction); try exact I; [|apply timeout_stop].
  apply (stops_bind _ _ _ _ _ _ (mqtt_recv_stop c r)).
  - intros ([[m|e]|u] & c1) Hx; cbn [fst snd]; [| |apply timeout_stop]; unfold icalm in Hx; cbn in *; unfold qcalm, mcalm; cbn; congruence.
  - intros x Hx. unfold ibus in Hx. rewrite Hx. eexists. split; reflexivity.
Qed.
Lemma after_stop p : stops qcalm qbus p -> stops qcalm qbus (mq_after p).
Proof.
  intros H. unfold mq_after. apply (stops_bind _ _ _ _ _ _ H).
  - intros ([n|e] & c) Hx; unfold qcalm, mcalm in *; cbn in *; congruence.
  - intros x Hx. unfold qbus, mbus in Hx. rewrite Hx. eexists. split; reflexivity.
Qed.
Lemma mqtt_connect_stop dbg fuel c now : stops qcalm qbus (mqtt_tcp_connect dbg fuel c now).
Proof.
  unfold mqtt_tcp_connect. apply q_io_stop; [opn; st|]. intros s. apply q_io_stop; [opn; st|]. intros _. apply q_io_stop; [opn; st|]. intros _.
  apply q_io_stop; [apply stops_connect|]. intros _. cbn. unfold qcalm, mcalm. cbn. discriminate.
Qed.
Lemma mqtt_process_stop dbg fuel c now : stops qcalm qbus (mqtt_process dbg fuel c now).
Proof.
  unfold mqtt_process. destruct (mstate_eqb _ _); [apply after_stop, mqtt_connect_stop|].
  apply q_io_stop; [opn; st|]. intros ir. destruct (SocketInterrupt_any_raised ir); [|apply mqtt_rx_stop].
  apply q_io_stop; [opn; st|]. intros _. destruct (SocketInterrupt_discon_raised ir); [cbn; unfold qcalm, mcalm; cbn; discriminate|].
  destruct (SocketInterrupt_con_raised ir).
  - apply after_stop. unfold mqtt_send_connect. apply q_io_stop; [opn; st|]. intros sz. cbv zeta. apply send_stop, connect_stop.
  - destruct (SocketInterrupt_timeout_raised ir); [cbn; unfold qcalm, mcalm; cbn; discriminate|apply mqtt_rx_stop].
Qed.
Lemma refuse {A} c : stops qcalm qbus (Ret (@Err merr A MNotConnected, c : MqttClient)).
Proof. cbn. unfold qcalm, mcalm. cbn. discriminate. Qed.
Lemma pub_stop c t p : stops qcalm qbus (mqtt_publish c t p).
Proof. unfold mqtt_publish. destruct (negb _); [apply refuse|]. apply send_stop, publish_stop. Qed.
Lemma sub_stop c f : stops qcalm qbus (mqtt_subscribe c f).
Proof.
  unfold mqtt_subscribe. destruct (negb _); [apply refuse|]. cbv zeta. destruct (_ =? 0); [|apply send_stop, subscribe_stop].
  apply q_io_stop; [apply stops_tx_writer|]. intros w. cbn. unfold qcalm, mcalm. cbn. discriminate.
Qed.
Lemma unsub_stop c f : stops qcalm qbus (mqtt_unsubscribe c f).
Proof.
  unfold mqtt_unsubscribe. destruct (negb _); [apply refuse|]. cbv zeta. destruct (_ =? 0); [|apply send_stop, unsubscribe_stop].
  apply q_io_stop; [apply stops_tx_writer|]. intros w. cbn. unfold qcalm, mcalm. cbn. discriminate.
Qed.
Lemma pr_read_stop i l p n : stops qcalm qbus (pr_read i l p n).
Proof.
  unfold pr_read. assert (smstops false (read_part i l n)) as H by (unfold read_part; ss).
  apply (stops_bind _ _ _ _ _ _ (stops_cursor _ _ _ H (pr_reader p))).
  - intros (r & w) Hr; cbn [fst snd] in *. pose proof (mq_err_calm r Hr) as Q. destruct (mq_err r) as [m|]; [|exact I]. cbn. unfold qcalm. apply Q. reflexivity.
  - intros x Hx. unfold bus in Hx. rewrite Hx. eexists. split; reflexivity.
Qed.
Lemma pr_done_stop p : stops mcalm mbus (pr_done p).
Proof.
  unfold pr_done. destruct (_ <=? _); [exact I|].
  apply (stops_bind _ _ _ _ _ _ (stops_cursor _ _ _ (smstops_seek _) (pr_reader p))).
  2: { intros x Hx. unfold bus in Hx. rewrite Hx. eexists. split; reflexivity. }
  intros (r & w) Hr; cbn [fst snd] in *. pose proof (mq_err_calm r Hr) as Q. destruct (mq_err r) as [[u|e]|]; [|apply (Q _ eq_refl)|exact I].
  apply (stops_bind _ _ _ _ _ _ (stops_tcp_done true w)).
  - intros [v|[]] Hv; cbn in Hv; try contradiction; try discriminate.
  - intros v ->. eexists. split; reflexivity.
Qed.

(** ** All calls *)
Lemma sntp_setup_stop dbg fuel c : mstops false (sntp_setup_socket dbg fuel c).
Proof. unfold sntp_setup_socket. opn. st2. Qed.
Lemma sntp_request_stop c : mstops false (sntp_request c).
Proof.
  unfold sntp_request. apply mstops_bind; [apply stops_tx_writer|]. intros w.
  apply (stops_then _ _ (fun _ w => cur_send w)); [apply smstops_write|reflexivity|reflexivity|]. intros. apply stops_send.
Qed.
Lemma decode_stop b : mstops false (decode_reply b).
Proof.
  unfold decode_reply. destruct (mode_try_from _) as [[]|]; try (apply mstops_fail; discriminate). cbv zeta. destruct (negb _); [apply mstops_fail; discriminate|].
  destruct (leap_from_bits _); [|exact I]. destruct (stratum_try_from _); [|apply mstops_fail; discriminate]. destruct (negb _); [apply mstops_fail; discriminate|exact I].
Qed.
Lemma sntp_look_stop dbg c : mstops false (on_recv_interrupt dbg c).
Proof.
  unfold on_recv_interrupt. apply mstops_bind; [opn; st|]. intros ir. apply mstops_bind; [opn; st|]. intros _.
  apply mstops_bind; [apply stops_udp_reader|]. intros r. destruct (negb _); [apply mstops_bind; [apply stops_done|]; intros _; st|].
  apply (stops_then _ _ (fun b w => udp_reader_done w ;;; decode_reply b)); [apply smstops_exact|reflexivity|reflexivity|].
  intros b w. apply mstops_bind; [apply stops_done|]. intros _. apply decode_stop.
Qed.
Lemma dns_ask_stop dbg fuel c h : stops fcalm fbus (dns_a_question dbg fuel c h).
Proof.
  unfold dns_a_question. apply (stops_bind _ _ _ _ _ _ (dns_query_stop dbg fuel c)).
  2: { intros a ->. eexists. split; reflexivity. }
  intros [(q & c')|e] Ha; [|exact Ha].
  assert (mstops false (q <- query_question q QA h ;; query_send q)) as H by (apply mstops_bind; [apply question_at_stop|]; intros; apply query_send_stop).
  apply (stops_bind _ _ _ _ _ _ H).
  - intros a Hc. exact Hc.
  - intros a ->. eexists. split; reflexivity.
Qed.
Lemma mdns_ask_stop fuel c t h : mstops false (mdns_question fuel c t h).
Proof.
  unfold mdns_question. apply mstops_bind; [apply mdns_query_stop|]. intros q. apply mstops_bind; [apply question_at_stop|]. intros q'.
  apply mstops_bind; [apply query_send_stop|]. intros _. apply mstops_ret.
Qed.
Lemma next_stop fuel r buf : stops fcalm fbus (next_rr fuel r buf).
Proof.
  unfold next_rr. assert (sstops fcalm fbus (next_rr_s fuel (rs_header r) buf (rs_rr_idx r))) as H.
  { unfold next_rr_s. destruct (_ <=? _); [exact I|]. apply (sstops_bind _ _ _ _ _ _ (rr_stop fuel buf)).
    - intros [a|e] Ha; exact Ha.
    - intros a ->. eexists. split; reflexivity. }
  apply (stops_bind _ _ _ _ _ _ (stops_cursor _ _ _ H (rs_reader r))).
  - intros ((v & i) & c) Hx. exact Hx.
  - intros ((v & i) & c) Hx. unfold fbus in Hx. cbn [fst] in Hx. rewrite Hx. eexists. split; reflexivity.
Qed.
Lemma ccall_stop dbg fuel k : stops well badly (ccall_run dbg fuel k).
Proof.
  destruct k; cbn [ccall_run].
  - apply ends_m, sntp_setup_stop.
  - apply ends_m, sntp_request_stop.
  - apply ends_m, sntp_look_stop.
  - apply ends_f, dns_ask_stop.
  - apply ends_m, recv_response_stop.
  - apply ends_m, mdns_ask_stop.
  - apply ends_m, recv_response_stop.
  - apply ends_f, next_stop.
  - apply ends_m, stops_done.
  - apply ends_m, dhcp_setup_stop.
  - apply ends_f, dhcp_process_stop.
  - apply ends_q, mqtt_process_stop.
  - apply ends_q, pub_stop.
  - apply ends_q, sub_stop.
  - apply ends_q, unsub_stop.
  - apply ends_q, pr_read_stop.
  - apply ends_q, pr_read_stop.
  - apply ends_mm, pr_done_stop.
Qed.
Lemma ccall_at_once dbg fuel k sch c o sch' c' : run (ccall_run dbg fuel k) sch c = (o, sch', c') ->
  exists used, sch = used ++ sch' /\
    ((no_faults used /\ o <> Done BusFailure) \/
     exists u t, used = u ++ [t] /\ no_faults u /\ t_fault t <> None /\ o = Done BusFailure).
Proof.
  intros E. destruct (stops_sound _ _ _ _ _ _ _ _ (ccall_stop dbg fuel k) E) as (used & Eu & [(H1 & H2)|(u & t & a & -> & H1 & H2 & H3 & H4)]); exists used || exists (u ++ [t]); (split; [exact Eu|]).
  - left. split; [exact H1|]. intros ->. exact (H2 _ eq_refl eq_refl).
  - right. exists u, t. unfold badly in H4. subst a. auto.
Qed.
