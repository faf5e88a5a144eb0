(** DHCP messages through the sockets of the chip. *)
From Verif Require Export Proof.DhcpPktP Proof.DnsRespP.
From Verif Require Import Proof.SprogP.

Section Chip.
Context (sn : Sn).
Let n := snz sn.

Lemma write_msg D s q fs a a' (p : SM unit) msg (k : cursor -> M unit) : udp_view s q fs a -> emits 0 p msg ->
  (forall s1 c w q1, uwriting sn s1 c w q1 fs a -> wps (k c) n s1 D (fun r s' => r = Ok tt /\ exists new,
    udp_view s' (q1 ++ new) (fs ++ [frame_to a' (ztake (cur_pos c) w)]) a')) ->
  wps (c <- tx_writer sn ;; x <-- on_cursor c p ;; match fst x with Err e => fail e | Ok _ => k (snd x) end) n s D
    (dispatched (tx_size s - pending s) q fs a a' msg).
Proof.
  intros V Em Hk. apply wps_bindM. eapply wps_mono; [| |exact (uwriter_open sn D s q fs a V)]; [auto|].
  intros r s1 (n1 & c & w & -> & W1 & Hp & Hl). destruct (uwriting_len _ _ _ _ _ _ _ W1) as (_ & _ & Lw).
  apply wps_bind. eapply wps_mono; [| |eapply (uwriting_run sn D s1 c w (q ++ n1) fs a p _ W1); rewrite Hp; apply (emits_start p msg D w Em); lia]; [auto|].
  intros [r c2] s2 (n2 & w2 & W2 & L2 & [(E & Hn)|(E & E2 & E3)]); cbn [fst snd] in *; subst r; cbn [wps fail].
  - exists (n1 ++ n2). left. split; [reflexivity|]. split; [lia|]. rewrite app_assoc. apply W2.
  - eapply wps_mono; [| |exact (Hk _ _ _ _ W2)]; [auto|]. intros r s3 (-> & n3 & V3).
    exists (n1 ++ n2 ++ n3). right. rewrite !app_assoc, <- E2. auto.
Qed.
Lemma send_discover_spec D dbg s q fs a mac hostname xid b : udp_view s q fs a -> addr_ok b ->
  zlen mac = 6 -> bytes_ok mac -> zlen hostname <= 255 -> bytes_ok hostname ->
  wps (send_dhcp_discover dbg sn mac hostname xid b) n s D
    (dispatched (tx_size s - pending s) q fs a b (client_msg xid mac (discover_opts mac hostname))).
Proof.
  intros V Hb Hm Bm Hh Bh. apply (write_msg D s q fs a b _ _ (fun c => udp_writer_send_to dbg c b) V (discover_emits mac hostname xid Hm Bm Hh Bh)).
  intros s1 c w q1 W. exact (uwriting_send_to sn D dbg s1 c w q1 fs a b W Hb).
Qed.
Lemma send_request_spec D s q fs a mac ip hostname server xid : udp_view s q fs a ->
  zlen mac = 6 -> bytes_ok mac -> zlen hostname <= 255 -> bytes_ok hostname -> zlen ip = 4 -> bytes_ok ip ->
  match server with Some x => zlen x = 4 /\ bytes_ok x | None => True end ->
  wps (send_dhcp_request sn mac ip hostname server xid) n s D
    (dispatched (tx_size s - pending s) q fs a a (client_msg xid mac (request_opts mac hostname ip server))).
Proof.
  intros V Hm Bm Hh Bh Hi Bi Hs. apply (write_msg D s q fs a a _ _ cur_send V (request_emits mac ip hostname server xid Hm Bm Hh Bh Hi Bi Hs)).
  intros s1 c w q1 W. exact (uwriting_send sn D s1 c w q1 fs a W).
Qed.

(** A received datagram fits in the receive buffer. *)
Lemma head_fits s d q fs a : udp_view s (d :: q) fs a -> bytes_ok (d_data d) /\ zlen (d_data d) <= 16376.
Proof.
  intros V. pose proof V as (_ & ((Hz & _ & _ & Hr) & _) & _). pose proof (head_of _ _ _ _ _ V) as (_ & _ & _ & (_ & _ & _ & O1 & O2) & _).
  destruct (rsr_cases sn _ _ _ _ V) as [(C & _)|(d' & r & E & _ & L)]; [discriminate C|]. injection E as <- <-.
  split; [exact O1|]. unfold size_ok in Hz. lia.
Qed.
Lemma look_up_spec D dbg fuel gs s d q fs a : udp_view s (d :: q) fs a -> D \/ zlen (d_data d) < Z.of_nat fuel ->
  wps (r <- udp_reader dbg sn ;; x <-- on_cursor (ur_inner r) (gets fuel gs cache_new) ;; ret (fst (fst x))) n s D
    (fun r s' => exists rs new, r = Ok rs /\ Forall2 (answers (d_data d)) gs rs /\ udp_view s' (d :: q ++ new) fs a).
Proof.
  intros V Hf. destruct (head_fits _ _ _ _ _ V) as (B & L). apply wps_bindM.
  eapply wps_mono; [| |exact (ureader_open sn D dbg s (d :: q) fs a V)]; [auto|].
  intros r s1 (n1 & [(_ & C & _)|(c & d' & q' & E & -> & R & Hp)]); [discriminate C|]. cbn [app] in E. injection E as <- <-.
  cbn [ur_inner]. apply wps_bind.
  eapply wps_mono; [| |eapply (ureading_run sn D s1 c d _ fs a _ _ R); rewrite Hp; apply (gets_answers (d_data d) D fuel gs B ltac:(lia) Hf cache_new 0 (cached_new _))]; [auto| |pose proof (zlen_nonneg (d_data d)); lia].
  intros [[rs k] c2] s2 (n2 & R2 & _ & _ & _ & F). cbn [fst snd wps ret] in *. exists rs, (n1 ++ n2). split; [reflexivity|]. split; [exact F|].
  rewrite app_assoc. exact (ureading_view _ _ _ _ _ _ _ R2).
Qed.
End Chip.

(** ** Runs *)
Lemma send_discover_run dbg sn c q fs a mac hostname xid b : let s := c_sock c (sn_raw sn) in udp_view s q fs a -> addr_ok b ->
  zlen mac = 6 -> bytes_ok mac -> zlen hostname <= 255 -> bytes_ok hostname ->
  ensures (send_dhcp_discover dbg sn mac hostname xid b) (sn_raw sn) c
    (dispatched (tx_size s - pending s) q fs a b (client_msg xid mac (discover_opts mac hostname))).
Proof. intros s V Hb Hm Bm Hh Bh. apply ensures_wps. now apply send_discover_spec. Qed.
Lemma send_request_run sn c q fs a mac ip hostname server xid : let s := c_sock c (sn_raw sn) in udp_view s q fs a ->
  zlen mac = 6 -> bytes_ok mac -> zlen hostname <= 255 -> bytes_ok hostname -> zlen ip = 4 -> bytes_ok ip ->
  match server with Some x => zlen x = 4 /\ bytes_ok x | None => True end ->
  ensures (send_dhcp_request sn mac ip hostname server xid) (sn_raw sn) c
    (dispatched (tx_size s - pending s) q fs a a (client_msg xid mac (request_opts mac hostname ip server))).
Proof. intros s V Hm Bm Hh Bh Hi Bi Hs. apply ensures_wps. now apply send_request_spec. Qed.
Lemma look_up_run dbg fuel gs sn c d q fs a : udp_view (c_sock c (sn_raw sn)) (d :: q) fs a -> zlen (d_data d) < Z.of_nat fuel ->
  ensures (r <- udp_reader dbg sn ;; x <-- on_cursor (ur_inner r) (gets fuel gs cache_new) ;; ret (fst (fst x))) (sn_raw sn) c
    (fun r s' => exists rs new, r = Ok rs /\ Forall2 (answers (d_data d)) gs rs /\ udp_view s' (d :: q ++ new) fs a).
Proof. intros V Hf. apply ensures_wps. apply look_up_spec; auto. Qed.

(** ** What a receiver reads in the messages sent *)
Lemma client_msg_finds xid mac opts code rest : 1 <= code <= 254 -> zlen mac = 6 -> Forall item_ok opts ->
  exists f, finds code (zdrop 240 (client_msg xid mac opts ++ rest)) f /\
    match first_opt code opts with
    | None => f = Absent
    | Some v => exists more, f = Present (zlen v) (v ++ more)
    end.
Proof.
  intros Hc Hm Ho. replace (zdrop 240 (client_msg xid mac opts ++ rest)) with (area opts ++ 255 :: rest).
  - destruct (area_finds code opts rest Hc Ho) as (tail & H). eexists. split; [exact H|]. destruct (first_opt code opts); eauto.
  - unfold client_msg. rewrite app_assoc. fold (client_head xid mac). rewrite <- !app_assoc.
    rewrite zdrop_app_r by (rewrite client_head_len; lia). rewrite client_head_len by exact Hm. rewrite Z.sub_diag, zdrop_0. reflexivity.
Qed.
Lemma answers_shape w g : bytes_ok w -> zlen w <= 65280 ->
  exists r, answers w g r /\ (r = Err UnexpectedEof \/ exists v, r = Ok v).
Proof.
  intros Hw Hz. destruct (answers_total w g Hw Hz) as (r & An). exists r. split; [exact An|].
  assert (forall l off k, bytes_at_ l off k = Err UnexpectedEof \/ exists v, bytes_at_ l off k = Ok v) as Bt.
  { intros l off k. unfold bytes_at_. destruct (off + k <=? zlen l); eauto. }
  inversion An as [E|E|E|g0 code Hg Hs E|g0 code f Hg Hl Hf E]; subst.
  - destruct (Bt w 0 1) as [E|(v & E)]; rewrite E; cbn [res_map]; eauto.
  - destruct (Bt w 4 4) as [E|(v & E)]; rewrite E; cbn [res_map]; eauto.
  - destruct (Bt w 16 4) as [E|(v & E)]; rewrite E; cbn [res_map]; eauto.
  - auto.
  - clear An Hf Hl Bt. destruct g; try discriminate Hg; unfold read_found, exactly, first_addr; destruct f; cbn [res_map];
      repeat match goal with |- context [if ?b then _ else _] => destruct b end; cbn [res_map]; eauto.
Qed.
