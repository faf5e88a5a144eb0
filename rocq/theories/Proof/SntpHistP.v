(** Histories of an SNTP client. *)
From Verif Require Import Model.Prelude Model.Specifiers Model.Bus Model.Chip Model.Sntp Spec.Sock Spec.Hoare Spec.UdpClient Spec.DhcpMsg Spec.SntpMsg Spec.SntpHist.
From Verif Require Import Proof.SntpNumP.

Lemma server_replies_app server a b ra rb : server_replies server a ra -> server_replies server b rb ->
  server_replies server (a ++ b) (ra ++ rb).
Proof. induction 1; intros Hb; cbn [app]; [exact Hb|apply SrOther; auto|eapply SrReply; eauto]. Qed.
(** One look: the datagrams that go are at the front, and the usable reply among them is reported. *)
Lemma look_step server d q1 r q2 : handles server d q1 r q2 ->
  exists used, d :: q1 = used ++ q2 /\ server_replies server used (replies [DidLook r]).
Proof.
  intros H. destruct H as [Hf|Hs Hl|p rest Hs Hp E Hu|p rest Hs Hp E Hu].
  - exists [d]. split; [reflexivity|]. apply SrOther; [|constructor]. intros p rest C. contradiction.
  - exists []. split; [reflexivity|constructor].
  - exists [d]. split; [reflexivity|]. apply SrOther; [|constructor]. intros p' rest' _ Hp' E' Hu'. apply Hu.
    assert (ntp_bytes p = ntp_bytes p') as Eb by (eapply ntp_bytes_inj; [exact Hp|exact Hp'|rewrite <- E, <- E'; reflexivity]).
    exact (proj2 (proj1 (usable_same p p' Hp Hp' Eb)) Hu').
  - exists [d]. split; [reflexivity|]. cbn. eapply SrReply; eauto. constructor.
Qed.
Lemma calls_reported dbg cl c l c' : sntp_calls dbg cl c l c' -> forall q fs a, udp_view (c_sock c (sn_raw (sc_sn cl))) q fs a ->
  exists new used q' sent, q ++ new = used ++ q' /\ server_replies (sc_server cl) used (replies l) /\
    udp_view (c_sock c' (sn_raw (sc_sn cl))) q' (fs ++ sent) a /\
    sent = repeat (frame_to a (ntp_bytes client_request)) (requests l).
Proof.
  induction 1 as [c|sch c r sch' c1 l c2 Hs Hr P IH|sch c r sch' c1 l c2 Hs Hr P IH]; intros q fs a V.
  - exists [], [], q, []. rewrite !app_nil_r. split; [reflexivity|]. split; [constructor|]. split; [exact V|reflexivity].
  - destruct (request_run cl c q fs a V sch Hs) as (r' & s1 & c1' & E & D). rewrite Hr in E. injection E as <- <- <-.
    destruct D as (n1 & [(-> & _ & V1)|(-> & V1)]); destruct (IH _ _ _ V1) as (n2 & used & q' & sent & E2 & R & V2 & S2);
      exists (n1 ++ n2), used, q'.
    + exists sent. rewrite app_assoc. split; [exact E2|]. split; [exact R|]. split; [exact V2|exact S2].
    + exists (frame_to a (ntp_bytes client_request) :: sent). rewrite app_assoc. split; [exact E2|]. split; [exact R|].
      split; [rewrite <- app_assoc in V2; exact V2|]. rewrite S2. reflexivity.
  - destruct (on_recv_run dbg cl c q fs a V sch Hs) as (r' & s1 & c1' & E & D). rewrite Hr in E. injection E as <- <- <-.
    destruct D as (n1 & q1 & V1 & [(-> & -> & ->)|(d & q2 & Eq & q3 & more & -> & Hh)]).
    + destruct (IH _ _ _ V1) as (n2 & used & q' & sent & E2 & R & V2 & S2). exists (n1 ++ n2), used, q', sent. auto.
    + destruct (look_step _ _ _ _ _ Hh) as (u1 & Eu & Ru). destruct (IH _ _ _ V1) as (n2 & used & q' & sent & E2 & R & V2 & S2).
      exists (n1 ++ more ++ n2), (u1 ++ used), q', sent. split; [|split; [|split; [exact V2|exact S2]]].
      * rewrite !app_assoc, Eq, Eu. rewrite <- !app_assoc in *. now rewrite E2.
      * change (replies (DidLook r :: l)) with (replies ([DidLook r] ++ l)). unfold replies. rewrite flat_map_app.
        now apply server_replies_app.
Qed.
