(** C105: a stream of MQTT packets is told to the application completely, once and in order, however it arrives. *)
From Verif Require Import Model.Prelude Model.Bus Model.Chip Model.Specifiers Model.Mqtt Spec.Sock Spec.Hoare Spec.TcpClient Spec.Cases Spec.MqttMsg Spec.MqttStream.
From Verif Require Proof.MqttMainP Proof.MqttStreamP.

(** The broker sends the packets of [ms]; they arrive in any pieces at any time, and what has arrived at the end is a part
    of them.  Then the polls that told something told of the first packets of [ms], one each and in order, with the parts of
    each message that were read; exactly these packets were taken from the TCP stream; and the client stays connected. *)
Theorem C105_stream : forall dbg c ch rd tx ms l c' ch' missing, talks dbg c ch l c' ch' ->
  mqtt_is_connected c = true -> st_timeout (mq_st c) = None -> is_u16 (mq_pkt_id c) -> tcp_view (c_sock ch (sn_raw (mq_sn c))) rd tx -> Forall message_ok ms ->
  s_rxlog (c_sock ch' (sn_raw (mq_sn c))) ++ missing = rd ++ message_stream ms ->
  let k := length (news l) in (k <= length ms)%nat /\ Forall2 (fun p m => snd p = tells m (fst p)) (news l) (firstn k ms) /\
  (exists tx', tcp_view (c_sock ch' (sn_raw (mq_sn c))) (rd ++ message_stream (firstn k ms)) tx') /\
  mq_sn c' = mq_sn c /\ mq_st c' = mq_st c /\ is_u16 (mq_pkt_id c').
Proof. exact MqttStreamP.streamed. Qed.
Print Assumptions C105_stream.
(** Nothing stays behind: a poll that tells nothing, when the packets [ms] have arrived, comes after all of them were told. *)
Theorem C105_all : forall dbg c ch rd tx ms l c1 ch1 fuel now ops sch sch' c2 ch2, talks dbg c ch l c1 ch1 ->
  mqtt_is_connected c = true -> st_timeout (mq_st c) = None -> is_u16 (mq_pkt_id c) -> tcp_view (c_sock ch (sn_raw (mq_sn c))) rd tx -> Forall message_ok ms ->
  s_rxlog (c_sock ch1 (sn_raw (mq_sn c))) = rd ++ message_stream ms ->
  Forall pub_op_ok ops -> no_faults sch -> no_link_change (seen_ir sch ch1 (sn_raw (mq_sn c))) ->
  run (poll dbg fuel c1 now ops) sch ch1 = (Done (TldNothing, c2), sch', ch2) -> Forall2 (fun p m => snd p = tells m (fst p)) (news l) ms.
Proof. exact MqttStreamP.all_told. Qed.
Print Assumptions C105_all.
(** And every poll returns. *)
Theorem C105_returns : forall dbg c ch rd tx ms l c1 ch1 missing fuel now ops sch, talks dbg c ch l c1 ch1 ->
  mqtt_is_connected c = true -> st_timeout (mq_st c) = None -> is_u16 (mq_pkt_id c) -> (forall i, mq_client_id c = Some i -> zlen i <= 23) ->
  tcp_view (c_sock ch (sn_raw (mq_sn c))) rd tx -> Forall message_ok ms ->
  s_rxlog (c_sock ch1 (sn_raw (mq_sn c))) ++ missing = rd ++ message_stream ms -> Forall pub_op_ok ops -> no_faults sch ->
  exists a sch' c2 ch2, run (poll dbg fuel c1 now ops) sch ch1 = (Done (a, c2), sch', ch2).
Proof. exact MqttStreamP.poll_returns. Qed.
Print Assumptions C105_returns.

(** A message and the answer to a subscription, of which four bytes are there at first.  Between the polls the application
    subscribes; the rest arrives during the second poll. *)
Example C105_case : let ms := [MsgPublish false [116; 47] [1; 1] [7; 8; 9]; MsgSubAck 65535 [] 0x87] in
  (exists c' ch', talks true MqttStreamP.case_client (case_conn (ztake 4 (message_stream ms)))
    [([], TldNothing); ([PPayload 2; PTopic 9], TldMessage [Ok [7; 8]; Ok [116; 47]] (Ok tt)); ([], TldSubAck 65535 SA_NotAuthorized)] c' ch' /\
    s_rxlog (c_sock ch' 3) = message_stream ms /\ mq_pkt_id c' = 65535) /\
  mqtt_is_connected MqttStreamP.case_client = true /\ st_timeout (mq_st MqttStreamP.case_client) = None /\
  tcp_view (c_sock (case_conn (ztake 4 (message_stream ms))) 3) [] case_tcp_unsent /\ Forall message_ok ms.
Proof.
  cbv zeta. split; [exact MqttStreamP.case_talks|]. split; [reflexivity|]. split; [reflexivity|]. split; [MqttMainP.case_tcp_view|]. exact MqttStreamP.case_ms_ok.
Qed.
