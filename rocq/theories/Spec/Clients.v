(** The calls of the SNTP, DNS, mDNS, DHCP and MQTT clients. *)
From Verif Require Import Model.Prelude Model.Bus Model.Chip Model.Specifiers Model.HlIo Model.Dns Model.Sntp Model.Mqtt Spec.Hoare Spec.MqttMsg.
From Verif Require Model.DhcpClient.

(** How a call ends: well, with the error for a failure of the bus, or with another error. *)
Inductive call_end : Type := Fine | BusFailure | Refusal.
Definition ended {A} (r : res err A) : call_end := match r with Ok _ => Fine | Err Other => BusFailure | Err _ => Refusal end.
Definition mended {A} (r : res merr A) : call_end := match r with Ok _ => Fine | Err MOther => BusFailure | Err _ => Refusal end.

Inductive ccall : Type :=
| SntpSetup (cl : SntpClient) | SntpRequest (cl : SntpClient) | SntpLook (cl : SntpClient)
| DnsAsk (cl : DnsClient) (hostname : list Z) | DnsTake (cl : DnsClient) (id : Z)
| MdnsAsk (cl : MdnsClient) (t : Qtype) (hostname : list Z) | MdnsTake (cl : MdnsClient)
| NextRecord (r : Response) (buf : list Z) | DropResponse (r : Response)
| DhcpSetup (cl : DhcpClient.Client) | DhcpProcess (cl : DhcpClient.Client) (now : Z)
| MqttProcess (cl : MqttClient) (now : Z)
| MqttPublish (cl : MqttClient) (topic payload : list Z) | MqttSubscribe (cl : MqttClient) (filter : list Z) | MqttUnsubscribe (cl : MqttClient) (filter : list Z)
| ReadTopic (p : PublishReader) (n : Z) | ReadPayload (p : PublishReader) (n : Z) | DropMessage (p : PublishReader).
Definition ccall_run (dbg : bool) (fuel : nat) (k : ccall) : prog call_end :=
  match k with
  | SntpSetup cl => r <-- sntp_setup_socket dbg fuel cl ;; Ret (ended r)
  | SntpRequest cl => r <-- sntp_request cl ;; Ret (ended r)
  | SntpLook cl => r <-- on_recv_interrupt dbg cl ;; Ret (ended r)
  | DnsAsk cl h => x <-- dns_a_question dbg fuel cl h ;; Ret (ended (fst x))
  | DnsTake cl id => r <-- dns_response dbg fuel cl id ;; Ret (ended r)
  | MdnsAsk cl t h => r <-- mdns_question fuel cl t h ;; Ret (ended r)
  | MdnsTake cl => r <-- mdns_response dbg fuel cl ;; Ret (ended r)
  | NextRecord r buf => x <-- next_rr fuel r buf ;; Ret (ended (fst x))
  | DropResponse r => x <-- response_done r ;; Ret (ended x)
  | DhcpSetup cl => r <-- DhcpClient.setup_socket dbg fuel cl ;; Ret (ended r)
  | DhcpProcess cl now => x <-- DhcpClient.process dbg fuel cl now ;; Ret (ended (fst x))
  | MqttProcess cl now => x <-- mqtt_process dbg fuel cl now ;; Ret (mended (fst x))
  | MqttPublish cl t p => x <-- mqtt_publish cl t p ;; Ret (mended (fst x))
  | MqttSubscribe cl f => x <-- mqtt_subscribe cl f ;; Ret (mended (fst x))
  | MqttUnsubscribe cl f => x <-- mqtt_unsubscribe cl f ;; Ret (mended (fst x))
  | ReadTopic p n => x <-- pr_read_topic p n ;; Ret (mended (fst x))
  | ReadPayload p n => x <-- pr_read_payload p n ;; Ret (mended (fst x))
  | DropMessage p => r <-- pr_done p ;; Ret (mended r)
  end.

(** The calls with debug assertions, those that wait for the status of a socket, and those that follow the
    names of a DNS message. *)
Definition asserts (k : ccall) : bool :=
  match k with SntpSetup _ | SntpLook _ | DnsAsk _ _ | DnsTake _ _ | MdnsTake _ | DhcpSetup _ | DhcpProcess _ _ | MqttProcess _ _ => true | _ => false end.
Definition opening (k : ccall) : bool :=
  match k with
  | SntpSetup _ | DnsAsk _ _ | MdnsAsk _ _ _ | DhcpSetup _ => true
  | MqttProcess cl _ => mstate_eqb (st_state (mq_st cl)) MInit
  | _ => false
  end.
Definition follows_names (k : ccall) : bool := match k with DnsTake _ _ | MdnsTake _ | NextRecord _ _ => true | _ => false end.

(** The calls that are not [DhcpClient.process] and do not read a message, with arguments as the clients
    document them: a clock that does not go back, a client identifier and topic filters that are not too long. *)
Definition mqtt_ok (cl : MqttClient) (now : Z) : Prop := clock_ok cl now /\ forall i, mq_client_id cl = Some i -> zlen i <= 23.
Definition plain_call (k : ccall) : Prop :=
  match k with
  | DhcpProcess _ _ | ReadTopic _ _ | ReadPayload _ _ | DropMessage _ => False
  | MqttProcess cl now => mqtt_ok cl now
  | MqttSubscribe _ f => zlen f <= 65532
  | MqttUnsubscribe _ f => zlen f <= 65533
  | _ => True
  end.
