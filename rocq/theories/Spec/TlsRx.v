(** What a TLS client makes of the records in the receive buffer of the chip. *)
From Verif Require Import Model.Prelude Model.Bus Model.Chip Model.Specifiers Model.TlsTypes Model.TlsBuf Model.TlsKeys Model.TlsClient Spec.Sock Spec.TcpClient Spec.TlsSecrets Spec.TlsProtect Spec.TlsWire.

(** The ring buffer of the client holds the readable bytes [ad], then the bytes [rest] that are not readable. *)
Definition buffer_holds (b : Buffer) (ad rest : list Z) : Prop :=
  let N := zlen (b_buf b) in
  2 <= N <= 16384 /\ 0 <= b_head b < N /\ 0 <= b_hs_head b < N /\ zlen ad + zlen rest <= N - 1 /\
  b_ad_tail b = (b_head b + zlen ad) mod N /\ b_tail b = (b_head b + (zlen ad + zlen rest)) mod N /\
  forall i, 0 <= i < zlen ad + zlen rest -> at_ (b_buf b) (Z.to_nat ((b_head b + i) mod N)) = at_ (ad ++ rest) (Z.to_nat i).
(** The size of the buffer given to [Client::new]. *)
Definition buffer_size (c : TlsClient) : Z := zlen (b_buf (tc_rx c)).

(** The client waits for records. *)
Definition listens (c : TlsClient) : Prop :=
  match tc_state c with TReset | TSendDiscon | TWaitAlertSendOk | TWaitDiscon => False | _ => True end.
(** The server's records are protected with the keys of [traffic]; the next one has number [seq]. *)
Definition reads_with (c : TlsClient) (traffic : list Z) (seq : Z) : Prop :=
  ks_server_traffic (tc_ks c) = Some traffic /\ ks_read_seq (tc_ks c) = seq /\ 0 <= seq < 2 ^ 64 - 1.
(** The client has keys in both directions or in none. *)
Definition paired (c : TlsClient) : Prop :=
  (ks_server_traffic (tc_ks c) = None <-> ks_client_traffic (tc_ks c) = None) /\ 0 <= ks_write_seq (tc_ks c) < 2 ^ 64.
(** The record of a fatal alert, protected if there are keys. *)
Definition alert_record (cx : Crypto) (c : TlsClient) (description : Z) : list Z :=
  match ks_client_traffic (tc_ks c) with
  | Some traffic => protected_record cx traffic (ks_write_seq (tc_ks c)) 21 [2; description]
  | None => plaintext_record 21 [2; description]
  end.
(** The header of a record: a known content type, any version, the length of what follows. *)
Definition record_header (ty : Z) (version : list Z) (len : Z) : list Z := [ty] ++ version ++ be16 len.

(** The client gives up with [description]: the error says so, the alert is sent if there is room for it, the keys are
    forgotten, and what could be read can still be read. *)
Definition gives_up (cx : Crypto) (c : TlsClient) (description : Z) (free : Z) (rd tx : list Z) (ad : list Z) (x : res TError TEvent * TlsClient) (s' : sock) : Prop :=
  exists c' rest, x = (Err (EClient (mkAlert 1 description)), c') /\ buffer_holds (tc_rx c') ad rest /\
    ks_server_traffic (tc_ks c') = None /\ ks_client_traffic (tc_ks c') = None /\
    ((tc_state c' = TWaitAlertSendOk /\ tcp_view s' rd (tx ++ alert_record cx c description)) \/
     (tc_state c' = TSendDiscon /\ tcp_view s' rd tx /\ free < zlen (alert_record cx c description))).
(** The next thing in the receive buffer of the connection is [record]; the stream has been read up to [rd], [tx] was sent. *)
Definition arrived (ch : chip) (c : TlsClient) (rd tx record : list Z) : Prop :=
  let s := c_sock ch (sn_raw (tc_sn c)) in tcp_view s rd tx /\ tx_bytes s /\ exists more, unread s = record ++ more.
Definition tx_room (ch : chip) (c : TlsClient) : Z := free_space (c_sock ch (sn_raw (tc_sn c))).
(** The client is back at the start and has forgotten everything, also the bytes that could be read. *)
Definition forgot (c' : TlsClient) : Prop :=
  tc_state c' = TReset /\ buffer_holds (tc_rx c') [] [] /\ ks_server_traffic (tc_ks c') = None /\ ks_client_traffic (tc_ks c') = None.
