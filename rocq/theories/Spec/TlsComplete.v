(** The stages of a TLS handshake, seen from the server's side. *)
From Coq Require Import String.
From Verif Require Import Model.Prelude Model.Bus Model.Chip Model.Specifiers Model.TlsTypes Model.TlsBuf Model.TlsKeys Model.TlsClient
  Spec.TlsSecrets Spec.TlsMessages Spec.TlsQueue Spec.TlsRx.
Local Open Scope list_scope.

Section Complete.
Variable cx : Crypto.
(** Nothing is in the buffer of the client and nothing was since the handshake began. *)
Definition unused (c : TlsClient) : Prop := 1024 <= buffer_size c <= 16384 /\ idle_at 0 (tc_rx c).
(** Nothing that [Client::new] was given has changed. *)
Definition same_client (c c' : TlsClient) : Prop :=
  tc_sn c' = tc_sn c /\ tc_src_port c' = tc_src_port c /\ tc_hostname c' = tc_hostname c /\ tc_dst c' = tc_dst c /\
  tc_identity c' = tc_identity c /\ tc_psk c' = tc_psk c /\ buffer_size c' = buffer_size c.
(** The ClientHello of this client, with what the random number generator gave. *)
Definition greeting (c : TlsClient) (rng : Rng) : hello := mkHello (rg_random rng) (tc_hostname c) (rg_public rng) (buffer_size c - 22) (tc_identity c).
(** The client waits for the connection, as after [Client::process] opened the socket. *)
Definition connecting (c : TlsClient) : Prop := tc_state c = TWaitConInt /\ tc_ks c = ks_default cx /\ 1024 <= buffer_size c <= 16384.
(** The ClientHello is sent; [dhs] is the secret of its key share, [t0] the messages so far. *)
Definition greeted (c : TlsClient) (dhs t0 : list Z) : Prop :=
  tc_state c = TWaitServerHello /\ ks_client_secret (tc_ks c) = Some dhs /\ ks_transcript (tc_ks c) = t0 /\
  ks_secret (tc_ks c) = derive cx (early_secret cx (tc_psk c)) "derived" [] /\ unused c.
(** The traffic secrets of the handshake, from the pre-shared key, the key exchange [dhe] and the messages [t1] up to ServerHello. *)
Definition client_hs (psk dhe t1 : list Z) : list Z := derive cx (handshake_secret cx psk dhe) "c hs traffic" t1.
Definition server_hs (psk dhe t1 : list Z) : list Z := derive cx (handshake_secret cx psk dhe) "s hs traffic" t1.
(** The Finished message of the side whose traffic secret is [traffic], after the messages [t]. *)
Definition finished (traffic t : list Z) : list Z := hs_message 20 (verify_data cx traffic t).
(** The keys are exchanged; the messages so far are [t], [seq] is the number of the server's next record. *)
Definition agreed (c : TlsClient) (dhe t1 t : list Z) (seq : Z) : Prop :=
  ks_client_traffic (tc_ks c) = Some (client_hs (tc_psk c) dhe t1) /\ ks_server_traffic (tc_ks c) = Some (server_hs (tc_psk c) dhe t1) /\
  ks_transcript (tc_ks c) = t /\ ks_secret (tc_ks c) = derive cx (handshake_secret cx (tc_psk c) dhe) "derived" [] /\
  ks_read_seq (tc_ks c) = seq /\ ks_write_seq (tc_ks c) = 0 /\ unused c.
(** The handshake is over; [t3] are the messages up to the server's Finished. *)
Definition secured (c : TlsClient) (dhe t3 : list Z) : Prop :=
  tc_state c = TConnected /\ ks_client_traffic (tc_ks c) = Some (derive cx (master_secret cx (tc_psk c) dhe) "c ap traffic" t3) /\
  ks_server_traffic (tc_ks c) = Some (derive cx (master_secret cx (tc_psk c) dhe) "s ap traffic" t3) /\
  ks_read_seq (tc_ks c) = 0 /\ ks_write_seq (tc_ks c) = 0 /\ buffer_holds (tc_rx c) [] [].
End Complete.
