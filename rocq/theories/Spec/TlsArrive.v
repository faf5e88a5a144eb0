(** A TLS handshake whose answers arrive in pieces. *)
From Verif Require Import Model.Prelude Model.Bus Model.Chip Model.Specifiers Model.TlsTypes Model.TlsBuf Model.TlsKeys Model.TlsClient
  Spec.Hoare Spec.MqttMsg Spec.TlsSecrets Spec.TlsMessages Spec.TlsProtect Spec.TlsQueue Spec.TlsSession Spec.TlsWire Spec.TlsRx Spec.TlsComplete.
Local Open Scope list_scope.

(** The client has not waited for more than ten seconds, by the clock of the application. *)
Definition in_time (c : TlsClient) (now : Z) : Prop := match tc_timeout c with Some since => since <= now <= since + 10 | None => True end.
(** Calls of [process] of the client [c] that uses the chip [ch], as long as the handshake goes on; none of them finds that
    the connection was made or lost, and all are made in time.  [rs] are the answers. *)
Inductive handshakes (cx : Crypto) (dbg : bool) (c : TlsClient) (ch : chip) : list (res TError TEvent) -> TlsClient -> chip -> Prop :=
| HNil : handshakes cx dbg c ch [] c ch
| HProcess rs c1 ch1 fuel rng now sch r sch' c2 ch2 : handshakes cx dbg c ch rs c1 ch1 -> tc_state c1 <> TConnected -> in_time c1 now ->
    no_faults sch -> no_link_change (seen_ir sch ch1 (sn_raw (tc_sn c))) ->
    run (tls_process cx dbg fuel c1 rng now) sch ch1 = (Done (r, c2), sch', ch2) -> handshakes cx dbg c ch (rs ++ [r]) c2 ch2.
(** The client waits for more. *)
Definition goes_on (r : res TError TEvent) : Prop := r = Ok TNone \/ exists secs, r = Ok (TCallAfter secs) /\ 0 <= secs <= 10.

Section Flight.
(** The key exchange [dhe], the messages [t0] of the client, and the bodies of the server's first two messages. *)
Context (cx : Crypto) (psk dhe t0 hello extensions : list Z).
Definition upto_hello : list Z := t0 ++ hs_message 2 hello.
Definition upto_extensions : list Z := upto_hello ++ hs_message 8 extensions.
Definition server_key : list Z := server_hs cx psk dhe upto_hello.
Definition client_key : list Z := client_hs cx psk dhe upto_hello.
Definition upto_finished : list Z := upto_extensions ++ finished cx server_key upto_extensions.
(** The three records of a conforming server. *)
Definition flight : list (list Z) :=
  [plaintext_record 22 (hs_message 2 hello); protected_record cx server_key 0 22 (hs_message 8 extensions); protected_record cx server_key 1 22 (finished cx server_key upto_extensions)].
(** The record of the client after the last of them. *)
Definition reply : list Z := protected_record cx client_key 0 22 (finished cx client_key upto_finished).
(** The client after [k] of these records. *)
Definition stage (k : nat) (dhs : list Z) (c : TlsClient) : Prop :=
  match k with
  | 0%nat => greeted cx c dhs t0
  | 1%nat => tc_state c = TWaitEncryptedExtensions /\ agreed cx c dhe upto_hello upto_hello 0
  | 2%nat => tc_state c = TWaitFinished /\ agreed cx c dhe upto_hello upto_extensions 1
  | _ => secured cx c dhe upto_finished
  end.
End Flight.
