(** Histories of a TLS client, and what it means that its handshake is complete. *)
From Coq Require Import String.
From Verif Require Import Model.Prelude Model.Bus Model.Chip Model.Specifiers Model.HlIo Model.Stream Model.TlsTypes Model.TlsBuf Model.TlsKeys Model.TlsRecord
  Model.TlsClient Spec.Cursor Spec.Hoare Spec.TlsSecrets Spec.TlsMessages Spec.TlsQueue.
Local Open Scope list_scope.

(** ** Histories *)
(** What the client is created with. *)
Record tconfig : Type := mkTconfig { cf_hostname : list Z; cf_identity : list Z; cf_psk : list Z; cf_buf : list Z }.
Definition tconfig_ok (cf : tconfig) : Prop :=
  zlen (cf_hostname cf) < 256 /\ In (zlen (cf_buf cf)) [1024; 2048; 4096; 8192; 16384] /\
  bytes_ok (cf_hostname cf) /\ bytes_ok (cf_identity cf) /\ bytes_ok (cf_buf cf).
Definition tls_init (cx : Crypto) (sn : Sn) (src_port : Z) (dst : list Z * Z) (cf : tconfig) : TlsClient :=
  tls_new cx sn src_port (cf_hostname cf) dst (cf_identity cf) (cf_psk cf) (cf_buf cf).
(** [process]; [writer], operations on it and possibly [send]; [write_all]; [reader], operations on it and
    possibly [done]. *)
Inductive tcall : Type :=
| KProcess (rng : Rng) (now : Z)
| KWriter (ops : list cop) (send : bool)
| KWriteAll (data : list Z)
| KReader (ops : list cop) (done : bool).
Inductive tans : Type :=
| NProcess (r : res TError TEvent)
| NWriter (r : res TError (list cres * option (res err unit)))
| NWriteAll (r : res TError unit)
| NReader (r : option (list cres)).
Definition tcall_run (cx : Crypto) (dbg : bool) (fuel : nat) (c : TlsClient) (x : tcall) : prog (tans * TlsClient) :=
  match x with
  | KProcess rng now => y <-- tls_process cx dbg fuel c rng now ;; Ret (NProcess (fst y), snd y)
  | KWriter ops send =>
      w <-- tls_writer c ;;
      match w with
      | Err e => Ret (NWriter (Err e), c)
      | Ok w =>
          y <-- cops_run w ops ;;
          if send then z <-- tls_writer_send cx (snd y) (tc_ks c) ;; Ret (NWriter (Ok (fst y, Some (fst z))), tc_set_ks c (snd z))
          else Ret (NWriter (Ok (fst y, None)), c)
      end
  | KWriteAll data => r <-- tls_write_all cx c data ;; Ret (NWriteAll r, c)
  | KReader ops done =>
      match tls_reader c with
      | None => Ret (NReader None, c)
      | Some r =>
          match tr_ops r ops with
          | TOk (xs, r) => Ret (NReader (Some xs), if done then tc_set_rx c (b_reader_done (tc_rx c) r) else c)
          | TErr _ | TPanic => Panic
          | TDiverge => Diverge
          end
      end
  end.
(** What the random number generator returns: 32 bytes, and a key pair with an encoded public key of 65 bytes. *)
Definition rng_ok (rng : Rng) : Prop :=
  zlen (rg_random rng) = 32 /\ bytes_ok (rg_random rng) /\ zlen (rg_public rng) = 65 /\ bytes_ok (rg_public rng).
Definition tcall_ok (x : tcall) : Prop :=
  match x with
  | KProcess rng _ => rng_ok rng
  | KWriter ops _ => Forall cop_ok ops /\ forallb writer_op ops = true
  | KWriteAll _ => True
  | KReader ops _ => Forall cop_ok ops /\ forallb reader_op ops = true
  end.
(** Calls that return, in order, on a bus that may answer anything and fail at any time. *)
Inductive thistory (cx : Crypto) (dbg : bool) (fuel : nat) (c0 : TlsClient) : list (tcall * tans) -> TlsClient -> Prop :=
| THNil : thistory cx dbg fuel c0 [] c0
| THCall h c x a c' : thistory cx dbg fuel c0 h c -> tcall_ok x -> any_bus (tcall_run cx dbg fuel c x) (Done (a, c')) ->
    thistory cx dbg fuel c0 (h ++ [(x, a)]) c'.
(** The results of the random number generator in a history. *)
Definition randoms (h : list (tcall * tans)) (rng : Rng) : Prop := exists now a, In (KProcess rng now, a) h.

(** ** The handshake *)
Section Handshake.
Variables (cx : Crypto) (R : Rng -> Prop) (cf : tconfig).
Notation psk := (cf_psk cf).
(** A ClientHello with a key share and a random of the generator was sent after the messages [pre]; [dhs] is the
    secret of the key share and [t] the transcript. *)
Definition hello_sent (pre dhs t : list Z) : Prop :=
  exists rng b, R rng /\ dhs = rg_secret rng /\
    let h := mkHello (rg_random rng) (cf_hostname cf) (rg_public rng) (zlen (cf_buf cf) - 22) (cf_identity cf) in
    b = psk_binder cx psk (pre ++ up_to_binders (hello_message h b)) /\ t = pre ++ hello_message h b.
(** The answer was a ServerHello; [dhe] is the secret of the key exchange. *)
Definition hello_answered (pre dhe t : list Z) : Prop :=
  exists dhs t0 body share key, hello_sent pre dhs t0 /\ server_hello body share /\ cx_sec1 cx share = Some key /\
    dhe = cx_dh cx dhs key /\ t = t0 ++ hs_message 2 body.
(** Then EncryptedExtensions. *)
Definition extensions_received (pre dhe t1 t2 : list Z) : Prop :=
  exists body, hello_answered pre dhe t1 /\ encrypted_extensions body /\ t2 = t1 ++ hs_message 8 body.
(** Then a Finished whose verify data is the code, under the key from the server's handshake traffic secret, of all
    messages in front of it.  That secret is derived from the pre-shared key and the key exchange. *)
Definition server_finished (pre dhe t1 t3 : list Z) : Prop :=
  exists t2, extensions_received pre dhe t1 t2 /\
    t3 = t2 ++ hs_message 20 (verify_data cx (derive cx (handshake_secret cx psk dhe) "s hs traffic" t1) t2).

(** The key schedule of RFC 8446, section 7.1, at a point of the handshake. *)
Definition handshake_keys (dhe t1 : list Z) (ks : KeySchedule) : Prop :=
  ks_client_traffic ks = Some (derive cx (handshake_secret cx psk dhe) "c hs traffic" t1) /\
  ks_server_traffic ks = Some (derive cx (handshake_secret cx psk dhe) "s hs traffic" t1).
Definition application_keys (dhe t3 : list Z) (ks : KeySchedule) : Prop :=
  ks_client_traffic ks = Some (derive cx (master_secret cx psk dhe) "c ap traffic" t3) /\
  ks_server_traffic ks = Some (derive cx (master_secret cx psk dhe) "s ap traffic" t3).
(** A message of another type than KeyUpdate. *)
Definition not_key_update (m : list Z) : Prop := exists ty body, m = hs_message ty body /\ ty <> 24.
(** The handshake is complete: the messages were received in this order, [posts] are those that came since; as
    long as there is no KeyUpdate among them the keys are the first application traffic keys. *)
Definition established (pre : list Z) (ks : KeySchedule) : Prop :=
  exists dhe t1 t3 posts, server_finished pre dhe t1 t3 /\ ks_transcript ks = t3 ++ concat posts /\
    (Forall not_key_update posts -> application_keys dhe t3 ks).
(** Every state of the client. *)
Definition stage (c : TlsClient) : Prop :=
  let ks := tc_ks c in
  match tc_state c with
  | TReset | TWaitConInt => ks = ks_default cx
  | TWaitServerHello => exists pre dhs, hello_sent pre dhs (ks_transcript ks)
  | TWaitEncryptedExtensions => exists pre dhe, hello_answered pre dhe (ks_transcript ks) /\ handshake_keys dhe (ks_transcript ks) ks
  | TWaitFinished => exists pre dhe t1, extensions_received pre dhe t1 (ks_transcript ks) /\ handshake_keys dhe t1 ks
  | TSendFinished => exists pre dhe t1, server_finished pre dhe t1 (ks_transcript ks) /\ handshake_keys dhe t1 ks
  | TConnected => exists pre, established pre ks
  | TWaitAlertSendOk | TSendDiscon | TWaitDiscon => True
  end.
End Handshake.
