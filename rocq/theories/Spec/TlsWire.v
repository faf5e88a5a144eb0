(** What a connected TLS client puts on the wire. *)
From Verif Require Import Model.Prelude Model.Bus Model.Chip Model.Specifiers Model.HlIo Model.Stream Model.TlsTypes Model.TlsBuf Model.TlsKeys Model.TlsRecord
  Model.TlsClient Spec.Sock Spec.Cursor Spec.Fips197 Spec.Gcm38D Spec.TlsSecrets Spec.TlsProtect Spec.TlsSession.

(** The transmit memory of the chip and the data of the caller consist of bytes. *)
Definition tx_bytes (s : sock) : Prop := forall a, is_u8 (s_txmem s a).
Definition op_bytes (o : cop) : Prop := match o with OWrite b | OWriteAll b => bytes_ok b | _ => True end.
Definition free_space (s : sock) : Z := tx_size s - pending s.

(** A connected client which protects its records with the keys of [traffic]; the next one has number [seq]. *)
Definition writes_with (c : TlsClient) (traffic : list Z) (seq : Z) : Prop :=
  tc_state c = TConnected /\ ks_client_traffic (tc_ks c) = Some traffic /\ ks_write_seq (tc_ks c) = seq /\ 0 <= seq.

(** Calls one after the other. *)
Fixpoint tcalls_run (cx : Crypto) (dbg : bool) (fuel : nat) (c : TlsClient) (l : list tcall) : prog (list tans * TlsClient) :=
  match l with
  | [] => Ret ([], c)
  | x :: l => y <-- tcall_run cx dbg fuel c x ;; z <-- tcalls_run cx dbg fuel (snd y) l ;; Ret (fst y :: fst z, snd z)
  end.
(** Records of application data with consecutive numbers. *)
Fixpoint app_records (cx : Crypto) (traffic : list Z) (seq : Z) (contents : list (list Z)) : list Z :=
  match contents with
  | [] => []
  | d :: l => protected_record cx traffic seq 23 d ++ app_records cx traffic (seq + 1) l
  end.

(** Sessions of a writer whose data are bytes; how many of them sent a record. *)
Definition is_session (x : tcall) : Prop :=
  match x with KWriter ops _ => Forall cop_ok ops /\ forallb writer_op ops = true /\ Forall op_bytes ops | _ => False end.
Fixpoint sent_count (l : list tans) : Z :=
  match l with
  | [] => 0
  | NWriter (Ok (_, Some (Ok _))) :: l => 1 + sent_count l
  | _ :: l => sent_count l
  end.
(** A receiver with the keys of [traffic] opens a record with number [seq]: the content and its type. *)
Definition opens (cx : Crypto) (traffic : list Z) (seq : Z) (record : list Z) : option (list Z) :=
  let body := zdrop 5 record in
  gcm_decrypt (fips_cipher (traffic_key cx traffic)) (nonce cx traffic seq) (ztake 5 record) (ztake (zlen body - 16) body) (zdrop (zlen body - 16) body).
