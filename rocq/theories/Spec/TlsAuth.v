(** What the application can read from a TLS client. *)
From Verif Require Import Model.Prelude Model.Bus Model.TlsTypes Model.TlsBuf Model.TlsKeys Model.TlsClient Spec.Cursor Spec.TlsSession Spec.TlsWire.

(** The bytes behind [Client::reader]. *)
Definition readable (c : TlsClient) : list Z := match tls_reader c with Some r => cr_a r ++ cr_b r | None => [] end.
(** The client holds received bytes which are not readable: a part of a handshake message. *)
Definition fragment_pending (c : TlsClient) : Prop := b_contains_handshake_fragment (tc_rx c) = true.
(** [p] with what it reads from receive buffers: the blocks with number 3 modulo 4. *)
Fixpoint received {A} (p : prog A) (got : list Z) : prog (A * list Z) :=
  match p with
  | Ret a => Ret (a, got)
  | Rd addr block len k => Rd addr block len (fun r => received (k r) (match r with Some l => if block mod 4 =? 3 then got ++ l else got | None => got end))
  | Wr addr block data k => Wr addr block data (fun r => received (k r) got)
  | Panic => Panic
  | Diverge => Diverge
  end.
(** [data] is the content of an application data record which is a part of the received bytes [got] and passes the
    authentication with number [seq] under the server's traffic secret. *)
Definition authentic (cx : Crypto) (c : TlsClient) (got : list Z) (seq : Z) (data : list Z) : Prop :=
  exists traffic pre record post, ks_server_traffic (tc_ks c) = Some traffic /\ got = pre ++ record ++ post /\ opens cx traffic seq record = Some (data ++ [23]).
(** What a call of [process] that received [got] makes readable: the content of a record with the next number, or
    that of the first record when it began a new session. *)
Definition delivers (cx : Crypto) (c : TlsClient) (got : list Z) (c' : TlsClient) : Prop :=
  readable c' = [] \/ readable c' = readable c \/
  (exists data, authentic cx c got (ks_read_seq (tc_ks c)) data /\ readable c' = readable c ++ data) \/
  authentic cx c got 0 (readable c').
(** What the other calls do with the readable bytes: a session of a reader reads them, and removes them with [done]. *)
Definition keeps (c : TlsClient) (x : tcall) (a : tans) (c' : TlsClient) : Prop :=
  match x with
  | KProcess _ _ => True
  | KReader ops done =>
      let '(xs, _, pos) := asteps (readable c) 0 ops in
      (a = NReader None /\ readable c = [] /\ c' = c) \/ (a = NReader (Some xs) /\ readable c' = if done then zdrop pos (readable c) else readable c)
  | KWriter _ _ | KWriteAll _ => readable c' = readable c
  end.
