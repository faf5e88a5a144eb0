(** What the statement about crashes of the TLS client refers to. *)
From Verif Require Import Model.Prelude Model.TlsTypes Model.TlsBuf Model.TlsClient Spec.TlsSession Spec.TlsQuiet.

(** No application data was reported since the last handshake was completed. *)
Definition no_data (h : list (tcall * tans)) : bool :=
  fold_left (fun b y => match snd y with NProcess (Ok THandshakeFinished) => true | NProcess (Ok TApplicationData) => false | _ => b end) h true.
(** A receive buffer in which no application data was stored. *)
Definition untouched (b : Buffer) : Prop := b_head b = 0 /\ b_ad_tail b = 0 /\ b_hs_head b <= b_tail b.
(** The ClientHello, 234 bytes with the hostname and the identity of the pre-shared key, fits the receive buffer. *)
Definition hello_room (cf : tconfig) : Prop := 234 + zlen (cf_hostname cf) + zlen (cf_identity cf) <= zlen (cf_buf cf).
(** A call within the limits: for [process], a clock that does not run backwards, room for the ClientHello, and no application data before in this
    connection, or in the buffer when the connection is awaited; for [write_all], what a record can hold. *)
Definition within (cf : tconfig) (h : list (tcall * tans)) (c : TlsClient) (x : tcall) : Prop :=
  match x with
  | KProcess _ now => hello_room cf /\ tclock_ok c now /\ (tls_connected c = true -> no_data h = true) /\ (tc_state c = TWaitConInt -> untouched (tc_rx c))
  | KWriteAll data => zlen data <= 65518
  | KWriter _ _ | KReader _ _ => True
  end.
