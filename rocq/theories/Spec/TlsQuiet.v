(** What the TLS client does when nothing but an interrupt is there to handle. *)
From Verif Require Import Model.Prelude Model.TlsTypes Model.TlsClient.

(** The states in which the client waits for the server or the chip.  The first has no time limit. *)
Definition twaiting (s : TState) : Prop :=
  In s [TConnected; TWaitConInt; TWaitServerHello; TWaitEncryptedExtensions; TWaitFinished; TWaitAlertSendOk; TWaitDiscon].
(** The answer with nothing to handle: the time until the next call, or the end of the wait. *)
Definition twaits (c : TlsClient) (now : Z) (x : res TError TEvent * TlsClient) : Prop :=
  match tc_timeout c with
  | None => x = (Ok TNone, c)
  | Some since =>
      (now - since <= 10 /\ x = (Ok (TCallAfter (10 - (now - since))), c)) \/
      (10 < now - since /\ fst x = Err (EStateTimeout (tc_state c)) /\ tc_timeout (snd x) = None /\
       (tc_state (snd x) = if tstate_eqb (tc_state c) TWaitDiscon then TReset else TSendDiscon))
  end.
Definition tclock_ok (c : TlsClient) (now : Z) : Prop :=
  match tc_timeout c with None => True | Some since => since <= now end.
