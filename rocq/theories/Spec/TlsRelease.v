(** The conversation of [Spec/TlsTalk.v] in a build without debug assertions, for a counterexample to C54. *)
From Verif Require Import Model.Prelude Model.Bus Model.Chip Model.Specifiers Model.Stream Model.TlsTypes Model.TlsBuf Model.TlsKeys Model.TlsClient
  Spec.Cases Spec.Cursor Spec.TlsSecrets Spec.TlsMessages Spec.TlsQueue Spec.TlsCases Spec.TlsProtect Spec.TlsSession Spec.TlsTalk.

Fixpoint rtalk (c : TlsClient) (l : list (tcall * (TlsClient -> reads))) : option (list (tcall * tans) * TlsClient) :=
  match l with
  | [] => Some ([], c)
  | (x, script) :: l =>
      match play (tcall_run case_cx false 1 c x) (script c) with
      | Done (a, c) => match rtalk c l with Some (h, c) => Some ((x, a) :: h, c) | None => None end
      | _ => None
      end
  end.
(** The reads of [process] when a complete record is in the receive buffer: the status of the socket is only read by an
    assertion. *)
Definition release_reads (record : list Z) : reads :=
  let body := zdrop 5 record in
  map Some ([[0]; be16 (zlen record); be16 (zlen record); be16 100; ztake 5 record; be16 (zlen body); be16 105] ++
    if at_ record 0 =? 23 then chunks 1024 16 (ztake (zlen body - 16) body) ++ [zdrop (zlen body - 16) body] else chunks 1024 64 body).
(** The handshake. *)
Definition release_open : reads := map Some [[0]; [0]; [0]; [0x13]].
Definition release_greeting : list (tcall * (TlsClient -> reads)) :=
  [pcall 100 (fun _ => release_open);
   pcall 101 (fun _ => map Some [[1]] ++ tx_reads ++ map Some [be16 0]);
   pcall 103 (fun _ => release_reads (plaintext_record 22 sh_message));
   pcall 104 (fun c => release_reads (case_record (s_hs_traffic (transcript c)) 0 22 ee_message));
   pcall 105 (fun c => let t1 := ztake (zlen (transcript c) - 6) (transcript c) in
     release_reads (case_record (s_hs_traffic t1) 1 22 (fin_message t1 (transcript c))) ++ tx_reads)].
Definition release_connected : TlsClient := Eval vm_compute in client_of (rtalk talk_init release_greeting).
Definition release_secret : list Z := Eval vm_compute in secret_of (ks_server_traffic (tc_ks release_connected)).
(** Three bytes arrive and are read, six more arrive; then three unprotected records with a part of a handshake message, which
    fill the buffer of 1024 bytes. *)
Definition release_filling : list (tcall * (TlsClient -> reads)) :=
  [pcall 110 (fun _ => release_reads (case_record release_secret 0 23 [7; 8; 9]));
   (KReader [ORead 3] true, fun _ => []);
   pcall 111 (fun _ => release_reads (case_record release_secret 1 23 [1; 0; 3; 251; 5; 6]));
   pcall 112 (fun _ => release_reads (plaintext_record 22 (zeros (Z.to_nat 1000))));
   pcall 113 (fun _ => release_reads (plaintext_record 22 (zeros 16)));
   pcall 114 (fun _ => release_reads (plaintext_record 22 [0; 0]))].
Definition release_full : TlsClient := Eval vm_compute in client_of (rtalk release_connected release_filling).
