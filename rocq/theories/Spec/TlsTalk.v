(** A conversation with a server, for the examples beside the TLS theorems. *)
From Coq Require Import String.
From Verif Require Import Model.Prelude Model.Bus Model.Chip Model.Specifiers Model.Stream Model.Aes Model.TlsTypes Model.TlsBuf Model.TlsKeys Model.TlsClient
  Spec.Cases Spec.Cursor Spec.TlsSecrets Spec.TlsMessages Spec.TlsQueue Spec.TlsCases Spec.TlsProtect Spec.TlsSession.
Local Open Scope list_scope.

(** A protected record, with the code's AES: that of FIPS 197 cannot be computed in reasonable time.  They are
    equal by [C50_aes]. *)
Definition case_record : list Z -> Z -> Z -> list Z -> list Z := sealed_record (fun key => aes_encrypt_block (aes_new key)) case_cx.

Definition talk_cf : tconfig := mkTconfig [97; 98] [1; 2; 3] [5; 6; 7] (zeros (Z.to_nat 1024)).
Definition talk_rng : Rng := mkRng (List.repeat 9 32) [8; 8] (4 :: List.repeat 17 64).
Definition talk_init : TlsClient := tls_init case_cx Sn3 50000 ([10; 0; 0; 9], 443) talk_cf.

(** What the bus answers to the reads of one call, from the state of the client. *)
Definition reads : Type := list (option (list Z)).
Fixpoint talk (c : TlsClient) (l : list (tcall * (TlsClient -> reads))) : option (list (tcall * tans) * TlsClient) :=
  match l with
  | [] => Some ([], c)
  | (x, script) :: l =>
      match play (tcall_run case_cx true 1 c x) (script c) with
      | Done (a, c) => match talk c l with Some (h, c) => Some ((x, a) :: h, c) | None => None end
      | _ => None
      end
  end.

Fixpoint chunks (fuel : nat) (n : Z) (l : list Z) : list (list Z) :=
  match fuel, l with
  | O, _ | _, [] => []
  | S fuel, _ => ztake n l :: chunks fuel n (zdrop n l)
  end.
(** The reads of [process] when a complete record is in the receive buffer, or nothing. *)
Definition idle_reads : reads := map Some [[0]; be16 0].
Definition record_reads (record : list Z) : reads :=
  let body := zdrop 5 record in
  map Some ([[0]; be16 (zlen record); [0x17]; be16 (zlen record); be16 100; ztake 5 record] ++
    if at_ record 0 =? 23 then [be16 (zlen body); be16 105] ++ chunks 1024 16 (ztake (zlen body - 16) body) ++ [zdrop (zlen body - 16) body]
    else [[0x17]; be16 (zlen body); be16 105] ++ chunks 1024 64 body).
(** The free space and the write pointer of the transmit buffer. *)
Definition tx_reads : reads := map Some [[8; 0; 0; 0; 1; 0]].

(** *** The server *)
Definition secret_of (o : option (list Z)) : list Z := match o with Some s => s | None => [] end.
Definition server_share : list Z := 4 :: List.repeat 19 64.
Definition sh_message : list Z :=
  let es := sh_bytes ShVersion ++ sh_bytes (ShKeyShare server_share) ++ sh_bytes ShPsk in
  hs_message 2 (be16 0x0303 ++ List.repeat 7 32 ++ vec8 [] ++ [0x13; 0x01] ++ [0] ++ vec16 es).
Definition ee_message : list Z := hs_message 8 (be16 0).
(** The keys are computed from what both sides know, the transcript is taken from the client. *)
Definition talk_dhe : list Z := cx_dh case_cx [8; 8] (List.repeat 19 64).
Definition s_hs_traffic (t1 : list Z) : list Z := derive case_cx (handshake_secret case_cx [5; 6; 7] talk_dhe) "s hs traffic" t1.
Definition s_ap_traffic (t3 : list Z) : list Z := derive case_cx (master_secret case_cx [5; 6; 7] talk_dhe) "s ap traffic" t3.
Definition fin_message (t1 t2 : list Z) : list Z := hs_message 20 (verify_data case_cx (s_hs_traffic t1) t2).

(** *** The calls *)
Definition transcript (c : TlsClient) : list Z := ks_transcript (tc_ks c).
Definition pcall (now : Z) (script : TlsClient -> reads) : tcall * (TlsClient -> reads) := (KProcess talk_rng now, script).
(** The ports of the other sockets, the status of this one. *)
Definition open_reads : reads := map Some [[0]; [0]; be16 1; be16 1; be16 1; be16 1; be16 1; be16 1; be16 1; [0]; [0x13]].
Definition to_hello : list (tcall * (TlsClient -> reads)) :=
  [pcall 100 (fun _ => open_reads);
   pcall 101 (fun _ => map Some [[1]] ++ tx_reads ++ map Some [be16 0]);
   pcall 102 (fun _ => idle_reads)].
Definition to_greeted : list (tcall * (TlsClient -> reads)) :=
  to_hello ++ [pcall 103 (fun _ => record_reads (plaintext_record 22 sh_message))].
Definition to_finished : list (tcall * (TlsClient -> reads)) :=
  [pcall 104 (fun c => record_reads (case_record (s_hs_traffic (transcript c)) 0 22 ee_message));
   pcall 105 (fun c => let t1 := ztake (zlen (transcript c) - 6) (transcript c) in
     record_reads (case_record (s_hs_traffic t1) 1 22 (fin_message t1 (transcript c))) ++ tx_reads)].
(** The state after them, computed once. *)
Definition client_of (o : option (list (tcall * tans) * TlsClient)) : TlsClient := match o with Some x => snd x | None => talk_init end.
Definition answers_of (o : option (list (tcall * tans) * TlsClient)) : list tans := match o with Some x => map snd (fst x) | None => [] end.
Definition case_greeted : TlsClient := Eval vm_compute in client_of (talk talk_init to_greeted).
Definition case_connected : TlsClient := Eval vm_compute in client_of (talk case_greeted to_finished).
(** What a conversation after the handshake answers, the state then, and the sequence numbers. *)
Definition talk_end (c : TlsClient) (l : list (tcall * (TlsClient -> reads))) : list tans * TState * Z * Z :=
  let o := talk c l in (answers_of o, tc_state (client_of o), ks_read_seq (tc_ks (client_of o)), ks_write_seq (tc_ks (client_of o))).
(** The server's secret after the handshake. *)
Definition case_server_secret : list Z := Eval vm_compute in secret_of (ks_server_traffic (tc_ks case_connected)).
Definition case_client_secret : list Z := Eval vm_compute in secret_of (ks_client_traffic (tc_ks case_connected)).
