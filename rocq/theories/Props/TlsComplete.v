(** C108: a TLS handshake with a conforming server completes. *)
From Coq Require Import Lia String.
From Verif Require Import Model.Prelude Model.Bus Model.Chip Model.Specifiers Model.TlsTypes Model.TlsBuf Model.TlsKeys Model.TlsClient
  Spec.Hoare Spec.Sock Spec.Cases Spec.TcpClient Spec.Silent Spec.TlsSecrets Spec.TlsMessages Spec.MqttMsg Spec.TlsCases Spec.TlsProtect Spec.TlsTalk Spec.TlsQueue Spec.TlsSession Spec.TlsWire Spec.TlsRx Spec.TlsComplete.
From Verif Require Proof.TlsGreetP Proof.TlsCompleteP Proof.TlsCaseP Proof.TlsTalkP Proof.TlsRx5P Proof.MqttMainP.
Local Open Scope list_scope.

(** The connection is there, and while [process] runs nothing else happens on the socket.  Then it sends one
    ClientHello, with this key share, this identity and the binder of this pre-shared key, and waits for the answer. *)
Theorem C108_client_hello : forall cx dbg fuel c rng now, crypto_ok cx -> connecting cx c -> rng_ok rng ->
  zlen (tc_hostname c) < 256 -> bytes_ok (tc_hostname c) -> bytes_ok (tc_identity c) ->
  let h := greeting c rng in zlen (hello_record h (zeros 32)) <= buffer_size c ->
  forall ch sch rd tx, let s := c_sock ch (sn_raw (tc_sn c)) in tcp_view s rd tx -> tx_bytes s -> zlen (unread s) < 5 ->
  ir_bit 0 (s_ir s) -> ~ ir_bit 1 (s_ir s) -> ~ ir_bit 3 (s_ir s) -> zlen (hello_record h (zeros 32)) <= tx_room ch c -> silent sch (sn_raw (tc_sn c)) ->
  exists c' sch' ch' b, run (tls_process cx dbg fuel c rng now) sch ch = (Done (Ok (TCallAfter 10), c'), sch', ch') /\
    b = psk_binder cx (tc_psk c) (up_to_binders (hello_message h b)) /\ greeted cx c' (rg_secret rng) (hello_message h b) /\ same_client c c' /\
    tcp_view (c_sock ch' (sn_raw (tc_sn c))) rd (tx ++ hello_record h b).
Proof. exact TlsGreetP.client_greets. Qed.
Print Assumptions C108_client_hello.
(** A ServerHello that selects the offered parameters, in one record: the client has the keys of the handshake. *)
Theorem C108_server_hello : forall cx dbg fuel c rng now ch rd tx, crypto_ok cx -> forall dhs t0 body share key,
  greeted cx c dhs t0 -> server_hello body share -> cx_sec1 cx share = Some key -> bytes_ok body -> zlen (hs_message 2 body) <= buffer_size c - 22 ->
  let record := plaintext_record 22 (hs_message 2 body) in let t1 := t0 ++ hs_message 2 body in arrived ch c rd tx record ->
  ensures_ir no_link_change (tls_process cx dbg fuel c rng now) (sn_raw (tc_sn c)) ch (fun x s' => exists c',
    x = (Ok (TCallAfter 10), c') /\ tc_state c' = TWaitEncryptedExtensions /\ same_client c c' /\
    agreed cx c' (cx_dh cx dhs key) t1 t1 0 /\ tcp_view s' (rd ++ record) tx).
Proof. exact TlsCompleteP.hello_fits. Qed.
Print Assumptions C108_server_hello.
(** EncryptedExtensions with extensions that a client may get, in the first protected record. *)
Theorem C108_extensions : forall cx dbg fuel c rng now ch rd tx, crypto_ok cx -> forall dhe t1 body,
  agreed cx c dhe t1 t1 0 -> tc_state c = TWaitEncryptedExtensions -> encrypted_extensions body -> bytes_ok body -> zlen (hs_message 8 body) <= buffer_size c - 39 ->
  let record := protected_record cx (server_hs cx (tc_psk c) dhe t1) 0 22 (hs_message 8 body) in arrived ch c rd tx record ->
  ensures_ir no_link_change (tls_process cx dbg fuel c rng now) (sn_raw (tc_sn c)) ch (fun x s' => exists c',
    x = (Ok (TCallAfter 10), c') /\ tc_state c' = TWaitFinished /\ same_client c c' /\
    agreed cx c' dhe t1 (t1 ++ hs_message 8 body) 1 /\ tcp_view s' (rd ++ record) tx).
Proof. exact TlsCompleteP.extensions_fit. Qed.
Print Assumptions C108_extensions.
(** The server's Finished in the second protected record: the client reports the end of the handshake, has sent its own Finished, and
    both sides have the application traffic secrets of the standard.  [secured] is what C104 asks of a connection. *)
Theorem C108_finished : forall cx dbg fuel c rng now ch rd tx, crypto_ok cx -> forall dhe t1 t2,
  agreed cx c dhe t1 t2 1 -> tc_state c = TWaitFinished -> 58 <= tx_room ch c ->
  let sh := server_hs cx (tc_psk c) dhe t1 in let chs := client_hs cx (tc_psk c) dhe t1 in let t3 := t2 ++ finished cx sh t2 in
  arrived ch c rd tx (protected_record cx sh 1 22 (finished cx sh t2)) ->
  ensures_ir no_link_change (tls_process cx dbg fuel c rng now) (sn_raw (tc_sn c)) ch (fun x s' => exists c',
    x = (Ok THandshakeFinished, c') /\ same_client c c' /\ secured cx c' dhe t3 /\
    tcp_view s' (rd ++ protected_record cx sh 1 22 (finished cx sh t2)) (tx ++ protected_record cx chs 0 22 (finished cx chs t3))).
Proof. exact TlsCompleteP.finished_answer. Qed.
Print Assumptions C108_finished.

(** A client at each of the four stages, with the conversation of C60; [case_record] has the code's AES, which is that of
    the standard by [C50_aes].  The chip has room for the ClientHello, and the connected interrupt is raised in it. *)
Definition case_opening : TlsClient := Eval vm_compute in client_of (talk talk_init [pcall 100 (fun _ => open_reads)]).
Definition case_hello : TlsClient := Eval vm_compute in client_of (talk talk_init to_hello).
Definition case_extended : TlsClient := Eval vm_compute in client_of (talk case_greeted (firstn 1 to_finished)).
Definition case_up (received : list Z) : chip := chip_evs (case_conn received) [{| ev_sn := 3; ev_what := EvIr 1 |}].
Definition case_step (c : TlsClient) (ch : chip) : option (res TError TEvent * TState * list Z) :=
  match run (tls_process case_cx true 1 c talk_rng 106) [] ch with
  | (Done (r, c'), _, ch') => Some (r, tc_state c', unread (c_sock ch' 3))
  | _ => None
  end.
Example C108_client_hello_case : crypto_ok case_cx /\ connecting case_cx case_opening /\ rng_ok talk_rng /\ zlen (tc_hostname case_opening) = 2 /\
  zlen (hello_record (greeting case_opening talk_rng) (zeros 32)) = 239 /\ buffer_size case_opening = 1024 /\ tx_room (case_up [22; 3]) case_opening = 2040 /\
  tcp_view (c_sock (case_up [22; 3]) 3) [] case_tcp_unsent /\ tx_bytes (c_sock (case_up [22; 3]) 3) /\ s_ir (c_sock (case_up [22; 3]) 3) = 1 /\
  case_step case_opening (case_up [22; 3]) = Some (Ok (TCallAfter 10), TWaitServerHello, [22; 3]).
Proof.
  split; [exact TlsCaseP.case_cx_ok|]. split; [split; [reflexivity|split; [vm_compute; reflexivity|vm_compute; split; discriminate]]|]. split; [exact TlsTalkP.talk_rng_ok|]. split; [reflexivity|].
  split; [vm_compute; reflexivity|]. split; [reflexivity|]. split; [vm_compute; reflexivity|]. split; [MqttMainP.case_tcp_view|]. split; [apply TlsRx5P.case_bytes|]. split; [reflexivity|]. vm_compute. reflexivity.
Qed.
Definition case_sh_body : list Z := Eval vm_compute in zdrop 4 sh_message.
Example C108_server_hello_case : greeted case_cx case_hello [8; 8] (transcript case_hello) /\ server_hello case_sh_body server_share /\ sh_message = hs_message 2 case_sh_body /\
  cx_sec1 case_cx server_share = Some (List.repeat 19 64) /\ zlen (hs_message 2 case_sh_body) = 129 /\ buffer_size case_hello = 1024 /\
  arrived (case_conn (plaintext_record 22 sh_message ++ [23])) case_hello [] case_tcp_unsent (plaintext_record 22 sh_message) /\
  case_step case_hello (case_conn (plaintext_record 22 sh_message ++ [23])) = Some (Ok (TCallAfter 10), TWaitEncryptedExtensions, [23]).
Proof.
  split; [vm_compute; repeat split; discriminate|]. split; [exists (List.repeat 7 32), [ShVersion; ShKeyShare server_share; ShPsk], 85, []; vm_compute; repeat split; try discriminate; auto|]. split; [reflexivity|].
  split; [reflexivity|]. split; [reflexivity|]. split; [reflexivity|]. split; [|vm_compute; reflexivity].
  split; [MqttMainP.case_tcp_view|]. split; [apply TlsRx5P.case_bytes|]. exists [23]. vm_compute. reflexivity.
Qed.
Definition case_t1 : list Z := Eval vm_compute in transcript case_greeted.
Definition case_ee_record : list Z := Eval vm_compute in case_record (s_hs_traffic case_t1) 0 22 ee_message.
Example C108_extensions_case : agreed case_cx case_greeted talk_dhe case_t1 case_t1 0 /\ tc_state case_greeted = TWaitEncryptedExtensions /\
  encrypted_extensions (be16 0) /\ ee_message = hs_message 8 (be16 0) /\ buffer_size case_greeted = 1024 /\
  tcp_view (c_sock (case_conn case_ee_record) 3) [] case_tcp_unsent /\ unread (c_sock (case_conn case_ee_record) 3) = case_ee_record /\
  case_step case_greeted (case_conn case_ee_record) = Some (Ok (TCallAfter 10), TWaitFinished, []).
Proof.
  split; [vm_compute; repeat split; discriminate|]. split; [reflexivity|]. split; [exists [], 0, []; vm_compute; repeat split; try discriminate; auto|]. split; [reflexivity|]. split; [reflexivity|].
  split; [MqttMainP.case_tcp_view|]. split; vm_compute; reflexivity.
Qed.
Definition case_t2 : list Z := Eval vm_compute in transcript case_extended.
Definition case_fin_record : list Z := Eval vm_compute in case_record (s_hs_traffic case_t1) 1 22 (fin_message case_t1 case_t2).
Example C108_finished_case : agreed case_cx case_extended talk_dhe case_t1 case_t2 1 /\ tc_state case_extended = TWaitFinished /\
  case_t2 = case_t1 ++ ee_message /\ fin_message case_t1 case_t2 = finished case_cx (s_hs_traffic case_t1) case_t2 /\ tx_room (case_conn case_fin_record) case_extended = 2040 /\
  tcp_view (c_sock (case_conn case_fin_record) 3) [] case_tcp_unsent /\ unread (c_sock (case_conn case_fin_record) 3) = case_fin_record /\
  case_step case_extended (case_conn case_fin_record) = Some (Ok THandshakeFinished, TConnected, []).
Proof.
  split; [vm_compute; repeat split; discriminate|]. split; [reflexivity|]. split; [vm_compute; reflexivity|]. split; [vm_compute; reflexivity|]. split; [vm_compute; reflexivity|].
  split; [MqttMainP.case_tcp_view|]. split; vm_compute; reflexivity.
Qed.
