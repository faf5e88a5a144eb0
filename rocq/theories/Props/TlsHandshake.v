(** C57, C58, C59: the handshake messages of the TLS client. *)
From Verif Require Import Model.Prelude Model.TlsTypes Model.TlsBuf Model.TlsKeys Model.TlsHello Spec.TlsSecrets Spec.TlsMessages Spec.TlsCases
  Proof.TlsParseP Proof.TlsHelloP Proof.TlsCaseP.

(** C57.  Every message, however it lies in the two slices: an alert, or the key of the only key share of a
    ServerHello with the supported parameters.  No panic, and the loop ends. *)
Theorem C57_server_hello : forall cx a b, bytes_ok (a ++ b) -> zlen (a ++ b) < 16384 ->
  (exists share key, server_hello (a ++ b) share /\ cx_sec1 cx share = Some key /\ recv_server_hello cx (cr_new a b) = TOk key) \/
  (exists alert, recv_server_hello cx (cr_new a b) = TErr alert).
Proof. exact server_hello_sound. Qed.
Print Assumptions C57_server_hello.
(** Conversely every such ServerHello is accepted. *)
Theorem C57_accepted : forall cx a b share key, bytes_ok (a ++ b) -> zlen (a ++ b) < 16384 ->
  server_hello (a ++ b) share -> cx_sec1 cx share = Some key -> recv_server_hello cx (cr_new a b) = TOk key.
Proof. exact server_hello_complete. Qed.
Print Assumptions C57_accepted.
Definition case_share : list Z := 4 :: repeat 7 64.
Definition case_server_hello : list Z :=
  be16 0x0303 ++ repeat 9 32 ++ [0; 0x13; 0x01; 0] ++ be16 85 ++ sh_bytes ShPsk ++ sh_bytes (ShKeyShare case_share) ++ sh_bytes ShVersion.
Example C57_case : bytes_ok case_server_hello /\ zlen case_server_hello < 16384 /\ server_hello case_server_hello case_share /\
  cx_sec1 case_cx case_share = Some (repeat 7 64) /\ recv_server_hello case_cx (cr_new (ztake 50 case_server_hello) (zdrop 50 case_server_hello)) = TOk (repeat 7 64).
Proof.
  split; [vm_compute; repeat constructor; discriminate|]. split; [now vm_compute|]. split; [|split; vm_compute; reflexivity].
  exists (repeat 9 32), [ShPsk; ShKeyShare case_share; ShVersion], 85, []. split; [reflexivity|]. split; [reflexivity|]. split; [lia|]. split; [split; [vm_compute; discriminate|right; vm_compute; reflexivity]|].
  split; [reflexivity|]. split; [reflexivity|]. split; [reflexivity|now left].
Qed.

(** C58.  Every message: an alert, or it consists of permitted extensions; no panic, and the loop ends.  The
    lengths add up only as far as [encrypted_extensions] says: the last extension may be longer than the
    block, and bytes after the block are ignored. *)
Theorem C58_extensions_partial : forall a b, bytes_ok (a ++ b) -> zlen (a ++ b) < 16384 ->
  (encrypted_extensions (a ++ b) /\ recv_encrypted_extensions (cr_new a b) = TOk tt) \/
  (exists alert, recv_encrypted_extensions (cr_new a b) = TErr alert).
Proof. exact extensions_sound. Qed.
Print Assumptions C58_extensions_partial.
Theorem C58_accepted : forall a b, bytes_ok (a ++ b) -> zlen (a ++ b) < 16384 ->
  encrypted_extensions (a ++ b) -> recv_encrypted_extensions (cr_new a b) = TOk tt.
Proof. exact extensions_complete. Qed.
Print Assumptions C58_accepted.
Definition case_extensions : list Z := be16 14 ++ ee_bytes (0, []) ++ ee_bytes (10, [0; 2; 0; 23]) ++ ee_bytes (16, []).
Example C58_case : bytes_ok case_extensions /\ zlen case_extensions < 16384 /\ encrypted_extensions case_extensions /\
  recv_encrypted_extensions (cr_new (ztake 5 case_extensions) (zdrop 5 case_extensions)) = TOk tt /\
  recv_encrypted_extensions (cr_new (be16 4 ++ ee_bytes (41, [])) []) = TErr UnsupportedExtension.
Proof.
  split; [vm_compute; repeat constructor; discriminate|]. split; [now vm_compute|]. split; [|split; vm_compute; reflexivity].
  exists [(0, []); (10, [0; 2; 0; 23]); (16, [])], 14, []. split; [reflexivity|]. split; [lia|]. split; [split; [vm_compute; discriminate|right; vm_compute; reflexivity]|].
  repeat (apply Forall_cons || apply Forall_nil); unfold ee_allowed; cbn; auto.
Qed.
(** Lengths that do not add up: a block of one byte with an extension of six. *)
Theorem C58_lengths_refuted : exists body, bytes_ok body /\ zlen body < 16384 /\ recv_encrypted_extensions (cr_new body []) = TOk tt /\
  ~ exists es, body = vec16 (concat (map ee_bytes es)).
Proof.
  exists (be16 1 ++ ee_bytes (0, [5; 6])). split; [vm_compute; repeat constructor; discriminate|]. split; [now vm_compute|]. split; [vm_compute; reflexivity|].
  intros (es & E). assert (at_ (be16 1 ++ ee_bytes (0, [5; 6])) 1 = 1 /\ zlen (be16 1 ++ ee_bytes (0, [5; 6])) = 8) as (A & B) by (split; reflexivity).
  rewrite E in A, B. unfold vec16 in *. rewrite Base.zlen_app, Base.zlen_be16 in B. replace (zlen (concat (map ee_bytes es))) with 6 in A by lia. discriminate A.
Qed.
Print Assumptions C58_lengths_refuted.

(** C59.  The record is the one of the specification, its binder covers the transcript up to the binders list,
    and the message goes into the transcript; when it does not fit, and only then, the call panics. *)
Theorem C59_client_hello : forall cx buf random hostname share ks psk identity limit,
  crypto_ok cx -> zlen random = 32 -> zlen share = 65 -> zlen hostname < 256 -> zlen buf < 65536 ->
  let h := mkHello random hostname share limit identity in
  (zlen (hello_record h (zeros 32)) <= zlen buf ->
   exists b ks', zlen b = 32 /\ b = psk_binder cx psk (ks_transcript ks ++ up_to_binders (hello_message h b)) /\
     client_hello_ser cx buf random hostname share ks psk identity limit =
       TOk (zlen (hello_record h b), hello_record h b ++ zdrop (zlen (hello_record h b)) buf, ks') /\
     ks' = mkKS (ks_client_secret ks) (ks_server_public ks) (ks_transcript ks ++ hello_message h b) (ks_read_seq ks) (ks_write_seq ks)
             (early_secret cx psk) (early_secret cx psk) (ks_client_traffic ks) (ks_server_traffic ks)) /\
  (zlen buf < zlen (hello_record h (zeros 32)) -> client_hello_ser cx buf random hostname share ks psk identity limit = TPanic).
Proof. exact hello_ok. Qed.
Print Assumptions C59_client_hello.
Example C59_case :
  (crypto_ok case_cx /\ zlen (repeat 9 32) = 32 /\ zlen case_share = 65 /\ zlen [97; 46; 98] < 256 /\ zlen (zeros 300) < 65536) /\
  zlen (hello_record (mkHello (repeat 9 32) [97; 46; 98] case_share 512 [1; 2; 3; 4]) (zeros 32)) = 241 /\
  match client_hello_ser case_cx (zeros 300) (repeat 9 32) [97; 46; 98] case_share (ks_default case_cx) [5; 5] [1; 2; 3; 4] 512 with
  | TOk (n, buf, _) => n = 241 /\ ztake 9 buf = [22; 3; 3; 0; 236; 1; 0; 0; 232]
  | _ => False
  end /\
  client_hello_ser case_cx (zeros 240) (repeat 9 32) [97; 46; 98] case_share (ks_default case_cx) [5; 5] [1; 2; 3; 4] 512 = TPanic.
Proof.
  split; [split; [exact case_cx_ok|now vm_compute]|]. split; [vm_compute; reflexivity|]. split; [vm_compute; split; reflexivity|vm_compute; reflexivity].
Qed.
