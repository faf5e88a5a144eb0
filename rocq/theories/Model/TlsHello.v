(** The handshake messages of the TLS client: tls/src/handshake/{client_hello,server_hello,
    encrypted_extensions,finished,key_update}.rs.

    The [while] loops over the extensions have fuel; running out of it is [TDiverge]. *)
From Verif Require Import Model.Prelude Model.Bus Model.HlIo Model.TlsTypes Model.TlsBuf Model.TlsKeys.
Local Open Scope tres_scope.

(** server_hello.rs 7 *)
Definition P256_KEY_LEN : Z := 65.
(** Local variables of the loop, server_hello.rs 70-74. *)
Record Seen : Type := mkSeen { se_supported_versions : bool; se_key_share : bool; se_pre_shared_key : bool; se_key_buf : list Z }.
Definition seen_none : Seen := mkSeen false false false (zeros 65).
(** server_hello.rs 94-123 *)
Definition recv_key_share (r : CircleReader) (s : Seen) : tres (Seen * CircleReader) :=
  if se_key_share s then TErr IllegalParameter
  else
    '(group, r) <- cr_next_u16 r ;;
    match named_group_try_from group with
    | Some g =>
        if g =? secp256r1 then
          '(key_exchange_len, r) <- cr_next_u16 r ;;
          if key_exchange_len =? P256_KEY_LEN then
            '(key, r) <- cr_read_exact r 65 ;;
            TOk (mkSeen (se_supported_versions s) true (se_pre_shared_key s) key, r)
          else TErr DecodeError
        else TErr IllegalParameter
    | None => TErr IllegalParameter
    end.
(** server_hello.rs 124-144 *)
Definition recv_supported_versions (r : CircleReader) (s : Seen) : tres (Seen * CircleReader) :=
  if se_supported_versions s then TErr IllegalParameter
  else
    '(selected_version, r) <- cr_next_u16 r ;;
    if selected_version =? V1_3 then TOk (mkSeen true (se_key_share s) (se_pre_shared_key s) (se_key_buf s), r)
    else TErr IllegalParameter.
(** server_hello.rs 145-163 *)
Definition recv_pre_shared_key (r : CircleReader) (s : Seen) (extension_len : Z) : tres (Seen * CircleReader) :=
  if extension_len =? 2 then
    '(selected_identity, r) <- cr_next_u16 r ;;
    if selected_identity =? 0 then TOk (mkSeen (se_supported_versions s) (se_key_share s) true (se_key_buf s), r)
    else TErr DecodeError
  else TErr DecodeError.
(** server_hello.rs 77-180: one iteration of the loop *)
Definition recv_server_hello_extension (r : CircleReader) (s : Seen) : tres (Seen * CircleReader) :=
  '(ty, r) <- cr_next_u16 r ;;
  match extension_type_try_from ty with
  | None => TErr IllegalParameter
  | Some ty =>
      '(extension_len, r) <- cr_next_u16 r ;;
      let extension_start := cr_ptr r in
      '(s, r) <- (if ty =? EtKeyShare then recv_key_share r s
                  else if ty =? EtSupportedVersions then recv_supported_versions r s
                  else if ty =? EtPreSharedKey then recv_pre_shared_key r s extension_len
                  else TErr UnsupportedExtension) ;;
      n_read <- usub (cr_ptr r) extension_start ;;
      if extension_len =? n_read then TOk (s, r) else TErr DecodeError
  end.
(** server_hello.rs 76-181 *)
Fixpoint server_hello_loop (fuel : nat) (extensions_end : Z) (r : CircleReader) (s : Seen) : tres (Seen * CircleReader) :=
  if cr_ptr r <? extensions_end then
    match fuel with
    | O => TDiverge
    | S fuel => '(s, r) <- recv_server_hello_extension r s ;; server_hello_loop fuel extensions_end r s
    end
  else TOk (s, r).
(** server_hello.rs 25-205 *)
Definition recv_server_hello (cx : Crypto) (r : CircleReader) : tres (list Z) :=
  '(legacy_version, r) <- cr_next_u16 r ;;
  if negb (legacy_version =? V1_2) then TErr ProtocolVersion
  else
    r <- cr_skip_n r 32 ;;
    '(session_id_len, r) <- cr_next_u8 r ;;
    if negb (session_id_len =? 0) then TErr IllegalParameter
    else
      '(cipher_suite, r) <- cr_next_n r 2 ;;
      match cipher_suite_try_from cipher_suite with
      | None => TErr IllegalParameter
      | Some cs =>
          if negb (at_ cs 1 =? at_ TLS_AES_128_GCM_SHA256 1) then TErr HandshakeFailure
          else
            '(compression_method, r) <- cr_next_u8 r ;;
            if negb (compression_method =? 0) then TErr IllegalParameter
            else
              '(extensions_len, r) <- cr_next_u16 r ;;
              let extensions_end := cr_ptr r + extensions_len in
              if 65535 <? extensions_end then TErr DecodeError
              else
                '(s, r) <- server_hello_loop (S (Z.to_nat (cr_len r))) extensions_end r seen_none ;;
                if negb (se_key_share s) then TErr MissingExtension
                else if negb (se_supported_versions s) then TErr MissingExtension
                else if negb (se_pre_shared_key s) then TErr MissingExtension
                else match cx_sec1 cx (se_key_buf s) with Some key => TOk key | None => TErr DecodeError end
      end.

(** encrypted_extensions.rs 43-104: the extension is skipped or refused *)
Definition skip_encrypted_extension (r : CircleReader) (ty extension_len : Z) : tres CircleReader :=
  if ty =? EtServerName then
    let read_len := Z.min 253 extension_len in
    '(_, r) <- cr_read_exact r read_len ;;
    let remain := extension_len - read_len in
    if 0 <? remain then cr_skip_n r remain else TOk r
  else if ty =? EtSupportedGroups then cr_skip_n r extension_len
  else if ty =? EtAlpn then cr_skip_n r extension_len
  else TErr UnsupportedExtension.
(** encrypted_extensions.rs 26-115: one iteration of the loop *)
Definition recv_encrypted_extension (r : CircleReader) : tres CircleReader :=
  '(ty, r) <- cr_next_u16 r ;;
  match extension_type_try_from ty with
  | None => TErr IllegalParameter
  | Some ty =>
      '(extension_len, r) <- cr_next_u16 r ;;
      let extension_start := cr_ptr r in
      r <- skip_encrypted_extension r ty extension_len ;;
      n_read <- usub (cr_ptr r) extension_start ;;
      if extension_len =? n_read then TOk r else TErr DecodeError
  end.
(** encrypted_extensions.rs 25-116 *)
Fixpoint encrypted_extensions_loop (fuel : nat) (extensions_end : Z) (r : CircleReader) : tres CircleReader :=
  if cr_ptr r <? extensions_end then
    match fuel with
    | O => TDiverge
    | S fuel => r <- recv_encrypted_extension r ;; encrypted_extensions_loop fuel extensions_end r
    end
  else TOk r.
(** encrypted_extensions.rs 15-119 *)
Definition recv_encrypted_extensions (r : CircleReader) : tres unit :=
  '(extensions_len, r) <- cr_next_u16 r ;;
  let extensions_end := cr_ptr r + extensions_len in
  if 65535 <? extensions_end then TErr DecodeError
  else encrypted_extensions_loop (S (Z.to_nat (cr_len r))) extensions_end r ;;; TOk tt.

(** finished.rs 5-14 *)
Definition client_finished (verify_data : list Z) : list Z := [Finished] ++ zdrop 1 (be32 (zlen verify_data)) ++ verify_data.
(** key_update.rs 32-42 *)
Definition key_update_request_try_from (v : Z) : option Z := if (v =? 0) || (v =? 1) then Some v else None.

(** client_hello.rs 195-248: vectors of elements, here already concatenated *)
Definition vector_u8 (values : list (list Z)) : list Z := u8 (zlen (concat values)) :: concat values.
Definition vector_u16 (values : list (list Z)) : list Z := be16 (u16 (zlen (concat values))) ++ concat values.
(** client_hello.rs 270-281, 294-304, 318-328, 342-352 *)
Definition supported_versions (versions : list Z) : list Z := vector_u8 (map be16 versions).
Definition psk_key_exchange_modes (modes : list Z) : list Z := vector_u8 (map (fun m => [m]) modes).
Definition signature_scheme_list (schemes : list Z) : list Z := vector_u16 (map be16 schemes).
Definition named_group_list (values : list Z) : list Z := vector_u16 (map be16 values).
(** client_hello.rs 367-384 *)
Definition extension (ty : ExtensionType) (data : list Z) : list Z := be16 ty ++ be16 (u16 (zlen data)) ++ data.
(** client_hello.rs 405-415 *)
Definition cipher_suites (values : list (list Z)) : list Z := vector_u16 values.
(** client_hello.rs 417-489 *)
Definition RECORD_HEADER_NO_LENGTH : list Z := [CtHandshake] ++ be16 V1_2.
Definition LEGACY_COMPRESSION_METHODS : list Z := [1; 0].
Definition LEGACY_THINGS_AND_CIPHER_SUITES : list Z := [0] ++ cipher_suites [TLS_AES_128_GCM_SHA256] ++ LEGACY_COMPRESSION_METHODS.
Definition SIGNATURE_SCHEMES : list Z := [0x0401; 0x0501; 0x0601; 0x0403; 0x0503; 0x0804; 0x0805; 0x0806; 0x0807].
Definition CONST_EXTENSIONS : list Z :=
  (extension EtSupportedGroups (named_group_list [secp256r1]) ++
   extension EtPskKeyExchangeModes (psk_key_exchange_modes [1])) ++
  (extension EtSupportedVersions (supported_versions [V1_3]) ++
   extension EtSignatureAlgorithms (signature_scheme_list SIGNATURE_SCHEMES)).

(** client_hello.rs 491-495 *)
Record ClientHelloWriter : Type := mkCW { cw_buf : list Z; cw_len : Z; cw_ks : KeySchedule }.
(** client_hello.rs 503-506 *)
Definition cw_copy_no_hash (w : ClientHelloWriter) (src : list Z) : tres ClientHelloWriter :=
  if zlen (cw_buf w) <? cw_len w + zlen src then TPanic
  else TOk (mkCW (put (cw_buf w) (cw_len w) src) (cw_len w + zlen src) (cw_ks w)).
(** client_hello.rs 498-501 *)
Definition cw_copy (w : ClientHelloWriter) (src : list Z) : tres ClientHelloWriter :=
  w <- cw_copy_no_hash w src ;;
  TOk (mkCW (cw_buf w) (cw_len w) (update_transcript_hash (cw_ks w) src)).
(** client_hello.rs 508-512 *)
Definition cw_push (w : ClientHelloWriter) (byte : Z) : tres ClientHelloWriter :=
  if zlen (cw_buf w) <=? cw_len w then TPanic
  else TOk (mkCW (put (cw_buf w) (cw_len w) [byte]) (cw_len w + 1) (update_transcript_hash (cw_ks w) [byte])).
(** client_hello.rs 514-517; [truncated] are the bytes hashed by the argument *)
Definition cw_write_binder (cx : Crypto) (w : ClientHelloWriter) (psk truncated : list Z) : tres ClientHelloWriter :=
  let (b, ks) := binder cx (cw_ks w) psk truncated in
  cw_copy (mkCW (cw_buf w) (cw_len w) ks) b.
(** Addition of u16 values. *)
Definition uadd (a b : Z) : tres Z := if a + b <? 65536 then TOk (a + b) else TPanic.
(** client_hello.rs 521-646; the result is the number of bytes, the contents of [buf] and the key schedule *)
Definition client_hello_ser (cx : Crypto) (buf random hostname client_public_key : list Z) (ks : KeySchedule)
    (psk identity : list Z) (record_size_limit : Z) : tres (Z * list Z * KeySchedule) :=
  let w := mkCW buf 0 ks in
  l <- uadd 137 (zlen CONST_EXTENSIONS) ;;
  l <- uadd l (u8 (zlen hostname)) ;;
  extensions_length <- uadd l (u16 (zlen identity)) ;;
  handshake_length <- uadd 43 extensions_length ;;
  tls_plaintext_length <- uadd 4 handshake_length ;;
  w <- cw_copy_no_hash w RECORD_HEADER_NO_LENGTH ;;
  w <- cw_copy_no_hash w (be16 tls_plaintext_length) ;;
  let start_of_record := cw_len w in
  w <- cw_push w ClientHello ;;
  w <- cw_push w 0 ;;
  w <- cw_copy w (be16 handshake_length) ;;
  let start_of_handshake := cw_len w in
  w <- cw_copy w (be16 V1_2) ;;
  w <- cw_copy w random ;;
  w <- cw_copy w LEGACY_THINGS_AND_CIPHER_SUITES ;;
  w <- cw_copy w (be16 extensions_length) ;;
  let start_of_extensions := cw_len w in
  w <- cw_copy w CONST_EXTENSIONS ;;
  (* server name *)
  let hostname_len := u8 (zlen hostname) in
  server_name_list_len <- uadd hostname_len 3 ;;
  extension_len <- uadd server_name_list_len 2 ;;
  w <- cw_copy w (be16 EtServerName) ;;
  w <- cw_copy w (be16 extension_len) ;;
  w <- cw_copy w (be16 server_name_list_len) ;;
  w <- cw_push w 0 ;;
  w <- cw_copy w (be16 hostname_len) ;;
  w <- cw_copy w hostname ;;
  (* key share *)
  w <- cw_copy w (be16 EtKeyShare ++ be16 71 ++ be16 69 ++ be16 secp256r1 ++ be16 65) ;;
  w <- cw_copy w client_public_key ;;
  (* record size limit *)
  w <- cw_copy w (be16 EtRecordSizeLimit) ;;
  w <- cw_copy w (be16 2) ;;
  w <- cw_copy w (be16 record_size_limit) ;;
  (* pre-shared key *)
  let identity_len := u16 (zlen identity) in
  l <- uadd identity_len 4 ;;
  identities_len <- uadd l 2 ;;
  l <- uadd identities_len 33 ;;
  l <- uadd l 2 ;;
  extension_len <- uadd l 2 ;;
  w <- cw_copy w (be16 EtPreSharedKey) ;;
  w <- cw_copy w (be16 extension_len) ;;
  w <- cw_copy w (be16 identities_len) ;;
  w <- cw_copy w (be16 identity_len) ;;
  w <- cw_copy w identity ;;
  w <- cw_copy w (be32 0) ;;
  let truncated := ks_transcript (cw_ks w) in
  w <- cw_copy w (be16 33) ;;
  w <- cw_copy w [32] ;;
  w <- cw_write_binder cx w psk truncated ;;
  let len := cw_len w in
  if negb (u16 (len - start_of_extensions) =? extensions_length) then TPanic
  else if negb (u16 (len - start_of_handshake) =? handshake_length) then TPanic
  else if negb (u16 (len - start_of_record) =? tls_plaintext_length) then TPanic
  else TOk (len, cw_buf w, cw_ks w).
