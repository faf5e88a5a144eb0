(** Record protection over the socket buffers: tls/src/crypto/record.rs, the writer of tls/src/io.rs and
    [send_encrypted_record] of tls/src/lib.rs.

    Every bus error is mapped to one alert, so these functions return alert codes.  [None] of the cipher
    calls is a panic. *)
From Verif Require Import Model.Prelude Model.Bus Model.Specifiers Model.LlBits Model.Ll Model.HlIo Model.HlCommon Model.HlTcp
  Model.Gcm Model.TlsTypes Model.TlsBuf Model.TlsKeys.

(** [p.map_err(f)?] in a function that returns an alert and changes [s]. *)
Definition a_io {A B S} (f : err -> Z) (p : M A) (s : S) (k : A -> prog (res Z B * S)) : prog (res Z B * S) :=
  r <-- p ;; match r with Ok a => k a | Err e => Ret (Err (f e), s) end.
(** [map_err(|_| AlertDescription::InternalError)] *)
Definition internal (e : err) : Z := InternalError.
(** [t?] for code that does not use the bus. *)
Definition a_tres {A B S} (t : tres A) (s : S) (k : A -> prog (res Z B * S)) : prog (res Z B * S) :=
  match t with TOk a => k a | TErr e => Ret (Err e, s) | TPanic => Panic | TDiverge => Diverge end.
Definition unwrap {A B} (o : option A) (k : A -> prog B) : prog B := match o with Some a => k a | None => Panic end.

(** crypto/record.rs 42-65: the result is the last byte, the read pointer and the cipher; one unit of fuel per block *)
Fixpoint decrypt_loop (fuel : nat) (dbg : bool) (sn : Sn) (cipher : Aes128Gcm) (sn_rx_rd remain : Z) (buf : Buffer) :
    prog (res Z (option ContentType * Z * Aes128Gcm) * Buffer) :=
  match fuel with
  | O => Diverge
  | S fuel =>
      let data_len := Z.min 16 remain in
      a_io internal (sn_rx_buf sn sn_rx_rd data_len) buf (fun block =>
      unwrap (decrypt_inplace cipher block) (fun '(cipher, block) =>
      a_tres (b_extend_from_slice dbg buf block) buf (fun buf =>
      let sn_rx_rd := wadd sn_rx_rd data_len in
      let remain := remain - data_len in
      if remain =? 0 then
        unwrap (b_pop_tail buf) (fun '(byte, buf) => Ret (Ok (content_type_try_from byte, sn_rx_rd, cipher), buf))
      else decrypt_loop fuel dbg sn cipher sn_rx_rd remain buf)))
  end.
(** crypto/record.rs 11-85.  The inner [None] is an unknown content type.  [ct_eq] is equality. *)
Definition decrypt_record_inplace (dbg : bool) (sn : Sn) (key nonce : list Z) (header : RecordHeader) (buf : Buffer) :
    prog (res Z (option ContentType) * Buffer) :=
  let cipher := gcm_new key nonce header in
  a_io internal (sn_rx_rsr sn) buf (fun rsr =>
  if rsr <? rh_length header then Ret (Err DecodeError, buf)
  else
    a_io internal (sn_rx_rd sn) buf (fun rd =>
    let remain := Z.max 0 (rh_length header - GCM_TAG_LEN) in
    if remain =? 0 then Ret (Err DecodeError, buf)
    else
      r <-- decrypt_loop (Z.to_nat remain) dbg sn cipher rd remain buf ;;
      match r with
      | (Err e, buf) => Ret (Err e, buf)
      | (Ok (content_type, rd, cipher), buf) =>
          let client_tag := gcm_finish cipher in
          a_io internal (sn_rx_buf sn rd 16) buf (fun server_tag =>
          let rd := wadd rd 16 in
          a_io internal (set_sn_rx_rd sn rd) buf (fun _ =>
          a_io internal (set_sn_rx_rd sn rd) buf (fun _ =>
          a_io internal (set_sn_cr sn CRecv) buf (fun _ =>
          if list_eq_dec Z.eq_dec client_tag server_tag then Ret (Ok content_type, buf) else Ret (Err BadRecordMac, buf)))))
      end)).

(** crypto/record.rs 116-129: the full blocks, in place *)
Fixpoint encrypt_loop (n : nat) (sn : Sn) (cipher : Aes128Gcm) (head : Z) : M (Aes128Gcm * Z) :=
  match n with
  | O => ret (cipher, head)
  | S n =>
      block <- sn_tx_buf sn head 16 ;;
      unwrap (encrypt_block_inplace cipher block) (fun '(cipher, block) =>
      set_sn_tx_buf sn head block ;;;
      encrypt_loop n sn cipher (wadd head 16))
  end.
(** crypto/record.rs 88-155 *)
Definition encrypt_record_inplace (sn : Sn) (key nonce : list Z) (head tail : Z) (content_type : ContentType) : M unit :=
  let data_len := wsub tail head in
  let header := rh_ser ApplicationData (wsub (wadd tail (1 + GCM_TAG_LEN)) head) in
  set_sn_tx_buf sn (wsub head RH_LEN) header ;;;
  p <- encrypt_loop (Z.to_nat (data_len / 16)) sn (gcm_new key nonce header) head ;;
  let '(cipher, head) := p in
  let remain := data_len mod 16 in
  block <- sn_tx_buf sn head remain ;;
  let block := padded (block ++ [content_type]) in
  let remain := remain + 1 in
  unwrap (encrypt_remainder_inplace cipher block remain) (fun '(cipher, block) =>
  set_sn_tx_buf sn head (ztake remain block) ;;;
  let head := wadd head remain in
  set_sn_tx_buf sn head (gcm_finish cipher) ;;;
  set_sn_tx_wr sn (wadd head GCM_TAG_LEN) ;;;
  set_sn_cr sn CSend).

(** lib.rs 1196-1233 without the check of the state: the [TlsWriter] (io.rs 167-174) is a cursor over the transmit
    buffer.  [None] is an error, all of which are reported as the same alert. *)
Definition TLS_OVERHEAD : Z := RH_LEN + GCM_TAG_LEN + 1.
Definition tls_writer_new (sn : Sn) : prog (option cursor) :=
  r <-- sn_tx_fsr sn ;;
  match r with
  | Err _ => Ret None
  | Ok fsr =>
      if fsr <? TLS_OVERHEAD then Ret None
      else
        r <-- sn_tx_wr sn ;;
        match r with
        | Err _ => Ret None
        | Ok wr => let wr := wadd wr RH_LEN in Ret (Some (mkCur sn wr (wadd wr (fsr - TLS_OVERHEAD)) wr))
        end
  end.
(** io.rs 176-230: the methods of [Seek] and [Write] have the text of those of the TCP writer (hl/src/tcp.rs 170-217),
    which are [cur_seek], [cur_rewind], [cur_write] and [cur_write_all].  io.rs 232-246: [send] *)
Definition tls_writer_send (cx : Crypto) (w : cursor) (ks : KeySchedule) : prog (res err unit * KeySchedule) :=
  unwrap (client_key_and_nonce cx ks) (fun '(key, nonce) =>
  r <-- encrypt_record_inplace (cu_sn w) key nonce (cu_head w) (cu_ptr w) ApplicationData ;;
  match r with
  | Err e => Ret (Err e, ks)
  | Ok _ => match increment_write ks with TOk ks => Ret (Ok tt, ks) | _ => Panic end
  end).

(** lib.rs 974-978: the chunks of 16 bytes *)
Fixpoint send_chunks (n : nat) (cipher : Aes128Gcm) (w : cursor) (data : list Z) : M (Aes128Gcm * cursor) :=
  match n with
  | O => ret (cipher, w)
  | S n =>
      unwrap (encrypt_block_inplace cipher (firstn 16 data)) (fun '(cipher, chunk) =>
      w <- cur_write_all w chunk ;;
      send_chunks n cipher w (skipn 16 data))
  end.
(** lib.rs 949-998 *)
Definition send_encrypted_record (cx : Crypto) (sn : Sn) (ks : KeySchedule) (content_type : ContentType) (data : list Z) : M unit :=
  let data_len := zlen data + GCM_TAG_LEN + 1 in
  if 65535 <? data_len then Panic
  else
    let header := [ApplicationData] ++ be16 V1_2 ++ be16 data_len in
    w <- tx_writer sn ;;
    w <- cur_write_all w header ;;
    unwrap (client_key_and_nonce cx ks) (fun '(key, nonce) =>
    let n := (length data / 16)%nat in
    p <- send_chunks n (gcm_new key nonce header) w data ;;
    let '(cipher, w) := p in
    let rem := skipn (16 * n) data in
    let block := padded (rem ++ [content_type]) in
    let len := zlen rem + 1 in
    unwrap (encrypt_remainder_inplace cipher block len) (fun '(cipher, block) =>
    w <- cur_write_all w (ztake len block) ;;
    w <- cur_write_all w (gcm_finish cipher) ;;
    cur_send w)).
