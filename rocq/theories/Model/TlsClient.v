(** The TLS client: tls/src/lib.rs.  Logging is not modelled. *)
From Verif Require Import Model.Prelude Model.Bus Model.Specifiers Model.LlBits Model.Ll Model.HlIo Model.HlCommon Model.HlTcp
  Model.TlsTypes Model.TlsBuf Model.TlsKeys Model.TlsHello Model.TlsRecord.

(** 150-177 *)
Inductive TState : Type :=
| TReset | TWaitConInt | TWaitServerHello | TWaitEncryptedExtensions | TWaitFinished | TSendFinished | TConnected
| TWaitAlertSendOk | TSendDiscon | TWaitDiscon.
Definition tstate_eqb (a b : TState) : bool :=
  match a, b with
  | TReset, TReset | TWaitConInt, TWaitConInt | TWaitServerHello, TWaitServerHello
  | TWaitEncryptedExtensions, TWaitEncryptedExtensions | TWaitFinished, TWaitFinished | TSendFinished, TSendFinished
  | TConnected, TConnected | TWaitAlertSendOk, TWaitAlertSendOk | TSendDiscon, TSendDiscon | TWaitDiscon, TWaitDiscon => true
  | _, _ => false
  end.
(** 124-146 *)
Inductive TError : Type :=
| EServer (a : Alert) | EClient (a : Alert) | EUnexpectedDisconnect | ETcpTimeout | EStateTimeout (s : TState) | ENotConnected.
(** 148 *)
Definition T_TIMEOUT_SECS : Z := 10.
(** 180-198 *)
Inductive TEvent : Type := TCallAfter (secs : Z) | TApplicationData | THandshakeFinished | TDisconnect | TNone.
(** 225-241 *)
Record TlsClient : Type := mkTls {
  tc_sn : Sn; tc_src_port : Z; tc_hostname : list Z; tc_dst : list Z * Z; tc_state : TState; tc_timeout : option Z;
  tc_ks : KeySchedule; tc_identity : list Z; tc_psk : list Z; tc_rx : Buffer }.
(** 243-252; [None] is the panic at compile time: there is no client with another buffer size *)
Definition size_to_buffersize (size : Z) : option BufferSize :=
  if size =? 1024 then Some KB1 else if size =? 2048 then Some KB2 else if size =? 4096 then Some KB4
  else if size =? 8192 then Some KB8 else if size =? 16384 then Some KB16 else None.
(** 260-261 *)
Definition RECORD_SIZE_LIMIT (c : TlsClient) : Z := b_N (tc_rx c) - GCM_TAG_LEN - RH_LEN - 1.

(** Field updates. *)
Definition tc_set_ks (c : TlsClient) (ks : KeySchedule) : TlsClient :=
  mkTls (tc_sn c) (tc_src_port c) (tc_hostname c) (tc_dst c) (tc_state c) (tc_timeout c) ks (tc_identity c) (tc_psk c) (tc_rx c).
Definition tc_set_rx (c : TlsClient) (rx : Buffer) : TlsClient :=
  mkTls (tc_sn c) (tc_src_port c) (tc_hostname c) (tc_dst c) (tc_state c) (tc_timeout c) (tc_ks c) (tc_identity c) (tc_psk c) rx.
Definition tc_set_st (c : TlsClient) (s : TState) (t : option Z) : TlsClient :=
  mkTls (tc_sn c) (tc_src_port c) (tc_hostname c) (tc_dst c) s t (tc_ks c) (tc_identity c) (tc_psk c) (tc_rx c).
(** 341-349, the result is [T_TIMEOUT_SECS]; 351-355 *)
Definition set_state_with_timeout (c : TlsClient) (s : TState) (now : Z) : TlsClient := tc_set_st c s (Some now).
Definition set_state (c : TlsClient) (s : TState) : TlsClient := tc_set_st c s None.

Section Client.
Variables (cx : Crypto) (dbg : bool) (fuel : nat).

(** 314-335 *)
Definition tls_new (sn : Sn) (src_port : Z) (hostname : list Z) (dst : list Z * Z) (identity psk rx : list Z) : TlsClient :=
  mkTls sn src_port hostname dst TReset None (ks_default cx) identity psk (buffer_from rx).
(** 357-360, 362-365 *)
Definition set_state_send_discon (c : TlsClient) (now : Z) : TlsClient :=
  set_state_with_timeout (tc_set_ks c (ks_reset cx (tc_ks c))) TSendDiscon now.
Definition tls_reset (c : TlsClient) : TlsClient := set_state (tc_set_ks c (ks_reset cx (tc_ks c))) TReset.

(** Functions with a [Result] of an alert, resp. of an [Error]; the client is changed also when they fail. *)
Definition AM (A : Type) : Type := prog (res Z A * TlsClient).
Definition TM (A : Type) : Type := prog (res TError A * TlsClient).

(** 506-539 *)
Definition tls_tcp_connect (c : TlsClient) (now : Z) : AM Z :=
  a_io internal (close (tc_sn c)) c (fun _ =>
  unwrap (size_to_buffersize (b_N (tc_rx c))) (fun size =>
  a_io internal (set_sn_rxbuf_size (tc_sn c) size) c (fun _ =>
  a_io internal simr c (fun s =>
  a_io internal (set_simr (Z.lor (sn_bitmask (tc_sn c)) s)) c (fun _ =>
  a_io internal (set_sn_imr (tc_sn c) SocketInterruptMask_RESET) c (fun _ =>
  a_io internal (tcp_connect dbg fuel (tc_sn c) (tc_src_port c) (tc_dst c)) c (fun _ =>
  Ret (Ok T_TIMEOUT_SECS, set_state_with_timeout c TWaitConInt now)))))))).

(** 541-592 *)
Definition send_client_hello (c : TlsClient) (rng : Rng) (now : Z) : AM unit :=
  let c := tc_set_rx c (b_reset (tc_rx c)) in
  let (client_public_key, ks) := new_client_secret (tc_ks c) rng in
  let c := tc_set_ks c ks in
  a_tres (b_as_buf dbg (tc_rx c)) c (fun buf =>
  a_tres (client_hello_ser cx buf (rg_random rng) (tc_hostname c) client_public_key (tc_ks c) (tc_psk c) (tc_identity c) (RECORD_SIZE_LIMIT c)) c (fun '(len, buf, ks) =>
  let rx := tc_rx c in
  let c := tc_set_rx (tc_set_ks c ks) (mkBuf buf (b_head rx) (b_ad_tail rx) (b_hs_head rx) (b_tail rx)) in
  a_io internal (tx_writer (tc_sn c)) c (fun w =>
  a_io internal (cur_write_all w (ztake len buf)) c (fun w =>
  a_io internal (cur_send w) c (fun _ =>
  a_tres (increment_write (tc_ks c)) c (fun ks =>
  let c := set_state_with_timeout (tc_set_ks c ks) TWaitServerHello now in
  Ret (Ok tt, tc_set_ks c (initialize_early_secret cx (tc_ks c))))))))).

(** 594-643; the closure 603-630 returns an alert that is only logged *)
Definition try_send_alert (c : TlsClient) (level description : Z) : M unit :=
  if server_traffic_secret_exists (tc_ks c) then send_encrypted_record cx (tc_sn c) (tc_ks c) CtAlert [level; description]
  else
    w <- tx_writer (tc_sn c) ;;
    w <- cur_write_all w ([CtAlert] ++ be16 V1_2 ++ [0; 2; level; description]) ;;
    cur_send w.
Definition send_alert (c : TlsClient) (level description now : Z) : prog TlsClient :=
  r <-- try_send_alert c level description ;;
  let c := tc_set_ks c (ks_reset cx (tc_ks c)) in
  match r with
  | Err _ => Ret (set_state_send_discon c now)
  | Ok _ => Ret (set_state_with_timeout (tc_set_ks c (ks_reset cx (tc_ks c))) TWaitAlertSendOk now)
  end.
(** 645-653, with the [return Err(...)] around every call of it *)
Definition send_fatal_alert {A} (c : TlsClient) (description now : Z) : TM A :=
  c <-- send_alert c Fatal description now ;; Ret (Err (EClient (new_fatal description)), c).
(** [match p { Ok(a) => .., Err(e) => return Err(self.send_fatal_alert(w5500, e, monotonic_secs)) }] *)
Definition or_alert {A B} (p : AM A) (now : Z) (k : A -> TlsClient -> TM B) : TM B :=
  r <-- p ;; let '(r, c) := r in match r with Ok a => k a c | Err e => send_fatal_alert c e now end.

(** 655-686 *)
Definition recv_change_cipher_spec (c : TlsClient) (header : RecordHeader) : AM unit :=
  if negb (rh_length header =? 1) then Ret (Err DecodeError, c)
  else
    match b_pop_tail (tc_rx c) with
    | None => Ret (Err DecodeError, c)
    | Some (value, rx) =>
        let c := tc_set_rx c rx in
        if negb (value =? 1) then Ret (Err UnexpectedMessage, c) else Ret (Ok tt, c)
    end.
(** 688-718 *)
Definition recv_header (c : TlsClient) : AM (option RecordHeader) :=
  a_io map_w5500 (tcp_reader dbg (tc_sn c)) c (fun reader =>
  a_io map_w5500 (cur_read_exact reader 5) c (fun '(header_buf, reader) =>
  a_tres (rh_deser header_buf) c (fun header =>
  if RECORD_SIZE_LIMIT c <? rh_length header then Ret (Err RecordOverflow, c)
  else if cur_len reader <? len16 (rh_length header + RH_LEN) then Ret (Ok None, c)
  else a_io internal (tcp_reader_done reader) c (fun _ => Ret (Ok (Some header), c))))).
(** 728-740: one unit of fuel per iteration *)
Fixpoint recv_body_loop (n : nat) (reader : cursor) (remain : Z) (c : TlsClient) : AM cursor :=
  let read_len := Z.min remain 64 in
  if read_len =? 0 then Ret (Ok reader, c)
  else
    match n with
    | O => Diverge
    | S n =>
        a_io map_w5500 (cur_read_exact reader read_len) c (fun '(buf, reader) =>
        a_tres (b_extend_from_slice dbg (tc_rx c) buf) c (fun rx =>
        recv_body_loop n reader (remain - read_len) (tc_set_rx c rx)))
    end.
(** 720-744 *)
Definition recv_unencrypted_body (c : TlsClient) (header : RecordHeader) : AM unit :=
  a_io map_w5500 (tcp_reader dbg (tc_sn c)) c (fun reader =>
  r <-- recv_body_loop (Z.to_nat (rh_length header)) reader (rh_length header) c ;;
  let '(r, c) := r in
  match r with
  | Err e => Ret (Err e, c)
  | Ok reader => a_io internal (tcp_reader_done reader) c (fun _ => Ret (Ok tt, c))
  end).

(** [t?] in [recv_handshake], which does not use the bus *)
Definition h_try {A B} (t : tres A) (c : TlsClient) (k : A -> tres (res Z B * TlsClient)) : tres (res Z B * TlsClient) :=
  match t with TOk a => k a | TErr e => TOk (Err e, c) | TPanic => TPanic | TDiverge => TDiverge end.
(** 1011-1166: the [match] on the message type *)
Definition recv_message (c : TlsClient) (header : HandshakeHeader) (reader : CircleReader) (hash : list Z) (now : Z) : tres (res Z unit * TlsClient) :=
  match hh_msg_type header with
  | None => TOk (Err UnexpectedMessage, c)
  | Some ty =>
      if ty =? ServerHello then
        if negb (tstate_eqb (tc_state c) TWaitServerHello) then TOk (Err UnexpectedMessage, c)
        else
          h_try (recv_server_hello cx reader) c (fun public_key =>
          let ks := ks_set_transcript (set_server_public_key (tc_ks c) public_key) hash in
          let c := tc_set_ks c ks in
          h_try (initialize_handshake_secret cx ks) c (fun ks =>
          TOk (Ok tt, set_state_with_timeout (tc_set_ks c ks) TWaitEncryptedExtensions now)))
      else if ty =? NewSessionTicket then
        if negb (tstate_eqb (tc_state c) TConnected) then TOk (Err UnexpectedMessage, c) else TOk (Ok tt, c)
      else if ty =? EncryptedExtensions then
        if negb (tstate_eqb (tc_state c) TWaitEncryptedExtensions) then TOk (Err UnexpectedMessage, c)
        else h_try (recv_encrypted_extensions reader) c (fun _ => TOk (Ok tt, set_state_with_timeout c TWaitFinished now))
      else if ty =? Finished then
        if negb (tstate_eqb (tc_state c) TWaitFinished) then TOk (Err UnexpectedMessage, c)
        else if negb (hh_length header =? 32) then TOk (Err UnexpectedMessage, c)
        else
          h_try (cr_next_n reader 32) c (fun '(verify_data, _) =>
          h_try (verify_server_finished cx (tc_ks c) verify_data) c (fun _ =>
          TOk (Ok tt, set_state_with_timeout c TSendFinished now)))
      else if ty =? KeyUpdate then
        if negb (tstate_eqb (tc_state c) TConnected) then TOk (Err UnexpectedMessage, c)
        else if negb (hh_length header =? 1) then TOk (Err UnexpectedMessage, c)
        else
          h_try (cr_next_u8 reader) c (fun '(v, _) =>
          match key_update_request_try_from v with
          | None => TOk (Err IllegalParameter, c)
          | Some r => if r =? 0 then TOk (Ok tt, c) else TOk (Ok tt, tc_set_ks c (update_traffic_secret cx (tc_ks c)))
          end)
      else (* ClientHello, EndOfEarlyData, Certificate, CertificateRequest, CertificateVerify *)
        TOk (Err UnexpectedMessage, c)
  end.
(** 1000-1167: one unit of fuel per message; [pop_handshake_record] takes the message out of the buffer *)
Fixpoint recv_handshake (n : nat) (c : TlsClient) (now : Z) : tres (res Z unit * TlsClient) :=
  match b_pop_handshake_record (tc_rx c) (ks_transcript (tc_ks c)) with
  | TPanic => TPanic
  | TDiverge => TDiverge
  | TErr e => TOk (Err e, c)
  | TOk None => TOk (Ok tt, c)
  | TOk (Some (header, reader, hash, rx)) =>
      match n with
      | O => TDiverge
      | S n =>
          match recv_message (tc_set_rx c rx) header reader hash now with
          | TOk (Ok _, c) => recv_handshake n (tc_set_ks c (ks_set_transcript (tc_ks c) hash)) now
          | r => r
          end
      end
  end.

(** 867-927 *)
Definition decode_failed : TError := EClient (mkAlert Fatal DecodeError).
Definition recv_alert (c : TlsClient) (header : RecordHeader) : prog (TError * TlsClient) :=
  let c := set_state c TReset in
  let c := tc_set_ks c (ks_reset cx (tc_ks c)) in
  let cleared c := tc_set_rx c (b_reset (tc_rx c)) in
  if negb (rh_length header =? 2) then
    let c := cleared c in
    _ <-- tcp_disconnect dbg (tc_sn c) ;; Ret (decode_failed, c)
  else
    match b_pop_tail (tc_rx c) with
    | None => Ret (decode_failed, cleared c)
    | Some (byte, rx) =>
        let c := tc_set_rx c rx in
        match description_try_from byte with
        | None => Ret (decode_failed, c)
        | Some description =>
            match b_pop_tail (tc_rx c) with
            | None => Ret (decode_failed, cleared c)
            | Some (byte, rx) =>
                let c := tc_set_rx c rx in
                let level := match level_try_from byte with Some level => level | None => Fatal end in
                Ret (EServer (mkAlert level description), cleared c)
            end
        end
    end.

(** 929-947 *)
Definition send_client_finished (c : TlsClient) : AM unit :=
  a_tres (client_finished_verify_data cx (tc_ks c)) c (fun verify_data =>
  a_io map_w5500 (send_encrypted_record cx (tc_sn c) (tc_ks c) CtHandshake (client_finished verify_data)) c (fun _ =>
  let c := set_state c TConnected in
  Ret (Ok tt, tc_set_ks c (initialize_master_secret cx (tc_ks c))))).

(** 759-799: the body of the record goes to the buffer; the result is the content type *)
Definition recv_body (c : TlsClient) (header : RecordHeader) : AM ContentType :=
  if rh_content_type header =? ApplicationData then
    match server_key_and_nonce cx (tc_ks c) with
    | None => Ret (Err UnexpectedMessage, c)
    | Some (key, nonce) =>
        r <-- decrypt_record_inplace dbg (tc_sn c) key nonce header (tc_rx c) ;;
        let '(r, rx) := r in
        let c := tc_set_rx c rx in
        match r with
        | Ok (Some content_type) => Ret (Ok content_type, c)
        | Ok None => Ret (Err DecodeError, c)
        | Err e => Ret (Err e, c)
        end
    end
  else
    r <-- recv_unencrypted_body c header ;;
    let '(r, c) := r in match r with Ok _ => Ret (Ok (rh_content_type header), c) | Err e => Ret (Err e, c) end.
(** 825-858: the [match] on the content type *)
Definition recv_content (c : TlsClient) (header : RecordHeader) (content_type : ContentType) (now : Z) : TM (option TEvent) :=
  if content_type =? ChangeCipherSpec then or_alert (recv_change_cipher_spec c header) now (fun _ c => Ret (Ok None, c))
  else if content_type =? CtHandshake then
    match recv_handshake (Z.to_nat (b_N (tc_rx c))) c now with
    | TPanic => Panic
    | TDiverge => Diverge
    | TErr _ => Panic (* no such result *)
    | TOk (Ok _, c) => Ret (Ok None, c)
    | TOk (Err e, c) => send_fatal_alert c e now
    end
  else if tstate_eqb (tc_state c) TConnected then Ret (Ok (Some TApplicationData), c)
  else send_fatal_alert c UnexpectedMessage now.
(** 746-865 *)
Definition tls_recv (c : TlsClient) (now : Z) : TM (option TEvent) :=
  or_alert (recv_header c) now (fun header c =>
  match header with
  | None => Ret (Ok None, c)
  | Some header =>
      let fragment := b_contains_handshake_fragment (tc_rx c) in
      or_alert (recv_body c header) now (fun content_type c =>
      let advanced :=
        if content_type =? ApplicationData then b_increment_application_data_tail dbg (tc_rx c) (Z.max 0 (rh_length header - (GCM_TAG_LEN + 1)))
        else TOk (tc_rx c) in
      match advanced with
      | TOk rx =>
          let c := tc_set_rx c rx in
          if fragment && negb (content_type =? CtHandshake) then send_fatal_alert c UnexpectedMessage now
          else if content_type =? CtAlert then x <-- recv_alert c header ;; let '(e, c) := x in Ret (Err e, c)
          else
            x <-- recv_content c header content_type now ;; let '(r, c) := x in
            if rh_content_type header =? ApplicationData then
              match increment_read (tc_ks c) with TOk ks => Ret (r, tc_set_ks c ks) | _ => Panic end
            else Ret (r, c)
      | _ => Panic
      end)
  end).

(** 476-501: the timeouts at the end of [process] *)
Definition check_timeout (c : TlsClient) (now : Z) : TM TEvent :=
  match tc_timeout c with
  | None => Ret (Ok TNone, c)
  | Some to =>
      if now <? to then Panic
      else
        let elapsed_secs := now - to in
        if T_TIMEOUT_SECS <? elapsed_secs then
          let e := EStateTimeout (tc_state c) in
          if tstate_eqb (tc_state c) TWaitDiscon then Ret (Err e, tls_reset c) else Ret (Err e, set_state c TSendDiscon)
        else Ret (Ok (TCallAfter (T_TIMEOUT_SECS - elapsed_secs)), c)
  end.
(** 456-474 and the rest *)
Definition process_rx (c : TlsClient) (now : Z) : TM TEvent :=
  if tstate_eqb (tc_state c) TWaitAlertSendOk || tstate_eqb (tc_state c) TWaitDiscon then check_timeout c now
  else
    or_alert (a_io internal (sn_rx_rsr (tc_sn c)) c (fun rsr => Ret (Ok rsr, c))) now (fun rsr c =>
    x <-- (if RH_LEN <=? rsr then tls_recv c now else Ret (Ok None, c)) ;; let '(r, c) := x in
    match r with
    | Err e => Ret (Err e, c)
    | Ok (Some event) => Ret (Ok event, c)
    | Ok None =>
        if tstate_eqb (tc_state c) TSendFinished then or_alert (send_client_finished c) now (fun _ c => Ret (Ok THandshakeFinished, c))
        else check_timeout c now
    end).
(** 437-454 and the rest *)
Definition process_state (c : TlsClient) (now : Z) : TM TEvent :=
  match tc_state c with
  | TReset => or_alert (tls_tcp_connect c now) now (fun after c => Ret (Ok (TCallAfter after), c))
  | TSendDiscon =>
      or_alert (a_io internal (tcp_disconnect dbg (tc_sn c)) c (fun _ => Ret (Ok tt, c))) now (fun _ c =>
      Ret (Ok (TCallAfter T_TIMEOUT_SECS), set_state_with_timeout c TWaitDiscon now))
  | _ => process_rx c now
  end.
(** 411-434: the interrupts after CON *)
Definition process_interrupts (c : TlsClient) (ir now : Z) : TM TEvent :=
  if SocketInterrupt_discon_raised ir then
    if negb (tstate_eqb (tc_state c) TWaitDiscon) then Ret (Ok TDisconnect, tls_reset c) else Ret (Err EUnexpectedDisconnect, c)
  else if SocketInterrupt_timeout_raised ir then Ret (Err ETcpTimeout, tls_reset c)
  else if SocketInterrupt_sendok_raised ir && tstate_eqb (tc_state c) TWaitAlertSendOk then
    Ret (Ok (TCallAfter T_TIMEOUT_SECS), set_state_send_discon c now)
  else process_state c now.
(** 387-504; [unwrap_or_default] gives 0 *)
Definition tls_process (c : TlsClient) (rng : Rng) (now : Z) : TM TEvent :=
  r <-- sn_ir (tc_sn c) ;;
  let ir := match r with Ok v => v | Err _ => 0 end in
  if SocketInterrupt_any_raised ir then
    or_alert (a_io internal (set_sn_ir (tc_sn c) ir) c (fun _ => Ret (Ok tt, c))) now (fun _ c =>
    if SocketInterrupt_con_raised ir then or_alert (send_client_hello c rng now) now (fun _ c => process_interrupts c ir now)
    else process_interrupts c ir now)
  else process_state c now.

(** 1170-1172 *)
Definition tls_connected (c : TlsClient) : bool := tstate_eqb (tc_state c) TConnected.
(** 1196-1233 *)
Definition internal_warning : TError := EClient (new_warning InternalError).
Definition tls_writer (c : TlsClient) : prog (res TError cursor) :=
  if negb (tls_connected c) then Ret (Err ENotConnected)
  else w <-- tls_writer_new (tc_sn c) ;; Ret (match w with Some w => Ok w | None => Err internal_warning end).
(** 1250-1261 *)
Definition tls_write_all (c : TlsClient) (data : list Z) : prog (res TError unit) :=
  if negb (tls_connected c) then Ret (Err ENotConnected)
  else r <-- send_encrypted_record cx (tc_sn c) (tc_ks c) ApplicationData data ;; Ret (match r with Ok _ => Ok tt | Err _ => Err internal_warning end).
(** 1275-1277 *)
Definition tls_reader (c : TlsClient) : option CircleReader := b_app_data_reader (tc_rx c).
End Client.
