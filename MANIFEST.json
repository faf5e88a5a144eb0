{
 "claims": [
  {
   "property": "C01",
   "status": "proved",
   "theorems": [
    "C01_fdm_vdm_read",
    "C01_fdm_vdm_write"
   ],
   "note": "For an arbitrary device with side-effecting reads; both directions."
  },
  {
   "property": "C02",
   "status": "proved",
   "theorems": [
    "C02_headers",
    "C02_blocks"
   ],
   "note": "Header layout and block numbering."
  },
  {
   "property": "C03",
   "status": "proved",
   "theorems": [
    "C03_common_registers",
    "C03_common_ro_registers",
    "C03_common_ir",
    "C03_socket_registers",
    "C03_socket_ro_registers",
    "C03_socket_ir",
    "C03_buffers"
   ],
   "note": "All accessor pairs of the common and socket blocks, chip-written registers and buffers, against the chip model."
  },
  {
   "property": "C04",
   "status": "partial",
   "theorems": [
    "C04_snreg_bijection",
    "C04_reg_bijection_partial",
    "C04_reg_bijection_refuted"
   ],
   "note": "Full for SnReg. For Reg the claim is false for UIPR1..UIPR3 (C04_reg_bijection_refuted); C04_reg_bijection_partial covers all other names and every u16."
  },
  {
   "property": "C05",
   "status": "proved",
   "theorems": [
    "C05_mode_bits",
    "C05_interrupt_bits",
    "C05_phycfg_bits",
    "C05_socketmode_bits",
    "C05_socketinterrupt_bits",
    "C05_socketinterruptmask_bits",
    "C05_setter_sequence"
   ],
   "note": "All fields of all six register structs, plus arbitrary sequences of setters."
  },
  {
   "property": "C06",
   "status": "proved",
   "theorems": [
    "C06_enum_conversions",
    "C06_encodings"
   ],
   "note": "Both directions for every enum, plus the literal encodings."
  },
  {
   "property": "C07",
   "status": "proved",
   "theorems": [
    "C07_cursor"
   ],
   "note": "For every operation list; the bus may fail at any transaction."
  },
  {
   "property": "C08",
   "status": "proved",
   "theorems": [
    "C08_tcp_reader"
   ],
   "note": "Reader sessions against the chip model under arbitrary network events."
  },
  {
   "property": "C09",
   "status": "proved",
   "theorems": [
    "C09_tcp_read",
    "C09_tcp_reads"
   ],
   "note": "Single call, any sequence of calls, and mixed sessions (C10_tcp_session)."
  },
  {
   "property": "C10",
   "status": "proved",
   "theorems": [
    "C10_tcp_write",
    "C10_tcp_writes",
    "C10_tcp_writer",
    "C10_tcp_session"
   ],
   "note": "Single writes, sequences of writes, writer sessions and mixed sessions."
  },
  {
   "property": "C11",
   "status": "proved",
   "theorems": [
    "C11_write_all",
    "C11_tcp_writer_writes"
   ],
   "note": "write_all all-or-nothing; bytes accepted by a writer are exactly the bytes sent."
  },
  {
   "property": "C12",
   "status": "proved",
   "theorems": [
    "C12_udp_recv_from",
    "C12_udp_recvs",
    "C12_udp_session"
   ],
   "note": "One call, any sequence of calls (C12_udp_recvs), and arbitrary mixed sessions of UDP calls (C12_udp_session)."
  },
  {
   "property": "C13",
   "status": "proved",
   "theorems": [
    "C13_udp_peek_from",
    "C13_udp_peek_from_header"
   ],
   "note": "Peeks return what the next receive would and leave the socket to events only."
  },
  {
   "property": "C14",
   "status": "proved",
   "theorems": [
    "C14_udp_send_to",
    "C14_udp_send"
   ],
   "note": "One frame with the given destination, truncated to the free space; send uses the last destination."
  },
  {
   "property": "C15",
   "status": "partial",
   "theorems": [
    "C15_udp_send_if_free_refuted",
    "C15_udp_send_if_free_partial",
    "C15_udp_send_to_if_free_partial"
   ],
   "note": "False for buffers longer than 65535 bytes, where Ok(0) is returned (C15_udp_send_if_free_refuted); the partial theorems cover every shorter buffer."
  },
  {
   "property": "C16",
   "status": "proved",
   "theorems": [
    "C16_udp_reader"
   ],
   "note": "Reader sessions; done always releases the whole datagram."
  },
  {
   "property": "C17",
   "status": "proved",
   "theorems": [
    "C17_udp_writer",
    "C17_udp_writer_writes"
   ],
   "note": "Writer sessions, any mix of write and write_all, send or send_to or drop."
  },
  {
   "property": "C18",
   "status": "proved",
   "theorems": [
    "C18_port_refused",
    "C18_port_unique"
   ],
   "note": "Refusal of held ports and uniqueness after a normal return, under arbitrary network events during the call."
  },
  {
   "property": "C19",
   "status": "proved",
   "theorems": [
    "C19_udp_bind",
    "C19_tcp_listen",
    "C19_tcp_connect"
   ],
   "note": "For all three opening calls, debug and release; full command history, registers, and the state the data calls start from."
  },
  {
   "property": "C20",
   "status": "proved",
   "theorems": [
    "C20_bus_fault",
    "C20_no_panic"
   ],
   "note": "Every call of the Common, Tcp and Udp traits and of the readers and writers."
  },
  {
   "property": "C21",
   "status": "proved",
   "theorems": [
    "C21_isolation"
   ],
   "note": "Arbitrary call lists on one socket, faults included."
  },
  {
   "property": "C22",
   "status": "proved",
   "theorems": [
    "C22_hostname_new",
    "C22_hostname_try_from",
    "C22_constructors_agree"
   ],
   "note": "Both constructors against the documented rule, and their agreement."
  },
  {
   "property": "C23",
   "status": "proved",
   "theorems": [
    "C23_labels",
    "C23_labels_of_join"
   ],
   "note": "Labels, join and length; both directions."
  },
  {
   "property": "C24",
   "status": "proved",
   "theorems": [
    "C24_dns_a_question",
    "C24_dns_questions"
   ],
   "note": "Partial correctness (calls that return): the datagram on the wire decodes by an independent RFC 1035 grammar to the questions asked; any number of questions."
  },
  {
   "property": "C25",
   "status": "proved",
   "theorems": [
    "C25_read_labels",
    "C25_read_labels_at_end_refuted"
   ],
   "note": "All names of the RFC 1035 grammar including chained pointers, all buffers. A name at the very end of the message leaves the position one byte short (C25_read_labels_at_end_refuted)."
  },
  {
   "property": "C26",
   "status": "partial",
   "theorems": [
    "C26_dns_response_terminates_refuted",
    "C26_dns_response_diverges",
    "C26_read_labels_partial",
    "C26_take_response_partial",
    "C26_take_response_no_panic_partial"
   ],
   "note": "The full statement is false: a pointer cycle hangs read_labels (refuted by a concrete datagram and characterised in general). Proved: termination for every datagram without pointer cycles, and absence of panics for every datagram."
  },
  {
   "property": "C27",
   "status": "proved",
   "theorems": [
    "C27_dns_records",
    "C27_mdns_records"
   ],
   "note": "Both Client::response and the mDNS client; any number of records and buffers, names too long or not UTF-8 reported as absent."
  },
  {
   "property": "C28",
   "status": "partial",
   "theorems": [
    "C28_class_refuted",
    "C28_class_partial"
   ],
   "note": "The full statement is false (bits 7-14 masked, ANY has number 5). Proved for class values below 128 other than 5, with or without the cache-flush bit."
  },
  {
   "property": "C29",
   "status": "proved",
   "theorems": [
    "C29_discover",
    "C29_request",
    "C29_options_found"
   ],
   "note": "On the chip model, for every reachable open UDP socket, host name up to 255 bytes, xid and MAC. secs is always 0 in the code."
  },
  {
   "property": "C30",
   "status": "proved",
   "theorems": [
    "C30_cache_transparent",
    "C30_linear_scan",
    "C30_answers_unique"
   ],
   "note": "For packets up to 65280 bytes; the W5500 receive buffer holds at most 16376 bytes of data (used in C31), beyond 65280 the cached u16 offsets could overflow."
  },
  {
   "property": "C31",
   "status": "proved",
   "theorems": [
    "C31_accessors_total",
    "C31_answers_exist"
   ],
   "note": "On the chip: every sequence of accessor calls on every received datagram, fuel = more than the datagram length."
  },
  {
   "property": "C32",
   "status": "proved",
   "theorems": [
    "C32_options_decoded"
   ],
   "note": "Any prefix of 240 bytes; options in any order with pads, anything after End."
  },
  {
   "property": "C33",
   "status": "partial",
   "theorems": [
    "C33_adopts_partial",
    "C33_bound_partial",
    "C33_history_partial",
    "C33_bootreply_refuted"
   ],
   "note": "Proved for every call and every history, with \"BOOTP reply\" read as the code reads it: any operation code but 1. With operation code 2 required the claim is false (C33_bootreply_refuted). The bus does not fail."
  },
  {
   "property": "C34",
   "status": "proved",
   "theorems": [
    "C34_process",
    "C34_edges",
    "C34_setup"
   ],
   "note": "process refines an independent state machine (Spec/DhcpRfc.v) under all arrivals; setup_socket establishes the precondition. The bus does not fail."
  },
  {
   "property": "C35",
   "status": "partial",
   "theorems": [
    "C35_ordered_partial",
    "C35_ordered_refuted"
   ],
   "note": "False as stated: the infinite lease without T1/T2, or unordered server times (C35_ordered_refuted). Proved: times change only by an ACK and are ordered when its options are."
  },
  {
   "property": "C36",
   "status": "partial",
   "theorems": [
    "C36_delay",
    "C36_in_time_partial",
    "C36_no_underflow",
    "C36_in_time_refuted"
   ],
   "note": "Proved: the delay equals the time to the deadline of the state; no underflow while the clock does not go back; every due time is met when the times are ordered. False without ordered times (C36_in_time_refuted)."
  },
  {
   "property": "C37",
   "status": "partial",
   "theorems": [
    "C37_foreign_blocks",
    "C37_foreign_removed_refuted",
    "C37_restart_partial"
   ],
   "note": "False: a datagram of another transaction blocks the queue until a timeout (C37_foreign_blocks in general, C37_foreign_removed_refuted with the awaited ACK behind it). Proved: a timeout restarts and empties the queue."
  },
  {
   "property": "C38",
   "status": "proved",
   "theorems": [
    "C38_request",
    "C38_setup",
    "C38_reply",
    "C38_every_packet",
    "C38_reply_determined"
   ],
   "note": "Request, setup and reply decoding on the chip model; every 48-byte packet is covered."
  },
  {
   "property": "C39",
   "status": "partial",
   "theorems": [
    "C39_seconds",
    "C39_nanos_partial",
    "C39_nanos_refuted",
    "C39_date_partial",
    "C39_date_no_panic",
    "C39_date_refuted",
    "C39_fixed_partial",
    "C39_fixed_refuted"
   ],
   "note": "False as stated: nanos reaches 10^9 for the largest fraction (C39_nanos_refuted), the fixed point ratio divides by 65535 (C39_fixed_refuted), dates before 1968 do not round-trip (C39_date_refuted). Proved: everything else with exact bounds."
  },
  {
   "property": "C40",
   "status": "partial",
   "theorems": [
    "C40_next_reply_partial",
    "C40_short_stays",
    "C40_next_reply_refuted"
   ],
   "note": "False for datagrams of the server shorter than 48 bytes, which stay at the head (C40_short_stays, C40_next_reply_refuted). Proved for every other datagram."
  },
  {
   "property": "C41",
   "status": "partial",
   "theorems": [
    "C41_round_trip",
    "C41_decode",
    "C41_truncated",
    "C41_overlong_refuted"
   ],
   "note": "Proved: round trip with any suffix, minimal length, all encodings up to 4 bytes understood, truncated ones incomplete. False for over-long integers (C41_overlong_refuted): decoder panics on a fifth byte, process waits for ever."
  },
  {
   "property": "C42",
   "status": "proved",
   "theorems": [
    "C42_publish",
    "C42_subscribe",
    "C42_unsubscribe",
    "C42_connect",
    "C42_packet",
    "C42_string",
    "C42_message",
    "C42_long_filter",
    "C42_long_unsubscribe"
   ],
   "note": "CONNECT (client ids up to 23 bytes, the type's limit), PUBLISH, SUBSCRIBE, UNSUBSCRIBE on the chip model; packets and fields cut in one way only. Filters of 65533 to 65535 bytes panic (C42_long_filter), transmitting nothing."
  },
  {
   "property": "C43",
   "status": "partial",
   "theorems": [
    "C43_publish_partial",
    "C43_properties_refuted"
   ],
   "note": "Proved for properties below 128 bytes, any reads in any order. False from 128 on (C43_properties_refuted)."
  },
  {
   "property": "C44",
   "status": "proved",
   "theorems": [
    "C44_incomplete"
   ],
   "note": "Every packet type and every prefix, bytes arriving during the call included; bodies up to 65535 bytes."
  },
  {
   "property": "C45",
   "status": "partial",
   "theorems": [
    "C45_connack_partial",
    "C45_suback_partial",
    "C45_unsuback_partial",
    "C45_other",
    "C45_connack_refuted",
    "C45_suback_refuted"
   ],
   "note": "Proved for one reason code and short properties. False for CONNACK bodies of 128 bytes and more (C45_connack_refuted), several reason codes and longer properties (C45_suback_refuted)."
  },
  {
   "property": "C46",
   "status": "proved",
   "theorems": [
    "C46_distinct"
   ],
   "note": "Every history on every bus."
  },
  {
   "property": "C47",
   "status": "proved",
   "theorems": [
    "C47_not_connected",
    "C47_disconnected",
    "C47_timed_out"
   ],
   "note": "Every history on every bus, faults included."
  },
  {
   "property": "C48",
   "status": "proved",
   "theorems": [
    "C48_bounded",
    "C48_fires",
    "C48_tls_bounded",
    "C48_tls_fires"
   ],
   "note": "MQTT and TLS clients: the requested delay is bounded on every bus; the wait ends when nothing happens on the socket. For TLS no wait outlasts a call made more than 10 s after it began, whatever the bus does, except in the UnexpectedDisconnect case of C62."
  },
  {
   "property": "C49",
   "status": "partial",
   "theorems": [
    "C49_writers_partial",
    "C49_nonces",
    "C49_nonce_reuse_refuted"
   ],
   "note": "Sessions of writers: proved for every list of sessions, all alignments and events (consecutive numbers, distinct nonces). False of write_all, which does not increment the sequence number: any two messages sent with it share key and nonce (C49_nonce_reuse_refuted)."
  },
  {
   "property": "C50",
   "status": "proved",
   "theorems": [
    "C50_aes",
    "C50_inverse"
   ],
   "note": "Every key and block; FIPS 197 is written with GF(2^8) arithmetic (multiplicative inverses, affine map, MixColumns matrix), not with tables."
  },
  {
   "property": "C51",
   "status": "proved",
   "theorems": [
    "C51_ghash"
   ],
   "note": "Every hash key and every sequence of blocks; the carry-less multiplication and reduction are compared with the product of SP 800-38D on the basis and extended by linearity."
  },
  {
   "property": "C52",
   "status": "proved",
   "theorems": [
    "C52_encrypt",
    "C52_decrypt",
    "C52_inverse"
   ],
   "note": "Lengths up to the counter limit of the code (65534 blocks). usize is unbounded in the model, lengths being those of one record."
  },
  {
   "property": "C53",
   "status": "proved",
   "theorems": [
    "C53_writer",
    "C53_write_all",
    "C53_write_all_long",
    "C53_opens"
   ],
   "note": "Writer sessions and write_all on a connected socket, every alignment, any events between the transactions, no bus faults. The cipher is AES-128-GCM of the specification. write_all of more than 65518 bytes panics (C53_write_all_long)."
  },
  {
   "property": "C54",
   "status": "partial",
   "theorems": [
    "C54_authentic_partial",
    "C54_received",
    "C54_fragment_refuted",
    "C54_release_refuted"
   ],
   "note": "Proved for every history of calls, any bus and debug builds, except for a call of process that fails while a part of a handshake message is pending. There it is false: the pending bytes, which can come unprotected, become readable with the next record (C54_fragment_refuted). In release builds it is false even for calls that succeed: unprotected handshake records fill the buffer one byte over its capacity, and the next one is stored over authenticated bytes that are still readable, without an error (C54_release_refuted)."
  },
  {
   "property": "C55",
   "status": "partial",
   "theorems": [
    "C55_queue_partial",
    "C55_queue_refuted"
   ],
   "note": "Every history of the operations; the excluded case (an append reaching exactly capacity + 1 over a wrapped buffer) is refuted with a witness."
  },
  {
   "property": "C56",
   "status": "partial",
   "theorems": [
    "C56_messages_partial",
    "C56_two_in_one_refuted",
    "C56_after_data_refuted"
   ],
   "note": "Proved for messages arriving one after the other in any chunks in an otherwise empty buffer without wrapping; two messages in one record and a message after application data are refuted with witnesses. Before application data all pointers of the buffer are 0 between messages, so nothing wraps during the handshake."
  },
  {
   "property": "C57",
   "status": "proved",
   "theorems": [
    "C57_server_hello",
    "C57_accepted"
   ],
   "note": "Every byte string: recv_server_hello never panics or diverges and returns a key exactly for the ServerHello messages described by the specification (key is the point of the key share). Two acceptances wider than the RFC are part of that description and visible in it: extensions may overrun the announced block length only as the loop allows, and supported/PSK extensions may repeat; see Spec/TlsMessages.v. SEC1 decoding is an argument."
  },
  {
   "property": "C58",
   "status": "partial",
   "theorems": [
    "C58_extensions_partial",
    "C58_accepted",
    "C58_lengths_refuted"
   ],
   "note": "Termination without panic and 'only permitted extensions' hold for every byte string. 'Lengths add up' is false: the last extension may overrun the announced length of the block and trailing bytes are ignored (C58_lengths_refuted). Proved instead: the accepted messages are exactly those of the specification, where the block length is covered."
  },
  {
   "property": "C59",
   "status": "proved",
   "theorems": [
    "C59_client_hello"
   ],
   "note": "The bytes are the RFC 8446 encoding of one ClientHello record for every hostname, identity, key, random and limit; the binder is the PSK binder over the message up to the binders; the exact panic condition is proved (message does not fit the buffer). HKDF, HMAC and SHA-256 are arguments."
  },
  {
   "property": "C60",
   "status": "partial",
   "theorems": [
    "C60_connected",
    "C60_events",
    "C60_sending",
    "C60_delivered_refuted"
   ],
   "note": "connected() and sending: proved for every history on every bus. Delivery: the ApplicationData event only when connected is proved, but reader() does not check the state and exposes bytes of a record received under the handshake keys (C60_delivered_refuted). If the chip reports CON again during a connection the handshake starts over with the old transcript in front (the existential pre)."
  },
  {
   "property": "C61",
   "status": "partial",
   "theorems": [
    "C61_plain_partial",
    "C61_protected_refuted"
   ],
   "note": "Alerts without protection are reported; protected alerts (all alerts after the handshake keys are in use, also close_notify) are reported as a decode error of the client, since the length of the record is compared with 2, and application data that was not yet read is dropped."
  },
  {
   "property": "C62",
   "status": "partial",
   "theorems": [
    "C62_inverted_refuted"
   ],
   "note": "False: the code has the two cases the other way round and does not return to Reset in the expected case; C62_inverted_refuted gives the behaviour for every state."
  },
  {
   "property": "C63",
   "status": "partial",
   "theorems": [
    "C63_overflow",
    "C63_within_limit_refuted",
    "C63_unread_refuted",
    "C63_accepted_partial"
   ],
   "note": "Overflow is proved. The length in the record header, which includes the tag and the type, is compared with the limit for the plaintext, so the 16 largest permitted records are refused (C63_within_limit_refuted). A record within the limit that does not fit behind unread data ends the connection with internal_error (C63_unread_refuted)."
  },
  {
   "property": "C64",
   "status": "partial",
   "theorems": [
    "C64_same_secret_refuted",
    "C64_next_secret_refuted"
   ],
   "note": "False: both directions get the same secret, which is not the next secret of either, the sequence number is 1, and update_not_requested is ignored."
  },
  {
   "property": "C65",
   "status": "proved",
   "theorems": [
    "C65_dns_response_reject"
   ],
   "note": "Every datagram that does not qualify, including short ones."
  },
  {
   "property": "C66",
   "status": "proved",
   "theorems": [
    "C66_mdns_question"
   ],
   "note": "Partial correctness (calls that return), A and PTR questions, from every previous socket state; the set-up registers are shown to hold after the datagram was queued."
  },
  {
   "property": "C67",
   "status": "proved",
   "theorems": [
    "C67_any_bytes"
   ],
   "note": "Fault-free bus, every event schedule."
  },
  {
   "property": "C68",
   "status": "proved",
   "theorems": [
    "C68_key_schedule"
   ],
   "note": ""
  },
  {
   "property": "C69",
   "status": "proved",
   "theorems": [
    "C69_delivered",
    "C69_forged",
    "C69_early",
    "C69_buffer"
   ],
   "note": ""
  },
  {
   "property": "C70",
   "status": "partial",
   "theorems": [
    "C70_padding_refuted"
   ],
   "note": "False: padding is not removed, the last padding byte is taken for the content type and the connection ends with decode_error (C70_padding_refuted)."
  },
  {
   "property": "C71",
   "status": "partial",
   "theorems": [
    "C71_ccs_partial",
    "C71_connected_refuted"
   ],
   "note": "change_cipher_spec is skipped (in any state, also when connected); alerts without protection are obeyed by a connected client (C71_connected_refuted). Unprotected bytes becoming readable: see C54."
  },
  {
   "property": "C72",
   "status": "proved",
   "theorems": [
    "C72_same_as_blocking",
    "C72_common_registers",
    "C72_socket_registers"
   ],
   "note": "The 85 asynchronous accessors are transcribed separately (Model/LlAio.v); await points are not modelled: the calls are taken as run to completion."
  },
  {
   "property": "C73",
   "status": "proved",
   "theorems": [
    "C73_selected_reads",
    "C73_selected_writes",
    "C73_tied_reads",
    "C73_tied_writes"
   ],
   "note": "For any device behind the bus of Spec/SpiBus.v."
  },
  {
   "property": "C74",
   "status": "partial",
   "theorems": [
    "C74_failed_reads_partial",
    "C74_failed_writes_partial",
    "C74_reported",
    "C74_tied_partial",
    "C74_tied_refuted",
    "C74_release_refuted"
   ],
   "note": "Proved for the drivers with chip select unless releasing it fails (C74_release_refuted); the drivers for a device that is always selected report the error but the next access goes wrong (C74_tied_refuted). With failing pins vdm_infallible_gpio panics."
  },
  {
   "property": "C75",
   "status": "proved",
   "theorems": [
    "C75_publish",
    "C75_subscribe",
    "C75_unsubscribe",
    "C75_connect",
    "C75_not_connected"
   ],
   "note": "The CONNECT theorem takes the run of the TLS client in which the handshake ends as a hypothesis (C75_connect); filters longer than the stated limits panic, see C41."
  },
  {
   "property": "C76",
   "status": "partial",
   "theorems": [
    "C76_received_partial",
    "C76_buffered_partial"
   ],
   "note": "Missing: property lengths of 128 and more in the packets of C43 and C45 (as without TLS), packets whose record does not fit behind unread bytes; calls in which only a part of a record has arrived are covered for a connected client by C106."
  },
  {
   "property": "C77",
   "status": "partial",
   "theorems": [
    "C77_disconnected_refuted",
    "C77_connected_refuted"
   ],
   "note": "False: a lost connection does not reset the state of the MQTT client (C77_disconnected_refuted, C77_connected_refuted); requests then fail with NotConnected (C75_not_connected)."
  },
  {
   "property": "C78",
   "status": "partial",
   "theorems": [
    "C78_early_refuted"
   ],
   "note": "False: only the TLS state is checked, so packets are sent before CONNACK (C78_early_refuted)."
  },
  {
   "property": "C79",
   "status": "partial",
   "theorems": [
    "C79_stuck_refuted",
    "C79_reached_refuted"
   ],
   "note": "False: after an error of the MQTT layer the TLS connection stays and nothing connects again (C79_stuck_refuted, reached: C79_reached_refuted)."
  },
  {
   "property": "C80",
   "status": "proved",
   "theorems": [
    "C80_distinct"
   ],
   "note": "Any bus."
  },
  {
   "property": "C81",
   "status": "proved",
   "theorems": [
    "C81_connack"
   ],
   "note": "The handshake: C82_tls_history."
  },
  {
   "property": "C82",
   "status": "proved",
   "theorems": [
    "C82_tls_history"
   ],
   "note": "The two results together with C54, C60 and C68."
  },
  {
   "property": "C83",
   "status": "partial",
   "theorems": [
    "C83_authentic_partial",
    "C83_others"
   ],
   "note": "For debug builds and calls before which no part of a handshake message is pending, as C54."
  },
  {
   "property": "C84",
   "status": "partial",
   "theorems": [
    "C84_no_crash_partial",
    "C84_crash_refuted"
   ],
   "note": "Release builds (the calls before may be of either build). False once application data was received on a connection: C84_crash_refuted gives an unprotected record of four bytes that makes process panic in every build after five bytes of data were received and read."
  },
  {
   "property": "C85",
   "status": "partial",
   "theorems": [
    "C85_simulates_partial",
    "C85_reset",
    "C85_transfer_partial",
    "C85_free_size_refuted",
    "C85_disconnect_refuted"
   ],
   "note": "Under the condition [alike] of Spec/Regsim.v, which lists where simulator and chip differ; C85_free_size_refuted and C85_disconnect_refuted show two of the differences."
  },
  {
   "property": "C86",
   "status": "partial",
   "theorems": [
    "C86_sends_partial",
    "C86_wrap_refuted",
    "C86_failed_refuted"
   ],
   "note": "Below the end of the 16-bit pointers and if the host does not fail. C86_wrap_refuted: the byte at address 65535 is not sent. C86_failed_refuted: after a failure in the middle a second SEND repeats bytes."
  },
  {
   "property": "C87",
   "status": "partial",
   "theorems": [
    "C87_received_partial",
    "C87_read",
    "C87_release_partial",
    "C87_release_panics",
    "C87_release_refuted",
    "C87_lost_refuted"
   ],
   "note": "What fits is kept in order. C87_lost_refuted: what does not fit is lost. C87_release_panics and C87_release_refuted: RECV panics whenever the unread data crosses the end of the 16-bit pointers."
  },
  {
   "property": "C88",
   "status": "partial",
   "theorems": [
    "C88_datagram_partial",
    "C88_torn_refuted"
   ],
   "note": "Datagrams that fit. C88_torn_refuted: otherwise the datagram is cut behind a header with the full length."
  },
  {
   "property": "C89",
   "status": "proved",
   "theorems": [
    "C89_sockets",
    "C89_common"
   ],
   "note": ""
  },
  {
   "property": "C90",
   "status": "partial",
   "theorems": [
    "C90_closed_partial",
    "C90_old_client_refuted"
   ],
   "note": "C90_old_client_refuted: the client a listener accepted survives CLOSE and is used by the next LISTEN."
  },
  {
   "property": "C91",
   "status": "proved",
   "theorems": [
    "C91_client_id"
   ],
   "note": ""
  },
  {
   "property": "C92",
   "status": "partial",
   "theorems": [
    "C92_no_crash_partial",
    "C92_crash_refuted"
   ],
   "note": "Release builds (the calls before may be of either build). False once application data, such as the CONNACK, was received: C92_crash_refuted gives an unprotected record of four bytes that makes process panic in every build (the cause is C84's). Requests never panic, within the limits for the length of a filter."
  },
  {
   "property": "C93",
   "status": "partial",
   "theorems": [
    "C93_status_partial",
    "C93_open",
    "C93_connect",
    "C93_listen",
    "C93_closed_refuted"
   ],
   "note": "C93_closed_refuted: a UDP socket opened again, which the host refuses, reports to be closed but keeps receiving and sending. A listening socket may still use the client of an earlier LISTEN (C90)."
  },
  {
   "property": "C94",
   "status": "partial",
   "theorems": [
    "C94_tcp_write_refuted",
    "C94_tcp_read_refuted",
    "C94_udp_recv_refuted",
    "C94_tcp_write_partial",
    "C94_tcp_write_again",
    "C94_tcp_read_partial",
    "C94_tcp_read_again",
    "C94_udp_recv_partial",
    "C94_udp_recv_again",
    "C94_udp_send_to_partial",
    "C94_udp_send_to_again"
   ],
   "note": "False when the pointer register was written and the command after it failed: C94_tcp_write_refuted sends data twice, C94_tcp_read_refuted and C94_udp_recv_refuted skip data. Proved: the call survives every failure, leaves one of three states, and can be repeated if the pointer register is unchanged."
  },
  {
   "property": "C95",
   "status": "partial",
   "theorems": [
    "C95_acts",
    "C95_timed",
    "C95_address_partial",
    "C95_address_refuted",
    "C95_recovers_refuted"
   ],
   "note": "Proved on any bus: what each call may do to the state (C95_acts), the running timeout (C95_timed), and that the address was offered, requested and acknowledged or is 0.0.0.0. C95_address_refuted: when the restart after a NAK fails, 0.0.0.0 is reported as a lease also after the bus works again. C95_recovers_refuted: when the RECV command that removes a packet fails, every later call fails and the ended lease is still reported."
  },
  {
   "property": "C96",
   "status": "partial",
   "theorems": [
    "C96_restart_partial",
    "C96_stuck",
    "C96_stuck_call",
    "C96_restart_refuted"
   ],
   "note": "Holds when the first waiting datagram is for someone else (C96_restart_partial). False of a datagram shorter than its transaction number, for instance an empty one, and of an ACK without a lease time: C96_stuck proves that the client then stays as it is for good, C96_restart_refuted is a concrete case."
  },
  {
   "property": "C97",
   "status": "partial",
   "theorems": [
    "C97_dns_next_partial",
    "C97_mdns_next_partial",
    "C97_dns_stuck",
    "C97_mdns_stuck",
    "C97_next_refuted"
   ],
   "note": "Holds when the first datagram is not a response to the query, or when the questions it announces are there and its names do not loop (C97_dns_next_partial, C97_mdns_next_partial). False of a response that ends within its questions: C97_dns_stuck and C97_mdns_stuck prove that it stays first for good and every later call fails, C97_next_refuted is a concrete case."
  },
  {
   "property": "C98",
   "status": "partial",
   "theorems": [
    "C98_taken_partial",
    "C98_taken_refuted"
   ],
   "note": "The response is the first waiting datagram, stays there until it is dropped, and has the number of the query (C98_taken_partial). The sender is not checked: C98_taken_refuted."
  },
  {
   "property": "C99",
   "status": "partial",
   "theorems": [
    "C99_replies_partial",
    "C99_replies_refuted"
   ],
   "note": "The replies are the usable packets of the server among the datagrams removed, each once and in order, and each successful request is one packet (C99_replies_partial). Replies are not matched with requests: C99_replies_refuted."
  },
  {
   "property": "C100",
   "status": "proved",
   "theorems": [
    "C100_no_crash",
    "C100_message"
   ],
   "note": "DHCP is left to C95 and C96. The arguments are as documented: the clock does not go back, client identifiers have at most 23 bytes, topic filters at most 65532 bytes."
  },
  {
   "property": "C101",
   "status": "proved",
   "theorems": [
    "C101_at_once"
   ],
   "note": ""
  },
  {
   "property": "C102",
   "status": "partial",
   "theorems": [
    "C102_next_partial",
    "C102_stuck",
    "C102_stuck_call",
    "C102_next_refuted"
   ],
   "note": "Proved for packets the client understands or answers by starting over. False: CONNACK outside the handshake, PUBLISH with a topic length of 16384 or more, and a packet announced longer than the receive buffer stay for good (C102_stuck, C102_next_refuted)."
  },
  {
   "property": "C103",
   "status": "proved",
   "theorems": [
    "C103_dhcp",
    "C103_sntp",
    "C103_mqtt",
    "C103_tls"
   ],
   "note": ""
  },
  {
   "property": "C104",
   "status": "proved",
   "theorems": [
    "C104_stream",
    "C104_all"
   ],
   "note": "Under the condition, stated in Spec/TlsStream.v, that process is called while one more record fits behind the unread bytes; without it C63_unread_refuted applies."
  },
  {
   "property": "C105",
   "status": "proved",
   "theorems": [
    "C105_stream",
    "C105_all",
    "C105_returns"
   ],
   "note": "Under the conditions stated in Spec/MqttStream.v: the packets have properties below 128 bytes and one reason code, as in C43 and C45, and no call finds that the connection was made or lost."
  },
  {
   "property": "C106",
   "status": "proved",
   "theorems": [
    "C106_stream",
    "C106_all",
    "C106_own_records"
   ],
   "note": "Under the conditions stated in Spec/MqttStream.v and Spec/MqttTlsStream.v: the packets have properties below 128 bytes and one reason code, no call finds that the connection was made or lost, and process is called while one more record fits (C106_own_records: automatic); without room C63_unread_refuted applies."
  },
  {
   "property": "C107",
   "status": "proved",
   "theorems": [
    "C107_offer",
    "C107_ack",
    "C107_nak",
    "C107_init",
    "C107_bound",
    "C107_caught_up"
   ],
   "note": "For calls that return, with a bus that does not fail. The exceptions are in the statements: no room for the REQUEST (OutOfMemory), an ACK that lacks lease time, subnet mask or server stops the call (see C95), and a packet at the head that is not for this client is not removed (C37)."
  },
  {
   "property": "C108",
   "status": "proved",
   "theorems": [
    "C108_client_hello",
    "C108_server_hello",
    "C108_extensions",
    "C108_finished"
   ],
   "note": "One theorem per step; the post-condition of each is the hypothesis of the next, and that of the last is what C104 asks of a connection. The ClientHello step assumes no chip event on this socket during the call (the server cannot answer before it); the other steps allow any. Each server message is assumed to come in its own record (C56 covers fragments in the buffer). The primitives of sha2, hkdf, hmac and p256 are abstract."
  },
  {
   "property": "C109",
   "status": "proved",
   "theorems": [
    "C109_handshake",
    "C109_all",
    "C109_session",
    "C109_connection",
    "C109_from_start"
   ],
   "note": "By induction over the calls, from one lemma for a call that finds any part of the next record. Calls are made within ten seconds of the last progress (after that the client gives up) and bus accesses do not fail. One record for each message and no change_cipher_spec record between them (C71 covers those). C109_connection starts at the connected interrupt: it adds the call that sends the ClientHello (the socket is quiet during that call, as in C108) to the whole session; C109_from_start puts the first call (C103_tls) in front, after which the chip makes the connection."
  },
  {
   "property": "C110",
   "status": "proved",
   "theorems": [
    "C110_connect",
    "C110_connect_all",
    "C110_connack",
    "C110_session",
    "C110_connection",
    "C110_from_start"
   ],
   "note": "Any number of calls of process of the MQTT client over TLS from the ClientHello on; C110_connect and C110_connect_all go to CONNECT, C110_connack from there to CONNACK, C110_session joins them and C106; C110_connection starts at the connected interrupt (the socket is quiet during the call that sends the ClientHello) and C110_from_start at the first call (C103). Clock within the two time limits, no connect or disconnect interrupt in between, room for the next record while data are received, properties of CONNACK below 125 bytes."
  },
  {
   "property": "C111",
   "status": "proved",
   "theorems": [
    "C111_delay",
    "C111_tls",
    "C111_mqtt"
   ],
   "note": "C111_delay holds in every state, with any bus content. C111_tls and C111_mqtt show that calls made as asked are calls of C109 and C110, under the hypotheses of these, and repeat that no answer is an error. The time limit of the client is ten seconds without progress; a server that does not answer in that time cannot be met by such calls."
  },
  {
   "property": "C112",
   "status": "proved",
   "theorems": [
    "C112_connack",
    "C112_arrived",
    "C112_returns",
    "C112_session",
    "C112_from_start"
   ],
   "note": "Polls of the plain client from the connected interrupt on. No connect or disconnect interrupt and no bus failure in between; properties of CONNACK below 125 bytes (above that C45_connack_refuted); CONNECT fits the free space (otherwise C42_connect). C112_session joins C42_connect, C112_connack and C105; C112_from_start puts the first call (C103_mqtt) in front, after which the chip establishes the connection without a further call in between."
  }
 ]
}