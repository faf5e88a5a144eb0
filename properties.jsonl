{"id": "C01", "title": "Fixed-length and variable-length SPI access agree", "statement": "Reading or writing n bytes at (address, block) through the fixed-data-length driver (chunks of 4, then 2, then 1 with wrapping address) returns the same bytes and leaves the chip memory in the same state as one variable-length transaction, including runs that wrap past 0xFFFF.", "quantifier": "every start address, every block, every length, every memory content, every data", "why_tests_cant": "The chunk loop behaves differently for every length mod 4 and every wrap position; tests cover a handful of lengths.", "anchors": ["ll/src/eh1/fdm.rs: W5500::read, W5500::write", "ll/src/eh1/vdm.rs: W5500::read, W5500::write", "ll/src/spi.rs: vdm_header, fdm_header_1b, fdm_header_2b, fdm_header_4b"]}
{"id": "C02", "title": "SPI headers identify address, block, direction and length unambiguously", "statement": "From the three header bytes the chip recovers exactly the 16-bit address, the 5-bit block, the read/write direction and the data-length mode that the driver asked for; the register, TX and RX blocks of the eight sockets and the common block are pairwise distinct 5-bit numbers.", "quantifier": "every 16-bit address, every block below 32, both directions, all four length modes, all sockets", "why_tests_cant": "A 2^22-element input space; a shift or mask mistake only shows for particular blocks or addresses.", "anchors": ["ll/src/spi.rs: vdm_header, fdm_header_*", "ll/src/lib.rs: Sn::block, Sn::tx_block, Sn::rx_block"]}
{"id": "C03", "title": "Register accessors read back what was written and touch nothing else", "statement": "For every read/write register, a successful set followed by the matching get returns the value that was set, the set changes no byte of any other register, of any other socket or of any socket buffer, and a get changes nothing.", "quantifier": "every read/write register accessor, every socket, every value, every prior register file", "why_tests_cant": "The isolation claim quantifies over all pairs of registers, all sockets and all prior contents.", "anchors": ["ll/src/lib.rs: Registers (all accessors)", "ll/src/addr.rs: Reg, SnReg"]}
{"id": "C04", "title": "Register-address conversion is a bijection", "statement": "Converting a register name to its address and back yields the same register; addresses that name no register are rejected.", "quantifier": "every register of Reg and SnReg, every u16", "why_tests_cant": "Tests would have to enumerate every u16; the existing code has no such test.", "anchors": ["ll/src/addr.rs: Reg::try_from, Reg::addr, SnReg::try_from, SnReg::addr"]}
{"id": "C05", "title": "Bit-field setters change only their own field and getters read it back", "statement": "On Mode, Interrupt, PhyCfg, SocketMode, SocketInterrupt and SocketInterruptMask every setter/mask/clear operation changes exactly the documented bits, the corresponding getter then reports the value set, every other getter is unaffected, and From<u8>/Into<u8> are mutually inverse.", "quantifier": "every register byte, every field, every field value, every sequence of setter calls", "why_tests_cant": "Independence of fields is a property of all 256 prior values for all pairs of setters and of arbitrary sequences of them.", "anchors": ["ll/src/registers.rs: Mode, Interrupt, PhyCfg, SocketMode, SocketInterrupt, SocketInterruptMask"]}
{"id": "C06", "title": "Specifier enums convert to and from their raw encodings without loss", "statement": "For SocketStatus, SocketCommand, Protocol, BufferSize, Link/Speed/Duplex status and Sn, raw-to-enum then enum-to-raw is the identity on every accepted raw value, every enum value is accepted, and every other raw value is rejected with that value as the error; BufferSize in bytes is 1024 times its KiB encoding.", "quantifier": "every raw byte and every enum value", "why_tests_cant": "Exhaustive in both directions; tests list a few values.", "anchors": ["ll/src/specifiers.rs", "ll/src/lib.rs: Sn::try_from, Sn::bitmask, SOCKETS"]}
{"id": "C07", "title": "A stream cursor never leaves its window and position accounting is exact", "statement": "After any sequence of seek (start, end, current), rewind and data operations on a TCP or UDP reader or writer, position + remaining = length, the position lies in [0, length]; a successful seek lands exactly where std::io semantics say, and a seek outside the window fails with UnexpectedEof and leaves the position unchanged.", "quantifier": "every pointer value (including wrap at 2^16), every window length, every i16/u16 offset, every operation sequence", "why_tests_cant": "The arithmetic is modulo 2^16 with i16 clamping; corner cases depend on the absolute pointer values.", "anchors": ["hl/src/io.rs: SeekFrom::new_ptr, Seek", "hl/src/tcp.rs: TcpReader, TcpWriter", "hl/src/udp.rs: UdpReader, UdpWriter"]}
{"id": "C08", "title": "A TCP reader delivers exactly the stream bytes at its position and consumes nothing before done", "statement": "Bytes returned by read/read_exact are the bytes of the received stream at the reader's position; read returns min(remaining, buffer) bytes; read_exact either fills the buffer or fails with UnexpectedEof without moving; nothing is removed from the socket before done, and done removes exactly the bytes before the current position.", "quantifier": "every received stream, every ring-buffer alignment, every sequence of reader operations, every arrival of further data between any two bus transactions", "why_tests_cant": "Depends on ring alignment, on the operation history and on when new data arrives.", "anchors": ["hl/src/tcp.rs: Tcp::tcp_reader, TcpReader::read, read_exact, done, seek"]}
{"id": "C09", "title": "Repeated tcp_read delivers the received stream with no loss, duplication or reordering", "statement": "The concatenation of the data returned by successive tcp_read calls is a prefix of the byte stream the peer sent, in order, whatever the caller's buffer sizes; Ok(0) is returned only for an empty buffer or when no received byte is available, and then nothing changes.", "quantifier": "every peer stream, every segmentation and arrival schedule between bus transactions, every sequence of buffer sizes", "why_tests_cant": "An unbounded history property over all interleavings of arrivals and calls.", "anchors": ["hl/src/tcp.rs: Tcp::tcp_read"]}
{"id": "C10", "title": "Repeated TCP writes transmit exactly the accepted bytes in order", "statement": "The bytes handed to the network by successive tcp_write calls, and by writer sessions ending in send, are the concatenation of the accepted prefixes in call order; the number reported equals the number transmitted; no write overwrites bytes that are queued but not yet sent.", "quantifier": "every data, every sequence of calls, every transmit-buffer alignment and free space, every completion schedule", "why_tests_cant": "Unbounded history over all interleavings with transmit completions.", "anchors": ["hl/src/tcp.rs: Tcp::tcp_write, Tcp::tcp_writer, TcpWriter::write, write_all, send"]}
{"id": "C11", "title": "write_all is all or nothing", "statement": "write_all on a TCP or UDP writer either accepts the whole buffer or fails with OutOfMemory and leaves the stream position unchanged, and nothing is transmitted by a writer that is dropped without send.", "quantifier": "every writer state, every buffer of at most 65535 bytes", "why_tests_cant": "Quantifies over all free-space values and all positions.", "anchors": ["hl/src/tcp.rs: TcpWriter::write_all", "hl/src/udp.rs: UdpWriter::write_all"]}
{"id": "C12", "title": "udp_recv_from delivers datagrams whole, in order, one per call", "statement": "Each successful udp_recv_from returns the sender address of the oldest unread datagram and its first min(len, buffer) bytes, discards the rest of that datagram, and leaves later datagrams intact; successive calls therefore return successive datagrams, in arrival order.", "quantifier": "every sequence of datagrams, every buffer size including zero, every ring alignment, every arrival schedule between bus transactions", "why_tests_cant": "Unbounded history over all interleavings; off-by-eight errors only show on the second datagram.", "anchors": ["hl/src/udp.rs: Udp::udp_recv_from, UdpHeader::deser"]}
{"id": "C13", "title": "Peeking a datagram has no effect on the socket", "statement": "udp_peek_from and udp_peek_from_header return the header and leading bytes of the oldest unread datagram and leave every register and buffer byte unchanged, so a later udp_recv_from sees the same datagram.", "quantifier": "every socket state and buffer size, every arrival schedule", "why_tests_cant": "Absence of any effect over all states.", "anchors": ["hl/src/udp.rs: Udp::udp_peek_from, Udp::udp_peek_from_header"]}
{"id": "C14", "title": "udp_send_to transmits exactly one datagram with the requested destination", "statement": "A successful udp_send_to that returns n > 0 puts exactly one datagram on the wire, addressed to the given address and port, whose payload is the first n bytes of the data; n is at least min(len, 65535, free space at the call); when it returns 0 no datagram is sent.", "quantifier": "every data, destination, free space and transmit-buffer alignment, every schedule", "why_tests_cant": "Quantifies over ring alignments, free space and data.", "anchors": ["hl/src/udp.rs: Udp::udp_send_to, Udp::udp_send"]}
{"id": "C15", "title": "udp_send_if_free reports what it transmitted", "statement": "udp_send_if_free and udp_send_to_if_free either transmit the whole buffer as one datagram and return its length, or transmit nothing and return 0.", "quantifier": "every data, every free space", "why_tests_cant": "The failing case is one branch of one comparison over all lengths and free spaces.", "anchors": ["hl/src/udp.rs: Udp::udp_send_if_free, Udp::udp_send_to_if_free"]}
{"id": "C16", "title": "A UDP reader cannot read past its datagram and done discards exactly that datagram", "statement": "However many reads and seeks are performed on a UdpReader, only payload bytes of the current datagram are returned; after done the next unread datagram is the one that followed, even if part or none of the payload was read.", "quantifier": "every datagram queue, every operation sequence, every ring alignment", "why_tests_cant": "Unbounded operation sequences over all alignments.", "anchors": ["hl/src/udp.rs: Udp::udp_reader, UdpReader::read, read_exact, seek, done"]}
{"id": "C17", "title": "A UDP writer session transmits exactly what was written", "statement": "Opening a udp_writer, writing data (write/write_all/seek) and calling send or send_to transmits one datagram whose payload is the content of the window up to the final position, to the previously set or the given destination respectively.", "quantifier": "every write sequence, every alignment, every schedule", "why_tests_cant": "Unbounded operation sequences with overwriting seeks.", "anchors": ["hl/src/udp.rs: Udp::udp_writer, UdpWriter::write, write_all, send, udp_send_to"]}
{"id": "C18", "title": "In debug builds two open sockets never get the same local port", "statement": "In a debug build udp_bind, tcp_connect and tcp_listen refuse (by panic) a port that another socket has open, and when they return normally, no other socket that is open for new traffic has the same local port.", "quantifier": "every register content of all eight sockets, every socket, every port", "why_tests_cant": "Quantifies over all 8-socket register files.", "anchors": ["hl/src/lib.rs: port_is_unique", "hl/src/udp.rs: udp_bind", "hl/src/tcp.rs: tcp_connect, tcp_listen"]}
{"id": "C19", "title": "Opening a socket leaves it configured as requested and never half-open", "statement": "When udp_bind, tcp_listen or tcp_connect returns Ok, the socket's mode, port (and destination) registers hold the requested values and the open (listen, connect) command was issued last; the previous session was closed and observed closed before reconfiguration.", "quantifier": "every initial chip state, every schedule of status changes", "why_tests_cant": "The polling loops are unbounded and depend on the chip's schedule.", "anchors": ["hl/src/udp.rs: udp_bind", "hl/src/tcp.rs: tcp_connect, tcp_listen"]}
{"id": "C20", "title": "Bus faults are reported and never turn into wrong data", "statement": "If any bus transaction fails during a TCP or UDP operation, the operation returns the bus error; no operation of a release build panics because of a bus fault or because of any register content (a debug build panics only in its documented assertions), and no transmit command is issued after a failed transaction.", "quantifier": "every operation, every fault position, every response of the bus", "why_tests_cant": "Fault positions times bus contents is unbounded.", "anchors": ["hl/src/tcp.rs", "hl/src/udp.rs", "hl/src/lib.rs: Common"]}
{"id": "C21", "title": "Operations on one socket do not affect the others", "statement": "Every TCP/UDP operation on a socket writes only registers and buffers of that socket: registers, buffers, queued and transmitted data of the other seven sockets and the common registers are unchanged by it.", "quantifier": "every operation, every chip state, every pair of distinct sockets", "why_tests_cant": "Frame property over all states and sockets.", "anchors": ["hl/src/tcp.rs", "hl/src/udp.rs", "hl/src/lib.rs: Common"]}
{"id": "C22", "title": "Hostname validation is exactly the documented rule, in both constructors", "statement": "Hostname::new and TryFrom<&str> accept a string if and only if it is 1 to 253 bytes long, contains only ASCII letters, digits, '-' and '.', and every dot-separated label has 1 to 63 bytes and neither starts nor ends with '-'; the two constructors always agree.", "quantifier": "every byte string", "why_tests_cant": "Infinite input space; the two implementations are written completely differently.", "anchors": ["hl/src/hostname.rs: Hostname::new, TryFrom<&str>"]}
{"id": "C23", "title": "Hostname labels and length are faithful", "statement": "For a valid hostname, the labels joined with '.' give back the hostname, every label is 1 to 63 bytes, and len() equals the number of bytes without truncation.", "quantifier": "every valid hostname", "why_tests_cant": "Infinite input space.", "anchors": ["hl/src/hostname.rs: Hostname::labels, Hostname::len"]}
{"id": "C24", "title": "DNS questions encode the hostname so that a standard decoder recovers it", "statement": "A question written for a hostname decodes, by the RFC 1035 name rules, to exactly that hostname's labels, followed by the requested type and class in network order; the message header carries the requested id, and a question count equal to the number of questions written.", "quantifier": "every valid hostname, query type, class, id, every list of questions", "why_tests_cant": "Infinite set of names and question lists.", "anchors": ["dns/src/lib.rs: Query::question, Query::send, Client::a_question", "dns/src/header.rs", "dns/src/mdns.rs"]}
{"id": "C25", "title": "DNS names in responses decode according to RFC 1035, compression included", "statement": "If the bytes at the current position encode a name by RFC 1035 (labels, optionally ending in a compression pointer, pointers possibly chained) that is not the very end of the message (in DNS messages a type follows every name), reading it yields the dot-joined labels and leaves the position just after the name's first encoding; if the caller's buffer is too small the name is reported as absent but the position is still right.", "quantifier": "every message, every well-formed compressed name, every buffer size", "why_tests_cant": "Unbounded label counts and pointer chains.", "anchors": ["dns/src/lib.rs: read_labels"]}
{"id": "C26", "title": "Parsing a DNS response terminates on every datagram", "statement": "For every received datagram, reading names and records terminates without panicking.", "quantifier": "every byte string received from the network", "why_tests_cant": "An adversarial byte string is needed to show non-termination; random tests do not produce pointer cycles.", "anchors": ["dns/src/lib.rs: read_labels, Response::next_rr"]}
{"id": "C27", "title": "DNS record iteration returns the records of the message in order", "statement": "For a well-formed response, successive next_rr calls return name, type, class, TTL and, for A records, the address of the successive answer records, and None after the last one; skipping unknown record types does not desynchronise the parser.", "quantifier": "every well-formed response with any number of records", "why_tests_cant": "Unbounded record lists.", "anchors": ["dns/src/lib.rs: Response::next_rr, rr_count, Client::response"]}
{"id": "C28", "title": "DNS class values are classified correctly", "statement": "A resource-record class is reported as IN (CH, HS, ...) exactly when its value, ignoring the mDNS cache-flush bit, is the assigned number, and unknown values are reported unchanged.", "quantifier": "every u16 class value", "why_tests_cant": "65536 values; the defect is only visible for values with bits 7..14 set.", "anchors": ["dns/src/qclass.rs: TryFrom<u16>"]}
{"id": "C29", "title": "DHCP messages sent are well-formed RFC 2131 messages", "statement": "Every DISCOVER and REQUEST sent is a BOOTP request with the client's transaction id, hardware address and flags, zero-filled name fields, the magic cookie, and an option list which parses back to the requested message type, client id, hostname and parameter list and ends with the End option.", "quantifier": "every client configuration, xid, hardware address, hostname, addresses, elapsed time", "why_tests_cant": "All field values; offsets are computed by hand in the code.", "anchors": ["dhcp/src/pkt.rs: PktSer, dhcp_discover, dhcp_request, send_dhcp_discover, send_dhcp_request"]}
{"id": "C30", "title": "DHCP option lookup is independent of lookup order (the cache is transparent)", "statement": "Looking up an option in a received packet returns what a fresh linear scan of the option area from its start would return, whatever options were looked up before and in whatever order.", "quantifier": "every packet, every sequence of lookups", "why_tests_cant": "Histories of lookups times packets; the cache only matters from the second lookup on.", "anchors": ["dhcp/src/pkt.rs: PktDe::seek_to_option, find_option_fixed_size"]}
{"id": "C31", "title": "DHCP parsing terminates and cannot panic on any packet", "statement": "For every received datagram, the packet accessors terminate without panicking and without reading past the datagram.", "quantifier": "every byte string received from the network", "why_tests_cant": "Adversarial inputs.", "anchors": ["dhcp/src/pkt.rs: PktDe"]}
{"id": "C32", "title": "DHCP options of a well-formed reply are decoded exactly", "statement": "In a well-formed option area (TLV with pads, End-terminated), each accessor (message type, lease time, renewal, rebinding, subnet mask, DNS, NTP, server id) returns the value of the first option with that code, or None if there is none.", "quantifier": "every well-formed option list", "why_tests_cant": "Unbounded option lists in any order.", "anchors": ["dhcp/src/pkt.rs: PktDe::msg_type, lease_time, renewal_time, rebinding_time, subnet_mask, dhcp_server, dns, ntp"]}
{"id": "C33", "title": "The DHCP client only adopts a lease acknowledged for its own transaction", "statement": "The client becomes Bound, and writes its IP configuration to the chip, only on processing a BOOTP reply that carries its current transaction id and message type ACK, while requesting, renewing or rebinding; a NAK or timeout never installs an address.", "quantifier": "every history of packets, interrupts and clock values", "why_tests_cant": "Arbitrary histories of events.", "anchors": ["dhcp/src/lib.rs: Client::process"]}
{"id": "C34", "title": "DHCP state changes follow RFC 2131", "statement": "Every call to process moves the client only along the edges of the RFC 2131 client state graph implemented here (Init→Selecting→Requesting→Bound→Renewing→Rebinding and back to Init), for every input.", "quantifier": "every state, packet, interrupt and clock value", "why_tests_cant": "State × packet × time space is unbounded.", "anchors": ["dhcp/src/lib.rs: Client::process, request, discover"]}
{"id": "C35", "title": "DHCP renewal times are ordered", "statement": "After an ACK, renewal time T1 ≤ rebinding time T2 ≤ lease duration.", "quantifier": "every lease/renewal/rebinding option combination the server can send", "why_tests_cant": "Arithmetic over all u32 values, including the infinite lease.", "anchors": ["dhcp/src/lib.rs: Client::process"]}
{"id": "C36", "title": "The DHCP client never waits past its next deadline", "statement": "The delay returned by process, if followed, calls the client again no later than the pending timeout (in selecting/requesting), T1, T2 or lease end, and time arithmetic never underflows when the clock does not go backwards.", "quantifier": "every state and every pair of clock values", "why_tests_cant": "All clock values.", "anchors": ["dhcp/src/lib.rs: Client::process, next_call, timeout_elapsed_secs"]}
{"id": "C37", "title": "A bad datagram cannot block the DHCP client", "statement": "After a malformed, foreign or unsolicited datagram has been processed it is removed from the socket, so that a following valid reply is seen by a later call.", "quantifier": "every datagram", "why_tests_cant": "Needs a history of two datagrams with an adversarial first one.", "anchors": ["dhcp/src/lib.rs: Client::process (recv)"]}
{"id": "C38", "title": "SNTP requests are well-formed and replies are decoded exactly", "statement": "The request is a 48-byte NTPv4 client packet; a received 48-byte server reply is decoded field by field (leap, version, stratum, poll, precision, root delay and dispersion, reference id, four timestamps) with no field taken from another's bytes; anything that is not from the configured server, or is not an acceptable server reply, is not reported as a reply.", "quantifier": "every 48-byte reply, every source address, every transmit timestamp", "why_tests_cant": "All 2^384 packets.", "anchors": ["sntp/src/lib.rs: Client::request, on_recv_interrupt"]}
{"id": "C39", "title": "SNTP timestamps and fixed-point values convert exactly", "statement": "Seconds/fraction fields convert to the values defined by RFC 4330: a timestamp keeps its 64 bits, nanoseconds are below 10^9 and within 1 ns of the fraction, and 16.16 fixed-point values equal raw / 65536.", "quantifier": "every u32/u64 raw value", "why_tests_cant": "All raw values.", "anchors": ["sntp/src/timestamp.rs", "sntp/src/fixed_point.rs"]}
{"id": "C40", "title": "A bad datagram cannot block the SNTP client", "statement": "After on_recv_interrupt has seen a datagram which is not a usable reply, that datagram is removed and a following valid reply is decoded by a later call.", "quantifier": "every datagram", "why_tests_cant": "History of two datagrams with adversarial first one.", "anchors": ["sntp/src/lib.rs: on_recv_interrupt"]}
{"id": "C41", "title": "MQTT variable byte integers round-trip", "statement": "Every integer up to 268,435,455 encodes to 1–4 bytes, minimal length, and decoding the encoding followed by any bytes gives the integer and the number of bytes used; truncated encodings are reported as incomplete and over-long ones as malformed.", "quantifier": "every integer below 2^28, every trailing data, every byte string", "why_tests_cant": "2^28 integers times arbitrary suffixes.", "anchors": ["mqtt/src/data.rs: encode_variable_byte_integer, decode_variable_byte_integer"]}
{"id": "C42", "title": "MQTT packets sent are well-formed and carry exactly the caller's data", "statement": "CONNECT, PUBLISH, SUBSCRIBE and UNSUBSCRIBE packets put on the wire parse, by an independent MQTT 5 grammar, to exactly the client id, keep-alive, topic, payload, filters, options and packet id requested, and the remaining-length field equals the number of bytes that follow; on error nothing is transmitted.", "quantifier": "every topic, payload, filter list, client id and free space", "why_tests_cant": "Unbounded data; remaining length changes width at 128, 16384, ...", "anchors": ["mqtt/src/publish.rs: send_publish", "mqtt/src/connect.rs: send_connect", "mqtt/src/subscribe.rs: send_subscribe, send_unsubscribe"]}
{"id": "C43", "title": "A received PUBLISH is delivered exactly and consumed exactly", "statement": "For a QoS-0 PUBLISH packet in the receive buffer, the reader returns exactly its topic and payload, and done removes exactly that packet from the stream, leaving following packets intact.", "quantifier": "every topic, property block and payload, every following data", "why_tests_cant": "Unbounded data and positions.", "anchors": ["mqtt/src/recv.rs: recv", "mqtt/src/publish.rs: PublishReader"]}
{"id": "C44", "title": "An incomplete MQTT packet produces no event and consumes nothing", "statement": "While only a proper prefix of a packet no longer than the announced maximum packet size has been received, process reports no packet event, and leaves the received bytes in place, so that the packet is handled once complete.", "quantifier": "every packet and every proper prefix of it", "why_tests_cant": "All split points of all packets.", "anchors": ["mqtt/src/recv.rs: recv", "mqtt/src/fixed_header.rs: FixedHeader::deser"]}
{"id": "C45", "title": "MQTT acknowledgements are decoded exactly and consumed exactly", "statement": "CONNACK, SUBACK and UNSUBACK packets are reported with the packet id and reason code they carry and exactly their bytes are consumed.", "quantifier": "every acknowledgement packet including properties of any legal length and several reason codes", "why_tests_cant": "Unbounded property lengths and reason-code lists.", "anchors": ["mqtt/src/recv.rs: recv"]}
{"id": "C46", "title": "MQTT packet identifiers are never zero and do not repeat early", "statement": "Successive packet identifiers are non-zero and any 65535 consecutive ones are pairwise distinct.", "quantifier": "every starting identifier, every number of requests", "why_tests_cant": "The wrap is only visible after 65535 requests.", "anchors": ["mqtt/src/lib.rs: Client::next_pkt_id"]}
{"id": "C47", "title": "MQTT operations require a completed handshake", "statement": "publish, subscribe and unsubscribe transmit something only after a successful CONNACK on the current connection; otherwise they return NotConnected and transmit nothing.", "quantifier": "every history of process/publish/subscribe calls, packets, interrupts and faults", "why_tests_cant": "Arbitrary histories.", "anchors": ["mqtt/src/lib.rs: Client::process, publish, subscribe, unsubscribe"]}
{"id": "C48", "title": "MQTT and TLS state timeouts fire and are bounded", "statement": "In every waiting state the time until the next requested call never exceeds the timeout, and once more than the timeout has elapsed since entering the state, process reports StateTimeout and leaves the state.", "quantifier": "every state and every non-decreasing clock sequence", "why_tests_cant": "All clock sequences.", "anchors": ["mqtt/src/lib.rs: StateTimeout, Client::process", "tls/src/lib.rs: Client::process"]}
{"id": "C49", "title": "TLS records written through a writer never reuse a nonce", "statement": "Under one traffic key, every record sent uses a nonce that no earlier record under that key used, so every record can be decrypted by the peer in sequence.", "quantifier": "every sequence of writer and write_all calls", "why_tests_cant": "Histories of at least two records; a unit test of one record cannot see it.", "anchors": ["tls/src/key_schedule.rs: client_key_and_nonce, increment_write_record_sequence_number", "tls/src/io.rs: TlsWriter::send", "tls/src/lib.rs: send_encrypted_record, Client::write_all"]}
{"id": "C50", "title": "AES-128 is the FIPS-197 cipher", "statement": "The block cipher used for records equals the FIPS-197 definition (S-box as GF(2^8) inverse plus affine map, MixColumns as GF(2^8) polynomial multiplication, key expansion) for every key and block.", "quantifier": "every 128-bit key and block", "why_tests_cant": "2^256 inputs.", "anchors": ["tls/src/crypto/aes/cipher.rs: Aes128"]}
{"id": "C51", "title": "GHASH multiplication is multiplication in GF(2^128)", "statement": "The bit-sliced Karatsuba multiplication used for GHASH equals the SP 800-38D block multiplication for all pairs of blocks, and updating/finalising computes the GHASH of the concatenated blocks.", "quantifier": "every pair of 128-bit blocks, every sequence of blocks", "why_tests_cant": "2^256 pairs; a carry error would only show on rare operands.", "anchors": ["tls/src/crypto/aes/ghash.rs: GHash, bmul32, rev32, U32x4::mul"]}
{"id": "C52", "title": "Record protection is AES-GCM", "statement": "Encrypting a record block by block and finishing yields the ciphertext and tag of the SP 800-38D authenticated encryption with the record header as additional data, for every length below the counter limit; decryption inverts encryption and recomputes the same tag.", "quantifier": "every key, nonce, header, plaintext length", "why_tests_cant": "All lengths (block remainder) and all contents.", "anchors": ["tls/src/crypto/aes/gcm.rs: Aes128Gcm", "tls/src/crypto/record.rs: encrypt_record_inplace, decrypt_record_inplace"]}
{"id": "C53", "title": "What a TLS writer puts on the wire is one valid record of the written data", "statement": "Sending through a TlsWriter or Client::write_all transmits exactly one TLSCiphertext: header type 23, version 0x0303, length = data + 1 + 16, then the AES-GCM encryption of the data followed by content type 23, then the tag, whatever the alignment in the transmit buffer.", "quantifier": "every data length and content, every transmit-buffer alignment", "why_tests_cant": "In-place encryption over a ring buffer; all alignments and remainders.", "anchors": ["tls/src/crypto/record.rs: encrypt_record_inplace", "tls/src/io.rs: TlsWriter", "tls/src/lib.rs: send_encrypted_record, Client::writer"]}
{"id": "C54", "title": "Unauthenticated data is never delivered to the application", "statement": "Bytes become readable through Client::reader only after the authentication tag of the record which carried them has been verified.", "quantifier": "every received byte stream, every history of calls", "why_tests_cant": "Adversarial input histories.", "anchors": ["tls/src/crypto/record.rs: decrypt_record_inplace", "tls/src/lib.rs: Client::recv", "tls/src/io.rs: Buffer::app_data_reader"]}
{"id": "C55", "title": "The TLS receive buffer behaves as a queue", "statement": "The circular receive buffer accepts data exactly when it fits, never overwrites unread data, and the application reader returns the accepted application data in order, for any history of appends, pops and reads, including wrap-around.", "quantifier": "every buffer size, every history of operations", "why_tests_cant": "Wrap-around needs particular histories.", "anchors": ["tls/src/io.rs: Buffer, CircleReader, TlsReader"]}
{"id": "C56", "title": "TLS handshake messages are extracted correctly however they are packed", "statement": "Handshake messages are processed one by one with their own header and body, whether they arrive one per record, fragmented over records, or several in one record, and regardless of unread application data.", "quantifier": "every sequence of handshake messages and every division into records", "why_tests_cant": "All packings of all messages.", "anchors": ["tls/src/io.rs: Buffer::pop_handshake_record", "tls/src/lib.rs: recv_handshake"]}
{"id": "C57", "title": "ServerHello acceptance implies the negotiated parameters are the ones supported", "statement": "recv_server_hello terminates without panic on every message and returns a key only if version is TLS 1.2/1.3 as required, session id empty, cipher suite TLS_AES_128_GCM_SHA256, no compression, exactly one secp256r1 key share, supported_versions = 1.3 and pre_shared_key identity 0 are present; the key is the one in the key share.", "quantifier": "every byte string", "why_tests_cant": "Adversarial input space.", "anchors": ["tls/src/handshake/server_hello.rs: recv_server_hello"]}
{"id": "C58", "title": "EncryptedExtensions parsing is total", "statement": "recv_encrypted_extensions terminates without panic on every message and accepts only messages made of permitted extensions whose lengths add up.", "quantifier": "every byte string", "why_tests_cant": "Adversarial input space.", "anchors": ["tls/src/handshake/encrypted_extensions.rs"]}
{"id": "C59", "title": "ClientHello is well-formed for every hostname and identity", "statement": "The ClientHello record has consistent record, handshake, extension-block and per-extension lengths, contains the random, hostname, public key, record-size limit and identity given, has the PSK extension last, and its binder covers exactly the transcript up to the binders list; serialisation panics only if it does not fit the buffer or a 16-bit length overflows.", "quantifier": "every hostname, identity, PSK, random, key", "why_tests_cant": "All variable-length fields.", "anchors": ["tls/src/handshake/client_hello.rs: ser"]}
{"id": "C60", "title": "The TLS client is connected only after the server proved knowledge of the keys", "statement": "connected() becomes true only after a ServerHello, EncryptedExtensions and a Finished whose verify data matched have been processed in this order on the current connection; application data is only sent or delivered in that state.", "quantifier": "every history of records, interrupts, faults and clock values", "why_tests_cant": "Arbitrary adversarial histories.", "anchors": ["tls/src/lib.rs: Client::process, recv_handshake, send_client_finished, connected"]}
{"id": "C61", "title": "TLS alerts sent by the server are reported as such", "statement": "An alert record from the server, protected or not, is reported as Error::Server with its level and description.", "quantifier": "every alert, in every state", "why_tests_cant": "Protected alerts have a different record length; needs keys.", "anchors": ["tls/src/lib.rs: recv_alert"]}
{"id": "C62", "title": "TLS disconnect reporting distinguishes expected from unexpected", "statement": "A TCP disconnect that the client itself initiated is reported as Event::Disconnect and returns the client to Reset; any other disconnect is reported as unexpected.", "quantifier": "every state", "why_tests_cant": "Depends on the state in which the interrupt is seen.", "anchors": ["tls/src/lib.rs: Client::process"]}
{"id": "C63", "title": "The TLS client accepts every record within the limit it advertises", "statement": "Any record whose plaintext is within the record_size_limit offered in the ClientHello is accepted, any longer record is rejected with record_overflow.", "quantifier": "every record length, every buffer size", "why_tests_cant": "All lengths around the limit for all buffer sizes.", "anchors": ["tls/src/lib.rs: RECORD_SIZE_LIMIT, recv_header"]}
{"id": "C64", "title": "TLS key updates follow RFC 8446", "statement": "After a KeyUpdate the new traffic secrets are derived from the old secret of the same direction, client and server keys stay different, and the first record under the new key is expected with sequence number 0.", "quantifier": "every connection state", "why_tests_cant": "Marked untested in the source.", "anchors": ["tls/src/key_schedule.rs: update_traffic_secret", "tls/src/lib.rs: recv_handshake, recv"]}
{"id": "C65", "title": "Only responses to the client's own query are taken", "statement": "Client::response with the id of a query takes a datagram as the response only if it has a complete header, the response flag and that id; any other datagram is removed from the socket, nothing else is lost, and the call reports WouldBlock.", "quantifier": "every datagram, every id, every queue of datagrams behind it", "why_tests_cant": "Adversarial datagrams; the state of the socket afterwards depends on what else has arrived.", "anchors": ["dns/src/lib.rs: Client::response"]}
{"id": "C66", "title": "mDNS queries are multicast as the standard asks", "statement": "An mDNS question leaves as one datagram to 224.0.0.251 port 5353 from a socket opened in multicast mode with the multicast MAC address and TTL 255, with id 0, and decodes to the question asked; if there is no room nothing is sent.", "quantifier": "every hostname, every previous state of the socket, every interleaving with the network", "why_tests_cant": "All previous socket states and event interleavings.", "anchors": ["dns/src/mdns.rs: Client::query, a_question, ptr_question"]}
{"id": "C67", "title": "No server can crash or confuse the MQTT client's stream", "statement": "Whatever bytes the server sends, in whatever pieces, process and the reads of a publish event never panic or hang; bytes are only ever removed from the front of the received stream and nothing but a complete CONNECT packet is ever put on the sent stream by process.", "quantifier": "every received byte sequence, every interleaving with the network, every sequence of reads", "why_tests_cant": "Adversarial byte streams and arrival times.", "anchors": ["mqtt/src/recv.rs: recv", "mqtt/src/lib.rs: Client::process", "mqtt/src/publish.rs: PublishReader"]}
{"id": "C68", "title": "The TLS key schedule is that of RFC 8446 in every state", "statement": "In every state of the client the traffic secrets it uses are those RFC 8446 section 7.1 derives from the pre-shared key, the key exchange and the messages exchanged so far, each handshake message was one the state allows, and a client that starts a connection has no secret or transcript of an earlier one.", "quantifier": "every history of calls, every bus behaviour, every server", "why_tests_cant": "Quantifies over all message histories and failures; tests use one recorded handshake.", "anchors": ["tls/src/key_schedule.rs: KeySchedule", "tls/src/lib.rs: Client"]}
{"id": "C69", "title": "TLS application data is delivered completely and in order", "statement": "When a protected record with the expected number arrives at a connected client with room for it, the next call of process reports ApplicationData, all its bytes and only they become readable behind those that already are, exactly the record is taken from the TCP stream, and the next record number is expected; a record that fails authentication ends the connection with bad_record_mac and nothing of it becomes readable.", "quantifier": "every record, every buffer position, every interleaving with the network", "why_tests_cant": "Records wrap around two ring buffers, all sizes and positions matter, and the keys are needed to make a record.", "anchors": ["tls/src/lib.rs: Client::process, recv, recv_header", "tls/src/crypto/record.rs: decrypt_record_inplace", "tls/src/io.rs: Buffer"]}
{"id": "C70", "title": "TLS records with padding are accepted", "statement": "A protected record whose content is followed by zero padding, as RFC 8446 section 5.4 permits any server, is treated like the same record without padding.", "quantifier": "every record, every amount of padding", "why_tests_cant": "Only servers that pad show it.", "anchors": ["tls/src/crypto/record.rs: decrypt_record_inplace", "tls/src/record.rs: ContentType"]}
{"id": "C71", "title": "Unprotected TLS records do nothing once keys are in use", "statement": "A change_cipher_spec record during the handshake is skipped without any effect; once the client is connected a record that is not protected is refused.", "quantifier": "every state, every unprotected record", "why_tests_cant": "Attackers choose when to inject records.", "anchors": ["tls/src/lib.rs: Client::recv, recv_change_cipher_spec, recv_alert"]}
{"id": "C72", "title": "Asynchronous register access equals blocking access", "statement": "Each method of the asynchronous Registers trait reads or writes the same register in the same way as the blocking method of the same name, also when bus accesses fail; the register map holds for both.", "quantifier": "every accessor, every argument, every chip state, every fault", "why_tests_cant": "The two traits are 85 hand-copied methods each; a test of one says nothing about the other.", "anchors": ["ll/src/aio.rs: Registers", "ll/src/lib.rs: Registers"]}
{"id": "C73", "title": "All bus drivers do the same to the chip", "statement": "Every implementation of Registers (embedded-hal 0.2 with fallible, unwrapped and infallible chip select, embedded-hal 1 blocking and asynchronous, and the fixed-length drivers) reads or writes exactly the addressed bytes and leaves the bus idle, so that the next access works.", "quantifier": "every device behind the bus, every address, block, length and content", "why_tests_cant": "Seven drivers; each needs hardware or a mock, and chunk boundaries and wraps multiply the cases.", "anchors": ["ll/src/eh0/vdm.rs: W5500", "ll/src/eh0/vdm_infallible_gpio.rs: W5500", "ll/src/eh0/vdm_infallible.rs: W5500", "ll/src/eh0/fdm.rs: W5500", "ll/src/eh1/vdm.rs: W5500", "ll/src/eh1/fdm.rs: W5500"]}
{"id": "C74", "title": "A failed bus access is reported and contained", "statement": "When an SPI transfer or a chip select operation fails, the caller gets that error, only a prefix of the access was done, and the bus is left so that the next access works.", "quantifier": "every access, every operation at which it fails, every number of bytes transferred before the failure", "why_tests_cant": "Errors of SPI peripherals are rarely provoked in tests, least of all in the middle of a transfer.", "anchors": ["ll/src/eh0/vdm.rs: with_chip_enable", "ll/src/eh0/fdm.rs: read, write", "ll/src/eh1/vdm.rs: read, write", "ll/src/eh1/fdm.rs: read, write"]}
{"id": "C75", "title": "MQTT packets go over TLS whole and protected", "statement": "CONNECT, PUBLISH, SUBSCRIBE and UNSUBSCRIBE of the MQTT client over TLS are each sent as the complete packet inside one protected record with the next record number, behind everything sent before; without room for it the call reports that and nothing is sent; without a TLS connection the calls report NotConnected and touch nothing.", "quantifier": "every topic, payload and filter, every fill level of the transmit buffer, every record number", "why_tests_cant": "Needs a TLS server that decrypts; buffer positions and record numbers are unbounded.", "anchors": ["mqtt/src/tls.rs: Client::publish, subscribe, unsubscribe, send_connect", "tls/src/lib.rs: TlsWriter"]}
{"id": "C76", "title": "MQTT packets received over TLS are reported like those received over TCP", "statement": "The packets in the stream of decrypted bytes are reported one per call, however the server cuts them into records: messages with exactly their topic and payload, acknowledgments with their identifiers and codes, other packets are skipped, incomplete ones wait for the rest; what was not consumed stays readable.", "quantifier": "every sequence of packets, every division into records, every time between calls", "why_tests_cant": "The packet boundaries are independent of the record boundaries and of the two ring buffers.", "anchors": ["mqtt/src/tls.rs: Client::process", "mqtt/src/recv.rs: recv", "mqtt/src/publish.rs: PublishReader"]}
{"id": "C77", "title": "An MQTT over TLS client knows that it lost its connection", "statement": "After process returned an error that ends the connection, is_connected returns false.", "quantifier": "every history, every error", "why_tests_cant": "The documentation of Error states it; a test must look at is_connected after each error in each state.", "anchors": ["mqtt/src/tls.rs: Client::process, is_connected", "mqtt/src/lib.rs: Error"]}
{"id": "C78", "title": "MQTT over TLS sends requests only when connected", "statement": "publish, subscribe and unsubscribe send something only if CONNACK was received on this connection, as in the client without TLS.", "quantifier": "every history", "why_tests_cant": "Tests call these after the connection event.", "anchors": ["mqtt/src/tls.rs: Client::publish, subscribe, unsubscribe"]}
{"id": "C79", "title": "MQTT over TLS connects again after an error", "statement": "After any error of process the following calls of process open a new connection.", "quantifier": "every error in every state", "why_tests_cant": "Tests stop at the error.", "anchors": ["mqtt/src/tls.rs: Client::process", "mqtt/src/lib.rs: Error"]}
{"id": "C80", "title": "Packet identifiers of MQTT over TLS are distinct", "statement": "The packet identifiers returned by subscribe and unsubscribe are never zero and distinct within any 65535 consecutive requests, also when calls fail.", "quantifier": "every history on a bus that may fail at any time", "why_tests_cant": "Needs 65535 requests and failures at every point.", "anchors": ["mqtt/src/tls.rs: Client::next_pkt_id, subscribe, unsubscribe"]}
{"id": "C81", "title": "MQTT over TLS is connected only after CONNACK", "statement": "is_connected returns true only if process reported a CONNACK and the TLS handshake was completed before.", "quantifier": "every history on a bus that may answer anything and fail at any time", "why_tests_cant": "Quantifies over all histories and all bytes a server or attacker sends.", "anchors": ["mqtt/src/tls.rs: Client::process, is_connected", "mqtt/src/recv.rs: recv"]}
{"id": "C82", "title": "The MQTT client uses its TLS client like any other caller", "statement": "Every history of the MQTT client over TLS is a history of calls a user could make of the TLS client, with the same random numbers and times and without write_all; so the guarantees for every history of the TLS client hold for the MQTT client.", "quantifier": "every history on a bus that may answer anything and fail at any time", "why_tests_cant": "A statement about all histories of two components.", "anchors": ["mqtt/src/tls.rs: Client", "tls/src/lib.rs: Client"]}
{"id": "C83", "title": "MQTT over TLS reports only authenticated data", "statement": "Everything process reports, and all bytes read from a message, are parts of the content of records that passed authentication under the server's keys, in order; the other calls do not change what can be read.", "quantifier": "every history, every byte string received", "why_tests_cant": "Quantifies over everything an attacker can send.", "anchors": ["mqtt/src/tls.rs: Client::process", "tls/src/lib.rs: Client::process, reader", "tls/src/io.rs: Buffer"]}
{"id": "C84", "title": "No server can crash the TLS client", "statement": "Whatever bytes arrive and however the bus fails, no call of the TLS client panics, and every call returns (process may wait for the chip while it opens the socket), if the clock does not run backwards, the ClientHello fits the buffer, write_all is given at most 65518 bytes and a connection has less than 2^64 - 1 records.", "quantifier": "every history on a bus that may answer anything and fail at any time, every byte string received", "why_tests_cant": "Quantifies over everything an attacker can send, in any state of the client.", "anchors": ["tls/src/lib.rs: Client::process, writer, write_all, reader", "tls/src/io.rs: Buffer::pop_handshake_record"]}
{"id": "C85", "title": "The simulator behaves like the chip", "statement": "A program that uses the simulator and neither crashes nor meets one of the listed differences behaves as it would with a real W5500 on which some sequence of network events occurs: the same bytes are read at every step, the same result is returned, the same data is sent to the same destinations; so what holds with the chip holds with the simulator. A new simulator is in the chip's reset state.", "quantifier": "every program, every behaviour of the host's network", "why_tests_cant": "Tests are run on the simulator; they cannot tell whether it is right.", "anchors": ["regsim/src/lib.rs: W5500 (Registers::read, write, socket_reg_rd, socket_reg_wr, check_socket, socket_cmd_*)"]}
{"id": "C86", "title": "The simulator sends what was written", "statement": "Data written into a socket's transmit buffer at its transmit pointer and sent by SEND is given to the host's socket exactly once, unchanged, with the destination of the registers, and the free space comes back.", "quantifier": "every data, every pointer value, every buffer size", "why_tests_cant": "Tests send little data from a fresh pointer; the pointer wraps after 64 KiB.", "anchors": ["regsim/src/lib.rs: socket_cmd_send, write"]}
{"id": "C87", "title": "The simulator presents the whole received stream", "statement": "Bytes the host's stream delivers are put behind the unread data in order, none is lost, unread data is not changed, the received size counts them, and RECV releases what was read.", "quantifier": "every data, every pointer value, every buffer size and filling", "why_tests_cant": "Tests receive little data; the buffer fills and the pointer wraps only with much.", "anchors": ["regsim/src/lib.rs: check_socket, sim_set_sn_rx_buf, socket_cmd_recv"]}
{"id": "C88", "title": "The simulator delivers datagrams whole or not at all", "statement": "A datagram received by the host appears in the receive buffer with a header of sender address, port and length, complete, or it is dropped.", "quantifier": "every datagram and every filling of the buffer", "why_tests_cant": "Needs a nearly full receive buffer.", "anchors": ["regsim/src/lib.rs: check_socket, sim_set_sn_rx_buf"]}
{"id": "C89", "title": "The simulator's sockets are independent", "statement": "A transaction with the registers or buffers of one socket changes no register or buffer of another socket and no common register except the interrupt summary, and does nothing to the network on behalf of another socket; writing common registers other than the mode register changes no socket.", "quantifier": "every transaction in every state", "why_tests_cant": "Quantifies over all pairs of sockets and all transactions.", "anchors": ["regsim/src/lib.rs: Registers::read, write"]}
{"id": "C90", "title": "The simulator lets go of a closed connection", "statement": "After CLOSE the socket is closed, its registers can be read without any effect on the network, and nothing is read from or written to the old connection, also after the socket is used again.", "quantifier": "every state, every later sequence of transactions", "why_tests_cant": "Tests end with the close.", "anchors": ["regsim/src/lib.rs: socket_cmd_close, check_socket, socket_cmd_send"]}
{"id": "C91", "title": "MQTT client identifiers are the standard's", "statement": "ClientId::new accepts exactly the strings of 1 to 23 ASCII letters and digits, which every MQTT server must accept, and keeps them unchanged.", "quantifier": "every string", "why_tests_cant": "The domain is too large to enumerate.", "anchors": ["mqtt/src/client_id.rs: ClientId::new"]}
{"id": "C92", "title": "No server can crash the MQTT client over TLS", "statement": "Whatever bytes the server or anyone on the network sends, process, publish, subscribe, unsubscribe and reading a received message do not panic, and each returns.", "quantifier": "every history of calls, every bytes received, every bus failure", "why_tests_cant": "The bytes, their division into records and the moments of failure cannot be enumerated.", "anchors": ["mqtt/src/tls.rs: Client::process, publish, subscribe, unsubscribe, send_connect", "mqtt/src/recv.rs", "mqtt/src/publish.rs: PublishReader", "tls/src/lib.rs: Client::process"]}
{"id": "C93", "title": "The simulator's status tells the truth", "statement": "A simulated socket whose status register says that it is bound, listening or connected has a socket of the host of that kind, and one whose status says closed has none; when the host refuses to bind, connect or listen the socket is closed and, for TCP, an interrupt says so, and when the host fails the error is returned.", "quantifier": "every program, every sequence of answers of the host", "why_tests_cant": "The host rarely refuses in tests, and not in the middle of other use of the socket.", "anchors": ["regsim/src/lib.rs: socket_cmd_open, socket_cmd_connect, socket_cmd_listen, check_socket"]}
{"id": "C94", "title": "A call that failed because of the bus can be repeated", "statement": "When a TCP or UDP read or write of the high-level crate returns a bus error, whatever transaction failed and however much of it took effect, the call made again on a working bus does what the first was asked to do, exactly once: nothing is sent twice, lost or skipped.", "quantifier": "every socket state, every data, every point and extent of failure, every event of the network meanwhile", "why_tests_cant": "The points of failure times the network's events are unbounded, and hardware tests do not inject them.", "anchors": ["hl/src/tcp.rs: tcp_read, tcp_write", "hl/src/udp.rs: udp_recv_from, udp_send_to, udp_send"]}
{"id": "C95", "title": "A bus failure does not confuse the DHCP client", "statement": "Whichever transactions fail and whatever the chip answers, an address that leased_ip reports was offered to the client, requested and acknowledged; a client that waits for an answer always has a timeout running; its settings never change; and when the bus works again the client goes on and at the end of its lease starts over.", "quantifier": "every sequence of calls of process, every answer of the bus, every point of failure", "why_tests_cant": "A call makes dozens of transactions, each of which may fail in each state; tests do not inject failures.", "anchors": ["dhcp/src/lib.rs: Client::process, discover, request, leased_ip"]}
{"id": "C96", "title": "No datagram stops the DHCP client for good", "statement": "Whatever datagrams anyone sends to the client's port, a call of process after its timeout, or after the end of its lease, starts over: it sends a DISCOVER and no longer reports an address.", "quantifier": "every client, every datagram, every time", "why_tests_cant": "The datagrams come from anyone on the network and cannot be enumerated; the effect is that something never happens.", "anchors": ["dhcp/src/lib.rs: Client::process", "dhcp/src/pkt/de.rs: PktDe"]}
{"id": "C97", "title": "No datagram blocks the DNS and mDNS clients", "statement": "Whatever datagram waits first, taking a response once gets it out of the way: the next call shows the response that waits behind it.", "quantifier": "every datagram, every response behind it", "why_tests_cant": "The datagrams come from anyone on the network and cannot be enumerated; the effect is that something never happens.", "anchors": ["dns/src/lib.rs: Client::response, read_labels", "dns/src/mdns.rs: Client::response"]}
{"id": "C98", "title": "A DNS response comes from the server that was asked", "statement": "A response that Client::response returns is a datagram of the server the client was created with, and has the number of the query.", "quantifier": "every datagram, every sender, every query number", "why_tests_cant": "Anyone on the network can send to the client's port.", "anchors": ["dns/src/lib.rs: Client::response"]}
{"id": "C99", "title": "An SNTP reply answers a request of the client", "statement": "Every reply that on_recv_interrupt reports comes from the client's server, answers a request that the client has sent, carries that request's transmit time as its originate time, and is reported once.", "quantifier": "every history of calls, every sequence of datagrams", "why_tests_cant": "The orders of calls and datagrams are unbounded, and packets can be delayed, repeated and forged.", "anchors": ["sntp/src/lib.rs: Client::request, on_recv_interrupt"]}
{"id": "C100", "title": "No answer of the bus crashes the SNTP, DNS, mDNS or MQTT client", "statement": "Whatever a bus answers and whenever it fails, no call of these clients panics except by a debug assertion of the socket layer, and every call returns except those that wait for a socket to open or follow the names of a DNS message; reading a reported MQTT message in any way does not panic either.", "quantifier": "every call, every client state, every answer of the bus including wrong sizes and pointers, every point of failure", "why_tests_cant": "The answers of the bus are arbitrary bytes at every transaction; tests use a chip that behaves.", "anchors": ["sntp/src/lib.rs", "dns/src/lib.rs", "dns/src/mdns.rs", "mqtt/src/lib.rs", "mqtt/src/recv.rs", "mqtt/src/publish.rs"]}
{"id": "C101", "title": "The clients report a bus failure at once", "statement": "When a transaction fails, the call of the SNTP, DNS, mDNS, DHCP or MQTT client makes no further transaction and returns the error of the bus; and it returns that error only then.", "quantifier": "every call, every chip state, every event of the network, every point of failure", "why_tests_cant": "Every transaction of every path through a call may fail; tests do not inject failures.", "anchors": ["sntp/src/lib.rs", "dns/src/lib.rs", "dns/src/mdns.rs", "dhcp/src/lib.rs", "dhcp/src/pkt.rs", "mqtt/src/lib.rs", "mqtt/src/recv.rs", "mqtt/src/publish.rs"]}
{"id": "C102", "title": "No packet stops the MQTT client for good", "statement": "Whatever complete packet the broker sends next, after process, reads of the event and done, the packet is out of the way: the bytes behind it are what the next call sees, or the client has started over.", "quantifier": "every packet, every client state, every sequence of further calls", "why_tests_cant": "The packets come from a broker and cannot be enumerated; the effect of a bad one is that something never happens.", "anchors": ["mqtt/src/lib.rs: Client::process, recv", "mqtt/src/recv.rs"]}
{"id": "C103", "title": "The clients set their socket up as configured, with its interrupts", "statement": "When setup_socket of the DHCP or SNTP client, or the first process of the MQTT or TLS client, returns, the socket is opened with the client's ports and addresses, the interrupts the client acts on are unmasked for the socket and in SIMR, no other socket is unmasked or masked, and no other common register has changed (DHCP: except the chip's own address).", "quantifier": "every client, every state of the chip, every interleaving of chip events, debug and release builds", "why_tests_cant": "Sockets may be in any state and the chip acts between any two transactions; tests of the clients use a chip just reset.", "anchors": ["dhcp/src/lib.rs: setup_socket", "sntp/src/lib.rs: setup_socket", "mqtt/src/lib.rs: tcp_connect", "tls/src/lib.rs: tcp_connect"]}
{"id": "C104", "title": "A stream of TLS records is delivered completely and in order", "statement": "While the server sends protected application data and the application keeps room for one more record, every call of process answers with nothing or with ApplicationData, and what the application has read and can read is exactly the content of the records received so far, each once and in order, whatever the pieces in which they arrive and however much is read between the calls; once everything has arrived, a call that answers with nothing comes after everything was delivered.", "quantifier": "every sequence of records, every division into pieces, every order of process and read calls, every interleaving of chip events", "why_tests_cant": "The number of records, their sizes, the points at which they are cut and the order of the calls are all unbounded.", "anchors": ["tls/src/lib.rs: Client::process, recv_header, recv_body, reader", "tls/src/io.rs: Buffer", "tls/src/crypto/record.rs"]}
{"id": "C105", "title": "MQTT messages and acknowledgements are told completely, once and in order", "statement": "While the broker sends messages and acknowledgements to a connected client, the calls of process that report something report these packets, one each and in order, with the parts of each message that the application asked for, whatever the pieces in which the packets arrive and whatever the application publishes and subscribes in between; once everything has arrived, a call that reports nothing comes after everything was reported; and every such call returns.", "quantifier": "every sequence of packets, every division into pieces, every order of calls, every interleaving of chip events", "why_tests_cant": "The number of packets, their sizes, the points at which they are cut and the order of the calls are all unbounded.", "anchors": ["mqtt/src/lib.rs: Client::process, publish, subscribe, unsubscribe", "mqtt/src/recv.rs", "mqtt/src/publish.rs: PublishReader"]}
{"id": "C106", "title": "MQTT messages over TLS are told completely, once and in order", "statement": "While the broker sends messages and acknowledgements to a connected client over TLS, in records that cut the packets anywhere, the calls of process that report something report these packets, one each and in order, with the parts of each message that the application asked for, whatever the pieces in which the records arrive, as long as one more record fits into the buffer; once everything has arrived, as many calls as there are records and packets report all of them; and when each packet has its own record there is always room and each call reports one.", "quantifier": "every sequence of packets, every division into records, every division of the records into pieces, every interleaving of chip events", "why_tests_cant": "The number of packets and records, their sizes, the points at which they are cut and the times of arrival are all unbounded.", "anchors": ["mqtt/src/tls.rs: Client::process", "mqtt/src/recv.rs", "mqtt/src/publish.rs: PublishReader", "tls/src/lib.rs: Client::process", "tls/src/io.rs: Buffer"]}
{"id": "C107", "title": "The DHCP client does what is due", "statement": "A call of process acts on the packet at the head of the queue and on the time: an OFFER is requested, a complete ACK gives the client the lease with exactly the times, addresses and servers in it, a NAK makes it start over; a client in Init sends a DISCOVER when the link is up; a Bound client sends a REQUEST after T1 and after T2, starts over at the end of the lease and otherwise does nothing; and no timeout, T1, T2 or end of the lease is left behind by a call that succeeds.", "quantifier": "every client state, every packet, every time, every interleaving of chip events, debug and release builds", "why_tests_cant": "Packets, times and arrivals cannot be enumerated, and a missing action shows only as something that never happens.", "anchors": ["dhcp/src/lib.rs: Client::process, recv, discover, request"]}
{"id": "C108", "title": "A TLS handshake with a conforming server completes", "statement": "When the connection is there, process sends one ClientHello with the configured name, identity and binder and this key share; a ServerHello that selects the offered parameters, EncryptedExtensions with permitted extensions and the server's Finished, each in its record, take the client to the next state each; after the last one process answers HandshakeFinished, has sent exactly its own Finished, and holds the application traffic secrets of RFC 8446 for the pre-shared key, the key exchange and all messages.", "quantifier": "every pre-shared key, host name and identity that fit, every ServerHello and EncryptedExtensions of that form, every content of the server's messages, every interleaving of chip events (while the ClientHello is sent: on other sockets)", "why_tests_cant": "The messages are chosen by the server and the secrets by both sides; that a handshake can never get stuck shows only over all of them.", "anchors": ["tls/src/lib.rs: Client::process, send_client_hello, recv, recv_handshake, send_client_finished", "tls/src/key_schedule.rs", "tls/src/handshake"]}
{"id": "C109", "title": "A TLS handshake completes however the server's answers arrive", "statement": "The server answers a ClientHello with ServerHello, EncryptedExtensions and Finished in three records and may send more behind them; the bytes arrive in any pieces at any time. Whatever calls of process are made within the time limit, none answers with an error: the client has taken the first k of the records and nothing else, has the keys of stage k, and reports HandshakeFinished exactly with the third, having sent exactly its own Finished; once all three have arrived, at most three more calls end the handshake; and records of application data behind them are delivered completely, once and in order.", "quantifier": "every number of calls, every split of the stream into arrivals, every interleaving of chip events, every ServerHello, EncryptedExtensions and data of that form, every key", "why_tests_cant": "The number of calls and the ways a stream can be cut into segments are unbounded.", "anchors": ["tls/src/lib.rs: Client::process, recv, recv_header, recv_body, recv_handshake, send_client_finished", "tls/src/buffer.rs"]}
{"id": "C110", "title": "An MQTT client over TLS connects however the server's answers arrive", "statement": "After the ClientHello the server sends its three handshake records, CONNACK with reason 0 and messages and acknowledgements, these cut into records anywhere, and the bytes arrive in any pieces at any time. Whatever calls of process are made within the time limits, none answers with an error: they ask to be called again until one reports CONNACK, and then report the packets completely, once and in order; the client has sent exactly its TLS Finished and one CONNECT, protected with the first application key of RFC 8446; and once the records have arrived, three calls send CONNECT and one call more than there are records reports CONNACK.", "quantifier": "every number of calls, every split of the packets into records and of the stream into arrivals, every interleaving of chip events, every handshake message and packet of that form, every key, client identifier and buffer size that fits", "why_tests_cant": "The number of calls, the records and the ways a stream can be cut into segments are unbounded.", "anchors": ["mqtt/src/tls.rs: Client::process, send_connect", "tls/src/lib.rs: Client::process", "mqtt/src/recv.rs", "mqtt/src/connect.rs"]}
{"id": "C111", "title": "A client called no later than it asks is never too late", "statement": "process asks to be called again after some seconds. An application that makes each call no later than the one before it asked for is never told of a timeout or any other error while the server completes the TLS handshake, and, with the MQTT client, until CONNACK: the delay asked for always ends ten seconds after the last step of the handshake, whatever calls were made in between.", "quantifier": "every number of calls, every clock, every split of the server's stream into arrivals, every interleaving of chip events, every handshake message of the form of C109 and C110", "why_tests_cant": "The times of the calls and the arrivals are unbounded, and an early timeout shows only for some of them.", "anchors": ["tls/src/lib.rs: Client::process, set_state_with_timeout", "mqtt/src/tls.rs: Client::process, send_connect", "mqtt/src/lib.rs: StateTimeout"]}
{"id": "C112", "title": "An MQTT client connects however CONNACK arrives", "statement": "The call of process that finds the TCP connection up sends exactly one CONNECT packet and asks to be called again within ten seconds. The broker answers CONNACK with reason 0 and then sends packets; the bytes arrive in any pieces at any time. An application that polls no later than it was asked to is never told of an error: each poll asks for another within the ten seconds and takes nothing from the stream, until one reports CONNACK and takes exactly that packet, at the latest the first poll after CONNACK has arrived; the polls after it report the packets completely, once and in order.", "quantifier": "every number of polls, every clock, every split of the stream into arrivals, every interleaving of chip events, every client identifier, CONNACK properties and packets that fit", "why_tests_cant": "The number and times of the polls and the ways a stream can be cut into segments are unbounded.", "anchors": ["mqtt/src/lib.rs: Client::process, send_connect, recv", "mqtt/src/recv.rs", "mqtt/src/connect.rs"]}
