# Formal model of w5500-rs in Rocq (Coq 8.16.1)

## 1. Layout

    rocq/theories/Model/    Gallina transcription of the Rust code, one file per Rust module
    rocq/theories/Spec/     independent specifications (RFC grammars, FIPS/NIST definitions, queues)
    rocq/theories/Proof/    lemmas and proofs
    rocq/theories/Props/    property theorems only: statement, `exact lemma`, `Print Assumptions`,
                            and a concrete example which meets the hypotheses

Every definition in `Model/` carries a comment citing the file and lines of /repo it models.

## 2. Modelling conventions

* Machine integers are `Z`; every operation that can wrap is written with an explicit
  `mod 2^16`, `mod 2^32`, ...; every `+`/`-`/`*` that can overflow in Rust and is
  not wrapping/saturating/checked is modelled as a *panic* (overflow-checks build). Absence of panic
  then implies both build profiles compute the same value.
* Bytes are `Z` in `0..255`, slices and arrays are `list Z`.
* A function generic over `Registers` becomes a value of the free monad `prog A`
  (`Model/Bus.v`): a tree of bus transactions `read(addr, block, len)` and
  `write(addr, block, data)` whose continuation receives the bus result (data or bus
  error), with explicit `Panic` and `Diverge` (out of fuel in an unbounded polling loop).
* The same program tree has two semantics:
  - `Model/Chip.v`: execution against a W5500 chip model (register file of eight sockets,
    ring buffers, command register, transmit log) with a *schedule*: before each
    transaction an arbitrary list of chip-side events (data arrival, transmit completion,
    status and interrupt changes) happens, and the transaction may fail after an
    arbitrary number of bytes. Properties quantified over "every schedule" quantify over it.
  - `safe` (demonic weakest precondition): each transaction may return any data or an error.
    Properties "for every bus content" quantify over it.
* `debug_assert!` is modelled; programs take a `dbg : bool` parameter, theorems hold for both
  values unless they speak about one of them.
* Unbounded `while`/`loop`s take fuel; running out is the distinguished outcome `Diverge`, which
  theorems either exclude or speak about explicitly.

## 3. Trusted base

* Coq's kernel (and `vm_compute` for finite checks).
* `Print Assumptions` of every property theorem is printed when building `Props/`; the
  section "Assumptions" below records the result.
* The transcription of the Rust code to Gallina, by reading (no Rust toolchain available).
* The chip model (`Model/Chip.v`), written from the W5500 datasheet conventions that the driver
  relies on. It is an environment model, not code of /repo. Simplifications are listed there.
* Rust core library functions (`chunks_exact`, `split`, `from_utf8`, slice copies,
  saturating/wrapping arithmetic) are modelled by their documented meaning.
* External crates: `sha2`, `hkdf`, `hmac`, `p256`, `rand_core`: not modelled; they enter theorems as
  universally quantified functions (Section variables which are generalised on closing the section).

### Assumptions

`Print Assumptions` below every theorem of `Props/` prints "Closed under the global context": no theorem
depends on an axiom. (A checker that lists the axioms of all loaded
libraries shows parameters of `Coq.ssr.ssrunder`, which belong to the standard library and are used by no theorem.)

### What is modelled

| Code of /repo | Model |
|---|---|
| `ll/src/lib.rs` (all 85 accessors), `ll/src/addr.rs`, `ll/src/registers.rs`, `ll/src/specifiers.rs`, `ll/src/spi.rs` | `LlAddr`, `LlBits`, `Ll`, `Specifiers`, `Spi` |
| `ll/src/aio.rs` (85 asynchronous accessors, run to completion) | `LlAio` |
| `ll/src/eh0/*`, `ll/src/eh1/*` (seven drivers, with failing SPI transfers and pins) | `Drivers` |
| `hl/src/lib.rs`, `hl/src/io.rs`, `hl/src/tcp.rs`, `hl/src/udp.rs`, `hl/src/hostname.rs` | `HlCommon`, `HlIo`, `HlTcp`, `HlUdp`, `HlHostname`; readers and writers once more as `Stream` for generic callers |
| `dns/src/*`, including `mdns.rs` | `Dns`, `Utf8` |
| `dhcp/src/*` | `DhcpPkt`, `DhcpClient` |
| `sntp/src/lib.rs`, `fixed_point.rs`, `timestamp.rs` | `Sntp` |
| `mqtt/src/*` (plain and over TLS) | `Mqtt`, `MqttTls` |
| `tls/src/crypto/aes/*`, `tls/src/crypto/record.rs` | `Aes`, `Ghash`, `Gcm`, `TlsRecord` |
| `tls/src/io.rs`, `record.rs`, `cipher_suites.rs`, `handshake/*`, `extension.rs`, `key_schedule.rs`, `alert.rs`, `lib.rs` | `TlsBuf`, `TlsTypes`, `TlsHello`, `TlsKeys`, `TlsClient` |
| `regsim/src/lib.rs` (simulator; without logging and the corpus file) | `Regsim` |

Not modelled: logging (`fmt.rs`, defmt), `Display`/`Debug` impls, `ll/src/net.rs` (address types of the standard library shape), serde/`defmt` derives, await points and cancellation of the asynchronous methods,
examples and tests. Simplifications of single functions are stated in the comments of the model.

The chip of `Model/Chip.v` as built: commands act at once, except that the status change of OPEN and CLOSE waits for
an event of the environment; sends are queued and transmitted by events; the receive buffer is filled by
events; every register not mentioned is storage; faults stop a transaction after any number of bytes.

## 4. Plan per property

| Property | Model | Proof method |
|---|---|---|
| C01 | `Spi`: FDM and VDM drivers emit SPI byte frames; a chip-side frame decoder executes them on a byte memory | induction on chunk count, memory equality pointwise |
| C02 | `Spi`: header functions; decoder in `Spec` | bit arithmetic, finite lift |
| C03 | `Ll`: every accessor; `Chip` memory without side effects | table + disjointness of address ranges |
| C04 | `LlAddr` | finite check lifted; the claim is false for `UIPR1..3`: `_refuted` plus `_partial` for the rest |
| C05 | `LlBits` | finite check over all bytes lifted by `forallb_forall`; induction over setter sequences |
| C06 | `LlBits` | finite check lifted |
| C07 | `HlIo` cursor record with u16 wrap arithmetic | lia; induction over operation list |
| C08, C09 | `HlTcp` on `Chip` | invariant relating ring content to the abstract stream, induction over calls and schedules |
| C10, C11 | `HlTcp` on `Chip` | invariant relating TX ring to accepted data |
| C12, C13, C16 | `HlUdp` on `Chip` | invariant: RX ring encodes a queue of datagrams |
| C14, C15, C17 | `HlUdp` on `Chip` | functional correctness against transmit log; C15 `_refuted` |
| C18, C19 | `HlCommon`, `HlTcp`, `HlUdp` | symbolic execution, induction on polling fuel |
| C20 | all HL programs | demonic `safe` predicate, fault schedules |
| C21 | all HL programs | syntactic footprint of program trees (`writes_only`), soundness lemma on `Chip` |
| C22, C23 | `HlHostname` | loop invariant, list lemmas |
| C24–C28 | `Dns` | RFC 1035 grammar in `Spec`, induction; C26 and C28 `_refuted` + `_partial` |
| C29–C32 | `DhcpPkt` | byte layout; option grammar in `Spec`; cache invariant |
| C33–C37 | `DhcpClient` | state machine invariants over event histories; C35, C37 `_refuted` + `_partial` |
| C38–C40 | `Sntp` | byte layout; arithmetic; refutations where the code deviates |
| C41 | `MqttData` | well-founded/structural induction |
| C42–C45 | `MqttPkt` | MQTT 5 grammar in `Spec` |
| C46–C48 | `MqttClient` | invariants over histories |
| C49, C64 | `TlsKeys` (HKDF abstract) | invariants over histories, refutation for `write_all` and key update |
| C50 | `Aes` vs `Spec/Fips197` | finite checks for S-box/xtime, symbolic rounds |
| C51 | `Ghash` vs `Spec/Gf128` | no-carry lemma for `bmul32`, bilinearity + basis check |
| C52, C53 | `Gcm`, `TlsRecord` | induction over blocks, ring memory lemmas |
| C54–C56 | `TlsBuffer`, `TlsClient` | ring invariants; refutations for wrap length, packed handshake messages, pending fragments and release builds (`TlsRelease`) |
| C57–C59 | `TlsHandshake` | total parser over byte lists with fuel bound proof; layout of ClientHello |
| C60–C63 | `TlsClient` | invariants over event histories; refutations |
| C65–C67 | `Dns`, `Mqtt` on `Chip` | symbolic execution over all schedules; induction over packet sequences |
| C68 | `TlsKeys`, `TlsClient` | the key schedule of RFC 8446 in `Spec/TlsSecrets`, invariant over histories |
| C69–C71 | `TlsClient`, `TlsRecord`, `Gcm` | one call of `process` executed symbolically on `Chip`, decryption inverse of the record protection of the specification; refutations |
| C72 | `LlAio` | equality of programs; the register map once more |
| C73, C74 | `Drivers` over the SPI device of `Spec/SpiBus`, wire and faults in `Spec/Drivers` | symbolic execution, induction over chunks; refutations |
| C75–C79 | `MqttTls`: the MQTT client over the TLS client | composition of the MQTT and TLS theorems on `Chip`; refutations with conversations computed from the model |
| C80–C83 | `MqttTls` | invariants of histories on an arbitrary bus; simulation by histories of the TLS client |
| C84 | `TlsCrash` | invariant of histories on an arbitrary bus in a logic that tracks where a panic is possible |
| C85 | `Regsim`: the host's network is a list of answers, its use a log; `Spec/Regsim`: relation to the chip and list of differences | simulation: each transaction of the simulator is the chip's after some events; refutations by execution |
| C86–C90 | `Regsim` | ring lemmas, case analysis over all registers; refutations by execution |
| C91 | `Mqtt` | finite check of the characters, induction |
| C92 | `MqttTlsCrash` | the logic of C84, with the invariants of histories of C75–C83 |
| C93 | `Regsim` | invariant of every transaction; case analysis of the commands |
| C94 | `HlTcp`, `HlUdp` | weakest preconditions in which every transaction may fail after any number of bytes (`Proof/RetryP`); witnesses by computation |
| C95 | `DhcpClient` | relation of acts (`Spec/DhcpFault`) shown for every bus answer by induction on the program; induction on histories of calls; witnesses by computation |
| C96 | `DhcpClient`, `DhcpPkt` | weakest preconditions from the head datagram; induction on histories; witnesses by computation |
| C97 | `Dns`, `HlUdp` | weakest preconditions of the question loop, by induction on where the message ends; induction on the calls; witness by computation |
| C98 | `Dns`, `HlUdp` | weakest preconditions of `response`; witness by computation |
| C99 | `Sntp`, `HlUdp` | induction on the history of calls; witness by computation |
| C100 | `Sntp`, `Dns`, `Mqtt`, drivers | weakest preconditions over all answers of the bus; for MQTT with the positions in the stream |
| C101 | `Sntp`, `Dns`, `DhcpClient`, `Mqtt`, drivers | structural induction: every failed access ends the program with the error of the bus |
| C102 | `Mqtt` | packets understood are consumed by `process` + `done`; for the others an invariant of the unread stream over all later calls |
| C103 | `DhcpClient`, `Sntp`, `Mqtt`, `TlsClient` | partial-correctness rules over the whole chip; registers not written by the opening calls are kept |
| C104 | `tls_process`, the buffer and its readers, the AEAD | induction over the calls of process and the readers, with an invariant that relates the TCP stream, the sequence number and the buffer; process is specified by what the whole chip has received when it ends (`wpc`), so records may be incomplete |
| C105 | `mqtt_process`, the publish reader, `mqtt_publish`, `mqtt_subscribe`, `mqtt_unsubscribe` | induction over the calls with the invariant that the bytes taken from the TCP stream are those of the packets reported; a poll is specified by what the whole chip has received before it looks (`wpc`), so packets may be incomplete |
| C106 | `mt_process`, `mt_rx`, the publish reader over the TLS buffer | induction over the calls with an invariant that joins those of C104 and C105: the packets told and the rest of the buffer are the content of the records taken; each call takes a record or tells of a packet when everything has arrived |
| C107 | `dhcp::Client::process` and all it calls | must-steps: the specifications behind C34, redone for a packet known to be at the head (the accessors are functions of the packet), for the deaf states Init and Bound, and for the timers; then the machine of C34 from there on |
| C108 | `tls::Client::process` from the connected interrupt to HandshakeFinished | one theorem per record: the receive path of C69 with the exact content of the message, the parsers of C57 and C58, the key schedule against `Spec/TlsSecrets.v`; the ClientHello with `wpq`, the run without events on the socket, from the specification of the transmit path |
| C109 | `tls::Client::process` from ServerHello to HandshakeFinished and on to the data, any number of calls | induction over `handshakes` (`Spec/TlsArrive.v`); each call finds a part of the next record and waits, or all of it and takes exactly that record; the steps are those of C108 with the window of C104; C104 then continues the connection; `C109_connection` puts the call that sends the ClientHello before it, `C109_from_start` the first call (C103) |
| C110 | `mt_process` from the ClientHello to CONNACK and on to the packets, any number of calls | induction over `mt_asks` (`Spec/MqttTlsConnect.v`): the calls before CONNECT are calls of C109, the one that ends the handshake sends CONNECT with the specification behind C76; the calls before CONNACK carry the invariant of C106 with CONNACK in front of the packets; then C106; `C110_connection` and `C110_from_start` as for C109 |
| C111 | the timers of `tls_process` and `mt_process` | all results of the two programs (`leaves`) relate the delay to the time at which the wait began; induction over `punctual` and `mt_punctual`, which speak of the answers and the clock alone, gives the calls of C109 and C110 |
| C112 | `mqtt_process` from the connected interrupt to CONNACK and on to the packets, any number of polls | induction over `mq_punctual` (`Spec/MqttConnect.v`), which speaks of the answers and the clock alone: a poll finds a part of CONNACK and waits, or all of it and takes exactly that; the packet sent is that of `C42_connect`, then C105; `C112_from_start` puts the first call (C103) in front |

Every property listed can be expressed; where the full statement is false of the code the theorem
`..._refuted` gives a witness and a `..._partial` theorem proves the strongest part found.
