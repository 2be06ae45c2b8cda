{"id": "C01", "title": "Variable-length integer round trip", "statement": "Encoding any integer below 2^62 succeeds, and reading a variable-length integer from the encoding followed by arbitrary further bytes yields the same integer and leaves exactly those further bytes unread; for every u64 of 2^62 or more the encoder returns an error and no bytes.", "quantifier": "every u64 value and every trailing byte sequence", "why_tests_cant": "The input space (2^62 values, byte strings of any length) cannot be enumerated; a test samples a few literals.", "anchors": ["src/utils.rs: encode_var_int", "src/utils.rs: var_int_from_stream", "src/utils.rs: var_int_with_bytes_from_stream"]}
{"id": "C02", "title": "Variable-length integers follow RFC 9000 section 16, minimally", "statement": "The encoder output is a 1, 2, 4 or 8 byte RFC 9000 section 16 encoding, always the shortest one; the stream decoder accepts every RFC encoding of a value (minimal or not), consumes exactly its bytes, reports an error exactly when the stream is shorter than the length announced by the first byte, and never overflows or panics; the variant that also returns the raw bytes returns exactly the bytes consumed.", "quantifier": "every value below 2^62, every byte stream, overflow checks on or off", "why_tests_cant": "The input space (2^62 values, byte strings of any length) cannot be enumerated; a test samples a few literals.", "anchors": ["src/utils.rs: encode_var_int", "src/utils.rs: var_int_from_stream", "src/utils.rs: var_int_with_bytes_from_stream"]}
{"id": "C03", "title": "The slice decoder for variable-length integers inverts the encoder", "statement": "Decoding a variable-length integer from a byte slice that starts with an encoder output returns the encoded value and the encoded length.", "quantifier": "every value below 2^62 and every continuation of the slice", "why_tests_cant": "The input space (2^62 values, byte strings of any length) cannot be enumerated; a test samples a few literals.", "anchors": ["src/utils.rs: decode_var_int", "src/utils.rs: encode_var_int"]}
{"id": "C04", "title": "Connection ids survive the wire at every length", "statement": "For every length 0..20, reading a connection id of that length from a stream and writing it back at that length reproduces the bytes, and writing a 160-bit id that fits in that length and reading it back reproduces the id; the stored 160-bit value is the big-endian value of the bytes; writing at a length above 20 panics instead of producing bytes.", "quantifier": "every id, every length, every trailing stream", "why_tests_cant": "2^160 ids times 21 lengths.", "anchors": ["src/utils.rs: U160::to_bytes", "src/utils.rs: U160::to_var_bytes", "src/utils.rs: var_u160_from_stream", "src/utils.rs: U160::from_datagram", "src/utils.rs: fixed_len_dcid_from_stream"]}
{"id": "C05", "title": "Fixed-width integers are read big-endian and never partially", "statement": "Reading a u8/u16/u32/u64/u128 from a stream yields the big-endian value of the next 1/2/4/8/16 bytes and consumes exactly those, or returns an error when fewer remain; it inverts the big-endian writer.", "quantifier": "every byte stream and every value of each width", "why_tests_cant": "The input space (2^62 values, byte strings of any length) cannot be enumerated; a test samples a few literals.", "anchors": ["src/utils.rs: prelude::FromDatagram", "src/utils.rs: prelude::DecodeFromBytes"]}
{"id": "C06", "title": "floor_log2 returns the floor of the base-2 logarithm", "statement": "For every non-zero unsigned integer the call returns floor(log2(x)); for zero it returns an error; it always terminates.", "quantifier": "every u8/u16/u32/u64", "why_tests_cant": "The input space (2^62 values, byte strings of any length) cannot be enumerated; a test samples a few literals.", "anchors": ["src/utils.rs: prelude::FloorLog2"]}
{"id": "C07", "title": "Frame sequences round-trip", "statement": "For every sequence of well-formed frames other than STREAM and CRYPTO at a non-zero offset (those are C08 and C09), in any order and number, serialising the sequence succeeds and deserialising the bytes gives back exactly the same sequence.", "quantifier": "every list of such frames, of any length, ending the datagram or not, overflow checks on or off", "why_tests_cant": "Frames carry unbounded data and combine in unboundedly many ways; tests check one frame of each kind, and only its encoding.", "anchors": ["src/frame.rs: serialize_frames", "src/frame.rs: deserialize_frames", "src/frame.rs: Frame::to_bytes", "src/frame.rs: deserialize_frame"]}
{"id": "C08", "title": "STREAM frames round-trip", "statement": "Serialising a STREAM frame (any stream id, offset, data, FIN flag) followed by other frames and deserialising gives back the same STREAM frame followed by the same frames.", "quantifier": "every STREAM frame and every following frames", "why_tests_cant": "Only the encoder is tested, on two literals; decoding has no test at all.", "anchors": ["src/frame.rs: FrameStream::to_bytes", "src/frame.rs: FrameStream::from_datagram"]}
{"id": "C09", "title": "CRYPTO frames carry exactly Length bytes at any offset", "statement": "Deserialising the RFC 9000 section 19.6 encoding of a CRYPTO frame (offset, length, then exactly length bytes of data) returns that frame and consumes exactly those bytes, whatever the offset.", "quantifier": "every offset, every data, every trailing bytes", "why_tests_cant": "The input space (2^62 values, byte strings of any length) cannot be enumerated; a test samples a few literals.", "anchors": ["src/frame.rs: FrameCrypto::from_datagram", "src/frame.rs: FrameCrypto::to_bytes"]}
{"id": "C10", "title": "Frame decoding is total", "statement": "Deserialising frames from any byte sequence whatsoever terminates with either a frame list or an error; it never panics, overflows or loops, in debug and in release builds.", "quantifier": "every byte sequence of any length, overflow checks on or off", "why_tests_cant": "Malicious inputs are unbounded; counts up to 2^62 are attacker-controlled.", "anchors": ["src/frame.rs: deserialize_frames", "src/frame.rs: deserialize_frame", "src/utils.rs: var_bytes_from_stream"]}
{"id": "C11", "title": "Frame decoding does not amplify input", "statement": "The number of frames decoded and the total number of bytes and ranges they hold never exceed the number of input bytes, however large the announced lengths and counts are.", "quantifier": "every byte sequence", "why_tests_cant": "Attacker-chosen 62-bit lengths.", "anchors": ["src/frame.rs: deserialize_frames", "src/utils.rs: var_bytes_from_stream", "src/frame.rs: FrameAck::from_datagram"]}
{"id": "C12", "title": "Unknown frame types are rejected", "statement": "A frame whose type is not one of the RFC 9000 types 0x00..0x1e makes deserialisation return an error.", "quantifier": "every 62-bit frame type value and every following bytes", "why_tests_cant": "2^62 type values.", "anchors": ["src/frame.rs: deserialize_frame"]}
{"id": "C13", "title": "Serialised frames follow the RFC 9000 section 19 layout", "statement": "For every well-formed frame of any kind, the serialiser emits bytes that match the RFC 9000 section 19 field layout for that frame: type byte (with OFF/LEN/FIN, ECN, direction and layer bits), then fields in order.", "quantifier": "every well-formed frame, last or not last in the datagram", "why_tests_cant": "Every field ranges over 2^62 values or unbounded data.", "anchors": ["src/frame.rs: Frame::to_bytes", "src/frame.rs: serialize_frames"]}
{"id": "C14", "title": "RFC-conformant frames from any peer are understood", "statement": "Every RFC 9000 section 19 encoding of a frame other than STREAM (and CRYPTO at a non-zero offset), including non-minimal integer encodings, followed by anything, deserialises to exactly that frame and consumes exactly its bytes.", "quantifier": "every frame, every admissible encoding of it, every trailing bytes", "why_tests_cant": "A peer may pick any of up to four encodings for every integer field.", "anchors": ["src/frame.rs: deserialize_frame"]}
{"id": "C15", "title": "Truncated frames are rejected", "statement": "Removing one or more bytes from the end of a serialised non-STREAM frame always makes its deserialisation fail with an error; it is never silently read as another frame.", "quantifier": "every well-formed non-STREAM frame and every proper prefix of its encoding", "why_tests_cant": "All cut points of all encodings.", "anchors": ["src/frame.rs: deserialize_frame"]}
{"id": "C16", "title": "Final STREAM frame without length", "statement": "A frame sequence whose last frame is a STREAM frame at offset 0, all others not being STREAM, serialised as the end of a datagram, deserialises to the same sequence.", "quantifier": "every such sequence", "why_tests_cant": "Unbounded data.", "anchors": ["src/frame.rs: serialize_frames", "src/frame.rs: FrameStream::to_bytes", "src/frame.rs: FrameStream::from_datagram"]}
{"id": "C17", "title": "Long headers are parsed and re-emitted byte-exactly", "statement": "Parsing the long header of any packet with a non-zero version and then re-serialising it yields exactly the bytes consumed; connection ids longer than 20 bytes are rejected; header parsing of any byte sequence returns a header or an error and never panics.", "quantifier": "every byte sequence", "why_tests_cant": "The additional authenticated data is rebuilt from the parsed header, so byte-exactness over all headers is what makes decryption work.", "anchors": ["src/packet.rs: LongPacketHeader::from_stream", "src/packet.rs: LongPacketHeader::to_bytes", "src/packet.rs: next_header_from_stream"]}
{"id": "C18", "title": "Header protection is an involution that hides only protected bits", "statement": "Adding then removing (or removing then adding) header protection with the same mask restores the header; protection never changes the header form, fixed or packet-type bits (long: only the low 4 bits, short: only the low 5); applying the same operation twice in a row changes nothing more; packet-number length and, for short headers, reserved and key-phase bits cannot be read while protected.", "quantifier": "every header and every mask", "why_tests_cant": "256 x 256 combinations times all headers, plus the state flag.", "anchors": ["src/packet.rs: LongPacketHeader::add_protection", "src/packet.rs: LongPacketHeader::remove_protection", "src/packet.rs: ShortPacketHeader::add_protection", "src/packet.rs: ShortPacketHeader::remove_protection"]}
{"id": "C19", "title": "Packet-number masking is an involution", "statement": "Masking packet-number bytes twice with the same mask restores them, keeps their number, uses only mask bytes 1..4, and is refused with an error above 4 bytes.", "quantifier": "every byte list and every mask", "why_tests_cant": "The input space (2^62 values, byte strings of any length) cannot be enumerated; a test samples a few literals.", "anchors": ["src/packet.rs: xor_pn_protection"]}
{"id": "C20", "title": "Initial packets travel between peers", "statement": "For a client and a server connection created from the same original destination id, any Initial packet built on one side and serialised is decoded by the other side to the same header, token, packet number and frames, provided its frames round-trip; the bytes that follow in the datagram are left untouched.", "quantifier": "every pair of peer connections, every history of packets sent before, every token, every frame list, every trailing bytes, every AEAD/KDF satisfying the stated laws", "why_tests_cant": "One RFC sample packet is tested; the property must hold for every history and payload.", "anchors": ["src/packet.rs: PacketInitial::new", "src/packet.rs: PacketInitial::serialize", "src/packet.rs: PacketInitial::from_stream", "src/connection.rs: Connection"]}
{"id": "C21", "title": "Handshake packets travel between peers once keys are installed", "statement": "For two connections whose handshake keys are installed and mirrored, any Handshake packet built on one side and serialised is decoded by the other side to the same header, packet number and frames.", "quantifier": "every pair of connections with mirrored handshake keys, every frame list, every trailing bytes", "why_tests_cant": "No test exists for handshake packets.", "anchors": ["src/packet.rs: PacketHandshake::new", "src/packet.rs: PacketHandshake::serialize", "src/packet.rs: PacketHandshake::from_stream"]}
{"id": "C22", "title": "Coalesced datagrams decode to the packets sent, in order", "statement": "Concatenating any number of Initial packets serialised by one peer into a datagram and decoding the datagram at the other peer yields exactly those packets in order.", "quantifier": "every number of packets and every content", "why_tests_cant": "Unbounded number of packets.", "anchors": ["src/packet.rs: decode_packets", "src/packet.rs: decode_next_packet"]}
{"id": "C23", "title": "Initial packets with 1 to 4 byte packet numbers are accepted", "statement": "Every Initial packet laid out and protected as RFC 9001 section 5 prescribes with the peer's keys, with a packet number field of 1, 2, 3 or 4 bytes, is decoded to its contents.", "quantifier": "every RFC-conformant protected Initial packet", "why_tests_cant": "The only decoded sample has a 4 byte packet number.", "anchors": ["src/packet.rs: PacketInitial::from_stream", "src/packet.rs: PacketHandshake::from_stream"]}
{"id": "C24", "title": "Decoding a datagram never panics", "statement": "Decoding any received datagram, whatever its bytes, returns packets or an error; it never panics and always terminates.", "quantifier": "every byte sequence and every reachable connection", "why_tests_cant": "All attacker-chosen datagrams.", "anchors": ["src/packet.rs: decode_packets", "src/packet.rs: decode_next_packet", "src/packet.rs: PacketRetry::from_stream", "src/quictls/cipher_suite.rs: internal_decrypt_aes_128_gcm"]}
{"id": "C25", "title": "Accepted packets are exactly what the AEAD authenticated", "statement": "Whenever decoding accepts an Initial packet, the AEAD opened the ciphertext under the peer's key, the nonce of the returned packet number, and associated data equal to the packet's wire bytes up to and including the packet number with header protection removed; the returned frames are the decoding of the opened plaintext and the returned token, ids and version are the ones in those authenticated bytes.", "quantifier": "every byte sequence and every connection", "why_tests_cant": "Must hold for all inputs an attacker may send.", "anchors": ["src/packet.rs: PacketInitial::from_stream", "src/connection.rs: Connection::decrypt_remote_payload"]}
{"id": "C26", "title": "Version negotiation packets parse to the offered versions", "statement": "A version negotiation packet (version 0, ids of any length 0..255) decodes to exactly the list of 32-bit versions on the wire in order, and is rejected with an error exactly when the list is not a multiple of four bytes or the header is truncated.", "quantifier": "every byte sequence with version 0", "why_tests_cant": "The input space (2^62 values, byte strings of any length) cannot be enumerated; a test samples a few literals.", "anchors": ["src/packet.rs: PacketVersionNegotiation::from_stream", "src/packet.rs: LongPacketHeader::from_stream"]}
{"id": "C27", "title": "Packets are dispatched by header form, version and type bits", "statement": "A successfully decoded packet is 1-RTT exactly when the first bit is 0; otherwise version negotiation exactly when the version is 0; otherwise Initial, 0-RTT, Handshake by the two type bits 00, 01, 10 - and the packet type seen before removing header protection equals the type after.", "quantifier": "every datagram", "why_tests_cant": "All first bytes, versions and contents.", "anchors": ["src/packet.rs: decode_next_packet", "src/packet.rs: LongPacketHeader::packet_type"]}
{"id": "C28", "title": "No packets without keys", "statement": "On a connection obtained through the API, whatever calls were made before, no Handshake packet can be serialised and no Handshake, 0-RTT or 1-RTT packet can be successfully decoded, because only Initial keys are ever installed.", "quantifier": "every connection history and every byte sequence", "why_tests_cant": "All histories and inputs.", "anchors": ["src/connection.rs: Connection::new", "src/connection.rs: borrow_local_tls_secrets", "src/connection.rs: borrow_remote_tls_secrets"]}
{"id": "C29", "title": "Packet numbers strictly increase and are never reused", "statement": "Over any history of calls on a connection, the packet numbers issued in each packet number space are 1, 2, 3, ... without repetition, issuing in one space never affects another, and once 2^32-1 has been passed issuing fails for ever instead of wrapping.", "quantifier": "every interleaving of calls in the three spaces, of any length", "why_tests_cant": "Histories are unbounded.", "anchors": ["src/connection.rs: Connection::get_next_pn", "src/connection.rs: truncate_pn"]}
{"id": "C30", "title": "AEAD nonces are never reused", "statement": "Two distinct packet numbers never give the same nonce under one secret, so in any history of packets built on a connection no two protect their payload with the same key and nonce.", "quantifier": "every secret with a 12 byte IV, every pair of u64 packet numbers, every history", "why_tests_cant": "2^128 pairs.", "anchors": ["src/quictls/secrets.rs: Secrets::encrypt_payload", "src/quictls/secrets.rs: Secrets::decrypt_payload", "src/connection.rs: Connection::get_next_pn"]}
{"id": "C31", "title": "Truncated packet numbers reconstruct", "statement": "The truncated packet number produced for any issued packet number, given the largest acknowledged number, is reconstructed by the receiver to the full packet number.", "quantifier": "every packet number and every acknowledgement state", "why_tests_cant": "2^64 x 2^64 combinations.", "anchors": ["src/connection.rs: truncate_pn", "src/connection.rs: Connection::reconstruct_remote_pn"]}
{"id": "C32", "title": "Client and server derive mirrored Initial keys", "statement": "For every version, id and id length, a client and a server connection created from them hold the same Initial secrets with local and remote exchanged; sender and receiver secrets differ only through the 'client in'/'server in' label.", "quantifier": "every connection id of 0..20 bytes, every KDF", "why_tests_cant": "2^160 ids.", "anchors": ["src/connection.rs: Connection::new", "src/quictls/secrets.rs: Secrets::from_initial"]}
{"id": "C33", "title": "HKDF labels are encoded injectively in the TLS 1.3 format", "statement": "The info string used for key derivation is the RFC 8446 HkdfLabel encoding (2-byte length, length-prefixed 'tls13 '+label, length-prefixed context), is refused with an error exactly when a length does not fit, and distinct (length, label, context) triples give distinct info strings.", "quantifier": "every length, label and context", "why_tests_cant": "The input space (2^62 values, byte strings of any length) cannot be enumerated; a test samples a few literals.", "anchors": ["src/quictls/cipher_suite.rs: get_hkdf_label_info", "src/quictls/cipher_suite.rs: hkdf_expand_label_sha256"]}
{"id": "C34", "title": "Payload protection round trip and size", "statement": "Decrypting with the peer's secret what was encrypted under the same packet number and associated data returns the payload; the ciphertext is exactly 16 bytes longer than the payload and that is what the length predictor announces.", "quantifier": "every payload, associated data, packet number and secret, every AEAD satisfying the laws", "why_tests_cant": "Unbounded payloads.", "anchors": ["src/quictls/secrets.rs: Secrets::encrypt_payload", "src/quictls/secrets.rs: Secrets::decrypt_payload", "src/quictls/secrets.rs: Secrets::get_protected_payload_len", "src/quictls/cipher_suite.rs"]}
{"id": "C35", "title": "Decrypting a short payload is an error, not a crash", "statement": "Decrypting a ciphertext of any length, including shorter than the 16 byte tag, returns plaintext or an error.", "quantifier": "every ciphertext", "why_tests_cant": "All lengths.", "anchors": ["src/quictls/cipher_suite.rs: internal_decrypt_aes_128_gcm"]}
{"id": "C36", "title": "Sender and receiver compute the same header-protection mask", "statement": "For any packet-number length 1..4, the 16 bytes the sender samples from the protected payload are the 16 bytes found 4 bytes after the start of the packet number on the wire; with fewer than 16 bytes available the mask is refused with an error.", "quantifier": "every payload and packet-number length", "why_tests_cant": "All payload sizes around the sampling boundary.", "anchors": ["src/packet.rs: PacketInitial::serialize", "src/packet.rs: PacketInitial::from_stream", "src/quictls/secrets.rs: Secrets::get_header_protection_mask"]}
{"id": "C37", "title": "Every registered connection is filed under its own id", "statement": "In every state reachable by any number of threads accepting, routing and dropping in any interleaving, each entry of the connection table is keyed by the 8-byte source id that its connection advertises; hence ids are unique.", "quantifier": "every schedule, every number of threads, every network input, every random-number output", "why_tests_cant": "Thread schedules cannot be enumerated by tests.", "anchors": ["src/routing.rs: InternalQuicSocket::accept", "src/routing.rs: InternalQuicSocket::drop_connection"]}
{"id": "C38", "title": "Routing delivers a datagram to exactly one connection, in order", "statement": "Routing a datagram appends it once to the queue of the connection named by its destination id and changes nothing else; if there is no such connection or the header does not parse, it returns an error (or panics, if it fails to print that the header was cut short) and changes nothing; so each connection's queue is always the subsequence, in order, of the datagrams routed to it.", "quantifier": "every datagram, every table, every schedule", "why_tests_cant": "Unbounded interleavings.", "anchors": ["src/routing.rs: InternalQuicSocket::route_datagram"]}
{"id": "C39", "title": "Dropping a connection removes only it", "statement": "Dropping a connection id removes that entry and no other, is harmless when absent, and afterwards datagrams for that id are refused while all others are routed as before.", "quantifier": "every table and id", "why_tests_cant": "All tables.", "anchors": ["src/routing.rs: InternalQuicSocket::drop_connection", "src/interface.rs: QuicStream::drop"]}
{"id": "C40", "title": "Accept never displaces an existing connection", "statement": "Whatever the random generator returns and however threads interleave, accepting a connection never overwrites, removes or alters another registered connection.", "quantifier": "every random sequence, every schedule", "why_tests_cant": "Random collisions and races are not reproducible in tests.", "anchors": ["src/routing.rs: InternalQuicSocket::accept", "src/quictls/utils.rs: get_connection_id"]}
{"id": "C41", "title": "Accept returns a stream for a new client", "statement": "When a new client's Initial datagram arrives, accept returns a stream for it.", "quantifier": "every history of network input", "why_tests_cant": "All histories.", "anchors": ["src/routing.rs: InternalQuicSocket::accept", "src/interface.rs: QuicSocket::accept"]}
{"id": "C42", "title": "Accept survives hostile datagrams", "statement": "No datagram sent by a stranger can crash a thread waiting in accept; it is ignored and accept keeps waiting.", "quantifier": "every datagram content", "why_tests_cant": "All byte strings.", "anchors": ["src/routing.rs: InternalQuicSocket::recv_new_initial_datagram"]}
{"id": "C43", "title": "The Initial datagram that opens a connection reaches it", "statement": "The datagram that caused a connection to be created is delivered to that connection's queue.", "quantifier": "every history", "why_tests_cant": "All histories.", "anchors": ["src/routing.rs: InternalQuicSocket::accept"]}
{"id": "C44", "title": "A retransmitted Initial does not create a second connection", "statement": "Receiving the same client Initial datagram again after its connection was created does not register another connection.", "quantifier": "every Initial datagram, every history", "why_tests_cant": "Needs loss/duplication histories.", "anchors": ["src/routing.rs: InternalQuicSocket::recv_new_initial_datagram", "src/routing.rs: InternalQuicSocket::accept"]}
{"id": "C45", "title": "Distinct connection ids are routed apart", "statement": "Two datagrams whose destination connection ids differ as byte strings are never routed to the same connection.", "quantifier": "every pair of ids", "why_tests_cant": "2^320 pairs.", "anchors": ["src/utils.rs: U160", "src/routing.rs: InternalQuicSocket::route_datagram"]}
{"id": "C46", "title": "Server replies are addressed to the client's source id", "statement": "Packets built on an accepted connection carry the client's source connection id as their destination id.", "quantifier": "every client Initial header", "why_tests_cant": "All headers.", "anchors": ["src/routing.rs: InternalQuicSocket::accept", "src/packet.rs: LongPacketHeader::from_connection", "src/connection.rs: Connection::get_dcid"]}
{"id": "C47", "title": "No deadlock and no poisoned lock", "statement": "However threads interleave accept, routing, decoding and drop, they never deadlock on the socket's internal locks, and no panic ever happens while a lock that can be poisoned is held, so a crashed accept does not break other threads.", "quantifier": "every number of threads and schedule", "why_tests_cant": "Deadlocks depend on interleavings.", "anchors": ["src/routing.rs: InternalQuicSocket"]}
{"id": "C48", "title": "The public logging switch has no effect", "statement": "Calling the public set_log_traffic, with any flag and at any point of any history, changes no observable behaviour: logging stays off, nothing but error reports is printed, and the table and queues are unaffected.", "quantifier": "every history", "why_tests_cant": "All histories.", "anchors": ["src/interface.rs: QuicSocket::set_log_traffic", "src/routing.rs: InternalQuicSocket::set_log_traffic"]}
{"id": "C49", "title": "Transport parameters are self-delimiting", "statement": "Any sequence of serialised transport parameters can be split back, by a reader that knows only the RFC 9000 section 18 identifier/length/value format, into the same sequence of identifiers and values, integer values being decodable to the original; a parameter whose integer exceeds 2^62-1 is refused.", "quantifier": "every sequence of parameters", "why_tests_cant": "Unbounded sequences and values; there is no test and no parser in the repository.", "anchors": ["src/transport_parameters.rs: TransportParameter::serialize"]}
{"id": "C50", "title": "The preferred_address parameter follows RFC 9000 section 18.2", "statement": "The serialised preferred_address value is 4+2+16+2 address bytes, a connection-id length byte, the connection id and a 16 byte stateless reset token.", "quantifier": "every preferred address", "why_tests_cant": "All ids.", "anchors": ["src/transport_parameters.rs: PreferredAddress::to_bytes"]}
{"id": "C51", "title": "Error codes are distinct and RFC-assigned", "statement": "Each error kind maps to the RFC 9000 section 20.1 code of that kind, and two different kinds never share a code.", "quantifier": "every error value including every internal message", "why_tests_cant": "Message strings are unbounded.", "anchors": ["src/error.rs: Error::to_error_byte"]}
{"id": "C52", "title": "Unsupported versions are not treated as version 1", "statement": "A long-header packet whose version is neither 0 nor 1 is not decoded as, and does not open, a version 1 connection.", "quantifier": "every version value and packet", "why_tests_cant": "2^32 versions.", "anchors": ["src/packet.rs: decode_next_packet", "src/routing.rs: InternalQuicSocket::accept"]}
{"id": "C53", "title": "Coalesced packets for another connection are not accepted", "statement": "When decoding a datagram for a connection, a later packet in it whose destination id differs from the first packet's is not returned as a packet of this connection.", "quantifier": "every datagram", "why_tests_cant": "All pairs of packets.", "anchors": ["src/packet.rs: decode_packets"]}
{"id": "C54", "title": "Sent packets are RFC packets", "statement": "An Initial or Handshake packet that is built and serialized without error is, byte for byte, a packet of RFC 9000 section 17.2 carrying exactly the given frames, protected as RFC 9001 section 5 prescribes with this side's keys, with fixed bit set, reserved bits clear, the right type, version 1 and the connection's ids and token.", "quantifier": "every reachable connection, frame list and token", "why_tests_cant": "The round trip tests would accept two matching mistakes; conformance over all payloads and keys needs the wire format itself.", "anchors": ["src/packet.rs: PacketInitial::{new,serialize}, PacketHandshake::{new,serialize}"]}
{"id": "C55", "title": "No byte of an accepted packet can be changed", "statement": "Changing any single byte inside an accepted Initial packet makes the decoder no longer return that packet.", "quantifier": "every accepted datagram, position and replacement byte", "why_tests_cant": "All positions of all packets; only needs one unauthenticated byte to fail.", "anchors": ["src/packet.rs: PacketInitial::from_stream"]}
{"id": "C56", "title": "A datagram is exactly its packets", "statement": "When a datagram is decoded, it is the concatenation of the packets returned, in order, each non-empty and nothing left over, and conversely; so the number of packets is bounded by the size of the datagram.", "quantifier": "every datagram and connection", "why_tests_cant": "Arbitrarily many coalesced packets of all kinds.", "anchors": ["src/packet.rs: decode_packets"]}
{"id": "C57", "title": "Duplicate packets are discarded", "statement": "A connection that decoded a packet with some number refuses another packet with the same number in the same space (RFC 9000 section 12.3).", "quantifier": "every history of a connection and packet", "why_tests_cant": "Needs quantification over histories.", "anchors": ["src/packet.rs: decode_next_packet", "src/connection.rs: Connection"]}
{"id": "C58", "title": "Forbidden frames in Initial packets are refused", "statement": "A decoded Initial packet holds only PADDING, PING, ACK, CRYPTO and CONNECTION_CLOSE frames (RFC 9000 section 12.4).", "quantifier": "every packet", "why_tests_cant": "All frame lists.", "anchors": ["src/packet.rs: PacketInitial::validate_payload"]}
{"id": "C59", "title": "Fixed and reserved bits are checked", "statement": "A packet whose fixed bit is clear or whose reserved bits are set is not accepted (RFC 9000 section 17.2).", "quantifier": "every packet", "why_tests_cant": "All first bytes of all packets.", "anchors": ["src/packet.rs: PacketInitial::from_stream, decode_next_packet"]}
{"id": "C60", "title": "Packets without frames are refused", "statement": "A decoded packet carries at least one frame (RFC 9000 section 12.4).", "quantifier": "every packet", "why_tests_cant": "All keys and headers.", "anchors": ["src/packet.rs: PacketInitial::from_stream", "src/frame.rs: deserialize_frames"]}
{"id": "C61", "title": "Conformant Handshake, 0-RTT and 1-RTT packets are accepted", "statement": "Every Handshake, 0-RTT or 1-RTT packet a conformant peer builds with the right keys, with a packet number field of any permitted length, is decoded to its header, number and frames, leaving the bytes behind it.", "quantifier": "every key set, header, packet number length and payload", "why_tests_cant": "Packet number lengths, ids, payloads and keys multiply.", "anchors": ["src/packet.rs: PacketHandshake::from_stream, PacketZeroRtt::from_stream, PacketOneRtt::from_stream"]}
{"id": "C62", "title": "The packet number is what the packet number field says", "statement": "While nothing is acknowledged, the number of a decoded packet is the value of its packet number bytes.", "quantifier": "every accepted packet of every protected kind", "why_tests_cant": "All lengths and values of the field and of the bytes behind it.", "anchors": ["src/packet.rs: PacketHandshake::from_stream, PacketInitial::from_stream, PacketZeroRtt::from_stream, PacketOneRtt::from_stream"]}
{"id": "C63", "title": "Accepted Handshake, 0-RTT and 1-RTT packets are authentic", "statement": "Every accepted Handshake, 0-RTT or 1-RTT packet opens under the keys of its space with the nonce of its number, its header as associated data, and its frames are those of the opened plaintext.", "quantifier": "every byte string and key set", "why_tests_cant": "Absence of forgeries is a statement about all inputs.", "anchors": ["src/packet.rs: PacketHandshake::from_stream, PacketZeroRtt::from_stream, PacketOneRtt::from_stream"]}
{"id": "C64", "title": "Version Negotiation headers re-encode to their bytes", "statement": "A parsed Version Negotiation header serializes to the bytes it was parsed from.", "quantifier": "every header with version 0", "why_tests_cant": "All ids of all lengths up to 255.", "anchors": ["src/packet.rs: LongHeader::to_bytes, LongHeader::from_stream"]}
{"id": "C65", "title": "ACK ranges below zero are refused", "statement": "A decoded ACK frame has as many ranges as it says, and none of them reaches below packet number 0 (RFC 9000 section 19.3.1).", "quantifier": "every ACK frame", "why_tests_cant": "The condition accumulates over arbitrarily many ranges.", "anchors": ["src/frame.rs: FrameAck::from_datagram"]}
{"id": "C66", "title": "NEW_CONNECTION_ID frames are checked", "statement": "A decoded NEW_CONNECTION_ID frame has an id of 1 to 20 bytes, of the announced length, and Retire Prior To does not exceed the sequence number (RFC 9000 section 19.15).", "quantifier": "every NEW_CONNECTION_ID frame", "why_tests_cant": "All sequence numbers, ids and lengths.", "anchors": ["src/frame.rs: FrameNewConnectionId::from_datagram"]}
{"id": "C67", "title": "Stream limits and empty tokens are refused", "statement": "MAX_STREAMS and STREAMS_BLOCKED above 2^60 and empty NEW_TOKEN frames are decoding errors (RFC 9000 sections 19.7, 19.11, 19.14).", "quantifier": "every frame", "why_tests_cant": "Only values at the far end of a 62-bit range violate the rule.", "anchors": ["src/frame.rs: FrameMaxStreams::from_datagram, FrameStreamsBlocked::from_datagram, FrameNewToken::from_datagram"]}
{"id": "C68", "title": "Only RFC frames are decoded", "statement": "Whatever the frame decoder accepts is an encoding, in the sense of RFC 9000 section 19, of the frame it returns, followed by what it left.", "quantifier": "every byte string", "why_tests_cant": "Statement about everything accepted, over all byte strings.", "anchors": ["src/frame.rs: deserialize_frame, deserialize_frames"]}
{"id": "C69", "title": "Decoded payloads can be re-encoded", "statement": "The frames decoded from any payload serialize again, to no more bytes, and the result decodes to the same frames.", "quantifier": "every payload that decodes", "why_tests_cant": "All payloads, including non-minimal encodings.", "anchors": ["src/frame.rs: serialize_frames, deserialize_frames"]}
{"id": "C70", "title": "Reading a few bytes as a number", "statement": "Reading n bytes as a 32-bit number consumes exactly n bytes and returns their big-endian value modulo 2^32 (so the value itself up to 4 bytes), and fails iff fewer are left.", "quantifier": "every byte string and n", "why_tests_cant": "All lengths and contents.", "anchors": ["src/utils.rs: var_u32_from_stream"]}
{"id": "C71", "title": "Frame constructors keep what they are given", "statement": "A frame built by a public constructor from arguments that fit the wire format is well-formed and carries exactly those arguments, so that it is encoded as RFC 9000 says.", "quantifier": "every argument in range", "why_tests_cant": "All argument values, in particular ids longer than the length the constructor assumes.", "anchors": ["src/frame.rs: FrameCrypto::new, FrameNewToken::new, FrameStream::new, FrameNewConnectionId::new, FrameConnectionClose::new_error, FrameConnectionClose::new_application_error"]}
{"id": "C72", "title": "The packet that opens a connection is read with it", "statement": "When accept opens a connection for a datagram starting with an Initial packet built by a client of this library, the registered connection decodes that packet to the client's frames and token, and decoding the datagram through the socket afterwards returns it.", "quantifier": "every interleaving, client connection, frame list and token", "why_tests_cant": "Combines two connections, the wire format, the registration table and all schedules.", "anchors": ["src/routing.rs: InternalQuicSocket::{accept,packets_from_datagram}", "src/packet.rs: decode_packets"]}
{"id": "C73", "title": "One connection per accept, and only for Initials", "statement": "A connection is registered only by accept, for a datagram it received last whose header is an Initial with an unknown destination id, under a random id; and in total no more connections are ever registered than accept was called.", "quantifier": "every execution of any number of threads", "why_tests_cant": "Counting over unbounded executions of any number of threads.", "anchors": ["src/routing.rs: InternalQuicSocket::{accept,recv_new_initial_datagram}"]}
{"id": "C74", "title": "No datagram is lost or reordered inside accept", "statement": "At every moment of every accept call, the datagrams it received so far have been put, in order and one each, in the queue of the connection their header names, except possibly the last one.", "quantifier": "every execution, every moment", "why_tests_cant": "An invariant of every intermediate state under all interleavings.", "anchors": ["src/routing.rs: InternalQuicSocket::{recv_new_initial_datagram,route_datagram}"]}
{"id": "C75", "title": "Datagrams are delivered whole", "statement": "What accept passes on to a connection is exactly the datagram received, with its sender's address.", "quantifier": "every execution and datagram", "why_tests_cant": "All sizes up to the UDP maximum; tests use small datagrams.", "anchors": ["src/routing.rs: InternalQuicSocket::recv_datagram"]}
{"id": "C76", "title": "Initial packets in small datagrams open no connection", "statement": "A connection is opened only by a datagram of at least 1200 bytes (RFC 9000 section 14.1).", "quantifier": "every execution and datagram", "why_tests_cant": "Statement about every datagram that opens a connection.", "anchors": ["src/routing.rs: InternalQuicSocket::accept"]}
{"id": "C77", "title": "Only a failing log line poisons a lock", "statement": "A lock of the socket is poisoned only if it is the socket's mutex, logging had been turned on, and printing a line about a received header failed; so no datagram can make a lock unusable.", "quantifier": "every execution of any number of threads", "why_tests_cant": "Quantifies over every panic at every point of every schedule.", "anchors": ["src/routing.rs: InternalQuicSocket::recv_datagram and every lock() / read() / write()"]}
{"id": "C78", "title": "The work of a call is bounded by its input", "statement": "A call performs at most a constant number of steps for each datagram received and each random number drawn; a call other than accept performs a constant number and never reads the network.", "quantifier": "every execution of any number of threads", "why_tests_cant": "Termination for all inputs and schedules.", "anchors": ["src/routing.rs: InternalQuicSocket, all methods"]}
{"id": "C79", "title": "Only accept waits for the network", "statement": "Whenever a call other than accept is unfinished, some thread can make a step that neither reads from the network nor overtakes a waiting writer; so no such call ever waits for a peer to send something, even while other threads sit in accept.", "quantifier": "every reachable state", "why_tests_cant": "Absence of waiting cycles over all interleavings.", "anchors": ["src/routing.rs: InternalQuicSocket, all methods"]}
{"id": "C80", "title": "Initial packets with short ids open no connection", "statement": "A connection is opened only by an Initial packet whose destination id has at least 8 bytes (RFC 9000 section 7.2).", "quantifier": "every execution and datagram", "why_tests_cant": "Statement about every datagram that opens a connection.", "anchors": ["src/routing.rs: InternalQuicSocket::accept"]}
{"id": "C81", "title": "Release builds do what debug builds do", "statement": "Whether the library is compiled with or without overflow checks changes nothing observable: the same datagrams are decoded to the same packets or refused, and the same calls send the same bytes.", "quantifier": "every byte string, connection history and packet", "why_tests_cant": "Tests run one build profile; the statement relates two programs on all inputs.", "anchors": ["src/packet.rs: decode_packets, PacketInitial::serialize, PacketHandshake::serialize", "src/connection.rs: Connection::get_next_pn"]}
{"id": "C82", "title": "A packet means the same in front of anything", "statement": "An Initial packet accepted at the front of a datagram is accepted, with the same result, in front of any other bytes; and a datagram made of two datagrams that decode to packets of this kind decodes to the packets of both.", "quantifier": "every accepted packet and every continuation", "why_tests_cant": "All continuations of all accepted packets.", "anchors": ["src/packet.rs: decode_packets, PacketInitial::from_stream"]}
{"id": "C83", "title": "Frames of a payload are read one by one", "statement": "The payload made of two payloads, each of which decodes, and the first of which has no STREAM frame without a Length field, decodes to the frames of the first followed by those of the second (RFC 9000 sections 12.4 and 19.8).", "quantifier": "every two payloads", "why_tests_cant": "All pairs of payloads.", "anchors": ["src/frame.rs: deserialize_frames, FrameStream::from_datagram"]}
{"id": "C84", "title": "Sent packets are as small as they can be", "statement": "The size of a sent Initial or Handshake packet is 7 bytes of fixed fields, both ids, the token with its length, a Length field, 4 bytes of packet number, the encoded frames and 16 bytes of tag, with every variable-length integer in its shortest form.", "quantifier": "every connection history, token and frame list", "why_tests_cant": "Sizes change form at 2^6, 2^14 and 2^30 bytes.", "anchors": ["src/packet.rs: PacketInitial::serialize, PacketHandshake::serialize"]}
{"id": "C85", "title": "Zeroed buffers are what they say", "statement": "calloc_box_buffer returns a box of the asked number of elements, all bytes zero, or refuses the size.", "quantifier": "every type, length and allocator", "why_tests_cant": "Undefined behaviour does not show in tests, and the interesting sizes cannot be allocated.", "anchors": ["src/utils.rs: calloc_box_buffer"]}
{"id": "C86", "title": "Buffers hold initialised elements", "statement": "alloc_box_buffer returns a box of the asked number of initialised elements, or refuses the size.", "quantifier": "every type, length and allocator", "why_tests_cant": "Reading uninitialised memory usually goes unnoticed.", "anchors": ["src/utils.rs: alloc_box_buffer"]}
{"id": "C87", "title": "Refusing a short input has no side effect", "statement": "Reading more bytes than there are returns an error and does nothing else; so decoding a datagram writes nothing to stdout.", "quantifier": "every byte string and count, connection and datagram, with stdout working or not", "why_tests_cant": "Tests run with a working stdout.", "anchors": ["src/utils.rs: var_bytes_from_stream", "src/packet.rs: next_header_from_stream, decode_packets, PacketInitial::serialize, PacketHandshake::serialize"]}
{"id": "C88", "title": "Constructed frames arrive or are refused", "statement": "A frame made by a public constructor from any arguments of its types is either refused by the encoder because a number in it exceeds 62 bits, or is read back, with everything behind it left alone, as the frame that was made.", "quantifier": "every constructor and argument, both build profiles, every continuation", "why_tests_cant": "All argument values, in particular the largest ones.", "anchors": ["src/frame.rs: all new, new_error and new_application_error constructors, Frame::to_bytes, deserialize_frame"]}
{"id": "C89", "title": "Sending does not change receiving", "statement": "Whatever calls are made on a connection to number, build and address packets, every datagram is then read exactly as it would have been before them.", "quantifier": "every connection, history of calls and datagram, both build profiles", "why_tests_cant": "A history is unbounded and each datagram would have to be tried after each one.", "anchors": ["src/connection.rs: get_next_packet_number, set_current_scid, set_current_dcid", "src/packet.rs: decode_packets, PacketInitial::new, PacketHandshake::new"]}
{"id": "C90", "title": "A packet sent again is the same packet", "statement": "Serialising a packet that was built earlier gives the same bytes however many calls were made on the connection in between, so it can be retransmitted as it was.", "quantifier": "every packet, connection and history of calls, both build profiles", "why_tests_cant": "The serialiser reads the connection, whose state changes with every call.", "anchors": ["src/packet.rs: PacketInitial::serialize, PacketHandshake::serialize"]}
{"id": "C91", "title": "Different frames are different bytes", "statement": "Two different lists of well-formed frames, of any kinds and with any numbers, never serialise to the same payload, whether or not they end a datagram; the frame format itself gives every payload at most one reading.", "quantifier": "every two lists of frames, also with non-minimal integers", "why_tests_cant": "Pairs of unbounded lists.", "anchors": ["src/frame.rs: serialize_frames, Frame::to_bytes"]}
{"id": "C92", "title": "Different packets are different bytes", "statement": "Two Initial packets sent with the keys of one connection id (or two Handshake packets sent with the same keys) whose bytes agree, even as the front of longer datagrams, are the same packet: the same number, ids, token and frames.", "quantifier": "every two connection histories, frame lists and tokens, any bytes behind the packets", "why_tests_cant": "Pairs of packets, and the packets are encrypted.", "anchors": ["src/packet.rs: PacketInitial::serialize, PacketHandshake::serialize"]}
{"id": "C93", "title": "Concurrent calls take effect one at a time", "statement": "However threads interleave, every finished call other than accept took effect in a single one of its steps: it changed the table of connections and returned what it would have if it had been executed alone at that moment, and its other steps changed nothing. Each delivery and registration made by accept is such a moment too, and nothing else ever changes the table.", "quantifier": "every number of threads, every interleaving and history of calls, every datagram", "why_tests_cant": "Unboundedly many interleavings.", "anchors": ["src/routing.rs: route_datagram, packets_from_datagram, drop_connection, accept, recv_new_initial_datagram", "src/interface.rs: QuicStream::drop"]}
{"id": "C94", "title": "Frames are sent in as few bytes as the format allows", "statement": "The bytes Frame::to_bytes produces for a well-formed frame are no longer than any encoding RFC 9000 has for that frame in that position: every integer is minimal, a STREAM offset of zero and, for the last frame, the STREAM length are left out. So are whole payloads, whether serialised as the end of a datagram or, as packets do, as not the end, unless in the latter case the last frame is a STREAM frame.", "quantifier": "every well-formed frame and frame list, every conformant encoding of it", "why_tests_cant": "The alternatives to compare with are all conformant encodings of all frames.", "anchors": ["src/frame.rs: Frame::to_bytes, serialize_frames", "src/utils.rs: encode_var_int"]}
{"id": "C95", "title": "The first packet of a datagram is read by the connection it is addressed to", "statement": "The header a datagram is routed by is the header of the first packet decoded from it: same type, version and connection ids. When packets_from_datagram returns packets, the connection that decoded them was registered at that moment under the destination id of the first packet, that id is the connection's own id and, unless the packet is a Version Negotiation packet, its value is that of the destination id on the wire.", "quantifier": "every datagram, every number of threads and interleaving of calls, every connection", "why_tests_cant": "The table changes concurrently; and the header is parsed twice, by different code, for all packet types.", "anchors": ["src/routing.rs: packets_from_datagram", "src/packet.rs: next_header_from_stream, decode_next_packet"]}
{"id": "C96", "title": "Connections can be closed", "statement": "Whenever a connection is registered, a program using the crate can get rid of it: there is a continuation of its calls (accept, connect, logging switch, dropping the streams it was given) after which the id is no longer registered.", "quantifier": "every number of threads and interleaving, every program using the public interface", "why_tests_cant": "All programs and all continuations.", "anchors": ["src/interface.rs: QuicStream::drop", "src/routing.rs: accept, drop_connection"]}
{"id": "C97", "title": "The socket keeps only connections the program holds", "statement": "Every registered connection belongs to a stream that was returned to the program, or to an accept call still in progress; what the socket keeps is bounded by what the program holds.", "quantifier": "every number of threads and interleaving, every program using the public interface, every datagram received", "why_tests_cant": "Unbounded executions.", "anchors": ["src/routing.rs: accept", "src/interface.rs: QuicSocket::accept"]}
{"id": "C98", "title": "Datagrams waiting for a connection are limited", "statement": "There is a limit to the number of datagrams kept for a connection, whatever its client sends.", "quantifier": "every program using the public interface, every sequence of datagrams", "why_tests_cant": "The limit would have to hold for arbitrarily long runs.", "anchors": ["src/routing.rs: InternalQuicStream::from_connection, route_datagram, recv_new_initial_datagram"]}
{"id": "C99", "title": "Sent packet number fields are long enough for any conformant receiver", "statement": "The packet number field produced for a packet number, given the largest number the peer acknowledged, is decoded to that number by every receiver that follows RFC 9000 appendix A.3 and is still waiting for it.", "quantifier": "every packet number, every acknowledged number, every state of the receiver", "why_tests_cant": "Three 62-bit quantities; the boundary is at half windows of 1 to 4 byte fields.", "anchors": ["src/connection.rs: truncate_pn, Connection::get_next_pn", "src/utils.rs: floor_log2"]}
{"id": "C100", "title": "Packet numbers of later packets are recovered", "statement": "A connection that has received a packet recovers the number of a later one from a packet number field covering twice the distance between them (RFC 9000 section 17.1 and appendix A.3).", "quantifier": "every connection history, every packet received, every later packet number and field", "why_tests_cant": "Needs a history and all field lengths.", "anchors": ["src/connection.rs: Connection::reconstruct_remote_pn"]}
{"id": "C101", "title": "A parsed header reports what its bytes say", "statement": "The destination id, its length and the packet type reported by a parsed header are those in the bytes it was parsed from.", "quantifier": "every byte sequence with a readable header", "why_tests_cant": "All header forms, versions, lengths and ids.", "anchors": ["src/packet.rs: PacketHeader::get_destination_id, get_destination_id_length, get_packet_type", "src/packet.rs: LongPacketHeader::packet_type, ShortPacketHeader::packet_type"]}
{"id": "C102", "title": "Calls in progress complete", "statement": "However the threads using a socket are scheduled, the calls in progress complete: without new calls they take at most 16 steps per call and input, and they stop only when every call has returned or panicked or waits for input. Only accept waits for input.", "quantifier": "every execution with any number of threads, every state it reaches, every continuation without new calls", "why_tests_cant": "All interleavings of all threads.", "anchors": ["src/routing.rs: InternalQuicSocket", "src/interface.rs"]}
{"id": "C103", "title": "Connections open with the keys of their datagram", "statement": "A connection that accept registers has the Initial keys that RFC 9001 section 5.2 derives from the destination id in the bytes of the datagram received last, the server's for sending and the client's for receiving, no other keys, the new id as its own, packet numbers starting afresh and an empty queue.", "quantifier": "every execution, every datagram, every registration", "why_tests_cant": "All datagrams, tables, interleavings.", "anchors": ["src/routing.rs: InternalQuicSocket::accept, recv_new_initial_datagram", "src/connection.rs: Connection::new"]}
{"id": "C104", "title": "No byte of a Handshake packet can be changed", "statement": "Changing one byte of an accepted Handshake packet never leaves the packet as it was, short of a forgery: other associated data, ciphertext or tag that the AEAD opens under the same key and nonce. Even a forgery can only change the first byte of the Length field, the ciphertext or the tag.", "quantifier": "every accepted Handshake packet, every byte of it and every other value, any keys, both build profiles", "why_tests_cant": "Every byte, value and packet; and the decoder skips bytes in other packet types (C55, C105).", "anchors": ["src/packet.rs: PacketHandshake::from_stream"]}
{"id": "C105", "title": "No byte of a 0-RTT or 1-RTT packet can be changed", "statement": "Changing one byte of an accepted 0-RTT or 1-RTT packet never leaves the packet as it was.", "quantifier": "every accepted 0-RTT and 1-RTT packet, every byte of it and every other value, any keys", "why_tests_cant": "Every byte, value and packet.", "anchors": ["src/packet.rs: PacketZeroRtt::from_stream, PacketOneRtt::from_stream"]}
{"id": "C106", "title": "Calls that succeed print nothing", "statement": "With traffic logging off, as the public interface leaves it, a call that succeeds writes nothing to stdout. A call that fails writes at most one line, accept at most three in all, before it panics; connect, dropping a stream and the logging switch never write.", "quantifier": "every execution of any number of threads, every datagram, stdout working or not", "why_tests_cant": "Quantifies over all datagrams received and all interleavings; the lines come from deep inside the decoder.", "anchors": ["src/routing.rs: accept, recv_new_initial_datagram, route_datagram, packets_from_datagram", "src/utils.rs: var_bytes_from_stream"]}
{"id": "C107", "title": "Exactly when a packet can be sent", "statement": "Building and serializing an Initial packet on a connection succeeds exactly when a source connection id was set at some point, fewer than 2^32 - 1 Initial packet numbers were taken before, and every integer in the frames is below 2^62; otherwise it returns an error. It never panics. The same holds for Handshake packets once keys exist; without keys they are refused.", "quantifier": "every sequence of fewer than 2^64 - 1 calls on a connection before the packet, all frames from the constructors or the decoder, any token, tokens and payloads below 2 GB, both build profiles", "why_tests_cant": "The packet number limit is out of reach of tests, and the condition ranges over every history of calls and every list of frames.", "anchors": ["src/packet.rs: PacketInitial::new, PacketInitial::serialize, PacketHandshake::new, PacketHandshake::serialize", "src/connection.rs: get_next_pn"]}
{"id": "C108", "title": "Decoded packets hold no more than the datagram", "statement": "The packets decoded from a datagram hold, all together, no more than its bytes: the number of packets, their tokens, packet number bytes, frames, data, acknowledgement ranges, versions and variable length ids add up to at most the length of the datagram.", "quantifier": "every byte string and every connection, with or without Handshake and application keys", "why_tests_cant": "Needs all datagrams; a length field trusted too early shows only on a crafted one.", "anchors": ["src/packet.rs: decode_packets, decode_next_packet", "src/frame.rs: deserialize_frames"]}
{"id": "C109", "title": "New connections get the first free random id", "statement": "accept registers a connection under an 8 byte random number exactly as it was drawn, and draws again only if accept found the number in use: whatever numbers in use come first, the first free one is taken. The peer is told this id, and 1-RTT packets carrying exactly its 8 bytes are addressed to the connection.", "quantifier": "every execution of any number of threads, every sequence of random numbers", "why_tests_cant": "Collisions of 8 byte random numbers do not occur in tests; the id has to be right for every interleaving.", "anchors": ["src/routing.rs: InternalQuicSocket::accept", "src/quictls/utils.rs: get_connection_id", "README.md: Connection ids issued by this implementation of QUIC are fixed to size u64"]}
{"id": "C110", "title": "The socket is linearizable", "statement": "For every concurrent execution there is one order of its calls, which runs them one after the other: every call other than accept that has returned stands in the order exactly once, at a moment between its beginning and its end, and returned exactly what the calls before it in the order lead to; deliveries and registrations made by accept stand in the order too; the order ends with the connections and waiting datagrams that the socket really has.", "quantifier": "every number of threads, every interleaving and history of calls, every datagram", "why_tests_cant": "Whether one order explains all results of an execution at once cannot be seen from any one interleaving.", "anchors": ["src/routing.rs: route_datagram, packets_from_datagram, drop_connection, accept, recv_new_initial_datagram", "src/interface.rs: QuicStream::drop"]}
{"id": "C111", "title": "Packets sent to an issued id reach the connection and are understood", "statement": "Once accept has opened a connection for a client and as long as nobody closes it, whatever other threads do: a datagram of any number of RFC Initial packets of that client (four byte packet numbers, no STREAM frames, CRYPTO frames at offset 0), the first addressed to the id the connection was given, is delivered to that connection behind everything delivered before the call began, and decoding it on the socket returns exactly those packets with their frames.", "quantifier": "every execution, every client id and so every key, every list of packets, every cryptography meeting its laws", "why_tests_cant": "Composes accepting, key derivation, routing and decoding for all interleavings and all packets.", "anchors": ["src/routing.rs: InternalQuicSocket::accept, route_datagram, packets_from_datagram", "src/connection.rs: Connection::new", "src/packet.rs: PacketInitial::from_bytestream", "README.md: Connection ids issued by this implementation of QUIC are fixed to size u64"]}
{"id": "C112", "title": "Over a hostile network, what is read was sent", "statement": "A client and a server connection made for the same id exchange Initial packets over a network that may lose, repeat, reorder, join, split, alter and invent datagrams, while both sides go on using their connections. Any grouping of packets the other side has sent is read as exactly those packets, at any later time. Conversely each Initial packet read from any bytes whatever is, byte for byte, a packet the other side had sent before, or the bytes contain a ciphertext and tag that the AEAD opens under a nonce and associated data although the other side never sealed it. No two packets a side sends share a number.", "quantifier": "all prims satisfying the laws, both build modes, all ids, all conversations (any interleaving of calls, packets made, sent and resent, and bytes delivered), both directions; the last sentence for overflow checks or fewer than 2^64-1 events", "why_tests_cant": "Tests deliver a packet once, in order, on a fresh pair; the attacker's choices and the interleavings are unbounded, and the second half is a reduction to the AEAD's unforgeability.", "anchors": ["src/packet.rs: PacketInitial::new, to_bytes, from_bytestream, decode_packets", "src/connection.rs: Connection::new, get_next_pn, encrypt_local_payload, decrypt_remote_payload"]}
{"id": "C113", "title": "The log can be read back and cannot be forged", "statement": "In every run of the socket with traffic logging, the characters on the standard output determine the sequence of entries: the header or error of each received datagram, each list of decoded packets with all their fields and frames, and each count of a short read. No content of a datagram can end a line, add an entry or make two different entries look alike. Every logged header is the header of a datagram that was received before.", "quantifier": "all prims, both build modes, all executions of any number of threads, all datagrams; two runs compared may differ in everything", "why_tests_cant": "A test can print some packets; that no two packets print alike, whatever an attacker puts into tokens, frames and ids, and that lines stay lines is a statement about all of them and about the grammar of the output.", "anchors": ["src/routing.rs: recv_datagram, packets_from_datagram (println)", "src/utils.rs: var_bytes_from_stream (println)", "src/packet.rs, src/frame.rs, src/error.rs, src/utils.rs: derive(Debug)"]}
{"id": "C114", "title": "The dump tool shows every byte of a file", "statement": "tools/prettify_bin.py writes beside each readable file a dump of lines of 32 bytes, in two groups of 16, two hexadecimal digits per byte, the last line possibly shorter. The digits are those of the file's bytes in order, so the file can be read back from the dump. Files that cannot be read or whose dump cannot be written do not affect the others, and nothing but the dumps is written.", "quantifier": "all file contents of any length, all lists of names including repeated ones, all file systems and write permissions; a file that is itself named like a dump of another argument is excepted", "why_tests_cant": "A test dumps a few files; off-by-one errors at multiples of 16 and 32 and lost last groups show only at particular lengths, and reading back is a statement about all contents.", "anchors": ["tools/prettify_bin.py: reformat_bin, main block"]}
{"id": "C115", "title": "No data at or beyond offset 2^62", "statement": "The data of a CRYPTO or STREAM frame (offset plus length) ends below 2^62, the largest offset of RFC 9000 sections 19.6 and 19.8. In a received payload it ends within as many bytes as the payload has; frames made by the crate's constructors that get into a packet end below 2^62.", "quantifier": "all received payloads of any length, all lists of constructed frames with any data, ids and numbers", "why_tests_cant": "The violating values are of the order 2^62; no test reaches them by data, and offset and length are two independent 62-bit numbers on the wire.", "anchors": ["src/frame.rs: FrameCrypto, FrameStream, deserialize_frames, serialize_frames"]}
{"id": "C116", "title": "At most 2^23 packets are protected with one key", "statement": "A connection stops sending (or changes keys) before it has protected more than 2^23 packets with one key, the confidentiality limit of AES-128-GCM in RFC 9001 section 6.6.", "quantifier": "all prims, both build modes and roles, all histories of calls on a connection", "why_tests_cant": "The limit is a property of histories of more than eight million packets on one connection.", "anchors": ["src/connection.rs: get_next_pn, encrypt_local_payload", "src/packet.rs: PacketInitial::new, serialize"]}
{"id": "C117", "title": "Forbidden frames in Handshake and 0-RTT packets are refused", "statement": "A received Handshake or 0-RTT packet whose payload has a frame that RFC 9000 section 12.4 (table 3) does not permit in that packet type is refused.", "quantifier": "all prims, all connections holding the keys, all datagrams", "why_tests_cant": "Every combination of packet type and frame type, at any place in a payload, with keys that the crate does not install yet.", "anchors": ["src/packet.rs: PacketHandshake::from_stream, PacketZeroRtt::from_stream", "src/frame.rs: deserialize_frames"]}
{"id": "C118", "title": "Tokens in a server's Initial packets are neither sent nor accepted", "statement": "A server connection sends no Initial packet with a token and a client connection refuses Initial packets with one (RFC 9000 section 17.2.2).", "quantifier": "all prims, both build modes, all histories of both sides, all tokens and datagrams", "why_tests_cant": "A statement about every datagram and every state of the client; tests show single tokens.", "anchors": ["src/packet.rs: PacketInitial::new, PacketInitial::from_stream"]}
{"id": "C119", "title": "A client sends to the id the server chose", "statement": "After a client has read an Initial packet of the server, the packets it sends are addressed to the source id of that packet (RFC 9000 section 7.2).", "quantifier": "all prims, both build modes, all histories before and after, all datagrams of the server", "why_tests_cant": "The destination has to be right in every later state, for every id and length the server may choose.", "anchors": ["src/connection.rs: Connection::new, get_dcid", "src/packet.rs: LongPacketHeader::from_connection"]}
{"id": "C120", "title": "Packets of different kinds share a datagram", "statement": "Once a connection holds the keys, a datagram of Initial, 0-RTT and Handshake packets in any number and order, perhaps ended by a 1-RTT packet, decodes to exactly these packets in this order; an Initial, 0-RTT or Handshake packet means the same in front of anything, and datagrams of such packets can be joined. Conversely a datagram that is decoded is exactly its packets, and only the last of them can be of another kind.", "quantifier": "all prims, both build modes, all connections with keys for the three spaces, all packets with four byte numbers, all lists of them", "why_tests_cant": "Each kind of packet has its own code to find its end and its own key; a mistake in one shows only for the packets behind it, in some order and with some lengths.", "anchors": ["src/packet.rs: decode_packets, decode_next_packet, PacketInitial/PacketZeroRtt/PacketHandshake/PacketOneRtt::from_stream"]}
{"id": "C121", "title": "A packet that cannot be read does not cost the others", "statement": "When one packet of a datagram cannot be read, for example for lack of keys, the other packets of the datagram to the same destination connection id are processed nevertheless (RFC 9000 section 12.2).", "quantifier": "all prims, both build modes and roles, all histories, all lists of Initial packets and all Handshake packets, whoever made them", "why_tests_cant": "The usual first flight of a server joins an Initial and a Handshake packet; a test would have to vary everything around the packet that fails.", "anchors": ["src/packet.rs: decode_packets, decode_next_packet"]}
{"id": "C122", "title": "Over a hostile network, Initial and Handshake packets read were sent", "statement": "Two connections that hold Initial and Handshake keys crosswise exchange packets of both kinds over a network that may lose, repeat, reorder, join, split, alter and invent datagrams, while both sides go on using their connections. Any grouping of packets of either kind the other side has sent is read as exactly those packets, at any later time. Conversely each Initial or Handshake packet read from any bytes whatever is, byte for byte, a packet the other side had sent before, or the bytes contain a ciphertext and tag that the AEAD opens under the key of that kind although the other side never sealed it with that key. No two packets of one kind that a side sends share a number.", "quantifier": "all prims satisfying the laws, both build modes, all keys, all conversations of two such connections, both directions; the last sentence for overflow checks or fewer than 2^64-1 events", "why_tests_cant": "The attacker may mix packets of both kinds, move a sealed text from one kind to the other or send a packet back to its sender; the mixtures and interleavings are unbounded, and the claim is a reduction to the AEAD's unforgeability.", "anchors": ["src/packet.rs: PacketInitial/PacketHandshake::new, serialize, from_stream, decode_packets", "src/connection.rs: get_next_pn, encrypt_local_payload, decrypt_remote_payload"]}
{"id": "C123", "title": "What a server reads was sent by the client that opened the connection", "statement": "Whatever the network delivers and however many threads use the socket: when the socket reads a datagram into packets, a connection had been opened under the id the datagram is addressed to, and not closed, for an earlier datagram in which a client chose an id of its own. Each packet read is an Initial packet that the client with the keys of that id has sent, in exactly these bytes, or contains a ciphertext and tag that open under those keys although the client never sealed them; the only other packets ever read are Version Negotiation packets.", "quantifier": "all prims satisfying the laws, both build modes, all executions of any number of threads through the public interface, all datagrams, all finite sets of packets the client has sent", "why_tests_cant": "Clients, attackers and threads interleave without bound, and a packet of one client must never be read with the connection of another; the claim is a reduction to the AEAD's unforgeability.", "anchors": ["src/routing.rs: packets_from_datagram, accept, route_datagram", "src/packet.rs: decode_packets", "src/connection.rs: Connection::new, decrypt_remote_payload"]}
{"id": "C124", "title": "A packet shows only the size of its payload", "statement": "If the AEAD's ciphertexts depend on a plaintext only through its length, so does everything a connection puts on the wire: two programs that make the same calls and send Initial and Handshake packets whose payloads have the same encoded sizes produce exactly the same bytes, whatever the frames are. With any AEAD, two packets sent from one state with payloads of equal size agree in length and in every byte except the low four bits of the first byte, the packet number field and the ciphertext.", "quantifier": "all primitives (no law assumed for the first part), both build modes and roles, all sequences of calls, key installations and sends of any length, all frames", "why_tests_cant": "It compares pairs of executions (non-interference); a test sees one execution, and leaks through lengths, header bits, packet numbers or failures show up only for particular payloads.", "anchors": ["src/packet.rs: PacketInitial::new, PacketInitial::serialize, PacketHandshake::new, PacketHandshake::serialize", "src/connection.rs: get_next_pn, encrypt_local_payload, get_local_hp_mask"]}
{"id": "C125", "title": "What is read on a connection does not depend on other traffic", "statement": "Take two servers that differ in everything (threads, other connections, other clients, order of events, what was received before), except that each has opened a connection for the same datagram under the same id. The two connections are the same, and a datagram addressed to that id is read into the same packets by both: one reads a given list of packets exactly if the other does, and if neither reads packets they fail alike, unless one of them fails at printing the error.", "quantifier": "all prims satisfying the laws, both build modes, all pairs of executions of any number of threads through the public interface, all datagrams", "why_tests_cant": "It compares pairs of concurrent executions (non-interference between connections); a leak of another connection's keys, ids or counters shows only under particular interleavings.", "anchors": ["src/routing.rs: packets_from_datagram, accept, route_datagram", "src/connection.rs: Connection::new", "src/packet.rs: decode_packets"]}
{"id": "C126", "title": "The code of an error says what went wrong", "statement": "A payload that is not a sequence of RFC 9000 frames is reported as FRAME_ENCODING_ERROR (RFC 9000 section 12.4, code 7 of section 20.1), so that the peer can be told why the connection is closed, and a packet that does not authenticate can be told from one that breaks the protocol.", "quantifier": "all payloads and build modes; all connections, calls and executions", "why_tests_cant": "The claim is about every error that any input can provoke in any function; tests provoke a few.", "anchors": ["src/error.rs: Error, to_error_byte", "src/frame.rs: deserialize_frames", "src/packet.rs: decode_packets", "src/routing.rs: route_datagram, packets_from_datagram"]}
{"id": "C127", "title": "Packet numbers start at 0", "statement": "The first packet number used in each packet number space of a connection is 0 (RFC 9000 section 12.3).", "quantifier": "all connections, roles, build modes and histories of calls, all three spaces", "why_tests_cant": "The claim concerns the first use of a counter after any history of other calls.", "anchors": ["src/connection.rs: PnInfo::new, get_next_pn"]}
{"id": "C128", "title": "A client's Initial datagrams have at least 1200 bytes", "statement": "An Initial packet that a client sends fills at least 1200 bytes, the smallest datagram RFC 9000 section 14.1 permits for it.", "quantifier": "all clients' connections in all states, all frames and tokens", "why_tests_cant": "The size depends on ids, token, frames and two variable-length fields.", "anchors": ["src/packet.rs: PacketInitial::new, PacketInitial::serialize", "src/frame.rs: serialize_frames"]}
{"id": "C129", "title": "Transport parameters out of range are not written", "statement": "TransportParameter::serialize refuses every value that RFC 9000 section 18.2 does not permit (and ids longer than 20 bytes), and writes every value that it does permit.", "quantifier": "all parameters and all values", "why_tests_cant": "Each parameter has its own range, up to 2^62 values wide; the limits are not visible in round trips.", "anchors": ["src/transport_parameters.rs: TransportParameter::serialize, identifier_val"]}
{"id": "C130", "title": "A client can open a connection", "statement": "QuicSocket::connect returns a stream or an operating-system error; it never panics and does not disturb the other threads using the socket.", "quantifier": "all numbers of threads, all interleavings, all addresses", "why_tests_cant": "That nothing else is disturbed is a claim about every other thread and every lock in every interleaving.", "anchors": ["src/interface.rs: QuicSocket::connect", "src/routing.rs: InternalQuicSocket::connect"]}
{"id": "C131", "title": "Received packets can be acknowledged", "statement": "For every packet number received, the constructors of frames can make a payload from which a peer reads an ACK frame acknowledging that number (RFC 9000 section 13.2.1).", "quantifier": "all packet numbers, all payloads the constructors can make", "why_tests_cant": "That no payload at all contains an acknowledgement is a claim about every list of frames, whose bytes are cut differently by the decoder than they were written.", "anchors": ["src/frame.rs: FrameAck::new, serialize_frames, deserialize_frames, deserialize_frame"]}
{"id": "C132", "title": "0-RTT and 1-RTT packets have keys of their own", "statement": "No connection reads a 0-RTT packet and a 1-RTT packet protected with the same keys (RFC 9001 section 5.1).", "quantifier": "all connections, key sets, and 0-RTT and 1-RTT packets", "why_tests_cant": "That keys are not shared is a claim about every pair of packets and every key.", "anchors": ["src/packet.rs: PacketZeroRtt::from_stream, PacketOneRtt::from_stream", "src/connection.rs: get_remote_hp_mask, decrypt_remote_payload"]}
{"id": "C133", "title": "Packets of the next key phase are opened with the next keys", "statement": "No connection reads two 1-RTT packets that are protected with the same keys and show different key phases (RFC 9001 section 6).", "quantifier": "all connections, key sets and pairs of 1-RTT packets", "why_tests_cant": "The key phase bit is covered by header protection, so examples show it only through the cryptography; the claim is about every pair of packets.", "anchors": ["src/packet.rs: PacketOneRtt::from_stream, ShortPacketHeader::key_phase", "src/connection.rs: decrypt_remote_payload"]}
{"id": "C134", "title": "Keys that are no longer needed are discarded", "statement": "An endpoint that has sent a Handshake packet sends no Initial packets, and one that has read a Handshake packet reads none (RFC 9001 section 4.9.1).", "quantifier": "all connections, all histories of calls, all frames and datagrams", "why_tests_cant": "What one kind of packet does to another depends on the whole history of the connection.", "anchors": ["src/packet.rs: PacketInitial::new, PacketHandshake::new, decode_packets", "src/connection.rs: get_next_pn"]}
{"id": "C135", "title": "The log shows every number and flag under its name", "statement": "In every run of the socket with traffic logging, the standard output consists of one line per entry, and each line names what it shows: headers, packets and frames by their kind, every field with its name, numbers and bytes in decimal, flags as true or false, printable messages as they are, lists in order.", "quantifier": "all prims, both build modes, all executions of any number of threads, all datagrams; all headers, packets, frames and errors", "why_tests_cant": "Tests compare single lines; that every value of every field of every entry appears under its own name is a claim about all entries.", "anchors": ["src/frame.rs: derived Debug", "src/packet.rs: derived Debug", "src/routing.rs: recv_datagram, accept"]}
{"id": "C136", "title": "Frames that ask for an answer can be answered", "statement": "Whatever payload a PATH_CHALLENGE arrives in, the PATH_RESPONSE built from it carries the same eight bytes, and the endpoint that asked reads back its number (RFC 9000 section 8.2.2). A STOP_SENDING is answered with a RESET_STREAM of the same stream and error code (section 3.5), and an issued connection id is retired under the sequence number it came with (section 19.16); these answers can always be serialised.", "quantifier": "all payloads, positions in them and encodings of their integers, all challenges, all final sizes below 2^62, both build modes", "why_tests_cant": "The answer is a composition of decoder, constructor and encoder over all 64 bit values, all encodings of integers and all surroundings.", "anchors": ["src/frame.rs: FramePathChallenge, FramePathResponse, FrameStopSending, FrameResetStream, FrameNewConnectionId, FrameRetireConnectionId"]}
{"id": "C137", "title": "The source id of a connection's packets stays the same", "statement": "Two packets read on one connection have the same source connection id; packets with another one are discarded (RFC 9000 section 7.2).", "quantifier": "all connections and histories, all pairs of packets", "why_tests_cant": "That a check is never missing is a claim about all pairs of packets, which only the holder of the keys can make.", "anchors": ["src/packet.rs: PacketInitial::from_stream, decode_packets", "src/connection.rs: Connection"]}
{"id": "C138", "title": "A packet cut short is not read", "statement": "No proper part of an Initial, Handshake or 0-RTT packet is read as anything; a datagram of such packets that was cut, as the socket does at 4096 bytes, is refused, or, when the cut falls between two packets, read as exactly the packets in front of it.", "quantifier": "all prims, both build modes, all connections (with whatever keys), all datagrams and all places to cut, in particular every Initial packet the library sends", "why_tests_cant": "A test cuts a few packets at a few places; whether some part of some packet is taken for a packet depends on every length field and on the authentication.", "anchors": ["src/packet.rs: decode_packets, decode_next_packet, PacketInitial::from_stream", "src/routing.rs: InternalQuicSocket::accept"]}
{"id": "C139", "title": "Sent packets fit into a datagram", "statement": "An Initial packet that is built and serialized has at most 65527 bytes, what a UDP datagram can carry; larger ones are refused.", "quantifier": "all prims, both build modes and roles, all histories, frames and tokens", "why_tests_cant": "A bound for all payloads.", "anchors": ["src/packet.rs: PacketInitial::serialize"]}
{"id": "C140", "title": "Nothing is sent after a close", "statement": "After a connection has read an Initial packet with a CONNECTION_CLOSE frame, it sends no packet without such a frame (RFC 9000 section 10.2).", "quantifier": "all prims, both build modes and roles, all histories before and after, all datagrams read and frames sent", "why_tests_cant": "Needs all histories after the frame.", "anchors": ["src/packet.rs: decode_packets, PacketInitial::new", "src/connection.rs: Connection"]}
{"id": "C141", "title": "Retry packets are read", "statement": "A client reads the Retry packet a server sends it (RFC 9000 section 17.2.5, with the integrity tag of RFC 9001 section 5.8).", "quantifier": "all prims, both build modes, all clients' connections, all Retry packets", "why_tests_cant": "Tests can show single packets only; the claim is about every Retry packet, and about what one does to the packets in front of it.", "anchors": ["src/packet.rs: PacketRetry::from_stream, decode_next_packet, decode_packets"]}
{"id": "C142", "title": "A payload cut short shows its first frames", "statement": "Whatever frames are decoded from the first part of a payload are the first frames of the whole payload; the last of them may be a STREAM frame with the first part of its data. A cut never turns bytes into other frames.", "quantifier": "all payloads that decode, all places to cut, both build modes", "why_tests_cant": "Every length field of every frame type at every place to cut.", "anchors": ["src/frame.rs: deserialize_frames, deserialize_frame"]}
{"id": "C143", "title": "A server does not amplify", "statement": "A server that has received one datagram answers with at most three times as many bytes (RFC 9000 section 8.1).", "quantifier": "all prims, both build modes, all servers' connections and histories, all datagrams, frames and tokens", "why_tests_cant": "A bound for all payloads and histories.", "anchors": ["src/packet.rs: PacketInitial::serialize, decode_packets", "src/connection.rs: Connection"]}
{"id": "C144", "title": "Printing a socket does not tell keys", "statement": "The text that {:?} prints for a QuicSocket or a QuicStream contains no key of a connection.", "quantifier": "all prims, both build modes, all executions of any number of threads, all orders in which the table is printed", "why_tests_cant": "The text for every table, in every state of the locks.", "anchors": ["src/interface.rs: QuicSocket, QuicStream (derive Debug)", "src/routing.rs: InternalQuicSocket, InternalQuicStream (derive Debug)", "src/connection.rs: Connection, PacketNumberSpaceInfo (derive Debug)", "src/quictls/secrets.rs: Secrets (derive Debug)"]}
{"id": "C145", "title": "Only answers are taken for Version Negotiation", "statement": "A Version Negotiation packet is returned only to a client, only when it carries the connection's two ids exchanged, and only when it does not offer version 1 (RFC 9000 sections 6.2 and 17.2.1).", "quantifier": "all prims, both build modes, all connections and histories, all datagrams", "why_tests_cant": "All ids and version lists on all connections.", "anchors": ["src/packet.rs: decode_next_packet, decode_packets, PacketVersionNegotiation::from_stream"]}
{"id": "C146", "title": "Acknowledgements are for packets that were sent", "statement": "A connection that reads an Initial packet with an ACK frame has sent the packets which the frame acknowledges; others are refused (RFC 9000 section 13.1).", "quantifier": "all prims, both build modes, all connections and histories, all datagrams", "why_tests_cant": "All ranges of numbers against all histories.", "anchors": ["src/packet.rs: PacketInitial::from_stream", "src/frame.rs: FrameAck", "src/connection.rs: PacketNumberSpaceInfo"]}
{"id": "C147", "title": "A client reads no 0-RTT packets", "statement": "A client connection reads no 0-RTT packet, neither before nor after it is given the secrets for application data: only clients send them (RFC 9000 section 17.2.3, RFC 9001 section 5.6).", "quantifier": "all prims, both build modes, all client connections and histories, all secrets, all datagrams", "why_tests_cant": "All datagrams against all secrets and histories.", "anchors": ["src/packet.rs: PacketZeroRtt::from_stream, decode_next_packet", "src/connection.rs: Connection"]}
