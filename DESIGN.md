# Formal model of Seamooo/quic-sea in Rocq (Coq 8.16.1)

Everything is under `rocq/theories` (logical name `Verif`).  The code is Rust; nothing of it is executed here.
The model is a hand transcription, function by function, into total Gallina functions; every definition cites the
file and lines it models and says what it simplifies.

## Layers

| layer | files | content |
|---|---|---|
| base | `Base.v` | `error`, `outcome` (Ok / Err / Panic / Diverge), machine arithmetic with an explicit overflow-check flag |
| model | `Utils.v Frame.v Constructors.v TransportParams.v CipherSuite.v Secrets.v Connection.v Packet.v Buffers.v Printing.v Routing.v Threads.v LogText.v DebugText.v Prettify.v` | the code; no proofs |
| histories | `Histories.v` | sequences of API calls on a connection, reachable connections |
| spec | `Spec.v SpecPacket.v SpecTransport.v SpecRouting.v` | independent specifications: RFC 9000 / 9001 / 8446 layouts, reference arithmetic, laws of the external primitives (`prims_ok`), vocabulary for executions; no model function is mentioned, except that `SpecRouting.v` names the header parser and the decoder (`header_is`), which C17, C101 and `addressed` (C38, C39, C103) specify by bytes |
| lemmas | `Tactics.v UtilsFacts.v ParserFacts.v FrameFacts.v SecretsFacts.v HeaderFacts.v PacketFacts.v ConnectionFacts.v PacketInv.v DecodeFacts.v SendFacts.v ProtectedInv.v BuildFacts.v PrintingFacts.v RoutingFacts.v RoutingSafe.v SoloFacts.v LocalFacts.v SampleRuns.v LogTextFacts.v` | |
| properties | `Prop*.v` | the theorems `Cnn_*`, each with an `Example` and `Print Assumptions` |
| concrete crypto | `Sha256.v Aes128.v CryptoInst.v` | executable SHA-256, HMAC, HKDF, AES-128, GCM; published test vectors; proof that they meet `prims_ok` |
| crate tests | `RepoTests.v` | every unit test of the crate, replayed on the model by `vm_compute` |

## Trusted base

* The Coq 8.16.1 kernel (with `vm_compute`), `coqchk`.
* `Print Assumptions` answers "Closed under the global context" for every theorem: no axiom is used, neither of ours nor
  of the standard library.  (`coqchk -o` lists axioms of standard library files that are loaded through `Lia`/`ssreflect`
  dependencies; no theorem depends on them.)
* The transcription from Rust, i.e. the model files listed above, and the reading of the RFCs in `Spec*.v`.
* Behaviour of `hkdf`, `sha2`, `openssl`: a record `prims` of functions; theorems that need it assume `prims_ok P` (AEAD open
  inverts seal and only that, output lengths, key and label lengths).  `real_prims_ok` proves it of the executable
  SHA-256 / AES-128-GCM, so the hypothesis is satisfiable by the real algorithms; that OpenSSL computes these functions is
  trusted.  No computational hardness assumption is made or used.
* `std`: integer operations, `Vec`, iterators, `HashMap` as a finite map with equality on `U160`, `Mutex`/`RwLock` (mutual exclusion,
  poisoning when an exclusive guard is dropped by a panic), unbounded `mpsc` channels.

## Modelling decisions

* **Results.** `error::Result<T>` is `outcome T` (error messages kept verbatim).  A panic (`unwrap`, `assert!`, index or slice out of
  range, `todo!()`, checked overflow) is `Panic why`.  A loop given fuel returns `Diverge` when it runs out; theorems
  exclude that.
* **Overflow** panics with overflow checks (debug) and wraps without (release).  Functions with such arithmetic take
  `oc : bool`; theorems quantify over it, and C81 compares the two.  Shifts, masks and `as` casts are written with explicit
  `mod 2^w`.  `usize` has 64 bits.
* **Bytes** are `N`, constrained to `< 256` where it matters (`bytes_ok`).
* **Streams.** `Iterator<Item = Result<u8>>` is a byte list: the only such iterators in the crate (`make_result_stream`, the map in
  `route_datagram`, `peekable`) never yield `Err`.  After an `Err` the position is dropped: every caller abandons the stream.
* **`&mut self`** becomes returning the new value; `clone()` of a stream is sharing.
* **Threads.** Functions of `routing.rs` are trees of atomic instructions (`prog`, `Routing.v`): one lock operation, one access to
  shared data, one network or random input, one print per instruction.  `Threads.v` interleaves any number of threads
  arbitrarily; a panic drops the guards and poisons exclusive ones.  Guard lifetimes follow the source (temporaries of
  tail expressions, of `if` conditions and of `match` scrutinees live to the end of the statement).  Waiting for a lock
  is not being able to step.
  `InternalQuicStream` holds an `mpsc::Receiver`, which is `!Sync`, so safe Rust cannot share the socket between threads at
  all: the executions quantified over are a superset of the real ones, and every refutation uses a run of one thread.
* **Network.** `recv_from` delivers an arbitrary datagram, cut to 4096 bytes as on Unix, or an arbitrary I/O error.  The random
  generator delivers arbitrary numbers or fails.
* **Printing.** Every `println!` the socket can reach may fail, and then panics: the lines of the traffic log, of refused headers,
  and the one on a short input in `var_bytes_from_stream`, deep inside the decoder.  For the latter `Printing.v` repeats every
  function above it, returning the lines printed beside the result; `PrintingFacts.v` proves the results those of `Packet.v` and
  that at most one line is printed, last, so `Routing.v` can make printing it a step of its own before the result is used.  The
  theorems about decoding alone (not through a socket) are about a working stdout, except C87.

## Not modelled

`main.rs`, what `tools/prettify_bin.py` reports on the terminal, `Debug` of transport parameters, datagrams and packet number spaces (never printed and not inside a printed type), `QuicSocket::bind` beyond producing an empty socket, allocation failure other than in
`Buffers.v`, real time, memory layout.  A `QuicStream` cannot be obtained: `connect` is `unimplemented!()` and `accept` ends in `todo!()`
(C41), so `Drop for QuicStream` is covered by `drop_connection`.

## How the wrong programs were tried

`seeded/LOG.jsonl` has a line per attempt: a scratch copy of the theories gets one edit in a model file, everything that depends on
it is rebuilt, failing proofs are noted and skipped, and what can no longer be proved is listed.

## Properties

Status `partial` means that the code violates the full statement: `Cnn_statement` is the full statement, `Cnn_*_refuted` proves its
negation, `Cnn_*_partial` and the other theorems say what holds instead, in most cases exactly.

| id | property | status | theorems |
|---|---|---|---|
| C01 | Variable-length integer round trip | proved | `C01_varint_roundtrip` |
| C02 | Variable-length integers follow RFC 9000 section 16, minimally | proved | `C02_varint_encoder_minimal`, `C02_varint_decoder_complete`, `C02_varint_decoder_exact` |
| C03 | The slice decoder for variable-length integers inverts the encoder | partial | `C03_slice_decoder_partial`, `C03_slice_decoder_refuted`, `C03_slice_decoder_reads`, `C03_slice_decoder_wrong`, `C03_slice_decoder_exact` |
| C04 | Connection ids survive the wire at every length | proved | `C04_cid_write_read`, `C04_cid_read_write`, `C04_cid_short_stream`, `C04_cid_overlong_panics`, `C04_cid_full_read` |
| C05 | Fixed-width integers are read big-endian and never partially | proved | `C05_fixed_width_read`, `C05_fixed_width_roundtrip`, `C05_all_widths`, `C05_byte_block` |
| C06 | floor_log2 returns the floor of the base-2 logarithm | partial | `C06_floor_log2_partial`, `C06_floor_log2_refuted` |
| C07 | Frame sequences round-trip | proved | `C07_frames_roundtrip` |
| C08 | STREAM frames round-trip | partial | `C08_stream_roundtrip_partial`, `C08_stream_roundtrip_refuted`, `C08_stream_length_never_parsed` |
| C09 | CRYPTO frames carry exactly Length bytes at any offset | partial | `C09_crypto_offset_partial`, `C09_crypto_offset_zero_partial`, `C09_crypto_offset_refuted`, `C09_crypto_offset_exact` |
| C10 | Frame decoding is total | proved | `C10_frame_decoding_total`, `C10_frame_decoding_mode_independent` |
| C100 | Packet numbers of later packets are recovered | partial | `C100_numbers_refuted`, `C100_field_alone_partial`, `C100_rfc_reads`, `C100_recorded` |
| C101 | A parsed header reports what its bytes say | partial | `C101_accessors_refuted`, `C101_length_and_type_partial`, `C101_id_partial`, `C101_number_length` |
| C102 | Calls in progress complete | proved | `C102_runs_end`, `C102_inputs_accept`, `C102_completable`, `C102_every_schedule` |
| C103 | Connections open with the keys of their datagram | proved | `C103_keys_of_datagram` |
| C104 | No byte of a Handshake packet can be changed | proved | `C104_handshake_change` |
| C105 | No byte of a 0-RTT or 1-RTT packet can be changed | partial | `C105_zero_rtt_partial`, `C105_one_rtt_partial`, `C105_refuted` |
| C106 | Calls that succeed print nothing | proved | `C106_success_silent`, `C106_few_lines` |
| C107 | Exactly when a packet can be sent | proved | `C107_initial_sent`, `C107_handshake_sent`, `C107_handshake_without_keys` |
| C108 | Decoded packets hold no more than the datagram | proved | `C108_one_packet`, `C108_datagram`, `C108_reachable` |
| C109 | New connections get the first free random id | proved | `C109_drawn`, `C109_first_free`, `C109_short_header` |
| C11 | Frame decoding does not amplify input | proved | `C11_no_amplification` |
| C110 | The socket is linearizable | proved | `C110_linearizable` |
| C111 | Packets sent to an issued id reach the connection and are understood | proved | `C111_read`, `C111_delivered` |
| C112 | Over a hostile network, what is read was sent | proved | `C112_understood`, `C112_sent_or_forged`, `C112_numbers` |
| C113 | The log can be read back and cannot be forged | proved | `C113_one_line_each`, `C113_log_reads_back`, `C113_headers_arrived` |
| C114 | The dump tool shows every byte of a file | proved | `C114_layout`, `C114_reads_back`, `C114_files` |
| C115 | No data at or beyond offset 2^62 | proved | `C115_received`, `C115_sent` |
| C116 | At most 2^23 packets are protected with one key | partial | `C116_refuted`, `C116_limit_partial`, `C116_all_sent` |
| C117 | Forbidden frames in Handshake and 0-RTT packets are refused | partial | `C117_permitted_refuted`, `C117_every_handshake_payload`, `C117_every_zero_rtt_payload` |
| C118 | Tokens in a server's Initial packets are neither sent nor accepted | partial | `C118_refuted`, `C118_client_accepts`, `C118_server_sends` |
| C119 | A client sends to the id the server chose | partial | `C119_refuted`, `C119_always_the_first` |
| C12 | Unknown frame types are rejected | partial | `C12_unknown_types_partial`, `C12_unknown_types_refuted` |
| C120 | Packets of different kinds share a datagram | proved | `C120_packet_alone`, `C120_datagrams_compose`, `C120_mixed`, `C120_exactly`, `C120_last` |
| C121 | A packet that cannot be read does not cost the others | partial | `C121_refuted`, `C121_rfc_flight_lost`, `C121_flight_lost`, `C121_one_costs_all`, `C121_one_byte` |
| C122 | Over a hostile network, Initial and Handshake packets read were sent | proved | `C122_understood`, `C122_sent_or_forged`, `C122_numbers`, `C122_starts` |
| C123 | What a server reads was sent by the client that opened the connection | proved | `C123_read_was_sent` |
| C124 | A packet shows only the size of its payload | proved | `C124_only_sizes`, `C124_only_sizes_api`, `C124_visible_initial`, `C124_visible_handshake` |
| C125 | What is read on a connection does not depend on other traffic | proved | `C125_same_connection`, `C125_same_packets` |
| C126 | The code of an error says what went wrong | partial | `C126_refuted`, `C126_always_internal`, `C126_socket` |
| C127 | Packet numbers start at 0 | partial | `C127_refuted`, `C127_first_is_one`, `C127_zero_never_used` |
| C128 | A client's Initial datagrams have at least 1200 bytes | partial | `C128_refuted`, `C128_as_short_as_its_frames`, `C128_padded_by_caller` |
| C129 | Transport parameters out of range are not written | partial | `C129_range_refuted`, `C129_range_sent`, `C129_only_width_checked` |
| C13 | Serialised frames follow the RFC 9000 section 19 layout | proved | `C13_encoder_rfc_layout`, `C13_sequence_rfc_layout` |
| C130 | A client can open a connection | partial | `C130_connect_refuted`, `C130_connect_panics`, `C130_servers_only` |
| C131 | Received packets can be acknowledged | partial | `C131_acknowledge_refuted`, `C131_never_acknowledges`, `C131_payload_read`, `C131_only_constructor_missing` |
| C132 | 0-RTT and 1-RTT packets have keys of their own | partial | `C132_refuted`, `C132_same_keys` |
| C133 | Packets of the next key phase are opened with the next keys | partial | `C133_refuted`, `C133_one_set_of_keys` |
| C134 | Keys that are no longer needed are discarded | partial | `C134_discard_refuted`, `C134_reading_refuted`, `C134_initial_unaffected`, `C134_handshake_unaffected`, `C134_reading_unaffected` |
| C135 | The log shows every number and flag under its name | proved | `C135_log_says`, `C135_frames`, `C135_headers`, `C135_packets` |
| C136 | Frames that ask for an answer can be answered | proved | `C136_challenge_answered`, `C136_challenge_returns`, `C136_stop_answered`, `C136_id_retired` |
| C137 | The source id of a connection's packets stays the same | partial | `C137_source_refuted`, `C137_any_source` |
| C138 | A packet cut short is not read | proved | `C138_cut_datagram`, `C138_cut_packet`, `C138_sent_packet` |
| C139 | Sent packets fit into a datagram | partial | `C139_refuted`, `C139_fits_partial`, `C139_any_size` |
| C14 | RFC-conformant frames from any peer are understood | proved | `C14_decoder_complete`, `C14_sequence_complete` |
| C140 | Nothing is sent after a close | partial | `C140_refuted`, `C140_goes_on` |
| C141 | Retry packets are read | partial | `C141_refuted`, `C141_always_panics`, `C141_datagram_panics` |
| C142 | A payload cut short shows its first frames | proved | `C142_cut_payload` |
| C143 | A server does not amplify | partial | `C143_refuted`, `C143_no_limit` |
| C144 | Printing a socket does not tell keys | partial | `C144_refuted`, `C144_all_keys`, `C144_initial_keys`, `C144_locked`, `C144_no_queue` |
| C145 | Only answers are taken for Version Negotiation | partial | `C145_refuted`, `C145_any_accepted`, `C145_same_for_all`, `C145_appended` |
| C146 | Acknowledgements are for packets that were sent | partial | `C146_refuted`, `C146_any_acknowledged` |
| C147 | A client reads no 0-RTT packets | partial | `C147_refuted`, `C147_without_secrets`, `C147_any_role` |
| C15 | Truncated frames are rejected | proved | `C15_truncated_rejected` |
| C16 | Final STREAM frame without length | proved | `C16_final_stream` |
| C17 | Long headers are parsed and re-emitted byte-exactly | proved | `C17_header_reemitted`, `C17_header_fields`, `C17_header_total`, `C17_long_ids_rejected` |
| C18 | Header protection is an involution that hides only protected bits | proved | `C18_long_involution`, `C18_short_involution`, `C18_long_bits`, `C18_short_bits`, `C18_idempotent`, `C18_protected_bits_unreadable` |
| C19 | Packet-number masking is an involution | proved | `C19_pn_mask` |
| C20 | Initial packets travel between peers | proved | `C20_initial_travels`, `C20_initial_delivered` |
| C21 | Handshake packets travel between peers once keys are installed | proved | `C21_handshake_travels` |
| C22 | Coalesced datagrams decode to the packets sent, in order | proved | `C22_coalesced`, `C22_conformant_coalesced` |
| C23 | Initial packets with 1 to 4 byte packet numbers are accepted | partial | `C23_four_byte_numbers_partial`, `C23_short_number_refused`, `C23_short_number_exact`, `C23_refuted`, `C23_strict_refuted` |
| C24 | Decoding a datagram never panics | partial | `C24_decoding_partial`, `C24_decoding_refuted`, `C24_next_packet_exact`, `C24_datagram_exact` |
| C25 | Accepted packets are exactly what the AEAD authenticated | proved | `C25_accepted_is_authentic`, `C25_accepted_iff_conformant` |
| C26 | Version negotiation packets parse to the offered versions | proved | `C26_version_negotiation`, `C26_version_negotiation_exact` |
| C27 | Packets are dispatched by header form, version and type bits | proved | `C27_dispatch`, `C27_type_stable`, `C27_returned_header_type` |
| C28 | No packets without keys | proved | `C28_no_handshake_packet_leaves`, `C28_no_protected_packet_accepted` |
| C29 | Packet numbers strictly increase and are never reused | partial | `C29_packet_numbers_partial`, `C29_issued_increasing`, `C29_issued_consecutive`, `C29_wrap_refuted` |
| C30 | AEAD nonces are never reused | proved | `C30_nonce_injective`, `C30_nonces_never_reused` |
| C31 | Truncated packet numbers reconstruct | partial | `C31_truncation_partial`, `C31_truncation_refuted`, `C31_reconstructed_value`, `C31_large_gap_panics` |
| C32 | Client and server derive mirrored Initial keys | proved | `C32_mirrored_keys`, `C32_initial_keys`, `C32_keys_determined`, `C32_long_id_panics` |
| C33 | HKDF labels are encoded injectively in the TLS 1.3 format | proved | `C33_hkdf_label`, `C33_hkdf_label_injective`, `C33_expand_label` |
| C34 | Payload protection round trip and size | proved | `C34_payload_roundtrip`, `C34_encrypt_succeeds`, `C34_decrypt_only_encrypted` |
| C35 | Decrypting a short payload is an error, not a crash | partial | `C35_short_ciphertext_refuted`, `C35_short_ciphertext_panics`, `C35_ciphertext_partial` |
| C36 | Sender and receiver compute the same header-protection mask | proved | `C36_same_mask`, `C36_mask_needs_16_bytes`, `C36_initial_sample`, `C36_handshake_sample` |
| C37 | Every registered connection is filed under its own id | proved | `C37_filed_under_own_id` |
| C38 | Routing delivers a datagram to exactly one connection, in order | proved | `C38_send_step`, `C38_queue_exact`, `C38_route_call`, `C38_wire_send`, `C38_wire_route` |
| C39 | Dropping a connection removes only it | proved | `C39_remove_step`, `C39_drop_call`, `C39_refused`, `C39_route_refused`, `C39_wire_refused` |
| C40 | Accept never displaces an existing connection | proved | `C40_insert_step`, `C40_kept_until_dropped` |
| C41 | Accept returns a stream for a new client | partial | `C41_accept_registers_partial`, `C41_never_returns`, `C41_accept_returns_refuted` |
| C42 | Accept survives hostile datagrams | partial | `C42_survives_partial`, `C42_routed_partial`, `C42_garbage_kills`, `C42_lost_datagram_kills`, `C42_survives_refuted` |
| C43 | The Initial datagram that opens a connection reaches it | partial | `C43_never_delivered`, `C43_initial_delivered_refuted` |
| C44 | A retransmitted Initial does not create a second connection | partial | `C44_always_again`, `C44_no_duplicate_refuted` |
| C45 | Distinct connection ids are routed apart | partial | `C45_routed_apart_partial`, `C45_confusion_exact`, `C45_version_negotiation`, `C45_routed_apart_refuted` |
| C46 | Server replies are addressed to the client's source id | partial | `C46_addressed_to_original_id`, `C46_reply_address_refuted` |
| C47 | No deadlock and no poisoned lock | proved | `C47_no_deadlock`, `C47_no_leaked_guard`, `C47_no_poison`, `C47_logging_poisons` |
| C48 | The public logging switch has no effect | proved | `C48_logging_stays_off`, `C48_switch_erasable` |
| C49 | Transport parameters are self-delimiting | proved | `C49_format_unambiguous`, `C49_serialize_exact`, `C49_self_delimiting` |
| C50 | The preferred_address parameter follows RFC 9000 section 18.2 | partial | `C50_preferred_address_partial`, `C50_never_conformant`, `C50_preferred_address_refuted` |
| C51 | Error codes are distinct and RFC-assigned | proved | `C51_error_codes` |
| C52 | Unsupported versions are not treated as version 1 | partial | `C52_every_version_accepted`, `C52_version_refuted`, `C52_any_version_opens` |
| C53 | Coalesced packets for another connection are not accepted | partial | `C53_any_ids_accepted`, `C53_other_ids_refuted` |
| C54 | Sent packets are RFC packets | proved | `C54_initial_conformant`, `C54_handshake_conformant` |
| C55 | No byte of an accepted packet can be changed | partial | `C55_change_partial`, `C55_authenticated_but_gap_partial`, `C55_byte_change_refuted` |
| C56 | A datagram is exactly its packets | proved | `C56_packets_partition`, `C56_packet_count` |
| C57 | Duplicate packets are discarded | partial | `C57_replay_accepted`, `C57_duplicates_refuted` |
| C58 | Forbidden frames in Initial packets are refused | partial | `C58_every_payload_accepted`, `C58_permitted_refuted` |
| C59 | Fixed and reserved bits are checked | partial | `C59_every_byte_accepted`, `C59_bits_refuted` |
| C60 | Packets without frames are refused | partial | `C60_empty_accepted`, `C60_empty_refuted` |
| C61 | Conformant Handshake, 0-RTT and 1-RTT packets are accepted | partial | `C61_handshake_partial`, `C61_zero_rtt_partial`, `C61_one_rtt_partial`, `C61_short_handshake_refused`, `C61_short_zero_rtt_refused`, `C61_short_one_rtt_shifted`, `C61_short_handshake_exact`, `C61_short_zero_rtt_exact`, `C61_short_one_rtt_exact`, `C61_refuted`, `C61_strict_refuted` |
| C62 | The packet number is what the packet number field says | partial | `C62_number_partial`, `C62_handshake_four_bytes`, `C62_handshake_refuted` |
| C63 | Accepted Handshake, 0-RTT and 1-RTT packets are authentic | proved | `C63_handshake_authentic`, `C63_zero_rtt_authentic`, `C63_one_rtt_authentic` |
| C64 | Version Negotiation headers re-encode to their bytes | partial | `C64_ids_lost`, `C64_reemitted_refuted` |
| C65 | ACK ranges below zero are refused | partial | `C65_count_partial`, `C65_all_ranges_accepted`, `C65_negative_refuted` |
| C66 | NEW_CONNECTION_ID frames are checked | partial | `C66_new_connection_id_partial`, `C66_any_retirement_accepted`, `C66_retire_refuted` |
| C67 | Stream limits and empty tokens are refused | partial | `C67_nothing_refused`, `C67_limits_refuted` |
| C68 | Only RFC frames are decoded | partial | `C68_decoder_exact`, `C68_decoder_sound_partial`, `C68_payload_exact`, `C68_sound_refuted` |
| C69 | Decoded payloads can be re-encoded | proved | `C69_reencoded` |
| C70 | Reading a few bytes as a number | proved | `C70_var_u32` |
| C71 | Frame constructors keep what they are given | partial | `C71_constructors_partial`, `C71_written`, `C71_long_id_truncated`, `C71_constructors_refuted` |
| C72 | The packet that opens a connection is read with it | partial | `C72_opening_understood_partial`, `C72_not_found`, `C72_decoded_refuted` |
| C73 | One connection per accept, and only for Initials | proved | `C73_only_initials_open`, `C73_one_per_accept` |
| C74 | No datagram is lost or reordered inside accept | proved | `C74_conserved` |
| C75 | Datagrams are delivered whole | partial | `C75_whole_partial`, `C75_first_4096`, `C75_whole_refuted` |
| C76 | Initial packets in small datagrams open no connection | partial | `C76_whole_header_partial`, `C76_any_initial_opens`, `C76_size_refuted` |
| C77 | Only a failing log line poisons a lock | proved | `C77_poison_cause` |
| C78 | The work of a call is bounded by its input | proved | `C78_bounded_work`, `C78_bounded_other_calls` |
| C79 | Only accept waits for the network | proved | `C79_only_accept_waits` |
| C80 | Initial packets with short ids open no connection | partial | `C80_id_length_refuted`, `C76_any_initial_opens`, `C76_whole_header_partial` |
| C81 | Release builds do what debug builds do | partial | `C81_receiving_partial`, `C81_same_packets`, `C81_sending`, `C81_creating`, `C81_builds_refuted` |
| C82 | A packet means the same in front of anything | proved | `C82_packet_alone`, `C82_datagrams_compose` |
| C83 | Frames of a payload are read one by one | partial | `C83_payloads_partial`, `C83_payloads_refuted`, `C83_stream_swallows` |
| C84 | Sent packets are as small as they can be | proved | `C84_initial_size`, `C84_handshake_size` |
| C85 | Zeroed buffers are what they say | partial | `C85_zeroed_partial`, `C85_too_large`, `C85_undefined`, `C85_zeroed_refuted` |
| C86 | Buffers hold initialised elements | partial | `C86_never_initialised`, `C86_empty_partial`, `C86_initialised_refuted` |
| C87 | Refusing a short input has no side effect | partial | `C87_printed`, `C87_result_partial`, `C87_decoder_partial`, `C87_header_lines`, `C87_frames_lines`, `C87_datagram_lines`, `C87_sending_lines`, `C87_sending_partial`, `C87_silent_refuted` |
| C88 | Constructed frames arrive or are refused | partial | `C88_refused`, `C88_arrives_partial`, `C88_arrives_refuted` |
| C89 | Sending does not change receiving | proved | `C89_receiving_unaffected` |
| C90 | A packet sent again is the same packet | proved | `C90_initial_resent`, `C90_handshake_resent` |
| C91 | Different frames are different bytes | proved | `C91_format_unambiguous`, `C91_encoder_injective` |
| C92 | Different packets are different bytes | proved | `C92_initial_unambiguous`, `C92_handshake_unambiguous`, `C92_initial_same_packet`, `C92_handshake_same_packet` |
| C93 | Concurrent calls take effect one at a time | proved | `C93_calls_atomic`, `C93_changes_atomic` |
| C94 | Frames are sent in as few bytes as the format allows | proved | `C94_frame_minimal`, `C94_payload_minimal`, `C94_packet_payload_minimal` |
| C95 | The first packet of a datagram is read by the connection it is addressed to | proved | `C95_header_is_packets`, `C95_read_by_addressee` |
| C96 | Connections can be closed | partial | `C96_closed_refuted`, `C96_never_closed` |
| C97 | The socket keeps only connections the program holds | partial | `C97_held_refuted`, `C97_all_kept`, `C97_unbounded` |
| C98 | Datagrams waiting for a connection are limited | partial | `C98_limited_refuted`, `C98_all_waiting`, `C98_unbounded` |
| C99 | Sent packet number fields are long enough for any conformant receiver | partial | `C99_understood_refuted`, `C99_issued_understood_partial`, `C99_field_length`, `C99_as_read` |

### How they are proved

* C01–C06, C70: arithmetic on big-endian values; loop invariants against `be_val`.
* C07–C16, C65–C69, C71, C83, C88: the encoder is sound for and the decoder complete for the relation `frame_enc`; `tame` and `delim`
  (closure properties of parsers) give totality, no amplification and prefix determinism; `C68_decoder_exact` inverts the decoder.
* C17–C19, C26, C27, C64: headers, by cases on the parser.
* C20–C25, C52–C63, C82, C84: encoder and decoder against the packet layouts of `SpecPacket.v`; inversion of the decoder on arbitrary
  bytes (`PacketInv.v`, `ProtectedInv.v`).
* C28–C32, C81: invariants over all call histories of a connection (`conn_inv`); C81 relates two runs step by step.
* C33–C36: key derivation and payload protection.
* C37–C48, C72–C80: a weakest-precondition predicate over programs, an invariant of the shared state that holds under all
  interleavings (`RoutingFacts.v`, `RoutingSafe.v`), and concrete single-thread runs for refutations (`SoloFacts.v`, `SampleRuns.v`).
* C91, C92: the wire relations are injective, by peeling one self-delimiting field after the other.
* C93: linearisation points; the contract of a finished call names the action, `at_action` finds it in the execution.
* C94: case analysis over frames with C02's minimal integers.  C95: inversion of the decoders, then C93 and C37.
* C96–C98: programs that only use the public interface (`user_run`); invariants over all executions from C93, concrete runs by induction on their length.
* C99, C100: appendix A.3 of RFC 9000 written out as `rfc_decode_pn`, compared with `truncate_pn` and `reconstruct_remote_pn` by window arithmetic.
* C101: inversion of the header parsers, against `wire_dcid` and `announces`.
* C102: a bound on the steps left in each thread, summed over threads; C47 for progress.
* C103: C101 and C32 composed along an execution.
* C104, C105, C55: the two byte strings are walked field by field (`diff_split`), using that every field is determined by the packet that comes out.
* C107: the results of C20–C23 and C29 joined into one decision over histories.  C108: the accepted layouts of C25, C26 and C63, the AEAD length law and C11.
* C109: a per-program predicate on draws and lookups, invariant along executions (`local_inv`).
* C110: by induction on the execution an event is assigned to every step at which a call took effect (C93); earlier assignments are only ever changed for the call that ends.
* C111: the moment of the call (C93) falls into a state that still has the connection (C40), whose keys are those of its client (C103, C32), so its packets decode (C22).
* C112: `talk` is a transition system of two connections and an attacker; acceptance is taken apart with C25, sent packets with their RFC form, and a sealed text that occurs in an accepted packet is shown to bring the rest of its packet with it.
* C23: `C23_short_number_exact` evaluates the decoder on a conformant packet with a short number and any bytes behind it. The packet of its example was found by solving GHASH, which is linear, for a ciphertext whose shifted form has a valid tag; the proof only evaluates it.
* C113: printing is rendering a tree (`dbg`); rendering is shown to be prefix-decodable by induction over trees, the trees of the crate's types injective, and lines free of newlines.  That each logged header arrived is an invariant of programs (`logs`).
* C114: `dump` is an inductive description of the layout; the list comprehension, the strided slices and the zip of the tool are shown to produce it by induction over blocks of 32 bytes.
* C115-C119: C115 follows from the exact decoder (C68) and serializer (C88) characterisations; the refuted limits come with the exact behaviour, obtained from C107 (what can be sent), C29 (numbers issued), C61 and the packets constructed for C58.
* C120-C121: the packet inversions of C63 run backwards in front of other bytes, as in C82; termination of the loop by the weight of C108.
* C122: as C112, with one description of the layout of both kinds (`laid_out`); equal associated data force the same kind.
* C123: the call takes effect in a state (C93) in which the connection was opened for a datagram (C38, C73), so has its keys (C103); then the argument of C112.
* C124: two runs side by side; the only place a payload enters after its length is taken is the seal.
* PropRepairs.v is about functions that are *not* in the crate: the decoders, the logarithm and the packet number truncation with one line changed. It shows that seven refuted statements (C03, C06, C08, C09, C12, C68, C99) can be met, and by which change. No MANIFEST entry counts its theorems.
* PropRepairsPn.v, PropRepairsTotal.v and PropRepairsExact.v, likewise, are about one corrected packet decoder: it gives the bytes behind a short packet number back to the ciphertext, refuses a Length field too small for a sample, and reports an error where the crate unwraps or has todo!(). It reads exactly the conformant packets, whatever the length of the packet number (C23, C25, C61, C62, C63), never panics (C24), and two byte strings read as the same packet hold two texts sealed under the same nonce (C55, C104, C105).
* PropRepairsFrames.v, likewise, is about one corrected frame decoder, which reads STREAM frames that are not the last of a payload and refuses field values RFC 9000 does not allow: it reads exactly the valid payloads (C65, C66, C67, C71, C83, C88).
* PropRepairsChecks.v puts the two decoders together, adds the rules of RFC 9000 sections 12.4 and 17.2 and cuts a datagram into its packets by their Length fields. The result accepts exactly the packets that conform in every respect, never panics, and meets C52, C53, C58, C59, C60, C117, the reading half of C118 and C121 at the same time. C23 and C61 as stated ask for more, namely that packets are read whatever their version, bits and frames; PropStrict.v states both for packets that conform in every respect, refutes these weaker statements for the code too, and proves them for the decoder of PropRepairsChecks.v.
* C125: two executions; a connection is a function of the datagram and the id drawn, and stays what it was until dropped.
* C126: no function ever makes another error than InternalError: by the structure of the functions, and for the socket by the structure of its programs.
* C127, C128: from the counters of C29 and the sizes of C84 and C107.
* C09, C52, C61, C83, the cases left open by their `_partial` theorems: [PropExact.v], by cutting the bytes where the decoder cuts them.
* C129: from C49. C130: induction over executions, for the thread that calls connect.
* C131: what is read from a payload of constructed frames, by induction over its frames; from C88, C71.
* C132, C133: from C61 and C63, with packets that exist for every key (protected_exists). C134: the calls of other spaces leave a space and the ids alone, by induction over the history.
* C135: a reader's view of the log (labelled values, decimal numbers by Horner's rule), independent of the printing functions, which are shown to meet it.
* C136: from the exact description of what the decoder accepts (C68). C137: packets for any header exist (accepts in PropWire.v).
* C138: the header kind of a part is that of the whole, a packet means the same in front of anything (C120), so both readings end at the same place. C139, C140: from C84 and C107, with packets that exist on every connection. C141: C27 and C82; the tag of the example is computed.
* C87 (lines of whole datagrams): no other function returns the error of `var_bytes_from_stream`, shown function by function; a computation prints exactly when it returns that error, and sequencing keeps this.
* C142: a payload that decodes has a STREAM frame at most at its end (C68), so C83 says what more bytes do to it. C143: from C139.
* C144: the text of a struct contains the text of each field; induction is only needed for lists.
* C145: from C26, C27 and C120.
* C146: from C58, with an ACK frame of one range.
* C147: from C28 and C61.
* C89, C90: the fields the codec reads are left alone by every call, by induction over histories.
* C49–C51: transport parameters and error codes.  C85–C87, C106: raw buffers, printing.
