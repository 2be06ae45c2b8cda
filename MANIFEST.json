{
 "claims": [
  {
   "property": "C01",
   "status": "proved",
   "theorems": [
    "C01_varint_roundtrip"
   ],
   "note": ""
  },
  {
   "property": "C02",
   "status": "proved",
   "theorems": [
    "C02_varint_encoder_minimal",
    "C02_varint_decoder_complete",
    "C02_varint_decoder_exact"
   ],
   "note": ""
  },
  {
   "property": "C03",
   "status": "partial",
   "theorems": [
    "C03_slice_decoder_partial",
    "C03_slice_decoder_refuted",
    "C03_slice_decoder_reads",
    "C03_slice_decoder_wrong",
    "C03_slice_decoder_exact"
   ],
   "note": "The code violates the full statement (4 and 8 byte encodings are read as 3 and 4 bytes): refuted with a witness. What the decoder returns is given for every input; it is right for exactly the numbers below 2^14. That the statement can be met is shown in PropRepairs.v (C03_repaired), for the function with that line corrected."
  },
  {
   "property": "C04",
   "status": "proved",
   "theorems": [
    "C04_cid_write_read",
    "C04_cid_read_write",
    "C04_cid_short_stream",
    "C04_cid_overlong_panics",
    "C04_cid_full_read"
   ],
   "note": ""
  },
  {
   "property": "C05",
   "status": "proved",
   "theorems": [
    "C05_fixed_width_read",
    "C05_fixed_width_roundtrip",
    "C05_all_widths",
    "C05_byte_block"
   ],
   "note": ""
  },
  {
   "property": "C06",
   "status": "partial",
   "theorems": [
    "C06_floor_log2_partial",
    "C06_floor_log2_refuted"
   ],
   "note": "The code returns floor(log2)+1 always; full statement refuted, exact behaviour proved. That the statement can be met is shown in PropRepairs.v (C06_repaired), for the function with that line corrected."
  },
  {
   "property": "C07",
   "status": "proved",
   "theorems": [
    "C07_frames_roundtrip"
   ],
   "note": ""
  },
  {
   "property": "C08",
   "status": "partial",
   "theorems": [
    "C08_stream_roundtrip_partial",
    "C08_stream_roundtrip_refuted",
    "C08_stream_length_never_parsed"
   ],
   "note": "The decoder never parses STREAM offset/length fields: refuted; proved for a final STREAM at offset 0. That the statement can be met is shown in PropRepairs.v (C08_repaired), for the function with that line corrected."
  },
  {
   "property": "C09",
   "status": "partial",
   "theorems": [
    "C09_crypto_offset_partial",
    "C09_crypto_offset_zero_partial",
    "C09_crypto_offset_refuted",
    "C09_crypto_offset_exact"
   ],
   "note": "The decoder reads length+offset data bytes: refuted for offsets above 0; proved for offset 0 and exact behaviour proved for all offsets. That the statement can be met is shown in PropRepairs.v (C09_repaired), for the function with that line corrected."
  },
  {
   "property": "C10",
   "status": "proved",
   "theorems": [
    "C10_frame_decoding_total",
    "C10_frame_decoding_mode_independent"
   ],
   "note": ""
  },
  {
   "property": "C100",
   "status": "partial",
   "theorems": [
    "C100_numbers_refuted",
    "C100_field_alone_partial",
    "C100_rfc_reads",
    "C100_recorded"
   ],
   "note": "False of the code: received numbers are never recorded, so the field alone is taken for the number (C100_field_alone_partial, exact). C100_rfc_reads: the algorithm of the RFC meets the statement. C100_recorded: what the code would compute from a recorded number."
  },
  {
   "property": "C101",
   "status": "partial",
   "theorems": [
    "C101_accessors_refuted",
    "C101_length_and_type_partial",
    "C101_id_partial",
    "C101_number_length"
   ],
   "note": "False for version 0, where the reported id is zero. Length, type and the protection flag are right for every header, the id for every other one. C101_number_length: the length of the packet number field is reported for every RFC packet, and only when the header is unprotected."
  },
  {
   "property": "C102",
   "status": "proved",
   "theorems": [
    "C102_runs_end",
    "C102_inputs_accept",
    "C102_completable",
    "C102_every_schedule"
   ],
   "note": "A step is a lock operation, an access to shared data or an input; the computations between them are functions of the model, and none of them diverges (`Hang` is excluded by the invariant behind C47)."
  },
  {
   "property": "C103",
   "status": "proved",
   "theorems": [
    "C103_keys_of_datagram"
   ],
   "note": ""
  },
  {
   "property": "C104",
   "status": "proved",
   "theorems": [
    "C104_handshake_change"
   ],
   "note": "The four bytes read for the packet number all enter the nonce, so nothing is skipped."
  },
  {
   "property": "C105",
   "status": "partial",
   "theorems": [
    "C105_zero_rtt_partial",
    "C105_one_rtt_partial",
    "C105_refuted"
   ],
   "note": "Refuted: the bytes between a packet number of less than four bytes and the ciphertext are free.  The partial theorems: any bytes there are accepted, and every other change is noticed or a forgery of ciphertext or tag under the same key, nonce and associated data. That the statement can be met is shown in PropRepairsExact.v (C105_repaired, short of two texts sealed under one number) for the decoder of PropRepairsPn.v."
  },
  {
   "property": "C106",
   "status": "proved",
   "theorems": [
    "C106_success_silent",
    "C106_few_lines"
   ],
   "note": ""
  },
  {
   "property": "C107",
   "status": "proved",
   "theorems": [
    "C107_initial_sent",
    "C107_handshake_sent",
    "C107_handshake_without_keys"
   ],
   "note": "A decision: either the three conditions hold and the bytes come out, or one fails and an error comes out. The 2 GB bound is the one of C23."
  },
  {
   "property": "C108",
   "status": "proved",
   "theorems": [
    "C108_one_packet",
    "C108_datagram",
    "C108_reachable"
   ],
   "note": "C108_datagram for connections with any keys installed, C108_reachable for the connections the library makes."
  },
  {
   "property": "C109",
   "status": "proved",
   "theorems": [
    "C109_drawn",
    "C109_first_free",
    "C109_short_header"
   ],
   "note": "C109_drawn for every execution; C109_first_free gives the run for every list of colliding draws; C109_short_header for every registered connection, given that the random source yields 8 bytes."
  },
  {
   "property": "C11",
   "status": "proved",
   "theorems": [
    "C11_no_amplification"
   ],
   "note": ""
  },
  {
   "property": "C110",
   "status": "proved",
   "theorems": [
    "C110_linearizable"
   ],
   "note": "Calls still running that have already changed the table stand in the order as well, with the result they go on to return. Printing is not part of the sequential specification."
  },
  {
   "property": "C111",
   "status": "proved",
   "theorems": [
    "C111_read",
    "C111_delivered"
   ],
   "note": "Restrictions on the packets are those of C08, C09 and C23."
  },
  {
   "property": "C112",
   "status": "proved",
   "theorems": [
    "C112_understood",
    "C112_sent_or_forged",
    "C112_numbers"
   ],
   "note": "C112_sent_or_forged is the reduction to the integrity of the AEAD: it exhibits the forgery. sealed is what the other side gave to the AEAD for a packet it sent."
  },
  {
   "property": "C113",
   "status": "proved",
   "theorems": [
    "C113_one_line_each",
    "C113_log_reads_back",
    "C113_headers_arrived"
   ],
   "note": "LogText.v models derived Debug and the Debug instances of std. Standard output only: panics also write to the standard error. A println either writes its line or fails as a whole."
  },
  {
   "property": "C114",
   "status": "proved",
   "theorems": [
    "C114_layout",
    "C114_reads_back",
    "C114_files"
   ],
   "note": "What the tool reports on the terminal is not modelled."
  },
  {
   "property": "C115",
   "status": "proved",
   "theorems": [
    "C115_received",
    "C115_sent"
   ],
   "note": ""
  },
  {
   "property": "C116",
   "status": "partial",
   "theorems": [
    "C116_refuted",
    "C116_limit_partial",
    "C116_all_sent"
   ],
   "note": "Refuted: there is no key update and no limit other than the packet number field. Exactly 2^32 - 1 packets can be sent with the Initial key: never more (in debug builds, or in histories of fewer than 2^64 calls), and every number up to that is reached."
  },
  {
   "property": "C117",
   "status": "partial",
   "theorems": [
    "C117_permitted_refuted",
    "C117_every_handshake_payload",
    "C117_every_zero_rtt_payload"
   ],
   "note": "Refuted: no frame is refused; every payload that the frame decoder reads is accepted in both packet types, with any version other than 0, ids and packet number. Keys for these packets are assumed installed (C28). That the statement can be met, together with those about conformant packets, is shown in PropRepairsChecks.v (C117_repaired)."
  },
  {
   "property": "C118",
   "status": "partial",
   "theorems": [
    "C118_refuted",
    "C118_client_accepts",
    "C118_server_sends"
   ],
   "note": "Refuted on both sides: a client in any state accepts every token below 2 GB, and a server sends every such token whenever it can send at all (C107). That the statement can be met, together with those about conformant packets, is shown in PropRepairsChecks.v (C118_repaired_reading, the reading half)."
  },
  {
   "property": "C119",
   "status": "partial",
   "theorems": [
    "C119_refuted",
    "C119_always_the_first"
   ],
   "note": "Refuted: the destination id cannot be changed; every Initial packet of a connection, after any history, is addressed to the id the connection was created with."
  },
  {
   "property": "C12",
   "status": "partial",
   "theorems": [
    "C12_unknown_types_partial",
    "C12_unknown_types_refuted"
   ],
   "note": "The frame type is truncated to 8 bits: refuted; proved whenever the low 8 bits are above 0x1e, and exact aliasing proved. That the statement can be met is shown in PropRepairs.v (C12_repaired), for the function with that line corrected."
  },
  {
   "property": "C120",
   "status": "proved",
   "theorems": [
    "C120_packet_alone",
    "C120_datagrams_compose",
    "C120_mixed",
    "C120_exactly",
    "C120_last"
   ],
   "note": "Packet numbers have four bytes because of C61; no function of the crate installs Handshake or application keys (C28)."
  },
  {
   "property": "C121",
   "status": "partial",
   "theorems": [
    "C121_refuted",
    "C121_rfc_flight_lost",
    "C121_flight_lost",
    "C121_one_costs_all",
    "C121_one_byte"
   ],
   "note": "Refuted: the error of one packet is the error of the datagram. On every connection of the library a Handshake, 0-RTT or 1-RTT packet makes all packets in front of it lost, and one byte behind a readable datagram panics (C24). That the statement can be met, together with those about conformant packets, is shown in PropRepairsChecks.v (C121_repaired)."
  },
  {
   "property": "C122",
   "status": "proved",
   "theorems": [
    "C122_understood",
    "C122_sent_or_forged",
    "C122_numbers",
    "C122_starts"
   ],
   "note": "No function of the crate installs Handshake keys (C28); conversations start from connections in which they were installed, which C122_starts shows to exist for every id and all secrets."
  },
  {
   "property": "C123",
   "status": "proved",
   "theorems": [
    "C123_read_was_sent"
   ],
   "note": "The packets of the client are those the decoder can represent, as in C111: four byte numbers (C23), no STREAM frames (C08), CRYPTO at offset 0 (C09). C111 is the converse. Initial keys follow from the id on the wire, so a forger needs no secret; the claim is which connection's client a packet is attributed to, and that nothing the client sealed is taken out of its packet."
  },
  {
   "property": "C124",
   "status": "proved",
   "theorems": [
    "C124_only_sizes",
    "C124_only_sizes_api",
    "C124_visible_initial",
    "C124_visible_handshake"
   ],
   "note": "The first two hold for idealised encryption (which cannot satisfy the decryption law of prims_ok); that AES-GCM is as good is the usual assumption. Tokens are public. Timing is not modelled."
  },
  {
   "property": "C125",
   "status": "proved",
   "theorems": [
    "C125_same_connection",
    "C125_same_packets"
   ],
   "note": "Randomly drawn ids are part of the runs: both must have drawn the same one. Holds because reading changes no connection; it says nothing about timing."
  },
  {
   "property": "C126",
   "status": "partial",
   "theorems": [
    "C126_refuted",
    "C126_always_internal",
    "C126_socket"
   ],
   "note": "Refuted: the decoder reports code 1 (INTERNAL_ERROR). C126_always_internal and C126_socket: so does every function of the crate for every error, on every connection and in every execution; no other code of RFC 9000 is ever used. Only the message differs."
  },
  {
   "property": "C127",
   "status": "partial",
   "theorems": [
    "C127_refuted",
    "C127_first_is_one",
    "C127_zero_never_used"
   ],
   "note": "Refuted: the counter is incremented before it is used. The first number is 1 in every space, after any history, and 0 is never used."
  },
  {
   "property": "C128",
   "status": "partial",
   "theorems": [
    "C128_refuted",
    "C128_as_short_as_its_frames",
    "C128_padded_by_caller"
   ],
   "note": "Refuted: nothing is added to a packet; its exact size is proved. C128_padded_by_caller: the program using the crate can meet the rule, since PADDING frames behind any frames of up to 1000 bytes (with the token) bring the packet to exactly 1200 bytes."
  },
  {
   "property": "C129",
   "status": "partial",
   "theorems": [
    "C129_range_refuted",
    "C129_range_sent",
    "C129_only_width_checked"
   ],
   "note": "Every permitted value is written as the RFC says. Refuted the other way: only the width of the integer format is checked, so that every value below 2^62 and ids of every length are written."
  },
  {
   "property": "C13",
   "status": "proved",
   "theorems": [
    "C13_encoder_rfc_layout",
    "C13_sequence_rfc_layout"
   ],
   "note": ""
  },
  {
   "property": "C130",
   "status": "partial",
   "theorems": [
    "C130_connect_refuted",
    "C130_connect_panics",
    "C130_servers_only"
   ],
   "note": "Refuted: connect panics at once. It does so without touching the table, the other threads or the locks, none of which is poisoned. Consequently every connection a socket holds is a server's."
  },
  {
   "property": "C131",
   "status": "partial",
   "theorems": [
    "C131_acknowledge_refuted",
    "C131_never_acknowledges",
    "C131_payload_read",
    "C131_only_constructor_missing"
   ],
   "note": "Refuted: FrameAck::new is todo!(), and no payload of constructed frames is ever read as containing an ACK. C131_payload_read says exactly what is read from such a payload; C131_only_constructor_missing that encoder and decoder would carry any acknowledgement."
  },
  {
   "property": "C132",
   "status": "partial",
   "theorems": [
    "C132_refuted",
    "C132_same_keys"
   ],
   "note": "Refuted: both kinds use the keys of the application space. C132_same_keys: every connection with such keys reads all conformant packets of both kinds (with four byte packet numbers, see C61) under them."
  },
  {
   "property": "C133",
   "status": "partial",
   "theorems": [
    "C133_refuted",
    "C133_one_set_of_keys"
   ],
   "note": "Refuted: the key phase bit is not looked at. C133_one_set_of_keys: whatever its key phase, a 1-RTT packet that is read was opened with the one set of keys of the connection."
  },
  {
   "property": "C134",
   "status": "partial",
   "theorems": [
    "C134_discard_refuted",
    "C134_reading_refuted",
    "C134_initial_unaffected",
    "C134_handshake_unaffected",
    "C134_reading_unaffected"
   ],
   "note": "Refuted, both for sending and for reading: no keys are ever discarded. Proved instead: whatever happens in other packet number spaces, Initial and Handshake packets come out byte for byte as they would have without it, and everything is read as before."
  },
  {
   "property": "C135",
   "status": "proved",
   "theorems": [
    "C135_log_says",
    "C135_frames",
    "C135_headers",
    "C135_packets"
   ],
   "note": "On top of C113, which says that the log can be read back; this says that the names are the right ones. A name may occur again inside a nested value."
  },
  {
   "property": "C136",
   "status": "proved",
   "theorems": [
    "C136_challenge_answered",
    "C136_challenge_returns",
    "C136_stop_answered",
    "C136_id_retired"
   ],
   "note": "The fields of the frames are private to frame.rs; the answer is what code there would write with the public constructors. STOP_SENDING and NEW_CONNECTION_ID keep their values, not their bytes: the answer uses the shortest encoding."
  },
  {
   "property": "C137",
   "status": "partial",
   "theorems": [
    "C137_source_refuted",
    "C137_any_source"
   ],
   "note": "Refuted: the source id is not compared with anything. C137_any_source: on every connection, after every history, packets with any two source ids are read, also in one datagram."
  },
  {
   "property": "C138",
   "status": "proved",
   "theorems": [
    "C138_cut_datagram",
    "C138_cut_packet",
    "C138_sent_packet"
   ],
   "note": "1-RTT packets are not covered: they extend to the end of the datagram, so a part of one is refused only by the authentication."
  },
  {
   "property": "C139",
   "status": "partial",
   "theorems": [
    "C139_refuted",
    "C139_fits_partial",
    "C139_any_size"
   ],
   "note": "Refuted: no size is checked; whenever a connection can send at all it sends packets larger than any bound below 2 GB. Packets with up to 65400 bytes of frames and token fit."
  },
  {
   "property": "C14",
   "status": "proved",
   "theorems": [
    "C14_decoder_complete",
    "C14_sequence_complete"
   ],
   "note": ""
  },
  {
   "property": "C140",
   "status": "partial",
   "theorems": [
    "C140_refuted",
    "C140_goes_on"
   ],
   "note": "Refuted: reading changes nothing. C140_goes_on: every connection that can send at all reads a CONNECTION_CLOSE frame and goes on sending whatever it is given."
  },
  {
   "property": "C141",
   "status": "partial",
   "theorems": [
    "C141_refuted",
    "C141_always_panics",
    "C141_datagram_panics"
   ],
   "note": "Refuted with the Retry packet of RFC 9001 appendix A.4: everything whose header says Retry panics, on every connection, also behind packets that can be read."
  },
  {
   "property": "C142",
   "status": "proved",
   "theorems": [
    "C142_cut_payload"
   ],
   "note": ""
  },
  {
   "property": "C143",
   "status": "partial",
   "theorems": [
    "C143_refuted",
    "C143_no_limit"
   ],
   "note": "Refuted: what was received is not counted. C143_no_limit: every server that can send at all can answer any datagram below 700 MB with more than three times as much."
  },
  {
   "property": "C144",
   "status": "partial",
   "theorems": [
    "C144_refuted",
    "C144_all_keys",
    "C144_initial_keys",
    "C144_locked",
    "C144_no_queue"
   ],
   "note": "Refuted: Debug is derived for Secrets. C144_all_keys: whatever is printed contains all keys of all registered connections, in decimal, unless another thread is just changing the table. The keys that registered connections have today are Initial keys, which can be computed by whoever saw the client's first datagram. C144_locked, C144_no_queue: what is not printed."
  },
  {
   "property": "C145",
   "status": "partial",
   "theorems": [
    "C145_refuted",
    "C145_any_accepted",
    "C145_same_for_all",
    "C145_appended"
   ],
   "note": "Refuted: nothing is compared. C145_any_accepted: every Version Negotiation packet is returned to every connection, client's or server's, whatever its ids and versions; C145_same_for_all: such datagrams are read without looking at the connection; C145_appended: it can also be put behind the peer's packets."
  },
  {
   "property": "C146",
   "status": "partial",
   "theorems": [
    "C146_refuted",
    "C146_any_acknowledged"
   ],
   "note": "Refuted: an ACK frame is not compared with what was sent. C146_any_acknowledged: every connection, whatever it has sent, reads packets that acknowledge exactly the numbers from n to m, for all n and m below 2^62."
  },
  {
   "property": "C147",
   "status": "partial",
   "theorems": [
    "C147_refuted",
    "C147_without_secrets",
    "C147_any_role"
   ],
   "note": "Refuted once secrets are given: a connection does not record whether it is a client. C147_without_secrets: as long as only Initial keys are there, as in every connection the crate makes, no 0-RTT packet is read. C147_any_role: with secrets for application data, clients and servers alike read every conformant 0-RTT packet (with four byte packet numbers, see C61)."
  },
  {
   "property": "C15",
   "status": "proved",
   "theorems": [
    "C15_truncated_rejected"
   ],
   "note": ""
  },
  {
   "property": "C16",
   "status": "proved",
   "theorems": [
    "C16_final_stream"
   ],
   "note": ""
  },
  {
   "property": "C17",
   "status": "proved",
   "theorems": [
    "C17_header_reemitted",
    "C17_header_fields",
    "C17_header_total",
    "C17_long_ids_rejected"
   ],
   "note": ""
  },
  {
   "property": "C18",
   "status": "proved",
   "theorems": [
    "C18_long_involution",
    "C18_short_involution",
    "C18_long_bits",
    "C18_short_bits",
    "C18_idempotent",
    "C18_protected_bits_unreadable"
   ],
   "note": ""
  },
  {
   "property": "C19",
   "status": "proved",
   "theorems": [
    "C19_pn_mask"
   ],
   "note": ""
  },
  {
   "property": "C20",
   "status": "proved",
   "theorems": [
    "C20_initial_travels",
    "C20_initial_delivered"
   ],
   "note": ""
  },
  {
   "property": "C21",
   "status": "proved",
   "theorems": [
    "C21_handshake_travels"
   ],
   "note": "The code never installs handshake keys (C28); stated for any pair of connections that holds mirrored ones."
  },
  {
   "property": "C22",
   "status": "proved",
   "theorems": [
    "C22_coalesced",
    "C22_conformant_coalesced"
   ],
   "note": ""
  },
  {
   "property": "C23",
   "status": "partial",
   "theorems": [
    "C23_four_byte_numbers_partial",
    "C23_short_number_refused",
    "C23_short_number_exact",
    "C23_refuted",
    "C23_strict_refuted"
   ],
   "note": "The decoder always consumes 4 packet number bytes: refuted for 1 to 3 byte packet numbers; proved for 4 bytes. C23_short_number_exact: with bytes behind the packet it opens the ciphertext shifted by the missing bytes, and reads a packet iff the AEAD opens that; C23_short_case is a packet crafted to be read as a frame it does not hold. Refuted also for packets that meet every other rule (C23_strict_refuted). That the statement can be met is shown in PropRepairsPn.v (C23_repaired), for decoders that leave the bytes behind a short packet number to the ciphertext."
  },
  {
   "property": "C24",
   "status": "partial",
   "theorems": [
    "C24_decoding_partial",
    "C24_decoding_refuted",
    "C24_next_packet_exact",
    "C24_datagram_exact"
   ],
   "note": "Truncated headers, Retry packets and too small Length fields panic: refuted; the exact set of crashing datagrams and termination proved for all inputs. That the statement can be met is shown in PropRepairsTotal.v (C24_repaired) for the decoder of PropRepairsPn.v."
  },
  {
   "property": "C25",
   "status": "proved",
   "theorems": [
    "C25_accepted_is_authentic",
    "C25_accepted_iff_conformant"
   ],
   "note": ""
  },
  {
   "property": "C26",
   "status": "proved",
   "theorems": [
    "C26_version_negotiation",
    "C26_version_negotiation_exact"
   ],
   "note": ""
  },
  {
   "property": "C27",
   "status": "proved",
   "theorems": [
    "C27_dispatch",
    "C27_type_stable",
    "C27_returned_header_type"
   ],
   "note": ""
  },
  {
   "property": "C28",
   "status": "proved",
   "theorems": [
    "C28_no_handshake_packet_leaves",
    "C28_no_protected_packet_accepted"
   ],
   "note": ""
  },
  {
   "property": "C29",
   "status": "partial",
   "theorems": [
    "C29_packet_numbers_partial",
    "C29_issued_increasing",
    "C29_issued_consecutive",
    "C29_wrap_refuted"
   ],
   "note": "Exact outcome of every call proved for all histories with overflow checks, and for histories of fewer than 2^64-1 calls without; in the latter mode the counter wraps to 0 after 2^64 calls, so 'for ever' is refuted."
  },
  {
   "property": "C30",
   "status": "proved",
   "theorems": [
    "C30_nonce_injective",
    "C30_nonces_never_reused"
   ],
   "note": "Histories shorter than 2^64-2 calls when overflow checks are off (the counter wraps beyond, see C29)."
  },
  {
   "property": "C31",
   "status": "partial",
   "theorems": [
    "C31_truncation_partial",
    "C31_truncation_refuted",
    "C31_reconstructed_value",
    "C31_large_gap_panics"
   ],
   "note": "Reconstruction shifts by bytes instead of bits: refuted once an acknowledgement is recorded, with the exact value proved; proved for every connection the API can produce (none records acknowledgements)."
  },
  {
   "property": "C32",
   "status": "proved",
   "theorems": [
    "C32_mirrored_keys",
    "C32_initial_keys",
    "C32_keys_determined",
    "C32_long_id_panics"
   ],
   "note": ""
  },
  {
   "property": "C33",
   "status": "proved",
   "theorems": [
    "C33_hkdf_label",
    "C33_hkdf_label_injective",
    "C33_expand_label"
   ],
   "note": ""
  },
  {
   "property": "C34",
   "status": "proved",
   "theorems": [
    "C34_payload_roundtrip",
    "C34_encrypt_succeeds",
    "C34_decrypt_only_encrypted"
   ],
   "note": ""
  },
  {
   "property": "C35",
   "status": "partial",
   "theorems": [
    "C35_short_ciphertext_refuted",
    "C35_short_ciphertext_panics",
    "C35_ciphertext_partial"
   ],
   "note": "A ciphertext shorter than the tag panics: refuted; total from 16 bytes on."
  },
  {
   "property": "C36",
   "status": "proved",
   "theorems": [
    "C36_same_mask",
    "C36_mask_needs_16_bytes",
    "C36_initial_sample",
    "C36_handshake_sample"
   ],
   "note": ""
  },
  {
   "property": "C37",
   "status": "proved",
   "theorems": [
    "C37_filed_under_own_id"
   ],
   "note": ""
  },
  {
   "property": "C38",
   "status": "proved",
   "theorems": [
    "C38_send_step",
    "C38_queue_exact",
    "C38_route_call",
    "C38_wire_send",
    "C38_wire_route"
   ],
   "note": ""
  },
  {
   "property": "C39",
   "status": "proved",
   "theorems": [
    "C39_remove_step",
    "C39_drop_call",
    "C39_refused",
    "C39_route_refused",
    "C39_wire_refused"
   ],
   "note": ""
  },
  {
   "property": "C40",
   "status": "proved",
   "theorems": [
    "C40_insert_step",
    "C40_kept_until_dropped"
   ],
   "note": ""
  },
  {
   "property": "C41",
   "status": "partial",
   "theorems": [
    "C41_accept_registers_partial",
    "C41_never_returns",
    "C41_accept_returns_refuted"
   ],
   "note": "accept ends in todo!(): it never returns a stream (C41_never_returns).  What holds: the connection is registered, once, under a fresh id."
  },
  {
   "property": "C42",
   "status": "partial",
   "theorems": [
    "C42_survives_partial",
    "C42_routed_partial",
    "C42_garbage_kills",
    "C42_lost_datagram_kills",
    "C42_survives_refuted"
   ],
   "note": "Refuted: any datagram without a header, or a non-Initial one for an unknown id, makes accept panic.  The partial theorem shows these are the only causes."
  },
  {
   "property": "C43",
   "status": "partial",
   "theorems": [
    "C43_never_delivered",
    "C43_initial_delivered_refuted"
   ],
   "note": "Refuted for every execution: the opening datagram is never put in the new connection's queue."
  },
  {
   "property": "C44",
   "status": "partial",
   "theorems": [
    "C44_always_again",
    "C44_no_duplicate_refuted"
   ],
   "note": "Refuted: connections are filed under the server's random id only, so a retransmitted Initial always opens another one."
  },
  {
   "property": "C45",
   "status": "partial",
   "theorems": [
    "C45_routed_apart_partial",
    "C45_confusion_exact",
    "C45_version_negotiation",
    "C45_routed_apart_refuted"
   ],
   "note": "Refuted for ids of different lengths (leading zero bytes) and for Version Negotiation; proved for equal lengths; the confused pairs are characterised exactly."
  },
  {
   "property": "C46",
   "status": "partial",
   "theorems": [
    "C46_addressed_to_original_id",
    "C46_reply_address_refuted"
   ],
   "note": "Refuted for every accepted connection: replies carry the id the client chose for the server, not the client's own."
  },
  {
   "property": "C47",
   "status": "proved",
   "theorems": [
    "C47_no_deadlock",
    "C47_no_leaked_guard",
    "C47_no_poison",
    "C47_logging_poisons"
   ],
   "note": "Poisoning is excluded for runs that do not turn logging on, which the public interface cannot do; C47_logging_poisons shows the restriction is needed."
  },
  {
   "property": "C48",
   "status": "proved",
   "theorems": [
    "C48_logging_stays_off",
    "C48_switch_erasable"
   ],
   "note": ""
  },
  {
   "property": "C49",
   "status": "proved",
   "theorems": [
    "C49_format_unambiguous",
    "C49_serialize_exact",
    "C49_self_delimiting"
   ],
   "note": ""
  },
  {
   "property": "C50",
   "status": "partial",
   "theorems": [
    "C50_preferred_address_partial",
    "C50_never_conformant",
    "C50_preferred_address_refuted"
   ],
   "note": "The connection id length byte and the reset token are never written: refuted for every address; the address fields are right."
  },
  {
   "property": "C51",
   "status": "proved",
   "theorems": [
    "C51_error_codes"
   ],
   "note": ""
  },
  {
   "property": "C52",
   "status": "partial",
   "theorems": [
    "C52_every_version_accepted",
    "C52_version_refuted",
    "C52_any_version_opens"
   ],
   "note": "The version is ignored: refuted; proved that every version but 0 is decoded as version 1, and that accept opens a version 1 connection for an Initial header of any version but 0. That the statement can be met, together with those about conformant packets, is shown in PropRepairsChecks.v (C52_repaired)."
  },
  {
   "property": "C53",
   "status": "partial",
   "theorems": [
    "C53_any_ids_accepted",
    "C53_other_ids_refuted"
   ],
   "note": "Connection ids of coalesced packets are not compared: refuted; proved that any ids are accepted. That the statement can be met, together with those about conformant packets, is shown in PropRepairsChecks.v (C53_repaired)."
  },
  {
   "property": "C54",
   "status": "proved",
   "theorems": [
    "C54_initial_conformant",
    "C54_handshake_conformant"
   ],
   "note": ""
  },
  {
   "property": "C55",
   "status": "partial",
   "theorems": [
    "C55_change_partial",
    "C55_authenticated_but_gap_partial",
    "C55_byte_change_refuted"
   ],
   "note": "Refuted: the decoder skips four bytes for the packet number whatever its length, so the bytes between a short number and the ciphertext are free.  C55_change_partial: any other change is noticed or is a forgery against the AEAD under the same key and nonce, and even a forgery can only touch the first byte of a length field, the ciphertext or the tag. That the statement can be met is shown in PropRepairsExact.v (C55_repaired, short of two texts sealed under one number) for the decoder of PropRepairsPn.v."
  },
  {
   "property": "C56",
   "status": "proved",
   "theorems": [
    "C56_packets_partition",
    "C56_packet_count"
   ],
   "note": ""
  },
  {
   "property": "C57",
   "status": "partial",
   "theorems": [
    "C57_replay_accepted",
    "C57_duplicates_refuted"
   ],
   "note": "Refuted for every packet: decoding does not depend on, or change, what was received before."
  },
  {
   "property": "C58",
   "status": "partial",
   "theorems": [
    "C58_every_payload_accepted",
    "C58_permitted_refuted"
   ],
   "note": "Refuted for every payload: the decoder calls validate_payload, which is a stub that permits every frame. That the statement can be met, together with those about conformant packets, is shown in PropRepairsChecks.v (C58_repaired)."
  },
  {
   "property": "C59",
   "status": "partial",
   "theorems": [
    "C59_every_byte_accepted",
    "C59_bits_refuted"
   ],
   "note": "Refuted: every first byte with long form and type Initial is accepted. That the statement can be met, together with those about conformant packets, is shown in PropRepairsChecks.v (C59_repaired)."
  },
  {
   "property": "C60",
   "status": "partial",
   "theorems": [
    "C60_empty_accepted",
    "C60_empty_refuted"
   ],
   "note": "Refuted: a packet with empty plaintext is accepted. That the statement can be met, together with those about conformant packets, is shown in PropRepairsChecks.v (C60_repaired)."
  },
  {
   "property": "C61",
   "status": "partial",
   "theorems": [
    "C61_handshake_partial",
    "C61_zero_rtt_partial",
    "C61_one_rtt_partial",
    "C61_short_handshake_refused",
    "C61_short_zero_rtt_refused",
    "C61_short_one_rtt_shifted",
    "C61_short_handshake_exact",
    "C61_short_zero_rtt_exact",
    "C61_short_one_rtt_exact",
    "C61_refuted",
    "C61_strict_refuted"
   ],
   "note": "Proved for four byte packet numbers.  Shorter numbers: Handshake and 0-RTT packets at the end of a datagram are always refused, 1-RTT packets lose ciphertext bytes.  The _exact theorems say for which bytes behind the packet it is read after all, and as what. Refuted also for packets that meet every other rule (C61_strict_refuted). That the statement can be met is shown in PropRepairsPn.v (C61_repaired), for decoders that leave the bytes behind a short packet number to the ciphertext."
  },
  {
   "property": "C62",
   "status": "partial",
   "theorems": [
    "C62_number_partial",
    "C62_handshake_four_bytes",
    "C62_handshake_refuted"
   ],
   "note": "Refuted for Handshake packets, whose number is always made of four bytes; proved for the other kinds. That the statement can be met is shown in PropRepairsPn.v (C62_repaired), for decoders that leave the bytes behind a short packet number to the ciphertext."
  },
  {
   "property": "C63",
   "status": "proved",
   "theorems": [
    "C63_handshake_authentic",
    "C63_zero_rtt_authentic",
    "C63_one_rtt_authentic"
   ],
   "note": ""
  },
  {
   "property": "C64",
   "status": "partial",
   "theorems": [
    "C64_ids_lost",
    "C64_reemitted_refuted"
   ],
   "note": "Refuted: the ids of a Version Negotiation header are written as zeros, and ids longer than 20 bytes crash the encoder; C64_ids_lost gives the exact output for every header."
  },
  {
   "property": "C65",
   "status": "partial",
   "theorems": [
    "C65_count_partial",
    "C65_all_ranges_accepted",
    "C65_negative_refuted"
   ],
   "note": "Refuted: ranges below zero are accepted.  Proved: the number of ranges is right, and every range list is accepted. That the statement can be met is shown in PropRepairsFrames.v (C65_repaired), for a frame decoder that also checks the field values."
  },
  {
   "property": "C66",
   "status": "partial",
   "theorems": [
    "C66_new_connection_id_partial",
    "C66_any_retirement_accepted",
    "C66_retire_refuted"
   ],
   "note": "Refuted for Retire Prior To above the sequence number; the id length and the token are right. That the statement can be met is shown in PropRepairsFrames.v (C66_repaired), for a frame decoder that also checks the field values."
  },
  {
   "property": "C67",
   "status": "partial",
   "theorems": [
    "C67_nothing_refused",
    "C67_limits_refuted"
   ],
   "note": "Refuted: no limit is checked; every value is accepted. That the statement can be met is shown in PropRepairsFrames.v (C67_repaired), for a frame decoder that also checks the field values."
  },
  {
   "property": "C68",
   "status": "partial",
   "theorems": [
    "C68_decoder_exact",
    "C68_decoder_sound_partial",
    "C68_payload_exact",
    "C68_sound_refuted"
   ],
   "note": "Refuted for STREAM (offset and length never parsed), CRYPTO at an offset and frame types above 255; C68_decoder_exact and C68_payload_exact say exactly which bytes are accepted and as what. That the statement can be met is shown in PropRepairs.v (C68_repaired), for the function with that line corrected."
  },
  {
   "property": "C69",
   "status": "proved",
   "theorems": [
    "C69_reencoded"
   ],
   "note": ""
  },
  {
   "property": "C70",
   "status": "proved",
   "theorems": [
    "C70_var_u32"
   ],
   "note": ""
  },
  {
   "property": "C71",
   "status": "partial",
   "theorems": [
    "C71_constructors_partial",
    "C71_written",
    "C71_long_id_truncated",
    "C71_constructors_refuted"
   ],
   "note": "Refuted for NEW_CONNECTION_ID, whose length is fixed to 8, so longer ids lose their leading bytes; proved for the other constructors and for ids of at most 8 bytes.  C71_written: the bytes written for every constructor are its arguments in the layout of the RFC. That the statement can be met is shown in PropRepairsFrames.v (C71_repaired), for a constructor that is told the length of the id."
  },
  {
   "property": "C72",
   "status": "partial",
   "theorems": [
    "C72_opening_understood_partial",
    "C72_not_found",
    "C72_decoded_refuted"
   ],
   "note": "Proved: the registered connection decodes the opening packet.  Refuted: decoding the datagram through the socket finds no connection, because it is filed under the server's id only."
  },
  {
   "property": "C73",
   "status": "proved",
   "theorems": [
    "C73_only_initials_open",
    "C73_one_per_accept"
   ],
   "note": ""
  },
  {
   "property": "C74",
   "status": "proved",
   "theorems": [
    "C74_conserved"
   ],
   "note": ""
  },
  {
   "property": "C75",
   "status": "partial",
   "theorems": [
    "C75_whole_partial",
    "C75_first_4096",
    "C75_whole_refuted"
   ],
   "note": "Refuted above 4096 bytes, where the rest is cut off; proved up to 4096."
  },
  {
   "property": "C76",
   "status": "partial",
   "theorems": [
    "C76_whole_header_partial",
    "C76_any_initial_opens",
    "C76_size_refuted"
   ],
   "note": "Refuted: no size is checked, 7 bytes open a connection; the partial theorem gives the true minimum."
  },
  {
   "property": "C77",
   "status": "proved",
   "theorems": [
    "C77_poison_cause"
   ],
   "note": ""
  },
  {
   "property": "C78",
   "status": "proved",
   "theorems": [
    "C78_bounded_work",
    "C78_bounded_other_calls"
   ],
   "note": ""
  },
  {
   "property": "C79",
   "status": "proved",
   "theorems": [
    "C79_only_accept_waits"
   ],
   "note": ""
  },
  {
   "property": "C80",
   "status": "partial",
   "theorems": [
    "C80_id_length_refuted",
    "C76_any_initial_opens",
    "C76_whole_header_partial"
   ],
   "note": "Refuted: ids of any length up to 20, including empty ones, open a connection."
  },
  {
   "property": "C81",
   "status": "partial",
   "theorems": [
    "C81_receiving_partial",
    "C81_same_packets",
    "C81_sending",
    "C81_creating",
    "C81_builds_refuted"
   ],
   "note": "Refuted: an Initial packet whose Length is 0 makes a debug build panic and a release build return an error.  Proved: everything else agrees - whatever one build decodes the other decodes to the same packets, and packets sent are the same bytes."
  },
  {
   "property": "C82",
   "status": "proved",
   "theorems": [
    "C82_packet_alone",
    "C82_datagrams_compose"
   ],
   "note": ""
  },
  {
   "property": "C83",
   "status": "partial",
   "theorems": [
    "C83_payloads_partial",
    "C83_payloads_refuted",
    "C83_stream_swallows"
   ],
   "note": "Refuted for STREAM frames, which swallow everything behind them even when they carry a length; proved for payloads without them, and that a payload ending in one takes all that follows into its data. That the statement can be met is shown in PropRepairsFrames.v (C83_repaired), for a frame decoder that also checks the field values."
  },
  {
   "property": "C84",
   "status": "proved",
   "theorems": [
    "C84_initial_size",
    "C84_handshake_size"
   ],
   "note": ""
  },
  {
   "property": "C85",
   "status": "partial",
   "theorems": [
    "C85_zeroed_partial",
    "C85_too_large",
    "C85_undefined",
    "C85_zeroed_refuted"
   ],
   "note": "Refuted: a type without size, or an allocator out of memory, is undefined behaviour; C85_undefined says exactly when.  Proved otherwise."
  },
  {
   "property": "C86",
   "status": "partial",
   "theorems": [
    "C86_never_initialised",
    "C86_empty_partial",
    "C86_initialised_refuted"
   ],
   "note": "Refuted for every type and length but 0: the elements are never initialised."
  },
  {
   "property": "C87",
   "status": "partial",
   "theorems": [
    "C87_printed",
    "C87_result_partial",
    "C87_decoder_partial",
    "C87_header_lines",
    "C87_frames_lines",
    "C87_datagram_lines",
    "C87_sending_lines",
    "C87_sending_partial",
    "C87_silent_refuted"
   ],
   "note": "Refuted: a short input prints a line, and panics when stdout does not take it; C87_printed gives the exact effect.  A decoder that succeeds prints nothing, one that fails at most one line; C87_header_lines: exactly the Version Negotiation packets cut inside a connection id print one while their header is read; C87_frames_lines, C87_datagram_lines and C87_sending_lines: elsewhere a line is printed exactly when the error 'not enough bytes for var_bytes' is returned."
  },
  {
   "property": "C88",
   "status": "partial",
   "theorems": [
    "C88_refused",
    "C88_arrives_partial",
    "C88_arrives_refuted"
   ],
   "note": "Refuted for STREAM frames before the end of a packet and NEW_CONNECTION_ID frames with ids above 8 bytes; proved for all other constructors.  C88_refused says exactly which frames are refused.  FrameAck::new is todo!(), so no ACK frame can be constructed. That the statement can be met is shown in PropRepairsFrames.v (C88_repaired), for a constructor that is told the length of the id."
  },
  {
   "property": "C89",
   "status": "proved",
   "theorems": [
    "C89_receiving_unaffected"
   ],
   "note": "For all histories, by induction over the calls."
  },
  {
   "property": "C90",
   "status": "proved",
   "theorems": [
    "C90_initial_resent",
    "C90_handshake_resent"
   ],
   "note": "For all histories, by induction over the calls."
  },
  {
   "property": "C91",
   "status": "proved",
   "theorems": [
    "C91_format_unambiguous",
    "C91_encoder_injective"
   ],
   "note": "First for the RFC 9000 section 19 relation itself, then for what the serialiser emits."
  },
  {
   "property": "C92",
   "status": "proved",
   "theorems": [
    "C92_initial_unambiguous",
    "C92_handshake_unambiguous",
    "C92_initial_same_packet",
    "C92_handshake_same_packet"
   ],
   "note": "The _unambiguous theorems are about RFC packets with packet number fields of any length; the others about packets the crate sends."
  },
  {
   "property": "C93",
   "status": "proved",
   "theorems": [
    "C93_calls_atomic",
    "C93_changes_atomic"
   ],
   "note": "Linearisation points for all interleavings, when logging has not been turned on internally (public_run); C93_changes_atomic also covers the steps of accept, which as a whole is a loop and not atomic."
  },
  {
   "property": "C94",
   "status": "proved",
   "theorems": [
    "C94_frame_minimal",
    "C94_payload_minimal",
    "C94_packet_payload_minimal"
   ],
   "note": "Minimal among the encodings of the independent relation frame_enc/frames_enc of Spec.v."
  },
  {
   "property": "C95",
   "status": "proved",
   "theorems": [
    "C95_header_is_packets",
    "C95_read_by_addressee"
   ],
   "note": "Only the first packet: ids of coalesced packets are not compared (C53); lengths of ids are not compared (C45)."
  },
  {
   "property": "C96",
   "status": "partial",
   "theorems": [
    "C96_closed_refuted",
    "C96_never_closed"
   ],
   "note": "False of the code: accept ends in todo!(), so no stream is ever returned and its destructor, the only way to remove a connection, cannot run. C96_never_closed: every registered connection stays for ever and its queue only grows."
  },
  {
   "property": "C97",
   "status": "partial",
   "theorems": [
    "C97_held_refuted",
    "C97_all_kept",
    "C97_unbounded"
   ],
   "note": "False of the code: the connection is registered before accept panics. C97_all_kept: the socket keeps exactly all connections ever opened. C97_unbounded: one datagram repeated n times leaves n connections behind, for n up to 2^56."
  },
  {
   "property": "C98",
   "status": "partial",
   "theorems": [
    "C98_limited_refuted",
    "C98_all_waiting",
    "C98_unbounded"
   ],
   "note": "False of the code: nothing reads the channel. C98_all_waiting: the queue is everything ever sent to the connection. C98_unbounded: for any list of datagrams addressed to a connection there is a run that keeps them all."
  },
  {
   "property": "C99",
   "status": "partial",
   "theorems": [
    "C99_understood_refuted",
    "C99_issued_understood_partial",
    "C99_field_length",
    "C99_as_read"
   ],
   "note": "False of truncate_pn after an acknowledgement: the field holds the distance, not twice the distance. C99_field_length and C99_as_read say exactly how long it is and what is read. Proved for the numbers a connection issues, since no acknowledgement is ever recorded. That the statement can be met is shown in PropRepairs.v (C99_repaired), for the function with that line corrected."
  }
 ]
}