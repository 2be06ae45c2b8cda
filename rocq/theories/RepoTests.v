(** The crate's own unit tests, run on the model.  Each test that exercises the
    crate is an [Example] with the name of the test; those that only exercise
    the [ring] crate (packet.rs:966-978) or nothing (packet.rs:981, tests/) are
    left out. *)
From Verif Require Import Base Utils Frame Constructors CipherSuite Secrets Connection Packet Histories Spec SpecPacket
  Tactics UtilsFacts Aes128 CryptoInst ConnectionFacts PropPacket PropWire.

(** utils.rs:521-529. *)
Example utils_encode_var_int : encode_var_int 0 = Ok (hex "00") /\ encode_var_int 2000 = Ok (hex "47d0").
Proof. split; reflexivity. Qed.

(** frame.rs:885-1100. *)
Definition serialize_case (f : frame) (expected : string) : Prop := serialize_frames [f] false = Ok (hex expected).
Example frame_serialize_frames :
  serialize_case Padding "00" /\
  serialize_case Ping "01" /\
  serialize_case (Ack (FrameAck 2000 0 1 0 [AckRange 2 2] None)) "0247d00001000202" /\
  serialize_case (Ack (FrameAck 2000 0 1 0 [AckRange 2 2] (Some (EcnCounts 0 0 0)))) "0347d00001000202000000" /\
  serialize_case (ResetStream (reset_stream_new 0 0 0)) "04000000" /\
  serialize_case (StopSending (stop_sending_new 0 0)) "050000" /\
  serialize_case (Crypto (crypto_new (hex "4141414141414141"))) "0600084141414141414141" /\
  serialize_case (NewToken (new_token_new (hex "4141414141414141"))) "07084141414141414141" /\
  serialize_case (Stream (stream_new 1 (hex "4141414141414141") false)) "0a01084141414141414141" /\
  serialize_case (Stream (stream_new 1 (hex "4141414141414141") true)) "0b01084141414141414141" /\
  serialize_case (MaxData (max_data_new 2000)) "1047d0" /\
  serialize_case (MaxStreamData (max_stream_data_new 4 2000)) "110447d0" /\
  serialize_case (MaxStreams (max_streams_new 4 false)) "1204" /\
  serialize_case (MaxStreams (max_streams_new 4 true)) "1304" /\
  serialize_case (DataBlocked (data_blocked_new 4)) "1404" /\
  serialize_case (StreamDataBlocked (stream_data_blocked_new 4 2000)) "150447d0" /\
  serialize_case (StreamsBlocked (streams_blocked_new 4 false)) "1604" /\
  serialize_case (StreamsBlocked (streams_blocked_new 4 true)) "1704" /\
  serialize_case (NewConnectionId (new_connection_id_new 4 4 u160_zero 0))
    "18040408000000000000000000000000000000000000000000000000" /\
  serialize_case (RetireConnectionId (retire_connection_id_new 2)) "1902" /\
  serialize_case (PathChallenge (path_challenge_new 3328591)) "1a000000000032ca4f" /\
  serialize_case (PathResponse (path_response_new 3328591)) "1b000000000032ca4f" /\
  serialize_case (ConnectionClose (connection_close_new_error 4 0 (text "bad thing happened")))
    "1c040012626164207468696e672068617070656e6564" /\
  serialize_case (ConnectionClose (connection_close_new_application_error 4 (text "bad thing happened")))
    "1d0412626164207468696e672068617070656e6564" /\
  serialize_case HandshakeDone "1e".
Proof. vm_compute. repeat split. Qed.

Definition client_initial_secret : list N := hex "c00cf151ca5be075ed0ebfb5c80323c42d6b7db67881289af4008f1f6c357aea".
(** cipher_suite.rs:199-222; the expansion and the mask are those of the [ring]
    crate there, of the executable primitives here. *)
Example cipher_suite_test_get_kdf_bytes :
  (let? info := get_hkdf_label_info 16 (text "quic hp") [] in
   match p_hkdf_expand real_prims client_initial_secret (concat info) 16 with
   | Some k => hp_mask_aes_128_ecb real_prims k (hex "d1b1c98dd7689fb8ec11d242b123dc9b")
   | None => Err NoError
   end) = Ok (hex "437b9aec36").
Proof. vm_compute. reflexivity. Qed.
(** cipher_suite.rs:224-237. *)
Example cipher_suite_test_hkdf_expand_label_sha256 :
  hkdf_expand_label_sha256 real_prims client_initial_secret (text "quic hp") [] 16 =
  Ok (hex "9f50449e04a0e810283a1e9933adedd2").
Proof. vm_compute. reflexivity. Qed.
(** cipher_suite.rs:246-363. *)
Example cipher_suite_sample_expand_test_cases :
  let expand secret label n := hkdf_expand_label_sha256 real_prims secret label [] n in
  let initial := hex "7db5df06e7a69e432496adedb00851923595221596ae2ae9fb8115c1e9ed0a44" in
  let server := hex "3c199828fd139efd216c155ad844cc81fb82fa8d7446fa7d78be803acdda951b" in
  expand initial CLIENT_INITIAL_SECRET_LABEL 32 = Ok client_initial_secret /\
  expand client_initial_secret KEY_LABEL 16 = Ok (hex "1f369613dd76d5467730efcbe3b1a22d") /\
  expand client_initial_secret INITIAL_VECTOR_LABEL 12 = Ok (hex "fa044b2f42a3fd3b46fb255c") /\
  expand client_initial_secret HEADER_PROTECTION_LABEL 16 = Ok (hex "9f50449e04a0e810283a1e9933adedd2") /\
  expand initial SERVER_INITIAL_SECRET_LABEL 32 = Ok server /\
  expand server KEY_LABEL 16 = Ok (hex "cf3a5331653c364c88f0f379b6067e37") /\
  expand server INITIAL_VECTOR_LABEL 12 = Ok (hex "0ac1493ca1905853b0bba03e") /\
  expand server HEADER_PROTECTION_LABEL 16 = Ok (hex "c206b8d9b9f0f37644430b490eeaa314").
Proof. vm_compute. repeat split. Qed.
(** cipher_suite.rs:365-375 and secrets.rs:113-123. *)
Example cipher_suite_test_initial_keys :
  hkdf_extract_sha256 real_prims (Some KDF_INITIAL_SALT_V1) (hex "8394c8f03e515708") =
  hex "7db5df06e7a69e432496adedb00851923595221596ae2ae9fb8115c1e9ed0a44".
Proof. vm_compute. reflexivity. Qed.
(** cipher_suite.rs:377-388. *)
Example cipher_suite_test_hp_mask_aes_128_ecb :
  hp_mask_aes_128_ecb real_prims (hex "9f50449e04a0e810283a1e9933adedd2") (hex "d1b1c98dd7689fb8ec11d242b123dc9b") =
  Ok (hex "437b9aec36").
Proof. vm_compute. reflexivity. Qed.

(** secrets.rs:126-210: the payload is the CRYPTO frame of appendix A.2 padded to
    1162 bytes; the ciphertext with its tag is the end of the sample packet. *)
Definition SAMPLE_FRAME_DATA : list N := rfc_crypto_frame ++ repeat 0 (N.to_nat (1162 - 245)).
Definition SAMPLE_FRAME_DATA_ENC_AND_TAG : list N := skipn (N.to_nat (1200 - 1162 - 16)) rfc_initial_packet.
Definition sample_associated_data : list N := hex "c300000001088394c8f03e5157080000449e00000002".
Example sample_sizes : len rfc_crypto_frame = 245 /\ len SAMPLE_FRAME_DATA = 1162 /\
  len rfc_initial_packet = 1200 /\ firstn 10 SAMPLE_FRAME_DATA_ENC_AND_TAG = hex "d1b1c98dd7689fb8ec11".
Proof. vm_compute. repeat split. Qed.
(** secrets.rs:212-232. *)
Example secrets_sample_payload_encrypt :
  (let? s := from_secret (TLS13_AES_128_GCM_SHA256 real_prims true) client_initial_secret in
   let? ct := encrypt_payload s SAMPLE_FRAME_DATA (Some sample_associated_data) 2 in
   Ok (list_eqb ct SAMPLE_FRAME_DATA_ENC_AND_TAG)) = Ok true.
Proof. vm_compute. reflexivity. Qed.
(** secrets.rs:234-253. *)
Example secrets_sample_payload_decrypt :
  (let? s := from_secret (TLS13_AES_128_GCM_SHA256 real_prims true) client_initial_secret in
   let? pt := decrypt_payload s SAMPLE_FRAME_DATA_ENC_AND_TAG (Some sample_associated_data) 2 in
   Ok (list_eqb pt SAMPLE_FRAME_DATA)) = Ok true.
Proof. vm_compute. reflexivity. Qed.
(** secrets.rs:255-270. *)
Example secrets_test_initial_secrets :
  (let? s := from_initial real_prims true false (hex "8394c8f03e515708") V1 in
   Ok (s_key s, s_hp s, s_iv s)) =
  Ok (hex "1f369613dd76d5467730efcbe3b1a22d", hex "9f50449e04a0e810283a1e9933adedd2",
      Some (hex "fa044b2f42a3fd3b46fb255c")).
Proof. vm_compute. reflexivity. Qed.

(** packet.rs:883-900. *)
Example packet_sample_initial_packet :
  (let? (h, _) := next_header_from_stream rfc_initial_packet in
   let? c := connection_new real_prims true true V1 (get_destination_id h) (get_destination_id_length h) in
   let? (p, rest) := initial_from_stream true c rfc_initial_packet in
   Ok (pi_pn p, rest)) = Ok (2, []).
Proof. vm_compute. reflexivity. Qed.
(** packet.rs:902-911. *)
Example packet_make_header_byte : initial_new_header_byte 3 = 0xc3.
Proof. reflexivity. Qed.
(** packet.rs:913-962. *)
Example packet_serialize_sample_initial_packet :
  (let? (crypto, _) := deserialize_frame true rfc_crypto_frame in
   let frames := crypto :: repeat Padding (N.to_nat 917) in
   let? c := connection_new real_prims true false V1 (u160_from_u64 9481424049684961032) 8 in
   let c := set_scid c u160_zero 0 in
   let (d, l) := get_dcid c in
   let? (s, sl) := get_scid c in
   let h := LongHeader (initial_new_header_byte 3) (get_version_field c) l d sl s None false in
   let? wire := initial_serialize true (PacketInitial h [] 2 [0; 0; 0; 2] frames) c in
   Ok (list_eqb wire rfc_initial_packet)) = Ok true.
Proof. vm_compute. reflexivity. Qed.
