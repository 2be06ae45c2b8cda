(** The functions of src/utils.rs, src/frame.rs, src/packet.rs and
    src/quictls/secrets.rs that can reach the println of utils.rs:437, once more
    with what they print.  A function returns the lines "failed at: i" it
    prints, and its result when printing works; a failing println panics at that
    point (utils.rs:437-438), which [Routing.v] models where the functions are
    called.  The functions that are not repeated here do not print. *)
From Verif Require Import Base Utils Frame CipherSuite Secrets Connection Packet Buffers.

Definition said (A : Type) := (list N * outcome A)%type.

(** A computation that prints nothing. *)
Definition quiet {A} (m : outcome A) : said A := ([], m).

(** The [?] operator. *)
Definition then_ {A B} (m : said A) (k : A -> said B) : said B :=
  match m with
  | (l, Ok a) => let (l', r) := k a in (l ++ l', r)
  | (l, Err e) => (l, Err e)
  | (l, Panic w) => (l, Panic w)
  | (l, Diverge) => (l, Diverge)
  end.
Notation "'let!' x ':=' m 'in' k" := (then_ m (fun x => k))
  (at level 200, x pattern, m at level 100, k at level 200, right associativity).

(** [.unwrap()]. *)
Definition unwrap_said {A} (m : said A) : said A := (fst m, unwrap (snd m)).

(** utils.rs:426-443 [var_bytes_from_stream]. *)
Definition var_bytes_said (n : N) (s : stream) : said (list N * stream) := var_bytes_printing true n s.

(** frame.rs:219-232. *)
Definition crypto_said (oc : bool) (s : stream) : said (frame_crypto * stream) :=
  let! (offset, s) := quiet (var_int_from_stream oc s) in
  let! (length, s) := quiet (var_int_from_stream oc s) in
  let! total_size := quiet (add64 oc length offset) in
  let! (data, s) := var_bytes_said total_size s in
  quiet (Ok (FrameCrypto offset length data, s)).

(** frame.rs:257-267. *)
Definition new_token_said (oc : bool) (s : stream) : said (frame_new_token * stream) :=
  let! (l, s) := quiet (var_int_from_stream oc s) in
  let! (t, s) := var_bytes_said l s in
  quiet (Ok (FrameNewToken l t, s)).

(** frame.rs:297-326. *)
Definition stream_said (oc : bool) (type_byte : N) (s : stream) : said (frame_stream * stream) :=
  let has_offset := N.land type_byte 0x04 =? 1 in
  let has_length := N.land type_byte 0x02 =? 1 in
  let is_fin := N.land type_byte 0x01 =? 1 in
  let! (id, s) := quiet (var_int_from_stream oc s) in
  let! (offset, s) := quiet (if has_offset then var_int_from_stream oc s else Ok (0, s)) in
  let! (tp_length, s) :=
    quiet (if has_length then
             let? (l, s) := var_int_from_stream oc s in Ok (Some l, s)
           else Ok (None, s)) in
  let! (data, s) :=
    match tp_length with
    | Some l => var_bytes_said l s
    | None => quiet (all_bytes_from_stream s)
    end in
  quiet (Ok (FrameStream id offset (len data) data is_fin, s)).

(** frame.rs:703-723. *)
Definition connection_close_said (oc : bool) (type_byte : N) (s : stream)
  : said (frame_connection_close * stream) :=
  let is_app := N.land type_byte 0x1 =? 1 in
  let! (code, s) := quiet (var_int_from_stream oc s) in
  let! (ft, s) :=
    quiet (if negb is_app then
             let? (x, s) := var_int_from_stream oc s in Ok (Some x, s)
           else Ok (None, s)) in
  let! (l, s) := quiet (var_int_from_stream oc s) in
  let! (reason, s) := var_bytes_said l s in
  quiet (Ok (FrameConnectionClose code ft l reason is_app, s)).

Definition wrap_said {A} (k : A -> frame) (m : said (A * stream)) : said (frame * stream) :=
  let! (x, s) := m in quiet (Ok (k x, s)).

(** frame.rs:797-852 [deserialize_frame]: the four frame types that are read
    with [var_bytes_from_stream]; the others print nothing. *)
Definition deserialize_frame_said (oc : bool) (s : stream) : said (frame * stream) :=
  let! (t, s) := quiet (var_int_from_stream oc s) in
  let type_byte := cast 8 (N.land t (shl 64 1 8 - 1)) in
  if type_byte =? 0x06 then wrap_said Crypto (crypto_said oc s)
  else if type_byte =? 0x07 then wrap_said NewToken (new_token_said oc s)
  else if in_range 0x08 0x0f type_byte then wrap_said Stream (stream_said oc type_byte s)
  else if in_range 0x1c 0x1d type_byte
       then wrap_said ConnectionClose (connection_close_said oc type_byte s)
  else quiet (deserialize_frame_body oc type_byte s).

(** frame.rs:854-865 [deserialize_frames]. *)
Fixpoint deserialize_frames_said_loop (oc : bool) (fuel : nat) (s : stream) : said (list frame) :=
  match s with
  | [] => quiet (Ok [])
  | _ :: _ =>
      match fuel with
      | O => quiet Diverge
      | S f =>
          let! (x, s') := deserialize_frame_said oc s in
          let! xs := deserialize_frames_said_loop oc f s' in
          quiet (Ok (x :: xs))
      end
  end.
Definition deserialize_frames_said (oc : bool) (s : stream) : said (list frame) :=
  deserialize_frames_said_loop oc (S (length s)) s.

(** secrets.rs:92-100. *)
Definition get_header_protection_mask_said (s : secrets) (sample_stream : stream) : said (list N) :=
  let! (sample, _) := var_bytes_said (cs_sample_len (s_cipher_suite s)) sample_stream in
  quiet (cs_hp_mask (s_cipher_suite s) (s_hp s) sample).

(** connection.rs:145-155. *)
Definition get_local_hp_mask_said (c : connection) (sp : pn_space) (sample_stream : stream) : said (list N) :=
  let! s := quiet (borrow_local_tls_secrets c sp) in
  get_header_protection_mask_said s sample_stream.

(** connection.rs:157-167. *)
Definition get_remote_hp_mask_said (c : connection) (sp : pn_space) (sample_stream : stream) : said (list N) :=
  let! s := quiet (borrow_remote_tls_secrets c sp) in
  get_header_protection_mask_said s sample_stream.

(** packet.rs:53-117. *)
Definition long_from_stream_said (header_byte : N) (s : stream) : said (long_header * stream) :=
  let! (version, s) := quiet (u32_from_datagram s) in
  let is_version_negotiation := version =? VERSION_NEGOTIATION_VERSION_VALUE in
  let! (vn, dcid_len, dcid, scid_len, scid, s) :=
    if negb is_version_negotiation then
      quiet (
        let? (dcid_len, s) := u8_from_datagram s in
        if 20 <? dcid_len then Err (InternalError "invalid destination connection id length")
        else
          let? (dcid, s) := var_u160_from_stream dcid_len s in
          let? (scid_len, s) := u8_from_datagram s in
          if 20 <? scid_len then Err (InternalError "invalid source connection id length")
          else
            let? (scid, s) := var_u160_from_stream scid_len s in
            Ok (None, dcid_len, dcid, scid_len, scid, s))
    else
      let! (dcid_len, s) := quiet (u8_from_datagram s) in
      let! (dcid_bytes, s) := var_bytes_said dcid_len s in
      let! (scid_len, s) := quiet (u8_from_datagram s) in
      let! (scid_bytes, s) := var_bytes_said scid_len s in
      quiet (Ok (Some (VnFields dcid_bytes scid_bytes), dcid_len, u160_zero, scid_len, u160_zero, s)) in
  let rv := LongHeader header_byte version dcid_len dcid scid_len scid vn true in
  let! t := quiet (long_packet_type rv) in
  let is_protected :=
    match t with TRetry => false | TVersionNegotiation => false | _ => true end in
  quiet (Ok (LongHeader header_byte version dcid_len dcid scid_len scid vn is_protected, s)).

(** packet.rs:185-208. *)
Definition vn_said (s : stream) : said (packet_vn * stream) :=
  let! (header_byte, s) := quiet (u8_from_datagram s) in
  let! (header, s) := long_from_stream_said header_byte s in
  let! (bytes, s) := quiet (all_bytes_from_stream s) in
  quiet (
    if negb (N.land (len bytes) 0x03 =? 0x00)
    then Err (InternalError """supported versions"" is not qword aligned")
    else
      let? vs := vn_chunks (length bytes) bytes in
      Ok (PacketVn header vs, s)).

(** packet.rs:252-297. *)
Definition initial_said (oc : bool) (c : connection) (s : stream) : said (packet_initial * stream) :=
  let! (header_byte, s) := quiet (u8_from_datagram s) in
  let! (header, s) := long_from_stream_said header_byte s in
  let! (token_length, token_length_bytes, s) := quiet (var_int_with_bytes_from_stream oc s) in
  let! (token, s) := var_bytes_said token_length s in
  let! (length, length_bytes, s) := quiet (var_int_with_bytes_from_stream oc s) in
  let! (pn_protected, s) := var_bytes_said 4 s in
  let! mask := get_remote_hp_mask_said c SpInitial s in
  let! header := quiet (long_remove_protection header mask) in
  let! pn_length := quiet (long_packet_number_length header) in
  let! pn_protected := quiet (xor_pn_protection pn_protected mask) in
  let pn_bytes := firstn (N.to_nat pn_length) pn_protected in
  let! packet_number := quiet (reconstruct_remote_pn oc c SpInitial pn_bytes) in
  let! n := quiet (sub64 oc length pn_length) in
  let! (protected_frame_data, s) := var_bytes_said n s in
  let! hb := quiet (long_to_bytes header) in
  let associated_data := hb ++ token_length_bytes ++ token ++ length_bytes ++ pn_bytes in
  let! frame_data :=
    quiet (decrypt_remote_payload c SpInitial protected_frame_data associated_data packet_number) in
  let! payload := deserialize_frames_said oc frame_data in
  let! _ := quiet (validate_payload payload) in
  quiet (Ok (PacketInitial header token packet_number pn_bytes payload, s)).

(** packet.rs:304-341. *)
Definition initial_serialize_said (oc : bool) (p : packet_initial) (c : connection) : said (list N) :=
  let! payload_bytes := quiet (serialize_frames (pi_payload p) false) in
  let! pn_length := quiet (long_packet_number_length (pi_header p)) in
  let! plen := quiet (get_local_protected_payload_len oc c SpInitial (len payload_bytes)) in
  let! length := quiet (add64 oc plen pn_length) in
  let! length_bytes := quiet (encode_var_int length) in
  let! token_length_bytes := quiet (encode_var_int (len (pi_token p))) in
  let! hb := quiet (long_to_bytes (pi_header p)) in
  let associated_data :=
    hb ++ token_length_bytes ++ pi_token p ++ length_bytes ++ pi_pn_bytes p in
  let! protected_payload :=
    quiet (encrypt_local_payload c SpInitial payload_bytes associated_data (pi_pn p)) in
  let! sample := quiet (slice_from protected_payload (4 - pn_length)) in
  let! mask := get_local_hp_mask_said c SpInitial sample in
  let! protected_header := quiet (long_add_protection (pi_header p) mask) in
  let! ppn := quiet (xor_pn_protection (pi_pn_bytes p) mask) in
  let! phb := quiet (long_to_bytes protected_header) in
  quiet (Ok (phb ++ token_length_bytes ++ pi_token p ++ length_bytes ++ ppn ++ protected_payload)).

(** packet.rs:355-394. *)
Definition zero_rtt_said (oc : bool) (c : connection) (s : stream) : said (packet_zero_rtt * stream) :=
  let! (header_byte, s) := quiet (u8_from_datagram s) in
  let! (header, s) := long_from_stream_said header_byte s in
  let! (length, length_bytes, s) := quiet (var_int_with_bytes_from_stream oc s) in
  let! (pn_protected, s) := var_bytes_said 4 s in
  let! mask := get_remote_hp_mask_said c SpApplication s in
  let! header := quiet (long_remove_protection header mask) in
  let! pn_length := quiet (long_packet_number_length header) in
  let! pn_protected := quiet (xor_pn_protection pn_protected mask) in
  let pn_bytes := firstn (N.to_nat pn_length) pn_protected in
  let! packet_number := quiet (reconstruct_remote_pn oc c SpApplication pn_bytes) in
  let! n := quiet (sub64 oc length pn_length) in
  let! (protected_frame_data, s) := var_bytes_said n s in
  let! hb := quiet (long_to_bytes header) in
  let associated_data := hb ++ length_bytes ++ firstn (N.to_nat pn_length) pn_bytes in
  let! frame_data :=
    quiet (decrypt_remote_payload c SpApplication protected_frame_data associated_data packet_number) in
  let! payload := deserialize_frames_said oc frame_data in
  quiet (Ok (PacketZeroRtt header length pn_bytes packet_number payload, s)).

(** packet.rs:435-474. *)
Definition handshake_said (oc : bool) (c : connection) (s : stream) : said (packet_handshake * stream) :=
  let! (header_byte, s) := quiet (u8_from_datagram s) in
  let! (header, s) := long_from_stream_said header_byte s in
  let! (length, length_bytes, s) := quiet (var_int_with_bytes_from_stream oc s) in
  let! (pn_bytes, s) := var_bytes_said 4 s in
  let! mask := get_remote_hp_mask_said c SpHandshake s in
  let! header := quiet (long_remove_protection header mask) in
  let! pn_length := quiet (long_packet_number_length header) in
  let! pn_bytes := quiet (xor_pn_protection pn_bytes mask) in
  let pn_vec := firstn (N.to_nat pn_length) pn_bytes in
  let! packet_number := quiet (reconstruct_remote_pn oc c SpHandshake pn_bytes) in
  let! n := quiet (sub64 oc length pn_length) in
  let! (protected_frame_data, s) := var_bytes_said n s in
  let! hb := quiet (long_to_bytes header) in
  let associated_data := hb ++ length_bytes ++ pn_vec in
  let! frame_data :=
    quiet (decrypt_remote_payload c SpHandshake protected_frame_data associated_data packet_number) in
  let! payload := deserialize_frames_said oc frame_data in
  quiet (Ok (PacketHandshake header pn_vec packet_number payload, s)).

(** packet.rs:481-513. *)
Definition handshake_serialize_said (oc : bool) (p : packet_handshake) (c : connection) : said (list N) :=
  let! payload_bytes := quiet (serialize_frames (ph_payload p) false) in
  let! pn_length := quiet (long_packet_number_length (ph_header p)) in
  let! plen := quiet (get_local_protected_payload_len oc c SpHandshake (len payload_bytes)) in
  let! length := quiet (add64 oc plen pn_length) in
  let! length_bytes := quiet (encode_var_int length) in
  let! hb := quiet (long_to_bytes (ph_header p)) in
  let associated_data := hb ++ length_bytes ++ ph_pn_bytes p in
  let! protected_payload :=
    quiet (encrypt_local_payload c SpHandshake payload_bytes associated_data (ph_pn p)) in
  let! sample := quiet (slice_from protected_payload (4 - pn_length)) in
  let! mask := get_local_hp_mask_said c SpHandshake sample in
  let! protected_header := quiet (long_add_protection (ph_header p) mask) in
  let! ppn := quiet (xor_pn_protection (ph_pn_bytes p) mask) in
  let! phb := quiet (long_to_bytes protected_header) in
  quiet (Ok (phb ++ length_bytes ++ ppn ++ protected_payload)).

(** packet.rs:673-704. *)
Definition one_rtt_said (oc : bool) (c : connection) (s : stream) : said (packet_one_rtt * stream) :=
  let! (header_byte, s) := quiet (u8_from_datagram s) in
  let! (header, s) := quiet (short_from_stream header_byte s) in
  let! (pn_protected, s) := var_bytes_said 4 s in
  let! mask := get_remote_hp_mask_said c SpApplication s in
  let! header := quiet (short_remove_protection header mask) in
  let! pn_length := quiet (short_packet_number_length header) in
  let! pn_protected := quiet (xor_pn_protection pn_protected mask) in
  let pn_bytes := firstn (N.to_nat pn_length) pn_protected in
  let! packet_number := quiet (reconstruct_remote_pn oc c SpApplication pn_bytes) in
  let! (protected_frame_data, s) := quiet (all_bytes_from_stream s) in
  let! hb := quiet (short_to_bytes header) in
  let associated_data := hb ++ pn_bytes in
  let! frame_data :=
    quiet (decrypt_remote_payload c SpApplication protected_frame_data associated_data packet_number) in
  let! payload := deserialize_frames_said oc frame_data in
  quiet (Ok (PacketOneRtt header pn_bytes packet_number payload, s)).

(** packet.rs:755-769. *)
Definition next_header_said (s : stream) : said (packet_header * stream) :=
  let! (header_byte, s) := quiet (next "no header byte found" s) in
  if N.land header_byte 0x80 =? 0x80 then
    let! (h, s) := long_from_stream_said header_byte s in quiet (Ok (HLong h, s))
  else
    quiet (let? (h, s) := short_from_stream header_byte s in Ok (HShort h, s)).

(** packet.rs:771-806. *)
Definition decode_next_packet_said (oc : bool) (c : connection) (s : stream) : said (packet * stream) :=
  let! (header, _) := unwrap_said (next_header_said s) in
  match header with
  | HShort _ => let! (p, s) := one_rtt_said oc c s in quiet (Ok (POneRtt p, s))
  | HLong x =>
      let! t := quiet (long_packet_type x) in
      match t with
      | THandshake => let! (p, s) := handshake_said oc c s in quiet (Ok (PHandshake p, s))
      | TInitial => let! (p, s) := initial_said oc c s in quiet (Ok (PInitial p, s))
      | TZeroRtt => let! (p, s) := zero_rtt_said oc c s in quiet (Ok (PZeroRtt p, s))
      | TRetry => quiet (let? (p, s) := retry_from_stream s in Ok (PRetry p, s))
      | TVersionNegotiation =>
          let! (p, s) := vn_said s in quiet (Ok (PVersionNegotiation p, s))
      | _ => quiet (Panic "internal error: entered unreachable code")
      end
  end.

(** packet.rs:808-817. *)
Fixpoint decode_packets_said_loop (oc : bool) (c : connection) (fuel : nat) (s : stream)
  : said (list packet) :=
  match s with
  | [] => quiet (Ok [])
  | _ =>
      match fuel with
      | O => quiet Diverge
      | S f =>
          let! (p, s) := decode_next_packet_said oc c s in
          let! ps := decode_packets_said_loop oc c f s in
          quiet (Ok (p :: ps))
      end
  end.
Definition decode_packets_said (oc : bool) (c : connection) (s : stream) : said (list packet) :=
  decode_packets_said_loop oc c (length s) s.
