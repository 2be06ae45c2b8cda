(** Model of src/packet.rs. *)
From Verif Require Import Base Utils Frame CipherSuite Secrets Connection.

(** packet.rs:6. *)
Definition VERSION_NEGOTIATION_VERSION_VALUE : N := 0.

(** packet.rs:9-12. *)
Record vn_fields := VnFields { vn_dcid : list N; vn_scid : list N }.

(** packet.rs:15-24. *)
Record long_header := LongHeader {
  lh_byte : N;
  lh_version : N;
  lh_dcid_len : N;
  lh_dcid : u160;
  lh_scid_len : N;
  lh_scid : u160;
  lh_vn : option vn_fields;
  lh_protected : bool }.

(** packet.rs:735-743. *)
Inductive packet_type :=
| TVersionNegotiation | TInitial | TZeroRtt | THandshake | TRetry | TOneRtt | TStatelessReset.

(** packet.rs:30-32: the loop [for i in 0..pn_bytes.len()], current index [i]. *)
Fixpoint xor_pn_loop (pn_bytes : list N) (i : nat) (mask : list N) : outcome (list N) :=
  match pn_bytes with
  | [] => Ok []
  | b :: bs =>
      let? m := index mask (i + 1) in
      let? bs' := xor_pn_loop bs (S i) mask in
      Ok (N.lxor b m :: bs')
  end.

(** packet.rs:26-35 [xor_pn_protection]. *)
Definition xor_pn_protection (pn_bytes mask : list N) : outcome (list N) :=
  if 4 <? len pn_bytes then Err (InternalError "too many bytes for packet number")
  else xor_pn_loop pn_bytes 0 mask.

(** packet.rs:38. *)
Definition HEADER_BITS : N := 0xc0.

(** packet.rs:39-52 [LongPacketHeader::from_connection]. *)
Definition long_from_connection (c : connection) (header_byte : N) : outcome long_header :=
  let '(dcid, dcid_len) := get_dcid c in
  let? (scid, scid_len) := get_scid c in
  Ok (LongHeader header_byte (get_version_field c) dcid_len dcid scid_len scid None false).

(** packet.rs:161-175 [LongPacketHeader::packet_type]; the two type bits take
    four values, the [unreachable!()] arm cannot be reached (proved). *)
Definition long_packet_type (h : long_header) : outcome packet_type :=
  if lh_version h =? VERSION_NEGOTIATION_VERSION_VALUE then Ok TVersionNegotiation
  else
    let type_bits := N.shiftr (N.land (lh_byte h) (shl 8 1 6 - 1)) 4 in
    if type_bits =? 0x00 then Ok TInitial
    else if type_bits =? 0x01 then Ok TZeroRtt
    else if type_bits =? 0x02 then Ok THandshake
    else if type_bits =? 0x03 then Ok TRetry
    else Panic "internal error: entered unreachable code".

(** packet.rs:53-117 [LongPacketHeader::from_stream]. *)
Definition long_from_stream (header_byte : N) : parser long_header := fun s =>
  let? (version, s) := u32_from_datagram s in
  let is_version_negotiation := version =? VERSION_NEGOTIATION_VERSION_VALUE in
  let? (vn, dcid_len, dcid, scid_len, scid, s) :=
    if negb is_version_negotiation then
      let? (dcid_len, s) := u8_from_datagram s in
      if 20 <? dcid_len then Err (InternalError "invalid destination connection id length")
      else
        let? (dcid, s) := var_u160_from_stream dcid_len s in
        let? (scid_len, s) := u8_from_datagram s in
        if 20 <? scid_len then Err (InternalError "invalid source connection id length")
        else
          let? (scid, s) := var_u160_from_stream scid_len s in
          Ok (None, dcid_len, dcid, scid_len, scid, s)
    else
      let? (dcid_len, s) := u8_from_datagram s in
      let? (dcid_bytes, s) := var_bytes_from_stream dcid_len s in
      let? (scid_len, s) := u8_from_datagram s in
      let? (scid_bytes, s) := var_bytes_from_stream scid_len s in
      Ok (Some (VnFields dcid_bytes scid_bytes), dcid_len, u160_zero, scid_len, u160_zero, s) in
  let rv := LongHeader header_byte version dcid_len dcid scid_len scid vn true in
  let? t := long_packet_type rv in
  let is_protected :=
    match t with TRetry => false | TVersionNegotiation => false | _ => true end in
  Ok (LongHeader header_byte version dcid_len dcid scid_len scid vn is_protected, s).

(** packet.rs:118-132 [LongPacketHeader::to_bytes]. *)
Definition long_to_bytes (h : long_header) : outcome (list N) :=
  let? d := u160_to_var_bytes (lh_dcid h) (lh_dcid_len h) in
  let? s := u160_to_var_bytes (lh_scid h) (lh_scid_len h) in
  Ok ([lh_byte h] ++ be_bytes 4 (lh_version h) ++ [lh_dcid_len h] ++ d ++ [lh_scid_len h] ++ s).

(** packet.rs:137-142 [remove_protection]. *)
Definition long_remove_protection (h : long_header) (mask : list N) : outcome long_header :=
  if lh_protected h then
    let? m := index mask 0 in
    Ok (LongHeader (N.lxor (lh_byte h) (N.land m 0x0f)) (lh_version h) (lh_dcid_len h) (lh_dcid h)
                   (lh_scid_len h) (lh_scid h) (lh_vn h) false)
  else Ok h.

(** packet.rs:144-149 [add_protection]. *)
Definition long_add_protection (h : long_header) (mask : list N) : outcome long_header :=
  if negb (lh_protected h) then
    let? m := index mask 0 in
    Ok (LongHeader (N.lxor (lh_byte h) (N.land m 0x0f)) (lh_version h) (lh_dcid_len h) (lh_dcid h)
                   (lh_scid_len h) (lh_scid h) (lh_vn h) true)
  else Ok h.

(** packet.rs:151-159 [packet_number_length]. *)
Definition long_packet_number_length (h : long_header) : outcome N :=
  if lh_protected h then Err (InternalError "attempted to read protected packet number")
  else Ok (N.land (lh_byte h) 0x03 + 1).

(** packet.rs:179-182. *)
Record packet_vn := PacketVn { vn_header : long_header; supported_versions : list N }.

(** packet.rs:197-203: [chunks(4)] then [u32::from_datagram] on each chunk.
    The first argument bounds the number of chunks. *)
Fixpoint vn_chunks (fuel : nat) (bs : list N) : outcome (list N) :=
  match bs with
  | [] => Ok []
  | _ =>
      match fuel with
      | O => Diverge
      | S f =>
          let? (v, _) := u32_from_datagram (firstn 4 bs) in
          let? vs := vn_chunks f (skipn 4 bs) in
          Ok (v :: vs)
      end
  end.

(** packet.rs:185-208 [PacketVersionNegotiation::from_stream]. *)
Definition vn_from_stream : parser packet_vn := fun s =>
  let? (header_byte, s) := u8_from_datagram s in
  let? (header, s) := long_from_stream header_byte s in
  let? (bytes, s) := all_bytes_from_stream s in
  if negb (N.land (len bytes) 0x03 =? 0x00)
  then Err (InternalError """supported versions"" is not qword aligned")
  else
    let? vs := vn_chunks (length bytes) bytes in
    Ok (PacketVn header vs, s).

(** packet.rs:212-218. *)
Record packet_initial := PacketInitial {
  pi_header : long_header;
  pi_token : list N;
  pi_pn : N;
  pi_pn_bytes : list N;
  pi_payload : list frame }.

(** packet.rs:222, 245-247. *)
Definition INITIAL_TYPE_BITS : N := 0x00.
Definition initial_new_header_byte (pn_length_bits : N) : N :=
  N.lor (N.lor HEADER_BITS INITIAL_TYPE_BITS) pn_length_bits.

(** packet.rs:248-251 and 430-433: accepts every payload. *)
Definition validate_payload (fs : list frame) : outcome unit := Ok tt.

(** packet.rs:223-244 [PacketInitial::new]; the mutated connection is returned
    beside the result. *)
Definition initial_new (oc : bool) (packet_payload : list frame) (token : option (list N))
  (c : connection) : connection * outcome packet_initial :=
  let '(c, r) := get_next_pn oc c SpInitial in
  (c,
   let? (packet_number, packet_number_bytes) := r in
   let pn_length := cast 8 (len packet_number_bytes) in
   if negb ((0 <? pn_length) && (pn_length <=? 4))
   then Err (InternalError "invalid truncated_pn")
   else
     let header_byte := initial_new_header_byte (pn_length - 1) in
     let? header := long_from_connection c header_byte in
     let token := match token with Some x => x | None => [] end in
     let? _ := validate_payload packet_payload in
     Ok (PacketInitial header token packet_number packet_number_bytes packet_payload)).

(** packet.rs:252-297 [PacketInitial::from_stream]. *)
Definition initial_from_stream (oc : bool) (c : connection) : parser packet_initial := fun s =>
  let? (header_byte, s) := u8_from_datagram s in
  let? (header, s) := long_from_stream header_byte s in
  let? (token_length, token_length_bytes, s) := var_int_with_bytes_from_stream oc s in
  let? (token, s) := var_bytes_from_stream token_length s in
  let? (length, length_bytes, s) := var_int_with_bytes_from_stream oc s in
  let? (pn_protected, s) := var_bytes_from_stream 4 s in
  let? mask := get_remote_hp_mask c SpInitial s in
  let? header := long_remove_protection header mask in
  let? pn_length := long_packet_number_length header in
  let? pn_protected := xor_pn_protection pn_protected mask in
  let pn_bytes := firstn (N.to_nat pn_length) pn_protected in
  let? packet_number := reconstruct_remote_pn oc c SpInitial pn_bytes in
  let? n := sub64 oc length pn_length in
  let? (protected_frame_data, s) := var_bytes_from_stream n s in
  let? hb := long_to_bytes header in
  let associated_data := hb ++ token_length_bytes ++ token ++ length_bytes ++ pn_bytes in
  let? frame_data :=
    decrypt_remote_payload c SpInitial protected_frame_data associated_data packet_number in
  let? payload := deserialize_frames oc frame_data in
  let? _ := validate_payload payload in
  Ok (PacketInitial header token packet_number pn_bytes payload, s).

(** [&v[k..]] *)
Definition slice_from (v : list N) (k : N) : outcome (list N) :=
  if len v <? k then Panic "range start index out of range" else Ok (skipn (N.to_nat k) v).

(** packet.rs:304-341 [PacketInitial::serialize]. *)
Definition initial_serialize (oc : bool) (p : packet_initial) (c : connection)
  : outcome (list N) :=
  let? payload_bytes := serialize_frames (pi_payload p) false in
  let? pn_length := long_packet_number_length (pi_header p) in
  let? plen := get_local_protected_payload_len oc c SpInitial (len payload_bytes) in
  let? length := add64 oc plen pn_length in
  let? length_bytes := encode_var_int length in
  let? token_length_bytes := encode_var_int (len (pi_token p)) in
  let? hb := long_to_bytes (pi_header p) in
  let associated_data :=
    hb ++ token_length_bytes ++ pi_token p ++ length_bytes ++ pi_pn_bytes p in
  let? protected_payload :=
    encrypt_local_payload c SpInitial payload_bytes associated_data (pi_pn p) in
  let? sample := slice_from protected_payload (4 - pn_length) in
  let? mask := get_local_hp_mask c SpInitial sample in
  let? protected_header := long_add_protection (pi_header p) mask in
  let? ppn := xor_pn_protection (pi_pn_bytes p) mask in
  let? phb := long_to_bytes protected_header in
  Ok (phb ++ token_length_bytes ++ pi_token p ++ length_bytes ++ ppn ++ protected_payload).

(** packet.rs:345-351. *)
Record packet_zero_rtt := PacketZeroRtt {
  pz_header : long_header;
  pz_length : N;
  pz_pn_bytes : list N;
  pz_pn : N;
  pz_payload : list frame }.

(** packet.rs:355-394 [PacketZeroRtt::from_stream]. *)
Definition zero_rtt_from_stream (oc : bool) (c : connection) : parser packet_zero_rtt := fun s =>
  let? (header_byte, s) := u8_from_datagram s in
  let? (header, s) := long_from_stream header_byte s in
  let? (length, length_bytes, s) := var_int_with_bytes_from_stream oc s in
  let? (pn_protected, s) := var_bytes_from_stream 4 s in
  let? mask := get_remote_hp_mask c SpApplication s in
  let? header := long_remove_protection header mask in
  let? pn_length := long_packet_number_length header in
  let? pn_protected := xor_pn_protection pn_protected mask in
  let pn_bytes := firstn (N.to_nat pn_length) pn_protected in
  let? packet_number := reconstruct_remote_pn oc c SpApplication pn_bytes in
  let? n := sub64 oc length pn_length in
  let? (protected_frame_data, s) := var_bytes_from_stream n s in
  let? hb := long_to_bytes header in
  let associated_data := hb ++ length_bytes ++ firstn (N.to_nat pn_length) pn_bytes in
  let? frame_data :=
    decrypt_remote_payload c SpApplication protected_frame_data associated_data packet_number in
  let? payload := deserialize_frames oc frame_data in
  Ok (PacketZeroRtt header length pn_bytes packet_number payload, s).

(** packet.rs:398-403. *)
Record packet_handshake := PacketHandshake {
  ph_header : long_header;
  ph_pn_bytes : list N;
  ph_pn : N;
  ph_payload : list frame }.

(** packet.rs:407, 426-428. *)
Definition HANDSHAKE_TYPE_BITS : N := 0x20.
Definition handshake_new_header_byte (pn_length_bits : N) : N :=
  N.lor (N.lor HEADER_BITS HANDSHAKE_TYPE_BITS) pn_length_bits.

(** packet.rs:409-424 [PacketHandshake::new]. *)
Definition handshake_new (oc : bool) (packet_payload : list frame) (c : connection)
  : connection * outcome packet_handshake :=
  let '(c, r) := get_next_pn oc c SpHandshake in
  (c,
   let? (packet_number, packet_number_bytes) := r in
   let pn_length := cast 8 (len packet_number_bytes) in
   if negb ((0 <? pn_length) && (pn_length <=? 4))
   then Err (InternalError "invalid truncated_pn")
   else
     let header_byte := handshake_new_header_byte (pn_length - 1) in
     let? header := long_from_connection c header_byte in
     let? _ := validate_payload packet_payload in
     Ok (PacketHandshake header packet_number_bytes packet_number packet_payload)).

(** packet.rs:435-474 [PacketHandshake::from_stream]; the packet number is
    reconstructed from all four bytes (packet.rs:451), not from the
    [packet_number_length] first ones. *)
Definition handshake_from_stream (oc : bool) (c : connection) : parser packet_handshake :=
  fun s =>
  let? (header_byte, s) := u8_from_datagram s in
  let? (header, s) := long_from_stream header_byte s in
  let? (length, length_bytes, s) := var_int_with_bytes_from_stream oc s in
  let? (pn_bytes, s) := var_bytes_from_stream 4 s in
  let? mask := get_remote_hp_mask c SpHandshake s in
  let? header := long_remove_protection header mask in
  let? pn_length := long_packet_number_length header in
  let? pn_bytes := xor_pn_protection pn_bytes mask in
  let pn_vec := firstn (N.to_nat pn_length) pn_bytes in
  let? packet_number := reconstruct_remote_pn oc c SpHandshake pn_bytes in
  let? n := sub64 oc length pn_length in
  let? (protected_frame_data, s) := var_bytes_from_stream n s in
  let? hb := long_to_bytes header in
  let associated_data := hb ++ length_bytes ++ pn_vec in
  let? frame_data :=
    decrypt_remote_payload c SpHandshake protected_frame_data associated_data packet_number in
  let? payload := deserialize_frames oc frame_data in
  Ok (PacketHandshake header pn_vec packet_number payload, s).

(** packet.rs:481-513 [PacketHandshake::serialize]. *)
Definition handshake_serialize (oc : bool) (p : packet_handshake) (c : connection)
  : outcome (list N) :=
  let? payload_bytes := serialize_frames (ph_payload p) false in
  let? pn_length := long_packet_number_length (ph_header p) in
  let? plen := get_local_protected_payload_len oc c SpHandshake (len payload_bytes) in
  let? length := add64 oc plen pn_length in
  let? length_bytes := encode_var_int length in
  let? hb := long_to_bytes (ph_header p) in
  let associated_data := hb ++ length_bytes ++ ph_pn_bytes p in
  let? protected_payload :=
    encrypt_local_payload c SpHandshake payload_bytes associated_data (ph_pn p) in
  let? sample := slice_from protected_payload (4 - pn_length) in
  let? mask := get_local_hp_mask c SpHandshake sample in
  let? protected_header := long_add_protection (ph_header p) mask in
  let? ppn := xor_pn_protection (ph_pn_bytes p) mask in
  let? phb := long_to_bytes protected_header in
  Ok (phb ++ length_bytes ++ ppn ++ protected_payload).

(** packet.rs:517-525. *)
Record packet_retry := PacketRetry {
  pr_version : N; pr_dcid_len : N; pr_dcid : u160; pr_scid_len : N; pr_scid : u160;
  pr_token : list N; pr_integrity_tag : N }.

(** packet.rs:528-533: [todo!()]. *)
Definition retry_from_stream : parser packet_retry := fun _ => Panic "not yet implemented".

(** packet.rs:584-588. *)
Record short_header := ShortHeader {
  sh_byte : N; sh_dcid : u160; sh_protected : bool }.

(** packet.rs:591-601. *)
Definition short_from_stream (header_byte : N) : parser short_header := fun s =>
  let? (dcid, s) := fixed_len_dcid_from_stream s in
  Ok (ShortHeader header_byte dcid true, s).

(** packet.rs:602-610. *)
Definition short_spin_bit (h : short_header) : outcome bool :=
  if sh_protected h then Err (InternalError "attempting to read protected spin bit")
  else Ok (N.land (sh_byte h) 0x20 =? 0x20).

(** packet.rs:611-619. *)
Definition short_reserved_bits (h : short_header) : outcome N :=
  if sh_protected h then Err (InternalError "attempting to read protected reserved bits")
  else Ok (N.shiftr (N.land (sh_byte h) 0x18) 3).

(** packet.rs:620-628. *)
Definition short_key_phase (h : short_header) : outcome bool :=
  if sh_protected h then Err (InternalError "attempting to read protected key phase")
  else Ok (N.land (sh_byte h) 0x04 =? 0x04).

(** packet.rs:629-637. *)
Definition short_packet_number_length (h : short_header) : outcome N :=
  if sh_protected h then Err (InternalError "attempting to read protected packet nuber length")
  else Ok (N.land (sh_byte h) 0x03 + 1).

(** packet.rs:638-641. *)
Definition short_packet_type (h : short_header) : packet_type := TOneRtt.

(** packet.rs:642-647. *)
Definition short_remove_protection (h : short_header) (mask : list N) : outcome short_header :=
  if sh_protected h then
    let? m := index mask 0 in
    Ok (ShortHeader (N.lxor (sh_byte h) (N.land m 0x1f)) (sh_dcid h) false)
  else Ok h.

(** packet.rs:648-653. *)
Definition short_add_protection (h : short_header) (mask : list N) : outcome short_header :=
  if negb (sh_protected h) then
    let? m := index mask 0 in
    Ok (ShortHeader (N.lxor (sh_byte h) (N.land m 0x1f)) (sh_dcid h) true)
  else Ok h.

(** packet.rs:654-660. *)
Definition short_to_bytes (h : short_header) : outcome (list N) :=
  let? d := u160_to_var_bytes (sh_dcid h) 8 in
  Ok ([sh_byte h] ++ d).

(** packet.rs:664-669. *)
Record packet_one_rtt := PacketOneRtt {
  po_header : short_header;
  po_pn_bytes : list N;
  po_pn : N;
  po_payload : list frame }.

(** packet.rs:673-704 [PacketOneRtt::from_stream]. *)
Definition one_rtt_from_stream (oc : bool) (c : connection) : parser packet_one_rtt := fun s =>
  let? (header_byte, s) := u8_from_datagram s in
  let? (header, s) := short_from_stream header_byte s in
  let? (pn_protected, s) := var_bytes_from_stream 4 s in
  let? mask := get_remote_hp_mask c SpApplication s in
  let? header := short_remove_protection header mask in
  let? pn_length := short_packet_number_length header in
  let? pn_protected := xor_pn_protection pn_protected mask in
  let pn_bytes := firstn (N.to_nat pn_length) pn_protected in
  let? packet_number := reconstruct_remote_pn oc c SpApplication pn_bytes in
  let? (protected_frame_data, s) := all_bytes_from_stream s in
  let? hb := short_to_bytes header in
  let associated_data := hb ++ pn_bytes in
  let? frame_data :=
    decrypt_remote_payload c SpApplication protected_frame_data associated_data packet_number in
  let? payload := deserialize_frames oc frame_data in
  Ok (PacketOneRtt header pn_bytes packet_number payload, s).

(** packet.rs:708-711. *)
Inductive packet_header := HShort (h : short_header) | HLong (h : long_header).

(** packet.rs:714-719. *)
Definition get_destination_id (h : packet_header) : u160 :=
  match h with HShort x => sh_dcid x | HLong x => lh_dcid x end.

(** packet.rs:720-725. *)
Definition get_destination_id_length (h : packet_header) : N :=
  match h with HShort _ => 8 | HLong x => lh_dcid_len x end.

(** packet.rs:726-731. *)
Definition get_packet_type (h : packet_header) : outcome packet_type :=
  match h with HShort x => Ok (short_packet_type x) | HLong x => long_packet_type x end.

(** packet.rs:746-753. *)
Inductive packet :=
| PVersionNegotiation (p : packet_vn)
| PInitial (p : packet_initial)
| PZeroRtt (p : packet_zero_rtt)
| PHandshake (p : packet_handshake)
| PRetry (p : packet_retry)
| POneRtt (p : packet_one_rtt).

(** packet.rs:755-769 [next_header_from_stream]. *)
Definition next_header_from_stream : parser packet_header := fun s =>
  let? (header_byte, s) := next "no header byte found" s in
  if N.land header_byte 0x80 =? 0x80 then
    let? (h, s) := long_from_stream header_byte s in Ok (HLong h, s)
  else
    let? (h, s) := short_from_stream header_byte s in Ok (HShort h, s).

(** packet.rs:771-806 [decode_next_packet]. *)
Definition decode_next_packet (oc : bool) (c : connection) : parser packet := fun s =>
  let? (header, _) := unwrap (next_header_from_stream s) in
  match header with
  | HShort _ => let? (p, s) := one_rtt_from_stream oc c s in Ok (POneRtt p, s)
  | HLong x =>
      let? t := long_packet_type x in
      match t with
      | THandshake => let? (p, s) := handshake_from_stream oc c s in Ok (PHandshake p, s)
      | TInitial => let? (p, s) := initial_from_stream oc c s in Ok (PInitial p, s)
      | TZeroRtt => let? (p, s) := zero_rtt_from_stream oc c s in Ok (PZeroRtt p, s)
      | TRetry => let? (p, s) := retry_from_stream s in Ok (PRetry p, s)
      | TVersionNegotiation =>
          let? (p, s) := vn_from_stream s in Ok (PVersionNegotiation p, s)
      | _ => Panic "internal error: entered unreachable code"
      end
  end.

(** packet.rs:812-816: the loop [while !stream.clone().next().is_none()].  Every
    iteration consumes at least one byte or fails, so the number of bytes is
    enough fuel (proved: never [Diverge]). *)
Fixpoint decode_packets_loop (oc : bool) (c : connection) (fuel : nat) (s : stream)
  : outcome (list packet) :=
  match s with
  | [] => Ok []
  | _ =>
      match fuel with
      | O => Diverge
      | S f =>
          let? (p, s) := decode_next_packet oc c s in
          let? ps := decode_packets_loop oc c f s in
          Ok (p :: ps)
      end
  end.

(** packet.rs:808-817 [decode_packets]. *)
Definition decode_packets (oc : bool) (c : connection) (s : stream) : outcome (list packet) :=
  decode_packets_loop oc c (length s) s.
