(** Model of src/frame.rs. *)
From Verif Require Import Base Utils.

(** frame.rs:8-13 [EcnCounts]. *)
Record ecn_counts := EcnCounts { ect0_count : N; ect1_count : N; ecn_ce_count : N }.

(** frame.rs:16-28. *)
Definition ecn_from_datagram (oc : bool) : parser ecn_counts := fun s =>
  let? (a, s) := var_int_from_stream oc s in
  let? (b, s) := var_int_from_stream oc s in
  let? (c, s) := var_int_from_stream oc s in
  Ok (EcnCounts a b c, s).

(** frame.rs:29-36. *)
Definition ecn_to_bytes (x : ecn_counts) : outcome (list N) :=
  let? a := encode_var_int (ect0_count x) in
  let? b := encode_var_int (ect1_count x) in
  let? c := encode_var_int (ecn_ce_count x) in
  Ok (a ++ b ++ c).

(** frame.rs:39-43 [AckRange]. *)
Record ack_range := AckRange { gap : N; ack_range_length : N }.

(** frame.rs:46-56. *)
Definition ack_range_from_datagram (oc : bool) : parser ack_range := fun s =>
  let? (g, s) := var_int_from_stream oc s in
  let? (l, s) := var_int_from_stream oc s in
  Ok (AckRange g l, s).

(** frame.rs:57-63. *)
Definition ack_range_to_bytes (x : ack_range) : outcome (list N) :=
  let? a := encode_var_int (gap x) in
  let? b := encode_var_int (ack_range_length x) in
  Ok (a ++ b).

(** frame.rs:66-74 [FrameAck]. *)
Record frame_ack := FrameAck {
  largest_acknowledged : N;
  ack_delay : N;
  ack_range_count : N;
  first_ack_range : N;
  ack_ranges : list ack_range;
  ack_ecn : option ecn_counts }.

(** frame.rs:90-92: [for _ in 0..ack_range_count].  Fuel: one unit per
    iteration; every iteration consumes input or fails, so [S (length s)]
    iterations always suffice (proved: never [Diverge]). *)
Fixpoint ack_ranges_loop (oc : bool) (fuel : nat) (count : N) : parser (list ack_range) :=
  fun s =>
  if count =? 0 then Ok ([], s)
  else
    match fuel with
    | O => Diverge
    | S f =>
        let? (r, s) := ack_range_from_datagram oc s in
        let? (rs, s) := ack_ranges_loop oc f (count - 1) s in
        Ok (r :: rs, s)
    end.

(** frame.rs:80-106 [FrameAck::from_datagram]. *)
Definition ack_from_datagram (oc : bool) (type_byte : N) : parser frame_ack := fun s =>
  let? (largest, s) := var_int_from_stream oc s in
  let? (delay, s) := var_int_from_stream oc s in
  let? (count, s) := var_int_from_stream oc s in
  let? (first, s) := var_int_from_stream oc s in
  let? (ranges, s) := ack_ranges_loop oc (S (length s)) count s in
  let? (ecn, s) :=
    if N.land type_byte 0x1 =? 1 then
      let? (e, s) := ecn_from_datagram oc s in Ok (Some e, s)
    else Ok (None, s) in
  Ok (FrameAck largest delay count first ranges ecn, s).

(** frame.rs:108-113: serialise every range, then flatten. *)
Fixpoint ack_ranges_to_bytes (rs : list ack_range) : outcome (list N) :=
  match rs with
  | [] => Ok []
  | r :: rs =>
      let? b := ack_range_to_bytes r in
      let? bs := ack_ranges_to_bytes rs in
      Ok (b ++ bs)
  end.

(** frame.rs:107-128 [FrameAck::to_bytes]. *)
Definition ack_to_bytes (x : frame_ack) : outcome (list N) :=
  let? range_bytes := ack_ranges_to_bytes (ack_ranges x) in
  let? (ecn_bytes, type_byte) :=
    match ack_ecn x with
    | Some e => let? b := ecn_to_bytes e in Ok (b, 0x03)
    | None => Ok ([], 0x02)
    end in
  let? a := encode_var_int (largest_acknowledged x) in
  let? b := encode_var_int (ack_delay x) in
  let? c := encode_var_int (ack_range_count x) in
  let? d := encode_var_int (first_ack_range x) in
  Ok ([type_byte] ++ a ++ b ++ c ++ d ++ range_bytes ++ ecn_bytes).

(** frame.rs:131-136 [FrameResetStream]. *)
Record frame_reset_stream := FrameResetStream {
  rs_stream_id : N; rs_error_code : N; rs_final_size : N }.

(** frame.rs:146-158. *)
Definition reset_stream_from_datagram (oc : bool) : parser frame_reset_stream := fun s =>
  let? (a, s) := var_int_from_stream oc s in
  let? (b, s) := var_int_from_stream oc s in
  let? (c, s) := var_int_from_stream oc s in
  Ok (FrameResetStream a b c, s).

(** frame.rs:159-167. *)
Definition reset_stream_to_bytes (x : frame_reset_stream) : outcome (list N) :=
  let? a := encode_var_int (rs_stream_id x) in
  let? b := encode_var_int (rs_error_code x) in
  let? c := encode_var_int (rs_final_size x) in
  Ok ([0x04] ++ a ++ b ++ c).

(** frame.rs:170-174 [FrameStopSending]. *)
Record frame_stop_sending := FrameStopSending { ss_stream_id : N; ss_error_code : N }.

(** frame.rs:183-193. *)
Definition stop_sending_from_datagram (oc : bool) : parser frame_stop_sending := fun s =>
  let? (a, s) := var_int_from_stream oc s in
  let? (b, s) := var_int_from_stream oc s in
  Ok (FrameStopSending a b, s).

(** frame.rs:194-201. *)
Definition stop_sending_to_bytes (x : frame_stop_sending) : outcome (list N) :=
  let? a := encode_var_int (ss_stream_id x) in
  let? b := encode_var_int (ss_error_code x) in
  Ok ([0x05] ++ a ++ b).

(** frame.rs:204-209 [FrameCrypto]. *)
Record frame_crypto := FrameCrypto {
  cr_offset : N; cr_length : N; crypto_data : list N }.

(** frame.rs:212-218 [FrameCrypto::new]. *)
Definition crypto_new (data : list N) : frame_crypto := FrameCrypto 0 (len data) data.

(** frame.rs:219-232: note [total_size = length + offset] (frame.rs:225). *)
Definition crypto_from_datagram (oc : bool) : parser frame_crypto := fun s =>
  let? (offset, s) := var_int_from_stream oc s in
  let? (length, s) := var_int_from_stream oc s in
  let? total_size := add64 oc length offset in
  let? (data, s) := var_bytes_from_stream total_size s in
  Ok (FrameCrypto offset length data, s).

(** frame.rs:233-241. *)
Definition crypto_to_bytes (x : frame_crypto) : outcome (list N) :=
  let? a := encode_var_int (cr_offset x) in
  let? b := encode_var_int (cr_length x) in
  Ok ([0x06] ++ a ++ b ++ crypto_data x).

(** frame.rs:244-248 [FrameNewToken]. *)
Record frame_new_token := FrameNewToken { nt_token_length : N; nt_token : list N }.

(** frame.rs:251-256. *)
Definition new_token_new (token : list N) : frame_new_token := FrameNewToken (len token) token.

(** frame.rs:257-267. *)
Definition new_token_from_datagram (oc : bool) : parser frame_new_token := fun s =>
  let? (l, s) := var_int_from_stream oc s in
  let? (t, s) := var_bytes_from_stream l s in
  Ok (FrameNewToken l t, s).

(** frame.rs:268-275. *)
Definition new_token_to_bytes (x : frame_new_token) : outcome (list N) :=
  let? a := encode_var_int (nt_token_length x) in
  Ok ([0x07] ++ a ++ nt_token x).

(** frame.rs:278-285 [FrameStream]. *)
Record frame_stream := FrameStream {
  st_stream_id : N; st_offset : N; st_length : N; st_data : list N; st_is_fin : bool }.

(** frame.rs:288-296 [FrameStream::new]. *)
Definition stream_new (id : N) (data : list N) (fin : bool) : frame_stream :=
  FrameStream id 0 (len data) data fin.

(** frame.rs:297-326 [FrameStream::from_datagram].  In Rust [a & b == c] parses
    as [(a & b) == c], so lines 301-302 compare [type_byte & 4] and
    [type_byte & 2] with 1. *)
Definition stream_from_datagram (oc : bool) (type_byte : N) : parser frame_stream := fun s =>
  let has_offset := N.land type_byte 0x04 =? 1 in
  let has_length := N.land type_byte 0x02 =? 1 in
  let is_fin := N.land type_byte 0x01 =? 1 in
  let? (id, s) := var_int_from_stream oc s in
  let? (offset, s) := if has_offset then var_int_from_stream oc s else Ok (0, s) in
  let? (tp_length, s) :=
    if has_length then
      let? (l, s) := var_int_from_stream oc s in Ok (Some l, s)
    else Ok (None, s) in
  let? (data, s) :=
    match tp_length with
    | Some l => var_bytes_from_stream l s
    | None => all_bytes_from_stream s
    end in
  Ok (FrameStream id offset (len data) data is_fin, s).

(** frame.rs:327-352 [FrameStream::to_bytes]. *)
Definition stream_to_bytes (x : frame_stream) (include_len : bool) : outcome (list N) :=
  let has_offset := negb (st_offset x =? 0) in
  let type_byte :=
    N.lor (N.lor (N.lor 0x08 (if has_offset then 0x04 else 0x00))
                 (if include_len then 0x02 else 0x00))
          (if st_is_fin x then 0x01 else 0x00) in
  let? id := encode_var_int (st_stream_id x) in
  let? off := if has_offset then encode_var_int (st_offset x) else Ok [] in
  let? l := if include_len then encode_var_int (st_length x) else Ok [] in
  Ok ([type_byte] ++ id ++ off ++ l ++ st_data x).

(** frame.rs:355-358 [FrameMaxData]. *)
Record frame_max_data := FrameMaxData { md_maximum_data : N }.
(** frame.rs:364-370. *)
Definition max_data_from_datagram (oc : bool) : parser frame_max_data := fun s =>
  let? (a, s) := var_int_from_stream oc s in Ok (FrameMaxData a, s).
(** frame.rs:371-377. *)
Definition max_data_to_bytes (x : frame_max_data) : outcome (list N) :=
  let? a := encode_var_int (md_maximum_data x) in Ok ([0x10] ++ a).

(** frame.rs:380-384 [FrameMaxStreamData]. *)
Record frame_max_stream_data := FrameMaxStreamData {
  msd_stream_id : N; msd_maximum_stream_data : N }.
(** frame.rs:393-403. *)
Definition max_stream_data_from_datagram (oc : bool) : parser frame_max_stream_data := fun s =>
  let? (a, s) := var_int_from_stream oc s in
  let? (b, s) := var_int_from_stream oc s in
  Ok (FrameMaxStreamData a b, s).
(** frame.rs:404-411. *)
Definition max_stream_data_to_bytes (x : frame_max_stream_data) : outcome (list N) :=
  let? a := encode_var_int (msd_stream_id x) in
  let? b := encode_var_int (msd_maximum_stream_data x) in
  Ok ([0x11] ++ a ++ b).

(** frame.rs:414-418 [FrameMaxStreams]. *)
Record frame_max_streams := FrameMaxStreams {
  ms_maximum_streams : N; ms_is_unidirectional : bool }.
(** frame.rs:427-437. *)
Definition max_streams_from_datagram (oc : bool) (type_byte : N) : parser frame_max_streams :=
  fun s =>
  let? (a, s) := var_int_from_stream oc s in
  Ok (FrameMaxStreams a (N.land type_byte 0x01 =? 1), s).
(** frame.rs:438-450. *)
Definition max_streams_to_bytes (x : frame_max_streams) : outcome (list N) :=
  let type_byte := N.lor 0x12 (if ms_is_unidirectional x then 0x01 else 0x00) in
  let? a := encode_var_int (ms_maximum_streams x) in Ok ([type_byte] ++ a).

(** frame.rs:453-456 [FrameDataBlocked]. *)
Record frame_data_blocked := FrameDataBlocked { db_maximum_data : N }.
(** frame.rs:462-468. *)
Definition data_blocked_from_datagram (oc : bool) : parser frame_data_blocked := fun s =>
  let? (a, s) := var_int_from_stream oc s in Ok (FrameDataBlocked a, s).
(** frame.rs:469-475. *)
Definition data_blocked_to_bytes (x : frame_data_blocked) : outcome (list N) :=
  let? a := encode_var_int (db_maximum_data x) in Ok ([0x14] ++ a).

(** frame.rs:478-482 [FrameStreamDataBlocked]. *)
Record frame_stream_data_blocked := FrameStreamDataBlocked {
  sdb_stream_id : N; sdb_maximum_stream_data : N }.
(** frame.rs:491-501. *)
Definition stream_data_blocked_from_datagram (oc : bool) : parser frame_stream_data_blocked :=
  fun s =>
  let? (a, s) := var_int_from_stream oc s in
  let? (b, s) := var_int_from_stream oc s in
  Ok (FrameStreamDataBlocked a b, s).
(** frame.rs:502-509. *)
Definition stream_data_blocked_to_bytes (x : frame_stream_data_blocked) : outcome (list N) :=
  let? a := encode_var_int (sdb_stream_id x) in
  let? b := encode_var_int (sdb_maximum_stream_data x) in
  Ok ([0x15] ++ a ++ b).

(** frame.rs:512-516 [FrameStreamsBlocked]. *)
Record frame_streams_blocked := FrameStreamsBlocked {
  sb_maximum_streams : N; sb_is_unidirectional_limit : bool }.
(** frame.rs:525-535. *)
Definition streams_blocked_from_datagram (oc : bool) (type_byte : N)
  : parser frame_streams_blocked := fun s =>
  let? (a, s) := var_int_from_stream oc s in
  Ok (FrameStreamsBlocked a (N.land type_byte 0x01 =? 1), s).
(** frame.rs:536-548. *)
Definition streams_blocked_to_bytes (x : frame_streams_blocked) : outcome (list N) :=
  let type_byte := N.lor 0x16 (if sb_is_unidirectional_limit x then 0x01 else 0x00) in
  let? a := encode_var_int (sb_maximum_streams x) in Ok ([type_byte] ++ a).

(** frame.rs:551-558 [FrameNewConnectionId]. *)
Record frame_new_connection_id := FrameNewConnectionId {
  nc_sequence_number : N; nc_retire_prior_to : N; nc_length : N;
  nc_connection_id : u160; nc_stateless_reset_token : N }.

(** frame.rs:561-574 [FrameNewConnectionId::new]: length fixed to 8. *)
Definition new_connection_id_new (seq retire : N) (cid : u160) (token : N)
  : frame_new_connection_id := FrameNewConnectionId seq retire 8 cid token.

(** frame.rs:575-594. *)
Definition new_connection_id_from_datagram (oc : bool) : parser frame_new_connection_id :=
  fun s =>
  let? (seq, s) := var_int_from_stream oc s in
  let? (retire, s) := var_int_from_stream oc s in
  let? (l, s) := u8_from_datagram s in
  if (l <? 1) || (20 <? l) then Err (InternalError "invalid connection id length")
  else
    let? (cid, s) := var_u160_from_stream l s in
    let? (token, s) := u128_from_datagram s in
    Ok (FrameNewConnectionId seq retire l cid token, s).

(** frame.rs:595-605. *)
Definition new_connection_id_to_bytes (x : frame_new_connection_id) : outcome (list N) :=
  let? a := encode_var_int (nc_sequence_number x) in
  let? b := encode_var_int (nc_retire_prior_to x) in
  let? c := u160_to_var_bytes (nc_connection_id x) (nc_length x) in
  Ok ([0x18] ++ a ++ b ++ [nc_length x] ++ c ++ be_bytes 16 (nc_stateless_reset_token x)).

(** frame.rs:608-611 [FrameRetireConnectionId]. *)
Record frame_retire_connection_id := FrameRetireConnectionId { rc_sequence_number : N }.
(** frame.rs:617-623. *)
Definition retire_connection_id_from_datagram (oc : bool) : parser frame_retire_connection_id :=
  fun s => let? (a, s) := var_int_from_stream oc s in Ok (FrameRetireConnectionId a, s).
(** frame.rs:624-630. *)
Definition retire_connection_id_to_bytes (x : frame_retire_connection_id) : outcome (list N) :=
  let? a := encode_var_int (rc_sequence_number x) in Ok ([0x19] ++ a).

(** frame.rs:633-636 [FramePathChallenge]. *)
Record frame_path_challenge := FramePathChallenge { pc_data : N }.
(** frame.rs:642-648. *)
Definition path_challenge_from_datagram : parser frame_path_challenge := fun s =>
  let? (a, s) := u64_from_datagram s in Ok (FramePathChallenge a, s).
(** frame.rs:649-651. *)
Definition path_challenge_to_bytes (x : frame_path_challenge) : list N :=
  [0x1a] ++ be_bytes 8 (pc_data x).

(** frame.rs:654-657 [FramePathResponse]. *)
Record frame_path_response := FramePathResponse { pr_data : N }.
(** frame.rs:663-669. *)
Definition path_response_from_datagram : parser frame_path_response := fun s =>
  let? (a, s) := u64_from_datagram s in Ok (FramePathResponse a, s).
(** frame.rs:670-672. *)
Definition path_response_to_bytes (x : frame_path_response) : list N :=
  [0x1b] ++ be_bytes 8 (pr_data x).

(** frame.rs:675-682 [FrameConnectionClose]. *)
Record frame_connection_close := FrameConnectionClose {
  cc_error_code : N; cc_frame_type : option N; cc_reason_phrase_length : N;
  cc_reason_phrase : list N; cc_is_application_error : bool }.

(** frame.rs:685-693 [new_application_error]. *)
Definition connection_close_new_application_error (code : N) (reason : list N)
  : frame_connection_close := FrameConnectionClose code None (len reason) reason true.
(** frame.rs:694-702 [new_error]. *)
Definition connection_close_new_error (code ft : N) (reason : list N)
  : frame_connection_close := FrameConnectionClose code (Some ft) (len reason) reason false.

(** frame.rs:703-723. *)
Definition connection_close_from_datagram (oc : bool) (type_byte : N)
  : parser frame_connection_close := fun s =>
  let is_app := N.land type_byte 0x1 =? 1 in
  let? (code, s) := var_int_from_stream oc s in
  let? (ft, s) :=
    if negb is_app then
      let? (x, s) := var_int_from_stream oc s in Ok (Some x, s)
    else Ok (None, s) in
  let? (l, s) := var_int_from_stream oc s in
  let? (reason, s) := var_bytes_from_stream l s in
  Ok (FrameConnectionClose code ft l reason is_app, s).

(** frame.rs:724-743. *)
Definition connection_close_to_bytes (x : frame_connection_close) : outcome (list N) :=
  let type_byte := N.lor 0x1c (if cc_is_application_error x then 0x01 else 0x00) in
  let? ft := match cc_frame_type x with Some t => encode_var_int t | None => Ok [] end in
  let? a := encode_var_int (cc_error_code x) in
  let? b := encode_var_int (cc_reason_phrase_length x) in
  Ok ([type_byte] ++ a ++ ft ++ b ++ cc_reason_phrase x).

(** frame.rs:746-768 [Frame]. *)
Inductive frame :=
| Padding
| Ping
| Ack (x : frame_ack)
| ResetStream (x : frame_reset_stream)
| StopSending (x : frame_stop_sending)
| Crypto (x : frame_crypto)
| NewToken (x : frame_new_token)
| Stream (x : frame_stream)
| MaxData (x : frame_max_data)
| MaxStreamData (x : frame_max_stream_data)
| MaxStreams (x : frame_max_streams)
| DataBlocked (x : frame_data_blocked)
| StreamDataBlocked (x : frame_stream_data_blocked)
| StreamsBlocked (x : frame_streams_blocked)
| NewConnectionId (x : frame_new_connection_id)
| RetireConnectionId (x : frame_retire_connection_id)
| PathChallenge (x : frame_path_challenge)
| PathResponse (x : frame_path_response)
| ConnectionClose (x : frame_connection_close)
| HandshakeDone.

(** frame.rs:770-795 [Frame::to_bytes]. *)
Definition frame_to_bytes (f : frame) (is_df_end : bool) : outcome (list N) :=
  match f with
  | Padding => Ok [0x00]
  | Ping => Ok [0x01]
  | Ack x => ack_to_bytes x
  | ResetStream x => reset_stream_to_bytes x
  | StopSending x => stop_sending_to_bytes x
  | Crypto x => crypto_to_bytes x
  | NewToken x => new_token_to_bytes x
  | Stream x => stream_to_bytes x (negb is_df_end)
  | MaxData x => max_data_to_bytes x
  | MaxStreamData x => max_stream_data_to_bytes x
  | MaxStreams x => max_streams_to_bytes x
  | DataBlocked x => data_blocked_to_bytes x
  | StreamDataBlocked x => stream_data_blocked_to_bytes x
  | StreamsBlocked x => streams_blocked_to_bytes x
  | NewConnectionId x => new_connection_id_to_bytes x
  | RetireConnectionId x => retire_connection_id_to_bytes x
  | PathChallenge x => Ok (path_challenge_to_bytes x)
  | PathResponse x => Ok (path_response_to_bytes x)
  | ConnectionClose x => connection_close_to_bytes x
  | HandshakeDone => Ok [0x1e]
  end.

Definition in_range (lo hi x : N) : bool := (lo <=? x) && (x <=? hi).

(** [Ok(Frame::K(K::from_datagram(..)?))]. *)
Definition wrap {A} (k : A -> frame) (p : parser A) : parser frame := fun s =>
  let? (x, s) := p s in Ok (k x, s).

(** frame.rs:803-851: the [match type_byte]. *)
Definition deserialize_frame_body (oc : bool) (type_byte : N) : parser frame := fun s =>
  if type_byte =? 0x00 then Ok (Padding, s)
  else if type_byte =? 0x01 then Ok (Ping, s)
  else if in_range 0x02 0x03 type_byte then wrap Ack (ack_from_datagram oc type_byte) s
  else if type_byte =? 0x04 then wrap ResetStream (reset_stream_from_datagram oc) s
  else if type_byte =? 0x05 then wrap StopSending (stop_sending_from_datagram oc) s
  else if type_byte =? 0x06 then wrap Crypto (crypto_from_datagram oc) s
  else if type_byte =? 0x07 then wrap NewToken (new_token_from_datagram oc) s
  else if in_range 0x08 0x0f type_byte then wrap Stream (stream_from_datagram oc type_byte) s
  else if type_byte =? 0x10 then wrap MaxData (max_data_from_datagram oc) s
  else if type_byte =? 0x11 then wrap MaxStreamData (max_stream_data_from_datagram oc) s
  else if in_range 0x12 0x13 type_byte
       then wrap MaxStreams (max_streams_from_datagram oc type_byte) s
  else if type_byte =? 0x14 then wrap DataBlocked (data_blocked_from_datagram oc) s
  else if type_byte =? 0x15 then wrap StreamDataBlocked (stream_data_blocked_from_datagram oc) s
  else if in_range 0x16 0x17 type_byte
       then wrap StreamsBlocked (streams_blocked_from_datagram oc type_byte) s
  else if type_byte =? 0x18 then wrap NewConnectionId (new_connection_id_from_datagram oc) s
  else if type_byte =? 0x19 then wrap RetireConnectionId (retire_connection_id_from_datagram oc) s
  else if type_byte =? 0x1a then wrap PathChallenge path_challenge_from_datagram s
  else if type_byte =? 0x1b then wrap PathResponse path_response_from_datagram s
  else if in_range 0x1c 0x1d type_byte
       then wrap ConnectionClose (connection_close_from_datagram oc type_byte) s
  else if type_byte =? 0x1e then Ok (HandshakeDone, s)
  else Err (InternalError "Invalid type byte").

(** frame.rs:797-852 [deserialize_frame]: the type is a varint, then masked to
    8 bits (line 802). *)
Definition deserialize_frame (oc : bool) : parser frame := fun s =>
  let? (t, s) := var_int_from_stream oc s in
  let type_byte := cast 8 (N.land t (shl 64 1 8 - 1)) in
  deserialize_frame_body oc type_byte s.

(** frame.rs:854-865 [deserialize_frames]: loop while a byte can be peeked.
    Fuel: every frame consumes at least its type byte, so [S (length s)]
    suffices (proved: never [Diverge]). *)
Fixpoint deserialize_frames_loop (oc : bool) (fuel : nat) (s : stream) : outcome (list frame) :=
  match s with
  | [] => Ok []
  | _ :: _ =>
      match fuel with
      | O => Diverge
      | S f =>
          let? (x, s') := deserialize_frame oc s in
          let? xs := deserialize_frames_loop oc f s' in
          Ok (x :: xs)
      end
  end.
Definition deserialize_frames (oc : bool) (s : stream) : outcome (list frame) :=
  deserialize_frames_loop oc (S (length s)) s.

(** frame.rs:867-878 [serialize_frames]: [frame.to_bytes(is_df_end && idx ==
    frames_len - 1)] for every frame, then flatten. *)
Fixpoint serialize_frames_loop (is_df_end : bool) (frames_len idx : N) (fs : list frame)
  : outcome (list N) :=
  match fs with
  | [] => Ok []
  | f :: fs =>
      let? b := frame_to_bytes f (is_df_end && (idx =? frames_len - 1)) in
      let? bs := serialize_frames_loop is_df_end frames_len (idx + 1) fs in
      Ok (b ++ bs)
  end.
Definition serialize_frames (fs : list frame) (is_df_end : bool) : outcome (list N) :=
  serialize_frames_loop is_df_end (len fs) 0 fs.
