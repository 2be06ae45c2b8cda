(** The text of the lines that are printed with "{:?}" and "{}":
    routing.rs:70, 99, 145 and utils.rs:437.  [Debug] is derived for everything
    that is printed (frame.rs, packet.rs, utils.rs:6-10, error.rs:1-21); what the
    derived code and the [Debug] instances of [std] write is modelled here.
    The order and the names of the fields are those of the declarations. *)
From Coq Require Export Ascii.
From Verif Require Import Base Utils Frame CipherSuite Secrets Connection Packet Routing.
Local Open Scope char_scope.

Definition text := list ascii.
Definition chars (s : string) : text := list_ascii_of_string s.

(** What a [Debug] implementation asks the formatter to write: a number, a
    string, a name, a tuple variant with one field, a struct, a sequence.  A
    [bool] is written as a name. *)
Inductive dbg :=
| DNum (n : N)
| DStr (s : string)
| DName (name : string)
| DOne (name : string) (x : dbg)
| DStruct (name : string) (fields : list (string * dbg))
| DSeq (xs : list dbg).

(** Decimal digits of an unsigned integer ([Display] and [Debug] in [std]). *)
Fixpoint digits (u : Decimal.uint) : text :=
  match u with
  | Decimal.Nil => []
  | Decimal.D0 u => "0" :: digits u
  | Decimal.D1 u => "1" :: digits u
  | Decimal.D2 u => "2" :: digits u
  | Decimal.D3 u => "3" :: digits u
  | Decimal.D4 u => "4" :: digits u
  | Decimal.D5 u => "5" :: digits u
  | Decimal.D6 u => "6" :: digits u
  | Decimal.D7 u => "7" :: digits u
  | Decimal.D8 u => "8" :: digits u
  | Decimal.D9 u => "9" :: digits u
  end.
Definition number (n : N) : text := digits (N.to_uint n).

Definition hex_digit (n : nat) : ascii :=
  ascii_of_nat (if Nat.ltb n 10 then 48 + n else 87 + n).

(** [Debug] of a character inside a string ([char::escape_debug] in [std]).
    Characters above 127 are copied, as [std] does with printable ones; no
    string of the crate contains any. *)
Definition escape (c : ascii) : text :=
  let n := nat_of_ascii c in
  match n with
  | 0 => ["\"; "0"]
  | 9 => ["\"; "t"]
  | 10 => ["\"; "n"]
  | 13 => ["\"; "r"]
  | 34 => ["\"; """"]
  | 92 => ["\"; "\"]
  | _ =>
      if Nat.ltb n 16 then ["\"; "u"; "{"; hex_digit n; "}"]
      else if Nat.ltb n 32 || Nat.eqb n 127
      then ["\"; "u"; "{"; hex_digit (Nat.div n 16); hex_digit (Nat.modulo n 16); "}"]
      else [c]
  end%nat.

(** Elements separated by commas. *)
Fixpoint join (xs : list text) : text :=
  match xs with
  | [] => []
  | [x] => x
  | x :: xs => x ++ chars ", " ++ join xs
  end.

Fixpoint render (d : dbg) : text :=
  match d with
  | DNum n => number n
  | DStr s => """" :: flat_map escape (chars s) ++ [""""]
  | DName name => chars name
  | DOne name x => chars name ++ "(" :: render x ++ [")"]
  | DStruct name fields =>
      chars name ++ chars " { " ++
      join (map (fun f => match f with (k, v) => chars k ++ chars ": " ++ render v end) fields) ++ chars " }"
  | DSeq xs => "[" :: join (map render xs) ++ ["]"]
  end.

Local Open Scope string_scope.

Definition d_bool (b : bool) : dbg := DName (if b then "true" else "false").
Definition d_list {A} (f : A -> dbg) (l : list A) : dbg := DSeq (map f l).
Definition d_bytes (l : list N) : dbg := d_list DNum l.
Definition d_option {A} (f : A -> dbg) (x : option A) : dbg :=
  match x with Some a => DOne "Some" (f a) | None => DName "None" end.

(** utils.rs:6-10. *)
Definition d_u160 (x : u160) : dbg :=
  DStruct "U160" [("idx0", DNum (idx0 x)); ("idx1", DNum (idx1 x))].

(** error.rs:1-21. *)
Definition d_error (e : error) : dbg :=
  match e with
  | NoError => DName "NoError"
  | InternalError msg => DOne "InternalError" (DStr msg)
  | ConnectionRefused => DName "ConnectionRefused"
  | FlowControlError => DName "FlowControlError"
  | StreamLimitError => DName "StreamLimitError"
  | StreamStateError => DName "StreamStateError"
  | FinalSizeError => DName "FinalSizeError"
  | FrameEncodingError => DName "FrameEncodingError"
  | TransportParameterError => DName "TransportParameterError"
  | ConnectionIdLimitError => DName "ConnectionIdLimitError"
  | ProtocolViolation => DName "ProtocolViolation"
  | InvalidToken => DName "InvalidToken"
  | ApplicationError => DName "ApplicationError"
  | CryptoBufferExceeded => DName "CryptoBufferExceeded"
  | KeyUpdateError => DName "KeyUpdateError"
  | AeadLimitReached => DName "AeadLimitReached"
  | NoViablePath => DName "NoViablePath"
  end.

(** frame.rs:8-13. *)
Definition d_ecn_counts (x : ecn_counts) : dbg :=
  DStruct "EcnCounts"
    [("ect0_count", DNum (ect0_count x));
     ("ect1_count", DNum (ect1_count x));
     ("ecn_ce_count", DNum (ecn_ce_count x))].

(** frame.rs:39-43. *)
Definition d_ack_range (x : ack_range) : dbg :=
  DStruct "AckRange"
    [("gap", DNum (gap x));
     ("ack_range_length", DNum (ack_range_length x))].

(** frame.rs:66-74. *)
Definition d_frame_ack (x : frame_ack) : dbg :=
  DStruct "FrameAck"
    [("largest_acknowledged", DNum (largest_acknowledged x));
     ("ack_delay", DNum (ack_delay x));
     ("ack_range_count", DNum (ack_range_count x));
     ("first_ack_range", DNum (first_ack_range x));
     ("ack_range", d_list d_ack_range (ack_ranges x));
     ("ecn_counts", d_option d_ecn_counts (ack_ecn x))].

(** frame.rs:131-136. *)
Definition d_frame_reset_stream (x : frame_reset_stream) : dbg :=
  DStruct "FrameResetStream"
    [("stream_id", DNum (rs_stream_id x));
     ("application_protocol_error_code", DNum (rs_error_code x));
     ("final_size", DNum (rs_final_size x))].

(** frame.rs:170-174. *)
Definition d_frame_stop_sending (x : frame_stop_sending) : dbg :=
  DStruct "FrameStopSending"
    [("stream_id", DNum (ss_stream_id x));
     ("application_protocol_error_code", DNum (ss_error_code x))].

(** frame.rs:204-209. *)
Definition d_frame_crypto (x : frame_crypto) : dbg :=
  DStruct "FrameCrypto"
    [("offset", DNum (cr_offset x));
     ("length", DNum (cr_length x));
     ("crypto_data", d_bytes (crypto_data x))].

(** frame.rs:244-248. *)
Definition d_frame_new_token (x : frame_new_token) : dbg :=
  DStruct "FrameNewToken"
    [("token_length", DNum (nt_token_length x));
     ("token", d_bytes (nt_token x))].

(** frame.rs:278-285. *)
Definition d_frame_stream (x : frame_stream) : dbg :=
  DStruct "FrameStream"
    [("stream_id", DNum (st_stream_id x));
     ("offset", DNum (st_offset x));
     ("length", DNum (st_length x));
     ("stream_data", d_bytes (st_data x));
     ("is_fin", d_bool (st_is_fin x))].

(** frame.rs:355-358. *)
Definition d_frame_max_data (x : frame_max_data) : dbg :=
  DStruct "FrameMaxData"
    [("maximum_data", DNum (md_maximum_data x))].

(** frame.rs:380-384. *)
Definition d_frame_max_stream_data (x : frame_max_stream_data) : dbg :=
  DStruct "FrameMaxStreamData"
    [("stream_id", DNum (msd_stream_id x));
     ("maximum_stream_data", DNum (msd_maximum_stream_data x))].

(** frame.rs:414-418. *)
Definition d_frame_max_streams (x : frame_max_streams) : dbg :=
  DStruct "FrameMaxStreams"
    [("maximum_streams", DNum (ms_maximum_streams x));
     ("is_unidirectional", d_bool (ms_is_unidirectional x))].

(** frame.rs:453-456. *)
Definition d_frame_data_blocked (x : frame_data_blocked) : dbg :=
  DStruct "FrameDataBlocked"
    [("maximum_data", DNum (db_maximum_data x))].

(** frame.rs:478-482. *)
Definition d_frame_stream_data_blocked (x : frame_stream_data_blocked) : dbg :=
  DStruct "FrameStreamDataBlocked"
    [("stream_id", DNum (sdb_stream_id x));
     ("maximum_stream_data", DNum (sdb_maximum_stream_data x))].

(** frame.rs:512-516. *)
Definition d_frame_streams_blocked (x : frame_streams_blocked) : dbg :=
  DStruct "FrameStreamsBlocked"
    [("maximum_streams", DNum (sb_maximum_streams x));
     ("is_unidirectional_limit", d_bool (sb_is_unidirectional_limit x))].

(** frame.rs:551-558. *)
Definition d_frame_new_connection_id (x : frame_new_connection_id) : dbg :=
  DStruct "FrameNewConnectionId"
    [("sequence_number", DNum (nc_sequence_number x));
     ("retire_prior_to", DNum (nc_retire_prior_to x));
     ("length", DNum (nc_length x));
     ("connection_id", d_u160 (nc_connection_id x));
     ("stateless_reset_token", DNum (nc_stateless_reset_token x))].

(** frame.rs:608-611. *)
Definition d_frame_retire_connection_id (x : frame_retire_connection_id) : dbg :=
  DStruct "FrameRetireConnectionId"
    [("sequence_number", DNum (rc_sequence_number x))].

(** frame.rs:633-636. *)
Definition d_frame_path_challenge (x : frame_path_challenge) : dbg :=
  DStruct "FramePathChallenge"
    [("data", DNum (pc_data x))].

(** frame.rs:654-657. *)
Definition d_frame_path_response (x : frame_path_response) : dbg :=
  DStruct "FramePathResponse"
    [("data", DNum (pr_data x))].

(** frame.rs:675-682. *)
Definition d_frame_connection_close (x : frame_connection_close) : dbg :=
  DStruct "FrameConnectionClose"
    [("error_code", DNum (cc_error_code x));
     ("frame_type", d_option DNum (cc_frame_type x));
     ("reason_phrase_length", DNum (cc_reason_phrase_length x));
     ("reason_phrase", d_bytes (cc_reason_phrase x));
     ("is_application_error", d_bool (cc_is_application_error x))].

(** frame.rs:746-768. *)
Definition d_frame (x : frame) : dbg :=
  match x with
  | Padding => DName "Padding"
  | Ping => DName "Ping"
  | Ack x => DOne "Ack" (d_frame_ack x)
  | ResetStream x => DOne "ResetStream" (d_frame_reset_stream x)
  | StopSending x => DOne "StopSending" (d_frame_stop_sending x)
  | Crypto x => DOne "Crypto" (d_frame_crypto x)
  | NewToken x => DOne "NewToken" (d_frame_new_token x)
  | Stream x => DOne "Stream" (d_frame_stream x)
  | MaxData x => DOne "MaxData" (d_frame_max_data x)
  | MaxStreamData x => DOne "MaxStreamData" (d_frame_max_stream_data x)
  | MaxStreams x => DOne "MaxStreams" (d_frame_max_streams x)
  | DataBlocked x => DOne "DataBlocked" (d_frame_data_blocked x)
  | StreamDataBlocked x => DOne "StreamDataBlocked" (d_frame_stream_data_blocked x)
  | StreamsBlocked x => DOne "StreamsBlocked" (d_frame_streams_blocked x)
  | NewConnectionId x => DOne "NewConnectionId" (d_frame_new_connection_id x)
  | RetireConnectionId x => DOne "RetireConnectionId" (d_frame_retire_connection_id x)
  | PathChallenge x => DOne "PathChallenge" (d_frame_path_challenge x)
  | PathResponse x => DOne "PathResponse" (d_frame_path_response x)
  | ConnectionClose x => DOne "ConnectionClose" (d_frame_connection_close x)
  | HandshakeDone => DName "HandshakeDone"
  end.

(** packet.rs:8-12. *)
Definition d_vn_fields (x : vn_fields) : dbg :=
  DStruct "VersionNegotiationHeaderUnionFields"
    [("destination_connection_id", d_bytes (vn_dcid x));
     ("source_connection_id", d_bytes (vn_scid x))].

(** packet.rs:14-24. *)
Definition d_long_header (x : long_header) : dbg :=
  DStruct "LongPacketHeader"
    [("header_byte", DNum (lh_byte x));
     ("version", DNum (lh_version x));
     ("destination_connection_id_length", DNum (lh_dcid_len x));
     ("destination_connection_id", d_u160 (lh_dcid x));
     ("source_connection_id_length", DNum (lh_scid_len x));
     ("source_connection_id", d_u160 (lh_scid x));
     ("version_negotiation", d_option d_vn_fields (lh_vn x));
     ("is_protected", d_bool (lh_protected x))].

(** packet.rs:178-182. *)
Definition d_packet_vn (x : packet_vn) : dbg :=
  DStruct "PacketVersionNegotiation"
    [("header", d_long_header (vn_header x));
     ("supported_versions", d_bytes (supported_versions x))].

(** packet.rs:211-218. *)
Definition d_packet_initial (x : packet_initial) : dbg :=
  DStruct "PacketInitial"
    [("header", d_long_header (pi_header x));
     ("token", d_bytes (pi_token x));
     ("packet_number", DNum (pi_pn x));
     ("packet_number_bytes", d_bytes (pi_pn_bytes x));
     ("packet_payload", d_list d_frame (pi_payload x))].

(** packet.rs:344-351. *)
Definition d_packet_zero_rtt (x : packet_zero_rtt) : dbg :=
  DStruct "PacketZeroRtt"
    [("header", d_long_header (pz_header x));
     ("length", DNum (pz_length x));
     ("packet_number_bytes", d_bytes (pz_pn_bytes x));
     ("packet_number", DNum (pz_pn x));
     ("packet_payload", d_list d_frame (pz_payload x))].

(** packet.rs:397-403. *)
Definition d_packet_handshake (x : packet_handshake) : dbg :=
  DStruct "PacketHandshake"
    [("header", d_long_header (ph_header x));
     ("packet_number_bytes", d_bytes (ph_pn_bytes x));
     ("packet_number", DNum (ph_pn x));
     ("packet_payload", d_list d_frame (ph_payload x))].

(** packet.rs:516-525. *)
Definition d_packet_retry (x : packet_retry) : dbg :=
  DStruct "PacketRetry"
    [("version", DNum (pr_version x));
     ("destination_connection_id_length", DNum (pr_dcid_len x));
     ("destination_connection_id", d_u160 (pr_dcid x));
     ("source_connection_id_length", DNum (pr_scid_len x));
     ("source_connection_id", d_u160 (pr_scid x));
     ("retry_token", d_bytes (pr_token x));
     ("retry_integrity_tag", DNum (pr_integrity_tag x))].

(** packet.rs:583-588. *)
Definition d_short_header (x : short_header) : dbg :=
  DStruct "ShortPacketHeader"
    [("header_byte", DNum (sh_byte x));
     ("destination_connection_id", d_u160 (sh_dcid x));
     ("is_protected", d_bool (sh_protected x))].

(** packet.rs:663-669. *)
Definition d_packet_one_rtt (x : packet_one_rtt) : dbg :=
  DStruct "PacketOneRtt"
    [("header", d_short_header (po_header x));
     ("packet_number_bytes", d_bytes (po_pn_bytes x));
     ("packet_number", DNum (po_pn x));
     ("packet_payload", d_list d_frame (po_payload x))].

(** packet.rs:707-711. *)
Definition d_packet_header (x : packet_header) : dbg :=
  match x with
  | HShort x => DOne "Short" (d_short_header x)
  | HLong x => DOne "Long" (d_long_header x)
  end.

(** packet.rs:745-753. *)
Definition d_packet (x : packet) : dbg :=
  match x with
  | PVersionNegotiation x => DOne "VersionNegotiation" (d_packet_vn x)
  | PInitial x => DOne "Initial" (d_packet_initial x)
  | PZeroRtt x => DOne "ZeroRtt" (d_packet_zero_rtt x)
  | PHandshake x => DOne "Handshake" (d_packet_handshake x)
  | PRetry x => DOne "Retry" (d_packet_retry x)
  | POneRtt x => DOne "OneRtt" (d_packet_one_rtt x)
  end.

(** [Debug] of the result of [next_header_from_stream]; there is a text only
    when the function returns. *)
Definition header_text (r : outcome (packet_header * stream)) : option text :=
  match r with
  | Ok (h, _) => Some (render (DOne "Ok" (d_packet_header h)))
  | Err e => Some (render (DOne "Err" (d_error e)))
  | Panic _ | Diverge => None
  end.

(** The text of a line without its end. *)
Definition line_text (x : line) : option text :=
  match x with
  | LogHeader r => header_text r                              (* routing.rs:70 *)
  | LogPackets ps => Some (render (d_list d_packet ps))        (* routing.rs:145 *)
  | LogError e => Some (render (d_error e))                   (* routing.rs:99 *)
  | LogShort i => Some (chars "failed at: " ++ number i)%list (* utils.rs:437 *)
  end.

(** Which lines go to the standard output ([println], not [eprintln]). *)
Definition on_stdout (x : line) : bool :=
  match x with LogError _ => false | _ => true end.

Definition newline : ascii := "010"%char.

(** What the standard output has received after these lines: [println] writes a
    line and its end under the lock of the standard output, so that lines of
    different threads do not mix. *)
Fixpoint stdout (xs : list line) : option text :=
  match xs with
  | [] => Some []
  | x :: xs =>
      if on_stdout x then
        match line_text x, stdout xs with
        | Some t, Some rest => Some (t ++ newline :: rest)%list
        | _, _ => None
        end
      else stdout xs
  end.
