(** Independent specifications used by the property theorems.  This file does
    not mention any function of the model; it only uses the data types. *)
From Verif Require Import Base Utils Frame.

(** A byte string. *)
Definition bytes_ok (bs : list N) : Prop := Forall (fun b => b < 256) bs.

(** The unsigned integer written big-endian as [bs]. *)
Fixpoint be_val (bs : list N) : N :=
  match bs with
  | [] => 0
  | b :: bs' => b * 256 ^ len bs' + be_val bs'
  end.

(** RFC 9000 section 16: [bs] is a variable-length encoding of [x].  The two
    most significant bits of the first byte hold the base-2 logarithm [k] of
    the length in bytes; the remaining bits hold the value, big-endian.  The
    encoding need not be the shortest one. *)
Definition varint_enc (x : N) (bs : list N) : Prop :=
  exists k, k <= 3 /\ len bs = 2 ^ k /\ bytes_ok bs /\
            x < 2 ^ (8 * 2 ^ k - 2) /\
            be_val bs = k * 2 ^ (8 * 2 ^ k - 2) + x.

(** The 160-bit value held by a connection id. *)
Definition cid_val (c : u160) : N := idx0 c * 2 ^ 128 + idx1 c.
Definition cid_ok (c : u160) : Prop := idx0 c < 2 ^ 32 /\ idx1 c < 2 ^ 128.
(** [bs] is the [l]-byte big-endian form of the id. *)
Definition cid_enc (c : u160) (l : N) (bs : list N) : Prop :=
  cid_ok c /\ bytes_ok bs /\ len bs = l /\ be_val bs = cid_val c.

(** [n]-byte big-endian field. *)
Definition fixed_enc (n x : N) (bs : list N) : Prop :=
  bytes_ok bs /\ len bs = n /\ be_val bs = x.

(** RFC 9000 section 19.3.1. *)
Inductive ranges_enc : list ack_range -> list N -> Prop :=
| ranges_nil : ranges_enc [] []
| ranges_cons : forall g l rs a b bs,
    varint_enc g a -> varint_enc l b -> ranges_enc rs bs ->
    ranges_enc (AckRange g l :: rs) (a ++ b ++ bs).

Definition bit (b : bool) (v : N) : N := if b then v else 0.

(** RFC 9000 section 19.  [frame_enc last f bs]: [bs] is an encoding of frame
    [f]; [last] tells whether [f] is the last frame of its packet. *)
Inductive frame_enc (last : bool) : frame -> list N -> Prop :=
| enc_padding : frame_enc last Padding [0x00]
| enc_ping : frame_enc last Ping [0x01]
| enc_ack : forall la delay first ranges a b c d r,
    varint_enc la a -> varint_enc delay b -> varint_enc (len ranges) c ->
    varint_enc first d -> ranges_enc ranges r ->
    frame_enc last (Ack (FrameAck la delay (len ranges) first ranges None))
              (0x02 :: a ++ b ++ c ++ d ++ r)
| enc_ack_ecn : forall la delay first ranges e0 e1 ce a b c d r x y z,
    varint_enc la a -> varint_enc delay b -> varint_enc (len ranges) c ->
    varint_enc first d -> ranges_enc ranges r ->
    varint_enc e0 x -> varint_enc e1 y -> varint_enc ce z ->
    frame_enc last (Ack (FrameAck la delay (len ranges) first ranges (Some (EcnCounts e0 e1 ce))))
              (0x03 :: a ++ b ++ c ++ d ++ r ++ x ++ y ++ z)
| enc_reset_stream : forall id code size a b c,
    varint_enc id a -> varint_enc code b -> varint_enc size c ->
    frame_enc last (ResetStream (FrameResetStream id code size)) (0x04 :: a ++ b ++ c)
| enc_stop_sending : forall id code a b,
    varint_enc id a -> varint_enc code b ->
    frame_enc last (StopSending (FrameStopSending id code)) (0x05 :: a ++ b)
| enc_crypto : forall off data a b,
    varint_enc off a -> varint_enc (len data) b -> bytes_ok data ->
    frame_enc last (Crypto (FrameCrypto off (len data) data)) (0x06 :: a ++ b ++ data)
| enc_new_token : forall token a,
    varint_enc (len token) a -> bytes_ok token ->
    frame_enc last (NewToken (FrameNewToken (len token) token)) (0x07 :: a ++ token)
| enc_stream : forall id off data fin (o l : bool) a b c,
    varint_enc id a ->
    (if o then varint_enc off b else off = 0 /\ b = []) ->
    (if l then varint_enc (len data) c else last = true /\ c = []) ->
    bytes_ok data ->
    frame_enc last (Stream (FrameStream id off (len data) data fin))
              ((0x08 + bit o 0x04 + bit l 0x02 + bit fin 0x01) :: a ++ b ++ c ++ data)
| enc_max_data : forall m a,
    varint_enc m a -> frame_enc last (MaxData (FrameMaxData m)) (0x10 :: a)
| enc_max_stream_data : forall id m a b,
    varint_enc id a -> varint_enc m b ->
    frame_enc last (MaxStreamData (FrameMaxStreamData id m)) (0x11 :: a ++ b)
| enc_max_streams : forall m uni a,
    varint_enc m a ->
    frame_enc last (MaxStreams (FrameMaxStreams m uni)) ((0x12 + bit uni 1) :: a)
| enc_data_blocked : forall m a,
    varint_enc m a -> frame_enc last (DataBlocked (FrameDataBlocked m)) (0x14 :: a)
| enc_stream_data_blocked : forall id m a b,
    varint_enc id a -> varint_enc m b ->
    frame_enc last (StreamDataBlocked (FrameStreamDataBlocked id m)) (0x15 :: a ++ b)
| enc_streams_blocked : forall m uni a,
    varint_enc m a ->
    frame_enc last (StreamsBlocked (FrameStreamsBlocked m uni)) ((0x16 + bit uni 1) :: a)
| enc_new_connection_id : forall seq retire l cid token a b c t,
    varint_enc seq a -> varint_enc retire b ->
    1 <= l <= 20 -> cid_enc cid l c -> fixed_enc 16 token t ->
    frame_enc last (NewConnectionId (FrameNewConnectionId seq retire l cid token))
              (0x18 :: a ++ b ++ l :: c ++ t)
| enc_retire_connection_id : forall seq a,
    varint_enc seq a ->
    frame_enc last (RetireConnectionId (FrameRetireConnectionId seq)) (0x19 :: a)
| enc_path_challenge : forall d a,
    fixed_enc 8 d a -> frame_enc last (PathChallenge (FramePathChallenge d)) (0x1a :: a)
| enc_path_response : forall d a,
    fixed_enc 8 d a -> frame_enc last (PathResponse (FramePathResponse d)) (0x1b :: a)
| enc_connection_close : forall code ft reason a b c,
    varint_enc code a -> varint_enc ft b -> varint_enc (len reason) c -> bytes_ok reason ->
    frame_enc last (ConnectionClose (FrameConnectionClose code (Some ft) (len reason) reason false))
              (0x1c :: a ++ b ++ c ++ reason)
| enc_connection_close_app : forall code reason a c,
    varint_enc code a -> varint_enc (len reason) c -> bytes_ok reason ->
    frame_enc last (ConnectionClose (FrameConnectionClose code None (len reason) reason true))
              (0x1d :: a ++ c ++ reason)
| enc_handshake_done : frame_enc last HandshakeDone [0x1e].

(** Values a variable-length integer can carry. *)
Definition v62 (x : N) : Prop := x < 2 ^ 62.

(** Well-formed frames: integers fit their wire fields, length and count
    fields agree with the data. *)
Definition frame_wf (f : frame) : Prop :=
  match f with
  | Padding | Ping | HandshakeDone => True
  | Ack x =>
      v62 (largest_acknowledged x) /\ v62 (ack_delay x) /\ v62 (first_ack_range x) /\
      ack_range_count x = len (ack_ranges x) /\ v62 (len (ack_ranges x)) /\
      Forall (fun r => v62 (gap r) /\ v62 (ack_range_length r)) (ack_ranges x) /\
      match ack_ecn x with
      | Some e => v62 (ect0_count e) /\ v62 (ect1_count e) /\ v62 (ecn_ce_count e)
      | None => True
      end
  | ResetStream x => v62 (rs_stream_id x) /\ v62 (rs_error_code x) /\ v62 (rs_final_size x)
  | StopSending x => v62 (ss_stream_id x) /\ v62 (ss_error_code x)
  | Crypto x =>
      v62 (cr_offset x) /\ cr_length x = len (crypto_data x) /\
      v62 (len (crypto_data x)) /\ bytes_ok (crypto_data x)
  | NewToken x =>
      nt_token_length x = len (nt_token x) /\ v62 (len (nt_token x)) /\ bytes_ok (nt_token x)
  | Stream x =>
      v62 (st_stream_id x) /\ v62 (st_offset x) /\ st_length x = len (st_data x) /\
      v62 (len (st_data x)) /\ bytes_ok (st_data x)
  | MaxData x => v62 (md_maximum_data x)
  | MaxStreamData x => v62 (msd_stream_id x) /\ v62 (msd_maximum_stream_data x)
  | MaxStreams x => v62 (ms_maximum_streams x)
  | DataBlocked x => v62 (db_maximum_data x)
  | StreamDataBlocked x => v62 (sdb_stream_id x) /\ v62 (sdb_maximum_stream_data x)
  | StreamsBlocked x => v62 (sb_maximum_streams x)
  | NewConnectionId x =>
      v62 (nc_sequence_number x) /\ v62 (nc_retire_prior_to x) /\
      1 <= nc_length x <= 20 /\ cid_ok (nc_connection_id x) /\
      cid_val (nc_connection_id x) < 256 ^ nc_length x /\
      nc_stateless_reset_token x < 2 ^ 128
  | RetireConnectionId x => v62 (rc_sequence_number x)
  | PathChallenge x => pc_data x < 2 ^ 64
  | PathResponse x => pr_data x < 2 ^ 64
  | ConnectionClose x =>
      v62 (cc_error_code x) /\ cc_reason_phrase_length x = len (cc_reason_phrase x) /\
      v62 (len (cc_reason_phrase x)) /\ bytes_ok (cc_reason_phrase x) /\
      match cc_frame_type x with
      | Some t => v62 t /\ cc_is_application_error x = false
      | None => cc_is_application_error x = true
      end
  end.

Definition is_stream (f : frame) : bool := match f with Stream _ => true | _ => false end.

(** CRYPTO frames at offset 0 (the only ones the crate constructs). *)
Definition crypto_at_zero (f : frame) : Prop :=
  match f with Crypto x => cr_offset x = 0 | _ => True end.

(** What a decoded frame holds: one for the frame itself, its data bytes, its
    acknowledgement ranges. *)
Definition frame_weight (f : frame) : N :=
  1 + match f with
      | Ack x => len (ack_ranges x)
      | Crypto x => len (crypto_data x)
      | NewToken x => len (nt_token x)
      | Stream x => len (st_data x)
      | ConnectionClose x => len (cc_reason_phrase x)
      | _ => 0
      end.
Fixpoint frames_weight (fs : list frame) : N :=
  match fs with [] => 0 | f :: fs => frame_weight f + frames_weight fs end.

(** RFC 9000 section 19 encoding of a sequence of frames forming a whole
    packet payload: only the final frame is the "last" one. *)
Inductive frames_enc : list frame -> list N -> Prop :=
| fenc_nil : frames_enc [] []
| fenc_one : forall f bs, frame_enc true f bs -> frames_enc [f] bs
| fenc_cons : forall f g fs a bs,
    frame_enc false f a -> frames_enc (g :: fs) bs -> frames_enc (f :: g :: fs) (a ++ bs).
