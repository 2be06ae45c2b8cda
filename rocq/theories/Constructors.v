(** Model of the remaining frame constructors of src/frame.rs and of the unused
    helper of src/packet.rs. *)
From Verif Require Import Base Utils Frame.

(** frame.rs:76-78 [FrameAck::new]: [todo!()]. *)
Definition ack_new : outcome frame_ack := Panic "not yet implemented".
(** frame.rs:139-145. *)
Definition reset_stream_new (stream_id error_code final_size : N) : frame_reset_stream :=
  FrameResetStream stream_id error_code final_size.
(** frame.rs:177-182. *)
Definition stop_sending_new (stream_id error_code : N) : frame_stop_sending :=
  FrameStopSending stream_id error_code.
(** frame.rs:361-363. *)
Definition max_data_new (maximum_data : N) : frame_max_data := FrameMaxData maximum_data.
(** frame.rs:387-392. *)
Definition max_stream_data_new (stream_id maximum_stream_data : N) : frame_max_stream_data :=
  FrameMaxStreamData stream_id maximum_stream_data.
(** frame.rs:421-426. *)
Definition max_streams_new (maximum_streams : N) (is_unidirectional : bool) : frame_max_streams :=
  FrameMaxStreams maximum_streams is_unidirectional.
(** frame.rs:459-461. *)
Definition data_blocked_new (maximum_data : N) : frame_data_blocked := FrameDataBlocked maximum_data.
(** frame.rs:485-490. *)
Definition stream_data_blocked_new (stream_id maximum_stream_data : N) : frame_stream_data_blocked :=
  FrameStreamDataBlocked stream_id maximum_stream_data.
(** frame.rs:519-524. *)
Definition streams_blocked_new (maximum_streams : N) (is_unidirectional_limit : bool) : frame_streams_blocked :=
  FrameStreamsBlocked maximum_streams is_unidirectional_limit.
(** frame.rs:614-616. *)
Definition retire_connection_id_new (sequence_number : N) : frame_retire_connection_id :=
  FrameRetireConnectionId sequence_number.
(** frame.rs:639-641. *)
Definition path_challenge_new (data : N) : frame_path_challenge := FramePathChallenge data.
(** frame.rs:660-662. *)
Definition path_response_new (data : N) : frame_path_response := FramePathResponse data.

(** packet.rs:133-135 [pn_length_from_header_byte]. *)
Definition pn_length_from_header_byte (header_byte : N) : N := N.land header_byte 0x03 + 1.
