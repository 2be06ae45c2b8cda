(** C88: frames made by the constructors. *)
From Verif Require Import Base Utils Frame Constructors Spec Tactics UtilsFacts ParserFacts FrameFacts PropFrame.

(** The frames the constructors of frame.rs can make from arguments of their
    Rust types. *)
Definition u64 (x : N) : Prop := x < 2 ^ 64.
Inductive built : frame -> Prop :=
| b_padding : built Padding
| b_ping : built Ping
| b_done : built HandshakeDone
| b_reset a b c : u64 a -> u64 b -> u64 c -> built (ResetStream (reset_stream_new a b c))
| b_stop a b : u64 a -> u64 b -> built (StopSending (stop_sending_new a b))
| b_crypto d : bytes_ok d -> built (Crypto (crypto_new d))
| b_token d : bytes_ok d -> built (NewToken (new_token_new d))
| b_stream a d fin : u64 a -> bytes_ok d -> built (Stream (stream_new a d fin))
| b_max_data a : u64 a -> built (MaxData (max_data_new a))
| b_max_stream_data a b : u64 a -> u64 b -> built (MaxStreamData (max_stream_data_new a b))
| b_max_streams a uni : u64 a -> built (MaxStreams (max_streams_new a uni))
| b_data_blocked a : u64 a -> built (DataBlocked (data_blocked_new a))
| b_stream_data_blocked a b : u64 a -> u64 b -> built (StreamDataBlocked (stream_data_blocked_new a b))
| b_streams_blocked a uni : u64 a -> built (StreamsBlocked (streams_blocked_new a uni))
| b_new_id a b cid t : u64 a -> u64 b -> cid_ok cid -> t < 2 ^ 128 ->
    built (NewConnectionId (new_connection_id_new a b cid t))
| b_retire a : u64 a -> built (RetireConnectionId (retire_connection_id_new a))
| b_challenge a : u64 a -> built (PathChallenge (path_challenge_new a))
| b_response a : u64 a -> built (PathResponse (path_response_new a))
| b_close a ft r : u64 a -> u64 ft -> bytes_ok r -> built (ConnectionClose (connection_close_new_error a ft r))
| b_app_close a r : u64 a -> bytes_ok r ->
    built (ConnectionClose (connection_close_new_application_error a r)).

(** The numbers of a frame that travel as variable-length integers; [last] says
    that a STREAM frame goes without its length. *)
Definition numbers (last : bool) (f : frame) : list N :=
  match f with
  | Padding | Ping | HandshakeDone | Ack _ | PathChallenge _ | PathResponse _ => []
  | ResetStream x => [rs_stream_id x; rs_error_code x; rs_final_size x]
  | StopSending x => [ss_stream_id x; ss_error_code x]
  | Crypto x => [cr_offset x; cr_length x]
  | NewToken x => [nt_token_length x]
  | Stream x => st_stream_id x :: if last then [] else [st_length x]
  | MaxData x => [md_maximum_data x]
  | MaxStreamData x => [msd_stream_id x; msd_maximum_stream_data x]
  | MaxStreams x => [ms_maximum_streams x]
  | DataBlocked x => [db_maximum_data x]
  | StreamDataBlocked x => [sdb_stream_id x; sdb_maximum_stream_data x]
  | StreamsBlocked x => [sb_maximum_streams x]
  | NewConnectionId x => [nc_sequence_number x; nc_retire_prior_to x]
  | RetireConnectionId x => [rc_sequence_number x]
  | ConnectionClose x => match cc_frame_type x with
                         | Some t => [cc_error_code x; t; cc_reason_phrase_length x]
                         | None => [cc_error_code x; cc_reason_phrase_length x]
                         end
  end.

Lemma var_cases x : (exists bs, encode_var_int x = Ok bs /\ v62 x) \/
  (encode_var_int x = Err (InternalError "var int overflow") /\ ~ v62 x).
Proof.
  destruct (N.lt_ge_cases x (2 ^ 62)) as [L|L].
  - left. destruct (encode_var_int_ok x L) as [bs [E _]]. eauto.
  - right. split; [apply encode_var_int_err; auto|]. unfold v62. lia.
Qed.
Ltac vars :=
  repeat match goal with
         | |- context [encode_var_int ?x] =>
             destruct (var_cases x) as [[? [-> ?]]|[-> ?]]; cbn [bind]
         end.
Ltac settle :=
  first [ left; split; [repeat constructor; auto|]; eexists; reflexivity
        | right; split; [intros F; repeat match goal with H : Forall _ (_ :: _) |- _ =>
                                            let a := fresh in let b := fresh in
                                            apply Forall_cons_iff in H as [a b] end; contradiction
                        |reflexivity] ].

(** ** C88: a constructed frame either arrives as it was made, or is refused
    because a number in it has more than 62 bits.
    Refusal first: exactly those, whatever else is in the frame. *)
Theorem C88_refused : forall f last, built f ->
  (Forall v62 (numbers last f) /\ exists bs, frame_to_bytes f last = Ok bs) \/
  (~ Forall v62 (numbers last f) /\ frame_to_bytes f last = Err (InternalError "var int overflow")).
Proof.
  intros f last B. destruct B; cbn [frame_to_bytes numbers];
    unfold reset_stream_to_bytes, stop_sending_to_bytes, crypto_to_bytes, new_token_to_bytes, stream_to_bytes,
      max_data_to_bytes, max_stream_data_to_bytes, max_streams_to_bytes, data_blocked_to_bytes,
      stream_data_blocked_to_bytes, streams_blocked_to_bytes, new_connection_id_to_bytes, retire_connection_id_to_bytes,
      path_challenge_to_bytes, path_response_to_bytes, connection_close_to_bytes,
      reset_stream_new, stop_sending_new, crypto_new, new_token_new, stream_new, max_data_new, max_stream_data_new,
      max_streams_new, data_blocked_new, stream_data_blocked_new, streams_blocked_new, new_connection_id_new,
      retire_connection_id_new, path_challenge_new, path_response_new, connection_close_new_error,
      connection_close_new_application_error;
    cbn [rs_stream_id rs_error_code rs_final_size ss_stream_id ss_error_code cr_offset cr_length crypto_data
         nt_token_length nt_token st_stream_id st_offset st_length st_data st_is_fin md_maximum_data msd_stream_id
         msd_maximum_stream_data ms_maximum_streams ms_is_unidirectional db_maximum_data sdb_stream_id
         sdb_maximum_stream_data sb_maximum_streams sb_is_unidirectional_limit nc_sequence_number nc_retire_prior_to
         nc_length nc_connection_id nc_stateless_reset_token rc_sequence_number pc_data pr_data cc_error_code
         cc_frame_type cc_reason_phrase_length cc_reason_phrase cc_is_application_error]; try settle.
  all: try (change (0 =? 0) with true; cbn [negb]; destruct last; cbn [negb bind]).
  all: try (unfold u160_to_var_bytes; change (20 <? 8) with false; cbn iota).
  all: vars; settle.
Qed.
Print Assumptions C88_refused.

Definition C88_statement : Prop := forall oc f last bs rest, built f -> bytes_ok rest -> (last = true -> rest = []) ->
  frame_to_bytes f last = Ok bs -> deserialize_frame oc (bs ++ rest) = Ok (f, rest).

(** An id of more than 8 bytes does not fit the length the constructor sets. *)
Definition id_fits_constructor (f : frame) : Prop :=
  match f with NewConnectionId x => cid_val (nc_connection_id x) < 2 ^ 64 | _ => True end.

Lemma built_wf f : built f -> id_fits_constructor f -> Forall v62 (numbers false f) -> frame_wf f.
Proof.
  intros B I F. destruct B; cbn in I, F;
    repeat match goal with H : Forall _ (_ :: _) |- _ =>
             let a := fresh "V" in let b := fresh "F" in apply Forall_cons_iff in H as [a b] end;
    cbn [frame_wf]; unfold u64 in *; cbn; repeat (split; auto); try assumption; try lia; try reflexivity.
Qed.

(** Everything but STREAM frames and NEW_CONNECTION_ID frames with long ids
    arrives. *)
Theorem C88_arrives_partial : forall oc f last bs rest, built f -> bytes_ok rest ->
  is_stream f = false -> id_fits_constructor f ->
  frame_to_bytes f last = Ok bs -> deserialize_frame oc (bs ++ rest) = Ok (f, rest).
Proof.
  intros oc f last bs rest B R S I E.
  destruct (C88_refused f last B) as [[F _]|[_ E']]; [|congruence].
  assert (W : frame_wf f).
  { apply built_wf; auto. destruct f; try exact F. discriminate S. }
  destruct (C13_encoder_rfc_layout f last W) as [bs' [E' L]]. assert (bs' = bs) as -> by congruence.
  apply (C14_decoder_complete oc last); auto. destruct B; cbn; auto.
Qed.
Print Assumptions C88_arrives_partial.
(** (STREAM frames at the end of a packet: C16.) *)
Theorem C88_arrives_refuted : ~ C88_statement.
Proof.
  intros H. specialize (H true (Stream (stream_new 4 [7] false)) false [0x0a; 4; 1; 7] []).
  assert (X : deserialize_frame true ([0x0a; 4; 1; 7] ++ []) = Ok (Stream (stream_new 4 [7] false), [])).
  { apply H; [constructor| | |]; [reflexivity|apply bytes_ok_dec; reflexivity|constructor|reflexivity|reflexivity]. }
  vm_compute in X. discriminate X.
Qed.
Print Assumptions C88_arrives_refuted.
Example C88_case :
  built (ResetStream (reset_stream_new 5 (2 ^ 61) 7)) /\
  (let? bs := frame_to_bytes (ResetStream (reset_stream_new 5 (2 ^ 61) 7)) false in
   deserialize_frame true (bs ++ [9])) = Ok (ResetStream (reset_stream_new 5 (2 ^ 61) 7), [9]) /\
  frame_to_bytes (ResetStream (reset_stream_new 5 (2 ^ 62) 7)) false = Err (InternalError "var int overflow").
Proof. split; [constructor; unfold u64; pows; lia|]. split; vm_compute; reflexivity. Qed.

(** ** C71: what is written for a constructed frame are the arguments of its
    constructor. *)
Definition written (f : frame) (last : bool) (bs : list N) : Prop := frame_to_bytes f last = Ok bs.
Theorem C71_written :
  (forall id code size last, v62 id -> v62 code -> v62 size -> exists a b c,
     varint_enc id a /\ varint_enc code b /\ varint_enc size c /\
     written (ResetStream (reset_stream_new id code size)) last (0x04 :: a ++ b ++ c)) /\
  (forall id code last, v62 id -> v62 code -> exists a b, varint_enc id a /\ varint_enc code b /\
     written (StopSending (stop_sending_new id code)) last (0x05 :: a ++ b)) /\
  (forall data last, v62 (len data) -> bytes_ok data -> exists a b, varint_enc 0 a /\ varint_enc (len data) b /\
     written (Crypto (crypto_new data)) last (0x06 :: a ++ b ++ data)) /\
  (forall token last, v62 (len token) -> bytes_ok token -> exists a, varint_enc (len token) a /\
     written (NewToken (new_token_new token)) last (0x07 :: a ++ token)) /\
  (forall id data fin, v62 id -> v62 (len data) -> bytes_ok data -> exists a b, varint_enc id a /\ varint_enc (len data) b /\
     written (Stream (stream_new id data fin)) false ((0x0a + bit fin 1) :: a ++ b ++ data) /\
     written (Stream (stream_new id data fin)) true ((0x08 + bit fin 1) :: a ++ data)) /\
  (forall m last, v62 m -> exists a, varint_enc m a /\ written (MaxData (max_data_new m)) last (0x10 :: a)) /\
  (forall id m last, v62 id -> v62 m -> exists a b, varint_enc id a /\ varint_enc m b /\
     written (MaxStreamData (max_stream_data_new id m)) last (0x11 :: a ++ b)) /\
  (forall m uni last, v62 m -> exists a, varint_enc m a /\
     written (MaxStreams (max_streams_new m uni)) last ((0x12 + bit uni 1) :: a)) /\
  (forall m last, v62 m -> exists a, varint_enc m a /\ written (DataBlocked (data_blocked_new m)) last (0x14 :: a)) /\
  (forall id m last, v62 id -> v62 m -> exists a b, varint_enc id a /\ varint_enc m b /\
     written (StreamDataBlocked (stream_data_blocked_new id m)) last (0x15 :: a ++ b)) /\
  (forall m uni last, v62 m -> exists a, varint_enc m a /\
     written (StreamsBlocked (streams_blocked_new m uni)) last ((0x16 + bit uni 1) :: a)) /\
  (forall seq retire cid token last, v62 seq -> v62 retire -> cid_ok cid -> cid_val cid < 2 ^ 64 -> token < 2 ^ 128 ->
     exists a b c t, varint_enc seq a /\ varint_enc retire b /\ cid_enc cid 8 c /\ fixed_enc 16 token t /\
     written (NewConnectionId (new_connection_id_new seq retire cid token)) last (0x18 :: a ++ b ++ 8 :: c ++ t)) /\
  (forall seq last, v62 seq -> exists a, varint_enc seq a /\
     written (RetireConnectionId (retire_connection_id_new seq)) last (0x19 :: a)) /\
  (forall d last, u64 d -> exists a, fixed_enc 8 d a /\ written (PathChallenge (path_challenge_new d)) last (0x1a :: a)) /\
  (forall d last, u64 d -> exists a, fixed_enc 8 d a /\ written (PathResponse (path_response_new d)) last (0x1b :: a)) /\
  (forall code ft reason last, v62 code -> v62 ft -> v62 (len reason) -> bytes_ok reason ->
     exists a b c, varint_enc code a /\ varint_enc ft b /\ varint_enc (len reason) c /\
     written (ConnectionClose (connection_close_new_error code ft reason)) last (0x1c :: a ++ b ++ c ++ reason)) /\
  (forall code reason last, v62 code -> v62 (len reason) -> bytes_ok reason ->
     exists a c, varint_enc code a /\ varint_enc (len reason) c /\
     written (ConnectionClose (connection_close_new_application_error code reason)) last (0x1d :: a ++ c ++ reason)).
Proof.
  unfold written. repeat match goal with |- _ /\ _ => split end; intros.
  5:{ destruct (encode_var_int_ok id H) as [a [Ea [Va _]]]. destruct (encode_var_int_ok (len data) H0) as [b [Eb [Vb _]]].
      exists a, b. split; [auto|]. split; [auto|].
      cbn [frame_to_bytes]. unfold stream_to_bytes, stream_new.
      cbn [st_stream_id st_offset st_length st_data st_is_fin]. change (0 =? 0) with true. cbn [negb]. rewrite Ea, Eb.
      cbn [bind]. destruct fin; split; reflexivity. }
  all: match goal with
       | |- context [frame_to_bytes ?f ?last] =>
           let W := fresh "W" in let bs := fresh "bs" in let E := fresh "E" in let L := fresh "L" in
           assert (W : frame_wf f) by (cbn; repeat (split; auto); try assumption; try lia; try reflexivity);
           destruct (C13_encoder_rfc_layout f last W) as [bs [E L]]; rewrite E; clear E W; inversion L; subst; clear L
       end; eauto 12.
Qed.
Print Assumptions C71_written.
Example C71_written_case :
  written (MaxData (max_data_new 2000)) true [0x10; 0x47; 0xd0] /\
  written (StopSending (stop_sending_new 4 7)) true [0x05; 4; 7] /\
  written (MaxStreams (max_streams_new 9 true)) true [0x13; 9] /\
  written (Stream (stream_new 4 [1; 2] true)) true [0x09; 4; 1; 2].
Proof. repeat split; vm_compute; reflexivity. Qed.
