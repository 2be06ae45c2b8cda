(** C136: frames that ask for an answer can be answered. *)
From Verif Require Import Base Utils Frame Constructors Spec Tactics UtilsFacts ParserFacts FrameFacts PropUtils PropFrame PropFrameSound.
From Coq Require Import Lia.
Open Scope N_scope.

(** Where a frame that was read stood: its type and its body. *)
Lemma taken_at f : forall fs s, all_taken fs s -> In f fs ->
  exists pre t tb body post, s = pre ++ tb ++ body ++ post /\ varint_enc t tb /\ taken_for f (t mod 256) body post.
Proof.
  intros fs s A. induction A as [|t tb body g fs s V T A IH]; intros I; [destruct I|]. destruct I as [->|I].
  - exists [], t, tb, body, s. auto.
  - destruct (IH I) as [pre [t' [tb' [body' [post [-> [V' T']]]]]]].
    exists (tb ++ body ++ pre), t', tb', body', post. split; [rewrite <- !app_assoc; reflexivity|auto].
Qed.
Lemma one_serialized f e bs : frame_to_bytes f e = Ok bs -> serialize_frames [f] e = Ok bs.
Proof.
  intros E. unfold serialize_frames. cbn [serialize_frames_loop]. change (0 =? len [f] - 1) with true.
  rewrite andb_true_r. rewrite E. cbn [bind]. rewrite app_nil_r. reflexivity.
Qed.
Lemma varint_encoded x a : varint_enc x a -> exists b, encode_var_int x = Ok b /\ varint_enc x b.
Proof. intros V. destruct (encode_var_int_ok x (varint_enc_v62 _ _ V)) as [b [E [W _]]]. eauto. Qed.
Lemma one_type f e bs oc : bytes_ok bs -> taken_for f e bs [] -> e < 64 -> deserialize_frames oc (e :: bs) = Ok [f].
Proof.
  intros B T L. apply C68_payload_exact; [apply bytes_ok_cons; split; [lia|exact B]|].
  replace (e :: bs) with ([e] ++ bs ++ []) by (rewrite app_nil_r; reflexivity).
  eapply at_cons; [apply type_enc; exact L| |constructor]. rewrite N.mod_small by lia. exact T.
Qed.

(** A PATH_CHALLENGE is answered with the eight bytes it carried (RFC 9000
    section 8.2.2), wherever in a payload it stood. *)
Theorem C136_challenge_answered : forall oc s fs x e, bytes_ok s ->
  deserialize_frames oc s = Ok fs -> In (PathChallenge x) fs ->
  exists pre t tb d post, s = pre ++ tb ++ d ++ post /\ varint_enc t tb /\ t mod 256 = 0x1a /\ len d = 8 /\
    serialize_frames [PathResponse (path_response_new (pc_data x))] e = Ok (0x1b :: d).
Proof.
  intros oc s fs x e B D I. apply (C68_payload_exact oc s fs B) in D.
  destruct (taken_at _ _ _ D I) as [pre [t [tb [body [post [E [V T]]]]]]]. cbn [taken_for] in T.
  inversion T; subst. match goal with H : fixed_enc 8 _ _ |- _ => destruct H as [BF [L VF]] end.
  exists pre, t, tb, body, post. split; [reflexivity|]. split; [exact V|]. split; [auto|]. split; [exact L|].
  apply one_serialized. cbn [frame_to_bytes pc_data]. unfold path_response_new, path_response_to_bytes. cbn [pr_data app].
  rewrite <- VF. replace 8%nat with (length body) by (unfold len in L; lia). rewrite be_bytes_be_val by exact BF. reflexivity.
Qed.
Print Assumptions C136_challenge_answered.

(** So the endpoint that asked gets back the number it asked with. *)
Theorem C136_challenge_returns : forall oc oc' d e s fs x e' s',
  d < 2 ^ 64 ->
  serialize_frames [PathChallenge (path_challenge_new d)] e = Ok s -> deserialize_frames oc s = Ok fs -> In (PathChallenge x) fs ->
  serialize_frames [PathResponse (path_response_new (pc_data x))] e' = Ok s' ->
  deserialize_frames oc' s' = Ok [PathResponse (FramePathResponse d)].
Proof.
  intros oc oc' d e s fs x e' s' U E D I E'.
  assert (E0 : serialize_frames [PathChallenge (path_challenge_new d)] e = Ok (0x1a :: be_bytes 8 d)) by (apply one_serialized; reflexivity).
  rewrite E0 in E. injection E as <-.
  assert (D0 : deserialize_frames oc (0x1a :: be_bytes 8 d) = Ok [PathChallenge (FramePathChallenge d)]).
  { apply one_type; [apply be_bytes_ok| |lia]. cbn [taken_for]. constructor. split; [apply be_bytes_ok|]. split; [apply be_bytes_len|].
    apply be_val_be_bytes_small. exact U. }
  rewrite D0 in D. injection D as <-. destruct I as [I|[]]. injection I as <-. cbn [pc_data] in E'.
  assert (E1 : serialize_frames [PathResponse (path_response_new d)] e' = Ok (0x1b :: be_bytes 8 d)) by (apply one_serialized; reflexivity).
  rewrite E1 in E'. injection E' as <-.
  apply one_type; [apply be_bytes_ok| |lia]. cbn [taken_for]. constructor. split; [apply be_bytes_ok|]. split; [apply be_bytes_len|].
  apply be_val_be_bytes_small. exact U.
Qed.
Print Assumptions C136_challenge_returns.

(** A STOP_SENDING is answered with a RESET_STREAM for the same stream with the
    same code (section 3.5), at any final size that can be sent. *)
Theorem C136_stop_answered : forall oc s fs x e size, bytes_ok s -> v62 size ->
  deserialize_frames oc s = Ok fs -> In (StopSending x) fs ->
  exists pre t tb id code a b post a' b' c,
    s = pre ++ tb ++ (a ++ b) ++ post /\ varint_enc t tb /\ t mod 256 = 0x05 /\ varint_enc id a /\ varint_enc code b /\
    serialize_frames [ResetStream (reset_stream_new (ss_stream_id x) (ss_error_code x) size)] e = Ok (0x04 :: a' ++ b' ++ c) /\
    varint_enc id a' /\ varint_enc code b' /\ varint_enc size c.
Proof.
  intros oc s fs x e size B Z D I. apply (C68_payload_exact oc s fs B) in D.
  destruct (taken_at _ _ _ D I) as [pre [t [tb [body [post [E [V T]]]]]]]. cbn [taken_for] in T.
  inversion T as [| | | | |id code a b A1 A2 E1 E2| | | | | | | | | | | | | | | |]; subst.
  destruct (varint_encoded _ _ A1) as [a' [Ea A1']], (varint_encoded _ _ A2) as [b' [Eb A2']], (encode_var_int_ok size Z) as [c [Ec [A3 _]]].
  exists pre, t, tb, id, code, a, b, post, a', b', c. split; [reflexivity|]. split; [exact V|]. split; [auto|]. split; [exact A1|]. split; [exact A2|].
  split; [|auto]. apply one_serialized. cbn [frame_to_bytes ss_stream_id ss_error_code]. unfold reset_stream_new, reset_stream_to_bytes.
  cbn [rs_stream_id rs_error_code rs_final_size]. rewrite Ea, Eb, Ec. reflexivity.
Qed.
Print Assumptions C136_stop_answered.

(** An issued connection id can be retired by the number it came with (section 19.16). *)
Theorem C136_id_retired : forall oc s fs x e, bytes_ok s ->
  deserialize_frames oc s = Ok fs -> In (NewConnectionId x) fs ->
  exists pre t tb seq a more post a',
    s = pre ++ tb ++ (a ++ more) ++ post /\ varint_enc t tb /\ t mod 256 = 0x18 /\ varint_enc seq a /\
    serialize_frames [RetireConnectionId (retire_connection_id_new (nc_sequence_number x))] e = Ok (0x19 :: a') /\ varint_enc seq a'.
Proof.
  intros oc s fs x e B D I. apply (C68_payload_exact oc s fs B) in D.
  destruct (taken_at _ _ _ D I) as [pre [t [tb [body [post [E [V T]]]]]]]. cbn [taken_for] in T.
  inversion T; subst. match goal with H : varint_enc seq ?a |- _ => rename H into A; rename a into a0 end.
  destruct (varint_encoded _ _ A) as [a' [Ea A']].
  eexists pre, t, tb, seq, a0, _, post, a'. split; [reflexivity|]. split; [exact V|]. split; [auto|]. split; [exact A|]. split; [|exact A'].
  apply one_serialized. cbn [frame_to_bytes nc_sequence_number]. unfold retire_connection_id_new, retire_connection_id_to_bytes. cbn [rc_sequence_number].
  rewrite Ea. reflexivity.
Qed.
Print Assumptions C136_id_retired.

(** A payload with all three questions. *)
Example C136_case : exists fs, deserialize_frames true ([0x01; 0x1a; 1; 2; 3; 4; 5; 6; 7; 250] ++ [0x05; 0x40; 0x04; 0x09] ++
    [0x18; 0x02; 0x00; 0x01; 0xaa] ++ repeat 7 16) = Ok fs /\
  (exists x, In (PathChallenge x) fs /\ serialize_frames [PathResponse (path_response_new (pc_data x))] true = Ok [0x1b; 1; 2; 3; 4; 5; 6; 7; 250]) /\
  (exists x, In (StopSending x) fs /\ serialize_frames [ResetStream (reset_stream_new (ss_stream_id x) (ss_error_code x) 100)] true = Ok [0x04; 0x04; 0x09; 0x40; 100]) /\
  (exists x, In (NewConnectionId x) fs /\ serialize_frames [RetireConnectionId (retire_connection_id_new (nc_sequence_number x))] true = Ok [0x19; 0x02]).
Proof.
  eexists. split; [vm_compute; reflexivity|]. split; [|split].
  - eexists. split; [right; left; reflexivity|vm_compute; reflexivity].
  - eexists. split; [right; right; left; reflexivity|vm_compute; reflexivity].
  - eexists. split; [right; right; right; left; reflexivity|vm_compute; reflexivity].
Qed.
