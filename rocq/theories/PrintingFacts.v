(** The functions of [Printing.v] return what their silent versions return, and
    print at most one line, which is then the last thing they do. *)
From Verif Require Import Base Utils Frame CipherSuite Secrets Connection Packet Buffers Printing Tactics UtilsFacts PropBuffers.

(** The failure of a read that found too few bytes. *)
Definition short {A} (r : outcome A) : Prop :=
  r = Err (InternalError "not enough bytes for var_bytes") \/ r = Panic "unwrap on Err".
Definition tells {A} (m : said A) (r : outcome A) : Prop :=
  snd m = r /\ (fst m = [] \/ exists i, fst m = [i] /\ short r).

Lemma tells_quiet {A} (r : outcome A) : tells (quiet r) r.
Proof. split; auto. Qed.
Lemma tells_then {A B} m (r : outcome A) (k : A -> said B) k' :
  tells m r -> (forall a, tells (k a) (k' a)) -> tells (then_ m k) (bind r k').
Proof.
  intros [<- H] K. destruct m as [l [a|e|w|]]; cbn [then_ bind snd fst] in *.
  - destruct H as [->|[i [_ [H|H]]]]; try discriminate H. destruct (K a) as [E F].
    destruct (k a) as [l' r]. cbn [snd fst app] in *. subst r. split; auto.
  - split; cbn; auto. destruct H as [->|[i [-> [H|H]]]]; auto; try discriminate H.
    right. exists i. split; auto. left. congruence.
  - split; cbn; auto. destruct H as [->|[i [-> [H|H]]]]; auto; try discriminate H.
    right. exists i. split; auto. right. congruence.
  - split; cbn; auto. destruct H as [->|[i [-> [H|H]]]]; auto; discriminate H.
Qed.
Lemma tells_unwrap {A} m (r : outcome A) : tells m r -> tells (unwrap_said m) (unwrap r).
Proof.
  intros [<- H]. split; [reflexivity|]. cbn [unwrap_said fst]. destruct H as [->|[i [-> [->| ->]]]]; auto.
  all: right; exists i; split; auto; right; reflexivity.
Qed.
Lemma tells_bytes n s : tells (var_bytes_said n s) (var_bytes_from_stream n s).
Proof.
  unfold var_bytes_said. split.
  - apply C87_result_partial.
  - rewrite C87_printed. destruct (N.leb_spec n (len s)); cbn [fst]; auto. right. exists (len s). split; auto. left.
    pose proof (C87_result_partial n s) as E. rewrite C87_printed in E. destruct (N.leb_spec n (len s)); [lia|]. symmetry. exact E.
Qed.

Ltac tell := repeat first
  [ apply tells_quiet | apply tells_bytes | eassumption
  | apply tells_then; [|intros ?; repeat match goal with x : (_ * _)%type |- _ => destruct x end]
  | match goal with |- tells (if ?b then _ else _) _ => destruct b end
  | progress cbv beta iota zeta ].

Lemma crypto_tells oc s : tells (crypto_said oc s) (crypto_from_datagram oc s).
Proof. unfold crypto_said, crypto_from_datagram. tell. Qed.
Lemma new_token_tells oc s : tells (new_token_said oc s) (new_token_from_datagram oc s).
Proof. unfold new_token_said, new_token_from_datagram. tell. Qed.
Lemma stream_tells oc t s : tells (stream_said oc t s) (stream_from_datagram oc t s).
Proof. unfold stream_said, stream_from_datagram. tell. destruct o; tell. Qed.
Lemma connection_close_tells oc t s : tells (connection_close_said oc t s) (connection_close_from_datagram oc t s).
Proof. unfold connection_close_said, connection_close_from_datagram. tell. Qed.
Lemma wrap_tells {A} (k : A -> frame) (p : parser A) m s : tells m (p s) -> tells (wrap_said k m) (wrap k p s).
Proof. intros. unfold wrap_said, wrap. tell. Qed.

Lemma frame_tells oc s : tells (deserialize_frame_said oc s) (deserialize_frame oc s).
Proof.
  unfold deserialize_frame_said, deserialize_frame. apply tells_then; [apply tells_quiet|]. intros [t r]. cbv zeta.
  set (b := cast 8 _). clearbody b. unfold deserialize_frame_body, in_range.
  destruct (N.eqb_spec b 6) as [->|]; [apply wrap_tells, crypto_tells|].
  destruct (N.eqb_spec b 7) as [->|]; [apply wrap_tells, new_token_tells|].
  destruct ((8 <=? b) && (b <=? 15)) eqn:E1.
  { apply andb_true_iff in E1 as [E1 E2]. apply N.leb_le in E1, E2.
    replace (b =? 0) with false by (symmetry; apply N.eqb_neq; lia).
    replace (b =? 1) with false by (symmetry; apply N.eqb_neq; lia).
    replace ((2 <=? b) && (b <=? 3)) with false by (symmetry; apply andb_false_iff; right; apply N.leb_gt; lia).
    replace (b =? 4) with false by (symmetry; apply N.eqb_neq; lia).
    replace (b =? 5) with false by (symmetry; apply N.eqb_neq; lia).
    apply wrap_tells, stream_tells. }
  destruct ((28 <=? b) && (b <=? 29)) eqn:E2; [|apply tells_quiet].
  apply andb_true_iff in E2 as [E2 E3]. apply N.leb_le in E2, E3.
  assert (D : b = 28 \/ b = 29) by lia. destruct D as [-> | ->]; apply wrap_tells, connection_close_tells.
Qed.
Lemma frames_loop_tells oc f : forall s, tells (deserialize_frames_said_loop oc f s) (deserialize_frames_loop oc f s).
Proof.
  induction f; intros [|b s]; cbn [deserialize_frames_said_loop deserialize_frames_loop]; try apply tells_quiet.
  apply tells_then; [apply frame_tells|]. intros [x r]. apply tells_then; [apply IHf|]. intros. apply tells_quiet.
Qed.
Lemma frames_tells oc s : tells (deserialize_frames_said oc s) (deserialize_frames oc s).
Proof. apply frames_loop_tells. Qed.

Lemma mask_tells s r : tells (get_header_protection_mask_said s r) (get_header_protection_mask s r).
Proof. unfold get_header_protection_mask_said, get_header_protection_mask. tell. Qed.
Lemma remote_mask_tells c sp r : tells (get_remote_hp_mask_said c sp r) (get_remote_hp_mask c sp r).
Proof. unfold get_remote_hp_mask_said, get_remote_hp_mask. tell. Qed.
Lemma local_mask_tells c sp r : tells (get_local_hp_mask_said c sp r) (get_local_hp_mask c sp r).
Proof. unfold get_local_hp_mask_said, get_local_hp_mask. tell. Qed.
Lemma long_tells b s : tells (long_from_stream_said b s) (long_from_stream b s).
Proof.
  unfold long_from_stream_said, long_from_stream. apply tells_then; [apply tells_quiet|]. intros [v r]. cbv zeta.
  apply tells_then.
  - destruct (negb _); tell.
  - intros [[[[[vn dl] d] sl] sc] r2]. tell.
Qed.

Ltac tell2 := repeat first
  [ apply tells_quiet | apply tells_bytes | apply long_tells | apply remote_mask_tells | apply local_mask_tells | apply frames_tells
  | apply tells_then; [|intros ?; repeat match goal with x : (_ * _)%type |- _ => destruct x end]
  | progress cbv beta iota zeta ].

Lemma vn_tells s : tells (vn_said s) (vn_from_stream s).
Proof. unfold vn_said, vn_from_stream. tell2. Qed.
Lemma initial_tells oc c s : tells (initial_said oc c s) (initial_from_stream oc c s).
Proof. unfold initial_said, initial_from_stream. tell2. Qed.
Lemma zero_rtt_tells oc c s : tells (zero_rtt_said oc c s) (zero_rtt_from_stream oc c s).
Proof. unfold zero_rtt_said, zero_rtt_from_stream. tell2. Qed.
Lemma handshake_tells oc c s : tells (handshake_said oc c s) (handshake_from_stream oc c s).
Proof. unfold handshake_said, handshake_from_stream. tell2. Qed.
Lemma one_rtt_tells oc c s : tells (one_rtt_said oc c s) (one_rtt_from_stream oc c s).
Proof. unfold one_rtt_said, one_rtt_from_stream. tell2. Qed.
Lemma initial_serialize_tells oc p c : tells (initial_serialize_said oc p c) (initial_serialize oc p c).
Proof. unfold initial_serialize_said, initial_serialize. tell2. Qed.
Lemma handshake_serialize_tells oc p c : tells (handshake_serialize_said oc p c) (handshake_serialize oc p c).
Proof. unfold handshake_serialize_said, handshake_serialize. tell2. Qed.
Lemma header_tells s : tells (next_header_said s) (next_header_from_stream s).
Proof.
  unfold next_header_said, next_header_from_stream. apply tells_then; [apply tells_quiet|]. intros [b r].
  destruct (_ =? _); [|apply tells_quiet]. apply tells_then; [apply long_tells|]. intros [h q]. apply tells_quiet.
Qed.
Lemma next_packet_tells oc c s : tells (decode_next_packet_said oc c s) (decode_next_packet oc c s).
Proof.
  unfold decode_next_packet_said, decode_next_packet. apply tells_then; [apply tells_unwrap, header_tells|]. intros [[h|h] r].
  - apply tells_then; [apply one_rtt_tells|]. intros [p q]. apply tells_quiet.
  - apply tells_then; [apply tells_quiet|]. intros []; try apply tells_quiet.
    + apply tells_then; [apply vn_tells|]. intros [p q]. apply tells_quiet.
    + apply tells_then; [apply initial_tells|]. intros [p q]. apply tells_quiet.
    + apply tells_then; [apply zero_rtt_tells|]. intros [p q]. apply tells_quiet.
    + apply tells_then; [apply handshake_tells|]. intros [p q]. apply tells_quiet.
Qed.
Lemma packets_loop_tells oc c f : forall s, tells (decode_packets_said_loop oc c f s) (decode_packets_loop oc c f s).
Proof.
  induction f; intros [|b s]; cbn [decode_packets_said_loop decode_packets_loop]; try apply tells_quiet.
  apply tells_then; [apply next_packet_tells|]. intros [x r]. apply tells_then; [apply IHf|]. intros. apply tells_quiet.
Qed.
Lemma packets_tells oc c s : tells (decode_packets_said oc c s) (decode_packets oc c s).
Proof. apply packets_loop_tells. Qed.
