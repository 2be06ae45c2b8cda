(** C131: acknowledging received packets. *)
From Verif Require Import Base Utils Frame Constructors Spec Tactics UtilsFacts ParserFacts FrameFacts PropFrame
  PropFrameSound PropBuilt.
From Verif Require PropSend.

(** The packet numbers an ACK frame acknowledges (RFC 9000 section 19.3.1): the
    first range ends at the largest number; every further range ends two below
    the gap below the previous one. *)
Inductive in_ranges : N -> list ack_range -> N -> Prop :=
| in_first smallest r rs n :
    smallest - gap r - 2 - ack_range_length r <= n <= smallest - gap r - 2 -> gap r + 2 <= smallest ->
    in_ranges smallest (r :: rs) n
| in_later smallest r rs n :
    gap r + 2 + ack_range_length r <= smallest ->
    in_ranges (smallest - gap r - 2 - ack_range_length r) rs n -> in_ranges smallest (r :: rs) n.
Definition acknowledges (x : frame_ack) (n : N) : Prop :=
  largest_acknowledged x - first_ack_range x <= n <= largest_acknowledged x \/
  first_ack_range x <= largest_acknowledged x /\
  in_ranges (largest_acknowledged x - first_ack_range x) (ack_ranges x) n.

(** The frames a program can make: those of the constructors, that of ACK
    included. *)
Definition made (f : frame) : Prop := built f \/ exists x, ack_new = Ok x /\ f = Ack x.

(** Full statement: whatever packet number was received, there is a list of
    frames the program can make from which a peer reads its acknowledgement. *)
Definition C131_statement : Prop := forall oc n, v62 n ->
  exists fs bs gs x, Forall made fs /\ serialize_frames fs true = Ok bs /\
    deserialize_frames oc bs = Ok gs /\ In (Ack x) gs /\ acknowledges x n.

Lemma made_built f : made f -> built f.
Proof. intros [B|[x [E _]]]; [exact B|discriminate E]. Qed.

(** What becomes of a frame on the wire: the id of a NEW_CONNECTION_ID frame
    keeps its last 8 bytes. *)
Definition as_read (f : frame) : frame :=
  match f with
  | NewConnectionId x =>
      NewConnectionId (FrameNewConnectionId (nc_sequence_number x) (nc_retire_prior_to x) (nc_length x)
                         (U160 0 (cid_val (nc_connection_id x) mod 2 ^ 64)) (nc_stateless_reset_token x))
  | f => f
  end.

Lemma small_cid v : v < 2 ^ 64 -> cid_ok (U160 0 v) /\ cid_val (U160 0 v) = v.
Proof. intros L. unfold cid_ok, cid_val. cbn. split; [|lia]. pows. lia. Qed.

Lemma plain_read oc f last bs rest : built f -> is_stream f = false -> bytes_ok rest ->
  frame_to_bytes f last = Ok bs -> deserialize_frame oc (bs ++ rest) = Ok (as_read f, rest).
Proof.
  intros B S R E.
  assert (D : id_fits_constructor f /\ as_read f = f \/ exists a b cid t, f = NewConnectionId (new_connection_id_new a b cid t) /\
              u64 a /\ u64 b /\ cid_ok cid /\ t < 2 ^ 128).
  { destruct B; try (left; split; [exact I|reflexivity]). right. exists a, b, cid, t. auto. }
  destruct D as [[D ->]|[a [b [cid [t [-> [Ua [Ub [C T]]]]]]]]].
  - eapply C88_arrives_partial; eauto.
  - change (as_read (NewConnectionId (new_connection_id_new a b cid t)))
      with (NewConnectionId (new_connection_id_new a b (U160 0 (cid_val cid mod 2 ^ 64)) t)).
    pose proof (N.mod_lt (cid_val cid) (2 ^ 64) ltac:(pows; lia)) as L.
    destruct (small_cid _ L) as [Co Cv].
    assert (Q : cid_val (U160 0 (cid_val cid mod 2 ^ 64)) < 2 ^ 64) by (rewrite Cv; exact L).
    eapply (C88_arrives_partial oc _ false); [constructor; auto|exact R|reflexivity|exact Q|].
    rewrite <- C71_long_id_truncated by auto. exact E.
Qed.

Lemma stream_read oc a d fin last bs rest : u64 a -> bytes_ok d -> bytes_ok rest ->
  frame_to_bytes (Stream (stream_new a d fin)) last = Ok bs ->
  exists l, (if last then l = [] else varint_enc (len d) l) /\ bytes_ok bs /\ bs <> [] /\
    deserialize_frame oc (bs ++ rest) =
      Ok (Stream (FrameStream a 0 (len (l ++ d ++ rest)) (l ++ d ++ rest) fin), []).
Proof.
  intros U Bd R E. cbn [frame_to_bytes] in E. unfold stream_to_bytes, stream_new in E.
  cbn [st_offset st_stream_id st_length st_data st_is_fin N.eqb negb] in E.
  destruct (encode_var_int a) as [ia| | |] eqn:Ea; cbn [bind] in E; try discriminate E.
  apply encode_var_int_inv in Ea as [_ Va].
  assert (Bl : forall l, (if last then l = [] else varint_enc (len d) l) -> bytes_ok l).
  { intros l H. destruct last; [subst; constructor|eapply varint_enc_bytes_ok; eauto]. }
  assert (exists l, (if last then l = [] else varint_enc (len d) l) /\
            bs = (0x08 + (if last then 0 else 2) + bit fin 1) :: ia ++ l ++ d) as [l [V ->]].
  { destruct last; cbn [negb bind] in E.
    - exists []. split; [reflexivity|]. injection E as <-. destruct fin; reflexivity.
    - destruct (encode_var_int (len d)) as [l| | |] eqn:El; cbn [bind] in E; try discriminate E.
      apply encode_var_int_inv in El as [_ Vl]. exists l. split; [exact Vl|]. injection E as <-. destruct fin; reflexivity. }
  exists l. split; [exact V|]. specialize (Bl l V).
  split; [constructor; [destruct last, fin; cbn; lia|rewrite !bytes_ok_app; eauto using varint_enc_bytes_ok]|].
  split; [discriminate|].
  rewrite <- app_comm_cons, frame_type_small by (destruct last, fin; cbn [bit]; lia).
  assert (B : deserialize_frame_body oc (8 + (if last then 0 else 2) + bit fin 1)
              = wrap Stream (stream_from_datagram oc (8 + (if last then 0 else 2) + bit fin 1)))
    by (destruct last, fin; reflexivity).
  rewrite B. unfold wrap. rewrite stream_from_datagram_eq. rewrite <- !app_assoc.
  rewrite (varint_dec' oc a ia _ Va). cbn [bind].
  destruct last, fin; reflexivity.
Qed.

Lemma built_bytes_any f last bs : built f -> frame_to_bytes f last = Ok bs -> bytes_ok bs /\ bs <> [].
Proof.
  intros B E. destruct (is_stream f) eqn:S.
  - destruct B; try discriminate S.
    destruct (stream_read true a d fin last bs [] ltac:(auto) ltac:(auto) ltac:(constructor) E) as [l [_ [Bb [NE _]]]]. auto.
  - assert (E' : frame_to_bytes f false = Ok bs) by (destruct f; try discriminate S; exact E).
    split; [eapply PropSend.built_bytes; eauto|]. intros ->.
    pose proof (plain_read true f last [] [] B S ltac:(constructor) E) as Q. discriminate Q.
Qed.

Lemma loop_bytes e n : forall fs idx bs, Forall built fs -> serialize_frames_loop e n idx fs = Ok bs -> bytes_ok bs.
Proof.
  induction fs as [|f fs IH]; intros idx bs F E; cbn [serialize_frames_loop] in E.
  - injection E as <-. constructor.
  - inversion F as [|? ? B F']; subst. apply bind_ok in E as [b [Eb E]]. apply bind_ok in E as [bs' [Er E]].
    injection E as <-. apply bytes_ok_app. split; [eapply built_bytes_any; eauto|eauto].
Qed.

Definition plain (f : frame) : Prop := is_stream f = false.

(** What is read from a payload of constructed frames.  Without STREAM frames,
    all of them; otherwise those before the first STREAM frame, and one STREAM
    frame that has swallowed the rest. *)
Inductive reads_as : list frame -> list frame -> Prop :=
| ra_nil : reads_as [] []
| ra_plain f fs gs : plain f -> reads_as fs gs -> reads_as (f :: fs) (as_read f :: gs)
| ra_stream x fs pre post :
    reads_as (Stream x :: fs)
      [Stream (FrameStream (st_stream_id x) 0 (len (pre ++ st_data x ++ post)) (pre ++ st_data x ++ post) (st_is_fin x))].

Lemma loop_read oc e n : forall fs idx bs, Forall built fs -> serialize_frames_loop e n idx fs = Ok bs ->
  exists gs, deserialize_frames oc bs = Ok gs /\ reads_as fs gs.
Proof.
  induction fs as [|f fs IH]; intros idx bs F E; cbn [serialize_frames_loop] in E.
  - injection E as <-. exists []. split; [reflexivity|constructor].
  - inversion F as [|? ? B F']; subst. apply bind_ok in E as [b [Eb E]]. apply bind_ok in E as [r [Er E]].
    injection E as <-. pose proof (loop_bytes _ _ _ _ _ F' Er) as Br.
    destruct (built_bytes_any _ _ _ B Eb) as [Bb NE].
    rewrite deserialize_frames_cons; [|apply bytes_ok_app; auto|destruct b; [congruence|discriminate]].
    destruct (is_stream f) eqn:S.
    + destruct B; try discriminate S.
      destruct (stream_read oc a d fin _ b r ltac:(auto) ltac:(auto) Br Eb) as [l [_ [_ [_ ->]]]]. cbn [bind].
      eexists. split; [reflexivity|]. exact (ra_stream (stream_new a d fin) fs l r).
    + rewrite (plain_read oc f _ b r B S Br Eb). cbn [bind].
      destruct (IH _ _ F' Er) as [gs [-> G]]. cbn [bind]. eexists. split; [reflexivity|]. constructor; auto.
Qed.
Theorem C131_payload_read : forall oc fs e bs, Forall made fs -> serialize_frames fs e = Ok bs ->
  exists gs, deserialize_frames oc bs = Ok gs /\ reads_as fs gs.
Proof.
  intros oc fs e bs F E. eapply loop_read; [|exact E].
  eapply Forall_impl; [|exact F]. exact made_built.
Qed.
Print Assumptions C131_payload_read.

Lemma reads_no_ack fs gs x : reads_as fs gs -> Forall made fs -> ~ In (Ack x) gs.
Proof.
  intros R F. induction R as [|f fs gs Pf R IH|y fs pre post]; intros H.
  - destruct H.
  - inversion F as [|? ? M F']; subst. destruct H as [H|H]; [|exact (IH F' H)].
    apply made_built in M. destruct M; discriminate H.
  - destruct H as [H|[]]. discriminate H.
Qed.

(** No peer reads an acknowledgement from frames the program made. *)
Theorem C131_never_acknowledges : forall oc fs e bs gs x, Forall made fs -> serialize_frames fs e = Ok bs ->
  deserialize_frames oc bs = Ok gs -> ~ In (Ack x) gs.
Proof.
  intros oc fs e bs gs x F E D. destruct (C131_payload_read oc fs e bs F E) as [gs' [D' R]].
  assert (gs' = gs) as -> by congruence. eapply reads_no_ack; eauto.
Qed.
Print Assumptions C131_never_acknowledges.

Theorem C131_acknowledge_refuted : ~ C131_statement.
Proof.
  intros H. destruct (H true 1 ltac:(unfold v62; pows; lia)) as [fs [bs [gs [x [F [E [D [I _]]]]]]]].
  exact (C131_never_acknowledges _ _ _ _ _ _ F E D I).
Qed.
Print Assumptions C131_acknowledge_refuted.

(** The encoder and the decoder could do it: for every packet number there is an
    ACK frame that acknowledges just that number and is read as it was written.
    Only the constructor is missing. *)
Theorem C131_only_constructor_missing : forall oc n, v62 n -> exists bs x,
  serialize_frames [Ack x] true = Ok bs /\ deserialize_frames oc bs = Ok [Ack x] /\
  forall m, acknowledges x m <-> m = n.
Proof.
  intros oc n V. set (x := FrameAck n 0 0 0 [] None).
  assert (W : frame_wf (Ack x)).
  { cbn. unfold v62 in *. repeat split; auto; try (pows; lia); constructor. }
  destruct (C07_frames_roundtrip oc [Ack x] true) as [bs [E D]]; [repeat constructor; auto; apply W|repeat constructor|].
  exists bs, x. split; [exact E|]. split; [exact D|]. intros m. unfold acknowledges. cbn. split.
  - intros [H|[_ H]]; [lia|inversion H].
  - intros ->. left. lia.
Qed.
Print Assumptions C131_only_constructor_missing.

(** A STREAM frame in the middle, and one of the two frames before it with a
    long id; numbers acknowledged by two ranges. *)
Example C131_case :
  let fs := [Ping; NewConnectionId (new_connection_id_new 1 0 (U160 1 5) 9); Stream (stream_new 4 [7] true); Ping] in
  Forall made fs /\
  (let? bs := serialize_frames fs true in deserialize_frames true bs) =
    Ok [Ping; NewConnectionId (new_connection_id_new 1 0 (U160 0 5) 9); Stream (FrameStream 4 0 3 [1; 7; 1] true)] /\
  acknowledges (FrameAck 30 0 1 4 [AckRange 9 3] None) 13 /\ ~ acknowledges (FrameAck 30 0 1 4 [AckRange 9 3] None) 20.
Proof.
  split; [|split; [reflexivity|split]].
  - repeat constructor; cbn; try (pows; lia).
  - right. cbn. split; [lia|]. apply in_first; cbn; lia.
  - intros [H|[_ H]]; cbn in H; [lia|]. inversion H as [? ? ? ? A|? ? ? ? _ A]; subst; cbn in A; [lia|inversion A].
Qed.
