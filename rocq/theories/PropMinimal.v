(** C94: frames are sent in as few bytes as the format has for them. *)
From Verif Require Import Base Utils Frame Spec Tactics UtilsFacts ParserFacts FrameFacts PropUtils PropFrame PropInjective.

Lemma enc_le x a b : encode_var_int x = Ok a -> varint_enc x b -> len a <= len b.
Proof. intros E V. apply (proj2 (C02_varint_encoder_minimal x a E) b V). Qed.

Lemma ranges_le rs : forall a b, ack_ranges_to_bytes rs = Ok a -> ranges_enc rs b -> len a <= len b.
Proof.
  induction rs as [|[g l] rs IH]; intros a b E R.
  - injection E as <-. inversion R. lia.
  - cbn [ack_ranges_to_bytes] in E. unfold ack_range_to_bytes in E. cbn [gap ack_range_length] in E.
    apply bind_ok in E as [x [E1 E]]. apply bind_ok in E1 as [p [Ep E1]]. apply bind_ok in E1 as [q [Eq E1]].
    injection E1 as <-. apply bind_ok in E as [y [E2 E]]. injection E as <-.
    inversion R; subst. pose proof (IH _ _ E2 ltac:(eassumption)).
    match goal with H : varint_enc g ?v |- _ => pose proof (enc_le _ _ _ Ep H) end.
    match goal with H : varint_enc l ?v |- _ => pose proof (enc_le _ _ _ Eq H) end.
    rewrite !len_app. lia.
Qed.

Lemma ok_inv {A} (x y : A) : Ok x = Ok y -> x = y.
Proof. intros H. injection H. auto. Qed.
Lemma pair_inv {A B} (a c : A) (b d : B) : (a, b) = (c, d) -> a = c /\ b = d.
Proof. intros H. injection H. auto. Qed.

Ltac unbind :=
  repeat match goal with
  | p : (_ * _)%type |- _ => destruct p
  | E : bind _ _ = Ok _ |- _ =>
      let x := fresh "x" in let H := fresh "H" in apply bind_ok in E as [x [H E]]
  | E : Ok _ = Ok _ |- _ => apply ok_inv in E
  | E : (_, _) = (_, _) |- _ => apply pair_inv in E as [? ?]; subst
  end; subst.
Ltac measure :=
  repeat match goal with
  | E : encode_var_int ?x = Ok ?a, V : varint_enc ?x ?b |- _ =>
      let H := fresh "M" in pose proof (enc_le _ _ _ E V) as H; clear V
  | E : ack_ranges_to_bytes ?x = Ok ?a, V : ranges_enc ?x ?b |- _ =>
      let H := fresh "M" in pose proof (ranges_le _ _ _ E V) as H; clear V
  end.
Ltac lengths := cbn [app]; repeat (rewrite ?len_app, ?len_cons; change (len (@nil N)) with 0).

Theorem C94_frame_minimal : forall f last bs bs',
  frame_wf f -> frame_to_bytes f last = Ok bs -> frame_enc last f bs' -> len bs <= len bs'.
Proof.
  intros f last bs bs' W E R.
  destruct R; cbn [frame_to_bytes] in E; cbn [frame_wf] in W.
  - unbind. lia.
  - unbind. lia.
  - unfold ack_to_bytes in E. cbn [ack_ecn ack_ranges largest_acknowledged ack_delay ack_range_count first_ack_range] in E.
    unbind. measure. lengths. lia.
  - unfold ack_to_bytes, ecn_to_bytes in E.
    cbn [ack_ecn ack_ranges largest_acknowledged ack_delay ack_range_count first_ack_range ect0_count ect1_count ecn_ce_count] in E.
    unbind. measure. lengths. lia.
  - unfold reset_stream_to_bytes in E. cbn in E. unbind. measure. lengths. lia.
  - unfold stop_sending_to_bytes in E. cbn in E. unbind. measure. lengths. lia.
  - unfold crypto_to_bytes in E. cbn in E. unbind. measure. lengths. lia.
  - unfold new_token_to_bytes in E. cbn in E. unbind. measure. lengths. lia.
  - unfold stream_to_bytes in E. cbn [st_offset st_is_fin st_stream_id st_length st_data] in E.
    unbind.
    assert (len x0 <= len b).
    { destruct (off =? 0) eqn:Z; cbn [negb] in *; [unbind; lengths; lia|].
      destruct o; [measure; lia|]. apply N.eqb_neq in Z. tauto. }
    assert (len x1 <= len c).
    { destruct last; cbn [negb] in *; [unbind; lengths; lia|].
      destruct l; [measure; lia|]. destruct H1; discriminate. }
    measure. lengths. lia.
  - unfold max_data_to_bytes in E. cbn in E. unbind. measure. lengths. lia.
  - unfold max_stream_data_to_bytes in E. cbn in E. unbind. measure. lengths. lia.
  - unfold max_streams_to_bytes in E. cbn in E. unbind. measure. lengths. lia.
  - unfold data_blocked_to_bytes in E. cbn in E. unbind. measure. lengths. lia.
  - unfold stream_data_blocked_to_bytes in E. cbn in E. unbind. measure. lengths. lia.
  - unfold streams_blocked_to_bytes in E. cbn in E. unbind. measure. lengths. lia.
  - unfold new_connection_id_to_bytes in E.
    cbn [nc_sequence_number nc_retire_prior_to nc_connection_id nc_length nc_stateless_reset_token] in *.
    destruct H2 as (L & _ & C & _). destruct H3 as (_ & T & _).
    rewrite u160_to_var_bytes_ok in E by (tauto || lia).
    unbind. measure. lengths. rewrite !be_bytes_len. lia.
  - unfold retire_connection_id_to_bytes in E. cbn in E. unbind. measure. lengths. lia.
  - destruct H as (_ & L & _). unfold path_challenge_to_bytes in E. unbind. lengths. rewrite be_bytes_len. lia.
  - destruct H as (_ & L & _). unfold path_response_to_bytes in E. unbind. lengths. rewrite be_bytes_len. lia.
  - unfold connection_close_to_bytes in E. cbn in E. unbind. measure. lengths. lia.
  - unfold connection_close_to_bytes in E. cbn in E. unbind. measure. lengths. lia.
  - unbind. lia.
Qed.
Print Assumptions C94_frame_minimal.

Lemma flag_idle f : is_stream f = false -> frame_to_bytes f false = frame_to_bytes f true.
Proof. destruct f; intros H; try reflexivity; discriminate H. Qed.

Lemma loop_minimal e fs : forall n i bs bs',
  n = i + len fs -> Forall frame_wf fs ->
  (e = true \/ exists gs g, fs = gs ++ [g] /\ is_stream g = false) ->
  serialize_frames_loop e n i fs = Ok bs -> frames_enc fs bs' -> len bs <= len bs'.
Proof.
  induction fs as [|f [|g fs] IH]; intros n i bs bs' Hn W D E R.
  - cbn in E. unbind. lengths. lia.
  - cbn [serialize_frames_loop] in E. pose proof (Forall_inv W) as Wf.
    assert (Rf : frame_enc true f bs') by (inversion R; assumption).
    rewrite len_cons in Hn. change (len (@nil frame)) with 0 in Hn.
    replace (i =? n - 1) with true in E by (symmetry; apply N.eqb_eq; lia).
    rewrite andb_true_r in E. unbind. rewrite app_nil_r.
    apply (C94_frame_minimal f true); auto.
    destruct D as [-> | (gs & g & G & S)]; [assumption|].
    assert (f = g).
    { destruct gs as [|h [|h' gs]]; cbn in G; injection G; intros; subst; auto; discriminate. }
    subst g. destruct e; auto. rewrite <- flag_idle; auto.
  - cbn [serialize_frames_loop] in E.
    pose proof (Forall_inv W) as Wf. pose proof (Forall_inv_tail W) as Wr. inversion R as [| |? ? ? a b Rf Rr]; subst.
    rewrite len_cons in IH.
    replace (i =? i + len (f :: g :: fs) - 1) with false in E
      by (symmetry; apply N.eqb_neq; rewrite !len_cons; lia).
    rewrite andb_false_r in E.
    apply bind_ok in E as [x [E1 E]]. apply bind_ok in E as [y [E2 E]]. apply ok_inv in E. subst.
    pose proof (C94_frame_minimal _ _ _ _ Wf E1 Rf).
    assert (len y <= len b).
    { apply (IH (i + len (f :: g :: fs)) (i + 1) y b); auto.
      - rewrite !len_cons. lia.
      - destruct D as [D | ([|h gs] & k & G & S)]; [left; exact D| |].
        + discriminate G.
        + right. exists gs, k. injection G. auto. }
    rewrite !len_app. lia.
Qed.

(** [serialize_frames] told that the payload ends the datagram. *)
Theorem C94_payload_minimal : forall fs bs bs',
  Forall frame_wf fs -> serialize_frames fs true = Ok bs -> frames_enc fs bs' -> len bs <= len bs'.
Proof. intros fs bs bs' W E R. apply (loop_minimal true fs (len fs) 0 bs bs'); auto. Qed.
Print Assumptions C94_payload_minimal.

(** As packets call it; only a final STREAM frame is not then the shortest. *)
Theorem C94_packet_payload_minimal : forall fs f bs bs',
  Forall frame_wf (fs ++ [f]) -> is_stream f = false ->
  serialize_frames (fs ++ [f]) false = Ok bs -> frames_enc (fs ++ [f]) bs' -> len bs <= len bs'.
Proof. intros fs f bs bs' W S E R. apply (loop_minimal false (fs ++ [f]) (len (fs ++ [f])) 0 bs bs'); eauto 6. Qed.
Print Assumptions C94_packet_payload_minimal.

Ltac enc := split; [lia|split; [reflexivity|split; [apply bytes_ok_dec; vm_compute; reflexivity|split; reflexivity]]].
(** An acknowledgement and data: 5 + 5 bytes sent, while the format also has a
    19-byte form (largest acknowledged number in eight bytes, offset and length given). *)
Example C94_case :
  let fs := [Ack (FrameAck 9 0 0 0 [] None); Stream (FrameStream 4 0 3 [7; 8; 9] false)] in
  Forall frame_wf fs /\
  serialize_frames fs true = Ok [0x02; 9; 0; 0; 0; 0x08; 4; 7; 8; 9] /\
  frames_enc fs ([0x02; 0xc0; 0; 0; 0; 0; 0; 0; 9; 0; 0; 0] ++ [0x0e; 4; 0; 3; 7; 8; 9]).
Proof.
  cbv zeta. split; [|split; [reflexivity|]].
  - repeat constructor; cbn; unfold v62; try lia; try (apply bytes_ok_dec; vm_compute; reflexivity); auto.
  - apply fenc_cons; [|apply fenc_one].
    + apply (enc_ack false 9 0 0 [] [0xc0; 0; 0; 0; 0; 0; 0; 9] [0] [0] [0] []);
        [exists 3 | exists 0 | exists 0 | exists 0 | constructor]; enc.
    + apply (enc_stream true 4 0 [7; 8; 9] false true true [4] [0] [3]);
        [exists 0 | exists 0 | exists 0 | apply bytes_ok_dec; vm_compute; reflexivity]; enc.
Qed.
