(** Properties C07-C16: frames. *)
From Verif Require Import Base Utils Frame Spec Tactics UtilsFacts ParserFacts FrameFacts.

(** Sample frames used in the satisfiability examples. *)
Definition sample_frames : list frame :=
  [ Ack (FrameAck 5000 3 2 1 [AckRange 2 3; AckRange 70000 1] (Some (EcnCounts 1 2 300)));
    Crypto (crypto_new [1; 2; 3; 4]);
    NewConnectionId (new_connection_id_new 3 1 (U160 0 77) 0x1234);
    ConnectionClose (connection_close_new_error 10 6 [104; 105]);
    Padding ].

Ltac wf := repeat match goal with
  | |- _ /\ _ => split
  | |- Forall _ _ => constructor
  | |- frame_wf _ => cbn
  | |- v62 _ => unfold v62
  | |- cid_ok _ => unfold cid_ok; cbn
  | |- bytes_ok _ => unfold bytes_ok
  | |- _ < _ => vm_compute; reflexivity
  | |- _ <= _ => vm_compute; discriminate
  | |- True => exact I
  | |- _ = _ => reflexivity
  end.

Example sample_frames_wf : Forall frame_wf sample_frames.
Proof. unfold sample_frames, crypto_new, new_connection_id_new, connection_close_new_error. wf. Qed.

(** ** C07: frame sequences round-trip. *)
Theorem C07_frames_roundtrip : forall oc fs is_df_end,
  Forall frame_wf fs -> Forall (fun f => is_stream f = false /\ crypto_at_zero f) fs ->
  exists bs, serialize_frames fs is_df_end = Ok bs /\ deserialize_frames oc bs = Ok fs.
Proof.
  intros oc fs e W P. destruct (serialize_frames_enc fs e W) as [bs [E F]].
  exists bs. split; [exact E|]. apply frames_dec; auto.
Qed.
Example C07_case : Forall frame_wf sample_frames /\
  Forall (fun f => is_stream f = false /\ crypto_at_zero f) sample_frames /\
  (let? bs := serialize_frames sample_frames false in deserialize_frames true bs)
    = Ok sample_frames.
Proof. split; [exact sample_frames_wf|]. split; [repeat constructor|reflexivity]. Qed.
Print Assumptions C07_frames_roundtrip.

(** ** C08: STREAM frames round-trip (full statement; refuted). *)
Definition C08_statement : Prop := forall oc x fs,
  frame_wf (Stream x) -> Forall frame_wf fs ->
  Forall (fun f => is_stream f = false /\ crypto_at_zero f) fs ->
  exists bs, serialize_frames (Stream x :: fs) false = Ok bs /\
             deserialize_frames oc bs = Ok (Stream x :: fs).

Theorem C08_stream_roundtrip_refuted : ~ C08_statement.
Proof.
  intros H. specialize (H true (FrameStream 4 0 2 [10; 11] false) [Ping]).
  destruct H as [bs [E D]]; [wf | wf | repeat constructor |].
  vm_compute in E. injection E as <-. vm_compute in D. discriminate.
Qed.
Print Assumptions C08_stream_roundtrip_refuted.

(** Stronger: whatever the frame, when a length field is written it is always
    read back as data. *)
Theorem C08_stream_length_never_parsed : forall oc x bs f rest,
  frame_wf (Stream x) -> frame_to_bytes (Stream x) false = Ok bs ->
  deserialize_frame oc bs = Ok (f, rest) -> f <> Stream x.
Proof.
  intros oc x bs f rest W E D ->.
  destruct (frame_to_bytes_ok false (Stream x) W) as [bs' [E' F]].
  assert (bs' = bs) as -> by congruence. clear E E'.
  pose proof (frame_enc_bytes_ok _ _ _ F) as Hb.
  remember (Stream x) as fx eqn:Ex.
  destruct F as [ | | | | | | | |id off data fin o l a b c Va Ob Oc Hd| | | | | | | | | | | | | ];
    try discriminate. injection Ex as <-.
  destruct l; [|destruct Oc as [Oc _]; discriminate].
  rewrite frame_type_small in D by (destruct o, fin; cbn [bit]; pows; lia).
  assert (B : deserialize_frame_body oc (8 + bit o 4 + bit true 2 + bit fin 1)
              = wrap Stream (stream_from_datagram oc (8 + bit o 4 + bit true 2 + bit fin 1)))
    by (destruct o, fin; reflexivity).
  rewrite B in D. unfold wrap in D. rewrite stream_from_datagram_eq in D.
  rewrite (varint_dec' oc id a _ Va) in D. cbn [bind] in D.
  injection D as _ D _ _ _. apply varint_enc_nonempty in Oc. rewrite !len_app in D. lia.
Qed.
Print Assumptions C08_stream_length_never_parsed.
Example C08_length_case : let x := FrameStream 4 9 2 [10; 11] true in
  frame_wf (Stream x) /\ frame_to_bytes (Stream x) false = Ok [0x0f; 4; 9; 2; 10; 11] /\
  deserialize_frame true [0x0f; 4; 9; 2; 10; 11] = Ok (Stream (FrameStream 4 0 4 [9; 2; 10; 11] true), []).
Proof. split; [|split; reflexivity]. repeat split; try reflexivity. apply bytes_ok_dec; reflexivity. Qed.

(** What holds: a STREAM frame at offset 0 that ends the datagram (no offset,
    no length field), after any round-tripping frames.  Missing: every STREAM
    frame with a length or an offset field. *)
Theorem C08_stream_roundtrip_partial : forall oc fs x,
  Forall frame_wf fs -> Forall (fun f => is_stream f = false /\ crypto_at_zero f) fs ->
  frame_wf (Stream x) -> st_offset x = 0 ->
  exists bs, serialize_frames (fs ++ [Stream x]) true = Ok bs /\
             deserialize_frames oc bs = Ok (fs ++ [Stream x]).
Proof.
  intros oc fs x W P Wx Ox.
  assert (G : forall fs n idx, n = idx + len fs + 1 ->
    Forall frame_wf fs -> Forall (fun f => is_stream f = false /\ crypto_at_zero f) fs ->
    exists bs bx, serialize_frames_loop true n idx (fs ++ [Stream x]) = Ok (bs ++ bx) /\
                  stream_to_bytes x false = Ok bx /\ frames_enc fs bs).
  { clear fs W P. induction fs as [|f fs IH]; intros n idx En W P.
    - destruct (frame_to_bytes_ok true (Stream x) Wx) as [bx [Ex _]].
      exists [], bx. cbn [app serialize_frames_loop]. change (len []) with 0 in En.
      destruct (N.eqb_spec idx (n - 1)); [|lia]. cbn [andb].
      rewrite Ex. cbn [bind]. rewrite app_nil_r. split; [reflexivity|]. split; [exact Ex|constructor].
    - inversion W as [|? ? Wf Wr]; subst. inversion P as [|? ? Pf Pr]; subst. rewrite len_cons.
      destruct (IH (idx + (len fs + 1) + 1) (idx + 1) ltac:(lia) Wr Pr) as [bs [bx [E [Ex F]]]].
      destruct (frame_to_bytes_ok (true && (idx =? idx + (len fs + 1) + 1 - 1)) f Wf) as [b [Eb Fb]].
      exists (b ++ bs), bx. cbn [app serialize_frames_loop]. rewrite Eb. cbn [bind]. rewrite E.
      cbn [bind]. rewrite app_assoc. split; [reflexivity|]. split; [exact Ex|].
      destruct (N.eqb_spec idx (idx + (len fs + 1) + 1 - 1)); [lia|].
      destruct fs as [|g fs]; [inversion F; subst; rewrite app_nil_r; constructor; apply frame_enc_weaken, Fb|].
      constructor; auto. }
  destruct (G fs (len (fs ++ [Stream x])) 0) as [bs [bx [E [Ex F]]]]; auto.
  { rewrite len_app, len_cons. change (len (@nil frame)) with 0. lia. }
  exists (bs ++ bx). split; [exact E|].
  destruct (frame_to_bytes_ok true (Stream x) Wx) as [bx' [Ex' Fx]].
  assert (bx' = bx) as -> by (cbn in Ex'; congruence). clear Ex'.
  pose proof (frame_enc_bytes_ok _ _ _ Fx) as Hx.
  rewrite (frames_dec_app oc fs) by auto.
  rewrite deserialize_frames_cons by eauto using frame_enc_nonempty.
  destruct x as [id off l data fin]; cbn in Ox. subst off.
  destruct Wx as [W1 [_ [EL [_ W4]]]]. cbn in *. subst l.
  unfold stream_to_bytes in Ex. cbn [st_offset st_stream_id st_length st_data st_is_fin] in Ex.
  change (negb (0 =? 0)) with false in Ex. cbv iota in Ex.
  destruct (encode_var_int_ok id W1) as [bi [Ei [Vi _]]]. rewrite Ei in Ex. cbn [bind] in Ex.
  injection Ex as <-.
  assert (T : N.lor (N.lor (N.lor 8 0) 0) (if fin then 1 else 0) = 8 + bit fin 1)
    by (destruct fin; reflexivity).
  rewrite T. cbn [app]. rewrite (stream_tail_dec oc id data fin bi Vi W4). reflexivity.
Qed.
Example C08_case :
  (let? bs := serialize_frames [Ping; Stream (stream_new 4 [10; 11] true)] true in
   deserialize_frames true bs) = Ok [Ping; Stream (stream_new 4 [10; 11] true)].
Proof. reflexivity. Qed.
Print Assumptions C08_stream_roundtrip_partial.

(** ** C09: CRYPTO frames at any offset (full statement; refuted). *)
Definition C09_statement : Prop := forall oc off data a b rest,
  varint_enc off a -> varint_enc (len data) b -> bytes_ok data -> bytes_ok rest ->
  deserialize_frame oc (0x06 :: a ++ b ++ data ++ rest)
    = Ok (Crypto (FrameCrypto off (len data) data), rest).

Theorem C09_crypto_offset_refuted : ~ C09_statement.
Proof.
  intros H.
  specialize (H true 1 [5; 6] [1] [2] [0; 0] (varint_enc_small 1 ltac:(lia))
                (varint_enc_small 2 ltac:(lia)) ltac:(repeat constructor) ltac:(repeat constructor)).
  vm_compute in H. discriminate.
Qed.
Print Assumptions C09_crypto_offset_refuted.

(** What the code does at every offset: it takes [offset] further bytes of the
    following frames as CRYPTO data (or fails when there are not that many). *)
Theorem C09_crypto_offset_partial : forall oc off data a b extra rest,
  varint_enc off a -> varint_enc (len data) b -> bytes_ok data -> bytes_ok (extra ++ rest) ->
  len extra = off ->
  deserialize_frame oc (0x06 :: a ++ b ++ data ++ extra ++ rest)
    = Ok (Crypto (FrameCrypto off (len data) (data ++ extra)), rest).
Proof.
  intros oc off data a b extra rest Va Vb Hd Hr HL.
  rewrite frame_type_small by lia.
  change (deserialize_frame_body oc 6) with (wrap Crypto (crypto_from_datagram oc)).
  unfold wrap. rewrite crypto_p_eq.
  2:{ rewrite !bytes_ok_app. rewrite bytes_ok_app in Hr. intuition eauto using varint_enc_bytes_ok. }
  unfold crypto_p. rewrite (varint_dec' oc off a _ Va). cbn [bind].
  rewrite (varint_dec' oc _ b _ Vb). cbn [bind].
  rewrite (app_assoc data extra rest), (var_bytes_app (data ++ extra)); [reflexivity|].
  rewrite len_app. lia.
Qed.
(** With offset 0 this is the RFC behaviour. *)
Theorem C09_crypto_offset_zero_partial : forall oc data a b rest,
  varint_enc 0 a -> varint_enc (len data) b -> bytes_ok data -> bytes_ok rest ->
  deserialize_frame oc (0x06 :: a ++ b ++ data ++ rest)
    = Ok (Crypto (FrameCrypto 0 (len data) data), rest).
Proof.
  intros oc data a b rest Va Vb Hd Hr.
  pose proof (C09_crypto_offset_partial oc 0 data a b [] rest Va Vb Hd Hr eq_refl) as P.
  rewrite app_nil_r in P. exact P.
Qed.
Example C09_case :
  deserialize_frame true [0x06; 0x40; 0x00; 0x03; 7; 8; 9; 0x01]
    = Ok (Crypto (FrameCrypto 0 3 [7; 8; 9]), [0x01]).
Proof. reflexivity. Qed.
Print Assumptions C09_crypto_offset_partial.
Example C09_offset_case :
  deserialize_frame true (0x06 :: [2] ++ [3] ++ [7; 8; 9] ++ [4; 5] ++ [0x01])
    = Ok (Crypto (FrameCrypto 2 3 [7; 8; 9; 4; 5]), [0x01]).
Proof. reflexivity. Qed.
Print Assumptions C09_crypto_offset_zero_partial.

(** ** C10: frame decoding is total. *)
Theorem C10_frame_decoding_total : forall oc s, bytes_ok s ->
  (exists fs, deserialize_frames oc s = Ok fs) \/ (exists e, deserialize_frames oc s = Err e).
Proof.
  intros oc s Hs. pose proof (deserialize_frames_total oc s Hs) as T.
  destruct (deserialize_frames oc s); [left|right|contradiction|contradiction]; eauto.
Qed.
(** The result does not depend on the overflow-check mode. *)
Theorem C10_frame_decoding_mode_independent : forall s, bytes_ok s ->
  deserialize_frames true s = deserialize_frames false s.
Proof. exact deserialize_frames_oc. Qed.
Example C10_case : exists e,
  deserialize_frames true [0x02; 0; 0; 0xff;0xff;0xff;0xff;0xff;0xff;0xff;0xff; 0; 1; 1] = Err e.
Proof. eexists. vm_compute. reflexivity. Qed.
Print Assumptions C10_frame_decoding_total.
Print Assumptions C10_frame_decoding_mode_independent.
Example C10_mode_case :
  deserialize_frames true [0x02; 5; 0; 1; 2; 1; 1; 0x40; 0x01] = deserialize_frames false [0x02; 5; 0; 1; 2; 1; 1; 0x40; 0x01] /\
  deserialize_frames true [0x02; 5; 0; 1; 2; 1; 1; 0x40; 0x01] = Ok [Ack (FrameAck 5 0 1 2 [AckRange 1 1] None); Ping].
Proof. split; reflexivity. Qed.

(** ** C11: frame decoding does not amplify its input. *)
Theorem C11_no_amplification : forall oc s fs, bytes_ok s ->
  deserialize_frames oc s = Ok fs -> len fs <= frames_weight fs /\ frames_weight fs <= len s.
Proof.
  intros oc s fs Hs E. split.
  - clear E. induction fs as [|f fs IH]; [vm_compute; discriminate|]. rewrite len_cons. cbn [frames_weight].
    pose proof (frame_weight_pos f). lia.
  - pose proof (deserialize_frames_total oc s Hs) as T. rewrite E in T. exact T.
Qed.
Example C11_case : exists fs, deserialize_frames true [0x06; 0; 2; 9; 9; 0x01] = Ok fs /\
  len fs = 2 /\ frames_weight fs = 4.
Proof. eexists. vm_compute. auto. Qed.
Print Assumptions C11_no_amplification.

(** ** C12: unknown frame types are rejected (full statement; refuted). *)
Definition C12_statement : Prop := forall oc t a rest,
  varint_enc t a -> 0x1e < t -> exists e, deserialize_frame oc (a ++ rest) = Err e.

Theorem C12_unknown_types_refuted : ~ C12_statement.
Proof.
  intros H.
  assert (V : varint_enc 0x100 [0x41; 0x00]).
  { exists 1. repeat split; try (vm_compute; (reflexivity || discriminate)). repeat constructor. }
  destruct (H true 0x100 _ [] V ltac:(lia)) as [e E]. vm_compute in E. discriminate.
Qed.
Print Assumptions C12_unknown_types_refuted.

(** What holds: rejection whenever the low 8 bits are above 0x1e; otherwise
    the type is read as its low 8 bits. *)
Theorem C12_unknown_types_partial : forall oc t a rest,
  varint_enc t a ->
  (0x1e < t mod 256 -> exists e, deserialize_frame oc (a ++ rest) = Err e) /\
  (t mod 256 < 64 ->
     deserialize_frame oc (a ++ rest) = deserialize_frame oc ((t mod 256) :: rest)).
Proof.
  intros oc t a rest V.
  assert (D : deserialize_frame oc (a ++ rest) = deserialize_frame_body oc (t mod 256) rest).
  { unfold deserialize_frame. rewrite (varint_dec' oc t a rest V). cbn [bind]. f_equal.
    change (shl 64 1 8 - 1) with 255. rewrite land_255. unfold cast. pows. lia. }
  split; intros H.
  - rewrite D. exists (InternalError "Invalid type byte").
    apply body_unknown, H.
  - rewrite D. symmetry. apply frame_type_small. exact H.
Qed.
Example C12_case : exists e, deserialize_frame true [0x40; 0x2a; 0; 0] = Err e.
Proof. eexists. vm_compute. reflexivity. Qed.
Print Assumptions C12_unknown_types_partial.

(** ** C13: serialised frames follow RFC 9000 section 19. *)
Theorem C13_encoder_rfc_layout : forall f last, frame_wf f ->
  exists bs, frame_to_bytes f last = Ok bs /\ frame_enc last f bs.
Proof. intros f last W. apply frame_to_bytes_ok, W. Qed.
Print Assumptions C13_encoder_rfc_layout.

Theorem C13_sequence_rfc_layout : forall fs is_df_end, Forall frame_wf fs ->
  exists bs, serialize_frames fs is_df_end = Ok bs /\ frames_enc fs bs.
Proof. exact serialize_frames_enc. Qed.
Example C13_case :
  frame_wf (Stream (FrameStream 4 9 2 [10; 11] true)) /\
  frame_to_bytes (Stream (FrameStream 4 9 2 [10; 11] true)) false = Ok [0x0f; 4; 9; 2; 10; 11].
Proof. split; [wf | reflexivity]. Qed.
Print Assumptions C13_sequence_rfc_layout.
Example C13_sequence_case :
  let fs := [Ping; Stream (FrameStream 4 9 2 [10; 11] true); MaxData (FrameMaxData 37)] in
  Forall frame_wf fs /\
  serialize_frames fs false = Ok [0x01; 0x0f; 4; 9; 2; 10; 11; 0x10; 0x25].
Proof.
  split; [|reflexivity]. repeat constructor; try reflexivity.
Qed.

(** ** C14: RFC-conformant frames from any peer are understood. *)
Theorem C14_decoder_complete : forall oc last f bs rest,
  frame_enc last f bs -> is_stream f = false -> crypto_at_zero f -> bytes_ok rest ->
  deserialize_frame oc (bs ++ rest) = Ok (f, rest).
Proof. exact frame_dec. Qed.
Print Assumptions C14_decoder_complete.

Theorem C14_sequence_complete : forall oc fs bs,
  frames_enc fs bs -> Forall (fun f => is_stream f = false /\ crypto_at_zero f) fs ->
  deserialize_frames oc bs = Ok fs.
Proof. exact frames_dec. Qed.
Example C14_case :
  frame_enc false (MaxData (FrameMaxData 37)) [0x10; 0x40; 0x25] /\
  deserialize_frames true [0x10; 0x40; 0x25; 0x01] = Ok [MaxData (FrameMaxData 37); Ping].
Proof.
  split; [|reflexivity]. constructor. exists 1.
  repeat split; try (vm_compute; (reflexivity || discriminate)). repeat constructor.
Qed.
Print Assumptions C14_sequence_complete.
Example C14_sequence_case :
  let fs := [MaxData (FrameMaxData 37); Ping] in
  frames_enc fs [0x10; 0x40; 0x25; 0x01] /\ Forall (fun f => is_stream f = false /\ crypto_at_zero f) fs.
Proof.
  split; [|repeat constructor].
  apply (fenc_cons _ _ [] [0x10; 0x40; 0x25] [0x01]); [exact (proj1 C14_case)|].
  apply fenc_one. constructor.
Qed.

(** ** C15: truncated frames are rejected. *)
Theorem C15_truncated_rejected : forall oc f last bs c t,
  frame_wf f -> is_stream f = false -> frame_to_bytes f last = Ok bs ->
  bs = c ++ t -> t <> [] ->
  (exists e, deserialize_frame oc c = Err e) /\
  (c <> [] -> exists e, deserialize_frames oc c = Err e).
Proof.
  intros oc f last bs c t W NS E EQ NE.
  destruct (frame_to_bytes_ok last f W) as [bs' [E' F]].
  assert (bs' = bs) as -> by congruence.
  destruct (frame_trunc oc last f bs c t F NS EQ NE) as [e T]. split; [eauto|].
  intros NC. rewrite deserialize_frames_cons; auto.
  - rewrite T. eexists; reflexivity.
  - apply frame_enc_bytes_ok in F. rewrite EQ in F. apply bytes_ok_app in F. tauto.
Qed.
Example C15_case : exists e, deserialize_frame true [0x06; 0x00; 0x03; 7; 8] = Err e.
Proof. eexists. vm_compute. reflexivity. Qed.
Print Assumptions C15_truncated_rejected.

(** ** C16: a final STREAM frame without length. *)
Theorem C16_final_stream : forall oc fs x,
  Forall frame_wf fs -> Forall (fun f => is_stream f = false /\ crypto_at_zero f) fs ->
  frame_wf (Stream x) -> st_offset x = 0 ->
  exists bs, serialize_frames (fs ++ [Stream x]) true = Ok bs /\
             deserialize_frames oc bs = Ok (fs ++ [Stream x]).
Proof. exact C08_stream_roundtrip_partial. Qed.
Example C16_case :
  (let? bs := serialize_frames (sample_frames ++ [Stream (stream_new 4 [10; 11] true)]) true in
   deserialize_frames true bs) = Ok (sample_frames ++ [Stream (stream_new 4 [10; 11] true)]).
Proof. reflexivity. Qed.
Print Assumptions C16_final_stream.
