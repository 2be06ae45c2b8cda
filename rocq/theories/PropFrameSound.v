(** Properties C65-C69, C71: what the frame decoder lets through. *)
From Verif Require Import Base Utils Frame Spec Tactics UtilsFacts ParserFacts FrameFacts PropFrame.

(** Take one variable-length integer (or one block of bytes) off a successful
    parser run. *)
Ltac varint_step B H :=
  let x := fresh "x" in let r := fresh "r" in let E := fresh "E" in let bs := fresh "bs" in
  let V := fresh "V" in let B' := fresh "B" in
  apply bind_ok in H as [[x r] [E H]]; cbn beta iota in H;
  apply varint_dec_inv' in E as [bs [-> V]]; [|exact B]; apply bytes_ok_app in B as [B' B].
Ltac block_step B H :=
  let x := fresh "data" in let r := fresh "r" in let E := fresh "E" in let B' := fresh "B" in
  let L := fresh "L" in
  apply bind_ok in H as [[x r] [E H]]; cbn beta iota in H;
  apply var_bytes_inv in E as [-> L]; apply bytes_ok_app in B as [B' B].

Lemma be_val_1 b : be_val [b] = b.
Proof. cbn [be_val]. rewrite len_nil, N.pow_0_r. lia. Qed.

Lemma ranges_inv oc fuel : forall count s rs rest, bytes_ok s ->
  ack_ranges_loop oc fuel count s = Ok (rs, rest) ->
  exists bs, s = bs ++ rest /\ ranges_enc rs bs /\ len rs = count.
Proof.
  induction fuel as [|fuel IH]; intros count s rs rest B H; cbn [ack_ranges_loop] in H;
    destruct (N.eqb_spec count 0) as [->|NZ]; try discriminate H.
  1,2: injection H as <- <-; exists []; split; [reflexivity|]; split; [constructor|reflexivity].
  unfold ack_range_from_datagram in H.
  apply bind_ok in H as [[q r] [E H]]. cbn beta iota in H.
  varint_step B E. varint_step B E. injection E as <- <-.
  apply bind_ok in H as [[qs r2] [E H]]. cbn beta iota in H. injection H as <- <-.
  apply IH in E as [b [-> [R L]]]; [|exact B].
  exists (bs ++ bs0 ++ b). split; [rewrite <- !app_assoc; reflexivity|]. split; [constructor; auto|].
  rewrite len_cons. lia.
Qed.

(** What a frame of type [k] with field bytes [body], in front of [rest], must
    look like to be taken for [f].  STREAM frames ignore their offset and length
    bits and swallow the rest; CRYPTO frames hold offset + length bytes; the
    others follow RFC 9000. *)
Definition taken_for (f : frame) (k : N) (body rest : list N) : Prop :=
  match f with
  | Stream x => 0x08 <= k <= 0x0f /\ rest = [] /\ st_offset x = 0 /\ st_length x = len (st_data x) /\
      st_is_fin x = (k mod 2 =? 1) /\
      exists a, varint_enc (st_stream_id x) a /\ body = a ++ st_data x
  | Crypto x => k = 0x06 /\ len (crypto_data x) = cr_length x + cr_offset x /\
      exists a b, varint_enc (cr_offset x) a /\ varint_enc (cr_length x) b /\ body = a ++ b ++ crypto_data x
  | _ => frame_enc false f (k :: body)
  end.

Lemma body_inv oc k s f rest : k < 256 -> bytes_ok s -> deserialize_frame_body oc k s = Ok (f, rest) ->
  exists body, s = body ++ rest /\ taken_for f k body rest.
Proof.
  intros Hk B H. unfold deserialize_frame_body, in_range in H.
  Ltac next_case H := match type of H with (if ?c then _ else _) = _ => destruct c eqn:?C end.
  next_case H. { apply N.eqb_eq in C as ->. injection H as <- <-. exists []. split; [reflexivity|]. constructor. }
  next_case H. { apply N.eqb_eq in C0 as ->. injection H as <- <-. exists []. split; [reflexivity|]. constructor. }
  next_case H.
  { unfold wrap, ack_from_datagram in H. apply bind_ok in H as [[x r0] [H0 H]]. cbn beta iota in H. injection H as <- <-.
    do 4 varint_step B H0. apply bind_ok in H0 as [[rs q3] [E H0]]. cbn beta iota in H0.
    apply ranges_inv in E as [rb [-> [R L]]]; [|exact B]. apply bytes_ok_app in B as [_ B].
    apply bind_ok in H0 as [[e q4] [E H0]]. cbn beta iota in H0. injection H0 as <- <-. subst x2.
    assert (K : k = 2 \/ k = 3) by lia. destruct K as [-> | ->].
    - change (N.land 2 1 =? 1) with false in E. cbn iota in E. injection E as <- <-.
      exists (bs ++ bs0 ++ bs1 ++ bs2 ++ rb). split; [rewrite <- !app_assoc; reflexivity|]. constructor; auto.
    - change (N.land 3 1 =? 1) with true in E. cbn iota in E. unfold ecn_from_datagram in E.
      apply bind_ok in E as [[x4 q5] [E5 E]]. cbn beta iota in E. injection E as <- <-.
      do 3 varint_step B E5. injection E5 as <- <-.
      exists (bs ++ bs0 ++ bs1 ++ bs2 ++ rb ++ bs3 ++ bs4 ++ bs5). split; [rewrite <- !app_assoc; reflexivity|].
      constructor; auto. }
  next_case H.
  { apply N.eqb_eq in C2 as ->. unfold wrap, reset_stream_from_datagram in H. apply bind_ok in H as [[x r0] [H0 H]].
    cbn beta iota in H. injection H as <- <-. do 3 varint_step B H0. injection H0 as <- <-.
    exists (bs ++ bs0 ++ bs1). split; [rewrite <- !app_assoc; reflexivity|]. constructor; auto. }
  next_case H.
  { apply N.eqb_eq in C3 as ->. unfold wrap, stop_sending_from_datagram in H. apply bind_ok in H as [[x r0] [H0 H]].
    cbn beta iota in H. injection H as <- <-. do 2 varint_step B H0. injection H0 as <- <-.
    exists (bs ++ bs0). split; [rewrite <- !app_assoc; reflexivity|]. constructor; auto. }
  next_case H.
  { apply N.eqb_eq in C4 as ->. unfold wrap in H. rewrite (crypto_p_eq oc s B) in H. unfold crypto_p in H.
    apply bind_ok in H as [[x r0] [H0 H]].
    cbn beta iota in H. injection H as <- <-. do 2 varint_step B H0. block_step B H0. injection H0 as <- <-.
    exists (bs ++ bs0 ++ data). split; [rewrite <- !app_assoc; reflexivity|].
    split; [reflexivity|]. split; [exact L|]. exists bs, bs0. auto. }
  next_case H.
  { apply N.eqb_eq in C5 as ->. unfold wrap, new_token_from_datagram in H. apply bind_ok in H as [[x r0] [H0 H]].
    cbn beta iota in H. injection H as <- <-. varint_step B H0. block_step B H0. injection H0 as <- <-.
    exists (bs ++ data). split; [rewrite <- !app_assoc; reflexivity|]. subst x0. constructor; auto. }
  next_case H.
  { unfold wrap, stream_from_datagram in H. apply bind_ok in H as [[x r0] [H0 H]].
    cbn beta iota in H. injection H as <- <-.
    assert (K : k = 8 \/ k = 9 \/ k = 10 \/ k = 11 \/ k = 12 \/ k = 13 \/ k = 14 \/ k = 15) by lia.
    replace (N.land k 4 =? 1) with false in H0 by (destruct K as [->|[->|[->|[->|[->|[->|[->| ->]]]]]]]; reflexivity).
    replace (N.land k 2 =? 1) with false in H0 by (destruct K as [->|[->|[->|[->|[->|[->|[->| ->]]]]]]]; reflexivity).
    varint_step B H0. cbn [bind] in H0. unfold all_bytes_from_stream in H0. cbn [bind] in H0. injection H0 as <- <-.
    exists (bs ++ r). split; [rewrite app_nil_r; reflexivity|].
    split; [lia|]. split; [reflexivity|]. split; [reflexivity|]. split; [reflexivity|]. cbn [st_is_fin].
    split; [destruct K as [->|[->|[->|[->|[->|[->|[->| ->]]]]]]]; reflexivity|]. exists bs. auto. }
  next_case H.
  { apply N.eqb_eq in C7 as ->. unfold wrap, max_data_from_datagram in H. apply bind_ok in H as [[x r0] [H0 H]].
    cbn beta iota in H. injection H as <- <-. varint_step B H0. injection H0 as <- <-.
    exists bs. split; [reflexivity|]. constructor; auto. }
  next_case H.
  { apply N.eqb_eq in C8 as ->. unfold wrap, max_stream_data_from_datagram in H. apply bind_ok in H as [[x r0] [H0 H]].
    cbn beta iota in H. injection H as <- <-. do 2 varint_step B H0. injection H0 as <- <-.
    exists (bs ++ bs0). split; [rewrite <- !app_assoc; reflexivity|]. constructor; auto. }
  next_case H.
  { unfold wrap, max_streams_from_datagram in H. apply bind_ok in H as [[x r0] [H0 H]].
    cbn beta iota in H. injection H as <- <-. varint_step B H0. injection H0 as <- <-.
    exists bs. split; [reflexivity|].
    assert (K : k = 18 \/ k = 19) by lia. destruct K as [-> | ->]; exact (enc_max_streams false x0 _ bs V). }
  next_case H.
  { apply N.eqb_eq in C10 as ->. unfold wrap, data_blocked_from_datagram in H. apply bind_ok in H as [[x r0] [H0 H]].
    cbn beta iota in H. injection H as <- <-. varint_step B H0. injection H0 as <- <-.
    exists bs. split; [reflexivity|]. constructor; auto. }
  next_case H.
  { apply N.eqb_eq in C11 as ->. unfold wrap, stream_data_blocked_from_datagram in H. apply bind_ok in H as [[x r0] [H0 H]].
    cbn beta iota in H. injection H as <- <-. do 2 varint_step B H0. injection H0 as <- <-.
    exists (bs ++ bs0). split; [rewrite <- !app_assoc; reflexivity|]. constructor; auto. }
  next_case H.
  { unfold wrap, streams_blocked_from_datagram in H. apply bind_ok in H as [[x r0] [H0 H]].
    cbn beta iota in H. injection H as <- <-. varint_step B H0. injection H0 as <- <-.
    exists bs. split; [reflexivity|].
    assert (K : k = 22 \/ k = 23) by lia. destruct K as [-> | ->]; exact (enc_streams_blocked false x0 _ bs V). }
  next_case H.
  { apply N.eqb_eq in C13 as ->. unfold wrap, new_connection_id_from_datagram in H.
    apply bind_ok in H as [[x r0] [H0 H]]. cbn beta iota in H. injection H as <- <-. do 2 varint_step B H0.
    apply bind_ok in H0 as [[l q1] [E H0]]. cbn beta iota in H0.
    apply from_datagram_inv in E as [lb [-> [Ll [-> Bl]]]]; [|exact B].
    destruct lb as [|l [|? ?]]; try discriminate Ll. apply bytes_ok_app in B as [_ B].
    rewrite be_val_1 in *.
    destruct ((l <? 1) || (20 <? l)) eqn:LB; [discriminate H0|].
    apply bind_ok in H0 as [[cid q2] [E H0]]. cbn beta iota in H0.
    apply var_u160_inv in E as [cb [-> CE]]; [|exact B|lia]. apply bytes_ok_app in B as [_ B].
    apply bind_ok in H0 as [[t q3] [E H0]]. cbn beta iota in H0. injection H0 as <- <-.
    apply from_datagram_inv in E as [tb [-> [Lt [-> Bt]]]]; [|exact B].
    exists (bs ++ bs0 ++ l :: cb ++ tb). split; [rewrite <- !app_assoc; cbn [app]; rewrite <- app_assoc; reflexivity|].
    constructor; auto; [lia|]. split; [auto|]. split; [|reflexivity]. unfold len. rewrite Lt. reflexivity. }
  next_case H.
  { apply N.eqb_eq in C14 as ->. unfold wrap, retire_connection_id_from_datagram in H. apply bind_ok in H as [[x r0] [H0 H]].
    cbn beta iota in H. injection H as <- <-. varint_step B H0. injection H0 as <- <-.
    exists bs. split; [reflexivity|]. constructor; auto. }
  next_case H.
  { apply N.eqb_eq in C15 as ->. unfold wrap, path_challenge_from_datagram in H. apply bind_ok in H as [[x r0] [H0 H]].
    cbn beta iota in H. injection H as <- <-. apply bind_ok in H0 as [[d q1] [E H0]]. cbn beta iota in H0. injection H0 as <- <-.
    apply from_datagram_inv in E as [tb [-> [Lt [-> Bt]]]]; [|exact B].
    exists tb. split; [reflexivity|]. constructor. split; [auto|]. split; [|reflexivity]. unfold len. rewrite Lt. reflexivity. }
  next_case H.
  { apply N.eqb_eq in C16 as ->. unfold wrap, path_response_from_datagram in H. apply bind_ok in H as [[x r0] [H0 H]].
    cbn beta iota in H. injection H as <- <-. apply bind_ok in H0 as [[d q1] [E H0]]. cbn beta iota in H0. injection H0 as <- <-.
    apply from_datagram_inv in E as [tb [-> [Lt [-> Bt]]]]; [|exact B].
    exists tb. split; [reflexivity|]. constructor. split; [auto|]. split; [|reflexivity]. unfold len. rewrite Lt. reflexivity. }
  next_case H.
  { unfold wrap, connection_close_from_datagram in H. apply bind_ok in H as [[x r0] [H0 H]].
    cbn beta iota in H. injection H as <- <-. varint_step B H0.
    assert (K : k = 28 \/ k = 29) by lia. destruct K as [-> | ->].
    - change (N.land 28 1 =? 1) with false in H0. cbn [negb] in H0.
      apply bind_ok in H0 as [[ft q1] [E H0]]. cbn beta iota in H0. varint_step B E. injection E as <- <-.
      varint_step B H0. block_step B H0. injection H0 as <- <-.
      exists (bs ++ bs0 ++ bs1 ++ data). split; [rewrite <- !app_assoc; reflexivity|]. subst x2. constructor; auto.
    - change (N.land 29 1 =? 1) with true in H0. cbn [negb bind] in H0.
      varint_step B H0. block_step B H0. injection H0 as <- <-.
      exists (bs ++ bs0 ++ data). split; [rewrite <- !app_assoc; reflexivity|]. subst x1. constructor; auto. }
  next_case H.
  { apply N.eqb_eq in C18 as ->. injection H as <- <-. exists []. split; [reflexivity|]. constructor. }
  discriminate H.
Qed.

Lemma taken_type f k body rest : taken_for f k body rest -> k <= 0x1e.
Proof.
  destruct f; cbn [taken_for]; intros H;
    try (inversion H; subst; unfold bit; try destruct uni; lia); destruct H as [H _]; lia.
Qed.

Lemma stream_body oc k id a data : 0x08 <= k <= 0x0f -> varint_enc id a ->
  deserialize_frame_body oc k (a ++ data) =
    Ok (Stream (FrameStream id 0 (len data) data (k mod 2 =? 1)), []).
Proof.
  intros Hk V.
  assert (K : k = 8 \/ k = 9 \/ k = 10 \/ k = 11 \/ k = 12 \/ k = 13 \/ k = 14 \/ k = 15) by lia.
  unfold deserialize_frame_body, in_range.
  destruct K as [->|[->|[->|[->|[->|[->|[->| ->]]]]]]];
    repeat match goal with |- context [if ?c then _ else _] =>
      match c with N.eqb _ _ => idtac | andb _ _ => idtac end; change c with false || change c with true; cbn iota end;
    unfold wrap, stream_from_datagram; rewrite (varint_dec' oc id a data V); reflexivity.
Qed.

Lemma taken_dec oc f k body rest : taken_for f k body rest -> bytes_ok body -> bytes_ok rest ->
  deserialize_frame_body oc k (body ++ rest) = Ok (f, rest).
Proof.
  intros T B R. pose proof (taken_type _ _ _ _ T) as Hk.
  assert (D : forall s, deserialize_frame_body oc k s = deserialize_frame oc (k :: s))
    by (intros s; symmetry; apply frame_type_small; lia).
  destruct (is_stream f) eqn:IS.
  - destruct f; try discriminate IS. destruct x as [id off l data fin]. cbn in T.
    destruct T as [Hr [-> [-> [-> [-> [a [V ->]]]]]]]. rewrite app_nil_r. apply stream_body; auto.
  - destruct f; cbn [taken_for] in T; try discriminate IS;
      try (rewrite D; change (k :: body ++ rest) with ((k :: body) ++ rest);
           apply (C14_decoder_complete oc false); auto; exact Logic.I).
    destruct x as [off l data]. cbn in T. destruct T as [-> [L [a [b [V1 [V2 ->]]]]]].
    rewrite D. unfold deserialize_frame. change (6 :: (a ++ b ++ data) ++ rest) with ([6] ++ (a ++ b ++ data) ++ rest).
    rewrite <- !app_assoc. change (varint_enc 6 [6]) with (varint_enc 6 [6]).
    assert (V6 : varint_enc 6 [6]).
    { exists 0. split; [lia|]. split; [reflexivity|]. split; [repeat constructor|]. split; reflexivity. }
    rewrite (varint_dec' oc 6 [6] _ V6). cbn [bind]. change (cast 8 (N.land 6 (shl 64 1 8 - 1))) with 6.
    change (wrap Crypto (crypto_from_datagram oc) (a ++ b ++ data ++ rest) = Ok (Crypto (FrameCrypto off l data), rest)).
    unfold wrap. rewrite crypto_p_eq by (rewrite !app_assoc; apply bytes_ok_app; rewrite <- !app_assoc; auto).
    unfold crypto_p. rewrite (varint_dec' oc off a _ V1). cbn [bind]. rewrite (varint_dec' oc l b _ V2). cbn [bind].
    rewrite var_bytes_app by auto. reflexivity.
Qed.

Lemma frame_type_dec oc t tb s : varint_enc t tb ->
  deserialize_frame oc (tb ++ s) = deserialize_frame_body oc (t mod 256) s.
Proof.
  intros V. unfold deserialize_frame. rewrite (varint_dec' oc t tb s V). cbn [bind]. f_equal.
  change (shl 64 1 8 - 1) with 255. rewrite land_255. unfold cast. pows. lia.
Qed.

(** ** C68: the frame decoder accepts only RFC encodings.

    The type is a (possibly long) variable-length integer; a frame is told by
    its value. *)
Definition C68_statement : Prop := forall oc s f rest, bytes_ok s ->
  deserialize_frame oc s = Ok (f, rest) ->
  exists t tb body last, s = tb ++ body ++ rest /\ varint_enc t tb /\ frame_enc last f (t :: body) /\
    (last = true -> rest = []).

(** What is accepted, exactly: the type is only looked at modulo 256, and STREAM
    and CRYPTO frames are read as [taken_for] says. *)
Theorem C68_decoder_exact : forall oc s f rest, bytes_ok s ->
  deserialize_frame oc s = Ok (f, rest) <->
  exists t tb body, s = tb ++ body ++ rest /\ varint_enc t tb /\ taken_for f (t mod 256) body rest.
Proof.
  intros oc s f rest B. split.
  - intros H. unfold deserialize_frame in H. varint_step B H.
    replace (cast 8 (N.land x (shl 64 1 8 - 1))) with (x mod 256) in H
      by (change (shl 64 1 8 - 1) with 255; rewrite land_255; unfold cast; pows; lia).
    apply body_inv in H as [body [-> T]]; [|apply N.mod_lt; lia|exact B].
    exists x, bs, body. auto.
  - intros [t [tb [body [-> [V T]]]]]. rewrite (frame_type_dec oc t tb _ V).
    apply bytes_ok_app in B as [_ B]. apply bytes_ok_app in B as [B1 B2]. apply taken_dec; auto.
Qed.
Print Assumptions C68_decoder_exact.

(** Missing: types above 255, STREAM frames, CRYPTO frames with an offset. *)
Theorem C68_decoder_sound_partial : forall oc t tb s f rest,
  varint_enc t tb -> t < 256 -> bytes_ok s -> deserialize_frame oc (tb ++ s) = Ok (f, rest) ->
  is_stream f = false -> crypto_at_zero f ->
  exists body, s = body ++ rest /\ frame_enc false f (t :: body).
Proof.
  intros oc t tb s f rest V Ht B H S Z. rewrite (frame_type_dec oc t tb _ V), N.mod_small in H by lia.
  apply body_inv in H as [body [-> T]]; auto. exists body. split; [auto|].
  destruct f; try discriminate S; try exact T.
  destruct x as [off l data]. cbn in T, Z. subst off. destruct T as [-> [L [a [b [V1 [V2 ->]]]]]].
  apply bytes_ok_app in B as [B _]. apply bytes_ok_app in B as [_ B]. apply bytes_ok_app in B as [_ B].
  rewrite N.add_0_r in L. subst l. constructor; auto.
Qed.
Print Assumptions C68_decoder_sound_partial.
Example C68_sound_case : varint_enc 0x10 [0x40; 0x10] /\
  deserialize_frame true ([0x40; 0x10] ++ [0x40; 0x25; 0x01]) = Ok (MaxData (FrameMaxData 37), [0x01]).
Proof. split; [|reflexivity]. exists 1. repeat split; try reflexivity; try (vm_compute; discriminate). apply bytes_ok_dec; reflexivity. Qed.

(** The frames of a whole payload, each as [taken_for] says. *)
Inductive all_taken : list frame -> list N -> Prop :=
| at_nil : all_taken [] []
| at_cons : forall t tb body f fs s, varint_enc t tb -> taken_for f (t mod 256) body s -> all_taken fs s ->
    all_taken (f :: fs) (tb ++ body ++ s).

Lemma varint_nonempty x bs : varint_enc x bs -> bs <> [].
Proof.
  intros [k [K1 [K2 _]]] ->. rewrite len_nil in K2.
  assert (2 ^ k <> 0) by (apply N.pow_nonzero; lia). lia.
Qed.

Theorem C68_payload_exact : forall oc s fs, bytes_ok s ->
  deserialize_frames oc s = Ok fs <-> all_taken fs s.
Proof.
  intros oc s fs. revert s. induction fs as [|f fs IH]; intros s B; (split; intros H).
  - destruct s as [|b s]; [constructor|]. rewrite deserialize_frames_cons in H by (auto; discriminate).
    apply bind_ok in H as [[x r] [E H]]. apply bind_ok in H as [xs [E2 H]]. discriminate H.
  - inversion H. reflexivity.
  - destruct s as [|b s]; [discriminate H|]. rewrite deserialize_frames_cons in H by (auto; discriminate).
    apply bind_ok in H as [[x r] [E H]]. apply bind_ok in H as [xs [E2 H]]. injection H as -> ->.
    apply C68_decoder_exact in E as [t [tb [body [E [V T]]]]]; auto. rewrite E in *.
    constructor 2 with t; auto. apply IH; auto. apply bytes_ok_app in B as [_ B]. apply bytes_ok_app in B. tauto.
  - inversion H as [|t tb body f' fs' s' V T R]; subst.
    rewrite deserialize_frames_cons; auto.
    2:{ destruct tb; [destruct (varint_nonempty _ _ V eq_refl)|discriminate]. }
    replace (deserialize_frame oc (tb ++ body ++ s')) with (@Ok (frame * stream) (f, s')).
    2:{ symmetry. apply C68_decoder_exact; auto. exists t, tb, body. auto. }
    cbn [bind]. apply bytes_ok_app in B as [_ B]. apply bytes_ok_app in B as [_ B].
    apply IH in R; auto. rewrite R. reflexivity.
Qed.
Print Assumptions C68_payload_exact.

Theorem C68_sound_refuted : ~ C68_statement.
Proof.
  intros H.
  assert (D : deserialize_frame true [0x41; 0x00] = Ok (Padding, [])) by reflexivity.
  destruct (H true [0x41; 0x00] _ _ ltac:(repeat constructor) D) as [t [tb [body [last [E [V [F _]]]]]]].
  inversion F; subst. rewrite app_nil_r in E. subst tb.
  destruct V as [k [K1 [K2 [_ [K3 K4]]]]]. change (len [65; 0]) with 2 in K2.
  assert (k = 1) as -> by (assert (k = 0 \/ k = 1 \/ k = 2 \/ k = 3) as [->|[->|[->| ->]]] by lia; pows; lia).
  vm_compute in K4. discriminate K4.
Qed.
Print Assumptions C68_sound_refuted.

(** Longer type encodings, a type above 255, a STREAM frame announcing length 1
    and a CRYPTO frame with offset 2. *)
Example C68_case :
  deserialize_frames true [0x40; 0x10; 0x25; 0x41; 0x01; 0x0e; 4; 9; 1; 7; 7] =
    Ok [MaxData (FrameMaxData 37); Ping; Stream (FrameStream 4 0 4 [9; 1; 7; 7] false)] /\
  deserialize_frames true [0x06; 2; 1; 7; 8; 9; 0x01] = Ok [Crypto (FrameCrypto 2 1 [7; 8; 9]); Ping].
Proof. split; reflexivity. Qed.

(** ** C65: acknowledged ranges stay above zero.

    RFC 9000 section 19.3.1: each range ends at the previous smallest number
    minus gap minus 2; no computed number may be negative. *)
Fixpoint ranges_valid (smallest : N) (rs : list ack_range) : Prop :=
  match rs with
  | [] => True
  | AckRange g l :: rs => g + 2 + l <= smallest /\ ranges_valid (smallest - g - 2 - l) rs
  end.
Definition ack_valid (x : frame_ack) : Prop :=
  first_ack_range x <= largest_acknowledged x /\
  ranges_valid (largest_acknowledged x - first_ack_range x) (ack_ranges x).

Definition C65_statement : Prop := forall oc s x rest, bytes_ok s ->
  deserialize_frame oc s = Ok (Ack x, rest) -> ack_valid x.

(** The count is checked, the numbers are not: all ranges get through. *)
Theorem C65_count_partial : forall oc s x rest, bytes_ok s ->
  deserialize_frame oc s = Ok (Ack x, rest) -> ack_range_count x = len (ack_ranges x).
Proof.
  intros oc s x rest B H. apply C68_decoder_exact in H as [t [tb [body [_ [_ T]]]]]; auto.
  cbn [taken_for] in T. inversion T; reflexivity.
Qed.
Print Assumptions C65_count_partial.

Theorem C65_all_ranges_accepted : forall oc x, frame_wf (Ack x) ->
  exists bs, frame_enc false (Ack x) bs /\
    forall rest, bytes_ok rest -> deserialize_frame oc (bs ++ rest) = Ok (Ack x, rest).
Proof.
  intros oc x W. destruct (C13_encoder_rfc_layout (Ack x) false W) as [bs [_ E]]. exists bs. split; [exact E|].
  intros rest R. apply (C14_decoder_complete oc false); auto. exact Logic.I.
Qed.
Print Assumptions C65_all_ranges_accepted.
Example C65_ranges_case : frame_wf (Ack (FrameAck 3 0 2 4 [AckRange 9 9; AckRange 0 5] None)).
Proof. repeat constructor; try reflexivity. Qed.

Theorem C65_negative_refuted : ~ C65_statement.
Proof.
  intros H. destruct (C65_all_ranges_accepted true (FrameAck 3 0 0 4 [] None)) as [bs [E D]].
  { repeat split; try reflexivity. constructor. }
  pose proof (D [] ltac:(constructor)) as D'. rewrite app_nil_r in D'.
  assert (B : bytes_ok bs) by (eapply frame_enc_bytes_ok; eauto).
  destruct (H true bs _ _ B D') as [V _]. cbn in V. lia.
Qed.
Print Assumptions C65_negative_refuted.

(** A range of 5 packets ending at number 3, then one below zero. *)
Example C65_case :
  deserialize_frame true [0x02; 3; 0; 1; 4; 9; 9] = Ok (Ack (FrameAck 3 0 1 4 [AckRange 9 9] None), []) /\
  ~ ack_valid (FrameAck 3 0 1 4 [AckRange 9 9] None) /\
  ack_valid (FrameAck 30 0 1 4 [AckRange 9 9] None).
Proof. split; [reflexivity|]. unfold ack_valid. cbn. lia. Qed.

(** ** C66: a NEW_CONNECTION_ID frame is consistent (RFC 9000 section 19.15). *)
Definition C66_statement : Prop := forall oc s x rest, bytes_ok s ->
  deserialize_frame oc s = Ok (NewConnectionId x, rest) ->
  1 <= nc_length x <= 20 /\ cid_val (nc_connection_id x) < 256 ^ nc_length x /\
  nc_retire_prior_to x <= nc_sequence_number x.

(** Missing: the last clause. *)
Theorem C66_new_connection_id_partial : forall oc s x rest, bytes_ok s ->
  deserialize_frame oc s = Ok (NewConnectionId x, rest) ->
  1 <= nc_length x <= 20 /\ cid_val (nc_connection_id x) < 256 ^ nc_length x /\
  nc_stateless_reset_token x < 2 ^ 128.
Proof.
  intros oc s x rest B H. apply C68_decoder_exact in H as [t [tb [body [_ [_ T]]]]]; auto.
  cbn [taken_for] in T. inversion T as [| | | | | | | | | | | | | | |sq rt l cid tk a b c t0 V1 V2 L CE FE| | | | | |]; subst.
  cbn. split; [auto|]. destruct CE as [_ [Bc [Lc Vc]]]. destruct FE as [Bt [Lt Vt]].
  split; [rewrite <- Vc, <- Lc; apply be_val_bound; auto|].
  pose proof (be_val_bound _ Bt) as Q. rewrite Lt in Q. change (256 ^ 16) with (2 ^ 128) in Q. congruence.
Qed.
Print Assumptions C66_new_connection_id_partial.

Theorem C66_any_retirement_accepted : forall oc x, frame_wf (NewConnectionId x) ->
  exists bs, frame_enc false (NewConnectionId x) bs /\
    forall rest, bytes_ok rest -> deserialize_frame oc (bs ++ rest) = Ok (NewConnectionId x, rest).
Proof.
  intros oc x W. destruct (C13_encoder_rfc_layout (NewConnectionId x) false W) as [bs [_ E]]. exists bs.
  split; [exact E|]. intros rest R. apply (C14_decoder_complete oc false); auto. exact Logic.I.
Qed.
Print Assumptions C66_any_retirement_accepted.
Example C66_retirement_case : frame_wf (NewConnectionId (FrameNewConnectionId 1 2 1 (U160 0 9) 77)).
Proof. repeat split; try reflexivity; try (vm_compute; discriminate). Qed.

Theorem C66_retire_refuted : ~ C66_statement.
Proof.
  intros H. destruct (C66_any_retirement_accepted true (FrameNewConnectionId 1 2 1 (U160 0 9) 0)) as [bs [E D]].
  { repeat split; vm_compute; (reflexivity || discriminate). }
  pose proof (D [] ltac:(constructor)) as D'. rewrite app_nil_r in D'.
  assert (B : bytes_ok bs) by (eapply frame_enc_bytes_ok; eauto).
  destruct (H true bs _ _ B D') as [_ [_ V]]. cbn in V. lia.
Qed.
Print Assumptions C66_retire_refuted.

Example C66_case :
  deserialize_frame true ([0x18; 1; 2; 1; 9] ++ repeat 0 16) =
    Ok (NewConnectionId (FrameNewConnectionId 1 2 1 (U160 0 9) 0), []) /\
  (exists e, deserialize_frame true ([0x18; 1; 1; 0] ++ repeat 0 16) = Err e) /\
  (exists e, deserialize_frame true ([0x18; 1; 1; 21] ++ repeat 0 40) = Err e).
Proof. split; [reflexivity|]. split; eexists; reflexivity. Qed.

(** ** C67: limits and tokens are sensible (RFC 9000 sections 19.7, 19.11, 19.14). *)
Definition sensible (f : frame) : Prop :=
  match f with
  | MaxStreams x => ms_maximum_streams x <= 2 ^ 60
  | StreamsBlocked x => sb_maximum_streams x <= 2 ^ 60
  | NewToken x => nt_token x <> []
  | _ => True
  end.
Definition C67_statement : Prop := forall oc s f rest, bytes_ok s ->
  deserialize_frame oc s = Ok (f, rest) -> sensible f.

(** No value is refused: whatever fits the wire format is let through. *)
Theorem C67_nothing_refused : forall oc m uni,
  v62 m -> exists bs, varint_enc m bs /\ forall rest, bytes_ok rest ->
    deserialize_frame oc ((0x12 + bit uni 1) :: bs ++ rest) = Ok (MaxStreams (FrameMaxStreams m uni), rest) /\
    deserialize_frame oc ((0x16 + bit uni 1) :: bs ++ rest) = Ok (StreamsBlocked (FrameStreamsBlocked m uni), rest) /\
    deserialize_frame oc (0x07 :: 0x00 :: rest) = Ok (NewToken (FrameNewToken 0 []), rest).
Proof.
  intros oc m uni H. destruct (encode_var_int_ok m H) as [bs [_ [V _]]]. exists bs. split; [exact V|]. intros rest R.
  split; [|split].
  - exact (C14_decoder_complete oc false _ _ rest (enc_max_streams false m uni bs V) eq_refl Logic.I R).
  - exact (C14_decoder_complete oc false _ _ rest (enc_streams_blocked false m uni bs V) eq_refl Logic.I R).
  - assert (V0 : varint_enc (len (@nil N)) [0]).
    { exists 0. split; [lia|]. split; [reflexivity|]. split; [repeat constructor|]. split; reflexivity. }
    exact (C14_decoder_complete oc false _ _ rest (enc_new_token false [] [0] V0 ltac:(constructor)) eq_refl Logic.I R).
Qed.
Print Assumptions C67_nothing_refused.

Theorem C67_limits_refuted : ~ C67_statement.
Proof.
  intros H. destruct (C67_nothing_refused true 0 false ltac:(reflexivity)) as [bs [_ D]].
  destruct (D [] ltac:(constructor)) as [_ [_ E]].
  apply (H true [7; 0] _ _ ltac:(repeat constructor) E). reflexivity.
Qed.
Print Assumptions C67_limits_refuted.

Example C67_case :
  deserialize_frames true [0x12; 0xff; 0xff; 0xff; 0xff; 0xff; 0xff; 0xff; 0xff; 0x07; 0x00] =
    Ok [MaxStreams (FrameMaxStreams (2 ^ 62 - 1) false); NewToken (FrameNewToken 0 [])].
Proof. reflexivity. Qed.

(** ** C69: decoded payloads re-encode. *)
Lemma shorter x a : varint_enc x a ->
  exists a', encode_var_int x = Ok a' /\ varint_enc x a' /\ len a' <= len a.
Proof.
  intros [k [K1 [K2 [_ [K3 _]]]]].
  assert (K : k = 0 \/ k = 1 \/ k = 2 \/ k = 3) by lia.
  assert (H : v62 x).
  { eapply N.lt_le_trans; [exact K3|]. destruct K as [->|[->|[->| ->]]]; vm_compute; discriminate. }
  destruct (encode_var_int_ok x H) as [a' [E [V L]]]. exists a'. split; [exact E|]. split; [exact V|].
  rewrite L, K2. apply N.pow_le_mono_r; [lia|]. unfold min_class.
  repeat match goal with |- context [if ?c then _ else _] => destruct c eqn:?C end;
    destruct K as [->|[->|[->| ->]]]; pows; lia.
Qed.

Lemma shorter_ranges rs r : ranges_enc rs r ->
  exists r', ack_ranges_to_bytes rs = Ok r' /\ ranges_enc rs r' /\ len r' <= len r.
Proof.
  induction 1 as [|g l rs a b bs V1 V2 R [r' [E [R' L]]]].
  - exists []. split; [reflexivity|]. split; [constructor|lia].
  - destruct (shorter _ _ V1) as [a' [E1 [V1' L1]]]. destruct (shorter _ _ V2) as [b' [E2 [V2' L2]]].
    exists (a' ++ b' ++ r'). split.
    + cbn [ack_ranges_to_bytes]. unfold ack_range_to_bytes. cbn [gap ack_range_length].
      rewrite E1. cbn [bind]. rewrite E2. cbn [bind]. rewrite E. cbn [bind]. rewrite <- app_assoc. reflexivity.
    + split; [constructor; auto|]. rewrite !len_app. lia.
Qed.

Ltac shorten :=
  repeat match goal with
  | V : varint_enc _ _ |- _ => apply shorter in V
  | R : ranges_enc _ _ |- _ => apply shorter_ranges in R
  end;
  repeat match goal with
  | V : exists a', encode_var_int _ = Ok a' /\ _ |- _ => destruct V as [? [? [? ?]]]
  | V : exists r', ack_ranges_to_bytes _ = Ok r' /\ _ |- _ => destruct V as [? [? [? ?]]]
  end;
  repeat match goal with E : _ = Ok _ |- _ => rewrite E; cbn [bind]; clear E end.

Lemma reencode f k body rest last : taken_for f k body rest -> (is_stream f = true -> last = true) ->
  exists k' body', frame_to_bytes f last = Ok (k' :: body') /\ taken_for f k' body' rest /\
    len body' <= len body.
Proof.
  intros T S. destruct (is_stream f) eqn:IS.
  - rewrite (S eq_refl). destruct f; try discriminate IS. destruct x as [id off l data fin]. cbn in T.
    destruct T as [Hr [-> [-> [-> [-> [a [V ->]]]]]]].
    cbn [frame_to_bytes]. unfold stream_to_bytes. cbn [st_offset st_stream_id st_length st_data st_is_fin negb].
    change (0 =? 0) with true. cbn [negb]. shorten.
    eexists _, _. split; [reflexivity|]. cbn [taken_for st_offset st_stream_id st_length st_data st_is_fin].
    destruct (k mod 2 =? 1) eqn:K.
    + change (N.lor (N.lor (N.lor 8 0) 0) 1) with 9. repeat split; try lia; try reflexivity.
      * eauto.
      * cbn [app]. rewrite !len_app. lia.
    + change (N.lor (N.lor (N.lor 8 0) 0) 0) with 8. repeat split; try lia; try reflexivity.
      * eauto.
      * cbn [app]. rewrite !len_app. lia.
  - Ltac lay T := inversion T; subst; cbn [frame_to_bytes];
      unfold ack_to_bytes, ecn_to_bytes, reset_stream_to_bytes, stop_sending_to_bytes, crypto_to_bytes, new_token_to_bytes,
        max_data_to_bytes, max_stream_data_to_bytes, max_streams_to_bytes, data_blocked_to_bytes,
        stream_data_blocked_to_bytes, streams_blocked_to_bytes, new_connection_id_to_bytes,
        retire_connection_id_to_bytes, path_challenge_to_bytes, path_response_to_bytes, connection_close_to_bytes;
      cbn -[len encode_var_int be_bytes u160_to_var_bytes ack_ranges_to_bytes N.lor N.add app];
      shorten.
    Ltac fin := eexists _, _; split; [cbn [app]; reflexivity|]; split;
      [constructor; auto|rewrite ?len_cons, ?len_app, ?len_cons, ?len_app; lia].
    destruct f; try discriminate IS; cbn [taken_for] in T.
    + lay T. fin.
    + lay T. fin.
    + lay T; cbn [app]; [rewrite app_nil_r|]; fin.
    + lay T. fin.
    + lay T. fin.
    + destruct x as [off l data]. cbn in T. destruct T as [-> [L [a [b [V1 [V2 ->]]]]]].
      cbn [frame_to_bytes]. unfold crypto_to_bytes. cbn [cr_offset cr_length crypto_data]. shorten.
      eexists _, _. split; [cbn [app]; reflexivity|]. cbn [taken_for cr_offset cr_length crypto_data].
      split; [split; [reflexivity|]; split; [exact L|]; eauto 6|]. rewrite !len_app. lia.
    + lay T. fin.
    + lay T. fin.
    + lay T. fin.
    + lay T. eexists _, _. split; [cbn [app]; reflexivity|].
      split; [|lia]. replace (N.lor 18 (if uni then 1 else 0)) with (18 + bit uni 1) by (destruct uni; reflexivity).
      constructor; auto.
    + lay T. fin.
    + lay T. fin.
    + lay T. eexists _, _. split; [cbn [app]; reflexivity|].
      split; [|lia]. replace (N.lor 22 (if uni then 1 else 0)) with (22 + bit uni 1) by (destruct uni; reflexivity).
      constructor; auto.
    + inversion T as [| | | | | | | | | | | | | | |sq rt l cid tk a b c t0 V1 V2 Ll CE FE| | | | | |]; subst.
      cbn [frame_to_bytes]. unfold new_connection_id_to_bytes.
      cbn [nc_sequence_number nc_retire_prior_to nc_length nc_connection_id nc_stateless_reset_token]. shorten.
      pose proof CE as [CO [Bc [Lc Vc]]].
      assert (CV : cid_val cid < 256 ^ l) by (rewrite <- Vc, <- Lc; apply be_val_bound; auto).
      destruct (u160_to_var_bytes_enc cid l CO ltac:(lia) CV) as [c' [-> CE']]. cbn [bind].
      eexists _, _. split; [cbn [app]; reflexivity|].
      destruct FE as [Bt [Lt Vt]]. pose proof (be_val_bound _ Bt) as Q. rewrite Lt in Q.
      split.
      * constructor; auto. split; [apply be_bytes_ok|]. split; [apply be_bytes_len|].
        apply be_val_be_bytes_small. rewrite <- Vt. exact Q.
      * destruct CE' as [_ [_ [Lc' _]]]. rewrite !len_app, !len_cons, !len_app, be_bytes_len, Lt, Lc, Lc'.
        change (N.of_nat 16) with 16. lia.
    + lay T. fin.
    + inversion T as [| | | | | | | | | | | | | | | | |d a [Ba [La Va]]| | | |]; subst. cbn [frame_to_bytes].
      unfold path_challenge_to_bytes. cbn [pc_data app]. eexists _, _. split; [reflexivity|].
      pose proof (be_val_bound _ Ba) as Q. rewrite La in Q.
      split; [|rewrite be_bytes_len, La; change (N.of_nat 8) with 8; lia].
      constructor. split; [apply be_bytes_ok|]. split; [apply be_bytes_len|]. apply be_val_be_bytes_small. exact Q.
    + inversion T as [| | | | | | | | | | | | | | | | | |d a [Ba [La Va]]| | |]; subst. cbn [frame_to_bytes].
      unfold path_response_to_bytes. cbn [pr_data app]. eexists _, _. split; [reflexivity|].
      pose proof (be_val_bound _ Ba) as Q. rewrite La in Q.
      split; [|rewrite be_bytes_len, La; change (N.of_nat 8) with 8; lia].
      constructor. split; [apply be_bytes_ok|]. split; [apply be_bytes_len|]. apply be_val_be_bytes_small. exact Q.
    + lay T; cbn [app].
      * change (N.lor 28 0) with 28. fin.
      * change (N.lor 28 1) with 29. fin.
    + lay T. fin.
Qed.

Lemma all_taken_nil fs : all_taken fs [] -> fs = [].
Proof.
  intros H. inversion H as [|t tb body f fs' s V T R E]; [auto|].
  destruct tb; [destruct (varint_nonempty _ _ V eq_refl)|discriminate].
Qed.

Lemma taken_rest f k body rest rest' : taken_for f k body rest -> (is_stream f = true -> rest' = []) ->
  taken_for f k body rest'.
Proof. destruct f; cbn [taken_for is_stream]; auto. intros [A [_ B]] H. split; [auto|]. split; auto. Qed.

Lemma type_enc k : k < 64 -> varint_enc k [k].
Proof.
  intros H. exists 0. split; [lia|]. split; [reflexivity|]. split; [repeat constructor; lia|]. split; [exact H|].
  rewrite be_val_1. lia.
Qed.

Lemma reencode_all fs s : all_taken fs s -> forall n idx, n = idx + len fs ->
  exists bs, serialize_frames_loop true n idx fs = Ok bs /\ all_taken fs bs /\ len bs <= len s.
Proof.
  induction 1 as [|t tb body f fs s V T R IH]; intros n idx E.
  - exists []. split; [reflexivity|]. split; [constructor|lia].
  - rewrite len_cons in E. destruct (IH n (idx + 1) ltac:(lia)) as [bs [Eb [Tb Lb]]].
    assert (S : is_stream f = true -> s = []) by (destruct f; try discriminate; intros _; apply T).
    assert (SF : is_stream f = true -> fs = []) by (intros F; apply all_taken_nil; rewrite <- (S F); auto).
    destruct (reencode f (t mod 256) body s (true && (idx =? n - 1)) T) as [k' [body' [E1 [T1 L1]]]].
    { intros F. rewrite (SF F), len_nil in E. apply N.eqb_eq. lia. }
    exists ((k' :: body') ++ bs). cbn [serialize_frames_loop]. rewrite E1. cbn [bind]. rewrite Eb. split; [reflexivity|].
    pose proof (taken_type _ _ _ _ T1) as Hk. split.
    + change ((k' :: body') ++ bs) with ([k'] ++ body' ++ bs). constructor 2 with k'; auto.
      * apply type_enc. lia.
      * rewrite N.mod_small by lia. apply taken_rest with s; auto.
        intros F. rewrite (SF F) in Tb. inversion Tb. reflexivity.
    + destruct tb as [|b tb]; [destruct (varint_nonempty _ _ V eq_refl)|].
      rewrite !len_app, !len_cons. lia.
Qed.

(** The bytes a decoded frame holds come from the input. *)
Definition frame_data (f : frame) : list N :=
  match f with Stream x => st_data x | Crypto x => crypto_data x | _ => [] end.
Lemma taken_data f k body rest : taken_for f k body rest -> bytes_ok body -> bytes_ok (frame_data f).
Proof.
  destruct f; cbn [taken_for frame_data]; intros T B; try constructor.
  - destruct T as [_ [_ [a [b [_ [_ ->]]]]]]. apply bytes_ok_app in B as [_ B]. apply bytes_ok_app in B. tauto.
  - destruct T as [_ [_ [_ [_ [_ [a [_ ->]]]]]]]. apply bytes_ok_app in B. tauto.
Qed.
Lemma data_taken f k body rest : taken_for f k body rest -> bytes_ok (frame_data f) -> bytes_ok body.
Proof.
  destruct f; cbn [taken_for frame_data]; intros T B;
    try (apply frame_enc_bytes_ok in T; apply bytes_ok_cons in T; tauto).
  - destruct T as [_ [_ [a [b [V1 [V2 ->]]]]]]. destruct V1 as [? [_ [_ [B1 _]]]]. destruct V2 as [? [_ [_ [B2 _]]]].
    apply bytes_ok_app. split; [auto|]. apply bytes_ok_app. auto.
  - destruct T as [_ [_ [_ [_ [_ [a [V ->]]]]]]]. destruct V as [? [_ [_ [B1 _]]]]. apply bytes_ok_app. auto.
Qed.
Lemma all_taken_data fs s : all_taken fs s -> bytes_ok s -> Forall (fun f => bytes_ok (frame_data f)) fs.
Proof.
  induction 1 as [|t tb body f fs s V T R IH]; intros B; constructor;
    apply bytes_ok_app in B as [_ B]; apply bytes_ok_app in B as [B1 B2]; auto. eapply taken_data; eauto.
Qed.
Lemma all_taken_bytes fs s : all_taken fs s -> Forall (fun f => bytes_ok (frame_data f)) fs -> bytes_ok s.
Proof.
  induction 1 as [|t tb body f fs s V T R IH]; intros F; [constructor|]. inversion F; subst.
  destruct V as [? [_ [_ [B1 _]]]]. apply bytes_ok_app. split; [auto|]. apply bytes_ok_app. split; [|auto].
  eapply data_taken; eauto.
Qed.

(** Whatever the decoder returns, the encoder accepts, in a form that is not
    longer and decodes to the same frames. *)
Theorem C69_reencoded : forall oc s fs, bytes_ok s -> deserialize_frames oc s = Ok fs ->
  exists bs, serialize_frames fs true = Ok bs /\ deserialize_frames oc bs = Ok fs /\ len bs <= len s.
Proof.
  intros oc s fs B H. apply C68_payload_exact in H; auto.
  destruct (reencode_all fs s H (len fs) 0 ltac:(lia)) as [bs [E [T L]]].
  exists bs. split; [exact E|]. split; [|exact L]. apply C68_payload_exact; auto.
  apply (all_taken_bytes fs bs T). apply (all_taken_data fs s H B).
Qed.
Print Assumptions C69_reencoded.

Example C69_case :
  (let s := [0x40; 0x10; 0x80; 0; 0; 0x25; 0x06; 0x40; 2; 1; 7; 8; 9; 0x0e; 4; 9; 1; 7; 7] in
   let? fs := deserialize_frames true s in
   let? bs := serialize_frames fs true in
   let? fs' := deserialize_frames true bs in
   Ok (bs, fs')) =
  Ok ([0x10; 0x25; 0x06; 2; 1; 7; 8; 9; 0x08; 4; 9; 1; 7; 7],
      [MaxData (FrameMaxData 37); Crypto (FrameCrypto 2 1 [7; 8; 9]);
       Stream (FrameStream 4 0 4 [9; 1; 7; 7] false)]).
Proof. reflexivity. Qed.

(** ** C71: the frames the constructors build carry what they were given. *)
Definition C71_statement : Prop :=
  (forall data, v62 (len data) -> bytes_ok data -> frame_wf (Crypto (crypto_new data))) /\
  (forall token, v62 (len token) -> bytes_ok token -> frame_wf (NewToken (new_token_new token))) /\
  (forall id data fin, v62 id -> v62 (len data) -> bytes_ok data -> frame_wf (Stream (stream_new id data fin))) /\
  (forall code reason, v62 code -> v62 (len reason) -> bytes_ok reason ->
     frame_wf (ConnectionClose (connection_close_new_application_error code reason))) /\
  (forall code ft reason, v62 code -> v62 ft -> v62 (len reason) -> bytes_ok reason ->
     frame_wf (ConnectionClose (connection_close_new_error code ft reason))) /\
  (forall seq retire cid token, v62 seq -> v62 retire -> cid_ok cid -> token < 2 ^ 128 ->
     frame_wf (NewConnectionId (new_connection_id_new seq retire cid token))).

(** Missing: NEW_CONNECTION_ID with an id of more than 8 bytes. *)
Theorem C71_constructors_partial :
  (forall data, v62 (len data) -> bytes_ok data ->
     frame_wf (Crypto (crypto_new data)) /\ crypto_data (crypto_new data) = data) /\
  (forall token, v62 (len token) -> bytes_ok token ->
     frame_wf (NewToken (new_token_new token)) /\ nt_token (new_token_new token) = token) /\
  (forall id data fin, v62 id -> v62 (len data) -> bytes_ok data ->
     frame_wf (Stream (stream_new id data fin)) /\ st_data (stream_new id data fin) = data /\
     st_stream_id (stream_new id data fin) = id /\ st_is_fin (stream_new id data fin) = fin) /\
  (forall code reason, v62 code -> v62 (len reason) -> bytes_ok reason ->
     frame_wf (ConnectionClose (connection_close_new_application_error code reason)) /\
     cc_reason_phrase (connection_close_new_application_error code reason) = reason /\
     cc_error_code (connection_close_new_application_error code reason) = code /\
     cc_is_application_error (connection_close_new_application_error code reason) = true) /\
  (forall code ft reason, v62 code -> v62 ft -> v62 (len reason) -> bytes_ok reason ->
     frame_wf (ConnectionClose (connection_close_new_error code ft reason)) /\
     cc_reason_phrase (connection_close_new_error code ft reason) = reason /\
     cc_error_code (connection_close_new_error code ft reason) = code /\
     cc_frame_type (connection_close_new_error code ft reason) = Some ft) /\
  (forall seq retire cid token, v62 seq -> v62 retire -> cid_ok cid -> token < 2 ^ 128 ->
     frame_wf (NewConnectionId (new_connection_id_new seq retire cid token)) <-> cid_val cid < 2 ^ 64).
Proof.
  repeat match goal with |- _ /\ _ => split end.
  all: intros; cbn; repeat match goal with |- _ /\ _ => split end; auto; try reflexivity; try lia.
  split; [intros [_ [_ [_ [_ [H3 _]]]]]; exact H3|]. intros H3.
  repeat match goal with |- _ /\ _ => split end; auto; lia.
Qed.
Print Assumptions C71_constructors_partial.
Example C71_constructors_case :
  cid_ok (U160 0 0xabcd) /\ cid_val (U160 0 0xabcd) < 2 ^ 64 /\
  frame_to_bytes (NewConnectionId (new_connection_id_new 1 0 (U160 0 0xabcd) 5)) false =
    Ok ([0x18; 1; 0; 8; 0; 0; 0; 0; 0; 0; 0xab; 0xcd] ++ repeat 0 15 ++ [5]).
Proof. repeat split; reflexivity. Qed.

(** A longer id silently loses its leading bytes. *)
Theorem C71_long_id_truncated : forall seq retire cid token, cid_ok cid ->
  frame_to_bytes (NewConnectionId (new_connection_id_new seq retire cid token)) false =
  frame_to_bytes (NewConnectionId (new_connection_id_new seq retire (U160 0 (cid_val cid mod 2 ^ 64)) token)) false.
Proof.
  intros seq retire cid token H. cbn [frame_to_bytes]. unfold new_connection_id_to_bytes, new_connection_id_new.
  cbn [nc_sequence_number nc_retire_prior_to nc_length nc_connection_id nc_stateless_reset_token].
  assert (M : cid_val cid mod 2 ^ 64 < 2 ^ 64) by (apply N.mod_lt; pows; lia).
  assert (E : u160_to_var_bytes cid 8 = u160_to_var_bytes (U160 0 (cid_val cid mod 2 ^ 64)) 8).
  { rewrite !u160_to_var_bytes_ok; auto; try lia; [|split; cbn [idx0 idx1]; pows; lia].
    f_equal. unfold cid_val at 2. cbn [idx0 idx1]. rewrite N.mul_0_l, N.add_0_l.
    apply be_val_inj; try apply be_bytes_ok; [rewrite !be_bytes_length; reflexivity|].
    rewrite !be_val_be_bytes. change (256 ^ N.of_nat (N.to_nat 8)) with (2 ^ 64). symmetry. apply N.mod_mod. pows. lia. }
  rewrite E. reflexivity.
Qed.
Print Assumptions C71_long_id_truncated.

Theorem C71_constructors_refuted : ~ C71_statement.
Proof.
  intros [_ [_ [_ [_ [_ H]]]]].
  destruct (H 0 0 (U160 1 0) 0 ltac:(reflexivity) ltac:(reflexivity) ltac:(split; reflexivity) ltac:(reflexivity))
    as [_ [_ [_ [_ [W _]]]]]. vm_compute in W. discriminate W.
Qed.
Print Assumptions C71_constructors_refuted.

(** The nine byte id 0x01...00 is sent as eight zero bytes. *)
Example C71_case :
  frame_to_bytes (NewConnectionId (new_connection_id_new 1 0 (U160 0 (2 ^ 64)) 0)) false =
    Ok ([0x18; 1; 0; 8] ++ repeat 0 24) /\
  frame_to_bytes (Stream (stream_new 4 [1; 2] true)) false = Ok [0x0b; 4; 2; 1; 2].
Proof. split; vm_compute; reflexivity. Qed.
