(** Facts about the frame codec. *)
From Verif Require Import Base Utils Frame Spec Tactics UtilsFacts ParserFacts.

Lemma tame_ext {A} w (p q : parser A) :
  (forall s, bytes_ok s -> p s = q s) -> tame w q -> tame w p.
Proof. intros E H s Hs. rewrite E by auto. apply H, Hs. Qed.

Lemma delim_ext {A} (p q : parser A) :
  (forall s, bytes_ok s -> p s = q s) -> delim q -> delim p.
Proof.
  intros E H s Hs. rewrite E by auto. specialize (H s Hs).
  destruct (q s) as [[x r]|e|v|]; auto.
  destruct H as [c [-> [H1 H2]]]. apply bytes_ok_app in Hs as [Hc Hr].
  exists c. split; [auto|]. split.
  - intros r' Hr'. rewrite E by (apply bytes_ok_app; auto). auto.
  - intros c' t Et N. destruct (H2 c' t Et N) as [e He]. exists e.
    rewrite E; auto. subst c. apply bytes_ok_app in Hc. tauto.
Qed.

Lemma tame_wrap {A} (w : A -> N) (w' : frame -> N) (K : A -> frame) (p : parser A) :
  tame w p -> (forall x, w' (K x) <= w x) -> tame w' (wrap K p).
Proof.
  intros H L s Hs. unfold wrap. specialize (H s Hs).
  destruct (p s) as [[x r]|e|v|]; cbn [bind]; auto.
  destruct H as [c [E W]]. exists c. split; [auto|]. specialize (L x). lia.
Qed.

Lemma delim_wrap {A} (K : A -> frame) (p : parser A) : delim p -> delim (wrap K p).
Proof. intros H. unfold wrap. apply (delim_bind p (fun x s => Ok (K x, s))); auto using delim_ret. Qed.

Ltac delim_step :=
  match goal with
  | |- delim (fun s => bind (?p s) _) =>
      refine (delim_bind _ (fun x s => _) _ _);
      [ solve [ apply delim_var_int | apply delim_var_bytes | apply delim_from_datagram
              | apply delim_var_u160 | eauto ]
      | intros ?; cbv beta ]
  | |- delim (fun s => Ok (_, s)) => apply delim_ret
  | |- delim (fun s => Err _) => apply delim_err
  end.

(** ** ACK ranges *)

Lemma delim_range oc : delim (ack_range_from_datagram oc).
Proof. unfold ack_range_from_datagram. repeat delim_step. Qed.

Lemma tame_range oc : tame (fun _ => 1) (ack_range_from_datagram oc).
Proof.
  unfold ack_range_from_datagram.
  refine (tame_bind (fun _ => 1) _ _ (fun x s => _) _ _); [apply tame_var_int|].
  intros x. cbv beta.
  refine (tame_bind (fun _ => 0) _ _ (fun x s => _) _ _);
    [eapply tame_weaken; [apply tame_var_int|]; intros; cbv beta; lia|].
  intros y. apply tame_ret. cbv beta. lia.
Qed.

Lemma ack_ranges_fuel oc : forall f f' count s, bytes_ok s ->
  (length s < f)%nat -> (length s < f')%nat ->
  ack_ranges_loop oc f count s = ack_ranges_loop oc f' count s.
Proof.
  induction f as [|f IH]; intros f' count s Hs L L'; [lia|].
  destruct f' as [|f']; [lia|]. cbn [ack_ranges_loop].
  destruct (count =? 0); [reflexivity|].
  pose proof (tame_range oc s Hs) as T.
  destruct (ack_range_from_datagram oc s) as [[x r]|e|v|]; try reflexivity.
  destruct T as [c [-> W]]. cbn [bind]. apply bytes_ok_app in Hs as [_ Hr].
  assert (LC : (1 <= length c)%nat) by (unfold len in W; lia).
  rewrite app_length in *.
  rewrite (IH f'); auto; lia.
Qed.

Definition ack_ranges_p (oc : bool) (count : N) : parser (list ack_range) :=
  fun s => ack_ranges_loop oc (S (length s)) count s.

Lemma ack_ranges_p_0 oc s : ack_ranges_p oc 0 s = Ok ([], s).
Proof. reflexivity. Qed.

Lemma ack_ranges_p_S oc count s : bytes_ok s ->
  ack_ranges_p oc (N.succ count) s =
    let? (r, s) := ack_range_from_datagram oc s in
    let? (rs, s) := ack_ranges_p oc count s in
    Ok (r :: rs, s).
Proof.
  intros Hs. unfold ack_ranges_p. cbn [ack_ranges_loop].
  destruct (N.eqb_spec (N.succ count) 0); [lia|].
  pose proof (tame_range oc s Hs) as T.
  destruct (ack_range_from_datagram oc s) as [[x r]|e|v|]; try reflexivity.
  destruct T as [c [-> W]]. cbn [bind]. apply bytes_ok_app in Hs as [_ Hr].
  assert (LC : (1 <= length c)%nat) by (unfold len in W; lia).
  rewrite app_length. replace (N.succ count - 1) with count by lia.
  rewrite (ack_ranges_fuel oc _ (S (length r))) by (auto; lia). reflexivity.
Qed.

Lemma delim_ack_ranges oc count : delim (ack_ranges_p oc count).
Proof.
  induction count as [|count IH] using N.peano_ind.
  - apply (delim_ext _ (fun s => Ok ([], s))); [reflexivity | apply delim_ret].
  - eapply delim_ext; [intros s Hs; apply ack_ranges_p_S, Hs|].
    refine (delim_bind _ (fun x s => _) _ _); [apply delim_range|]. intros x. cbv beta.
    refine (delim_bind _ (fun x s => _) _ _); [apply IH|]. intros y. apply delim_ret.
Qed.

Lemma tame_ack_ranges oc count : tame (fun rs => len rs) (ack_ranges_p oc count).
Proof.
  induction count as [|count IH] using N.peano_ind.
  - apply (tame_ext _ _ (fun s => Ok ([], s))); [reflexivity | apply tame_ret; reflexivity].
  - eapply tame_ext; [intros s Hs; apply ack_ranges_p_S, Hs|].
    refine (tame_bind (fun _ => 1) _ _ (fun x s => _) _ _); [apply tame_range|].
    intros x. cbv beta.
    refine (tame_bind (fun rs => len rs) _ _ (fun x s => _) _ _); [apply IH|].
    intros y. apply tame_ret. cbv beta. rewrite len_cons. lia.
Qed.

Lemma delim_ack oc t : delim (ack_from_datagram oc t).
Proof.
  unfold ack_from_datagram. do 4 delim_step.
  refine (delim_bind (ack_ranges_p oc _) (fun x s => _) _ _); [apply delim_ack_ranges|].
  intros rs. cbv beta. destruct (N.land t 1 =? 1).
  - refine (delim_bind _ (fun x s => _) _ _).
    + refine (delim_bind _ (fun x s => _) _ _); [|intros; apply delim_ret].
      unfold ecn_from_datagram. repeat delim_step.
    + intros e. cbv beta. delim_step.
  - cbn [bind]. delim_step.
Qed.

Lemma delim_stop {A B} (p : parser A) (K : A -> B) :
  delim p -> delim (fun s => let? (x, s) := p s in Ok (K x, s)).
Proof. intros H. refine (delim_bind _ (fun x s => _) H _). intros; apply delim_ret. Qed.

(** The sum of two 62-bit values does not overflow. *)
Definition crypto_p (oc : bool) : parser frame_crypto := fun s =>
  let? (offset, s) := var_int_from_stream oc s in
  let? (length, s) := var_int_from_stream oc s in
  let? (data, s) := var_bytes_from_stream (length + offset) s in
  Ok (FrameCrypto offset length data, s).

Lemma add64_small oc a b : v62 a -> v62 b -> add64 oc a b = Ok (a + b).
Proof.
  unfold v62, add64, two64. intros Ha Hb. pows.
  destruct (N.ltb_spec (a + b) 18446744073709551616); [reflexivity|lia].
Qed.

Lemma crypto_p_eq oc s : bytes_ok s -> crypto_from_datagram oc s = crypto_p oc s.
Proof.
  intros Hs. unfold crypto_from_datagram, crypto_p.
  destruct (var_int_from_stream oc s) as [[o r]| | |] eqn:E1; try reflexivity.
  destruct (varint_dec_inv' oc s o r Hs E1) as [b1 [-> V1]].
  apply bytes_ok_app in Hs as [_ Hr]. cbn [bind].
  destruct (var_int_from_stream oc r) as [[l r']| | |] eqn:E2; try reflexivity.
  destruct (varint_dec_inv' oc r l r' Hr E2) as [b2 [-> V2]]. cbn [bind].
  rewrite add64_small by (eapply varint_enc_v62; eauto). reflexivity.
Qed.

Lemma delim_body oc t : in_range 0x08 0x0f t = false -> delim (deserialize_frame_body oc t).
Proof.
  intros NS. unfold deserialize_frame_body. rewrite NS.
  repeat match goal with
  | |- delim (fun s => if ?b then _ else _) => destruct b
  end; try (apply delim_ret); try (apply delim_err);
  match goal with |- delim (fun s => ?f s) => apply delim_wrap | |- delim _ => apply delim_wrap end.
  - apply delim_ack.
  - unfold reset_stream_from_datagram; repeat delim_step.
  - unfold stop_sending_from_datagram; repeat delim_step.
  - eapply delim_ext; [apply crypto_p_eq|]. unfold crypto_p. repeat delim_step.
  - unfold new_token_from_datagram; repeat delim_step.
  - unfold max_data_from_datagram; repeat delim_step.
  - unfold max_stream_data_from_datagram; repeat delim_step.
  - unfold max_streams_from_datagram; repeat delim_step.
  - unfold data_blocked_from_datagram; repeat delim_step.
  - unfold stream_data_blocked_from_datagram; repeat delim_step.
  - unfold streams_blocked_from_datagram; repeat delim_step.
  - unfold new_connection_id_from_datagram, u8_from_datagram. do 3 delim_step.
    destruct (_ || _)%bool; unfold u128_from_datagram; repeat delim_step.
  - unfold retire_connection_id_from_datagram; repeat delim_step.
  - unfold path_challenge_from_datagram, u64_from_datagram; repeat delim_step.
  - unfold path_response_from_datagram, u64_from_datagram; repeat delim_step.
  - unfold connection_close_from_datagram. destruct (N.land t 1 =? 1); cbn [negb bind].
    + repeat delim_step.
    + delim_step. refine (delim_bind _ (fun x s => _) _ _).
      * repeat delim_step.
      * intros. cbv beta. repeat delim_step.
Qed.

(** ** Totality and size *)

Ltac tame0_step :=
  match goal with
  | |- tame _ (fun s => bind (?p s) _) =>
      refine (tame_bind (fun _ => 0) _ _ (fun x s => _) _ _);
      [ solve [ apply delim_tame; first [ apply delim_var_int | apply delim_from_datagram
              | apply delim_var_u160 ] ]
      | intros ?; cbv beta ]
  | |- tame _ (fun s => Ok (_, s)) => apply tame_ret; cbv beta; cbn; lia
  | |- tame _ (fun s => Err _) => apply tame_err
  end.

Lemma tame_weight_0 oc t : in_range 0x08 0x0f t = false ->
  tame (fun _ => 0) (deserialize_frame_body oc t).
Proof. intros H. apply delim_tame, delim_body, H. Qed.

Lemma tame_ack oc t : tame (fun x => len (ack_ranges x)) (ack_from_datagram oc t).
Proof.
  unfold ack_from_datagram. do 4 tame0_step.
  refine (tame_bind (fun rs => len rs) _ (ack_ranges_p oc _) (fun x s => _) _ _);
    [apply tame_ack_ranges|].
  intros rs. cbv beta.
  refine (tame_bind (fun _ => 0) _ _ (fun x s => _) _ _).
  - destruct (N.land t 1 =? 1); [|apply tame_ret; reflexivity].
    refine (tame_bind (fun _ => 0) _ _ (fun x s => _) _ _).
    + unfold ecn_from_datagram. repeat tame0_step.
    + intros e. apply tame_ret. cbv beta. lia.
  - intros e. apply tame_ret. cbv beta. cbn [ack_ranges]. lia.
Qed.

Lemma tame_crypto oc : tame (fun x => len (crypto_data x)) (crypto_from_datagram oc).
Proof.
  eapply tame_ext; [apply crypto_p_eq|]. unfold crypto_p. do 2 tame0_step.
  refine (tame_bind (fun bs => len bs) _ _ (fun x s => _) _ _); [apply tame_var_bytes|].
  intros d. apply tame_ret. cbv beta. cbn [crypto_data]. lia.
Qed.

Lemma tame_new_token oc : tame (fun x => len (nt_token x)) (new_token_from_datagram oc).
Proof.
  unfold new_token_from_datagram. do 1 tame0_step.
  refine (tame_bind (fun bs => len bs) _ _ (fun x s => _) _ _); [apply tame_var_bytes|].
  intros d. apply tame_ret. cbv beta. cbn [nt_token]. lia.
Qed.

Lemma tame_all : tame (fun bs => len bs) all_bytes_from_stream.
Proof. intros s _. exists s. rewrite app_nil_r. split; [auto|lia]. Qed.

(** [type_byte & 4] and [type_byte & 2] are never 1. *)
Lemma land4_not_1 t : (N.land t 0x04 =? 1) = false.
Proof.
  apply N.eqb_neq. intros E. apply (f_equal (fun x => N.testbit x 0)) in E.
  rewrite N.land_spec in E. change (N.testbit 4 0) with false in E.
  rewrite andb_false_r in E. discriminate.
Qed.
Lemma land2_not_1 t : (N.land t 0x02 =? 1) = false.
Proof.
  apply N.eqb_neq. intros E. apply (f_equal (fun x => N.testbit x 0)) in E.
  rewrite N.land_spec in E. change (N.testbit 2 0) with false in E.
  rewrite andb_false_r in E. discriminate.
Qed.

(** What the STREAM decoder actually does. *)
Lemma stream_from_datagram_eq oc t s :
  stream_from_datagram oc t s =
    let? (id, s) := var_int_from_stream oc s in
    Ok (FrameStream id 0 (len s) s (N.land t 0x01 =? 1), []).
Proof.
  unfold stream_from_datagram. rewrite land4_not_1, land2_not_1.
  destruct (var_int_from_stream oc s) as [[id r]| | |]; reflexivity.
Qed.

Lemma tame_stream oc t : tame (fun x => len (st_data x)) (stream_from_datagram oc t).
Proof.
  eapply tame_ext; [intros s _; apply stream_from_datagram_eq|].
  refine (tame_bind (fun _ => 0) _ _ (fun x s => _) _ _); [apply delim_tame, delim_var_int|].
  intros id s _. cbn beta. exists s. rewrite app_nil_r. cbn [st_data]. split; [auto|lia].
Qed.

Lemma tame_connection_close oc t :
  tame (fun x => len (cc_reason_phrase x)) (connection_close_from_datagram oc t).
Proof.
  unfold connection_close_from_datagram. tame0_step.
  refine (tame_bind (fun _ => 0) _ _ (fun x s => _) _ _).
  - destruct (N.land t 1 =? 1); cbn [negb]; [apply tame_ret; reflexivity|].
    refine (tame_bind (fun _ => 0) _ _ (fun x s => _) _ _); [apply delim_tame, delim_var_int|].
    intros e. apply tame_ret. cbv beta. lia.
  - intros e. cbv beta. tame0_step.
    refine (tame_bind (fun bs => len bs) _ _ (fun x s => _) _ _); [apply tame_var_bytes|].
    intros d. apply tame_ret. cbv beta. cbn [cc_reason_phrase]. lia.
Qed.

Lemma tame_body oc t : tame (fun f => frame_weight f - 1) (deserialize_frame_body oc t).
Proof.
  unfold deserialize_frame_body.
  repeat match goal with
  | |- tame _ (fun s => if ?b then _ else _) => destruct b
  end; try (apply tame_ret; reflexivity); try (apply tame_err);
  try (eapply tame_wrap; [ | intros x; unfold frame_weight; cbv beta;
         instantiate (1 := fun _ => 0); cbv beta; lia ];
       solve [ unfold reset_stream_from_datagram, stop_sending_from_datagram,
         max_data_from_datagram, max_stream_data_from_datagram, max_streams_from_datagram,
         data_blocked_from_datagram, stream_data_blocked_from_datagram,
         streams_blocked_from_datagram, retire_connection_id_from_datagram,
         path_challenge_from_datagram, path_response_from_datagram, u64_from_datagram;
         repeat tame0_step ]).
  - eapply tame_wrap; [apply tame_ack|]. intros x. unfold frame_weight. lia.
  - eapply tame_wrap; [apply tame_crypto|]. intros x. unfold frame_weight. lia.
  - eapply tame_wrap; [apply tame_new_token|]. intros x. unfold frame_weight. lia.
  - eapply tame_wrap; [apply tame_stream|]. intros x. unfold frame_weight. lia.
  - apply (tame_wrap (fun _ => 0)); [|intros x; unfold frame_weight; lia].
    unfold new_connection_id_from_datagram, u8_from_datagram. do 3 tame0_step.
    destruct (_ || _)%bool; unfold u128_from_datagram; repeat tame0_step.
  - eapply tame_wrap; [apply tame_connection_close|]. intros x. unfold frame_weight. lia.
Qed.

Lemma tame_frame oc : tame frame_weight (deserialize_frame oc).
Proof.
  unfold deserialize_frame.
  refine (tame_bind (fun _ => 1) _ _ (fun x s => _) _ _); [apply tame_var_int|].
  intros x. cbv beta zeta. apply tame_body.
Qed.

Lemma frame_weight_pos f : 1 <= frame_weight f.
Proof. unfold frame_weight. lia. Qed.

(** ** Sequences *)

Lemma frames_fuel oc : forall f f' s, bytes_ok s ->
  (length s < f)%nat -> (length s < f')%nat ->
  deserialize_frames_loop oc f s = deserialize_frames_loop oc f' s.
Proof.
  induction f as [|f IH]; intros f' s Hs L L'; [lia|].
  destruct f' as [|f']; [lia|]. cbn [deserialize_frames_loop].
  destruct s as [|b s]; [reflexivity|].
  pose proof (tame_frame oc (b :: s) Hs) as T.
  destruct (deserialize_frame oc (b :: s)) as [[x r]|e|v|]; try reflexivity.
  destruct T as [c [E W]]. cbn [bind]. rewrite E in *. apply bytes_ok_app in Hs as [_ Hr].
  pose proof (frame_weight_pos x).
  assert (LC : (1 <= length c)%nat) by (unfold len in W; lia).
  rewrite app_length in *. rewrite (IH f'); auto; lia.
Qed.

Lemma deserialize_frames_cons oc s : bytes_ok s -> s <> [] ->
  deserialize_frames oc s =
    let? (x, s') := deserialize_frame oc s in
    let? xs := deserialize_frames oc s' in
    Ok (x :: xs).
Proof.
  intros Hs NE. unfold deserialize_frames. cbn [deserialize_frames_loop].
  destruct s as [|b s]; [congruence|].
  pose proof (tame_frame oc (b :: s) Hs) as T.
  destruct (deserialize_frame oc (b :: s)) as [[x r]|e|v|]; try reflexivity.
  destruct T as [c [E W]]. cbn [bind]. rewrite E in *. apply bytes_ok_app in Hs as [_ Hr].
  pose proof (frame_weight_pos x).
  assert (LC : (1 <= length c)%nat) by (unfold len in W; lia).
  rewrite app_length. rewrite (frames_fuel oc _ (S (length r))) by (auto; lia). reflexivity.
Qed.

Lemma deserialize_frames_nil oc : deserialize_frames oc [] = Ok [].
Proof. reflexivity. Qed.

Lemma deserialize_frames_total oc s : bytes_ok s ->
  match deserialize_frames oc s with
  | Ok fs => frames_weight fs <= len s
  | Err _ => True
  | _ => False
  end.
Proof.
  remember (length s) as n eqn:Hn. revert s Hn.
  induction n as [n IH] using lt_wf_ind. intros s Hn Hs.
  destruct s as [|b s]; [cbn; lia|].
  rewrite deserialize_frames_cons by (auto; discriminate).
  pose proof (tame_frame oc (b :: s) Hs) as T.
  destruct (deserialize_frame oc (b :: s)) as [[x r]|e|v|]; cbn [bind]; auto.
  destruct T as [c [E W]]. rewrite E in *. apply bytes_ok_app in Hs as [_ Hr].
  pose proof (frame_weight_pos x).
  assert (LC : (1 <= length c)%nat) by (unfold len in W; lia).
  rewrite app_length in Hn. specialize (IH (length r) ltac:(lia) r eq_refl Hr).
  destruct (deserialize_frames oc r); cbn [bind]; auto.
  cbn [frames_weight]. rewrite len_app. lia.
Qed.

(** ** Completeness of the decoder for the RFC layout *)

Lemma varint_enc_small t : t < 64 -> varint_enc t [t].
Proof.
  intros H. exists 0. pows. rewrite len_cons. change (len []) with 0. cbn [be_val]. change (len []) with 0.
  split; [lia|]. split; [lia|]. split; [repeat constructor; lia|]. pows. split; lia.
Qed.

Lemma frame_type_small oc t s : t < 64 ->
  deserialize_frame oc (t :: s) = deserialize_frame_body oc t s.
Proof.
  intros H. unfold deserialize_frame.
  change (t :: s) with ([t] ++ s). rewrite (varint_dec' oc t [t] s (varint_enc_small t H)). cbn [bind app].
  f_equal. change (shl 64 1 8 - 1) with 255. rewrite land_255. unfold cast. pows. lia.
Qed.

Lemma fixed_dec size msg n x bs rest : n = N.of_nat size -> fixed_enc n x bs ->
  from_datagram size msg (bs ++ rest) = Ok (x, rest).
Proof.
  intros -> [Hb [HL <-]]. apply from_datagram_app; auto. unfold len in HL. lia.
Qed.

Lemma ranges_enc_bytes_ok rs bs : ranges_enc rs bs -> bytes_ok bs.
Proof.
  induction 1; [constructor|]. rewrite !bytes_ok_app. eauto using varint_enc_bytes_ok.
Qed.

Lemma ranges_dec oc rs bs rest : bytes_ok rest -> ranges_enc rs bs ->
  ack_ranges_p oc (len rs) (bs ++ rest) = Ok (rs, rest).
Proof.
  intros Hr. induction 1 as [|g l rs a b bs Ha Hb HR IH]; [reflexivity|].
  replace (len (AckRange g l :: rs)) with (N.succ (len rs)) by (rewrite len_cons; lia).
  rewrite ack_ranges_p_S.
  2:{ rewrite !bytes_ok_app. repeat split; eauto using varint_enc_bytes_ok, ranges_enc_bytes_ok. }
  unfold ack_range_from_datagram. rewrite <- !app_assoc.
  rewrite (varint_dec' oc g a _ Ha). cbn [bind].
  rewrite (varint_dec' oc l b _ Hb). cbn [bind].
  rewrite IH. reflexivity.
Qed.

Ltac vdec :=
  repeat (cbn [bind];
  match goal with
  | H : varint_enc ?x ?a |- context [var_int_from_stream ?oc (?a ++ ?r)] =>
      rewrite (varint_dec' oc x a r H)
  | |- context [var_bytes_from_stream (len ?d) (?d ++ ?r)] =>
      rewrite (var_bytes_app d r (len d) eq_refl)
  end); cbn [bind].

Lemma frame_enc_bytes_ok last f bs : frame_enc last f bs -> bytes_ok bs.
Proof.
  Ltac bo := repeat match goal with
    | H : varint_enc _ _ |- _ => apply varint_enc_bytes_ok in H
    | H : ranges_enc _ _ |- _ => apply ranges_enc_bytes_ok in H
    | H : cid_enc _ _ _ |- _ => destruct H as [_ [H _]]
    | H : fixed_enc _ _ _ |- _ => destruct H as [H _]
    end; rewrite ?bytes_ok_cons, ?bytes_ok_app, ?bytes_ok_cons, ?bytes_ok_app; repeat split; auto using bytes_ok_nil; try lia.
  destruct 1; bo.
  - unfold bit; destruct o, l, fin; lia.
  - destruct o; [bo|]. destruct H0 as [_ ->]. constructor.
  - destruct l; [bo|]. destruct H1 as [_ ->]. constructor.
  - unfold bit; destruct uni; lia.
  - unfold bit; destruct uni; lia.
Qed.

Lemma frame_dec oc last f bs rest :
  frame_enc last f bs -> is_stream f = false -> crypto_at_zero f -> bytes_ok rest ->
  deserialize_frame oc (bs ++ rest) = Ok (f, rest).
Proof.
  intros HE HS HC HR.
  pose proof (frame_enc_bytes_ok _ _ _ HE) as HB.
  destruct HE; cbn [is_stream] in HS; try discriminate;
    cbn [app]; rewrite frame_type_small by (try (destruct uni; cbn [bit]); pows; lia);
    rewrite <- ?app_assoc.
  - reflexivity.
  - reflexivity.
  - (* ACK *)
    change (deserialize_frame_body oc 2) with (wrap Ack (ack_from_datagram oc 2)).
    unfold wrap, ack_from_datagram. vdec.
    change (ack_ranges_loop oc (S (length (r ++ rest))) (len ranges) (r ++ rest))
      with (ack_ranges_p oc (len ranges) (r ++ rest)).
    rewrite ranges_dec by auto. reflexivity.
  - change (deserialize_frame_body oc 3) with (wrap Ack (ack_from_datagram oc 3)).
    unfold wrap, ack_from_datagram. vdec.
    match goal with |- context [ack_ranges_loop oc (S (length ?s)) ?n ?s] =>
      change (ack_ranges_loop oc (S (length s)) n s) with (ack_ranges_p oc n s) end.
    rewrite ranges_dec; auto.
    2:{ apply bytes_ok_cons in HB as [_ HB]. repeat rewrite bytes_ok_app in HB; repeat rewrite bytes_ok_app; tauto. }
    cbn [bind]. change (N.land 3 1 =? 1) with true. cbv iota.
    unfold ecn_from_datagram. vdec. reflexivity.
  - change (deserialize_frame_body oc 4) with (wrap ResetStream (reset_stream_from_datagram oc)).
    unfold wrap, reset_stream_from_datagram. vdec. reflexivity.
  - change (deserialize_frame_body oc 5) with (wrap StopSending (stop_sending_from_datagram oc)).
    unfold wrap, stop_sending_from_datagram. vdec. reflexivity.
  - change (deserialize_frame_body oc 6) with (wrap Crypto (crypto_from_datagram oc)).
    cbn [crypto_at_zero cr_offset] in HC. subst off.
    unfold wrap. rewrite crypto_p_eq.
    2:{ apply bytes_ok_cons in HB as [_ HB]. repeat rewrite bytes_ok_app in HB; repeat rewrite bytes_ok_app; tauto. }
    unfold crypto_p. vdec. rewrite N.add_0_r. vdec. reflexivity.
  - change (deserialize_frame_body oc 7) with (wrap NewToken (new_token_from_datagram oc)).
    unfold wrap, new_token_from_datagram. vdec. reflexivity.
  - change (deserialize_frame_body oc 16) with (wrap MaxData (max_data_from_datagram oc)).
    unfold wrap, max_data_from_datagram. vdec. reflexivity.
  - change (deserialize_frame_body oc 17) with (wrap MaxStreamData (max_stream_data_from_datagram oc)).
    unfold wrap, max_stream_data_from_datagram. vdec. reflexivity.
  - destruct uni; cbn [bit]; pows.
    + change (deserialize_frame_body oc 19) with (wrap MaxStreams (max_streams_from_datagram oc 19)).
      unfold wrap, max_streams_from_datagram. vdec. reflexivity.
    + change (deserialize_frame_body oc 18) with (wrap MaxStreams (max_streams_from_datagram oc 18)).
      unfold wrap, max_streams_from_datagram. vdec. reflexivity.
  - change (deserialize_frame_body oc 20) with (wrap DataBlocked (data_blocked_from_datagram oc)).
    unfold wrap, data_blocked_from_datagram. vdec. reflexivity.
  - change (deserialize_frame_body oc 21) with (wrap StreamDataBlocked (stream_data_blocked_from_datagram oc)).
    unfold wrap, stream_data_blocked_from_datagram. vdec. reflexivity.
  - destruct uni; cbn [bit]; pows.
    + change (deserialize_frame_body oc 23) with (wrap StreamsBlocked (streams_blocked_from_datagram oc 23)).
      unfold wrap, streams_blocked_from_datagram. vdec. reflexivity.
    + change (deserialize_frame_body oc 22) with (wrap StreamsBlocked (streams_blocked_from_datagram oc 22)).
      unfold wrap, streams_blocked_from_datagram. vdec. reflexivity.
  - change (deserialize_frame_body oc 24) with (wrap NewConnectionId (new_connection_id_from_datagram oc)).
    unfold wrap, new_connection_id_from_datagram. vdec.
    unfold u8_from_datagram, u128_from_datagram.
    change (l :: c ++ t) with ([l] ++ (c ++ t)). cbn [app].
    change (l :: (c ++ t) ++ rest) with ([l] ++ ((c ++ t) ++ rest)).
    rewrite (fixed_dec 1 _ 1 l [l]); [|reflexivity|].
    2:{ split; [repeat constructor; lia|]. split; [reflexivity|]. cbn [be_val]. change (len []) with 0. pows. lia. }
    cbn [bind].
    destruct (N.ltb_spec l 1); [lia|]. destruct (N.ltb_spec 20 l); [lia|]. cbn [orb].
    rewrite <- app_assoc.
    rewrite (var_u160_dec cid l c) by (auto; lia). cbn [bind].
    rewrite (fixed_dec 16 _ 16 token t) by auto. reflexivity.
  - change (deserialize_frame_body oc 25) with (wrap RetireConnectionId (retire_connection_id_from_datagram oc)).
    unfold wrap, retire_connection_id_from_datagram. vdec. reflexivity.
  - change (deserialize_frame_body oc 26) with (wrap PathChallenge path_challenge_from_datagram).
    unfold wrap, path_challenge_from_datagram, u64_from_datagram.
    rewrite (fixed_dec 8 _ 8 d a) by auto. reflexivity.
  - change (deserialize_frame_body oc 27) with (wrap PathResponse path_response_from_datagram).
    unfold wrap, path_response_from_datagram, u64_from_datagram.
    rewrite (fixed_dec 8 _ 8 d a) by auto. reflexivity.
  - change (deserialize_frame_body oc 28) with (wrap ConnectionClose (connection_close_from_datagram oc 28)).
    unfold wrap, connection_close_from_datagram. change (N.land 28 1 =? 1) with false. cbn [negb].
    vdec. reflexivity.
  - change (deserialize_frame_body oc 29) with (wrap ConnectionClose (connection_close_from_datagram oc 29)).
    unfold wrap, connection_close_from_datagram. change (N.land 29 1 =? 1) with true. cbn [negb].
    vdec. reflexivity.
  - reflexivity.
Qed.

(** ** The encoder follows the RFC layout *)

Ltac venc :=
  repeat match goal with
  | H : v62 ?x |- context [encode_var_int ?x] =>
      let b := fresh "b" in let E := fresh "E" in let V := fresh "V" in
      destruct (encode_var_int_ok x H) as [b [E [V _]]]; rewrite E; cbn [bind]
  end.

Lemma ranges_to_bytes_ok rs :
  Forall (fun r => v62 (gap r) /\ v62 (ack_range_length r)) rs ->
  exists bs, ack_ranges_to_bytes rs = Ok bs /\ ranges_enc rs bs.
Proof.
  induction 1 as [|[g l] rs [Hg Hl] _ [bs [E R]]]; [eexists; split; [reflexivity|constructor]|].
  cbn [ack_ranges_to_bytes]. unfold ack_range_to_bytes. cbn [gap ack_range_length] in *. venc.
  rewrite E. cbn [bind]. eexists. split; [reflexivity|].
  rewrite <- app_assoc. constructor; auto.
Qed.

Lemma frame_to_bytes_ok last f : frame_wf f ->
  exists bs, frame_to_bytes f last = Ok bs /\ frame_enc last f bs.
Proof.
  destruct f as [| |x|x|x|x|x|x|x|x|x|x|x|x|x|x|x|x|x|]; cbn [frame_wf frame_to_bytes]; intros W.
  - eexists; split; [reflexivity|constructor].
  - eexists; split; [reflexivity|constructor].
  - destruct x as [la d n first rs ecn]; cbn in W. unfold ack_to_bytes; cbn in *.
    destruct W as [W1 [W2 [W3 [-> [W5 [W6 W7]]]]]].
    destruct (ranges_to_bytes_ok rs W6) as [br [-> R]]. cbn [bind].
    destruct ecn as [[e0 e1 ce]|].
    + destruct W7 as [W7 [W8 W9]]. unfold ecn_to_bytes. cbn in *. venc.
      eexists; split; [reflexivity|]. cbn [app]. constructor; auto.
    + cbn [bind]. venc. eexists; split; [reflexivity|]. cbn [app]. rewrite app_nil_r.
      constructor; auto.
  - destruct x; cbn in W. unfold reset_stream_to_bytes; cbn. destruct W as [W1 [W2 W3]]. venc.
    eexists; split; [reflexivity|]. constructor; auto.
  - destruct x; cbn in W. unfold stop_sending_to_bytes; cbn. destruct W as [W1 W2]. venc.
    eexists; split; [reflexivity|]. constructor; auto.
  - destruct x as [o l d]; cbn in W. unfold crypto_to_bytes; cbn. destruct W as [W1 [-> [W2 W3]]].
    venc. eexists; split; [reflexivity|]. constructor; auto.
  - destruct x as [l d]; cbn in W. unfold new_token_to_bytes; cbn. destruct W as [-> [W2 W3]].
    venc. eexists; split; [reflexivity|]. constructor; auto.
  - destruct x as [id off l d fin]; cbn in W. unfold stream_to_bytes; cbn [st_offset st_stream_id st_length st_data st_is_fin]; cbv zeta.
    destruct W as [W1 [W2 [-> [W3 W4]]]].
    destruct (encode_var_int_ok id W1) as [bi [-> [Vi _]]]. cbn [bind].
    assert (T : forall o l' f', N.lor (N.lor (N.lor 8 (if o : bool then 4 else 0)) (if l' : bool then 2 else 0))
                  (if f' : bool then 1 else 0) = 0x08 + bit o 0x04 + bit l' 0x02 + bit f' 0x01).
    { intros [|] [|] [|]; reflexivity. }
    rewrite T. clear T.
    assert (O : exists bo, (if negb (off =? 0) then encode_var_int off else Ok []) = Ok bo /\
                (if negb (off =? 0) then varint_enc off bo else off = 0 /\ bo = [])).
    { destruct (N.eqb_spec off 0) as [->|N]; cbn [negb]; [eauto|]. venc. eauto. }
    destruct O as [bo [-> O]]. cbn [bind].
    assert (L : exists bl, (if negb last then encode_var_int (len d) else Ok []) = Ok bl /\
                (if negb last then varint_enc (len d) bl else last = true /\ bl = [])).
    { destruct last; cbn [negb]; [eauto|]. venc. eauto. }
    destruct L as [bl [-> L]]. cbn [bind].
    eexists; split; [reflexivity|]. cbn [app]; apply enc_stream; auto.
  - destruct x; cbn in W. unfold max_data_to_bytes; cbn. venc.
    eexists; split; [reflexivity|]. constructor; auto.
  - destruct x; cbn in W. unfold max_stream_data_to_bytes; cbn. destruct W as [W1 W2]. venc.
    eexists; split; [reflexivity|]. constructor; auto.
  - destruct x as [m u]; cbn in W. unfold max_streams_to_bytes; cbn. venc.
    eexists; split; [reflexivity|].
    replace (N.lor 18 (if u then 1 else 0)) with (0x12 + bit u 1) by (destruct u; reflexivity).
    constructor; auto.
  - destruct x; cbn in W. unfold data_blocked_to_bytes; cbn. venc.
    eexists; split; [reflexivity|]. constructor; auto.
  - destruct x; cbn in W. unfold stream_data_blocked_to_bytes; cbn. destruct W as [W1 W2]. venc.
    eexists; split; [reflexivity|]. constructor; auto.
  - destruct x as [m u]; cbn in W. unfold streams_blocked_to_bytes; cbn. venc.
    eexists; split; [reflexivity|].
    replace (N.lor 22 (if u then 1 else 0)) with (0x16 + bit u 1) by (destruct u; reflexivity).
    constructor; auto.
  - destruct x as [seq ret l cid tok]; cbn in W. unfold new_connection_id_to_bytes; cbn.
    destruct W as [W1 [W2 [W3 [W4 [W5 W6]]]]]. venc.
    destruct (u160_to_var_bytes_enc cid l W4 ltac:(lia) W5) as [c [-> EC]]. cbn [bind].
    eexists; split; [reflexivity|]. constructor; auto.
    split; [apply be_bytes_ok|]. split; [apply be_bytes_len|].
    apply be_val_be_bytes_small. exact W6.
  - destruct x; cbn in W. unfold retire_connection_id_to_bytes; cbn. venc.
    eexists; split; [reflexivity|]. constructor; auto.
  - destruct x; cbn in W. unfold path_challenge_to_bytes; cbn.
    eexists; split; [reflexivity|]. constructor.
    split; [apply be_bytes_ok|]. split; [apply be_bytes_len|].
    apply be_val_be_bytes_small. exact W.
  - destruct x; cbn in W. unfold path_response_to_bytes; cbn.
    eexists; split; [reflexivity|]. constructor.
    split; [apply be_bytes_ok|]. split; [apply be_bytes_len|].
    apply be_val_be_bytes_small. exact W.
  - destruct x as [code ft l reason app]; cbn in W. unfold connection_close_to_bytes; cbn.
    destruct W as [W1 [-> [W2 [W3 W4]]]]. destruct ft as [ft|].
    + destruct W4 as [W4 ->]. venc. eexists; split; [reflexivity|]. constructor; auto.
    + subst app. cbn [bind]. venc. eexists; split; [reflexivity|]. cbn [app]. change (N.lor 28 1) with 29. constructor; auto.
  - eexists; split; [reflexivity|constructor].
Qed.

Lemma frame_enc_weaken last f bs : frame_enc false f bs -> frame_enc last f bs.
Proof.
  destruct 1; try (constructor; auto; fail).
  apply enc_stream; auto. destruct l; auto. destruct H1 as [H1 _]. discriminate.
Qed.

Lemma serialize_loop_enc e fs : Forall frame_wf fs -> forall n idx,
  n = idx + len fs ->
  exists bs, serialize_frames_loop e n idx fs = Ok bs /\ frames_enc fs bs.
Proof.
  induction 1 as [|f fs Hf _ IH]; intros n idx En;
    [eexists; split; [reflexivity|constructor]|].
  cbn [serialize_frames_loop]. rewrite len_cons in En.
  destruct (IH n (idx + 1) ltac:(lia)) as [bs [-> EB]].
  destruct (frame_to_bytes_ok (e && (idx =? n - 1)) f Hf) as [b [-> HB]]. cbn [bind].
  eexists; split; [reflexivity|].
  destruct fs as [|g fs].
  - assert (HT : frame_enc true f b)
      by (destruct (e && (idx =? n - 1))%bool; auto using frame_enc_weaken).
    inversion EB; subst. rewrite app_nil_r. constructor. exact HT.
  - rewrite len_cons in En. destruct (N.eqb_spec idx (n - 1)); [lia|].
    rewrite andb_false_r in HB. constructor; auto.
Qed.

Lemma serialize_frames_enc fs e : Forall frame_wf fs ->
  exists bs, serialize_frames fs e = Ok bs /\ frames_enc fs bs.
Proof. intros H. apply serialize_loop_enc; auto. Qed.

Lemma frames_enc_bytes_ok fs bs : frames_enc fs bs -> bytes_ok bs.
Proof.
  induction 1; [constructor| eapply frame_enc_bytes_ok; eauto |].
  apply bytes_ok_app. split; auto. eapply frame_enc_bytes_ok; eauto.
Qed.

Lemma frame_enc_nonempty last f bs : frame_enc last f bs -> bs <> [].
Proof. destruct 1; discriminate. Qed.

Definition plain_frame (f : frame) : Prop := is_stream f = false /\ crypto_at_zero f.

Lemma frames_dec oc fs bs : frames_enc fs bs -> Forall plain_frame fs ->
  deserialize_frames oc bs = Ok fs.
Proof.
  induction 1 as [|f bs HE|f g fs a bs HE HR IH]; intros W; [reflexivity| |].
  - inversion W as [|? ? [P1 P2] _]; subst.
    rewrite deserialize_frames_cons by eauto using frame_enc_bytes_ok, frame_enc_nonempty.
    pose proof (frame_dec oc _ _ _ [] HE P1 P2 bytes_ok_nil) as D. rewrite app_nil_r in D.
    rewrite D. reflexivity.
  - inversion W as [|? ? [P1 P2] W']; subst.
    assert (Hb : bytes_ok bs) by eauto using frames_enc_bytes_ok.
    rewrite deserialize_frames_cons.
    + rewrite (frame_dec oc _ _ _ bs HE P1 P2 Hb). cbn [bind]. rewrite IH by auto. reflexivity.
    + apply bytes_ok_app. split; auto. eapply frame_enc_bytes_ok; eauto.
    + apply frame_enc_nonempty in HE. destruct a; [congruence|discriminate].
Qed.

(** A final STREAM frame without offset and length. *)
Lemma stream_tail_dec oc id data fin a :
  varint_enc id a -> bytes_ok data ->
  deserialize_frame oc ((0x08 + bit fin 1) :: a ++ data)
    = Ok (Stream (FrameStream id 0 (len data) data fin), []).
Proof.
  intros Ha Hd. rewrite frame_type_small by (destruct fin; cbn [bit]; pows; lia).
  assert (B : deserialize_frame_body oc (8 + bit fin 1)
              = wrap Stream (stream_from_datagram oc (8 + bit fin 1)))
    by (destruct fin; reflexivity).
  rewrite B. unfold wrap. rewrite stream_from_datagram_eq. vdec. 
  destruct fin; reflexivity.
Qed.

Lemma frames_dec_app oc fs : forall bs rest, frames_enc fs bs -> Forall plain_frame fs -> bytes_ok rest ->
  deserialize_frames oc (bs ++ rest) = let? gs := deserialize_frames oc rest in Ok (fs ++ gs).
Proof.
  intros bs rest HE. revert rest.
  induction HE as [|f bs HE|f g fs a bs HE HR IH]; intros rest W Hr.
  - cbn [app]. destruct (deserialize_frames oc rest); reflexivity.
  - inversion W as [|? ? [P1 P2] _]; subst.
    rewrite deserialize_frames_cons.
    + rewrite (frame_dec oc _ _ _ rest HE P1 P2 Hr). reflexivity.
    + apply bytes_ok_app. eauto using frame_enc_bytes_ok.
    + apply frame_enc_nonempty in HE. destruct bs; [congruence|discriminate].
  - inversion W as [|? ? [P1 P2] W']; subst.
    assert (Hb : bytes_ok bs) by eauto using frames_enc_bytes_ok.
    assert (Hbr : bytes_ok (bs ++ rest)) by (apply bytes_ok_app; auto).
    rewrite <- app_assoc, deserialize_frames_cons.
    + rewrite (frame_dec oc _ _ _ (bs ++ rest) HE P1 P2 Hbr). cbn [bind].
      rewrite IH by auto. destruct (deserialize_frames oc rest); reflexivity.
    + apply bytes_ok_app. split; auto. eapply frame_enc_bytes_ok; eauto.
    + apply frame_enc_nonempty in HE. destruct a; [congruence|discriminate].
Qed.

(** ** Truncation *)

Lemma frame_delim oc t s x r : bytes_ok (t :: s) -> t < 64 -> in_range 0x08 0x0f t = false ->
  deserialize_frame oc (t :: s) = Ok (x, r) ->
  exists c, t :: s = c ++ r /\
            (forall c' u, c = c' ++ u -> u <> [] -> exists e, deserialize_frame oc c' = Err e).
Proof.
  intros Hs Ht NS D. rewrite frame_type_small in D by auto.
  apply bytes_ok_cons in Hs as [_ Hs].
  pose proof (delim_body oc t NS s Hs) as P. rewrite D in P.
  destruct P as [c [-> [_ P2]]]. exists (t :: c). split; [reflexivity|].
  intros c' u E NE. destruct c' as [|t' c']; [exists (InternalError "missing first byte for varint"); reflexivity|].
  injection E as <- ->. rewrite frame_type_small by auto. apply (P2 c' u); auto.
Qed.

Lemma frame_enc_type last f bs : frame_enc last f bs -> is_stream f = false ->
  exists t s, bs = t :: s /\ t < 64 /\ in_range 0x08 0x0f t = false.
Proof.
  destruct 1; intros NS; try discriminate; do 2 eexists; (split; [reflexivity|]);
    try (destruct uni; cbn [bit]); split; try reflexivity; pows; lia.
Qed.

(** The CRYPTO reader with the RFC's data length. *)
Definition crypto_q (oc : bool) : parser frame_crypto := fun s =>
  let? (offset, s) := var_int_from_stream oc s in
  let? (length, s) := var_int_from_stream oc s in
  let? (data, s) := var_bytes_from_stream length s in
  Ok (FrameCrypto offset length data, s).

Lemma frame_trunc oc last f bs c t :
  frame_enc last f bs -> is_stream f = false -> bs = c ++ t -> t <> [] ->
  exists e, deserialize_frame oc c = Err e.
Proof.
  intros HE HS EQ NE.
  pose proof (frame_enc_bytes_ok _ _ _ HE) as HB.
  destruct (frame_enc_type _ _ _ HE HS) as [ty [s [E [HT NI]]]].
  assert (D : crypto_at_zero f \/ exists x, f = Crypto x).
  { destruct f; cbn; eauto. }
  destruct D as [D|[x ->]].
  - pose proof (frame_dec oc _ _ _ [] HE HS D bytes_ok_nil) as P. rewrite app_nil_r in P.
    rewrite E in P, HB. destruct (frame_delim oc ty s f [] HB HT NI P) as [c0 [E0 T0]].
    rewrite app_nil_r in E0. apply (T0 c t); [congruence|auto].
  - clear E HT NI. remember (Crypto x) as f eqn:F.
    destruct HE as [ | | | | | |off data a b Va Vb Hd| | | | | | | | | | | | | | | ]; try discriminate.
    rename EQ into E2. clear F HS.
    destruct c as [|t0 c]; [exists (InternalError "missing first byte for varint"); reflexivity|].
    injection E2 as <- E2. rewrite frame_type_small by lia.
    change (deserialize_frame_body oc 6) with (wrap Crypto (crypto_from_datagram oc)).
    assert (DQ : delim (crypto_q oc)) by (unfold crypto_q; repeat delim_step).
    assert (Hf : bytes_ok (c ++ t)).
    { rewrite <- E2. rewrite !bytes_ok_app. eauto using varint_enc_bytes_ok. }
    assert (Q : crypto_q oc (c ++ t) = Ok (FrameCrypto off (len data) data, [])).
    { rewrite <- E2, <- (app_nil_r (a ++ b ++ data)), <- !app_assoc. unfold crypto_q. vdec. reflexivity. }
    pose proof (DQ (c ++ t) Hf) as DQ'. rewrite Q in DQ'.
    destruct DQ' as [c0 [E0 [_ T0]]]. rewrite app_nil_r in E0. subst c0.
    destruct (T0 c t eq_refl NE) as [e TE].
    assert (Hc : bytes_ok c) by (apply bytes_ok_app in Hf; tauto).
    unfold wrap. rewrite crypto_p_eq by auto.
    pose proof (tame_crypto oc c Hc) as TC. rewrite crypto_p_eq in TC by auto.
    destruct (crypto_p oc c) as [[y r]|e'|w|] eqn:EP; try contradiction; cbn [bind]; [|eauto].
    exfalso. unfold crypto_p in EP. unfold crypto_q in TE.
    destruct (var_int_from_stream oc c) as [[o r1]| | |]; try discriminate. cbn [bind] in *.
    destruct (var_int_from_stream oc r1) as [[l r2]| | |]; try discriminate. cbn [bind] in *.
    rewrite var_bytes_spec in EP, TE.
    destruct (N.leb_spec (l + o) (len r2)); [|discriminate].
    destruct (N.leb_spec l (len r2)); [discriminate|lia].
Qed.

(** ** Overflow checks never matter for frames *)

Lemma var_int_oc s : bytes_ok s -> var_int_from_stream true s = var_int_from_stream false s.
Proof.
  intros Hs. rewrite !var_int_from_stream_eq. destruct s as [|b s]; [reflexivity|].
  apply bytes_ok_cons in Hs as [Hb Hs]. rewrite !var_int_with_bytes_cons by auto. reflexivity.
Qed.

(** Two parsers that agree on byte strings. *)
Definition same {A} (p q : parser A) : Prop := forall s, bytes_ok s -> p s = q s.

Lemma same_bind {A B} w (p q : parser A) (k l : A -> parser B) :
  tame w p -> same p q -> (forall x, same (k x) (l x)) ->
  same (fun s => let? (x, r) := p s in k x r) (fun s => let? (x, r) := q s in l x r).
Proof.
  intros T H K s Hs. rewrite <- (H s Hs). specialize (T s Hs).
  destruct (p s) as [[x r]|e|v|]; try reflexivity.
  destruct T as [c [-> _]]. apply bytes_ok_app in Hs as [_ Hr]. cbn [bind]. apply K, Hr.
Qed.

Lemma same_refl {A} (p : parser A) : same p p.
Proof. intros s _. reflexivity. Qed.

Ltac same_step :=
  match goal with
  | |- same (fun s => bind (var_int_from_stream true s) _) _ =>
      refine (same_bind _ _ _ (fun x s => _) (fun x s => _) (tame_var_int true) var_int_oc _);
      intros ?; cbv beta
  | |- same ?p ?p => apply same_refl
  end.

Lemma same_ranges count : same (ack_ranges_p true count) (ack_ranges_p false count).
Proof.
  induction count as [|count IH] using N.peano_ind; [intros s _; reflexivity|].
  intros s Hs. rewrite !ack_ranges_p_S by auto. revert s Hs.
  refine (same_bind _ _ _ (fun x s => _) (fun x s => _) (tame_range true) _ _).
  - unfold ack_range_from_datagram. repeat same_step.
  - intros x. cbv beta.
    refine (same_bind _ _ _ (fun x s => _) (fun x s => _) (tame_ack_ranges true count) IH _).
    intros y. apply same_refl.
Qed.

Lemma same_wrap {A} (K : A -> frame) (p q : parser A) : same p q -> same (wrap K p) (wrap K q).
Proof. intros H s Hs. unfold wrap. rewrite (H s Hs). reflexivity. Qed.

Lemma same_body t : same (deserialize_frame_body true t) (deserialize_frame_body false t).
Proof.
  unfold deserialize_frame_body.
  repeat match goal with
  | |- same (fun s => if ?b then _ else _) _ => destruct b
  end; try (apply same_refl); apply same_wrap;
  try solve [ unfold reset_stream_from_datagram, stop_sending_from_datagram,
         new_token_from_datagram,
         max_data_from_datagram, max_stream_data_from_datagram, max_streams_from_datagram,
         data_blocked_from_datagram, stream_data_blocked_from_datagram,
         streams_blocked_from_datagram, retire_connection_id_from_datagram,
         new_connection_id_from_datagram;
         repeat same_step ].
  - unfold ack_from_datagram. do 4 same_step.
    refine (same_bind _ (ack_ranges_p true _) (ack_ranges_p false _) (fun x s => _) (fun x s => _)
             (tame_ack_ranges true _) (same_ranges _) _).
    intros rs. cbv beta. destruct (N.land t 1 =? 1); [|apply same_refl].
    intros s Hs.
    assert (E : ecn_from_datagram true s = ecn_from_datagram false s).
    { revert s Hs. unfold ecn_from_datagram. change (same (fun s =>
        let? (a2, s0) := var_int_from_stream true s in
        let? (b, s1) := var_int_from_stream true s0 in
        let? (c, s2) := var_int_from_stream true s1 in
        Ok (EcnCounts a2 b c, s2)) (fun s =>
        let? (a2, s0) := var_int_from_stream false s in
        let? (b, s1) := var_int_from_stream false s0 in
        let? (c, s2) := var_int_from_stream false s1 in
        Ok (EcnCounts a2 b c, s2))). repeat same_step. }
    rewrite E. reflexivity.
  - intros s Hs. rewrite !crypto_p_eq by auto. revert s Hs. unfold crypto_p.
    refine (same_bind _ _ _ (fun x s => _) (fun x s => _) (tame_var_int true) var_int_oc _);
      intros ?; cbv beta.
    repeat same_step.
  - intros s Hs. rewrite !stream_from_datagram_eq. rewrite var_int_oc by auto. reflexivity.
  - unfold connection_close_from_datagram. same_step.
    destruct (N.land t 1 =? 1); cbn [negb bind]; [repeat same_step|].
    refine (same_bind (fun _ => 0) _ _ (fun x s => _) (fun x s => _) _ _ _).
    + refine (tame_bind (fun _ => 0) _ _ (fun x s => _) _ _); [apply delim_tame, delim_var_int|].
      intros e. apply tame_ret. cbv beta. lia.
    + repeat same_step.
    + intros y. cbv beta. repeat same_step.
Qed.

Lemma same_frame : same (deserialize_frame true) (deserialize_frame false).
Proof. unfold deserialize_frame. same_step. apply same_body. Qed.

Lemma deserialize_frames_oc s : bytes_ok s -> deserialize_frames true s = deserialize_frames false s.
Proof.
  remember (length s) as n eqn:Hn. revert s Hn.
  induction n as [n IH] using lt_wf_ind. intros s Hn Hs.
  destruct s as [|b s]; [reflexivity|].
  rewrite !deserialize_frames_cons by (auto; discriminate).
  rewrite (same_frame (b :: s) Hs).
  pose proof (tame_frame false (b :: s) Hs) as T.
  destruct (deserialize_frame false (b :: s)) as [[x r]|e|v|]; try reflexivity.
  destruct T as [c [E W]]. rewrite E in *. apply bytes_ok_app in Hs as [_ Hr].
  pose proof (frame_weight_pos x).
  assert (LC : (1 <= length c)%nat) by (unfold len in W; lia).
  rewrite app_length in Hn. cbn [bind]. rewrite (IH (length r)); auto; lia.
Qed.

Lemma body_unknown oc t s : 0x1e < t ->
  deserialize_frame_body oc t s = Err (InternalError "Invalid type byte").
Proof.
  intros H. unfold deserialize_frame_body, in_range.
  repeat match goal with
  | |- context [t =? ?b] =>
      replace (t =? b) with false by (symmetry; apply N.eqb_neq; lia)
  | |- context [t <=? ?b] =>
      replace (t <=? b) with false by (symmetry; apply N.leb_gt; lia)
  end. rewrite !andb_false_r. reflexivity.
Qed.
