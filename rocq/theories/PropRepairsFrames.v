(** C65, C66, C67, C71, C83 and C88 can be met together: the frame decoder of
    PropRepairs.v, which reads the layout of RFC 9000, with the checks of section
    19 behind it, and a constructor of NEW_CONNECTION_ID frames that is told the
    length of the id.  None of these functions is the code; what the code does:
    PropFrameSound.v, PropCoalesce.v, PropBuilt.v. *)
From Verif Require Import Base Utils Frame Constructors Spec Tactics UtilsFacts ParserFacts FrameFacts
  PropFrame PropFrameSound PropBuilt PropRepairs.
From Coq Require Import Lia ZifyN ZifyBool ZifyNat.
Open Scope N_scope.

Fixpoint ranges_ok (smallest : N) (rs : list ack_range) : bool :=
  match rs with
  | [] => true
  | r :: rs => (gap r + 2 + ack_range_length r <=? smallest) &&
               ranges_ok (smallest - (gap r + 2 + ack_range_length r)) rs
  end.
Definition frame_allowed (f : frame) : bool :=
  match f with
  | Ack x => (first_ack_range x <=? largest_acknowledged x) &&
             ranges_ok (largest_acknowledged x - first_ack_range x) (ack_ranges x)
  | NewConnectionId x => nc_retire_prior_to x <=? nc_sequence_number x
  | MaxStreams x => ms_maximum_streams x <=? 2 ^ 60
  | StreamsBlocked x => sb_maximum_streams x <=? 2 ^ 60
  | NewToken x => negb (nt_token_length x =? 0)
  | _ => true
  end.
Definition frame_checked (oc : bool) : parser frame := fun s =>
  let? (f, s) := frame_repaired oc s in
  if frame_allowed f then Ok (f, s) else Err (InternalError "frame encoding error").
Fixpoint frames_checked_loop (oc : bool) (fuel : nat) (s : stream) : outcome (list frame) :=
  match s with
  | [] => Ok []
  | _ :: _ =>
      match fuel with
      | O => Diverge
      | S f =>
          let? (x, s') := frame_checked oc s in
          let? xs := frames_checked_loop oc f s' in
          Ok (x :: xs)
      end
  end.
Definition frames_checked (oc : bool) (s : stream) : outcome (list frame) :=
  frames_checked_loop oc (S (length s)) s.

(** What RFC 9000 asks of a frame beyond its layout. *)
Definition rfc_valid (f : frame) : Prop :=
  match f with
  | Ack x => ack_valid x
  | NewConnectionId x => nc_retire_prior_to x <= nc_sequence_number x
  | _ => sensible f
  end.

Lemma ranges_ok_iff rs : forall n, ranges_ok n rs = true <-> ranges_valid n rs.
Proof.
  induction rs as [|[g l] rs IH]; intros n; cbn [ranges_ok ranges_valid gap ack_range_length]; [tauto|].
  rewrite andb_true_iff, N.leb_le, IH. replace (n - (g + 2 + l)) with (n - g - 2 - l) by lia. tauto.
Qed.
Lemma allowed_iff last f bs : frame_enc last f bs -> frame_allowed f = true <-> rfc_valid f.
Proof.
  intros F. destruct f; cbn; try tauto; try apply N.leb_le.
  - unfold ack_valid. rewrite andb_true_iff, N.leb_le, ranges_ok_iff. tauto.
  - inversion F; subst. cbn. rewrite negb_true_iff, N.eqb_neq.
    match goal with |- len ?d <> 0 <-> _ => destruct d end; [cbn; intuition congruence|].
    rewrite len_cons. split; [discriminate|lia].
Qed.

(** Accepted are exactly the frames of RFC 9000 section 19 that meet what it asks
    of their values. *)
Theorem C65_C66_C67_repaired : forall oc s f rest, bytes_ok s ->
  frame_checked oc s = Ok (f, rest) <->
  (exists t tb body last, s = tb ++ body ++ rest /\ varint_enc t tb /\ frame_enc last f (t :: body) /\
     (last = true -> rest = [])) /\ rfc_valid f.
Proof.
  intros oc s f rest B. unfold frame_checked. split.
  - intros H. apply bind_ok in H as [[g r] [E H]]. cbn beta iota in H.
    destruct (frame_allowed g) eqn:A; [|discriminate H]. injection H as -> ->.
    apply C68_repaired in E; [|exact B]. split; [exact E|].
    destruct E as [t [tb [body [last [_ [_ [F _]]]]]]]. apply (allowed_iff _ _ _ F). exact A.
  - intros [E V]. pose proof E as [t [tb [body [last [_ [_ [F _]]]]]]].
    apply (C68_repaired oc s f rest B) in E. rewrite E. cbn [bind].
    apply (allowed_iff _ _ _ F) in V. rewrite V. reflexivity.
Qed.
Print Assumptions C65_C66_C67_repaired.

Theorem C65_repaired : forall oc s x rest, bytes_ok s ->
  frame_checked oc s = Ok (Ack x, rest) -> ack_range_count x = len (ack_ranges x) /\ ack_valid x.
Proof.
  intros oc s x rest B H. apply C65_C66_C67_repaired in H as [[t [tb [body [last [_ [_ [F _]]]]]]] V]; [|exact B].
  split; [|exact V]. inversion F; reflexivity.
Qed.
Print Assumptions C65_repaired.

Theorem C66_repaired : forall oc s x rest, bytes_ok s ->
  frame_checked oc s = Ok (NewConnectionId x, rest) ->
  1 <= nc_length x <= 20 /\ cid_val (nc_connection_id x) < 256 ^ nc_length x /\
  nc_retire_prior_to x <= nc_sequence_number x.
Proof.
  intros oc s x rest B H. apply C65_C66_C67_repaired in H as [[t [tb [body [last [_ [_ [F _]]]]]]] V]; [|exact B].
  inversion F; subst. cbn in V |- *.
  match goal with C : cid_enc _ _ _ |- _ => rename C into CE end. split; [auto|]. split; [|exact V]. destruct CE as [_ [Bc [Lc Vc]]]. rewrite <- Vc, <- Lc. apply be_val_bound; auto.
Qed.
Print Assumptions C66_repaired.

Theorem C67_repaired : forall oc s f rest, bytes_ok s -> frame_checked oc s = Ok (f, rest) -> sensible f.
Proof.
  intros oc s f rest B H. apply C65_C66_C67_repaired in H as [_ V]; [|exact B].
  destruct f; try exact V; exact Logic.I.
Qed.
Print Assumptions C67_repaired.
Example C65_C66_C67_repaired_case :
  frame_checked true [0x02; 30; 0; 1; 4; 9; 9] = Ok (Ack (FrameAck 30 0 1 4 [AckRange 9 9] None), []) /\
  (exists e, frame_checked true [0x02; 3; 0; 1; 4; 9; 9] = Err e) /\
  (exists e, frame_checked true ([0x18; 1; 2; 1; 9] ++ repeat 0 16) = Err e) /\
  (exists e, frame_checked true [0x07; 0; 1] = Err e) /\
  frame_checked true [0x07; 1; 0; 1] = Ok (NewToken (FrameNewToken 1 [0]), [1]).
Proof. repeat split; try (eexists; reflexivity). Qed.

(** ** C83: payloads of frames that say where they end are read one by one. *)
Lemma checked_shorter oc s f rest : bytes_ok s -> frame_checked oc s = Ok (f, rest) ->
  bytes_ok rest /\ (length rest < length s)%nat.
Proof.
  intros B H. apply C65_C66_C67_repaired in H as [[t [tb [body [last [-> [V _]]]]]] _]; [|exact B].
  apply bytes_ok_app in B as [_ B]. apply bytes_ok_app in B as [_ B]. split; [exact B|].
  apply varint_enc_nonempty in V. unfold len in V. rewrite !app_length. lia.
Qed.
Lemma checked_fuel oc n : forall s f g, bytes_ok s -> (length s <= n)%nat -> (length s <= f)%nat -> (length s <= g)%nat ->
  frames_checked_loop oc f s = frames_checked_loop oc g s.
Proof.
  induction n as [|n IH]; intros s f g B L Lf Lg.
  - destruct s; [destruct f, g; reflexivity|cbn in L; lia].
  - destruct s as [|y s]; [destruct f, g; reflexivity|]. destruct f as [|f]; [cbn in Lf; lia|].
    destruct g as [|g]; [cbn in Lg; lia|]. cbn [frames_checked_loop].
    destruct (frame_checked oc (y :: s)) as [[x r]| | |] eqn:E; cbn [bind]; try reflexivity.
    destruct (checked_shorter _ _ _ _ B E) as [Br Lr]. rewrite (IH r f g); auto; lia.
Qed.
Lemma checked_part oc f part b : frame_enc false f part -> bytes_ok b -> rfc_valid f ->
  frame_checked oc (part ++ b) = Ok (f, b).
Proof.
  intros F B V. pose proof (frame_enc_bytes_ok _ _ _ F) as Bp.
  assert (T : exists t body, part = t :: body /\ t <= 0x1e).
  { destruct F; do 2 eexists; (split; [reflexivity|]); try lia; try (destruct uni; cbn [bit]; lia).
    destruct o, l, fin; cbn [bit]; lia. }
  destruct T as [t [body [-> Ht]]]. apply C65_C66_C67_repaired; [apply bytes_ok_app; auto|]. split; [|exact V].
  exists t, [t], body, false. split; [reflexivity|]. split; [apply varint_enc_small; lia|]. split; [exact F|discriminate].
Qed.
Lemma checked_part_inv oc f part b g r : frame_enc false f part -> bytes_ok b ->
  frame_checked oc (part ++ b) = Ok (g, r) -> rfc_valid f.
Proof.
  intros F B H. pose proof (frame_enc_bytes_ok _ _ _ F) as Bp.
  assert (T : exists t body, part = t :: body /\ t <= 0x1e).
  { destruct F; do 2 eexists; (split; [reflexivity|]); try lia; try (destruct uni; cbn [bit]; lia).
    destruct o, l, fin; cbn [bit]; lia. }
  destruct T as [t [body [-> Ht]]]. unfold frame_checked in H.
  assert (E : frame_repaired oc ((t :: body) ++ b) = Ok (f, b)).
  { apply C68_repaired; [apply bytes_ok_app; auto|].
    exists t, [t], body, false. split; [reflexivity|]. split; [apply varint_enc_small; lia|]. split; [exact F|discriminate]. }
  rewrite E in H. cbn [bind] in H. destruct (frame_allowed f) eqn:A; [|discriminate H].
  apply (allowed_iff _ _ _ F). exact A.
Qed.
Lemma checked_cons oc part b f : frame_enc false f part -> bytes_ok b -> rfc_valid f ->
  frames_checked oc (part ++ b) = let? fs := frames_checked oc b in Ok (f :: fs).
Proof.
  intros F B V. pose proof (checked_part oc f part b F B V) as E. pose proof (frame_enc_bytes_ok _ _ _ F) as Bp.
  unfold frames_checked. cbn [frames_checked_loop].
  destruct (part ++ b) as [|y s] eqn:Es.
  { apply app_eq_nil in Es as [-> _]. inversion F. }
  rewrite E. cbn [bind].
  assert (L : (length b <= length s)%nat).
  { assert (len part <> 0) by (inversion F; rewrite len_cons; lia).
    apply (f_equal (@length N)) in Es. rewrite app_length in Es. cbn [length] in Es. unfold len in *. lia. }
  rewrite (checked_fuel oc (length b) b (length (y :: s)) (S (length b))) by (auto; cbn [length]; lia). reflexivity.
Qed.

Theorem C83_repaired : forall oc sent parts b fs,
  Forall2 (frame_enc false) sent parts -> bytes_ok b -> frames_checked oc (concat parts) = Ok fs ->
  fs = sent /\ frames_checked oc (concat parts ++ b) = let? gs := frames_checked oc b in Ok (fs ++ gs).
Proof.
  intros oc sent parts b fs F2 B. revert fs. induction F2 as [|f part sent parts F F2 IH]; intros fs H.
  - injection H as <-. split; [reflexivity|]. cbn [concat app]. destruct (frames_checked oc b); reflexivity.
  - cbn [concat] in *.
    assert (Bc : bytes_ok (concat parts)).
    { clear - F2. induction F2 as [|? ? ? ? F _ IH]; cbn [concat]; [constructor|]. apply bytes_ok_app.
      split; [eapply frame_enc_bytes_ok; eauto|exact IH]. }
    assert (V : rfc_valid f).
    { unfold frames_checked in H. cbn [frames_checked_loop] in H.
      destruct (part ++ concat parts) as [|y s] eqn:Es; [apply app_eq_nil in Es as [-> _]; inversion F|].
      apply bind_ok in H as [[g r] [E _]]. rewrite <- Es in E. eapply checked_part_inv; eauto. }
    rewrite (checked_cons oc part (concat parts) f F Bc V) in H. apply bind_ok in H as [fs' [E H]]. injection H as <-.
    destruct (IH fs' E) as [-> G]. split; [reflexivity|].
    rewrite <- app_assoc, (checked_cons oc part (concat parts ++ b) f F) by (auto; apply bytes_ok_app; auto).
    rewrite G. destruct (frames_checked oc b); reflexivity.
Qed.
Print Assumptions C83_repaired.
Example C83_repaired_case :
  frames_checked true ([0x0a; 4; 1; 7] ++ [1; 0x06; 2; 1; 9; 0x0a; 4; 1; 7]) =
    Ok [Stream (FrameStream 4 0 1 [7] false); Ping; Crypto (FrameCrypto 2 1 [9]); Stream (FrameStream 4 0 1 [7] false)].
Proof. reflexivity. Qed.

(** Accepted payloads are exactly the sequences of such frames. *)
Inductive payload_enc : list frame -> list N -> Prop :=
| pe_nil : payload_enc [] []
| pe_cons : forall f fs t tb body rest last,
    varint_enc t tb -> frame_enc last f (t :: body) -> (last = true -> rest = []) -> payload_enc fs rest ->
    payload_enc (f :: fs) (tb ++ body ++ rest).
Theorem payload_checked : forall oc s fs, bytes_ok s ->
  frames_checked oc s = Ok fs <-> payload_enc fs s /\ Forall rfc_valid fs.
Proof.
  intros oc s fs B. unfold frames_checked. assert (L : (length s <= S (length s))%nat) by lia.
  revert L fs. generalize (S (length s)) as fuel. intros fuel. revert s B.
  induction fuel as [|fuel IH]; intros s B L fs.
  - destruct s; [|cbn in L; lia]. cbn [frames_checked_loop]. split.
    + intros E. injection E as <-. split; constructor.
    + intros [E _]. remember [] as z eqn:Ez in E. destruct E as [|? ? ? ? ? ? ? V]; [reflexivity|].
      apply varint_enc_nonempty in V. destruct tb; [exfalso; change (len (@nil N)) with 0 in V; lia|discriminate Ez].
  - destruct s as [|y s].
    + cbn [frames_checked_loop]. split.
      * intros E. injection E as <-. split; constructor.
      * intros [E _]. remember [] as z eqn:Ez in E. destruct E as [|? ? ? ? ? ? ? V]; [reflexivity|].
        apply varint_enc_nonempty in V. destruct tb; [exfalso; change (len (@nil N)) with 0 in V; lia|discriminate Ez].
    + cbn [frames_checked_loop]. split.
      * intros H. apply bind_ok in H as [[f r] [E H]]. apply bind_ok in H as [gs [Eg H]]. injection H as <-.
        destruct (checked_shorter _ _ _ _ B E) as [Br Lr]. apply IH in Eg as [Pg Vg]; [|auto|cbn in *; lia].
        apply C65_C66_C67_repaired in E as [[t [tb [body [last [-> [V [F Q]]]]]]] Vf]; [|exact B].
        split; [|constructor; auto]. econstructor; eauto.
      * intros [E V]. remember (y :: s) as z eqn:Ez. destruct E as [|f fs t tb body rest last Vt F Q Ps]; [discriminate Ez|].
        inversion V as [|? ? Vf Vs]; subst.
        assert (E : frame_checked oc (tb ++ body ++ rest) = Ok (f, rest)).
        { apply C65_C66_C67_repaired; [exact B|]. split; [|exact Vf]. exists t, tb, body, last. auto. }
        destruct (checked_shorter _ _ _ _ B E) as [Br Lr]. rewrite E. cbn [bind].
        rewrite (proj2 (IH rest Br ltac:(lia) fs)) by auto. reflexivity.
Qed.
Print Assumptions payload_checked.

(** Among them is every payload of the layout of Spec.v. *)
Lemma frames_enc_payload fs s : frames_enc fs s -> payload_enc fs s.
Proof.
  revert s. induction fs as [|f fs IH]; intros s F.
  - inversion F; subst. constructor.
  - apply frames_enc_app_cons in F as [t [body [s' [last [-> [F [Fs [Ht Q]]]]]]]].
    change (t :: body ++ s') with ([t] ++ body ++ s'). econstructor; eauto. apply varint_enc_small. lia.
Qed.
Theorem payload_read : forall oc fs s, frames_enc fs s -> Forall rfc_valid fs -> frames_checked oc s = Ok fs.
Proof.
  intros oc fs s F V. apply payload_checked; [eapply frames_enc_bytes_ok; eauto|]. split; [|exact V].
  apply frames_enc_payload. exact F.
Qed.
Print Assumptions payload_read.
Example payload_checked_case :
  frames_checked true [0x40; 1; 0x0e; 4; 2; 1; 7; 0; 0x09; 4; 8; 8] =
    Ok [Ping; Stream (FrameStream 4 2 1 [7] false); Padding; Stream (FrameStream 4 0 2 [8; 8] true)] /\
  (exists e, frames_checked true [1; 0x19] = Err e) /\ (exists e, frames_checked true [1; 0x07; 0] = Err e).
Proof. split; [reflexivity|split; eexists; reflexivity]. Qed.

(** ** C71 and C88, with a constructor that is told the length of the id
    (frame.rs:561-574 sets 8). *)
Definition new_connection_id_repaired (seq retire : N) (cid : u160) (l token : N) : frame_new_connection_id :=
  FrameNewConnectionId seq retire l cid token.
Inductive built_repaired : frame -> Prop :=
| br_new_id a b cid l t : u64 a -> u64 b -> cid_ok cid -> 1 <= l <= 20 -> cid_val cid < 256 ^ l -> t < 2 ^ 128 ->
    built_repaired (NewConnectionId (new_connection_id_repaired a b cid l t))
| br_other f : built f -> (forall x, f <> NewConnectionId x) -> built_repaired f.

Theorem C71_repaired : forall seq retire cid l token,
  v62 seq -> v62 retire -> cid_ok cid -> 1 <= l <= 20 -> cid_val cid < 256 ^ l -> token < 2 ^ 128 ->
  frame_wf (NewConnectionId (new_connection_id_repaired seq retire cid l token)) /\
  nc_connection_id (new_connection_id_repaired seq retire cid l token) = cid /\
  nc_length (new_connection_id_repaired seq retire cid l token) = l.
Proof. intros. split; [|split; reflexivity]. cbn. auto 10. Qed.
Print Assumptions C71_repaired.
Example C71_repaired_case :
  (let? bs := frame_to_bytes (NewConnectionId (new_connection_id_repaired 1 0 (U160 7 9) 20 3)) false in frame_checked true bs) =
    Ok (NewConnectionId (FrameNewConnectionId 1 0 20 (U160 7 9) 3), []).
Proof. reflexivity. Qed.

Theorem C88_repaired : forall oc f last bs rest, built_repaired f -> bytes_ok rest -> (last = true -> rest = []) ->
  frame_to_bytes f last = Ok bs -> frame_repaired oc (bs ++ rest) = Ok (f, rest).
Proof.
  intros oc f last bs rest BR R Q E.
  assert (F : frame_enc last f bs).
  { destruct BR as [a b cid l t Ha Hb C L V T|f Bf NN].
    - cbn [frame_to_bytes] in E. unfold new_connection_id_to_bytes in E. cbn in E.
      destruct (var_cases a) as [[ab [Ea Va]]|[Ea _]]; [|rewrite Ea in E; discriminate E].
      destruct (var_cases b) as [[bb [Eb Vb]]|[Eb _]]; [|rewrite Ea, Eb in E; discriminate E].
      destruct (C71_repaired a b cid l t Va Vb C L V T) as [W _].
      destruct (C13_encoder_rfc_layout _ last W) as [bs' [E' F]]. cbn [frame_to_bytes] in E'.
      unfold new_connection_id_to_bytes in E'. cbn in E'. rewrite E in E'. injection E' as <-. exact F.
    - destruct (C88_refused f last Bf) as [[N _]|[_ E']]; [|congruence].
      destruct (is_stream f) eqn:S.
      + destruct Bf; try discriminate S. cbn [frame_to_bytes] in E. unfold stream_to_bytes, stream_new in E. cbn in E.
        destruct (var_cases a) as [[ab [Ea Va]]|[Ea _]]; rewrite Ea in E; [|discriminate E]. cbn [bind] in E.
        destruct (encode_var_int_ok a Va) as [ab' [Ea' [Ve _]]]. assert (ab' = ab) as -> by congruence.
        destruct last; cbn [negb bind] in E.
        * injection E as <-. destruct fin; [apply (enc_stream true a 0 d true false false ab [] [])|apply (enc_stream true a 0 d false false false ab [] [])]; auto.
        * destruct (var_cases (len d)) as [[lb [El Vl]]|[El _]]; rewrite El in E; [|discriminate E]. cbn [bind] in E.
          destruct (encode_var_int_ok (len d) Vl) as [lb' [El' [Vle _]]]. assert (lb' = lb) as -> by congruence.
          injection E as <-. destruct fin; [apply (enc_stream false a 0 d true false true ab [] lb)|apply (enc_stream false a 0 d false false true ab [] lb)]; auto.
      + assert (W : frame_wf f).
        { apply built_wf; auto; [|destruct f; try exact N; discriminate S].
          destruct f; try exact Logic.I. exfalso. eapply NN; reflexivity. }
        destruct (C13_encoder_rfc_layout f last W) as [bs' [E' F]]. congruence. }
  assert (T : exists t body, bs = t :: body /\ t <= 0x1e).
  { clear -F. destruct F; do 2 eexists; (split; [reflexivity|]); try lia; try (destruct uni; cbn [bit]; lia).
    destruct o, l, fin; cbn [bit]; lia. }
  destruct T as [t [body [-> Ht]]].
  apply C68_repaired; [apply bytes_ok_app; split; [eapply frame_enc_bytes_ok; eauto|exact R]|].
  exists t, [t], body, last. split; [reflexivity|]. split; [apply varint_enc_small; lia|]. split; [exact F|exact Q].
Qed.
Print Assumptions C88_repaired.
Example C88_repaired_case :
  built_repaired (Stream (stream_new 4 [7] false)) /\
  frame_repaired true ([0x0a; 4; 1; 7] ++ [1]) = Ok (Stream (stream_new 4 [7] false), [1]).
Proof.
  split; [|reflexivity]. apply br_other; [|discriminate]. constructor; [reflexivity|apply bytes_ok_dec; reflexivity].
Qed.
