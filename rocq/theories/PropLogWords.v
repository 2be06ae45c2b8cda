(** C135: the log shows every number and flag under its name. *)
From Coq Require Import Lia DecimalNat DecimalN DecimalFacts.
From Verif Require Import Base Utils Frame CipherSuite Secrets Connection Packet Printing Routing Threads
  Spec SpecPacket SpecRouting Tactics RoutingFacts RoutingSafe SoloFacts SampleRuns CryptoInst LogText LogTextFacts PropLogText.
Local Open Scope char_scope.
Local Open Scope list_scope.

(** ** What a reader of the log looks for *)
Definition inside (a t : text) : Prop := exists l r, t = l ++ a ++ r.

(** A number in decimal, without leading zeros. *)
Definition digit (c : ascii) : N := N_of_ascii c - 48.
Definition decimal (n : N) (t : text) : Prop :=
  t <> [] /\ Forall (fun c => (48 <= N_of_ascii c <= 57)%N) t /\
  fold_left (fun a c => (10 * a + digit c)%N) t 0%N = n /\ (forall u, t = "0" :: u -> u = []).

(** Things one after the other, with commas between them. *)
Inductive listed {A} (says : A -> text -> Prop) : list A -> text -> Prop :=
| l_none : listed says [] []
| l_one : forall x t, says x t -> listed says [x] t
| l_more : forall x y l t u, says x t -> listed says (y :: l) u -> listed says (x :: y :: l) (t ++ "," :: " " :: u).

(** "name: value" as a whole: a space in front, a comma or a space behind. *)
Definition labelled (name : string) (value t : text) : Prop :=
  exists l c r, t = l ++ " " :: chars name ++ ":" :: " " :: value ++ c :: r /\ (c = "," \/ c = " ").
Definition number_at (name : string) (n : N) (t : text) : Prop := exists v, labelled name v t /\ decimal n v.
Definition bytes_at (name : string) (l : list N) (t : text) : Prop :=
  exists v, labelled name ("[" :: v ++ ["]"]) t /\ listed decimal l v.
Definition flag_at (name : string) (b : bool) (t : text) : Prop :=
  labelled name (chars (if b then "true" else "false")) t.
(** A connection id is shown as the two halves of its 160 bits. *)
Definition id_at (name : string) (x : u160) (t : text) : Prop :=
  exists v, labelled name v t /\ number_at "idx0" (idx0 x) v /\ number_at "idx1" (idx1 x) v.

(** What is said about a frame. *)
Definition frame_says (f : frame) (t : text) : Prop :=
  match f with
  | Padding => t = chars "Padding"
  | Ping => t = chars "Ping"
  | HandshakeDone => t = chars "HandshakeDone"
  | Ack x => inside (chars "Ack(") t /\ number_at "largest_acknowledged" (largest_acknowledged x) t /\ number_at "ack_delay" (ack_delay x) t /\
      number_at "ack_range_count" (ack_range_count x) t /\ number_at "first_ack_range" (first_ack_range x) t /\
      (exists v, labelled "ack_range" ("[" :: v ++ ["]"]) t /\
         listed (fun r u => number_at "gap" (gap r) u /\ number_at "ack_range_length" (ack_range_length r) u) (ack_ranges x) v) /\
      (ack_ecn x = None -> labelled "ecn_counts" (chars "None") t) /\
      (forall e, ack_ecn x = Some e -> number_at "ect0_count" (ect0_count e) t /\ number_at "ect1_count" (ect1_count e) t /\ number_at "ecn_ce_count" (ecn_ce_count e) t)
  | ResetStream x => inside (chars "ResetStream(") t /\ number_at "stream_id" (rs_stream_id x) t /\
      number_at "application_protocol_error_code" (rs_error_code x) t /\ number_at "final_size" (rs_final_size x) t
  | StopSending x => inside (chars "StopSending(") t /\ number_at "stream_id" (ss_stream_id x) t /\ number_at "application_protocol_error_code" (ss_error_code x) t
  | Crypto x => inside (chars "Crypto(") t /\ number_at "offset" (cr_offset x) t /\ number_at "length" (cr_length x) t /\ bytes_at "crypto_data" (crypto_data x) t
  | NewToken x => inside (chars "NewToken(") t /\ number_at "token_length" (nt_token_length x) t /\ bytes_at "token" (nt_token x) t
  | Stream x => inside (chars "Stream(") t /\ number_at "stream_id" (st_stream_id x) t /\ number_at "offset" (st_offset x) t /\
      number_at "length" (st_length x) t /\ bytes_at "stream_data" (st_data x) t /\ flag_at "is_fin" (st_is_fin x) t
  | MaxData x => inside (chars "MaxData(") t /\ number_at "maximum_data" (md_maximum_data x) t
  | MaxStreamData x => inside (chars "MaxStreamData(") t /\ number_at "stream_id" (msd_stream_id x) t /\ number_at "maximum_stream_data" (msd_maximum_stream_data x) t
  | MaxStreams x => inside (chars "MaxStreams(") t /\ number_at "maximum_streams" (ms_maximum_streams x) t /\ flag_at "is_unidirectional" (ms_is_unidirectional x) t
  | DataBlocked x => inside (chars "DataBlocked(") t /\ number_at "maximum_data" (db_maximum_data x) t
  | StreamDataBlocked x => inside (chars "StreamDataBlocked(") t /\ number_at "stream_id" (sdb_stream_id x) t /\ number_at "maximum_stream_data" (sdb_maximum_stream_data x) t
  | StreamsBlocked x => inside (chars "StreamsBlocked(") t /\ number_at "maximum_streams" (sb_maximum_streams x) t /\
      flag_at "is_unidirectional_limit" (sb_is_unidirectional_limit x) t
  | NewConnectionId x => inside (chars "NewConnectionId(") t /\ number_at "sequence_number" (nc_sequence_number x) t /\ number_at "retire_prior_to" (nc_retire_prior_to x) t /\
      number_at "length" (nc_length x) t /\ id_at "connection_id" (nc_connection_id x) t /\ number_at "stateless_reset_token" (nc_stateless_reset_token x) t
  | RetireConnectionId x => inside (chars "RetireConnectionId(") t /\ number_at "sequence_number" (rc_sequence_number x) t
  | PathChallenge x => inside (chars "PathChallenge(") t /\ number_at "data" (pc_data x) t
  | PathResponse x => inside (chars "PathResponse(") t /\ number_at "data" (pr_data x) t
  | ConnectionClose x => inside (chars "ConnectionClose(") t /\ number_at "error_code" (cc_error_code x) t /\ number_at "reason_phrase_length" (cc_reason_phrase_length x) t /\
      bytes_at "reason_phrase" (cc_reason_phrase x) t /\ flag_at "is_application_error" (cc_is_application_error x) t /\
      (cc_frame_type x = None -> labelled "frame_type" (chars "None") t) /\
      (forall n, cc_frame_type x = Some n -> exists v, labelled "frame_type" (chars "Some(" ++ v ++ [")"]) t /\ decimal n v)
  end.

(** What is said about a header and about a packet. *)
Definition long_says (h : long_header) (t : text) : Prop :=
  number_at "header_byte" (lh_byte h) t /\ number_at "version" (lh_version h) t /\
  number_at "destination_connection_id_length" (lh_dcid_len h) t /\ id_at "destination_connection_id" (lh_dcid h) t /\
  number_at "source_connection_id_length" (lh_scid_len h) t /\ id_at "source_connection_id" (lh_scid h) t /\
  flag_at "is_protected" (lh_protected h) t /\
  (lh_vn h = None -> labelled "version_negotiation" (chars "None") t) /\
  (forall v, lh_vn h = Some v -> exists u, labelled "version_negotiation" u t /\
     bytes_at "destination_connection_id" (vn_dcid v) u /\ bytes_at "source_connection_id" (vn_scid v) u).
Definition short_says (h : short_header) (t : text) : Prop :=
  number_at "header_byte" (sh_byte h) t /\ id_at "destination_connection_id" (sh_dcid h) t /\ flag_at "is_protected" (sh_protected h) t.
Definition header_says (h : packet_header) (t : text) : Prop :=
  match h with
  | HLong x => inside (chars "Long(") t /\ long_says x t
  | HShort x => inside (chars "Short(") t /\ short_says x t
  end.
Definition payload_says (fs : list frame) (t : text) : Prop :=
  exists v, labelled "packet_payload" ("[" :: v ++ ["]"]) t /\ listed frame_says fs v.
Definition packet_says (p : packet) (t : text) : Prop :=
  match p with
  | PVersionNegotiation x => inside (chars "VersionNegotiation(") t /\ (exists v, labelled "header" v t /\ long_says (vn_header x) v) /\
      bytes_at "supported_versions" (supported_versions x) t
  | PInitial x => inside (chars "Initial(") t /\ (exists v, labelled "header" v t /\ long_says (pi_header x) v) /\ bytes_at "token" (pi_token x) t /\
      number_at "packet_number" (pi_pn x) t /\ bytes_at "packet_number_bytes" (pi_pn_bytes x) t /\ payload_says (pi_payload x) t
  | PZeroRtt x => inside (chars "ZeroRtt(") t /\ (exists v, labelled "header" v t /\ long_says (pz_header x) v) /\ number_at "length" (pz_length x) t /\
      number_at "packet_number" (pz_pn x) t /\ bytes_at "packet_number_bytes" (pz_pn_bytes x) t /\ payload_says (pz_payload x) t
  | PHandshake x => inside (chars "Handshake(") t /\ (exists v, labelled "header" v t /\ long_says (ph_header x) v) /\
      number_at "packet_number" (ph_pn x) t /\ bytes_at "packet_number_bytes" (ph_pn_bytes x) t /\ payload_says (ph_payload x) t
  | PRetry x => inside (chars "Retry(") t /\ number_at "version" (pr_version x) t /\
      number_at "destination_connection_id_length" (pr_dcid_len x) t /\ id_at "destination_connection_id" (pr_dcid x) t /\
      number_at "source_connection_id_length" (pr_scid_len x) t /\ id_at "source_connection_id" (pr_scid x) t /\
      bytes_at "retry_token" (pr_token x) t /\ number_at "retry_integrity_tag" (pr_integrity_tag x) t
  | POneRtt x => inside (chars "OneRtt(") t /\ (exists v, labelled "header" v t /\ short_says (po_header x) v) /\
      number_at "packet_number" (po_pn x) t /\ bytes_at "packet_number_bytes" (po_pn_bytes x) t /\ payload_says (po_payload x) t
  end.

(** ** Numbers *)
Definition value (a : N) (t : text) : N := fold_left (fun a c => (10 * a + digit c)%N) t a.
Lemma value_acc u : forall p, value (Npos p) (digits u) = Npos (Pos.of_uint_acc u p).
Proof.
  unfold value. induction u as [|u IH|u IH|u IH|u IH|u IH|u IH|u IH|u IH|u IH|u IH]; intros p; [reflexivity|..];
    cbn [digits fold_left Pos.of_uint_acc]; rewrite <- IH;
    (match goal with |- context [digit ?c] => let d := eval vm_compute in (digit c) in change (digit c) with d end); f_equal; lia.
Qed.
Lemma value_digits u : value 0 (digits u) = N.of_uint u.
Proof.
  unfold N.of_uint. induction u as [|u IH|u IH|u IH|u IH|u IH|u IH|u IH|u IH|u IH|u IH]; [reflexivity|exact IH|..];
    cbn [Pos.of_uint]; rewrite <- value_acc; reflexivity.
Qed.
Lemma number_decimal n : decimal n (number n).
Proof.
  unfold decimal. split; [|split; [|split]].
  - destruct (number_head n) as [c [l [E _]]]. rewrite E. discriminate.
  - apply Forall_forall. intros c H. pose proof (digits_digit (N.to_uint n)) as D. rewrite forallb_forall in D. specialize (D _ H).
    assert (A : forallb (fun c => negb (is_digit c) || ((48 <=? N_of_ascii c) && (N_of_ascii c <=? 57))%N) all_chars = true) by (vm_compute; reflexivity).
    rewrite forallb_forall in A. specialize (A c (all_chars_in c)). rewrite D in A. cbn [negb orb] in A.
    apply andb_prop in A as [A B]. apply N.leb_le in A. apply N.leb_le in B. auto.
  - change (value 0 (number n) = n). unfold number. rewrite value_digits. apply DecimalN.Unsigned.of_to.
  - intros u E. unfold number in E.
    assert (Z : N.to_uint n = Decimal.unorm (N.to_uint n)) by (rewrite <- DecimalN.Unsigned.to_of, DecimalN.Unsigned.of_to; reflexivity).
    destruct (N.to_uint n) as [|v|v|v|v|v|v|v|v|v|v] eqn:V; try discriminate E.
    cbn [digits] in E. injection E as <-. unfold Decimal.unorm in Z. cbn [Decimal.nzhead] in Z.
    destruct (Decimal.nzhead v) eqn:H; try discriminate Z.
    + injection Z as ->. reflexivity.
    + exfalso. exact (DecimalFacts.nzhead_nonzero _ _ H).
Qed.

(** ** Fields *)
Lemma join_field xs x : In x xs -> exists l r, join xs = l ++ x ++ r /\
  (l = [] \/ exists l', l = l' ++ [" "]) /\ (r = [] \/ exists r', r = "," :: r').
Proof.
  induction xs as [|y [|z xs] IH]; intros H; [destruct H|..].
  - destruct H as [->|[]]. exists [], []. cbn [join app]. rewrite app_nil_r. auto.
  - change (join (y :: z :: xs)) with (y ++ chars ", " ++ join (z :: xs)). destruct H as [->|H].
    + exists [], (chars ", " ++ join (z :: xs)). split; [reflexivity|]. split; [auto|]. right. eexists. reflexivity.
    + destruct (IH H) as [l [r [E [L R]]]]. exists (y ++ chars ", " ++ l), r. rewrite E, <- !app_assoc. split; [reflexivity|]. split; [|exact R].
      right. destruct L as [->|[l' ->]].
      * exists (y ++ [","]). rewrite app_nil_r, <- app_assoc. reflexivity.
      * exists (y ++ chars ", " ++ l'). rewrite <- !app_assoc. reflexivity.
Qed.
Lemma field_at name fs k v : In (k, v) fs -> labelled k (render v) (render (DStruct name fs)).
Proof.
  intros H. cbn [render]. assert (H' : In (chars k ++ chars ": " ++ render v) (map (fun f => match f with (k, v) => chars k ++ chars ": " ++ render v end) fs))
    by (apply in_map_iff; exists (k, v); auto).
  destruct (join_field _ _ H') as [l [r [E [L R]]]]. unfold text in *. rewrite E. unfold labelled.
  assert (X : exists l', chars name ++ chars " { " ++ l = l' ++ [" "]).
  { destruct L as [->|[l' ->]].
    - exists (chars name ++ [" "; "{"]). rewrite app_nil_r, <- app_assoc. reflexivity.
    - exists (chars name ++ chars " { " ++ l'). rewrite <- !app_assoc. reflexivity. }
  destruct X as [l' X]. destruct R as [->|[r' ->]].
  - exists l', " ", ["}"]. split; [|auto].
    transitivity ((chars name ++ chars " { " ++ l) ++ (chars k ++ chars ": " ++ render v) ++ chars " }"); [rewrite <- !app_assoc; reflexivity|].
    rewrite X, <- !app_assoc. reflexivity.
  - exists l', ",", (r' ++ chars " }"). split; [|auto].
    transitivity ((chars name ++ chars " { " ++ l) ++ (chars k ++ chars ": " ++ render v) ++ ("," :: r') ++ chars " }"); [rewrite <- !app_assoc; reflexivity|].
    rewrite X, <- !app_assoc. reflexivity.
Qed.
Lemma labelled_inside k v a t : inside a t -> labelled k v a -> labelled k v t.
Proof.
  intros [x [y ->]] [l [c [r [-> C]]]]. exists (x ++ l), c, (r ++ y). split; [|exact C].
  rewrite <- !app_assoc. cbn [app]. rewrite <- !app_assoc. cbn [app]. rewrite <- !app_assoc. reflexivity.
Qed.
Lemma inside_one name x : inside (render x) (render (DOne name x)).
Proof. exists (chars name ++ ["("]), [")"]. cbn [render]. rewrite <- app_assoc. reflexivity. Qed.
Lemma one_name name x : inside (chars name ++ ["("]) (render (DOne name x)).
Proof. exists [], (render x ++ [")"]). cbn [render app]. rewrite <- app_assoc. reflexivity. Qed.
Lemma inside_trans a b c : inside a b -> inside b c -> inside a c.
Proof. intros [l [r ->]] [l' [r' ->]]. exists (l' ++ l), (r ++ r'). rewrite <- !app_assoc. reflexivity. Qed.
Lemma inside_field name fs k v : In (k, v) fs -> inside (render v) (render (DStruct name fs)).
Proof.
  intros H. destruct (field_at name fs k v H) as [l [c [r [E _]]]]. exists (l ++ " " :: chars k ++ [":"; " "]), (c :: r).
  rewrite E, <- !app_assoc. cbn [app]. rewrite <- !app_assoc. reflexivity.
Qed.
Lemma listed_map {A} (says : A -> text -> Prop) (f : A -> dbg) l :
  (forall x, says x (render (f x))) -> listed says l (join (map render (map f l))).
Proof.
  intros S. induction l as [|x [|y l] IH]; [constructor|constructor; apply S|].
  cbn [map]. change (join (render (f x) :: render (f y) :: map render (map f l))) with (render (f x) ++ "," :: " " :: join (map render (map f (y :: l)))).
  constructor; [apply S|exact IH].
Qed.
Lemma seq_text xs : render (DSeq xs) = "[" :: join (map render xs) ++ ["]"].
Proof. reflexivity. Qed.
Lemma number_in name fs k n t : inside (render (DStruct name fs)) t -> In (k, DNum n) fs -> number_at k n t.
Proof. intros I H. exists (number n). split; [|apply number_decimal]. exact (labelled_inside _ _ _ _ I (field_at _ _ _ _ H)). Qed.
Lemma bytes_in name fs k l t : inside (render (DStruct name fs)) t -> In (k, d_bytes l) fs -> bytes_at k l t.
Proof.
  intros I H. exists (join (map render (map DNum l))). split; [exact (labelled_inside _ _ _ _ I (field_at _ _ _ _ H))|].
  apply (listed_map decimal DNum). intros n. apply number_decimal.
Qed.
Lemma flag_in name fs k b t : inside (render (DStruct name fs)) t -> In (k, d_bool b) fs -> flag_at k b t.
Proof. intros I H. unfold flag_at. pose proof (labelled_inside _ _ _ _ I (field_at _ _ _ _ H)) as L. destruct b; exact L. Qed.
Lemma inside_refl t : inside t t.
Proof. exists [], []. cbn [app]. rewrite app_nil_r. reflexivity. Qed.
Lemma id_in name fs k x t : inside (render (DStruct name fs)) t -> In (k, d_u160 x) fs -> id_at k x t.
Proof.
  intros I H. exists (render (d_u160 x)). split; [exact (labelled_inside _ _ _ _ I (field_at _ _ _ _ H))|].
  unfold d_u160. split; (eapply number_in; [apply inside_refl|cbn [In]; auto]).
Qed.
Lemma field_in name fs k v t : inside (render (DStruct name fs)) t -> In (k, v) fs -> labelled k (render v) t.
Proof. intros I H. exact (labelled_inside _ _ _ _ I (field_at _ _ _ _ H)). Qed.
Ltac here := cbn [In]; repeat (first [left; reflexivity | right]).
Ltac field_of I :=
  first [ eapply number_in; [exact I|here] | eapply bytes_in; [exact I|here] | eapply flag_in; [exact I|here] | eapply id_in; [exact I|here] ].

(** ** The text of a frame, a header and a packet *)
Lemma range_says r : (fun r u => number_at "gap" (gap r) u /\ number_at "ack_range_length" (ack_range_length r) u) r (render (d_ack_range r)).
Proof. unfold d_ack_range. pose proof (inside_refl (render (d_ack_range r))) as I. unfold d_ack_range in I at 1. split; field_of I. Qed.

Theorem C135_frames : forall f, frame_says f (render (d_frame f)).
Proof.
  intros f; destruct f as [| |x|x|x|x|x|x|x|x|x|x|x|x|x|x|x|x|x|]; cbn [frame_says d_frame]; try reflexivity;
    (match goal with |- context [DOne ?n ?d] => pose proof (inside_one n d) as I; pose proof (one_name n d) as J end);
    (split; [exact J|]).
  all: match type of I with inside (render ?d) _ => let h := fresh in set (h := render (DOne _ d)) in *; clearbody h; unfold d_frame_ack, d_frame_reset_stream, d_frame_stop_sending, d_frame_crypto, d_frame_new_token,
    d_frame_stream, d_frame_max_data, d_frame_max_stream_data, d_frame_max_streams, d_frame_data_blocked, d_frame_stream_data_blocked,
    d_frame_streams_blocked, d_frame_new_connection_id, d_frame_retire_connection_id, d_frame_path_challenge, d_frame_path_response, d_frame_connection_close in I end.
  all: repeat match goal with |- _ /\ _ => split end; try (field_of I).
  - exists (join (map render (map d_ack_range (ack_ranges x)))). split; [|apply listed_map; apply range_says].
    eapply (field_in _ _ "ack_range" (d_list d_ack_range (ack_ranges x))); [exact I|here].
  - intros E. rewrite E in I. eapply (field_in _ _ "ecn_counts" (d_option d_ecn_counts None)); [exact I|here].
  - intros e E. rewrite E in I.
    assert (K : inside (render (d_ecn_counts e)) H).
    { refine (inside_trans _ _ _ (inside_one "Some" (d_ecn_counts e)) (inside_trans _ _ _ (inside_field _ _ "ecn_counts" _ _) I)). here. }
    unfold d_ecn_counts in K. split; [field_of K|split; field_of K].
  - intros E. rewrite E in I. eapply (field_in _ _ "frame_type" (d_option DNum None)); [exact I|here].
  - intros n E. rewrite E in I. exists (number n). split; [|apply number_decimal].
    eapply (field_in _ _ "frame_type" (d_option DNum (Some n))); [exact I|here].
Qed.
Print Assumptions C135_frames.

Lemma long_said h t : inside (render (d_long_header h)) t -> long_says h t.
Proof.
  intros I. unfold d_long_header in I. unfold long_says. split; [field_of I|]. split; [field_of I|]. split; [field_of I|].
  split; [field_of I|]. split; [field_of I|]. split; [field_of I|]. split; [field_of I|]. split.
  - intros E. rewrite E in I. eapply (field_in _ _ "version_negotiation" (d_option d_vn_fields None)); [exact I|here].
  - intros v E. rewrite E in I. exists (render (d_option d_vn_fields (Some v))). split; [eapply (field_in _ _ "version_negotiation" (d_option d_vn_fields (Some v))); [exact I|here]|].
    pose proof (inside_one "Some" (d_vn_fields v)) as K. cbn [d_option]. unfold d_vn_fields in K at 1. split; field_of K.
Qed.
Lemma short_said h t : inside (render (d_short_header h)) t -> short_says h t.
Proof. intros I. unfold d_short_header in I. unfold short_says. split; [field_of I|split; field_of I]. Qed.

Theorem C135_headers : forall h, header_says h (render (d_packet_header h)).
Proof.
  intros [h|h]; cbn [header_says d_packet_header]; (split; [apply one_name|]).
  - apply short_said. apply inside_one.
  - apply long_said. apply inside_one.
Qed.
Print Assumptions C135_headers.

Lemma payload_in name fs l t : inside (render (DStruct name fs)) t -> In ("packet_payload"%string, d_list d_frame l) fs -> payload_says l t.
Proof.
  intros I H. exists (join (map render (map d_frame l))). split; [exact (labelled_inside _ _ _ _ I (field_at _ _ _ _ H))|].
  apply listed_map. apply C135_frames.
Qed.
Lemma long_in name fs h t : inside (render (DStruct name fs)) t -> In ("header"%string, d_long_header h) fs -> exists v, labelled "header" v t /\ long_says h v.
Proof. intros I H. exists (render (d_long_header h)). split; [exact (field_in _ _ _ _ _ I H)|apply long_said; apply inside_refl]. Qed.
Lemma short_in name fs h t : inside (render (DStruct name fs)) t -> In ("header"%string, d_short_header h) fs -> exists v, labelled "header" v t /\ short_says h v.
Proof. intros I H. exists (render (d_short_header h)). split; [exact (field_in _ _ _ _ _ I H)|apply short_said; apply inside_refl]. Qed.

Theorem C135_packets : forall p, packet_says p (render (d_packet p)).
Proof.
  intros p; destruct p as [x|x|x|x|x|x]; cbn [packet_says d_packet];
    (match goal with |- context [DOne ?n ?d] => pose proof (inside_one n d) as I; pose proof (one_name n d) as J end);
    (split; [exact J|]).
  all: match type of I with inside (render ?d) _ => let h := fresh in set (h := render (DOne _ d)) in *; clearbody h;
    unfold d_packet_vn, d_packet_initial, d_packet_zero_rtt, d_packet_handshake, d_packet_retry, d_packet_one_rtt in I end.
  all: repeat match goal with |- _ /\ _ => split end;
    first [field_of I | eapply long_in; [exact I|here] | eapply short_in; [exact I|here] | eapply payload_in; [exact I|here]].
Qed.
Print Assumptions C135_packets.

(** ** The log of a run *)
(** Messages made of printable characters are shown as they are. *)
Definition printable (c : ascii) : bool := ((32 <=? N_of_ascii c) && (N_of_ascii c <=? 126))%N && negb (Ascii.eqb c """") && negb (Ascii.eqb c "\").
Definition error_says (e : error) (t : text) : Prop :=
  match e with
  | NoError => t = chars "NoError"
  | InternalError msg => forallb printable (chars msg) = true -> t = chars "InternalError(""" ++ chars msg ++ [""""; ")"]
  | ConnectionRefused => t = chars "ConnectionRefused"
  | FlowControlError => t = chars "FlowControlError"
  | StreamLimitError => t = chars "StreamLimitError"
  | StreamStateError => t = chars "StreamStateError"
  | FinalSizeError => t = chars "FinalSizeError"
  | FrameEncodingError => t = chars "FrameEncodingError"
  | TransportParameterError => t = chars "TransportParameterError"
  | ConnectionIdLimitError => t = chars "ConnectionIdLimitError"
  | ProtocolViolation => t = chars "ProtocolViolation"
  | InvalidToken => t = chars "InvalidToken"
  | ApplicationError => t = chars "ApplicationError"
  | CryptoBufferExceeded => t = chars "CryptoBufferExceeded"
  | KeyUpdateError => t = chars "KeyUpdateError"
  | AeadLimitReached => t = chars "AeadLimitReached"
  | NoViablePath => t = chars "NoViablePath"
  end.
Definition entry_says (x : logged) (t : text) : Prop :=
  match x with
  | SawHeader h => exists u, t = chars "Ok(" ++ u ++ [")"] /\ header_says h u
  | SawUnreadable e => exists u, t = chars "Err(" ++ u ++ [")"] /\ error_says e u
  | SawPackets ps => exists u, t = "[" :: u ++ ["]"] /\ listed packet_says ps u
  | SawShort i => exists u, t = chars "failed at: " ++ u /\ decimal i u
  end.

Lemma escape_printable c : printable c = true -> escape c = [c].
Proof.
  intros H. assert (A : forallb (fun c => negb (printable c) || match escape c with [d] => Ascii.eqb c d | _ => false end) all_chars = true) by (vm_compute; reflexivity).
  rewrite forallb_forall in A. specialize (A c (all_chars_in c)). rewrite H in A. cbn [negb orb] in A.
  destruct (escape c) as [|d [|? ?]]; try discriminate A. apply Ascii.eqb_eq in A as ->. reflexivity.
Qed.
Lemma error_said e : error_says e (render (d_error e)).
Proof.
  destruct e; try reflexivity. cbn [error_says d_error]. intros H.
  assert (E : flat_map escape (chars msg) = chars msg).
  { induction (chars msg) as [|c l IH]; [reflexivity|]. cbn [forallb] in H. apply andb_prop in H as [H1 H2].
    cbn [flat_map]. rewrite (escape_printable c H1), (IH H2). reflexivity. }
  cbn [render]. rewrite E. cbn [chars list_ascii_of_string app]. do 14 f_equal. cbn [app]. rewrite <- app_assoc. reflexivity.
Qed.
Lemma line_said x t y : on_stdout x = true -> line_text x = Some t -> seen x = [y] -> entry_says y t.
Proof.
  intros O L S. destruct x as [r|ps|e|i]; cbn [line_text seen on_stdout] in *.
  - destruct r as [[h s]|e|w|]; cbn [header_text] in L; try discriminate; injection L as <-; injection S as <-; cbn [entry_says].
    + exists (render (d_packet_header h)). split; [reflexivity|apply C135_headers].
    + exists (render (d_error e)). split; [reflexivity|apply error_said].
  - injection L as <-. injection S as <-. exists (join (map render (map d_packet ps))). split; [reflexivity|]. apply listed_map. apply C135_packets.
  - discriminate O.
  - injection L as <-. injection S as <-. exists (number i). split; [reflexivity|apply number_decimal].
Qed.
Lemma stdout_says : forall xs t, stdout xs = Some t ->
  exists ls, t = concat (map (fun l => l ++ [newline]) ls) /\ Forall2 entry_says (flat_map seen xs) ls.
Proof.
  induction xs as [|x xs IH]; intros t E; cbn [stdout] in E.
  - injection E as <-. exists []. split; [reflexivity|constructor].
  - destruct (on_stdout x) eqn:O.
    + destruct (line_text x) as [u|] eqn:L; [|discriminate]. destruct (stdout xs) as [r|]; [|discriminate]. injection E as <-.
      destruct (IH _ eq_refl) as [ls [E F]]. exists (u :: ls). cbn [map concat flat_map].
      split; [rewrite E, <- app_assoc; reflexivity|]. destruct (seen_one x u O L) as [y S]. rewrite S. cbn [app]. constructor; [exact (line_said x u y O L S)|exact F].
    + destruct (IH _ E) as [ls [E' F]]. exists ls. split; [exact E'|]. cbn [flat_map]. rewrite (seen_off x O). exact F.
Qed.

Theorem C135_log_says : forall P oc tr w, execution P oc start tr w ->
  exists ls, stdout (printed (w_sock w)) = Some (concat (map (fun l => l ++ ["010"%char]) ls)) /\
    Forall2 entry_says (flat_map seen (printed (w_sock w))) ls.
Proof.
  intros P oc tr w X. destruct (C113_one_line_each P oc tr w X) as [t [E _]]. destruct (stdout_says _ _ E) as [ls [-> F]].
  exists ls. auto.
Qed.
Print Assumptions C135_log_says.

(** A line of the log as a user reads it. *)
Example C135_case :
  render (d_frame (Stream (FrameStream 4 0 3 [10; 200; 0]%N true))) =
    chars "Stream(FrameStream { stream_id: 4, offset: 0, length: 3, stream_data: [10, 200, 0], is_fin: true })" /\
  exists P oc tr w, execution P oc start tr w /\ exists h, In (SawHeader h) (flat_map seen (printed (w_sock w))).
Proof.
  split; [vm_compute; reflexivity|]. destruct C113_case as [tr [w [X [_ [_ H]]]]]. exists real_prims, true, tr, w. split; [exact X|]. eexists. exact H.
Qed.
