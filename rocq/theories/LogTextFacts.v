(** The printed form of a value determines it. *)
From Coq Require Import DecimalN Lia.
From Verif Require Import Base Utils Frame CipherSuite Secrets Connection Packet Routing LogText.
Local Open Scope char_scope.

(** ** Characters *)
Definition is_digit (c : ascii) : bool :=
  let n := nat_of_ascii c in Nat.leb 48 n && Nat.leb n 57.
Definition is_letter (c : ascii) : bool :=
  let n := nat_of_ascii c in (Nat.leb 65 n && Nat.leb n 90) || (Nat.leb 97 n && Nat.leb n 122).
Definition is_word (c : ascii) : bool := is_letter c || is_digit c || Nat.eqb (nat_of_ascii c) 95.

(** Names in Rust: a letter, then letters, digits and underscores. *)
Definition ident (name : string) : bool :=
  match chars name with
  | [] => false
  | c :: l => is_letter c && forallb is_word l
  end.
Fixpoint named (d : dbg) : bool :=
  match d with
  | DNum _ | DStr _ => true
  | DName name => ident name
  | DOne name x => ident name && named x
  | DStruct name fields =>
      ident name && (match fields with [] => false | _ => true end) &&
      forallb (fun f => match f with (k, v) => ident k && named v end) fields
  | DSeq xs => forallb named xs
  end.

Lemma dbg_rect' (Q : dbg -> Prop) :
  (forall n, Q (DNum n)) -> (forall s, Q (DStr s)) -> (forall s, Q (DName s)) ->
  (forall s x, Q x -> Q (DOne s x)) ->
  (forall s fs, Forall (fun f => Q (snd f)) fs -> Q (DStruct s fs)) ->
  (forall xs, Forall Q xs -> Q (DSeq xs)) -> forall d, Q d.
Proof.
  intros H1 H2 H3 H4 H5 H6. fix IH 1. intros [n|s|s|s x|s fs|xs].
  - apply H1.
  - apply H2.
  - apply H3.
  - apply H4. apply IH.
  - apply H5. induction fs as [|[k v] fs IHf]; constructor; [apply IH|exact IHf].
  - apply H6. induction xs as [|x xs IHx]; constructor; [apply IH|exact IHx].
Qed.

Lemma chars_inj a b : chars a = chars b -> a = b.
Proof. intros H. rewrite <- (string_of_list_ascii_of_string a), <- (string_of_list_ascii_of_string b). unfold chars in H. rewrite H. reflexivity. Qed.

(** ** Cutting texts *)
Definition starts (p : ascii -> bool) (r : text) : bool := match r with [] => false | c :: _ => p c end.
Lemma span_cut p : forall l l' r r', forallb p l = true -> forallb p l' = true -> starts p r = false -> starts p r' = false ->
  l ++ r = l' ++ r' -> l = l' /\ r = r'.
Proof.
  induction l as [|c l IH]; intros [|c' l'] r r' F F' S S' E; cbn in *; auto.
  - subst r. cbn in S. apply andb_prop in F' as [F' _]. congruence.
  - subst r'. cbn in S'. apply andb_prop in F as [F _]. congruence.
  - injection E as -> E. apply andb_prop in F as [_ F], F' as [_ F']. destruct (IH _ _ _ F F' S S' E). subst. auto.
Qed.

Lemma digits_digit u : forallb is_digit (digits u) = true.
Proof. induction u; cbn; auto. Qed.
Lemma digits_inj : forall u v, digits u = digits v -> u = v.
Proof. induction u; intros [] E; cbn in E; try discriminate E; auto; injection E as E; f_equal; auto. Qed.
Lemma number_inj n m : number n = number m -> n = m.
Proof. intros E. apply digits_inj in E. apply DecimalN.Unsigned.to_uint_inj. exact E. Qed.
Lemma number_cut n m r r' : starts is_digit r = false -> starts is_digit r' = false ->
  number n ++ r = number m ++ r' -> n = m /\ r = r'.
Proof.
  intros S S' E. destruct (span_cut is_digit _ _ _ _ (digits_digit _) (digits_digit _) S S' E) as [E' ->].
  split; [apply number_inj; exact E'|reflexivity].
Qed.
Lemma number_head n : exists c l, number n = c :: l /\ is_digit c = true.
Proof.
  pose proof (digits_digit (N.to_uint n)) as D. unfold number. destruct (digits (N.to_uint n)) as [|c l] eqn:E.
  - destruct n as [|p]; [discriminate E|]. exfalso. 
    assert (Z : N.to_uint (Npos p) = Decimal.Nil) by (apply digits_inj; exact E).
    pose proof (DecimalN.Unsigned.of_to (Npos p)) as O. rewrite Z in O. discriminate O.
  - exists c, l. cbn in D. apply andb_prop in D as [D _]. auto.
Qed.

(** ** Strings *)
Definition all_chars : list ascii := map ascii_of_nat (seq 0 256).
Lemma all_chars_in c : In c all_chars.
Proof.
  apply in_map_iff. exists (nat_of_ascii c). split; [apply ascii_nat_embedding|]. apply in_seq.
  pose proof (nat_ascii_bounded c). lia.
Qed.
Fixpoint is_prefix (a b : text) : bool :=
  match a, b with
  | [], _ => true
  | x :: a, y :: b => Ascii.eqb x y && is_prefix a b
  | _ :: _, [] => false
  end.
Lemma prefix_cut : forall a b r r', a ++ r = b ++ r' -> is_prefix a b = true \/ is_prefix b a = true.
Proof.
  induction a as [|x a IH]; intros [|y b] r r' E; cbn; auto. cbn in E. injection E as -> E.
  rewrite Ascii.eqb_refl. cbn. eapply IH. exact E.
Qed.
Lemma escape_free : forallb (fun c => forallb (fun d => Ascii.eqb c d || negb (is_prefix (escape c) (escape d))) all_chars) all_chars = true.
Proof. vm_compute. reflexivity. Qed.
Lemma escape_head : forallb (fun c => match escape c with [] => false | d :: _ => negb (Ascii.eqb d """") end) all_chars = true.
Proof. vm_compute. reflexivity. Qed.
Lemma escape_cut c d r r' : escape c ++ r = escape d ++ r' -> c = d /\ r = r'.
Proof.
  intros E. assert (c = d) as ->.
  { pose proof escape_free as F. rewrite forallb_forall in F.
    assert (Q : forall x y, is_prefix (escape x) (escape y) = true -> x = y).
    { intros x y H. specialize (F x (all_chars_in x)). rewrite forallb_forall in F. specialize (F y (all_chars_in y)).
      rewrite H in F. cbn in F. rewrite orb_false_r in F. apply Ascii.eqb_eq. exact F. }
    destruct (prefix_cut _ _ _ _ E) as [H|H]; [|symmetry]; auto. }
  apply app_inv_head in E. auto.
Qed.
Lemma escape_first c : exists d l, escape c = d :: l /\ d <> """".
Proof.
  pose proof escape_head as F. rewrite forallb_forall in F. specialize (F c (all_chars_in c)).
  destruct (escape c) as [|d l]; [discriminate F|]. exists d, l. split; [reflexivity|]. intros ->. discriminate F.
Qed.
Lemma string_cut : forall l l' r r', flat_map escape l ++ """" :: r = flat_map escape l' ++ """" :: r' -> l = l' /\ r = r'.
Proof.
  induction l as [|c l IH]; intros [|c' l'] r r' E; cbn [flat_map app] in E.
  - injection E as E. auto.
  - destruct (escape_first c') as [d [m [H N]]]. rewrite H in E. cbn in E. injection E as E _. congruence.
  - destruct (escape_first c) as [d [m [H N]]]. rewrite H in E. cbn in E. injection E as E _. congruence.
  - rewrite <- !app_assoc in E. apply escape_cut in E as [-> E]. apply IH in E as [-> ->]. auto.
Qed.

(** ** Sequences *)
Definition ends (r : text) : Prop :=
  match r with
  | [] => True
  | c :: t => c = "," \/ c = ")" \/ c = "]" \/ c = "010" \/ (c = " " /\ exists t', t = "}" :: t')
  end.
Lemma ends_word r : ends r -> starts is_word r = false.
Proof. destruct r as [|c r]; [reflexivity|]. intros [->|[->|[->|[->|[-> _]]]]]; reflexivity. Qed.
Lemma ends_digit r : ends r -> starts is_digit r = false.
Proof. destruct r as [|c r]; [reflexivity|]. intros [->|[->|[->|[->|[-> _]]]]]; reflexivity. Qed.

Section Items.
Context {A : Type} (f : A -> text) (ok : A -> bool) (c0 : ascii) (cl : text).
Hypothesis close_ends : forall r, ends ((c0 :: cl) ++ r).
Hypothesis close_comma : c0 <> ",".
Hypothesis head : forall x, ok x = true -> exists c l, f x = c :: l /\ c <> c0.
Lemma items_cut : forall l, Forall (fun x => forall x' r r', ok x = true -> ok x' = true -> ends r -> ends r' ->
    f x ++ r = f x' ++ r' -> x = x' /\ r = r') l ->
  forall l' r r', forallb ok l = true -> forallb ok l' = true ->
  join (map f l) ++ (c0 :: cl) ++ r = join (map f l') ++ (c0 :: cl) ++ r' -> l = l' /\ r = r'.
Proof.
  assert (J : forall x l r, exists r2, join (map f (x :: l)) ++ (c0 :: cl) ++ r = f x ++ r2 /\ ends r2 /\
             (l = [] -> r2 = (c0 :: cl) ++ r) /\
             (l <> [] -> r2 = chars ", " ++ join (map f l) ++ (c0 :: cl) ++ r)).
  { intros x [|y l] r; cbn [map join].
    - eexists. split; [reflexivity|]. split; [apply close_ends|]. split; [auto|congruence].
    - exists (chars ", " ++ join (map f (y :: l)) ++ (c0 :: cl) ++ r). split; [rewrite <- !app_assoc; reflexivity|].
      split; [left; reflexivity|]. split; [discriminate|reflexivity]. }
  induction l as [|x l IH]; intros F l' r r' O O' E.
  - destruct l' as [|y l'].
    + cbn [map join app] in E. injection E as E. apply app_inv_head in E. auto.
    + exfalso. destruct (J y l' r') as [r2 [J1 _]]. rewrite J1 in E. cbn in O'. apply andb_prop in O' as [O' _].
      destruct (head y O') as [c [m [H N]]]. rewrite H in E. cbn in E. injection E as E _. congruence.
  - inversion F as [|? ? Fx Fl]; subst. cbn in O. apply andb_prop in O as [Ox Ol].
    destruct (J x l r) as [r2 [J1 [J2 [J3 J4]]]]. destruct l' as [|y l'].
    + exfalso. rewrite J1 in E. destruct (head x Ox) as [c [m [H N]]]. rewrite H in E. cbn in E. injection E as E _. congruence.
    + cbn in O'. apply andb_prop in O' as [Oy Ol']. destruct (J y l' r') as [r2' [K1 [K2 [K3 K4]]]].
      rewrite J1, K1 in E. destruct (Fx y _ _ Ox Oy J2 K2 E) as [-> E2].
      destruct l as [|x2 l], l' as [|y2 l'].
      * rewrite (J3 eq_refl), (K3 eq_refl) in E2. apply app_inv_head in E2. auto.
      * rewrite (J3 eq_refl), (K4 ltac:(discriminate)) in E2. cbn in E2. injection E2 as E2 _. congruence.
      * rewrite (J4 ltac:(discriminate)), (K3 eq_refl) in E2. cbn in E2. injection E2 as E2 _. congruence.
      * rewrite (J4 ltac:(discriminate)), (K4 ltac:(discriminate)) in E2. apply app_inv_head in E2.
        destruct (IH Fl _ _ _ Ol Ol' E2) as [-> ->]. auto.
Qed.
End Items.

(** ** Whole values *)
Definition is_quote (c : ascii) := Ascii.eqb c """".
Definition is_open (c : ascii) := Ascii.eqb c "[".
Lemma ident_spec name : ident name = true ->
  exists c l, chars name = c :: l /\ is_letter c = true /\ forallb is_word (chars name) = true.
Proof.
  unfold ident. destruct (chars name) as [|c l]; [discriminate|]. intros H. apply andb_prop in H as [H1 H2].
  exists c, l. split; [reflexivity|]. split; [exact H1|]. cbn. rewrite H2. unfold is_word. rewrite H1. reflexivity.
Qed.
Lemma name_cut a b r r' : ident a = true -> ident b = true -> starts is_word r = false -> starts is_word r' = false ->
  chars a ++ r = chars b ++ r' -> a = b /\ r = r'.
Proof.
  intros A B S S' E. destruct (ident_spec _ A) as [_ [_ [_ [_ FA]]]], (ident_spec _ B) as [_ [_ [_ [_ FB]]]].
  destruct (span_cut is_word _ _ _ _ FA FB S S' E) as [E' ->]. split; [apply chars_inj; exact E'|reflexivity].
Qed.

(** What kind of value a text begins with. *)
Inductive kind := KNum | KStr | KName | KSeq.
Definition kind_of (d : dbg) : kind :=
  match d with DNum _ => KNum | DStr _ => KStr | DName _ | DOne _ _ | DStruct _ _ => KName | DSeq _ => KSeq end.
Definition char_kind (c : ascii) : option kind :=
  if is_digit c then Some KNum else if is_quote c then Some KStr else if is_letter c then Some KName
  else if is_open c then Some KSeq else None.
Lemma letter_kind c : is_letter c = true -> char_kind c = Some KName.
Proof.
  intros H. assert (A : forallb (fun c => negb (is_letter c) || match char_kind c with Some KName => true | _ => false end) all_chars = true) by (vm_compute; reflexivity).
  rewrite forallb_forall in A. specialize (A c (all_chars_in c)). rewrite H in A. cbn in A.
  destruct (char_kind c) as [[]|]; try discriminate A; reflexivity.
Qed.
Lemma render_head d : named d = true -> exists c l, render d = c :: l /\ char_kind c = Some (kind_of d).
Proof.
  assert (K : forall name r, ident name = true -> exists c l, chars name ++ r = c :: l /\ char_kind c = Some KName).
  { intros name r H. destruct (ident_spec _ H) as [c [l [E [L _]]]]. rewrite E. exists c, (l ++ r). split; [reflexivity|apply letter_kind; exact L]. }
  destruct d as [n|s|s|s x|s fs|xs]; cbn [named render kind_of]; intros H.
  - destruct (number_head n) as [c [l [E D]]]. exists c, l. unfold char_kind. rewrite D. auto.
  - eexists _, _. split; reflexivity.
  - rewrite <- (app_nil_r (chars s)). apply K. exact H.
  - apply andb_prop in H as [H _]. apply K. exact H.
  - apply andb_prop in H as [H _]. apply andb_prop in H as [H _]. apply K. exact H.
  - eexists _, _. split; reflexivity.
Qed.

Lemma same_kind d d' r r' : named d = true -> named d' = true -> render d ++ r = render d' ++ r' -> kind_of d = kind_of d'.
Proof.
  intros W W' E. destruct (render_head d W) as [c [l [H1 H2]]], (render_head d' W') as [c' [l' [H1' H2']]].
  rewrite H1, H1' in E. injection E as E _. congruence.
Qed.
Lemma render_cut : forall d d' r r', named d = true -> named d' = true -> ends r -> ends r' ->
  render d ++ r = render d' ++ r' -> d = d' /\ r = r'.
Proof.
  induction d as [n|s|s|s x IHx|s fs IHf|xs IHl] using dbg_rect'; intros d' r r' W W' S S' E.
  all: pose proof (same_kind _ _ _ _ W W' E) as KK.
  all: destruct d' as [n'|s'|s'|s' x'|s' fs'|xs']; cbn [kind_of] in KK; try discriminate KK; clear KK;
       cbn [render named] in W, W', E; rewrite <- ?app_assoc in E; cbn [app] in E.
  - destruct (number_cut _ _ _ _ (ends_digit _ S) (ends_digit _ S') E) as [-> ->]. auto.
  - injection E as E. rewrite <- !app_assoc in E. cbn [app] in E. apply string_cut in E as [E ->]. apply chars_inj in E as ->. auto.
  - apply name_cut in E as [-> ->]; auto using ends_word.
  - exfalso. apply andb_prop in W' as [W' _]. apply name_cut in E as [_ ->]; auto using ends_word.
    destruct S as [S|[S|[S|[S|[S _]]]]]; discriminate S.
  - exfalso. apply andb_prop in W' as [W' _]. apply andb_prop in W' as [W' _]. apply name_cut in E as [_ ->]; auto using ends_word.
    destruct S as [S|[S|[S|[S|[_ [t S]]]]]]; discriminate S.
  - exfalso. apply andb_prop in W as [W _]. apply name_cut in E as [_ <-]; auto using ends_word.
    destruct S' as [S'|[S'|[S'|[S'|[S' _]]]]]; discriminate S'.
  - apply andb_prop in W as [W X], W' as [W' X']. apply name_cut in E as [-> E]; auto.
    injection E as E. rewrite <- !app_assoc in E. cbn [app] in E.
    destruct (IHx x' (")" :: r) (")" :: r') X X') as [-> E']; auto; try (right; left; reflexivity). injection E' as ->. auto.
  - exfalso. apply andb_prop in W as [W _], W' as [W' _]. apply andb_prop in W' as [W' _]. apply name_cut in E as [_ E]; auto. discriminate E.
  - exfalso. apply andb_prop in W as [W _]. apply andb_prop in W as [W _]. apply name_cut in E as [_ <-]; auto using ends_word.
    destruct S' as [S'|[S'|[S'|[S'|[_ [t S']]]]]]; discriminate S'.
  - exfalso. apply andb_prop in W as [W _], W' as [W' _]. apply andb_prop in W as [W _]. apply name_cut in E as [_ E]; auto. discriminate E.
  - apply andb_prop in W as [W X], W' as [W' X']. apply andb_prop in W as [W _], W' as [W' _].
    apply name_cut in E as [-> E]; auto. apply app_inv_head in E.
    match type of E with join (map ?f _) ++ _ = _ =>
      destruct (items_cut f (fun g => match g with (k, v) => ident k && named v end) " " ["}"]) with (l := fs) (l' := fs') (r := r) (r' := r') as [-> ->]; auto end.
    + intros q. right; right; right; right. split; [reflexivity|]. eexists. reflexivity.
    + discriminate.
    + intros [k v] H. apply andb_prop in H as [H _]. destruct (ident_spec _ H) as [c [l [Hc [L _]]]]. rewrite Hc. eexists c, _.
      split; [reflexivity|]. intros ->. discriminate L.
    + eapply Forall_impl; [|exact IHf]. intros [k v] IH [k' v'] q q' H H' Q Q' EE. cbn [snd] in IH.
      apply andb_prop in H as [H HV], H' as [H' HV']. rewrite <- !app_assoc in EE. apply name_cut in EE as [-> EE]; auto.
      apply app_inv_head in EE. destruct (IH v' q q' HV HV' Q Q' EE) as [-> ->]. auto.
  - injection E as E. rewrite <- !app_assoc in E. cbn [app] in E.
    destruct (items_cut render named "]" []) with (l := xs) (l' := xs') (r := r) (r' := r') as [-> ->]; auto.
    + intros q. right; right; left. reflexivity.
    + discriminate.
    + intros x H. destruct (render_head x H) as [c [l [H1 H2]]]. exists c, l. split; [exact H1|]. intros ->. destruct x; discriminate H2.
Qed.

(** ** The values that are printed *)
Definition faithful {A} (f : A -> dbg) : Prop :=
  (forall x, named (f x) = true) /\ (forall x y, f x = f y -> x = y).
Lemma faithful_num : faithful DNum.
Proof. split; [reflexivity|]. intros x y [= ->]. reflexivity. Qed.
Lemma faithful_bool : faithful d_bool.
Proof. split; [intros []; reflexivity|]. intros [] [] E; try discriminate E; reflexivity. Qed.
Lemma faithful_map {A} (f : A -> dbg) : faithful f -> faithful (d_list f).
Proof.
  intros [N I]. split.
  - intros l. unfold d_list. cbn [named]. rewrite forallb_forall. intros d H. apply in_map_iff in H as [x [<- _]]. apply N.
  - intros l l' E. injection E as E. revert l' E. induction l as [|x l IH]; intros [|y l'] E; try discriminate E; auto.
    injection E as E1 E2. apply I in E1 as ->. f_equal; auto.
Qed.
Lemma faithful_bytes : faithful d_bytes.
Proof. exact (faithful_map DNum faithful_num). Qed.
Lemma faithful_option {A} (f : A -> dbg) : faithful f -> faithful (d_option f).
Proof.
  intros [N I]. split.
  - intros [x|]; [change (named (f x) = true); apply N|reflexivity].
  - intros [x|] [y|] E; try discriminate E; auto. injection E as E. apply I in E as ->. reflexivity.
Qed.
Lemma struct_values a b fs gs : DStruct a fs = DStruct b gs -> map snd fs = map snd gs.
Proof. intros [= _ ->]. reflexivity. Qed.
Lemma one_value a b x y : DOne a x = DOne b y -> x = y.
Proof. intros [= _ ->]. reflexivity. Qed.
Lemma one_name a b x y : DOne a x = DOne b y -> a = b.
Proof. intros [= -> _]. reflexivity. Qed.
Lemma cons_eq {A} (x y : A) l m : x :: l = y :: m -> x = y /\ l = m.
Proof. intros [= -> ->]. auto. Qed.
Ltac field := match goal with
  | H : ?f _ = ?f _ |- _ => first
    [ apply (proj2 faithful_num) in H | apply (proj2 faithful_bool) in H | apply (proj2 faithful_bytes) in H | apply (proj2 (faithful_option DNum faithful_num)) in H
    | match goal with F : faithful f |- _ => apply (proj2 F) in H end ]
  end.
Ltac named_fields := repeat match goal with
  | |- context [named (?f ?x)] => first
    [ change (named (f x)) with true
    | rewrite (proj1 faithful_num x) | rewrite (proj1 faithful_bool x) | rewrite (proj1 faithful_bytes x) | rewrite (proj1 (faithful_option DNum faithful_num) x)
    | match goal with F : faithful f |- _ => rewrite (proj1 F x) end ]
  end; reflexivity.
Ltac simpl_fields := cbn [ack_delay ack_ecn ack_range_count ack_range_length ack_ranges cc_error_code cc_frame_type cc_is_application_error cc_reason_phrase cc_reason_phrase_length cr_length cr_offset crypto_data d_frame_ack d_frame_connection_close d_frame_crypto d_frame_data_blocked d_frame_max_data d_frame_max_stream_data d_frame_max_streams d_frame_new_connection_id d_frame_new_token d_frame_path_challenge d_frame_path_response d_frame_reset_stream d_frame_retire_connection_id d_frame_stop_sending d_frame_stream d_frame_stream_data_blocked d_frame_streams_blocked d_long_header d_packet_handshake d_packet_initial d_packet_one_rtt d_packet_retry d_packet_vn d_packet_zero_rtt d_short_header db_maximum_data ecn_ce_count ect0_count ect1_count first_ack_range gap idx0 idx1 largest_acknowledged lh_byte lh_dcid lh_dcid_len lh_protected lh_scid lh_scid_len lh_version lh_vn md_maximum_data ms_is_unidirectional ms_maximum_streams msd_maximum_stream_data msd_stream_id nc_connection_id nc_length nc_retire_prior_to nc_sequence_number nc_stateless_reset_token nt_token nt_token_length pc_data ph_header ph_payload ph_pn ph_pn_bytes pi_header pi_payload pi_pn pi_pn_bytes pi_token po_header po_payload po_pn po_pn_bytes pr_data pr_dcid pr_dcid_len pr_integrity_tag pr_scid pr_scid_len pr_token pr_version pz_header pz_length pz_payload pz_pn pz_pn_bytes rc_sequence_number rs_error_code rs_final_size rs_stream_id sb_is_unidirectional_limit sb_maximum_streams sdb_maximum_stream_data sdb_stream_id sh_byte sh_dcid sh_protected ss_error_code ss_stream_id st_data st_is_fin st_length st_offset st_stream_id supported_versions vn_dcid vn_header vn_scid] in *.
Ltac structure d :=
  split;
  [intros x; unfold d; cbn [named forallb]; named_fields
  |intros [] [] E; unfold d in E; apply struct_values in E; cbn [map snd] in E;
   repeat (let H := fresh "H" in apply cons_eq in E as [H E]); simpl_fields; repeat field; subst; reflexivity].
Lemma faithful_u160 : faithful d_u160.
Proof. structure d_u160. Qed.
Lemma faithful_error : faithful d_error.
Proof. split; [intros []; reflexivity|]. intros [] [] E; try discriminate E; try reflexivity. injection E as ->. reflexivity. Qed.
Lemma faithful_ecn_counts : faithful d_ecn_counts.
Proof. structure d_ecn_counts. Qed.
Lemma faithful_ack_range : faithful d_ack_range.
Proof. structure d_ack_range. Qed.
Lemma faithful_frame_ack : faithful d_frame_ack.
Proof. pose proof (faithful_map _ faithful_ack_range). pose proof (faithful_option _ faithful_ecn_counts). structure d_frame_ack. Qed.
Lemma faithful_frame_reset_stream : faithful d_frame_reset_stream.
Proof. structure d_frame_reset_stream. Qed.
Lemma faithful_frame_stop_sending : faithful d_frame_stop_sending.
Proof. structure d_frame_stop_sending. Qed.
Lemma faithful_frame_crypto : faithful d_frame_crypto.
Proof. structure d_frame_crypto. Qed.
Lemma faithful_frame_new_token : faithful d_frame_new_token.
Proof. structure d_frame_new_token. Qed.
Lemma faithful_frame_stream : faithful d_frame_stream.
Proof. structure d_frame_stream. Qed.
Lemma faithful_frame_max_data : faithful d_frame_max_data.
Proof. structure d_frame_max_data. Qed.
Lemma faithful_frame_max_stream_data : faithful d_frame_max_stream_data.
Proof. structure d_frame_max_stream_data. Qed.
Lemma faithful_frame_max_streams : faithful d_frame_max_streams.
Proof. structure d_frame_max_streams. Qed.
Lemma faithful_frame_data_blocked : faithful d_frame_data_blocked.
Proof. structure d_frame_data_blocked. Qed.
Lemma faithful_frame_stream_data_blocked : faithful d_frame_stream_data_blocked.
Proof. structure d_frame_stream_data_blocked. Qed.
Lemma faithful_frame_streams_blocked : faithful d_frame_streams_blocked.
Proof. structure d_frame_streams_blocked. Qed.
Lemma faithful_frame_new_connection_id : faithful d_frame_new_connection_id.
Proof. pose proof faithful_u160. structure d_frame_new_connection_id. Qed.
Lemma faithful_frame_retire_connection_id : faithful d_frame_retire_connection_id.
Proof. structure d_frame_retire_connection_id. Qed.
Lemma faithful_frame_path_challenge : faithful d_frame_path_challenge.
Proof. structure d_frame_path_challenge. Qed.
Lemma faithful_frame_path_response : faithful d_frame_path_response.
Proof. structure d_frame_path_response. Qed.
Lemma faithful_frame_connection_close : faithful d_frame_connection_close.
Proof. structure d_frame_connection_close. Qed.
Lemma faithful_frame : faithful d_frame.
Proof.
  split.
  - intros []; unfold d_frame; cbn [named]; try reflexivity; first [rewrite (proj1 faithful_frame_ack); reflexivity | rewrite (proj1 faithful_frame_reset_stream); reflexivity | rewrite (proj1 faithful_frame_stop_sending); reflexivity | rewrite (proj1 faithful_frame_crypto); reflexivity | rewrite (proj1 faithful_frame_new_token); reflexivity | rewrite (proj1 faithful_frame_stream); reflexivity | rewrite (proj1 faithful_frame_max_data); reflexivity | rewrite (proj1 faithful_frame_max_stream_data); reflexivity | rewrite (proj1 faithful_frame_max_streams); reflexivity | rewrite (proj1 faithful_frame_data_blocked); reflexivity | rewrite (proj1 faithful_frame_stream_data_blocked); reflexivity | rewrite (proj1 faithful_frame_streams_blocked); reflexivity | rewrite (proj1 faithful_frame_new_connection_id); reflexivity | rewrite (proj1 faithful_frame_retire_connection_id); reflexivity | rewrite (proj1 faithful_frame_path_challenge); reflexivity | rewrite (proj1 faithful_frame_path_response); reflexivity | rewrite (proj1 faithful_frame_connection_close); reflexivity].
  - intros [] [] E; unfold d_frame in E; first [discriminate (one_name _ _ _ _ E) | discriminate E | idtac]; try reflexivity;
    apply one_value in E; first [apply (proj2 faithful_frame_ack) in E | apply (proj2 faithful_frame_reset_stream) in E | apply (proj2 faithful_frame_stop_sending) in E | apply (proj2 faithful_frame_crypto) in E | apply (proj2 faithful_frame_new_token) in E | apply (proj2 faithful_frame_stream) in E | apply (proj2 faithful_frame_max_data) in E | apply (proj2 faithful_frame_max_stream_data) in E | apply (proj2 faithful_frame_max_streams) in E | apply (proj2 faithful_frame_data_blocked) in E | apply (proj2 faithful_frame_stream_data_blocked) in E | apply (proj2 faithful_frame_streams_blocked) in E | apply (proj2 faithful_frame_new_connection_id) in E | apply (proj2 faithful_frame_retire_connection_id) in E | apply (proj2 faithful_frame_path_challenge) in E | apply (proj2 faithful_frame_path_response) in E | apply (proj2 faithful_frame_connection_close) in E]; congruence.
Qed.
Lemma faithful_vn_fields : faithful d_vn_fields.
Proof. structure d_vn_fields. Qed.
Lemma faithful_long_header : faithful d_long_header.
Proof. pose proof (faithful_option _ faithful_vn_fields). pose proof faithful_u160. structure d_long_header. Qed.
Lemma faithful_packet_vn : faithful d_packet_vn.
Proof. pose proof faithful_long_header. structure d_packet_vn. Qed.
Lemma faithful_packet_initial : faithful d_packet_initial.
Proof. pose proof (faithful_map _ faithful_frame). pose proof faithful_long_header. structure d_packet_initial. Qed.
Lemma faithful_packet_zero_rtt : faithful d_packet_zero_rtt.
Proof. pose proof (faithful_map _ faithful_frame). pose proof faithful_long_header. structure d_packet_zero_rtt. Qed.
Lemma faithful_packet_handshake : faithful d_packet_handshake.
Proof. pose proof (faithful_map _ faithful_frame). pose proof faithful_long_header. structure d_packet_handshake. Qed.
Lemma faithful_packet_retry : faithful d_packet_retry.
Proof. pose proof faithful_u160. structure d_packet_retry. Qed.
Lemma faithful_short_header : faithful d_short_header.
Proof. pose proof faithful_u160. structure d_short_header. Qed.
Lemma faithful_packet_one_rtt : faithful d_packet_one_rtt.
Proof. pose proof (faithful_map _ faithful_frame). pose proof faithful_short_header. structure d_packet_one_rtt. Qed.
Lemma faithful_packet_header : faithful d_packet_header.
Proof.
  split.
  - intros []; unfold d_packet_header; cbn [named]; try reflexivity; first [rewrite (proj1 faithful_short_header); reflexivity | rewrite (proj1 faithful_long_header); reflexivity].
  - intros [] [] E; unfold d_packet_header in E; first [discriminate (one_name _ _ _ _ E) | discriminate E | idtac]; try reflexivity;
    apply one_value in E; first [apply (proj2 faithful_short_header) in E | apply (proj2 faithful_long_header) in E]; congruence.
Qed.
Lemma faithful_packet : faithful d_packet.
Proof.
  split.
  - intros []; unfold d_packet; cbn [named]; try reflexivity; first [rewrite (proj1 faithful_packet_vn); reflexivity | rewrite (proj1 faithful_packet_initial); reflexivity | rewrite (proj1 faithful_packet_zero_rtt); reflexivity | rewrite (proj1 faithful_packet_handshake); reflexivity | rewrite (proj1 faithful_packet_retry); reflexivity | rewrite (proj1 faithful_packet_one_rtt); reflexivity].
  - intros [] [] E; unfold d_packet in E; first [discriminate (one_name _ _ _ _ E) | discriminate E | idtac]; try reflexivity;
    apply one_value in E; first [apply (proj2 faithful_packet_vn) in E | apply (proj2 faithful_packet_initial) in E | apply (proj2 faithful_packet_zero_rtt) in E | apply (proj2 faithful_packet_handshake) in E | apply (proj2 faithful_packet_retry) in E | apply (proj2 faithful_packet_one_rtt) in E]; congruence.
Qed.
