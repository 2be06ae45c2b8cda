(** C114: the dump of a file shows every byte of it. *)
From Coq Require Import Ascii Lia.
From Verif Require Import Base Utils Spec UtilsFacts LogText LogTextFacts Prettify.
Local Open Scope char_scope.

(** ** What a dump looks like *)
(** Two hexadecimal digits, most significant first. *)
Definition digit_of (c : ascii) (v : N) : Prop :=
  nth_error (chars "0123456789abcdef") (N.to_nat v) = Some c.
Inductive shows : list N -> text -> Prop :=
| sh_nil : shows [] []
| sh_byte : forall b hi lo l t, digit_of hi (b / 16) -> digit_of lo (b mod 16) -> shows l t -> shows (b :: l) (hi :: lo :: t).
(** Lines of 32 bytes in two groups, ended by character 10; a group is never empty. *)
Inductive dump : list N -> text -> Prop :=
| du_empty : dump [] ["010"]
| du_half : forall a t, (0 < length a <= 16)%nat -> shows a t -> dump a (t ++ ["010"])
| du_line : forall a b t u, length a = 16%nat -> (0 < length b <= 16)%nat -> shows a t -> shows b u ->
    dump (a ++ b) (t ++ " " :: u ++ ["010"])
| du_more : forall a b l t u v, length a = 16%nat -> length b = 16%nat -> shows a t -> shows b u -> l <> [] -> dump l v ->
    dump (a ++ b ++ l) (t ++ " " :: u ++ "010" :: v).

Lemma hex_shows l : bytes_ok l -> shows l (hex l).
Proof.
  induction l as [|b l IH]; intros B; [constructor|]. inversion B as [|? ? Hb Bl]; subst. cbn [hex flat_map hex_byte app].
  assert (D : forall v, v < 16 -> digit_of (hex_digit (N.to_nat v)) v).
  { intros v Hv. unfold digit_of.
    assert (A : forallb (fun n => match nth_error (chars "0123456789abcdef") n with Some c => Ascii.eqb c (hex_digit n) | None => false end) (seq 0 16) = true) by reflexivity.
    rewrite forallb_forall in A. specialize (A (N.to_nat v)). rewrite in_seq in A. specialize (A ltac:(lia)).
    destruct (nth_error _ _) as [c|]; [|discriminate A]. apply Ascii.eqb_eq in A as ->. reflexivity. }
  constructor; [apply D|apply D|apply IH; exact Bl].
  - apply N.div_lt_upper_bound; [discriminate|]. exact Hb.
  - apply N.mod_lt. discriminate.
Qed.

(** Reading the lines two at a time. *)
Lemma formatted_two x y ls : formatted_lines (x :: y :: ls) = (x ++ " " :: y) :: formatted_lines ls.
Proof.
  unfold formatted_lines, odds. cbn [skipn evens].
  replace (evens (y :: ls)) with (y :: evens (skipn 1 ls)) by (destruct ls as [|z ls]; reflexivity).
  cbn [combine map app List.length]. f_equal. f_equal.
  change (Nat.odd (S (S (length ls)))) with (Nat.odd (length ls)).
  destruct ls as [|z ls]; reflexivity.
Qed.
Lemma slices_more : forall n m data, (length data <= n)%nat -> (length data <= m)%nat -> slices n data = slices m data.
Proof.
  induction n as [|n IH]; intros m data L L'.
  - destruct data; [destruct m; reflexivity|cbn in L; lia].
  - destruct data as [|b data]; [destruct m; reflexivity|]. destruct m as [|m]; [cbn in L'; lia|].
    cbn [slices]. f_equal. apply IH; rewrite skipn_length; cbn [length] in *; lia.
Qed.
Lemma lines_step data : data <> [] -> lines_of data = hex (firstn 16 data) :: lines_of (skipn 16 data).
Proof.
  intros N. unfold lines_of. destruct data as [|b data]; [congruence|]. cbn [slices length]. f_equal.
  apply slices_more; rewrite ?skipn_length; cbn [length]; lia.
Qed.
Lemma lines_none : lines_of [] = []. Proof. reflexivity. Qed.
Lemma join_more l ls : ls <> [] -> join_lines (l :: ls) = l ++ newline :: join_lines ls.
Proof. destruct ls; [congruence|reflexivity]. Qed.
Lemma formatted_some data : data <> [] -> formatted_lines (lines_of data) <> [].
Proof.
  intros N. rewrite (lines_step data N). destruct (skipn 16 data) as [|b l] eqn:E; [discriminate|].
  rewrite (lines_step (b :: l)) by discriminate. rewrite formatted_two. discriminate.
Qed.
Lemma bytes_firstn n l : bytes_ok l -> bytes_ok (firstn n l).
Proof. intros B. unfold bytes_ok in *. rewrite Forall_forall in *. intros x H. apply B. rewrite <- (firstn_skipn n l). apply in_or_app. auto. Qed.
Lemma bytes_skipn n l : bytes_ok l -> bytes_ok (skipn n l).
Proof. intros B. unfold bytes_ok in *. rewrite Forall_forall in *. intros x H. apply B. rewrite <- (firstn_skipn n l). apply in_or_app. auto. Qed.
Lemma pretty_dump : forall n data, (length data <= n)%nat -> bytes_ok data -> dump data (pretty data).
Proof.
  induction n as [|n IH]; intros data L B.
  - destruct data; [constructor|cbn in L; lia].
  - destruct data as [|x data0]; [constructor|]. set (data := x :: data0) in *. assert (N : data <> []) by discriminate.
    unfold pretty. rewrite (lines_step data N). destruct (skipn 16 data) as [|y r0] eqn:E.
    + assert (LE : (length data <= 16)%nat) by (apply (f_equal (@length _)) in E; rewrite skipn_length in E; cbn [length] in E; lia).
      rewrite lines_none, firstn_all2 by exact LE. change (dump data (hex data ++ [newline])). constructor; [subst data; cbn [length] in *; lia|].
      apply hex_shows. exact B.
    + set (r := y :: r0) in *. assert (NR : r <> []) by discriminate. rewrite (lines_step r NR), formatted_two.
      assert (LA : length (firstn 16 data) = 16%nat).
      { rewrite firstn_length. apply (f_equal (@length _)) in E. rewrite skipn_length in E. subst r. cbn [length] in E |- *. lia. }
      assert (BR : bytes_ok r) by (rewrite <- E; apply bytes_skipn; exact B).
      assert (SA : shows (firstn 16 data) (hex (firstn 16 data))) by (apply hex_shows, bytes_firstn; exact B).
      assert (SB : shows (firstn 16 r) (hex (firstn 16 r))) by (apply hex_shows, bytes_firstn; exact BR).
      assert (LB : (0 < length (firstn 16 r) <= 16)%nat) by (rewrite firstn_length; subst r; cbn [length]; lia).
      destruct (skipn 16 r) as [|z q0] eqn:E2.
      * rewrite lines_none. change (formatted_lines []) with (@nil text). cbn [join_lines]. rewrite <- app_assoc. cbn [app].
        rewrite <- (firstn_skipn 16 data) at 1. rewrite E, <- (firstn_skipn 16 r) at 1. rewrite E2, app_nil_r.
        apply du_line; auto.
      * set (q := z :: q0) in *. assert (NQ : q <> []) by discriminate.
        rewrite join_more by (apply formatted_some; exact NQ). rewrite <- !app_assoc. cbn [app]. rewrite <- ?app_assoc. cbn [app].
        rewrite <- (firstn_skipn 16 data) at 1. rewrite E, <- (firstn_skipn 16 r) at 1. rewrite E2.
        change (join_lines (formatted_lines (lines_of q)) ++ [newline]) with (pretty q).
        apply du_more; auto.
        { rewrite firstn_length. apply (f_equal (@length _)) in E2. rewrite skipn_length in E2. subst q. cbn [length] in E2 |- *. lia. }
        apply IH.
        { apply (f_equal (@length _)) in E2. rewrite skipn_length in E2. apply (f_equal (@length _)) in E. rewrite skipn_length in E. lia. }
        rewrite <- E2. apply bytes_skipn. exact BR.
Qed.

(** The dump of a file is laid out as above, whatever the file. *)
Theorem C114_layout : forall data, bytes_ok data -> dump data (pretty data).
Proof. intros data B. exact (pretty_dump (length data) data (le_n _) B). Qed.
Print Assumptions C114_layout.

(** ** The bytes can be read back *)
Definition visible (c : ascii) : bool := negb (Ascii.eqb c " " || Ascii.eqb c "010").
Lemma digit_fun c v w : digit_of c v -> digit_of c w -> v = w.
Proof.
  unfold digit_of. intros H K.
  assert (ND : NoDup (chars "0123456789abcdef")).
  { repeat (constructor; [cbn; intros Q; repeat (destruct Q as [Q|Q]; [discriminate Q|]); exact Q|]). constructor. }
  assert (L : (N.to_nat v < length (chars "0123456789abcdef"))%nat) by (apply nth_error_Some; congruence).
  pose proof (proj1 (NoDup_nth_error _) ND (N.to_nat v) (N.to_nat w) L) as E. rewrite H, K in E. specialize (E eq_refl). lia.
Qed.
Lemma digit_visible c v : digit_of c v -> visible c = true.
Proof.
  intros H. apply nth_error_In in H. cbn in H.
  repeat (destruct H as [<-|H]; [reflexivity|]). destruct H.
Qed.
Lemma shows_visible l t : shows l t -> filter visible t = t.
Proof.
  induction 1 as [|b hi lo l t H1 H2 S IH]; [reflexivity|]. cbn [filter].
  rewrite (digit_visible _ _ H1), (digit_visible _ _ H2), IH. reflexivity.
Qed.
Lemma shows_app a b t u : shows a t -> shows b u -> shows (a ++ b) (t ++ u).
Proof. induction 1 as [|x hi lo l t H1 H2 S IH]; intros K; [exact K|]. cbn [app]. constructor; auto. Qed.
Lemma shows_fun : forall a t, shows a t -> forall b, shows b t -> a = b.
Proof.
  induction 1 as [|x hi lo l t H1 H2 S IH]; intros b K; inversion K; subst; [reflexivity|].
  f_equal; [|auto]. pose proof (digit_fun _ _ _ H1 ltac:(eassumption)) as E1. pose proof (digit_fun _ _ _ H2 ltac:(eassumption)) as E2.
  rewrite (N.div_mod x 16), (N.div_mod b0 16) by discriminate. rewrite E1, E2. reflexivity.
Qed.
Lemma dump_visible l t : dump l t -> shows l (filter visible t).
Proof.
  induction 1 as [|a t L S|a b t u L L' S S'|a b l t u v L L' S S' N D IH].
  - constructor.
  - rewrite filter_app, (shows_visible _ _ S). cbn. rewrite app_nil_r. exact S.
  - rewrite filter_app, (shows_visible _ _ S). change (" " :: u ++ ["010"]) with ([" "] ++ u ++ ["010"]).
    rewrite !filter_app, (shows_visible _ _ S'). cbn. rewrite app_nil_r. apply shows_app; auto.
  - rewrite filter_app, (shows_visible _ _ S). change (" " :: u ++ "010" :: v) with ([" "] ++ u ++ ["010"] ++ v).
    rewrite !filter_app, (shows_visible _ _ S'). cbn. apply shows_app; auto. apply shows_app; auto.
Qed.

Theorem C114_reads_back : forall data, bytes_ok data ->
  shows data (filter visible (pretty data)) /\
  (forall other, bytes_ok other -> pretty other = pretty data -> other = data).
Proof.
  intros data B. pose proof (dump_visible _ _ (C114_layout data B)) as D. split; [exact D|].
  intros other B' E. pose proof (dump_visible _ _ (C114_layout other B')) as D'. rewrite E in D'. exact (shows_fun _ _ D' _ D).
Qed.
Print Assumptions C114_reads_back.

(** ** Several files *)
Lemma append_inj_r : forall a b s, (a ++ s = b ++ s)%string -> a = b.
Proof.
  intros a b s E. apply (f_equal chars) in E. unfold chars in E.
  assert (A : forall x y, list_ascii_of_string (x ++ y) = (list_ascii_of_string x ++ list_ascii_of_string y)%list).
  { induction x as [|c x IH]; intros y; cbn; [reflexivity|rewrite IH; reflexivity]. }
  rewrite !A in E. apply app_inv_tail in E. apply chars_inj. exact E.
Qed.
Lemma prettify_other denied : forall names fs p, (forall f, In f names -> p <> pretty_name f) -> prettify denied fs names p = fs p.
Proof.
  induction names as [|f names IH]; intros fs p H; [reflexivity|]. cbn [prettify].
  rewrite IH by (intros g G; apply H; right; exact G). unfold reformat_bin.
  destruct (fs f) as [data|]; [|reflexivity]. destruct (denied (pretty_name f)); [reflexivity|]. unfold write.
  destruct (String.eqb_spec p (pretty_name f)) as [E|E]; [|reflexivity]. destruct (H f (or_introl eq_refl) E).
Qed.
Lemma prettify_denied denied : forall names fs p, denied p = true -> prettify denied fs names p = fs p.
Proof.
  induction names as [|f names IH]; intros fs p H; [reflexivity|]. cbn [prettify]. rewrite IH by exact H. unfold reformat_bin.
  destruct (fs f) as [data|]; [|reflexivity]. destruct (denied (pretty_name f)) eqn:D; [reflexivity|]. unfold write.
  destruct (String.eqb_spec p (pretty_name f)) as [->|E]; [congruence|reflexivity].
Qed.

Lemma prettify_file denied : forall names fs f data, In f names -> (forall g, In g names -> f <> pretty_name g) -> fs f = Some data ->
  denied (pretty_name f) = false -> prettify denied fs names (pretty_name f) = Some (bytes_of (pretty data)).
Proof.
  intros names fs f data. revert fs. induction names as [|g names IH]; intros fs H NP E D; [destruct H|]. cbn [prettify].
    assert (KEEP : forall fs', (forall p, (p <> pretty_name g) -> fs' p = fs p) -> fs' f = Some data).
    { intros fs' K. rewrite K; [exact E|]. apply NP. left. reflexivity. }
    assert (STEP : forall p, p <> pretty_name g -> match reformat_bin denied fs g with Some fs' => fs' | None => fs end p = fs p).
    { intros p N. unfold reformat_bin. destruct (fs g); [|reflexivity]. destruct (denied (pretty_name g)); [reflexivity|]. unfold write.
      destruct (String.eqb_spec p (pretty_name g)); [contradiction|reflexivity]. }
    destruct (in_dec string_dec f names) as [I|I].
    + apply IH; auto. intros g' G. apply NP. right. exact G.
    + destruct H as [->|H]; [|contradiction]. rewrite prettify_other.
      * unfold reformat_bin. rewrite E, D. unfold write. rewrite String.eqb_refl. reflexivity.
      * intros g G Q. apply append_inj_r in Q. congruence.
Qed.

(** Every file that can be read gets its dump beside it, under its name with ".pretty" added and in
    ASCII, whether or not other files can; nothing else is written. *)
Definition dump_name (f p : string) : Prop := p = (f ++ ".pretty")%string.
Theorem C114_files : forall denied fs names,
  (forall f p data, In f names -> dump_name f p -> (forall g, In g names -> ~ dump_name g f) -> fs f = Some data -> bytes_ok data ->
     denied p = false ->
     exists t content, dump data t /\ prettify denied fs names p = Some content /\ map ascii_of_N content = t /\ bytes_ok content) /\
  (forall p, (forall f, In f names -> ~ dump_name f p) -> prettify denied fs names p = fs p) /\
  (forall p, denied p = true -> prettify denied fs names p = fs p).
Proof.
  intros denied fs names. split; [|split].
  - intros f p data H -> NP E B D. exists (pretty data), (bytes_of (pretty data)).
    split; [exact (C114_layout data B)|]. split; [exact (prettify_file denied names fs f data H NP E D)|].
    unfold bytes_of. split.
    + rewrite map_map. rewrite <- (map_id (pretty data)) at 2. apply map_ext. exact ascii_N_embedding.
    + unfold bytes_ok. rewrite Forall_map. apply Forall_forall. intros c _. exact (N_ascii_bounded c).
  - intros p N. apply prettify_other. intros f H Q. exact (N f H Q).
  - intros p H. apply prettify_denied. exact H.
Qed.
Print Assumptions C114_files.

Definition sample_files : files := fun p =>
  if String.eqb p "a.bin" then Some (map N.of_nat (seq 0 35)) else if String.eqb p "b.bin" then Some [255] else None.
Example C114_case :
  let fs := prettify (fun _ => false) sample_files ["a.bin"; "missing"; "b.bin"]%string in
  fs "a.bin.pretty"%string = Some (map N_of_ascii (chars "000102030405060708090a0b0c0d0e0f 101112131415161718191a1b1c1d1e1f" ++ "010" :: chars "202122" ++ ["010"])) /\
  fs "b.bin.pretty"%string = Some (map N_of_ascii (chars "ff" ++ ["010"])) /\ fs "missing.pretty"%string = None /\
  bytes_ok (map N.of_nat (seq 0 35)).
Proof.
  split; [vm_compute; reflexivity|]. split; [vm_compute; reflexivity|]. split; [reflexivity|].
  repeat constructor.
Qed.
