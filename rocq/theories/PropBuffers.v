(** C85 to C87: raw buffers, and what reading bytes prints. *)
From Verif Require Import Base Utils Buffers Tactics UtilsFacts.

(** Memory holding [n] initialised elements of [t]. *)
Definition holds (t : ty) (n : N) (m : list cell) : Prop :=
  exists es : list (list N), len es = n /\ Forall (fun e => len e = t_size t) es /\ m = map Some (concat es).

Definition sized (t : ty) : Prop := 0 < t_align t <= 2 ^ 62.

(** ** C85: zeroed buffers. *)
(** Either the size is refused or the box holds [n] elements of zero bytes. *)
Definition zeroed (t : ty) (n : N) (m : list cell) : Prop :=
  holds t n m /\ Forall (fun x => x = Some 0) m.
Definition C85_statement : Prop := forall a t n, sized t ->
  (exists w, calloc_box_buffer a t n = Panic w) \/
  (exists m, calloc_box_buffer a t n = Ok (Buffer n m) /\ zeroed t n m).

Lemma repeat_concat {A} (x : A) k n : concat (repeat (repeat x k) n) = repeat x (n * k).
Proof. induction n; cbn [repeat concat Nat.mul]; [reflexivity|]. rewrite IHn, repeat_app. reflexivity. Qed.
Lemma map_repeat' {A B} (f : A -> B) x n : map f (repeat x n) = repeat (f x) n.
Proof. induction n; cbn; congruence. Qed.
Lemma Forall_repeat {A} (Q : A -> Prop) x n : Q x -> Forall Q (repeat x n).
Proof. induction n; cbn; auto. Qed.
Lemma len_repeat {A} (x : A) n : len (repeat x n) = N.of_nat n.
Proof. unfold len. rewrite repeat_length. reflexivity. Qed.

Theorem C85_zeroed_partial : forall a t n, sized t -> 0 < t_size t ->
  t_size t * n <= 2 ^ 63 - t_align t -> (forall size align, a size align = true) ->
  exists m, calloc_box_buffer a t n = Ok (Buffer n m) /\ zeroed t n m.
Proof.
  intros a t n [A1 A2] S B AL. exists (repeat (Some 0) (N.to_nat (t_size t * n))).
  assert (Z : zeroed t n (repeat (Some 0) (N.to_nat (t_size t * n)))).
  { split; [|apply Forall_repeat; reflexivity].
    exists (repeat (repeat 0 (N.to_nat (t_size t))) (N.to_nat n)).
    split; [rewrite len_repeat; lia|]. split.
    - apply Forall_repeat. rewrite len_repeat. lia.
    - rewrite repeat_concat, map_repeat'. f_equal. lia. }
  split; [|exact Z]. unfold calloc_box_buffer, layout_array, box_from, sys_alloc_zeroed.
  destruct (N.eqb_spec n 0) as [->|NZ].
  { rewrite N.mul_0_r. reflexivity. }
  destruct (N.eqb_spec (t_size t) 0); [lia|]. cbn [negb andb].
  destruct (N.ltb_spec ((2 ^ 63 - t_align t) / t_size t) n) as [L|_].
  { exfalso. apply N.div_lt_upper_bound in L || apply N.lt_nge in L; [|..]; try lia.
    apply L. apply N.div_le_lower_bound; lia. }
  cbn [bind]. rewrite AL. destruct (N.eqb_spec (t_size t * n) 0); [nia|]. reflexivity.
Qed.
Print Assumptions C85_zeroed_partial.
(** Too large a buffer is refused by a panic, never cut short. *)
Theorem C85_too_large : forall a t n, sized t -> 2 ^ 63 - t_align t < t_size t * n ->
  exists w, calloc_box_buffer a t n = Panic w /\ alloc_box_buffer a t n = Panic w.
Proof.
  intros a t n [A1 A2] B. unfold calloc_box_buffer, alloc_box_buffer, layout_array.
  destruct (N.eqb_spec n 0) as [->|NZ]; [lia|].
  destruct (N.eqb_spec (t_size t) 0) as [E|NS]; [rewrite E in B; lia|]. cbn [negb andb].
  destruct (N.ltb_spec ((2 ^ 63 - t_align t) / t_size t) n) as [L|L].
  - eexists. split; reflexivity.
  - exfalso. pose proof (N.mul_div_le (2 ^ 63 - t_align t) (t_size t) NS) as Q.
    pose proof (N.mul_succ_div_gt (2 ^ 63 - t_align t) (t_size t) NS) as Q'. nia.
Qed.
Print Assumptions C85_too_large.
(** No elements of a type without size can be asked for, and an allocator out
    of memory is not noticed. *)
Theorem C85_undefined : forall a t n, 0 < n ->
  (t_size t = 0 \/ (t_size t * n <= 2 ^ 63 - t_align t /\ a (t_size t * n) (t_align t) = false)) ->
  exists w, calloc_box_buffer a t n = Ok (Undefined w) /\ alloc_box_buffer a t n = Ok (Undefined w).
Proof.
  intros a t n Hn H. unfold calloc_box_buffer, alloc_box_buffer, layout_array, box_from.
  destruct (N.eqb_spec n 0) as [->|NZ]; [lia|]. destruct H as [E|[B F]].
  - rewrite E. cbn [N.eqb negb andb N.mul bind]. eexists. split; reflexivity.
  - destruct (N.eqb_spec (t_size t) 0) as [E|NS].
    { rewrite E. cbn [N.eqb negb andb N.mul bind]. eexists. split; reflexivity. }
    cbn [negb andb]. destruct (N.ltb_spec ((2 ^ 63 - t_align t) / t_size t) n) as [L|L].
    { exfalso. apply N.lt_nge in L. apply L. apply N.div_le_lower_bound; lia. }
    cbn [bind]. destruct (N.eqb_spec (t_size t * n) 0); [nia|]. unfold sys_alloc_zeroed, sys_alloc. rewrite F.
    eexists. split; reflexivity.
Qed.
Print Assumptions C85_undefined.
Theorem C85_zeroed_refuted : ~ C85_statement.
Proof.
  intros H. destruct (H (fun _ _ => true) (Ty 0 1) 1) as [[w E]|[m [E _]]]; [split; cbn; lia| |];
  vm_compute in E; discriminate E.
Qed.
Print Assumptions C85_zeroed_refuted.
Example C85_case :
  calloc_box_buffer (fun _ _ => true) (Ty 2 2) 3 = Ok (Buffer 3 [Some 0; Some 0; Some 0; Some 0; Some 0; Some 0]) /\
  calloc_box_buffer (fun _ _ => false) (Ty 2 2) 3 = Ok (Undefined "box made of a null pointer") /\
  (exists w, calloc_box_buffer (fun _ _ => true) (Ty 8 8) (2 ^ 60) = Panic w).
Proof. split; [|split; [|eexists]]; vm_compute; reflexivity. Qed.

(** ** C86: other buffers hold something. *)
Definition C86_statement : Prop := forall a t n, sized t ->
  (exists w, alloc_box_buffer a t n = Panic w) \/
  (exists m, alloc_box_buffer a t n = Ok (Buffer n m) /\ holds t n m).
(** The box never holds initialised elements, whatever the type and length. *)
Theorem C86_never_initialised : forall a t n, sized t -> 0 < n -> 0 < t_size t ->
  forall k m, alloc_box_buffer a t n = Ok (Buffer k m) -> k = n /\ len m = t_size t * n /\ ~ holds t n m.
Proof.
  intros a t n T Hn S k m H. unfold alloc_box_buffer, layout_array, box_from, sys_alloc in H.
  destruct (N.eqb_spec n 0); [lia|].
  destruct (negb (t_size t =? 0) && _); [discriminate H|]. cbn [bind] in H.
  destruct (N.eqb_spec (t_size t * n) 0) as [Z|NZ]; [discriminate H|].
  destruct (a (t_size t * n) (t_align t)); [|discriminate H].
  assert (E : k = n /\ m = repeat None (N.to_nat (t_size t * n))) by (split; congruence).
  destruct E as [-> ->]. split; [reflexivity|]. split; [rewrite len_repeat; lia|].
  intros [es [_ [_ E]]]. destruct (N.to_nat (t_size t * n)) as [|q] eqn:Q; [lia|]. cbn [repeat] in E.
  destruct (concat es); cbn [map] in E; [discriminate E|]. discriminate E.
Qed.
Print Assumptions C86_never_initialised.
(** The statement holds of a size that is not refused exactly when no elements
    are asked for; then no memory is asked for either. *)
Theorem C86_empty_partial : forall a t n, sized t -> 0 < t_size t -> t_size t * n <= 2 ^ 63 - t_align t ->
  ((exists m, alloc_box_buffer a t n = Ok (Buffer n m) /\ holds t n m) <-> n = 0).
Proof.
  intros a t n T S B. split.
  - intros [m [E M]]. destruct (N.eq_dec n 0) as [|NZ]; [assumption|]. exfalso.
    destruct (C86_never_initialised a t n T ltac:(lia) S _ _ E) as [_ [_ N]]. auto.
  - intros ->. exists []. split; [reflexivity|]. exists []. repeat split. constructor.
Qed.
Print Assumptions C86_empty_partial.
Theorem C86_initialised_refuted : ~ C86_statement.
Proof.
  intros H. destruct (H (fun _ _ => true) (Ty 1 1) 2) as [[w E]|[m [E M]]]; [split; cbn; lia| |].
  - vm_compute in E. discriminate E.
  - assert (T : sized (Ty 1 1)) by (split; cbn; lia).
    destruct (C86_never_initialised _ (Ty 1 1) 2 T ltac:(lia) ltac:(cbn; lia) _ _ E) as [_ [_ N]]. auto.
Qed.
Print Assumptions C86_initialised_refuted.
Example C86_case : alloc_box_buffer (fun _ _ => true) (Ty 1 1) 2 = Ok (Buffer 2 [None; None]) /\
  alloc_box_buffer (fun _ _ => false) (Ty 1 1) 0 = Ok (Buffer 0 []).
Proof. split; reflexivity. Qed.

(** ** C87: refusing a short input has no side effect. *)
Definition C87_statement : Prop := forall out n s,
  var_bytes_printing out n s = ([], var_bytes_from_stream n s).

Lemma printing_loop_ok out s : forall n i, n <= len s ->
  var_bytes_printing_loop out s n i = ([], var_bytes_loop s n).
Proof.
  induction s as [|b s IH]; intros n i L; cbn [var_bytes_printing_loop var_bytes_loop].
  - change (len []) with 0 in L. destruct (N.eqb_spec n 0); [reflexivity|lia].
  - destruct (N.eqb_spec n 0); [reflexivity|]. rewrite len_cons in L. rewrite IH by lia. reflexivity.
Qed.
Lemma printing_loop_short out s : forall n i, len s < n ->
  var_bytes_printing_loop out s n i =
  (if out then [i + len s] else [],
   if out then var_bytes_loop s n else Panic "failed printing to stdout") /\
  var_bytes_loop s n = Err (InternalError "not enough bytes for var_bytes").
Proof.
  induction s as [|b s IH]; intros n i L; cbn [var_bytes_printing_loop var_bytes_loop].
  - change (len []) with 0 in *. destruct (N.eqb_spec n 0); [lia|]. rewrite N.add_0_r. destruct out; split; reflexivity.
  - rewrite len_cons in *. destruct (N.eqb_spec n 0); [lia|]. destruct (IH (n - 1) (i + 1)) as [-> ->]; [lia|].
    replace (i + 1 + len s) with (i + (len s + 1)) by lia. destruct out; split; reflexivity.
Qed.

(** Exactly what it does: nothing is printed when there are enough bytes; when
    there are not, one line with their number is printed before the error, or
    the thread dies if it cannot be. *)
Theorem C87_printed : forall out n s,
  var_bytes_printing out n s =
  if n <=? len s then ([], var_bytes_from_stream n s)
  else (if out then [len s] else [],
        if out then Err (InternalError "not enough bytes for var_bytes") else Panic "failed printing to stdout").
Proof.
  intros. unfold var_bytes_printing, var_bytes_from_stream. destruct (N.leb_spec n (len s)).
  - apply printing_loop_ok. auto.
  - destruct (printing_loop_short out s n 0 H) as [-> E]. rewrite E, N.add_0_l. reflexivity.
Qed.
Print Assumptions C87_printed.
(** With a working stdout the result is that of the function the rest of the
    model uses. *)
Theorem C87_result_partial : forall n s, snd (var_bytes_printing true n s) = var_bytes_from_stream n s.
Proof.
  intros. rewrite C87_printed. destruct (N.leb_spec n (len s)); [reflexivity|]. cbn [snd].
  unfold var_bytes_from_stream. destruct (printing_loop_short true s n 0 H) as [_ ->]. reflexivity.
Qed.
Print Assumptions C87_result_partial.
Theorem C87_silent_refuted : ~ C87_statement.
Proof. intros H. specialize (H false 3 [1; 2]). vm_compute in H. discriminate H. Qed.
Print Assumptions C87_silent_refuted.
Example C87_case : var_bytes_printing true 3 [7; 8] = ([2], Err (InternalError "not enough bytes for var_bytes")) /\
  var_bytes_printing false 2 [7; 8; 9] = ([], Ok ([7; 8], [9])).
Proof. split; reflexivity. Qed.
