(** Two closure properties of stream parsers:
    [tame w p]: returns [Ok] or [Err]; what [Ok] consumed is a prefix at least
    as long as the weight [w] of the value;
    [delim p]: in addition the value depends on the consumed prefix only, and
    every proper prefix of it is refused. *)
From Verif Require Import Base Utils Frame Spec Tactics UtilsFacts.

Definition tame {A} (w : A -> N) (p : parser A) : Prop :=
  forall s, bytes_ok s ->
  match p s with
  | Ok (x, r) => exists c, s = c ++ r /\ w x <= len c
  | Err _ => True
  | _ => False
  end.

Definition delim {A} (p : parser A) : Prop :=
  forall s, bytes_ok s ->
  match p s with
  | Ok (x, r) =>
      exists c, s = c ++ r /\
                (forall r', bytes_ok r' -> p (c ++ r') = Ok (x, r')) /\
                (forall c' t, c = c' ++ t -> t <> [] -> exists e, p c' = Err e)
  | Err _ => True
  | _ => False
  end.

Lemma tame_ret {A} (a : A) w : w a = 0 -> tame w (fun s => Ok (a, s)).
Proof. intros E s _. exists []. split; [reflexivity|]. rewrite E. apply N.le_0_l. Qed.

Lemma tame_err {A} e w : @tame A w (fun s => Err e).
Proof. intros s _. exact I. Qed.

Lemma tame_bind {A B} (wp : A -> N) (w : B -> N) (p : parser A) (k : A -> parser B) :
  tame wp p -> (forall x, tame (fun y => w y - wp x) (k x)) ->
  tame w (fun s => let? (x, r) := p s in k x r).
Proof.
  intros Hp Hk s Hs. specialize (Hp s Hs).
  destruct (p s) as [[x r]|e|v|]; cbn [bind]; auto.
  destruct Hp as [c [-> Hw]]. apply bytes_ok_app in Hs as [Hc Hr].
  specialize (Hk x r Hr). destruct (k x r) as [[y r']|e|v|]; auto.
  destruct Hk as [c' [-> Hw']]. exists (c ++ c'). rewrite <- app_assoc, len_app. split; [auto|lia].
Qed.

Lemma tame_weaken {A} (w w' : A -> N) p : tame w p -> (forall x, w' x <= w x) -> tame w' p.
Proof.
  intros H L s Hs. specialize (H s Hs). destruct (p s) as [[x r]|e|v|]; auto.
  destruct H as [c [E W]]. exists c. split; [auto|]. specialize (L x). lia.
Qed.

Lemma delim_tame {A} (p : parser A) : delim p -> tame (fun _ => 0) p.
Proof.
  intros H s Hs. specialize (H s Hs). destruct (p s) as [[x r]|e|v|]; auto.
  destruct H as [c [E _]]. exists c. split; [auto|lia].
Qed.

Lemma delim_ret {A} (a : A) : delim (fun s => Ok (a, s)).
Proof.
  intros s _. exists []. split; [reflexivity|]. split; [reflexivity|].
  intros c' t E N. destruct c', t; try discriminate. congruence.
Qed.

Lemma delim_err {A} e : @delim A (fun s => Err e).
Proof. intros s _. exact I. Qed.

Lemma delim_bind {A B} (p : parser A) (k : A -> parser B) :
  delim p -> (forall x, delim (k x)) -> delim (fun s => let? (x, r) := p s in k x r).
Proof.
  intros Hp Hk s Hs. specialize (Hp s Hs).
  destruct (p s) as [[x r]|e|v|]; cbn [bind]; auto.
  destruct Hp as [c [-> [H1 H2]]]. apply bytes_ok_app in Hs as [Hc Hr].
  specialize (Hk x r Hr). destruct (k x r) as [[y r']|e|v|]; auto.
  destruct Hk as [c2 [-> [K1 K2]]]. apply bytes_ok_app in Hr as [Hc2 Hr'].
  exists (c ++ c2). split; [apply app_assoc|]. split.
  - intros r'' Hr''. rewrite <- app_assoc, H1 by (apply bytes_ok_app; auto).
    cbn [bind]. auto.
  - intros c' t E N.
    destruct (Nat.lt_ge_cases (length c') (length c)) as [L|L].
    + (* cut inside the first part *)
      assert (EC : exists t', c = c' ++ t' /\ t' <> []).
      { exists (skipn (length c') c). 
        assert (F : firstn (length c') (c ++ c2) = firstn (length c') (c' ++ t)) by (f_equal; auto).
        rewrite (firstn_app_exact c' t) in F by auto. rewrite firstn_app in F.
        replace (length c' - length c)%nat with O in F by lia. cbn [firstn] in F.
        rewrite app_nil_r in F. split.
        - transitivity (firstn (length c') c ++ skipn (length c') c); [symmetry; apply firstn_skipn|]. rewrite F. reflexivity.
        - intros Z. apply (f_equal (@length _)) in Z. rewrite skipn_length in Z. cbn in Z. lia. }
      destruct EC as [t' [-> N']]. destruct (H2 c' t' eq_refl N') as [e ->].
      exists e. reflexivity.
    + assert (EC : exists d, c' = c ++ d).
      { exists (skipn (length c) c').
        assert (F : firstn (length c) (c ++ c2) = firstn (length c) (c' ++ t)) by (f_equal; auto).
        rewrite (firstn_app_exact c c2) in F by auto. rewrite firstn_app in F.
        replace (length c - length c')%nat with O in F by lia. cbn [firstn] in F.
        rewrite app_nil_r in F. transitivity (firstn (length c) c' ++ skipn (length c) c'); [symmetry; apply firstn_skipn|]. rewrite <- F. reflexivity. }
      destruct EC as [d ->]. rewrite <- app_assoc in E. apply app_inv_head in E. subst c2.
      apply bytes_ok_app in Hc2 as [Hd _].
      rewrite H1 by auto. cbn [bind]. apply (K2 d t); auto.
Qed.

(** ** The primitive readers *)

Lemma delim_var_int oc : delim (var_int_from_stream oc).
Proof.
  intros s Hs. destruct (varint_total oc s Hs) as [[x [bs [r E]]]|[e E]];
    rewrite var_int_from_stream_eq, E; cbn [bind]; auto.
  destruct (varint_dec_inv oc s x bs r Hs E) as [-> V].
  exists bs. split; [auto|]. split.
  { intros r' _. apply varint_dec', V. }
  intros c' t Et N. subst bs. clear E.
  assert (Hc : bytes_ok c') by (apply varint_enc_bytes_ok, bytes_ok_app in V; tauto).
  destruct (varint_total oc c' Hc) as [[x' [bs' [r' E']]]|[e E']];
    rewrite var_int_from_stream_eq, E'; cbn [bind]; eauto.
  exfalso.
  destruct (varint_dec_inv oc c' x' bs' r' Hc E') as [-> V'].
  pose proof (varint_dec oc _ _ (r' ++ t) V') as D1.
  pose proof (varint_dec oc _ _ [] V) as D2.
  rewrite app_nil_r, <- app_assoc in D2. rewrite D1 in D2. injection D2 as _ _ D2.
  destruct r', t; try discriminate. congruence.
Qed.

Lemma tame_var_int oc : tame (fun _ => 1) (var_int_from_stream oc).
Proof.
  intros s Hs. destruct (varint_total oc s Hs) as [[x [bs [r E]]]|[e E]];
    rewrite var_int_from_stream_eq, E; cbn [bind]; auto.
  destruct (varint_dec_inv oc s x bs r Hs E) as [-> V].
  exists bs. split; [auto|]. eapply varint_enc_nonempty; eauto.
Qed.

Lemma delim_of_length {A} (p : parser A) n :
  (forall s, bytes_ok s -> len s < n -> exists e, p s = Err e) ->
  (forall c, bytes_ok c -> len c = n ->
     exists x, forall r, bytes_ok r -> p (c ++ r) = Ok (x, r)) ->
  delim p.
Proof.
  intros H1 H2 s Hs.
  destruct (N.lt_ge_cases (len s) n) as [L|L].
  { destruct (H1 s Hs L) as [e ->]. exact I. }
  pose (c := firstn (N.to_nat n) s). pose (r := skipn (N.to_nat n) s).
  assert (ES : s = c ++ r) by (symmetry; apply firstn_skipn).
  assert (LC : len c = n) by (unfold c, len in *; rewrite firstn_length; lia).
  rewrite ES in Hs |- *. apply bytes_ok_app in Hs as [Hc Hr].
  destruct (H2 c Hc LC) as [x E]. rewrite (E r Hr). exists c.
  split; [auto|]. split; [auto|].
  intros c' t Et N. rewrite Et in *. apply bytes_ok_app in Hc as [Hc' _].
  apply H1; auto. rewrite len_app in LC. destruct t; [congruence|]. rewrite len_cons in LC. lia.
Qed.

Lemma delim_var_bytes n : delim (var_bytes_from_stream n).
Proof.
  apply (delim_of_length _ n).
  - intros s _ L. rewrite var_bytes_spec. destruct (N.leb_spec n (len s)); [lia|eauto].
  - intros c _ L. exists c. intros r _. apply var_bytes_app. auto.
Qed.

Lemma tame_var_bytes n : tame (fun bs => len bs) (var_bytes_from_stream n).
Proof.
  intros s Hs. rewrite var_bytes_spec. destruct (N.leb_spec n (len s)); auto.
  eexists. split; [symmetry; apply firstn_skipn|]. lia.
Qed.

Lemma delim_from_datagram size msg : delim (from_datagram size msg).
Proof.
  apply (delim_of_length _ (N.of_nat size)).
  - intros s Hs L. rewrite from_datagram_spec by auto. unfold len in L.
    destruct (Nat.leb_spec size (length s)); [lia|eauto].
  - intros c Hc L. exists (be_val c). intros r _. apply from_datagram_app; auto. unfold len in L. lia.
Qed.

Lemma delim_var_u160 l : delim (var_u160_from_stream l).
Proof.
  apply (delim_of_length _ l); unfold var_u160_from_stream.
  - intros s _ L. rewrite u160_read_loop_short; [eauto|]. unfold len in L. lia.
  - intros c Hc L.
    assert (Z : 0 < 2 ^ 32 /\ 0 < 2 ^ 128) by (pows; lia).
    assert (E : exists x, forall r, u160_read_loop (N.to_nat l) "not enough bytes for var160" 0 0 (c ++ r) = Ok (x, r)).
    { assert (G : forall n c i0 i1, length c = n -> exists x, forall r,
         u160_read_loop n "not enough bytes for var160" i0 i1 (c ++ r) = Ok (x, r)).
      { induction n as [|n IH]; intros [|b d] i0 i1 Ln; try discriminate.
        - exists (U160 i0 i1). reflexivity.
        - cbn [app u160_read_loop next bind]. apply IH. injection Ln; auto. }
      apply G. unfold len in L. lia. }
    destruct E as [x E]. exists x. auto.
Qed.
