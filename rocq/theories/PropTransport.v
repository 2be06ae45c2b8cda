(** Properties C49-C51: transport parameters and error codes. *)
From Verif Require Import Base Utils Frame Spec Tactics UtilsFacts ParserFacts TransportParams SpecTransport.

(** ** C49 *)
Lemma varint_prefix x y a b r r' :
  varint_enc x a -> varint_enc y b -> a ++ r = b ++ r' -> x = y /\ a = b /\ r = r'.
Proof.
  intros A B E. pose proof (varint_dec true x a r A) as X.
  rewrite E, (varint_dec true y b r' B) in X. injection X as <- <- <-. auto.
Qed.

Lemma app_inv_len {A} (a b c d : list A) : len a = len b -> a ++ c = b ++ d -> a = b /\ c = d.
Proof.
  revert b. induction a as [|x a IH]; intros [|y b] L E; unfold len in *; cbn [length] in L; try lia; auto.
  injection E as <- E. destruct (IH b) with (2 := E) as [-> ->]; auto. unfold len. lia.
Qed.

(** The triple format can be read in one way only. *)
Theorem C49_format_unambiguous : forall items items' bs,
  tlv_enc items bs -> tlv_enc items' bs -> items = items'.
Proof.
  intros items items' bs H. revert items'. induction H as [|id v items a b bs Ha Hb H IH]; intros items' H'.
  - inversion H' as [|id v i a b r Ha Hb _ E]; subst; auto. exfalso. apply varint_enc_nonempty in Ha.
    destruct a; [unfold len in Ha; cbn in Ha; lia|discriminate].
  - remember (a ++ b ++ v ++ bs) as w eqn:Ew.
    destruct H' as [|id' v' i' a' b' r' Ha' Hb' H'].
    { exfalso. apply varint_enc_nonempty in Ha. destruct a; [unfold len in Ha; cbn in Ha; lia|discriminate]. }
    destruct (varint_prefix _ _ _ _ _ _ Ha' Ha Ew) as [-> [_ E]].
    destruct (varint_prefix _ _ _ _ _ _ Hb' Hb E) as [L [_ E']].
    destruct (app_inv_len _ _ _ _ L E') as [-> ->]. f_equal. apply IH. exact H'.
Qed.
Print Assumptions C49_format_unambiguous.

Lemma address_fields_ok x : tp_wf (TpPreferredAddress x) -> 
  exists addr, address_fields x addr /\ len addr = 24 /\
    preferred_address_to_bytes x = addr ++ pa_connection_id x.
Proof.
  intros [A [L4 [P4 [B [L6 [P6 [C LC]]]]]]]. unfold address_fields, preferred_address_to_bytes.
  exists (pa_ipv4_address x ++ be_bytes 2 (pa_ipv4_port x) ++ pa_ipv6_address x ++ be_bytes 2 (pa_ipv6_port x)).
  split; [|split].
  - exists (be_bytes 2 (pa_ipv4_port x)), (be_bytes 2 (pa_ipv6_port x)). unfold fixed_enc.
    repeat split; auto using be_bytes_ok; try apply be_bytes_len;
      apply be_val_be_bytes_small; (eapply N.lt_le_trans; [eassumption|reflexivity || (pows; lia)]).
  - rewrite !len_app, !be_bytes_len. lia.
  - rewrite <- !app_assoc. reflexivity.
Qed.

(** Every parameter that fits is written as its registered identifier, the
    length of its value, and its value; the others are refused. *)
Theorem C49_serialize_exact : forall p, tp_wf p ->
  (tp_fits p -> exists v a b, tp_serialize p = Ok (a ++ b ++ v) /\
     varint_enc (fst (tp_table p)) a /\ varint_enc (len v) b /\ tp_value (snd (tp_table p)) v) /\
  (~ tp_fits p -> exists e, tp_serialize p = Err e).
Proof.
  intros p W.
  assert (I : identifier_val p = fst (tp_table p) /\ v62 (identifier_val p)).
  { unfold v62. pows. destruct p; cbn; split; lia. }
  destruct I as [I V]. destruct (encode_var_int_ok _ V) as [a [Ea [Va _]]].
  unfold tp_serialize. rewrite Ea. cbn [bind]. rewrite I in Va.
  assert (G : forall v, tp_value_bytes p = Ok v -> len v < 2 ^ 62 -> tp_value (snd (tp_table p)) v ->
    exists v a0 b, (let? value_bytes := tp_value_bytes p in
       let? length_bytes := encode_var_int (len value_bytes) in Ok (a ++ length_bytes ++ value_bytes)) = Ok (a0 ++ b ++ v) /\
     varint_enc (fst (tp_table p)) a0 /\ varint_enc (len v) b /\ tp_value (snd (tp_table p)) v).
  { intros v E L T. rewrite E. cbn [bind]. destruct (encode_var_int_ok _ L) as [b [Eb [Vb _]]].
    rewrite Eb. cbn [bind]. exists v, a, b. auto. }
  assert (GI : forall x, snd (tp_table p) = CInt x -> tp_value_bytes p = encode_var_int x -> x < 2 ^ 62 ->
     exists v, tp_value_bytes p = Ok v /\ len v < 2 ^ 62 /\ tp_value (snd (tp_table p)) v).
  { intros x T E L. destruct (encode_var_int_ok _ L) as [v [Ev [Vv Lv]]]. exists v. rewrite E, T. repeat split; auto.
    rewrite Lv. unfold min_class. repeat match goal with |- context [if ?c then _ else _] => destruct c end; pows; lia. }
  unfold tp_wf, tp_fits in *.
  destruct (snd (tp_table p)) as [x|x| |x] eqn:T; split; intros F; try tauto.
  - destruct W as [B L]. apply (G x); auto; [|reflexivity]. destruct p; cbn in T; try discriminate T; injection T as <-; reflexivity.
  - destruct (GI x) as [v [E [L X]]]; auto; [destruct p; cbn in T; try discriminate T; injection T as <-; reflexivity|].
    apply (G v); auto.
  - eexists. assert (E : tp_value_bytes p = encode_var_int x)
      by (destruct p; cbn in T; try discriminate T; injection T as <-; reflexivity).
    rewrite E, encode_var_int_err by lia. reflexivity.
  - apply (G []); auto; [destruct p; cbn in T; try discriminate T; reflexivity|pows; unfold len; cbn [length]; lia|reflexivity].
  - assert (Ep : p = TpPreferredAddress x) by (destruct p; cbn in T; try discriminate T; injection T as <-; reflexivity).
    subst p. destruct (address_fields_ok x W) as [addr [A [LA E]]].
    apply (G (preferred_address_to_bytes x)); [reflexivity| |rewrite E; exists addr; auto].
    rewrite E, len_app, LA. destruct W as [_ [_ [_ [_ [_ [_ [_ L]]]]]]]. pows. lia.
Qed.
Print Assumptions C49_serialize_exact.

(** A parameter can be recovered from its identifier and value. *)
Lemma tp_recover p q v : tp_wf p -> tp_wf q -> fst (tp_table p) = fst (tp_table q) ->
  tp_value (snd (tp_table p)) v -> tp_value (snd (tp_table q)) v -> p = q.
Proof.
  assert (AD : forall x y, tp_wf (TpPreferredAddress x) -> tp_wf (TpPreferredAddress y) ->
     tp_value (CAddress x) v -> tp_value (CAddress y) v -> x = y).
  { intros x y _ _ [ax [[p4 [p6 [-> [A4 [A6 [B4 B6]]]]]] ->]] [ay [[q4 [q6 [-> [C4 [C6 [D4 D6]]]]]] E]].
    destruct B4 as [O4 [N4 V4]], B6 as [O6 [N6 V6]], D4 as [R4 [M4 W4]], D6 as [R6 [M6 W6]].
    rewrite <- !app_assoc in E.
    apply app_inv_len in E as [E1 E]; [|lia]. apply app_inv_len in E as [E2 E]; [|lia].
    apply app_inv_len in E as [E3 E]; [|lia]. apply app_inv_len in E as [E4 E]; [|lia].
    destruct x, y; cbn in *. congruence. }
  assert (VI : forall x y, varint_enc x v -> varint_enc y v -> x = y).
  { intros x y A B. apply (varint_prefix x y v v [] []); auto. }
  intros Wp Wq Eid Vp Vq. destruct p, q; cbn in Eid; try discriminate Eid; cbn in Vp, Vq;
    try (f_equal; apply VI; assumption); try reflexivity; try (f_equal; congruence).
  f_equal. apply AD; auto.
Qed.

(** [wires] are the serialised forms of [ps], one by one. *)
Definition serialized (ps : list transport_parameter) (wires : list (list N)) : Prop :=
  Forall2 (fun p w => tp_serialize p = Ok w) ps wires.

(** Any sequence written out is a sequence of triples carrying the identifiers
    and values of the parameters, in order; whoever splits the bytes according
    to the format finds these; and the parameters themselves are determined. *)
Theorem C49_self_delimiting : forall ps wires,
  Forall tp_wf ps -> serialized ps wires ->
  exists items, tlv_enc items (concat wires) /\
    Forall2 (fun p i => fst i = fst (tp_table p) /\ tp_value (snd (tp_table p)) (snd i)) ps items /\
    (forall items', tlv_enc items' (concat wires) -> items' = items) /\
    (forall ps' wires', Forall tp_wf ps' -> serialized ps' wires' -> concat wires' = concat wires -> ps' = ps).
Proof.
  assert (G : forall ps wires, Forall tp_wf ps -> serialized ps wires ->
    exists items, tlv_enc items (concat wires) /\
      Forall2 (fun p i => fst i = fst (tp_table p) /\ tp_value (snd (tp_table p)) (snd i)) ps items).
  { intros ps wires W S. induction S as [|p w ps wires E S IH]; [exists []; split; constructor|].
    inversion W as [|? ? Wp Ws]; subst. destruct (IH Ws) as [items [T F]].
    destruct (C49_serialize_exact p Wp) as [X Y].
    assert (FIT : tp_fits p).
    { unfold tp_fits in *. destruct (snd (tp_table p)); auto. destruct (N.lt_ge_cases x (2 ^ 62)); auto.
      destruct Y as [e Y]; [lia|]. congruence. }
    destruct (X FIT) as [v [a [b [E' [Va [Vb TV]]]]]]. rewrite E' in E. injection E as <-.
    exists ((fst (tp_table p), v) :: items). cbn [concat]. rewrite <- !app_assoc. split; constructor; auto. }
  intros ps wires W S. destruct (G ps wires W S) as [items [T F]]. exists items.
  repeat split; auto.
  - intros items' T'. eapply C49_format_unambiguous; eauto.
  - intros ps' wires' W' S' E. destruct (G ps' wires' W' S') as [items' [T' F']]. rewrite E in T'.
    rewrite (C49_format_unambiguous _ _ _ T' T) in F'. clear - W W' F F'.
    revert ps W F ps' W' F'. induction items as [|i items IH]; intros ps W F ps' W' F';
      inversion F as [|p ? ps1 ? [A1 A2] F1]; inversion F' as [|q ? qs ? [B1 B2] F1']; subst; auto.
    inversion W; inversion W'; subst. f_equal; [|apply IH; auto].
    apply (tp_recover q p (snd i)); auto. congruence.
Qed.
Print Assumptions C49_self_delimiting.

Definition sample_address : preferred_address :=
  PreferredAddress [192; 0; 2; 1] 4433 (repeat 7 16) 65535 [1; 2; 3].
Example C49_case :
  let ps := [TpMaxIdleTimeout 30000; TpDisableActiveMigration; TpInitialSourceConnectionId [1; 2; 3; 4; 5];
             TpPreferredAddress sample_address; TpInitialMaxData (2 ^ 62 - 1)] in
  Forall tp_wf ps /\ (exists wires, serialized ps wires /\ firstn 15 (concat wires) =
     [1; 4; 0x80; 0; 0x75; 0x30; 12; 0; 15; 5; 1; 2; 3; 4; 5]) /\
  ~ tp_fits (TpAckDelayExponent (2 ^ 62)) /\ tp_wf (TpAckDelayExponent (2 ^ 62)).
Proof.
  cbv zeta. split; [|split].
  - repeat constructor; cbn; unfold tp_wf; cbn; repeat split; try (apply bytes_ok_dec; reflexivity);
      try (pows; lia); try reflexivity.
  - eexists. split; [repeat constructor|reflexivity].
  - split; [intros H; cbn in H; pows; lia|cbn; pows; lia].
Qed.

(** ** C50 *)
Definition C50_statement : Prop := forall x, tp_wf (TpPreferredAddress x) -> len (pa_connection_id x) <= 20 ->
  exists token, rfc_preferred_address x token (preferred_address_to_bytes x).

(** No preferred address at all is written as the RFC prescribes: the length
    byte and the reset token are missing. *)
Theorem C50_never_conformant : forall x token, tp_wf (TpPreferredAddress x) ->
  ~ rfc_preferred_address x token (preferred_address_to_bytes x).
Proof.
  intros x token W [addr' [A' [LT [_ E]]]]. destruct (address_fields_ok x W) as [addr [_ [L E']]].
  destruct A' as [p4 [p6 [-> [L4 [L6 [[_ [M4 _]] [_ [M6 _]]]]]]]].
  rewrite E' in E. apply (f_equal len) in E. rewrite !len_app in E. change (len [len (pa_connection_id x)]) with 1 in E.
  lia.
Qed.
Print Assumptions C50_never_conformant.

Theorem C50_preferred_address_refuted : ~ C50_statement.
Proof.
  intros H. destruct (H sample_address) as [token X].
  - cbn; repeat split; try (apply bytes_ok_dec; reflexivity); try (pows; lia); reflexivity.
  - unfold len; cbn [pa_connection_id sample_address length]; lia.
  - revert X. apply C50_never_conformant.
    cbn; repeat split; try (apply bytes_ok_dec; reflexivity); try (pows; lia); reflexivity.
Qed.
Print Assumptions C50_preferred_address_refuted.

(** What holds: the address fields come first, in order; missing: the length
    byte before the id and the token after it. *)
Theorem C50_preferred_address_partial : forall x, tp_wf (TpPreferredAddress x) ->
  exists addr, address_fields x addr /\ preferred_address_to_bytes x = addr ++ pa_connection_id x.
Proof. intros x W. destruct (address_fields_ok x W) as [addr [A [_ E]]]. eauto. Qed.
Print Assumptions C50_preferred_address_partial.
Example C50_case : preferred_address_to_bytes sample_address =
  [192; 0; 2; 1; 0x11; 0x51] ++ repeat 7 16 ++ [255; 255; 1; 2; 3].
Proof. reflexivity. Qed.

(** ** C51 *)
Theorem C51_error_codes : forall e,
  (exists k, nth_error rfc_error_order (N.to_nat (to_error_byte e)) = Some k /\ same_kind e k) /\
  (forall e', to_error_byte e = to_error_byte e' <-> same_kind e e').
Proof.
  intros e. split.
  - destruct e; eexists; (split; [reflexivity|exact I || reflexivity]).
  - intros e'. destruct e, e'; cbn; split; intros H; try discriminate H; auto.
Qed.
Print Assumptions C51_error_codes.
Example C51_case : to_error_byte (InternalError "x") = to_error_byte (InternalError "y") /\
  to_error_byte FrameEncodingError = 7.
Proof. split; reflexivity. Qed.
