(** C91: two different lists of frames are never the same bytes. *)
From Verif Require Import Base Utils Frame Spec Tactics UtilsFacts ParserFacts FrameFacts PropFrame.

Lemma varint_split x y a b r r' : varint_enc x a -> varint_enc y b -> a ++ r = b ++ r' -> x = y /\ r = r'.
Proof.
  intros Ha Hb E. pose proof (varint_dec' true x a r Ha) as D. rewrite E, (varint_dec' true y b r' Hb) in D.
  injection D as -> ->. auto.
Qed.
Lemma app_split (a b r r' : list N) : len a = len b -> a ++ r = b ++ r' -> a = b /\ r = r'.
Proof.
  unfold len. intros L. assert (L' : length a = length b) by lia. clear L. revert b L'.
  induction a as [|x a IH]; intros [|y b] L E; cbn in *; try discriminate; auto.
  injection E as -> E. destruct (IH b ltac:(lia) E) as [-> ->]. auto.
Qed.
Lemma ranges_split : forall rs a, ranges_enc rs a -> forall rs' b r r', ranges_enc rs' b ->
  len rs = len rs' -> a ++ r = b ++ r' -> rs = rs' /\ r = r'.
Proof.
  induction 1 as [|g l rs a b bs Ha Hb _ IH]; intros rs' b' r r' H' L E.
  - destruct H'; [auto|]. rewrite len_cons in L. change (len (@nil ack_range)) with 0 in L. lia.
  - destruct H' as [|g' l' rs' a' b' bs' Ha' Hb' H'].
    { rewrite len_cons in L. change (len (@nil ack_range)) with 0 in L. lia. }
    rewrite <- !app_assoc in E.
    destruct (varint_split _ _ _ _ _ _ Ha Ha' E) as [-> E1].
    destruct (varint_split _ _ _ _ _ _ Hb Hb' E1) as [-> E2].
    rewrite !len_cons in L. destruct (IH rs' bs' r r' H' ltac:(lia) E2) as [-> ->]. auto.
Qed.
Lemma cid_val_inj c d : cid_ok c -> cid_ok d -> cid_val c = cid_val d -> c = d.
Proof.
  destruct c as [c0 c1], d as [d0 d1]. unfold cid_ok, cid_val. cbn [idx0 idx1]. intros [A1 A2] [B1 B2] E.
  assert (c0 = d0 /\ c1 = d1) as [-> ->]; [|reflexivity].
  change (2 ^ 128) with (340282366920938463463374607431768211456) in *. lia.
Qed.

Lemma cons_eq {A} (x y : A) l l' : x :: l = y :: l' -> x = y /\ l = l'.
Proof. intros E. injection E. auto. Qed.

Ltac types_differ T :=
  exfalso; unfold bit in T;
  repeat match type of T with context [if ?b then _ else _] => destruct b end; discriminate T.
Ltac step :=
  match goal with
  | E : ?a ++ _ = ?b ++ _, H : varint_enc ?x ?a, H' : varint_enc ?y ?b |- _ =>
      let X := fresh "X" in let E' := fresh "E" in
      destruct (varint_split _ _ _ _ _ _ H H' E) as [X E']; clear E H H'; subst
  | E : ?a ++ _ = ?b ++ _, H : ranges_enc ?x ?a, H' : ranges_enc ?y ?b, L : len ?x = len ?y |- _ =>
      let X := fresh "X" in let E' := fresh "E" in
      destruct (ranges_split _ _ H _ _ _ _ H' L E) as [X E']; clear E L H H'; subst
  | E : ?a ++ _ = ?b ++ _, H : fixed_enc ?n ?x ?a, H' : fixed_enc ?n ?y ?b |- _ =>
      let X := fresh "X" in let E' := fresh "E" in
      destruct H as [? [? ?]], H' as [? [? ?]];
      destruct (app_split a b _ _ ltac:(congruence) E) as [X E']; clear E; subst
  | E : ?a ++ _ = ?b ++ _, H : cid_enc ?x ?n ?a, H' : cid_enc ?y ?n ?b |- _ =>
      let X := fresh "X" in let E' := fresh "E" in let Y := fresh "Y" in
      destruct H as [? [? [? ?]]], H' as [? [? [? ?]]];
      destruct (app_split a b _ _ ltac:(congruence) E) as [X E']; clear E; subst a;
      assert (Y : x = y) by (apply cid_val_inj; congruence); subst
  | E : ?a ++ _ = ?b ++ _, L : len ?a = len ?b |- _ =>
      let X := fresh "X" in let E' := fresh "E" in
      destruct (app_split a b _ _ L E) as [X E']; clear E L; subst
  | E : _ :: _ = _ :: _ |- _ => apply cons_eq in E as [? E]; subst
  end.

(** The frame a payload starts with, and what follows it, can be read off it:
    a frame without a length must be the last one. *)
Lemma frame_split last f a last' g b r r' :
  frame_enc last f a -> frame_enc last' g b -> (last = true -> r = []) -> (last' = true -> r' = []) ->
  a ++ r = b ++ r' -> f = g /\ r = r'.
Proof.
  intros Ha Hb Hl Hl' E.
  destruct Ha; destruct Hb; cbn [app] in E; apply cons_eq in E as [T E];
    try (exfalso; discriminate T); try types_differ T; rewrite <- ?app_assoc in E; try (cbn [app] in E);
    rewrite <- ?app_assoc in E.
  all: try solve [repeat step; auto].
  - assert (o = o0 /\ l = l0 /\ fin = fin0) as [-> [-> ->]]
      by (destruct o, o0, l, l0, fin, fin0; cbn in T; try discriminate T; auto).
    step. assert (X : off = off0 /\ c ++ data ++ r = c0 ++ data0 ++ r').
    { destruct o0; [step; auto|]. destruct H0 as [-> ->], H4 as [-> ->]. auto. }
    clear E0. destruct X as [-> E].
    destruct l0.
    + repeat step. auto.
    + destruct H1 as [-> ->], H5 as [-> ->]. rewrite (Hl eq_refl), (Hl' eq_refl) in *.
      cbn [app] in E. rewrite !app_nil_r in E. subst. auto.
  - assert (uni = uni0) as -> by (destruct uni, uni0; cbn in T; try discriminate T; auto). step. auto.
  - assert (uni = uni0) as -> by (destruct uni, uni0; cbn in T; try discriminate T; auto). step. auto.
Qed.

Lemma frame_enc_nonempty last f : ~ frame_enc last f [].
Proof. intros H. inversion H. Qed.
Lemma frames_enc_nil fs : frames_enc fs [] -> fs = [].
Proof.
  intros H. inversion H as [|? ? H1|f g gs a bs H1 H2 E1 E2]; subst; auto.
  - destruct (frame_enc_nonempty _ _ H1).
  - destruct a; [destruct (frame_enc_nonempty _ _ H1)|discriminate].
Qed.
Lemma frames_enc_cons f fs bs : frames_enc (f :: fs) bs ->
  exists last a r, bs = a ++ r /\ frame_enc last f a /\ frames_enc fs r /\ (last = true -> r = []).
Proof.
  intros H. inversion H; subst.
  - exists true, bs, []. rewrite app_nil_r. repeat split; auto. constructor.
  - exists false, a, bs0. repeat split; auto. discriminate.
Qed.

(** RFC 9000 section 19 gives a payload one reading. *)
Theorem C91_format_unambiguous : forall fs gs bs, frames_enc fs bs -> frames_enc gs bs -> fs = gs.
Proof.
  induction fs as [|f fs IH]; intros gs bs Hf Hg.
  - inversion Hf; subst. symmetry. apply frames_enc_nil. exact Hg.
  - destruct gs as [|g gs].
    { inversion Hg; subst. apply frames_enc_nil in Hf. exact Hf. }
    apply frames_enc_cons in Hf as [l [a [r [-> [Ha [Hr Hl]]]]]].
    apply frames_enc_cons in Hg as [l' [b [r' [E [Hb [Hr' Hl']]]]]].
    destruct (frame_split _ _ _ _ _ _ _ _ Ha Hb Hl Hl' E) as [-> ->]. f_equal. eapply IH; eauto.
Qed.
Print Assumptions C91_format_unambiguous.

(** So different frames are always different bytes. *)
Theorem C91_encoder_injective : forall fs gs d d' bs,
  Forall frame_wf fs -> Forall frame_wf gs ->
  serialize_frames fs d = Ok bs -> serialize_frames gs d' = Ok bs -> fs = gs.
Proof.
  intros fs gs d d' bs Hf Hg Ef Eg.
  destruct (C13_sequence_rfc_layout fs d Hf) as [bf [F1 F2]].
  destruct (C13_sequence_rfc_layout gs d' Hg) as [bg [G1 G2]].
  rewrite Ef in F1. rewrite Eg in G1. injection F1 as <-. injection G1 as <-.
  eapply C91_format_unambiguous; eauto.
Qed.
Print Assumptions C91_encoder_injective.

(** Padding after a STREAM frame, and the same bytes as stream data. *)
Example C91_case :
  Forall frame_wf [Stream (FrameStream 4 9 1 [0] false); Padding] /\
  Forall frame_wf [Stream (FrameStream 4 9 2 [0; 0] false)] /\
  serialize_frames [Stream (FrameStream 4 9 1 [0] false); Padding] true = Ok [0x0e; 4; 9; 1; 0; 0] /\
  serialize_frames [Stream (FrameStream 4 9 2 [0; 0] false)] true = Ok [0x0c; 4; 9; 0; 0].
Proof.
  split; [|split; [|split; vm_compute; reflexivity]].
  - repeat constructor; unfold v62; cbn; try lia.
  - repeat constructor; unfold v62; cbn; try lia.
Qed.
