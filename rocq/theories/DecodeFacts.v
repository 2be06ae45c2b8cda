(** Lemmas about header announcements and the datagram decoder. *)
From Verif Require Import Base Utils Frame CipherSuite Secrets Connection Packet Histories Spec SpecPacket
  Tactics UtilsFacts ParserFacts FrameFacts SecretsFacts HeaderFacts PacketFacts ConnectionFacts PacketInv.

Lemma cons_app_inj {A} (a b c d : list A) : length a = length c -> a ++ b = c ++ d -> a = c /\ b = d.
Proof.
  revert c. induction a as [|x a IH]; intros [|y c] L E; cbn in *; try discriminate; auto.
  injection E as -> E. destruct (IH c ltac:(congruence) E) as [-> ->]. auto.
Qed.

Lemma len_length {A} (a b : list A) : len a = len b -> length a = length b.
Proof. unfold len. lia. Qed.

Lemma announces_fun s t u : announces s t -> announces s u -> t = u.
Proof.
  intros A A'. remember s as s' eqn:E in A'.
  destruct A as [b d r Hb Hd|b v d sc r Hb Hv V|b v d sc r t' Hb Hv V Hd Hs ->];
    destruct A' as [b' d' r' Hb' Hd'|b' v' d' sc' r' Hb' Hv' V'|b' v' d' sc' r' t2 Hb' Hv' V' Hd' Hs' ->];
    injection E as Eb E; subst b'; try reflexivity; try lia.
  - apply cons_app_inj in E as [-> _]; [congruence|]. apply len_length. congruence.
  - apply cons_app_inj in E as [-> _]; [congruence|]. apply len_length. congruence.
Qed.

Lemma header_announces s h r : bytes_ok s -> next_header_from_stream s = Ok (h, r) ->
  exists b s1, s = b :: s1 /\
  match h with
  | HShort x => b < 128 /\ short_from_stream b s1 = Ok (x, r) /\ announces s TOneRtt
  | HLong x => 128 <= b < 256 /\ lh_byte x = b /\ long_from_stream b s1 = Ok (x, r) /\
               announces s (kind b (lh_version x))
  end.
Proof.
  intros B E. destruct (next_header_cases s B) as [[e E']|[[b [s1 [x [r' [-> [Hb [El E']]]]]]]|[b [s1 [x [r' [-> [Hb [El E']]]]]]]]];
    rewrite E' in E; try discriminate; injection E as <- <-; exists b, s1; split; auto.
  - apply bytes_ok_cons in B as [_ B]. destruct (long_inv _ _ _ _ B El) as [Eb C].
    split; [auto|]. split; [auto|]. split; [auto|]. unfold kind.
    destruct (N.ltb_spec b 128); [lia|].
    destruct C as [[V [_ [_ [bs [-> [v [d [sc [Fv [Ld [Cd [Ls [Cs ->]]]]]]]]]]]]]|[V [_ [v [d [sc [-> [Fv _]]]]]]]].
    + destruct (N.eqb_spec (lh_version x) 0); [lia|].
      destruct Fv as [_ [Lv Vv]]. destruct Cd as [_ [_ [Ld' _]]], Cs as [_ [_ [Ls' _]]].
      rewrite <- app_assoc, <- app_comm_cons, <- app_assoc, <- app_comm_cons.
      rewrite <- Ld', <- Ls'.
      apply an_long; try congruence; try lia.
    + rewrite V, N.eqb_refl. destruct Fv as [_ [Lv Vv]]. apply an_vn; auto.
  - apply bytes_ok_cons in B as [_ B]. destruct (short_inv _ _ _ _ B El) as [d [-> [[_ [_ [Ld _]]] _]]].
    split; [auto|]. split; [auto|]. apply an_short; auto.
Qed.

Lemma cid_enc_of_bytes d l : bytes_ok d -> len d = l -> l <= 20 -> exists u, cid_enc u l d.
Proof.
  intros B L Hl. exists (U160 (be_val d / 2 ^ 128) (be_val d mod 2 ^ 128)).
  pose proof (be_val_bound d B) as V. rewrite L in V. pose proof (pow256_le_160 l Hl) as P.
  assert (be_val d < 2 ^ 160) by lia.
  split; [|split; [auto|split; [auto|]]].
  - unfold cid_ok; cbn [idx0 idx1]. pows. lia.
  - unfold cid_val; cbn [idx0 idx1]. pows. lia.
Qed.

Lemma announces_header s t : bytes_ok s -> announces s t ->
  exists h r, next_header_from_stream s = Ok (h, r) /\
  match h with HShort _ => t = TOneRtt | HLong x => t = kind (lh_byte x) (lh_version x) end.
Proof.
  intros B A. assert (X : exists h r, next_header_from_stream s = Ok (h, r)).
  { unfold next_header_from_stream.
    destruct A as [b d r Hb Hd|b v d sc r Hb Hv V|b v d sc r t' Hb Hv V Hd Hs ->];
      apply bytes_ok_cons in B as [Bb B]; cbn [next bind]; rewrite land_128 by auto;
      apply bytes_ok_app in B as [B1 B].
    - destruct (N.leb_spec 128 b); [lia|].
      destruct (cid_enc_of_bytes d 8 B1 Hd ltac:(lia)) as [u C]. rewrite (short_dec _ _ _ _ C). cbn [bind]. eauto.
    - destruct (N.leb_spec 128 b); [|lia]. apply bytes_ok_cons in B as [Ld B]. apply bytes_ok_app in B as [Bd B].
      apply bytes_ok_cons in B as [Ls B]. apply bytes_ok_app in B as [Bs B].
      rewrite vn_dec; auto; [|split; auto]. cbn [bind]. eauto.
    - destruct (N.leb_spec 128 b); [|lia]. apply bytes_ok_cons in B as [Ld B]. apply bytes_ok_app in B as [Bd B].
      apply bytes_ok_cons in B as [Ls B]. apply bytes_ok_app in B as [Bs B].
      destruct (cid_enc_of_bytes d _ Bd eq_refl Hd) as [ud Cd].
      destruct (cid_enc_of_bytes sc _ Bs eq_refl Hs) as [us Cs].
      replace (v ++ len d :: d ++ len sc :: sc ++ r) with ((v ++ len d :: d ++ len sc :: sc) ++ r)
        by (repeat rewrite <- ?app_assoc, <- ?app_comm_cons; reflexivity).
      rewrite (long_dec (LongHeader b (be_val v) (len d) ud (len sc) us None true)).
      + cbn [bind]. eauto.
      + exists v, d, sc. cbn. split; [split; auto|]. auto 10.
      + exact V.
      + reflexivity. }
  destruct X as [h [r E]]. exists h, r. split; [auto|].
  destruct (header_announces s h r B E) as [b [s1 [-> K]]]. destruct h as [x|x].
  - destruct K as [_ [_ A']]. eapply announces_fun; eauto.
  - destruct K as [_ [<- [_ A']]]. eapply announces_fun; eauto.
Qed.

Lemma header_announces_iff s : bytes_ok s ->
  (exists h r, next_header_from_stream s = Ok (h, r)) <-> (exists t, announces s t).
Proof.
  intros B. split.
  - intros [h [r E]]. destruct (header_announces s h r B E) as [b [s1 [_ K]]]. destruct h.
    + destruct K as [_ [_ K]]. eauto.
    + destruct K as [_ [_ [_ K]]]. eauto.
  - intros [t A]. destruct (announces_header s t B A) as [h [r [E _]]]. eauto.
Qed.

(** Protection leaves the type alone. *)
Lemma unprotect_type h mask h' : long_remove_protection h mask = Ok h' ->
  lh_version h' = lh_version h /\ lh_byte h' / 16 = lh_byte h / 16 /\ lh_protected h' = false.
Proof.
  unfold long_remove_protection. destruct (lh_protected h) eqn:P.
  - intros H. inv_bind. injection H as <-. cbn. rewrite low4_div. auto.
  - intros [= <-]. auto.
Qed.
