(** Properties C17-C19, C26, C27, C64: packet headers. *)
From Verif Require Import Base Utils Frame CipherSuite Secrets Connection Packet Spec SpecPacket
  Tactics UtilsFacts ParserFacts SecretsFacts HeaderFacts PacketFacts PacketInv DecodeFacts.

(** ** C17: headers are parsed and re-emitted byte-exactly. *)
Theorem C17_header_reemitted : forall s h rest,
  bytes_ok s -> next_header_from_stream s = Ok (h, rest) ->
  match h with
  | HShort x => exists bs, s = bs ++ rest /\ short_to_bytes x = Ok bs
  | HLong x => lh_version x <> 0 ->
      exists bs, s = bs ++ rest /\ long_to_bytes x = Ok bs
  end.
Proof.
  intros s h rest B E. destruct (header_announces s h rest B E) as [b [s1 [-> K]]].
  apply bytes_ok_cons in B as [_ B]. destruct h as [x|x].
  - destruct K as [_ [Es _]]. destruct (short_inv _ _ _ _ B Es) as [d [-> [C Ex]]].
    exists (b :: d). split; [reflexivity|]. rewrite (short_to_bytes_ok _ _ C). rewrite Ex. reflexivity.
  - destruct K as [_ [Eb [El _]]]. intros V.
    destruct (long_inv _ _ _ _ B El) as [_ [[_ [_ [_ [bs [-> F]]]]]|[V0 _]]]; [|contradiction].
    exists (b :: bs). split; [reflexivity|]. rewrite (long_to_bytes_ok _ _ F), Eb. reflexivity.
Qed.
Print Assumptions C17_header_reemitted.

(** The parsed fields are the ones on the wire (RFC 9000 section 17.2). *)
Theorem C17_header_fields : forall s h rest,
  bytes_ok s -> next_header_from_stream s = Ok (HLong h, rest) -> lh_version h <> 0 ->
  exists b fields, s = b :: fields ++ rest /\ lh_byte h = b /\ 128 <= b /\ long_fields h fields.
Proof.
  intros s h rest B E V. destruct (header_announces s _ rest B E) as [b [s1 [-> K]]].
  apply bytes_ok_cons in B as [_ B]. destruct K as [Hb [Eb [El _]]].
  destruct (long_inv _ _ _ _ B El) as [_ [[_ [_ [_ [bs [-> F]]]]]|[V0 _]]]; [|contradiction].
  exists b, bs. repeat split; try tauto.
Qed.
Print Assumptions C17_header_fields.

(** Complete headers are accepted, everything else is refused with an error. *)
Theorem C17_header_total : forall s, bytes_ok s ->
  (exists t, announces s t) /\ (exists h rest, next_header_from_stream s = Ok (h, rest)) \/
  ~ (exists t, announces s t) /\ (exists e, next_header_from_stream s = Err e).
Proof.
  intros s B. destruct (next_header_cases s B) as [[e E]|[[b [s1 [h [r [_ [_ [_ E]]]]]]]|[b [s1 [h [r [_ [_ [_ E]]]]]]]]].
  - right. split; eauto. intros X. apply header_announces_iff in X; auto. destruct X as [h [r X]]. congruence.
  - left. split; [apply header_announces_iff; auto|]; eauto.
  - left. split; [apply header_announces_iff; auto|]; eauto.
Qed.
Print Assumptions C17_header_total.

Theorem C17_long_ids_rejected : forall b v l rest,
  bytes_ok (b :: v ++ l :: rest) -> 128 <= b -> len v = 4 -> be_val v <> 0 -> 20 < l ->
  (exists e, next_header_from_stream (b :: v ++ l :: rest) = Err e) /\
  (forall d rest', len d <= 20 -> bytes_ok d -> bytes_ok rest' ->
     exists e, next_header_from_stream (b :: v ++ len d :: d ++ l :: rest') = Err e).
Proof.
  assert (X : forall s, bytes_ok s -> ~ (exists t, announces s t) -> exists e, next_header_from_stream s = Err e).
  { intros s B N. destruct (C17_header_total s B) as [[Y _]|[_ Y]]; [contradiction|exact Y]. }
  intros b v l rest B Hb Lv V Hl.
  pose proof B as B'. apply bytes_ok_cons in B' as [Bb B']. apply bytes_ok_app in B' as [Bv B'].
  apply bytes_ok_cons in B' as [Bl B'].
  split.
  - apply X; auto. intros [t A]. remember (b :: v ++ l :: rest) as s eqn:E.
    destruct A as [b' d r Hb' Hd|b' v' d sc r Hb' Hv V'|b' v' d sc r t' Hb' Hv V' Hd Hs _];
      injection E as Eb E; [lia| |]; apply cons_app_inj in E as [-> E]; try (apply len_length; congruence);
      injection E as E _; [contradiction|lia].
  - intros d rest' Ld Bd Br. apply X.
    { apply bytes_ok_cons; split; auto. apply bytes_ok_app; split; auto. apply bytes_ok_cons; split; [lia|].
      apply bytes_ok_app; split; auto. apply bytes_ok_cons; auto. }
    intros [t A]. remember (b :: v ++ len d :: d ++ l :: rest') as s eqn:E.
    destruct A as [b' d' r Hb' Hd|b' v' d' sc r Hb' Hv V'|b' v' d' sc r t' Hb' Hv V' Hd Hs _];
      injection E as Eb E; [lia| |]; apply cons_app_inj in E as [-> E]; try (apply len_length; congruence);
      injection E as E1 E; [contradiction|]. apply cons_app_inj in E as [-> E]; [|apply len_length; auto].
    injection E as E _. lia.
Qed.
Example C17_case :
  let s := [0xc3; 0; 0; 0; 1; 2; 0xab; 0xcd; 1; 0x07; 0x00; 0x41] in
  bytes_ok s /\
  next_header_from_stream s =
    Ok (HLong (LongHeader 0xc3 1 2 (U160 0 0xabcd) 1 (U160 0 7) None true), [0x00; 0x41]) /\
  announces s TInitial /\
  (exists e, next_header_from_stream [0xc3; 0; 0; 0; 1; 21; 0; 0] = Err e).
Proof.
  cbv zeta. split; [repeat constructor|]. split; [vm_compute; reflexivity|]. split.
  - apply (an_long 0xc3 [0; 0; 0; 1] [0xab; 0xcd] [7] [0x00; 0x41]); vm_compute; congruence || reflexivity.
  - eexists. vm_compute. reflexivity.
Qed.
Print Assumptions C17_long_ids_rejected.
Example C17_long_source_case : exists e,
  next_header_from_stream (0xc3 :: [0; 0; 0; 1] ++ len [7; 7] :: [7; 7] ++ 21 :: repeat 0 30) = Err e.
Proof. eexists; reflexivity. Qed.

(** ** C18: header protection is an involution on the protected bits. *)
Theorem C18_long_involution : forall h m ms,
  let mask := m :: ms in
  (lh_protected h = false ->
     exists h', long_add_protection h mask = Ok h' /\ lh_protected h' = true /\
                long_remove_protection h' mask = Ok h) /\
  (lh_protected h = true ->
     exists h', long_remove_protection h mask = Ok h' /\ lh_protected h' = false /\
                long_add_protection h' mask = Ok h).
Proof.
  intros [b v dl d sl s vn p] m ms. cbn. split; intros ->.
  - unfold long_add_protection, long_remove_protection. cbn.
    eexists. split; [reflexivity|]. cbn. rewrite xor_low_twice. auto.
  - unfold long_add_protection, long_remove_protection. cbn.
    eexists. split; [reflexivity|]. cbn. rewrite xor_low_twice. auto.
Qed.
Print Assumptions C18_long_involution.

Theorem C18_short_involution : forall h m ms,
  let mask := m :: ms in
  (sh_protected h = false ->
     exists h', short_add_protection h mask = Ok h' /\ sh_protected h' = true /\
                short_remove_protection h' mask = Ok h) /\
  (sh_protected h = true ->
     exists h', short_remove_protection h mask = Ok h' /\ sh_protected h' = false /\
                short_add_protection h' mask = Ok h).
Proof.
  intros [b d p] m ms. cbn. split; intros ->.
  - unfold short_add_protection, short_remove_protection. cbn.
    eexists. split; [reflexivity|]. cbn. rewrite xor_low_twice. auto.
  - unfold short_add_protection, short_remove_protection. cbn.
    eexists. split; [reflexivity|]. cbn. rewrite xor_low_twice. auto.
Qed.
Print Assumptions C18_short_involution.

(** Only the low 4 (5) bits can change, every masked bit does change exactly when
    the mask says so, and nothing but the first byte is touched. *)
Lemma testbit_low b m n i : N.testbit (N.lxor b (N.land m (2 ^ n - 1))) i =
  if i <? n then xorb (N.testbit b i) (N.testbit m i) else N.testbit b i.
Proof.
  rewrite N.lxor_spec, N.land_spec.
  replace (2 ^ n - 1) with (N.ones n) by (rewrite N.ones_equiv; pose proof (N.pow_nonzero 2 n); lia).
  destruct (N.ltb_spec i n).
  - rewrite N.ones_spec_low, andb_true_r by auto. reflexivity.
  - rewrite N.ones_spec_high, andb_false_r, xorb_false_r by auto. reflexivity.
Qed.

Theorem C18_long_bits : forall h m ms h' i,
  (long_add_protection h (m :: ms) = Ok h' /\ lh_protected h = false \/
   long_remove_protection h (m :: ms) = Ok h' /\ lh_protected h = true) ->
  N.testbit (lh_byte h') i =
    (if i <? 4 then xorb (N.testbit (lh_byte h) i) (N.testbit m i) else N.testbit (lh_byte h) i) /\
  lh_version h' = lh_version h /\ lh_dcid_len h' = lh_dcid_len h /\ lh_dcid h' = lh_dcid h /\
  lh_scid_len h' = lh_scid_len h /\ lh_scid h' = lh_scid h /\ lh_vn h' = lh_vn h.
Proof.
  intros h m ms h' i H. unfold long_add_protection, long_remove_protection in H.
  destruct H as [[E P]|[E P]]; rewrite P in E; cbn in E; injection E as <-; cbn;
    (split; [exact (testbit_low (lh_byte h) m 4 i)|auto 10]).
Qed.
Print Assumptions C18_long_bits.

Theorem C18_short_bits : forall h m ms h' i,
  (short_add_protection h (m :: ms) = Ok h' /\ sh_protected h = false \/
   short_remove_protection h (m :: ms) = Ok h' /\ sh_protected h = true) ->
  N.testbit (sh_byte h') i =
    (if i <? 5 then xorb (N.testbit (sh_byte h) i) (N.testbit m i) else N.testbit (sh_byte h) i) /\
  sh_dcid h' = sh_dcid h.
Proof.
  intros h m ms h' i H. unfold short_add_protection, short_remove_protection in H.
  destruct H as [[E P]|[E P]]; rewrite P in E; cbn in E; injection E as <-; cbn;
    (split; [exact (testbit_low (sh_byte h) m 5 i)|auto 10]).
Qed.
Print Assumptions C18_short_bits.

Theorem C18_idempotent : forall h g mask mask' h' g',
  (long_add_protection h mask = Ok h' -> long_add_protection h' mask' = Ok h') /\
  (long_remove_protection h mask = Ok h' -> long_remove_protection h' mask' = Ok h') /\
  (short_add_protection g mask = Ok g' -> short_add_protection g' mask' = Ok g') /\
  (short_remove_protection g mask = Ok g' -> short_remove_protection g' mask' = Ok g').
Proof.
  intros h g mask mask' h' g'.
  unfold long_add_protection, long_remove_protection, short_add_protection, short_remove_protection.
  destruct (lh_protected h) eqn:P, (sh_protected g) eqn:Q; cbn; repeat split; intros H; inv_bind;
    injection H as <-; cbn; rewrite ?P, ?Q; reflexivity.
Qed.
Print Assumptions C18_idempotent.
Example C18_idempotent_case :
  let h := LongHeader 0xc0 1 0 u160_zero 0 u160_zero None true in
  let g := ShortHeader 0x5e (U160 0 5) false in
  long_add_protection h [0xff; 1; 1; 1; 1] = Ok h /\ short_remove_protection g [0xff; 1; 1; 1; 1] = Ok g.
Proof. split; reflexivity. Qed.

Theorem C18_protected_bits_unreadable : forall h g,
  (lh_protected h = true -> exists e, long_packet_number_length h = Err e) /\
  (lh_protected h = false -> exists n, long_packet_number_length h = Ok n /\ 1 <= n <= 4 /\
       n = lh_byte h mod 4 + 1) /\
  (sh_protected g = true ->
     (exists e, short_packet_number_length g = Err e) /\ (exists e, short_reserved_bits g = Err e) /\
     (exists e, short_key_phase g = Err e) /\ (exists e, short_spin_bit g = Err e)) /\
  (sh_protected g = false ->
     short_packet_number_length g = Ok (sh_byte g mod 4 + 1) /\
     short_reserved_bits g = Ok (sh_byte g / 8 mod 4) /\
     short_key_phase g = Ok (N.testbit (sh_byte g) 2) /\
     short_spin_bit g = Ok (N.testbit (sh_byte g) 5)).
Proof.
  intros h g. unfold long_packet_number_length, short_packet_number_length, short_reserved_bits,
    short_key_phase, short_spin_bit.
  assert (L3 : forall b, N.land b 3 = b mod 4) by (intros b; exact (land_mask b 2)).
  assert (T : forall b k, (N.land b (2 ^ k) =? 2 ^ k) = N.testbit b k).
  { intros b k. destruct (N.eqb_spec (N.land b (2 ^ k)) (2 ^ k)) as [E|E].
    - apply (f_equal (fun x => N.testbit x k)) in E. rewrite N.land_spec, N.pow2_bits_true, andb_true_r in E. congruence.
    - destruct (N.testbit b k) eqn:Tb; auto. exfalso. apply E. apply N.bits_inj. intros i. rewrite N.land_spec.
      destruct (N.eq_dec k i) as [<-|D]; [rewrite Tb; reflexivity|].
      rewrite N.pow2_bits_false by auto. apply andb_false_r. }
  split; [|split; [|split]]; intros P; rewrite P; cbn; eauto.
  - eexists. split; [reflexivity|]. rewrite L3. lia.
  - eauto 10.
  - rewrite L3. split; [reflexivity|]. split; [|split].
    + f_equal. replace 0x18 with (N.shiftl 3 3) by reflexivity.
      rewrite N.shiftr_land, N.shiftr_shiftl_l, N.sub_diag, N.shiftl_0_r by lia.
      rewrite L3, N.shiftr_div_pow2. reflexivity.
    + rewrite <- T. reflexivity.
    + rewrite <- T. reflexivity.
Qed.
Example C18_case :
  let h := LongHeader 0xc3 1 0 u160_zero 0 u160_zero None false in
  let g := ShortHeader 0x41 (U160 0 5) true in
  long_add_protection h [0x43; 0x7b; 0x9a; 0xec; 0x36] =
    Ok (LongHeader 0xc0 1 0 u160_zero 0 u160_zero None true) /\
  short_remove_protection g [0xff; 0; 0; 0; 0] = Ok (ShortHeader 0x5e (U160 0 5) false).
Proof. split; reflexivity. Qed.
Print Assumptions C18_protected_bits_unreadable.
Example C18_unreadable_case :
  long_packet_number_length (LongHeader 0xc2 1 0 u160_zero 0 u160_zero None false) = Ok 3 /\
  (exists e, long_packet_number_length (LongHeader 0xc2 1 0 u160_zero 0 u160_zero None true) = Err e) /\
  short_key_phase (ShortHeader 0x44 (U160 0 5) false) = Ok true /\
  (exists e, short_key_phase (ShortHeader 0x44 (U160 0 5) true) = Err e).
Proof. repeat split; try reflexivity; eexists; reflexivity. Qed.

(** ** C19: packet-number masking. *)
Theorem C19_pn_mask : forall bs m0 m1 m2 m3 m4 more,
  let mask := m0 :: m1 :: m2 :: m3 :: m4 :: more in
  if len bs <=? 4 then
    exists bs', xor_pn_protection bs mask = Ok bs' /\ length bs' = length bs /\
      (forall i b, nth_error bs i = Some b -> exists m, nth_error [m1; m2; m3; m4] i = Some m /\
         nth_error bs' i = Some (N.lxor b m)) /\
      (forall m0' more', xor_pn_protection bs (m0' :: m1 :: m2 :: m3 :: m4 :: more') = Ok bs') /\
      xor_pn_protection bs' mask = Ok bs
  else exists e, xor_pn_protection bs mask = Err e.
Proof.
  intros bs m0 m1 m2 m3 m4 more mask. unfold xor_pn_protection.
  destruct (N.leb_spec (len bs) 4) as [L|L].
  - destruct (N.ltb_spec 4 (len bs)); [lia|].
    assert (D : exists l, (l <= 4)%nat /\ length bs = l) by (exists (length bs); unfold len in L; lia).
    destruct D as [l [Hl D]].
    destruct bs as [|a [|b [|c [|d [|e bs]]]]]; cbn in D; try lia;
      (eexists; split; [reflexivity|]; split; [reflexivity|]; split;
       [|split; [reflexivity|]; cbn; rewrite ?xor_low_twice; reflexivity]);
      intros i x H'; repeat (destruct i as [|i]; cbn in H' |- *; [injection H' as <-; eauto|]);
      destruct i; discriminate.
  - destruct (N.ltb_spec 4 (len bs)); [|lia]. eauto.
Qed.
Example C19_case :
  xor_pn_protection [0; 0; 0; 2] [0x43; 0x7b; 0x9a; 0xec; 0x36] = Ok [0x7b; 0x9a; 0xec; 0x34] /\
  (exists e, xor_pn_protection [1; 2; 3; 4; 5] [0x43; 0x7b; 0x9a; 0xec; 0x36] = Err e).
Proof. split; [reflexivity | eexists; reflexivity]. Qed.
Print Assumptions C19_pn_mask.

(** ** C26: version negotiation. *)
Lemma versions_enc_len vs bs : versions_enc vs bs -> len bs = 4 * len vs /\ bytes_ok bs.
Proof.
  induction 1 as [|v vs a bs [B [L _]] _ [IH BB]]; [split; [reflexivity|constructor]|].
  rewrite len_app, len_cons, L, IH. split; [lia|]. apply bytes_ok_app; auto.
Qed.

Lemma vn_chunks_dec vs bs : versions_enc vs bs -> forall fuel, (length bs <= fuel)%nat ->
  vn_chunks fuel bs = Ok vs.
Proof.
  induction 1 as [|v vs a bs F _ IH]; intros fuel L.
  - destruct fuel; reflexivity.
  - pose proof F as [B [La V]]. destruct a as [|x a]; [discriminate|].
    rewrite app_length in L. destruct fuel as [|f]; [cbn in L; lia|].
    cbn [app vn_chunks]. change (x :: a ++ bs) with ((x :: a) ++ bs).
    assert (LL : length (x :: a) = 4%nat) by (unfold len in La; lia).
    rewrite firstn_app_exact, skipn_app_exact by auto.
    rewrite <- (app_nil_r (x :: a)), (u32_dec v) by auto. cbn [bind].
    rewrite IH by lia. reflexivity.
Qed.

Lemma versions_enc_exists n : forall bs, bytes_ok bs -> length bs = (4 * n)%nat ->
  exists vs, versions_enc vs bs.
Proof.
  induction n as [|n IH]; intros bs B L.
  - destruct bs; [|cbn in L; lia]. exists []. constructor.
  - destruct (IH (skipn 4 bs)) as [vs V].
    + apply bytes_ok_skipn; auto.
    + rewrite skipn_length. lia.
    + exists (be_val (firstn 4 bs) :: vs). rewrite <- (firstn_skipn 4 bs) at 2. constructor; auto.
      split; [apply bytes_ok_firstn; auto|]. split; [|reflexivity].
      unfold len. rewrite firstn_length. lia.
Qed.

Theorem C26_version_negotiation : forall oc c b d sc hd vs bs,
  128 <= b < 256 -> bytes_ok d -> bytes_ok sc -> vn_header_enc b d sc hd -> versions_enc vs bs ->
  let p := PacketVn (LongHeader b 0 (len d) u160_zero (len sc) u160_zero
                                (Some (VnFields d sc)) false) vs in
  vn_from_stream (hd ++ bs) = Ok (p, []) /\
  decode_next_packet oc c (hd ++ bs) = Ok (PVersionNegotiation p, []).
Proof.
  intros oc c b d sc hd vs bs Hb Bd Bs [Ld [Ls ->]] V p.
  destruct (versions_enc_len _ _ V) as [L B].
  assert (S : (b :: [0; 0; 0; 0] ++ len d :: d ++ len sc :: sc) ++ bs =
              b :: [0; 0; 0; 0] ++ len d :: d ++ len sc :: sc ++ bs)
    by (repeat rewrite <- ?app_assoc, <- ?app_comm_cons; reflexivity).
  rewrite S.
  assert (E : vn_from_stream (b :: [0; 0; 0; 0] ++ len d :: d ++ len sc :: sc ++ bs) = Ok (p, [])).
  { unfold vn_from_stream. rewrite u8_dec by lia. cbn [bind]. rewrite vn_dec; auto.
    2:{ split; [repeat constructor|split; reflexivity]. }
    cbn [bind]. unfold all_bytes_from_stream. cbn [bind].
    change 0x03 with (2 ^ 2 - 1). rewrite land_mask, L. pows.
    replace (4 * len vs mod 4) with 0 by lia. rewrite N.eqb_refl. cbn [negb].
    rewrite (vn_chunks_dec vs) by auto. reflexivity. }
  split; [exact E|].
  assert (BB : bytes_ok (b :: [0; 0; 0; 0] ++ len d :: d ++ len sc :: sc ++ bs)).
  { apply bytes_ok_cons; split; [lia|]. apply bytes_ok_app; split; [repeat constructor|].
    apply bytes_ok_cons; split; [lia|]. apply bytes_ok_app; split; auto.
    apply bytes_ok_cons; split; [lia|]. apply bytes_ok_app; auto. }
  assert (A : announces (b :: [0; 0; 0; 0] ++ len d :: d ++ len sc :: sc ++ bs) TVersionNegotiation)
    by (apply an_vn; [lia|reflexivity|reflexivity]).
  destruct (decode_next_cases oc c _ BB) as [[w [e [E1 _]]]|[[b' [s1 [h [r [Es [Hb' [El [Eb D]]]]]]]]|[b' [s1 [h [r [Es [Hb' _]]]]]]]].
  - destruct (announces_header _ _ BB A) as [h [r [E2 _]]]. congruence.
  - assert (b' = b) as -> by congruence.
    assert (s1 = [0; 0; 0; 0] ++ len d :: d ++ len sc :: sc ++ bs) as -> by congruence.
    rewrite vn_dec in El; auto; [|split; [repeat constructor|split; reflexivity]].
    injection El as <- <-. rewrite D. cbn [lh_version]. unfold kind.
    destruct (N.ltb_spec b 128); [lia|]. rewrite N.eqb_refl. rewrite E. reflexivity.
  - injection Es as <- <-. lia.
Qed.
Print Assumptions C26_version_negotiation.

(** Refused exactly when the list is not a multiple of 4 bytes or the header is
    truncated. *)
Theorem C26_version_negotiation_exact : forall b s,
  bytes_ok (b :: [0; 0; 0; 0] ++ s) ->
  let complete := exists d sc vs hd bs,
    vn_header_enc b d sc hd /\ versions_enc vs bs /\ b :: [0; 0; 0; 0] ++ s = hd ++ bs in
  (complete /\ exists p, vn_from_stream (b :: [0; 0; 0; 0] ++ s) = Ok (p, [])) \/
  (~ complete /\ exists e, vn_from_stream (b :: [0; 0; 0; 0] ++ s) = Err e).
Proof.
  intros b s B complete. destruct (vn_total _ B) as [[p E]|[e E]].
  - left. split; [|eauto]. unfold vn_from_stream in E. inv_bind.
    apply bytes_ok_cons in B as [Bb B]. rewrite u8_dec in E0 by auto. injection E0 as <- <-.
    destruct (long_inv _ _ _ _ B E1) as [_ [[V [_ [_ [bs [F L]]]]]|[_ [_ [v [d [sc [F [Fv [Ld [Ls [Bd [Bs Eh]]]]]]]]]]]]].
    + exfalso. destruct L as [v [d [sc [[_ [Lv Vv]] [_ [_ [_ [_ ->]]]]]]]].
      rewrite <- app_assoc in F. change ([0; 0; 0; 0] ++ s) with ([0; 0; 0; 0] ++ s) in F.
      apply cons_app_inj in F as [<- _]; [|apply len_length; rewrite Lv; reflexivity]. apply V. rewrite <- Vv. reflexivity.
    + unfold all_bytes_from_stream in E2. injection E2 as <- <-.
      destruct (negb (N.land (len s1) 3 =? 0)) eqn:A; [discriminate|].
      apply negb_false_iff, N.eqb_eq in A. change 3 with (2 ^ 2 - 1) in A. rewrite land_mask in A. pows.
      pose proof Fv as [_ [Lv Vv]].
      assert (v = [0; 0; 0; 0]) as ->.
      { apply cons_app_inj in F as [<- _]; [reflexivity|]. apply len_length. rewrite Lv. reflexivity. }
      apply app_inv_head in F. subst s.
      assert (B1 : bytes_ok s1).
      { apply bytes_ok_app in B as [_ B]. apply bytes_ok_cons in B as [_ B]. apply bytes_ok_app in B as [_ B].
        apply bytes_ok_cons in B as [_ B]. apply bytes_ok_app in B as [_ B]. exact B. }
      destruct (versions_enc_exists (N.to_nat (len s1 / 4)) s1 B1) as [vs V].
      { unfold len in A |- *. lia. }
      exists d, sc, vs, (b :: [0; 0; 0; 0] ++ len d :: d ++ len sc :: sc), s1.
      split; [|split; [exact V|]].
      * split; [auto|split; [auto|reflexivity]].
      * repeat rewrite <- ?app_assoc, <- ?app_comm_cons. reflexivity.
  - right. split; [|eauto]. intros [d [sc [vs [hd [bs [H [V F]]]]]]].
    apply bytes_ok_cons in B as [Bb B].
    pose proof H as [Ld [Ls ->]].
    assert (G : [0; 0; 0; 0] ++ s = [0; 0; 0; 0] ++ len d :: d ++ len sc :: sc ++ bs).
    { replace (len d :: d ++ len sc :: sc ++ bs) with ((len d :: d ++ len sc :: sc) ++ bs)
        by (repeat rewrite <- ?app_assoc, <- ?app_comm_cons; reflexivity).
      rewrite app_assoc. rewrite <- app_comm_cons in F.
      exact (f_equal (@tl N) F). }
    apply app_inv_head in G. subst s.
    apply bytes_ok_app in B as [_ B]. apply bytes_ok_cons in B as [_ B]. apply bytes_ok_app in B as [Bd B].
    apply bytes_ok_cons in B as [_ B]. apply bytes_ok_app in B as [Bs B].
    rewrite F in E. unfold vn_from_stream in E.
    replace ((b :: [0; 0; 0; 0] ++ len d :: d ++ len sc :: sc) ++ bs)
      with (b :: [0; 0; 0; 0] ++ len d :: d ++ len sc :: sc ++ bs) in E
      by (repeat rewrite <- ?app_assoc, <- ?app_comm_cons; reflexivity).
    rewrite u8_dec in E by auto. cbn [bind] in E. rewrite vn_dec in E; auto.
    2:{ split; [repeat constructor|split; reflexivity]. }
    cbn [bind] in E. unfold all_bytes_from_stream in E. cbn [bind] in E.
    destruct (versions_enc_len _ _ V) as [L _].
    change 0x03 with (2 ^ 2 - 1) in E. rewrite land_mask, L in E.
    replace (4 * len vs mod 2 ^ 2) with 0 in E by (pows; lia). rewrite N.eqb_refl in E. cbn [negb] in E.
    rewrite (vn_chunks_dec vs) in E by auto. discriminate.
Qed.
Example C26_case :
  let s := 0x80 :: [0; 0; 0; 0] ++ 1 :: [9] ++ 0 :: [] ++ [0; 0; 0; 1; 0xff; 0; 0; 29] in
  vn_from_stream s = Ok (PacketVn (LongHeader 0x80 0 1 u160_zero 0 u160_zero
                                 (Some (VnFields [9] [])) false) [1; 0xff00001d], []) /\
  (exists e, vn_from_stream (s ++ [7]) = Err e).
Proof. split; [vm_compute; reflexivity | eexists; vm_compute; reflexivity]. Qed.
Print Assumptions C26_version_negotiation_exact.
Example C26_exact_case : exists e, vn_from_stream (0x80 :: [0; 0; 0; 0] ++ [1; 9; 0; 0; 0; 1]) = Err e.
Proof. eexists; reflexivity. Qed.

(** ** C27: dispatch. *)
Ltac inv_chain E :=
  repeat (let a := fresh "a" in let X := fresh "X" in
          apply bind_ok in E; destruct E as [a [X E]];
          repeat match type of a with (_ * _)%type => destruct a as [a ?] end;
          cbn beta iota in E).

Definition packet_kind (p : packet) : packet_type :=
  match p with
  | PVersionNegotiation _ => TVersionNegotiation
  | PInitial _ => TInitial
  | PZeroRtt _ => TZeroRtt
  | PHandshake _ => THandshake
  | PRetry _ => TRetry
  | POneRtt _ => TOneRtt
  end.

Theorem C27_dispatch : forall oc c s p rest,
  bytes_ok s -> decode_next_packet oc c s = Ok (p, rest) ->
  announces s (packet_kind p) /\ forall t, announces s t -> t = packet_kind p.
Proof.
  intros oc c s p rest B E.
  assert (A : announces s (packet_kind p)).
  { destruct (decode_next_cases oc c s B) as [[w [e [_ E']]]|[[b [s1 [h [r [Es [Hb [El [Eb D]]]]]]]]|[b [s1 [h [r [Es [Hb [El D]]]]]]]]].
    - congruence.
    - assert (NH : next_header_from_stream s = Ok (HLong h, r)).
      { subst s. unfold next_header_from_stream. cbn [next bind]. rewrite land_128 by lia.
        destruct (N.leb_spec 128 b); [|lia]. rewrite El. reflexivity. }
      destruct (header_announces s _ _ B NH) as [b' [s1' [Es' [_ [Eb' [_ A]]]]]]. 
      assert (b' = b) as -> by congruence. rewrite D in E.
      destruct (kind b (lh_version h)); try discriminate; inv_bind; injection E as <- <-; exact A.
    - assert (NH : next_header_from_stream s = Ok (HShort h, r)).
      { subst s. apply bytes_ok_cons in B as [Bb _]. unfold next_header_from_stream. cbn [next bind].
        rewrite land_128 by lia. destruct (N.leb_spec 128 b); [lia|]. rewrite El. reflexivity. }
      destruct (header_announces s _ _ B NH) as [b' [s1' [Es' [_ [_ A]]]]].
      rewrite D in E. inv_bind. injection E as <- <-. exact A. }
  split; [exact A|]. intros t T. eapply announces_fun; eauto.
Qed.
Print Assumptions C27_dispatch.

(** The type read from the header does not change when protection is removed;
    the headers of returned packets are unprotected and show their type. *)
Theorem C27_type_stable : forall h mask h',
  long_remove_protection h mask = Ok h' \/ long_add_protection h mask = Ok h' ->
  long_packet_type h' = long_packet_type h.
Proof.
  intros h mask h' H. rewrite !packet_type_cases. unfold long_remove_protection, long_add_protection in H.
  destruct H as [H|H]; destruct (lh_protected h); cbn in H; inv_bind; injection H as <-; cbn;
    rewrite ?low4_div; reflexivity.
Qed.
Print Assumptions C27_type_stable.
Example C27_stable_case :
  let h := LongHeader 0xe0 1 0 u160_zero 0 u160_zero None true in
  exists h', long_remove_protection h [0xff; 1; 1; 1; 1] = Ok h' /\ lh_byte h' = 0xef /\ long_packet_type h' = Ok THandshake.
Proof. eexists. repeat split; reflexivity. Qed.

Theorem C27_returned_header_type : forall oc c s p rest,
  bytes_ok s -> decode_next_packet oc c s = Ok (p, rest) ->
  match p with
  | PInitial x => long_packet_type (pi_header x) = Ok TInitial /\ lh_protected (pi_header x) = false
  | PZeroRtt x => long_packet_type (pz_header x) = Ok TZeroRtt /\ lh_protected (pz_header x) = false
  | PHandshake x => long_packet_type (ph_header x) = Ok THandshake /\ lh_protected (ph_header x) = false
  | PVersionNegotiation x => long_packet_type (vn_header x) = Ok TVersionNegotiation
  | POneRtt x => sh_protected (po_header x) = false /\ sh_byte (po_header x) < 128
  | PRetry _ => False
  end.
Proof.
  intros oc c s p rest B E.
  destruct (decode_next_cases oc c s B) as [[w [e [_ E']]]|[[b [s1 [h [r [Es [Hb [El [Eb D]]]]]]]]|[b [s1 [h [r [Es [Hb [El D]]]]]]]]].
  - congruence.
  - rewrite D in E. clear D. unfold kind in E. destruct (N.ltb_spec b 128); [lia|].
    assert (T : long_packet_type h = Ok (if lh_version h =? 0 then TVersionNegotiation
      else match (b / 16) mod 4 with 0 => TInitial | 1 => TZeroRtt | 2 => THandshake | _ => TRetry end))
      by (rewrite packet_type_cases, Eb; reflexivity).
    subst s. assert (Hb' : b < 256) by lia.
    destruct (if lh_version h =? 0 then TVersionNegotiation
      else match (b / 16) mod 4 with 0 => TInitial | 1 => TZeroRtt | 2 => THandshake | _ => TRetry end) eqn:K;
      try discriminate; apply bind_ok in E as [[q r'] [E E2]]; injection E2 as <- <-.
    + unfold vn_from_stream in E. rewrite u8_dec in E by auto. cbn [bind] in E. rewrite El in E. cbn [bind] in E.
      inv_bind. destruct (negb _); [discriminate|]. inv_bind. injection E as <- <-. exact T.
    + unfold initial_from_stream in E. rewrite u8_dec in E by auto. cbn [bind] in E. rewrite El in E. cbn [bind] in E.
      inv_chain E. injection E as <- <-. cbn [pi_header].
      match goal with H : long_remove_protection _ _ = Ok _ |- _ =>
        rewrite (C27_type_stable _ _ _ (or_introl H)); apply unprotect_type in H end. tauto.
    + unfold zero_rtt_from_stream in E. rewrite u8_dec in E by auto. cbn [bind] in E. rewrite El in E. cbn [bind] in E.
      inv_chain E. injection E as <- <-. cbn [pz_header].
      match goal with H : long_remove_protection _ _ = Ok _ |- _ =>
        rewrite (C27_type_stable _ _ _ (or_introl H)); apply unprotect_type in H end. tauto.
    + unfold handshake_from_stream in E. rewrite u8_dec in E by auto. cbn [bind] in E. rewrite El in E. cbn [bind] in E.
      inv_chain E. injection E as <- <-. cbn [ph_header].
      match goal with H : long_remove_protection _ _ = Ok _ |- _ =>
        rewrite (C27_type_stable _ _ _ (or_introl H)); apply unprotect_type in H end. tauto.
  - rewrite D in E. clear D. apply bind_ok in E as [[q r'] [E E2]]; injection E2 as <- <-. subst s.
    unfold one_rtt_from_stream in E. rewrite u8_dec in E by lia. cbn [bind] in E. rewrite El in E. cbn [bind] in E.
    apply bytes_ok_cons in B as [_ B]. destruct (short_inv _ _ _ _ B El) as [d [_ [_ Eh]]].
    inv_chain E. injection E as <- <-. cbn [po_header].
    match goal with H : short_remove_protection _ _ = Ok _ |- _ => rename H into R end.
    unfold short_remove_protection in R. rewrite Eh in R. cbn in R. inv_bind. injection R as <-. cbn.
    split; [reflexivity|].
    match goal with |- N.lxor b (N.land ?m 31) < _ =>
      pose proof (low5_div b m) as Y; revert Y; generalize (N.lxor b (N.land m 31)); clear - Hb; intros x Y end.
    lia.
Qed.
Example C27_case : forall oc c, exists p,
  decode_next_packet oc c (0x80 :: [0; 0; 0; 0] ++ [0; 0; 0; 0; 0; 1]) = Ok (PVersionNegotiation p, []) /\
  announces (0x80 :: [0; 0; 0; 0] ++ [0; 0; 0; 0; 0; 1]) TVersionNegotiation.
Proof.
  intros oc c. eexists. split; [vm_compute; reflexivity|].
  apply (an_vn 0x80 [0; 0; 0; 0] [] [] [0; 0; 0; 1]); vm_compute; congruence.
Qed.
Print Assumptions C27_returned_header_type.

(** ** C64: the header of a Version Negotiation packet re-encodes to its bytes. *)
Definition C64_statement : Prop := forall s h rest,
  bytes_ok s -> next_header_from_stream s = Ok (HLong h, rest) -> lh_version h = 0 ->
  exists bs, s = bs ++ rest /\ long_to_bytes h = Ok bs.

(** The ids are written as zeros; ids longer than 20 bytes crash the encoder. *)
Theorem C64_ids_lost : forall s h rest,
  bytes_ok s -> next_header_from_stream s = Ok (HLong h, rest) -> lh_version h = 0 ->
  exists b d sc, s = b :: [0; 0; 0; 0] ++ len d :: d ++ len sc :: sc ++ rest /\
    lh_vn h = Some (VnFields d sc) /\
    (len d <= 20 -> len sc <= 20 ->
       long_to_bytes h = Ok (b :: [0; 0; 0; 0] ++ len d :: repeat 0 (length d) ++ len sc :: repeat 0 (length sc))) /\
    (20 < len d \/ 20 < len sc -> exists w, long_to_bytes h = Panic w).
Proof.
  intros s h rest B H V.
  destruct (next_header_cases s B) as [[e E]|[[b [s1 [h' [r [-> [Hb [El E]]]]]]]|[b [s1 [h' [r [-> [Hb [El E]]]]]]]]];
    rewrite E in H; try discriminate H.
  injection H as -> ->. apply bytes_ok_cons in B as [_ B].
  destruct (long_inv _ _ _ _ B El) as [Eb [[NV _]|[_ [_ [v [d [sc [-> [FV [Ld [Ls [Bd [Bs ->]]]]]]]]]]]]]; [contradiction|].
  assert (v = [0; 0; 0; 0]) as ->.
  { destruct FV as [Bv [Lv Vv]]. change [0; 0; 0; 0] with (be_bytes 4 0). rewrite <- Vv.
    replace 4%nat with (length v) by (unfold len in Lv; lia). symmetry. apply be_bytes_be_val. auto. }
  exists b, d, sc. split; [reflexivity|]. split; [reflexivity|].
  assert (Z : forall l : list N, len l <= 20 -> u160_to_var_bytes u160_zero (len l) = Ok (repeat 0 (length l))).
  { intros l L. rewrite u160_to_var_bytes_ok by (auto; vm_compute; auto).
    change (cid_val u160_zero) with 0. unfold len. rewrite Nat2N.id. f_equal.
    clear. induction (length l) as [|n IH]; [reflexivity|]. rewrite be_bytes_S. change (0 / 256) with 0. rewrite IH.
    change [0 mod 256] with (repeat 0 1). rewrite <- repeat_app. f_equal. lia. }
  unfold long_to_bytes. cbn [lh_dcid lh_dcid_len lh_scid lh_scid_len lh_byte lh_version]. split.
  - intros L1 L2. rewrite !Z by auto. reflexivity.
  - intros L. destruct (N.le_gt_cases (len d) 20) as [L1|L1].
    + rewrite Z by auto. cbn [bind]. destruct (u160_to_var_bytes_panic u160_zero (len sc) ltac:(lia)) as [w ->]. eexists. reflexivity.
    + destruct (u160_to_var_bytes_panic u160_zero (len d) L1) as [w ->]. eexists. reflexivity.
Qed.
Print Assumptions C64_ids_lost.

Theorem C64_reemitted_refuted : ~ C64_statement.
Proof.
  intros H.
  destruct (H [0x80; 0; 0; 0; 0; 1; 9; 0] _ [] ltac:(repeat constructor) ltac:(reflexivity) eq_refl) as [bs [E1 E2]].
  rewrite app_nil_r in E1. subst bs. vm_compute in E2. discriminate E2.
Qed.
Print Assumptions C64_reemitted_refuted.

(** The id 9 comes back as 0; a 21 byte id, legal here, is a crash. *)
Example C64_case :
  (let? (h, _) := next_header_from_stream [0x80; 0; 0; 0; 0; 1; 9; 0] in
   match h with HLong h => long_to_bytes h | _ => Err (InternalError "short") end)
  = Ok [0x80; 0; 0; 0; 0; 1; 0; 0] /\
  (exists w, (let? (h, _) := next_header_from_stream (0x80 :: [0; 0; 0; 0; 21] ++ repeat 7 21 ++ [0]) in
   match h with HLong h => long_to_bytes h | _ => Err (InternalError "short") end) = Panic w).
Proof. split; [reflexivity|]. eexists. vm_compute. reflexivity. Qed.
