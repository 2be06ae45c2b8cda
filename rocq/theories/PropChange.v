(** C104 and C105: which bytes of an accepted Handshake, 0-RTT or 1-RTT packet can be changed. *)
From Verif Require Import Base Utils Frame CipherSuite Secrets Connection Packet Histories Spec SpecPacket
  Tactics UtilsFacts ParserFacts FrameFacts SecretsFacts HeaderFacts PacketFacts ConnectionFacts SendFacts PacketInv ProtectedInv
  CryptoInst PropFrame PropConn PropPacket PropDecode PropSameWire PropInjective PropFrameSound PropWire PropProtected PropTamper.

(** The end of a packet: protected number, ciphertext and tag, and what follows, in two strings that
    differ in one byte, unmasked to the same number field [pnb]. *)
Lemma tail_changed P hp a b x y ppn ppn' ct ct' tag tag' rest m0 m0' mask mask' more more' pnb n :
  a ++ x :: b = ppn ++ ct ++ tag ++ rest -> a ++ y :: b = ppn' ++ ct' ++ tag' ++ rest -> x <> y ->
  len ppn = 4 -> len ppn' = 4 -> len tag = 16 -> len tag' = 16 -> (n <= 4)%nat ->
  p_ecb_encrypt P hp (firstn 16 (ct ++ tag ++ rest)) = Some (m0 :: mask ++ more) -> len mask = 4 ->
  p_ecb_encrypt P hp (firstn 16 (ct' ++ tag' ++ rest)) = Some (m0' :: mask' ++ more') -> len mask' = 4 ->
  pnb = firstn n (xor_bytes ppn mask) -> pnb = firstn n (xor_bytes ppn' mask') ->
  len ct' = len ct /\
  ((n <= length a < 4)%nat /\ ct ++ tag ++ rest = ct' ++ tag' ++ rest /\ mask = mask' /\ ppn <> ppn' \/
   ct' ++ tag' <> ct ++ tag /\ 4 <= len a < 4 + len ct + 16).
Proof.
  intros E E' NE L4 L4' L16 L16' Ln EC LM EC' LM' EN EN'.
  assert (LC : len ct' = len ct).
  { apply (f_equal len) in E. apply (f_equal len) in E'. rewrite !len_app in E, E'. unfold len in *. cbn [length] in *. lia. }
  split; [exact LC|].
  destruct (diff_split _ _ _ _ _ _ _ _ E E' ltac:(congruence)) as [[<- [a6 [-> [E6 E6']]]]|[Q [b1 [Q1 Q2]]]].
  - right. split.
    + intros Q. rewrite !app_assoc in E6, E6'. rewrite Q in E6'. rewrite E6 in E6'. apply app_inv_head in E6'. congruence.
    + symmetry in E6, E6'. rewrite !app_assoc in E6, E6'.
      destruct (diff_split _ _ _ _ _ _ _ _ E6 E6' ltac:(rewrite !len_app; lia)) as [[_ [a7 [_ [Q1 Q2]]]]|[_ [b1 [Q1 _]]]].
      { exfalso. rewrite Q1 in Q2. apply app_inv_head in Q2. congruence. }
      apply (f_equal len) in Q1. rewrite len_app, len_app in Q1. unfold len in *. cbn [app length] in *. rewrite !app_length. lia.
  - left.
    assert (m0 = m0' /\ mask = mask') as [<- <-].
    { replace (firstn 16 (ct' ++ tag' ++ rest)) with (firstn 16 (ct ++ tag ++ rest)) in EC' by (rewrite Q; reflexivity).
      rewrite EC in EC'. injection EC' as <- EC'. apply app_split in EC' as [<- _]; [auto|congruence]. }
    assert (EX : firstn n ppn = firstn n ppn').
    { apply (xor_cancel (firstn n mask)).
      - unfold len. rewrite !firstn_length. unfold len in L4, L4'. lia.
      - rewrite !firstn_length. unfold len in L4, LM. lia.
      - rewrite <- !xor_firstn. congruence. }
    assert (LA : (n <= length a)%nat).
    { destruct (Nat.le_gt_cases n (length a)) as [H|H]; [exact H|exfalso]. rewrite Q1, Q2 in EX.
      rewrite !firstn_app in EX. apply app_inv_head in EX. destruct (n - length a)%nat as [|j] eqn:J; [lia|].
      cbn [firstn] in EX. congruence. }
    assert (LB : len a < 4) by (rewrite <- L4, Q1, len_app; unfold len; cbn [length]; lia).
    split; [unfold len in *; lia|]. split; [exact Q|]. split; [reflexivity|].
    intros EP. rewrite Q1, Q2 in EP. apply app_inv_head in EP. congruence.
Qed.

(** The same with a first byte and fields of a header in front that come out equal. *)
Lemma front_changed (a b v v' : list N) b0 b0' f x y : a ++ x :: b = b0 :: f ++ v -> a ++ y :: b = b0' :: f ++ v' -> x <> y ->
  v = v' /\ a = [] /\ x = b0 /\ y = b0' \/ exists a2, b0 = b0' /\ a = b0 :: f ++ a2 /\ a2 ++ x :: b = v /\ a2 ++ y :: b = v'.
Proof.
  intros E E' NE. destruct a as [|w a].
  - left. cbn [app] in E, E'. apply cons_eq in E as [-> E]. apply cons_eq in E' as [-> E']. subst b. apply app_inv_head in E'. auto.
  - right. cbn [app] in E, E'. apply cons_eq in E as [-> E]. apply cons_eq in E' as [-> E'].
    destruct (diff_split _ _ _ _ _ _ _ _ E E' eq_refl) as [[_ [a2 [-> [E2 E2']]]]|[_ [b1 [Q1 Q2]]]].
    + exists a2. auto.
    + exfalso. rewrite Q1 in Q2. apply app_inv_head in Q2. congruence.
Qed.
Lemma same_mask P hp s s' m0 m0' mask mask' more more' :
  p_ecb_encrypt P hp s = Some (m0 :: mask ++ more) -> len mask = 4 ->
  p_ecb_encrypt P hp s' = Some (m0' :: mask' ++ more') -> len mask' = 4 -> s = s' -> m0 = m0' /\ mask = mask'.
Proof.
  intros E L E' L' <-. rewrite E in E'. injection E' as <- E'. apply app_split in E' as [<- _]; [auto|congruence].
Qed.

(** ** C104: Handshake packets *)

(** A changed byte of a Handshake packet is noticed, or the changed packet is a forgery: other
    associated data, ciphertext or tag that open under the same key and nonce.  Even a forgery can only
    touch the first byte of the Length field, the ciphertext or the tag. *)
Theorem C104_handshake_change : forall P oc c k a x y b p rest,
  prims_ok P -> remote_keys P oc c SpHandshake k -> no_remote_ack c SpHandshake ->
  bytes_ok (a ++ x :: b) -> len (a ++ x :: b) < 2 ^ 63 -> y < 256 -> x <> y ->
  decode_next_packet oc c (a ++ x :: b) = Ok (PHandshake p, rest) ->
  exists b0 fields ll ppn ct tag nonce pt,
    a ++ x :: b = b0 :: fields ++ ll ++ ppn ++ ct ++ tag ++ rest /\
    long_fields (ph_header p) fields /\ varint_enc (len (ph_pn_bytes p) + len ct + len tag) ll /\
    len ppn = 4 /\ len tag = 16 /\ nonce_for (k_iv k) (ph_pn p) nonce /\
    let aad := lh_byte (ph_header p) :: fields ++ ll ++ ph_pn_bytes p in
    p_gcm_open P (k_key k) nonce aad ct tag = Some pt /\
    (decode_next_packet oc c (a ++ y :: b) = Ok (PHandshake p, rest) ->
     exists aad' ct' tag' pt', (aad', ct' ++ tag') <> (aad, ct ++ tag) /\ len tag' = 16 /\
      p_gcm_open P (k_key k) nonce aad' ct' tag' = Some pt' /\ deserialize_frames oc pt' = Ok (ph_payload p) /\
      let body := 1 + len fields + len ll + 4 in
      (len a = 1 + len fields \/ aad' = aad /\ len ct' = len ct /\ body <= len a < body + len ct + 16)).
Proof.
  intros P oc c k a x y b p rest HP K NA B LS Hy NE D.
  assert (B' : bytes_ok (a ++ y :: b)).
  { apply bytes_ok_app in B as [B1 B2]. apply bytes_ok_cons in B2 as [_ B2]. apply bytes_ok_app. split; [auto|apply bytes_ok_cons; auto]. }
  assert (LS' : len (a ++ y :: b) < 2 ^ 63).
  { replace (len (a ++ y :: b)) with (len (a ++ x :: b)); [exact LS|]. rewrite !len_app. reflexivity. }
  destruct (handshake_inv P oc c k _ p rest HP K NA B LS D)
    as [h [f [L [ll [ppn [body [m0 [mask [more [nonce [ct [tag [pt [SH [Ee [Lm [Bm [Eh [Ln [Bn [En [Ep [Eb [EL [Lt [Hn [Ho Df]]]]]]]]]]]]]]]]]]]]]]]]]]].
  destruct SH as [Hb Hlong Ht Hv VN HF HL L4 Bp Bb E].
  assert (HP1 : long_fields (ph_header p) f) by (rewrite Eh; exact (long_fields_byte _ _ _ _ HF)).
  assert (HX : lh_byte (ph_header p) = N.lxor (lh_byte h) (N.land m0 0x0f)) by (rewrite Eh; reflexivity).
  subst L body.
  pose proof (land3_le (lh_byte (ph_header p))) as L3.
  exists (lh_byte h), f, ll, ppn, ct, tag, nonce, pt.
  split; [exact E|]. split; [exact HP1|]. split; [exact HL|]. split; [exact L4|]. split; [exact Lt|]. split; [exact Hn|].
  cbv zeta. split; [exact Ho|]. intros D'.
  destruct (handshake_inv P oc c k _ p rest HP K NA B' LS' D')
    as [h' [f' [L' [ll' [ppn' [body' [m0' [mask' [more' [nonce' [ct' [tag' [pt' [SH' [Ee' [Lm' [Bm' [Eh' [Ln' [Bn' [En' [Ep' [Eb' [EL' [Lt' [Hn' [Ho' Df']]]]]]]]]]]]]]]]]]]]]]]]]]].
  destruct SH' as [Hb' Hlong' Ht' Hv' VN' HF' HL' L4' Bp' Bb' E'].
  assert (HP2 : long_fields (ph_header p) f') by (rewrite Eh'; exact (long_fields_byte _ _ _ _ HF')).
  pose proof (long_fields_fun _ _ _ HP1 HP2) as EF. subst f'.
  assert (HX' : lh_byte (ph_header p) = N.lxor (lh_byte h') (N.land m0' 0x0f)) by (rewrite Eh'; reflexivity).
  rewrite <- (nonce_for_fun _ _ _ _ Hn Hn') in Ho'. clear nonce' Hn'. subst L' body'.
  exists (lh_byte (ph_header p) :: f ++ ll' ++ ph_pn_bytes p), ct', tag', pt'.
  destruct (front_changed _ _ _ _ _ _ _ _ _ E E' NE) as [[Q [-> [X Y]]]|[a1 [_ [-> [E1 E1']]]]].
  { exfalso. destruct (varint_split _ _ _ _ _ _ HL HL' Q) as [_ Q4]. apply app_split in Q4 as [_ Q4]; [|congruence].
    destruct (same_mask _ _ _ _ _ _ _ _ _ _ Ee Lm Ee' Lm') as [<- _]; [rewrite Q4; reflexivity|].
    rewrite HX in HX'. apply lxor_cancel in HX'. congruence. }
  destruct a1 as [|w a1].
  { split. { intros Q. apply (f_equal fst) in Q. cbn [fst] in Q. apply cons_eq in Q as [_ Q]. apply app_inv_head in Q.
      destruct ll as [|c1 ll]; [apply varint_nonempty in HL; contradiction|]. destruct ll' as [|c2 ll']; [apply varint_nonempty in HL'; contradiction|].
      cbn [app] in E1, E1', Q. congruence. }
    split; [exact Lt'|]. split; [exact Ho'|]. split; [exact Df'|]. left. rewrite app_nil_r. unfold len. cbn [length]. lia. }
  assert (LL : len ll = len ll').
  { destruct ll as [|c1 ll]; [apply varint_nonempty in HL; contradiction|]. destruct ll' as [|c2 ll']; [apply varint_nonempty in HL'; contradiction|].
    assert (w = c1) as <- by (cbn [app] in E1; congruence). assert (w = c2) as <- by (cbn [app] in E1'; congruence).
    pose proof (varint_first _ _ _ _ _ HL HL') as L. unfold len in *. cbn [length]. lia. }
  assert (LC : len ct = len ct').
  { apply (f_equal len) in E1. apply (f_equal len) in E1'. rewrite !len_app in E1, E1'. unfold len in *. cbn [length] in *. lia. }
  rewrite Lt, LC in HL. rewrite Lt' in HL'. pose proof (varint_fun _ _ _ HL HL' LL) as EL. subst ll'.
  destruct (diff_split _ _ _ _ _ _ _ _ E1 E1' eq_refl) as [[_ [a2 [-> [E2 E2']]]]|[_ [b1 [Q1 Q2]]]].
  2: { exfalso. rewrite Q1 in Q2. apply app_inv_head in Q2. congruence. }
  symmetry in E2, E2'.
  destruct (tail_changed P (k_hp k) _ _ _ _ _ _ _ _ _ _ _ _ _ _ _ _ _ (ph_pn_bytes p) (N.to_nat (len (ph_pn_bytes p))) E2 E2' NE L4 L4' Lt Lt' ltac:(lia) Ee Lm Ee' Lm' En En')
    as [_ [[_ [_ [<- NP]]]|[NC R]]].
  { exfalso. apply NP. apply (xor_cancel mask); [congruence|unfold len in L4, Lm; lia|].
    apply bytes_ok_cons in Bm as [_ Bm].
    apply be_val_inj; [apply xor_bytes_ok; auto|apply xor_bytes_ok; auto| |congruence].
    assert (Lx : len (xor_bytes ppn mask) = len (xor_bytes ppn' mask)) by (rewrite !xor_bytes_len; congruence).
    unfold len in Lx. lia. }
  split. { intros Q. apply NC. apply (f_equal snd) in Q. exact Q. }
  split; [exact Lt'|]. split; [exact Ho'|]. split; [exact Df'|]. right. split; [reflexivity|]. split; [auto|].
  unfold len in *. cbn [length] in *. rewrite !app_length. lia.
Qed.
Print Assumptions C104_handshake_change.

(** A packet whose number field is one byte long, although four are read for the number: here, too,
    every change of every byte is noticed. *)
Example C104_case :
  (let? (c, s) := three_keys in
   let mid := be_bytes 4 1 ++ [0; 0; 18] in
   let? body := encrypt_local_payload c SpHandshake [1] (0xe0 :: mid ++ [0]) 7 in
   let? mask := get_local_hp_mask c SpHandshake body in
   match mask with
   | m0 :: m =>
       let w := N.lxor 0xe0 (N.land m0 0x0f) :: mid ++ xor_bytes [0; 0; 0; 7] m ++ body in
       let flip i := firstn i w ++ N.lxor (nth i w 0) 1 :: skipn (S i) w in
       let seen w := match decode_next_packet true s w with
                     | Ok (PHandshake q, []) => (ph_pn q =? 7) && (len (ph_payload q) =? 1)
                     | _ => false
                     end in
       Ok (length w, seen w, filter (fun i => seen (flip i)) (seq 0 (length w)))
   | [] => Err (InternalError "mask")
   end) = Ok (29%nat, true, []).
Proof. vm_compute. reflexivity. Qed.

(** ** C105: 0-RTT and 1-RTT packets *)

Definition C105_statement : Prop := forall P oc c k a x y b p rest,
  prims_ok P -> remote_keys P oc c SpApplication k -> no_remote_ack c SpApplication ->
  bytes_ok (a ++ x :: b) -> y < 256 -> x <> y -> len rest <= len b ->
  decode_next_packet oc c (a ++ x :: b) = Ok (p, rest) ->
  (exists q, p = PZeroRtt q) \/ (exists q, p = POneRtt q) ->
  decode_next_packet oc c (a ++ y :: b) <> Ok (p, rest).

(** The bytes between a short packet number and the ciphertext are free; any other change is noticed or
    a forgery of the ciphertext or tag with the same associated data. *)
Theorem C105_zero_rtt_partial : forall P oc c k a x y b p rest,
  prims_ok P -> remote_keys P oc c SpApplication k -> no_remote_ack c SpApplication ->
  bytes_ok (a ++ x :: b) -> len (a ++ x :: b) < 2 ^ 63 -> y < 256 -> x <> y ->
  decode_next_packet oc c (a ++ x :: b) = Ok (PZeroRtt p, rest) ->
  exists b0 fields ll ppn gap ct tag nonce pt,
    a ++ x :: b = b0 :: fields ++ ll ++ ppn ++ gap ++ ct ++ tag ++ rest /\
    long_fields (pz_header p) fields /\ varint_enc (len (pz_pn_bytes p) + len ct + len tag) ll /\
    len ppn = len (pz_pn_bytes p) /\ len ppn + len gap = 4 /\ len tag = 16 /\ nonce_for (k_iv k) (pz_pn p) nonce /\
    let aad := lh_byte (pz_header p) :: fields ++ ll ++ pz_pn_bytes p in
    p_gcm_open P (k_key k) nonce aad ct tag = Some pt /\
    (forall gap', bytes_ok gap' -> len gap' = len gap ->
       decode_next_packet oc c (b0 :: fields ++ ll ++ ppn ++ gap' ++ ct ++ tag ++ rest) = Ok (PZeroRtt p, rest)) /\
    (decode_next_packet oc c (a ++ y :: b) = Ok (PZeroRtt p, rest) ->
     let number := 1 + len fields + len ll in
     number + len ppn <= len a < number + 4 \/
     exists ct' tag' pt', ct' ++ tag' <> ct ++ tag /\ len ct' = len ct /\ len tag' = 16 /\
       p_gcm_open P (k_key k) nonce aad ct' tag' = Some pt' /\ deserialize_frames oc pt' = Ok (pz_payload p) /\
       number + 4 <= len a < number + 4 + len ct + 16).
Proof.
  intros P oc c k a x y b p rest HP K NA B LS Hy NE D.
  assert (B' : bytes_ok (a ++ y :: b)).
  { apply bytes_ok_app in B as [B1 B2]. apply bytes_ok_cons in B2 as [_ B2]. apply bytes_ok_app. split; [auto|apply bytes_ok_cons; auto]. }
  assert (LS' : len (a ++ y :: b) < 2 ^ 63).
  { replace (len (a ++ y :: b)) with (len (a ++ x :: b)); [exact LS|]. rewrite !len_app. reflexivity. }
  destruct (zero_rtt_inv P oc c k _ p rest HP K NA B LS D)
    as [h [f [ll [ppn [body [m0 [mask [more [nonce [ct [tag [pt [SH [Ee [Lm [Bm [Eh [Ln [Bn [En [Ep [Eb [EL [Lt [Hn [Ho Df]]]]]]]]]]]]]]]]]]]]]]]]]].
  pose proof SH as SH0. destruct SH0 as [Hb Hlong Ht Hv VN HF HL L4 Bp Bb E].
  assert (HP1 : long_fields (pz_header p) f) by (rewrite Eh; exact (long_fields_byte _ _ _ _ HF)).
  assert (HX : lh_byte (pz_header p) = N.lxor (lh_byte h) (N.land m0 0x0f)) by (rewrite Eh; reflexivity).
  subst body.
  pose proof (land3_le (lh_byte (pz_header p))) as L3.
  set (n := N.to_nat (len (pz_pn_bytes p))) in *.
  assert (Ln4 : (n <= 4)%nat) by (unfold n; lia).
  assert (Lf : length (firstn n ppn) = n) by (rewrite firstn_length; unfold len in L4; lia).
  assert (Lf2 : len (firstn n ppn) = len (pz_pn_bytes p)) by (unfold len at 1; rewrite Lf; unfold n; lia).
  assert (Lg : len (firstn n ppn) + len (skipn n ppn) = 4) by (unfold len in *; rewrite Lf, skipn_length; lia).
  exists (lh_byte h), f, ll, (firstn n ppn), (skipn n ppn), ct, tag, nonce, pt.
  split. { rewrite E at 1. rewrite (app_assoc (firstn n ppn)), firstn_skipn. reflexivity. }
  split; [exact HP1|]. split; [rewrite EL; exact HL|]. split; [exact Lf2|]. split; [exact Lg|]. split; [exact Lt|]. split; [exact Hn|].
  cbv zeta. split; [exact Ho|]. split.
  - intros gap' Bg Lg'. set (ppn' := firstn n ppn ++ gap').
    assert (Lp' : len ppn' = 4) by (unfold ppn'; rewrite len_app; lia).
    assert (Bp' : bytes_ok ppn') by (apply bytes_ok_app; split; auto; apply bytes_ok_firstn; auto).
    set (s' := lh_byte h :: f ++ ll ++ ppn' ++ ct ++ tag ++ rest).
    assert (ES : lh_byte h :: f ++ ll ++ firstn n ppn ++ gap' ++ ct ++ tag ++ rest = s').
    { unfold s', ppn'. rewrite <- !app_assoc. reflexivity. }
    rewrite ES.
    assert (SH' : long_shape 1 h f (pz_length p) ll ppn' (ct ++ tag ++ rest) s') by (constructor; auto).
    assert (Q1 := zero_rtt_eq P oc c k _ _ _ _ _ _ _ HP K NA SH).
    assert (Q2 := zero_rtt_eq P oc c k _ _ _ _ _ _ _ HP K NA SH').
    assert (DS : forall x, decode_next_packet oc c (lh_byte h :: f ++ x) =
      let? (p, s) := zero_rtt_from_stream oc c (lh_byte h :: f ++ x) in Ok (PZeroRtt p, s)).
    { intros z. rewrite (long_dispatch oc c h f (lh_byte h) z) by auto. rewrite Ht. reflexivity. }
    unfold s'. rewrite DS. fold s'. rewrite E, DS, <- E in D.
    destruct (len (ct ++ tag ++ rest) <? 16); [rewrite Q1 in D; discriminate D|].
    destruct Q1 as [m1 [mk1 [mo1 [E1 [Lm1 [_ Q1]]]]]]. destruct Q2 as [m2 [mk2 [mo2 [E2 [Lm2 [_ Q2]]]]]].
    destruct (same_mask _ _ _ _ _ _ _ _ _ _ Ee Lm E1 Lm1 eq_refl) as [<- <-].
    destruct (same_mask _ _ _ _ _ _ _ _ _ _ Ee Lm E2 Lm2 eq_refl) as [<- <-].
    rewrite Q2. rewrite Q1 in D. revert D. unfold zero_rtt_rest. cbv zeta.
    assert (En' : N.to_nat (N.land (N.lxor (lh_byte h) (N.land m0 15)) 3 + 1) = n) by (unfold n; rewrite Ln, Eh; reflexivity).
    rewrite En'.
    assert (EX : firstn n (xor_bytes ppn' mask) = firstn n (xor_bytes ppn mask)).
    { rewrite !xor_firstn. f_equal. unfold ppn'. apply firstn_app_exact. auto. }
    rewrite EX. auto.
  - intros D'.
    destruct (zero_rtt_inv P oc c k _ p rest HP K NA B' LS' D')
      as [h' [f' [ll' [ppn' [body' [m0' [mask' [more' [nonce' [ct' [tag' [pt' [SH' [Ee' [Lm' [Bm' [Eh' [Ln' [Bn' [En' [Ep' [Eb' [EL' [Lt' [Hn' [Ho' Df']]]]]]]]]]]]]]]]]]]]]]]]]].
    destruct SH' as [Hb' Hlong' Ht' Hv' VN' HF' HL' L4' Bp' Bb' E'].
    assert (HP2 : long_fields (pz_header p) f') by (rewrite Eh'; exact (long_fields_byte _ _ _ _ HF')).
    pose proof (long_fields_fun _ _ _ HP1 HP2) as EF. subst f'.
    assert (HX' : lh_byte (pz_header p) = N.lxor (lh_byte h') (N.land m0' 0x0f)) by (rewrite Eh'; reflexivity).
    rewrite <- (nonce_for_fun _ _ _ _ Hn Hn') in Ho'. clear nonce' Hn'. subst body'.
    destruct (front_changed _ _ _ _ _ _ _ _ _ E E' NE) as [[Q [-> [X Y]]]|[a1 [_ [-> [E1 E1']]]]].
    { exfalso. destruct (varint_split _ _ _ _ _ _ HL HL' Q) as [_ Q4]. apply app_split in Q4 as [_ Q4]; [|congruence].
      destruct (same_mask _ _ _ _ _ _ _ _ _ _ Ee Lm Ee' Lm') as [<- _]; [rewrite Q4; reflexivity|].
      rewrite HX in HX'. apply lxor_cancel in HX'. congruence. }
    assert (LL : len ll = len ll').
    { apply (f_equal len) in E1. apply (f_equal len) in E1'. rewrite !len_app in E1, E1'. unfold len in *. cbn [length] in *. lia. }
    pose proof (varint_fun _ _ _ HL HL' LL) as EL2. subst ll'.
    destruct (diff_split _ _ _ _ _ _ _ _ E1 E1' eq_refl) as [[_ [a2 [-> [E2 E2']]]]|[_ [b1 [Q1 Q2]]]].
    2: { exfalso. rewrite Q1 in Q2. apply app_inv_head in Q2. congruence. }
    symmetry in E2, E2'.
    destruct (tail_changed P (k_hp k) _ _ _ _ _ _ _ _ _ _ _ _ _ _ _ _ _ (pz_pn_bytes p) n E2 E2' NE L4 L4' Lt Lt' Ln4 Ee Lm Ee' Lm' En En')
      as [LC [[LA _]|[NC R]]].
    { left. unfold n in LA. rewrite Lf2. unfold len in *. cbn [length]. rewrite !app_length. lia. }
    right. exists ct', tag', pt'. split; [exact NC|]. split; [exact LC|]. split; [exact Lt'|]. split; [exact Ho'|]. split; [exact Df'|].
    unfold len in *. cbn [length] in *. rewrite !app_length. lia.
Qed.
Print Assumptions C105_zero_rtt_partial.

Theorem C105_one_rtt_partial : forall P oc c k a x y b p rest,
  prims_ok P -> remote_keys P oc c SpApplication k -> no_remote_ack c SpApplication ->
  bytes_ok (a ++ x :: b) -> y < 256 -> x <> y ->
  decode_next_packet oc c (a ++ x :: b) = Ok (POneRtt p, rest) ->
  exists b0 d ppn gap ct tag nonce pt,
    a ++ x :: b = b0 :: d ++ ppn ++ gap ++ ct ++ tag /\ cid_enc (sh_dcid (po_header p)) 8 d /\
    len ppn = len (po_pn_bytes p) /\ len ppn + len gap = 4 /\ len tag = 16 /\ nonce_for (k_iv k) (po_pn p) nonce /\
    let aad := sh_byte (po_header p) :: d ++ po_pn_bytes p in
    p_gcm_open P (k_key k) nonce aad ct tag = Some pt /\
    (forall gap', bytes_ok gap' -> len gap' = len gap ->
       decode_next_packet oc c (b0 :: d ++ ppn ++ gap' ++ ct ++ tag) = Ok (POneRtt p, [])) /\
    (decode_next_packet oc c (a ++ y :: b) = Ok (POneRtt p, rest) ->
     9 + len ppn <= len a < 13 \/
     exists ct' tag' pt', ct' ++ tag' <> ct ++ tag /\ len ct' = len ct /\ len tag' = 16 /\
       p_gcm_open P (k_key k) nonce aad ct' tag' = Some pt' /\ deserialize_frames oc pt' = Ok (po_payload p) /\ 13 <= len a).
Proof.
  intros P oc c k a x y b p rest HP K NA B Hy NE D.
  assert (B' : bytes_ok (a ++ y :: b)).
  { apply bytes_ok_app in B as [B1 B2]. apply bytes_ok_cons in B2 as [_ B2]. apply bytes_ok_app. split; [auto|apply bytes_ok_cons; auto]. }
  destruct (one_rtt_inv P oc c k _ p rest HP K NA B D)
    as [b0 [d [ppn [body [m0 [mask [more [nonce [ct [tag [pt [E [Hb [HD [L4 [Bp [Ee [Lm [Bm [HX [Hp [Ln [Bn [En [Ep [Eb [Lt [Er [Hn [Ho Df]]]]]]]]]]]]]]]]]]]]]]]]]]]]]].
  subst body rest.
  pose proof (land3_le (sh_byte (po_header p))) as L3.
  set (n := N.to_nat (len (po_pn_bytes p))) in *.
  assert (Ln4 : (n <= 4)%nat) by (unfold n; lia).
  assert (Lf : length (firstn n ppn) = n) by (rewrite firstn_length; unfold len in L4; lia).
  assert (Lf2 : len (firstn n ppn) = len (po_pn_bytes p)) by (unfold len at 1; rewrite Lf; unfold n; lia).
  assert (Lg : len (firstn n ppn) + len (skipn n ppn) = 4) by (unfold len in *; rewrite Lf, skipn_length; lia).
  exists b0, d, (firstn n ppn), (skipn n ppn), ct, tag, nonce, pt.
  split. { rewrite E at 1. rewrite (app_assoc (firstn n ppn)), firstn_skipn. reflexivity. }
  split; [exact HD|]. split; [exact Lf2|]. split; [exact Lg|]. split; [exact Lt|]. split; [exact Hn|].
  cbv zeta. split; [exact Ho|]. split.
  - intros gap' Bg Lg'. set (ppn' := firstn n ppn ++ gap').
    assert (Lp' : len ppn' = 4) by (unfold ppn'; rewrite len_app; lia).
    assert (ES : b0 :: d ++ firstn n ppn ++ gap' ++ ct ++ tag = b0 :: d ++ ppn' ++ ct ++ tag) by (unfold ppn'; rewrite <- !app_assoc; reflexivity).
    rewrite ES.
    assert (Q1 := one_rtt_eq P oc c k b0 d (sh_dcid (po_header p)) ppn (ct ++ tag) HP K NA ltac:(lia) HD L4).
    assert (Q2 := one_rtt_eq P oc c k b0 d (sh_dcid (po_header p)) ppn' (ct ++ tag) HP K NA ltac:(lia) HD Lp').
    cbv zeta in Q1, Q2.
    rewrite (short_dispatch oc c b0 d (sh_dcid (po_header p)) _ Hb HD). rewrite E, (short_dispatch oc c b0 d (sh_dcid (po_header p)) _ Hb HD) in D.
    destruct (len (ct ++ tag) <? 16); [rewrite Q1 in D; discriminate D|].
    destruct Q1 as [m1 [mk1 [mo1 [E1 [Lm1 [_ Q1]]]]]]. destruct Q2 as [m2 [mk2 [mo2 [E2 [Lm2 [_ Q2]]]]]].
    destruct (same_mask _ _ _ _ _ _ _ _ _ _ Ee Lm E1 Lm1 eq_refl) as [<- <-].
    destruct (same_mask _ _ _ _ _ _ _ _ _ _ Ee Lm E2 Lm2 eq_refl) as [<- <-].
    rewrite Q2. rewrite Q1 in D. revert D. unfold one_rtt_rest. cbv zeta.
    assert (En' : N.to_nat (N.land (N.lxor b0 (N.land m0 31)) 3 + 1) = n) by (unfold n; rewrite Ln, HX; reflexivity).
    rewrite En'.
    assert (EX : firstn n (xor_bytes ppn' mask) = firstn n (xor_bytes ppn mask)).
    { rewrite !xor_firstn. f_equal. unfold ppn'. apply firstn_app_exact. auto. }
    rewrite EX. auto.
  - intros D'.
    destruct (one_rtt_inv P oc c k _ p [] HP K NA B' D')
      as [b0' [d' [ppn' [body' [m0' [mask' [more' [nonce' [ct' [tag' [pt' [E' [Hb' [HD' [L4' [Bp' [Ee' [Lm' [Bm' [HX' [Hp' [Ln' [Bn' [En' [Ep' [Eb' [Lt' [_ [Hn' [Ho' Df']]]]]]]]]]]]]]]]]]]]]]]]]]]]]].
    pose proof (cid_enc_fun _ _ _ _ HD HD') as ED. subst d' body'.
    rewrite <- (nonce_for_fun _ _ _ _ Hn Hn') in Ho'. clear nonce' Hn'.
    assert (L8 : len d = 8) by apply HD.
    destruct (front_changed _ _ _ _ _ _ _ _ _ E E' NE) as [[Q [-> [X Y]]]|[a1 [_ [-> [E1 E1']]]]].
    { exfalso. apply app_split in Q as [_ Q]; [|congruence].
      destruct (same_mask _ _ _ _ _ _ _ _ _ _ Ee Lm Ee' Lm') as [<- _]; [rewrite Q; reflexivity|].
      rewrite HX in HX'. apply lxor_cancel in HX'. congruence. }
    rewrite <- (app_nil_r tag) in E1, Ee. rewrite <- (app_nil_r tag') in E1', Ee'.
    destruct (tail_changed P (k_hp k) _ _ _ _ _ _ _ _ _ _ _ _ _ _ _ _ _ (po_pn_bytes p) n E1 E1' NE L4 L4' Lt Lt' Ln4 Ee Lm Ee' Lm' En En')
      as [LC [[LA _]|[NC R]]].
    { left. unfold n in LA. rewrite Lf2. unfold len in *. cbn [length]. rewrite !app_length. lia. }
    right. exists ct', tag', pt'. split; [exact NC|]. split; [exact LC|]. split; [exact Lt'|]. split; [exact Ho'|]. split; [exact Df'|].
    unfold len in *. cbn [length] in *. rewrite !app_length. lia.
Qed.
Print Assumptions C105_one_rtt_partial.

(** A 0-RTT or 1-RTT packet with packet number 7 in one byte and three free bytes behind it. *)
Definition gap_early (c : connection) (gap : list N) : outcome (list N) :=
  let mid := be_bytes 4 1 ++ [0; 0; 18] in
  let? body := encrypt_local_payload c SpApplication [1] (0xd0 :: mid ++ [7]) 7 in
  let? mask := get_local_hp_mask c SpApplication body in
  match mask with
  | m0 :: m1 :: _ => Ok (N.lxor 0xd0 (N.land m0 0x0f) :: mid ++ [N.lxor 7 m1] ++ gap ++ body)
  | _ => Err (InternalError "mask")
  end.
Definition gap_short (c : connection) (gap : list N) : outcome (list N) :=
  let mid := be_bytes 8 77 in
  let? body := encrypt_local_payload c SpApplication [1] (0x40 :: mid ++ [7]) 7 in
  let? mask := get_local_hp_mask c SpApplication body in
  match mask with
  | m0 :: m1 :: _ => Ok (N.lxor 0x40 (N.land m0 0x1f) :: mid ++ [N.lxor 7 m1] ++ gap ++ body)
  | _ => Err (InternalError "mask")
  end.
Example C105_case :
  (let? (c, s) := three_keys in
   let? w := gap_early c [0; 0; 0] in
   let? v := gap_short c [0; 0; 0] in
   let flip (w : list N) i := firstn i w ++ N.lxor (nth i w 0) 1 :: skipn (S i) w in
   let seen w := match decode_next_packet true s w with
                 | Ok (PZeroRtt q, []) => (pz_pn q =? 7) && (len (pz_payload q) =? 1)
                 | Ok (POneRtt q, []) => (po_pn q =? 7) && (len (po_payload q) =? 1)
                 | _ => false
                 end in
   Ok (length w, length v, seen w, seen v, filter (fun i => seen (flip w i)) (seq 0 (length w)),
       filter (fun i => seen (flip v i)) (seq 0 (length v)))) =
  Ok (29%nat, 30%nat, true, true, [9; 10; 11]%nat, [10; 11; 12]%nat).
Proof. vm_compute. reflexivity. Qed.


Theorem C105_refuted : ~ C105_statement.
Proof.
  intros H.
  destruct (connection_new_ok real_prims true true sample_id 8 real_prims_ok ltac:(lia)) as [c E].
  assert (K : exists k, remote_keys real_prims true (with_all_keys c) SpApplication k).
  { assert (R : reachable real_prims true true sample_id 8 c) by (exists c, []; auto).
    pose proof (reachable_inv _ _ _ _ _ _ real_prims_ok R) as I.
    destruct (ci_keys _ _ _ _ _ _ I) as [cid [kl [k [_ [_ [_ [_ K]]]]]]].
    exists k. destruct K as [s [Es Ks]]. exists s. split; [exact Es|exact Ks]. }
  destruct K as [k K].
  set (p := POneRtt (PacketOneRtt (ShortHeader 64 (U160 0 77) false) [7] 7 [Ping])).
  set (a := [85; 0; 0; 0; 0; 0; 0; 0; 77; 165]).
  set (b := [0; 0; 187; 225; 240; 236; 39; 117; 254; 191; 40; 199; 4; 0; 143; 76; 103; 83; 172]).
  assert (D : forall x, x = 0 \/ x = 1 -> decode_next_packet true (with_all_keys c) (a ++ x :: b) = Ok (p, [])).
  { assert (X : (let? c := connection_new real_prims true true V1 sample_id 8 in
                 Ok (decode_next_packet true (with_all_keys c) (a ++ 0 :: b), decode_next_packet true (with_all_keys c) (a ++ 1 :: b))) =
                Ok (Ok (p, []), Ok (p, []))) by (vm_compute; reflexivity).
    rewrite E in X. cbn [bind] in X. injection X as X1 X2. intros x [-> | ->]; [exact X1|exact X2]. }
  apply (H real_prims true (with_all_keys c) k a 0 1 b p [] real_prims_ok K eq_refl); auto.
  - apply bytes_ok_dec. vm_compute. reflexivity.
  - reflexivity.
  - discriminate.
  - apply N.le_0_l.
  - right. eexists. reflexivity.
Qed.
Print Assumptions C105_refuted.
