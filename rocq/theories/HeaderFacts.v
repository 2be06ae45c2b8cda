(** Lemmas about packet headers. *)
From Verif Require Import Base Utils Frame CipherSuite Secrets Connection Packet Spec SpecPacket
  Tactics UtilsFacts ParserFacts SecretsFacts.

(** The two type bits. *)
Lemma type_bits_eq b : N.shiftr (N.land b (shl 8 1 6 - 1)) 4 = (b / 16) mod 4.
Proof.
  change (shl 8 1 6 - 1) with (2 ^ 6 - 1). rewrite land_mask, N.shiftr_div_pow2. pows. lia.
Qed.

Lemma packet_type_cases h :
  long_packet_type h =
  Ok (if lh_version h =? 0 then TVersionNegotiation
      else match (lh_byte h / 16) mod 4 with
           | 0 => TInitial | 1 => TZeroRtt | 2 => THandshake | _ => TRetry
           end).
Proof.
  unfold long_packet_type, VERSION_NEGOTIATION_VERSION_VALUE. rewrite type_bits_eq.
  destruct (lh_version h =? 0); [reflexivity|].
  assert (H : (lh_byte h / 16) mod 4 < 4) by (apply N.mod_lt; lia).
  destruct ((lh_byte h / 16) mod 4) as [|[[|[]|]|[[]|[]|]|]]; try reflexivity; lia.
Qed.

Definition with_byte (h : long_header) (b : N) (p : bool) : long_header :=
  LongHeader b (lh_version h) (lh_dcid_len h) (lh_dcid h) (lh_scid_len h) (lh_scid h) (lh_vn h) p.

(** Is the packet a Retry packet (not protected)? *)
Definition retry_byte (b : N) : bool := (b / 16) mod 4 =? 3.

Lemma long_fields_byte h b p bs : long_fields h bs -> long_fields (with_byte h b p) bs.
Proof. intros H. exact H. Qed.

Lemma fixed_enc_bytes_ok n x bs : fixed_enc n x bs -> bytes_ok bs.
Proof. intros [H _]; exact H. Qed.

Lemma u8_dec b rest : b < 256 -> u8_from_datagram (b :: rest) = Ok (b, rest).
Proof.
  intros H. unfold u8_from_datagram. change (b :: rest) with ([b] ++ rest).
  rewrite from_datagram_app; [|repeat constructor; auto|reflexivity].
  cbn [be_val]. change (len []) with 0. pows. rewrite N.mul_1_r, N.add_0_r. reflexivity.
Qed.

Lemma u32_dec v bs rest : fixed_enc 4 v bs -> u32_from_datagram (bs ++ rest) = Ok (v, rest).
Proof.
  intros [B [L V]]. unfold u32_from_datagram. rewrite from_datagram_app; auto.
  - congruence.
  - unfold len in L. lia.
Qed.

Lemma long_fields_bytes_ok h bs : long_fields h bs -> bytes_ok bs.
Proof.
  intros [v [d [s [[V _] [L1 [[_ [D _]] [L2 [[_ [S _]] ->]]]]]]]].
  apply bytes_ok_app; split; auto. apply bytes_ok_cons; split; [lia|].
  apply bytes_ok_app; split; auto. apply bytes_ok_cons; split; [lia|auto].
Qed.

Lemma long_dec h bs b rest : long_fields h bs -> lh_version h <> 0 -> lh_vn h = None ->
  long_from_stream b (bs ++ rest) = Ok (with_byte h b (negb (retry_byte b)), rest).
Proof.
  intros [v [d [s [V [L1 [D [L2 [S ->]]]]]]]] NZ VN.
  unfold long_from_stream. rewrite <- !app_assoc. rewrite (u32_dec _ _ _ V). cbn [bind].
  unfold VERSION_NEGOTIATION_VERSION_VALUE.
  destruct (N.eqb_spec (lh_version h) 0) as [Z|_]; [contradiction|]. cbn [negb app].
  rewrite u8_dec by lia. cbn [bind].
  destruct (N.ltb_spec 20 (lh_dcid_len h)); [lia|]. rewrite <- app_assoc.
  rewrite (var_u160_dec _ _ _ _ D) by auto. cbn [bind app]. rewrite u8_dec by lia. cbn [bind].
  destruct (N.ltb_spec 20 (lh_scid_len h)); [lia|].
  rewrite (var_u160_dec _ _ _ _ S) by auto. cbn [bind].
  rewrite packet_type_cases. cbn [lh_version lh_byte].
  destruct (N.eqb_spec (lh_version h) 0) as [Z|_]; [contradiction|]. cbn [bind].
  unfold with_byte, retry_byte. rewrite VN. do 2 f_equal. f_equal.
  assert (Hq : (b / 16) mod 4 < 4) by (apply N.mod_lt; lia).
  destruct ((b / 16) mod 4) as [|[[|[]|]|[[]|[]|]|]]; try reflexivity; lia.
Qed.

(** Version negotiation headers. *)
Lemma vn_dec v d s b rest : fixed_enc 4 0 v -> bytes_ok d -> bytes_ok s -> len d < 256 -> len s < 256 ->
  long_from_stream b (v ++ len d :: d ++ len s :: s ++ rest) =
  Ok (LongHeader b 0 (len d) u160_zero (len s) u160_zero (Some (VnFields d s)) false, rest).
Proof.
  intros V Bd Bs Ld Ls. unfold long_from_stream. rewrite (u32_dec _ _ _ V). cbn [bind].
  change (0 =? VERSION_NEGOTIATION_VERSION_VALUE) with true. cbn [negb].
  rewrite u8_dec by auto. cbn [bind]. rewrite var_bytes_app by auto. cbn [bind].
  rewrite u8_dec by auto. cbn [bind]. rewrite var_bytes_app by auto. cbn [bind].
  rewrite packet_type_cases. cbn [lh_version lh_byte]. change (0 =? 0) with true. reflexivity.
Qed.

Lemma u8_inv s x r : bytes_ok s -> u8_from_datagram s = Ok (x, r) -> s = x :: r /\ x < 256.
Proof.
  intros B H. unfold u8_from_datagram in H. apply from_datagram_inv in H as [bs [-> [L [-> Bb]]]]; auto.
  destruct bs as [|y [|]]; try discriminate. inversion Bb; subst. cbn [be_val app].
  change (len []) with 0. pows. rewrite N.mul_1_r, N.add_0_r. auto.
Qed.
Lemma u32_inv s x r : bytes_ok s -> u32_from_datagram s = Ok (x, r) ->
  exists v, s = v ++ r /\ fixed_enc 4 x v.
Proof.
  intros B H. unfold u32_from_datagram in H. apply from_datagram_inv in H as [bs [-> [L [-> Bb]]]]; auto.
  exists bs. split; auto. split; auto. split; auto. unfold len. lia.
Qed.

Lemma long_inv b s h rest : bytes_ok s -> long_from_stream b s = Ok (h, rest) ->
  lh_byte h = b /\
  ((lh_version h <> 0 /\ lh_vn h = None /\ lh_protected h = negb (retry_byte b) /\
    exists bs, s = bs ++ rest /\ long_fields h bs) \/
   (lh_version h = 0 /\ lh_protected h = false /\
    exists v d sc, s = v ++ len d :: d ++ len sc :: sc ++ rest /\ fixed_enc 4 0 v /\
      len d < 256 /\ len sc < 256 /\ bytes_ok d /\ bytes_ok sc /\
      h = LongHeader b 0 (len d) u160_zero (len sc) u160_zero (Some (VnFields d sc)) false)).
Proof.
  intros B H. unfold long_from_stream in H.
  destruct (u32_from_datagram s) as [[v s1]| | |] eqn:E0; try discriminate. cbn [bind] in H.
  apply u32_inv in E0 as [vb [-> V]]; auto. apply bytes_ok_app in B as [Bv B1].
  unfold VERSION_NEGOTIATION_VERSION_VALUE in H.
  destruct (N.eqb_spec v 0) as [->|NZ]; cbn [negb] in H.
  - (* version negotiation *)
    destruct (u8_from_datagram s1) as [[dl s2]| | |] eqn:E1; try discriminate. cbn [bind] in H.
    apply u8_inv in E1 as [-> L1]; auto. apply bytes_ok_cons in B1 as [_ B1].
    destruct (var_bytes_from_stream dl s2) as [[d s3]| | |] eqn:E2; try discriminate. cbn [bind] in H.
    apply var_bytes_inv in E2 as [-> <-]. apply bytes_ok_app in B1 as [Bd B1].
    destruct (u8_from_datagram s3) as [[sl s4]| | |] eqn:E3; try discriminate. cbn [bind] in H.
    apply u8_inv in E3 as [-> L2]; auto. apply bytes_ok_cons in B1 as [_ B1].
    destruct (var_bytes_from_stream sl s4) as [[sc s5]| | |] eqn:E4; try discriminate. cbn [bind] in H.
    apply var_bytes_inv in E4 as [-> <-]. apply bytes_ok_app in B1 as [Bs B1].
    rewrite packet_type_cases in H. cbn [lh_version] in H. change (0 =? 0) with true in H.
    cbn [bind] in H. injection H as <- <-. cbn. split; [reflexivity|]. right.
    split; [reflexivity|]. split; [reflexivity|]. exists vb, d, sc. repeat split; auto; apply V.
  - destruct (u8_from_datagram s1) as [[dl s2]| | |] eqn:E1; try discriminate. cbn [bind] in H.
    apply u8_inv in E1 as [-> L1]; auto. apply bytes_ok_cons in B1 as [_ B1].
    destruct (N.ltb_spec 20 dl) as [|L1']; [discriminate|].
    destruct (var_u160_from_stream dl s2) as [[d s3]| | |] eqn:E2; try discriminate. cbn [bind] in H.
    apply var_u160_inv in E2 as [db [-> D]]; auto. apply bytes_ok_app in B1 as [Bd B1].
    destruct (u8_from_datagram s3) as [[sl s4]| | |] eqn:E3; try discriminate. cbn [bind] in H.
    apply u8_inv in E3 as [-> L2]; auto. apply bytes_ok_cons in B1 as [_ B1].
    destruct (N.ltb_spec 20 sl) as [|L2']; [discriminate|].
    destruct (var_u160_from_stream sl s4) as [[sc s5]| | |] eqn:E4; try discriminate. cbn [bind] in H.
    apply var_u160_inv in E4 as [sb [-> S]]; auto. apply bytes_ok_app in B1 as [Bs B1].
    rewrite packet_type_cases in H. cbn [lh_version lh_byte] in H.
    destruct (N.eqb_spec v 0) as [Z|_]; [contradiction|]. cbn [bind] in H. injection H as <- <-.
    cbn. split; [reflexivity|]. left. split; [auto|]. split; [reflexivity|]. split.
    + unfold retry_byte. assert (H : (b / 16) mod 4 < 4) by (apply N.mod_lt; lia).
      destruct ((b / 16) mod 4) as [|[[|[]|]|[[]|[]|]|]]; try reflexivity; lia.
    + exists (vb ++ dl :: db ++ sl :: sb). split; [rewrite <- !app_assoc; cbn; rewrite <- app_assoc; reflexivity|].
      exists vb, db, sb. cbn. tauto.
Qed.

(** Header parsing is total. *)
Lemma tame_u8 : tame (fun _ => 0) u8_from_datagram.
Proof. apply delim_tame, delim_from_datagram. Qed.
Lemma tame_u32 : tame (fun _ => 0) u32_from_datagram.
Proof. apply delim_tame, delim_from_datagram. Qed.
Lemma tame_var_u160 l : tame (fun _ => 0) (var_u160_from_stream l).
Proof. apply delim_tame, delim_var_u160. Qed.

Lemma long_total b s : bytes_ok s ->
  (exists h rest, long_from_stream b s = Ok (h, rest)) \/ (exists e, long_from_stream b s = Err e).
Proof.
  intros B. unfold long_from_stream.
  pose proof (tame_u32 s B) as T. destruct (u32_from_datagram s) as [[v s1]| | |]; try tauto; cbn [bind]; eauto.
  destruct T as [c [-> _]]. apply bytes_ok_app in B as [_ B]. clear c.
  pose proof (tame_u8 s1 B) as T. destruct (negb _);
    (destruct (u8_from_datagram s1) as [[dl s2]| | |]; try tauto; cbn [bind]; eauto);
    destruct T as [c [-> _]]; apply bytes_ok_app in B as [_ B]; clear c.
  - destruct (N.ltb_spec 20 dl); cbn [bind]; eauto.
    pose proof (tame_var_u160 dl s2 B) as T.
    destruct (var_u160_from_stream dl s2) as [[d s3]| | |]; try tauto; cbn [bind]; eauto.
    destruct T as [c [-> _]]; apply bytes_ok_app in B as [_ B]; clear c.
    pose proof (tame_u8 s3 B) as T.
    destruct (u8_from_datagram s3) as [[sl s4]| | |]; try tauto; cbn [bind]; eauto.
    destruct T as [c [-> _]]; apply bytes_ok_app in B as [_ B]; clear c.
    destruct (N.ltb_spec 20 sl); cbn [bind]; eauto.
    pose proof (tame_var_u160 sl s4 B) as T.
    destruct (var_u160_from_stream sl s4) as [[sc s5]| | |]; try tauto; cbn [bind]; eauto.
    rewrite packet_type_cases. cbn [bind]. eauto.
  - rewrite var_bytes_spec. destruct (dl <=? len s2); cbn [bind]; eauto.
    set (s3 := skipn _ _). assert (B3 : bytes_ok s3) by (apply bytes_ok_skipn; auto).
    pose proof (tame_u8 s3 B3) as T.
    destruct (u8_from_datagram s3) as [[sl s4]| | |]; try tauto; cbn [bind]; eauto.
    rewrite var_bytes_spec. destruct (sl <=? len s4); cbn [bind]; eauto.
    rewrite packet_type_cases. cbn [bind]. eauto.
Qed.

Lemma short_total b s : bytes_ok s ->
  (exists h rest, short_from_stream b s = Ok (h, rest)) \/ (exists e, short_from_stream b s = Err e).
Proof.
  intros B. unfold short_from_stream, fixed_len_dcid_from_stream, u64_from_datagram.
  rewrite from_datagram_spec by auto. destruct (_ <=? _)%nat; cbn [bind]; eauto.
Qed.

Lemma short_inv b s h rest : bytes_ok s -> short_from_stream b s = Ok (h, rest) ->
  exists d, s = d ++ rest /\ cid_enc (sh_dcid h) 8 d /\ h = ShortHeader b (sh_dcid h) true.
Proof.
  intros B H. unfold short_from_stream, fixed_len_dcid_from_stream, u64_from_datagram in H.
  destruct (from_datagram _ _ s) as [[x r]| | |] eqn:E; try discriminate. cbn [bind] in H.
  injection H as <- <-. apply from_datagram_inv in E as [bs [-> [L [-> Bb]]]]; auto.
  exists bs. split; auto. cbn. split; [|reflexivity].
  pose proof (be_val_bound bs Bb) as Hb. unfold len in Hb. rewrite L in Hb.
  change (256 ^ N.of_nat 8) with (2 ^ 64) in Hb.
  split; [|split; [auto|split; [unfold len; lia|unfold cid_val; cbn; lia]]].
  unfold cid_ok; cbn. pows. lia.
Qed.

Lemma short_dec b d u rest : cid_enc u 8 d ->
  short_from_stream b (d ++ rest) = Ok (ShortHeader b u true, rest).
Proof.
  intros [[C0 C1] [B [L V]]]. unfold short_from_stream, fixed_len_dcid_from_stream, u64_from_datagram.
  rewrite from_datagram_app by (auto; unfold len in L; lia). cbn [bind]. do 2 f_equal. f_equal.
  pose proof (be_val_bound d B) as Hb. rewrite L in Hb. unfold cid_val in V.
  destruct u as [i0 i1]. cbn [idx0 idx1] in *. pows. f_equal; lia.
Qed.

Lemma long_to_bytes_ok h bs : long_fields h bs -> long_to_bytes h = Ok (lh_byte h :: bs).
Proof.
  intros [v [d [s [[Bv [Lv Vv]] [L1 [[C1 [Bd [Ld Vd]]] [L2 [[C2 [Bs [Ls Vs]]] ->]]]]]]]].
  unfold long_to_bytes. rewrite !u160_to_var_bytes_ok by auto. cbn [bind].
  rewrite <- Vd, <- Vs, <- Vv, <- Ld, <- Ls.
  replace 4%nat with (length v) by (unfold len in Lv; lia).
  unfold len. rewrite !Nat2N.id, !be_bytes_be_val by auto. reflexivity.
Qed.

Lemma short_to_bytes_ok h d : cid_enc (sh_dcid h) 8 d -> short_to_bytes h = Ok (sh_byte h :: d).
Proof.
  intros [C [B [L V]]]. unfold short_to_bytes. rewrite u160_to_var_bytes_ok by (auto; lia).
  cbn [bind]. rewrite <- V. replace (N.to_nat 8) with (length d) by (unfold len in L; lia).
  rewrite be_bytes_be_val by auto. reflexivity.
Qed.

Lemma xor_pn_loop_spec bs : forall i mask, (i + 1 + length bs <= length mask)%nat ->
  xor_pn_loop bs i mask = Ok (xor_bytes bs (skipn (i + 1) mask)).
Proof.
  induction bs as [|b bs IH]; intros i mask L; [reflexivity|]. cbn [length] in L.
  cbn [xor_pn_loop]. unfold index.
  destruct (nth_error mask (i + 1)) as [m|] eqn:E; [|apply nth_error_None in E; lia].
  cbn [bind]. rewrite IH by lia. cbn [bind].
  assert (G : forall n mask, nth_error mask n = Some m -> skipn n mask = m :: skipn (S n) mask).
  { induction n; destruct mask0; cbn; try discriminate; [congruence|]. intros. apply IHn; auto. }
  rewrite (G _ _ E). reflexivity.
Qed.

Lemma xor_pn_spec bs mask : len bs <= 4 -> len mask = 5 ->
  xor_pn_protection bs mask = Ok (xor_bytes bs (skipn 1 mask)).
Proof.
  intros L M. unfold xor_pn_protection. destruct (N.ltb_spec 4 (len bs)); [lia|].
  apply xor_pn_loop_spec. unfold len in *. lia.
Qed.
