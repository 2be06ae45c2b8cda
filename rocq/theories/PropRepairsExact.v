(** The corrected decoder of PropRepairsPn.v reads exactly the conformant packets
    (C25 and C63 without the restriction to packet numbers of four bytes), so that
    no byte of a packet can be changed (C55, C104 and C105).  What the code does:
    PropDecode.v, PropTamper.v, PropChange.v. *)
From Verif Require Import Base Utils Frame CipherSuite Secrets Connection Packet Histories Spec SpecPacket
  Tactics UtilsFacts ParserFacts FrameFacts SecretsFacts HeaderFacts PacketFacts ConnectionFacts PacketInv DecodeFacts SendFacts
  ProtectedInv CryptoInst BuildFacts PropPacket PropConn PropProtected PropRepairsPn.

(** Removing the protection and opening, read backwards. *)
Lemma protect_back P oc c sp k bits b mid four s m0 mask data rest pt :
  prims_ok P -> remote_keys P oc c sp k -> bytes_ok four -> bytes_ok s -> len four = 4 ->
  get_remote_hp_mask c sp s = Ok (m0 :: mask) ->
  let first := N.lxor b (N.land m0 bits) in
  let pnl := N.land first 3 + 1 in
  let pnb := firstn (N.to_nat pnl) (xor_bytes four mask) in
  skipn (N.to_nat pnl) four ++ s = data ++ rest -> 20 <= pnl + len data ->
  decrypt_remote_payload c sp data (first :: mid ++ pnb) (be_val pnb) = Ok pt ->
  len pnb = pnl /\ bytes_ok pt /\ len data = len pt + 16 /\ be_val pnb < 256 ^ len pnb /\
  exists wire, protected P k bits first mid pnb (be_val pnb) pt wire /\ b :: mid ++ four ++ s = wire ++ rest.
Proof.
  intros HP K Bf Bs L4 Em first pnl pnb Es L20 Ed.
  pose proof (land3_le first) as L3. fold pnl in L3.
  assert (L16 : 16 <= len s).
  { destruct (N.lt_ge_cases (len s) 16); [|auto]. rewrite (remote_mask_short P oc c sp k) in Em by auto. discriminate Em. }
  destruct (remote_mask P oc c sp k s HP K L16) as [m0' [mask' [more [Em' [Lm [Bm Ee]]]]]].
  rewrite Em in Em'. injection Em' as <- <-. apply bytes_ok_cons in Bm as [_ Bm].
  assert (Lx : len (xor_bytes four mask) = 4) by (rewrite xor_bytes_len; congruence).
  assert (Lpn : len pnb = pnl) by (unfold pnb, len in *; rewrite firstn_length; lia).
  assert (Bpn : bytes_ok pnb) by (apply bytes_ok_firstn, xor_bytes_ok; auto).
  pose proof (be_val_bound pnb Bpn) as Hpn.
  assert (P64 : be_val pnb < 2 ^ 64) by (pose proof (pnb_bound pnb Bpn ltac:(lia)); pows; lia).
  destruct (decrypt_remote_inv P oc c sp k _ _ _ _ K P64 Ed) as [nonce [ct [tag [Hn [-> [Lt Ho]]]]]].
  assert (B2 : bytes_ok ((ct ++ tag) ++ rest)) by (rewrite <- Es; apply bytes_ok_app; split; [apply bytes_ok_skipn; auto|auto]).
  apply bytes_ok_app in B2 as [B2 _]. apply bytes_ok_app in B2 as [Bct Btag].
  pose proof K as [sec [_ Ks]]. destruct Ks as [_ [_ [_ [_ [K1 [K2 [K3 K4]]]]]]].
  assert (Lno : len nonce = 12) by (destruct Hn as [_ [-> _]]; auto).
  destruct (auth_law P HP _ _ _ _ _ _ K1 Lno Bct Btag Lt Ho) as [Bpt [Lpt Seal]].
  split; [auto|]. split; [auto|]. split; [rewrite len_app; lia|]. split; [auto|].
  assert (X : xor_bytes pnb mask = firstn (N.to_nat pnl) four).
  { unfold pnb. rewrite xor_firstn.
    assert (G : forall (a m m' : list N), (length a <= length m)%nat -> firstn (length a) m' = m -> xor_bytes (xor_bytes a m) m' = a).
    { induction a as [|x a IH]; intros [|y m] m' L Q; cbn [length] in *; try lia; [reflexivity|reflexivity|].
      destruct m' as [|z m']; [discriminate Q|]. cbn [firstn] in Q. injection Q as -> Q. cbn [xor_bytes].
      rewrite xor_low_twice. f_equal. apply IH; [lia|auto]. }
    assert (Lf : length (firstn (N.to_nat pnl) four) = N.to_nat pnl) by (rewrite firstn_length; unfold len in L4; lia).
    apply G; rewrite Lf; [rewrite firstn_length; unfold len in Lm; lia|reflexivity]. }
  exists (N.lxor first (N.land m0 bits) :: mid ++ xor_bytes pnb mask ++ ct ++ tag). split.
  - split. { split; [lia|]. split; [auto|]. symmetry. apply N.mod_small. auto. }
    split; [rewrite Lpn; reflexivity|].
    exists nonce, ct, tag, m0, mask, more. split; [auto|]. split; [exact Seal|].
    split; [rewrite !len_app in *; lia|]. split; [|auto].
    rewrite <- Ee. f_equal.
    assert (S : s = skipn (4 - N.to_nat pnl) (ct ++ tag) ++ rest).
    { apply (f_equal (skipn (4 - N.to_nat pnl))) in Es.
      rewrite skipn_app_exact in Es by (rewrite skipn_length; unfold len in L4; lia).
      rewrite skipn_app in Es.
      replace (4 - N.to_nat pnl - length (ct ++ tag))%nat with O in Es by (unfold len in L20; lia). exact Es. }
    rewrite S. rewrite skipn_app. rewrite (skipn_all2 (n:=4) pnb) by (unfold len in Lpn; lia).
    replace (length pnb) with (N.to_nat pnl) by (unfold len in Lpn; lia). cbn [app].
    rewrite firstn_app. rewrite skipn_length.
    replace (16 - (length (ct ++ tag) - (4 - N.to_nat pnl)))%nat with O by (unfold len in L20; lia).
    cbn [firstn]. rewrite app_nil_r. reflexivity.
  - unfold first. rewrite xor_low_twice, X. cbn [app]. f_equal. rewrite <- !app_assoc. f_equal.
    rewrite <- (firstn_skipn (N.to_nat pnl) four) at 1. rewrite <- app_assoc. f_equal. rewrite Es, <- app_assoc. reflexivity.
Qed.

(** What follows the Length field of a long packet. *)
Lemma long_back {A} fd P oc c sp k h fields L s X
  (f : long_header -> list N -> N -> list frame -> stream -> outcome A) y :
  prims_ok P -> remote_keys P oc c sp k -> no_remote_ack c sp -> bytes_ok s -> lh_byte h < 256 ->
  long_fields h fields -> lh_protected h = true ->
  (let? (four, s) := var_bytes_from_stream 4 s in
   let? mask := get_remote_hp_mask c sp s in
   let? header := long_remove_protection h mask in
   let? pn_length := long_packet_number_length header in
   let? pn_protected := xor_pn_protection four mask in
   let pn_bytes := firstn (N.to_nat pn_length) pn_protected in
   let s := skipn (N.to_nat pn_length) four ++ s in
   let? packet_number := reconstruct_remote_pn oc c sp pn_bytes in
   let? n := payload_length L pn_length in
   let? (data, s) := var_bytes_from_stream n s in
   let? hb := long_to_bytes header in
   let? pt := decrypt_remote_payload c sp data (hb ++ X ++ pn_bytes) packet_number in
   let? payload := fd oc pt in
   f header pn_bytes packet_number payload s) = Ok y ->
  exists first pnb pt fs r wire,
    first < 256 /\ first / 16 = lh_byte h / 16 /\ L = len pnb + len pt + 16 /\ bytes_ok pt /\
    be_val pnb < 256 ^ len pnb /\ protected P k 15 first (fields ++ X) pnb (be_val pnb) pt wire /\
    lh_byte h :: (fields ++ X) ++ s = wire ++ r /\ fd oc pt = Ok fs /\
    f (with_byte h first false) pnb (be_val pnb) fs r = Ok y.
Proof.
  intros HP K NA B Hb HF Hp D.
  apply bind_ok in D as [[four s1] [E D]]. apply var_bytes_inv in E as [-> L4]. apply bytes_ok_app in B as [Bf B1].
  apply bind_ok in D as [mask [Em D]].
  assert (L16 : 16 <= len s1).
  { destruct (N.lt_ge_cases (len s1) 16); [|auto]. rewrite (remote_mask_short P oc c sp k) in Em by auto. discriminate Em. }
  destruct (remote_mask P oc c sp k s1 HP K L16) as [m0 [mask' [more [Em' [Lm [Bm _]]]]]].
  rewrite Em in Em'. injection Em' as ->. apply bytes_ok_cons in Bm as [_ Bm].
  unfold long_remove_protection in D. rewrite Hp in D. cbn [index nth_error bind] in D.
  change (LongHeader _ _ _ _ _ _ _ _) with (with_byte h (N.lxor (lh_byte h) (N.land m0 15)) false) in D.
  unfold long_packet_number_length in D. cbn [with_byte lh_protected lh_byte bind] in D. fold (with_byte h (N.lxor (lh_byte h) (N.land m0 15)) false) in D.
  rewrite xor_pn_spec in D by (rewrite ?len_cons; lia). cbn [bind skipn] in D. cbv zeta in D.
  pose proof (land3_le (N.lxor (lh_byte h) (N.land m0 15))) as L3.
  set (first := N.lxor (lh_byte h) (N.land m0 15)) in *. set (pnl := N.land first 3 + 1) in *.
  set (pnb := firstn (N.to_nat pnl) (xor_bytes four mask')) in *.
  assert (Lpn : len pnb <= 4) by (unfold pnb; pose proof (take_len (N.to_nat pnl) (xor_bytes four mask')); lia).
  rewrite reconstruct_none in D by auto. cbn [bind] in D.
  unfold payload_length in D. destruct (N.ltb_spec L 20); [discriminate D|]. cbn [bind] in D.
  apply bind_ok in D as [[data r] [E D]]. apply var_bytes_inv in E as [Es Ld].
  rewrite (long_to_bytes_ok _ fields (long_fields_byte h first false fields HF)) in D. cbn [bind with_byte lh_byte] in D.
  apply bind_ok in D as [pt [Ed D]]. apply bind_ok in D as [fs [Ef D]].
  cbn [app] in Ed. rewrite app_assoc in Ed.
  destruct (protect_back P oc c sp k 15 (lh_byte h) (fields ++ X) four s1 m0 mask' data r pt HP K Bf B1 L4 Em Es
              ltac:(fold first pnl; lia) Ed) as [Lp [Bpt [Lpt [Hpn [wire [PR W]]]]]].
  fold first pnl pnb in Lp, Hpn, PR.
  exists first, pnb, pt, fs, r, wire.
  split; [apply xor_mask_byte; auto; lia|]. split; [apply low4_div|]. split; [lia|]. auto 10.
Qed.

Lemma repaired_cases fd oc c s p rest : bytes_ok s -> decode_repaired fd oc c s = Ok (p, rest) ->
  (exists b fields h r, s = b :: fields ++ r /\ 128 <= b < 256 /\ long_fields h fields /\ lh_version h <> 0 /\
     lh_vn h = None /\ bytes_ok r /\
     match (b / 16) mod 4 with
     | 0 => let? (p, s) := initial_repaired fd oc c s in Ok (PInitial p, s)
     | 1 => let? (p, s) := zero_rtt_repaired fd oc c s in Ok (PZeroRtt p, s)
     | 2 => let? (p, s) := handshake_repaired fd oc c s in Ok (PHandshake p, s)
     | _ => Err (InternalError "Retry packets are not supported")
     end = Ok (p, rest)) \/
  (exists q, p = PVersionNegotiation q) \/
  (exists b d u r, s = b :: d ++ r /\ b < 128 /\ cid_enc u 8 d /\ bytes_ok r /\
     (let? (p, s) := one_rtt_repaired fd oc c s in Ok (POneRtt p, s)) = Ok (p, rest)).
Proof.
  intros B D. destruct (next_header_cases s B) as [[e E]|[[b [s1 [h [r [-> [Hb [El E]]]]]]]|[b [s1 [h [r [-> [Hb [El E]]]]]]]]].
  - unfold decode_repaired in D. rewrite E in D. discriminate D.
  - pose proof B as B'. apply bytes_ok_cons in B' as [_ B1].
    destruct (long_inv _ _ _ _ B1 El) as [_ [[Hv [VN [_ [fields [-> HF]]]]]|[Hv _]]].
    + left. exists b, fields, h, r. apply bytes_ok_app in B1 as [_ Br]. rewrite (dispatch_repaired fd oc c h fields) in D by auto. auto 10.
    + right. left. unfold decode_repaired in D. rewrite E in D. cbn [bind] in D.
      rewrite packet_type_cases, Hv in D. change (0 =? 0) with true in D. cbn [bind] in D.
      apply bind_ok in D as [[q r'] [_ D]]. injection D as <- <-. eauto.
  - right. right. pose proof B as B'. apply bytes_ok_cons in B' as [_ B1].
    destruct (short_inv _ _ _ _ B1 El) as [d [-> [HD _]]]. apply bytes_ok_app in B1 as [_ Br].
    unfold decode_repaired in D. rewrite E in D. cbn [bind] in D. exists b, d, (sh_dcid h), r. auto 10.
Qed.
Lemma type_known b : (b / 16) mod 4 = 0 \/ (b / 16) mod 4 = 1 \/ (b / 16) mod 4 = 2 \/ (b / 16) mod 4 = 3.
Proof. pose proof (N.mod_lt (b / 16) 4). lia. Qed.

(** ** C25 and C63: accepted is conformant, with packet numbers of every length *)
Theorem C25_repaired : forall fd P oc c k s p rest,
  prims_ok P -> remote_keys P oc c SpInitial k -> no_remote_ack c SpInitial -> bytes_ok s ->
  decode_repaired fd oc c s = Ok (PInitial p, rest) <->
  exists wire pt, s = wire ++ rest /\ initial_wire P k p pt wire /\ pi_pn p < 256 ^ len (pi_pn_bytes p) /\
    fd oc pt = Ok (pi_payload p).
Proof.
  intros fd P oc c k s p rest HP K NA B. split.
  2:{ intros [wire [pt [-> [W [Hp Df]]]]]. eapply C23_repaired; eauto. }
  intros D. destruct (repaired_cases _ _ _ _ _ _ B D) as [[b [fields [h [r [-> [Hb [HF [Hv [VN [Br D']]]]]]]]]]|[[q X]|[b [d [u [r [_ [_ [_ [_ D']]]]]]]]]].
  2: discriminate X.
  2: apply bind_ok in D' as [[q r'] [_ D']]; discriminate D'.
  destruct (type_known b) as [T|[T|[T|T]]]; rewrite T in D'; try discriminate D';
    apply bind_ok in D' as [[q r'] [D' X]]; try discriminate X. injection X as <- <-.
  unfold initial_repaired in D'. rewrite u8_dec in D' by lia. cbn [bind] in D'. rewrite (long_dec h fields) in D' by auto.
  cbn [bind] in D'.
  apply bind_ok in D' as [[[tl tlb] s1] [E D']]. destruct (varint_dec_inv _ _ _ _ _ Br E) as [-> HT]. apply bytes_ok_app in Br as [_ Br].
  apply bind_ok in D' as [[tok s2] [E' D']]. apply var_bytes_inv in E' as [-> Ltok]. apply bytes_ok_app in Br as [Btok Br].
  apply bind_ok in D' as [[[L llb] s3] [E' D']]. destruct (varint_dec_inv _ _ _ _ _ Br E') as [-> HL]. apply bytes_ok_app in Br as [_ Br].
  assert (Eb : retry_byte b = false) by (unfold retry_byte; rewrite T; reflexivity). rewrite Eb in D'.
  assert (X : tlb ++ tok ++ llb ++ [] = tlb ++ tok ++ llb) by (rewrite app_nil_r; reflexivity).
  destruct (long_back fd P oc c SpInitial k (with_byte h b true) fields L s3 (tlb ++ tok ++ llb)
    (fun header pnb pn fs s => let? _ := validate_payload fs in Ok (PacketInitial header tok pn pnb fs, s)) (q, r')
    HP K NA Br (proj2 Hb) HF eq_refl) as [first [pnb [pt [fs [r0 [wire [H1 [H2 [H3 [Bpt [H4 [PR [W [Df H5]]]]]]]]]]]]]].
  { rewrite <- D'. clear. cbv zeta. cbn [negb].
    repeat (match goal with |- bind ?m _ = bind ?m _ => destruct m; cbn [bind]; try reflexivity; repeat match goal with q : (_ * _)%type |- _ => destruct q end; cbn beta iota end).
    rewrite <- !app_assoc. reflexivity. }
  cbn in H5. injection H5 as <- <-. exists wire, pt.
  split. { rewrite <- W. cbn [app with_byte lh_byte]. rewrite <- !app_assoc. reflexivity. }
  cbn [pi_pn pi_pn_bytes pi_payload]. split; [|auto].
  exists fields, tlb, llb. cbn [pi_header pi_token pi_pn pi_pn_bytes with_byte lh_byte lh_version lh_vn lh_protected] in *.
  split; [auto|]. split. { apply (type_of_b0_inv first 0); [auto| |rewrite H2; exact T].
    pose proof (N.div_mod first 16). pose proof (N.div_mod b 16). lia. }
  split; [auto|]. split; [auto|]. split; [auto|]. split; [exact HF|]. rewrite Ltok. subst L. auto.
Qed.
Print Assumptions C25_repaired.

Theorem C63_repaired :
  (forall fd P oc c k s p rest,
     prims_ok P -> remote_keys P oc c SpHandshake k -> no_remote_ack c SpHandshake -> bytes_ok s ->
     decode_repaired fd oc c s = Ok (PHandshake p, rest) <->
     exists wire pt, s = wire ++ rest /\ handshake_wire P k p pt wire /\ ph_pn p < 256 ^ len (ph_pn_bytes p) /\
       fd oc pt = Ok (ph_payload p)) /\
  (forall fd P oc c k s p rest,
     prims_ok P -> remote_keys P oc c SpApplication k -> no_remote_ack c SpApplication -> bytes_ok s ->
     decode_repaired fd oc c s = Ok (PZeroRtt p, rest) <->
     exists wire pt, s = wire ++ rest /\ zero_rtt_wire P k p pt wire /\ pz_pn p < 256 ^ len (pz_pn_bytes p) /\
       fd oc pt = Ok (pz_payload p)) /\
  (forall fd P oc c k s p rest,
     prims_ok P -> remote_keys P oc c SpApplication k -> no_remote_ack c SpApplication -> bytes_ok s ->
     decode_repaired fd oc c s = Ok (POneRtt p, rest) <->
     rest = [] /\ exists pt, one_rtt_wire P k p pt s /\ po_pn p < 256 ^ len (po_pn_bytes p) /\
       fd oc pt = Ok (po_payload p)).
Proof.
  split; [|split].
  - intros fd P oc c k s p rest HP K NA B. split.
    2:{ intros [wire [pt [-> [W [Hp Df]]]]]. eapply C61_repaired; eauto. }
    intros D. destruct (repaired_cases _ _ _ _ _ _ B D) as [[b [fields [h [r [-> [Hb [HF [Hv [VN [Br D']]]]]]]]]]|[[q X]|[b [d [u [r [_ [_ [_ [_ D']]]]]]]]]].
    2: discriminate X.
    2: apply bind_ok in D' as [[q r'] [_ D']]; discriminate D'.
    destruct (type_known b) as [T|[T|[T|T]]]; rewrite T in D'; try discriminate D';
      apply bind_ok in D' as [[q r'] [D' X]]; try discriminate X. injection X as <- <-.
    unfold handshake_repaired in D'. rewrite u8_dec in D' by lia. cbn [bind] in D'. rewrite (long_dec h fields) in D' by auto.
    cbn [bind] in D'.
    apply bind_ok in D' as [[[L llb] s3] [E' D']]. destruct (varint_dec_inv _ _ _ _ _ Br E') as [-> HL]. apply bytes_ok_app in Br as [_ Br].
    assert (Eb : retry_byte b = false) by (unfold retry_byte; rewrite T; reflexivity). rewrite Eb in D'.
    destruct (long_back fd P oc c SpHandshake k (with_byte h b true) fields L s3 llb
      (fun header pnb pn fs s => Ok (PacketHandshake header pnb pn fs, s)) (q, r')
      HP K NA Br (proj2 Hb) HF eq_refl D') as [first [pnb [pt [fs [r0 [wire [H1 [H2 [H3 [Bpt [H4 [PR [W [Df H5]]]]]]]]]]]]]].
    injection H5 as <- <-. exists wire, pt.
    split. { rewrite <- W. cbn [app with_byte lh_byte]. rewrite <- !app_assoc. reflexivity. }
    cbn [ph_pn ph_pn_bytes ph_payload]. split; [|auto].
    exists fields, llb. cbn [ph_header ph_pn ph_pn_bytes with_byte lh_byte lh_version lh_vn lh_protected] in *.
    split; [auto|]. split. { apply (type_of_b0_inv first 2); [auto| |rewrite H2; exact T].
      pose proof (N.div_mod first 16). pose proof (N.div_mod b 16). lia. }
    split; [auto|]. split; [auto|]. split; [auto|]. split; [exact HF|]. subst L. auto 10.
  - intros fd P oc c k s p rest HP K NA B. split.
    2:{ intros [wire [pt [-> [W [Hp Df]]]]]. eapply C61_repaired; eauto. }
    intros D. destruct (repaired_cases _ _ _ _ _ _ B D) as [[b [fields [h [r [-> [Hb [HF [Hv [VN [Br D']]]]]]]]]]|[[q X]|[b [d [u [r [_ [_ [_ [_ D']]]]]]]]]].
    2: discriminate X.
    2: apply bind_ok in D' as [[q r'] [_ D']]; discriminate D'.
    destruct (type_known b) as [T|[T|[T|T]]]; rewrite T in D'; try discriminate D';
      apply bind_ok in D' as [[q r'] [D' X]]; try discriminate X. injection X as <- <-.
    unfold zero_rtt_repaired in D'. rewrite u8_dec in D' by lia. cbn [bind] in D'. rewrite (long_dec h fields) in D' by auto.
    cbn [bind] in D'.
    apply bind_ok in D' as [[[L llb] s3] [E' D']]. destruct (varint_dec_inv _ _ _ _ _ Br E') as [-> HL]. apply bytes_ok_app in Br as [_ Br].
    assert (Eb : retry_byte b = false) by (unfold retry_byte; rewrite T; reflexivity). rewrite Eb in D'.
    destruct (long_back fd P oc c SpApplication k (with_byte h b true) fields L s3 llb
      (fun header pnb pn fs s => Ok (PacketZeroRtt header L pnb pn fs, s)) (q, r')
      HP K NA Br (proj2 Hb) HF eq_refl D') as [first [pnb [pt [fs [r0 [wire [H1 [H2 [H3 [Bpt [H4 [PR [W [Df H5]]]]]]]]]]]]]].
    injection H5 as <- <-. exists wire, pt.
    split. { rewrite <- W. cbn [app with_byte lh_byte]. rewrite <- !app_assoc. reflexivity. }
    cbn [pz_pn pz_pn_bytes pz_payload]. split; [|auto].
    exists fields, llb. cbn [pz_header pz_pn pz_pn_bytes pz_length with_byte lh_byte lh_version lh_vn lh_protected] in *.
    split; [auto|]. split. { apply (type_of_b0_inv first 1); [auto| |rewrite H2; exact T].
      pose proof (N.div_mod first 16). pose proof (N.div_mod b 16). lia. }
    split; [auto|]. split; [auto|]. split; [auto|]. split; [exact HF|]. subst L. auto 10.
  - intros fd P oc c k s p rest HP K NA B. split.
    2:{ intros [-> [pt [W [Hp Df]]]]. eapply C61_repaired; eauto. }
    intros D. destruct (repaired_cases _ _ _ _ _ _ B D) as [[b [fields [h [r [-> [Hb [HF [Hv [VN [Br D']]]]]]]]]]|[[q X]|[b [d [u [r [-> [Hb [HD [Br D']]]]]]]]]].
    1: destruct (type_known b) as [T|[T|[T|T]]]; rewrite T in D'; try discriminate D';
         apply bind_ok in D' as [[q r'] [_ X]]; discriminate X.
    1: discriminate X.
    apply bind_ok in D' as [[q r'] [D' X]]. injection X as <- <-.
    unfold one_rtt_repaired in D'. rewrite u8_dec in D' by lia. cbn [bind] in D'.
    rewrite (short_dec _ d u) in D' by auto. cbn [bind] in D'.
    apply bind_ok in D' as [[four s1] [E D']]. apply var_bytes_inv in E as [-> L4]. apply bytes_ok_app in Br as [Bf B1].
    apply bind_ok in D' as [mask [Em D']].
    assert (L16 : 16 <= len s1).
    { destruct (N.lt_ge_cases (len s1) 16); [|auto]. rewrite (remote_mask_short P oc c _ k) in Em by auto. discriminate Em. }
    destruct (remote_mask P oc c _ k s1 HP K L16) as [m0 [mask' [more [Em' [Lm [Bm _]]]]]].
    rewrite Em in Em'. injection Em' as ->.
    unfold short_remove_protection, short_packet_number_length in D'.
    cbn [sh_protected index nth_error bind sh_byte sh_dcid] in D'.
    rewrite xor_pn_spec in D' by (rewrite ?len_cons; lia). cbn [bind skipn] in D'. cbv zeta in D'.
    pose proof (land3_le (N.lxor b (N.land m0 31))) as L3.
    set (first := N.lxor b (N.land m0 31)) in *. set (pnl := N.land first 3 + 1) in *.
    set (pnb := firstn (N.to_nat pnl) (xor_bytes four mask')) in *.
    assert (Lpn : len pnb <= 4) by (unfold pnb; pose proof (take_len (N.to_nat pnl) (xor_bytes four mask')); lia).
    rewrite reconstruct_none in D' by auto. cbn [bind all_bytes_from_stream] in D'.
    rewrite (short_to_bytes_ok (ShortHeader first u false) d HD) in D'. cbn [bind sh_byte app] in D'.
    apply bind_ok in D' as [pt [Ed D']]. apply bind_ok in D' as [fs [Ef D']]. injection D' as <- <-.
    destruct (protect_back P oc c SpApplication k 31 b d four s1 m0 mask' (skipn (N.to_nat pnl) four ++ s1) [] pt HP K Bf B1 L4 Em
              ltac:(rewrite app_nil_r; reflexivity)
              ltac:(fold first pnl; rewrite len_app; unfold len in *; rewrite skipn_length; lia) Ed)
      as [Lp [Bpt [Lpt [Hpn [wire [PR W]]]]]].
    fold first pnl pnb in Lp, Hpn, PR. rewrite app_nil_r in W. rewrite W. split; [reflexivity|].
    exists pt. cbn [po_pn po_pn_bytes po_payload]. split; [|auto].
    exists d. cbn [po_header po_pn po_pn_bytes sh_byte sh_protected sh_dcid].
    split; [apply low5_short; auto|]. auto.
Qed.
Print Assumptions C63_repaired.

(** ** C55, C104 and C105: two byte strings read as the same packet hold two
    different sealed texts under one nonce, which the peer never makes. *)
Definition sealed_in (P : prims) (k : keys) (pn : N) (s rest aad pt : list N) : Prop :=
  exists b mid ppn pnb first nonce ct tag,
    s = b :: mid ++ ppn ++ ct ++ tag ++ rest /\ aad = first :: mid ++ pnb /\ len ppn = len pnb /\
    nonce_for (k_iv k) pn nonce /\ p_gcm_seal P (k_key k) nonce aad pt = Some (ct, tag).
Definition sealed_twice (fd : frame_decoder) (P : prims) (k : keys) (oc : bool) (pn : N) (fs : list frame) (s s' rest : list N) : Prop :=
  exists aad pt aad' pt', sealed_in P k pn s rest aad pt /\ sealed_in P k pn s' rest aad' pt' /\
    (aad, pt) <> (aad', pt') /\ fd oc pt = Ok fs /\ fd oc pt' = Ok fs.

Lemma two_wires fd P k oc bits first mid mid' pnb pn pt pt' wire wire' rest fs :
  protected P k bits first mid pnb pn pt wire -> protected P k bits first mid' pnb pn pt' wire' ->
  wire ++ rest <> wire' ++ rest -> fd oc pt = Ok fs -> fd oc pt' = Ok fs ->
  sealed_twice fd P k oc pn fs (wire ++ rest) (wire' ++ rest) rest.
Proof.
  intros [[F1 [F2 F3]] [_ [nonce [ct [tag [m0 [mask [more [Hn [Seal [L20 [Ee [Lm ->]]]]]]]]]]]]]
         [_ [_ [nonce' [ct' [tag' [m0' [mask' [more' [Hn' [Seal' [L20' [Ee' [Lm' ->]]]]]]]]]]]]] NE D D'.
  assert (En : nonce' = nonce).
  { destruct Hn as [N1 [N2 N3]], Hn' as [N1' [N2' N3']]. apply be_val_inj; auto; [unfold len in *; lia|congruence]. }
  subst nonce'.
  exists (first :: mid ++ pnb), pt, (first :: mid' ++ pnb), pt'.
  split. { exists (N.lxor first (N.land m0 bits)), mid, (xor_bytes pnb mask), pnb, first, nonce, ct, tag.
    cbn [app]. rewrite <- !app_assoc. split; [reflexivity|]. split; [reflexivity|].
    split; [apply xor_len_le; lia|]. auto. }
  split. { exists (N.lxor first (N.land m0' bits)), mid', (xor_bytes pnb mask'), pnb, first, nonce, ct', tag'.
    cbn [app]. rewrite <- !app_assoc. split; [reflexivity|]. split; [reflexivity|].
    split; [apply xor_len_le; lia|]. auto. }
  split; [|auto]. intros Q. injection Q as Q1 Q2. apply app_inv_tail in Q1. subst mid' pt'.
  apply NE. rewrite Seal in Seal'. injection Seal' as <- <-. rewrite Ee in Ee'. injection Ee' as <- Q.
  apply (f_equal (firstn 4)) in Q. rewrite !firstn_app_exact in Q by (unfold len in *; lia). subst mask'. reflexivity.
Qed.

Theorem C55_repaired : forall fd P oc c k s s' p rest,
  prims_ok P -> remote_keys P oc c SpInitial k -> no_remote_ack c SpInitial -> bytes_ok s -> bytes_ok s' -> s <> s' ->
  decode_repaired fd oc c s = Ok (PInitial p, rest) -> decode_repaired fd oc c s' = Ok (PInitial p, rest) ->
  sealed_twice fd P k oc (pi_pn p) (pi_payload p) s s' rest.
Proof.
  intros fd P oc c k s s' p rest HP K NA B B' NE D D'.
  apply (C25_repaired fd P oc c k) in D as [wire [pt [-> [[fs [tl [ll W]]] [_ F]]]]]; auto.
  apply (C25_repaired fd P oc c k) in D' as [wire' [pt' [-> [[fs' [tl' [ll' W']]] [_ F']]]]]; auto.
  destruct W as [_ [_ [_ [_ [_ [_ [_ [_ [_ [_ PR]]]]]]]]]]. destruct W' as [_ [_ [_ [_ [_ [_ [_ [_ [_ [_ PR']]]]]]]]]].
  eapply two_wires; eauto.
Qed.
Print Assumptions C55_repaired.

Theorem C104_repaired : forall fd P oc c k s s' p rest,
  prims_ok P -> remote_keys P oc c SpHandshake k -> no_remote_ack c SpHandshake -> bytes_ok s -> bytes_ok s' -> s <> s' ->
  decode_repaired fd oc c s = Ok (PHandshake p, rest) -> decode_repaired fd oc c s' = Ok (PHandshake p, rest) ->
  sealed_twice fd P k oc (ph_pn p) (ph_payload p) s s' rest.
Proof.
  intros fd P oc c k s s' p rest HP K NA B B' NE D D'. destruct C63_repaired as [H _].
  apply (H fd P oc c k) in D as [wire [pt [-> [[fs [ll W]] [_ F]]]]]; auto.
  apply (H fd P oc c k) in D' as [wire' [pt' [-> [[fs' [ll' W']] [_ F']]]]]; auto.
  destruct W as [_ [_ [_ [_ [_ [_ [_ [_ PR]]]]]]]]. destruct W' as [_ [_ [_ [_ [_ [_ [_ [_ PR']]]]]]]].
  eapply two_wires; eauto.
Qed.
Print Assumptions C104_repaired.

Theorem C105_repaired :
  (forall fd P oc c k s s' p rest,
     prims_ok P -> remote_keys P oc c SpApplication k -> no_remote_ack c SpApplication -> bytes_ok s -> bytes_ok s' -> s <> s' ->
     decode_repaired fd oc c s = Ok (PZeroRtt p, rest) -> decode_repaired fd oc c s' = Ok (PZeroRtt p, rest) ->
     sealed_twice fd P k oc (pz_pn p) (pz_payload p) s s' rest) /\
  (forall fd P oc c k s s' p rest,
     prims_ok P -> remote_keys P oc c SpApplication k -> no_remote_ack c SpApplication -> bytes_ok s -> bytes_ok s' -> s <> s' ->
     decode_repaired fd oc c s = Ok (POneRtt p, rest) -> decode_repaired fd oc c s' = Ok (POneRtt p, rest) ->
     sealed_twice fd P k oc (po_pn p) (po_payload p) s s' rest).
Proof.
  split; intros fd P oc c k s s' p rest HP K NA B B' NE D D'; destruct C63_repaired as [_ [H H']].
  - apply (H fd P oc c k) in D as [wire [pt [-> [[fs [ll W]] [_ F]]]]]; auto.
    apply (H fd P oc c k) in D' as [wire' [pt' [-> [[fs' [ll' W']] [_ F']]]]]; auto.
    destruct W as [_ [_ [_ [_ [_ [_ [_ [_ [_ PR]]]]]]]]]. destruct W' as [_ [_ [_ [_ [_ [_ [_ [_ [_ PR']]]]]]]]].
    eapply two_wires; eauto.
  - apply (H' fd P oc c k) in D as [-> [pt [[d [_ [_ [_ [_ PR]]]]] [_ F]]]]; auto.
    apply (H' fd P oc c k) in D' as [_ [pt' [[d' [_ [_ [_ [_ PR']]]]] [_ F']]]]; auto.
    rewrite <- (app_nil_r s), <- (app_nil_r s') in NE |- *. eapply two_wires; eauto.
Qed.
Print Assumptions C105_repaired.

(** A packet whose number has one byte: no byte of it can be changed, while with
    the decoder of the crate three bytes can (C55_refuted). *)
Example C55_repaired_case :
  (let? (c, s) := three_keys in
   let long type sp pnb token :=
     let b := 0xc0 + type * 16 + (len pnb - 1) in
     let mid := be_bytes 4 1 ++ [1; 5; 0] ++ token ++ [20 + len pnb] in
     let? body := encrypt_local_payload c sp [1; 1; 1; 1] (b :: mid ++ pnb) (be_val pnb) in
     let? mask := get_local_hp_mask c sp (skipn (N.to_nat (4 - len pnb)) body) in
     match mask with
     | m0 :: m => Ok (N.lxor b (N.land m0 0x0f) :: mid ++ xor_bytes pnb m ++ body)
     | [] => Err (InternalError "mask")
     end in
   let accepted w := match decode_repaired deserialize_frames true s w with Ok (PVersionNegotiation _, _) => false | Ok _ => true | _ => false end in
   let flip w i := firstn i w ++ N.lxor (nth i w 0) 1 :: skipn (S i) w in
   let unchanged w := (accepted w, forallb (fun i => negb (accepted (flip w i))) (seq 0 (length w))) in
   let? i1 := long 0 SpInitial [9] [0] in
   let? z2 := long 1 SpApplication [1; 9] [] in
   let? h3 := long 2 SpHandshake [1; 0; 9] [] in
   Ok (map unchanged [i1; z2; h3])) = Ok [(true, true); (true, true); (true, true)].
Proof. vm_compute. reflexivity. Qed.
