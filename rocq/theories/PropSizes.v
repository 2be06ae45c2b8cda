(** C84: sizes of the packets sent. *)
From Verif Require Import Base Utils Frame CipherSuite Secrets Connection Packet Histories Spec SpecPacket
  Tactics UtilsFacts ParserFacts FrameFacts SecretsFacts HeaderFacts PacketFacts ConnectionFacts
  CryptoInst SendFacts PropPacket.

(** RFC 9000 section 16, table 4: bytes needed for [x]. *)
Definition varint_size (x : N) : N :=
  if x <=? 63 then 1 else if x <=? 16383 then 2 else if x <=? 1073741823 then 4 else 8.

Lemma encoded_size x bs : encode_var_int x = Ok bs -> len bs = varint_size x.
Proof.
  intros E. pose proof (encode_var_int_inv x bs E) as [V _]. destruct (encode_var_int_ok x V) as [bs' [E' [_ L]]].
  assert (bs' = bs) as -> by congruence. rewrite L. unfold varint_size, min_class.
  repeat match goal with |- context [if ?a <=? ?b then _ else _] => destruct (N.leb_spec a b) end;
  repeat match goal with |- context [if ?a <? ?b then _ else _] => destruct (N.ltb_spec a b) end;
  pows; try reflexivity; lia.
Qed.

Lemma sealed_size P oc c sp k ad pn pt pp : prims_ok P -> local_keys P oc c sp k -> pn < 2 ^ 64 -> bytes_ok pt ->
  encrypt_local_payload c sp pt ad pn = Ok pp -> len pp = len pt + 16.
Proof.
  intros HP [s [Es Ks]] Hpn B E. unfold encrypt_local_payload, borrow_local_tls_secrets in E. rewrite Es in E.
  cbn [ok_or bind] in E. pose proof Ks as [_ [_ [S3 [_ [K1 [K2 [K3 K4]]]]]]].
  destruct (make_iv_spec s (k_iv k) pn S3 K2 K4 Hpn) as [n [_ Hn]].
  rewrite (encrypt_payload_eq P oc s k pt ad pn n Ks Hpn Hn) in E.
  destruct (p_gcm_seal P (k_key k) n ad pt) as [[ct tag]|] eqn:G; [|discriminate E]. injection E as <-.
  assert (Ln : len n = 12) by (destruct Hn as [_ [-> _]]; auto).
  destruct (open_law P HP _ _ _ _ _ _ K1 Ln B G) as [L1 [L2 _]]. rewrite len_app. lia.
Qed.

Lemma xored_size bs mask r : xor_pn_protection bs mask = Ok r -> len r = len bs.
Proof.
  unfold xor_pn_protection. destruct (4 <? len bs); [discriminate|].
  generalize 0%nat as i. revert r. induction bs as [|b bs IH]; intros r i E; cbn [xor_pn_loop] in E.
  - injection E as <-. reflexivity.
  - apply bind_ok in E as [m [_ E]]. apply bind_ok in E as [q [Eq E]]. injection E as <-.
    rewrite !len_cons. f_equal. eapply IH; eauto.
Qed.

Lemma header_size h bs : long_fields h bs -> len bs = 6 + lh_dcid_len h + lh_scid_len h.
Proof.
  intros [v [d [s [[_ [Lv _]] [_ [[_ [_ [Ld _]]] [_ [[_ [_ [Ls _]]] ->]]]]]]]].
  rewrite len_app, len_cons, len_app, len_cons. lia.
Qed.

(** ** C84: the size of a sent Initial packet is its header, token and payload
    with every variable-length field as short as it can be, 4 bytes of packet
    number and 16 of tag. *)
Theorem C84_initial_size : forall P oc srv d l c1 c2 fs t p pt wire,
  prims_ok P -> reachable P oc srv d l c1 -> reachable P oc srv d l c2 ->
  id_fits d l -> scid_fits c1 -> bytes_ok (token_bytes t) -> Forall frame_wf fs ->
  serialize_frames fs false = Ok pt -> len pt < 2 ^ 63 ->
  snd (initial_new oc fs t c1) = Ok p -> initial_serialize oc p c2 = Ok wire ->
  exists s sl, c_scid c1 = Some (s, sl) /\
  len wire = 7 + l + sl + varint_size (len (token_bytes t)) + len (token_bytes t) +
             varint_size (4 + len pt + 16) + 4 + len pt + 16.
Proof.
  intros P oc srv d l c1 c2 fs t p pt wire HP R1 R2 ID SF BT FW Ept Lpt EN H.
  destruct (built_initial _ _ _ _ _ _ _ _ _ HP R1 ID SF EN) as [HR [PF [Lp [L4 [Ef [Et X]]]]]].
  pose proof (reachable_inv _ _ _ _ _ _ HP R2) as I2.
  destruct (ci_keys _ _ _ _ _ _ I2) as [cid [kl [kr [U [A [_ [C _]]]]]]].
  destruct (serialize_frames_enc fs false FW) as [pt' [Ept' Fpt]].
  assert (pt' = pt) as -> by congruence.
  assert (Bpt : bytes_ok pt) by (eapply frames_enc_bytes_ok; eauto).
  destruct HR as [[fields HF] [Hb [Ht [Hv [VN [Hp PL]]]]]].
  unfold initial_serialize in H. rewrite Ef, Ept in H. cbn [bind] in H.
  rewrite (pnl_eq _ _ Hp PL) in H. cbn [bind] in H.
  rewrite (protected_len P oc c2 SpInitial kl) in H by auto. cbn [bind] in H.
  rewrite add64_ok in H by (pows; lia). cbn [bind] in H.
  apply bind_ok in H as [ll [Ell H]]. apply bind_ok in H as [tl [Etl H]].
  rewrite (long_to_bytes_ok _ fields HF) in H. cbn [bind] in H.
  apply bind_ok in H as [pp [Epp H]]. apply bind_ok in H as [sm [Esm H]].
  apply bind_ok in H as [mask [Em H]]. apply bind_ok in H as [h' [Eh H]].
  apply bind_ok in H as [ppn [Ex H]]. apply bind_ok in H as [phb [Eph H]]. injection H as <-.
  apply encoded_size in Ell, Etl. apply xored_size in Ex.
  apply (sealed_size P oc c2 SpInitial kl) in Epp; auto; [|pows; lia].
  assert (Lh : len phb = 1 + len fields).
  { unfold long_add_protection in Eh. rewrite Hp in Eh. cbn [negb] in Eh. apply bind_ok in Eh as [m [_ Eh]].
    injection Eh as <-.
    assert (HF' : long_fields (with_byte (pi_header p) (N.lxor (lh_byte (pi_header p)) (N.land m 15)) true) fields)
      by (apply long_fields_byte; auto).
    unfold with_byte in HF'. rewrite (long_to_bytes_ok _ fields HF') in Eph. injection Eph as <-. rewrite len_cons. lia. }
  apply header_size in HF. destruct X as [_ [X2 [X3 X4]]].
  exists (lh_scid (pi_header p)), (lh_scid_len (pi_header p)). split; [tauto|].
  rewrite !len_app, Lh, HF, Ell, Etl, Ex, Epp, L4, Et.
  replace (16 + len pt + 4) with (4 + len pt + 16) by lia. lia.
Qed.
Print Assumptions C84_initial_size.

(** The same for Handshake packets, which have no token. *)
Theorem C84_handshake_size : forall P oc c1 c2 k d l fs p pt wire,
  prims_ok P -> local_keys P oc c2 SpHandshake k ->
  largest_local_ack (borrow_pn_info c1 SpHandshake) = None -> next_pn (borrow_pn_info c1 SpHandshake) < 2 ^ 64 ->
  c_dcid c1 = (d, l) -> id_fits d l -> scid_fits c1 -> Forall frame_wf fs ->
  serialize_frames fs false = Ok pt -> len pt < 2 ^ 63 ->
  snd (handshake_new oc fs c1) = Ok p -> handshake_serialize oc p c2 = Ok wire ->
  exists s sl, c_scid c1 = Some (s, sl) /\
  len wire = 7 + l + sl + varint_size (4 + len pt + 16) + 4 + len pt + 16.
Proof.
  intros P oc c1 c2 k d l fs p pt wire HP K1 LA NX DC [D1 [D2 D3]] SF FW Ept Lpt EN H.
  destruct (handshake_new oc fs c1) as [c' r] eqn:EN'. cbn [snd] in EN. subst r.
  destruct (handshake_new_inv' _ _ _ _ _ _ _ LA NX DC D2 EN') as [s [sl [Es [Eh [Lp [Eb Ef]]]]]].
  unfold scid_fits in SF. rewrite Es in SF. destruct SF as [S1 [S2 S3]]. rewrite (fits_cast sl S2) in Eh.
  assert (HR : header_ready (ph_header p) (ph_pn_bytes p) 2)
    by (rewrite Eh, Eb; apply built_header_ready; auto; lia).
  destruct (serialize_frames_enc fs false FW) as [pt' [Ept' Fpt]].
  assert (pt' = pt) as -> by congruence.
  assert (Bpt : bytes_ok pt) by (eapply frames_enc_bytes_ok; eauto).
  assert (L4 : len (ph_pn_bytes p) = 4) by (rewrite Eb, be_bytes_len; reflexivity).
  destruct HR as [[fields HF] [Hb [Ht [Hv [VN [Hp PL]]]]]].
  unfold handshake_serialize in H. rewrite Ef, Ept in H. cbn [bind] in H.
  rewrite (pnl_eq _ _ Hp PL) in H. cbn [bind] in H.
  rewrite (protected_len P oc c2 SpHandshake k) in H by auto. cbn [bind] in H.
  rewrite add64_ok in H by (pows; lia). cbn [bind] in H.
  apply bind_ok in H as [ll [Ell H]].
  rewrite (long_to_bytes_ok _ fields HF) in H. cbn [bind] in H.
  apply bind_ok in H as [pp [Epp H]]. apply bind_ok in H as [sm [Esm H]].
  apply bind_ok in H as [mask [Em H]]. apply bind_ok in H as [h' [Eh' H]].
  apply bind_ok in H as [ppn [Ex H]]. apply bind_ok in H as [phb [Eph H]]. injection H as <-.
  apply encoded_size in Ell. apply xored_size in Ex.
  apply (sealed_size P oc c2 SpHandshake k) in Epp; auto; [|pows; lia].
  assert (Lh : len phb = 1 + len fields).
  { unfold long_add_protection in Eh'. rewrite Hp in Eh'. cbn [negb] in Eh'. apply bind_ok in Eh' as [m [_ Eh']].
    injection Eh' as <-.
    assert (HF' : long_fields (with_byte (ph_header p) (N.lxor (lh_byte (ph_header p)) (N.land m 15)) true) fields)
      by (apply long_fields_byte; auto).
    unfold with_byte in HF'. rewrite (long_to_bytes_ok _ fields HF') in Eph. injection Eph as <-. rewrite len_cons. lia. }
  apply header_size in HF. rewrite Eh in HF. cbn [lh_dcid_len lh_scid_len] in HF.
  exists s, sl. split; [auto|].
  rewrite !len_app, Lh, HF, Ell, Ex, Epp, L4.
  replace (16 + len pt + 4) with (4 + len pt + 16) by lia. lia.
Qed.
Print Assumptions C84_handshake_size.

(** A Length of 63 still takes one byte, 64 takes two; with a token of 70 bytes
    its own length takes two as well. *)
Example C84_case :
  (let? c := connection_new real_prims true false V1 (u160_from_u64 7) 8 in
   let k := run true c [CSetScid (u160_from_u64 9) 5] in
   let size n t :=
     let? p := snd (initial_new true (repeat Ping n) t k) in
     let? w := initial_serialize true p k in Ok (len w) in
   let? a := size 43%nat None in
   let? b := size 44%nat None in
   let? d := size 44%nat (Some (repeat 3 70)) in
   Ok (a, b, d)) =
  Ok (7 + 8 + 5 + 1 + 0 + 1 + 4 + 43 + 16, 7 + 8 + 5 + 1 + 0 + 2 + 4 + 44 + 16,
      7 + 8 + 5 + 2 + 70 + 2 + 4 + 44 + 16).
Proof. vm_compute. reflexivity. Qed.
Example C84_case_handshake :
  (let? (c, s) := sample_pair true in
   let? a := from_secret (TLS13_AES_128_GCM_SHA256 real_prims true) (repeat 1 32) in
   let? b := from_secret (TLS13_AES_128_GCM_SHA256 real_prims true) (repeat 2 32) in
   let c := install c a b in
   let? p := snd (handshake_new true (repeat Ping 44) c) in
   let? wire := handshake_serialize true p c in
   Ok (len wire, lh_dcid_len (ph_header p), lh_scid_len (ph_header p))) = Ok (7 + 8 + 8 + 2 + 4 + 44 + 16, 8, 8).
Proof. vm_compute. reflexivity. Qed.
