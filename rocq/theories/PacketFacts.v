(** Lemmas about protected packets: the decoder accepts what the RFC 9001
    layout prescribes, the encoder produces it. *)
From Verif Require Import Base Utils Frame CipherSuite Secrets Connection Packet Spec SpecPacket
  Tactics UtilsFacts ParserFacts FrameFacts SecretsFacts HeaderFacts.

(** Check a statement about one byte by cases. *)
Lemma byte_cases (f : N -> bool) :
  forallb f (map N.of_nat (seq 0 (N.to_nat 256))) = true -> forall b, b < 256 -> f b = true.
Proof.
  intros H b Hb. rewrite forallb_forall in H. apply H.
  apply in_map_iff. exists (N.to_nat b). split; [lia|]. apply in_seq. lia.
Qed.

Definition remote_keys (P : prims) (oc : bool) (c : connection) (sp : pn_space) (k : keys) : Prop :=
  exists s, remote_tls_secrets (borrow_pn_info c sp) = Some s /\ secrets_keys P oc s k.
Definition local_keys (P : prims) (oc : bool) (c : connection) (sp : pn_space) (k : keys) : Prop :=
  exists s, local_tls_secrets (borrow_pn_info c sp) = Some s /\ secrets_keys P oc s k.
Definition no_remote_ack (c : connection) (sp : pn_space) : Prop :=
  largest_remote_ack (borrow_pn_info c sp) = None.

Lemma reconstruct_none oc c sp pnb : no_remote_ack c sp -> len pnb <= 4 ->
  reconstruct_remote_pn oc c sp pnb = Ok (be_val pnb).
Proof.
  intros A L. unfold reconstruct_remote_pn. rewrite A.
  destruct (N.ltb_spec 4 (len pnb)); [lia|].
  rewrite from_be_bytes_val, be_val_zeros. reflexivity.
Qed.

(** ** Bits of the first byte *)
Lemma xor_low_twice a m : N.lxor (N.lxor a m) m = a.
Proof. rewrite N.lxor_assoc, N.lxor_nilpotent, N.lxor_0_r. reflexivity. Qed.
Lemma low4_div b m : N.lxor b (N.land m 15) / 16 = b / 16.
Proof.
  change 16 with (2 ^ 4). rewrite <- !N.shiftr_div_pow2, N.shiftr_lxor, N.shiftr_land.
  change (N.shiftr 15 4) with 0. rewrite N.land_0_r, N.lxor_0_r. reflexivity.
Qed.
Lemma low5_div b m : N.lxor b (N.land m 31) / 32 = b / 32.
Proof.
  change 32 with (2 ^ 5). rewrite <- !N.shiftr_div_pow2, N.shiftr_lxor, N.shiftr_land.
  change (N.shiftr 31 5) with 0. rewrite N.land_0_r, N.lxor_0_r. reflexivity.
Qed.
Lemma land_small b m n : m < 2 ^ n -> N.land b m < 2 ^ n.
Proof.
  intros H. destruct (N.eq_dec (N.land b m) 0) as [->|NZ]; [lia|].
  apply N.log2_lt_pow2; [lia|]. eapply N.le_lt_trans; [apply N.log2_land|].
  destruct (N.eq_dec m 0) as [->|]; [rewrite N.land_0_r in NZ; congruence|].
  apply N.min_lt_iff. right. apply N.log2_lt_pow2; lia.
Qed.
Lemma xor_mask_byte b m bits : b < 256 -> bits < 256 -> N.lxor b (N.land m bits) < 256.
Proof. intros. apply lxor_byte; auto. apply (land_small m bits 8); auto. Qed.

(** The high bit. *)
Lemma land_128 b : b < 256 -> (N.land b 0x80 =? 0x80) = (128 <=? b).
Proof.
  intros H. pose proof (byte_cases (fun b => Bool.eqb (N.land b 0x80 =? 0x80) (128 <=? b))
    ltac:(vm_compute; reflexivity) b H) as E. cbv beta in E. apply eqb_prop in E. exact E.
Qed.
Lemma high_bit_16 b : (128 <=? b) = (8 <=? b / 16).
Proof. destruct (N.leb_spec 128 b), (N.leb_spec 8 (b / 16)); auto; lia. Qed.

Lemma type_of_b0 b t : b < 256 -> t < 4 -> N.land b 0xb0 = 0x80 + 0x10 * t ->
  128 <= b /\ (b / 16) mod 4 = t.
Proof.
  intros H Ht E.
  pose proof (byte_cases (fun b => (N.land b 0xb0 =? 0x10 * ((b / 16) mod 4) + 0x80 * (b / 128)))
    ltac:(vm_compute; reflexivity) b H) as G. cbv beta in G. apply N.eqb_eq in G.
  rewrite G in E. clear G. assert (b / 128 < 2) by lia. lia.
Qed.
Lemma type_of_b0_inv b t : b < 256 -> 128 <= b -> (b / 16) mod 4 = t -> N.land b 0xb0 = 0x80 + 0x10 * t.
Proof.
  intros H Hb E.
  pose proof (byte_cases (fun b => (N.land b 0xb0 =? 0x10 * ((b / 16) mod 4) + 0x80 * (b / 128)))
    ltac:(vm_compute; reflexivity) b H) as G. cbv beta in G. apply N.eqb_eq in G. rewrite G. lia.
Qed.

(** ** Opening a protected packet *)
Lemma unprotect P oc c sp k bits first mid pnb pn pt wire rest :
  prims_ok P -> remote_keys P oc c sp k -> no_remote_ack c sp ->
  protected P k bits first mid pnb pn pt wire -> len pnb = 4 -> pn < 2 ^ 32 -> bytes_ok pt ->
  exists m0 mask ppn body,
    wire = N.lxor first (N.land m0 bits) :: mid ++ ppn ++ body /\ len ppn = 4 /\
    get_remote_hp_mask c sp (body ++ rest) = Ok (m0 :: mask) /\
    xor_pn_protection ppn (m0 :: mask) = Ok pnb /\
    reconstruct_remote_pn oc c sp pnb = Ok pn /\
    len body = len pt + 16 /\ bytes_ok body /\ bytes_ok ppn /\
    decrypt_remote_payload c sp body (first :: mid ++ pnb) pn = Ok pt.
Proof.
  intros HP [s [Es Ks]] NA [[Hl [Bp Vp]] [_ [nonce [ct [tag [m0 [mask [more [Hn [Seal [L20 [Ecb [Lm ->]]]]]]]]]]]]] L4 Hpn Bpt.
  pose proof Ks as [_ [_ [_ [_ [K1 [K2 [K3 K4]]]]]]].
  assert (Ln : len nonce = 12) by (destruct Hn as [_ [-> _]]; auto).
  destruct (open_law P HP _ _ _ _ _ _ K1 Ln Bpt Seal) as [Lct [Ltag [Bct [Btag Open]]]].
  exists m0, mask, (xor_bytes pnb mask), (ct ++ tag).
  split; [reflexivity|]. split; [rewrite xor_bytes_len; congruence|].
  assert (Lb : len (ct ++ tag) = len pt + 16) by (rewrite len_app; lia).
  assert (Bmask : bytes_ok mask).
  { destruct (ecb_law P HP (k_hp k) (firstn 16 (skipn 4 (pnb ++ ct ++ tag))) K3) as [o [Eo [_ Bo]]].
    - unfold len in *. rewrite firstn_length, skipn_length. lia.
    - rewrite Ecb in Eo. injection Eo as <-. apply bytes_ok_cons in Bo as [_ Bo].
      apply bytes_ok_app in Bo. tauto. }
  split.
  { unfold get_remote_hp_mask, borrow_remote_tls_secrets. rewrite Es. cbn [ok_or bind].
    assert (E4 : skipn 4 (pnb ++ ct ++ tag) = ct ++ tag)
      by (apply skipn_app_exact; unfold len in L4; lia).
    rewrite E4 in Ecb. set (sample := firstn 16 (ct ++ tag)) in *.
    assert (Ls : len sample = 16).
    { unfold sample, len. rewrite firstn_length. unfold len in *. lia. }
    destruct (hp_mask_eq P oc s k sample (skipn 16 (ct ++ tag) ++ rest) HP Ks Ls) as [out [Eo [Lo [Bo Eh]]]].
    rewrite app_assoc in Eh. unfold sample in Eh at 1. rewrite firstn_skipn in Eh. rewrite Eh.
    rewrite Ecb in Eo. injection Eo as <-. change (m0 :: mask ++ more) with ((m0 :: mask) ++ more). f_equal.
    apply firstn_app_exact. unfold len in Lm. cbn [length]. lia. }
  split.
  { rewrite xor_pn_spec; [|rewrite xor_bytes_len; lia|rewrite len_cons; lia].
    cbn [skipn]. rewrite xor_bytes_invol; [reflexivity|]. unfold len in *. lia. }
  split.
  { rewrite reconstruct_none by (auto; lia). f_equal. rewrite Vp, L4. apply N.mod_small.
    change (256 ^ 4) with (2 ^ 32). exact Hpn. }
  split; [exact Lb|]. split; [apply bytes_ok_app; auto|].
  split; [apply xor_bytes_ok; auto|].
  unfold decrypt_remote_payload, borrow_remote_tls_secrets. rewrite Es. cbn [ok_or bind].
  rewrite (decrypt_payload_eq P oc s k ct tag _ pn nonce Ks) by (auto; pows; lia).
  rewrite Open. reflexivity.
Qed.

Lemma with_byte_unprotect h m0 mask : lh_protected h = false -> 
  (lh_byte h / 16) mod 4 <> 3 ->
  long_remove_protection (with_byte h (N.lxor (lh_byte h) (N.land m0 15))
     (negb (retry_byte (N.lxor (lh_byte h) (N.land m0 15))))) (m0 :: mask) = Ok h.
Proof.
  intros Hp Ht. unfold retry_byte. rewrite low4_div.
  destruct (N.eqb_spec ((lh_byte h / 16) mod 4) 3); [contradiction|].
  unfold long_remove_protection, with_byte. cbn. rewrite xor_low_twice.
  destruct h; cbn in *; subst; reflexivity.
Qed.

Lemma pnl_eq h (pnb : list N) : lh_protected h = false -> N.land (lh_byte h) 0x03 + 1 = len pnb ->
  long_packet_number_length h = Ok (len pnb).
Proof. intros E H. unfold long_packet_number_length. rewrite E, H. reflexivity. Qed.

Lemma sub64_ok oc a b : b <= a -> sub64 oc a b = Ok (a - b).
Proof. intros. unfold sub64. destruct (N.leb_spec b a); [reflexivity|lia]. Qed.
Lemma add64_ok oc a b : a + b < 2 ^ 64 -> add64 oc a b = Ok (a + b).
Proof.
  intros. unfold add64. destruct (N.ltb_spec (a + b) two64); [reflexivity|].
  unfold two64 in *. pows. lia.
Qed.

Lemma initial_dec P oc c k p pt wire rest :
  prims_ok P -> remote_keys P oc c SpInitial k -> no_remote_ack c SpInitial ->
  initial_wire P k p pt wire -> len (pi_pn_bytes p) = 4 -> pi_pn p < 2 ^ 32 ->
  deserialize_frames oc pt = Ok (pi_payload p) ->
  initial_from_stream oc c (wire ++ rest) = Ok (p, rest).
Proof.
  intros HP K NA [fields [tl [ll [Hb [Ht [Hv [VN [Hp [HF [HT [BT [HL [Bpt PR]]]]]]]]]]]]] L4 Hpn Df.
  destruct p as [h token pn pnb payload]. cbn [pi_header pi_token pi_pn pi_pn_bytes pi_payload] in *.
  pose proof PR as [_ [PL _]].
  destruct (unprotect P oc c SpInitial k _ _ _ _ _ _ _ rest HP K NA PR L4 Hpn Bpt)
    as [m0 [mask [ppn [body [-> [Lp [Em [Ex [Er [Lb [Bb [Bp Ed]]]]]]]]]]]].
  destruct (type_of_b0 (lh_byte h) 0 Hb ltac:(lia) Ht) as [_ Tb].
  unfold initial_from_stream. cbn [app]. rewrite u8_dec by (apply xor_mask_byte; lia). cbn [bind].
  rewrite <- !app_assoc. rewrite (long_dec h fields) by auto. cbn [bind].
  rewrite (varint_dec oc _ _ _ HT). cbn [bind]. rewrite var_bytes_app by auto. cbn [bind].
  rewrite (varint_dec oc _ _ _ HL). cbn [bind]. rewrite var_bytes_app by auto. cbn [bind].
  rewrite Em. cbn [bind]. rewrite with_byte_unprotect by (auto; lia). cbn [bind].
  rewrite (pnl_eq h pnb Hp PL). cbn [bind]. rewrite Ex. cbn [bind].
  replace (firstn (N.to_nat (len pnb)) pnb) with pnb
    by (unfold len; rewrite Nat2N.id, firstn_all; reflexivity).
  rewrite Er. cbn [bind]. rewrite sub64_ok by lia. cbn [bind].
  rewrite var_bytes_app by lia. cbn [bind].
  rewrite (long_to_bytes_ok h fields HF). cbn [bind app].
  rewrite <- !app_assoc in Ed. rewrite Ed. cbn [bind]. rewrite Df. reflexivity.
Qed.

Lemma handshake_dec P oc c k p pt wire rest :
  prims_ok P -> remote_keys P oc c SpHandshake k -> no_remote_ack c SpHandshake ->
  handshake_wire P k p pt wire -> len (ph_pn_bytes p) = 4 -> ph_pn p < 2 ^ 32 ->
  deserialize_frames oc pt = Ok (ph_payload p) ->
  handshake_from_stream oc c (wire ++ rest) = Ok (p, rest).
Proof.
  intros HP K NA [fields [ll [Hb [Ht [Hv [VN [Hp [HF [HL [Bpt PR]]]]]]]]]] L4 Hpn Df.
  destruct p as [h pnb pn payload]. cbn [ph_header ph_pn ph_pn_bytes ph_payload] in *.
  pose proof PR as [_ [PL _]].
  destruct (unprotect P oc c SpHandshake k _ _ _ _ _ _ _ rest HP K NA PR L4 Hpn Bpt)
    as [m0 [mask [ppn [body [-> [Lp [Em [Ex [Er [Lb [Bb [Bp Ed]]]]]]]]]]]].
  destruct (type_of_b0 (lh_byte h) 2 Hb ltac:(lia) Ht) as [_ Tb].
  unfold handshake_from_stream. cbn [app]. rewrite u8_dec by (apply xor_mask_byte; lia). cbn [bind].
  rewrite <- !app_assoc. rewrite (long_dec h fields) by auto. cbn [bind].
  rewrite (varint_dec oc _ _ _ HL). cbn [bind]. rewrite var_bytes_app by auto. cbn [bind].
  rewrite Em. cbn [bind]. rewrite with_byte_unprotect by (auto; lia). cbn [bind].
  rewrite (pnl_eq h pnb Hp PL). cbn [bind]. rewrite Ex. cbn [bind].
  replace (firstn (N.to_nat (len pnb)) pnb) with pnb
    by (unfold len; rewrite Nat2N.id, firstn_all; reflexivity).
  rewrite Er. cbn [bind]. rewrite sub64_ok by lia. cbn [bind].
  rewrite var_bytes_app by lia. cbn [bind].
  rewrite (long_to_bytes_ok h fields HF). cbn [bind app].
  rewrite <- !app_assoc in Ed. rewrite Ed. cbn [bind]. rewrite Df. reflexivity.
Qed.

Lemma zero_rtt_dec P oc c k p pt wire rest :
  prims_ok P -> remote_keys P oc c SpApplication k -> no_remote_ack c SpApplication ->
  zero_rtt_wire P k p pt wire -> len (pz_pn_bytes p) = 4 -> pz_pn p < 2 ^ 32 ->
  deserialize_frames oc pt = Ok (pz_payload p) ->
  zero_rtt_from_stream oc c (wire ++ rest) = Ok (p, rest).
Proof.
  intros HP K NA [fields [ll [Hb [Ht [Hv [VN [Hp [HF [HE [HL [Bpt PR]]]]]]]]]]] L4 Hpn Df.
  destruct p as [h length pnb pn payload]. cbn [pz_header pz_length pz_pn pz_pn_bytes pz_payload] in *.
  pose proof PR as [_ [PL _]].
  destruct (unprotect P oc c SpApplication k _ _ _ _ _ _ _ rest HP K NA PR L4 Hpn Bpt)
    as [m0 [mask [ppn [body [-> [Lp [Em [Ex [Er [Lb [Bb [Bp Ed]]]]]]]]]]]].
  destruct (type_of_b0 (lh_byte h) 1 Hb ltac:(lia) Ht) as [_ Tb].
  unfold zero_rtt_from_stream. cbn [app]. rewrite u8_dec by (apply xor_mask_byte; lia). cbn [bind].
  rewrite <- !app_assoc. rewrite (long_dec h fields) by auto. cbn [bind].
  rewrite (varint_dec oc _ _ _ HL). cbn [bind]. rewrite var_bytes_app by auto. cbn [bind].
  rewrite Em. cbn [bind]. rewrite with_byte_unprotect by (auto; lia). cbn [bind].
  rewrite (pnl_eq h pnb Hp PL). cbn [bind]. rewrite Ex. cbn [bind].
  assert (Fi : firstn (N.to_nat (len pnb)) pnb = pnb)
    by (unfold len; rewrite Nat2N.id, firstn_all; reflexivity).
  rewrite !Fi. rewrite Er. cbn [bind]. rewrite sub64_ok by lia. cbn [bind].
  rewrite var_bytes_app by lia. cbn [bind].
  rewrite (long_to_bytes_ok h fields HF). cbn [bind app].
  rewrite <- !app_assoc in Ed. rewrite Ed. cbn [bind]. rewrite Df. reflexivity.
Qed.

Lemma one_rtt_dec P oc c k p pt wire :
  prims_ok P -> remote_keys P oc c SpApplication k -> no_remote_ack c SpApplication ->
  one_rtt_wire P k p pt wire -> len (po_pn_bytes p) = 4 -> po_pn p < 2 ^ 32 ->
  deserialize_frames oc pt = Ok (po_payload p) ->
  one_rtt_from_stream oc c wire = Ok (p, []).
Proof.
  intros HP K NA [d [Hb [Hp [HD [Bpt PR]]]]] L4 Hpn Df.
  destruct p as [h pnb pn payload]. cbn [po_header po_pn po_pn_bytes po_payload] in *.
  pose proof PR as [_ [PL _]].
  destruct (unprotect P oc c SpApplication k _ _ _ _ _ _ _ [] HP K NA PR L4 Hpn Bpt)
    as [m0 [mask [ppn [body [-> [Lp [Em [Ex [Er [Lb [Bb [Bp Ed]]]]]]]]]]]].
  rewrite app_nil_r in Em.
  unfold one_rtt_from_stream. rewrite u8_dec by (apply xor_mask_byte; lia). cbn [bind].
  rewrite (short_dec _ d (sh_dcid h)) by auto. cbn [bind]. rewrite var_bytes_app by auto. cbn [bind].
  rewrite Em. cbn [bind].
  assert (R : short_remove_protection (ShortHeader (N.lxor (sh_byte h) (N.land m0 31)) (sh_dcid h) true)
                (m0 :: mask) = Ok h).
  { unfold short_remove_protection. cbn. rewrite xor_low_twice. destruct h; cbn in *; subst; reflexivity. }
  rewrite R. cbn [bind].
  unfold short_packet_number_length. rewrite Hp, PL. cbn [bind]. rewrite Ex. cbn [bind].
  replace (firstn (N.to_nat (len pnb)) pnb) with pnb
    by (unfold len; rewrite Nat2N.id, firstn_all; reflexivity).
  rewrite Er. cbn [bind all_bytes_from_stream].
  rewrite (short_to_bytes_ok h d HD). cbn [bind app]. rewrite Ed. cbn [bind]. rewrite Df. reflexivity.
Qed.

(** ** Producing a protected packet *)
Lemma protect P oc c sp k bits first mid pnb pn pt pp sample mask :
  prims_ok P -> local_keys P oc c sp k -> pn_field pn pnb -> N.land first 0x03 + 1 = len pnb ->
  pn < 2 ^ 64 -> bytes_ok pt ->
  encrypt_local_payload c sp pt (first :: mid ++ pnb) pn = Ok pp ->
  slice_from pp (4 - len pnb) = Ok sample ->
  get_local_hp_mask c sp sample = Ok mask ->
  exists m0 mk, mask = m0 :: mk /\ xor_pn_protection pnb mask = Ok (xor_bytes pnb mk) /\
    protected P k bits first mid pnb pn pt
      (N.lxor first (N.land m0 bits) :: mid ++ xor_bytes pnb mk ++ pp).
Proof.
  intros HP [s [Es Ks]] PF PL Hpn Bpt He Hs Hm.
  pose proof Ks as [_ [_ [KI [_ [K1 [K2 [K3 K4]]]]]]].
  destruct (make_iv_spec s (k_iv k) pn KI K2 K4 Hpn) as [nonce [_ Hn]].
  assert (Ln : len nonce = 12) by (destruct Hn as [_ [-> _]]; auto).
  unfold encrypt_local_payload, get_local_hp_mask, borrow_local_tls_secrets in He, Hm.
  rewrite Es in He, Hm. cbn [ok_or bind] in He, Hm.
  rewrite (encrypt_payload_eq P oc s k _ _ _ nonce Ks Hpn Hn) in He.
  destruct (p_gcm_seal P (k_key k) nonce _ pt) as [[ct tag]|] eqn:Seal; [|discriminate].
  injection He as <-.
  destruct (open_law P HP _ _ _ _ _ _ K1 Ln Bpt Seal) as [Lct [Ltag [Bct [Btag Open]]]].
  pose proof PF as [[PF1 PF2] [Bpn Vpn]].
  unfold slice_from in Hs. destruct (N.ltb_spec (len (ct ++ tag)) (4 - len pnb)) as [|Ls]; [discriminate|].
  injection Hs as <-.
  assert (L20 : 20 <= len (pnb ++ ct ++ tag)).
  { destruct (N.le_gt_cases 20 (len (pnb ++ ct ++ tag))) as [|G]; auto. exfalso.
    rewrite (hp_mask_short P oc s k) in Hm; auto; [discriminate|].
    rewrite len_app in G, Ls. unfold len in *. rewrite skipn_length. rewrite app_length in *. lia. }
  assert (Esk : skipn (N.to_nat (4 - len pnb)) (ct ++ tag) = skipn 4 (pnb ++ ct ++ tag)).
  { rewrite (skipn_app 4 pnb). rewrite (skipn_all2 pnb) by (unfold len in *; lia). cbn [app]. f_equal. unfold len. lia. }
  rewrite Esk in Hm. set (st := skipn 4 (pnb ++ ct ++ tag)) in *.
  assert (Lst : len (firstn 16 st) = 16).
  { unfold len in *. subst st. rewrite firstn_length, skipn_length. lia. }
  destruct (hp_mask_eq P oc s k (firstn 16 st) (skipn 16 st) HP Ks Lst) as [out [Eo [Lo [Bo Eh]]]].
  rewrite firstn_skipn in Eh. rewrite Eh in Hm.
  assert (Lo' : (16 <= length out)%nat) by (unfold len in Lo; lia).
  destruct out as [|m0 out]; [cbn in Lo'; lia|]. cbn [length] in Lo'.
  change (firstn 5 (m0 :: out)) with (m0 :: firstn 4 out) in Hm.
  assert (L4 : len (firstn 4 out) = 4) by (unfold len; rewrite firstn_length; lia).
  assert (Emk : m0 :: firstn 4 out = mask) by congruence. clear Hm. exists m0, (firstn 4 out).
  split; [congruence|]. rewrite <- Emk.
  split.
  { rewrite xor_pn_spec; [reflexivity|lia|]. rewrite len_cons. lia. }
  split; [exact PF|]. split; [exact PL|].
  exists nonce, ct, tag, m0, (firstn 4 out), (skipn 4 out).
  repeat (split; auto). rewrite firstn_skipn. auto.
Qed.

(** The same steps succeed whenever the payload is within the limits of the
    AEAD and the packet is long enough to be sampled. *)
Lemma protect_ok P oc c sp k first mid pnb pn pt :
  prims_ok P -> local_keys P oc c sp k -> 1 <= len pnb <= 4 -> pn < 2 ^ 64 -> bytes_ok pt ->
  len (first :: mid ++ pnb) < 2 ^ 31 -> len pt + 16 < 2 ^ 31 -> 4 <= len pnb + len pt ->
  exists pp sample mask,
    encrypt_local_payload c sp pt (first :: mid ++ pnb) pn = Ok pp /\
    slice_from pp (4 - len pnb) = Ok sample /\ get_local_hp_mask c sp sample = Ok mask.
Proof.
  intros HP [s [Es Ks]] PF Hpn Bpt La Lp L4.
  pose proof Ks as [_ [_ [KI [_ [K1 [K2 [K3 K4]]]]]]].
  destruct (make_iv_spec s (k_iv k) pn KI K2 K4 Hpn) as [nonce [_ Hn]].
  assert (Ln : len nonce = 12) by (destruct Hn as [_ [-> _]]; auto).
  unfold encrypt_local_payload, get_local_hp_mask, borrow_local_tls_secrets.
  rewrite Es. cbn [ok_or bind].
  rewrite (encrypt_payload_eq P oc s k _ _ _ nonce Ks Hpn Hn).
  destruct (p_gcm_seal P (k_key k) nonce (first :: mid ++ pnb) pt) as [[ct tag]|] eqn:Seal.
  2:{ exfalso. exact (seal_law P HP _ _ _ _ K1 Ln La Lp Seal). }
  destruct (open_law P HP _ _ _ _ _ _ K1 Ln Bpt Seal) as [Lct [Ltag _]].
  exists (ct ++ tag). unfold slice_from.
  assert (Lc : len (ct ++ tag) = len pt + 16) by (rewrite len_app; lia).
  destruct (N.ltb_spec (len (ct ++ tag)) (4 - len pnb)); [lia|].
  set (st := skipn (N.to_nat (4 - len pnb)) (ct ++ tag)).
  assert (Lst : len (firstn 16 st) = 16).
  { unfold st, len in *. rewrite firstn_length, skipn_length. lia. }
  destruct (hp_mask_eq P oc s k (firstn 16 st) (skipn 16 st) HP Ks Lst) as [out [Eo [Lo [Bo Eh]]]].
  rewrite firstn_skipn in Eh. eauto.
Qed.

Lemma protect_fields b h m : lh_protected h = false ->
  long_add_protection h (m :: b) = Ok (with_byte h (N.lxor (lh_byte h) (N.land m 0x0f)) true).
Proof. intros E. unfold long_add_protection. rewrite E. reflexivity. Qed.

(** The size fields: no overflow for anything that fits in memory. *)
Lemma protected_len P oc c sp k (pt : list N) : local_keys P oc c sp k -> len pt < 2 ^ 63 ->
  get_local_protected_payload_len oc c sp (len pt) = Ok (16 + len pt).
Proof.
  intros [s [Es Ks]] L. unfold get_local_protected_payload_len, borrow_local_tls_secrets.
  rewrite Es. cbn [ok_or bind]. unfold get_protected_payload_len, cs_get_protected_payload_len.
  assert (Et : cs_tag_len (s_cipher_suite s) = Some 16) by (destruct Ks as [-> _]; reflexivity).
  rewrite Et. apply add64_ok. pows. lia.
Qed.

Definition header_ready (h : long_header) (pnb : list N) (t : N) : Prop :=
  (exists fields, long_fields h fields) /\ lh_byte h < 256 /\ N.land (lh_byte h) 0xb0 = 0x80 + 0x10 * t /\
  lh_version h <> 0 /\ lh_vn h = None /\ lh_protected h = false /\ N.land (lh_byte h) 0x03 + 1 = len pnb.

Lemma initial_ser P oc c k p wire :
  prims_ok P -> local_keys P oc c SpInitial k -> header_ready (pi_header p) (pi_pn_bytes p) 0 ->
  bytes_ok (pi_token p) -> pn_field (pi_pn p) (pi_pn_bytes p) -> pi_pn p < 2 ^ 64 ->
  Forall frame_wf (pi_payload p) ->
  (forall bs, serialize_frames (pi_payload p) false = Ok bs -> len bs < 2 ^ 63) ->
  initial_serialize oc p c = Ok wire ->
  exists pt, serialize_frames (pi_payload p) false = Ok pt /\ initial_wire P k p pt wire.
Proof.
  intros HP HK [[fields HF] [Hb [Ht [Hv [VN [Hp PL]]]]]] BT PF Hpn FW FS H.
  destruct p as [h token pn pnb payload]. cbn [pi_header pi_token pi_pn pi_pn_bytes pi_payload] in *.
  unfold initial_serialize in H. cbn [pi_header pi_token pi_pn pi_pn_bytes pi_payload] in H.
  destruct (serialize_frames_enc payload false FW) as [pt [Ept Fpt]]. rewrite Ept in H. cbn [bind] in H.
  assert (Bpt : bytes_ok pt) by (eapply frames_enc_bytes_ok; eauto).
  exists pt. split; [exact Ept|].
  rewrite (pnl_eq h pnb Hp PL) in H. cbn [bind] in H.
  pose proof PF as [[PF1 PF2] [Bpn Vpn]].
  specialize (FS _ Ept).
  rewrite (protected_len P oc c SpInitial k) in H by auto. cbn [bind] in H.
  rewrite add64_ok in H by (pows; lia). cbn [bind] in H.
  apply bind_ok in H as [ll [Ell H]]. apply bind_ok in H as [tl [Etl H]].
  rewrite (long_to_bytes_ok h fields HF) in H. cbn [bind] in H.
  apply bind_ok in H as [pp [Epp H]]. apply bind_ok in H as [sm [Esm H]].
  apply bind_ok in H as [mask [Em H]].
  replace ((lh_byte h :: fields) ++ tl ++ token ++ ll ++ pnb) with
    (lh_byte h :: (fields ++ tl ++ token ++ ll) ++ pnb) in Epp by (cbn [app]; rewrite <- !app_assoc; reflexivity).
  destruct (protect P oc c SpInitial k 0x0f _ _ _ _ _ _ _ _ HP HK PF PL Hpn Bpt Epp Esm Em)
    as [m0 [mk [-> [Ex PR]]]].
  rewrite protect_fields, Ex in H by auto. cbn [bind] in H.
  rewrite (long_to_bytes_ok _ fields (long_fields_byte _ _ _ _ HF)) in H. cbn [bind] in H. injection H as <-.
  exists fields, tl, ll. cbn [pi_header pi_token pi_pn pi_pn_bytes pi_payload].
  match type of PR with protected _ _ _ _ _ _ _ _ ?w =>
    match goal with |- context [protected _ _ _ _ _ _ _ _ ?w'] =>
      replace w with w' in PR by (cbn [with_byte lh_byte app]; rewrite <- !app_assoc; reflexivity) end end.
  do 9 (split; [solve [auto | apply encode_var_int_inv; auto
    | replace (len pnb + len pt + 16) with (16 + len pt + len pnb) by lia; apply encode_var_int_inv; auto ]|]).
  split; [auto|exact PR].
Qed.

Lemma handshake_ser P oc c k p wire :
  prims_ok P -> local_keys P oc c SpHandshake k -> header_ready (ph_header p) (ph_pn_bytes p) 2 ->
  pn_field (ph_pn p) (ph_pn_bytes p) -> ph_pn p < 2 ^ 64 ->
  Forall frame_wf (ph_payload p) ->
  (forall bs, serialize_frames (ph_payload p) false = Ok bs -> len bs < 2 ^ 63) ->
  handshake_serialize oc p c = Ok wire ->
  exists pt, serialize_frames (ph_payload p) false = Ok pt /\ handshake_wire P k p pt wire.
Proof.
  intros HP HK [[fields HF] [Hb [Ht [Hv [VN [Hp PL]]]]]] PF Hpn FW FS H.
  destruct p as [h pnb pn payload]. cbn [ph_header ph_pn ph_pn_bytes ph_payload] in *.
  unfold handshake_serialize in H. cbn [ph_header ph_pn ph_pn_bytes ph_payload] in H.
  destruct (serialize_frames_enc payload false FW) as [pt [Ept Fpt]]. rewrite Ept in H. cbn [bind] in H.
  assert (Bpt : bytes_ok pt) by (eapply frames_enc_bytes_ok; eauto).
  exists pt. split; [exact Ept|].
  rewrite (pnl_eq h pnb Hp PL) in H. cbn [bind] in H.
  pose proof PF as [[PF1 PF2] [Bpn Vpn]].
  specialize (FS _ Ept).
  rewrite (protected_len P oc c SpHandshake k) in H by auto. cbn [bind] in H.
  rewrite add64_ok in H by (pows; lia). cbn [bind] in H.
  apply bind_ok in H as [ll [Ell H]].
  rewrite (long_to_bytes_ok h fields HF) in H. cbn [bind] in H.
  apply bind_ok in H as [pp [Epp H]]. apply bind_ok in H as [sm [Esm H]].
  apply bind_ok in H as [mask [Em H]].
  replace ((lh_byte h :: fields) ++ ll ++ pnb) with
    (lh_byte h :: (fields ++ ll) ++ pnb) in Epp by (cbn [app]; rewrite <- !app_assoc; reflexivity).
  destruct (protect P oc c SpHandshake k 0x0f _ _ _ _ _ _ _ _ HP HK PF PL Hpn Bpt Epp Esm Em)
    as [m0 [mk [-> [Ex PR]]]].
  rewrite protect_fields, Ex in H by auto. cbn [bind] in H.
  rewrite (long_to_bytes_ok _ fields (long_fields_byte _ _ _ _ HF)) in H. cbn [bind] in H. injection H as <-.
  exists fields, ll. cbn [ph_header ph_pn ph_pn_bytes ph_payload].
  match type of PR with protected _ _ _ _ _ _ _ _ ?w =>
    match goal with |- context [protected _ _ _ _ _ _ _ _ ?w'] =>
      replace w with w' in PR by (cbn [with_byte lh_byte app]; rewrite <- !app_assoc; reflexivity) end end.
  do 8 (split; [solve [auto | apply encode_var_int_inv; auto
    | replace (len pnb + len pt + 16) with (16 + len pt + len pnb) by lia; apply encode_var_int_inv; auto ]|]).
  exact PR.
Qed.
