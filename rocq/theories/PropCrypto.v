(** Properties C30 (nonces), C33-C36: key derivation and payload protection. *)
From Verif Require Import Base Utils Frame CipherSuite Secrets Connection Packet Spec SpecPacket
  Tactics UtilsFacts ParserFacts SecretsFacts HeaderFacts PacketFacts PacketInv CryptoInst.

(** The cipher suite of the crate. *)
Local Notation suite := TLS13_AES_128_GCM_SHA256.

(** ** C30: distinct packet numbers, distinct nonces.  The nonce handed to the
    AEAD is the one of RFC 9001 section 5.3, and that one determines the packet
    number. *)
Theorem C30_nonce_injective : forall P oc secret s pn pn' ad ad' pl pl',
  prims_ok P -> from_secret (suite P oc) secret = Ok s -> pn < 2 ^ 64 -> pn' < 2 ^ 64 ->
  exists key iv n n',
    expand_label P secret "quic key" 16 key /\ expand_label P secret "quic iv" 12 iv /\
    nonce_for iv pn n /\ nonce_for iv pn' n' /\ (n = n' -> pn = pn') /\
    (forall ct tag, p_gcm_seal P key n ad pl = Some (ct, tag) ->
       encrypt_payload s pl (Some ad) pn = Ok (ct ++ tag)) /\
    (p_gcm_seal P key n ad pl = None -> exists e, encrypt_payload s pl (Some ad) pn = Err e) /\
    (forall ct tag, p_gcm_seal P key n' ad' pl' = Some (ct, tag) ->
       encrypt_payload s pl' (Some ad') pn' = Ok (ct ++ tag)).
Proof.
  intros P oc secret s pn pn' ad ad' pl pl' HP E Hp Hp'.
  destruct (N.le_gt_cases 32 (len secret)) as [L|L].
  2:{ exfalso. unfold from_secret, get_hp_secret in E. cbn [TLS13_AES_128_GCM_SHA256 cs_hkdf_expand_label] in E.
      unfold hkdf_expand_label_sha256 in E at 1. rewrite (from_prk_law P HP) in E.
      destruct (N.leb_spec 32 (len secret)); [lia|]. discriminate. }
  destruct (from_secret_ok P oc secret HP L) as [s' [k [E' [S [K1 [K2 _]]]]]].
  assert (s' = s) as -> by congruence.
  pose proof S as [_ [_ [E3 [_ [_ [L2 [_ B]]]]]]].
  destruct (make_iv_spec s (k_iv k) pn E3 L2 B Hp) as [n [_ N1]].
  destruct (make_iv_spec s (k_iv k) pn' E3 L2 B Hp') as [n' [_ N2]].
  exists (k_key k), (k_iv k), n, n'. do 4 (split; [assumption|]).
  split; [intros ->; eapply nonce_for_inj; eauto|].
  split; [|split].
  - intros ct tag X. rewrite (encrypt_payload_eq P oc s k pl ad pn n S Hp N1), X. reflexivity.
  - intros X. rewrite (encrypt_payload_eq P oc s k pl ad pn n S Hp N1), X. eauto.
  - intros ct tag X. rewrite (encrypt_payload_eq P oc s k pl' ad' pn' n' S Hp' N2), X. reflexivity.
Qed.
Example C30_case :
  nonce_for (hex "fa044b2f42a3fd3b46fb255c") 2 (hex "fa044b2f42a3fd3b46fb255e") /\
  nonce_for (hex "fa044b2f42a3fd3b46fb255c") 3 (hex "fa044b2f42a3fd3b46fb255f").
Proof.
  split; (split; [apply bytes_ok_dec; vm_compute; reflexivity|split; vm_compute; reflexivity]).
Qed.
Print Assumptions C30_nonce_injective.

(** ** C33: HkdfLabel. *)
Theorem C33_hkdf_label : forall length label context,
  if (length <=? 0xffff) && (len context <=? 0xff) && (6 + len label <=? 0xff) then
    exists parts, get_hkdf_label_info length label context = Ok parts /\
                  hkdf_label_enc length label context (concat parts)
  else exists e, get_hkdf_label_info length label context = Err e.
Proof.
  intros length label context.
  destruct (N.leb_spec length 0xffff), (N.leb_spec (len context) 0xff), (N.leb_spec (6 + len label) 0xff);
    cbn [andb]; try (apply hkdf_label_err; lia). apply hkdf_label_ok; auto.
Qed.
Print Assumptions C33_hkdf_label.

Theorem C33_hkdf_label_injective : forall l la c parts l' la' c' parts',
  get_hkdf_label_info l la c = Ok parts -> get_hkdf_label_info l' la' c' = Ok parts' ->
  concat parts = concat parts' -> l = l' /\ la = la' /\ c = c'.
Proof.
  assert (X : forall l la c parts, get_hkdf_label_info l la c = Ok parts -> hkdf_label_enc l la c (concat parts)).
  { intros l la c parts E. pose proof (C33_hkdf_label l la c) as C.
    destruct ((l <=? 0xffff) && (len c <=? 0xff) && (6 + len la <=? 0xff)).
    - destruct C as [p [E' H]]. congruence.
    - destruct C as [e C]. congruence. }
  intros l la c parts l' la' c' parts' E E' H. apply X in E. apply X in E'. rewrite <- H in E'.
  eapply hkdf_label_inj; eauto.
Qed.
Print Assumptions C33_hkdf_label_injective.

(** What is handed to HKDF-Expand is that encoding, and the output has the length
    asked for. *)
Theorem C33_expand_label : forall P secret label context n,
  prims_ok P ->
  if (32 <=? len secret) && (n <=? 0xffff) && (len context <=? 0xff) && (6 + len label <=? 0xff) then
    exists info, hkdf_label_enc n label context info /\
      match p_hkdf_expand P secret info n with
      | Some out => hkdf_expand_label_sha256 P secret label context n = Ok out
      | None => exists e, hkdf_expand_label_sha256 P secret label context n = Err e
      end
  else exists e, hkdf_expand_label_sha256 P secret label context n = Err e.
Proof.
  intros P secret label context n HP. unfold hkdf_expand_label_sha256. rewrite (from_prk_law P HP).
  destruct (32 <=? len secret); cbn [andb negb]; [|eauto].
  pose proof (C33_hkdf_label n label context) as C.
  destruct ((n <=? 0xffff) && (len context <=? 0xff) && (6 + len label <=? 0xff)).
  - destruct C as [parts [-> H]]. exists (concat parts). split; [exact H|]. cbn [bind].
    destruct (p_hkdf_expand P secret (concat parts) n); cbn [ok_or]; eauto.
  - destruct C as [e ->]. cbn [bind]. eauto.
Qed.
Example C33_case :
  (exists parts, get_hkdf_label_info 32 (text "client in") [] = Ok parts /\
     concat parts = hex "00200f746c73313320636c69656e7420696e00") /\
  (exists e, get_hkdf_label_info 65536 (text "quic hp") [] = Err e) /\
  hkdf_expand_label_sha256 real_prims
    (hex "c00cf151ca5be075ed0ebfb5c80323c42d6b7db67881289af4008f1f6c357aea") (text "quic hp") [] 16 =
    Ok (hex "9f50449e04a0e810283a1e9933adedd2").
Proof.
  split; [eexists; split; [reflexivity|vm_compute; reflexivity]|].
  split; [eexists; reflexivity|]. vm_compute. reflexivity.
Qed.
Print Assumptions C33_expand_label.

(** ** C34: payload protection. *)
Theorem C34_payload_roundtrip : forall P oc secret s s' pl ad pn ct,
  prims_ok P ->
  from_secret (suite P oc) secret = Ok s -> from_secret (suite P oc) secret = Ok s' ->
  bytes_ok pl -> pn < 2 ^ 64 ->
  encrypt_payload s pl (Some ad) pn = Ok ct ->
  decrypt_payload s' ct (Some ad) pn = Ok pl /\
  bytes_ok ct /\ len ct = len pl + 16 /\
  (len pl + 16 < 2 ^ 64 -> get_protected_payload_len oc s (len pl) = Ok (len ct)).
Proof.
  intros P oc secret s s' pl ad pn ct HP E E' Bp Hp En. assert (s' = s) as -> by congruence.
  destruct (from_secret_inv P oc secret s HP E) as [k S].
  pose proof S as [Ec [E2 [E3 [_ [L1 [L2 [_ B]]]]]]].
  destruct (make_iv_spec s (k_iv k) pn E3 L2 B Hp) as [n [_ N1]].
  rewrite (encrypt_payload_eq P oc s k pl ad pn n S Hp N1) in En.
  destruct (p_gcm_seal P (k_key k) n ad pl) as [[c t]|] eqn:G; [|discriminate].
  injection En as <-. pose proof N1 as [_ [Ln _]].
  destruct (open_law P HP _ n _ _ _ _ L1 ltac:(congruence) Bp G) as [Lc [Lt [Bc [Bt O]]]].
  rewrite (decrypt_payload_eq P oc s k c t ad pn n S Hp N1 Lt), O. cbn [ok_or].
  split; [reflexivity|]. split; [apply bytes_ok_app; auto|]. split; [rewrite len_app; lia|].
  intros Hl. unfold get_protected_payload_len, cs_get_protected_payload_len. rewrite Ec.
  cbn [TLS13_AES_128_GCM_SHA256 cs_tag_len]. unfold AES_128_GCM_TAG_LEN.
  rewrite add64_ok by lia. rewrite len_app. f_equal. lia.
Qed.
Print Assumptions C34_payload_roundtrip.

(** Encryption succeeds within the library's size limits. *)
Theorem C34_encrypt_succeeds : forall P oc secret s pl ad pn,
  prims_ok P -> from_secret (suite P oc) secret = Ok s -> pn < 2 ^ 64 ->
  len ad < 2 ^ 31 -> len pl + 16 < 2 ^ 31 ->
  exists ct, encrypt_payload s pl (Some ad) pn = Ok ct.
Proof.
  intros P oc secret s pl ad pn HP E Hp La Lp. destruct (from_secret_inv P oc secret s HP E) as [k S].
  pose proof S as [Ec [E2 [E3 [_ [L1 [L2 [_ B]]]]]]].
  destruct (make_iv_spec s (k_iv k) pn E3 L2 B Hp) as [n [_ N1]].
  rewrite (encrypt_payload_eq P oc s k pl ad pn n S Hp N1). pose proof N1 as [_ [Ln _]].
  pose proof (seal_law P HP (k_key k) n ad pl L1 ltac:(congruence) La Lp) as X.
  destruct (p_gcm_seal P (k_key k) n ad pl) as [[c t]|]; [eauto|congruence].
Qed.
Print Assumptions C34_encrypt_succeeds.

(** What decrypts is exactly what encryption produces: same packet number and
    associated data, no second cipher text for the same plain text. *)
Theorem C34_decrypt_only_encrypted : forall P oc secret s data ad pn pt,
  prims_ok P -> from_secret (suite P oc) secret = Ok s ->
  bytes_ok data -> pn < 2 ^ 64 ->
  decrypt_payload s data (Some ad) pn = Ok pt ->
  encrypt_payload s pt (Some ad) pn = Ok data /\ bytes_ok pt.
Proof.
  intros P oc secret s data ad pn pt HP E B Hp D. destruct (from_secret_inv P oc secret s HP E) as [k S].
  destruct (N.le_gt_cases 16 (len data)) as [L|L].
  - destruct (decrypt_payload_split P oc s k data ad pn S Hp L) as [n [ct [tag [N1 [-> [Lt X]]]]]].
    rewrite D in X. destruct (p_gcm_open P (k_key k) n ad ct tag) as [pt'|] eqn:O; [|discriminate].
    injection X as <-. apply bytes_ok_app in B as [Bc Bt].
    pose proof S as [_ [_ [_ [_ [L1 [L2 _]]]]]]. pose proof N1 as [_ [Ln _]].
    destruct (auth_law P HP _ n _ _ _ _ L1 ltac:(congruence) Bc Bt Lt O) as [Bp [_ G]].
    rewrite (encrypt_payload_eq P oc s k pt ad pn n S Hp N1), G. auto.
  - destruct (decrypt_payload_short P oc s k data ad pn S Hp L) as [w X]. congruence.
Qed.
(** The client Initial secret of RFC 9001 appendix A.1. *)
Definition sample_secret : list N :=
  hex "c00cf151ca5be075ed0ebfb5c80323c42d6b7db67881289af4008f1f6c357aea".
Definition sample_secrets (oc : bool) : secrets :=
  Secrets (suite real_prims oc) (hex "9f50449e04a0e810283a1e9933adedd2")
          (Some (hex "fa044b2f42a3fd3b46fb255c")) (hex "1f369613dd76d5467730efcbe3b1a22d").
Lemma sample_from_secret oc : from_secret (suite real_prims oc) sample_secret = Ok (sample_secrets oc).
Proof.
  unfold from_secret, get_hp_secret, get_iv_secret, get_key, sample_secrets.
  cbn [TLS13_AES_128_GCM_SHA256 cs_hkdf_expand_label cs_iv_len cs_key_len].
  replace (hkdf_expand_label_sha256 real_prims sample_secret HEADER_PROTECTION_LABEL [] 16)
    with (Ok (hex "9f50449e04a0e810283a1e9933adedd2")) by (vm_compute; reflexivity).
  replace (hkdf_expand_label_sha256 real_prims sample_secret INITIAL_VECTOR_LABEL [] AES_128_IV_LEN)
    with (Ok (hex "fa044b2f42a3fd3b46fb255c")) by (vm_compute; reflexivity).
  replace (hkdf_expand_label_sha256 real_prims sample_secret KEY_LABEL [] AES_128_KEY_LEN)
    with (Ok (hex "1f369613dd76d5467730efcbe3b1a22d")) by (vm_compute; reflexivity).
  reflexivity.
Qed.
Example C34_case :
  exists ct, encrypt_payload (sample_secrets true) [1; 2; 3] (Some [9; 9]) 7 = Ok ct /\ len ct = 19 /\
    decrypt_payload (sample_secrets true) ct (Some [9; 9]) 7 = Ok [1; 2; 3] /\
    (exists e, decrypt_payload (sample_secrets true) ct (Some [9; 8]) 7 = Err e) /\
    (exists e, decrypt_payload (sample_secrets true) ct (Some [9; 9]) 8 = Err e).
Proof.
  eexists. split; [vm_compute; reflexivity|]. split; [vm_compute; reflexivity|].
  split; [vm_compute; reflexivity|]. split; eexists; vm_compute; reflexivity.
Qed.
Print Assumptions C34_decrypt_only_encrypted.

(** ** C35: short cipher texts (full statement; refuted). *)
Definition C35_statement : Prop := forall P oc secret s data ad pn,
  prims_ok P -> from_secret (suite P oc) secret = Ok s -> bytes_ok data -> pn < 2 ^ 64 ->
  (exists pt, decrypt_payload s data (Some ad) pn = Ok pt) \/
  (exists e, decrypt_payload s data (Some ad) pn = Err e).

Theorem C35_short_ciphertext_panics : forall P oc secret s data ad pn,
  prims_ok P -> from_secret (suite P oc) secret = Ok s -> pn < 2 ^ 64 -> len data < 16 ->
  exists w, decrypt_payload s data (Some ad) pn = Panic w.
Proof.
  intros P oc secret s data ad pn HP E Hp L. destruct (from_secret_inv P oc secret s HP E) as [k S].
  eapply decrypt_payload_short; eauto.
Qed.
Print Assumptions C35_short_ciphertext_panics.

Theorem C35_short_ciphertext_refuted : ~ C35_statement.
Proof.
  intros H.
  destruct (from_secret_ok real_prims true (repeat 0 32) real_prims_ok) as [s [k [E _]]];
    [vm_compute; discriminate|].
  destruct (C35_short_ciphertext_panics real_prims true _ s [] [] 0 real_prims_ok E) as [w X];
    [reflexivity..|].
  destruct (H real_prims true _ s [] [] 0 real_prims_ok E) as [[pt Y]|[e Y]];
    [constructor|reflexivity|congruence..].
Qed.
Print Assumptions C35_short_ciphertext_refuted.

(** What holds: at least a tag's worth of bytes.  Missing: below 16 bytes. *)
Theorem C35_ciphertext_partial : forall P oc secret s data ad pn,
  prims_ok P -> from_secret (suite P oc) secret = Ok s -> bytes_ok data -> pn < 2 ^ 64 ->
  16 <= len data ->
  (exists pt, decrypt_payload s data (Some ad) pn = Ok pt /\ len pt + 16 = len data) \/
  (exists e, decrypt_payload s data (Some ad) pn = Err e).
Proof.
  intros P oc secret s data ad pn HP E B Hp L. destruct (from_secret_inv P oc secret s HP E) as [k S].
  destruct (decrypt_payload_split P oc s k data ad pn S Hp L) as [n [ct [tag [N1 [-> [Lt X]]]]]].
  rewrite X. destruct (p_gcm_open P (k_key k) n ad ct tag) as [pt|] eqn:O; cbn [ok_or]; eauto.
  left. exists pt. split; [reflexivity|]. apply bytes_ok_app in B as [Bc Bt].
  pose proof S as [_ [_ [_ [_ [L1 [L2 _]]]]]]. pose proof N1 as [_ [Ln _]].
  destruct (auth_law P HP _ n _ _ _ _ L1 ltac:(congruence) Bc Bt Lt O) as [_ [Lp _]].
  rewrite len_app. lia.
Qed.
Example C35_case :
  (exists e, decrypt_payload (sample_secrets false) (repeat 0 16) (Some []) 1 = Err e) /\
  (exists w, decrypt_payload (sample_secrets false) (repeat 0 15) (Some []) 1 = Panic w).
Proof. split; eexists; vm_compute; reflexivity. Qed.
Print Assumptions C35_ciphertext_partial.

(** ** C36: both sides sample the same 16 bytes.  [pnb] is the masked packet
    number on the wire, [pp] the protected payload, [more] what follows in the
    datagram; the sender samples [pp] from [4 - length of the number]
    (packet.rs:324), the receiver after the 4 bytes it reads. *)
Theorem C36_same_mask : forall P oc c c' sp k pnb pp more,
  prims_ok P -> local_keys P oc c sp k -> remote_keys P oc c' sp k ->
  1 <= len pnb <= 4 -> 16 <= len pp ->
  exists sample, slice_from pp (4 - len pnb) = Ok sample /\
  firstn 16 sample = firstn 16 (skipn 4 (pnb ++ pp)) /\
  (if len pnb + len pp <? 20 then exists e, get_local_hp_mask c sp sample = Err e
   else exists mask, get_local_hp_mask c sp sample = Ok mask /\ len mask = 5 /\
          get_remote_hp_mask c' sp (skipn 4 (pnb ++ pp ++ more)) = Ok mask).
Proof.
  intros P oc c c' sp k pnb pp more HP [sl [El Sl]] [sr [Er Sr]] Hn Hp.
  assert (SK : forall x, skipn 4 (pnb ++ x) = skipn (N.to_nat (4 - len pnb)) x).
  { intros x. rewrite skipn_app. replace (skipn 4 pnb) with (@nil N).
    - cbn [app]. f_equal. unfold len. lia.
    - symmetry. apply skipn_all2. unfold len in Hn. lia. }
  exists (skipn (N.to_nat (4 - len pnb)) pp).
  unfold slice_from. destruct (N.ltb_spec (len pp) (4 - len pnb)); [lia|]. split; [reflexivity|].
  rewrite SK. split; [reflexivity|].
  unfold get_local_hp_mask, get_remote_hp_mask, borrow_local_tls_secrets, borrow_remote_tls_secrets.
  rewrite El, Er. cbn [ok_or bind].
  assert (LS : len (skipn (N.to_nat (4 - len pnb)) pp) = len pp - (4 - len pnb)).
  { unfold len. rewrite skipn_length. lia. }
  destruct (N.ltb_spec (len pnb + len pp) 20).
  - rewrite (hp_mask_short P oc sl k) by (auto; lia). eauto.
  - rewrite SK, skipn_app.
    replace (N.to_nat (4 - len pnb) - length pp)%nat with 0%nat by (unfold len in *; lia). cbn [skipn].
    set (sm := skipn (N.to_nat (4 - len pnb)) pp) in *.
    rewrite <- (firstn_skipn 16 sm), <- app_assoc.
    assert (L16 : len (firstn 16 sm) = 16) by (unfold len in *; rewrite firstn_length; lia).
    destruct (hp_mask_eq P oc sl k (firstn 16 sm) (skipn 16 sm) HP Sl L16) as [o [O1 [O2 [_ ->]]]].
    destruct (hp_mask_eq P oc sr k (firstn 16 sm) (skipn 16 sm ++ more) HP Sr L16) as [o' [O1' [O2' [_ ->]]]].
    assert (o' = o) as -> by congruence.
    exists (firstn 5 o). split; [reflexivity|]. split; [|reflexivity]. unfold len in *. rewrite firstn_length. lia.
Qed.
Print Assumptions C36_same_mask.

Theorem C36_mask_needs_16_bytes : forall P oc secret s st,
  prims_ok P -> from_secret (suite P oc) secret = Ok s ->
  if len st <? 16 then exists e, get_header_protection_mask s st = Err e
  else exists mask, get_header_protection_mask s st = Ok mask /\ len mask = 5 /\ bytes_ok mask.
Proof.
  intros P oc secret s st HP E. destruct (from_secret_inv P oc secret s HP E) as [k S].
  destruct (N.ltb_spec (len st) 16).
  - rewrite (hp_mask_short P oc s k) by auto. eauto.
  - assert (L16 : len (firstn 16 st) = 16) by (unfold len in *; rewrite firstn_length; lia).
    rewrite <- (firstn_skipn 16 st).
    destruct (hp_mask_eq P oc s k (firstn 16 st) (skipn 16 st) HP S L16) as [o [_ [L [B ->]]]].
    exists (firstn 5 o). split; [reflexivity|]. split; [|apply bytes_ok_firstn; auto].
    unfold len in *. rewrite firstn_length. lia.
Qed.
Example C36_case :
  get_header_protection_mask (sample_secrets true) (hex "d1b1c98dd7689fb8ec11d242b123dc9b" ++ [1; 2]) =
    Ok (hex "437b9aec36") /\
  (exists e, get_header_protection_mask (sample_secrets true) (hex "d1b1c98dd7689fb8ec11d242b123dc") = Err e).
Proof. split; [vm_compute; reflexivity|]. eexists. vm_compute. reflexivity. Qed.
Print Assumptions C36_mask_needs_16_bytes.
