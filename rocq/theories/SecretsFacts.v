(** Lemmas about nonces, key derivation and payload protection. *)
From Verif Require Import Base Utils Frame CipherSuite Secrets Packet Spec SpecPacket
  Tactics UtilsFacts ParserFacts.

(** ** Exclusive or *)
Lemma lxor_lt n a b : a < 2 ^ n -> b < 2 ^ n -> N.lxor a b < 2 ^ n.
Proof.
  intros Ha Hb.
  assert (E : N.lxor a b = N.lxor a b mod 2 ^ n).
  { apply N.bits_inj. intros i. destruct (N.ltb_spec i n) as [L|L].
    - rewrite N.mod_pow2_bits_low; auto.
    - rewrite N.mod_pow2_bits_high, N.lxor_spec by auto.
      rewrite <- (N.mod_small a (2 ^ n)), <- (N.mod_small b (2 ^ n)) by auto.
      rewrite !N.mod_pow2_bits_high by auto. reflexivity. }
  rewrite E. apply N.mod_lt. apply N.pow_nonzero. lia.
Qed.
Lemma lxor_byte a b : a < 256 -> b < 256 -> N.lxor a b < 256.
Proof. apply (lxor_lt 8). Qed.

Lemma lxor_split n a b c d : b < 2 ^ n -> d < 2 ^ n ->
  N.lxor (a * 2 ^ n + b) (c * 2 ^ n + d) = N.lxor a c * 2 ^ n + N.lxor b d.
Proof.
  intros Hb Hd. apply N.bits_inj. intros i.
  assert (T : forall x y, y < 2 ^ n ->
    N.testbit (x * 2 ^ n + y) i = if i <? n then N.testbit y i else N.testbit x (i - n)).
  { intros x y Hy. destruct (N.ltb_spec i n) as [L|L].
    - rewrite <- (N.mod_pow2_bits_low (x * 2 ^ n + y) n i L).
      rewrite N.add_comm, N.mod_add by (apply N.pow_nonzero; lia). rewrite N.mod_small; auto.
    - replace i with ((i - n) + n) at 1 by lia. rewrite <- N.div_pow2_bits.
      rewrite N.div_add_l by (apply N.pow_nonzero; lia). rewrite (N.div_small y); auto.
      rewrite N.add_0_r. reflexivity. }
  rewrite N.lxor_spec, !T by (auto using lxor_lt).
  destruct (i <? n); rewrite N.lxor_spec; reflexivity.
Qed.

Lemma pow256_2 n : 256 ^ n = 2 ^ (8 * n).
Proof. change 256 with (2 ^ 8). rewrite <- N.pow_mul_r. reflexivity. Qed.

Lemma xor_bytes_length a b : length a = length b -> length (xor_bytes a b) = length a.
Proof. revert b; induction a; destruct b; cbn; intros; try discriminate; auto. Qed.
Lemma xor_bytes_len a b : len a = len b -> len (xor_bytes a b) = len a.
Proof. unfold len. intros. rewrite xor_bytes_length; lia. Qed.
Lemma xor_bytes_ok a b : bytes_ok a -> bytes_ok b -> bytes_ok (xor_bytes a b).
Proof.
  revert b; induction a; destruct b; cbn; intros Ha Hb; try constructor.
  - inversion Ha; inversion Hb; subst. apply lxor_byte; auto.
  - inversion Ha; inversion Hb; subst. apply IHa; auto.
Qed.
Lemma xor_bytes_invol a b : (length a <= length b)%nat -> xor_bytes (xor_bytes a b) b = a.
Proof.
  revert b; induction a; destruct b; cbn; intros; try lia; auto.
  rewrite IHa by lia. rewrite N.lxor_assoc, N.lxor_nilpotent, N.lxor_0_r. reflexivity.
Qed.
Lemma xor_bytes_app a b c d : length a = length c ->
  xor_bytes (a ++ b) (c ++ d) = xor_bytes a c ++ xor_bytes b d.
Proof. revert c; induction a; destruct c; cbn; intros; try discriminate; auto. rewrite IHa; auto. Qed.
Lemma xor_bytes_firstn a b c : length a = length b -> xor_bytes a (b ++ c) = xor_bytes a b.
Proof. intros. rewrite <- (app_nil_r a) at 1. rewrite xor_bytes_app by auto. cbn. apply app_nil_r. Qed.
Lemma be_val_xor a b : length a = length b -> bytes_ok a -> bytes_ok b ->
  be_val (xor_bytes a b) = N.lxor (be_val a) (be_val b).
Proof.
  revert b; induction a as [|x a IH]; destruct b as [|y b]; cbn [length]; intros E Ha Hb; try discriminate.
  - reflexivity.
  - inversion Ha as [|? ? Hx Ha']; inversion Hb as [|? ? Hy Hb']; subst.
    cbn [xor_bytes be_val]. assert (E' : length a = length b) by lia.
    assert (L : len b = len a) by (unfold len; lia).
    rewrite IH, xor_bytes_len by auto. rewrite L, pow256_2.
    pose proof (be_val_bound a Ha'). pose proof (be_val_bound b Hb').
    rewrite L in *. rewrite pow256_2 in *.
    rewrite lxor_split; auto.
Qed.
Lemma be_val_zeros n bs : be_val (repeat 0 n ++ bs) = be_val bs.
Proof. induction n as [|n IH]; [reflexivity|]. change (repeat 0 (S n) ++ bs) with (0 :: repeat 0 n ++ bs). cbn [be_val]. rewrite IH. lia. Qed.

(** ** The nonce loop *)
Lemma update_at_app a x b f : update_at (length a) f (a ++ x :: b) = Ok (a ++ f x :: b).
Proof. induction a; cbn; auto. rewrite IHa. reflexivity. Qed.
Lemma index_app a x b : index (a ++ x :: b) (length a) = Ok x.
Proof. unfold index. rewrite nth_error_app2, Nat.sub_diag by lia. reflexivity. Qed.

Lemma xor_iv_loop_spec : forall n pa pb va vb,
  (n <= length pa)%nat -> (n <= length va)%nat -> length vb = length pb ->
  xor_iv_loop n (length vb) (pa ++ pb) (va ++ vb) =
  Ok (firstn (length va - n) va ++ xor_bytes (skipn (length va - n) va) (skipn (length pa - n) pa) ++ vb).
Proof.
  induction n as [|n IH]; intros pa pb va vb Hp Hv E.
  - rewrite !Nat.sub_0_r, firstn_all, skipn_all, skipn_all. reflexivity.
  - destruct (exists_last (l := pa)) as [pa' [p ->]]; [destruct pa; [cbn in Hp; lia|discriminate]|].
    destruct (exists_last (l := va)) as [va' [v ->]]; [destruct va; [cbn in Hv; lia|discriminate]|].
    rewrite !app_length in *. cbn [length] in *.
    cbn [xor_iv_loop]. rewrite !app_length. cbn [length].
    replace (length pa' + 1 + length pb - length vb - 1)%nat with (length pa') by lia.
    replace (length va' + 1 + length vb - length vb - 1)%nat with (length va') by lia.
    rewrite <- !app_assoc. cbn [app]. rewrite index_app. cbn [bind].
    rewrite update_at_app. cbn [bind].
    change (S (length vb)) with (length (N.lxor v p :: vb)).
    rewrite IH by (cbn [length]; lia).
    replace (length va' + 1 - S n)%nat with (length va' - n)%nat by lia.
    replace (length pa' + 1 - S n)%nat with (length pa' - n)%nat by lia.
    rewrite !firstn_app, !skipn_app.
    replace (length va' - n - length va')%nat with 0%nat by lia.
    replace (length pa' - n - length pa')%nat with 0%nat by lia.
    cbn [firstn skipn]. rewrite app_nil_r.
    rewrite xor_bytes_app by (rewrite !skipn_length; lia).
    cbn [xor_bytes]. rewrite <- !app_assoc. reflexivity.
Qed.

Lemma make_iv_spec s iv pn : s_iv s = Some iv -> len iv = 12 -> bytes_ok iv -> pn < 2 ^ 64 ->
  exists nonce, make_iv s pn = Ok (Some nonce) /\ nonce_for iv pn nonce.
Proof.
  intros E L B Hpn. unfold make_iv. rewrite E.
  assert (L' : length iv = 12%nat) by (unfold len in L; lia).
  rewrite be_bytes_length, L'. change (Nat.min 8 12) with 8%nat.
  pose proof (xor_iv_loop_spec 8 (be_bytes 8 pn) [] iv []) as H.
  rewrite !app_nil_r, be_bytes_length, L' in H. change (length (@nil N)) with 0%nat in H.
  rewrite H by lia. clear H. cbn [bind]. eexists. split; [reflexivity|].
  change (12 - 8)%nat with 4%nat. change (8 - 8)%nat with 0%nat. rewrite (skipn_O (be_bytes 8 pn)).
  assert (Ls : length (skipn 4 iv) = 8%nat) by (rewrite skipn_length; lia).
  assert (Bp : bytes_ok (be_bytes 8 pn)) by apply be_bytes_ok.
  assert (X : length (xor_bytes (skipn 4 iv) (be_bytes 8 pn)) = 8%nat)
    by (rewrite xor_bytes_length; rewrite ?be_bytes_length; auto).
  split; [|split].
  - apply bytes_ok_app. split; [apply bytes_ok_firstn; auto|].
    apply xor_bytes_ok; auto. apply bytes_ok_skipn; auto.
  - unfold len. rewrite app_length, X, firstn_length. lia.
  - rewrite be_val_app. unfold len. rewrite X.
    rewrite be_val_xor; auto; [|apply bytes_ok_skipn; auto].
    rewrite be_val_be_bytes_small by (pows; lia).
    replace (be_val iv) with (be_val (firstn 4 iv ++ skipn 4 iv)) by (rewrite firstn_skipn; auto).
    rewrite be_val_app. unfold len. rewrite Ls. change (N.of_nat 8) with 8.
    change (256 ^ 8) with (2 ^ 64).
    replace pn with (0 * 2 ^ 64 + pn) at 2 by lia.
    rewrite lxor_split; auto.
    + rewrite N.lxor_0_r. reflexivity.
    + pose proof (be_val_bound (skipn 4 iv) (bytes_ok_skipn _ _ B)) as Hb.
      unfold len in Hb. rewrite Ls in Hb. exact Hb.
Qed.

Lemma nonce_for_fun iv pn a b : nonce_for iv pn a -> nonce_for iv pn b -> a = b.
Proof. intros [A1 [A2 A3]] [B1 [B2 B3]]. apply be_val_inj; auto; unfold len in *; lia || congruence. Qed.

Lemma nonce_for_inj iv pn pn' a : nonce_for iv pn a -> nonce_for iv pn' a -> pn = pn'.
Proof.
  intros [A1 [A2 A3]] [B1 [B2 B3]]. rewrite A3 in B3.
  rewrite <- (N.lxor_0_l pn), <- (N.lxor_nilpotent (be_val iv)), N.lxor_assoc, B3.
  rewrite <- N.lxor_assoc, N.lxor_nilpotent, N.lxor_0_l. reflexivity.
Qed.

(** ** Payload protection *)
Lemma encrypt_payload_eq P oc s k pl ad pn nonce :
  secrets_keys P oc s k -> pn < 2 ^ 64 -> nonce_for (k_iv k) pn nonce ->
  encrypt_payload s pl (Some ad) pn =
  match p_gcm_seal P (k_key k) nonce ad pl with
  | None => Err (InternalError "error in aes_128_gcm encryption")
  | Some (ct, tag) => Ok (ct ++ tag)
  end.
Proof.
  intros [E1 [E2 [E3 [E4 [K1 [K2 [K3 K4]]]]]]] Hpn Hn. unfold encrypt_payload.
  destruct (make_iv_spec s (k_iv k) pn E3 K2 K4 Hpn) as [n [Em En]].
  rewrite Em. cbn [bind]. assert (n = nonce) as -> by (eapply nonce_for_fun; eauto).
  rewrite E1, E2. reflexivity.
Qed.

Lemma decrypt_payload_eq P oc s k ct tag ad pn nonce :
  secrets_keys P oc s k -> pn < 2 ^ 64 -> nonce_for (k_iv k) pn nonce -> len tag = 16 ->
  decrypt_payload s (ct ++ tag) (Some ad) pn =
  ok_or (p_gcm_open P (k_key k) nonce ad ct tag) (InternalError "error in aes_128_gcm decryption").
Proof.
  intros [E1 [E2 [E3 [E4 [K1 [K2 [K3 K4]]]]]]] Hpn Hn Ht. unfold decrypt_payload.
  destruct (make_iv_spec s (k_iv k) pn E3 K2 K4 Hpn) as [n [Em En]].
  rewrite Em. cbn [bind]. assert (n = nonce) as -> by (eapply nonce_for_fun; eauto).
  rewrite E1, E2. cbn [TLS13_AES_128_GCM_SHA256 cs_decrypt decrypt_aes_128_gcm ok_or bind].
  unfold decrypt_aes_128_gcm, internal_decrypt_aes_128_gcm, AES_128_GCM_TAG_LEN, sub64.
  cbn [ok_or bind]. rewrite len_app, Ht.
  destruct (N.leb_spec 16 (len ct + 16)); [|lia]. cbn [bind].
  destruct (N.ltb_spec (len ct + 16) (len ct + 16 - 16)); [lia|].
  replace (N.to_nat (len ct + 16 - 16)) with (length ct) by (unfold len in *; lia).
  rewrite skipn_app_exact, firstn_app_exact by auto. reflexivity.
Qed.

Lemma decrypt_payload_short P oc s k data ad pn :
  secrets_keys P oc s k -> pn < 2 ^ 64 -> len data < 16 ->
  exists w, decrypt_payload s data (Some ad) pn = Panic w.
Proof.
  intros [E1 [E2 [E3 [E4 [K1 [K2 [K3 K4]]]]]]] Hpn Hd. unfold decrypt_payload.
  destruct (make_iv_spec s (k_iv k) pn E3 K2 K4 Hpn) as [n [Em En]].
  rewrite Em. cbn [bind]. rewrite E1, E2.
  cbn [TLS13_AES_128_GCM_SHA256 cs_decrypt].
  unfold decrypt_aes_128_gcm, internal_decrypt_aes_128_gcm, AES_128_GCM_TAG_LEN, sub64.
  cbn [ok_or bind]. destruct (N.leb_spec 16 (len data)); [lia|]. destruct oc; cbn [bind].
  - eauto.
  - destruct (N.ltb_spec (len data) (len data + two64 - 16)); [eauto|]. unfold two64 in *. lia.
Qed.

Lemma decrypt_payload_split P oc s k data ad pn :
  secrets_keys P oc s k -> pn < 2 ^ 64 -> 16 <= len data ->
  exists nonce ct tag, nonce_for (k_iv k) pn nonce /\ data = ct ++ tag /\ len tag = 16 /\
  decrypt_payload s data (Some ad) pn =
  ok_or (p_gcm_open P (k_key k) nonce ad ct tag) (InternalError "error in aes_128_gcm decryption").
Proof.
  intros S Hpn Hd. pose proof S as [E1 [E2 [E3 [E4 [K1 [K2 [K3 K4]]]]]]].
  destruct (make_iv_spec s (k_iv k) pn E3 K2 K4 Hpn) as [n [Em En]].
  set (m := (length data - 16)%nat).
  exists n, (firstn m data), (skipn m data).
  assert (T : len (skipn m data) = 16) by (unfold len in *; rewrite skipn_length; lia).
  split; [auto|]. split; [rewrite firstn_skipn; auto|]. split; [auto|].
  rewrite <- (firstn_skipn m data) at 1. eapply decrypt_payload_eq; eauto.
Qed.

Lemma hp_mask_eq P oc s k sample more :
  prims_ok P -> secrets_keys P oc s k -> len sample = 16 ->
  exists out, p_ecb_encrypt P (k_hp k) sample = Some out /\ 16 <= len out /\ bytes_ok out /\
  get_header_protection_mask s (sample ++ more) = Ok (firstn 5 out).
Proof.
  intros HP [E1 [E2 [E3 [E4 [K1 [K2 [K3 K4]]]]]]] L.
  destruct (ecb_law P HP (k_hp k) sample K3 L) as [out [Eo [Lo Bo]]].
  exists out. repeat split; auto. unfold get_header_protection_mask. rewrite E1, E4.
  cbn [cs_sample_len TLS13_AES_128_GCM_SHA256 cs_hp_mask]. unfold AES_128_GCM_SAMPLE_LEN.
  rewrite var_bytes_app by auto. cbn [bind]. unfold hp_mask_aes_128_ecb, hp_mask. rewrite Eo.
  destruct (N.ltb_spec (len out) 5); [lia|]. reflexivity.
Qed.

Lemma hp_mask_short P oc s k st :
  secrets_keys P oc s k -> len st < 16 ->
  get_header_protection_mask s st = Err (InternalError "not enough bytes for var_bytes").
Proof.
  intros [E1 _] L. unfold get_header_protection_mask. rewrite E1.
  cbn [cs_sample_len TLS13_AES_128_GCM_SHA256]. unfold AES_128_GCM_SAMPLE_LEN.
  rewrite var_bytes_spec. destruct (N.leb_spec 16 (len st)); [lia|]. reflexivity.
Qed.

(** ** Key derivation *)
Lemma fixed_enc_be k x : x < 256 ^ N.of_nat k -> fixed_enc (N.of_nat k) x (be_bytes k x).
Proof.
  intros. split; [apply be_bytes_ok|]. split; [apply be_bytes_len|].
  apply be_val_be_bytes_small; auto.
Qed.

Lemma hkdf_label_ok length label context :
  length <= 0xffff -> len context <= 0xff -> 6 + len label <= 0xff ->
  exists parts, get_hkdf_label_info length label context = Ok parts /\
                hkdf_label_enc length label context (concat parts).
Proof.
  intros A B C. unfold get_hkdf_label_info. change 0xffff with (2 ^ 16 - 1) in *.
  destruct (N.ltb_spec (2 ^ 16 - 1) length); [lia|].
  destruct (N.ltb_spec 0xff (len context)); [lia|].
  assert (L : len (tls13_label ++ label) = 6 + len label) by (rewrite len_app; reflexivity).
  rewrite L. destruct (N.ltb_spec 0xff (6 + len label)); [lia|].
  eexists. split; [reflexivity|].
  unfold cast. pows. rewrite !N.mod_small by lia.
  exists (be_bytes 2 length), (be_bytes 1 (6 + len label)), (be_bytes 1 (len context)).
  change (text "tls13 ") with tls13_label. rewrite L.
  split; [apply (fixed_enc_be 2); pows; change (256 ^ N.of_nat 2) with 65536; lia|].
  split; [apply (fixed_enc_be 1); change (256 ^ N.of_nat 1) with 256; lia|].
  split; [apply (fixed_enc_be 1); change (256 ^ N.of_nat 1) with 256; lia|].
  cbn [concat]. rewrite app_nil_r. reflexivity.
Qed.

Lemma hkdf_label_err length label context :
  0xffff < length \/ 0xff < len context \/ 0xff < 6 + len label ->
  exists e, get_hkdf_label_info length label context = Err e.
Proof.
  intros H. unfold get_hkdf_label_info.
  assert (L : len (tls13_label ++ label) = 6 + len label) by (rewrite len_app; reflexivity).
  rewrite L.
  destruct (N.ltb_spec 0xffff length); [eauto|].
  destruct (N.ltb_spec 0xff (len context)); [eauto|].
  destruct (N.ltb_spec 0xff (6 + len label)); [eauto|]. lia.
Qed.

Lemma hkdf_label_inj l1 la1 c1 l2 la2 c2 bs :
  hkdf_label_enc l1 la1 c1 bs -> hkdf_label_enc l2 la2 c2 bs -> l1 = l2 /\ la1 = la2 /\ c1 = c2.
Proof.
  intros [a [b [c [[A1 [A2 A3]] [[B1 [B2 B3]] [[C1 [C2 C3]] E]]]]]]
         [a' [b' [c' [[A1' [A2' A3']] [[B1' [B2' B3']] [[C1' [C2' C3']] E']]]]]].
  assert (G : forall (x y u v : list N), x ++ u = y ++ v -> len x = len y -> x = y /\ u = v).
  { intros x y u v H Hl. assert (length x = length y) by (unfold len in Hl; lia).
    split; [rewrite <- (firstn_app_exact x u _ eq_refl), H; rewrite H0; apply firstn_app_exact; auto
           |rewrite <- (skipn_app_exact x u _ eq_refl), H; rewrite H0; apply skipn_app_exact; auto]. }
  rewrite E in E'. clear E bs.
  apply G in E'; [|congruence]. destruct E' as [-> E'].
  apply G in E'; [|congruence]. destruct E' as [-> E'].
  apply G in E'; [|congruence]. destruct E' as [El E'].
  apply app_inv_head in El. apply G in E'; [|congruence]. destruct E' as [_ ->].
  split; [congruence|auto].
Qed.

Lemma expand_label_ok P secret label n : prims_ok P -> 32 <= len secret ->
  n <= 8160 -> 6 + len (text label) <= 255 ->
  exists out, hkdf_expand_label_sha256 P secret (text label) [] n = Ok out /\
              expand_label P secret label n out /\ len out = n /\ bytes_ok out.
Proof.
  intros HP Hs Hn Hl. unfold hkdf_expand_label_sha256. rewrite (from_prk_law P HP).
  destruct (N.leb_spec 32 (len secret)); [|lia]. cbn [negb].
  destruct (hkdf_label_ok n (text label) []) as [parts [E F]]; [lia|change (len []) with 0; lia|lia|].
  rewrite E. cbn [bind].
  destruct (expand_law P HP secret (concat parts) n) as [out [Eo [Lo Bo]]]; auto.
  rewrite Eo. exists out. split; [reflexivity|]. split; [exists (concat parts); auto|auto].
Qed.

Lemma expand_label_fun P secret label n a b :
  expand_label P secret label n a -> expand_label P secret label n b -> a = b.
Proof.
  intros [i [Hi Ei]] [j [Hj Ej]]. assert (i = j).
  { destruct Hi as [x [y [z [[A1 [A2 A3]] [[B1 [B2 B3]] [[C1 [C2 C3]] ->]]]]]].
    destruct Hj as [x' [y' [z' [[A1' [A2' A3']] [[B1' [B2' B3']] [[C1' [C2' C3']] ->]]]]]].
    rewrite (be_val_inj x x'), (be_val_inj y y'), (be_val_inj z z'); auto;
      try (unfold len in *; lia); congruence. }
  subst. congruence.
Qed.

Lemma labels_text :
  SERVER_INITIAL_SECRET_LABEL = text "server in" /\ CLIENT_INITIAL_SECRET_LABEL = text "client in" /\
  HEADER_PROTECTION_LABEL = text "quic hp" /\ INITIAL_VECTOR_LABEL = text "quic iv" /\
  KEY_LABEL = text "quic key" /\ tls13_label = text "tls13 " /\ KDF_INITIAL_SALT_V1 = initial_salt_v1.
Proof. repeat split. Qed.

Lemma from_secret_ok P oc secret : prims_ok P -> 32 <= len secret ->
  exists s k, from_secret (TLS13_AES_128_GCM_SHA256 P oc) secret = Ok s /\
    secrets_keys P oc s k /\
    expand_label P secret "quic key" 16 (k_key k) /\
    expand_label P secret "quic iv" 12 (k_iv k) /\
    expand_label P secret "quic hp" 16 (k_hp k).
Proof.
  intros HP Ls.
  destruct (expand_label_ok P secret "quic hp" 16) as [hp [E1 [F1 [L1 B1]]]]; auto; [lia..|vm_compute; discriminate|].
  destruct (expand_label_ok P secret "quic iv" 12) as [iv [E2 [F2 [L2 B2]]]]; auto; [lia..|vm_compute; discriminate|].
  destruct (expand_label_ok P secret "quic key" 16) as [key [E3 [F3 [L3 B3]]]]; auto; [lia..|vm_compute; discriminate|].
  unfold from_secret, get_hp_secret, get_iv_secret, get_key.
  cbn [TLS13_AES_128_GCM_SHA256 cs_hkdf_expand_label cs_iv_len cs_key_len].
  unfold AES_128_IV_LEN, AES_128_KEY_LEN.
  destruct labels_text as [_ [_ [-> [-> [-> _]]]]]. rewrite E1, E2, E3. cbn [bind].
  eexists. exists (Keys key iv hp). split; [reflexivity|].
  unfold secrets_keys, keys_ok. cbn. tauto.
Qed.

Lemma from_initial_ok P oc server cid : prims_ok P ->
  exists s k, from_initial P oc server cid V1 = Ok s /\ secrets_keys P oc s k /\
              initial_keys P server cid k.
Proof.
  intros HP. unfold from_initial.
  cbn [TLS13_AES_128_GCM_SHA256 cs_hkdf_extract cs_hkdf_expand_label get_kdf_initial_salt].
  unfold hkdf_extract_sha256.
  destruct (extract_law P HP (Some KDF_INITIAL_SALT_V1) cid) as [Le Be].
  destruct (expand_label_ok P (p_hkdf_extract P (Some KDF_INITIAL_SALT_V1) cid)
     (if server then "server in" else "client in") 32)
     as [secret [E [F [L B]]]]; auto; [lia..|destruct server; vm_compute; discriminate|].
  replace (if server then SERVER_INITIAL_SECRET_LABEL else CLIENT_INITIAL_SECRET_LABEL)
    with (text (if server then "server in" else "client in")) by (destruct server; reflexivity).
  rewrite E. cbn [bind].
  destruct (from_secret_ok P oc secret HP ltac:(lia)) as [s [k [Es [Sk [K1 [K2 K3]]]]]].
  exists s, k. split; [exact Es|]. split; [exact Sk|]. exists secret. auto.
Qed.

Lemma from_secret_inv P oc secret s : prims_ok P ->
  from_secret (TLS13_AES_128_GCM_SHA256 P oc) secret = Ok s -> exists k, secrets_keys P oc s k.
Proof.
  intros HP E. destruct (N.le_gt_cases 32 (len secret)) as [L|L].
  - destruct (from_secret_ok P oc secret HP L) as [s' [k [E' [S _]]]]. exists k. congruence.
  - exfalso. unfold from_secret, get_hp_secret in E. cbn [TLS13_AES_128_GCM_SHA256 cs_hkdf_expand_label] in E.
    unfold hkdf_expand_label_sha256 in E at 1. rewrite (from_prk_law P HP) in E.
    destruct (N.leb_spec 32 (len secret)); [lia|]. discriminate.
Qed.
