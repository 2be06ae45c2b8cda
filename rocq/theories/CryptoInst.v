(** The executable primitives satisfy the laws the theorems assume; published
    test vectors. *)
From Coq Require Import Ascii.
From Verif Require Import Base Utils Frame CipherSuite Secrets Packet Spec SpecPacket Sha256 Aes128
  Tactics UtilsFacts SecretsFacts.

Definition real_prims : prims := {|
  p_hkdf_extract := hkdf_extract;
  p_hkdf_from_prk := fun prk => 32 <=? len prk;
  p_hkdf_expand := hkdf_expand;
  p_ecb_encrypt := ecb_encrypt;
  p_gcm_seal := gcm_seal;
  p_gcm_open := gcm_open |}.

Lemma xors_eq a : forall b, xors a b = xor_bytes a b.
Proof. induction a; destruct b; cbn; try reflexivity; rewrite IHa; reflexivity. Qed.

Lemma sha256_len bs : len (sha256 bs) = 32 /\ bytes_ok (sha256 bs).
Proof.
  unfold sha256. destruct (sha_blocks _ _ _). rewrite !len_app, !be_bytes_len.
  split; [reflexivity|]. rewrite !bytes_ok_app. repeat split; apply be_bytes_ok.
Qed.
Lemma hmac_len k m : len (hmac k m) = 32 /\ bytes_ok (hmac k m).
Proof. apply sha256_len. Qed.
Lemma hkdf_blocks_len n : forall i prk prev info,
  len (hkdf_blocks n i prk prev info) = 32 * N.of_nat n /\ bytes_ok (hkdf_blocks n i prk prev info).
Proof.
  induction n as [|n IH]; intros; cbn [hkdf_blocks]; [split; [reflexivity|constructor]|].
  rewrite len_app, bytes_ok_app.
  destruct (hmac_len prk (prev ++ info ++ [i])) as [-> B].
  destruct (IH (i + 1) prk (hmac prk (prev ++ info ++ [i])) info) as [-> B'].
  split; [lia|auto].
Qed.

Lemma aes_block_len k ks b : len (aes_block (k :: ks) b) = 16 /\ bytes_ok (aes_block (k :: ks) b).
Proof. unfold aes_block. rewrite be_bytes_len. split; [reflexivity|apply be_bytes_ok]. Qed.
Lemma expand_key_cons n r k : exists ks, expand_key n r k = k :: ks.
Proof. destruct n; cbn [expand_key]; eauto. Qed.
Lemma aes_keys_cons key : exists ks, aes_keys key = key :: ks.
Proof. apply expand_key_cons. Qed.
Lemma ecb_blocks_len n : forall k ks bs,
  len (ecb_blocks n (k :: ks) bs) = 16 * N.of_nat n /\ bytes_ok (ecb_blocks n (k :: ks) bs).
Proof.
  induction n as [|n IH]; intros; cbn [ecb_blocks]; [split; [reflexivity|constructor]|].
  rewrite len_app, bytes_ok_app. destruct (aes_block_len k ks (firstn 16 bs)) as [-> B].
  destruct (IH k ks (skipn 16 bs)) as [-> B']. split; [lia|auto].
Qed.
Lemma ctr_stream_len n : forall i k ks iv,
  len (ctr_stream n i (k :: ks) iv) = 16 * N.of_nat n /\ bytes_ok (ctr_stream n i (k :: ks) iv).
Proof.
  induction n as [|n IH]; intros; cbn [ctr_stream]; [split; [reflexivity|constructor]|].
  rewrite len_app, bytes_ok_app. destruct (aes_block_len k ks (iv ++ be_bytes 4 i)) as [-> B].
  destruct (IH (i + 1) k ks iv) as [-> B']. split; [lia|auto].
Qed.
Lemma xor_bytes_le a : forall b, (length a <= length b)%nat -> length (xor_bytes a b) = length a.
Proof. induction a; destruct b; cbn; intros; try lia. rewrite IHa; lia. Qed.

Lemma ctr_spec key iv data : 
  len (ctr (aes_keys key) iv data) = len data /\
  (bytes_ok data -> bytes_ok (ctr (aes_keys key) iv data)) /\
  ctr (aes_keys key) iv (ctr (aes_keys key) iv data) = data.
Proof.
  destruct (aes_keys_cons key) as [ks ->]. unfold ctr. rewrite !xors_eq.
  set (st := ctr_stream _ _ _ _).
  destruct (ctr_stream_len (N.to_nat ((len data + 15) / 16)) 2 key ks iv) as [L B]. fold st in L, B.
  assert (LL : (length data <= length st)%nat) by (unfold len in *; lia).
  assert (E : len (xor_bytes data st) = len data) by (unfold len; rewrite xor_bytes_le; auto).
  split; [exact E|]. split.
  - intros Bd. apply xor_bytes_ok; auto.
  - rewrite E. fold st. apply xor_bytes_invol; auto.
Qed.
Lemma gcm_tag_len ks iv aad ct : len (gcm_tag ks iv aad ct) = 16 /\ bytes_ok (gcm_tag ks iv aad ct).
Proof. unfold gcm_tag. rewrite be_bytes_len. split; [reflexivity|apply be_bytes_ok]. Qed.
Lemma list_eqb_eq a b : list_eqb a b = true <-> a = b.
Proof. unfold list_eqb. destruct (list_eq_dec _ _ _); split; congruence. Qed.

Theorem real_prims_ok : prims_ok real_prims.
Proof.
  constructor; cbn [p_hkdf_extract p_hkdf_from_prk p_hkdf_expand p_ecb_encrypt p_gcm_seal p_gcm_open real_prims].
  - intros. apply hmac_len.
  - reflexivity.
  - intros prk info n Hp Hn. unfold hkdf_expand. destruct (N.ltb_spec (255 * 32) n); [lia|].
    eexists. split; [reflexivity|].
    destruct (hkdf_blocks_len (N.to_nat ((n + 31) / 32)) 1 prk [] info) as [L B].
    split; [|apply bytes_ok_firstn; auto]. unfold len in *. rewrite firstn_length. lia.
  - intros key block Hk Hb. unfold ecb_encrypt. rewrite Hk. change (16 =? 16) with true. cbv iota.
    destruct (aes_keys_cons key) as [ks ->]. eexists. split; [reflexivity|].
    match goal with |- context [ecb_blocks ?n _ ?b] => destruct (ecb_blocks_len n key ks b) as [-> B] end.
    split; [|exact B]. rewrite len_app. lia.
  - intros key iv aad pt Hk Hi _ _. unfold gcm_seal. rewrite Hk, Hi. discriminate.
  - intros key iv aad pt ct tag Hk Hi Bp H. unfold gcm_seal in H. unfold gcm_open. rewrite Hk, Hi in *.
    change ((16 =? 16) && (12 =? 12)) with true in *. cbv iota in *. injection H as <- <-.
    destruct (ctr_spec key iv pt) as [L [B I]].
    destruct (gcm_tag_len (aes_keys key) iv aad (ctr (aes_keys key) iv pt)) as [L' B'].
    split; [auto|]. split; [auto|]. split; [auto|]. split; [auto|].
    rewrite (proj2 (list_eqb_eq _ _) eq_refl). rewrite I. reflexivity.
  - intros key iv aad pt ct tag Hk Hi Bc Bt Lt H. unfold gcm_open in H. unfold gcm_seal. rewrite Hk, Hi in *.
    change ((16 =? 16) && (12 =? 12)) with true in *. cbv iota in *.
    destruct (list_eqb _ _) eqn:E; [|discriminate]. injection H as <-. apply list_eqb_eq in E.
    destruct (ctr_spec key iv ct) as [L [B I]]. split; [auto|]. split; [auto|]. rewrite I, E. reflexivity.
Qed.
Print Assumptions real_prims_ok.

(** Hexadecimal notation for test vectors. *)
Fixpoint hex_digits (s : list ascii) : list N :=
  match s with
  | [] => []
  | a :: r => let n := N_of_ascii a in (if n <? 58 then n - 48 else n - 87) :: hex_digits r
  end.
Fixpoint hex_pairs (l : list N) : list N :=
  match l with a :: b :: r => a * 16 + b :: hex_pairs r | _ => [] end.
Definition hex (s : string) : list N := hex_pairs (hex_digits (list_ascii_of_string s)).

(** FIPS 180-4, FIPS 197 appendix C.1, GCM specification test case 4, RFC 5869
    test case 1. *)
Example sha256_abc : sha256 (text "abc") =
  hex "ba7816bf8f01cfea414140de5dae2223b00361a396177a9cb410ff61f20015ad".
Proof. vm_compute. reflexivity. Qed.
Example sha256_two_blocks : sha256 (text "abcdbcdecdefdefgefghfghighijhijkijkljklmklmnlmnomnopnopq") =
  hex "248d6a61d20638b8e5c026930c3e6039a33ce45964ff2167f6ecedd419db06c1".
Proof. vm_compute. reflexivity. Qed.
Example hkdf_rfc5869 :
  hkdf_extract (Some (hex "000102030405060708090a0b0c")) (repeat 0x0b 22) =
    hex "077709362c2e32df0ddc3f0dc47bba6390b6c73bb50f9c3122ec844ad7c2b3e5" /\
  hkdf_expand (hex "077709362c2e32df0ddc3f0dc47bba6390b6c73bb50f9c3122ec844ad7c2b3e5")
    (hex "f0f1f2f3f4f5f6f7f8f9") 42 =
    Some (hex "3cb25f25faacd57a90434f64d0362f2a2d2d0a90cf1a5a4c5db02d56ecc4c5bf34007208d5b887185865").
Proof. vm_compute. split; reflexivity. Qed.
Example aes_fips197 : aes_block (aes_keys (hex "000102030405060708090a0b0c0d0e0f"))
  (hex "00112233445566778899aabbccddeeff") = hex "69c4e0d86a7b0430d8cdb78070b4c55a".
Proof. vm_compute. reflexivity. Qed.
Example gcm_test_case_4 :
  gcm_seal (hex "feffe9928665731c6d6a8f9467308308") (hex "cafebabefacedbaddecaf888")
    (hex "feedfacedeadbeeffeedfacedeadbeefabaddad2")
    (hex "d9313225f88406e5a55909c5aff5269a86a7a9531534f7da2e4c303d8a318a721c3c0c95956809532fcf0e2449a6b525b16aedf5aa0de657ba637b39") =
  Some (hex "42831ec2217774244b7221b784d0d49ce3aa212f2c02a4e035c17e2329aca12e21d514b25466931c7d8f6a5aac84aa051ba30b396a0aac973d58e091",
        hex "5bc94fbc3221a5db94fae95ae7121a47").
Proof. vm_compute. reflexivity. Qed.
