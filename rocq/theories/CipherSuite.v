(** Model of src/quictls/cipher_suite.rs and src/version.rs. *)
From Verif Require Import Base Utils.

(** The external functions the crate calls (crates hkdf, sha2, openssl).  The
    model is parametric in them; [SpecPacket.v] states what the theorems assume of
    them and [CryptoInst.v] gives an executable instance.  [None] stands for an
    [Err] of the external call. *)
Record prims := Prims {
  (* [Hkdf::<Sha256>::extract(salt, ikm)], first component *)
  p_hkdf_extract : option (list N) -> list N -> list N;
  (* [Hkdf::<Sha256>::from_prk(prk).is_ok()] *)
  p_hkdf_from_prk : list N -> bool;
  (* [kdf.expand(info, output)]: prk, info, output.len() *)
  p_hkdf_expand : list N -> list N -> N -> option (list N);
  (* [openssl::symm::encrypt(Cipher::aes_128_ecb(), key, None, data)] *)
  p_ecb_encrypt : list N -> list N -> option (list N);
  (* [encrypt_aead(Cipher::aes_128_gcm(), key, Some(iv), aad, data, &mut tag)]
     with a 16 byte tag: cipher text and tag *)
  p_gcm_seal : list N -> list N -> list N -> list N -> option (list N * list N);
  (* [decrypt_aead(Cipher::aes_128_gcm(), key, Some(iv), aad, data, tag)] *)
  p_gcm_open : list N -> list N -> list N -> list N -> list N -> option (list N) }.

(** cipher_suite.rs:7-22 [QuicTlsCipherSuite].  The [&mut [u8]] output argument
    of [hkdf_expand_label] is replaced by its length and a returned list. *)
Record cipher_suite := CipherSuite {
  cs_sample_len : N;
  cs_tag_len : option N;
  cs_key_len : N;
  cs_iv_len : option N;
  cs_decrypt : list N -> option (list N) -> option (list N) -> list N -> outcome (list N);
  cs_encrypt : list N -> option (list N) -> option (list N) -> list N -> outcome (list N);
  cs_hp_mask : list N -> list N -> outcome (list N);
  cs_hkdf_expand_label : list N -> list N -> list N -> N -> outcome (list N);
  cs_hkdf_extract : option (list N) -> list N -> list N }.

(** cipher_suite.rs:32-36. *)
Definition get_key (cs : cipher_suite) (secret key_label : list N) : outcome (list N) :=
  cs_hkdf_expand_label cs secret key_label [] (cs_key_len cs).

(** cipher_suite.rs:37-41. *)
Definition get_hp_secret (cs : cipher_suite) (secret hp_label : list N) : outcome (list N) :=
  cs_hkdf_expand_label cs secret hp_label [] 16.

(** cipher_suite.rs:42-51. *)
Definition get_iv_secret (cs : cipher_suite) (secret iv_label : list N)
  : outcome (option (list N)) :=
  match cs_iv_len cs with
  | Some x => let? rv := cs_hkdf_expand_label cs secret iv_label [] x in Ok (Some rv)
  | None => Ok None
  end.

(** cipher_suite.rs:52-54. *)
Definition cs_get_protected_payload_len (oc : bool) (cs : cipher_suite) (payload_len : N)
  : outcome N :=
  add64 oc (match cs_tag_len cs with Some t => t | None => 0 end) payload_len.

(** b"tls13 " *)
Definition tls13_label : list N := [0x74; 0x6c; 0x73; 0x31; 0x33; 0x20].

(** cipher_suite.rs:57-79 [get_hkdf_label_info]. *)
Definition get_hkdf_label_info (length : N) (label context : list N)
  : outcome (list (list N)) :=
  if 0xffff <? length then Err (InternalError "length does not fit in u16")
  else if 0xff <? len context then Err (InternalError "context length does not fit in u8")
  else
    let new_label := tls13_label ++ label in
    if 0xff <? len new_label then Err (InternalError "label length does not fit in u8")
    else
      Ok [be_bytes 2 (cast 16 length); be_bytes 1 (cast 8 (len new_label)); new_label;
          be_bytes 1 (cast 8 (len context)); context].

(** cipher_suite.rs:81-84. *)
Definition hkdf_extract_sha256 (P : prims) (salt : option (list N)) (ikm : list N) : list N :=
  p_hkdf_extract P salt ikm.

(** cipher_suite.rs:86-97. *)
Definition hkdf_expand_label_sha256 (P : prims) (secret label context : list N) (out_len : N)
  : outcome (list N) :=
  if negb (p_hkdf_from_prk P secret) then Err (InternalError "error creating kdf object")
  else
    let? hkdf_label := get_hkdf_label_info out_len label context in
    ok_or (p_hkdf_expand P secret (concat hkdf_label) out_len)
          (InternalError "error expanding label").

(** cipher_suite.rs:99-104 [hp_mask]; [.unwrap()] and [result[..5]] can panic. *)
Definition hp_mask (P : prims) (key sample : list N) : outcome (list N) :=
  match p_ecb_encrypt P key sample with
  | None => Panic "unwrap on Err"
  | Some result =>
      if len result <? 5 then Panic "range end index out of range"
      else Ok (firstn 5 result)
  end.

(** cipher_suite.rs:106-108. *)
Definition hp_mask_aes_128_ecb (P : prims) (key sample : list N) : outcome (list N) :=
  hp_mask P key sample.

(** cipher_suite.rs:110-113. *)
Definition AES_128_GCM_SAMPLE_LEN : N := 16.
Definition AES_128_GCM_TAG_LEN : N := 16.
Definition AES_128_KEY_LEN : N := 16.
Definition AES_128_IV_LEN : N := 12.

(** cipher_suite.rs:115-132. *)
Definition internal_encrypt_aes_128_gcm (P : prims) (key iv associated_data payload : list N)
  : outcome (list N) :=
  match p_gcm_seal P key iv associated_data payload with
  | None => Err (InternalError "error in aes_128_gcm encryption")
  | Some (cipher_text, tag) => Ok (cipher_text ++ tag)
  end.

(** cipher_suite.rs:134-146. *)
Definition encrypt_aes_128_gcm (P : prims) (key : list N) (iv associated_data : option (list N))
  (payload : list N) : outcome (list N) :=
  let? iv := ok_or iv (InternalError "aes_128_gcm requires an initialsation vector") in
  let? ad := ok_or associated_data (InternalError "aes_128_gcm requires associated data") in
  internal_encrypt_aes_128_gcm P key iv ad payload.

(** cipher_suite.rs:148-165.  [payload.len() - 16] underflows below 16 bytes:
    an arithmetic panic with overflow checks, otherwise the wrapped start index
    is out of range and the slice panics. *)
Definition internal_decrypt_aes_128_gcm (P : prims) (oc : bool)
  (key iv associated_data payload : list N) : outcome (list N) :=
  let? split := sub64 oc (len payload) AES_128_GCM_TAG_LEN in
  if len payload <? split then Panic "range start index out of range"
  else
    let tag := skipn (N.to_nat split) payload in
    let cipher_text := firstn (N.to_nat split) payload in
    ok_or (p_gcm_open P key iv associated_data cipher_text tag)
          (InternalError "error in aes_128_gcm decryption").

(** cipher_suite.rs:167-179. *)
Definition decrypt_aes_128_gcm (P : prims) (oc : bool) (key : list N)
  (iv associated_data : option (list N)) (payload : list N) : outcome (list N) :=
  let? iv := ok_or iv (InternalError "aes_128_gcm requires an initialsation vector") in
  let? ad := ok_or associated_data (InternalError "aes_128_gcm requires associated data") in
  internal_decrypt_aes_128_gcm P oc key iv ad payload.

(** cipher_suite.rs:181-191. *)
Definition TLS13_AES_128_GCM_SHA256 (P : prims) (oc : bool) : cipher_suite :=
  {| cs_sample_len := AES_128_GCM_SAMPLE_LEN;
     cs_tag_len := Some AES_128_GCM_TAG_LEN;
     cs_key_len := AES_128_KEY_LEN;
     cs_iv_len := Some AES_128_IV_LEN;
     cs_hp_mask := hp_mask_aes_128_ecb P;
     cs_hkdf_expand_label := hkdf_expand_label_sha256 P;
     cs_hkdf_extract := hkdf_extract_sha256 P;
     cs_encrypt := encrypt_aes_128_gcm P;
     cs_decrypt := decrypt_aes_128_gcm P oc |}.

(** version.rs:3-4: hex 38762cf7f55934b34d179ae6a4c80cadccbb7f0a. *)
Definition KDF_INITIAL_SALT_V1 : list N :=
  [0x38; 0x76; 0x2c; 0xf7; 0xf5; 0x59; 0x34; 0xb3; 0x4d; 0x17;
   0x9a; 0xe6; 0xa4; 0xc8; 0x0c; 0xad; 0xcc; 0xbb; 0x7f; 0x0a].

(** version.rs:7-9. *)
Inductive version := V1.

(** version.rs:12-16. *)
Definition get_kdf_initial_salt (v : version) : list N :=
  match v with V1 => KDF_INITIAL_SALT_V1 end.

(** version.rs:17-21. *)
Definition get_version_field_val (v : version) : N :=
  match v with V1 => 1 end.
