(** Model of src/quictls/secrets.rs. *)
From Verif Require Import Base Utils CipherSuite.

(** secrets.rs:6-10: b"server in", b"client in", b"quic hp", b"quic iv", b"quic key". *)
Definition SERVER_INITIAL_SECRET_LABEL : list N :=
  [0x73; 0x65; 0x72; 0x76; 0x65; 0x72; 0x20; 0x69; 0x6e].
Definition CLIENT_INITIAL_SECRET_LABEL : list N :=
  [0x63; 0x6c; 0x69; 0x65; 0x6e; 0x74; 0x20; 0x69; 0x6e].
Definition HEADER_PROTECTION_LABEL : list N :=
  [0x71; 0x75; 0x69; 0x63; 0x20; 0x68; 0x70].
Definition INITIAL_VECTOR_LABEL : list N :=
  [0x71; 0x75; 0x69; 0x63; 0x20; 0x69; 0x76].
Definition KEY_LABEL : list N :=
  [0x71; 0x75; 0x69; 0x63; 0x20; 0x6b; 0x65; 0x79].

(** secrets.rs:13-18. *)
Record secrets := Secrets {
  s_cipher_suite : cipher_suite;
  s_hp : list N;
  s_iv : option (list N);
  s_key : list N }.

(** secrets.rs:34-47 [Secrets::from_secret]. *)
Definition from_secret (cs : cipher_suite) (secret : list N) : outcome secrets :=
  let? hp := get_hp_secret cs secret HEADER_PROTECTION_LABEL in
  let? iv := get_iv_secret cs secret INITIAL_VECTOR_LABEL in
  let? key := get_key cs secret KEY_LABEL in
  Ok (Secrets cs hp iv key).

(** secrets.rs:21-33 [Secrets::from_initial]. *)
Definition from_initial (P : prims) (oc : bool) (server : bool) (cid_bytes : list N)
  (v : version) : outcome secrets :=
  let cs := TLS13_AES_128_GCM_SHA256 P oc in
  let initial_secret := cs_hkdf_extract cs (Some (get_kdf_initial_salt v)) cid_bytes in
  let label := if server then SERVER_INITIAL_SECRET_LABEL else CLIENT_INITIAL_SECRET_LABEL in
  let? secret := cs_hkdf_expand_label cs initial_secret label [] 32 in
  from_secret cs secret.

(** [v[i] = f(v[i])]; an index out of range panics. *)
Fixpoint update_at (i : nat) (f : N -> N) (v : list N) : outcome (list N) :=
  match v, i with
  | [], _ => Panic "index out of bounds"
  | x :: v', O => Ok (f x :: v')
  | x :: v', S i' => let? r := update_at i' f v' in Ok (x :: r)
  end.

(** [v[i]] as a value. *)
Definition index (v : list N) (i : nat) : outcome N :=
  match nth_error v i with Some x => Ok x | None => Panic "index out of bounds" end.

(** secrets.rs:61-63 and 83-85: [for i in 0..length], [n] iterations left,
    current index [i]. *)
Fixpoint xor_iv_loop (n i : nat) (pn_bytes iv_internal : list N) : outcome (list N) :=
  match n with
  | O => Ok iv_internal
  | S n' =>
      let? b := index pn_bytes (length pn_bytes - i - 1) in
      let? iv := update_at (length iv_internal - i - 1) (fun x => N.lxor x b) iv_internal in
      xor_iv_loop n' (S i) pn_bytes iv
  end.

(** secrets.rs:54-67 and 76-89. *)
Definition make_iv (s : secrets) (packet_number : N) : outcome (option (list N)) :=
  match s_iv s with
  | Some x =>
      let pn_bytes := be_bytes 8 packet_number in
      let? iv := xor_iv_loop (Nat.min (length pn_bytes) (length x)) 0 pn_bytes x in
      Ok (Some iv)
  | None => Ok None
  end.

(** secrets.rs:48-69. *)
Definition encrypt_payload (s : secrets) (payload : list N) (associated_data : option (list N))
  (packet_number : N) : outcome (list N) :=
  let? iv := make_iv s packet_number in
  cs_encrypt (s_cipher_suite s) (s_key s) iv associated_data payload.

(** secrets.rs:70-91. *)
Definition decrypt_payload (s : secrets) (payload : list N) (associated_data : option (list N))
  (packet_number : N) : outcome (list N) :=
  let? iv := make_iv s packet_number in
  cs_decrypt (s_cipher_suite s) (s_key s) iv associated_data payload.

(** secrets.rs:92-100; the stream position after sampling is dropped (every
    caller passes a clone or a temporary). *)
Definition get_header_protection_mask (s : secrets) (sample_stream : stream)
  : outcome (list N) :=
  let? (sample, _) := var_bytes_from_stream (cs_sample_len (s_cipher_suite s)) sample_stream in
  cs_hp_mask (s_cipher_suite s) (s_hp s) sample.

(** secrets.rs:101-103. *)
Definition get_protected_payload_len (oc : bool) (s : secrets) (payload_len : N) : outcome N :=
  cs_get_protected_payload_len oc (s_cipher_suite s) payload_len.
