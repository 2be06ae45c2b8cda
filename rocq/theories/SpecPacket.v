(** Independent specifications for cryptography and packets (RFC 9000 section
    17, RFC 9001 section 5, RFC 8446 section 7.1).  The only functions of the
    crate's environment mentioned are the external primitives in [prims]. *)
From Verif Require Import Base Utils Frame CipherSuite Secrets Packet Spec.

(** What the theorems assume of the external cryptographic functions.
    [CryptoInst.v] proves these laws of an executable SHA-256 / HKDF / AES-128 /
    GCM. *)
Record prims_ok (P : prims) : Prop := PrimsOk {
  extract_law : forall salt ikm,
    len (p_hkdf_extract P salt ikm) = 32 /\ bytes_ok (p_hkdf_extract P salt ikm);
  from_prk_law : forall prk, p_hkdf_from_prk P prk = (32 <=? len prk);
  expand_law : forall prk info n, 32 <= len prk -> n <= 255 * 32 ->
    exists out, p_hkdf_expand P prk info n = Some out /\ len out = n /\ bytes_ok out;
  ecb_law : forall key block, len key = 16 -> len block = 16 ->
    exists out, p_ecb_encrypt P key block = Some out /\ 16 <= len out /\ bytes_ok out;
  (* sealing is available up to the library's limit (C int lengths) ... *)
  seal_law : forall key iv aad pt, len key = 16 -> len iv = 12 ->
    len aad < 2 ^ 31 -> len pt + 16 < 2 ^ 31 -> p_gcm_seal P key iv aad pt <> None;
  (* ... and whatever is sealed can be opened *)
  open_law : forall key iv aad pt ct tag, len key = 16 -> len iv = 12 -> bytes_ok pt ->
    p_gcm_seal P key iv aad pt = Some (ct, tag) ->
    len ct = len pt /\ len tag = 16 /\ bytes_ok ct /\ bytes_ok tag /\
    p_gcm_open P key iv aad ct tag = Some pt;
  (* the cipher is deterministic: only sealed texts open *)
  auth_law : forall key iv aad pt ct tag, len key = 16 -> len iv = 12 ->
    bytes_ok ct -> bytes_ok tag -> len tag = 16 ->
    p_gcm_open P key iv aad ct tag = Some pt ->
    bytes_ok pt /\ len pt = len ct /\ p_gcm_seal P key iv aad pt = Some (ct, tag) }.

(** Byte-wise exclusive or. *)
Fixpoint xor_bytes (a b : list N) : list N :=
  match a, b with
  | x :: a, y :: b => N.lxor x y :: xor_bytes a b
  | _, _ => []
  end.

(** RFC 9001 section 5.3: the nonce is the IV exclusive-ored with the packet
    number (left-padded to the length of the IV). *)
Definition nonce_for (iv : list N) (pn : N) (nonce : list N) : Prop :=
  bytes_ok nonce /\ len nonce = len iv /\ be_val nonce = N.lxor (be_val iv) pn.

(** Keys of one direction. *)
Record keys := Keys { k_key : list N; k_iv : list N; k_hp : list N }.
Definition keys_ok (k : keys) : Prop :=
  len (k_key k) = 16 /\ len (k_iv k) = 12 /\ len (k_hp k) = 16 /\ bytes_ok (k_iv k).

(** RFC 9000 section 17.1: [pnb] holds the least significant bytes of [pn]. *)
Definition pn_field (pn : N) (pnb : list N) : Prop :=
  1 <= len pnb <= 4 /\ bytes_ok pnb /\ be_val pnb = pn mod 256 ^ len pnb.

(** RFC 9001 sections 5.3 and 5.4.  An unprotected packet consists of the first
    byte [first], the header fields [mid], the packet number field [pnb] for
    packet number [pn] and the plain payload [pt]; [wire] is its protected form.
    The mask comes from the 16 bytes found 4 bytes after the start of the packet
    number; [bits] are the protected bits of the first byte. *)
Definition protected (P : prims) (k : keys) (bits first : N) (mid pnb : list N) (pn : N)
  (pt wire : list N) : Prop :=
  pn_field pn pnb /\ N.land first 0x03 + 1 = len pnb /\
  exists nonce ct tag mask0 mask more,
    nonce_for (k_iv k) pn nonce /\
    p_gcm_seal P (k_key k) nonce (first :: mid ++ pnb) pt = Some (ct, tag) /\
    20 <= len (pnb ++ ct ++ tag) /\
    p_ecb_encrypt P (k_hp k) (firstn 16 (skipn 4 (pnb ++ ct ++ tag))) = Some (mask0 :: mask ++ more) /\
    len mask = 4 /\
    wire = N.lxor first (N.land mask0 bits) :: mid ++
           xor_bytes pnb mask ++ ct ++ tag.

(** RFC 9000 section 17.2: version and connection ids of a long header. *)
Definition long_fields (h : long_header) (bs : list N) : Prop :=
  exists v d s,
    fixed_enc 4 (lh_version h) v /\
    lh_dcid_len h <= 20 /\ cid_enc (lh_dcid h) (lh_dcid_len h) d /\
    lh_scid_len h <= 20 /\ cid_enc (lh_scid h) (lh_scid_len h) s /\
    bs = v ++ lh_dcid_len h :: d ++ lh_scid_len h :: s.

(** RFC 9000 section 17.2.2: an Initial packet with plain payload [pt].  The
    fixed bit and the reserved bits of the first byte are left free; version 0 is
    version negotiation. *)
Definition initial_wire (P : prims) (k : keys) (p : packet_initial) (pt wire : list N) : Prop :=
  let h := pi_header p in
  exists fields tl ll,
    lh_byte h < 256 /\ N.land (lh_byte h) 0xb0 = 0x80 /\ lh_version h <> 0 /\
    lh_vn h = None /\ lh_protected h = false /\
    long_fields h fields /\
    varint_enc (len (pi_token p)) tl /\ bytes_ok (pi_token p) /\
    varint_enc (len (pi_pn_bytes p) + len pt + 16) ll /\ bytes_ok pt /\
    protected P k 0x0f (lh_byte h) (fields ++ tl ++ pi_token p ++ ll)
              (pi_pn_bytes p) (pi_pn p) pt wire.

(** RFC 9000 section 17.2.4: a Handshake packet. *)
Definition handshake_wire (P : prims) (k : keys) (p : packet_handshake) (pt wire : list N) : Prop :=
  let h := ph_header p in
  exists fields ll,
    lh_byte h < 256 /\ N.land (lh_byte h) 0xb0 = 0xa0 /\ lh_version h <> 0 /\
    lh_vn h = None /\ lh_protected h = false /\
    long_fields h fields /\
    varint_enc (len (ph_pn_bytes p) + len pt + 16) ll /\ bytes_ok pt /\
    protected P k 0x0f (lh_byte h) (fields ++ ll)
              (ph_pn_bytes p) (ph_pn p) pt wire.

(** RFC 9000 section 17.2.3: a 0-RTT packet; the decoded packet also keeps the
    length field. *)
Definition zero_rtt_wire (P : prims) (k : keys) (p : packet_zero_rtt) (pt wire : list N) : Prop :=
  let h := pz_header p in
  exists fields ll,
    lh_byte h < 256 /\ N.land (lh_byte h) 0xb0 = 0x90 /\ lh_version h <> 0 /\
    lh_vn h = None /\ lh_protected h = false /\
    long_fields h fields /\
    pz_length p = len (pz_pn_bytes p) + len pt + 16 /\
    varint_enc (pz_length p) ll /\ bytes_ok pt /\
    protected P k 0x0f (lh_byte h) (fields ++ ll)
              (pz_pn_bytes p) (pz_pn p) pt wire.

(** RFC 9000 section 17.3.1: a 1-RTT packet with an 8 byte destination id. *)
Definition one_rtt_wire (P : prims) (k : keys) (p : packet_one_rtt) (pt wire : list N) : Prop :=
  let h := po_header p in
  exists d,
    sh_byte h < 128 /\ sh_protected h = false /\ cid_enc (sh_dcid h) 8 d /\ bytes_ok pt /\
    protected P k 0x1f (sh_byte h) d (po_pn_bytes p) (po_pn p) pt wire.

(** ASCII text as bytes. *)
Definition text (s : string) : list N := map Ascii.N_of_ascii (list_ascii_of_string s).

(** RFC 8446 section 7.1, struct HkdfLabel. *)
Definition hkdf_label_enc (length : N) (label context bs : list N) : Prop :=
  exists l ll cl,
    fixed_enc 2 length l /\
    fixed_enc 1 (len (text "tls13 " ++ label)) ll /\
    fixed_enc 1 (len context) cl /\
    bs = l ++ ll ++ (text "tls13 " ++ label) ++ cl ++ context.

(** The keys held in a [secrets] value of the one cipher suite. *)
Definition secrets_keys (P : prims) (oc : bool) (s : secrets) (k : keys) : Prop :=
  s_cipher_suite s = TLS13_AES_128_GCM_SHA256 P oc /\
  s_key s = k_key k /\ s_iv s = Some (k_iv k) /\ s_hp s = k_hp k /\ keys_ok k.

(** RFC 8446 section 7.1, HKDF-Expand-Label with an empty context. *)
Definition expand_label (P : prims) (secret : list N) (label : string) (n : N) (out : list N) : Prop :=
  exists info, hkdf_label_enc n (text label) [] info /\ p_hkdf_expand P secret info n = Some out.

(** RFC 9001 section 5.2. *)
Definition initial_salt_v1 : list N := be_bytes 20 0x38762cf7f55934b34d179ae6a4c80cadccbb7f0a.

(** RFC 9001 sections 5.1 and 5.2: the keys with which the server (the client)
    protects its Initial packets, [cid] being the destination connection id of
    the client's first Initial packet. *)
Definition initial_keys (P : prims) (server : bool) (cid : list N) (k : keys) : Prop :=
  exists secret,
    expand_label P (p_hkdf_extract P (Some initial_salt_v1) cid)
      (if server then "server in" else "client in") 32 secret /\
    expand_label P secret "quic key" 16 (k_key k) /\
    expand_label P secret "quic iv" 12 (k_iv k) /\
    expand_label P secret "quic hp" 16 (k_hp k).

(** RFC 9000 section 17: the kind of packet announced by the first bytes of a
    datagram whose header is complete.  [TOneRtt]: short header with an 8 byte id
    (the length this server uses); version negotiation allows ids of any length. *)
Inductive announces : list N -> packet_type -> Prop :=
| an_short : forall b d rest, b < 128 -> len d = 8 -> announces (b :: d ++ rest) TOneRtt
| an_vn : forall b v d sc rest, 128 <= b -> len v = 4 -> be_val v = 0 ->
    announces (b :: v ++ len d :: d ++ len sc :: sc ++ rest) TVersionNegotiation
| an_long : forall b v d sc rest t, 128 <= b -> len v = 4 -> be_val v <> 0 ->
    len d <= 20 -> len sc <= 20 ->
    t = match (b / 16) mod 4 with
        | 0 => TInitial | 1 => TZeroRtt | 2 => THandshake | _ => TRetry
        end ->
    announces (b :: v ++ len d :: d ++ len sc :: sc ++ rest) t.

(** A list of 32-bit versions. *)
Inductive versions_enc : list N -> list N -> Prop :=
| ve_nil : versions_enc [] []
| ve_cons : forall v vs a bs, fixed_enc 4 v a -> versions_enc vs bs ->
    versions_enc (v :: vs) (a ++ bs).

(** RFC 9000 section 17.2.1: a version negotiation packet, up to the list. *)
Definition vn_header_enc (b : N) (d sc wire : list N) : Prop :=
  len d < 256 /\ len sc < 256 /\
  wire = b :: [0; 0; 0; 0] ++ len d :: d ++ len sc :: sc.

(** The visible fields of an Initial packet up to the four bytes that may hold
    a packet number. *)
Record initial_shape (h : long_header) (fields tl token : list N) (L : N) (ll ppn body s : list N) : Prop :=
  InitialShape {
  is_byte : lh_byte h < 256;
  is_long : 128 <= lh_byte h;
  is_type : (lh_byte h / 16) mod 4 = 0;
  is_version : lh_version h <> 0;
  is_vn : lh_vn h = None;
  is_fields : long_fields h fields;
  is_tl : varint_enc (len token) tl;
  is_token : bytes_ok token;
  is_ll : varint_enc L ll;
  is_ppn : len ppn = 4;
  is_ppn_ok : bytes_ok ppn;
  is_body : bytes_ok body;
  is_wire : s = lh_byte h :: fields ++ tl ++ token ++ ll ++ ppn ++ body }.
