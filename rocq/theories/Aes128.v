(** Executable AES-128 (FIPS 197) and AES-128-GCM (NIST SP 800-38D): the
    functions of the external crate [openssl].  Specification side: not a model
    of /repo, an instance of the primitives it calls. *)
From Verif Require Import Base.

Definition sbox : list N :=
 [0x63;0x7c;0x77;0x7b;0xf2;0x6b;0x6f;0xc5;0x30;0x01;0x67;0x2b;0xfe;0xd7;0xab;0x76;
  0xca;0x82;0xc9;0x7d;0xfa;0x59;0x47;0xf0;0xad;0xd4;0xa2;0xaf;0x9c;0xa4;0x72;0xc0;
  0xb7;0xfd;0x93;0x26;0x36;0x3f;0xf7;0xcc;0x34;0xa5;0xe5;0xf1;0x71;0xd8;0x31;0x15;
  0x04;0xc7;0x23;0xc3;0x18;0x96;0x05;0x9a;0x07;0x12;0x80;0xe2;0xeb;0x27;0xb2;0x75;
  0x09;0x83;0x2c;0x1a;0x1b;0x6e;0x5a;0xa0;0x52;0x3b;0xd6;0xb3;0x29;0xe3;0x2f;0x84;
  0x53;0xd1;0x00;0xed;0x20;0xfc;0xb1;0x5b;0x6a;0xcb;0xbe;0x39;0x4a;0x4c;0x58;0xcf;
  0xd0;0xef;0xaa;0xfb;0x43;0x4d;0x33;0x85;0x45;0xf9;0x02;0x7f;0x50;0x3c;0x9f;0xa8;
  0x51;0xa3;0x40;0x8f;0x92;0x9d;0x38;0xf5;0xbc;0xb6;0xda;0x21;0x10;0xff;0xf3;0xd2;
  0xcd;0x0c;0x13;0xec;0x5f;0x97;0x44;0x17;0xc4;0xa7;0x7e;0x3d;0x64;0x5d;0x19;0x73;
  0x60;0x81;0x4f;0xdc;0x22;0x2a;0x90;0x88;0x46;0xee;0xb8;0x14;0xde;0x5e;0x0b;0xdb;
  0xe0;0x32;0x3a;0x0a;0x49;0x06;0x24;0x5c;0xc2;0xd3;0xac;0x62;0x91;0x95;0xe4;0x79;
  0xe7;0xc8;0x37;0x6d;0x8d;0xd5;0x4e;0xa9;0x6c;0x56;0xf4;0xea;0x65;0x7a;0xae;0x08;
  0xba;0x78;0x25;0x2e;0x1c;0xa6;0xb4;0xc6;0xe8;0xdd;0x74;0x1f;0x4b;0xbd;0x8b;0x8a;
  0x70;0x3e;0xb5;0x66;0x48;0x03;0xf6;0x0e;0x61;0x35;0x57;0xb9;0x86;0xc1;0x1d;0x9e;
  0xe1;0xf8;0x98;0x11;0x69;0xd9;0x8e;0x94;0x9b;0x1e;0x87;0xe9;0xce;0x55;0x28;0xdf;
  0x8c;0xa1;0x89;0x0d;0xbf;0xe6;0x42;0x68;0x41;0x99;0x2d;0x0f;0xb0;0x54;0xbb;0x16].

Definition sub (b : N) : N := nth (N.to_nat b) sbox 0.
Definition xtime (b : N) : N :=
  let b2 := N.shiftl b 1 in if b2 <? 256 then b2 else N.lxor (N.land b2 0xff) 0x1b.
Fixpoint xors (a b : list N) : list N :=
  match a, b with x :: a, y :: b => N.lxor x y :: xors a b | _, _ => [] end.

(** Key expansion: round keys, each 16 bytes. *)
Fixpoint expand_key (n : nat) (rcon : N) (k : list N) : list (list N) :=
  match n with
  | O => [k]
  | S n' =>
      let w0 := firstn 4 k in let w1 := firstn 4 (skipn 4 k) in
      let w2 := firstn 4 (skipn 8 k) in let w3 := skipn 12 k in
      let t := match w3 with
               | [a; b; c; d] => [N.lxor (sub b) rcon; sub c; sub d; sub a]
               | _ => []
               end in
      let w0' := xors w0 t in let w1' := xors w1 w0' in
      let w2' := xors w2 w1' in let w3' := xors w3 w2' in
      k :: expand_key n' (xtime rcon) (w0' ++ w1' ++ w2' ++ w3')
  end.

Definition shift_rows (s : list N) : list N :=
  map (fun i => nth i s 0) [0;5;10;15;4;9;14;3;8;13;2;7;12;1;6;11]%nat.

Definition mix_column (c : list N) : list N :=
  match c with
  | [a; b; c; d] =>
      let all := N.lxor (N.lxor a b) (N.lxor c d) in
      [N.lxor (N.lxor a all) (xtime (N.lxor a b)); N.lxor (N.lxor b all) (xtime (N.lxor b c));
       N.lxor (N.lxor c all) (xtime (N.lxor c d)); N.lxor (N.lxor d all) (xtime (N.lxor d a))]
  | _ => []
  end.
Definition mix_columns (s : list N) : list N :=
  mix_column (firstn 4 s) ++ mix_column (firstn 4 (skipn 4 s)) ++
  mix_column (firstn 4 (skipn 8 s)) ++ mix_column (skipn 12 s).

Fixpoint aes_rounds (ks : list (list N)) (s : list N) : list N :=
  match ks with
  | [] => s
  | [k] => xors (shift_rows (map sub s)) k
  | k :: ks => aes_rounds ks (xors (mix_columns (shift_rows (map sub s))) k)
  end.

(** Round keys are computed once per key. *)
Definition aes_block (ks : list (list N)) (block : list N) : list N :=
  match ks with
  | [] => []
  | k :: ks => be_bytes 16 (from_be_bytes (aes_rounds ks (xors block k)))
  end.
Definition aes_keys (key : list N) : list (list N) := expand_key 10 1 key.

(** [openssl::symm::encrypt] with AES-128-ECB: PKCS#7 padding, then block by
    block. *)
Fixpoint ecb_blocks (n : nat) (ks : list (list N)) (bs : list N) : list N :=
  match n with
  | O => []
  | S n' => aes_block ks (firstn 16 bs) ++ ecb_blocks n' ks (skipn 16 bs)
  end.
Definition ecb_encrypt (key data : list N) : option (list N) :=
  if len key =? 16 then
    let pad := 16 - len data mod 16 in
    let padded := data ++ repeat pad (N.to_nat pad) in
    Some (ecb_blocks (N.to_nat (len padded / 16)) (aes_keys key) padded)
  else None.

(** Multiplication in GF(2^128), bit 127 is the coefficient of x^0. *)
Fixpoint gf_mul_loop (n : nat) (x z v : N) : N :=
  match n with
  | O => z
  | S n' =>
      let z := if N.testbit x (N.of_nat n') then N.lxor z v else z in
      let v := if N.testbit v 0 then N.lxor (N.shiftr v 1) 0xe1000000000000000000000000000000
               else N.shiftr v 1 in
      gf_mul_loop n' x z v
  end.
Definition gf_mul (x y : N) : N := gf_mul_loop 128 x 0 y.

Fixpoint ghash (n : nat) (h y : N) (bs : list N) : N :=
  match n with
  | O => y
  | S n' => ghash n' h (gf_mul (N.lxor y (from_be_bytes (firstn 16 bs))) h) (skipn 16 bs)
  end.
Definition pad16 (bs : list N) : list N :=
  bs ++ repeat 0 (N.to_nat ((16 - len bs mod 16) mod 16)).

(** Key stream of counter mode starting at the 12 byte nonce with counter [i]. *)
Fixpoint ctr_stream (n : nat) (i : N) (ks : list (list N)) (iv : list N) : list N :=
  match n with
  | O => []
  | S n' => aes_block ks (iv ++ be_bytes 4 i) ++ ctr_stream n' (i + 1) ks iv
  end.
Definition ctr (ks : list (list N)) (iv data : list N) : list N :=
  xors data (ctr_stream (N.to_nat ((len data + 15) / 16)) 2 ks iv).

Definition gcm_tag (ks : list (list N)) (iv aad ct : list N) : list N :=
  let h := from_be_bytes (aes_block ks (repeat 0 16)) in
  let m := pad16 aad ++ pad16 ct ++ be_bytes 8 (8 * len aad) ++ be_bytes 8 (8 * len ct) in
  let s := ghash (N.to_nat (len m / 16)) h 0 m in
  be_bytes 16 (N.lxor s (from_be_bytes (aes_block ks (iv ++ be_bytes 4 1)))).

(** [encrypt_aead] / [decrypt_aead] with AES-128-GCM, 12 byte nonce, 16 byte tag. *)
Definition gcm_seal (key iv aad pt : list N) : option (list N * list N) :=
  if (len key =? 16) && (len iv =? 12) then
    let ks := aes_keys key in
    let ct := ctr ks iv pt in
    Some (ct, gcm_tag ks iv aad ct)
  else None.
Definition list_eqb (a b : list N) : bool :=
  if list_eq_dec N.eq_dec a b then true else false.
Definition gcm_open (key iv aad ct tag : list N) : option (list N) :=
  if (len key =? 16) && (len iv =? 12) then
    let ks := aes_keys key in
    if list_eqb (gcm_tag ks iv aad ct) tag then Some (ctr ks iv ct) else None
  else None.
