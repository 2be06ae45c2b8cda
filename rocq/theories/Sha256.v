(** Executable SHA-256 (FIPS 180-4), HMAC (RFC 2104) and HKDF (RFC 5869): the
    functions of the external crates [sha2] and [hkdf].  Specification side: not
    a model of /repo, an instance of the primitives it calls. *)
From Verif Require Import Base.

Definition w32 (x : N) : N := N.land x 0xffffffff.
Definition add32 (a b : N) : N := w32 (a + b).
Definition rotr (x n : N) : N := w32 (N.lor (N.shiftr x n) (N.shiftl x (32 - n))).

Definition sha_k : list N :=
 [0x428a2f98;0x71374491;0xb5c0fbcf;0xe9b5dba5;0x3956c25b;0x59f111f1;0x923f82a4;0xab1c5ed5;
  0xd807aa98;0x12835b01;0x243185be;0x550c7dc3;0x72be5d74;0x80deb1fe;0x9bdc06a7;0xc19bf174;
  0xe49b69c1;0xefbe4786;0x0fc19dc6;0x240ca1cc;0x2de92c6f;0x4a7484aa;0x5cb0a9dc;0x76f988da;
  0x983e5152;0xa831c66d;0xb00327c8;0xbf597fc7;0xc6e00bf3;0xd5a79147;0x06ca6351;0x14292967;
  0x27b70a85;0x2e1b2138;0x4d2c6dfc;0x53380d13;0x650a7354;0x766a0abb;0x81c2c92e;0x92722c85;
  0xa2bfe8a1;0xa81a664b;0xc24b8b70;0xc76c51a3;0xd192e819;0xd6990624;0xf40e3585;0x106aa070;
  0x19a4c116;0x1e376c08;0x2748774c;0x34b0bcb5;0x391c0cb3;0x4ed8aa4a;0x5b9cca4f;0x682e6ff3;
  0x748f82ee;0x78a5636f;0x84c87814;0x8cc70208;0x90befffa;0xa4506ceb;0xbef9a3f7;0xc67178f2].

Record sha_state := ShaState { ha : N; hb : N; hc : N; hd : N; he : N; hf : N; hg : N; hh : N }.

Definition sha_init : sha_state :=
  ShaState 0x6a09e667 0xbb67ae85 0x3c6ef372 0xa54ff53a 0x510e527f 0x9b05688c 0x1f83d9ab 0x5be0cd19.

(** Message schedule: [ws] holds the last 16 words, newest first. *)
Fixpoint sha_schedule (n : nat) (ws : list N) : list N :=
  match n with
  | O => []
  | S n' =>
      match rev ws with
      | [] => []
      | w :: _ =>
          let w2 := nth 1 ws 0 in let w7 := nth 6 ws 0 in
          let w15 := nth 14 ws 0 in let w16 := nth 15 ws 0 in
          let s0 := N.lxor (N.lxor (rotr w15 7) (rotr w15 18)) (N.shiftr w15 3) in
          let s1 := N.lxor (N.lxor (rotr w2 17) (rotr w2 19)) (N.shiftr w2 10) in
          let new := add32 (add32 w16 s0) (add32 w7 s1) in
          w :: sha_schedule n' (new :: firstn 15 ws)
      end
  end.

Definition sha_round (st : sha_state) (kw : N * N) : sha_state :=
  let '(k, w) := kw in
  let 'ShaState a b c d e f g h := st in
  let s1 := N.lxor (N.lxor (rotr e 6) (rotr e 11)) (rotr e 25) in
  let ch := N.lxor (N.land e f) (N.land (N.lxor e 0xffffffff) g) in
  let t1 := add32 (add32 (add32 h s1) (add32 ch k)) w in
  let s0 := N.lxor (N.lxor (rotr a 2) (rotr a 13)) (rotr a 22) in
  let maj := N.lxor (N.lxor (N.land a b) (N.land a c)) (N.land b c) in
  let t2 := add32 s0 maj in
  ShaState (add32 t1 t2) a b c (add32 d t1) e f g.

Fixpoint words (n : nat) (bs : list N) : list N :=
  match n with
  | O => []
  | S n' => from_be_bytes (firstn 4 bs) :: words n' (skipn 4 bs)
  end.

Definition sha_block (st : sha_state) (block : list N) : sha_state :=
  let ws := sha_schedule 64 (rev (words 16 block)) in
  let 'ShaState a b c d e f g h := st in
  let 'ShaState a' b' c' d' e' f' g' h' := fold_left sha_round (combine sha_k ws) st in
  ShaState (add32 a a') (add32 b b') (add32 c c') (add32 d d')
           (add32 e e') (add32 f f') (add32 g g') (add32 h h').

Fixpoint sha_blocks (n : nat) (st : sha_state) (bs : list N) : sha_state :=
  match n with
  | O => st
  | S n' => sha_blocks n' (sha_block st (firstn 64 bs)) (skipn 64 bs)
  end.

Definition sha_pad (bs : list N) : list N :=
  let l := len bs in
  bs ++ [0x80] ++ repeat 0 (N.to_nat ((55 + 64 - l mod 64) mod 64)) ++ be_bytes 8 (8 * l).

Definition sha256 (bs : list N) : list N :=
  let m := sha_pad bs in
  let 'ShaState a b c d e f g h := sha_blocks (N.to_nat (len m / 64)) sha_init m in
  be_bytes 4 a ++ be_bytes 4 b ++ be_bytes 4 c ++ be_bytes 4 d ++
  be_bytes 4 e ++ be_bytes 4 f ++ be_bytes 4 g ++ be_bytes 4 h.

(** RFC 2104. *)
Definition hmac (key msg : list N) : list N :=
  let k := if 64 <? len key then sha256 key else key in
  let k := k ++ repeat 0 (64 - length k) in
  sha256 (map (N.lxor 0x5c) k ++ sha256 (map (N.lxor 0x36) k ++ msg)).

(** RFC 5869. *)
Definition hkdf_extract (salt : option (list N)) (ikm : list N) : list N :=
  hmac (match salt with Some s => s | None => repeat 0 32 end) ikm.
Fixpoint hkdf_blocks (n : nat) (i : N) (prk prev info : list N) : list N :=
  match n with
  | O => []
  | S n' => let t := hmac prk (prev ++ info ++ [i]) in t ++ hkdf_blocks n' (i + 1) prk t info
  end.
Definition hkdf_expand (prk info : list N) (n : N) : option (list N) :=
  if 255 * 32 <? n then None
  else Some (firstn (N.to_nat n) (hkdf_blocks (N.to_nat ((n + 31) / 32)) 1 prk [] info)).
