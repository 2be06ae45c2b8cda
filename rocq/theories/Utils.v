(** Model of src/utils.rs. *)
From Verif Require Import Base.

(** A byte stream ([Iterator<Item = error::Result<u8>>]).  Simplification: the
    items are plain bytes; the only iterators the crate builds
    (utils.rs:487-491, routing.rs:112-115) yield [Ok] items only. *)
Definition stream := list N.
Definition parser (A : Type) := stream -> outcome (A * stream).

(** [stream.next().unwrap_or(Err(Error::InternalError(msg)))?] *)
Definition next (msg : string) : parser N := fun s =>
  match s with
  | [] => Err (InternalError msg)
  | b :: s' => Ok (b, s')
  end.

(** utils.rs:6-10 [U160]. *)
Record u160 := U160 { idx0 : N; idx1 : N }.

(** utils.rs:12-17 [From<u64> for U160]. *)
Definition u160_from_u64 (v : N) : u160 := U160 0 v.

(** utils.rs:38-43 [U160::zero]. *)
Definition u160_zero : u160 := U160 0 0.

(** utils.rs:21-32 [U160::to_bytes]: the loop, [n] iterations left; [rv] is
    filled from the last position backwards, i.e. built by consing. *)
Fixpoint u160_to_bytes_loop (n : nat) (tp_low tp_high : N) (rv : list N) : list N :=
  match n with
  | O => rv
  | S n' =>
      let rv := cast 8 (N.land tp_low 0xff) :: rv in
      let tp_low := N.shiftr tp_low 8 in
      let tp_low := N.lor tp_low (shl 128 (N.land tp_high 0xff) 120) in
      let tp_high := N.shiftr tp_high 8 in
      u160_to_bytes_loop n' tp_low tp_high rv
  end.
Definition u160_to_bytes (u : u160) : list N :=
  u160_to_bytes_loop 20 (idx1 u) (idx0 u) [].

(** utils.rs:33-37 [U160::to_var_bytes].  [20 - len] underflows for len > 20:
    with overflow checks that is an arithmetic panic, without them the wrapped
    amount makes [rotate_left] panic; both are a panic. *)
Definition u160_to_var_bytes (u : u160) (l : N) : outcome (list N) :=
  if 20 <? l then Panic "attempt to subtract with overflow / rotate_left: mid > len"
  else
    let bytes := u160_to_bytes u in
    let k := N.to_nat (20 - l) in
    let rotated := skipn k bytes ++ firstn k bytes in
    Ok (firstn (N.to_nat l) rotated).

(** utils.rs:68-140 [DecodeFromBytes] for an unsigned integer of [size] bytes:
    [result <<= 8; result |= data[i]] over the first [size] bytes.
    (For u8 the code returns data[0], which is the same computation.) *)
Definition decode_from_bytes (size : nat) (msg : string) (data : list N)
  : outcome (N * N) :=
  if len data <? N.of_nat size then Err (InternalError msg)
  else
    Ok (fold_left (fun r b => N.lor (shl (8 * N.of_nat size) r 8) b)
                  (firstn size data) 0,
        N.of_nat size).

(** utils.rs:150-154 and siblings: fill [bytes[0..size]] from the stream. *)
Fixpoint read_array (size : nat) (msg : string) : parser (list N) := fun s =>
  match size with
  | O => Ok ([], s)
  | S n =>
      let? (b, s) := next msg s in
      let? (bs, s) := read_array n msg s in
      Ok (b :: bs, s)
  end.

(** utils.rs:142-230 [FromDatagram] for u8/u16/u32/u64/u128. *)
Definition from_datagram (size : nat) (msg : string) : parser N := fun s =>
  let? (bytes, s) := read_array size msg s in
  let? (rv, _) := decode_from_bytes size msg bytes in
  Ok (rv, s).

Definition u8_from_datagram : parser N := from_datagram 1 "not enough bytes for u8".
Definition u16_from_datagram : parser N := from_datagram 2 "not enough bytes for u16".
Definition u32_from_datagram : parser N := from_datagram 4 "not enough bytes for u32".
Definition u64_from_datagram : parser N := from_datagram 8 "not enough bytes for u64".
Definition u128_from_datagram : parser N := from_datagram 16 "not enough bytes for u128".

(** Body shared by utils.rs:241-252 and utils.rs:411-422. *)
Fixpoint u160_read_loop (n : nat) (msg : string) (i0 i1 : N) : parser u160 := fun s =>
  match n with
  | O => Ok (U160 i0 i1, s)
  | S n' =>
      let i0 := shl 32 i0 8 in
      let i0 := N.lor i0 (cast 32 (N.shiftr i1 120)) in
      let i1 := N.land i1 (shl 128 1 120 - 1) in
      let i1 := shl 128 i1 8 in
      let? (b, s) := next msg s in
      let i1 := N.lor i1 b in
      u160_read_loop n' msg i0 i1 s
  end.

(** utils.rs:232-255 [FromDatagram for U160]. *)
Definition u160_from_datagram : parser u160 :=
  u160_read_loop 20 "not enough bytes for u160" 0 0.

(** utils.rs:405-424 [var_u160_from_stream]; [n_bytes] is a u8. *)
Definition var_u160_from_stream (n_bytes : N) : parser u160 :=
  u160_read_loop (N.to_nat n_bytes) "not enough bytes for var160" 0 0.

(** utils.rs:257-316 [FloorLog2]: [while tp > 0 { rv += 1; tp >>= 1 }].  The
    same text for u8/u16/u32/u64; [fuel] is the bit width (+1), out of fuel is
    [Diverge]. *)
Fixpoint floor_log2_loop (fuel : nat) (rv tp : N) : outcome N :=
  match fuel with
  | O => Diverge
  | S f => if 0 <? tp then floor_log2_loop f (rv + 1) (N.shiftr tp 1) else Ok rv
  end.
Definition floor_log2 (width : nat) (x : N) : outcome N :=
  if x =? 0 then Err (InternalError "no bits set")
  else floor_log2_loop (S width) 0 x.

(** utils.rs:323-337 [decode_var_int] (slice version).  The index [data[i+1]]
    is in range because of the length check. *)
Definition decode_var_int (oc : bool) (data : list N) : outcome (N * N) :=
  match data with
  | [] => Err (InternalError "missing first byte for varint")
  | b0 :: tl =>
      let n_shifts := N.shiftr b0 6 in
      if len data <? n_shifts + 1 then Err (InternalError "not enough bytes for varint")
      else
        let? result :=
          fold_left (fun acc b => let? r := acc in add64 oc (shl 64 r 8) b)
                    (firstn (N.to_nat n_shifts) tl) (Ok (N.land b0 0x3f)) in
        Ok (result, n_shifts + 1)
  end.

(** utils.rs:339-345 [decode_bytes]. *)
Definition decode_bytes (data : list N) (length : N) : outcome (list N * N) :=
  if len data <? length then Err (InternalError "not enough bytes to decode")
  else Ok (firstn (N.to_nat length) data, length).

(** utils.rs:358-365: [n] iterations of the accumulation loop, also collecting
    the raw bytes ([bytes] is accumulated in order). *)
Fixpoint var_int_loop (oc : bool) (n : nat) (result : N) (bytes : list N)
  : parser (N * list N) := fun s =>
  match n with
  | O => Ok ((result, bytes), s)
  | S n' =>
      let result := shl 64 result 8 in
      let? (b, s) := next "not enough bytes for varint" s in
      let? result := add64 oc result b in
      var_int_loop oc n' result (bytes ++ [b]) s
  end.

(** utils.rs:354 / 376: [(1usize << usize::from(first_byte >> 6)) - 1]. *)
Definition var_int_n_shifts (first_byte : N) : nat :=
  N.to_nat (shl 64 1 (N.shiftr first_byte 6) - 1).

(** utils.rs:347-367 [var_int_with_bytes_from_stream]. *)
Definition var_int_with_bytes_from_stream (oc : bool) : parser (N * list N) := fun s =>
  let? (first_byte, s) := next "missing first byte for varint" s in
  var_int_loop oc (var_int_n_shifts first_byte) (N.land first_byte 0x3f) [first_byte] s.

(** utils.rs:378-385: same loop without collecting the bytes. *)
Fixpoint var_int_loop' (oc : bool) (n : nat) (result : N) : parser N := fun s =>
  match n with
  | O => Ok (result, s)
  | S n' =>
      let result := shl 64 result 8 in
      let? (b, s) := next "not enough bytes for varint" s in
      let? result := add64 oc result b in
      var_int_loop' oc n' result s
  end.

(** utils.rs:369-387 [var_int_from_stream]. *)
Definition var_int_from_stream (oc : bool) : parser N := fun s =>
  let? (first_byte, s) := next "missing first byte for varint" s in
  var_int_loop' oc (var_int_n_shifts first_byte) (N.land first_byte 0x3f) s.

(** utils.rs:389-403 [var_u32_from_stream]. *)
Fixpoint var_u32_loop (n : nat) (rv : N) : parser N := fun s =>
  match n with
  | O => Ok (rv, s)
  | S n' =>
      let rv := shl 32 rv 8 in
      let? (b, s) := next "not enough bytes for var_u32" s in
      var_u32_loop n' (N.lor rv b) s
  end.
Definition var_u32_from_stream (n_bytes : N) : parser N :=
  var_u32_loop (N.to_nat n_bytes) 0.

(** utils.rs:426-443 [var_bytes_from_stream].  The loop [for i in 0..n_bytes]
    is structural on the stream so that an attacker-chosen 62-bit count stays
    computable.  The println on failure is in [Buffers.v] and [Printing.v]. *)
Fixpoint var_bytes_loop (s : stream) (n : N) : outcome (list N * stream) :=
  if n =? 0 then Ok ([], s)
  else
    match s with
    | [] => Err (InternalError "not enough bytes for var_bytes")
    | b :: s' =>
        let? (bs, rest) := var_bytes_loop s' (n - 1) in
        Ok (b :: bs, rest)
    end.
Definition var_bytes_from_stream (n_bytes : N) : parser (list N) := fun s =>
  var_bytes_loop s n_bytes.

(** utils.rs:445-455 [all_bytes_from_stream]: drains the stream. *)
Definition all_bytes_from_stream : parser (list N) := fun s => Ok (s, []).

(** utils.rs:457-465 [fixed_len_dcid_from_stream]. *)
Definition fixed_len_dcid_from_stream : parser u160 := fun s =>
  let? (dcid, s) := u64_from_datagram s in
  Ok (U160 0 dcid, s).

(** utils.rs:493-496. *)
Definition VARINT_ONELEN_MAX : N := 0x3f.
Definition VARINT_TWOLEN_MAX : N := 0x3fff.
Definition VARINT_THREELEN_MAX : N := 0x3fffffff.
Definition VARINT_FOURLEN_MAX : N := 0x3fffffffffffffff.

(** utils.rs:498-515 [encode_var_int]. *)
Definition encode_var_int (x : N) : outcome (list N) :=
  let? n_shifts :=
    if x <=? VARINT_ONELEN_MAX then Ok 0
    else if x <=? VARINT_TWOLEN_MAX then Ok 1
    else if x <=? VARINT_THREELEN_MAX then Ok 2
    else if x <=? VARINT_FOURLEN_MAX then Ok 3
    else Err (InternalError "var int overflow") in
  let l := shl 64 1 n_shifts in
  let len_val := shl 64 (shl 64 n_shifts 6) ((l - 1) * 8) in
  let bytes := be_bytes 8 (N.lor len_val x) in
  Ok (skipn (N.to_nat (8 - l)) bytes).
