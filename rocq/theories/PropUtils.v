(** Properties C01-C06, C70: integers and connection ids on the wire. *)
From Verif Require Import Base Utils Frame Spec Tactics UtilsFacts.

(** ** C01: variable-length integers round-trip. *)
Theorem C01_varint_roundtrip : forall (oc : bool) (x : N) (rest : list N),
  (x < 2 ^ 62 ->
     exists bs, encode_var_int x = Ok bs /\
                var_int_from_stream oc (bs ++ rest) = Ok (x, rest)) /\
  (2 ^ 62 <= x -> exists e, encode_var_int x = Err e).
Proof.
  intros oc x rest. split; intros H.
  - destruct (encode_var_int_ok x H) as [bs [E [V _]]]. exists bs. split; [exact E|].
    apply varint_dec', V.
  - eexists. apply encode_var_int_err, H.
Qed.
Example C01_case : exists bs, encode_var_int 151288809941952652 = Ok bs /\
  bs = [0xc2; 0x19; 0x7c; 0x5e; 0xff; 0x14; 0xe8; 0x8c] /\
  var_int_from_stream true (bs ++ [7]) = Ok (151288809941952652, [7]).
Proof. eexists. split; [reflexivity|]. split; reflexivity. Qed.
Print Assumptions C01_varint_roundtrip.

(** ** C02: RFC 9000 section 16, minimally. *)
Theorem C02_varint_encoder_minimal : forall x bs,
  encode_var_int x = Ok bs ->
  varint_enc x bs /\ (forall bs', varint_enc x bs' -> len bs <= len bs').
Proof.
  intros x bs E. destruct (encode_var_int_inv x bs E) as [Hx V]. split; [exact V|].
  destruct (encode_var_int_ok x Hx) as [bs0 [E0 [_ L]]].
  assert (bs0 = bs) as -> by congruence.
  intros bs' [k [Hk [L' [_ [Hx' _]]]]]. rewrite L, L'.
  apply N.pow_le_mono_r; [lia|]. unfold min_class.
  assert (K : k = 0 \/ k = 1 \/ k = 2 \/ k = 3) by lia.
  destruct K as [-> | [-> | [-> | ->]]]; pows;
    destruct (N.ltb_spec x 64); try lia; destruct (N.ltb_spec x 16384); try lia;
    destruct (N.ltb_spec x 1073741824); lia.
Qed.
Print Assumptions C02_varint_encoder_minimal.
Example C02_minimal_case : encode_var_int 15293 = Ok [0x7b; 0xbd] /\ varint_enc 15293 [0x80; 0; 0x3b; 0xbd].
Proof.
  split; [reflexivity|]. exists 2. repeat split; try reflexivity; try (vm_compute; discriminate).
  apply bytes_ok_dec. reflexivity.
Qed.

Theorem C02_varint_decoder_complete : forall oc x bs rest,
  varint_enc x bs ->
  var_int_with_bytes_from_stream oc (bs ++ rest) = Ok ((x, bs), rest) /\
  var_int_from_stream oc (bs ++ rest) = Ok (x, rest).
Proof. intros oc x bs rest V. split; [apply varint_dec | apply varint_dec']; exact V. Qed.
Print Assumptions C02_varint_decoder_complete.
Example C02_complete_case : varint_enc 494878333 [0x9d; 0x7f; 0x3e; 0x7d] /\
  var_int_with_bytes_from_stream false ([0x9d; 0x7f; 0x3e; 0x7d] ++ [5]) = Ok ((494878333, [0x9d; 0x7f; 0x3e; 0x7d]), [5]).
Proof.
  split; [|reflexivity]. exists 2. repeat split; try reflexivity; try (vm_compute; discriminate).
  apply bytes_ok_dec. reflexivity.
Qed.

Theorem C02_varint_decoder_exact : forall oc s, bytes_ok s ->
  match s with
  | [] => exists e, var_int_with_bytes_from_stream oc s = Err e
                    /\ var_int_from_stream oc s = Err e
  | b0 :: _ =>
      let announced := 2 ^ (b0 / 64) in
      if announced <=? len s
      then exists x bs rest, s = bs ++ rest /\ len bs = announced /\ varint_enc x bs /\
             var_int_with_bytes_from_stream oc s = Ok ((x, bs), rest) /\
             var_int_from_stream oc s = Ok (x, rest)
      else exists e, var_int_with_bytes_from_stream oc s = Err e
                     /\ var_int_from_stream oc s = Err e
  end.
Proof.
  intros oc s Hs. destruct s as [|b0 s]; [eexists; split; reflexivity|]. cbv zeta.
  pose proof Hs as Hs'. apply bytes_ok_cons in Hs' as [Hb Hs'].
  rewrite var_int_from_stream_eq, var_int_with_bytes_cons by auto. rewrite len_cons.
  assert (M : N.of_nat (more b0) = 2 ^ (b0 / 64) - 1) by (unfold more; apply N2Nat.id).
  pose proof (N.pow_nonzero 2 (b0 / 64)) as NZ.
  destruct (Nat.leb_spec (more b0) (length s)) as [L|L].
  - destruct (N.leb_spec (2 ^ (b0 / 64)) (len s + 1)) as [L2|L2]; [|unfold len in L2; lia].
    do 3 eexists.
    assert (E : var_int_with_bytes_from_stream oc (b0 :: s) =
      Ok ((b0 mod 64 * 256 ^ N.of_nat (more b0) + be_val (firstn (more b0) s),
              b0 :: firstn (more b0) s), skipn (more b0) s)).
    { rewrite var_int_with_bytes_cons by auto.
      destruct (Nat.leb_spec (more b0) (length s)); [reflexivity|lia]. }
    destruct (varint_dec_inv oc _ _ _ _ Hs E) as [S V].
    split; [exact S|]. split; [|split; [exact V|split; reflexivity]].
    rewrite len_cons. unfold len. rewrite firstn_length. lia.
  - destruct (N.leb_spec (2 ^ (b0 / 64)) (len s + 1)) as [L2|L2]; [unfold len in L2; lia|].
    eexists. split; reflexivity.
Qed.
Example C02_case_nonminimal :
  varint_enc 37 [0x40; 0x25] /\ var_int_from_stream true ([0x40; 0x25] ++ [9]) = Ok (37, [9]) /\
  (exists e, var_int_from_stream true [0x80; 0x00] = Err e).
Proof.
  split; [|split; [reflexivity | eexists; reflexivity]].
  exists 1. repeat split; try reflexivity; try (vm_compute; discriminate).
  repeat constructor.
Qed.
Print Assumptions C02_varint_decoder_exact.

(** ** C03: the slice decoder (full statement; refuted). *)
Definition C03_statement : Prop := forall oc x bs rest,
  encode_var_int x = Ok bs -> decode_var_int oc (bs ++ rest) = Ok (x, len bs).

Theorem C03_slice_decoder_refuted : ~ C03_statement.
Proof.
  intros H. specialize (H true 16384 _ [] eq_refl). vm_compute in H. discriminate.
Qed.
Print Assumptions C03_slice_decoder_refuted.

(** What holds: values below 2^14.  Missing: 4 and 8 byte encodings, for which
    the slice decoder reads 3 and 4 bytes (utils.rs:326). *)
Theorem C03_slice_decoder_partial : forall oc x bs rest,
  encode_var_int x = Ok bs -> x < 2 ^ 14 ->
  decode_var_int oc (bs ++ rest) = Ok (x, len bs).
Proof. exact decode_var_int_small. Qed.
Example C03_case : decode_var_int true ([0x7b; 0xbd] ++ [1; 2]) = Ok (15293, 2).
Proof. reflexivity. Qed.
Print Assumptions C03_slice_decoder_partial.

(** ** C04: connection ids survive the wire at every length. *)
Theorem C04_cid_write_read : forall l cid rest,
  cid_ok cid -> l <= 20 -> cid_val cid < 256 ^ l ->
  exists bs, u160_to_var_bytes cid l = Ok bs /\ len bs = l /\ be_val bs = cid_val cid /\
             var_u160_from_stream l (bs ++ rest) = Ok (cid, rest).
Proof.
  intros l cid rest Hc Hl Hv. destruct (u160_to_var_bytes_enc cid l Hc Hl Hv) as [bs [E C]].
  exists bs. split; [exact E|]. pose proof C as [_ [_ [L V]]]. split; [exact L|]. split; [exact V|].
  apply var_u160_dec; auto.
Qed.
Print Assumptions C04_cid_write_read.
Example C04_write_case : let cid := U160 1 (2 ^ 127 + 5) in
  cid_ok cid /\ cid_val cid < 256 ^ 17 /\ u160_to_var_bytes cid 17 = Ok (1 :: 0x80 :: repeat 0 14 ++ [5]).
Proof. split; [split; reflexivity|]. split; reflexivity. Qed.

Theorem C04_cid_read_write : forall l bs rest,
  bytes_ok bs -> l <= 20 -> len bs = l ->
  exists cid, var_u160_from_stream l (bs ++ rest) = Ok (cid, rest) /\
              cid_ok cid /\ cid_val cid = be_val bs /\ u160_to_var_bytes cid l = Ok bs.
Proof.
  intros l bs rest Hb Hl HL.
  pose proof (be_val_bound bs Hb) as B. rewrite HL in B. pose proof (pow256_le_160 l Hl) as P.
  pose (cid := U160 (be_val bs / 2 ^ 128) (be_val bs mod 2 ^ 128)).
  assert (Hc : cid_ok cid).
  { unfold cid, cid_ok; cbn [idx0 idx1]. assert (be_val bs < 2 ^ 160) by lia. pows. lia. }
  assert (Hv : cid_val cid = be_val bs).
  { unfold cid, cid_val; cbn [idx0 idx1]. pows. lia. }
  exists cid. split; [apply var_u160_dec; auto; split; auto|].
  split; [exact Hc|]. split; [exact Hv|].
  rewrite u160_to_var_bytes_ok by auto. rewrite Hv. f_equal.
  replace (N.to_nat l) with (length bs) by (unfold len in HL; lia).
  apply be_bytes_be_val, Hb.
Qed.
Print Assumptions C04_cid_read_write.
Example C04_read_case :
  var_u160_from_stream 3 ([0; 0xab; 0xcd] ++ [1; 2]) = Ok (U160 0 0xabcd, [1; 2]) /\ u160_to_var_bytes (U160 0 0xabcd) 3 = Ok [0; 0xab; 0xcd].
Proof. split; reflexivity. Qed.

Theorem C04_cid_short_stream : forall l s,
  len s < l -> exists e, var_u160_from_stream l s = Err e.
Proof.
  intros l s L. unfold var_u160_from_stream. rewrite u160_read_loop_short; [eauto|].
  unfold len in L. lia.
Qed.
Print Assumptions C04_cid_short_stream.
Example C04_short_case : len [1; 2; 3] < 4 /\ exists e, var_u160_from_stream 4 [1; 2; 3] = Err e.
Proof. split; [reflexivity|eexists; reflexivity]. Qed.

Theorem C04_cid_overlong_panics : forall cid l, 20 < l ->
  exists w, u160_to_var_bytes cid l = Panic w.
Proof. exact u160_to_var_bytes_panic. Qed.
Example C04_case :
  var_u160_from_stream 18 ([1;2;3;4;5;6;7;8;9;10;11;12;13;14;15;16;17;18] ++ [99])
    = Ok (U160 0x0102 0x030405060708090a0b0c0d0e0f101112, [99]).
Proof. reflexivity. Qed.
Print Assumptions C04_cid_overlong_panics.

(** ** C05: fixed-width integers. *)
Theorem C05_fixed_width_read : forall size msg s, bytes_ok s ->
  (N.of_nat size <= len s ->
     exists bs rest, s = bs ++ rest /\ len bs = N.of_nat size /\
                     from_datagram size msg s = Ok (be_val bs, rest)) /\
  (len s < N.of_nat size -> exists e, from_datagram size msg s = Err e).
Proof.
  intros size msg s Hs. split; intros L.
  - exists (firstn size s), (skipn size s). split; [symmetry; apply firstn_skipn|].
    unfold len in *. rewrite firstn_length. split; [lia|].
    rewrite from_datagram_spec by auto.
    destruct (Nat.leb_spec size (length s)); [reflexivity|lia].
  - unfold len in L. rewrite from_datagram_spec by auto.
    destruct (Nat.leb_spec size (length s)); [lia|eauto].
Qed.
Print Assumptions C05_fixed_width_read.
Example C05_read_case : from_datagram 3 "short" [1; 2; 3; 4] = Ok (0x010203, [4]) /\ exists e, from_datagram 3 "short" [1; 2] = Err e.
Proof. split; [reflexivity|eexists; reflexivity]. Qed.

Theorem C05_fixed_width_roundtrip : forall size msg x rest,
  x < 256 ^ N.of_nat size ->
  from_datagram size msg (be_bytes size x ++ rest) = Ok (x, rest).
Proof.
  intros size msg x rest H.
  rewrite from_datagram_app by auto using be_bytes_ok, be_bytes_length.
  rewrite be_val_be_bytes_small by auto. reflexivity.
Qed.
Print Assumptions C05_fixed_width_roundtrip.
Example C05_roundtrip_case : 65535 < 256 ^ N.of_nat 3 /\ from_datagram 3 "short" (be_bytes 3 65535 ++ [8]) = Ok (65535, [8]).
Proof. split; reflexivity. Qed.

(** The same at each width of the API. *)
Theorem C05_all_widths : forall rest,
  (forall x, x < 2 ^ 8 -> u8_from_datagram (be_bytes 1 x ++ rest) = Ok (x, rest)) /\
  (forall x, x < 2 ^ 16 -> u16_from_datagram (be_bytes 2 x ++ rest) = Ok (x, rest)) /\
  (forall x, x < 2 ^ 32 -> u32_from_datagram (be_bytes 4 x ++ rest) = Ok (x, rest)) /\
  (forall x, x < 2 ^ 64 -> u64_from_datagram (be_bytes 8 x ++ rest) = Ok (x, rest)) /\
  (forall x, x < 2 ^ 128 -> u128_from_datagram (be_bytes 16 x ++ rest) = Ok (x, rest)).
Proof. intros rest. repeat split; intros x H; apply C05_fixed_width_roundtrip; exact H. Qed.
Example C05_case : u32_from_datagram [0xde; 0xad; 0xbe; 0xef; 1] = Ok (0xdeadbeef, [1]).
Proof. reflexivity. Qed.
Print Assumptions C05_all_widths.

(** ** C06: floor_log2 (full statement; refuted). *)
Definition C06_statement : Prop := forall width x,
  In width [8; 16; 32; 64]%nat -> x < 2 ^ N.of_nat width ->
  match x with
  | 0 => exists e, floor_log2 width x = Err e
  | _ => floor_log2 width x = Ok (N.log2 x)
  end.

Theorem C06_floor_log2_refuted : ~ C06_statement.
Proof.
  intros H. specialize (H 8%nat 8 ltac:(cbn; auto) ltac:(reflexivity)).
  vm_compute in H. discriminate.
Qed.
Print Assumptions C06_floor_log2_refuted.

(** What holds: termination, the error for zero, and the value is always one
    above the floor of the logarithm (the bit length). *)
Theorem C06_floor_log2_partial : forall width x,
  In width [8; 16; 32; 64]%nat -> x < 2 ^ N.of_nat width ->
  if x =? 0 then exists e, floor_log2 width x = Err e
  else exists r, floor_log2 width x = Ok (r + 1) /\ 2 ^ r <= x < 2 ^ (r + 1).
Proof.
  intros width x _ H. destruct (N.eqb_spec x 0) as [->|N]; [eexists; reflexivity|].
  exists (N.log2 x). split; [apply floor_log2_spec; auto|].
  rewrite N.add_1_r. apply N.log2_spec. lia.
Qed.
Example C06_case : floor_log2 64 1024 = Ok 11.
Proof. reflexivity. Qed.
Print Assumptions C06_floor_log2_partial.

(** ** C70: reading a few bytes as a 32-bit number. *)
Lemma var_u32_loop_spec n : forall rv bs rest, bytes_ok bs -> length bs = n -> rv < 2 ^ 32 ->
  var_u32_loop n rv (bs ++ rest) = Ok ((rv * 256 ^ len bs + be_val bs) mod 2 ^ 32, rest).
Proof.
  induction n as [|n IH]; intros rv bs rest B L R.
  - destruct bs; [|discriminate L]. cbn [var_u32_loop app be_val]. rewrite len_nil, N.pow_0_r, N.mod_small by lia.
    do 2 f_equal. lia.
  - destruct bs as [|b bs]; [discriminate L|]. apply bytes_ok_cons in B as [Hb B]. injection L as L.
    cbn [app var_u32_loop next bind be_val].
    assert (E : N.lor (shl 32 rv 8) b = rv mod 2 ^ 24 * 256 + b).
    { rewrite shl_spec. change (2 ^ 32) with (2 ^ 24 * 2 ^ 8). rewrite N.mul_mod_distr_r by (pows; lia).
      apply (lor_add _ _ 8). exact Hb. }
    rewrite E. assert (R' : rv mod 2 ^ 24 < 2 ^ 24) by (apply N.mod_lt; pows; lia).
    rewrite IH; auto; [|pows; lia]. do 2 f_equal.
    rewrite len_cons, pow256_S.
    assert (D : rv = 2 ^ 24 * (rv / 2 ^ 24) + rv mod 2 ^ 24) by (apply N.div_mod; pows; lia).
    rewrite D at 2. generalize (rv / 2 ^ 24) as q, (rv mod 2 ^ 24) as r, (256 ^ len bs) as w. intros q r w.
    replace ((2 ^ 24 * q + r) * (256 * w) + (b * w + be_val bs))
      with ((r * 256 + b) * w + be_val bs + (q * w) * 2 ^ 32).
    + symmetry. apply N.mod_add. pows. lia.
    + pows. nia.
Qed.

Theorem C70_var_u32 : forall n s, bytes_ok s ->
  (n <= len s -> exists bs rest, s = bs ++ rest /\ len bs = n /\
     var_u32_from_stream n s = Ok (be_val bs mod 2 ^ 32, rest) /\
     (n <= 4 -> var_u32_from_stream n s = Ok (be_val bs, rest))) /\
  (len s < n -> exists e, var_u32_from_stream n s = Err e).
Proof.
  intros n s B. split; intros L.
  - exists (firstn (N.to_nat n) s), (skipn (N.to_nat n) s).
    split; [symmetry; apply firstn_skipn|].
    assert (LB : length (firstn (N.to_nat n) s) = N.to_nat n) by (rewrite firstn_length; unfold len in L; lia).
    split; [unfold len; rewrite LB; lia|]. pose proof (bytes_ok_firstn (N.to_nat n) s B) as Bf.
    assert (E : var_u32_from_stream n s =
      Ok (be_val (firstn (N.to_nat n) s) mod 2 ^ 32, skipn (N.to_nat n) s)).
    { unfold var_u32_from_stream. rewrite <- (firstn_skipn (N.to_nat n) s) at 1.
      rewrite var_u32_loop_spec by (auto; reflexivity). rewrite N.mul_0_l, N.add_0_l. reflexivity. }
    split; [exact E|]. intros L4. rewrite E. do 2 f_equal. apply N.mod_small.
    eapply N.lt_le_trans; [apply be_val_bound, Bf|]. change (2 ^ 32) with (256 ^ 4).
    apply N.pow_le_mono_r; [lia|]. unfold len. rewrite LB. lia.
  - unfold var_u32_from_stream. assert (L' : (length s < N.to_nat n)%nat) by (unfold len in L; lia).
    clear L. revert L'. generalize (N.to_nat n) as k. generalize 0 as rv. intros rv k. clear B. revert s rv. clear n.
    induction k as [|k IH]; intros s rv L; [lia|]. destruct s as [|b s]; [eexists; reflexivity|].
    cbn [var_u32_loop next bind]. apply IH. cbn [length] in L. lia.
Qed.
Print Assumptions C70_var_u32.

(** Five bytes asked for: the first one is lost. *)
Example C70_case :
  var_u32_from_stream 3 [1; 2; 3; 4] = Ok (0x010203, [4]) /\
  var_u32_from_stream 5 [9; 1; 2; 3; 4; 5] = Ok (0x01020304, [5]) /\
  (exists e, var_u32_from_stream 2 [1] = Err e).
Proof. split; [reflexivity|]. split; [reflexivity|]. eexists. reflexivity. Qed.

(** Full-size connection ids and byte blocks. *)
Theorem C04_cid_full_read : forall s, bytes_ok s ->
  (20 <= len s -> exists bs rest cid, s = bs ++ rest /\ cid_enc cid 20 bs /\ u160_from_datagram s = Ok (cid, rest)) /\
  (len s < 20 -> exists e, u160_from_datagram s = Err e).
Proof.
  intros s B. unfold u160_from_datagram. split; intros L.
  - pose (bs := firstn 20 s). pose (r := skipn 20 s).
    assert (ES : s = bs ++ r) by (symmetry; apply firstn_skipn).
    assert (LB : length bs = 20%nat) by (unfold bs; rewrite firstn_length; unfold len in L; lia).
    assert (OB : bytes_ok bs) by (apply bytes_ok_firstn; auto).
    destruct (u160_read_loop_spec "not enough bytes for u160" 20 0 0 bs r) as [u [E [Hu V]]]; auto; try (pows; lia).
    exists bs, r, u. split; [exact ES|]. split; [|rewrite ES; exact E].
    replace (_ + be_val bs) with (be_val bs) in V by lia.
    pose proof (be_val_bound bs OB) as Bd. unfold len in Bd. rewrite LB in Bd.
    change (256 ^ N.of_nat 20) with (2 ^ 160) in Bd. rewrite N.mod_small in V by auto.
    unfold cid_enc, len. rewrite LB, V. destruct Hu. repeat split; auto.
  - rewrite u160_read_loop_short by (unfold len in L; lia). eexists. reflexivity.
Qed.
Print Assumptions C04_cid_full_read.
Example C04_full_case : u160_from_datagram (0x80 :: repeat 0 18 ++ [7; 9]) = Ok (U160 0x80000000 7, [9]) /\
  exists e, u160_from_datagram (repeat 1 19) = Err e.
Proof. split; [reflexivity|eexists; reflexivity]. Qed.

Theorem C05_byte_block : forall data n,
  (n <= len data -> exists bs more, data = bs ++ more /\ len bs = n /\ decode_bytes data n = Ok (bs, n)) /\
  (len data < n -> exists e, decode_bytes data n = Err e).
Proof.
  intros data n. unfold decode_bytes. split; intros L; destruct (N.ltb_spec (len data) n); try lia.
  - exists (firstn (N.to_nat n) data), (skipn (N.to_nat n) data). rewrite firstn_skipn. split; [auto|].
    split; [|reflexivity]. unfold len in *. rewrite firstn_length. lia.
  - eexists. reflexivity.
Qed.
Print Assumptions C05_byte_block.
Example C05_block_case :
  decode_bytes [1; 2; 3] 2 = Ok ([1; 2], 2) /\ (exists e, decode_bytes [1; 2; 3] 4 = Err e) /\
  u160_from_datagram (repeat 0 18 ++ [1; 2; 9]) = Ok (U160 0 258, [9]).
Proof. split; [reflexivity|]. split; [eexists; reflexivity|]. reflexivity. Qed.
