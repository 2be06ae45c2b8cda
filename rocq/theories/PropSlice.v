(** The slice reader of variable-length integers (utils.rs:323-337), exactly:
    what it returns for every input, and so for which numbers it is right.
    Completes C03. *)
From Verif Require Import Base Tactics Utils Spec UtilsFacts PropUtils.
From Coq Require Import Lia ZifyN ZifyBool ZifyNat.
Open Scope N_scope.

Lemma slice_fold oc l : forall a, bytes_ok l -> a * 256 ^ len l + be_val l < 2 ^ 64 ->
  fold_left (fun acc b => let? r := acc in add64 oc (shl 64 r 8) b) l (Ok a) =
  Ok (a * 256 ^ len l + be_val l).
Proof.
  induction l as [|b l IH]; intros a Hb Hv.
  - cbn. f_equal. change (len (@nil N)) with 0. cbn. lia.
  - apply bytes_ok_cons in Hb as [Hb0 Hb]. pose proof (be_val_bound l Hb) as B.
    rewrite len_cons in Hv |- *. cbn [be_val] in Hv |- *. rewrite N.pow_add_r in Hv |- *.
    change (256 ^ 1) with 256 in *. cbn [fold_left bind].
    remember (256 ^ len l) as p eqn:P'. assert (P : p <> 0) by (subst p; apply N.pow_nonzero; discriminate).
    assert (Q : a * (p * 256) + (b * p + be_val l) = (a * 256 + b) * p + be_val l) by ring.
    rewrite Q in Hv |- *.
    assert (S : a * 256 + b < 0x10000000000000000).
    { apply N.le_lt_trans with ((a * 256 + b) * p); [|change (2 ^ 64) with 0x10000000000000000 in Hv; lia].
      rewrite <- (N.mul_1_r (a * 256 + b)) at 1. apply N.mul_le_mono_l. lia. }
    rewrite shl_spec. change (2 ^ 8) with 256. change (2 ^ 64) with 0x10000000000000000.
    rewrite N.mod_small by lia.
    assert (A : add64 oc (a * 256) b = Ok (a * 256 + b)).
    { unfold add64, two64. destruct (N.ltb_spec (a * 256 + b) 0x10000000000000000) as [|G]; [reflexivity|].
      exfalso. exact (N.lt_irrefl _ (N.lt_le_trans _ _ _ S G)). }
    rewrite A. exact (IH _ Hb Hv).
Qed.

(** For every input: nothing is read from an empty slice; otherwise the top two
    bits of the first byte say how many bytes follow - themselves, not two to
    that power - and these are read big-endian. *)
Theorem C03_slice_decoder_reads : forall oc b0 tl, bytes_ok (b0 :: tl) ->
  decode_var_int oc [] = Err (InternalError "missing first byte for varint") /\
  decode_var_int oc (b0 :: tl) =
    if len tl <? b0 / 64 then Err (InternalError "not enough bytes for varint")
    else Ok (be_val (b0 mod 64 :: firstn (N.to_nat (b0 / 64)) tl), b0 / 64 + 1).
Proof.
  intros oc b0 tl Hb. split; [reflexivity|]. apply bytes_ok_cons in Hb as [Hb0 Hb].
  unfold decode_var_int. rewrite shiftr_6, land_63, len_cons.
  destruct (N.ltb_spec (len tl + 1) (b0 / 64 + 1)), (N.ltb_spec (len tl) (b0 / 64)); try lia; auto.
  assert (L : len (firstn (N.to_nat (b0 / 64)) tl) = b0 / 64).
  { unfold len in *. rewrite firstn_length. lia. }
  assert (F : bytes_ok (firstn (N.to_nat (b0 / 64)) tl)).
  { apply bytes_ok_firstn. exact Hb. }
  pose proof (be_val_bound _ F) as B. rewrite L in B.
  assert (M : 256 ^ (b0 / 64) <= 256 ^ 3) by (apply N.pow_le_mono_r; lia).
  rewrite slice_fold; [| exact F |].
  - cbn [bind be_val]. rewrite L. reflexivity.
  - rewrite L. change (256 ^ 3) with 16777216 in M. change (2 ^ 64) with 18446744073709551616. nia.
Qed.
Example C03_reads_case :
  decode_var_int true [0x80; 0; 0x40; 0] = Ok (64, 3) /\
  decode_var_int true [0xc0; 0; 0] = Err (InternalError "not enough bytes for varint").
Proof. split; reflexivity. Qed.
Print Assumptions C03_slice_decoder_reads.

(** So for the numbers the partial theorem leaves out: a number of 15 to 30 bits
    comes back without its last byte, a longer one without its last four, and
    the bytes left out are taken for what follows. *)
Theorem C03_slice_decoder_wrong : forall oc x bs rest,
  encode_var_int x = Ok bs -> bytes_ok rest -> 2 ^ 14 <= x ->
  decode_var_int oc (bs ++ rest) =
    if x <? 2 ^ 30 then Ok (x / 256, 3) else Ok (x / 2 ^ 32, 4).
Proof.
  intros oc x bs rest E R H. destruct (encode_var_int_inv x bs E) as [V _].
  destruct (encode_var_int_ok x V) as [bs' [E' [[k [Hk [L [Hb [Hx Hv]]]]] C]]].
  assert (bs' = bs) as -> by congruence.
  assert (K : k = min_class x).
  { rewrite L in C. apply N.pow_inj_r in C; lia. }
  assert (K' : k = if x <? 2 ^ 30 then 2 else 3).
  { rewrite K. unfold min_class. unfold v62 in V.
    repeat match goal with |- context [?a <? ?b] => destruct (N.ltb_spec a b) end; pows; lia. }
  clear K C E'. destruct (N.ltb_spec x (2 ^ 30)); subst k.
  - change (2 ^ 2) with 4 in *. change (8 * 4 - 2) with 30 in *.
    destruct bs as [|b0 [|b1 [|b2 [|b3 [|]]]]]; rewrite ?len_cons in L; try (change (len (@nil N)) with 0 in L; lia).
    assert (A : bytes_ok ((b0 :: [b1; b2; b3]) ++ rest)) by (apply bytes_ok_app; auto).
    cbn [app] in A |- *. destruct (C03_slice_decoder_reads oc b0 _ A) as [_ ->].
    do 4 apply bytes_ok_cons in Hb as [? Hb]. cbn [be_val] in Hv. rewrite !len_cons in Hv. change (len []) with 0 in Hv.
    change (256 ^ (0 + 1 + 1 + 1)) with 16777216 in Hv. change (256 ^ (0 + 1 + 1)) with 65536 in Hv.
    change (256 ^ (0 + 1)) with 256 in Hv. change (256 ^ 0) with 1 in Hv. change (2 ^ 30) with 1073741824 in *.
    assert (b0 / 64 = 2) as -> by lia. rewrite !len_cons.
    destruct (N.ltb_spec (len rest + 1 + 1 + 1) 2); [lia|].
    change (N.to_nat 2) with 2%nat. cbn [firstn be_val]. rewrite !len_cons. change (len []) with 0.
    change (256 ^ (0 + 1 + 1)) with 65536. change (256 ^ (0 + 1)) with 256. change (256 ^ 0) with 1.
    do 2 f_equal. lia.
  - change (2 ^ 3) with 8 in *. change (8 * 8 - 2) with 62 in *.
    destruct bs as [|b0 [|b1 [|b2 [|b3 tl]]]]; rewrite ?len_cons in L; try (change (len (@nil N)) with 0 in L; lia).
    assert (A : bytes_ok ((b0 :: b1 :: b2 :: b3 :: tl) ++ rest)) by (apply bytes_ok_app; auto).
    cbn [app] in A |- *. destruct (C03_slice_decoder_reads oc b0 _ A) as [_ ->].
    do 4 apply bytes_ok_cons in Hb as [? Hb]. pose proof (be_val_bound tl Hb) as B.
    assert (LT : len tl = 4) by lia.
    cbn [be_val] in Hv. rewrite !len_cons, LT in Hv. rewrite LT in B. unfold v62 in V.
    change (256 ^ (4 + 1 + 1 + 1)) with 72057594037927936 in Hv. change (256 ^ (4 + 1 + 1)) with 281474976710656 in Hv.
    change (256 ^ (4 + 1)) with 1099511627776 in Hv. change (256 ^ 4) with 4294967296 in *.
    change (2 ^ 62) with 4611686018427387904 in *. change (2 ^ 32) with 4294967296.
    assert (b0 / 64 = 3) as -> by lia. rewrite !len_cons, len_app.
    destruct (N.ltb_spec (len tl + len rest + 1 + 1 + 1) 3); [lia|].
    change (N.to_nat 3) with 3%nat. cbn [firstn be_val]. rewrite !len_cons. change (len []) with 0.
    change (256 ^ (0 + 1 + 1 + 1)) with 16777216. change (256 ^ (0 + 1 + 1)) with 65536.
    change (256 ^ (0 + 1)) with 256. change (256 ^ 0) with 1.
    do 2 f_equal. apply N.div_unique with (r := be_val tl); [exact B|]. lia.
Qed.

(** Hence it is right for exactly the numbers below 2^14. *)
Theorem C03_slice_decoder_exact : forall oc x bs rest,
  encode_var_int x = Ok bs -> bytes_ok rest ->
  (decode_var_int oc (bs ++ rest) = Ok (x, len bs) <-> x < 2 ^ 14).
Proof.
  intros oc x bs rest E R. split; [|apply C03_slice_decoder_partial; exact E].
  intros D. destruct (N.lt_ge_cases x (2 ^ 14)) as [|G]; [assumption|exfalso].
  rewrite (C03_slice_decoder_wrong oc x bs rest E R G) in D.
  change (2 ^ 14) with 16384 in G. change (2 ^ 32) with 4294967296 in D.
  destruct (x <? 2 ^ 30); injection D as D _; lia.
Qed.
Example C03_wrong_case : exists bs,
  encode_var_int 494878333 = Ok bs /\ 2 ^ 14 <= 494878333 /\
  decode_var_int true bs = Ok (1933118, 3).
Proof. eexists. split; [vm_compute; reflexivity|]. split; [lia|reflexivity]. Qed.
Print Assumptions C03_slice_decoder_wrong.
Print Assumptions C03_slice_decoder_exact.
