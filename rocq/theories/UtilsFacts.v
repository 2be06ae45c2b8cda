(** Facts about the byte-level codecs of Utils.v. *)
From Verif Require Import Base Utils Frame Spec Tactics.

(** ** Big-endian values *)

Lemma bytes_ok_app a b : bytes_ok (a ++ b) <-> bytes_ok a /\ bytes_ok b.
Proof. apply Forall_app. Qed.
Lemma bytes_ok_cons x l : bytes_ok (x :: l) <-> x < 256 /\ bytes_ok l.
Proof. split; [intros H; inversion H; auto | intros [? ?]; constructor; auto]. Qed.
Lemma bytes_ok_nil : bytes_ok []. Proof. constructor. Qed.
Lemma bytes_ok_firstn n l : bytes_ok l -> bytes_ok (firstn n l).
Proof.
  intros H. rewrite <- (firstn_skipn n l) in H. apply bytes_ok_app in H. tauto.
Qed.
Lemma bytes_ok_skipn n l : bytes_ok l -> bytes_ok (skipn n l).
Proof.
  intros H. rewrite <- (firstn_skipn n l) in H. apply bytes_ok_app in H. tauto.
Qed.

Lemma pow256_pos n : 0 < 256 ^ n.
Proof. apply N.neq_0_lt_0, N.pow_nonzero; lia. Qed.
Lemma pow256_S n : 256 ^ (n + 1) = 256 * 256 ^ n.
Proof. rewrite N.add_1_r, N.pow_succ_r'. reflexivity. Qed.
Lemma pow256_add a b : 256 ^ (a + b) = 256 ^ a * 256 ^ b.
Proof. apply N.pow_add_r. Qed.

Lemma be_val_app a b : be_val (a ++ b) = be_val a * 256 ^ len b + be_val b.
Proof.
  induction a as [|x a IH]; cbn [be_val app]; [lia|].
  rewrite IH, len_app, pow256_add. lia.
Qed.

Lemma be_val_bound bs : bytes_ok bs -> be_val bs < 256 ^ len bs.
Proof.
  induction bs as [|x bs IH]; cbn [be_val]; intros H; [reflexivity|].
  apply bytes_ok_cons in H as [Hx H]. specialize (IH H).
  rewrite len_cons, pow256_S. nia.
Qed.

Lemma be_val_snoc bs b : be_val (bs ++ [b]) = be_val bs * 256 + b.
Proof. rewrite be_val_app. cbn [be_val]. rewrite len_cons, !len_nil. cbn. lia. Qed.

Lemma from_be_bytes_val bs : from_be_bytes bs = be_val bs.
Proof.
  unfold from_be_bytes.
  assert (G : forall acc, fold_left (fun a b => a * 256 + b) bs acc
                          = acc * 256 ^ len bs + be_val bs).
  { induction bs as [|x bs IH]; cbn [fold_left be_val]; intros acc.
    - rewrite len_nil, N.pow_0_r. lia.
    - rewrite IH, len_cons, pow256_S. lia. }
  rewrite G. lia.
Qed.

Lemma be_bytes_S k x : be_bytes (S k) x = be_bytes k (x / 256) ++ [x mod 256].
Proof. reflexivity. Qed.

Lemma be_bytes_length k : forall x, length (be_bytes k x) = k.
Proof.
  induction k as [|k IH]; intros x; [reflexivity|].
  rewrite be_bytes_S, app_length, IH. cbn. lia.
Qed.
Lemma be_bytes_len k x : len (be_bytes k x) = N.of_nat k.
Proof. unfold len. rewrite be_bytes_length. reflexivity. Qed.

Lemma be_bytes_ok k : forall x, bytes_ok (be_bytes k x).
Proof.
  induction k as [|k IH]; intros x; [constructor|].
  rewrite be_bytes_S, bytes_ok_app, bytes_ok_cons.
  split; [apply IH|]. split; [lia | constructor].
Qed.

Lemma be_val_be_bytes k : forall x, be_val (be_bytes k x) = x mod 256 ^ N.of_nat k.
Proof.
  induction k as [|k IH]; intros x.
  - cbn. rewrite N.mod_1_r. reflexivity.
  - rewrite be_bytes_S, be_val_snoc, IH.
    replace (N.of_nat (S k)) with (N.of_nat k + 1) by lia.
    rewrite pow256_S.
    rewrite N.mod_mul_r; [lia | lia | pose proof (pow256_pos (N.of_nat k)); lia].
Qed.

Lemma be_val_be_bytes_small k x :
  x < 256 ^ N.of_nat k -> be_val (be_bytes k x) = x.
Proof. intros H. rewrite be_val_be_bytes. apply N.mod_small, H. Qed.

Lemma be_bytes_be_val bs : bytes_ok bs -> be_bytes (length bs) (be_val bs) = bs.
Proof.
  induction bs as [|b bs IH] using rev_ind; intros H; [reflexivity|].
  apply bytes_ok_app in H as [H Hb]. apply bytes_ok_cons in Hb as [Hb _].
  rewrite app_length; cbn [length]. rewrite Nat.add_1_r, be_bytes_S, be_val_snoc.
  f_equal.
  - rewrite N.div_add_l by lia. rewrite N.div_small, N.add_0_r by lia. auto.
  - f_equal. rewrite N.add_comm, N.mod_add by lia. apply N.mod_small; lia.
Qed.

Lemma be_val_inj a b :
  bytes_ok a -> bytes_ok b -> length a = length b -> be_val a = be_val b -> a = b.
Proof.
  intros Ha Hb L E. rewrite <- (be_bytes_be_val a Ha), <- (be_bytes_be_val b Hb).
  rewrite L, E. reflexivity.
Qed.

(** Dropping the leading bytes of a big-endian writing keeps the low part. *)
Lemma skipn_be_bytes k : forall j x, (j <= k)%nat ->
  skipn (k - j) (be_bytes k x) = be_bytes j x.
Proof.
  induction k as [|k IH]; intros j x H.
  - replace j with O by lia. reflexivity.
  - destruct (Nat.eq_dec j (S k)) as [->|N]; [rewrite Nat.sub_diag; reflexivity|].
    destruct j as [|j].
    + rewrite Nat.sub_0_r, <- (be_bytes_length (S k) x) at 1. rewrite skipn_all. reflexivity.
    + rewrite (be_bytes_S k), (be_bytes_S j).
      rewrite skipn_app, be_bytes_length.
      replace (S k - S j)%nat with (k - j)%nat by lia.
      rewrite IH by lia.
      replace (k - j - k)%nat with O by lia. reflexivity.
Qed.

(** ** Bit operations as arithmetic *)

Lemma shl_spec w x k : shl w x k = (x * 2 ^ k) mod 2 ^ w.
Proof. unfold shl. rewrite N.shiftl_mul_pow2. reflexivity. Qed.

Lemma lor_add a b n : b < 2 ^ n -> N.lor (a * 2 ^ n) b = a * 2 ^ n + b.
Proof.
  intros H. symmetry. rewrite <- N.shiftl_mul_pow2.
  rewrite N.add_nocarry_lxor.
  - rewrite N.lxor_lor; [reflexivity|].
    apply N.bits_inj_0. intros m. rewrite N.land_spec.
    destruct (N.lt_ge_cases m n) as [L|L].
    + rewrite N.shiftl_spec_low by lia. reflexivity.
    + rewrite <- (N.mod_small b (2 ^ n)) by lia.
      rewrite N.mod_pow2_bits_high by lia. apply andb_false_r.
  - apply N.bits_inj_0. intros m. rewrite N.land_spec.
    destruct (N.lt_ge_cases m n) as [L|L].
    + rewrite N.shiftl_spec_low by lia. reflexivity.
    + rewrite <- (N.mod_small b (2 ^ n)) by lia.
      rewrite N.mod_pow2_bits_high by lia. apply andb_false_r.
Qed.

Lemma land_mask a n : N.land a (2 ^ n - 1) = a mod 2 ^ n.
Proof. rewrite <- N.land_ones. f_equal. rewrite N.ones_equiv. lia. Qed.

Lemma land_63 b : N.land b 0x3f = b mod 64.
Proof. apply (land_mask b 6). Qed.
Lemma land_255 b : N.land b 0xff = b mod 256.
Proof. apply (land_mask b 8). Qed.
Lemma shiftr_6 b : N.shiftr b 6 = b / 64.
Proof. rewrite N.shiftr_div_pow2. reflexivity. Qed.
Lemma shiftr_8 b : N.shiftr b 8 = b / 256.
Proof. rewrite N.shiftr_div_pow2. reflexivity. Qed.

(** ** Reading fixed amounts *)

Lemma read_array_spec n msg : forall s,
  read_array n msg s =
    if (n <=? length s)%nat then Ok (firstn n s, skipn n s) else Err (InternalError msg).
Proof.
  induction n as [|n IH]; intros s; [reflexivity|].
  destruct s as [|b s]; cbn [read_array next bind length]; [reflexivity|].
  rewrite IH. cbn [Nat.leb]. destruct (n <=? length s)%nat; reflexivity.
Qed.

Lemma var_bytes_spec s : forall n,
  var_bytes_from_stream n s =
    if n <=? len s then Ok (firstn (N.to_nat n) s, skipn (N.to_nat n) s)
    else Err (InternalError "not enough bytes for var_bytes").
Proof.
  unfold var_bytes_from_stream. induction s as [|b s IH]; intros n.
  - cbn [var_bytes_loop]. change (len []) with 0.
    destruct (N.eqb_spec n 0) as [->|H]; [reflexivity|].
    destruct (N.leb_spec n 0); [lia|reflexivity].
  - cbn [var_bytes_loop].
    destruct (N.eqb_spec n 0) as [->|H].
    + destruct (N.leb_spec 0 (len (b :: s))); [reflexivity|lia].
    + rewrite IH, len_cons.
      destruct (N.leb_spec (n - 1) (len s)), (N.leb_spec n (len s + 1)); try lia; [|reflexivity].
      cbn [bind]. replace (N.to_nat n) with (S (N.to_nat (n - 1))) by lia. reflexivity.
Qed.

Lemma var_bytes_app bs rest n : n = len bs ->
  var_bytes_from_stream n (bs ++ rest) = Ok (bs, rest).
Proof.
  intros ->. rewrite var_bytes_spec, len_app.
  destruct (N.leb_spec (len bs) (len bs + len rest)); [|lia].
  unfold len. rewrite Nat2N.id, firstn_app_exact, skipn_app_exact; auto.
Qed.

Lemma var_bytes_inv n s bs rest :
  var_bytes_from_stream n s = Ok (bs, rest) -> s = bs ++ rest /\ len bs = n.
Proof.
  rewrite var_bytes_spec. destruct (N.leb_spec n (len s)) as [L|L]; [|discriminate].
  intros H; injection H as <- <-. rewrite firstn_skipn. split; [auto|].
  unfold len in *. rewrite firstn_length. lia.
Qed.

(** ** Fixed-width integers *)

Lemma fold_shl_or size bs : bytes_ok bs -> (length bs <= size)%nat ->
  fold_left (fun r b => N.lor (shl (8 * N.of_nat size) r 8) b) bs 0 = be_val bs.
Proof.
  intros Hb HL.
  assert (P : 2 ^ (8 * N.of_nat size) = 256 ^ N.of_nat size)
    by (rewrite N.pow_mul_r; reflexivity).
  induction bs as [|b bs IH] using rev_ind; [reflexivity|].
  apply bytes_ok_app in Hb as [Hb Hx]. apply bytes_ok_cons in Hx as [Hx _].
  rewrite app_length in HL; cbn [length] in HL.
  rewrite fold_left_app. cbn [fold_left]. rewrite IH by (auto; lia).
  rewrite shl_spec, P, be_val_snoc.
  pose proof (be_val_bound bs Hb) as B.
  assert (256 ^ (len bs + 1) <= 256 ^ N.of_nat size)
    by (apply N.pow_le_mono_r; unfold len; lia).
  rewrite pow256_S in *.
  change (2 ^ 8) with 256 in *.
  rewrite N.mod_small by nia.
  apply (lor_add _ _ 8). change (2 ^ 8) with 256. lia.
Qed.

Lemma from_datagram_spec size msg s : bytes_ok s ->
  from_datagram size msg s =
    if (size <=? length s)%nat
    then Ok (be_val (firstn size s), skipn size s) else Err (InternalError msg).
Proof.
  intros Hs. unfold from_datagram. rewrite read_array_spec.
  destruct (Nat.leb_spec size (length s)) as [L|L]; [|reflexivity].
  cbn [bind]. unfold decode_from_bytes.
  assert (LE : length (firstn size s) = size) by (rewrite firstn_length; lia).
  unfold len. rewrite LE. destruct (N.ltb_spec (N.of_nat size) (N.of_nat size)); [lia|].
  cbn [bind]. rewrite firstn_all2 by lia.
  rewrite fold_shl_or; auto using bytes_ok_firstn. lia.
Qed.

Lemma from_datagram_app size msg bs rest :
  bytes_ok bs -> length bs = size -> 
  from_datagram size msg (bs ++ rest) = Ok (be_val bs, rest).
Proof.
  intros Hb HL. unfold from_datagram. rewrite read_array_spec, app_length.
  destruct (Nat.leb_spec size (length bs + length rest)); [|lia].
  rewrite firstn_app_exact, skipn_app_exact by auto. cbn [bind].
  unfold decode_from_bytes, len. rewrite HL.
  destruct (N.ltb_spec (N.of_nat size) (N.of_nat size)); [lia|].
  cbn [bind]. rewrite firstn_all2 by lia. rewrite fold_shl_or; auto. lia.
Qed.

Lemma from_datagram_inv size msg s x rest :
  bytes_ok s -> from_datagram size msg s = Ok (x, rest) ->
  exists bs, s = bs ++ rest /\ length bs = size /\ x = be_val bs /\ bytes_ok bs.
Proof.
  intros Hs. rewrite from_datagram_spec by auto.
  destruct (Nat.leb_spec size (length s)); [|discriminate].
  intros H0; injection H0 as <- <-. exists (firstn size s).
  rewrite firstn_skipn, firstn_length. repeat split; auto using bytes_ok_firstn. lia.
Qed.

(** ** Variable-length integers *)

Lemma var_int_loop_spec oc n : forall r acc s,
  bytes_ok s -> (r + 1) * 256 ^ N.of_nat n <= 2 ^ 62 ->
  var_int_loop oc n r acc s =
    if (n <=? length s)%nat
    then Ok ((r * 256 ^ N.of_nat n + be_val (firstn n s), acc ++ firstn n s), skipn n s)
    else Err (InternalError "not enough bytes for varint").
Proof.
  induction n as [|n IH]; intros r acc s Hs Hr.
  - cbn [var_int_loop Nat.leb firstn skipn be_val]. rewrite N.pow_0_r, app_nil_r.
    do 3 f_equal. lia.
  - destruct s as [|b s]; cbn [var_int_loop next bind length Nat.leb]; [reflexivity|].
    apply bytes_ok_cons in Hs as [Hb Hs].
    replace (N.of_nat (S n)) with (N.of_nat n + 1) in * by lia.
    rewrite pow256_S in *. pose proof (pow256_pos (N.of_nat n)) as P.
    rewrite shl_spec. change (2 ^ 8) with 256.
    assert (R : (r + 1) * 256 <= 2 ^ 62) by nia. pows.
    rewrite N.mod_small by lia.
    unfold add64, two64.
    destruct (N.ltb_spec (r * 256 + b) 0x10000000000000000); [|lia].
    cbn [bind]. rewrite IH; [|auto|nia].
    destruct (n <=? length s)%nat eqn:E; [|reflexivity].
    cbn [firstn skipn be_val]. rewrite <- app_assoc. cbn [app].
    unfold len at 1. rewrite firstn_length, Nat.min_l by (apply Nat.leb_le; auto).
    do 3 f_equal. lia.
Qed.

Lemma var_int_loop'_eq oc n : forall r acc s,
  var_int_loop' oc n r s =
    let? ((x, _), s') := var_int_loop oc n r acc s in Ok (x, s').
Proof.
  induction n as [|n IH]; intros r acc s; [reflexivity|].
  cbn [var_int_loop var_int_loop']. destruct (next _ s) as [[b s']| | |]; try reflexivity.
  cbn [bind]. destruct (add64 oc (shl 64 r 8) b); try reflexivity. cbn [bind]. apply IH.
Qed.

Lemma var_int_from_stream_eq oc s :
  var_int_from_stream oc s =
    let? ((x, _), s') := var_int_with_bytes_from_stream oc s in Ok (x, s').
Proof.
  unfold var_int_from_stream, var_int_with_bytes_from_stream.
  destruct (next _ s) as [[b s']| | |]; try reflexivity. cbn [bind]. apply var_int_loop'_eq.
Qed.

(** Number of further bytes announced by the first byte. *)
Definition more (b0 : N) : nat := N.to_nat (2 ^ (b0 / 64) - 1).

Lemma byte_top b0 : b0 < 256 -> b0 / 64 = 0 \/ b0 / 64 = 1 \/ b0 / 64 = 2 \/ b0 / 64 = 3.
Proof. lia. Qed.

Lemma var_int_n_shifts_spec b0 : b0 < 256 -> var_int_n_shifts b0 = more b0.
Proof.
  intros H. unfold var_int_n_shifts, more. rewrite shiftr_6.
  destruct (byte_top b0 H) as [-> | [-> | [-> | ->]]]; reflexivity.
Qed.

Lemma var_int_with_bytes_cons oc b0 s : b0 < 256 -> bytes_ok s ->
  var_int_with_bytes_from_stream oc (b0 :: s) =
    if (more b0 <=? length s)%nat
    then Ok ((b0 mod 64 * 256 ^ N.of_nat (more b0) + be_val (firstn (more b0) s),
              b0 :: firstn (more b0) s), skipn (more b0) s)
    else Err (InternalError "not enough bytes for varint").
Proof.
  intros Hb Hs. unfold var_int_with_bytes_from_stream. cbn [next bind].
  rewrite var_int_n_shifts_spec, land_63 by auto.
  rewrite var_int_loop_spec; [reflexivity|auto|].
  unfold more. destruct (byte_top b0 Hb) as [-> | [-> | [-> | ->]]];
    match goal with |- context [N.of_nat ?x] => let v := eval vm_compute in (N.of_nat x) in change (N.of_nat x) with v end; pows; lia.
Qed.

(** The decoder is complete for the RFC encoding... *)
Lemma varint_dec oc x bs rest : varint_enc x bs ->
  var_int_with_bytes_from_stream oc (bs ++ rest) = Ok ((x, bs), rest).
Proof.
  intros [k [Hk [HL [Hb [Hx Hv]]]]].
  destruct bs as [|b0 bs]; [exfalso|].
  { rewrite len_nil in HL. pose proof (N.pow_nonzero 2 k). lia. }
  apply bytes_ok_cons in Hb as [Hb0 Hb]. cbn [be_val] in Hv. rewrite len_cons in HL.
  pose proof (be_val_bound bs Hb) as B.
  assert (LB : len bs = 2 ^ k - 1) by lia. rewrite LB in *. clear HL.
  assert (T : b0 / 64 = k /\ x = b0 mod 64 * 256 ^ (2 ^ k - 1) + be_val bs).
  { assert (K : k = 0 \/ k = 1 \/ k = 2 \/ k = 3) by lia.
    destruct K as [-> | [-> | [-> | ->]]]; pows; lia. }
  destruct T as [T ->].
  assert (M : more b0 = length bs) by (unfold more; rewrite T; unfold len in LB; lia).
  unfold var_int_with_bytes_from_stream. cbn [app next bind].
  rewrite var_int_n_shifts_spec, land_63, M by auto.
  (* the trailing bytes are not constrained: run the loop on [bs] only *)
  clear Hv Hx.
  assert (G : forall n r acc b, length b = n -> bytes_ok b ->
             (r + 1) * 256 ^ N.of_nat n <= 2 ^ 62 ->
             var_int_loop oc n r acc (b ++ rest)
             = Ok ((r * 256 ^ N.of_nat n + be_val b, acc ++ b), rest)).
  { induction n as [|n IH]; intros r acc b Lb Ob Hr.
    - destruct b; [|discriminate]. cbn [app var_int_loop be_val].
      rewrite app_nil_r, N.pow_0_r. do 3 f_equal. lia.
    - destruct b as [|c b]; [discriminate|]. cbn [app var_int_loop next bind].
      apply bytes_ok_cons in Ob as [Oc Ob]. injection Lb as Lb.
      replace (N.of_nat (S n)) with (N.of_nat n + 1) in * by lia.
      rewrite pow256_S in *. pose proof (pow256_pos (N.of_nat n)) as P.
      rewrite shl_spec. change (2 ^ 8) with 256.
      assert (R : (r + 1) * 256 <= 2 ^ 62) by nia. pows.
      rewrite N.mod_small by lia. unfold add64, two64.
      destruct (N.ltb_spec (r * 256 + c) 0x10000000000000000); [|lia].
      cbn [bind]. rewrite IH; [|auto|auto|nia].
      cbn [be_val]. rewrite <- app_assoc. cbn [app]. unfold len. rewrite Lb.
      do 3 f_equal. lia. }
  rewrite G; auto.
  - cbn [app]. unfold len in LB. rewrite LB. reflexivity.
  - unfold len in LB. rewrite LB.
    assert (K : k = 0 \/ k = 1 \/ k = 2 \/ k = 3) by lia.
    destruct K as [-> | [-> | [-> | ->]]]; pows; lia.
Qed.

Lemma varint_dec' oc x bs rest : varint_enc x bs ->
  var_int_from_stream oc (bs ++ rest) = Ok (x, rest).
Proof. intros H. rewrite var_int_from_stream_eq, (varint_dec oc x bs rest H). reflexivity. Qed.

(** ... and sound for it. *)
Lemma varint_dec_inv oc s x bs rest : bytes_ok s ->
  var_int_with_bytes_from_stream oc s = Ok ((x, bs), rest) ->
  s = bs ++ rest /\ varint_enc x bs.
Proof.
  intros Hs H. destruct s as [|b0 s]; [discriminate|].
  apply bytes_ok_cons in Hs as [Hb Hs].
  rewrite var_int_with_bytes_cons in H by auto.
  destruct (Nat.leb_spec (more b0) (length s)) as [L|L]; [|discriminate].
  injection H as <- <- <-. cbn [app]. rewrite firstn_skipn. split; [auto|].
  exists (b0 / 64).
  assert (LF : length (firstn (more b0) s) = more b0) by (rewrite firstn_length; lia).
  assert (LN : len (firstn (more b0) s) = 2 ^ (b0 / 64) - 1).
  { unfold len. rewrite LF. unfold more. rewrite N2Nat.id. reflexivity. }
  assert (OF : bytes_ok (firstn (more b0) s)) by auto using bytes_ok_firstn.
  pose proof (be_val_bound _ OF) as B.
  cbn [be_val]. rewrite len_cons, bytes_ok_cons.
  assert (NM : N.of_nat (more b0) = 2 ^ (b0 / 64) - 1) by (unfold more; apply N2Nat.id).
  rewrite NM, LN in *. clear LF L Hs LN NM.
  revert B OF. generalize (firstn (more b0) s). intros l B OF.
  destruct (byte_top b0 Hb) as [E | [E | [E | E]]]; rewrite E in *; pows;
    repeat split; auto; try lia.
Qed.

Lemma varint_dec_inv' oc s x rest : bytes_ok s ->
  var_int_from_stream oc s = Ok (x, rest) ->
  exists bs, s = bs ++ rest /\ varint_enc x bs.
Proof.
  intros Hs H. rewrite var_int_from_stream_eq in H.
  destruct (var_int_with_bytes_from_stream oc s) as [[[y bs] r]| | |] eqn:E; try discriminate.
  cbn in H. injection H as <- <-. exists bs. eapply varint_dec_inv; eauto.
Qed.

(** The decoder returns [Ok] or [Err]. *)
Lemma varint_total oc s : bytes_ok s ->
  (exists x bs rest, var_int_with_bytes_from_stream oc s = Ok ((x, bs), rest)) \/
  (exists e, var_int_with_bytes_from_stream oc s = Err e).
Proof.
  intros Hs. destruct s as [|b0 s]; [right; eexists; reflexivity|].
  apply bytes_ok_cons in Hs as [Hb Hs]. rewrite var_int_with_bytes_cons by auto.
  destruct (more b0 <=? length s)%nat; [left|right]; eauto.
Qed.

Lemma varint_enc_bytes_ok x bs : varint_enc x bs -> bytes_ok bs.
Proof. intros [k H]; tauto. Qed.
Lemma varint_enc_v62 x bs : varint_enc x bs -> v62 x.
Proof.
  intros [k [Hk [_ [_ [Hx _]]]]]. unfold v62.
  assert (K : k = 0 \/ k = 1 \/ k = 2 \/ k = 3) by lia.
  destruct K as [-> | [-> | [-> | ->]]]; pows; lia.
Qed.
Lemma varint_enc_nonempty x bs : varint_enc x bs -> 1 <= len bs.
Proof. intros [k [_ [-> _]]]. pose proof (N.pow_nonzero 2 k). lia. Qed.

(** ** The encoder *)

Lemma encode_aux k x :
  k <= 3 -> x < 2 ^ (8 * 2 ^ k - 2) ->
  let bs := skipn (N.to_nat (8 - shl 64 1 k))
                  (be_bytes 8 (N.lor (shl 64 (shl 64 k 6) ((shl 64 1 k - 1) * 8)) x)) in
  len bs = 2 ^ k /\ bytes_ok bs /\ be_val bs = k * 2 ^ (8 * 2 ^ k - 2) + x.
Proof.
  intros Hk Hx.
  assert (S1 : shl 64 1 k = 2 ^ k).
  { assert (K : k = 0 \/ k = 1 \/ k = 2 \/ k = 3) by lia.
    destruct K as [-> | [-> | [-> | ->]]]; reflexivity. }
  rewrite S1.
  assert (S2 : N.lor (shl 64 (shl 64 k 6) ((2 ^ k - 1) * 8)) x = k * 2 ^ (8 * 2 ^ k - 2) + x).
  { assert (S3 : shl 64 (shl 64 k 6) ((2 ^ k - 1) * 8) = k * 2 ^ (8 * 2 ^ k - 2)).
    { assert (K : k = 0 \/ k = 1 \/ k = 2 \/ k = 3) by lia.
      destruct K as [-> | [-> | [-> | ->]]]; reflexivity. }
    rewrite S3. apply lor_add. auto. }
  rewrite S2.
  assert (S4 : N.to_nat (8 - 2 ^ k) = (8 - N.to_nat (2 ^ k))%nat /\ (N.to_nat (2 ^ k) <= 8)%nat).
  { assert (K : k = 0 \/ k = 1 \/ k = 2 \/ k = 3) by lia.
    destruct K as [-> | [-> | [-> | ->]]]; pows; lia. }
  destruct S4 as [S4 S5]. rewrite S4, skipn_be_bytes by auto.
  repeat split.
  - rewrite be_bytes_len. lia.
  - apply be_bytes_ok.
  - rewrite be_val_be_bytes_small; [reflexivity|]. rewrite N2Nat.id.
    assert (K : k = 0 \/ k = 1 \/ k = 2 \/ k = 3) by lia.
    destruct K as [-> | [-> | [-> | ->]]]; pows; lia.
Qed.

Lemma encode_var_int_cases x :
  encode_var_int x =
    if x <=? VARINT_FOURLEN_MAX then
      let k := if x <=? VARINT_ONELEN_MAX then 0 else if x <=? VARINT_TWOLEN_MAX then 1
               else if x <=? VARINT_THREELEN_MAX then 2 else 3 in
      Ok (skipn (N.to_nat (8 - shl 64 1 k))
                (be_bytes 8 (N.lor (shl 64 (shl 64 k 6) ((shl 64 1 k - 1) * 8)) x)))
    else Err (InternalError "var int overflow").
Proof.
  unfold encode_var_int, VARINT_ONELEN_MAX, VARINT_TWOLEN_MAX, VARINT_THREELEN_MAX, VARINT_FOURLEN_MAX.
  destruct (N.leb_spec x 0x3f); [destruct (N.leb_spec x 0x3fffffffffffffff); [reflexivity|lia]|].
  destruct (N.leb_spec x 0x3fff); [destruct (N.leb_spec x 0x3fffffffffffffff); [reflexivity|lia]|].
  destruct (N.leb_spec x 0x3fffffff); [destruct (N.leb_spec x 0x3fffffffffffffff); [reflexivity|lia]|].
  destruct (N.leb_spec x 0x3fffffffffffffff); reflexivity.
Qed.

(** Size class of the shortest encoding. *)
Definition min_class (x : N) : N :=
  if x <? 2 ^ 6 then 0 else if x <? 2 ^ 14 then 1 else if x <? 2 ^ 30 then 2 else 3.

Lemma encode_var_int_ok x : v62 x ->
  exists bs, encode_var_int x = Ok bs /\ varint_enc x bs /\ len bs = 2 ^ min_class x.
Proof.
  unfold v62. intros H. rewrite encode_var_int_cases.
  unfold VARINT_ONELEN_MAX, VARINT_TWOLEN_MAX, VARINT_THREELEN_MAX, VARINT_FOURLEN_MAX, min_class.
  pows. destruct (N.leb_spec x 0x3fffffffffffffff); [|lia].
  eexists. split; [reflexivity|].
  assert (A : forall k, k <= 3 -> x < 2 ^ (8 * 2 ^ k - 2) -> 
     let bs := skipn (N.to_nat (8 - shl 64 1 k))
                  (be_bytes 8 (N.lor (shl 64 (shl 64 k 6) ((shl 64 1 k - 1) * 8)) x)) in
     varint_enc x bs /\ len bs = 2 ^ k).
  { intros k Hk Hx. destruct (encode_aux k x Hk Hx) as [A [B C]]. split; [|exact A].
    exists k. auto 6. }
  destruct (N.leb_spec x 0x3f), (N.ltb_spec x 64); try lia.
  - apply (A 0); [lia|]. pows; lia.
  - destruct (N.leb_spec x 0x3fff), (N.ltb_spec x 16384); try lia.
    + apply (A 1); [lia|]. pows; lia.
    + destruct (N.leb_spec x 0x3fffffff), (N.ltb_spec x 1073741824); try lia.
      * apply (A 2); [lia|]. pows; lia.
      * apply (A 3); [lia|]. pows; lia.
Qed.

Lemma encode_var_int_err x : 2 ^ 62 <= x ->
  encode_var_int x = Err (InternalError "var int overflow").
Proof.
  intros H. rewrite encode_var_int_cases. unfold VARINT_FOURLEN_MAX. pows.
  destruct (N.leb_spec x 0x3fffffffffffffff); [lia|reflexivity].
Qed.

Lemma encode_var_int_inv x bs : encode_var_int x = Ok bs -> v62 x /\ varint_enc x bs.
Proof.
  intros H. destruct (N.lt_ge_cases x (2 ^ 62)) as [L|L].
  - destruct (encode_var_int_ok x L) as [b [E [V _]]]. split; [exact L|]. congruence.
  - rewrite encode_var_int_err in H by auto. discriminate.
Qed.

(** ** Connection ids *)

Lemma u160_to_bytes_loop_spec n : forall lo hi rv, lo < 2 ^ 128 ->
  u160_to_bytes_loop n lo hi rv = be_bytes n (hi * 2 ^ 128 + lo) ++ rv.
Proof.
  induction n as [|n IH]; intros lo hi rv H; [reflexivity|].
  cbn [u160_to_bytes_loop].
  assert (L : N.lor (N.shiftr lo 8) (shl 128 (N.land hi 0xff) 120)
              = (hi mod 256) * 2 ^ 120 + lo / 256).
  { rewrite N.lor_comm, shl_spec, land_255, shiftr_8, N.mod_small by (pows; lia).
    apply lor_add. pows; lia. }
  rewrite L, shiftr_8, land_255, be_bytes_S, <- app_assoc. clear L.
  rewrite IH by (pows; lia). cbn [app]. f_equal.
  - f_equal. pows. lia.
  - f_equal. unfold cast. pows. lia.
Qed.

Lemma u160_to_bytes_spec u : cid_ok u -> u160_to_bytes u = be_bytes 20 (cid_val u).
Proof.
  intros [H0 H1]. unfold u160_to_bytes. rewrite u160_to_bytes_loop_spec by auto.
  rewrite app_nil_r. reflexivity.
Qed.

Lemma u160_to_var_bytes_ok u l : cid_ok u -> l <= 20 ->
  u160_to_var_bytes u l = Ok (be_bytes (N.to_nat l) (cid_val u)).
Proof.
  intros Hu Hl. unfold u160_to_var_bytes.
  destruct (N.ltb_spec 20 l); [lia|]. rewrite u160_to_bytes_spec by auto. f_equal.
  replace (N.to_nat (20 - l)) with (20 - N.to_nat l)%nat by lia.
  rewrite skipn_be_bytes by lia.
  apply firstn_app_exact. rewrite be_bytes_length. reflexivity.
Qed.

Lemma u160_to_var_bytes_panic u l : 20 < l ->
  exists w, u160_to_var_bytes u l = Panic w.
Proof. intros H. unfold u160_to_var_bytes. destruct (N.ltb_spec 20 l); [eauto|lia]. Qed.

Lemma u160_to_var_bytes_enc u l : cid_ok u -> l <= 20 -> cid_val u < 256 ^ l ->
  exists bs, u160_to_var_bytes u l = Ok bs /\ cid_enc u l bs.
Proof.
  intros Hu Hl Hv. rewrite u160_to_var_bytes_ok by auto. eexists; split; [reflexivity|].
  unfold cid_enc. rewrite be_bytes_len, be_val_be_bytes_small by (rewrite N2Nat.id; auto).
  repeat split; auto using be_bytes_ok; try apply Hu. lia.
Qed.

Lemma u160_read_step i0 i1 b : i0 < 2 ^ 32 -> i1 < 2 ^ 128 -> b < 256 ->
  let i0' := N.lor (shl 32 i0 8) (cast 32 (N.shiftr i1 120)) in
  let i1' := N.lor (shl 128 (N.land i1 (shl 128 1 120 - 1)) 8) b in
  i0' < 2 ^ 32 /\ i1' < 2 ^ 128 /\
  i0' * 2 ^ 128 + i1' = ((i0 * 2 ^ 128 + i1) * 256 + b) mod 2 ^ 160.
Proof.
  intros H0 H1 Hb. cbv zeta.
  assert (E0 : N.lor (shl 32 i0 8) (cast 32 (N.shiftr i1 120))
               = (i0 mod 2 ^ 24) * 2 ^ 8 + i1 / 2 ^ 120).
  { rewrite shl_spec, N.shiftr_div_pow2. unfold cast. rewrite (N.mod_small (i1 / _)) by (pows; lia).
    replace ((i0 * 2 ^ 8) mod 2 ^ 32) with ((i0 mod 2 ^ 24) * 2 ^ 8) by (pows; lia).
    apply lor_add. pows; lia. }
  assert (E1 : N.lor (shl 128 (N.land i1 (shl 128 1 120 - 1)) 8) b = (i1 mod 2 ^ 120) * 2 ^ 8 + b).
  { replace (shl 128 1 120 - 1) with (2 ^ 120 - 1) by reflexivity.
    rewrite land_mask, shl_spec, N.mod_small by (pows; lia). apply lor_add. pows; lia. }
  rewrite E0, E1. clear E0 E1. pows. split; [lia|]. split; [lia|]. lia.
Qed.

Lemma u160_read_loop_spec msg n : forall i0 i1 bs rest,
  i0 < 2 ^ 32 -> i1 < 2 ^ 128 -> bytes_ok bs -> length bs = n ->
  exists u, u160_read_loop n msg i0 i1 (bs ++ rest) = Ok (u, rest) /\ cid_ok u /\
            cid_val u = ((i0 * 2 ^ 128 + i1) * 256 ^ len bs + be_val bs) mod 2 ^ 160.
Proof.
  induction n as [|n IH]; intros i0 i1 bs rest H0 H1 Hb HL.
  - destruct bs; [|discriminate]. cbn [app u160_read_loop be_val].
    eexists; split; [reflexivity|]. split; [split; auto|].
    unfold cid_val; cbn [idx0 idx1]. rewrite len_nil, N.pow_0_r. 
    rewrite N.mod_small; pows; lia.
  - destruct bs as [|b bs]; [discriminate|]. injection HL as HL.
    apply bytes_ok_cons in Hb as [Hb0 Hb].
    cbn [app u160_read_loop next bind].
    destruct (u160_read_step i0 i1 b H0 H1 Hb0) as [S0 [S1 S2]].
    destruct (IH _ _ bs rest S0 S1 Hb HL) as [u [E [Hu V]]].
    exists u. split; [exact E|]. split; [exact Hu|].
    rewrite V, S2. cbn [be_val]. rewrite len_cons, pow256_S.
    rewrite <- N.add_mod_idemp_l by (pows; lia).
    rewrite N.mul_mod_idemp_l by (pows; lia).
    rewrite N.add_mod_idemp_l by (pows; lia).
    f_equal. lia.
Qed.

Lemma u160_read_loop_short msg n : forall i0 i1 s,
  (length s < n)%nat -> u160_read_loop n msg i0 i1 s = Err (InternalError msg).
Proof.
  induction n as [|n IH]; intros i0 i1 s H; [lia|].
  destruct s as [|b s]; cbn [u160_read_loop next bind]; [reflexivity|].
  apply IH. cbn [length] in H. lia.
Qed.

Lemma var_u160_dec u l bs rest : cid_enc u l bs -> l <= 20 ->
  var_u160_from_stream l (bs ++ rest) = Ok (u, rest).
Proof.
  intros [Hu [Hb [HL HV]]] Hl. unfold var_u160_from_stream.
  destruct (u160_read_loop_spec "not enough bytes for var160" (N.to_nat l) 0 0 bs rest)
    as [u' [E [Hu' V]]]; auto; try (pows; lia).
  { unfold len in HL. lia. }
  rewrite E. do 2 f_equal.
  replace (_ + be_val bs) with (be_val bs) in V by lia. rewrite HV in V.
  destruct u as [a b], u' as [a' b'], Hu as [A B], Hu' as [A' B']. unfold cid_val in *.
  cbn [idx0 idx1] in *. rewrite N.mod_small in V by (pows; lia).
  assert (a = a' /\ b = b') as [-> ->] by (pows; lia). reflexivity.
Qed.

Lemma pow256_le_160 l : l <= 20 -> 256 ^ l <= 2 ^ 160.
Proof. intros H. change (2 ^ 160) with (256 ^ 20). apply N.pow_le_mono_r; lia. Qed.

Lemma var_u160_inv l s u rest : bytes_ok s -> l <= 20 ->
  var_u160_from_stream l s = Ok (u, rest) ->
  exists bs, s = bs ++ rest /\ cid_enc u l bs.
Proof.
  intros Hs Hl H. unfold var_u160_from_stream in H.
  destruct (Nat.lt_ge_cases (length s) (N.to_nat l)) as [L|L].
  { rewrite u160_read_loop_short in H by auto. discriminate. }
  pose (bs := firstn (N.to_nat l) s). pose (r := skipn (N.to_nat l) s).
  assert (ES : s = bs ++ r) by (symmetry; apply firstn_skipn).
  assert (LB : length bs = N.to_nat l) by (unfold bs; rewrite firstn_length; lia).
  assert (OB : bytes_ok bs) by (apply bytes_ok_firstn; auto).
  destruct (u160_read_loop_spec "not enough bytes for var160" (N.to_nat l) 0 0 bs r)
    as [u' [E [Hu' V]]]; auto; try (pows; lia).
  rewrite ES, E in H. injection H as <- <-. exists bs. split; [auto|].
  replace (_ + be_val bs) with (be_val bs) in V by lia.
  assert (LN : len bs = l) by (unfold len; lia).
  pose proof (be_val_bound bs OB) as B. rewrite LN in B. pose proof (pow256_le_160 l Hl).
  rewrite N.mod_small in V by lia.
  unfold cid_enc. rewrite V. destruct Hu'. repeat split; auto.
Qed.

Lemma var_u160_total l s :
  (exists u rest, var_u160_from_stream l s = Ok (u, rest)) \/
  (exists e, var_u160_from_stream l s = Err e).
Proof.
  unfold var_u160_from_stream. generalize (N.to_nat l) as n. generalize 0 at 2 4 as i1.
  generalize 0 as i0. intros i0 i1 n. revert i0 i1 s.
  induction n as [|n IH]; intros i0 i1 s; [left; cbn; eauto|].
  destruct s as [|b s]; cbn [u160_read_loop next bind]; [right; eauto|]. apply IH.
Qed.

(** ** [floor_log2] *)

Lemma floor_log2_loop_spec fuel : forall rv tp,
  tp < 2 ^ N.of_nat fuel ->
  floor_log2_loop (S fuel) rv tp = Ok (rv + N.size tp).
Proof.
  induction fuel as [|fuel IH]; intros rv tp H.
  - change (N.of_nat 0) with 0 in H. pows. assert (tp = 0) as -> by lia.
    cbn [floor_log2_loop]. change (0 <? 0) with false. cbv iota. change (N.size 0) with 0. f_equal. lia.
  - replace (N.of_nat (S fuel)) with (N.succ (N.of_nat fuel)) in H by lia.
    rewrite N.pow_succ_r' in H.
    remember (S fuel) as f eqn:Ef. cbn [floor_log2_loop]. subst f.
    destruct (N.ltb_spec 0 tp) as [L|L].
    + rewrite IH by (rewrite N.shiftr_div_pow2; pows; lia).
      f_equal. rewrite <- N.add_assoc. f_equal.
      destruct (N.eq_dec tp 1) as [->|N1]; [reflexivity|].
      rewrite (N.size_log2 tp) by lia.
      assert (NZ : N.shiftr tp 1 <> 0) by (rewrite N.shiftr_div_pow2; pows; lia).
      rewrite N.size_log2 by auto.
      rewrite N.log2_shiftr.
      pose proof (N.log2_le_mono 2 tp ltac:(lia)) as LL. change (N.log2 2) with 1 in LL. lia.
    + assert (tp = 0) as -> by lia. change (N.size 0) with 0. f_equal. lia.
Qed.

Lemma floor_log2_spec width x : x <> 0 -> x < 2 ^ N.of_nat width ->
  floor_log2 width x = Ok (N.log2 x + 1).
Proof.
  intros NZ H. unfold floor_log2. destruct (N.eqb_spec x 0); [congruence|].
  rewrite floor_log2_loop_spec by auto. rewrite N.size_log2 by auto. f_equal. lia.
Qed.

(** ** The slice decoder *)

Lemma varint_class_small x bs : varint_enc x bs -> len bs = 2 ^ min_class x -> x < 2 ^ 14 ->
  exists b0 tl, bs = b0 :: tl /\ b0 < 256 /\ bytes_ok tl /\
     ((b0 < 64 /\ tl = [] /\ x = b0) \/
      (exists b1, 64 <= b0 < 128 /\ tl = [b1] /\ b1 < 256 /\ x = (b0 - 64) * 256 + b1)).
Proof.
  intros [k [Hk [HL [Hb [Hx Hv]]]]] HC H. unfold min_class in HC.
  destruct bs as [|b0 tl]; [rewrite len_nil in HL; pose proof (N.pow_nonzero 2 k); lia|].
  apply bytes_ok_cons in Hb as [Hb0 Hb].
  exists b0, tl. split; [auto|]. split; [auto|]. split; [auto|].
  assert (K : k = 0 \/ k = 1 \/ k = 2 \/ k = 3) by lia.
  destruct (N.ltb_spec x (2 ^ 6)) as [L|L].
  - left. destruct K as [-> | [-> | [-> | ->]]]; pows; try lia.
    rewrite len_cons in HL. assert (tl = []) as -> by (apply len_0_nil; lia).
    cbn [be_val] in Hv. rewrite len_nil in Hv. pows. split; [lia|]. split; [auto|lia].
  - right. destruct (N.ltb_spec x (2 ^ 14)); [|lia].
    destruct K as [-> | [-> | [-> | ->]]]; pows; try lia.
    rewrite len_cons in HL. destruct tl as [|b1 tl]; [rewrite len_nil in HL; lia|].
    rewrite len_cons in HL. assert (tl = []) as -> by (apply len_0_nil; lia).
    cbn [be_val] in Hv. rewrite !len_cons, !len_nil in Hv. pows.
    apply bytes_ok_cons in Hb as [Hb1 _]. exists b1. repeat split; auto; lia.
Qed.

Lemma decode_var_int_small oc x bs rest :
  encode_var_int x = Ok bs -> x < 2 ^ 14 ->
  decode_var_int oc (bs ++ rest) = Ok (x, len bs).
Proof.
  intros E H.
  destruct (encode_var_int_ok x) as [bs' [E' [V C]]]; [unfold v62; pows; lia|].
  assert (bs' = bs) as -> by congruence.
  destruct (varint_class_small x bs V C H) as [b0 [tl [-> [H0 [_ D]]]]].
  unfold decode_var_int. cbn [app]. rewrite shiftr_6, land_63.
  destruct D as [[L [-> ->]]|[b1 [L [-> [H1 ->]]]]].
  - replace (b0 / 64) with 0 by lia. rewrite len_cons.
    destruct (N.ltb_spec (len ([] ++ rest) + 1) (0 + 1)); [lia|].
    change (N.to_nat 0) with 0%nat. cbn [firstn fold_left bind]. rewrite len_cons. change (len []) with 0.
    do 2 f_equal; lia.
  - replace (b0 / 64) with 1 by lia. cbn [app]. rewrite !len_cons.
    destruct (N.ltb_spec (len rest + 1 + 1) (1 + 1)); [lia|].
    change (N.to_nat 1) with 1%nat. cbn [firstn fold_left bind]. rewrite shl_spec.
    pows. rewrite N.mod_small by lia. unfold add64, two64.
    destruct (N.ltb_spec (b0 mod 64 * 256 + b1) 0x10000000000000000); [|lia]. cbn [bind].
    change (len []) with 0. do 2 f_equal; lia.
Qed.

(** Deciding [bytes_ok] on concrete lists. *)
Lemma bytes_ok_dec bs : forallb (fun b => b <? 256) bs = true -> bytes_ok bs.
Proof.
  intros H. apply Forall_forall. intros x I. rewrite forallb_forall in H. specialize (H x I). lia.
Qed.
