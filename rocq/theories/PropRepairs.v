(** The refuted statements C03, C06, C08, C09, C12, C68 and C99 are
    consistent: each holds of the function at hand changed in one place.  The
    functions here are NOT the code; they show that the statements ask for
    something that can be had, and what the change is. *)
From Verif Require Import Base Utils Frame Connection Spec SpecPacket Tactics UtilsFacts ParserFacts FrameFacts PacketFacts
  PropUtils PropFrame PropFrameSound PropConn PropPnField.
From Coq Require Import Lia ZifyN ZifyBool ZifyNat.
Open Scope N_scope.

(** ** Frames.  Three changes: the type is not cut to a byte (frame.rs:802), the
    offset and length bits of a STREAM frame are compared with 0 (frame.rs:301-302),
    a CRYPTO frame has [length] bytes (frame.rs:225). *)
Definition stream_repaired (oc : bool) (t : N) : parser frame_stream := fun s =>
  let has_offset := negb (N.land t 0x04 =? 0) in
  let has_length := negb (N.land t 0x02 =? 0) in
  let is_fin := N.land t 0x01 =? 1 in
  let? (id, s) := var_int_from_stream oc s in
  let? (offset, s) := if has_offset then var_int_from_stream oc s else Ok (0, s) in
  let? (tp_length, s) :=
    if has_length then
      let? (l, s) := var_int_from_stream oc s in Ok (Some l, s)
    else Ok (None, s) in
  let? (data, s) :=
    match tp_length with
    | Some l => var_bytes_from_stream l s
    | None => all_bytes_from_stream s
    end in
  Ok (FrameStream id offset (len data) data is_fin, s).
Definition crypto_repaired (oc : bool) : parser frame_crypto := fun s =>
  let? (offset, s) := var_int_from_stream oc s in
  let? (length, s) := var_int_from_stream oc s in
  let? (data, s) := var_bytes_from_stream length s in
  Ok (FrameCrypto offset length data, s).
Definition frame_repaired (oc : bool) : parser frame := fun s =>
  let? (t, s) := var_int_from_stream oc s in
  if 0x1e <? t then Err (InternalError "Invalid type byte")
  else if t =? 0x06 then wrap Crypto (crypto_repaired oc) s
  else if in_range 0x08 0x0f t then wrap Stream (stream_repaired oc t) s
  else deserialize_frame_body oc t s.
Fixpoint frames_repaired_loop (oc : bool) (fuel : nat) (s : stream) : outcome (list frame) :=
  match s with
  | [] => Ok []
  | _ :: _ =>
      match fuel with
      | O => Diverge
      | S f =>
          let? (x, s') := frame_repaired oc s in
          let? xs := frames_repaired_loop oc f s' in
          Ok (x :: xs)
      end
  end.
Definition frames_repaired (oc : bool) (s : stream) : outcome (list frame) :=
  frames_repaired_loop oc (S (length s)) s.

Lemma stream_bits k : 0x08 <= k <= 0x0f -> exists o l fin, k = 8 + bit o 4 + bit l 2 + bit fin 1 /\
  negb (N.land k 4 =? 0) = o /\ negb (N.land k 2 =? 0) = l /\ (N.land k 1 =? 1) = fin.
Proof.
  intros Hk. exists (N.testbit k 2), (N.testbit k 1), (N.testbit k 0).
  assert (K : k = 8 \/ k = 9 \/ k = 10 \/ k = 11 \/ k = 12 \/ k = 13 \/ k = 14 \/ k = 15) by lia.
  destruct K as [->|[->|[->|[->|[->|[->|[->| ->]]]]]]]; repeat split.
Qed.

Lemma var_bytes_whole n s d r : var_bytes_from_stream n s = Ok (d, r) -> s = d ++ r /\ len d = n.
Proof. apply var_bytes_inv. Qed.

(** The repaired decoder accepts exactly the frames of RFC 9000 section 19, the
    type in any length. *)
Theorem C68_repaired : forall oc s f rest, bytes_ok s ->
  frame_repaired oc s = Ok (f, rest) <->
  exists t tb body last, s = tb ++ body ++ rest /\ varint_enc t tb /\ frame_enc last f (t :: body) /\
    (last = true -> rest = []).
Proof.
  intros oc s f rest B. split.
  - intros H. unfold frame_repaired in H. varint_step B H.
    destruct (N.ltb_spec 0x1e x) as [|Hx]; [discriminate|].
    destruct (N.eqb_spec x 6) as [->|N6].
    { unfold wrap, crypto_repaired in H. apply bind_ok in H as [[c r0] [H0 H]]. cbn beta iota in H. injection H as <- <-.
      do 2 varint_step B H0. block_step B H0. injection H0 as <- <-. subst x0.
      exists 6, bs, (bs0 ++ bs1 ++ data), false. split; [rewrite <- !app_assoc; reflexivity|]. split; [exact V|].
      split; [|discriminate]. constructor; auto. }
    destruct (in_range 0x08 0x0f x) eqn:IR.
    { unfold in_range in IR. assert (R8 : 8 <= x <= 15) by lia.
      destruct (stream_bits x R8) as [o [l [fin [Ek [E4 [E2 E1]]]]]].
      unfold wrap, stream_repaired in H. rewrite E4, E2, E1 in H. apply bind_ok in H as [[c r0] [H0 H]].
      cbn beta iota in H. injection H as <- <-. varint_step B H0.
      apply bind_ok in H0 as [[off q1] [Eo H0]]. cbn beta iota in H0.
      assert (O : exists ob, r1 = ob ++ q1 /\ (if o then varint_enc off ob else off = 0 /\ ob = [])).
      { destruct o; [|injection Eo as <- <-; exists []; auto].
        apply varint_dec_inv' in Eo as [ob [-> Vo]]; [|exact B]. exists ob. auto. }
      destruct O as [ob [-> Vo]]. apply bytes_ok_app in B as [Bo B].
      apply bind_ok in H0 as [[tp q2] [El H0]]. cbn beta iota in H0.
      apply bind_ok in H0 as [[data q3] [Ed H0]]. cbn beta iota in H0. injection H0 as <- <-.
      destruct l.
      - varint_step B El. injection El as <- <-. apply var_bytes_inv in Ed as [-> L].
        apply bytes_ok_app in B as [Bd B]. subst x1.
        exists x, bs, (bs0 ++ ob ++ bs1 ++ data), false. split; [rewrite <- !app_assoc; reflexivity|].
        split; [exact V|]. split; [|discriminate]. rewrite Ek. apply (enc_stream false x0 off data fin o true); auto.
      - injection El as <- <-. unfold all_bytes_from_stream in Ed. injection Ed as <- <-.
        exists x, bs, (bs0 ++ ob ++ [] ++ q1), true. split; [cbn [app]; rewrite app_nil_r; reflexivity|].
        split; [exact V|]. split; [|auto]. rewrite Ek. apply (enc_stream true x0 off q1 fin o false); auto. }
    apply body_inv in H as [body [-> T]]; [|lia|exact B].
    exists x, bs, body, false. split; [reflexivity|]. split; [exact V|]. split; [|discriminate].
    destruct f; try exact T; cbn in T; destruct T as [T _]; [lia|]. unfold in_range in IR. lia.
  - intros [t [tb [body [last [-> [V [F Q]]]]]]]. unfold frame_repaired. rewrite (varint_dec' oc t tb _ V). cbn [bind].
    apply bytes_ok_app in B as [_ B]. apply bytes_ok_app in B as [Bb Br].
    assert (Ht : t <= 0x1e).
    { inversion F; subst; try lia; try (destruct uni; cbn [bit]; lia). destruct o, l, fin; cbn [bit]; lia. }
    destruct (N.ltb_spec 0x1e t); [lia|].
    destruct (N.eqb_spec t 6) as [->|N6].
    { inversion F; subst; try (destruct uni; discriminate); try (destruct o, l, fin; discriminate).
      unfold wrap, crypto_repaired. rewrite <- !app_assoc. vdec. reflexivity. }
    destruct (in_range 0x08 0x0f t) eqn:IR.
    { unfold in_range in IR.
      remember (t :: body) as w eqn:Ew. destruct F; try (injection Ew as <- <-; exfalso; try destruct uni; cbn [bit] in IR; lia).
      injection Ew as <- <-. unfold wrap, stream_repaired.
      destruct (stream_bits (8 + bit o 4 + bit l 2 + bit fin 1)) as [o' [l' [fin' [Ek [E4 [E2 E1]]]]]]; [destruct o, l, fin; cbn [bit]; lia|].
      assert (o' = o /\ l' = l /\ fin' = fin) as [-> [-> ->]]
        by (subst o' l' fin'; destruct o, l, fin; repeat split).
      rewrite E4, E2, E1. rewrite <- !app_assoc. vdec.
      match goal with HO : (if o then _ else _) |- _ => rename HO into VO end.
      match goal with HL : (if l then _ else _) |- _ => rename HL into VL end.
      destruct o; [vdec|destruct VO as [-> ->]; cbn [app bind]]; (destruct l; [vdec; reflexivity|]);
        destruct VL as [EQ ->]; rewrite (Q EQ), app_nil_r; reflexivity. }
    assert (T : taken_for f t body rest).
    { assert (W : last = false \/ frame_enc false f (t :: body)).
      { destruct last; [right|auto].
        unfold in_range in IR. remember (t :: body) as w eqn:Ew. destruct F; try (constructor; auto; fail).
        injection Ew as Ew _. exfalso. destruct o, l, fin; cbn [bit] in Ew; lia. }
      assert (F' : frame_enc false f (t :: body)) by (destruct W as [->|]; auto).
      destruct f; try exact F'; exfalso; clear F W Q; unfold in_range in IR; inversion F'; subst; [congruence|].
      destruct o, l, fin; cbn [bit] in *; lia. }
    apply taken_dec; auto.
Qed.
Print Assumptions C68_repaired.

Lemma frames_enc_app_cons f fs s : frames_enc (f :: fs) s ->
  exists t body s' last, s = t :: body ++ s' /\ frame_enc last f (t :: body) /\ frames_enc fs s' /\ t <= 0x1e /\
    (last = true -> s' = []).
Proof.
  intros H.
  assert (T : forall last g bs, frame_enc last g bs -> exists t body, bs = t :: body /\ t <= 0x1e).
  { intros last g bs F. destruct F; do 2 eexists; (split; [reflexivity|]); try lia; try (destruct uni; cbn [bit]; lia).
    destruct o, l, fin; cbn [bit]; lia. }
  inversion H as [|f0 bs F E1 E2|f0 g gs a bs F Fs E1 E2]; subst.
  - destruct (T _ _ _ F) as [t [body [-> L]]]. exists t, body, [], true. rewrite app_nil_r.
    repeat split; auto. constructor.
  - destruct (T _ _ _ F) as [t [body [-> L]]]. exists t, body, bs, false. repeat split; auto. discriminate.
Qed.

Lemma repaired_loop oc fs : forall s fuel, frames_enc fs s -> (length s < fuel)%nat ->
  frames_repaired_loop oc fuel s = Ok fs.
Proof.
  induction fs as [|f fs IH]; intros s fuel F L.
  - inversion F; subst. destruct fuel; reflexivity.
  - pose proof (frames_enc_bytes_ok _ _ F) as B.
    apply frames_enc_app_cons in F as [t [body [s' [last [-> [F [Fs [Ht Q]]]]]]]].
    destruct fuel as [|fuel]; [lia|]. cbn [frames_repaired_loop].
    assert (E : frame_repaired oc (t :: body ++ s') = Ok (f, s')).
    { apply C68_repaired; [exact B|]. exists t, [t], body, last. repeat split; auto.
      apply varint_enc_small. lia. }
    rewrite E. cbn [bind]. rewrite (IH s' fuel Fs); [reflexivity|]. cbn [length] in L. rewrite app_length in L. lia.
Qed.

(** Every sequence of frames - STREAM frames in any place, CRYPTO frames at any
    offset - survives the crate's own encoder followed by the repaired decoder. *)
Theorem C08_repaired : forall oc fs is_df_end, Forall frame_wf fs ->
  exists bs, serialize_frames fs is_df_end = Ok bs /\ frames_repaired oc bs = Ok fs.
Proof.
  intros oc fs e W. destruct (serialize_frames_enc fs e W) as [bs [E F]]. exists bs. split; [exact E|].
  apply repaired_loop; auto.
Qed.
Print Assumptions C08_repaired.
Example C08_repaired_case :
  (let? bs := serialize_frames [Stream (FrameStream 4 9 2 [10; 11] true); Crypto (FrameCrypto 2 1 [7]); Ping] false in
   frames_repaired true bs) =
    Ok [Stream (FrameStream 4 9 2 [10; 11] true); Crypto (FrameCrypto 2 1 [7]); Ping].
Proof. reflexivity. Qed.

Theorem C09_repaired : forall oc off data a b rest,
  varint_enc off a -> varint_enc (len data) b -> bytes_ok data -> bytes_ok rest ->
  frame_repaired oc (0x06 :: a ++ b ++ data ++ rest) = Ok (Crypto (FrameCrypto off (len data) data), rest).
Proof.
  intros oc off data a b rest Va Vb Bd Br.
  change (0x06 :: a ++ b ++ data ++ rest) with ([0x06] ++ (a ++ b ++ data ++ rest)).
  unfold frame_repaired. rewrite (varint_dec' oc 6 [6] _ (varint_enc_small 6 ltac:(lia))). cbn [bind].
  change (0x1e <? 6) with false. change (6 =? 6) with true. cbn iota. unfold wrap, crypto_repaired. vdec. reflexivity.
Qed.
Print Assumptions C09_repaired.
Example C09_repaired_case : frame_repaired true [0x06; 1; 2; 5; 6; 0; 0] = Ok (Crypto (FrameCrypto 1 2 [5; 6]), [0; 0]).
Proof. reflexivity. Qed.

Theorem C12_repaired : forall oc t a rest,
  varint_enc t a -> 0x1e < t -> exists e, frame_repaired oc (a ++ rest) = Err e.
Proof.
  intros oc t a rest V H. unfold frame_repaired. rewrite (varint_dec' oc t a rest V). cbn [bind].
  destruct (N.ltb_spec 0x1e t); [eexists; reflexivity|lia].
Qed.
Print Assumptions C12_repaired.
Example C12_repaired_case : exists e, frame_repaired true [0x41; 0x00] = Err e.
Proof. eexists. reflexivity. Qed.

(** ** The slice decoder, with [1 << (b0 >> 6)] bytes instead of [(b0 >> 6) + 1]
    (utils.rs:327). *)
Definition decode_var_int_repaired (oc : bool) (data : list N) : outcome (N * N) :=
  match data with
  | [] => Err (InternalError "missing first byte for varint")
  | b0 :: tl =>
      let n_shifts := shl 8 1 (N.shiftr b0 6) - 1 in
      if len data <? n_shifts + 1 then Err (InternalError "not enough bytes for varint")
      else
        let? result :=
          fold_left (fun acc b => let? r := acc in add64 oc (shl 64 r 8) b)
                    (firstn (N.to_nat n_shifts) tl) (Ok (N.land b0 0x3f)) in
        Ok (result, n_shifts + 1)
  end.

Lemma slice_fold oc bs : forall r, bytes_ok bs -> r * 256 ^ len bs + be_val bs < 2 ^ 64 ->
  fold_left (fun acc b => let? r := acc in add64 oc (shl 64 r 8) b) bs (Ok r) = Ok (r * 256 ^ len bs + be_val bs).
Proof.
  induction bs as [|b bs IH]; intros r B H.
  - cbn [fold_left be_val]. rewrite len_nil, N.pow_0_r. f_equal. lia.
  - apply bytes_ok_cons in B as [Hb B]. cbn [fold_left bind be_val] in H |- *. rewrite len_cons, N.pow_add_r in *.
    change (256 ^ 1) with 256 in *.
    assert (P1 : 1 <= 256 ^ len bs) by (pose proof (N.pow_nonzero 256 (len bs)); lia).
    assert (R : r * 256 + b < 2 ^ 64) by nia.
    assert (E : add64 oc (shl 64 r 8) b = Ok (r * 256 + b)).
    { rewrite shl_spec. change (2 ^ 8) with 256. rewrite N.mod_small by lia. apply add64_ok. exact R. }
    rewrite E, IH; [f_equal; lia|exact B|]. nia.
Qed.

(** It reads every integer the way the stream decoder does. *)
Theorem C03_repaired : forall oc x bs rest, varint_enc x bs ->
  decode_var_int_repaired oc (bs ++ rest) = Ok (x, len bs).
Proof.
  intros oc x bs rest V. pose proof (proj1 (C02_varint_decoder_complete oc x bs rest V)) as D.
  destruct V as [k [Hk [L [B [Hx Vx]]]]]. destruct bs as [|b0 tl]; [exfalso; rewrite len_nil in L; pose proof (N.pow_nonzero 2 k); lia|].
  apply bytes_ok_cons in B as [Hb B].
  assert (D' : var_int_with_bytes_from_stream oc ((b0 :: tl) ++ []) = Ok ((x, b0 :: tl), [])).
  { apply (C02_varint_decoder_complete oc x (b0 :: tl) []). exists k. repeat split; auto. apply bytes_ok_cons. auto. }
  rewrite app_nil_r, var_int_with_bytes_cons in D' by auto.
  destruct (Nat.leb_spec (more b0) (length tl)) as [M|M]; [|discriminate]. injection D' as Ex Et Es.
  assert (LM : length tl = more b0).
  { pose proof (firstn_length (more b0) tl) as F. rewrite Et in F. lia. }
  rewrite Et in Ex. unfold decode_var_int_repaired. cbn [app].
  assert (S1 : shl 8 1 (N.shiftr b0 6) - 1 = len tl).
  { unfold len. rewrite LM. unfold more. rewrite N2Nat.id, shl_spec, N.shiftr_div_pow2. change (2 ^ 6) with 64.
    rewrite N.mul_1_l, N.mod_small; [reflexivity|]. apply N.pow_lt_mono_r; lia. }
  rewrite S1, !len_cons, len_app. destruct (N.ltb_spec (len tl + len rest + 1) (len tl + 1)); [lia|].
  assert (F1 : firstn (N.to_nat (len tl)) (tl ++ rest) = tl).
  { unfold len. rewrite Nat2N.id, firstn_app, Nat.sub_diag, firstn_all, firstn_O. apply app_nil_r. }
  assert (X : b0 mod 64 * 256 ^ len tl + be_val tl = x) by (unfold len; rewrite LM; exact Ex).
  rewrite F1, land_63, slice_fold, X; [reflexivity|exact B|].
  rewrite X. eapply N.lt_trans; [exact Hx|]. apply N.pow_lt_mono_r; [lia|].
  assert (K : k = 0 \/ k = 1 \/ k = 2 \/ k = 3) by lia. destruct K as [->|[->|[->| ->]]]; reflexivity.
Qed.
Print Assumptions C03_repaired.
Example C03_repaired_case : varint_enc 16384 [0x80; 0; 0x40; 0] /\ decode_var_int_repaired true [0x80; 0; 0x40; 0; 9] = Ok (16384, 4).
Proof.
  split; [|reflexivity]. exists 2. repeat split; try reflexivity; try (vm_compute; discriminate).
  apply bytes_ok_dec. reflexivity.
Qed.

(** ** The logarithm, stopping at 1 instead of 0 (utils.rs:264). *)
Fixpoint floor_log2_loop_repaired (fuel : nat) (rv tp : N) : outcome N :=
  match fuel with
  | O => Diverge
  | S f => if 1 <? tp then floor_log2_loop_repaired f (rv + 1) (N.shiftr tp 1) else Ok rv
  end.
Definition floor_log2_repaired (width : nat) (x : N) : outcome N :=
  if x =? 0 then Err (InternalError "no bits set") else floor_log2_loop_repaired (S width) 0 x.

Lemma log2_loop_repaired fuel : forall rv tp, tp <> 0 -> tp < 2 ^ N.of_nat fuel ->
  floor_log2_loop_repaired (S fuel) rv tp = Ok (rv + N.log2 tp).
Proof.
  induction fuel as [|fuel IH]; intros rv tp NZ H.
  - change (2 ^ N.of_nat 0) with 1 in H. lia.
  - replace (N.of_nat (S fuel)) with (N.succ (N.of_nat fuel)) in H by lia. rewrite N.pow_succ_r' in H.
    remember (S fuel) as f eqn:Ef. cbn [floor_log2_loop_repaired]. subst f.
    destruct (N.ltb_spec 1 tp) as [L|L].
    + rewrite N.shiftr_div_pow2. change (2 ^ 1) with 2.
      assert (Q : tp / 2 <> 0) by lia. rewrite IH; [|exact Q|lia].
      f_equal. rewrite <- N.add_assoc. f_equal.
      assert (T : N.log2 tp = N.succ (N.log2 (tp / 2))).
      { rewrite <- N.div2_div, N.div2_spec, N.log2_shiftr.
        assert (1 <= N.log2 tp) by (change 1 with (N.log2 2); apply N.log2_le_mono; lia). lia. }
      lia.
    + assert (tp = 1) as -> by lia. change (N.log2 1) with 0. f_equal. lia.
Qed.

Theorem C06_repaired : forall width x,
  In width [8; 16; 32; 64]%nat -> x < 2 ^ N.of_nat width ->
  match x with
  | 0 => exists e, floor_log2_repaired width x = Err e
  | _ => floor_log2_repaired width x = Ok (N.log2 x)
  end.
Proof.
  intros width x _ H. unfold floor_log2_repaired. destruct x as [|p]; [eexists; reflexivity|].
  rewrite log2_loop_repaired; [reflexivity|discriminate|exact H].
Qed.
Print Assumptions C06_repaired.
Example C06_repaired_case : floor_log2_repaired 64 1024 = Ok 10.
Proof. reflexivity. Qed.

(** ** Packet numbers, with room for twice the distance in at most four bytes
    (RFC 9000 section 17.1; connection.rs:34-56 leaves room for the distance). *)
Definition truncate_repaired (pn : N) (largest_ack : option N) : outcome (list N) :=
  match largest_ack with
  | None =>
      if 0x7fffffff <? pn
      then Err (InternalError "too few bytes to encode truncated packet number")
      else Ok (be_bytes 4 (cast 32 pn))
  | Some x =>
      if pn <=? x
      then Err (InternalError "Cannot truncate packet number smaller than largest acknowledged packet number")
      else
        let? bit_len := floor_log2 64 (2 * (pn - x)) in
        let byte_len := bit_len / 8 + (if bit_len mod 8 =? 0 then 0 else 1) in
        if 4 <? byte_len then Err (InternalError "too few bytes to encode truncated packet number")
        else Ok (skipn (N.to_nat (8 - byte_len)) (be_bytes 8 pn))
  end.

Theorem C99_repaired : forall pn la, pn < 2 ^ 62 ->
  (forall b largest, truncate_repaired pn la = Ok b -> waits_for la largest pn -> rfc_decode_pn largest b = pn) /\ (match la with Some x => x < pn /\ pn - x < 2 ^ 31 | None => pn < 2 ^ 31 end -> exists b, truncate_repaired pn la = Ok b).
Proof.
  intros pn la U. destruct la as [x|]; cbn [truncate_repaired].
  - destruct (N.leb_spec pn x) as [L|L]; [split; [discriminate|intros [Q _]; lia]|].
    rewrite floor_log2_spec by (change (2 ^ N.of_nat 64) with (2 ^ 64); pows; lia). cbn [bind].
    assert (B : 2 ^ N.log2 (2 * (pn - x)) <= 2 * (pn - x) < 2 ^ (N.log2 (2 * (pn - x)) + 1)).
    { rewrite N.add_1_r. apply N.log2_spec. lia. }
    remember (N.log2 (2 * (pn - x))) as g eqn:G.
    remember ((g + 1) / 8 + (if (g + 1) mod 8 =? 0 then 0 else 1)) as n eqn:En.
    assert (N1 : 1 <= n /\ 8 * (n - 1) <= g /\ g + 1 <= 8 * n).
    { subst n. clear G B. destruct (N.eqb_spec ((g + 1) mod 8) 0); lia. }
    split.
    + intros b largest E W. destruct (N.ltb_spec 4 n) as [|N4]; [discriminate|]. injection E as <-.
      replace (N.to_nat (8 - n)) with (8 - N.to_nat n)%nat by lia. rewrite skipn_be_bytes by lia.
      destruct largest as [y|]; [|destruct W]. cbn in W.
      assert (LB : len (be_bytes (N.to_nat n) pn) = n) by (rewrite be_bytes_len; lia).
      apply C100_rfc_reads; [|lia| |exact U].
      * split; [lia|]. split; [apply be_bytes_ok|]. rewrite be_val_be_bytes, LB, N2Nat.id. reflexivity.
      * rewrite LB. apply N.le_lt_trans with (2 * (pn - x)); [lia|]. change 256 with (2 ^ 8). rewrite <- N.pow_mul_r.
        eapply N.lt_le_trans; [apply B|]. apply N.pow_le_mono_r; lia.
    + intros [_ D]. destruct (N.ltb_spec 4 n) as [N4|]; [exfalso|eexists; reflexivity].
      assert (G2 : g < 32) by (subst g; apply N.log2_lt_pow2; [lia|pows; lia]). lia.
  - destruct (N.ltb_spec 0x7fffffff pn) as [L|L]; [split; [discriminate|pows; lia]|].
    split; [|eexists; reflexivity]. intros b largest E W. injection E as <-.
    assert (C : cast 32 pn = pn) by (unfold cast; apply N.mod_small; pows; lia). rewrite C.
    assert (LB : len (be_bytes 4 pn) = 4) by apply be_bytes_len.
    apply decode_field; [|rewrite LB; change (256 ^ 4 / 2) with 2147483648..|exact U].
    + split; [lia|]. split; [apply be_bytes_ok|]. rewrite be_val_be_bytes, LB. reflexivity.
    + destruct largest as [y|]; cbn in W; lia.
    + destruct largest as [y|]; cbn in W; lia.
Qed.
Print Assumptions C99_repaired.
Example C99_repaired_case : truncate_repaired 1200 (Some 1000) = Ok [0x04; 0xb0] /\ rfc_decode_pn (Some 1000) [0x04; 0xb0] = 1200 /\ waits_for (Some 1000) (Some 1000) 1200.
Proof. repeat split; vm_compute; congruence. Qed.
