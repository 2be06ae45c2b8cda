(** The crate built with and without overflow checks. *)
From Verif Require Import Base Utils Frame CipherSuite Secrets Connection Packet Histories Spec SpecPacket
  Tactics UtilsFacts ParserFacts FrameFacts SecretsFacts HeaderFacts PacketFacts PacketInv ConnectionFacts DecodeFacts.

(** [agrees a b]: [b] is the same result as [a], except that where [a] panics
    [b] may panic with another message or report an error; it never succeeds. *)
Definition agrees {A} (a b : outcome A) : Prop :=
  a = b \/ ((exists w, a = Panic w) /\ ((exists w, b = Panic w) \/ (exists e, b = Err e))).

Definition same_secrets (P : prims) (a b : option secrets) : Prop :=
  match a, b with
  | None, None => True
  | Some s, Some s' => exists k, secrets_keys P true s k /\ secrets_keys P false s' k
  | _, _ => False
  end.

(** The same connection in a build with overflow checks ([c]) and in one
    without ([c']). *)
Record twins (P : prims) (c c' : connection) : Prop := Twins {
  tw_version : c_version c = c_version c';
  tw_dcid : c_dcid c = c_dcid c';
  tw_scid : c_scid c = c_scid c';
  tw_remote_ack : forall sp, largest_remote_ack (borrow_pn_info c sp) = None /\
                             largest_remote_ack (borrow_pn_info c' sp) = None;
  tw_local_ack : forall sp, largest_local_ack (borrow_pn_info c sp) = largest_local_ack (borrow_pn_info c' sp);
  tw_next : forall sp, next_pn (borrow_pn_info c sp) = next_pn (borrow_pn_info c' sp);
  tw_local : forall sp, same_secrets P (local_tls_secrets (borrow_pn_info c sp)) (local_tls_secrets (borrow_pn_info c' sp));
  tw_remote : forall sp, same_secrets P (remote_tls_secrets (borrow_pn_info c sp)) (remote_tls_secrets (borrow_pn_info c' sp)) }.

Lemma agrees_refl {A} (a : outcome A) : agrees a a.
Proof. left. reflexivity. Qed.

Lemma agrees_bind {A B} (m m' : outcome A) (k k' : A -> outcome B) :
  agrees m m' -> (forall x, m = Ok x -> agrees (k x) (k' x)) -> agrees (bind m k) (bind m' k').
Proof.
  intros [-> |[[w ->] H]] K.
  - destruct m' as [x|e|w|]; cbn [bind]; try apply agrees_refl. apply K. reflexivity.
  - right. cbn [bind]. split; [eauto|]. destruct H as [[v ->]|[e ->]]; cbn [bind]; eauto.
Qed.

Lemma var_int_with_bytes_oc s : bytes_ok s ->
  var_int_with_bytes_from_stream true s = var_int_with_bytes_from_stream false s.
Proof.
  intros Hs. destruct s as [|b s]; [reflexivity|].
  apply bytes_ok_cons in Hs as [Hb Hs]. rewrite !var_int_with_bytes_cons by auto. reflexivity.
Qed.

(** ** Receiving *)
Lemma remote_mask_twin P c c' sp s : twins P c c' ->
  get_remote_hp_mask c sp s = get_remote_hp_mask c' sp s.
Proof.
  intros T. pose proof (tw_remote _ _ _ T sp) as R. unfold get_remote_hp_mask, borrow_remote_tls_secrets.
  destruct (remote_tls_secrets (borrow_pn_info c sp)) as [a|], (remote_tls_secrets (borrow_pn_info c' sp)) as [b|];
    try contradiction; [|reflexivity].
  destruct R as [k [[A1 [A2 [A3 [A4 _]]]] [B1 [B2 [B3 [B4 _]]]]]]. cbn [ok_or bind].
  unfold get_header_protection_mask. rewrite A1, B1, A4, B4. reflexivity.
Qed.

Lemma remote_mask_bytes P c c' sp s mask : prims_ok P -> twins P c c' ->
  get_remote_hp_mask c sp s = Ok mask -> len mask = 5 /\ bytes_ok mask.
Proof.
  intros HP T E. pose proof (tw_remote _ _ _ T sp) as R.
  destruct (remote_tls_secrets (borrow_pn_info c sp)) as [a|] eqn:EA.
  2:{ rewrite no_keys_mask in E by auto. discriminate E. }
  destruct (remote_tls_secrets (borrow_pn_info c' sp)); [|contradiction].
  destruct R as [k [K _]]. assert (K' : remote_keys P true c sp k) by (exists a; auto).
  destruct (N.lt_ge_cases (len s) 16) as [L|L].
  - rewrite (remote_mask_short _ _ _ _ _ _ K' L) in E. discriminate E.
  - destruct (remote_mask _ _ _ _ _ _ HP K' L) as [m0 [m [more [Em [Lm [Bm _]]]]]].
    rewrite Em in E. injection E as <-. split; [rewrite len_cons; lia|auto].
Qed.

Lemma decrypt_twin P c c' sp data ad pn : prims_ok P -> twins P c c' -> bytes_ok data -> len data < 2 ^ 63 -> pn < 2 ^ 64 ->
  agrees (decrypt_remote_payload c sp data ad pn) (decrypt_remote_payload c' sp data ad pn) /\
  forall pt, decrypt_remote_payload c sp data ad pn = Ok pt -> bytes_ok pt.
Proof.
  intros HP T B LD Hpn. pose proof (tw_remote _ _ _ T sp) as R. unfold decrypt_remote_payload, borrow_remote_tls_secrets.
  destruct (remote_tls_secrets (borrow_pn_info c sp)) as [a|], (remote_tls_secrets (borrow_pn_info c' sp)) as [b|];
    try contradiction; [|split; [apply agrees_refl|discriminate]].
  destruct R as [k [Ka Kb]]. cbn [ok_or bind]. destruct (N.lt_ge_cases (len data) 16) as [L|L].
  - destruct (decrypt_payload_short _ _ _ _ _ ad _ Ka Hpn L) as [w Ew].
    destruct (decrypt_payload_short _ _ _ _ _ ad _ Kb Hpn L) as [w' Ew']. rewrite Ew, Ew'.
    split; [right; eauto|discriminate].
  - destruct (decrypt_payload_split _ _ _ _ _ ad _ Ka Hpn L) as [n [ct [tag [Hn [Ed [Lt E]]]]]].
    destruct (decrypt_payload_split _ _ _ _ _ ad _ Kb Hpn L) as [n' [ct' [tag' [Hn' [Ed' [Lt' E']]]]]].
    rewrite (nonce_for_fun _ _ _ _ Hn' Hn) in E'.
    assert (ct' = ct /\ tag' = tag) as [-> ->].
    { rewrite Ed in Ed'. assert (len ct = len ct') by (apply (f_equal len) in Ed'; rewrite !len_app in Ed'; lia).
      apply cons_app_inj in Ed' as [-> ->]; auto. apply len_length; auto. }
    rewrite E, E'. split; [apply agrees_refl|]. intros pt Ho.
    destruct (p_gcm_open P (k_key k) n ad ct tag) eqn:Eo; [|discriminate Ho]. injection Ho as <-.
    destruct Ka as [_ [_ [_ [_ [K1 [K2 [K3 K4]]]]]]]. rewrite Ed in B. apply bytes_ok_app in B as [B1 B2].
    assert (Ln : len n = 12) by (destruct Hn as [_ [Hn _]]; congruence).
    exact (proj1 (auth_law P HP _ _ _ _ _ _ K1 Ln B1 B2 Lt Eo)).
Qed.

Lemma tame_rest {A} w (p : parser A) s x r : tame w p -> bytes_ok s -> p s = Ok (x, r) ->
  bytes_ok r /\ len r <= len s.
Proof.
  intros T B E. specialize (T s B). rewrite E in T. destruct T as [c [-> _]].
  apply bytes_ok_app in B as [_ B]. rewrite len_app. split; [auto|lia].
Qed.

Lemma tame_long b : tame (fun _ => 0) (long_from_stream b).
Proof.
  intros s B. destruct (long_total b s B) as [[h [r E]]|[e E]]; rewrite E; [|exact I].
  destruct (long_inv _ _ _ _ B E) as [_ [[_ [_ [_ [bs [-> _]]]]]|[_ [_ [v [d [sc [-> _]]]]]]]].
  - exists bs. split; [reflexivity|lia].
  - exists (v ++ len d :: d ++ len sc :: sc). split; [|lia]. rewrite <- !app_assoc. cbn [app].
    rewrite <- app_assoc. reflexivity.
Qed.

(** The unsigned subtraction [length - pn_length] and the read that follows. *)
Lemma read_twin {B} L pnl s (k k' : list N * stream -> outcome B) : pnl <= 4 -> len s < 2 ^ 63 -> bytes_ok s ->
  (forall data r, bytes_ok data -> len data < 2 ^ 63 -> agrees (k (data, r)) (k' (data, r))) ->
  agrees (let? n := sub64 true L pnl in let? x := var_bytes_from_stream n s in k x)
         (let? n := sub64 false L pnl in let? x := var_bytes_from_stream n s in k' x).
Proof.
  intros HP LS B0 K. unfold sub64. destruct (N.leb_spec pnl L); cbn [bind].
  - apply agrees_bind; [apply agrees_refl|]. intros [data r] E.
    apply var_bytes_inv in E as [-> _]. apply bytes_ok_app in B0 as [B0 _]. rewrite len_app in LS.
    apply K; [auto|lia].
  - right. split; [eauto|]. right. rewrite var_bytes_spec.
    destruct (N.leb_spec (L + two64 - pnl) (len s)); [|cbn [bind]; eauto]. rewrite two64_eq in *. pows. lia.
Qed.

Lemma reconstruct_twin P c c' sp bs : twins P c c' ->
  reconstruct_remote_pn true c sp bs = reconstruct_remote_pn false c' sp bs.
Proof.
  intros T. destruct (tw_remote_ack _ _ _ T sp) as [A B]. unfold reconstruct_remote_pn. rewrite A, B. reflexivity.
Qed.

(** What is left once the packet number is known. *)
Lemma payload_twin {A} P c c' sp data ad pn (k : list frame -> outcome A) :
  prims_ok P -> twins P c c' -> bytes_ok data -> len data < 2 ^ 63 -> pn < 2 ^ 64 ->
  agrees (let? pt := decrypt_remote_payload c sp data ad pn in let? fs := deserialize_frames true pt in k fs)
         (let? pt := decrypt_remote_payload c' sp data ad pn in let? fs := deserialize_frames false pt in k fs).
Proof.
  intros HP T B L Hpn. destruct (decrypt_twin P c c' sp data ad pn HP T B L Hpn) as [G O].
  apply agrees_bind; [exact G|]. intros pt E. rewrite deserialize_frames_oc by eauto. apply agrees_refl.
Qed.

Lemma xored_pn bs mask r n pn c sp : bytes_ok bs -> len bs = 4 -> len mask = 5 -> bytes_ok mask ->
  xor_pn_protection bs mask = Ok r -> no_remote_ack c sp ->
  reconstruct_remote_pn true c sp (firstn n r) = Ok pn -> pn < 2 ^ 64.
Proof.
  intros B L LM BM E NA R. rewrite xor_pn_spec in E; [|rewrite L; apply N.le_refl|exact LM]. injection E as <-.
  set (r := xor_bytes bs (skipn 1 mask)) in *.
  assert (Br : bytes_ok (firstn n r)) by (apply bytes_ok_firstn, xor_bytes_ok; [auto|apply bytes_ok_skipn; auto]).
  assert (Lr : len (firstn n r) <= 4).
  { assert (len r = 4) by (unfold r; rewrite xor_bytes_len; [auto|unfold len in *; rewrite skipn_length; lia]).
    unfold len in *. rewrite firstn_length. lia. }
  rewrite reconstruct_none in R by auto. injection R as <-.
  eapply N.lt_trans; [exact (pnb_bound _ Br Lr)|reflexivity].
Qed.

Ltac same_read := apply agrees_bind; [apply agrees_refl|].

(** From the packet number field on. *)
Lemma long_tail_twin {A} P c c' sp h L s (ad : N -> list N -> list N -> list N)
  (whole : bool) (k : long_header -> list N -> N -> list frame -> stream -> outcome A) :
  prims_ok P -> twins P c c' -> bytes_ok s -> len s < 2 ^ 63 ->
  agrees
    (let? (pn_protected, s) := var_bytes_from_stream 4 s in
     let? mask := get_remote_hp_mask c sp s in
     let? header := long_remove_protection h mask in
     let? pn_length := long_packet_number_length header in
     let? pn_protected := xor_pn_protection pn_protected mask in
     let pn_bytes := firstn (N.to_nat pn_length) pn_protected in
     let? packet_number := reconstruct_remote_pn true c sp (if whole then pn_protected else pn_bytes) in
     let? n := sub64 true L pn_length in
     let? (data, s) := var_bytes_from_stream n s in
     let? hb := long_to_bytes header in
     let? pt := decrypt_remote_payload c sp data (ad pn_length hb pn_bytes) packet_number in
     let? payload := deserialize_frames true pt in
     k header pn_bytes packet_number payload s)
    (let? (pn_protected, s) := var_bytes_from_stream 4 s in
     let? mask := get_remote_hp_mask c' sp s in
     let? header := long_remove_protection h mask in
     let? pn_length := long_packet_number_length header in
     let? pn_protected := xor_pn_protection pn_protected mask in
     let pn_bytes := firstn (N.to_nat pn_length) pn_protected in
     let? packet_number := reconstruct_remote_pn false c' sp (if whole then pn_protected else pn_bytes) in
     let? n := sub64 false L pn_length in
     let? (data, s) := var_bytes_from_stream n s in
     let? hb := long_to_bytes header in
     let? pt := decrypt_remote_payload c' sp data (ad pn_length hb pn_bytes) packet_number in
     let? payload := deserialize_frames false pt in
     k header pn_bytes packet_number payload s).
Proof.
  intros HP T B LS. same_read. intros [pn s1] E. apply var_bytes_inv in E as [-> L4].
  apply bytes_ok_app in B as [Bp B]. rewrite len_app in LS. cbv beta iota.
  rewrite <- (remote_mask_twin P c c' sp s1 T). same_read. intros mask Em.
  destruct (remote_mask_bytes P c c' sp s1 mask HP T Em) as [LM BM].
  same_read. intros h1 E1. same_read. intros pnl E2. same_read. intros r Er. cbv zeta.
  rewrite <- (reconstruct_twin P c c' sp _ T). same_read. intros pnum En.
  assert (Hn : pnum < 2 ^ 64).
  { destruct whole.
    - rewrite <- (firstn_all r) in En. exact (xored_pn _ _ _ _ _ _ _ Bp L4 LM BM Er (proj1 (tw_remote_ack _ _ _ T sp)) En).
    - exact (xored_pn _ _ _ _ _ _ _ Bp L4 LM BM Er (proj1 (tw_remote_ack _ _ _ T sp)) En). }
  assert (Hl : pnl <= 4).
  { unfold long_packet_number_length in E2. destruct (lh_protected h1); [discriminate E2|]. injection E2 as <-.
    pose proof (land3_le (lh_byte h1)). lia. }
  apply read_twin; auto; [lia|]. intros data r' Bd Ld. cbv beta iota. same_read. intros hb _.
  apply (payload_twin P); auto.
Qed.

Lemma with_bytes_rest oc s x bs r : bytes_ok s -> var_int_with_bytes_from_stream oc s = Ok ((x, bs), r) ->
  bytes_ok r /\ len r <= len s.
Proof.
  intros B E. apply varint_dec_inv in E as [-> _]; auto. apply bytes_ok_app in B as [_ B].
  rewrite len_app. split; [auto|lia].
Qed.

Lemma initial_twin P c c' s : prims_ok P -> twins P c c' -> bytes_ok s -> len s < 2 ^ 63 ->
  agrees (initial_from_stream true c s) (initial_from_stream false c' s).
Proof.
  intros HP T B LS. unfold initial_from_stream.
  same_read. intros [b s1] E1. destruct (tame_rest _ _ _ _ _ tame_u8 B E1) as [B1 L1]. cbv beta iota.
  same_read. intros [h s2] E2. destruct (tame_rest _ _ _ _ _ (tame_long b) B1 E2) as [B2 L2]. cbv beta iota.
  rewrite <- var_int_with_bytes_oc by auto.
  same_read. intros [[tl tlb] s3] E3. destruct (with_bytes_rest _ _ _ _ _ B2 E3) as [B3 L3]. cbv beta iota.
  same_read. intros [tok s4] E4. destruct (tame_rest _ _ _ _ _ (tame_var_bytes tl) B3 E4) as [B4 L4]. cbv beta iota.
  rewrite <- var_int_with_bytes_oc by auto.
  same_read. intros [[ln lnb] s5] E5. destruct (with_bytes_rest _ _ _ _ _ B4 E5) as [B5 L5]. cbv beta iota.
  apply (long_tail_twin P c c' SpInitial h ln s5 (fun _ hb pnb => hb ++ tlb ++ tok ++ lnb ++ pnb) false
    (fun header pnb pn fs s => let? _ := validate_payload fs in Ok (PacketInitial header tok pn pnb fs, s))); auto. lia.
Qed.

Lemma handshake_twin P c c' s : prims_ok P -> twins P c c' -> bytes_ok s -> len s < 2 ^ 63 ->
  agrees (handshake_from_stream true c s) (handshake_from_stream false c' s).
Proof.
  intros HP T B LS. unfold handshake_from_stream.
  same_read. intros [b s1] E1. destruct (tame_rest _ _ _ _ _ tame_u8 B E1) as [B1 L1]. cbv beta iota.
  same_read. intros [h s2] E2. destruct (tame_rest _ _ _ _ _ (tame_long b) B1 E2) as [B2 L2]. cbv beta iota.
  rewrite <- var_int_with_bytes_oc by auto.
  same_read. intros [[ln lnb] s5] E5. destruct (with_bytes_rest _ _ _ _ _ B2 E5) as [B5 L5]. cbv beta iota.
  apply (long_tail_twin P c c' SpHandshake h ln s5 (fun _ hb pnb => hb ++ lnb ++ pnb) true
    (fun header pnb pn fs s => Ok (PacketHandshake header pnb pn fs, s))); auto. lia.
Qed.

Lemma zero_rtt_twin P c c' s : prims_ok P -> twins P c c' -> bytes_ok s -> len s < 2 ^ 63 ->
  agrees (zero_rtt_from_stream true c s) (zero_rtt_from_stream false c' s).
Proof.
  intros HP T B LS. unfold zero_rtt_from_stream.
  same_read. intros [b s1] E1. destruct (tame_rest _ _ _ _ _ tame_u8 B E1) as [B1 L1]. cbv beta iota.
  same_read. intros [h s2] E2. destruct (tame_rest _ _ _ _ _ (tame_long b) B1 E2) as [B2 L2]. cbv beta iota.
  rewrite <- var_int_with_bytes_oc by auto.
  same_read. intros [[ln lnb] s5] E5. destruct (with_bytes_rest _ _ _ _ _ B2 E5) as [B5 L5]. cbv beta iota.
  apply (long_tail_twin P c c' SpApplication h ln s5 (fun pnl hb pnb => hb ++ lnb ++ firstn (N.to_nat pnl) pnb) false
    (fun header pnb pn fs s => Ok (PacketZeroRtt header ln pnb pn fs, s))); auto. lia.
Qed.

Lemma one_rtt_twin P c c' s : prims_ok P -> twins P c c' -> bytes_ok s -> len s < 2 ^ 63 ->
  agrees (one_rtt_from_stream true c s) (one_rtt_from_stream false c' s).
Proof.
  intros HP T B LS. unfold one_rtt_from_stream.
  same_read. intros [b s1] E1. destruct (tame_rest _ _ _ _ _ tame_u8 B E1) as [B1 L1]. cbv beta iota.
  same_read. intros [h s2] E2. destruct (short_inv _ _ _ _ B1 E2) as [d [-> _]].
  apply bytes_ok_app in B1 as [_ B2]. rewrite len_app in L1. cbv beta iota.
  same_read. intros [pn s3] E. apply var_bytes_inv in E as [-> L4].
  apply bytes_ok_app in B2 as [Bp B3]. rewrite len_app in L1. cbv beta iota.
  rewrite <- (remote_mask_twin P c c' _ s3 T). same_read. intros mask Em.
  destruct (remote_mask_bytes P c c' _ s3 mask HP T Em) as [LM BM].
  same_read. intros h1 _. same_read. intros pnl E3. same_read. intros r Er. cbv zeta.
  rewrite <- (reconstruct_twin P c c' _ _ T). same_read. intros pnum En.
  assert (Hn : pnum < 2 ^ 64) by (exact (xored_pn _ _ _ _ _ _ _ Bp L4 LM BM Er (proj1 (tw_remote_ack _ _ _ T SpApplication)) En)).
  unfold all_bytes_from_stream. cbn [bind]. same_read. intros hb _. apply (payload_twin P); auto. lia.
Qed.

Lemma decode_next_twin P c c' s : prims_ok P -> twins P c c' -> bytes_ok s -> len s < 2 ^ 63 ->
  agrees (decode_next_packet true c s) (decode_next_packet false c' s).
Proof.
  intros HP T B LS. unfold decode_next_packet. same_read. intros [[h|h] r] _; cbv beta iota.
  - apply agrees_bind; [eapply one_rtt_twin; eauto|]. intros [p q] _. apply agrees_refl.
  - same_read. intros t _. destruct t; try apply agrees_refl.
    all: apply agrees_bind; [|intros [p q] _; apply agrees_refl].
    + eapply initial_twin; eauto.
    + eapply zero_rtt_twin; eauto.
    + eapply handshake_twin; eauto.
Qed.

(** What is left over is part of the input. *)
Ltac opened H := repeat (apply bind_ok in H as [? [? H]];
  repeat match goal with x : prod _ _ |- _ => destruct x end; cbv beta iota zeta in H).

Lemma decode_next_rest oc c s p r : bytes_ok s -> decode_next_packet oc c s = Ok (p, r) ->
  bytes_ok r /\ len r <= len s.
Proof.
  intros B H. unfold decode_next_packet in H. apply bind_ok in H as [[hd r0] [_ H]].
  assert (U : forall x q, u8_from_datagram s = Ok (x, q) -> bytes_ok q /\ len q <= len s)
    by (intros x q E; eapply tame_rest; [apply tame_u8|auto|eauto]).
  assert (Lg : forall b q h q', bytes_ok q -> long_from_stream b q = Ok (h, q') -> bytes_ok q' /\ len q' <= len q)
    by (intros b q h q' Bq E; eapply tame_rest; [apply tame_long|auto|eauto]).
  assert (V : forall n q x q', bytes_ok q -> var_bytes_from_stream n q = Ok (x, q') -> bytes_ok q' /\ len q' <= len q)
    by (intros n q x q' Bq E; eapply tame_rest; [apply tame_var_bytes|auto|eauto]).
  assert (I : forall q x bs q', bytes_ok q -> var_int_with_bytes_from_stream oc q = Ok ((x, bs), q') -> bytes_ok q' /\ len q' <= len q)
    by (intros q x bs q' Bq E; eapply with_bytes_rest; eauto).
  destruct hd as [h|h].
  - apply bind_ok in H as [[q r'] [H1 H]]. injection H as <- <-. unfold one_rtt_from_stream in H1.
    opened H1. injection H1 as <- <-.
    match goal with E : all_bytes_from_stream _ = _ |- _ => injection E as <- <- end.
    change (len []) with 0. split; [constructor|lia].
  - apply bind_ok in H as [t [_ H]]. destruct t; try discriminate H.
    all: apply bind_ok in H as [[q r'] [H1 H]]; injection H as <- <-.
    1:{ unfold vn_from_stream in H1. opened H1. destruct (negb _); [discriminate H1|]. opened H1. injection H1 as <- <-.
        match goal with E : all_bytes_from_stream _ = _ |- _ => injection E as <- <- end.
        change (len []) with 0. split; [constructor|lia]. }
    all: unfold initial_from_stream, zero_rtt_from_stream, handshake_from_stream in H1; opened H1; injection H1 as <- <-.
    all: repeat match goal with
      | E : u8_from_datagram _ = Ok _ |- _ => apply U in E as [? ?]
      | Bq : bytes_ok ?q, E : long_from_stream _ ?q = Ok _ |- _ => apply (Lg _ _ _ _ Bq) in E as [? ?]
      | Bq : bytes_ok ?q, E : var_bytes_from_stream _ ?q = Ok _ |- _ => apply (V _ _ _ _ Bq) in E as [? ?]
      | Bq : bytes_ok ?q, E : var_int_with_bytes_from_stream _ ?q = Ok _ |- _ => apply (I _ _ _ _ Bq) in E as [? ?]
      end.
    all: split; [assumption|lia].
Qed.

Lemma decode_loop_twin P c c' f : prims_ok P -> twins P c c' -> forall s, bytes_ok s -> len s < 2 ^ 63 ->
  agrees (decode_packets_loop true c f s) (decode_packets_loop false c' f s).
Proof.
  intros HP T. induction f as [|f IH]; intros s B L; destruct s as [|b s]; try apply agrees_refl.
  cbn [decode_packets_loop]. apply agrees_bind; [eapply decode_next_twin; eauto|]. intros [p r] E.
  destruct (decode_next_rest _ _ _ _ _ B E) as [Br Lr].
  apply agrees_bind; [apply IH; auto; lia|]. intros ps _. apply agrees_refl.
Qed.

(** ** Sending *)
Lemma next_pn_twin P c c' sp : twins P c c' -> next_pn (borrow_pn_info c sp) + 1 < 2 ^ 64 ->
  twins P (fst (get_next_pn true c sp)) (fst (get_next_pn false c' sp)) /\
  snd (get_next_pn true c sp) = snd (get_next_pn false c' sp).
Proof.
  intros T L. pose proof (tw_next _ _ _ T sp) as EN. pose proof (tw_local_ack _ _ _ T sp) as EA.
  unfold get_next_pn. rewrite <- EN. rewrite !add64_ok by auto. cbn [fst snd largest_local_ack]. rewrite EA.
  split; [|reflexivity].
  destruct T as [T1 T2 T3 T4 T5 T6 T7 T8]. constructor.
  1-3: destruct sp; cbn; auto.
  all: intros sp'.
  - specialize (T4 sp'). destruct sp, sp'; cbn in *; auto.
  - specialize (T5 sp'). destruct sp, sp'; cbn in *; auto.
  - specialize (T6 sp'). destruct sp, sp'; cbn in *; auto.
  - specialize (T7 sp'). destruct sp, sp'; cbn in *; auto.
  - specialize (T8 sp'). destruct sp, sp'; cbn in *; auto.
Qed.

Lemma header_twin P c c' b : twins P c c' -> long_from_connection c b = long_from_connection c' b.
Proof.
  intros T. unfold long_from_connection, get_dcid, get_scid, get_version_field.
  rewrite (tw_dcid _ _ _ T), (tw_scid _ _ _ T), (tw_version _ _ _ T). reflexivity.
Qed.

Lemma initial_new_twin P c c' fs tok : twins P c c' -> next_pn (initial_pn_info c) + 1 < 2 ^ 64 ->
  twins P (fst (initial_new true fs tok c)) (fst (initial_new false fs tok c')) /\
  snd (initial_new true fs tok c) = snd (initial_new false fs tok c').
Proof.
  intros T L. destruct (next_pn_twin P c c' SpInitial T L) as [T' E]. unfold initial_new.
  destruct (get_next_pn true c SpInitial) as [c1 r1], (get_next_pn false c' SpInitial) as [c2 r2].
  cbn [fst snd] in *. subst r2. split; [auto|]. destruct r1 as [[n bs]| | |]; cbn [bind]; try reflexivity.
  destruct (negb _); [reflexivity|]. rewrite (header_twin P c1 c2) by auto. reflexivity.
Qed.

Lemma handshake_new_twin P c c' fs : twins P c c' -> next_pn (handshake_pn_info c) + 1 < 2 ^ 64 ->
  twins P (fst (handshake_new true fs c)) (fst (handshake_new false fs c')) /\
  snd (handshake_new true fs c) = snd (handshake_new false fs c').
Proof.
  intros T L. destruct (next_pn_twin P c c' SpHandshake T L) as [T' E]. unfold handshake_new.
  destruct (get_next_pn true c SpHandshake) as [c1 r1], (get_next_pn false c' SpHandshake) as [c2 r2].
  cbn [fst snd] in *. subst r2. split; [auto|]. destruct r1 as [[n bs]| | |]; cbn [bind]; try reflexivity.
  destruct (negb _); [reflexivity|]. rewrite (header_twin P c1 c2) by auto. reflexivity.
Qed.

Lemma local_twin P c c' sp : twins P c c' ->
  (forall n, n < 2 ^ 63 -> get_local_protected_payload_len true c sp n = get_local_protected_payload_len false c' sp n) /\
  (forall pt ad pn, encrypt_local_payload c sp pt ad pn = encrypt_local_payload c' sp pt ad pn) /\
  (forall s, get_local_hp_mask c sp s = get_local_hp_mask c' sp s).
Proof.
  intros T. pose proof (tw_local _ _ _ T sp) as R.
  unfold get_local_protected_payload_len, encrypt_local_payload, get_local_hp_mask, borrow_local_tls_secrets.
  destruct (local_tls_secrets (borrow_pn_info c sp)) as [a|], (local_tls_secrets (borrow_pn_info c' sp)) as [b|];
    try contradiction; [|repeat split].
  destruct R as [k [[A1 [A2 [A3 [A4 _]]]] [B1 [B2 [B3 [B4 _]]]]]]. cbn [ok_or bind]. repeat split; intros.
  - unfold get_protected_payload_len. rewrite A1, B1. unfold cs_get_protected_payload_len.
    cbn [cs_tag_len TLS13_AES_128_GCM_SHA256]. unfold AES_128_GCM_TAG_LEN. rewrite !add64_ok by (pows; lia). reflexivity.
  - unfold encrypt_payload, make_iv. rewrite A1, B1, A2, B2, A3, B3. reflexivity.
  - unfold get_header_protection_mask. rewrite A1, B1, A4, B4. reflexivity.
Qed.

Lemma long_pnl h n : long_packet_number_length h = Ok n -> n <= 4.
Proof.
  unfold long_packet_number_length. destruct (lh_protected h); [intros H; discriminate H|]. intros H. injection H as <-.
  pose proof (land3_le (lh_byte h)). lia.
Qed.

Lemma tag_len P c c' sp n m : twins P c c' -> n < 2 ^ 63 ->
  get_local_protected_payload_len true c sp n = Ok m -> m = n + 16.
Proof.
  intros T L. pose proof (tw_local _ _ _ T sp) as R. unfold get_local_protected_payload_len, borrow_local_tls_secrets.
  destruct (local_tls_secrets (borrow_pn_info c sp)) as [a|], (local_tls_secrets (borrow_pn_info c' sp)) as [b|];
    try contradiction; [|intros H; discriminate H].
  destruct R as [k [[A1 _] _]]. cbn [ok_or bind]. unfold get_protected_payload_len. rewrite A1.
  unfold cs_get_protected_payload_len. cbn [cs_tag_len TLS13_AES_128_GCM_SHA256]. unfold AES_128_GCM_TAG_LEN.
  rewrite add64_ok by (pows; lia). intros H. injection H as <-. lia.
Qed.

Lemma initial_serialize_twin P c c' p : twins P c c' ->
  (forall bs, serialize_frames (pi_payload p) false = Ok bs -> len bs < 2 ^ 63) ->
  initial_serialize true p c = initial_serialize false p c'.
Proof.
  intros T HL. destruct (local_twin P c c' SpInitial T) as [T1 [T2 T3]]. unfold initial_serialize.
  destruct (serialize_frames (pi_payload p) false) as [bs| | |]; cbn [bind]; try reflexivity.
  specialize (HL bs eq_refl).
  destruct (long_packet_number_length (pi_header p)) as [n| | |] eqn:En; cbn [bind]; try reflexivity.
  apply long_pnl in En. rewrite <- T1 by auto.
  destruct (get_local_protected_payload_len true c SpInitial (len bs)) as [m| | |] eqn:Em; cbn [bind]; try reflexivity.
  rewrite (tag_len P c c' _ _ _ T HL Em). rewrite !add64_ok by (pows; lia). cbn [bind].
  destruct (encode_var_int (len bs + 16 + n)); cbn [bind]; try reflexivity.
  destruct (encode_var_int (len (pi_token p))); cbn [bind]; try reflexivity.
  destruct (long_to_bytes (pi_header p)); cbn [bind]; try reflexivity.
  rewrite T2. destruct (encrypt_local_payload c' SpInitial _ _ _); cbn [bind]; try reflexivity.
  destruct (slice_from _ _); cbn [bind]; try reflexivity. rewrite T3. reflexivity.
Qed.

Lemma handshake_serialize_twin P c c' p : twins P c c' ->
  (forall bs, serialize_frames (ph_payload p) false = Ok bs -> len bs < 2 ^ 63) ->
  handshake_serialize true p c = handshake_serialize false p c'.
Proof.
  intros T HL. destruct (local_twin P c c' SpHandshake T) as [T1 [T2 T3]]. unfold handshake_serialize.
  destruct (serialize_frames (ph_payload p) false) as [bs| | |]; cbn [bind]; try reflexivity.
  specialize (HL bs eq_refl).
  destruct (long_packet_number_length (ph_header p)) as [n| | |] eqn:En; cbn [bind]; try reflexivity.
  apply long_pnl in En. rewrite <- T1 by auto.
  destruct (get_local_protected_payload_len true c SpHandshake (len bs)) as [m| | |] eqn:Em; cbn [bind]; try reflexivity.
  rewrite (tag_len P c c' _ _ _ T HL Em). rewrite !add64_ok by (pows; lia). cbn [bind].
  destruct (encode_var_int (len bs + 16 + n)); cbn [bind]; try reflexivity.
  destruct (long_to_bytes (ph_header p)); cbn [bind]; try reflexivity.
  rewrite T2. destruct (encrypt_local_payload c' SpHandshake _ _ _); cbn [bind]; try reflexivity.
  destruct (slice_from _ _); cbn [bind]; try reflexivity. rewrite T3. reflexivity.
Qed.

(** ** Connections made and used alike in both builds *)
Lemma initial_keys_fun P srv cid a b : initial_keys P srv cid a -> initial_keys P srv cid b -> a = b.
Proof.
  intros [s [A1 [A2 [A3 A4]]]] [t [B1 [B2 [B3 B4]]]].
  rewrite (expand_label_fun _ _ _ _ _ _ B1 A1) in *. destruct a as [a1 a2 a3], b as [b1 b2 b3].
  cbn [k_key k_iv k_hp] in *. f_equal; eapply expand_label_fun; eauto.
Qed.

Lemma new_twin P srv d l c c' : prims_ok P -> connection_new P true srv V1 d l = Ok c ->
  connection_new P false srv V1 d l = Ok c' -> twins P c c'.
Proof.
  intros HP E E'. destruct (connection_new_inv _ _ _ _ _ _ _ HP E) as [I [S N0]].
  destruct (connection_new_inv _ _ _ _ _ _ _ HP E') as [I' [S' N0']].
  destruct (ci_keys _ _ _ _ _ _ I) as [cid [kl [kr [U [K1 [K2 [L R]]]]]]].
  destruct (ci_keys _ _ _ _ _ _ I') as [cid' [kl' [kr' [U' [K1' [K2' [L' R']]]]]]].
  assert (cid' = cid) as -> by congruence.
  rewrite (initial_keys_fun _ _ _ _ _ K1' K1) in L'. rewrite (initial_keys_fun _ _ _ _ _ K2' K2) in R'.
  constructor.
  - destruct (c_version c), (c_version c'). reflexivity.
  - rewrite (ci_dcid _ _ _ _ _ _ I), (ci_dcid _ _ _ _ _ _ I'). reflexivity.
  - congruence.
  - intros sp. split; [apply (ci_acks _ _ _ _ _ _ I)|apply (ci_acks _ _ _ _ _ _ I')].
  - intros sp. destruct (ci_acks _ _ _ _ _ _ I sp) as [_ ->]. destruct (ci_acks _ _ _ _ _ _ I' sp) as [_ ->]. reflexivity.
  - intros sp. rewrite N0, N0'. reflexivity.
  - intros sp. destruct sp.
    1:{ destruct L as [a [-> La]], L' as [b [-> Lb]]. cbn. eauto. }
    all: match goal with |- same_secrets _ (local_tls_secrets (borrow_pn_info _ ?sp)) _ =>
      destruct (ci_none _ _ _ _ _ _ I sp ltac:(discriminate)) as [-> _];
      destruct (ci_none _ _ _ _ _ _ I' sp ltac:(discriminate)) as [-> _]; exact Logic.I end.
  - intros sp. destruct sp.
    1:{ destruct R as [a [-> Ra]], R' as [b [-> Rb]]. cbn. eauto. }
    all: match goal with |- same_secrets _ (remote_tls_secrets (borrow_pn_info _ ?sp)) _ =>
      destruct (ci_none _ _ _ _ _ _ I sp ltac:(discriminate)) as [_ ->];
      destruct (ci_none _ _ _ _ _ _ I' sp ltac:(discriminate)) as [_ ->]; exact Logic.I end.
Qed.

Lemma next_grows oc c sp sp' : next_pn (borrow_pn_info c sp) + 1 < 2 ^ 64 ->
  next_pn (borrow_pn_info (fst (get_next_pn oc c sp)) sp') <= next_pn (borrow_pn_info c sp') + 1.
Proof.
  intros L. unfold get_next_pn. rewrite add64_ok by auto. cbn [fst].
  destruct sp, sp'; cbn in *; lia.
Qed.

Lemma call_twin P c c' x : twins P c c' -> (forall sp, next_pn (borrow_pn_info c sp) + 1 < 2 ^ 64) ->
  twins P (do_call true c x) (do_call false c' x) /\
  forall sp, next_pn (borrow_pn_info (do_call true c x) sp) <= next_pn (borrow_pn_info c sp) + 1.
Proof.
  intros T L. destruct x as [id n|sp|fs t|fs].
  - cbn [do_call]. split.
    + destruct T as [T1 T2 T3 T4 T5 T6 T7 T8]. constructor; cbn; auto.
    + intros sp. destruct sp; cbn; lia.
  - cbn [do_call]. split; [apply next_pn_twin; auto|intros; apply next_grows; auto].
  - rewrite !(do_call_pn _ _ (CInitial fs t) SpInitial) by eauto 8.
    split; [apply next_pn_twin; auto|intros; apply next_grows; auto].
  - rewrite !(do_call_pn _ _ (CHandshake fs) SpHandshake) by eauto 8.
    split; [apply next_pn_twin; auto|intros; apply next_grows; auto].
Qed.

Lemma run_twin P xs : forall c c', twins P c c' ->
  (forall sp, next_pn (borrow_pn_info c sp) + len xs < 2 ^ 64) ->
  twins P (run true c xs) (run false c' xs) /\
  forall sp, next_pn (borrow_pn_info (run true c xs) sp) <= next_pn (borrow_pn_info c sp) + len xs.
Proof.
  induction xs as [|x xs IH]; intros c c' T L; cbn [run].
  - split; [auto|]. intros. lia.
  - destruct (call_twin P c c' x T) as [T1 L1].
    { intros sp. specialize (L sp). rewrite len_cons in L. lia. }
    destruct (IH _ _ T1) as [T2 L2].
    { intros sp. specialize (L sp). specialize (L1 sp). rewrite len_cons in L. lia. }
    split; [auto|]. intros sp. specialize (L1 sp). specialize (L2 sp). rewrite len_cons. lia.
Qed.

Lemma issued_twin P xs : forall c c', twins P c c' ->
  (forall sp, next_pn (borrow_pn_info c sp) + len xs < 2 ^ 64) ->
  issued true c xs = issued false c' xs.
Proof.
  induction xs as [|x xs IH]; intros c c' T L; [reflexivity|]. cbn [issued].
  assert (L' : forall sp, next_pn (borrow_pn_info c sp) + 1 < 2 ^ 64).
  { intros sp. specialize (L sp). rewrite len_cons in L. lia. }
  destruct (call_twin P c c' x T L') as [T1 L1]. f_equal.
  - destruct x as [id n|sp|fs t|fs]; cbn [issued_by]; [reflexivity|..].
    + destruct (next_pn_twin P c c' sp T (L' sp)) as [_ ->]. reflexivity.
    + destruct (initial_new_twin P c c' fs t T (L' SpInitial)) as [_ ->]. reflexivity.
    + destruct (handshake_new_twin P c c' fs T (L' SpHandshake)) as [_ ->]. reflexivity.
  - apply IH; auto. intros sp. specialize (L sp). specialize (L1 sp). rewrite len_cons in L. lia.
Qed.
