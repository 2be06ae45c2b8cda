(** Properties C28-C32: connections, their keys and their packet numbers. *)
From Verif Require Import Base Utils Frame CipherSuite Secrets Connection Packet Histories Spec SpecPacket
  Tactics UtilsFacts ParserFacts SecretsFacts HeaderFacts PacketFacts ConnectionFacts PacketInv DecodeFacts
  CryptoInst PropCrypto.

(** ** C28: only Initial keys are ever installed. *)
Theorem C28_no_handshake_packet_leaves : forall P oc srv d l c p wire,
  prims_ok P -> reachable P oc srv d l c -> handshake_serialize oc p c <> Ok wire.
Proof.
  intros P oc srv d l c p wire HP R E. pose proof (reachable_inv P oc srv d l c HP R) as I.
  destruct (ci_none _ _ _ _ _ _ I SpHandshake ltac:(discriminate)) as [N _].
  unfold handshake_serialize in E. inv_bind.
  unfold get_local_protected_payload_len, borrow_local_tls_secrets in E2. rewrite N in E2. discriminate.
Qed.
Print Assumptions C28_no_handshake_packet_leaves.

Theorem C28_no_protected_packet_accepted : forall P oc srv d l c s,
  prims_ok P -> reachable P oc srv d l c -> bytes_ok s ->
  (forall p rest, decode_next_packet oc c s = Ok (p, rest) ->
     match p with PInitial _ | PVersionNegotiation _ => True | _ => False end) /\
  (announces s THandshake \/ announces s TZeroRtt \/ announces s TOneRtt ->
     exists e, decode_next_packet oc c s = Err e).
Proof.
  intros P oc srv d l c s HP R B. pose proof (reachable_inv P oc srv d l c HP R) as I.
  destruct (ci_none _ _ _ _ _ _ I SpHandshake ltac:(discriminate)) as [_ N1].
  destruct (ci_none _ _ _ _ _ _ I SpApplication ltac:(discriminate)) as [_ N2].
  destruct (handshake_no_keys oc c s B N1) as [e1 E1].
  destruct (zero_rtt_no_keys oc c s B N2) as [e2 E2].
  destruct (one_rtt_no_keys oc c s B N2) as [e3 E3].
  destruct (decode_next_cases oc c s B) as [[w [e [Eh E']]]|[[b [s1 [h [r [Es [Hb [El [Eb D]]]]]]]]|[b [s1 [h [r [Es [Hb [El D]]]]]]]]].
  - split; [intros p rest X; congruence|]. intros A.
    assert (X : exists t, announces s t) by (destruct A as [A|[A|A]]; eauto).
    apply header_announces_iff in X as [h [r X]]; auto. congruence.
  - assert (NH : next_header_from_stream s = Ok (HLong h, r)).
    { subst s. unfold next_header_from_stream. cbn [next bind]. rewrite land_128 by lia.
      destruct (N.leb_spec 128 b); [|lia]. rewrite El. reflexivity. }
    destruct (header_announces s _ _ B NH) as [b' [s1' [Es' [_ [Eb' [_ A]]]]]].
    assert (b' = b) as -> by congruence. rewrite D. split.
    + intros p rest E. destruct (kind b (lh_version h)); try discriminate; inv_bind; try congruence;
        injection E as <- <-; exact Logic.I.
    + intros [X|[X|X]]; rewrite (announces_fun _ _ _ A X), ?E1, ?E2; cbn [bind]; eauto.
      exfalso. pose proof (announces_fun _ _ _ A X) as K. unfold kind in K.
      destruct (N.ltb_spec b 128); [lia|]. destruct (lh_version h =? 0); [discriminate|].
      destruct ((b / 16) mod 4) as [|[[]|[]|]]; discriminate.
  - rewrite D, E3. cbn [bind]. split; [discriminate|eauto].
Qed.
Print Assumptions C28_no_protected_packet_accepted.

(** ** C32: mirrored Initial keys. *)
Theorem C32_mirrored_keys : forall P oc v d l s c,
  connection_new P oc true v d l = Ok s -> connection_new P oc false v d l = Ok c ->
  forall sp,
    local_tls_secrets (borrow_pn_info s sp) = remote_tls_secrets (borrow_pn_info c sp) /\
    remote_tls_secrets (borrow_pn_info s sp) = local_tls_secrets (borrow_pn_info c sp).
Proof.
  intros P oc v d l s c Es Ec sp. unfold connection_new in *. inv_bind.
  injection Es as <-. injection Ec as <-.
  destruct sp; cbn; split; congruence.
Qed.
Print Assumptions C32_mirrored_keys.

(** For ids of up to 20 bytes both connections exist and hold the keys of RFC 9001
    section 5.2; one role fails exactly when the other does. *)
Theorem C32_initial_keys : forall P oc srv d l,
  prims_ok P -> cid_ok d -> l <= 20 ->
  exists c cid kl kr, connection_new P oc srv V1 d l = Ok c /\
    cid = be_bytes (N.to_nat l) (cid_val d) /\
    initial_keys P srv cid kl /\ initial_keys P (negb srv) cid kr /\
    local_keys P oc c SpInitial kl /\ remote_keys P oc c SpInitial kr.
Proof.
  intros P oc srv d l HP Hd Hl. destruct (connection_new_ok P oc srv d l HP Hl) as [c E].
  destruct (connection_new_inv P oc srv V1 d l c HP E) as [I _].
  destruct (ci_keys _ _ _ _ _ _ I) as [cid [kl [kr [U K]]]].
  exists c, cid, kl, kr. split; [exact E|]. split; [|exact K].
  rewrite u160_to_var_bytes_ok in U by auto. congruence.
Qed.
Print Assumptions C32_initial_keys.

(** The keys depend on the role only through the label: two connections of the
    same role and id bytes hold the same keys. *)
Theorem C32_keys_determined : forall P srv cid k k',
  initial_keys P srv cid k -> initial_keys P srv cid k' -> k = k'.
Proof.
  intros P srv cid k k' [s [S [A [B C]]]] [s' [S' [A' [B' C']]]].
  assert (s' = s) as -> by (eapply expand_label_fun; eauto).
  destruct k, k'. cbn in *. f_equal; eapply expand_label_fun; eauto.
Qed.
(** RFC 9001 appendix A.1 (tests secrets.rs:255-270, cipher_suite.rs:245-354). *)
Example C32_case :
  let cid := hex "8394c8f03e515708" in
  hkdf_extract_sha256 real_prims (Some KDF_INITIAL_SALT_V1) cid =
    hex "7db5df06e7a69e432496adedb00851923595221596ae2ae9fb8115c1e9ed0a44" /\
  u160_to_var_bytes (U160 0 9481424049684961032) 8 = Ok cid /\
  (let? s := from_initial real_prims true false cid V1 in Ok (s_key s, s_iv s, s_hp s)) =
    Ok (hex "1f369613dd76d5467730efcbe3b1a22d", Some (hex "fa044b2f42a3fd3b46fb255c"),
        hex "9f50449e04a0e810283a1e9933adedd2") /\
  (let? s := from_initial real_prims true true cid V1 in Ok (s_key s, s_iv s, s_hp s)) =
    Ok (hex "cf3a5331653c364c88f0f379b6067e37", Some (hex "0ac1493ca1905853b0bba03e"),
        hex "c206b8d9b9f0f37644430b490eeaa314").
Proof. cbv zeta. split; [|split; [|split]]; vm_compute; reflexivity. Qed.
Print Assumptions C32_keys_determined.

(** Longer ids cannot be used: creation panics for both roles. *)
Theorem C32_long_id_panics : forall P oc srv v d l, prims_ok P -> 20 < l ->
  exists w, connection_new P oc srv v d l = Panic w.
Proof.
  intros P oc srv v d l HP Hl. unfold connection_new, u160_to_var_bytes.
  destruct (N.ltb_spec 20 l); [|lia]. cbn [bind]. eauto.
Qed.
Example C32_long_case : (let? c := connection_new real_prims true true V1 (U160 0 7) 21 in Ok (c_dcid c)) =
  Panic "attempt to subtract with overflow / rotate_left: mid > len".
Proof. reflexivity. Qed.
Print Assumptions C32_long_id_panics.

(** ** C29: packet numbers. *)
Definition touches (x : call) (sp : pn_space) : bool :=
  match x, sp with
  | CNextPn SpInitial, SpInitial | CNextPn SpHandshake, SpHandshake
  | CNextPn SpApplication, SpApplication => true
  | CInitial _ _, SpInitial => true
  | CHandshake _, SpHandshake => true
  | _, _ => false
  end.
(** Number of calls of a history that ask for a number in a space. *)
Fixpoint count (sp : pn_space) (xs : list call) : N :=
  match xs with [] => 0 | x :: xs => (if touches x sp then 1 else 0) + count sp xs end.

Lemma touches_call oc c x sp : touches x sp = true -> do_call oc c x = fst (get_next_pn oc c sp).
Proof.
  intros T. apply do_call_pn. destruct x as [| [] | |], sp; try discriminate; auto; right; [left|right]; eauto.
Qed.
Lemma touches_not oc c x sp : touches x sp = false ->
  borrow_pn_info (do_call oc c x) sp = borrow_pn_info c sp.
Proof.
  intros T. destruct x as [id l'|sp'|fs t|fs].
  - destruct sp; reflexivity.
  - cbn [do_call]. destruct (get_next_pn oc c sp') as [c' r] eqn:E.
    destruct (get_next_pn_step oc c sp' c' r E) as [_ [_ [_ [O _]]]]. cbn [fst]. apply O.
    destruct sp, sp'; cbn in T; congruence.
  - rewrite (do_call_pn oc c _ SpInitial) by eauto 6.
    destruct (get_next_pn oc c SpInitial) as [c' r] eqn:E.
    destruct (get_next_pn_step oc c _ c' r E) as [_ [_ [_ [O _]]]]. cbn [fst]. apply O.
    destruct sp; cbn in T; congruence.
  - rewrite (do_call_pn oc c _ SpHandshake) by eauto 6.
    destruct (get_next_pn oc c SpHandshake) as [c' r] eqn:E.
    destruct (get_next_pn_step oc c _ c' r E) as [_ [_ [_ [O _]]]]. cbn [fst]. apply O.
    destruct sp; cbn in T; congruence.
Qed.

(** The counter of a space after a history; with overflow checks it stops at
    2^64 - 1. *)
Lemma run_next P oc srv d l sp xs : forall c, conn_inv P oc srv d l c ->
  let n := next_pn (borrow_pn_info c sp) + count sp xs in
  (n < 2 ^ 64 -> next_pn (borrow_pn_info (run oc c xs) sp) = n) /\
  (oc = true -> 2 ^ 64 <= n -> next_pn (borrow_pn_info (run oc c xs) sp) = 2 ^ 64 - 1).
Proof.
  induction xs as [|x xs IH]; intros c I n; subst n; cbn [count run].
  - pose proof (ci_next _ _ _ _ _ _ I sp). split; [intros; lia|lia].
  - specialize (IH (do_call oc c x) (do_call_inv P oc srv d l c x I)). cbv zeta in IH.
    destruct (touches x sp) eqn:T.
    + rewrite (touches_call oc c x sp T) in *. destruct (get_next_pn oc c sp) as [c' r] eqn:E. cbn [fst] in *.
      pose proof (get_next_pn_no_ack oc c sp c' r E (proj2 (ci_acks _ _ _ _ _ _ I sp)) (ci_next _ _ _ _ _ _ I sp)) as G.
      cbv zeta in G. destruct (N.ltb_spec (next_pn (borrow_pn_info c sp) + 1) (2 ^ 64)).
      * destruct G as [G _]. rewrite G in IH. destruct IH as [IH1 IH2]. split.
        -- intros. rewrite IH1; lia.
        -- intros O Hn. apply IH2; auto. lia.
      * split; [lia|]. intros -> Hn. destruct G as [-> _]. destruct IH as [IH1 IH2].
        pose proof (ci_next _ _ _ _ _ _ I sp).
        destruct (N.eq_0_gt_0_cases (count sp xs)) as [Z|Z].
        -- rewrite IH1; lia.
        -- apply IH2; auto. lia.
    + pose proof (touches_not oc c x sp T) as K. rewrite K in IH. destruct IH as [IH1 IH2].
      split; intros; [rewrite IH1|rewrite IH2]; auto; lia.
Qed.

(** What one more call does after [xs]. *)
Lemma scid_call oc c x : c_scid c <> None -> c_scid (do_call oc c x) <> None.
Proof.
  intros H. destruct x as [id l'|sp'|fs t|fs].
  - discriminate.
  - cbn [do_call]. destruct (get_next_pn oc c sp') as [c' r] eqn:E.
    destruct (get_next_pn_step oc c sp' c' r E) as [_ [S _]]. cbn. congruence.
  - rewrite (do_call_pn oc c _ SpInitial) by eauto 6. destruct (get_next_pn oc c SpInitial) as [c' r] eqn:E.
    destruct (get_next_pn_step oc c _ c' r E) as [_ [S _]]. cbn. congruence.
  - rewrite (do_call_pn oc c _ SpHandshake) by eauto 6. destruct (get_next_pn oc c SpHandshake) as [c' r] eqn:E.
    destruct (get_next_pn_step oc c _ c' r E) as [_ [S _]]. cbn. congruence.
Qed.

(** Numbers issued in one space over a history, in order. *)
Definition same_space (a b : pn_space) : bool :=
  match a, b with
  | SpInitial, SpInitial | SpHandshake, SpHandshake | SpApplication, SpApplication => true
  | _, _ => false
  end.
Definition issued_in (oc : bool) (c : connection) (sp : pn_space) (xs : list call) : list N :=
  map snd (filter (fun x => same_space (fst x) sp) (issued oc c xs)).

Lemma issued_by_spec oc c x sp : touches x sp = true ->
  largest_local_ack (borrow_pn_info c sp) = None ->
  match snd (get_next_pn oc c sp) with
  | Ok (n, b) => (len b = 4 -> c_scid c <> None -> issued_by oc c x = [(sp, n)]) /\
                 (issued_by oc c x = [(sp, n)] \/ issued_by oc c x = []) /\
                 (x = CNextPn sp -> issued_by oc c x = [(sp, n)])
  | _ => issued_by oc c x = []
  end.
Proof.
  intros T A. destruct x as [id l'|sp'|fs t|fs]; [destruct sp; discriminate| | |].
  - assert (sp' = sp) as -> by (destruct sp, sp'; cbn in T; congruence). cbn [issued_by].
    destruct (snd (get_next_pn oc c sp)) as [[n b]| | |]; auto.
  - assert (sp = SpInitial) as -> by (destruct sp; cbn in T; congruence). cbn [issued_by]. unfold initial_new.
    destruct (get_next_pn oc c SpInitial) as [c' r] eqn:E. cbn [snd].
    destruct (get_next_pn_step oc c _ c' r E) as [_ [S _]].
    destruct r as [[n b]| | |]; cbn [bind]; auto.
    split; [|split; [|discriminate]].
    + intros L Sc. rewrite L. change (cast 8 4) with 4.
      destruct (negb ((0 <? 4) && (4 <=? 4))) eqn:F; [discriminate|].
      unfold long_from_connection, get_scid, get_dcid. rewrite S. destruct (c_scid c) as [[s sl]|]; [|congruence].
      destruct (c_dcid c') as [d l]. reflexivity.
    + destruct (negb _); [auto|]. cbn [validate_payload]. destruct (long_from_connection _ _); cbn [bind]; auto.
  - assert (sp = SpHandshake) as -> by (destruct sp; cbn in T; congruence). cbn [issued_by]. unfold handshake_new.
    destruct (get_next_pn oc c SpHandshake) as [c' r] eqn:E. cbn [snd].
    destruct (get_next_pn_step oc c _ c' r E) as [_ [S _]].
    destruct r as [[n b]| | |]; cbn [bind]; auto.
    split; [|split; [|discriminate]].
    + intros L Sc. rewrite L. change (cast 8 4) with 4.
      destruct (negb ((0 <? 4) && (4 <=? 4))) eqn:F; [discriminate|].
      unfold long_from_connection, get_scid, get_dcid. rewrite S. destruct (c_scid c) as [[s sl]|]; [|congruence].
      destruct (c_dcid c') as [d l]. reflexivity.
    + destruct (negb _); [auto|]. cbn [validate_payload]. destruct (long_from_connection _ _); cbn [bind]; auto.
Qed.

Lemma issued_by_other oc c x sp : touches x sp = false ->
  filter (fun y => same_space (fst y) sp) (issued_by oc c x) = [].
Proof.
  intros T. destruct x as [id l'|sp'|fs t|fs]; cbn [issued_by].
  - reflexivity.
  - destruct (snd (get_next_pn oc c sp')) as [[n b]| | |]; try reflexivity. cbn.
    destruct sp, sp'; cbn in T |- *; congruence.
  - destruct (snd (initial_new oc fs t c)); try reflexivity. cbn. destruct sp; cbn in T |- *; congruence.
  - destruct (snd (handshake_new oc fs c)); try reflexivity. cbn. destruct sp; cbn in T |- *; congruence.
Qed.

(** The exact outcome of any call after any history.  [k] is the position of the
    call among those of its space.  Up to 2^32 - 1 the call issues [k] (a failing
    [PacketInitial::new]/[PacketHandshake::new], which happens only while no source
    id is set, consumes [k] without issuing it); after that nothing is issued any
    more.  Missing for the full statement: histories of 2^64 - 1 calls and more
    without overflow checks. *)
Theorem C29_packet_numbers_partial : forall P oc srv d l c0 xs x sp,
  prims_ok P -> connection_new P oc srv V1 d l = Ok c0 ->
  oc = true \/ len xs < 2 ^ 64 - 1 ->
  touches x sp = true ->
  let c := run oc c0 xs in
  let k := count sp xs + 1 in
  if k <=? 0xffffffff then
    (issued_by oc c x = [(sp, k)] \/ issued_by oc c x = [] /\ c_scid c = None) /\
    (x = CNextPn sp -> exists b, snd (get_next_pn oc c sp) = Ok (k, b) /\ pn_field k b)
  else issued_by oc c x = [] /\ (forall r, snd (get_next_pn oc c sp) <> Ok r).
Proof.
  intros P oc srv d l c0 xs x sp HP E Hl T c k.
  destruct (connection_new_inv P oc srv V1 d l c0 HP E) as [I0 [_ N0]].
  pose proof (run_inv P oc srv d l xs c0 I0) as I. fold c in I.
  pose proof (run_next P oc srv d l sp xs c0 I0) as [R1 R2]. rewrite N0, N.add_0_l in R1, R2. fold c in R1, R2.
  pose proof (proj2 (ci_acks _ _ _ _ _ _ I sp)) as A.
  pose proof (issued_by_spec oc c x sp T A) as Y.
  destruct (get_next_pn oc c sp) as [c' r] eqn:G. cbn [snd] in *.
  pose proof (get_next_pn_no_ack oc c sp c' r G A (ci_next _ _ _ _ _ _ I sp)) as Z. cbv zeta in Z.
  assert (CL : forall ys, count sp ys <= len ys).
  { induction ys as [|y ys IH]; cbn [count]; [unfold len; lia|]. rewrite len_cons. destruct (touches y sp); lia. }
  specialize (CL xs).
  destruct (N.leb_spec k 0xffffffff) as [K|K]; unfold k in *.
  - rewrite R1 in Z by lia. destruct (N.ltb_spec (count sp xs + 1) (2 ^ 64)); [|lia].
    destruct Z as [_ ->]. destruct (N.ltb_spec 0xffffffff (count sp xs + 1)); [lia|].
    destruct Y as [Y1 [Y2 Y3]]. split.
    + destruct Y2 as [Y2|Y2]; [auto|]. right. split; [auto|].
      destruct (c_scid c) as [q|] eqn:Q; [|reflexivity]. exfalso.
      rewrite Y1 in Y2; [discriminate|apply be_bytes_len|congruence].
    + intros _. eexists. split; [reflexivity|]. apply pn_field_4. lia.
  - assert (NO : forall q, r <> Ok q).
    { destruct (N.lt_ge_cases (count sp xs) (2 ^ 64)) as [H|H].
      - rewrite R1 in Z by lia. destruct (N.ltb_spec (count sp xs + 1) (2 ^ 64)).
        + destruct Z as [_ ->]. destruct (N.ltb_spec 0xffffffff (count sp xs + 1)); [|lia]. congruence.
        + destruct Hl as [->|Hl]; [|lia]. destruct Z as [_ ->]. congruence.
      - destruct Hl as [->|Hl]; [|lia]. rewrite R2 in Z by auto.
        destruct (N.ltb_spec (2 ^ 64 - 1 + 1) (2 ^ 64)); [lia|]. destruct Z as [_ ->]. congruence. }
    split; [|exact NO]. destruct r as [q| | |]; [exfalso; eapply NO; reflexivity|auto..].
Qed.
Print Assumptions C29_packet_numbers_partial.

(** Over whole histories: strictly increasing from 1, hence no repetition. *)
Lemma issued_snoc oc xs : forall c x,
  issued oc c (xs ++ [x]) = issued oc c xs ++ issued_by oc (run oc c xs) x.
Proof.
  induction xs as [|y xs IH]; intros c x; cbn [app issued run]; [apply app_nil_r|].
  rewrite IH, app_assoc. reflexivity.
Qed.
Lemma count_snoc sp xs x : count sp (xs ++ [x]) = count sp xs + (if touches x sp then 1 else 0).
Proof. induction xs as [|y xs IH]; cbn [app count]; lia. Qed.

Inductive increasing : N -> list N -> Prop :=
| inc_nil : forall a, increasing a []
| inc_cons : forall a x xs, a < x -> increasing x xs -> increasing a (x :: xs).

Lemma increasing_snoc a xs x : increasing a xs -> a < x -> Forall (fun y => y < x) xs -> increasing a (xs ++ [x]).
Proof.
  intros I. revert x. induction I as [a|a y ys L I IH]; intros x Hx F; cbn.
  - constructor; [auto|constructor].
  - inversion F; subst. constructor; auto.
Qed.
Lemma increasing_bound a xs : increasing a xs -> Forall (fun x => a < x) xs.
Proof.
  induction 1 as [|a x xs L I IH]; constructor; auto. eapply Forall_impl; [|exact IH]. cbn. intros; lia.
Qed.
Lemma increasing_nodup a xs : increasing a xs -> NoDup xs.
Proof.
  induction 1 as [|a x xs L I IH]; constructor; auto. intros H.
  apply increasing_bound in I. rewrite Forall_forall in I. specialize (I x H). lia.
Qed.

Theorem C29_issued_increasing : forall P oc srv d l c0 xs sp,
  prims_ok P -> connection_new P oc srv V1 d l = Ok c0 ->
  oc = true \/ len xs < 2 ^ 64 ->
  increasing 0 (issued_in oc c0 sp xs) /\ NoDup (issued_in oc c0 sp xs) /\
  Forall (fun n => n <= 0xffffffff) (issued_in oc c0 sp xs).
Proof.
  intros P oc srv d l c0 xs sp HP E Hl.
  assert (X : increasing 0 (issued_in oc c0 sp xs) /\
              Forall (fun n => n <= 0xffffffff /\ n <= count sp xs) (issued_in oc c0 sp xs)).
  { revert Hl. induction xs as [|x xs IH] using rev_ind; intros Hl; [split; constructor|].
    assert (Hl' : oc = true \/ len xs < 2 ^ 64 - 1).
    { destruct Hl as [Hl|Hl]; auto. right. rewrite len_app in Hl. change (len [x]) with 1 in Hl. lia. }
    destruct IH as [IH1 IH2]; [destruct Hl'; auto; right; lia|].
    unfold issued_in in *. rewrite issued_snoc, filter_app, map_app.
    rewrite count_snoc. destruct (touches x sp) eqn:T.
    - pose proof (C29_packet_numbers_partial P oc srv d l c0 xs x sp HP E Hl' T) as C. cbv zeta in C.
      destruct (N.leb_spec (count sp xs + 1) 0xffffffff) as [K|K].
      + destruct C as [[C|[C _]] _]; rewrite C.
        * cbn [filter fst]. replace (same_space sp sp) with true by (destruct sp; reflexivity). cbn [map snd].
          split.
          -- apply increasing_snoc; auto; [lia|]. eapply Forall_impl; [|exact IH2]. cbn. intros; lia.
          -- apply Forall_app. split; [|repeat constructor; lia].
             eapply Forall_impl; [|exact IH2]. cbn. intros; lia.
        * cbn [filter map]. rewrite app_nil_r. split; auto. eapply Forall_impl; [|exact IH2]. cbn. intros; lia.
      + destruct C as [C _]. rewrite C. cbn [filter map]. rewrite app_nil_r. split; auto.
        eapply Forall_impl; [|exact IH2]. cbn. intros; lia.
    - rewrite issued_by_other by auto. cbn [map]. rewrite app_nil_r. split; auto.
      eapply Forall_impl; [|exact IH2]. cbn. intros; lia. }
  destruct X as [X1 X2]. split; [exact X1|]. split; [eapply increasing_nodup; eauto|].
  eapply Forall_impl; [|exact X2]. cbn. tauto.
Qed.
Print Assumptions C29_issued_increasing.

(** Once a source id is set, the numbers issued in a space are exactly 1, 2, ...,
    one per call, whatever happens in the other spaces. *)
Theorem C29_issued_consecutive : forall P oc srv d l c0 id il xs sp,
  prims_ok P -> connection_new P oc srv V1 d l = Ok c0 ->
  oc = true \/ len xs < 2 ^ 64 - 1 ->
  count sp xs <= 0xffffffff ->
  issued_in oc c0 sp (CSetScid id il :: xs) = map N.of_nat (seq 1 (N.to_nat (count sp xs))).
Proof.
  intros P oc srv d l c0 id il xs sp HP E Hl.
  induction xs as [|x xs IH] using rev_ind; intros Hc; [reflexivity|].
  assert (Lx : len (xs ++ [x]) = len xs + 1) by (rewrite len_app; reflexivity).
  assert (Hl' : oc = true \/ len xs < 2 ^ 64 - 1) by (destruct Hl; [auto|right; lia]).
  assert (Hl2 : oc = true \/ len (CSetScid id il :: xs) < 2 ^ 64 - 1)
    by (rewrite len_cons; destruct Hl; [auto|right; lia]).
  rewrite count_snoc in Hc |- *. specialize (IH Hl' ltac:(lia)).
  change (CSetScid id il :: xs ++ [x]) with ((CSetScid id il :: xs) ++ [x]).
  unfold issued_in in *. rewrite issued_snoc, filter_app, map_app, IH.
  destruct (touches x sp) eqn:T.
  - pose proof (C29_packet_numbers_partial P oc srv d l c0 (CSetScid id il :: xs) x sp HP E Hl2 T) as C.
    cbv zeta in C. assert (CC : count sp (CSetScid id il :: xs) = count sp xs) by (destruct sp; reflexivity).
    rewrite CC in C. destruct (N.leb_spec (count sp xs + 1) 0xffffffff) as [K|K]; [|lia].
    destruct C as [[C|[_ C]] _].
    + rewrite C. cbn [filter fst]. replace (same_space sp sp) with true by (destruct sp; reflexivity). cbn [map snd].
      replace (N.to_nat (count sp xs + 1)) with (S (N.to_nat (count sp xs))) by lia.
      rewrite seq_S, map_app. cbn [map]. do 2 f_equal. lia.
    + exfalso. revert C. cbn [run do_call].
      assert (W : forall ys c, c_scid c <> None -> c_scid (run oc c ys) <> None).
      { induction ys as [|y ys IHy]; intros c H; cbn [run]; auto. apply IHy, scid_call, H. }
      apply W. discriminate.
  - rewrite issued_by_other by auto. cbn [map]. rewrite app_nil_r, N.add_0_r. reflexivity.
Qed.
Print Assumptions C29_issued_consecutive.

Definition sample_calls : list call :=
  [CNextPn SpApplication; CInitial [] None; CSetScid (U160 0 7) 8; CNextPn SpInitial;
   CHandshake []; CInitial [Ping] (Some [1;2]); CNextPn SpInitial].
(** The first [CInitial] fails (no source id yet) and still uses number 1. *)
Example C29_case :
  (let? c := connection_new real_prims true false V1 (U160 0 9481424049684961032) 8 in
   Ok (issued_in true c SpInitial sample_calls, issued_in true c SpHandshake sample_calls,
       issued_in true c SpApplication sample_calls)) = Ok ([2; 3; 4], [1], [1]) /\
  count SpInitial sample_calls = 4.
Proof. split; vm_compute; reflexivity. Qed.

(** Without overflow checks the counter wraps after 2^64 calls. *)
Definition C29_statement : Prop := forall P oc srv d l c0 xs x sp,
  prims_ok P -> connection_new P oc srv V1 d l = Ok c0 -> touches x sp = true ->
  0xffffffff <= count sp xs -> issued_by oc (run oc c0 xs) x = [].

Lemma count_repeat sp k : count sp (repeat (CNextPn sp) k) = N.of_nat k.
Proof. induction k; cbn [repeat count]; [reflexivity|]. rewrite IHk. destruct sp; cbn [touches]; lia. Qed.

Lemma wraps P srv d l c0 n : prims_ok P -> connection_new P false srv V1 d l = Ok c0 -> n = 2 ^ 64 - 1 ->
  issued_by false (run false c0 (repeat (CNextPn SpInitial) (N.to_nat n))) (CNextPn SpInitial) = [(SpInitial, 0)].
Proof.
  intros HP E Hn. destruct (connection_new_inv P false srv V1 d l c0 HP E) as [I0 [_ N0]].
  pose proof (run_next P false srv d l SpInitial (repeat (CNextPn SpInitial) (N.to_nat n)) c0 I0) as [R _].
  rewrite count_repeat, N2Nat.id, N0, N.add_0_l in R.
  pose proof (run_inv P false srv d l (repeat (CNextPn SpInitial) (N.to_nat n)) c0 I0) as I.
  generalize dependent (run false c0 (repeat (CNextPn SpInitial) (N.to_nat n))). intros c R I.
  specialize (R ltac:(lia)). cbn [issued_by]. destruct (get_next_pn false c SpInitial) as [c' r] eqn:G. cbn [snd].
  pose proof (get_next_pn_no_ack false c SpInitial c' r G (proj2 (ci_acks _ _ _ _ _ _ I SpInitial)) (ci_next _ _ _ _ _ _ I SpInitial)) as Z.
  cbv zeta in Z. rewrite R in Z. destruct (N.ltb_spec (n + 1) (2 ^ 64)); [lia|].
  destruct Z as [_ ->]. reflexivity.
Qed.

Theorem C29_wrap_refuted : ~ C29_statement.
Proof.
  intros H. destruct (connection_new_ok real_prims false false (U160 0 0) 8 real_prims_ok ltac:(lia)) as [c0 E].
  assert (X : exists n, n = 2 ^ 64 - 1) by eauto. destruct X as [n Hn].
  specialize (H real_prims false false (U160 0 0) 8 c0 (repeat (CNextPn SpInitial) (N.to_nat n)) (CNextPn SpInitial)
                SpInitial real_prims_ok E eq_refl).
  rewrite (wraps real_prims false (U160 0 0) 8 c0 n real_prims_ok E Hn), count_repeat, N2Nat.id in H.
  assert (K : 0xffffffff <= n) by (rewrite Hn; vm_compute; discriminate).
  specialize (H K). discriminate H.
Qed.
Print Assumptions C29_wrap_refuted.

(** ** C30: no nonce is used for two Initial packets of a connection. *)
Theorem C30_nonces_never_reused : forall P oc srv d l c0 xs ys fs t fs' t' p q n n' iv,
  prims_ok P -> connection_new P oc srv V1 d l = Ok c0 -> oc = true \/ len (xs ++ ys) < 2 ^ 64 - 2 ->
  snd (initial_new oc fs t (run oc c0 xs)) = Ok p ->
  snd (initial_new oc fs' t' (run oc c0 (xs ++ CInitial fs t :: ys))) = Ok q ->
  nonce_for iv (pi_pn p) n -> nonce_for iv (pi_pn q) n' -> n <> n'.
Proof.
  intros P oc srv d l c0 xs ys fs t fs' t' p q n n' iv HP E Hl Ep Eq Hn Hn' X.
  assert (pi_pn p = pi_pn q).
  { subst. eapply nonce_for_inj; eauto. }
  pose proof (C29_issued_increasing P oc srv d l c0 (xs ++ CInitial fs t :: ys ++ [CInitial fs' t']) SpInitial HP E) as C.
  destruct C as [_ [C _]].
  { destruct Hl as [Hl|Hl]; auto. right. rewrite len_app in Hl. rewrite len_app, len_cons, len_app.
    change (len [CInitial fs' t']) with 1. lia. }
  assert (S : forall us vs c, issued oc c (us ++ vs) = issued oc c us ++ issued oc (run oc c us) vs).
  { induction us as [|u us IH]; intros vs c; cbn [app issued run]; [reflexivity|]. rewrite IH, app_assoc. reflexivity. }
  assert (S' : forall us vs c, run oc c (us ++ vs) = run oc (run oc c us) vs).
  { induction us as [|u us IH]; intros vs c; cbn [app run]; [reflexivity|]. apply IH. }
  assert (PN : forall us vs (u : N), filter (fun x : pn_space * N => same_space (fst x) SpInitial) (us ++ (SpInitial, u) :: vs) =
     filter (fun x => same_space (fst x) SpInitial) us ++ (SpInitial, u) :: filter (fun x => same_space (fst x) SpInitial) vs).
  { intros. rewrite filter_app. reflexivity. }
  unfold issued_in in C. rewrite S in C. cbn [issued] in C. rewrite S in C. cbn [issued] in C.
  replace (run oc (do_call oc (run oc c0 xs) (CInitial fs t)) ys) with (run oc c0 (xs ++ CInitial fs t :: ys)) in C
    by (rewrite S'; reflexivity).
  cbn [issued_by] in C. rewrite Ep, Eq in C. cbn [app] in C.
  rewrite PN, map_app in C. cbn [map snd] in C.
  rewrite PN, map_app in C. cbn [map snd filter] in C.
  apply NoDup_remove_2 in C. apply C. apply in_or_app. right. apply in_or_app. right. left. auto.
Qed.
Example C30_history_case :
  (let? c := connection_new real_prims true false V1 (U160 0 7) 8 in
   let xs := [CSetScid (U160 0 9) 8; CNextPn SpInitial] in
   let? p := snd (initial_new true [Ping] None (run true c xs)) in
   let? q := snd (initial_new true [Ping] None (run true c (xs ++ CInitial [Ping] None :: [CHandshake []]))) in
   Ok (pi_pn p, pi_pn q)) = Ok (2, 3).
Proof. vm_compute; reflexivity. Qed.
Print Assumptions C30_nonces_never_reused.

(** ** C31: packet number truncation. *)
Definition C31_statement : Prop := forall oc pn la b c sp,
  pn < 2 ^ 64 -> truncate_pn pn la = Ok b -> largest_remote_ack (borrow_pn_info c sp) = la ->
  reconstruct_remote_pn oc c sp b = Ok pn.

Definition acked (la : option N) : connection :=
  Connection V1 (PnInfo la la 0 None None) (PnInfo la la 0 None None) (PnInfo la la 0 None None) (U160 0 0, 8) None.

Theorem C31_truncation_refuted : ~ C31_statement.
Proof.
  intros H. specialize (H true 5 (Some 3) [5] (acked (Some 3)) SpInitial ltac:(lia) eq_refl eq_refl). discriminate.
Qed.
Print Assumptions C31_truncation_refuted.

Lemma high_bytes_zero x : x < 2 ^ 32 -> from_be_bytes (firstn 4 (be_bytes 8 x)) = 0.
Proof.
  intros H. rewrite from_be_bytes_val.
  pose proof (be_val_app (firstn 4 (be_bytes 8 x)) (skipn 4 (be_bytes 8 x))) as E.
  rewrite firstn_skipn, be_val_be_bytes_small in E by (change (256 ^ N.of_nat 8) with (2 ^ 64); pows; lia).
  assert (L : len (skipn 4 (be_bytes 8 x)) = 4).
  { unfold len. rewrite skipn_length, be_bytes_length. reflexivity. }
  rewrite L in E. change (256 ^ 4) with (2 ^ 32) in E. pows. lia.
Qed.

(** What happens with an acknowledgement [x], for all numbers below 2^32: the low
    [n] BITS of [x], [n] being the number of BYTES sent, are replaced by adding the
    truncated number. *)
Theorem C31_reconstructed_value : forall oc pn x c sp,
  x < pn -> pn < 2 ^ 32 -> largest_remote_ack (borrow_pn_info c sp) = Some x ->
  exists b, truncate_pn pn (Some x) = Ok b /\ pn - x < 256 ^ len b /\ pn_field pn b /\
    reconstruct_remote_pn oc c sp b =
      Ok (x - x mod 2 ^ len b + pn mod 256 ^ len b + (if pn mod 256 ^ len b =? 0 then 2 ^ len b else 0)).
Proof.
  intros oc pn x c sp Hx Hp A. unfold truncate_pn. destruct (N.leb_spec pn x); [lia|].
  rewrite floor_log2_spec by (change (2 ^ N.of_nat 64) with (2 ^ 64); pows; lia). cbn [bind].
  remember (N.log2 (pn - x) + 1) as bl.
  assert (B1 : pn - x < 2 ^ bl). { subst bl. rewrite N.add_1_r. apply N.log2_spec. lia. }
  assert (B2 : 1 <= bl <= 32).
  { subst bl. assert (N.log2 (pn - x) < 32) by (apply N.log2_lt_pow2; lia). lia. }
  remember (bl / 8 + (if bl mod 8 =? 0 then 0 else 1)) as n.
  assert (N1 : 1 <= n <= 4 /\ bl <= 8 * n).
  { subst n. destruct (N.eqb_spec (bl mod 8) 0); lia. }
  destruct (N.ltb_spec 8 n); [lia|].
  replace (N.to_nat (8 - n)) with (8 - N.to_nat n)%nat by lia. rewrite skipn_be_bytes by lia.
  eexists. split; [reflexivity|].
  assert (L : len (be_bytes (N.to_nat n) pn) = n) by (rewrite be_bytes_len; lia).
  assert (V : be_val (be_bytes (N.to_nat n) pn) = pn mod 256 ^ n) by (rewrite be_val_be_bytes, N2Nat.id; auto).
  rewrite L. split; [|split].
  - eapply N.lt_le_trans; [exact B1|]. change 256 with (2 ^ 8). rewrite <- N.pow_mul_r.
    apply N.pow_le_mono_r; lia.
  - unfold pn_field. rewrite L. split; [lia|]. split; [apply be_bytes_ok|exact V].
  - unfold reconstruct_remote_pn. rewrite L. destruct (N.ltb_spec 4 n); [lia|].
    rewrite A, high_bytes_zero, from_be_bytes_val, be_val_zeros, V by lia.
    assert (M : pn mod 256 ^ n < 2 ^ 32).
    { eapply N.le_lt_trans; [apply N.mod_le; apply N.pow_nonzero; lia|lia]. }
    assert (Q : x = 2 ^ n * (x / 2 ^ n) + x mod 2 ^ n) by (apply N.div_mod, N.pow_nonzero; lia).
    assert (P2 : 2 ^ n <= 16) by (change 16 with (2 ^ 4); apply N.pow_le_mono_r; lia).
    assert (P1 : 1 <= 2 ^ n) by (change 1 with (2 ^ 0); apply N.pow_le_mono_r; lia).
    unfold add64. rewrite two64_eq, N.shiftr_div_pow2, !shl_spec.
    clear - M Q P1 P2 Hx Hp.
    generalize dependent (pn mod 256 ^ n). generalize dependent (x / 2 ^ n). generalize dependent (x mod 2 ^ n).
    remember (2 ^ n) as p eqn:Ep. intros m q Q t Ht. pows.
    assert (QM : q * p = x - m) by (rewrite N.mul_comm; lia). assert (QL : q <= x) by nia.
    destruct (N.eqb_spec t 0) as [Z|Z].
    + subst t. change (0 <? 0) with false. cbv iota.
      destruct (N.ltb_spec (q + 1) 18446744073709551616); [|lia]. cbn [bind]. rewrite shl_spec. pows.
      rewrite <- Ep, N.mul_add_distr_r, QM, N.mul_1_l, N.mod_small by lia.
      destruct (N.ltb_spec (x - m + p + 0) 18446744073709551616); [|lia]. f_equal. lia.
    + destruct (N.ltb_spec 0 t); [|lia].
      rewrite QM, N.mod_small by lia.
      destruct (N.ltb_spec (x - m + t) 18446744073709551616); [|lia]. f_equal. lia.
Qed.
Print Assumptions C31_reconstructed_value.
Example C31_case1 : truncate_pn 5 (Some 3) = Ok [5] /\
  reconstruct_remote_pn true (acked (Some 3)) SpInitial [5] = Ok 7.
Proof. split; reflexivity. Qed.

(** Too large a gap: more than four bytes are produced, and decoding them panics. *)
Theorem C31_large_gap_panics : forall oc pn x c sp,
  2 ^ 32 <= pn - x -> pn < 2 ^ 64 ->
  exists b w, truncate_pn pn (Some x) = Ok b /\ 4 < len b /\ reconstruct_remote_pn oc c sp b = Panic w.
Proof.
  intros oc pn x c sp Hx Hp. unfold truncate_pn. destruct (N.leb_spec pn x); [pows; lia|].
  rewrite floor_log2_spec by (change (2 ^ N.of_nat 64) with (2 ^ 64); pows; lia). cbn [bind].
  assert (32 <= N.log2 (pn - x)). { change 32 with (N.log2 (2 ^ 32)). apply N.log2_le_mono. lia. }
  assert (N.log2 (pn - x) < 64) by (apply N.log2_lt_pow2; lia).
  remember (N.log2 (pn - x) + 1) as bl.
  remember (bl / 8 + (if bl mod 8 =? 0 then 0 else 1)) as n.
  assert (N1 : 4 < n <= 8). { subst n. destruct (N.eqb_spec (bl mod 8) 0); lia. }
  destruct (N.ltb_spec 8 n); [lia|].
  replace (N.to_nat (8 - n)) with (8 - N.to_nat n)%nat by lia. rewrite skipn_be_bytes by lia.
  assert (L : len (be_bytes (N.to_nat n) pn) = n) by (rewrite be_bytes_len; lia).
  do 2 eexists. split; [reflexivity|]. rewrite L. split; [lia|]. unfold reconstruct_remote_pn. rewrite L.
  destruct (N.ltb_spec 4 n); [reflexivity|lia].
Qed.
Print Assumptions C31_large_gap_panics.
Example C31_case2 : 2 ^ 32 <= 5000000000 - 1 /\ truncate_pn 5000000000 (Some 1) = Ok [1; 42; 5; 242; 0].
Proof. split; [vm_compute; discriminate|reflexivity]. Qed.

(** Without acknowledgements - the state of every connection the API can produce -
    the number a connection issues is the one any peer reconstructs.  Missing for
    the full statement: recorded acknowledgements, see above. *)
Theorem C31_truncation_partial : forall P oc srv d l c srv' d' l' peer sp pn b,
  prims_ok P -> reachable P oc srv d l c -> reachable P oc srv' d' l' peer ->
  snd (get_next_pn oc c sp) = Ok (pn, b) ->
  pn_field pn b /\ reconstruct_remote_pn oc peer sp b = Ok pn.
Proof.
  intros P oc srv d l c srv' d' l' peer sp pn b HP R R' E.
  pose proof (reachable_inv _ _ _ _ _ _ HP R) as I. pose proof (reachable_inv _ _ _ _ _ _ HP R') as I'.
  destruct (get_next_pn oc c sp) as [c' r] eqn:G. cbn [snd] in E. subst r.
  pose proof (get_next_pn_no_ack _ _ _ _ _ G (proj2 (ci_acks _ _ _ _ _ _ I sp)) (ci_next _ _ _ _ _ _ I sp)) as Z.
  cbv zeta in Z.
  assert (X : pn <= 0xffffffff /\ b = be_bytes 4 pn).
  { destruct (_ <? 2 ^ 64).
    - destruct Z as [_ Z]. destruct (N.ltb_spec 0xffffffff (next_pn (borrow_pn_info c sp) + 1)); [discriminate|].
      injection Z as -> ->. auto.
    - destruct oc; destruct Z as [_ Z]; [discriminate|]. injection Z as -> ->. split; [lia|reflexivity]. }
  destruct X as [X ->]. split; [apply pn_field_4; auto|].
  pose proof (proj1 (ci_acks _ _ _ _ _ _ I' sp)) as A. unfold no_remote_ack in A.
  unfold reconstruct_remote_pn. rewrite be_bytes_len. change (4 <? N.of_nat 4) with false. cbv iota.
  rewrite A, from_be_bytes_val, be_val_zeros, be_val_be_bytes_small; [reflexivity|].
  change (256 ^ N.of_nat 4) with (2 ^ 32). pows. lia.
Qed.
Print Assumptions C31_truncation_partial.
Example C31_case3 :
  (let? c := connection_new real_prims true false V1 (U160 0 7) 8 in
   snd (get_next_pn true (run true c sample_calls) SpInitial)) = Ok (5, [0; 0; 0; 5]) /\
  (let? c := connection_new real_prims true true V1 (U160 0 7) 8 in
   reconstruct_remote_pn true c SpInitial [0; 0; 0; 5]) = Ok 5.
Proof. split; vm_compute; reflexivity. Qed.

(** Examples for C28 and C32, on the wire of RFC 9001's connection id. *)
Example C28_case :
  (let? c := connection_new real_prims true false V1 (U160 0 9481424049684961032) 8 in
   let c := run true c sample_calls in
   let? p := snd (handshake_new true [Ping] c) in
   handshake_serialize true p (fst (handshake_new true [Ping] c))) = Err (InternalError "attempted to retrieve unset local tls secrets") /\
  (let? c := connection_new real_prims true false V1 (U160 0 9481424049684961032) 8 in
   decode_next_packet true c (0xe0 :: be_bytes 4 1 ++ [0; 0; 0x40; 20] ++ repeat 7 20)) =
     Err (InternalError "attempted to retrieve unset remote tls secrets") /\
  announces (0xe0 :: be_bytes 4 1 ++ [0; 0; 0x40; 20] ++ repeat 7 20) THandshake.
Proof.
  split; [vm_compute; reflexivity|]. split; [vm_compute; reflexivity|].
  apply (an_long 0xe0 (be_bytes 4 1) [] [] ([0x40; 20] ++ repeat 7 20)); try reflexivity; try (vm_compute; discriminate).
Qed.
