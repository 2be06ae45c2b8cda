(** Invariants of connections. *)
From Verif Require Import Base Utils Frame CipherSuite Secrets Connection Packet Histories Spec SpecPacket
  Tactics UtilsFacts ParserFacts FrameFacts SecretsFacts HeaderFacts PacketFacts.

Record conn_inv (P : prims) (oc srv : bool) (d : u160) (l : N) (c : connection) : Prop := ConnInv {
  ci_dcid : c_dcid c = (d, l);
  ci_acks : forall sp, no_remote_ack c sp /\ largest_local_ack (borrow_pn_info c sp) = None;
  ci_next : forall sp, next_pn (borrow_pn_info c sp) < 2 ^ 64;
  ci_keys : exists cid kl kr, u160_to_var_bytes d l = Ok cid /\
     initial_keys P srv cid kl /\ initial_keys P (negb srv) cid kr /\
     local_keys P oc c SpInitial kl /\ remote_keys P oc c SpInitial kr;
  ci_none : forall sp, sp <> SpInitial ->
     local_tls_secrets (borrow_pn_info c sp) = None /\ remote_tls_secrets (borrow_pn_info c sp) = None }.

Lemma connection_new_inv P oc srv v d l c : prims_ok P -> connection_new P oc srv v d l = Ok c ->
  conn_inv P oc srv d l c /\ c_scid c = None /\ forall sp, next_pn (borrow_pn_info c sp) = 0.
Proof.
  intros HP H. destruct v. unfold connection_new in H. apply bind_ok in H as [cid [E H]].
  destruct (from_initial_ok P oc true cid HP) as [ss [ks [Es [Ks Is]]]].
  destruct (from_initial_ok P oc false cid HP) as [sc [kc [Ec [Kc Ic]]]].
  rewrite Es, E in H. cbn [bind] in H. rewrite Ec in H. cbn [bind] in H.
  destruct srv; injection H as <-; (split; [|split; [reflexivity|intros []; reflexivity]]); constructor.
  all: try reflexivity.
  all: try (intros []; split; reflexivity).
  all: try (intros []; reflexivity).
  all: try (intros []; [congruence| |]; split; reflexivity).
  - exists cid, ks, kc. repeat (split; auto); eexists; split; try reflexivity; auto.
  - exists cid, kc, ks. repeat (split; auto); eexists; split; try reflexivity; auto.
Qed.

Lemma connection_new_ok P oc srv d l : prims_ok P -> l <= 20 ->
  exists c, connection_new P oc srv V1 d l = Ok c.
Proof.
  intros HP L. unfold connection_new.
  destruct (u160_to_var_bytes d l) as [cid| | |] eqn:E.
  2-4: unfold u160_to_var_bytes in E; destruct (N.ltb_spec 20 l); try lia; discriminate.
  destruct (from_initial_ok P oc true cid HP) as [ss [ks [Es _]]].
  destruct (from_initial_ok P oc false cid HP) as [sc [kc [Ec _]]].
  cbn [bind]. rewrite Es. cbn [bind]. rewrite Ec. cbn [bind]. destruct srv; eauto.
Qed.

(** One call of [get_next_pn]. *)
Lemma get_next_pn_step oc c sp c' r : get_next_pn oc c sp = (c', r) ->
  c_dcid c' = c_dcid c /\ c_scid c' = c_scid c /\ c_version c' = c_version c /\
  (forall sp', sp' <> sp -> borrow_pn_info c' sp' = borrow_pn_info c sp') /\
  let i := borrow_pn_info c sp in let i' := borrow_pn_info c' sp in
  largest_remote_ack i' = largest_remote_ack i /\ largest_local_ack i' = largest_local_ack i /\
  local_tls_secrets i' = local_tls_secrets i /\ remote_tls_secrets i' = remote_tls_secrets i.
Proof.
  unfold get_next_pn. destruct (add64 oc _ 1); intros H; injection H as <- <-.
  2-4: repeat (split; auto).
  destruct sp; repeat (split; auto); intros [] NE; reflexivity || congruence.
Qed.

Lemma two64_eq : two64 = 2 ^ 64. Proof. reflexivity. Qed.

Lemma get_next_pn_no_ack oc c sp c' r : get_next_pn oc c sp = (c', r) ->
  largest_local_ack (borrow_pn_info c sp) = None -> next_pn (borrow_pn_info c sp) < 2 ^ 64 ->
  let n := next_pn (borrow_pn_info c sp) in
  (if n + 1 <? 2 ^ 64 then
     next_pn (borrow_pn_info c' sp) = n + 1 /\
     r = if 0xffffffff <? n + 1
         then Err (InternalError "too few bytes to encode truncated packet number")
         else Ok (n + 1, be_bytes 4 (n + 1))
   else if oc then c' = c /\ r = Panic "attempt to add with overflow"
   else next_pn (borrow_pn_info c' sp) = 0 /\ r = Ok (0, be_bytes 4 0)).
Proof.
  intros H A B n. subst n. unfold get_next_pn, add64 in H. rewrite two64_eq in H.
  set (n := next_pn (borrow_pn_info c sp)) in *.
  destruct (N.ltb_spec (n + 1) (2 ^ 64)) as [L|L].
  - injection H as <- <-. rewrite A. unfold truncate_pn. split; [destruct sp; reflexivity|].
    destruct (N.ltb_spec 0xffffffff (n + 1)); cbn [bind]; [reflexivity|].
    unfold cast. rewrite N.mod_small by (pows; lia). reflexivity.
  - destruct oc.
    + injection H as <- <-. auto.
    + replace ((n + 1) mod 2 ^ 64) with 0 in H.
      2:{ assert (n + 1 = 2 ^ 64) as -> by lia. reflexivity. }
      injection H as <- <-. rewrite A. cbn [largest_local_ack]. unfold truncate_pn.
      split; [destruct sp; reflexivity|].
      change (0xffffffff <? 0) with false. cbv iota. cbn [bind]. reflexivity.
Qed.

Lemma do_call_pn oc c x sp : (x = CNextPn sp) \/ (exists fs t, x = CInitial fs t /\ sp = SpInitial) \/
  (exists fs, x = CHandshake fs /\ sp = SpHandshake) -> do_call oc c x = fst (get_next_pn oc c sp).
Proof.
  intros [-> |[[fs [t [-> ->]]]|[fs [-> ->]]]]; [reflexivity| |].
  - cbn [do_call]. unfold initial_new. destruct (get_next_pn oc c SpInitial). reflexivity.
  - cbn [do_call]. unfold handshake_new. destruct (get_next_pn oc c SpHandshake). reflexivity.
Qed.

Lemma get_next_pn_inv P oc srv d l c sp : conn_inv P oc srv d l c ->
  conn_inv P oc srv d l (fst (get_next_pn oc c sp)).
Proof.
  intros [Hd Ha Hn Hk H0]. destruct (get_next_pn oc c sp) as [c' r] eqn:E. cbn [fst].
  destruct (get_next_pn_step _ _ _ _ _ E) as [D [S [V [O [I1 [I2 [I3 I4]]]]]]].
  pose proof (get_next_pn_no_ack _ _ _ _ _ E (proj2 (Ha sp)) (Hn sp)) as N1. cbv zeta in N1.
  assert (Dec : forall sp', sp' = sp \/ sp' <> sp) by (intros []; destruct sp; (left; congruence) || (right; congruence)).
  constructor.
  - congruence.
  - intros sp'. destruct (Dec sp') as [-> |NE]; unfold no_remote_ack; [|rewrite O by auto; apply Ha].
    rewrite I1, I2. apply Ha.
  - intros sp'. destruct (Dec sp') as [-> |NE]; [|rewrite O by auto; apply Hn].
    destruct (N.ltb_spec (next_pn (borrow_pn_info c sp) + 1) (2 ^ 64)).
    + destruct N1 as [-> _]. auto.
    + destruct oc; destruct N1 as [N1 _]; rewrite N1; auto. reflexivity.
  - destruct Hk as [cid [kl [kr [E1 [K1 [K2 [K3 K4]]]]]]]. exists cid, kl, kr.
    repeat (split; auto).
    + destruct K3 as [s [E3 K3]]. exists s. split; auto. destruct (Dec SpInitial) as [<- |NE];
        [rewrite I3; auto | rewrite O by auto; auto].
    + destruct K4 as [s [E4 K4]]. exists s. split; auto. destruct (Dec SpInitial) as [<- |NE];
        [rewrite I4; auto | rewrite O by auto; auto].
  - intros sp' NI. destruct (Dec sp') as [-> |NE]; [rewrite I3, I4; auto|rewrite O by auto; auto].
Qed.

Lemma do_call_inv P oc srv d l c x : conn_inv P oc srv d l c -> conn_inv P oc srv d l (do_call oc c x).
Proof.
  intros H. destruct x as [id n|sp|fs t|fs].
  - destruct H as [Hd Ha Hn Hk H0]. constructor; cbn; auto.
  - apply get_next_pn_inv; auto.
  - rewrite (do_call_pn oc c _ SpInitial) by eauto 8. apply get_next_pn_inv; auto.
  - rewrite (do_call_pn oc c _ SpHandshake) by eauto 8. apply get_next_pn_inv; auto.
Qed.

Lemma run_inv P oc srv d l xs : forall c, conn_inv P oc srv d l c -> conn_inv P oc srv d l (run oc c xs).
Proof. induction xs; cbn [run]; auto. intros. apply IHxs, do_call_inv; auto. Qed.

Lemma reachable_inv P oc srv d l c : prims_ok P -> reachable P oc srv d l c -> conn_inv P oc srv d l c.
Proof.
  intros HP [c0 [xs [E ->]]]. apply run_inv. eapply connection_new_inv; eauto.
Qed.

Lemma reachable_call P oc srv d l c x : reachable P oc srv d l c -> reachable P oc srv d l (do_call oc c x).
Proof.
  intros [c0 [xs [E ->]]]. exists c0, (xs ++ [x]). split; auto. clear E. revert c0.
  induction xs; cbn [run app]; auto.
Qed.

(** ** Packets built on a connection *)

Lemma fits_cast l : l <= 20 -> cast 8 l = l.
Proof. intros. unfold cast. apply N.mod_small. pows. lia. Qed.

Lemma initial_new_inv P oc srv d l c fs token c' p : conn_inv P oc srv d l c -> l <= 20 ->
  initial_new oc fs token c = (c', Ok p) ->
  c' = fst (get_next_pn oc c SpInitial) /\
  exists s sl, c_scid c = Some (s, sl) /\
  pi_header p = LongHeader 0xc3 1 l d (cast 8 sl) s None false /\
  pi_token p = match token with Some t => t | None => [] end /\
  pi_pn p <= 0xffffffff /\ pi_pn_bytes p = be_bytes 4 (pi_pn p) /\ pi_payload p = fs.
Proof.
  intros I L H. unfold initial_new in H. destruct (get_next_pn oc c SpInitial) as [c1 r] eqn:E.
  destruct (get_next_pn_step _ _ _ _ _ E) as [D [S [V _]]].
  pose proof (get_next_pn_no_ack _ _ _ _ _ E (proj2 (ci_acks _ _ _ _ _ _ I SpInitial)) (ci_next _ _ _ _ _ _ I SpInitial)) as N1.
  cbv zeta in N1. set (n := next_pn (borrow_pn_info c SpInitial)) in *.
  assert (R : (forall e, r <> Panic e) -> (exists m, r = Ok (m, be_bytes 4 m) /\ m <= 0xffffffff) \/ exists e, r = Err e).
  { destruct (n + 1 <? 2 ^ 64).
    - destruct N1 as [_ ->]. destruct (N.ltb_spec 0xffffffff (n + 1)); eauto.
    - destruct oc; destruct N1 as [_ ->]; [intros X; exfalso; eapply X; reflexivity|]. intros. left. exists 0. split; auto. lia. }
  injection H as <- H. apply bind_ok in H as [[m b] [-> H]].
  destruct (R ltac:(discriminate)) as [[m' [Em Lm]]|[e He]]; [|discriminate]. injection Em as -> ->.
  rewrite be_bytes_len in H. change (cast 8 (N.of_nat 4)) with 4 in H. cbn [negb andb] in H.
  change (negb ((0 <? 4) && (4 <=? 4))) with false in H. cbv iota in H.
  apply bind_ok in H as [h [Eh H]]. cbn [validate_payload bind] in H. injection H as <-.
  unfold long_from_connection, get_dcid, get_scid in Eh. rewrite D, S, (ci_dcid _ _ _ _ _ _ I) in Eh.
  destruct (c_scid c) as [[s sl]|]; [|discriminate]. cbn [ok_or bind] in Eh.
  split; [reflexivity|]. exists s, sl. split; [reflexivity|].
  rewrite (fits_cast l L) in Eh. injection Eh as <-.
  cbn [pi_header pi_token pi_pn pi_pn_bytes pi_payload].
  split; [|auto]. unfold get_version_field. destruct (c_version c1). reflexivity.
Qed.

Lemma handshake_new_inv P oc srv d l c fs c' p : conn_inv P oc srv d l c -> l <= 20 ->
  handshake_new oc fs c = (c', Ok p) ->
  c' = fst (get_next_pn oc c SpHandshake) /\
  exists s sl, c_scid c = Some (s, sl) /\
  ph_header p = LongHeader 0xe3 1 l d (cast 8 sl) s None false /\
  ph_pn p <= 0xffffffff /\ ph_pn_bytes p = be_bytes 4 (ph_pn p) /\ ph_payload p = fs.
Proof.
  intros I L H. unfold handshake_new in H. destruct (get_next_pn oc c SpHandshake) as [c1 r] eqn:E.
  destruct (get_next_pn_step _ _ _ _ _ E) as [D [S [V _]]].
  pose proof (get_next_pn_no_ack _ _ _ _ _ E (proj2 (ci_acks _ _ _ _ _ _ I SpHandshake)) (ci_next _ _ _ _ _ _ I SpHandshake)) as N1.
  cbv zeta in N1. set (n := next_pn (borrow_pn_info c SpHandshake)) in *.
  assert (R : (forall e, r <> Panic e) -> (exists m, r = Ok (m, be_bytes 4 m) /\ m <= 0xffffffff) \/ exists e, r = Err e).
  { destruct (n + 1 <? 2 ^ 64).
    - destruct N1 as [_ ->]. destruct (N.ltb_spec 0xffffffff (n + 1)); eauto.
    - destruct oc; destruct N1 as [_ ->]; [intros X; exfalso; eapply X; reflexivity|]. intros. left. exists 0. split; auto. lia. }
  injection H as <- H. apply bind_ok in H as [[m b] [-> H]].
  destruct (R ltac:(discriminate)) as [[m' [Em Lm]]|[e He]]; [|discriminate]. injection Em as -> ->.
  rewrite be_bytes_len in H. change (cast 8 (N.of_nat 4)) with 4 in H.
  change (negb ((0 <? 4) && (4 <=? 4))) with false in H. cbv iota in H.
  apply bind_ok in H as [h [Eh H]]. cbn [validate_payload bind] in H. injection H as <-.
  unfold long_from_connection, get_dcid, get_scid in Eh. rewrite D, S, (ci_dcid _ _ _ _ _ _ I) in Eh.
  destruct (c_scid c) as [[s sl]|]; [|discriminate]. cbn [ok_or bind] in Eh.
  split; [reflexivity|]. exists s, sl. split; [reflexivity|].
  rewrite (fits_cast l L) in Eh. injection Eh as <-.
  cbn [ph_header ph_pn ph_pn_bytes ph_payload].
  split; [|auto]. unfold get_version_field. destruct (c_version c1). reflexivity.
Qed.

Lemma pn_field_4 n : n <= 0xffffffff -> pn_field n (be_bytes 4 n).
Proof.
  intros H. split; [rewrite be_bytes_len; lia|]. split; [apply be_bytes_ok|].
  rewrite be_val_be_bytes, be_bytes_len. reflexivity.
Qed.

Lemma cid_enc_exists d l : cid_ok d -> cid_val d < 256 ^ l -> l <= 20 -> exists bs, cid_enc d l bs.
Proof.
  intros C V L. exists (be_bytes (N.to_nat l) (cid_val d)). split; auto. split; [apply be_bytes_ok|].
  rewrite be_bytes_len. split; [lia|]. rewrite be_val_be_bytes_small; auto. rewrite N2Nat.id. auto.
Qed.

Lemma built_header_ready b t l d sl s pn : b < 256 -> N.land b 0xb0 = 0x80 + 0x10 * t -> N.land b 0x03 = 3 ->
  l <= 20 -> sl <= 20 -> cid_ok d -> cid_val d < 256 ^ l -> cid_ok s -> cid_val s < 256 ^ sl ->
  header_ready (LongHeader b 1 l d sl s None false) (be_bytes 4 pn) t.
Proof.
  intros. destruct (cid_enc_exists d l) as [db Hd]; auto. destruct (cid_enc_exists s sl) as [sb Hs]; auto.
  repeat (split; cbn; auto); try lia.
  - exists (be_bytes 4 1 ++ l :: db ++ sl :: sb), (be_bytes 4 1), db, sb. cbn.
    split; [apply (fixed_enc_be 4); reflexivity|]. auto.
  - rewrite be_bytes_len. lia.
Qed.
