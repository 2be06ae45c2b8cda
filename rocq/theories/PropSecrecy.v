(** Property C124: what a packet shows of its payload. *)
From Verif Require Import Base Utils Frame CipherSuite Secrets Connection Packet Histories Spec SpecPacket
  Tactics UtilsFacts FrameFacts SecretsFacts HeaderFacts PacketFacts ConnectionFacts SendFacts CryptoInst Aes128 PropPacket PropStable PropWire.
From Coq Require Import Lia ZifyN.
Open Scope N_scope.

(** Encryption that shows nothing of a plain text but its length. *)
Definition blind (P : prims) : Prop :=
  forall key nonce aad x y, len x = len y -> p_gcm_seal P key nonce aad x = p_gcm_seal P key nonce aad y.

(** What a program does with a connection: the calls that change it, the
    installation of Handshake keys, and packets built and written at once. *)
Inductive act :=
| Uses (x : call)
| Installs (loc rem : secrets)
| SaysInitial (fs : list frame) (t : option (list N))
| SaysHandshake (fs : list frame).

(** What is put on the network, or the failure. *)
Fixpoint transcript (oc : bool) (c : connection) (acts : list act) : list (outcome (list N)) :=
  match acts with
  | [] => []
  | Uses x :: acts => transcript oc (do_call oc c x) acts
  | Installs a b :: acts => transcript oc (install c a b) acts
  | SaysInitial fs t :: acts =>
      let '(c, r) := initial_new oc fs t c in
      (let? p := r in initial_serialize oc p c) :: transcript oc c acts
  | SaysHandshake fs :: acts =>
      let '(c, r) := handshake_new oc fs c in
      (let? p := r in handshake_serialize oc p c) :: transcript oc c acts
  end.

Definition same_size (fs gs : list frame) : Prop :=
  exists a b, serialize_frames fs false = Ok a /\ serialize_frames gs false = Ok b /\ len a = len b.

(** Two programs that differ in the frames they send, but not in their size. *)
Inductive alike : act -> act -> Prop :=
| al_same : forall x, alike x x
| al_initial : forall fs gs t, same_size fs gs -> alike (SaysInitial fs t) (SaysInitial gs t)
| al_handshake : forall fs gs, same_size fs gs -> alike (SaysHandshake fs) (SaysHandshake gs)
| al_pn_initial : forall fs gs t u, alike (Uses (CInitial fs t)) (Uses (CInitial gs u))
| al_pn_handshake : forall fs gs, alike (Uses (CHandshake fs)) (Uses (CHandshake gs)).

(** The keys are used with the primitives [P]. *)
Definition suited (P : prims) (oc : bool) (c : connection) : Prop :=
  forall sp s, local_tls_secrets (borrow_pn_info c sp) = Some s -> s_cipher_suite s = TLS13_AES_128_GCM_SHA256 P oc.
Definition suited_act (P : prims) (oc : bool) (x : act) : Prop :=
  match x with Installs a _ => s_cipher_suite a = TLS13_AES_128_GCM_SHA256 P oc | _ => True end.

Lemma set_info_local c sp i sp' : local_tls_secrets i = local_tls_secrets (borrow_pn_info c sp) ->
  local_tls_secrets (borrow_pn_info (set_pn_info c sp i) sp') = local_tls_secrets (borrow_pn_info c sp').
Proof. destruct sp, sp'; cbn; auto. Qed.
Lemma suited_pn P oc c sp : suited P oc c -> suited P oc (fst (get_next_pn oc c sp)).
Proof.
  unfold get_next_pn. destruct (add64 oc _ 1); cbn [fst]; auto.
  intros H sp' s. rewrite set_info_local by reflexivity. apply H.
Qed.
Lemma suited_install P oc c a b : suited P oc c -> s_cipher_suite a = TLS13_AES_128_GCM_SHA256 P oc -> suited P oc (install c a b).
Proof. intros H A [] s; cbn; [apply (H SpInitial)|intros [= <-]; auto|apply (H SpApplication)]. Qed.
Lemma initial_new_fst oc fs t c : fst (initial_new oc fs t c) = fst (get_next_pn oc c SpInitial).
Proof. unfold initial_new. destruct (get_next_pn oc c SpInitial). reflexivity. Qed.
Lemma handshake_new_fst oc fs c : fst (handshake_new oc fs c) = fst (get_next_pn oc c SpHandshake).
Proof. unfold handshake_new. destruct (get_next_pn oc c SpHandshake). reflexivity. Qed.
Lemma suited_call P oc c x : suited P oc c -> suited P oc (do_call oc c x).
Proof.
  destruct x; cbn [do_call]; intros H; rewrite ?initial_new_fst, ?handshake_new_fst; auto using suited_pn.
Qed.

Lemma blind_seal P oc c sp aad pn x y : blind P -> suited P oc c -> len x = len y ->
  encrypt_local_payload c sp x aad pn = encrypt_local_payload c sp y aad pn.
Proof.
  intros B S L. unfold encrypt_local_payload, borrow_local_tls_secrets. specialize (S sp).
  destruct (local_tls_secrets (borrow_pn_info c sp)) as [s|]; cbn [ok_or bind]; [|reflexivity].
  unfold encrypt_payload. rewrite (S s eq_refl). destruct (make_iv s pn) as [iv| | |]; cbn [bind]; try reflexivity.
  cbn [cs_encrypt TLS13_AES_128_GCM_SHA256]. unfold encrypt_aes_128_gcm. destruct iv; cbn [ok_or bind]; [|reflexivity].
  unfold internal_encrypt_aes_128_gcm. rewrite (B _ _ _ _ _ L). reflexivity.
Qed.
Lemma blind_initial P oc c h t n nb fs gs : blind P -> suited P oc c -> same_size fs gs ->
  initial_serialize oc (PacketInitial h t n nb fs) c = initial_serialize oc (PacketInitial h t n nb gs) c.
Proof.
  intros B S [a [b [A [A' L]]]]. unfold initial_serialize. cbn [pi_payload pi_header pi_token pi_pn_bytes pi_pn].
  rewrite A, A'. cbn [bind]. rewrite <- L.
  repeat match goal with |- bind ?m _ = bind ?m _ => destruct m; cbn [bind]; [|reflexivity..] end.
  rewrite (blind_seal P oc c SpInitial _ _ _ _ B S L). reflexivity.
Qed.
Lemma blind_handshake P oc c h n nb fs gs : blind P -> suited P oc c -> same_size fs gs ->
  handshake_serialize oc (PacketHandshake h nb n fs) c = handshake_serialize oc (PacketHandshake h nb n gs) c.
Proof.
  intros B S [a [b [A [A' L]]]]. unfold handshake_serialize. cbn [ph_payload ph_header ph_pn_bytes ph_pn].
  rewrite A, A'. cbn [bind]. rewrite <- L.
  repeat match goal with |- bind ?m _ = bind ?m _ => destruct m; cbn [bind]; [|reflexivity..] end.
  rewrite (blind_seal P oc c SpHandshake _ _ _ _ B S L). reflexivity.
Qed.

(** ** C124: if encryption shows only the length, so does everything sent: two
    programs whose payloads have the same sizes produce the same traffic. *)
Theorem C124_only_sizes : forall P oc xs ys, blind P -> Forall2 alike xs ys -> Forall (suited_act P oc) xs ->
  forall c, suited P oc c -> transcript oc c xs = transcript oc c ys.
Proof.
  intros P oc xs ys B F. induction F as [|x y xs ys A F IH]; intros U c S; [reflexivity|].
  inversion_clear U as [|? ? Ux Us]. specialize (IH Us).
  assert (SI : suited P oc (fst (get_next_pn oc c SpInitial))) by (apply suited_pn; auto).
  assert (SH : suited P oc (fst (get_next_pn oc c SpHandshake))) by (apply suited_pn; auto).
  destruct A as [x|fs gs t Z|fs gs Z|fs gs t u|fs gs]; cbn [transcript].
  - destruct x as [x|a b|fs t|fs]; cbn [transcript].
    + apply IH, suited_call, S.
    + apply IH, suited_install; auto.
    + pose proof (initial_new_fst oc fs t c) as E. destruct (initial_new oc fs t c) as [c' r]. cbn [fst] in E. subst c'. f_equal. auto.
    + pose proof (handshake_new_fst oc fs c) as E. destruct (handshake_new oc fs c) as [c' r]. cbn [fst] in E. subst c'. f_equal. auto.
  - unfold initial_new. destruct (get_next_pn oc c SpInitial) as [c' r]. cbn [fst] in SI. f_equal; [|auto].
    destruct r as [[n nb]| | |]; cbn [bind]; try reflexivity. destruct (negb _); [reflexivity|].
    destruct (long_from_connection c' _); cbn [bind]; try reflexivity.
    cbn [validate_payload bind]. apply (blind_initial P oc); auto.
  - unfold handshake_new. destruct (get_next_pn oc c SpHandshake) as [c' r]. cbn [fst] in SH. f_equal; [|auto].
    destruct r as [[n nb]| | |]; cbn [bind]; try reflexivity. destruct (negb _); [reflexivity|].
    destruct (long_from_connection c' _); cbn [bind]; try reflexivity.
    cbn [validate_payload bind]. apply (blind_handshake P oc); auto.
  - cbn [do_call]. rewrite !initial_new_fst. auto.
  - cbn [do_call]. rewrite !handshake_new_fst. auto.
Qed.
Print Assumptions C124_only_sizes.

Lemma from_secret_suite cs secret s : from_secret cs secret = Ok s -> s_cipher_suite s = cs.
Proof.
  unfold from_secret. intros H. do 3 (match type of H with bind ?m _ = _ => destruct m; cbn [bind] in H; try discriminate end).
  injection H as <-. reflexivity.
Qed.
Lemma from_initial_suite P oc b cid v s : from_initial P oc b cid v = Ok s -> s_cipher_suite s = TLS13_AES_128_GCM_SHA256 P oc.
Proof.
  unfold from_initial. intros H. match type of H with bind ?m _ = _ => destruct m; cbn [bind] in H; try discriminate end.
  apply from_secret_suite in H. exact H.
Qed.
Lemma suited_new P oc srv v d l c : connection_new P oc srv v d l = Ok c -> suited P oc c.
Proof.
  unfold connection_new. intros H.
  destruct (u160_to_var_bytes d l) as [cid| | |]; cbn [bind] in H; try discriminate.
  destruct (from_initial P oc true cid v) as [s1| | |] eqn:E1; cbn [bind] in H; try discriminate.
  destruct (from_initial P oc false cid v) as [s2| | |] eqn:E2; cbn [bind] in H; try discriminate.
  apply from_initial_suite in E1, E2.
  destruct srv; injection H as <-; intros [] s; cbn; intros [= <-]; auto.
Qed.

(** From the moment a connection is made, whichever side it is for. *)
Theorem C124_only_sizes_api : forall P oc srv d l c xs ys,
  blind P -> connection_new P oc srv V1 d l = Ok c -> Forall2 alike xs ys ->
  (forall a b, In (Installs a b) xs -> exists secret, from_secret (TLS13_AES_128_GCM_SHA256 P oc) secret = Ok a) ->
  transcript oc c xs = transcript oc c ys.
Proof.
  intros P oc srv d l c xs ys B N F K. apply (C124_only_sizes P oc); auto; [|apply (suited_new _ _ _ _ _ _ _ N)].
  apply Forall_forall. intros [x|a b|fs t|fs] I; cbn; auto. destruct (K _ _ I) as [secret E]. apply (from_secret_suite _ _ _ E).
Qed.
Print Assumptions C124_only_sizes_api.

(** Primitives whose cipher texts are those of zeros. *)
Definition veil (P : prims) : prims :=
  Prims (p_hkdf_extract P) (p_hkdf_from_prk P) (p_hkdf_expand P) (p_ecb_encrypt P)
    (fun key nonce aad pt => p_gcm_seal P key nonce aad (repeat 0 (length pt))) (p_gcm_open P).
Lemma veil_blind P : blind (veil P).
Proof. intros key nonce aad x y L. cbn. unfold len in L. apply Nnat.Nat2N.inj in L. rewrite L. reflexivity. Qed.

(** The frames of the second program are others; with the veil the four packets
    are the same bytes, without it they are not, but their sizes are. *)
Definition one_story : list act :=
  [Uses (CSetScid (U160 0 9) 1); SaysInitial [Crypto (FrameCrypto 0 3 [1; 2; 3]); Padding] (Some [7]);
   Uses (CNextPn SpInitial); SaysInitial [Ping; Ping; Ping] None].
Definition other_story : list act :=
  [Uses (CSetScid (U160 0 9) 1); SaysInitial [Padding; Ping; Stream (FrameStream 4 9 1 [0] false)] (Some [7]);
   Uses (CNextPn SpInitial); SaysInitial [Padding; Ping; Padding] None].
Definition sizes (r : list (outcome (list N))) : list (option N) :=
  map (fun x => match x with Ok w => Some (len w) | _ => None end) r.
Definition same_bytes (a b : list (outcome (list N))) : list bool :=
  map (fun xy => match xy with (Ok x, Ok y) => list_eqb x y | _ => false end) (combine a b).
Lemma stories_alike : Forall2 alike one_story other_story.
Proof.
  repeat apply Forall2_cons; try apply Forall2_nil; try apply al_same; apply al_initial;
    (eexists; eexists; split; [vm_compute; reflexivity|split; [vm_compute; reflexivity|reflexivity]]).
Qed.
Example C124_case :
  blind (veil real_prims) /\ Forall2 alike one_story other_story /\
  (let? c := connection_new (veil real_prims) true false V1 (U160 0 77) 8 in
   let? r := connection_new real_prims true false V1 (U160 0 77) 8 in
   Ok (sizes (transcript true c one_story), same_bytes (transcript true c one_story) (transcript true c other_story),
       sizes (transcript true r one_story), sizes (transcript true r other_story),
       same_bytes (transcript true r one_story) (transcript true r other_story))) =
  Ok ([Some 46; Some 41], [true; true], [Some 46; Some 41], [Some 46; Some 41], [false; false]).
Proof. split; [apply veil_blind|]. split; [apply stories_alike|]. vm_compute. reflexivity. Qed.

(** ** With any encryption: of two packets sent from the same state, one with the
    payload [pt], only the four low bits of the first byte, the packet number
    field and the [len pt + 16] bytes of cipher text can differ. *)
Definition looks_like (size : N) (w1 w2 : list N) : Prop :=
  exists b1 b2 mid n1 n2 e1 e2,
    w1 = b1 :: mid ++ n1 ++ e1 /\ w2 = b2 :: mid ++ n2 ++ e2 /\ b1 / 16 = b2 / 16 /\
    len n1 = 4 /\ len n2 = 4 /\ len e1 = size + 16 /\ len e2 = size + 16.

Lemma high_bits a m n : N.lxor a (N.land m 0x0f) / 16 = N.lxor a (N.land n 0x0f) / 16.
Proof.
  change 16 with (2 ^ 4). rewrite <- !N.shiftr_div_pow2, !N.shiftr_lxor, !N.shiftr_land.
  change (N.shiftr 15 4) with 0. rewrite !N.land_0_r. reflexivity.
Qed.
Lemma protected_split P k first mid pnb pn pt w : prims_ok P -> keys_ok k -> bytes_ok pt ->
  protected P k 0x0f first mid pnb pn pt w ->
  exists m n e, w = N.lxor first (N.land m 0x0f) :: mid ++ n ++ e /\ len n = len pnb /\ len e = len pt + 16.
Proof.
  intros HP [K1 [K2 _]] Bp [[[PF1 PF2] _] [_ [nonce [ct [tag [m0 [mask [more [[_ [Hn _]] [S [_ [_ [Lm ->]]]]]]]]]]]]].
  rewrite K2 in Hn. destruct (open_law P HP _ _ _ _ _ _ K1 Hn Bp S) as [Lc [Lt _]].
  exists m0, (xor_bytes pnb mask), (ct ++ tag). split; [reflexivity|]. rewrite len_app, Lc, Lt.
  split; [|lia]. unfold len in *. rewrite xor_bytes_le; lia.
Qed.

(** The two packets, whatever state they are written from. *)
Lemma initial_layout P oc c k h fields token pn pnb fs pt w :
  prims_ok P -> local_keys P oc c SpInitial k -> header_ready h pnb 0 -> long_fields h fields ->
  pn_field pn pnb -> pn < 2 ^ 64 -> bytes_ok pt -> serialize_frames fs false = Ok pt -> len pt < 2 ^ 63 ->
  initial_serialize oc (PacketInitial h token pn pnb fs) c = Ok w ->
  exists tl ll, encode_var_int (len token) = Ok tl /\ encode_var_int (16 + len pt + len pnb) = Ok ll /\
    protected P k 0x0f (lh_byte h) (fields ++ tl ++ token ++ ll) pnb pn pt w.
Proof.
  intros HP HK [_ [Hb [Ht [Hv [VN [Hp PL]]]]]] HF PF Hpn Bpt Ept FS H.
  unfold initial_serialize in H. cbn [pi_header pi_token pi_pn pi_pn_bytes pi_payload] in H.
  rewrite Ept in H. cbn [bind] in H. rewrite (pnl_eq h pnb Hp PL) in H. cbn [bind] in H.
  pose proof PF as [[PF1 PF2] [Bpn Vpn]].
  rewrite (protected_len P oc c SpInitial k) in H by auto. cbn [bind] in H.
  rewrite add64_ok in H by (pows; lia). cbn [bind] in H.
  apply bind_ok in H as [ll [Ell H]]. apply bind_ok in H as [tl [Etl H]].
  rewrite (long_to_bytes_ok h fields HF) in H. cbn [bind] in H.
  apply bind_ok in H as [pp [Epp H]]. apply bind_ok in H as [sm [Esm H]].
  apply bind_ok in H as [mask [Em H]].
  replace ((lh_byte h :: fields) ++ tl ++ token ++ ll ++ pnb) with
    (lh_byte h :: (fields ++ tl ++ token ++ ll) ++ pnb) in Epp by (cbn [app]; rewrite <- !app_assoc; reflexivity).
  destruct (protect P oc c SpInitial k 0x0f _ _ _ _ _ _ _ _ HP HK PF PL Hpn Bpt Epp Esm Em)
    as [m0 [mk [-> [Ex PR]]]].
  rewrite protect_fields, Ex in H by auto. cbn [bind] in H.
  rewrite (long_to_bytes_ok _ fields (long_fields_byte _ _ _ _ HF)) in H. cbn [bind] in H. injection H as <-.
  exists tl, ll. split; [auto|]. split; [auto|].
  match type of PR with protected _ _ _ _ _ _ _ _ ?w =>
    match goal with |- protected _ _ _ _ _ _ _ _ ?w' =>
      replace w with w' in PR by (cbn [with_byte lh_byte app]; rewrite <- !app_assoc; reflexivity) end end.
  exact PR.
Qed.
Lemma handshake_layout P oc c k h fields pn pnb fs pt w :
  prims_ok P -> local_keys P oc c SpHandshake k -> header_ready h pnb 2 -> long_fields h fields ->
  pn_field pn pnb -> pn < 2 ^ 64 -> bytes_ok pt -> serialize_frames fs false = Ok pt -> len pt < 2 ^ 63 ->
  handshake_serialize oc (PacketHandshake h pnb pn fs) c = Ok w ->
  exists ll, encode_var_int (16 + len pt + len pnb) = Ok ll /\
    protected P k 0x0f (lh_byte h) (fields ++ ll) pnb pn pt w.
Proof.
  intros HP HK [_ [Hb [Ht [Hv [VN [Hp PL]]]]]] HF PF Hpn Bpt Ept FS H.
  unfold handshake_serialize in H. cbn [ph_header ph_pn ph_pn_bytes ph_payload] in H.
  rewrite Ept in H. cbn [bind] in H. rewrite (pnl_eq h pnb Hp PL) in H. cbn [bind] in H.
  pose proof PF as [[PF1 PF2] [Bpn Vpn]].
  rewrite (protected_len P oc c SpHandshake k) in H by auto. cbn [bind] in H.
  rewrite add64_ok in H by (pows; lia). cbn [bind] in H.
  apply bind_ok in H as [ll [Ell H]].
  rewrite (long_to_bytes_ok h fields HF) in H. cbn [bind] in H.
  apply bind_ok in H as [pp [Epp H]]. apply bind_ok in H as [sm [Esm H]].
  apply bind_ok in H as [mask [Em H]].
  replace ((lh_byte h :: fields) ++ ll ++ pnb) with
    (lh_byte h :: (fields ++ ll) ++ pnb) in Epp by (cbn [app]; rewrite <- !app_assoc; reflexivity).
  destruct (protect P oc c SpHandshake k 0x0f _ _ _ _ _ _ _ _ HP HK PF PL Hpn Bpt Epp Esm Em)
    as [m0 [mk [-> [Ex PR]]]].
  rewrite protect_fields, Ex in H by auto. cbn [bind] in H.
  rewrite (long_to_bytes_ok _ fields (long_fields_byte _ _ _ _ HF)) in H. cbn [bind] in H. injection H as <-.
  exists ll. split; [auto|].
  match type of PR with protected _ _ _ _ _ _ _ _ ?w =>
    match goal with |- protected _ _ _ _ _ _ _ _ ?w' =>
      replace w with w' in PR by (cbn [with_byte lh_byte app]; rewrite <- !app_assoc; reflexivity) end end.
  exact PR.
Qed.
Lemma look_alike P k first mid pnb pn pt pt' w1 w2 : prims_ok P -> keys_ok k -> bytes_ok pt -> bytes_ok pt' ->
  len pnb = 4 -> len pt = len pt' ->
  protected P k 0x0f first mid pnb pn pt w1 -> protected P k 0x0f first mid pnb pn pt' w2 -> looks_like (len pt) w1 w2.
Proof.
  intros HP K B B' L4 L W1 W2.
  destruct (protected_split _ _ _ _ _ _ _ _ HP K B W1) as [m [n [e [-> [Ln Le]]]]].
  destruct (protected_split _ _ _ _ _ _ _ _ HP K B' W2) as [m' [n' [e' [-> [Ln' Le']]]]].
  do 7 eexists. split; [reflexivity|]. split; [reflexivity|]. split; [apply high_bits|].
  rewrite Ln, Ln', Le, Le', L4, L. auto.
Qed.
Lemma initial_news oc fs gs t c p q : snd (initial_new oc fs t c) = Ok p -> snd (initial_new oc gs t c) = Ok q ->
  q = PacketInitial (pi_header p) (pi_token p) (pi_pn p) (pi_pn_bytes p) gs /\ pi_payload p = fs.
Proof.
  unfold initial_new. destruct (get_next_pn oc c SpInitial) as [c' r]. cbn [snd].
  destruct r as [[n nb]| | |]; cbn [bind]; try discriminate. destruct (negb _); try discriminate.
  destruct (long_from_connection c' _); cbn [bind validate_payload]; try discriminate.
  intros [= <-] [= <-]. auto.
Qed.
Lemma handshake_news oc fs gs c p q : snd (handshake_new oc fs c) = Ok p -> snd (handshake_new oc gs c) = Ok q ->
  q = PacketHandshake (ph_header p) (ph_pn_bytes p) (ph_pn p) gs /\ ph_payload p = fs.
Proof.
  unfold handshake_new. destruct (get_next_pn oc c SpHandshake) as [c' r]. cbn [snd].
  destruct r as [[n nb]| | |]; cbn [bind]; try discriminate. destruct (negb _); try discriminate.
  destruct (long_from_connection c' _); cbn [bind validate_payload]; try discriminate.
  intros [= <-] [= <-]. auto.
Qed.
Lemma wf_bytes fs pt : Forall frame_wf fs -> serialize_frames fs false = Ok pt -> bytes_ok pt.
Proof.
  intros F E. destruct (serialize_frames_enc fs false F) as [pt' [E' Fp]]. assert (pt' = pt) as -> by congruence.
  apply (frames_enc_bytes_ok _ _ Fp).
Qed.

Theorem C124_visible_initial : forall P oc srv d l c c1 fs gs t p q w1 w2 pt pt',
  prims_ok P -> reachable P oc srv d l c -> reachable P oc srv d l c1 -> id_fits d l -> scid_fits c ->
  Forall frame_wf fs -> Forall frame_wf gs -> serialize_frames fs false = Ok pt -> serialize_frames gs false = Ok pt' ->
  len pt = len pt' -> len pt < 2 ^ 63 ->
  snd (initial_new oc fs t c) = Ok p -> initial_serialize oc p c1 = Ok w1 ->
  snd (initial_new oc gs t c) = Ok q -> initial_serialize oc q c1 = Ok w2 ->
  looks_like (len pt) w1 w2.
Proof.
  intros P oc srv d l c c1 fs gs t p q w1 w2 pt pt' HP R R1 ID SF Wf Wg Ep Ep' L L63 N1 S1 N2 S2.
  destruct (built_initial _ _ _ _ _ _ _ _ _ HP R ID SF N1) as [HR [PF [Lp [L4 [Ef [Et X]]]]]].
  destruct (initial_news _ _ _ _ _ _ _ N1 N2) as [-> _].
  destruct (ci_keys _ _ _ _ _ _ (reachable_inv _ _ _ _ _ _ HP R1)) as [cid [kl [kr [_ [_ [_ [K _]]]]]]].
  assert (K' : keys_ok kl) by (destruct K as [? [_ [_ [_ [_ [_ ?]]]]]]; auto).
  destruct p as [h token pn pnb fs']. cbn [pi_header pi_token pi_pn pi_pn_bytes pi_payload] in *. subst fs'.
  pose proof HR as [[fields HF] _].
  assert (Hpn : pn < 2 ^ 64) by (pows; lia).
  destruct (initial_layout P oc c1 kl h fields token pn pnb fs pt w1 HP K HR HF PF Hpn (wf_bytes _ _ Wf Ep) Ep L63 S1) as [tl [ll [E1 [E2 W1]]]].
  destruct (initial_layout P oc c1 kl h fields token pn pnb gs pt' w2 HP K HR HF PF Hpn (wf_bytes _ _ Wg Ep') Ep' ltac:(lia) S2) as [tl' [ll' [E1' [E2' W2]]]].
  assert (tl' = tl) as -> by congruence. rewrite <- L in E2'. assert (ll' = ll) as -> by congruence.
  apply (look_alike P kl _ _ _ _ _ pt' _ _ HP K' (wf_bytes _ _ Wf Ep) (wf_bytes _ _ Wg Ep') L4 L W1 W2).
Qed.
Print Assumptions C124_visible_initial.

Theorem C124_visible_handshake : forall P oc k c c1 d l fs gs p q w1 w2 pt pt',
  prims_ok P -> local_keys P oc c1 SpHandshake k ->
  largest_local_ack (borrow_pn_info c SpHandshake) = None -> next_pn (borrow_pn_info c SpHandshake) < 2 ^ 64 ->
  c_dcid c = (d, l) -> id_fits d l -> scid_fits c ->
  Forall frame_wf fs -> Forall frame_wf gs -> serialize_frames fs false = Ok pt -> serialize_frames gs false = Ok pt' ->
  len pt = len pt' -> len pt < 2 ^ 63 ->
  snd (handshake_new oc fs c) = Ok p -> handshake_serialize oc p c1 = Ok w1 ->
  snd (handshake_new oc gs c) = Ok q -> handshake_serialize oc q c1 = Ok w2 ->
  looks_like (len pt) w1 w2.
Proof.
  intros P oc k c c1 d l fs gs p q w1 w2 pt pt' HP K LA NX DC [D1 [D2 D3]] SF Wf Wg Ep Ep' L L63 N1 S1 N2 S2.
  destruct (handshake_news _ _ _ _ _ _ N1 N2) as [-> Ef].
  destruct (handshake_new oc fs c) as [c' r] eqn:EN'. cbn [snd] in N1. subst r.
  destruct (handshake_new_inv' _ _ _ _ _ _ _ LA NX DC D2 EN') as [s [sl [Es [Eh [Lp [Eb _]]]]]].
  unfold scid_fits in SF. rewrite Es in SF. destruct SF as [Z1 [Z2 Z3]]. rewrite (fits_cast sl Z2) in Eh.
  assert (HR : header_ready (ph_header p) (ph_pn_bytes p) 2)
    by (rewrite Eh, Eb; apply built_header_ready; auto; lia).
  assert (PF : pn_field (ph_pn p) (ph_pn_bytes p)) by (rewrite Eb; apply pn_field_4; auto).
  assert (L4 : len (ph_pn_bytes p) = 4) by (rewrite Eb, be_bytes_len; reflexivity).
  assert (K' : keys_ok k) by (destruct K as [? [_ [_ [_ [_ [_ ?]]]]]]; auto).
  destruct p as [h pnb pn fs']. cbn [ph_header ph_pn ph_pn_bytes ph_payload] in *. subst fs'.
  pose proof HR as [[fields HF] _]. assert (Hpn : pn < 2 ^ 64) by (pows; lia).
  destruct (handshake_layout P oc c1 k h fields pn pnb fs pt w1 HP K HR HF PF Hpn (wf_bytes _ _ Wf Ep) Ep L63 S1) as [ll [E2 W1]].
  destruct (handshake_layout P oc c1 k h fields pn pnb gs pt' w2 HP K HR HF PF Hpn (wf_bytes _ _ Wg Ep') Ep' ltac:(lia) S2) as [ll' [E2' W2]].
  rewrite <- L in E2'. assert (ll' = ll) as -> by congruence.
  apply (look_alike P k _ _ _ _ _ pt' _ _ HP K' (wf_bytes _ _ Wf Ep) (wf_bytes _ _ Wg Ep') L4 L W1 W2).
Qed.
Print Assumptions C124_visible_handshake.

(** Two Handshake packets: the bytes 1 to 23 (version, ids, length) agree. *)
Example C124_visible_case :
  (let? (c, s) := sample_pair true in
   let? a := from_secret (TLS13_AES_128_GCM_SHA256 real_prims true) (repeat 1 32) in
   let c := install c a a in
   let fs := [Crypto (FrameCrypto 0 3 [1; 2; 3]); Padding] in
   let gs := [Padding; Ping; Stream (FrameStream 4 9 1 [0] false)] in
   let? p := snd (handshake_new true fs c) in
   let? q := snd (handshake_new true gs c) in
   let? w1 := handshake_serialize true p c in
   let? w2 := handshake_serialize true q c in
   let? pt := serialize_frames fs false in
   let? pt' := serialize_frames gs false in
   Ok (len pt, len pt', len w1, len w2, list_eqb (firstn 23 (skipn 1 w1)) (firstn 23 (skipn 1 w2)),
       list_eqb (skipn 24 w1) (skipn 24 w2))) = Ok (7, 7, 51, 51, true, false).
Proof. vm_compute. reflexivity. Qed.
