(** Properties C99 and C100: the packet number fields that are sent, as a receiver
    following RFC 9000 appendix A.3 reads them, and how those of the peer are read. *)
From Verif Require Import Base Utils Frame CipherSuite Secrets Connection Packet Histories Spec SpecPacket
  Tactics UtilsFacts SecretsFacts PacketFacts ConnectionFacts SendFacts CryptoInst PropCrypto PropConn PropPacket.
From Coq Require Import Lia ZifyN ZifyBool ZifyNat.
Open Scope N_scope.

(** RFC 9000 appendix A.3, DecodePacketNumber: [largest] is the largest packet
    number received so far ([None] before the first), [pnb] the packet number
    field. *)
Definition rfc_decode_pn (largest : option N) (pnb : list N) : N :=
  let expected := match largest with Some x => x + 1 | None => 0 end in
  let win := 256 ^ len pnb in
  let hwin := win / 2 in
  let candidate := expected - expected mod win + be_val pnb in
  if (candidate + hwin <=? expected) && (candidate + win <? 2 ^ 62) then candidate + win
  else if (expected + hwin <? candidate) && (win <=? candidate) then candidate - win
  else candidate.

(** The receiver has seen nothing as late as [pn] but everything acknowledged. *)
Definition waits_for (la : option N) (largest : option N) (pn : N) : Prop :=
  match la, largest with
  | Some x, Some y => x <= y < pn
  | Some _, None => False
  | None, Some y => y < pn
  | None, None => True
  end.

(** C99 (full statement; refuted): whatever field is produced for a packet
    number, a receiver waiting for it reads the packet number. *)
Definition C99_statement : Prop := forall pn la b largest,
  pn < 2 ^ 62 -> truncate_pn pn la = Ok b -> waits_for la largest pn -> rfc_decode_pn largest b = pn.

Lemma win_split e w t q : w <> 0 -> t = q mod w -> e - e mod w + t = w * (e / w) + q mod w.
Proof.
  intros W ->. pose proof (N.div_mod e w W) as D. remember (e mod w) as r. remember (w * (e / w)) as m.
  rewrite D. rewrite N.add_sub. reflexivity.
Qed.

(** The arithmetic of appendix A.3. *)
Lemma decode_window e w h pn : w = 2 * h -> h <> 0 -> e < pn + h -> pn <= e + h -> pn < 2 ^ 62 ->
  let c := w * (e / w) + pn mod w in
  (if (c + h <=? e) && (c + w <? 2 ^ 62) then c + w
   else if (e + h <? c) && (w <=? c) then c - w else c) = pn.
Proof.
  intros W H A B V c. subst c. assert (NZ : w <> 0) by lia.
  pose proof (N.div_mod e w NZ) as De. pose proof (N.mod_lt e w NZ) as Me.
  pose proof (N.div_mod pn w NZ) as Dp. pose proof (N.mod_lt pn w NZ) as Mp.
  remember (e / w) as qe. remember (pn / w) as qp. remember (e mod w) as re. remember (pn mod w) as rp.
  clear Heqqe Heqqp Heqre Heqrp.
  assert (Q : qp = qe \/ qp = qe + 1 \/ qp + 1 = qe).
  { destruct (N.lt_trichotomy qp qe) as [L|[E|L]]; [|left; exact E|].
    - destruct (N.eq_dec (qp + 1) qe); [auto|exfalso].
      assert (w * (qp + 2) <= w * qe) by (apply N.mul_le_mono_l; lia). lia.
    - destruct (N.eq_dec qp (qe + 1)); [auto|exfalso].
      assert (w * (qe + 2) <= w * qp) by (apply N.mul_le_mono_l; lia). lia. }
  destruct Q as [Q|[Q|Q]]; [subst qp|subst qp|subst qe].
  - destruct (N.leb_spec (w * qe + rp + h) e); cbn [andb]; [exfalso; lia|].
    destruct (N.ltb_spec (e + h) (w * qe + rp)); cbn [andb]; lia.
  - rewrite N.mul_add_distr_l, N.mul_1_r in Dp.
    destruct (N.leb_spec (w * qe + rp + h) e); cbn [andb]; [|exfalso; lia].
    destruct (N.ltb_spec (w * qe + rp + w) (2 ^ 62)); [lia|exfalso; lia].
  - rewrite N.mul_add_distr_l, N.mul_1_r in De |- *.
    destruct (N.leb_spec (w * qp + w + rp + h) e); cbn [andb]; [exfalso; lia|].
    destruct (N.ltb_spec (e + h) (w * qp + w + rp)); cbn [andb]; [|exfalso; lia].
    destruct (N.leb_spec w (w * qp + w + rp)); lia.
Qed.

Lemma decode_field pn b largest : pn_field pn b ->
  let e := match largest with Some x => x + 1 | None => 0 end in
  let h := 256 ^ len b / 2 in
  e < pn + h -> pn <= e + h -> pn < 2 ^ 62 -> rfc_decode_pn largest b = pn.
Proof.
  intros [L [_ V]] e h A B U. unfold rfc_decode_pn. fold e.
  assert (NZ : 256 ^ len b <> 0) by (apply N.pow_nonzero; discriminate).
  rewrite (win_split e (256 ^ len b) (be_val b) pn NZ V). fold h.
  assert (K : len b = 1 \/ len b = 2 \/ len b = 3 \/ len b = 4) by lia.
  apply decode_window; auto; unfold h in *; destruct K as [K|[K|[K|K]]]; rewrite K in *; vm_compute; congruence.
Qed.

(** What [truncate_pn] produces after an acknowledgement, for every number. *)
Lemma truncated pn x : x < pn -> pn < 2 ^ 64 -> exists n, 1 <= n <= 8 /\
  truncate_pn pn (Some x) = Ok (be_bytes (N.to_nat n) pn) /\
  256 ^ (n - 1) <= pn - x < 256 ^ n.
Proof.
  intros Hx Hp. unfold truncate_pn. destruct (N.leb_spec pn x); [lia|].
  rewrite floor_log2_spec by (change (2 ^ N.of_nat 64) with (2 ^ 64); lia). cbn [bind].
  assert (B : 2 ^ N.log2 (pn - x) <= pn - x < 2 ^ (N.log2 (pn - x) + 1)).
  { rewrite N.add_1_r. apply N.log2_spec. lia. }
  assert (B2 : N.log2 (pn - x) < 64) by (apply N.log2_lt_pow2; lia).
  remember (N.log2 (pn - x)) as g. clear Heqg.
  remember ((g + 1) / 8 + (if (g + 1) mod 8 =? 0 then 0 else 1)) as n.
  assert (N1 : 1 <= n <= 8 /\ 8 * (n - 1) <= g /\ g + 1 <= 8 * n).
  { subst n. destruct (N.eqb_spec ((g + 1) mod 8) 0); lia. }
  destruct (N.ltb_spec 8 n); [lia|].
  replace (N.to_nat (8 - n)) with (8 - N.to_nat n)%nat by lia. rewrite skipn_be_bytes by lia.
  exists n. split; [lia|]. split; [reflexivity|]. change 256 with (2 ^ 8). rewrite <- !N.pow_mul_r. split.
  - eapply N.le_trans; [|apply B]. apply N.pow_le_mono_r; lia.
  - eapply N.lt_le_trans; [apply B|]. apply N.pow_le_mono_r; lia.
Qed.

(** The field has the fewest bytes that can hold the distance - RFC 9000 section
    17.1 asks for enough to hold twice the distance. *)
Theorem C99_field_length : forall pn x, x < pn -> pn < 2 ^ 64 ->
  exists b, truncate_pn pn (Some x) = Ok b /\ 1 <= len b <= 8 /\ bytes_ok b /\
    be_val b = pn mod 256 ^ len b /\ 256 ^ (len b - 1) <= pn - x < 256 ^ len b.
Proof.
  intros pn x Hx Hp. destruct (truncated pn x Hx Hp) as [n [N1 [E B]]]. exists (be_bytes (N.to_nat n) pn).
  assert (L : len (be_bytes (N.to_nat n) pn) = n) by (rewrite be_bytes_len; lia).
  rewrite L. split; [exact E|]. split; [exact N1|]. split; [apply be_bytes_ok|]. split; [|exact B].
  rewrite be_val_be_bytes, N2Nat.id. reflexivity.
Qed.

(** So: what a receiver that has received nothing since reads, exactly. *)
Theorem C99_as_read : forall pn x b, pn + 2 ^ 32 < 2 ^ 62 -> x < pn -> pn - x < 2 ^ 32 ->
  truncate_pn pn (Some x) = Ok b ->
  let win := 256 ^ len b in
  rfc_decode_pn (Some x) b =
    if (x + 1 + win / 2 <? pn) && (win <=? pn) then pn - win else pn.
Proof.
  intros pn x b Hp Hx G E win. destruct (truncated pn x Hx) as [n [N1 [E' [B1 B2]]]]; [pows; lia|].
  rewrite E' in E. injection E as <-. subst win.
  assert (L : len (be_bytes (N.to_nat n) pn) = n) by (rewrite be_bytes_len; lia).
  assert (V : be_val (be_bytes (N.to_nat n) pn) = pn mod 256 ^ n) by (rewrite be_val_be_bytes, N2Nat.id; auto).
  assert (N4 : n <= 4).
  { destruct (N.le_gt_cases n 4); [assumption|exfalso].
    assert (256 ^ 4 <= 256 ^ (n - 1)) by (apply N.pow_le_mono_r; lia). change (256 ^ 4) with (2 ^ 32) in *. lia. }
  unfold rfc_decode_pn. rewrite L.
  assert (NZ : 256 ^ n <> 0) by (apply N.pow_nonzero; discriminate).
  rewrite (win_split (x + 1) (256 ^ n) _ pn NZ V).
  assert (W : 256 ^ n = 2 * (256 ^ n / 2) /\ 256 ^ n / 2 <> 0 /\ 256 ^ n <= 2 ^ 32).
  { assert (K : n = 1 \/ n = 2 \/ n = 3 \/ n = 4) by lia.
    destruct K as [->|[->|[->| ->]]]; repeat split; vm_compute; congruence. }
  destruct W as [W [H0 W32]]. remember (256 ^ n / 2) as h. remember (256 ^ n) as w. clear Heqh Heqw.
  destruct (N.leb_spec pn (x + 1 + h)) as [C|C].
  - destruct (N.ltb_spec (x + 1 + h) pn); [lia|]. cbn [andb]. apply decode_window; auto; lia.
  - destruct (N.ltb_spec (x + 1 + h) pn); [|lia]. cbn [andb]. clear V L E' B1.
    pose proof (N.div_mod (x + 1) w NZ) as De. pose proof (N.mod_lt (x + 1) w NZ) as Me.
    pose proof (N.div_mod pn w NZ) as Dp. pose proof (N.mod_lt pn w NZ) as Mp.
    remember ((x + 1) / w) as qe. remember (pn / w) as qp. remember ((x + 1) mod w) as re. remember (pn mod w) as rp.
    clear Heqqe Heqqp Heqre Heqrp.
    assert (Q : qp = qe \/ qp = qe + 1).
    { destruct (N.lt_trichotomy qp qe) as [A|[A|A]]; [exfalso|left; exact A|].
      - assert (w * (qp + 1) <= w * qe) by (apply N.mul_le_mono_l; lia). lia.
      - destruct (N.eq_dec qp (qe + 1)); [auto|exfalso].
        assert (w * (qe + 2) <= w * qp) by (apply N.mul_le_mono_l; lia). lia. }
    destruct Q as [Q|Q]; subst qp.
    + rewrite <- Dp. destruct (N.leb_spec (pn + h) (x + 1)); cbn [andb]; [exfalso; lia|].
      destruct (N.ltb_spec (x + 1 + h) pn); [|lia]. cbn [andb]. reflexivity.
    + rewrite N.mul_add_distr_l, N.mul_1_r in Dp.
      destruct (N.leb_spec (w * qe + rp + h) (x + 1)); cbn [andb]; [exfalso; lia|].
      destruct (N.ltb_spec (x + 1 + h) (w * qe + rp)); cbn [andb]; [exfalso; lia|].
      destruct (N.leb_spec w pn); lia.
Qed.

(** What holds: the numbers that are issued - no acknowledgement is ever
    recorded - are read by every receiver, also by one that has already received
    later ones, as long as less than 2^31 of them. *)
Theorem C99_issued_understood_partial : forall P oc srv d l c sp pn b largest,
  prims_ok P -> reachable P oc srv d l c -> snd (get_next_pn oc c sp) = Ok (pn, b) ->
  match largest with Some y => y + 1 < pn + 2 ^ 31 | None => True end ->
  rfc_decode_pn largest b = pn.
Proof.
  intros P oc srv d l c sp pn b largest HP R E W.
  pose proof (reachable_inv P oc srv d l c HP R) as I.
  destruct (C31_truncation_partial P oc srv d l c srv d l c sp pn b HP R R E) as [F _].
  assert (X : pn < 2 ^ 32 /\ len b = 4).
  { destruct (get_next_pn oc c sp) as [c' r] eqn:G. cbn [snd] in E. subst r.
    pose proof (get_next_pn_no_ack _ _ _ _ _ G (proj2 (ci_acks _ _ _ _ _ _ I sp)) (ci_next _ _ _ _ _ _ I sp)) as Z.
    cbv zeta in Z. pows. destruct (_ <? 18446744073709551616).
    - destruct Z as [_ Z]. destruct (N.ltb_spec 0xffffffff (next_pn (borrow_pn_info c sp) + 1)); [discriminate|].
      injection Z as -> ->. split; [lia|reflexivity].
    - destruct oc; destruct Z as [_ Z]; [discriminate|]. injection Z as -> ->. split; [lia|reflexivity]. }
  destruct X as [X L]. remember (match largest with Some x => x + 1 | None => 0 end) as e eqn:Ee.
  assert (A : e < pn + 2 ^ 31). { subst e. destruct largest; [exact W|pows; lia]. }
  destruct (N.le_gt_cases pn (e + 2 ^ 31)) as [C|C].
  - apply decode_field; auto; rewrite ?L, <- ?Ee; change (256 ^ 4 / 2) with (2 ^ 31); auto. pows; lia.
  - destruct F as [_ [_ V]]. unfold rfc_decode_pn. rewrite <- Ee, V, L. pows.
    change (256 ^ 4) with 4294967296. change (4294967296 / 2) with 2147483648.
    rewrite (N.mod_small e) by lia. rewrite (N.mod_small pn) by lia. rewrite N.sub_diag, N.add_0_l.
    destruct (N.leb_spec (pn + 2147483648) e); cbn [andb]; [exfalso; lia|].
    destruct (N.leb_spec 4294967296 pn); [exfalso; lia|]. rewrite andb_false_r. reflexivity.
Qed.
Print Assumptions C99_issued_understood_partial.

Theorem C99_understood_refuted : ~ C99_statement.
Proof.
  intros H. specialize (H 1200 (Some 1000) [0xb0] (Some 1000) ltac:(reflexivity) eq_refl ltac:(cbn; lia)).
  vm_compute in H. discriminate H.
Qed.
Example C99_case : 1200 + 2 ^ 32 < 2 ^ 62 /\ truncate_pn 1200 (Some 1000) = Ok [0xb0] /\
  rfc_decode_pn (Some 1000) [0xb0] = 944 /\
  (* the samples of RFC 9000 appendix A.2 and A.3 *)
  truncate_pn 0xac5c02 (Some 0xabe8b3) = Ok [0x5c; 0x02] /\
  truncate_pn 0xace8fe (Some 0xabe8b3) = Ok [0xac; 0xe8; 0xfe] /\
  rfc_decode_pn (Some 0xa82f30ea) [0x9b; 0x32] = 0xa82f9b32.
Proof. repeat split; vm_compute; reflexivity. Qed.
Example C99_issued_case :
  (let? c := connection_new real_prims true false V1 (U160 0 7) 8 in
   let? (_, b) := snd (get_next_pn true (run true c sample_calls) SpInitial) in
   Ok (rfc_decode_pn None b, rfc_decode_pn (Some 9) b)) = Ok (5, 5).
Proof. vm_compute. reflexivity. Qed.
Print Assumptions C99_field_length.
Print Assumptions C99_as_read.
Print Assumptions C99_understood_refuted.

(** ** C100 (full statement; refuted): a connection that has received packet [p]
    reads the number of a later packet from a field that covers twice the
    distance, as RFC 9000 section 17.1 asks for. *)
Definition C100_statement : Prop := forall P oc srv d l c s p rest pn b,
  prims_ok P -> reachable P oc srv d l c -> bytes_ok s ->
  decode_next_packet oc c s = Ok (PInitial p, rest) ->
  pn_field pn b -> pi_pn p < pn -> 2 * (pn - pi_pn p) < 256 ^ len b -> pn < 2 ^ 62 ->
  reconstruct_remote_pn oc c SpInitial b = Ok pn.

(** The full statement is met by the algorithm of appendix A.3. *)
Theorem C100_rfc_reads : forall y pn b,
  pn_field pn b -> y < pn -> 2 * (pn - y) < 256 ^ len b -> pn < 2 ^ 62 -> rfc_decode_pn (Some y) b = pn.
Proof.
  intros y pn b F Hy W U. apply decode_field; auto; [|lia].
  assert (256 ^ len b / 2 <> 0); [|lia]. destruct F as [L _].
  assert (K : len b = 1 \/ len b = 2 \/ len b = 3 \/ len b = 4) by lia.
  destruct K as [K|[K|[K|K]]]; rewrite K; vm_compute; discriminate.
Qed.
Example C100_rfc_case : pn_field 301 [45] /\ rfc_decode_pn (Some 300) [45] = 301.
Proof. repeat split; try (vm_compute; congruence). apply bytes_ok_dec. reflexivity. Qed.
Print Assumptions C100_rfc_reads.

(** What is read instead, for every field and whatever was received before: the
    field alone. *)
Theorem C100_field_alone_partial : forall P oc srv d l c sp pn b,
  prims_ok P -> reachable P oc srv d l c -> pn_field pn b ->
  reconstruct_remote_pn oc c sp b = Ok (pn mod 256 ^ len b) /\
  (reconstruct_remote_pn oc c sp b = Ok pn <-> pn < 256 ^ len b).
Proof.
  intros P oc srv d l c sp pn b HP R [L [B V]].
  pose proof (proj1 (ci_acks _ _ _ _ _ _ (reachable_inv _ _ _ _ _ _ HP R) sp)) as A. unfold no_remote_ack in A.
  assert (E : reconstruct_remote_pn oc c sp b = Ok (pn mod 256 ^ len b)).
  { unfold reconstruct_remote_pn. destruct (N.ltb_spec 4 (len b)); [lia|].
    rewrite A, from_be_bytes_val, be_val_zeros, V. reflexivity. }
  split; [exact E|]. rewrite E. assert (NZ : 256 ^ len b <> 0) by (apply N.pow_nonzero; discriminate). split.
  - intros H. injection H as H. rewrite <- H. apply N.mod_lt, NZ.
  - intros H. rewrite N.mod_small by exact H. reflexivity.
Qed.
Print Assumptions C100_field_alone_partial.

Theorem C100_numbers_refuted : ~ C100_statement.
Proof.
  intros H. destruct (sample_reachable false) as [c R]. destruct (sample_reachable true) as [s R'].
  destruct (peer_keys real_prims true false sample_id 8 c s real_prims_ok R R') as [k [K1 [K2 NA]]].
  assert (ID : id_fits sample_id 8) by (repeat split; vm_compute; (reflexivity || discriminate)).
  destruct (conformant_exists real_prims true false sample_id 8 c
    (LongHeader 0xc3 1 8 sample_id 8 sample_id None false) 300 (be_bytes 4 300) [] [Ping] [1] k) as [wire W];
    auto using real_prims_ok; try reflexivity; try (repeat constructor; discriminate).
  - apply header_of; auto; (reflexivity || discriminate).
  - set (p := PacketInitial (LongHeader 0xc3 1 8 sample_id 8 sample_id None false) [] 300 (be_bytes 4 300) [Ping]) in *.
    pose proof (initial_decodes real_prims true s k p [1] wire [] real_prims_ok K2 NA W eq_refl ltac:(reflexivity) eq_refl) as D.
    assert (B : bytes_ok (wire ++ [])).
    { rewrite app_nil_r. eapply initial_wire_bytes_ok; eauto using real_prims_ok.
      destruct K2 as [? [_ K2]]. apply K2. }
    assert (F : pn_field 301 [45]) by apply C100_rfc_case.
    specialize (H real_prims true true sample_id 8 s (wire ++ []) p [] 301 [45] real_prims_ok R' B D F
      ltac:(reflexivity) ltac:(reflexivity) ltac:(reflexivity)).
    destruct (C100_field_alone_partial real_prims true true sample_id 8 s SpInitial 301 [45] real_prims_ok R' F) as [_ X].
    apply X in H. vm_compute in H. discriminate H.
Qed.
Print Assumptions C100_numbers_refuted.

(** With a recorded number [x] (which nothing ever records) the code rounds [x]
    down to a multiple of 2^n, not of 256^n, for an n-byte field, and compares
    the field with the upper half of [x]; longer fields panic. *)
Theorem C100_recorded : forall oc c sp b x,
  bytes_ok b -> x < 2 ^ 63 -> largest_remote_ack (borrow_pn_info c sp) = Some x ->
  if 4 <? len b then exists w, reconstruct_remote_pn oc c sp b = Panic w
  else reconstruct_remote_pn oc c sp b =
         Ok (2 ^ len b * (x / 2 ^ len b + (if x / 2 ^ 32 <? be_val b then 0 else 1)) + be_val b).
Proof.
  intros oc c sp b x B Hx A. unfold reconstruct_remote_pn.
  destruct (N.ltb_spec 4 (len b)) as [L|L]; [eexists; reflexivity|].
  rewrite A, !from_be_bytes_val, be_val_zeros.
  assert (HI : be_val (firstn 4 (be_bytes 8 x)) = x / 2 ^ 32).
  { pose proof (be_val_be_bytes 8 x) as E. change (256 ^ N.of_nat 8) with (2 ^ 64) in E.
    rewrite N.mod_small in E by (pows; lia).
    rewrite <- (firstn_skipn 4 (be_bytes 8 x)) in E. rewrite be_val_app in E.
    replace (skipn 4 (be_bytes 8 x)) with (be_bytes 4 x) in E by (symmetry; apply (skipn_be_bytes 8 4 x); lia).
    rewrite be_bytes_len in E. change (256 ^ N.of_nat 4) with (2 ^ 32) in E.
    pose proof (be_val_bound (be_bytes 4 x) (be_bytes_ok _ _)) as Q. rewrite be_bytes_len in Q.
    change (256 ^ N.of_nat 4) with (2 ^ 32) in Q. apply N.div_unique with (r := be_val (be_bytes 4 x)); [exact Q|lia]. }
  rewrite HI. pose proof (be_val_bound b B) as BB.
  assert (BW : be_val b < 2 ^ 32).
  { eapply N.lt_le_trans; [exact BB|]. change (2 ^ 32) with (256 ^ 4). apply N.pow_le_mono_r; lia. }
  assert (NZ : 2 ^ len b <> 0) by (apply N.pow_nonzero; discriminate).
  assert (P2 : 2 ^ len b <= 16) by (change 16 with (2 ^ 4); apply N.pow_le_mono_r; lia).
  unfold add64. rewrite two64_eq, N.shiftr_div_pow2, !shl_spec.
  pose proof (N.div_mod x (2 ^ len b) NZ) as D. pose proof (N.mod_lt x (2 ^ len b) NZ) as M.
  remember (2 ^ len b) as w eqn:Ew. remember (x / w) as q. remember (x mod w) as r. clear Heqq Heqr HI.
  rewrite (N.mul_comm q w). pows.
  destruct (N.ltb_spec (x / 4294967296) (be_val b)) as [C|C].
  - rewrite N.mod_small by lia. destruct (N.ltb_spec (w * q + be_val b) 18446744073709551616); [|lia]. f_equal. lia.
  - destruct (N.ltb_spec (q + 1) 18446744073709551616); [|exfalso; nia]. cbn [bind].
    rewrite shl_spec, <- Ew. pows. assert (X : (q + 1) * w = w * q + w) by ring.
    rewrite X, N.mod_small by lia.
    destruct (N.ltb_spec (w * q + w + be_val b) 18446744073709551616); [|lia]. f_equal. lia.
Qed.
Example C100_recorded_case : largest_remote_ack (borrow_pn_info (acked (Some 1000)) SpInitial) = Some 1000 /\
  reconstruct_remote_pn true (acked (Some 1000)) SpInitial [0xe9] = Ok 1233.
Proof. split; reflexivity. Qed.
Print Assumptions C100_recorded.
