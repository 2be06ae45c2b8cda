(** C24 holds for the corrected decoder of PropRepairsPn.v: an error is reported
    wherever the code panics.  What the code does: PropDecode.v. *)
From Verif Require Import Base Utils Frame CipherSuite Secrets Connection Packet Histories Spec SpecPacket
  Tactics UtilsFacts ParserFacts FrameFacts SecretsFacts HeaderFacts PacketFacts ConnectionFacts PacketInv DecodeFacts SendFacts
  ProtectedInv CryptoInst BuildFacts PropPacket PropConn PropProtected PropDecode PropRepairsPn.

(** packet.rs:808-817 with the decoder of PropRepairsPn.v. *)
Fixpoint decode_all_repaired_loop (fd : frame_decoder) (oc : bool) (c : connection) (fuel : nat) (s : stream) : outcome (list packet) :=
  match s with
  | [] => Ok []
  | _ =>
      match fuel with
      | O => Diverge
      | S f =>
          let? (p, s) := decode_repaired fd oc c s in
          let? ps := decode_all_repaired_loop fd oc c f s in
          Ok (p :: ps)
      end
  end.
Definition decode_all_repaired (fd : frame_decoder) (oc : bool) (c : connection) (s : stream) : outcome (list packet) :=
  decode_all_repaired_loop fd oc c (length s) s.

(** Returns a value with [Q], or an error. *)
Definition fine {A} (Q : A -> Prop) (m : outcome A) : Prop :=
  match m with Ok x => Q x | Err _ => True | _ => False end.
Lemma fine_bind {A B} (R : A -> Prop) (Q : B -> Prop) m (k : A -> outcome B) :
  fine R m -> (forall x, m = Ok x -> R x -> fine Q (k x)) -> fine Q (let? x := m in k x).
Proof. intros F K. destruct m; cbn in *; auto. Qed.
Lemma fine_ext {A} (R Q : A -> Prop) m : fine R m -> (forall x, m = Ok x -> R x -> Q x) -> fine Q m.
Proof. destruct m; cbn; auto. Qed.
Lemma fine_tame {A} w (p : parser A) s : tame w p -> bytes_ok s ->
  fine (fun y => bytes_ok (snd y) /\ len (snd y) <= len s) (p s).
Proof.
  intros T B. pose proof (T s B) as X. destruct (p s) as [[x r]|e|v|] eqn:E; cbn; auto.
  exact (tame_rest _ _ _ _ _ T B E).
Qed.
Lemma fine_with_bytes oc s : bytes_ok s ->
  fine (fun y => bytes_ok (snd y) /\ len (snd y) <= len s) (var_int_with_bytes_from_stream oc s).
Proof.
  intros B. pose proof (tame_var_int oc s B) as X. rewrite var_int_from_stream_eq in X.
  destruct (var_int_with_bytes_from_stream oc s) as [[[x bs] r]|e|v|] eqn:E; cbn in *; auto.
  eapply with_bytes_rest; eauto.
Qed.

(** Keys, where there are any, are derived as the crate derives them; no
    acknowledgement was recorded. *)
Definition usable (P : prims) (oc : bool) (c : connection) : Prop :=
  forall sp, no_remote_ack c sp /\
    (remote_tls_secrets (borrow_pn_info c sp) = None \/ exists k, remote_keys P oc c sp k).

Lemma mask_fine P oc c sp s : prims_ok P -> usable P oc c ->
  fine (fun m => (exists k, remote_keys P oc c sp k) /\ len m = 5 /\ bytes_ok m /\ 16 <= len s) (get_remote_hp_mask c sp s).
Proof.
  intros HP U. destruct (U sp) as [_ [N|[k K]]].
  - rewrite no_keys_mask by auto. exact I.
  - destruct (N.lt_ge_cases (len s) 16) as [L|L].
    + rewrite (remote_mask_short P oc c sp k) by auto. exact I.
    + destruct (remote_mask P oc c sp k s HP K L) as [m0 [mask [more [-> [Lm [Bm _]]]]]]. cbn.
      split; [eauto|]. split; [rewrite len_cons; lia|split; [auto|lia]].
Qed.

Lemma open_fine P oc c sp data ad pn k : prims_ok P -> remote_keys P oc c sp k -> bytes_ok data -> 16 <= len data ->
  pn < 2 ^ 64 -> fine (@bytes_ok) (decrypt_remote_payload c sp data ad pn).
Proof.
  intros HP [sec [Es Ks]] B L16 Hp.
  unfold decrypt_remote_payload, borrow_remote_tls_secrets. rewrite Es. cbn [ok_or bind].
  destruct (decrypt_payload_split P oc sec k data ad pn Ks Hp) as [nonce [ct [tag [Hn [-> [Lt E]]]]]]; [lia|].
  rewrite E. apply bytes_ok_app in B as [Bct Btag]. destruct Ks as [_ [_ [_ [_ [K1 [K2 [K3 K4]]]]]]].
  assert (Lno : len nonce = 12) by (destruct Hn as [_ [-> _]]; auto).
  destruct (p_gcm_open P (k_key k) nonce ad ct tag) as [pt|] eqn:Ho; cbn; auto.
  destruct (auth_law P HP _ _ _ _ _ _ K1 Lno Bct Btag Lt Ho) as [Bpt _]. exact Bpt.
Qed.

(** The frame decoder must not panic either.  That of the code does not. *)
Definition frames_total (fd : frame_decoder) : Prop := forall oc pt, bytes_ok pt -> fine (fun _ => True) (fd oc pt).
Lemma frames_fine : frames_total deserialize_frames.
Proof. intros oc pt B. pose proof (deserialize_frames_total oc pt B) as T. destruct (deserialize_frames oc pt); cbn; auto. Qed.

(** What follows the Length field of a long packet. *)
Lemma long_tail_fine {A} fd P oc c sp h fields L s (ad : list N -> list N -> list N)
  (k : long_header -> list N -> N -> list frame -> stream -> outcome (A * stream)) m :
  frames_total fd -> prims_ok P -> usable P oc c -> bytes_ok s -> long_fields h fields -> len s <= m ->
  (forall h pnb pn fs r, bytes_ok r -> len r <= m -> fine (fun y => bytes_ok (snd y) /\ len (snd y) <= m) (k h pnb pn fs r)) ->
  fine (fun y => bytes_ok (snd y) /\ len (snd y) <= m)
    (let? (four, s) := var_bytes_from_stream 4 s in
     let? mask := get_remote_hp_mask c sp s in
     let? header := long_remove_protection h mask in
     let? pn_length := long_packet_number_length header in
     let? pn_protected := xor_pn_protection four mask in
     let pn_bytes := firstn (N.to_nat pn_length) pn_protected in
     let s := skipn (N.to_nat pn_length) four ++ s in
     let? packet_number := reconstruct_remote_pn oc c sp pn_bytes in
     let? n := payload_length L pn_length in
     let? (data, s) := var_bytes_from_stream n s in
     let? hb := long_to_bytes header in
     let? pt := decrypt_remote_payload c sp data (ad hb pn_bytes) packet_number in
     let? payload := fd oc pt in
     k header pn_bytes packet_number payload s).
Proof.
  intros FT HP U B HF LM K.
  eapply fine_bind; [apply (fine_tame _ _ _ (tame_var_bytes 4) B)|]. intros [four s1] E [B1 L1]. cbn [snd] in *.
  apply var_bytes_inv in E as [-> L4]. apply bytes_ok_app in B as [Bf _].
  eapply fine_bind; [apply (mask_fine P oc c sp s1 HP U)|]. intros mask Em [[ky KY] [Lm [Bm L16]]].
  destruct mask as [|m0 mask]; [discriminate Lm|].
  eapply fine_bind with (R := fun h' => long_fields h' fields /\ lh_protected h' = false).
  { unfold long_remove_protection. destruct (lh_protected h) eqn:Ep; cbn.
    - split; [|reflexivity]. exact (long_fields_byte h (N.lxor (lh_byte h) (N.land m0 15)) false fields HF).
    - auto. }
  intros h' _ [HF' Hp]. unfold long_packet_number_length. rewrite Hp. cbn [bind].
  pose proof (land3_le (lh_byte h')) as L3.
  rewrite xor_pn_spec by (unfold len in *; lia). cbn [bind skipn]. cbv zeta.
  apply bytes_ok_cons in Bm as [_ Bm].
  set (pnl := N.land (lh_byte h') 3 + 1) in *. set (pnb := firstn (N.to_nat pnl) (xor_bytes four mask)).
  assert (Bpn : bytes_ok pnb) by (apply bytes_ok_firstn, xor_bytes_ok; auto).
  assert (Lpn : len pnb <= 4) by (unfold pnb; pose proof (take_len (N.to_nat pnl) (xor_bytes four mask)); lia).
  rewrite reconstruct_none by (auto; apply U). cbn [bind].
  unfold payload_length. destruct (N.ltb_spec L 20); cbn [bind]; [exact I|].
  set (s2 := skipn (N.to_nat pnl) four ++ s1).
  assert (B2 : bytes_ok s2) by (apply bytes_ok_app; split; [apply bytes_ok_skipn; auto|auto]).
  assert (L2 : len s2 <= m).
  { unfold s2. rewrite len_app in *. unfold len in *. rewrite skipn_length. lia. }
  eapply fine_bind; [apply (fine_tame _ _ _ (tame_var_bytes (L - pnl)) B2)|]. intros [data s3] E [B3 L3']. cbn [snd] in *.
  apply var_bytes_inv in E as [E2 Ld]. rewrite E2 in B2. apply bytes_ok_app in B2 as [Bd _].
  rewrite (long_to_bytes_ok h' fields HF'). cbn [bind].
  eapply fine_bind; [apply (open_fine P oc c sp data _ _ ky HP KY Bd); [lia|]|].
  { pose proof (pnb_bound pnb Bpn Lpn). pows. lia. }
  intros pt _ Bpt. eapply fine_bind; [apply (FT oc pt Bpt)|]. intros fs _ _. apply K; [auto|lia].
Qed.

Lemma initial_fine fd P oc c b fields h s : frames_total fd -> prims_ok P -> usable P oc c -> bytes_ok (b :: fields ++ s) ->
  long_fields h fields -> lh_version h <> 0 -> lh_vn h = None ->
  fine (fun y => bytes_ok (snd y) /\ len (snd y) <= len s) (initial_repaired fd oc c (b :: fields ++ s)).
Proof.
  intros FT HP U B HF Hv VN. unfold initial_repaired. apply bytes_ok_cons in B as [Hb B]. apply bytes_ok_app in B as [_ B].
  rewrite u8_dec by auto. cbn [bind]. rewrite (long_dec h fields) by auto. cbn [bind].
  eapply fine_bind; [apply (fine_with_bytes oc s B)|]. intros [[tl tlb] s1] _ [B1 L1]. cbn [snd] in *.
  eapply fine_bind; [apply (fine_tame _ _ _ (tame_var_bytes tl) B1)|]. intros [tok s2] _ [B2 L2]. cbn [snd] in *.
  eapply fine_bind; [apply (fine_with_bytes oc s2 B2)|]. intros [[ln lnb] s3] _ [B3 L3]. cbn [snd] in *.
  apply (long_tail_fine fd P oc c SpInitial _ fields ln s3 (fun hb pnb => hb ++ tlb ++ tok ++ lnb ++ pnb)
    (fun header pnb pn fs s => let? _ := validate_payload fs in Ok (PacketInitial header tok pn pnb fs, s)));
    auto; try lia; intros; cbn; auto.
Qed.
Lemma handshake_fine fd P oc c b fields h s : frames_total fd -> prims_ok P -> usable P oc c -> bytes_ok (b :: fields ++ s) ->
  long_fields h fields -> lh_version h <> 0 -> lh_vn h = None ->
  fine (fun y => bytes_ok (snd y) /\ len (snd y) <= len s) (handshake_repaired fd oc c (b :: fields ++ s)).
Proof.
  intros FT HP U B HF Hv VN. unfold handshake_repaired. apply bytes_ok_cons in B as [Hb B]. apply bytes_ok_app in B as [_ B].
  rewrite u8_dec by auto. cbn [bind]. rewrite (long_dec h fields) by auto. cbn [bind].
  eapply fine_bind; [apply (fine_with_bytes oc s B)|]. intros [[ln lnb] s3] _ [B3 L3]. cbn [snd] in *.
  apply (long_tail_fine fd P oc c SpHandshake _ fields ln s3 (fun hb pnb => hb ++ lnb ++ pnb)
    (fun header pnb pn fs s => Ok (PacketHandshake header pnb pn fs, s)));
    auto; try lia; intros; cbn; auto.
Qed.
Lemma zero_rtt_fine fd P oc c b fields h s : frames_total fd -> prims_ok P -> usable P oc c -> bytes_ok (b :: fields ++ s) ->
  long_fields h fields -> lh_version h <> 0 -> lh_vn h = None ->
  fine (fun y => bytes_ok (snd y) /\ len (snd y) <= len s) (zero_rtt_repaired fd oc c (b :: fields ++ s)).
Proof.
  intros FT HP U B HF Hv VN. unfold zero_rtt_repaired. apply bytes_ok_cons in B as [Hb B]. apply bytes_ok_app in B as [_ B].
  rewrite u8_dec by auto. cbn [bind]. rewrite (long_dec h fields) by auto. cbn [bind].
  eapply fine_bind; [apply (fine_with_bytes oc s B)|]. intros [[ln lnb] s3] _ [B3 L3]. cbn [snd] in *.
  apply (long_tail_fine fd P oc c SpApplication _ fields ln s3 (fun hb pnb => hb ++ lnb ++ pnb)
    (fun header pnb pn fs s => Ok (PacketZeroRtt header ln pnb pn fs, s)));
    auto; try lia; intros; cbn; auto.
Qed.
Lemma one_rtt_fine fd P oc c b d u s : frames_total fd -> prims_ok P -> usable P oc c -> bytes_ok (b :: d ++ s) -> cid_enc u 8 d ->
  fine (fun y => snd y = []) (one_rtt_repaired fd oc c (b :: d ++ s)).
Proof.
  intros FT HP U B HD. unfold one_rtt_repaired. apply bytes_ok_cons in B as [Hb B]. apply bytes_ok_app in B as [_ B].
  rewrite u8_dec by auto. cbn [bind]. rewrite (short_dec _ d u) by auto. cbn [bind].
  eapply fine_bind; [apply (fine_tame _ _ _ (tame_var_bytes 4) B)|]. intros [four s1] E [B1 L1]. cbn [snd] in *.
  apply var_bytes_inv in E as [-> L4]. apply bytes_ok_app in B as [Bf _].
  eapply fine_bind; [apply (mask_fine P oc c SpApplication s1 HP U)|]. intros mask Em [[ky KY] [Lm [Bm L16]]].
  destruct mask as [|m0 mask]; [discriminate Lm|].
  unfold short_remove_protection, short_packet_number_length. cbn [sh_protected index nth_error bind sh_byte sh_dcid].
  set (fb := N.lxor b (N.land m0 31)). pose proof (land3_le fb) as L3.
  rewrite xor_pn_spec by (unfold len in *; lia). cbn [bind skipn]. cbv zeta.
  apply bytes_ok_cons in Bm as [_ Bm].
  set (pnl := N.land fb 3 + 1) in *. set (pnb := firstn (N.to_nat pnl) (xor_bytes four mask)).
  assert (Bpn : bytes_ok pnb) by (apply bytes_ok_firstn, xor_bytes_ok; auto).
  assert (Lpn : len pnb <= 4) by (unfold pnb; pose proof (take_len (N.to_nat pnl) (xor_bytes four mask)); lia).
  rewrite reconstruct_none by (auto; apply U). cbn [bind all_bytes_from_stream].
  set (s2 := skipn (N.to_nat pnl) four ++ s1).
  assert (B2 : bytes_ok s2) by (apply bytes_ok_app; split; [apply bytes_ok_skipn; auto|auto]).
  rewrite (short_to_bytes_ok (ShortHeader fb u false) d HD). cbn [bind].
  eapply fine_bind; [apply (open_fine P oc c SpApplication s2 _ _ ky HP KY B2); [unfold s2; rewrite len_app; lia|]|].
  { pose proof (pnb_bound pnb Bpn Lpn). pows. lia. }
  intros pt _ Bpt. eapply fine_bind; [apply (FT oc pt Bpt)|]. intros fs _ _. reflexivity.
Qed.

Lemma decode_repaired_fine fd P oc c s : frames_total fd -> prims_ok P -> usable P oc c -> bytes_ok s ->
  fine (fun y => bytes_ok (snd y) /\ (length (snd y) < length s)%nat) (decode_repaired fd oc c s).
Proof.
  intros FT HP U B. unfold decode_repaired.
  destruct (next_header_cases s B) as [[e ->]|[[b [s1 [h [r [-> [Hb [El ->]]]]]]]|[b [s1 [h [r [-> [Hb [El ->]]]]]]]]];
    cbn [bind]; [exact I| |].
  - pose proof B as B'. apply bytes_ok_cons in B' as [_ B1].
    destruct (long_inv _ _ _ _ B1 El) as [_ [[Hv [VN [_ [fields [-> HF]]]]]|[Hv _]]].
    + assert (G : forall A (k : A -> packet) (m : outcome (A * stream)),
        fine (fun y => bytes_ok (snd y) /\ len (snd y) <= len r) m ->
        fine (fun y => bytes_ok (snd y) /\ (length (snd y) < length (b :: fields ++ r))%nat)
             (let? (p, s) := m in Ok (k p, s))).
      { intros A k m F. eapply fine_bind; [exact F|]. intros [p q] _ [Bq Lq]. cbn [snd fine] in *. split; [auto|].
        cbn [length]. rewrite app_length. unfold len in Lq. lia. }
      rewrite packet_type_cases. cbn [bind]. destruct (N.eqb_spec (lh_version h) 0); [contradiction|].
      destruct ((lh_byte h / 16) mod 4) as [|[[]|[]|]]; try exact I; apply G.
      * apply (initial_fine fd P oc c b fields h); auto.
      * apply (handshake_fine fd P oc c b fields h); auto.
      * apply (zero_rtt_fine fd P oc c b fields h); auto.
    + rewrite packet_type_cases, Hv. change (0 =? 0) with true. cbn [bind].
      destruct (vn_total _ B) as [[p ->]|[e ->]]; cbn [bind fine snd length]; auto.
      split; [apply Forall_nil|apply Nat.lt_0_succ].
  - pose proof B as B'. apply bytes_ok_cons in B' as [_ B1].
    destruct (short_inv _ _ _ _ B1 El) as [d [-> [HD _]]].
    eapply fine_bind; [apply (one_rtt_fine fd P oc c b d _ r FT HP U B HD)|]. intros [p q] _ E. cbn [snd] in E. subst q.
    cbn [fine snd length]. split; [apply Forall_nil|apply Nat.lt_0_succ].
Qed.

(** ** C24 *)
Theorem C24_repaired : forall fd P oc c s,
  frames_total fd -> prims_ok P -> usable P oc c -> bytes_ok s ->
  (exists ps, decode_all_repaired fd oc c s = Ok ps) \/ (exists e, decode_all_repaired fd oc c s = Err e).
Proof.
  intros fd P oc c s FT HP U B. unfold decode_all_repaired.
  assert (G : forall n s, (length s <= n)%nat -> bytes_ok s -> fine (fun _ => True) (decode_all_repaired_loop fd oc c n s)).
  { clear s B. induction n as [|n IH]; intros s Hn B; [destruct s; [exact I|cbn in Hn; lia]|].
    destruct s as [|b s]; [exact I|]. cbn [decode_all_repaired_loop].
    eapply fine_bind; [apply (decode_repaired_fine fd P oc c (b :: s) FT HP U B)|]. intros [p q] _ [Bq Lq]. cbn [snd] in *.
    eapply fine_bind; [apply IH; [lia|auto]|]. intros ps _ _. exact I. }
  specialize (G (length s) s (le_n _) B). destruct (decode_all_repaired_loop fd oc c (length s) s); cbn in G; try tauto; eauto.
Qed.
Print Assumptions C24_repaired.

(** Every connection of the crate is such a connection. *)
Lemma reachable_usable P oc srv d l c : prims_ok P -> reachable P oc srv d l c -> usable P oc c.
Proof.
  intros HP R sp. pose proof (reachable_inv _ _ _ _ _ _ HP R) as I. split; [apply (ci_acks _ _ _ _ _ _ I sp)|].
  destruct sp.
  - right. destruct (ci_keys _ _ _ _ _ _ I) as [cid [kl [kr [_ [_ [_ [_ K]]]]]]]. exists kr. exact K.
  - left. apply (ci_none _ _ _ _ _ _ I SpHandshake). discriminate.
  - left. apply (ci_none _ _ _ _ _ _ I SpApplication). discriminate.
Qed.

Theorem C24_repaired_reachable : forall fd P oc srv d l c s,
  frames_total fd -> prims_ok P -> reachable P oc srv d l c -> bytes_ok s ->
  (exists ps, decode_all_repaired fd oc c s = Ok ps) \/ (exists e, decode_all_repaired fd oc c s = Err e).
Proof. intros. eapply C24_repaired; eauto using reachable_usable. Qed.
Print Assumptions C24_repaired_reachable.

(** The datagrams of C24_case. *)
Example C24_repaired_case :
  (let? (c, s) := sample_pair true in
   Ok (map (fun x => match decode_all_repaired deserialize_frames true s x with Ok _ => 0 | Err _ => 1 | Panic _ => 2 | Diverge => 3 end)
     [[]; [0xc0]; 0xf0 :: be_bytes 4 1 ++ [0; 0]; short_initial; 0xe0 :: be_bytes 4 1 ++ [0; 0; 20] ++ repeat 0 20;
      0x80 :: be_bytes 4 0 ++ [0; 0] ++ be_bytes 4 1; 0x40 :: repeat 0 40])) =
  Ok [0; 1; 1; 1; 1; 0; 1].
Proof. vm_compute. reflexivity. Qed.
