(** C23, packet numbers of less than four bytes in packets that do not end their
    datagram: what the decoder makes of them. *)
From Verif Require Import Base Utils Frame CipherSuite Secrets Connection Packet Histories Spec SpecPacket
  Tactics UtilsFacts ParserFacts FrameFacts SecretsFacts HeaderFacts PacketFacts ConnectionFacts PacketInv
  DecodeFacts SendFacts CryptoInst PropFrame PropConn PropPacket PropWire.

Lemma xor_firstn a : forall b m, (length a <= length m)%nat -> firstn (length a) (xor_bytes (a ++ b) m) = xor_bytes a m.
Proof.
  induction a as [|x a IH]; intros b [|y m] L; cbn [length firstn xor_bytes app] in *; try reflexivity; try lia.
  rewrite IH by lia. reflexivity.
Qed.

(** The decoder takes [n] bytes of the ciphertext for packet number bytes and makes
    up for them with the first [n] bytes of what follows the packet: [q] is read if
    and only if the AEAD opens that. *)
Theorem C23_short_number_exact : forall P oc srv d l c k p pt wire rest,
  prims_ok P -> reachable P oc srv d l c -> remote_keys P oc c SpInitial k ->
  initial_wire P k p pt wire -> pi_pn p < 256 ^ len (pi_pn_bytes p) -> len (pi_pn_bytes p) < 4 -> bytes_ok rest ->
  let n := N.to_nat (4 - len (pi_pn_bytes p)) in
  exists fields tl ll b0 ppn nonce ct tag,
    long_fields (pi_header p) fields /\ varint_enc (len (pi_token p)) tl /\
    varint_enc (len (pi_pn_bytes p) + len pt + 16) ll /\
    wire = b0 :: fields ++ tl ++ pi_token p ++ ll ++ ppn ++ ct ++ tag /\ len ppn = len (pi_pn_bytes p) /\
    nonce_for (k_iv k) (pi_pn p) nonce /\
    let aad := lh_byte (pi_header p) :: fields ++ tl ++ pi_token p ++ ll ++ pi_pn_bytes p in
    p_gcm_seal P (k_key k) nonce aad pt = Some (ct, tag) /\
    (len rest < 4 - len (pi_pn_bytes p) ->
     decode_next_packet oc c (wire ++ rest) = Err (InternalError "not enough bytes for var_bytes")) /\
    (4 - len (pi_pn_bytes p) <= len rest -> forall q rest',
     decode_next_packet oc c (wire ++ rest) = Ok (q, rest') <->
     exists ct' tag' pt' fs, ct' ++ tag' = skipn n (ct ++ tag) ++ firstn n rest /\ len tag' = 16 /\
       p_gcm_open P (k_key k) nonce aad ct' tag' = Some pt' /\ deserialize_frames oc pt' = Ok fs /\
       q = PInitial (PacketInitial (pi_header p) (pi_token p) (pi_pn p) (pi_pn_bytes p) fs) /\ rest' = skipn n rest).
Proof.
  intros P oc srv d l c k p pt wire rest HP R K W Hpn L4 Br n. pose proof (reachable_inv _ _ _ _ _ _ HP R) as I.
  pose proof (proj1 (ci_acks _ _ _ _ _ _ I SpInitial)) as NA.
  destruct (initial_wire_cons _ _ _ _ _ W) as [b [fields0 [more0 [E0 [HF0 [Hb [Ht [Hv VN]]]]]]]].
  assert (DE : decode_next_packet oc c (wire ++ rest) =
    let? (q, s) := initial_from_stream oc c (wire ++ rest) in Ok (PInitial q, s)).
  { rewrite E0. cbn [app]. rewrite <- app_assoc, (long_dispatch oc c (pi_header p) fields0 b (more0 ++ rest)) by auto. rewrite Ht. reflexivity. }
  clear b fields0 more0 E0 HF0 Hb Ht Hv VN.
  destruct p as [h token pn pnb payload]. unfold initial_wire in W. cbn [pi_header pi_token pi_pn pi_pn_bytes pi_payload] in *.
  destruct W as [fields [tl [ll [Hb [Ht [Hv [VN [Hp [HF [HT [BT [HL [Bpt PR]]]]]]]]]]]]].
  destruct PR as [PF [PL [nonce [ct [tag [m0 [mask [more [Hn [Seal [L20 [Ecb [Lm Ew]]]]]]]]]]]]].
  destruct PF as [PF1 [Bpn Vpn]]. rewrite N.mod_small in Vpn by exact Hpn.
  pose proof K as [sec [Es Ks]]. pose proof Ks as [_ [_ [_ [_ [K1 [K2 [K3 K4]]]]]]].
  assert (Ln : len nonce = 12) by (destruct Hn as [_ [-> _]]; auto).
  destruct (open_law P HP _ _ _ _ _ _ K1 Ln Bpt Seal) as [Lct [Ltag [Bct [Btag _]]]].
  destruct (type_of_b0 (lh_byte h) 0 Hb ltac:(lia) Ht) as [Hl Tb].
  assert (Lx : len (xor_bytes pnb mask) = len pnb) by (apply xor_len_le; lia).
  exists fields, tl, ll, (N.lxor (lh_byte h) (N.land m0 15)), (xor_bytes pnb mask), nonce, ct, tag.
  split; [auto|]. split; [auto|]. split; [auto|]. split; [rewrite Ew, <- !app_assoc; reflexivity|].
  split; [auto|]. split; [auto|]. cbv zeta. rewrite <- !app_assoc in Seal. split; [exact Seal|].
  (* the four bytes taken for the packet number, and the rest *)
  set (head := firstn n (ct ++ tag)). set (cut := skipn n (ct ++ tag)).
  assert (EC : ct ++ tag = head ++ cut) by (symmetry; apply firstn_skipn).
  assert (Lh : len head = 4 - len pnb).
  { unfold head, n, len. rewrite firstn_length, app_length. unfold len in Ltag. lia. }
  set (ppn := xor_bytes pnb mask ++ head). set (body := cut ++ rest).
  assert (Lp : len ppn = 4) by (unfold ppn; rewrite len_app; lia).
  assert (Lc : len cut = len pt + 16 - (4 - len pnb)).
  { apply (f_equal (@len N)) in EC. rewrite !len_app in EC. lia. }
  assert (L20' : 20 <= len pnb + len pt + 16) by (rewrite !len_app in L20; lia).
  assert (Bc : bytes_ok (ct ++ tag)) by (apply bytes_ok_app; auto).
  assert (Bh : bytes_ok head) by (apply bytes_ok_firstn; auto).
  assert (Bk : bytes_ok cut) by (apply bytes_ok_skipn; auto).
  assert (SK : skipn 4 (pnb ++ ct ++ tag) = cut).
  { rewrite EC, app_assoc. apply skipn_app_exact. rewrite app_length. unfold len in *. lia. }
  rewrite SK in Ecb.
  assert (L16 : len (firstn 16 cut) = 16) by (unfold len in *; rewrite firstn_length; lia).
  assert (MB : bytes_ok (m0 :: mask)).
  { destruct (ecb_law P HP (k_hp k) _ K3 L16) as [out [Eo [_ Bo]]]. rewrite Ecb in Eo. injection Eo as <-.
    apply bytes_ok_cons in Bo as [B0 Bo]. apply bytes_ok_app in Bo as [Bo _]. apply bytes_ok_cons; auto. }
  apply bytes_ok_cons in MB as [B0 Bm].
  set (b0 := N.lxor (lh_byte h) (N.land m0 15)).
  assert (SH : initial_shape (with_byte h b0 true) fields tl token (len pnb + len pt + 16) ll ppn body (wire ++ rest)).
  { assert (X : b0 < 256) by (apply xor_mask_byte; lia).
    pose proof (low4_div (lh_byte h) m0) as D. fold b0 in D.
    constructor; cbn [with_byte lh_byte lh_version lh_vn]; auto.
    - lia.
    - rewrite D. exact Tb.
    - unfold ppn. apply bytes_ok_app. split; auto. apply xor_bytes_ok; auto.
    - unfold body. apply bytes_ok_app; auto.
    - rewrite Ew. fold b0. rewrite EC. unfold ppn, body. cbn [app]. rewrite <- !app_assoc. reflexivity. }
  pose proof (initial_eq P oc c k _ _ _ _ _ _ _ _ _ HP K NA SH) as Q.
  destruct (N.ltb_spec (len body) 16) as [Lb|Lb]; [unfold body in Lb; rewrite len_app in Lb; lia|].
  destruct Q as [m0' [mask' [more' [Ecb' [Lm' [_ Q]]]]]].
  assert (EF : firstn 16 body = firstn 16 cut).
  { unfold body. rewrite firstn_app. replace (16 - length cut)%nat with 0%nat by (unfold len in *; lia).
    change (firstn 0 rest) with (@nil N). apply app_nil_r. }
  rewrite EF, Ecb in Ecb'. injection Ecb' as <- Em. destruct (cons_app_inj mask more mask' more') as [<- _]; auto.
  { unfold len in *. lia. }
  unfold initial_rest in Q. cbv zeta in Q. cbn [with_byte lh_byte] in Q. unfold b0 in Q. rewrite xor_low_twice in Q.
  rewrite PL in Q. rewrite sub64_ok in Q by lia. cbn [bind] in Q.
  rewrite var_bytes_spec in Q. rewrite DE, Q. clear DE Q.
  replace (len pnb + len pt + 16 - len pnb) with (len pt + 16) by lia.
  unfold body at 1 4. rewrite len_app.
  split; intros LR.
  { destruct (N.leb_spec (len pt + 16) (len cut + len rest)); [lia|]. reflexivity. }
  intros q rest'. destruct (N.leb_spec (len pt + 16) (len cut + len rest)) as [_|]; [|lia]. cbn [bind].
  assert (EP : firstn (N.to_nat (len pnb)) (xor_bytes ppn mask) = pnb).
  { unfold ppn. replace (N.to_nat (len pnb)) with (length (xor_bytes pnb mask)) by (unfold len in *; lia).
    rewrite xor_firstn by (unfold len in *; lia). apply xor_bytes_invol. unfold len in *. lia. }
  rewrite EP.
  assert (EH : with_byte (with_byte h (N.lxor (lh_byte h) (N.land m0 15)) true) (lh_byte h) false = h).
  { destruct h. cbn in *. subst. reflexivity. }
  rewrite EH, Vpn.
  assert (ED : firstn (N.to_nat (len pt + 16)) body = cut ++ firstn n rest).
  { unfold body. rewrite firstn_app, firstn_all2 by (unfold len in *; lia). f_equal. f_equal. unfold n, len in *. lia. }
  assert (ER : skipn (N.to_nat (len pt + 16)) body = skipn n rest).
  { unfold body. rewrite skipn_app, skipn_all2 by (unfold len in *; lia). cbn [app]. f_equal. unfold n, len in *. lia. }
  rewrite ED, ER.
  set (data := cut ++ firstn n rest).
  assert (Ld : 16 <= len data).
  { unfold data. rewrite len_app. unfold n, len in *. rewrite firstn_length. lia. }
  assert (P64 : pn < 2 ^ 64).
  { eapply N.lt_le_trans; [exact Hpn|]. apply N.le_trans with (256 ^ 4); [apply N.pow_le_mono_r; lia|vm_compute; discriminate]. }
  set (aad := lh_byte h :: fields ++ tl ++ token ++ ll ++ pnb).
  unfold decrypt_remote_payload, borrow_remote_tls_secrets. rewrite Es. cbn [ok_or bind].
  split.
  - destruct (decrypt_payload_split P oc sec k data aad pn Ks P64 Ld) as [nonce' [ct' [tag' [Hn' [Edata [Lt' Edec]]]]]].
    rewrite Edec. assert (nonce' = nonce) as -> by (eapply nonce_for_fun; eauto).
    destruct (p_gcm_open P (k_key k) nonce aad ct' tag') as [pt'|] eqn:O; [|intros Q; discriminate Q]. cbn [ok_or bind].
    destruct (deserialize_frames oc pt') as [fs| | |] eqn:D; cbn [bind]; intros Q; try discriminate Q.
    injection Q as <- <-. exists ct', tag', pt', fs. repeat (split; auto).
  - intros [ct' [tag' [pt' [fs [Edata [Lt' [O [D [-> ->]]]]]]]]]. fold data in Edata. rewrite <- Edata.
    rewrite (decrypt_payload_eq P oc sec k ct' tag' aad pn nonce Ks P64 Hn Lt'), O. cbn [ok_or bind].
    rewrite D. reflexivity.
Qed.
Print Assumptions C23_short_number_exact.

(** Whoever has seen the client's first packet knows its keys and can choose the
    plaintext such that the shifted ciphertext opens as well: this packet with a
    one byte number is read as a CRYPTO frame that its plaintext does not hold. *)
Definition shifted_plain : list N :=
  hex "ba41716343454b1fa7c9ead879a52159c6aad401d6fcdc85f85f94b6809093d8861a8bb736ed782f" ++
  hex "7db10cd098f2030e3e78e26d19e4e69a802bfaeaa9dc20cc754aa9434ee8be1f3ad603ac4cbc7fdb" ++
  hex "563ef67c637f0828d60a8747e891c18674e12b8e0eca8fa56e083dcb6a4b7c0a".
Definition shifted_data : list N :=
  hex "0274f81fa7c9ead879a52159c6aad401d6fcdc85f85f94b6809093d8861a8bb736ed782f7db10cd0" ++
  hex "98f203d83e78346d19e4e69a802bfaeaa9a0811d09eb78434ee8be1f3ad603ac4c0140caeb01e77c" ++
  hex "637f0828d60a8747e87bb0529e90ff8e0eca8fa56e091e76a9ed9abe".
Definition shifted_packet : list N :=
  hex "cb00000001088394c8f03e515708088394c8f03e515708004081f9000000bc4131b3000000000000" ++
  hex "00000000000000000000000000000000000000000000000000000000000000000000000000d60000" ++
  hex "00000000000000000000007ca1d100000000000000000000000000bd3f1100000000000000000000" ++
  hex "000000ea71d40000000000000000000123bdc2855b7603e7f23f895d5ace58e0bf89c2".
Definition shifted_next : list N := hex "7641f6".

Example C23_short_case :
  let h := LongHeader 0xc0 1 8 sample_id 8 sample_id None false in
  let p := PacketInitial h [] 7 [7] [] in
  exists s k, reachable real_prims true true sample_id 8 s /\ remote_keys real_prims true s SpInitial k /\
    initial_wire real_prims k p shifted_plain shifted_packet /\
    decode_next_packet true s (shifted_packet ++ shifted_next ++ [5]) =
      Ok (PInitial (PacketInitial h [] 7 [7] [Crypto (FrameCrypto 0 108 shifted_data)]), [5]) /\
    decode_next_packet true s shifted_packet = Err (InternalError "not enough bytes for var_bytes") /\
    deserialize_frames true shifted_plain <> Ok [Crypto (FrameCrypto 0 108 shifted_data)].
Proof.
  intros h p.
  destruct (connection_new_ok real_prims true true sample_id 8 real_prims_ok ltac:(lia)) as [s ES].
  assert (R : reachable real_prims true true sample_id 8 s) by (exists s, []; auto).
  destruct (ci_keys _ _ _ _ _ _ (reachable_inv _ _ _ _ _ _ real_prims_ok R)) as [cid [kl [k [_ [_ [_ [_ K]]]]]]].
  exists s, k. split; [exact R|]. split; [exact K|].
  assert (E : (let? s := connection_new real_prims true true V1 sample_id 8 in
     match remote_tls_secrets (borrow_pn_info s SpInitial) with
     | Some x => Ok (s_key x, s_iv x, s_hp x)
     | None => Err NoError
     end) = Ok (hex "1f369613dd76d5467730efcbe3b1a22d", Some (hex "fa044b2f42a3fd3b46fb255c"),
                hex "9f50449e04a0e810283a1e9933adedd2")) by (vm_compute; reflexivity).
  rewrite ES in E. cbn [bind] in E. pose proof K as [sec [Es [_ [Ek [Ei [Eh _]]]]]]. rewrite Es in E.
  injection E as Q1 Q2 Q3. rewrite Ek in Q1. rewrite Ei in Q2. injection Q2 as Q2. rewrite Eh in Q3.
  split.
  { set (cid8 := hex "8394c8f03e515708").
    assert (CE : cid_enc sample_id 8 cid8).
    { split; [repeat split; vm_compute; reflexivity|]. split; [apply bytes_ok_dec; reflexivity|]. split; reflexivity. }
    exists ([0; 0; 0; 1] ++ 8 :: cid8 ++ 8 :: cid8), [0], [0x40; 0x81].
    split; [reflexivity|]. split; [reflexivity|]. split; [discriminate|]. split; [reflexivity|]. split; [reflexivity|].
    split.
    { exists [0; 0; 0; 1], cid8, cid8. split; [split; [apply bytes_ok_dec; reflexivity|split; reflexivity]|].
      split; [discriminate|]. split; [exact CE|]. split; [discriminate|]. split; [exact CE|reflexivity]. }
    split; [exists 0; split; [lia|]; split; [reflexivity|]; split; [apply bytes_ok_dec; reflexivity|]; split; reflexivity|].
    split; [constructor|].
    split; [exists 1; split; [lia|]; split; [reflexivity|]; split; [apply bytes_ok_dec; reflexivity|]; split; reflexivity|].
    split; [apply bytes_ok_dec; vm_compute; reflexivity|].
    split; [split; [vm_compute; split; discriminate|]; split; [apply bytes_ok_dec; reflexivity|reflexivity]|]. split; [reflexivity|].
    assert (M : exists more, p_ecb_encrypt real_prims (hex "9f50449e04a0e810283a1e9933adedd2")
      (firstn 16 (skipn 4 ([7] ++ firstn 112 (skipn 27 shifted_packet) ++ skipn 139 shifted_packet))) =
      Some (0x1b :: hex "fe862dab" ++ more)) by (eexists; vm_compute; reflexivity).
    destruct M as [more M].
    exists (hex "fa044b2f42a3fd3b46fb255b"), (firstn 112 (skipn 27 shifted_packet)), (skipn 139 shifted_packet),
      0x1b, (hex "fe862dab"), more. rewrite Q1, Q2, Q3.
    split; [split; [apply bytes_ok_dec; vm_compute; reflexivity|split; vm_compute; reflexivity]|].
    split; [vm_compute; reflexivity|]. split; [vm_compute; discriminate|]. split; [exact M|].
    split; [reflexivity|]. vm_compute. reflexivity. }
  assert (D : (let? s := connection_new real_prims true true V1 sample_id 8 in
     decode_next_packet true s (shifted_packet ++ shifted_next ++ [5])) =
      Ok (PInitial (PacketInitial h [] 7 [7] [Crypto (FrameCrypto 0 108 shifted_data)]), [5])) by (vm_compute; reflexivity).
  assert (D' : (let? s := connection_new real_prims true true V1 sample_id 8 in
     decode_next_packet true s shifted_packet) = Err (InternalError "not enough bytes for var_bytes")) by (vm_compute; reflexivity).
  rewrite ES in D, D'. cbn [bind] in D, D'. split; [exact D|]. split; [exact D'|]. vm_compute. discriminate.
Qed.
