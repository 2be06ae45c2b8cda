(** C101: what a parsed header reports about itself is what the bytes say. *)
From Verif Require Import Base Utils Frame CipherSuite Secrets Connection Packet Routing Threads Histories
  Spec SpecPacket SpecRouting Tactics UtilsFacts ParserFacts FrameFacts HeaderFacts PacketFacts ConnectionFacts PacketInv DecodeFacts
  RoutingFacts PropRouting PropAccept.
From Coq Require Import Lia ZifyN ZifyBool ZifyNat.
Open Scope N_scope.

(** Full statement (refuted): the reported id, its length and the packet type. *)
Definition C101_statement : Prop := forall s h rest d,
  bytes_ok s -> next_header_from_stream s = Ok (h, rest) -> wire_dcid s d ->
  cid_val (get_destination_id h) = be_val d /\ get_destination_id_length h = len d /\
  exists t, announces s t /\ get_packet_type h = Ok t.

(** The length and the type are right for every header, and there always is an id
    in the bytes. *)
Theorem C101_length_and_type_partial : forall s h rest,
  bytes_ok s -> next_header_from_stream s = Ok (h, rest) ->
  (exists d, wire_dcid s d) /\
  (forall d, wire_dcid s d -> get_destination_id_length h = len d) /\
  (exists t, announces s t /\ get_packet_type h = Ok t /\
    match h with
    | HShort x => sh_protected x = true
    | HLong x => lh_protected x = match t with TRetry | TVersionNegotiation => false | _ => true end
    end).
Proof.
  intros s h rest B E. destruct (header_announces s h rest B E) as [b [s1 [-> K]]].
  apply bytes_ok_cons in B as [Bb B]. destruct h as [x|x]; cbn [get_packet_type get_destination_id_length].
  - destruct K as [Hb [Es A]]. destruct (short_inv _ _ _ _ B Es) as [d' [-> [C Ex]]].
    split; [exists d'; apply wd_short; [exact Hb|apply C]|]. split.
    + intros d D. remember (b :: d' ++ rest) as s eqn:Q.
      destruct D as [b' v d rest' Hb' Hv|b' d rest' Hb' Hd]; injection Q as -> Q; lia.
    + exists TOneRtt. split; [exact A|]. split; [reflexivity|]. rewrite Ex. reflexivity.
  - destruct K as [Hb [Eb [El A]]]. rewrite packet_type_cases.
    destruct (long_inv _ _ _ _ B El) as [_ [[V [_ [Pr [bs [-> F]]]]]|[V [Pr [v' [d' [sc [-> [Fv [_ [_ [_ [_ Ex]]]]]]]]]]]]].
    + destruct F as [v [d' [sc [Fv [Ld [Fd [Ls [Fs ->]]]]]]]].
      assert (LD : lh_dcid_len x = len d') by (symmetry; apply Fd).
      split; [|split].
      * exists d'. rewrite <- !app_assoc. cbn [app]. rewrite LD. rewrite <- app_assoc. apply wd_long; [lia|apply Fv].
      * intros d D. remember (b :: (v ++ lh_dcid_len x :: d' ++ lh_scid_len x :: sc) ++ rest) as s eqn:Q.
        destruct D as [b' v0 d rest' Hb' Hv|b' d rest' Hb' Hd]; injection Q as -> Q; [|lia].
        rewrite <- app_assoc in Q. apply cons_app_inj in Q as [-> Q]; [|apply len_length; rewrite Hv; symmetry; apply Fv].
        cbn in Q. injection Q as Q1 _. auto.
      * unfold kind in A. destruct (N.ltb_spec b 128); [lia|]. rewrite Eb in *.
        destruct (N.eqb_spec (lh_version x) 0) as [Z|Z]; [contradiction|].
        eexists. split; [exact A|]. split; [reflexivity|]. rewrite Pr. unfold retry_byte.
        assert (H4 : (b / 16) mod 4 < 4) by (apply N.mod_lt; lia).
        destruct ((b / 16) mod 4) as [|[[|[]|]|[[]|[]|]|]]; try reflexivity; lia.
    + unfold kind in A. destruct (N.ltb_spec b 128); [lia|]. rewrite V in *. cbn in A.
      split; [|split].
      * exists d'. apply wd_long; [lia|apply Fv].
      * intros d D. remember (b :: v' ++ len d' :: d' ++ len sc :: sc ++ rest) as s eqn:Q.
        destruct D as [b' v0 d rest' Hb' Hv|b' d rest' Hb' Hd]; injection Q as -> Q; [|lia].
        apply cons_app_inj in Q as [-> Q]; [|apply len_length; rewrite Hv; symmetry; apply Fv].
        injection Q as Q1 _. rewrite Ex. cbn. auto.
      * eexists. split; [exact A|]. split; [reflexivity|]. exact Pr.
Qed.
Print Assumptions C101_length_and_type_partial.

(** The id is right unless the version is 0; then zero is reported (C45). *)
Theorem C101_id_partial : forall s h rest d,
  bytes_ok s -> next_header_from_stream s = Ok (h, rest) -> wire_dcid s d ->
  if match get_packet_type h with Ok TVersionNegotiation => true | _ => false end
  then cid_val (get_destination_id h) = 0
  else cid_val (get_destination_id h) = be_val d.
Proof.
  intros s h rest d B E D.
  destruct (wire_dcid_header s h d B (ex_intro _ rest E) D) as [[T Z]|[T C]].
  - rewrite T, Z. reflexivity.
  - assert (V : cid_val (get_destination_id h) = be_val d) by (symmetry; apply C).
    destruct (get_packet_type h) as [[]| | |]; auto. exfalso; apply T; reflexivity.
Qed.
Print Assumptions C101_id_partial.

Theorem C101_accessors_refuted : ~ C101_statement.
Proof.
  intros H. specialize (H [0x80; 0; 0; 0; 0; 1; 9; 0] _ _ [9]
    ltac:(apply bytes_ok_dec; reflexivity) eq_refl (wd_long 0x80 [0; 0; 0; 0] [9] [0] ltac:(lia) eq_refl)).
  destruct H as [H _]. vm_compute in H. discriminate H.
Qed.
Print Assumptions C101_accessors_refuted.
Example C101_case :
  (let? (h, _) := next_header_from_stream [0x40; 0; 0; 0; 0; 0; 0; 2; 1; 0xff] in
   let? t := get_packet_type h in Ok (cid_val (get_destination_id h), get_destination_id_length h, t)) = Ok (513, 8, TOneRtt) /\
  (let? (h, _) := next_header_from_stream [0xf0; 0; 0; 0; 7; 2; 2; 1; 1; 5] in
   let? t := get_packet_type h in Ok (cid_val (get_destination_id h), get_destination_id_length h, t)) = Ok (513, 2, TRetry) /\
  wire_dcid ([0x40] ++ [0; 0; 0; 0; 0; 0; 2; 1] ++ [0xff]) [0; 0; 0; 0; 0; 0; 2; 1].
Proof. repeat split. apply (wd_short 0x40 _ [0xff]); [lia|reflexivity]. Qed.
