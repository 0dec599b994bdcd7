(** Properties C03, C04, C08, C13-C19, C21-C24: decoding. *)
From Verif Require Export EncodeFacts.
Open Scope N_scope.

(** ** C13: no panic *)

Lemma Header_unmarshal_total h b : exists r, Header_unmarshal h b = Ret r.
Proof.
  unfold Header_unmarshal. destruct (N.ltb_spec (len b) 12) as [Hl|Hl]; [ eexists; reflexivity | ].
  destruct (split12 b Hl) as (i0 & i1 & i2 & i3 & i4 & i5 & i6 & i7 & o0 & o1 & v0 & v1 & r & ->).
  cbn [go_index nth_error bind]. destruct (negb _); eexists; reflexivity.
Qed.

Lemma split18 b : 18 <= len b ->
  exists i0 i1 i2 i3 i4 i5 i6 i7 o0 o1 v0 v1 a0 a1 a2 a3 a4 a5 r,
    b = i0 :: i1 :: i2 :: i3 :: i4 :: i5 :: i6 :: i7 :: o0 :: o1 :: v0 :: v1 :: a0 :: a1 :: a2 :: a3 :: a4 :: a5 :: r.
Proof.
  intros H. unfold len in H.
  do 18 (destruct b as [|? b]; [ cbn [length] in H; exfalso; lia | ]).
  repeat eexists.
Qed.

Lemma DMX_unmarshal_total p b : len (DMX_Data p) = 512 -> exists r, DMX_UnmarshalBinary p b = Ret r.
Proof.
  intros Hd. unfold DMX_UnmarshalBinary. destruct (N.ltb_spec (len b) 18) as [Hl|Hl]; [ eexists; reflexivity | ].
  rewrite slice_Ret by lia. cbn [bind].
  destruct (Header_unmarshal_total (DMX_Header p) (firstn (N.to_nat (12 - 0)) (skipn (N.to_nat 0) b))) as [[h [e|]] E];
    rewrite E; cbn [bind]; [ eexists; reflexivity | ].
  destruct (split18 b Hl) as (i0 & i1 & i2 & i3 & i4 & i5 & i6 & i7 & o0 & o1 & v0 & v1 & a0 & a1 & a2 & a3 & a4 & a5 & r & Eb).
  replace (go_index b 12) with (Ret a0) by (rewrite Eb; reflexivity); cbn [bind].
  replace (go_index b 13) with (Ret a1) by (rewrite Eb; reflexivity); cbn [bind].
  replace (go_index b 14) with (Ret a2) by (rewrite Eb; reflexivity); cbn [bind].
  replace (go_index b 15) with (Ret a3) by (rewrite Eb; reflexivity); cbn [bind].
  replace (go_index b 16) with (Ret a4) by (rewrite Eb; reflexivity); cbn [bind].
  replace (go_index b 17) with (Ret a5) by (rewrite Eb; reflexivity); cbn [bind].
  cbv zeta.
  set (l := u16 _). destruct (_ || _) eqn:G; [ eexists; reflexivity | ].
  apply orb_false_iff in G. destruct G as [G _]. apply orb_false_iff in G. destruct G as [G G3].
  apply orb_false_iff in G. destruct G as [G1 _]. apply N.ltb_ge in G1. apply N.ltb_ge in G3.
  rewrite slice_Ret by lia. cbn [bind]. unfold go_copy_into. cbn [DMX_Data]. rewrite Hd.
  apply N.leb_le in G3. rewrite G3. eexists; reflexivity.
Qed.

(** Every type's UnmarshalBinary, on any prior packet value, returns on every byte string. *)
Theorem C13_unmarshal_binary_total : forall p b, wf_packet p -> exists r, UnmarshalBinary p b = Ret r.
Proof.
  intros p b H. destruct p; cbn [UnmarshalBinary]; try (eexists; reflexivity).
  cbn in H. unfold wf_DMX, array_ok in H.
  match goal with |- context [DMX_UnmarshalBinary ?q b] =>
    destruct (DMX_unmarshal_total q b ltac:(tauto)) as [r Hr]; rewrite Hr end.
  eexists; reflexivity.
Qed.
Theorem C13_unmarshal_total : forall b, exists o e, Unmarshal b = Ret (o, e).
Proof.
  intros b. unfold Unmarshal. destruct (Header_unmarshal_total Header_zero b) as [[h [e|]] E]; rewrite E; cbn [bind].
  { do 2 eexists; reflexivity. }
  cbv zeta.
  repeat match goal with |- context [if ?x =? ?y then _ else _] => destruct (x =? y) end;
    try (do 2 eexists; reflexivity).
  - cbn [UnmarshalBinary]. destruct (DMX_unmarshal_total NewArtDMXPacket b eq_refl) as [r Hr]. rewrite Hr.
    do 2 eexists; reflexivity.
  - destruct (existsb _ _); do 2 eexists; reflexivity.
Qed.
Example C13_ex : wf_packet (PktDMX (mkDMX Header_zero 1 2 3 4 5 (zeros 512))).
Proof. repeat split; first [ apply bytes_ok_zeros | reflexivity ]. Qed.
(** The model does distinguish panics: the same slicing code panics on a packet value that does not
    exist in Go (a Data array shorter than 512). *)
Example C13_panic_expressible :
  DMX_UnmarshalBinary (mkDMX Header_zero 0 0 0 0 0 [0])
    (magic ++ [0; 0x50; 0; 14; 0; 0; 0; 0; 0; 2; 1; 1]) = Panic.
Proof. reflexivity. Qed.

(** ** C14 *)
Theorem C14_unmarshal_accepts_iff : forall b p, bytes_ok b ->
  (Unmarshal b = Ret (Some p, None) <-> wire_accepts b p).
Proof. exact Unmarshal_accepts. Qed.
Theorem C14_unmarshal_rejects_iff : forall b e, bytes_ok b ->
  ((exists o, Unmarshal b = Ret (o, Some e)) <-> wire_error b e).
Proof. exact Unmarshal_rejects. Qed.
(** Together: every datagram is either accepted as exactly one packet or rejected with exactly one
    error, as the specification says. *)
Theorem C14_spec_is_a_partition : forall b, bytes_ok b ->
  (exists! p, wire_accepts b p) /\ (forall e, ~ wire_error b e) \/
  (exists! e, wire_error b e) /\ (forall p, ~ wire_accepts b p).
Proof.
  intros b Hb. destruct (C13_unmarshal_total b) as (o & [e|] & H).
  - right. assert (He : wire_error b e) by (apply Unmarshal_rejects; eauto). split.
    + exists e. split; [ assumption | ]. intros e' He'.
      apply Unmarshal_rejects in He'; [ | assumption ]. destruct He' as [o' Ho']. congruence.
    + intros p Hp. apply Unmarshal_accepts in Hp; [ congruence | assumption ].
  - left. destruct o as [p|].
    2:{ exfalso. unfold Unmarshal in H. destruct (Header_unmarshal Header_zero b) as [[h [e|]]|]; cbn [bind] in H; try discriminate H.
        cbv zeta in H.
        repeat match goal with H : context [if ?x =? ?y then _ else _] |- _ => destruct (x =? y) end;
        try (match type of H with bind ?x _ = _ => destruct x; discriminate H end); try discriminate H.
        destruct (existsb _ _); discriminate H. }
    assert (Hp : wire_accepts b p) by (apply Unmarshal_accepts; assumption). split.
    + exists p. split; [ assumption | ]. intros p' Hp'.
      apply Unmarshal_accepts in Hp'; [ congruence | assumption ].
    + intros e He. apply Unmarshal_rejects in He; [ | assumption ]. destruct He. congruence.
Qed.
Example C14_ex_accept : wire_accepts (magic ++ [0; 0x20; 0; 14; 2; 0x10]) (PktPoll (mkPoll (mkHeader magic 0x2000 [0; 14]) 2 0x10)).
Proof. apply (WA_Poll 0 14 2 0x10 []). lia. Qed.
Example C14_ex_reject : wire_error (magic ++ [0; 0x20; 0; 13; 2; 0x10]) (errIncompatibleVersion 13).
Proof.
  apply (WE_version (magic ++ [0; 0x20; 0; 13; 2; 0x10])); try discriminate; reflexivity.
Qed.

(** ** C15 *)
Theorem C15_foreign_traffic_rejected : forall b, bytes_ok b ->
  len b < 12 \/ firstn 8 b <> magic \/ (wire_opcode b <> 0x2100 /\ wire_version b < 14) ->
  exists e, Unmarshal b = Ret (None, Some e) /\
    (e = errIncorrectHeaderLength \/ e = errInvalidPacket \/ exists v, e = errIncompatibleVersion v).
Proof.
  intros b Hb H.
  assert (Hn : ~ header_ok b).
  { intros (H1 & H2 & H3). unfold wire_version in *. destruct H as [H|[H|[H H']]]; [ lia | contradiction | ].
    destruct H3 as [H3|[_ H3]]; [ contradiction | lia ]. }
  destruct (Header_unmarshal_err b Hb Hn) as (h & e & He & Hw).
  exists e. split; [ unfold Unmarshal; rewrite He; reflexivity | ].
  inversion Hw; subst; try contradiction; eauto.
Qed.
Example C15_ex : let b := magic ++ [0; 0x50; 0; 13; 0; 0; 0; 0; 0; 2; 1; 2] in
  bytes_ok b /\ wire_opcode b <> 0x2100 /\ wire_version b < 14.
Proof. cbn. repeat split; try discriminate. repeat constructor. Qed.

(** ** C16 *)
Lemma lookup_in m i : OpCode_lookup m i <> None <-> In i (map fst m).
Proof.
  induction m as [|[k r] m IH]; cbn [OpCode_lookup map In fst].
  - split; [ congruence | tauto ].
  - destruct (N.eqb_spec k i) as [->|Hk].
    + split; [ auto | discriminate ].
    + rewrite IH. split; [ auto | intros [E|E]; [ congruence | assumption ] ].
Qed.

Lemma ValidOp_documented op : ValidOp op = true <-> In op ops_documented.
Proof.
  assert (E : ValidOp op = true <-> In op (map fst OpCode_map)).
  { rewrite <- lookup_in. unfold ValidOp. destruct (OpCode_lookup _ _); split; congruence. }
  rewrite E. split; intros H.
  - cbn [OpCode_map map fst In] in H.
    repeat (destruct H as [<-|H]; [ vm_compute; tauto | ]). destruct H.
  - cbn [ops_documented ops_supported ops_unsupported app In op_input] in H.
    repeat (destruct H as [<-|H]; [ vm_compute; tauto | ]). destruct H.
Qed.

Ltac kind_tac lem :=
  let q := fresh "q" in let E := fresh "E" in
  edestruct lem as [q E]; [ eassumption | eassumption | eassumption | ];
  rewrite (body_err _ _ _ _ E); do 2 eexists; split; [ reflexivity | ].

Lemma supported_kind b : bytes_ok b -> header_ok b -> In (wire_opcode b) ops_supported ->
  exists p e, Unmarshal b = Ret (Some p, e) /\ packet_opcode p = wire_opcode b.
Proof.
  intros Hb Hh Ho. rewrite (Unmarshal_dispatch b Hb Hh). cbn [ops_supported In] in Ho.
  destruct Ho as [Ho|[Ho|[Ho|[Ho|[Ho|[Ho|[Ho|[Ho|[Ho|[Ho|[Ho|[Ho|[]]]]]]]]]]]]]; symmetry in Ho;
    dispatch_to Ho.
  - kind_tac Poll_outcome. auto.
  - kind_tac PollReply_outcome. auto.
  - kind_tac DiagData_outcome. auto.
  - kind_tac Command_outcome. auto.
  - kind_tac DMX_outcome. auto.
  - kind_tac Nzs_outcome. auto.
  - kind_tac Sync_outcome. auto.
  - kind_tac Address_outcome. auto.
  - kind_tac TimeCode_outcome. auto.
  - kind_tac Trigger_outcome. auto.
  - kind_tac IPProg_outcome. auto.
  - kind_tac IPProgReply_outcome. auto.
Qed.

Lemma unsupported_error b : bytes_ok b -> header_ok b -> ~ In (wire_opcode b) ops_supported ->
  Unmarshal b = Ret (None, Some (if wire_opcode b =? op_input then errUnimplemented op_input
                                 else if ValidOp (wire_opcode b) then errNotImplementedOpCode (wire_opcode b)
                                 else errInvalidOpCodeOf (wire_opcode b))).
Proof.
  intros Hb Hh Ho. rewrite (Unmarshal_dispatch b Hb Hh). unfold dispatch.
  assert (Hne : forall op, In op ops_supported -> (wire_opcode b =? op) = false).
  { intros op Hin. apply N.eqb_neq. intros E. rewrite E in Ho. contradiction. }
  rewrite !Hne by (cbv; tauto).
  change OpInput with op_input. destruct (N.eqb_spec (wire_opcode b) op_input) as [E|E]; [ rewrite E; reflexivity | ].
  rewrite !Hne by (cbv; tauto).
  assert (HV : ValidOp (wire_opcode b) = existsb (N.eqb (wire_opcode b)) notImplementedOps).
  { apply eq_true_iff_eq. rewrite ValidOp_documented, notImplementedOps_iff. unfold ops_documented.
    rewrite in_app_iff. cbn [In]. split.
    - intros [H|[H|H]]; [ contradiction | congruence | assumption ].
    - auto. }
  rewrite HV. destruct (existsb _ _); reflexivity.
Qed.

(** The three outcomes for a datagram with a valid header, by opcode. *)
Theorem C16_opcode_classification : forall b, bytes_ok b -> header_ok b ->
  let op := wire_opcode b in
  (* undocumented opcode *)
  (ValidOp op = false <-> Unmarshal b = Ret (None, Some (errInvalidOpCodeOf op))) /\
  (* documented but unsupported *)
  (In op (op_input :: ops_unsupported) <->
     Unmarshal b = Ret (None, Some (errUnimplemented op)) \/ Unmarshal b = Ret (None, Some (errNotImplementedOpCode op))) /\
  (* supported: the datagram is parsed as a packet of that opcode *)
  (In op ops_supported <-> exists p e, Unmarshal b = Ret (Some p, e) /\ packet_opcode p = op).
Proof.
  intros b Hb Hh op. subst op. set (op := wire_opcode b).
  destruct (in_dec N.eq_dec op ops_supported) as [Hs|Hs].
  - destruct (supported_kind b Hb Hh Hs) as (p & e & Hu & Hk).
    assert (HV : ValidOp op = true).
    { apply ValidOp_documented. unfold ops_documented. apply in_or_app. auto. }
    rewrite Hu. split; [ split; [ congruence | intros [=] ] | ]. split.
    + split; [ | intros [[=]|[=]] ]. intros Hin. exfalso.
      assert (D : forall o, In o ops_supported -> In o (op_input :: ops_unsupported) -> False).
      { intros o H1 H2. cbn [ops_supported In] in H1.
        repeat (destruct H1 as [<-|H1]; [ cbn in H2; intuition discriminate | ]). exact H1. }
      eapply D; eauto.
    + split; [ intros _; eauto | auto ].
  - pose proof (unsupported_error b Hb Hh Hs) as Hu. fold op in Hu. rewrite Hu.
    assert (HV : ValidOp op = true <-> In op (op_input :: ops_unsupported)).
    { rewrite ValidOp_documented. unfold ops_documented. rewrite in_app_iff. tauto. }
    split; [ | split ].
    + destruct (N.eqb_spec op op_input) as [E|E].
      * assert (ValidOp op = true) by (apply HV; left; auto). split; [ congruence | intros [=] ].
      * destruct (ValidOp op); split; congruence.
    + destruct (N.eqb_spec op op_input) as [E|E].
      * split; [ intros _; left; congruence | intros _; left; auto ].
      * destruct (ValidOp op); split.
        -- auto.
        -- intros _. apply HV. reflexivity.
        -- intros Hin. apply HV in Hin. discriminate Hin.
        -- intros [[=]|[=]].
    + split; [ contradiction | ]. intros (p & e & Hp & _). discriminate Hp.
Qed.
Theorem C16_counts : length ops_documented = 35%nat /\ length (op_input :: ops_unsupported) = 23%nat /\
  NoDup ops_documented.
Proof.
  split; [ reflexivity | ]. split; [ reflexivity | ].
  repeat (constructor; [ cbn; intuition discriminate | ]). constructor.
Qed.
Example C16_ex : header_ok (magic ++ [0x10; 0xa0; 0; 14]) /\ wire_opcode (magic ++ [0x10; 0xa0; 0; 14]) = 0xa010.
Proof. repeat split; try discriminate. right. split; discriminate. Qed.

(** ** C17 *)
Theorem C17_type_opcode_agree : forall b p, bytes_ok b -> Unmarshal b = Ret (Some p, None) ->
  GetOpCode p = nth 8 b 0 + 256 * nth 9 b 0 /\ GetOpCode p = packet_opcode p /\
  (GetOpCode p = 0x2000 -> exists q, p = PktPoll q) /\
  (GetOpCode p = 0x2100 -> exists q, p = PktPollReply q).
Proof.
  intros b p Hb H. apply Unmarshal_accepts in H; [ | assumption ].
  destruct (wire_accepts_header b p H) as (_ & Ho & Hg). unfold wire_opcode in Ho.
  split; [ congruence | ]. split; [ assumption | ]. rewrite Hg.
  split; intros E; destruct p; try discriminate E; eauto.
Qed.
Example C17_ex : exists p, Unmarshal (magic ++ [0; 0x20; 0; 14; 2; 0x10]) = Ret (Some p, None).
Proof. eexists. reflexivity. Qed.

(** ** C18 *)
Theorem C18_trailing_ignored : forall b s p, bytes_ok b -> bytes_ok s ->
  Unmarshal b = Ret (Some p, None) -> Unmarshal (b ++ s) = Ret (Some p, None).
Proof.
  intros b s p Hb Hs H. apply Unmarshal_accepts in H; [ | assumption ].
  apply Unmarshal_accepts; [ apply bytes_ok_app; auto | apply accepts_app; assumption ].
Qed.
Example C18_ex : exists p, Unmarshal (magic ++ [0; 0x50; 0; 14; 1; 0; 3; 0; 0; 2; 200; 100]) = Ret (Some p, None).
Proof. eexists. vm_compute. reflexivity. Qed.

(** ** C19 *)
Theorem C19_truncated_rejected : forall b n, bytes_ok b -> fixed_size (wire_opcode b) n -> len b < n ->
  exists o e, Unmarshal b = Ret (o, Some e).
Proof.
  intros b n Hb Hf Hl. destruct (header_ok_dec b) as [Hh|Hh].
  - exists (match Unmarshal b with Ret (o, _) => o | Panic => None end), errUnexpectedEOF.
    destruct (proj2 (Unmarshal_rejects b errUnexpectedEOF Hb) (WE_truncated b n Hh Hf Hl)) as [o Ho].
    rewrite Ho. reflexivity.
  - destruct (Header_unmarshal_err b Hb Hh) as (h & e & He & _).
    exists None, e. unfold Unmarshal. rewrite He. reflexivity.
Qed.
(** Contrapositive form: an accepted fixed-size packet was received in full. *)
Theorem C19_accepted_is_complete : forall b p n, bytes_ok b -> Unmarshal b = Ret (Some p, None) ->
  fixed_size (packet_opcode p) n -> n <= len b.
Proof.
  intros b p n Hb H Hf. destruct (N.lt_ge_cases (len b) n) as [Hl|Hl]; [ | assumption ]. exfalso.
  pose proof H as Ha. apply Unmarshal_accepts in Ha; [ | assumption ].
  destruct (wire_accepts_header b p Ha) as (_ & Ho & _).
  destruct (C19_truncated_rejected b n Hb) as (o & e & E); [ rewrite Ho; assumption | assumption | ]. congruence.
Qed.
Example C19_ex : fixed_size (wire_opcode (magic ++ [0; 0x97; 0; 14; 0; 0; 1; 2; 3; 4])) 19 /\
  len (magic ++ [0; 0x97; 0; 14; 0; 0; 1; 2; 3; 4]) < 19.
Proof. split; [ constructor | reflexivity ]. Qed.

(** ** C03 *)
Theorem C03_dmx_accepts_iff : forall b p, bytes_ok b -> wire_opcode b = 0x5000 ->
  let l := 256 * nth 16 b 0 + nth 17 b 0 in
  (Unmarshal b = Ret (Some p, None) <->
   (firstn 8 b = magic /\ 14 <= nth 11 b 0 /\ 18 <= len b /\ N.even l = true /\ 2 <= l <= 512 /\ 18 + l <= len b /\
    p = PktDMX (mkDMX (mkHeader magic 0x5000 [nth 10 b 0; nth 11 b 0]) (nth 12 b 0) (nth 13 b 0) (nth 14 b 0)
                  (nth 15 b 0) l (firstn (N.to_nat l) (skipn 18 b) ++ repeat 0 (N.to_nat (512 - l)))))).
Proof.
  intros b p Hb Ho l. rewrite Unmarshal_accepts by assumption. split.
  - intros H. inversion H; subst; rewrite <- ?H0 in Ho; try (vm_compute in Ho; discriminate Ho).
    subst l. unfold magic. cbn [app nth firstn skipn].
    match goal with E : len data = _ |- _ => rewrite <- E in * end.
    match goal with |- _ /\ _ /\ _ <= len ?x /\ _ => assert (EL : len x = 18 + len data + len rest) end.
    { rewrite !len_cons, len_app. lia. }
    rewrite EL. rewrite firstn_app_exact by reflexivity.
    repeat split; try assumption; try lia.
  - intros (Hm & Hv & Hl & He & [H2 H5] & Hn & ->).
    assert (Hh : header_ok b).
    { split; [ lia | ]. split; [ assumption | ]. right. rewrite Ho. split; [ discriminate | assumption ]. }
    destruct (DMX_split b Hb Hh Ho Hl) as (v0 & v1 & seq & phys & sub & net & lh & ll & r & E & Hv1 & Hlh & Hll & Hr).
    subst b. subst l. unfold magic in *. cbn [app nth firstn skipn] in *.
    set (l := 256 * lh + ll) in *.
    assert (Hlr : l <= len r).
    { match type of Hn with _ <= len ?x => assert (EL : len x = 18 + len r) by (rewrite !len_cons; lia) end. lia. }
    eapply wire_eq; [ apply (WA_DMX v0 v1 seq phys sub net lh ll (firstn (N.to_nat l) r) (skipn (N.to_nat l) r)) | | ];
      rewrite ?len_firstn by assumption; try assumption; try reflexivity.
    cbn [magic app]. rewrite firstn_skipn. reflexivity.
Qed.
Example C03_ex : let b := magic ++ [0; 0x50; 0; 14; 1; 0; 3; 0; 0; 2; 200; 100; 77] in
  wire_opcode b = 0x5000 /\ bytes_ok b /\ exists q, Unmarshal b = Ret (Some (PktDMX q), None) /\
    firstn 3 (DMX_Data q) = [200; 100; 0].
Proof.
  split; [ reflexivity | ]. split; [ repeat constructor | ]. eexists. split; vm_compute; reflexivity.
Qed.

(** ** C08 *)
Theorem C08_pollreply_accepts_iff : forall b, bytes_ok b -> wire_opcode b = 0x2100 ->
  let port := 256 * nth 14 b 0 + nth 15 b 0 in
  ((exists p, Unmarshal b = Ret (Some p, None)) <->
   firstn 8 b = magic /\ 239 <= len b /\ (port = 0x3619 \/ port = 0x1936) /\ nth 200 b 0 <= 6).
Proof.
  intros b Hb Ho port. destruct (header_ok_dec b) as [Hh|Hh].
  - pose proof Hh as (_ & Hm & _). rewrite (Unmarshal_dispatch b Hb Hh). dispatch_to Ho.
    destruct (PollReply_outcome NewArtPollReplyPacket b Hb Hh Ho) as [q E]. rewrite (body_err _ _ _ _ E). clear E.
    pose proof (bytes_ok_nth b 14 Hb) as B14. pose proof (bytes_ok_nth b 15 Hb) as B15. unfold byte_ok in *.
    unfold reply_error. change (negb (0 + 256 * 33 =? 8448)) with false. cbn match.
    split.
    + intros [p H]. apply Ret_snd in H.
      destruct (N.ltb_spec (len b) 239) as [Hl|Hl]; [ discriminate H | ].
      destruct ((nth 14 b 0 + 256 * nth 15 b 0 =? 6454) || (256 * nth 14 b 0 + nth 15 b 0 =? 6454)) eqn:Ep; [ | discriminate H ].
      destruct (N.leb_spec (nth 200 b 0) 6) as [Hs|Hs]; [ | discriminate H ].
      repeat split; try assumption. rewrite orb_true_iff, !N.eqb_eq in Ep. subst port. lia.
    + intros (_ & Hl & Hp & Hs). exists (PktPollReply q).
      replace (len b <? 239) with false by (symmetry; apply N.ltb_ge; assumption).
      replace ((nth 14 b 0 + 256 * nth 15 b 0 =? 6454) || (256 * nth 14 b 0 + nth 15 b 0 =? 6454)) with true.
      2:{ symmetry. rewrite orb_true_iff, !N.eqb_eq. subst port. lia. }
      apply N.leb_le in Hs. rewrite Hs. reflexivity.
  - split.
    + intros [p Hp]. exfalso. destruct (Header_unmarshal_err b Hb Hh) as (h & e & He & _).
      unfold Unmarshal in Hp. rewrite He in Hp. discriminate Hp.
    + intros (Hm & Hl & _). exfalso. apply Hh. split; [ lia | ]. split; [ assumption | ]. left. assumption.
Qed.
Theorem C08_pollreply_port_reported : forall b p, bytes_ok b -> Unmarshal b = Ret (Some (PktPollReply p), None) ->
  PollReply_Port p = 6454 /\ PollReply_Style p <= 6.
Proof.
  intros b p Hb H. apply Unmarshal_accepts in H; [ | assumption ].
  apply (accepted_wf b _ Hb) in H. exact (proj2 H).
Qed.
(** The version bytes (here part of the IP address) are never checked: an accepted reply stays
    accepted whatever they are. *)
Theorem C08_version_gate_never_applies : forall b x y, bytes_ok b -> byte_ok x -> byte_ok y ->
  wire_opcode b = 0x2100 -> (exists p, Unmarshal b = Ret (Some p, None)) ->
  exists p, Unmarshal (firstn 10 b ++ [x; y] ++ skipn 12 b) = Ret (Some p, None).
Proof.
  intros b x y Hb Hx Hy Ho H.
  apply (C08_pollreply_accepts_iff b Hb Ho) in H. destruct H as (Hm & Hl & Hp & Hs).
  destruct (split12 b ltac:(lia)) as (i0 & i1 & i2 & i3 & i4 & i5 & i6 & i7 & o0 & o1 & v0 & v1 & r & ->).
  cbn [firstn skipn app] in *.
  unfold wire_opcode in Ho. cbn [nth] in Ho, Hp, Hs.
  bok_all.
  set (b' := _ :: _).
  assert (Hb' : bytes_ok b') by (subst b'; repeat (apply bytes_ok_cons; split; [ assumption | ]); assumption).
  assert (Hl' : 239 <= len b') by (subst b'; rewrite !len_cons in *; lia).
  apply (C08_pollreply_accepts_iff b' Hb' Ho). repeat split; try assumption.
Qed.
(** A complete reply whose IP address is 10.0.0.1, so that bytes 10-11 would read as version 10.0. *)
Definition reply_wire : list N :=
  magic ++ [0; 0x21; 10; 0; 0; 1; 0x36; 0x19] ++ zeros 184 ++ [1] ++ zeros 38.
Example C08_ex : bytes_ok reply_wire /\ wire_opcode reply_wire = 0x2100 /\ len reply_wire = 239 /\
  exists p, Unmarshal reply_wire = Ret (Some p, None).
Proof.
  split; [ repeat constructor | ]. repeat split. eexists. vm_compute. reflexivity.
Qed.

(** ** C04 *)
Definition dmx_short_frame : list N := magic ++ [0; 0x50; 0; 14; 0; 0; 0; 0; 0; 2; 1; 2].
Theorem C04_reuse_overwrites_refuted : exists b p1 p2 q1 q2,
  bytes_ok b /\ wf_DMX p1 /\ wf_DMX p2 /\
  DMX_UnmarshalBinary p1 b = Ret (q1, None) /\ DMX_UnmarshalBinary p2 b = Ret (q2, None) /\ q1 <> q2.
Proof.
  exists dmx_short_frame, NewArtDMXPacket, (mkDMX Header_zero 0 0 0 0 0 (repeat 255 512)).
  do 2 eexists. split; [ repeat constructor | ].
  split. { repeat split; first [ apply bytes_ok_zeros | reflexivity ]. }
  split. { repeat split; first [ apply bytes_ok_zeros | reflexivity | idtac ].
    apply Forall_forall. intros x Hx. apply repeat_spec in Hx. subst. reflexivity. }
  split; [ vm_compute; reflexivity | ]. split; [ vm_compute; reflexivity | ].
  intros E. apply (f_equal (fun q => nth 2 (DMX_Data q) 0)) in E. cbn in E. discriminate E.
Qed.
(** What holds: the other eleven types, in full. *)
Theorem C04_reuse_overwrites_partial : forall p1 p2 b q,
  packet_opcode p1 = packet_opcode p2 -> packet_opcode p1 <> 0x5000 ->
  UnmarshalBinary p1 b = Ret (q, None) -> UnmarshalBinary p2 b = Ret (q, None).
Proof.
  assert (G : forall P lay of_vals val (x y : P) b q, unmarshalPacket lay of_vals val x b = (q, None) ->
            unmarshalPacket lay of_vals val y b = (q, None)).
  { intros P lay of_vals val x y b q. unfold unmarshalPacket. destruct (binary_read lay b); [ auto | discriminate ]. }
  intros p1 p2 b q Hs Hd H.
  destruct p1, p2; cbn in Hs, Hd; try discriminate Hs; try congruence;
    cbn [UnmarshalBinary] in *;
    match type of H with
    | bind ?x _ = _ =>
        match goal with |- bind ?y _ = _ =>
        cut (forall r, x = Ret (r, None) -> y = Ret (r, None)) end
    end;
    try (let C := fresh in intros C;
      match type of H with bind ?x _ = _ => destruct x as [[r e]|] eqn:EX; [ | discriminate H ] end;
      cbn [bind fst snd] in H; injection H as <- ->; rewrite (C r eq_refl); reflexivity);
    intros r [= Hr]; exact (f_equal Ret (G _ _ _ _ _ _ _ _ Hr)).
Qed.
Example C04_ex : exists q, UnmarshalBinary (PktPoll (mkPoll Header_zero 77 88)) (magic ++ [0; 0x20; 0; 14; 2; 0x10]) = Ret (q, None)
  /\ UnmarshalBinary (PktPoll NewArtPollPacket) (magic ++ [0; 0x20; 0; 14; 2; 0x10]) = Ret (q, None).
Proof. eexists. split; reflexivity. Qed.

(** For an ArtDmx everything but the data beyond Length is overwritten (unless the datagram carries
    the undocumented opcode 0x0021, see C22). *)
Lemma DMX_unmarshal_prior p b : wf_DMX p -> bytes_ok b -> 18 <= len b -> wire_opcode b <> 0x0021 ->
  let l := 256 * nth 16 b 0 + nth 17 b 0 in
  exists h e, Header_unmarshal Header_zero b = Ret (h, e) /\
  (e = None -> H_ID h = firstn 8 b /\ H_Version h = [nth 10 b 0; nth 11 b 0]) /\
  exists h0, DMX_UnmarshalBinary p b =
  match e with
  | Some e => Ret (DMX_set_Header p h0, Some e)
  | None =>
    if dmx_len_bad (len b) l
    then Ret (mkDMX h (nth 12 b 0) (nth 13 b 0) (nth 14 b 0) (nth 15 b 0) l (DMX_Data p), Some errInvalidPacket)
    else Ret (mkDMX h (nth 12 b 0) (nth 13 b 0) (nth 14 b 0) (nth 15 b 0) l
                (firstn (N.to_nat l) (skipn 18 b) ++ skipn (N.to_nat l) (DMX_Data p)), None)
  end.
Proof.
  intros Hw Hb Hl Ho l. unfold DMX_UnmarshalBinary.
  replace (len b <? 18) with false by (symmetry; apply N.ltb_ge; assumption).
  rewrite slice_Ret by lia. change (N.to_nat (12 - 0)) with 12%nat. change (N.to_nat 0) with 0%nat.
  destruct (split18 b Hl) as (i0 & i1 & i2 & i3 & i4 & i5 & i6 & i7 & o0 & o1 & v0 & v1 & a0 & a1 & a2 & a3 & a4 & a5 & r & Eb).
  pose proof Hb as Hb0. rewrite Eb in Hb0. bok_all.
  assert (Hop : (256 * o0 + o1 =? 0x2100) = false).
  { apply N.eqb_neq. intros E. apply Ho. rewrite Eb. unfold wire_opcode. cbn [nth]. unfold byte_ok in *. lia. }
  set (hh := mkHeader [i0; i1; i2; i3; i4; i5; i6; i7] (256 * o0 + o1) [v0; v1]).
  assert (E0 : Header_unmarshal Header_zero b = Ret (Header_validate hh)).
  { rewrite Eb, Header_unmarshal_eq by assumption. rewrite Hop. reflexivity. }
  assert (E1 : Header_unmarshal (DMX_Header p) (firstn 12 (skipn 0 b)) = Ret (Header_validate hh)).
  { rewrite Eb. cbn [skipn firstn]. rewrite Header_unmarshal_eq by assumption. rewrite Hop. reflexivity. }
  cbn [bind]. rewrite E0, E1. cbn [bind]. subst hh.
  do 2 eexists. split; [ rewrite <- surjective_pairing; reflexivity | ].
  destruct (Header_validate _) as [h e] eqn:EH. cbn [fst snd].
  split.
  { intros ->. apply Header_validate_None in EH; [ | unfold word_ok, byte_ok in *; lia ].
    destruct EH as (Ei & -> & _). rewrite Eb. cbn [H_ID H_Version firstn nth]. auto. }
  exists h. destruct e as [e|]; [ reflexivity | ].
  replace (go_index b 12) with (Ret a0) by (rewrite Eb; reflexivity); cbn [bind].
  replace (go_index b 13) with (Ret a1) by (rewrite Eb; reflexivity); cbn [bind].
  replace (go_index b 14) with (Ret a2) by (rewrite Eb; reflexivity); cbn [bind].
  replace (go_index b 15) with (Ret a3) by (rewrite Eb; reflexivity); cbn [bind].
  replace (go_index b 16) with (Ret a4) by (rewrite Eb; reflexivity); cbn [bind].
  replace (go_index b 17) with (Ret a5) by (rewrite Eb; reflexivity); cbn [bind].
  cbv zeta.
  assert (E16 : u16 (u16 (a4 * 256) + a5) = l).
  { subst l. rewrite Eb. cbn [nth]. unfold u16, byte_ok in *. rewrite (N.mod_small (a4 * 256)) by lia.
    rewrite N.mod_small by lia. lia. }
  rewrite E16, dmx_len_bad_eq.
  replace (nth 12 b 0) with a0 by (rewrite Eb; reflexivity).
  replace (nth 13 b 0) with a1 by (rewrite Eb; reflexivity).
  replace (nth 14 b 0) with a2 by (rewrite Eb; reflexivity).
  replace (nth 15 b 0) with a3 by (rewrite Eb; reflexivity).
  destruct (dmx_len_bad (len b) l) eqn:EB; [ reflexivity | ].
  unfold dmx_len_bad in EB. rewrite !orb_false_iff, !N.ltb_ge in EB. destruct EB as [[[EB1 EB2] EB3] _].
  rewrite slice_Ret by lia. cbn [bind DMX_Data]. unfold go_copy_into.
  unfold wf_DMX, array_ok in Hw. replace (len (DMX_Data p)) with 512 by (symmetry; tauto).
  apply N.leb_le in EB3. rewrite EB3. cbn [bind]. apply N.leb_le in EB3.
  do 3 f_equal. unfold go_copy.
  replace (N.to_nat (18 + l - 18)) with (N.to_nat l) by lia. change (N.to_nat 18) with 18%nat.
  assert (L1 : length (firstn (N.to_nat l) (DMX_Data p)) = N.to_nat l).
  { apply firstn_length_le. assert (len (DMX_Data p) = 512) by tauto. unfold len in *. lia. }
  assert (L2 : length (firstn (N.to_nat l) (skipn 18 b)) = N.to_nat l).
  { apply firstn_length_le. rewrite skipn_length. unfold len in *. lia. }
  rewrite L1, L2. rewrite firstn_firstn, Nat.min_id.
  rewrite (skipn_all2 (firstn _ (DMX_Data p))) by lia. rewrite app_nil_r. reflexivity.
Qed.

Theorem C04_dmx_reuse_partial : forall p1 p2 b q1, wf_DMX p1 -> wf_DMX p2 -> bytes_ok b ->
  wire_opcode b <> 0x0021 ->
  DMX_UnmarshalBinary p1 b = Ret (q1, None) ->
  exists q2, DMX_UnmarshalBinary p2 b = Ret (q2, None) /\
    DMX_Header q2 = DMX_Header q1 /\ DMX_Sequence q2 = DMX_Sequence q1 /\ DMX_Physical q2 = DMX_Physical q1 /\
    DMX_SubUni q2 = DMX_SubUni q1 /\ DMX_Net q2 = DMX_Net q1 /\ DMX_Length q2 = DMX_Length q1 /\
    firstn (N.to_nat (DMX_Length q2)) (DMX_Data q2) = firstn (N.to_nat (DMX_Length q1)) (DMX_Data q1).
Proof.
  intros p1 p2 b q1 H1 H2 Hb Ho H.
  destruct (N.lt_ge_cases (len b) 18) as [Hl|Hl].
  { unfold DMX_UnmarshalBinary in H. apply N.ltb_lt in Hl. rewrite Hl in H. discriminate H. }
  destruct (DMX_unmarshal_prior p1 b H1 Hb Hl Ho) as (h & e & He & _ & h1 & E1).
  destruct (DMX_unmarshal_prior p2 b H2 Hb Hl Ho) as (h' & e' & He' & _ & h2 & E2).
  rewrite He in He'. injection He' as <- <-. rewrite E1 in H. rewrite E2. clear E1 E2.
  destruct e as [e|]; [ discriminate H | ].
  destruct (dmx_len_bad _ _) eqn:EB; [ discriminate H | ].
  unfold dmx_len_bad in EB. rewrite !orb_false_iff, !N.ltb_ge in EB. destruct EB as [[[EB1 EB2] EB3] _].
  injection H as <-.
  eexists. split; [ reflexivity | ].
  cbn [DMX_Header DMX_Sequence DMX_Physical DMX_SubUni DMX_Net DMX_Length DMX_Data].
  repeat split.
  set (l := 256 * nth 16 b 0 + nth 17 b 0) in *.
  assert (L2 : len (firstn (N.to_nat l) (skipn 18 b)) = l).
  { apply len_firstn. change 18%nat with (N.to_nat 18). rewrite len_skipn. lia. }
  rewrite !firstn_app_exact by exact L2. reflexivity.
Qed.

(** ** C21 *)
Definition nzs_long : list N := magic ++ [0; 0x51; 0; 14; 0; 1; 0; 0; 0xff; 0xff] ++ zeros 512.
Definition diag_long : list N := magic ++ [0; 0x23; 0; 14; 0; 0x10; 0; 0; 0xff; 0xff] ++ zeros 512.
Definition command_long : list N := magic ++ [0; 0x24; 0; 14; 0xff; 0xff; 0xff; 0xff] ++ zeros 512.
Theorem C21_length_bounded_refuted : exists b1 b2 b3 p1 p2 p3,
  bytes_ok b1 /\ bytes_ok b2 /\ bytes_ok b3 /\
  Unmarshal b1 = Ret (Some (PktNzs p1), None) /\ Nzs_Length p1 = 65535 /\
  Unmarshal b2 = Ret (Some (PktDiagData p2), None) /\ DiagData_Length p2 = 65535 /\
  Unmarshal b3 = Ret (Some (PktCommand p3), None) /\ Command_Length p3 = 65535.
Proof.
  exists nzs_long, diag_long, command_long. do 3 eexists.
  split; [ repeat constructor | ]. split; [ repeat constructor | ]. split; [ repeat constructor | ].
  repeat (split; [ vm_compute; reflexivity | ]). vm_compute; reflexivity.
Qed.
Lemma accepted_dmx_length b q : wire_accepts b q ->
  match q with PktDMX p => 2 <= DMX_Length p <= 512 /\ N.even (DMX_Length p) = true | _ => True end.
Proof.
  intros H. destruct H; try exact I. cbn [DMX_Length].
  match goal with E : len _ = 256 * _ + _ |- _ => rewrite <- E end. tauto.
Qed.
Theorem C21_dmx_length_bounded_partial : forall b p, bytes_ok b -> Unmarshal b = Ret (Some (PktDMX p), None) ->
  2 <= DMX_Length p <= 512 /\ N.even (DMX_Length p) = true /\ len (DMX_Data p) = 512.
Proof.
  intros b p Hb H. apply Unmarshal_accepts in H; [ | assumption ].
  pose proof (accepted_wf b _ Hb H) as [Hw _]. cbn in Hw. unfold wf_DMX, array_ok in Hw.
  apply accepted_dmx_length in H. cbn in H. tauto.
Qed.
(** For the other three types the Length field is exactly what the sender wrote. *)
Theorem C21_length_is_senders_partial : forall b p, bytes_ok b -> Unmarshal b = Ret (Some p, None) ->
  match p with
  | PktNzs q => Nzs_Length q = 256 * nth 16 b 0 + nth 17 b 0
  | PktDiagData q => DiagData_Length q = 256 * nth 16 b 0 + nth 17 b 0
  | PktCommand q => Command_Length q = 256 * nth 14 b 0 + nth 15 b 0
  | _ => True
  end.
Proof.
  intros b p Hb H. apply Unmarshal_accepts in H; [ | assumption ].
  destruct H; exact I || reflexivity.
Qed.
Example C21_ex : let b := magic ++ [0; 0x50; 0; 14; 1; 0; 3; 0; 0; 2; 200; 100; 77] in
  bytes_ok b /\ exists q, Unmarshal b = Ret (Some (PktDMX q), None) /\ DMX_Length q = 2.
Proof. split; [ repeat constructor | ]. eexists. split; vm_compute; reflexivity. Qed.

(** ** C22 *)
(** ArtDMXPacket.UnmarshalBinary accepts an ArtSync-opcode datagram; ArtPollReplyPacket's accepts a
    datagram without the magic. *)
Theorem C22_own_packets_only_refuted :
  (exists b q, bytes_ok b /\ DMX_UnmarshalBinary NewArtDMXPacket b = Ret (q, None) /\ wire_opcode b = 0x5200) /\
  (exists b q, bytes_ok b /\ PollReply_UnmarshalBinary NewArtPollReplyPacket b = Ret (q, None) /\ firstn 8 b <> magic).
Proof.
  split.
  - exists (magic ++ [0; 0x52; 0; 14; 0; 0; 0; 0; 0; 2; 1; 2]). eexists.
    split; [ repeat constructor | ]. split; vm_compute; reflexivity.
  - exists (zeros 8 ++ [0; 0x21; 10; 0; 0; 1; 0x36; 0x19] ++ zeros 184 ++ [1] ++ zeros 38). eexists.
    split; [ repeat constructor | ]. split; [ vm_compute; reflexivity | discriminate ].
Qed.
(** What holds: ten of the twelve types check both; ArtDmx checks the magic, ArtPollReply the opcode. *)
Theorem C22_own_packets_only_partial : forall p0 b p, bytes_ok b -> UnmarshalBinary p0 b = Ret (p, None) ->
  packet_opcode p = packet_opcode p0 /\
  match p0 with
  | PktDMX _ => 12 <= len b /\ firstn 8 b = magic
  | PktPollReply _ => 239 <= len b /\ wire_opcode b = 0x2100
  | _ => header_ok b /\ wire_opcode b = packet_opcode p0 /\ wire_accepts b p
  end.
Proof.
  intros p0 b p Hb H.
  destruct p0; cbn [UnmarshalBinary] in H;
    match type of H with bind ?x _ = _ => destruct x as [[r e]|] eqn:EX; [ | discriminate H ] end;
    cbn [bind fst snd] in H; injection H as <- ->; split; try reflexivity.
  - apply Poll_direct in EX; [ | assumption ]. pose proof (wire_accepts_header _ _ EX). tauto.
  - unfold PollReply_UnmarshalBinary, unmarshalPacket in EX.
    unfold binary_read in EX. change (layout_size PollReply_layout) with 239 in EX.
    destruct (N.leb_spec 239 (len b)) as [Hl|Hl]; [ | destruct b; discriminate EX ].
    split; [ assumption | ].
    pose proof (decode_enc PollReply_layout b Hb Hl) as HE.
    assert (HO : exists o0 o1, nth 8 b 0 = o0 /\ nth 9 b 0 = o1 /\
      PollReply_OpCode (PollReply_of_vals (binary_decode PollReply_layout b)) = 256 * o0 + o1 /\ byte_ok o0 /\ byte_ok o1).
    { exists (nth 8 b 0), (nth 9 b 0). split; [ reflexivity | ]. split; [ reflexivity | ].
      pose proof (bytes_ok_nth b 8 Hb) as B8. pose proof (bytes_ok_nth b 9 Hb) as B9.
      split; [ | auto ].
      cbn [PollReply_layout binary_decode PollReply_of_vals PollReply_OpCode].
      rewrite <- get16_eq by assumption.
      change (N.to_nat 8) with 8%nat. rewrite !nth_skipn. reflexivity. }
    destruct HO as (o0 & o1 & E0 & E1 & EO & B0 & B1).
    unfold PollReply_validate in EX. cbv zeta in EX. rewrite !PRset_OpCode in EX. rewrite EO in EX.
    rewrite swap_pair in EX by assumption. change OpPollReply with 0x2100 in EX.
    destruct (N.eqb_spec (256 * o1 + o0) 0x2100) as [E|E]; [ | discriminate EX ].
    unfold wire_opcode. rewrite E0, E1. lia.
  - apply DiagData_direct in EX; [ | assumption ]. pose proof (wire_accepts_header _ _ EX). tauto.
  - apply Command_direct in EX; [ | assumption ]. pose proof (wire_accepts_header _ _ EX). tauto.
  - unfold DMX_UnmarshalBinary in EX.
    destruct (N.ltb_spec (len b) 18) as [Hl|Hl]; [ discriminate EX | ]. split; [ lia | ].
    rewrite slice_Ret in EX by lia. change (N.to_nat (12 - 0)) with 12%nat in EX. change (N.to_nat 0) with 0%nat in EX.
    destruct (split18 b Hl) as (i0 & i1 & i2 & i3 & i4 & i5 & i6 & i7 & o0 & o1 & v0 & v1 & a0 & a1 & a2 & a3 & a4 & a5 & r' & ->).
    bok_all. cbn [skipn firstn bind] in EX. rewrite Header_unmarshal_eq in EX by assumption. cbn [bind] in EX.
    destruct (Header_validate _) as [h [e|]] eqn:EH; [ discriminate EX | ].
    apply Header_validate_None in EH; [ | unfold word_ok, byte_ok in *; lia ].
    destruct EH as (Ei & _). exact Ei.
  - apply Nzs_direct in EX; [ | assumption ]. pose proof (wire_accepts_header _ _ EX). tauto.
  - apply Sync_direct in EX; [ | assumption ]. pose proof (wire_accepts_header _ _ EX). tauto.
  - apply Address_direct in EX; [ | assumption ]. pose proof (wire_accepts_header _ _ EX). tauto.
  - apply TimeCode_direct in EX; [ | assumption ]. pose proof (wire_accepts_header _ _ EX). tauto.
  - apply Trigger_direct in EX; [ | assumption ]. pose proof (wire_accepts_header _ _ EX). tauto.
  - apply IPProg_direct in EX; [ | assumption ]. pose proof (wire_accepts_header _ _ EX). tauto.
  - apply IPProgReply_direct in EX; [ | assumption ]. pose proof (wire_accepts_header _ _ EX). tauto.
Qed.
Example C22_ex : exists p, UnmarshalBinary (PktTimeCode NewArtTimeCodePacket)
  (magic ++ [0; 0x97; 0; 14; 0; 0; 1; 2; 3; 4; 1]) = Ret (p, None).
Proof. eexists. reflexivity. Qed.

(** ** C23 *)
Theorem C23_nil_on_error_refuted : exists b p e, bytes_ok b /\ Unmarshal b = Ret (Some p, Some e).
Proof.
  exists (magic ++ [0; 0x20; 0; 14]). do 2 eexists. split; [ repeat constructor | vm_compute; reflexivity ].
Qed.
(** What holds: the packet is nil exactly for header errors and for opcodes that have no packet type. *)
Theorem C23_nil_on_error_partial : forall b o e, bytes_ok b -> Unmarshal b = Ret (o, Some e) ->
  (o = None <-> ~ header_ok b \/ ~ In (wire_opcode b) ops_supported).
Proof.
  intros b o e Hb H. destruct (header_ok_dec b) as [Hh|Hh].
  - destruct (in_dec N.eq_dec (wire_opcode b) ops_supported) as [Hs|Hs].
    + destruct (supported_kind b Hb Hh Hs) as (p & e' & Hu & _). rewrite H in Hu. injection Hu as -> _.
      split; [ discriminate | tauto ].
    + rewrite (unsupported_error b Hb Hh Hs) in H. injection H as <- _. tauto.
  - destruct (Header_unmarshal_err b Hb Hh) as (h & e' & He & _).
    unfold Unmarshal in H. rewrite He in H. injection H as <- _. tauto.
Qed.
Example C23_ex : let b1 := magic ++ [0; 0x97; 0; 14; 0; 0; 1; 2; 3; 4] in let b2 := magic ++ [0; 0x70; 0; 14] in
  bytes_ok b1 /\ bytes_ok b2 /\ (exists p e, Unmarshal b1 = Ret (Some p, Some e)) /\ exists e, Unmarshal b2 = Ret (None, Some e).
Proof. split; [ repeat constructor | ]. split; [ repeat constructor | ]. split; [ do 2 eexists; vm_compute; reflexivity | eexists; vm_compute; reflexivity ]. Qed.

(** ** C24 *)
(** Every ArtNzs, ArtCommand and ArtDiagData datagram with fewer than 512 data bytes is rejected,
    whatever its Length field says. *)
Theorem C24_variable_length_refuted : forall data lh ll, bytes_ok data -> byte_ok lh -> byte_ok ll ->
  len data = 256 * lh + ll -> len data < 512 ->
  (exists o, Unmarshal (magic ++ [0; 0x51; 0; 14; 0; 1; 0; 0; lh; ll] ++ data) = Ret (o, Some errUnexpectedEOF)) /\
  (exists o, Unmarshal (magic ++ [0; 0x23; 0; 14; 0; 0x10; 0; 0; lh; ll] ++ data) = Ret (o, Some errUnexpectedEOF)) /\
  (exists o, Unmarshal (magic ++ [0; 0x24; 0; 14; 0xff; 0xff; lh; ll] ++ data) = Ret (o, Some errUnexpectedEOF)).
Proof.
  intros data lh ll Hd Hh Hl Hn Hs.
  assert (HO : forall h, len h = 10 \/ len h = 8 -> len (magic ++ h ++ data) = 8 + len h + len data).
  { intros h _. rewrite !len_app. change (len magic) with 8. lia. }
  split; [ | split ]; apply Unmarshal_rejects; unfold magic; cbn [app];
    try (repeat (apply bytes_ok_cons; split; [ first [ assumption | reflexivity ] | ]); assumption).
  - eapply (WE_truncated _ 530); [ | apply FS_Nzs | rewrite !len_cons; lia ].
    split; [ rewrite !len_cons; lia | ]. split; [ reflexivity | right; split; [ discriminate | cbn; lia ] ].
  - eapply (WE_truncated _ 530); [ | apply FS_DiagData | rewrite !len_cons; lia ].
    split; [ rewrite !len_cons; lia | ]. split; [ reflexivity | right; split; [ discriminate | cbn; lia ] ].
  - eapply (WE_truncated _ 528); [ | apply FS_Command | rewrite !len_cons; lia ].
    split; [ rewrite !len_cons; lia | ]. split; [ reflexivity | right; split; [ discriminate | cbn; lia ] ].
Qed.
Example C24_ex : bytes_ok [1; 2; 3] /\ len [1; 2; 3] = 256 * 0 + 3 /\ len [1; 2; 3] < 512.
Proof. repeat split. repeat constructor. Qed.
(** What holds: they are accepted whenever 512 data bytes are present, for every Length. *)
Theorem C24_full_length_partial : forall data rest lh ll, bytes_ok data -> bytes_ok rest -> byte_ok lh -> byte_ok ll ->
  len data = 512 ->
  (exists p, Unmarshal (magic ++ [0; 0x51; 0; 14; 0; 1; 0; 0; lh; ll] ++ data ++ rest) = Ret (Some p, None)) /\
  (exists p, Unmarshal (magic ++ [0; 0x23; 0; 14; 0; 0x10; 0; 0; lh; ll] ++ data ++ rest) = Ret (Some p, None)) /\
  (exists p, Unmarshal (magic ++ [0; 0x24; 0; 14; 0xff; 0xff; lh; ll] ++ data ++ rest) = Ret (Some p, None)).
Proof.
  intros data rest lh ll Hd Hr Hh Hl Hn.
  assert (HB : forall h, bytes_ok h -> bytes_ok (magic ++ h ++ data ++ rest)).
  { intros h Hk. repeat (apply bytes_ok_app; split); try assumption. repeat constructor. }
  split; [ | split ]; eexists; apply Unmarshal_accepts;
    try (apply HB; repeat (apply bytes_ok_cons; split; [ first [ assumption | reflexivity ] | ]); constructor).
  - apply WA_Nzs; [ lia | assumption ].
  - apply WA_DiagData; [ lia | assumption ].
  - apply WA_Command; [ lia | assumption ].
Qed.

Definition P_Decode_theorems :=
  (C03_dmx_accepts_iff, C04_reuse_overwrites_refuted, C04_reuse_overwrites_partial, C04_dmx_reuse_partial,
   C08_pollreply_accepts_iff, C08_pollreply_port_reported, C08_version_gate_never_applies,
   C13_unmarshal_binary_total, C13_unmarshal_total, C14_unmarshal_accepts_iff, C14_unmarshal_rejects_iff,
   C14_spec_is_a_partition, C15_foreign_traffic_rejected, C16_opcode_classification, C16_counts,
   C17_type_opcode_agree, C18_trailing_ignored, C19_truncated_rejected, C19_accepted_is_complete,
   C21_length_bounded_refuted, C21_dmx_length_bounded_partial, C21_length_is_senders_partial,
   C22_own_packets_only_refuted, C22_own_packets_only_partial, C23_nil_on_error_refuted,
   C23_nil_on_error_partial, C24_variable_length_refuted, C24_full_length_partial).
Print Assumptions P_Decode_theorems.
