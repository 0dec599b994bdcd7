(** Proofs relating Unmarshal (Packets.v) to WireSpec.v. *)
From Verif Require Export PacketFacts.
Open Scope N_scope.

Lemma Command_direct p0 b p : bytes_ok b ->
  (Command_UnmarshalBinary p0 b = Ret (p, None) <-> wire_accepts b (PktCommand p)).
Proof.
  intros Hb. unfold Command_UnmarshalBinary. split; intros H.
  - unm_forward H b Hb Command_layout.
    hdr_forward H Command_validate Command_of_vals Command_set_Header Command_Header OpCommand.
    cbn [Command_ESTAmanufacturer] in H.
    destruct (eqbytes [n; n0] [0xff; 0xff]) eqn:EE; cbn [negb] in H; [ | discriminate H ].
    apply eqbytes_eq in EE. injection EE as -> ->.
    finish_forward H.
  - hdr_backward H Hb Command_layout Command_vals Command_set_Header Command_validate Command_of_vals
      Command_Header OpCommand.
Qed.

(** * Splitting a datagram at its header *)

Lemma split12 (b : list N) : 12 <= len b ->
  exists i0 i1 i2 i3 i4 i5 i6 i7 o0 o1 v0 v1 r,
    b = i0 :: i1 :: i2 :: i3 :: i4 :: i5 :: i6 :: i7 :: o0 :: o1 :: v0 :: v1 :: r.
Proof.
  intros H.
  destruct b as [|i0 [|i1 [|i2 [|i3 [|i4 [|i5 [|i6 [|i7 [|o0 [|o1 [|v0 [|v1 r]]]]]]]]]]]];
    try (unfold len in H; cbn in H; lia).
  repeat eexists.
Qed.

Lemma header_ok_inv b : bytes_ok b -> header_ok b ->
  exists o0 o1 v0 v1 r, b = magic ++ o0 :: o1 :: v0 :: v1 :: r /\
    byte_ok o0 /\ byte_ok o1 /\ byte_ok v0 /\ byte_ok v1 /\ bytes_ok r /\
    wire_opcode b = o0 + 256 * o1 /\ (o0 + 256 * o1 = 0x2100 \/ o0 + 256 * o1 <> 0x0021 /\ 14 <= v1).
Proof.
  intros Hb (Hl & Hm & Hv).
  destruct (split12 b Hl) as (i0 & i1 & i2 & i3 & i4 & i5 & i6 & i7 & o0 & o1 & v0 & v1 & r & ->).
  cbn [firstn] in Hm. injection Hm as -> -> -> -> -> -> -> ->.
  exists o0, o1, v0, v1, r. bok Hb. unfold wire_opcode, wire_version in *. cbn [nth] in *.
  repeat split; auto.
Qed.

Lemma Header_validate_eq i o0 o1 ver : byte_ok o0 -> byte_ok o1 ->
  Header_validate (mkHeader i (256 * o0 + o1) ver) =
  if eqbytes i magic then
    (mkHeader i (o0 + 256 * o1) ver,
     if o0 + 256 * o1 =? 0x2100 then None
     else if nth 1 ver 0 <? 14 then Some (errIncompatibleVersion (nth 1 ver 0)) else None)
  else (mkHeader i (256 * o0 + o1) ver, Some errInvalidPacket).
Proof.
  intros H0 H1. unfold Header_validate. cbn [H_ID H_OpCode H_Version Header_swapOpCode].
  change ArtNet with magic. destruct (eqbytes i magic); cbn [negb]; [ | reflexivity ].
  rewrite swap_pair by assumption. rewrite (N.add_comm (256 * o1)).
  change OpPollReply with 0x2100. change (nth 1 version_Bytes 0) with 14.
  unfold Header_swapOpCode. cbn [H_ID H_OpCode H_Version].
  rewrite swap_pair by assumption. rewrite (N.add_comm (256 * o1)).
  destruct (o0 + 256 * o1 =? 0x2100); cbn [negb]; [ reflexivity | ].
  destruct (nth 1 ver 0 <? 14); reflexivity.
Qed.

Lemma Header_unmarshal_eq h i0 i1 i2 i3 i4 i5 i6 i7 o0 o1 v0 v1 r : byte_ok o0 -> byte_ok o1 ->
  Header_unmarshal h (i0 :: i1 :: i2 :: i3 :: i4 :: i5 :: i6 :: i7 :: o0 :: o1 :: v0 :: v1 :: r) =
  Ret (Header_validate (mkHeader [i0; i1; i2; i3; i4; i5; i6; i7] (256 * o0 + o1)
         (if 256 * o0 + o1 =? 0x2100 then H_Version h else [v0; v1]))).
Proof.
  intros H0 H1. unfold Header_unmarshal.
  match goal with |- context [len ?l <? 12] => replace (len l <? 12) with false end.
  2:{ symmetry. apply N.ltb_ge. unfold len. cbn [length]. lia. }
  cbn [go_index nth_error bind].
  rewrite get16_eq by assumption. cbn [H_OpCode H_Version H_ID].
  change OpPollReply with 0x2100.
  destruct (256 * o0 + o1 =? 0x2100); cbn [negb bind]; reflexivity.
Qed.

(** Header of a datagram decoded into a zero Header (as Unmarshal does). *)
Lemma Header_unmarshal_ok h b : bytes_ok b -> header_ok b ->
  nth 1 (H_Version h) 0 = 0 ->
  Header_unmarshal h b = Ret (mkHeader magic (wire_opcode b) (firstn 2 (skipn 10 b)), None).
Proof.
  intros Hb Hh Hz. destruct (header_ok_inv b Hb Hh) as (o0 & o1 & v0 & v1 & r & -> & H0 & H1 & _ & _ & _ & Ho & Hv).
  rewrite Ho. unfold magic. cbn [app skipn firstn].
  rewrite Header_unmarshal_eq by assumption. f_equal.
  rewrite Header_validate_eq by assumption. change (eqbytes _ magic) with true. cbn match.
  unfold byte_ok in *.
  destruct (N.eqb_spec (o0 + 256 * o1) 0x2100) as [E|E].
  - replace (256 * o0 + o1 =? 0x2100) with false; [ reflexivity | ].
    symmetry. apply N.eqb_neq. lia.
  - destruct Hv as [Hv|[Hn Hv]]; [ contradiction | ].
    replace (256 * o0 + o1 =? 0x2100) with false.
    2:{ symmetry. apply N.eqb_neq. lia. }
    cbn [nth]. replace (v1 <? 14) with false; [ reflexivity | ].
    symmetry. apply N.ltb_ge. assumption.
Qed.

Lemma Header_unmarshal_err b : bytes_ok b -> ~ header_ok b ->
  exists h e, Header_unmarshal Header_zero b = Ret (h, Some e) /\ wire_error b e.
Proof.
  intros Hb Hn.
  destruct (N.lt_ge_cases (len b) 12) as [Hl|Hl].
  { exists Header_zero, errIncorrectHeaderLength. split; [ | apply WE_short; assumption ].
    unfold Header_unmarshal. apply N.ltb_lt in Hl. rewrite Hl. reflexivity. }
  destruct (split12 b Hl) as (i0 & i1 & i2 & i3 & i4 & i5 & i6 & i7 & o0 & o1 & v0 & v1 & r & E).
  assert (Hop : wire_opcode b = o0 + 256 * o1) by (rewrite E; reflexivity).
  assert (Hve : wire_version b = v1) by (rewrite E; reflexivity).
  assert (Hma : firstn 8 b = [i0; i1; i2; i3; i4; i5; i6; i7]) by (rewrite E; reflexivity).
  assert (Ho : byte_ok o0 /\ byte_ok o1) by (rewrite E in Hb; bok Hb; auto).
  destruct Ho as [Ho0 Ho1].
  replace (Header_unmarshal Header_zero b) with
    (Ret (Header_validate (mkHeader [i0; i1; i2; i3; i4; i5; i6; i7] (256 * o0 + o1)
         (if 256 * o0 + o1 =? 0x2100 then H_Version Header_zero else [v0; v1])))).
  2:{ rewrite E. symmetry. apply Header_unmarshal_eq; assumption. }
  rewrite Header_validate_eq by assumption.
  destruct (eqbytes [i0; i1; i2; i3; i4; i5; i6; i7] magic) eqn:Em.
  2:{ do 2 eexists. split; [ reflexivity | ]. apply WE_magic; [ assumption | ].
      rewrite Hma. intros Hx. apply eqbytes_eq in Hx. congruence. }
  apply eqbytes_eq in Em. rewrite Em in Hma.
  unfold byte_ok in *.
  destruct (N.eqb_spec (256 * o0 + o1) 0x2100) as [Es|Es].
  - destruct (N.eqb_spec (o0 + 256 * o1) 0x2100) as [Ep|Ep]; [ lia | ].
    cbn [H_Version Header_zero zeros repeat nth N.ltb N.compare].
    do 2 eexists. split; [ reflexivity | ]. apply WE_swapped; [ assumption | assumption | ].
    rewrite Hop. assert (o0 = 0x21) by lia. assert (o1 = 0) by lia. subst. reflexivity.
  - destruct (N.eqb_spec (o0 + 256 * o1) 0x2100) as [Ep|Ep].
    { exfalso. apply Hn. split; [ assumption | ]. split; [ assumption | ]. left. lia. }
    cbn [nth]. destruct (N.ltb_spec v1 14) as [Hlt|Hge].
    + do 2 eexists. split; [ reflexivity | ]. rewrite <- Hve. apply WE_version; try assumption; lia.
    + exfalso. apply Hn. split; [ assumption | ]. split; [ assumption | ]. right. lia.
Qed.

Lemma wire_accepts_header b p : wire_accepts b p ->
  header_ok b /\ wire_opcode b = packet_opcode p /\ GetOpCode p = packet_opcode p.
Proof.
  intros H. inversion H; subst; clear H.
  all: unfold header_ok, wire_opcode, wire_version, magic; cbn [app].
  all: match goal with |- context [len ?l] => assert (12 <= len l) end.
  all: try match goal with
       | |- 12 <= len (_ :: _) => unfold len in *; cbn [length]; rewrite ?app_length; cbn [length]; lia
       end.
  all: split; [ split; [ assumption | split; [ reflexivity | ] ] | split; reflexivity ].
  all: first [ left; reflexivity | right; split; [ discriminate | cbn [nth]; assumption ] ].
Qed.

(** * ArtPollReply *)

Lemma ValidStyle_le s : ValidStyle s = (s <=? 6).
Proof.
  unfold ValidStyle. change (u8 (N.of_nat (length styleCodeIndex) - 1)) with 7.
  destruct (N.leb_spec 7 s), (N.leb_spec s 6); try reflexivity; lia.
Qed.

(** Result of validating a decoded reply with port bytes ph pl and opcode bytes o0 o1. *)
Definition reply_error (o0 o1 ph pl style : N) : option goerr :=
  if negb (o0 + 256 * o1 =? 0x2100) then Some errInvalidOpCode else
  if (ph + 256 * pl =? 6454) || (256 * ph + pl =? 6454) then
    if style <=? 6 then None else Some errInvalidStyleCode
  else Some (errInvalidPort (256 * ph + pl)).

Lemma PRset_OpCode p i o t : PollReply_OpCode (PollReply_set p i o t) = o. Proof. reflexivity. Qed.
Lemma PRset_Port p i o t : PollReply_Port (PollReply_set p i o t) = t. Proof. reflexivity. Qed.
Lemma PRset_ID p i o t : PollReply_ID (PollReply_set p i o t) = i. Proof. reflexivity. Qed.
Lemma PRset_Style p i o t : PollReply_Style (PollReply_set p i o t) = PollReply_Style p.
Proof. reflexivity. Qed.
Lemma PRset_set p i o t i' o' t' :
  PollReply_set (PollReply_set p i o t) i' o' t' = PollReply_set p i' o' t'.
Proof. reflexivity. Qed.

Lemma PollReply_validate_eq p o0 o1 ph pl : byte_ok o0 -> byte_ok o1 -> byte_ok ph -> byte_ok pl ->
  PollReply_OpCode p = 256 * o0 + o1 -> PollReply_Port p = 256 * ph + pl ->
  snd (PollReply_validate p) = reply_error o0 o1 ph pl (PollReply_Style p) /\
  (snd (PollReply_validate p) = None ->
   fst (PollReply_validate p) = PollReply_set p (PollReply_ID p) 0x2100 6454).
Proof.
  intros H0 H1 Hph Hpl Ho Hp. unfold PollReply_validate, reply_error. cbv zeta.
  rewrite !PRset_set, !PRset_OpCode, !PRset_Port, !PRset_ID, !PRset_Style.
  rewrite Ho, Hp, !swap_pair by assumption.
  change OpPollReply with 0x2100. change ArtNetPort with 6454.
  rewrite (N.add_comm (256 * o1)), (N.add_comm (256 * pl)).
  destruct (N.eqb_spec (o0 + 256 * o1) 0x2100) as [Eo|Eo]; cbn [negb]; [ | split; [ reflexivity | discriminate ] ].
  rewrite ValidStyle_le. rewrite Eo.
  destruct (N.eqb_spec (ph + 256 * pl) 6454) as [Ep|Ep]; cbn [negb orb].
  - destruct (PollReply_Style p <=? 6); cbn [negb fst snd].
    + split; [ reflexivity | intros _ ]. rewrite Ep. reflexivity.
    + split; [ reflexivity | discriminate ].
  - destruct (N.eqb_spec (256 * ph + pl) 6454) as [Eq|Eq]; cbn [negb orb].
    + destruct (PollReply_Style p <=? 6); cbn [negb fst snd].
      * split; [ reflexivity | intros _ ]. rewrite Eq. reflexivity.
      * split; [ reflexivity | discriminate ].
    + split; [ reflexivity | discriminate ].
Qed.

(** The fields before the port have a fixed position. *)
Lemma PollReply_direct p0 b p : bytes_ok b -> firstn 8 b = magic ->
  (PollReply_UnmarshalBinary p0 b = Ret (p, None) <-> wire_accepts b (PktPollReply p)).
Proof.
  intros Hb Hm. unfold PollReply_UnmarshalBinary. split; intros H.
  - injection H; clear H; intros H. unfold unmarshalPacket in H.
    destruct (binary_read PollReply_layout b) as [v|e] eqn:E; [ | discriminate H ].
    apply binary_read_ok_iff in E; [ | exact Hb ].
    unfold PollReply_layout in v. cbn [vals] in v.
    repeat match type of v with prod _ _ => let x := fresh "x" in destruct v as [x v] end.
    unfold PollReply_layout in E. cbn [enc fst snd] in E; destruct_enc E; clear E; subst.
    change 8%nat with (N.to_nat 8) in Hm.
    rewrite firstn_app_exact in Hm by assumption. subst x.
    cbn [app] in *. bok Hb.
    unfold PollReply_of_vals in H.
    match type of H with PollReply_validate ?q = _ =>
      destruct (PollReply_validate_eq q e0 e1 e4 e5) as [Hs Hf]; auto; rewrite H in Hs, Hf
    end.
    cbn [fst snd] in Hs, Hf. specialize (Hf eq_refl). subst p.
    unfold PollReply_set. cbn [PollReply_ID PollReply_IPAddress PollReply_VersionInfo
      PollReply_NetSwitch PollReply_SubSwitch PollReply_Oem PollReply_UBEAVersion PollReply_Status1
      PollReply_ESTAmanufacturer PollReply_ShortName PollReply_LongName PollReply_NodeReport
      PollReply_NumPorts PollReply_PortTypes PollReply_GoodInput PollReply_GoodOutput PollReply_SwIn
      PollReply_SwOut PollReply_SwVideo PollReply_SwMacro PollReply_SwRemote PollReply_Style
      PollReply_Macaddress PollReply_BindIP PollReply_BindIndex PollReply_Status2] in *.
    unfold reply_error in Hs.
    destruct (N.eqb_spec (e0 + 256 * e1) 0x2100) as [Eo|Eo]; cbn [negb] in Hs; [ | discriminate Hs ].
    assert (e0 = 0x00 /\ e1 = 0x21) as [-> ->] by (unfold byte_ok in *; lia).
    assert (HP : [e4; e5] = [0x36; 0x19] \/ [e4; e5] = [0x19; 0x36]).
    { destruct (N.eqb_spec (e4 + 256 * e5) 6454) as [Ep|Ep]; cbn [orb] in Hs.
      - left. assert (e4 = 0x36 /\ e5 = 0x19) as [-> ->] by (unfold byte_ok in *; lia). reflexivity.
      - destruct (N.eqb_spec (256 * e4 + e5) 6454) as [Eq|Eq]; [ | discriminate Hs ].
        right. assert (e4 = 0x19 /\ e5 = 0x36) as [-> ->] by (unfold byte_ok in *; lia). reflexivity. }
    assert (HS : x22 <= 6).
    { destruct ((e4 + 256 * e5 =? 6454) || (256 * e4 + e5 =? 6454)); [ | discriminate Hs ].
      destruct (N.leb_spec x22 6); [ assumption | discriminate Hs ]. }
    eapply wire_eq; [ | reflexivity | ]; [ eapply (WA_PollReply _ [e4; e5]) | .. ];
    try (match goal with |- @eq (list N) _ _ => cbn [app]; reflexivity end);
    first [ eassumption | reflexivity ].
  - inversion H; subst; clear H. unfold unmarshalPacket. f_equal.
    assert (exists ph pl, port = [ph; pl] /\ byte_ok ph /\ byte_ok pl /\
             ((ph + 256 * pl =? 6454) || (256 * ph + pl =? 6454) = true))
      as (ph & pl & -> & Hph & Hpl & Hport).
    { match goal with H : port = _ \/ port = _ |- _ => destruct H as [-> | ->] end.
      - exists 0x36, 0x19. repeat split.
      - exists 0x19, 0x36. repeat split. }
    match goal with |- match binary_read _ ?b with _ => _ end = (?p, None) =>
      assert (E : binary_read PollReply_layout b =
                  Ok (PollReply_vals (PollReply_set p magic (256 * 0 + 0x21) (256 * ph + pl))))
    end.
    { apply binary_read_ok_iff; [ exact Hb | ].
      unfold PollReply_vals, PollReply_set, PollReply_layout. cbn [app enc fst snd
      PollReply_ID PollReply_OpCode PollReply_Port PollReply_IPAddress PollReply_VersionInfo
      PollReply_NetSwitch PollReply_SubSwitch PollReply_Oem PollReply_UBEAVersion PollReply_Status1
      PollReply_ESTAmanufacturer PollReply_ShortName PollReply_LongName PollReply_NodeReport
      PollReply_NumPorts PollReply_PortTypes PollReply_GoodInput PollReply_GoodOutput PollReply_SwIn
      PollReply_SwOut PollReply_SwVideo PollReply_SwMacro PollReply_SwRemote PollReply_Style
      PollReply_Macaddress PollReply_BindIP PollReply_BindIndex PollReply_Status2].
      repeat enc_step. }
    rewrite E. clear E.
    unfold PollReply_vals, PollReply_set, PollReply_of_vals. cbn [
      PollReply_ID PollReply_OpCode PollReply_Port PollReply_IPAddress PollReply_VersionInfo
      PollReply_NetSwitch PollReply_SubSwitch PollReply_Oem PollReply_UBEAVersion PollReply_Status1
      PollReply_ESTAmanufacturer PollReply_ShortName PollReply_LongName PollReply_NodeReport
      PollReply_NumPorts PollReply_PortTypes PollReply_GoodInput PollReply_GoodOutput PollReply_SwIn
      PollReply_SwOut PollReply_SwVideo PollReply_SwMacro PollReply_SwRemote PollReply_Style
      PollReply_Macaddress PollReply_BindIP PollReply_BindIndex PollReply_Status2].
    match goal with |- PollReply_validate ?q = _ =>
      destruct (PollReply_validate_eq q 0 0x21 ph pl) as [Hs Hf]; auto; try reflexivity;
      destruct (PollReply_validate q) as [q' e']
    end.
    cbn [fst snd PollReply_Style] in Hs, Hf. unfold reply_error in Hs. change (0 + 256 * 33 =? 8448) with true in Hs.
    cbn [negb] in Hs. rewrite Hport in Hs.
    destruct (N.leb_spec style 6); [ | lia ]. subst e'.
    rewrite (Hf eq_refl). reflexivity.
Qed.

(** * ArtDmx *)

Lemma skipn_repeat {A} (x : A) l : forall n, skipn l (repeat x n) = repeat x (n - l).
Proof.
  induction l as [|l IH]; intros [|n]; cbn; try reflexivity. apply IH.
Qed.

Lemma go_copy_into_zeros n l src : l <= n -> len src = l ->
  go_copy_into (zeros n) l src = Ret (src ++ zeros (n - l)).
Proof.
  intros Hl Hs. unfold go_copy_into. rewrite len_zeros.
  apply N.leb_le in Hl as Hl'. rewrite Hl'. f_equal. unfold len in Hs. f_equal.
  - unfold go_copy. rewrite firstn_length_le by (rewrite length_zeros; lia).
    rewrite firstn_all2 by lia. rewrite skipn_all2; [ apply app_nil_r | ].
    rewrite firstn_length_le by (rewrite length_zeros; lia). lia.
  - unfold zeros. rewrite skipn_repeat. f_equal. lia.
Qed.

Lemma DMX_split b : bytes_ok b -> header_ok b -> wire_opcode b = 0x5000 -> 18 <= len b ->
  exists v0 v1 seq phys sub net lh ll r,
    b = magic ++ [0x00; 0x50; v0; v1; seq; phys; sub; net; lh; ll] ++ r /\
    14 <= v1 /\ byte_ok lh /\ byte_ok ll /\ bytes_ok r.
Proof.
  intros Hb Hh Ho Hl. destruct (header_ok_inv b Hb Hh) as (o0 & o1 & v0 & v1 & r & -> & H0 & H1 & Hv0 & Hv1 & Hr & Hop & Hv).
  rewrite Hop in Ho. destruct Hv as [Hv|[_ Hv]]; [ lia | ].
  assert (o0 = 0x00 /\ o1 = 0x50) as [-> ->] by (unfold byte_ok in *; lia).
  unfold len in Hl. rewrite app_length in Hl. cbn [magic length] in Hl.
  destruct r as [|seq [|phys [|sub [|net [|lh [|ll r]]]]]]; try (cbn in Hl; lia).
  bok Hr. do 9 eexists. repeat split; eauto.
Qed.

(** The length test of artdmx.go:98. *)
Definition dmx_len_bad (n l : N) : bool :=
  (n <? l + 18) || (l <? 2) || (512 <? l) || N.odd l.

Lemma dmx_len_bad_eq n l :
  (n <? l + 18) || (l <? 2) || (512 <? l) || negb (l mod 2 =? 0) = dmx_len_bad n l.
Proof.
  unfold dmx_len_bad. f_equal. rewrite <- N.bit0_mod, N.bit0_odd.
  destruct (N.odd l); reflexivity.
Qed.

Lemma DMX_unmarshal_eq v0 v1 seq phys sub net lh ll r :
  14 <= v1 -> byte_ok lh -> byte_ok ll ->
  let b := magic ++ [0x00; 0x50; v0; v1; seq; phys; sub; net; lh; ll] ++ r in
  let l := 256 * lh + ll in
  let h := mkHeader magic 0x5000 [v0; v1] in
  DMX_UnmarshalBinary NewArtDMXPacket b =
  if dmx_len_bad (len b) l
  then Ret (mkDMX h seq phys sub net l (zeros 512), Some errInvalidPacket)
  else Ret (mkDMX h seq phys sub net l (firstn (N.to_nat l) r ++ zeros (512 - l)), None).
Proof.
  intros Hv Hh Hl b l h. subst b. unfold DMX_UnmarshalBinary, magic. cbn [app].
  match goal with |- context [len ?x] => set (b := x) end.
  assert (Hlb : len b = 18 + len r) by (subst b; rewrite !len_cons; lia).
  replace (len b <? 18) with false by (symmetry; apply N.ltb_ge; lia).
  rewrite slice_Ret by lia.
  change (N.to_nat (12 - 0)) with 12%nat. change (N.to_nat 0) with 0%nat.
  subst b. cbn [skipn firstn bind].
  rewrite Header_unmarshal_eq by (unfold byte_ok; lia).
  change (256 * 0x00 + 0x50 =? 0x2100) with false. cbn match.
  rewrite Header_validate_eq by (unfold byte_ok; lia).
  change (eqbytes _ magic) with true. change (0x00 + 256 * 0x50 =? 0x2100) with false. cbn match.
  cbn [nth]. replace (v1 <? 14) with false by (symmetry; apply N.ltb_ge; assumption).
  cbn [bind go_index nth_error].
  assert (El : u16 (u16 (lh * 256) + ll) = l).
  { unfold byte_ok in *. rewrite (u16_id (lh * 256)) by (unfold word_ok; lia).
    rewrite u16_id by (unfold word_ok; lia). subst l. lia. }
  rewrite El. cbn [DMX_Data NewArtDMXPacket]. cbv zeta.
  match goal with |- context [len ?x] => set (b := x) in * end.
  rewrite dmx_len_bad_eq.
  destruct (dmx_len_bad (len b) l) eqn:EB; [ reflexivity | ].
  unfold dmx_len_bad in EB. apply orb_false_iff in EB. destruct EB as [EB _].
  apply orb_false_iff in EB. destruct EB as [EB E5].
  apply orb_false_iff in EB. destruct EB as [E18 E2].
  apply N.ltb_ge in E18, E2, E5.
  rewrite slice_Ret by lia. cbn [bind].
  replace (18 + l - 18) with l by lia.
  change (N.to_nat 18) with 18%nat. subst b. cbn [skipn].
  rewrite go_copy_into_zeros.
  - reflexivity.
  - lia.
  - apply len_firstn. lia.
Qed.

Lemma DMX_direct b p : bytes_ok b -> header_ok b -> wire_opcode b = 0x5000 ->
  (DMX_UnmarshalBinary NewArtDMXPacket b = Ret (p, None) <-> wire_accepts b (PktDMX p)).
Proof.
  intros Hb Hh Ho. split; intros H.
  - destruct (N.lt_ge_cases (len b) 18) as [Hl|Hl].
    { unfold DMX_UnmarshalBinary in H. apply N.ltb_lt in Hl. rewrite Hl in H. discriminate H. }
    destruct (DMX_split b Hb Hh Ho Hl) as (v0 & v1 & seq & phys & sub & net & lh & ll & r & -> & Hv & Hlh & Hll & Hr).
    rewrite DMX_unmarshal_eq in H by assumption.
    destruct (dmx_len_bad _ _) eqn:EB; [ discriminate H | ].
    injection H; clear H; intros <-.
    unfold dmx_len_bad in EB. apply orb_false_iff in EB. destruct EB as [EB EO].
    apply orb_false_iff in EB. destruct EB as [EB E5].
    apply orb_false_iff in EB. destruct EB as [E18 E2].
    apply N.ltb_ge in E18, E2, E5. rewrite !len_app in E18.
    change (len magic) with 8 in E18. rewrite !len_cons, len_nil in E18.
    assert (HL : len (firstn (N.to_nat (256 * lh + ll)) r) = 256 * lh + ll).
    { apply len_firstn. lia. }
    eapply wire_eq;
      [ apply (WA_DMX v0 v1 seq phys sub net lh ll (firstn (N.to_nat (256 * lh + ll)) r)
                 (skipn (N.to_nat (256 * lh + ll)) r)) | | ].
    all: rewrite ?HL; try assumption; try lia.
    + rewrite <- N.negb_odd, EO. reflexivity.
    + reflexivity.
    + rewrite firstn_skipn. reflexivity.
  - inversion H; subst; clear H.
    assert (byte_ok lh /\ byte_ok ll) as [Hlh Hll].
    { apply bytes_ok_app in Hb. destruct Hb as [_ Hb]. cbn [app] in Hb. bok Hb. auto. }
    change (magic ++ [0; 80; vh; vl; seq; phys; sub; net; lh; ll] ++ data ++ rest)
      with (magic ++ [0; 80; vh; vl; seq; phys; sub; net; lh; ll] ++ (data ++ rest)).
    rewrite DMX_unmarshal_eq by assumption.
    match goal with H : len data = _ |- _ => rename H into HD end.
    replace (dmx_len_bad _ _) with false.
    + do 2 f_equal. rewrite firstn_app_exact by assumption. rewrite HD. reflexivity.
    + symmetry. unfold dmx_len_bad. rewrite <- HD.
      repeat (apply orb_false_iff; split).
      * apply N.ltb_ge. rewrite !len_app. change (len magic) with 8. rewrite !len_cons, len_nil. lia.
      * apply N.ltb_ge. assumption.
      * apply N.ltb_ge. assumption.
      * rewrite <- N.negb_even. apply negb_false_iff. assumption.
Qed.
