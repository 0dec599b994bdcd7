(** Dispatch: the outcome of Unmarshal on every datagram, for acceptance and for each error. *)
From Verif Require Export UnmarshalFacts.
Open Scope N_scope.

(** * Outcome of the direct UnmarshalBinary methods on datagrams with a good header *)

Lemma decode_hdr l o0 o1 v0 v1 r : byte_ok o0 -> byte_ok o1 ->
  binary_decode (Header_layout ++ l) (magic ++ o0 :: o1 :: v0 :: v1 :: r) =
  (magic, (256 * o0 + o1, ([v0; v1], binary_decode l r))).
Proof. intros H0 H1. rewrite <- get16_eq by assumption. reflexivity. Qed.

Lemma short_read l b : bytes_ok b -> header_ok b -> len b < layout_size l ->
  binary_read l b = Err errUnexpectedEOF.
Proof.
  intros Hb [Hh _] Hl. unfold binary_read. apply N.leb_gt in Hl. rewrite Hl.
  destruct b; [ rewrite len_nil in Hh; lia | reflexivity ].
Qed.

Ltac complete_tac unm lay size val of_vals set hdr op :=
  let Hb := fresh "Hb" in let Hh := fresh "Hh" in let Ho := fresh "Ho" in let Hs := fresh "Hs" in
  let o0 := fresh "o0" in let o1 := fresh "o1" in let v0 := fresh "v0" in let v1 := fresh "v1" in
  let r := fresh "r" in let H0 := fresh "H0" in let H1 := fresh "H1" in let Hv0 := fresh "Hv0" in
  let Hv1 := fresh "Hv1" in let Hr := fresh "Hr" in let Hop := fresh "Hop" in let Hv := fresh "Hv" in
  intros Hb Hh Ho; unfold unm, unmarshalPacket;
  match goal with |- context [len ?b <? size] =>
    destruct (N.ltb_spec (len b) size) as [Hs|Hs];
    [ rewrite short_read by assumption; eexists; reflexivity | ];
    destruct (header_ok_inv b Hb Hh) as (o0 & o1 & v0 & v1 & r & -> & H0 & H1 & Hv0 & Hv1 & Hr & Hop & Hv);
    rewrite Hop in Ho; destruct Hv as [Hv|[_ Hv]]; [ rewrite Ho in Hv; discriminate Hv | ]
  end;
  unfold binary_read; apply N.leb_le in Hs;
  change (layout_size lay) with size; rewrite Hs;
  unfold lay; rewrite decode_hdr by assumption; cbn [binary_decode];
  unfold val, of_vals, set; cbn [hdr];
  rewrite Header_validate_eq by assumption; change (eqbytes magic magic) with true; cbn match;
  rewrite Ho; cbn [nth H_OpCode];
  apply N.ltb_ge in Hv; rewrite Hv;
  change (op =? op) with true; cbn [negb N.eqb Pos.eqb].

Lemma Poll_outcome p0 b : bytes_ok b -> header_ok b -> wire_opcode b = 8192 ->
  exists p, Poll_UnmarshalBinary p0 b = Ret (p, if len b <? 14 then Some errUnexpectedEOF else None).
Proof.
  complete_tac Poll_UnmarshalBinary Poll_layout 14 Poll_validate Poll_of_vals Poll_set_Header Poll_Header OpPoll.
  eexists; reflexivity.
Qed.

Lemma DiagData_outcome p0 b : bytes_ok b -> header_ok b -> wire_opcode b = 8960 ->
  exists p, DiagData_UnmarshalBinary p0 b = Ret (p, if len b <? 530 then Some errUnexpectedEOF else None).
Proof.
  complete_tac DiagData_UnmarshalBinary DiagData_layout 530 DiagData_validate DiagData_of_vals DiagData_set_Header DiagData_Header OpDiagData.
  eexists; reflexivity.
Qed.

Lemma Nzs_outcome p0 b : bytes_ok b -> header_ok b -> wire_opcode b = 20736 ->
  exists p, Nzs_UnmarshalBinary p0 b = Ret (p, if len b <? 530 then Some errUnexpectedEOF else None).
Proof.
  complete_tac Nzs_UnmarshalBinary Nzs_layout 530 Nzs_validate Nzs_of_vals Nzs_set_Header Nzs_Header OpNzs.
  eexists; reflexivity.
Qed.

Lemma Sync_outcome p0 b : bytes_ok b -> header_ok b -> wire_opcode b = 20992 ->
  exists p, Sync_UnmarshalBinary p0 b = Ret (p, if len b <? 14 then Some errUnexpectedEOF else None).
Proof.
  complete_tac Sync_UnmarshalBinary Sync_layout 14 Sync_validate Sync_of_vals Sync_set_Header Sync_Header OpSync.
  eexists; reflexivity.
Qed.

Lemma Address_outcome p0 b : bytes_ok b -> header_ok b -> wire_opcode b = 24576 ->
  exists p, Address_UnmarshalBinary p0 b = Ret (p, if len b <? 107 then Some errUnexpectedEOF else None).
Proof.
  complete_tac Address_UnmarshalBinary Address_layout 107 Address_validate Address_of_vals Address_set_Header Address_Header OpAddress.
  eexists; reflexivity.
Qed.

Lemma TimeCode_outcome p0 b : bytes_ok b -> header_ok b -> wire_opcode b = 38656 ->
  exists p, TimeCode_UnmarshalBinary p0 b = Ret (p, if len b <? 19 then Some errUnexpectedEOF else None).
Proof.
  complete_tac TimeCode_UnmarshalBinary TimeCode_layout 19 TimeCode_validate TimeCode_of_vals TimeCode_set_Header TimeCode_Header OpTimeCode.
  eexists; reflexivity.
Qed.

Lemma Trigger_outcome p0 b : bytes_ok b -> header_ok b -> wire_opcode b = 39168 ->
  exists p, Trigger_UnmarshalBinary p0 b = Ret (p, if len b <? 530 then Some errUnexpectedEOF else None).
Proof.
  complete_tac Trigger_UnmarshalBinary Trigger_layout 530 Trigger_validate Trigger_of_vals Trigger_set_Header Trigger_Header OpTrigger.
  eexists; reflexivity.
Qed.

Lemma IPProg_outcome p0 b : bytes_ok b -> header_ok b -> wire_opcode b = 63488 ->
  exists p, IPProg_UnmarshalBinary p0 b = Ret (p, if len b <? 34 then Some errUnexpectedEOF else None).
Proof.
  complete_tac IPProg_UnmarshalBinary IPProg_layout 34 IPProg_validate IPProg_of_vals IPProg_set_Header IPProg_Header OpIPProg.
  eexists; reflexivity.
Qed.

Lemma IPProgReply_outcome p0 b : bytes_ok b -> header_ok b -> wire_opcode b = 63744 ->
  exists p, IPProgReply_UnmarshalBinary p0 b = Ret (p, if len b <? 34 then Some errUnexpectedEOF else None).
Proof.
  complete_tac IPProgReply_UnmarshalBinary IPProgReply_layout 34 IPProgReply_validate IPProgReply_of_vals IPProgReply_set_Header IPProgReply_Header OpIPProgReply.
  eexists; reflexivity.
Qed.

Lemma Command_outcome p0 b : bytes_ok b -> header_ok b -> wire_opcode b = 0x2400 ->
  exists p, Command_UnmarshalBinary p0 b =
    Ret (p, if len b <? 528 then Some errUnexpectedEOF
            else if (nth 12 b 0 =? 0xff) && (nth 13 b 0 =? 0xff) then None else Some errInvalidPacket).
Proof.
  complete_tac Command_UnmarshalBinary Command_layout 528 Command_validate Command_of_vals
    Command_set_Header Command_Header OpCommand.
  unfold Command_ESTAmanufacturer.
  destruct r as [|e0 [|e1 r]].
  - exfalso. apply N.leb_le in Hs. rewrite len_app, !len_cons, len_nil in Hs. change (len magic) with 8 in Hs. lia.
  - exfalso. apply N.leb_le in Hs. rewrite len_app, !len_cons, len_nil in Hs. change (len magic) with 8 in Hs. lia.
  - change (firstn (N.to_nat 2) (e0 :: e1 :: r)) with [e0; e1].
    unfold magic. cbn [app nth eqbytes]. rewrite andb_true_r.
    destruct ((e0 =? 255) && (e1 =? 255)); cbn [negb]; eexists; reflexivity.
Qed.

Lemma nth_skipn {A} (d : A) k : forall i b, nth i (skipn k b) d = nth (k + i) b d.
Proof.
  induction k as [|k IH]; intros i b; [ reflexivity | ].
  destruct b as [|x b]; cbn [skipn Nat.add nth]; [ destruct i; reflexivity | apply IH ].
Qed.

Lemma bytes_ok_nth b i : bytes_ok b -> byte_ok (nth i b 0).
Proof.
  intros H. destruct (Nat.lt_ge_cases i (length b)) as [Hi|Hi].
  - apply Forall_forall with (x := nth i b 0) in H; [ exact H | apply nth_In; exact Hi ].
  - rewrite nth_overflow by exact Hi. reflexivity.
Qed.

Lemma PollReply_outcome p0 b : bytes_ok b -> header_ok b -> wire_opcode b = 0x2100 ->
  exists p, PollReply_UnmarshalBinary p0 b =
    Ret (p, if len b <? 239 then Some errUnexpectedEOF
            else reply_error 0x00 0x21 (nth 14 b 0) (nth 15 b 0) (nth 200 b 0)).
Proof.
  intros Hb Hh Ho. unfold PollReply_UnmarshalBinary, unmarshalPacket.
  destruct (N.ltb_spec (len b) 239) as [Hs|Hs].
  { rewrite short_read by assumption. eexists; reflexivity. }
  unfold binary_read. apply N.leb_le in Hs. change (layout_size PollReply_layout) with 239. rewrite Hs.
  set (q := PollReply_of_vals (binary_decode PollReply_layout b)).
  assert (Hop : PollReply_OpCode q = 256 * 0x00 + 0x21).
  { change (PollReply_OpCode q) with (get16 (nth 0 (skipn 8 b) 0) (nth 1 (skipn 8 b) 0)).
    rewrite !nth_skipn. rewrite get16_eq by (apply bytes_ok_nth; assumption). cbn [Nat.add].
    unfold wire_opcode in Ho.
    pose proof (bytes_ok_nth b 8 Hb). pose proof (bytes_ok_nth b 9 Hb). unfold byte_ok in *. lia. }
  assert (Hpo : PollReply_Port q = 256 * nth 14 b 0 + nth 15 b 0).
  { change (PollReply_Port q) with
      (get16 (nth 0 (skipn 4 (skipn 2 (skipn 8 b))) 0) (nth 1 (skipn 4 (skipn 2 (skipn 8 b))) 0)).
    rewrite !nth_skipn. rewrite get16_eq by (apply bytes_ok_nth; assumption). reflexivity. }
  assert (Hst : PollReply_Style q = nth 200 b 0).
  { match goal with |- ?l = _ => let l' := eval cbv [q PollReply_Style PollReply_of_vals PollReply_layout binary_decode] in l in change l with l' end.
    rewrite !nth_skipn. reflexivity. }
  destruct (PollReply_validate_eq q 0x00 0x21 (nth 14 b 0) (nth 15 b 0)) as [Hs' _];
    try assumption; try (apply bytes_ok_nth; assumption); try (unfold byte_ok; lia).
  destruct (PollReply_validate q) as [p e]. cbn [snd] in Hs'. subst e.
  rewrite Hst. eexists; reflexivity.
Qed.

Lemma DMX_outcome b : bytes_ok b -> header_ok b -> wire_opcode b = 0x5000 ->
  exists p, DMX_UnmarshalBinary NewArtDMXPacket b =
    Ret (p, if len b <? 18 then Some errInvalidPacket
            else if dmx_len_bad (len b) (256 * nth 16 b 0 + nth 17 b 0) then Some errInvalidPacket
            else None).
Proof.
  intros Hb Hh Ho. destruct (N.ltb_spec (len b) 18) as [Hs|Hs].
  { unfold DMX_UnmarshalBinary. apply N.ltb_lt in Hs. rewrite Hs. eexists; reflexivity. }
  destruct (DMX_split b Hb Hh Ho Hs) as (v0 & v1 & seq & phys & sub & net & lh & ll & r & -> & Hv & Hlh & Hll & Hr).
  rewrite DMX_unmarshal_eq by assumption.
  change (nth 16 _ 0) with lh. change (nth 17 _ 0) with ll.
  destruct (dmx_len_bad _ _); eexists; reflexivity.
Qed.

(** * Unmarshal *)

(** What Unmarshal does after a valid header. *)
Definition dispatch (b : list N) (op : N) : go (option packet * option goerr) :=
  let body p := do r <- UnmarshalBinary p b; Ret (Some (fst r), snd r) in
  if op =? OpPoll then body (PktPoll NewArtPollPacket)
  else if op =? OpPollReply then body (PktPollReply NewArtPollReplyPacket)
  else if op =? OpDiagData then body (PktDiagData NewArtDiagDataPacket)
  else if op =? OpCommand then body (PktCommand NewArtCommandPacket)
  else if op =? OpDMX then body (PktDMX NewArtDMXPacket)
  else if op =? OpNzs then body (PktNzs NewArtNzsPacket)
  else if op =? OpSync then body (PktSync NewArtSyncPacket)
  else if op =? OpAddress then body (PktAddress NewArtAddressPacket)
  else if op =? OpInput then Ret (None, Some (errUnimplemented op))
  else if op =? OpTimeCode then body (PktTimeCode NewArtTimeCodePacket)
  else if op =? OpTrigger then body (PktTrigger NewArtTriggerPacket)
  else if op =? OpIPProg then body (PktIPProg NewArtIPProgPacket)
  else if op =? OpIPProgReply then body (PktIPProgReply NewArtIPProgReplyPacket)
  else if existsb (N.eqb op) notImplementedOps then Ret (None, Some (errNotImplementedOpCode op))
  else Ret (None, Some (errInvalidOpCodeOf op)).

Lemma Unmarshal_dispatch b : bytes_ok b -> header_ok b -> Unmarshal b = dispatch b (wire_opcode b).
Proof.
  intros Hb Hh. unfold Unmarshal. rewrite Header_unmarshal_ok by auto. reflexivity.
Qed.

Lemma header_ok_dec b : header_ok b \/ ~ header_ok b.
Proof.
  unfold header_ok.
  destruct (N.le_gt_cases 12 (len b)); [ | right; intros [? ?]; lia ].
  destruct (list_eq_dec N.eq_dec (firstn 8 b) magic); [ | right; tauto ].
  destruct (N.eq_dec (wire_opcode b) 0x2100); [ left; auto | ].
  destruct (N.eq_dec (wire_opcode b) 0x0021); [ right; tauto | ].
  destruct (N.le_gt_cases 14 (wire_version b)); [ left; auto | right ].
  intros (_ & _ & [?|[_ ?]]); [ contradiction | lia ].
Qed.

(** Evaluate the comparisons of closed numbers in an if-chain. *)
Ltac eval_ifs :=
  repeat match goal with
  | |- context [if ?x =? ?y then _ else _] =>
      let c := eval vm_compute in (x =? y) in
      lazymatch c with
      | true => change (x =? y) with true
      | false => change (x =? y) with false
      end; cbn match
  end.

Ltac dispatch_to Hop :=
  unfold dispatch; rewrite Hop; eval_ifs; cbn [UnmarshalBinary].

Lemma body_some {P} (inj : P -> packet) (x : go (P * option goerr)) p :
  (forall a b, inj a = inj b -> a = b) ->
  (do r <- (do r <- x; Ret (inj (fst r), snd r)); Ret (Some (fst r), snd r)) = Ret (Some (inj p), None) <->
  x = Ret (p, None).
Proof.
  intros Hinj. destruct x as [[q e]|]; cbn [bind fst snd]; [ | split; discriminate ].
  split; [ intros [= Hq ->]; apply Hinj in Hq; congruence | intros [= -> ->]; reflexivity ].
Qed.

Lemma body_is {P} (inj : P -> packet) (x : go (P * option goerr)) q :
  (do r <- (do r <- x; Ret (inj (fst r), snd r)); Ret (Some (fst r), snd r)) = Ret (Some q, None) ->
  exists p, q = inj p.
Proof.
  destruct x as [[p e]|]; cbn [bind fst snd]; [ intros [= <- _]; eauto | discriminate ].
Qed.

Theorem Unmarshal_accepts b p : bytes_ok b ->
  (Unmarshal b = Ret (Some p, None) <-> wire_accepts b p).
Proof.
  intros Hb. split.
  - intros H. destruct (header_ok_dec b) as [Hh|Hh].
    2:{ destruct (Header_unmarshal_err b Hb Hh) as (h & e & He & _).
        unfold Unmarshal in H. rewrite He in H. discriminate H. }
    rewrite (Unmarshal_dispatch b Hb Hh) in H. unfold dispatch in H.
    repeat match type of H with
    | (if wire_opcode b =? ?op then _ else _) = _ =>
        destruct (N.eqb_spec (wire_opcode b) op) as [Ho|Ho];
        [ first [ discriminate H
                | cbn [UnmarshalBinary] in H;
                  destruct (body_is _ _ _ H) as [? ->];
                  apply body_some in H; [ | intros ? ? [= <-]; reflexivity ] ]
        | clear Ho ]
    end.
    all: try match goal with
         | H : Poll_UnmarshalBinary _ _ = _ |- _ => apply Poll_direct in H; assumption
         | H : DiagData_UnmarshalBinary _ _ = _ |- _ => apply DiagData_direct in H; assumption
         | H : Command_UnmarshalBinary _ _ = _ |- _ => apply Command_direct in H; assumption
         | H : Nzs_UnmarshalBinary _ _ = _ |- _ => apply Nzs_direct in H; assumption
         | H : Sync_UnmarshalBinary _ _ = _ |- _ => apply Sync_direct in H; assumption
         | H : Address_UnmarshalBinary _ _ = _ |- _ => apply Address_direct in H; assumption
         | H : TimeCode_UnmarshalBinary _ _ = _ |- _ => apply TimeCode_direct in H; assumption
         | H : Trigger_UnmarshalBinary _ _ = _ |- _ => apply Trigger_direct in H; assumption
         | H : IPProg_UnmarshalBinary _ _ = _ |- _ => apply IPProg_direct in H; assumption
         | H : IPProgReply_UnmarshalBinary _ _ = _ |- _ => apply IPProgReply_direct in H; assumption
         | H : DMX_UnmarshalBinary _ _ = _ |- _ => apply DMX_direct in H; assumption
         | H : PollReply_UnmarshalBinary _ _ = _ |- _ => apply PollReply_direct in H; [ assumption | assumption | apply Hh ]
         end.
    destruct (existsb _ _); discriminate H.
  - intros H. destruct (wire_accepts_header b p H) as (Hh & Ho & _).
    rewrite (Unmarshal_dispatch b Hb Hh).
    destruct p as [p|p|p|p|p|p|p|p|p|p|p|p]; cbn [packet_opcode] in Ho; dispatch_to Ho;
      apply body_some; try (intros ? ? [= <-]; reflexivity).
    + apply Poll_direct; assumption.
    + apply PollReply_direct; [ assumption | apply Hh | assumption ].
    + apply DiagData_direct; assumption.
    + apply Command_direct; assumption.
    + apply DMX_direct; assumption.
    + apply Nzs_direct; assumption.
    + apply Sync_direct; assumption.
    + apply Address_direct; assumption.
    + apply TimeCode_direct; assumption.
    + apply Trigger_direct; assumption.
    + apply IPProg_direct; assumption.
    + apply IPProgReply_direct; assumption.
Qed.

Lemma notImplementedOps_iff op : existsb (N.eqb op) notImplementedOps = true <-> In op ops_unsupported.
Proof.
  rewrite existsb_exists. split.
  - intros (x & Hx & He). apply N.eqb_eq in He. subst x.
    repeat (destruct Hx as [<-|Hx]; [ cbv; tauto | ]). destruct Hx.
  - intros H. exists op. split; [ | apply N.eqb_refl ].
    repeat (destruct H as [<-|H]; [ cbv; tauto | ]). destruct H.
Qed.

Lemma body_err {P} (inj : P -> packet) (x : go (P * option goerr)) p err :
  x = Ret (p, err) ->
  (do r <- (do r <- x; Ret (inj (fst r), snd r)); Ret (Some (fst r), snd r)) = Ret (Some (inj p), err).
Proof. intros ->. reflexivity. Qed.

Ltac outcome_tac lem :=
  let p := fresh "p" in let E := fresh "E" in
  edestruct lem as [p E]; [ eassumption | eassumption | eassumption | ];
  rewrite (body_err _ _ _ _ E).

Lemma Ret_snd {A B} (a a' : A) (x y : B) : Ret (a, x) = Ret (a', y) -> x = y.
Proof. congruence. Qed.

(** Unmarshal's result, by opcode, for datagrams with a valid header. *)
Lemma dispatch_err b e : bytes_ok b -> header_ok b ->
  (exists o, dispatch b (wire_opcode b) = Ret (o, Some e)) -> wire_error b e.
Proof.
  intros Hb Hh [o H]. unfold dispatch in H.
  destruct (N.eqb_spec (wire_opcode b) OpPoll) as [Ho|N1].
  { cbn [UnmarshalBinary] in H. destruct (Poll_outcome NewArtPollPacket b Hb Hh Ho) as [p E].
    rewrite (body_err _ _ _ _ E) in H. destruct (N.ltb_spec (len b) 14); [ | discriminate H ].
    injection H as _ <-. eapply WE_truncated; [ assumption | rewrite Ho; constructor | assumption ]. }
  destruct (N.eqb_spec (wire_opcode b) OpPollReply) as [Ho|N2].
  { cbn [UnmarshalBinary] in H. destruct (PollReply_outcome NewArtPollReplyPacket b Hb Hh Ho) as [p E].
    rewrite (body_err _ _ _ _ E) in H. apply Ret_snd in H.
    destruct (N.ltb_spec (len b) 239).
    - injection H as <-. eapply WE_truncated; [ assumption | rewrite Ho; constructor | assumption ].
    - unfold reply_error in H. change (0x00 + 256 * 0x21 =? 0x2100) with true in H. cbn [negb] in H.
      pose proof (bytes_ok_nth b 14 Hb) as B14. pose proof (bytes_ok_nth b 15 Hb) as B15. unfold byte_ok in *.
      destruct (N.eqb_spec (nth 14 b 0 + 256 * nth 15 b 0) 6454) as [E1|E1]; cbn [orb] in H.
      + destruct (N.leb_spec (nth 200 b 0) 6); [ discriminate H | injection H as <- ].
        apply WE_style; try assumption. right. lia.
      + destruct (N.eqb_spec (256 * nth 14 b 0 + nth 15 b 0) 6454) as [E2|E2].
        * destruct (N.leb_spec (nth 200 b 0) 6); [ discriminate H | injection H as <- ].
          apply WE_style; try assumption. left. assumption.
        * assert (errInvalidPort (256 * nth 14 b 0 + nth 15 b 0) = e) as <- by congruence.
          eapply WE_port; [ assumption | assumption | assumption | reflexivity | lia | lia ]. }
  destruct (N.eqb_spec (wire_opcode b) OpDiagData) as [Ho|N3].
  { cbn [UnmarshalBinary] in H. destruct (DiagData_outcome NewArtDiagDataPacket b Hb Hh Ho) as [p E].
    rewrite (body_err _ _ _ _ E) in H. destruct (N.ltb_spec (len b) 530); [ | discriminate H ].
    injection H as _ <-. eapply WE_truncated; [ assumption | rewrite Ho; constructor | assumption ]. }
  destruct (N.eqb_spec (wire_opcode b) OpCommand) as [Ho|N4].
  { cbn [UnmarshalBinary] in H. destruct (Command_outcome NewArtCommandPacket b Hb Hh Ho) as [p E].
    rewrite (body_err _ _ _ _ E) in H. apply Ret_snd in H. destruct (N.ltb_spec (len b) 528).
    - injection H as <-. eapply WE_truncated; [ assumption | rewrite Ho; constructor | assumption ].
    - destruct (N.eqb_spec (nth 12 b 0) 0xff) as [E1|E1]; cbn [andb] in H.
      + destruct (N.eqb_spec (nth 13 b 0) 0xff) as [E2|E2]; [ discriminate H | ].
        injection H as <-. apply WE_esta; auto.
      + injection H as <-. apply WE_esta; auto. }
  destruct (N.eqb_spec (wire_opcode b) OpDMX) as [Ho|N5].
  { cbn [UnmarshalBinary] in H. destruct (DMX_outcome b Hb Hh Ho) as [p E].
    rewrite (body_err _ _ _ _ E) in H. apply Ret_snd in H. destruct (N.ltb_spec (len b) 18).
    - injection H as <-. apply WE_dmx_short; auto.
    - destruct (dmx_len_bad (len b) (256 * nth 16 b 0 + nth 17 b 0)) eqn:EB; [ | discriminate H ].
      injection H as <-. eapply WE_dmx_length; [ assumption | assumption | assumption | reflexivity | ].
      unfold dmx_len_bad in EB. rewrite !orb_true_iff, !N.ltb_lt in EB. tauto. }
  destruct (N.eqb_spec (wire_opcode b) OpNzs) as [Ho|N6].
  { cbn [UnmarshalBinary] in H. destruct (Nzs_outcome NewArtNzsPacket b Hb Hh Ho) as [p E].
    rewrite (body_err _ _ _ _ E) in H. destruct (N.ltb_spec (len b) 530); [ | discriminate H ].
    injection H as _ <-. eapply WE_truncated; [ assumption | rewrite Ho; constructor | assumption ]. }
  destruct (N.eqb_spec (wire_opcode b) OpSync) as [Ho|N7].
  { cbn [UnmarshalBinary] in H. destruct (Sync_outcome NewArtSyncPacket b Hb Hh Ho) as [p E].
    rewrite (body_err _ _ _ _ E) in H. destruct (N.ltb_spec (len b) 14); [ | discriminate H ].
    injection H as _ <-. eapply WE_truncated; [ assumption | rewrite Ho; constructor | assumption ]. }
  destruct (N.eqb_spec (wire_opcode b) OpAddress) as [Ho|N8].
  { cbn [UnmarshalBinary] in H. destruct (Address_outcome NewArtAddressPacket b Hb Hh Ho) as [p E].
    rewrite (body_err _ _ _ _ E) in H. destruct (N.ltb_spec (len b) 107); [ | discriminate H ].
    injection H as _ <-. eapply WE_truncated; [ assumption | rewrite Ho; constructor | assumption ]. }
  destruct (N.eqb_spec (wire_opcode b) OpInput) as [Ho|N9].
  { injection H as _ <-. rewrite Ho. apply WE_input; assumption. }
  destruct (N.eqb_spec (wire_opcode b) OpTimeCode) as [Ho|N10].
  { cbn [UnmarshalBinary] in H. destruct (TimeCode_outcome NewArtTimeCodePacket b Hb Hh Ho) as [p E].
    rewrite (body_err _ _ _ _ E) in H. destruct (N.ltb_spec (len b) 19); [ | discriminate H ].
    injection H as _ <-. eapply WE_truncated; [ assumption | rewrite Ho; constructor | assumption ]. }
  destruct (N.eqb_spec (wire_opcode b) OpTrigger) as [Ho|N11].
  { cbn [UnmarshalBinary] in H. destruct (Trigger_outcome NewArtTriggerPacket b Hb Hh Ho) as [p E].
    rewrite (body_err _ _ _ _ E) in H. destruct (N.ltb_spec (len b) 530); [ | discriminate H ].
    injection H as _ <-. eapply WE_truncated; [ assumption | rewrite Ho; constructor | assumption ]. }
  destruct (N.eqb_spec (wire_opcode b) OpIPProg) as [Ho|N12].
  { cbn [UnmarshalBinary] in H. destruct (IPProg_outcome NewArtIPProgPacket b Hb Hh Ho) as [p E].
    rewrite (body_err _ _ _ _ E) in H. destruct (N.ltb_spec (len b) 34); [ | discriminate H ].
    injection H as _ <-. eapply WE_truncated; [ assumption | rewrite Ho; constructor | assumption ]. }
  destruct (N.eqb_spec (wire_opcode b) OpIPProgReply) as [Ho|N13].
  { cbn [UnmarshalBinary] in H. destruct (IPProgReply_outcome NewArtIPProgReplyPacket b Hb Hh Ho) as [p E].
    rewrite (body_err _ _ _ _ E) in H. destruct (N.ltb_spec (len b) 34); [ | discriminate H ].
    injection H as _ <-. eapply WE_truncated; [ assumption | rewrite Ho; constructor | assumption ]. }
  destruct (existsb (N.eqb (wire_opcode b)) notImplementedOps) eqn:EX.
  - injection H as _ <-. apply WE_unsupported; [ assumption | apply notImplementedOps_iff; assumption ].
  - injection H as _ <-. apply WE_unknown; [ assumption | ].
    intros Hin. apply in_app_or in Hin. destruct Hin as [Hin|[Hin|Hin]].
    + cbn [ops_supported In] in Hin.
      repeat (destruct Hin as [Hin|Hin];
        [ symmetry in Hin; first [ exact (N1 Hin) | exact (N2 Hin) | exact (N3 Hin) | exact (N4 Hin)
          | exact (N5 Hin) | exact (N6 Hin) | exact (N7 Hin) | exact (N8 Hin) | exact (N10 Hin)
          | exact (N11 Hin) | exact (N12 Hin) | exact (N13 Hin) ] | ]).
      destruct Hin.
    + apply N9. symmetry. exact Hin.
    + apply notImplementedOps_iff in Hin. congruence.
Qed.

Theorem Unmarshal_rejects b e : bytes_ok b ->
  ((exists o, Unmarshal b = Ret (o, Some e)) <-> wire_error b e).
Proof.
  intros Hb. split.
  - intros [o H]. destruct (header_ok_dec b) as [Hh|Hh].
    + rewrite (Unmarshal_dispatch b Hb Hh) in H. apply dispatch_err; eauto.
    + destruct (Header_unmarshal_err b Hb Hh) as (h & e' & He & Hw).
      unfold Unmarshal in H. rewrite He in H. cbn [bind] in H. injection H as _ <-. assumption.
  - intros H. inversion H; subst; clear H.
    + unfold Unmarshal, Header_unmarshal.
      match goal with H : len b < 12 |- _ => apply N.ltb_lt in H; rewrite H end. eexists; reflexivity.
    + match goal with H : 12 <= len b |- _ => rename H into Hl end.
      destruct (split12 b Hl) as (i0 & i1 & i2 & i3 & i4 & i5 & i6 & i7 & o0 & o1 & v0 & v1 & r & ->).
      bok Hb. unfold Unmarshal. rewrite Header_unmarshal_eq, Header_validate_eq by assumption.
      match goal with H : firstn 8 _ <> magic |- _ => rename H into Hm end. cbn [firstn] in Hm.
      destruct (eqbytes _ magic) eqn:Em; [ apply eqbytes_eq in Em; contradiction | ].
      eexists; reflexivity.
    + match goal with H : 12 <= len b |- _ => rename H into Hl end.
      match goal with H : firstn 8 _ = magic |- _ => rename H into Hm end.
      destruct (split12 b Hl) as (i0 & i1 & i2 & i3 & i4 & i5 & i6 & i7 & o0 & o1 & v0 & v1 & r & ->).
      unfold wire_opcode, wire_version in *. cbn [nth firstn] in *.
      bok Hb. unfold byte_ok in *. unfold Unmarshal. rewrite Header_unmarshal_eq, Header_validate_eq by assumption.
      rewrite Hm. change (eqbytes magic magic) with true. cbn match.
      destruct (N.eqb_spec (o0 + 256 * o1) 0x2100); [ contradiction | ].
      destruct (N.eqb_spec (256 * o0 + o1) 0x2100); [ lia | ].
      cbn [nth]. match goal with H : v1 < 14 |- _ => apply N.ltb_lt in H; rewrite H end.
      eexists; reflexivity.
    + match goal with H : 12 <= len b |- _ => rename H into Hl end.
      match goal with H : firstn 8 _ = magic |- _ => rename H into Hm end.
      destruct (split12 b Hl) as (i0 & i1 & i2 & i3 & i4 & i5 & i6 & i7 & o0 & o1 & v0 & v1 & r & ->).
      unfold wire_opcode, wire_version in *. cbn [nth firstn] in *.
      bok Hb. unfold byte_ok in *. unfold Unmarshal. rewrite Header_unmarshal_eq, Header_validate_eq by assumption.
      rewrite Hm. change (eqbytes magic magic) with true. cbn match.
      destruct (N.eqb_spec (o0 + 256 * o1) 0x2100); [ lia | ].
      destruct (N.eqb_spec (256 * o0 + o1) 0x2100); [ | lia ].
      eexists; reflexivity.
    + match goal with H : header_ok b |- _ => rename H into Hh end.
      match goal with H : wire_opcode b = _ |- _ => rename H into Ho end.
      rewrite (Unmarshal_dispatch b Hb Hh). unfold op_input in *. dispatch_to Ho. eexists; reflexivity.
    + match goal with H : header_ok b |- _ => rename H into Hh end.
      match goal with H : In _ _ |- _ => rename H into Ho end.
      rewrite (Unmarshal_dispatch b Hb Hh). cbn [ops_unsupported In] in Ho.
      repeat (destruct Ho as [Ho|Ho];
        [ symmetry in Ho; dispatch_to Ho;
          match goal with |- context [existsb ?f ?l] => change (existsb f l) with true end;
          eexists; reflexivity | ]).
      destruct Ho.
    + match goal with H : header_ok b |- _ => rename H into Hh end.
      match goal with H : ~ In _ _ |- _ => rename H into Ho end.
      rewrite (Unmarshal_dispatch b Hb Hh). unfold dispatch.
      assert (Hne : forall op, In op ops_documented -> (wire_opcode b =? op) = false).
      { intros op Hin. apply N.eqb_neq. intros E. rewrite E in Ho. contradiction. }
      rewrite !Hne by (cbv; tauto).
      destruct (existsb (N.eqb (wire_opcode b)) notImplementedOps) eqn:EX; [ | eexists; reflexivity ].
      exfalso. apply Ho. apply notImplementedOps_iff in EX. unfold ops_documented.
      apply in_or_app. right. right. assumption.
    + match goal with H : header_ok b |- _ => rename H into Hh end.
      match goal with H : fixed_size _ _ |- _ => rename H into Hf end.
      match goal with H : len b < n |- _ => rename H into Hl end. apply N.ltb_lt in Hl.
      rewrite (Unmarshal_dispatch b Hb Hh).
      remember (wire_opcode b) as op eqn:Ho.
      destruct Hf; symmetry in Ho; unfold dispatch; eval_ifs; cbn [UnmarshalBinary].
      * outcome_tac Poll_outcome. rewrite Hl. eexists; reflexivity.
      * outcome_tac PollReply_outcome. rewrite Hl. eexists; reflexivity.
      * outcome_tac DiagData_outcome. rewrite Hl. eexists; reflexivity.
      * outcome_tac Command_outcome. rewrite Hl. eexists; reflexivity.
      * outcome_tac Nzs_outcome. rewrite Hl. eexists; reflexivity.
      * outcome_tac Sync_outcome. rewrite Hl. eexists; reflexivity.
      * outcome_tac Address_outcome. rewrite Hl. eexists; reflexivity.
      * outcome_tac TimeCode_outcome. rewrite Hl. eexists; reflexivity.
      * outcome_tac Trigger_outcome. rewrite Hl. eexists; reflexivity.
      * outcome_tac IPProg_outcome. rewrite Hl. eexists; reflexivity.
      * outcome_tac IPProgReply_outcome. rewrite Hl. eexists; reflexivity.
    + match goal with H : header_ok b |- _ => rename H into Hh end.
      match goal with H : wire_opcode b = _ |- _ => rename H into Ho end.
      match goal with H : len b < 18 |- _ => rename H into Hl end. apply N.ltb_lt in Hl.
      rewrite (Unmarshal_dispatch b Hb Hh). dispatch_to Ho. outcome_tac DMX_outcome. rewrite Hl.
      eexists; reflexivity.
    + match goal with H : header_ok b |- _ => rename H into Hh end.
      match goal with H : wire_opcode b = _ |- _ => rename H into Ho end.
      match goal with H : 18 <= len b |- _ => rename H into Hl end. apply N.ltb_ge in Hl.
      rewrite (Unmarshal_dispatch b Hb Hh). dispatch_to Ho. outcome_tac DMX_outcome. rewrite Hl.
      replace (dmx_len_bad _ _) with true; [ eexists; reflexivity | ].
      symmetry. unfold dmx_len_bad. rewrite !orb_true_iff, !N.ltb_lt. tauto.
    + match goal with H : header_ok b |- _ => rename H into Hh end.
      match goal with H : wire_opcode b = _ |- _ => rename H into Ho end.
      match goal with H : 528 <= len b |- _ => rename H into Hl end. apply N.ltb_ge in Hl.
      rewrite (Unmarshal_dispatch b Hb Hh). dispatch_to Ho. outcome_tac Command_outcome. rewrite Hl.
      replace ((nth 12 b 0 =? 255) && (nth 13 b 0 =? 255)) with false; [ eexists; reflexivity | ].
      symmetry. apply andb_false_iff. rewrite !N.eqb_neq. tauto.
    + match goal with H : header_ok b |- _ => rename H into Hh end.
      match goal with H : wire_opcode b = _ |- _ => rename H into Ho end.
      match goal with H : 239 <= len b |- _ => rename H into Hl end. apply N.ltb_ge in Hl.
      rewrite (Unmarshal_dispatch b Hb Hh). dispatch_to Ho. outcome_tac PollReply_outcome. rewrite Hl.
      unfold reply_error. change (negb (0x00 + 256 * 0x21 =? 0x2100)) with false. cbn match.
      pose proof (bytes_ok_nth b 14 Hb) as B14. pose proof (bytes_ok_nth b 15 Hb) as B15. unfold byte_ok in *.
      replace ((nth 14 b 0 + 256 * nth 15 b 0 =? 6454) || (256 * nth 14 b 0 + nth 15 b 0 =? 6454)) with false;
        [ eexists; reflexivity | ].
      symmetry. apply orb_false_iff. rewrite !N.eqb_neq. lia.
    + match goal with H : header_ok b |- _ => rename H into Hh end.
      match goal with H : wire_opcode b = _ |- _ => rename H into Ho end.
      match goal with H : 239 <= len b |- _ => rename H into Hl end. apply N.ltb_ge in Hl.
      rewrite (Unmarshal_dispatch b Hb Hh). dispatch_to Ho. outcome_tac PollReply_outcome. rewrite Hl.
      unfold reply_error. change (negb (0x00 + 256 * 0x21 =? 0x2100)) with false. cbn match.
      pose proof (bytes_ok_nth b 14 Hb) as B14. pose proof (bytes_ok_nth b 15 Hb) as B15. unfold byte_ok in *.
      replace ((nth 14 b 0 + 256 * nth 15 b 0 =? 6454) || (256 * nth 14 b 0 + nth 15 b 0 =? 6454)) with true.
      2:{ symmetry. apply orb_true_iff. rewrite !N.eqb_eq. lia. }
      match goal with H : 6 < nth 200 b 0 |- _ => apply N.leb_gt in H; rewrite H end.
      eexists; reflexivity.
Qed.
