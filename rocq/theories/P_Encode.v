(** Properties C01, C02, C05-C07, C09-C12, C20: encoding and round trips. *)
From Verif Require Export EncodeFacts.
Open Scope N_scope.

(** ** C01 *)
Theorem C01_dmx_encoding_exact : forall p, wf_DMX p ->
  snd (DMX_MarshalBinary p) =
    Ok ([65; 114; 116; 45; 78; 101; 116; 0; 0x00; 0x50; 0; 14;
         DMX_Sequence p; DMX_Physical p; DMX_SubUni p; DMX_Net p; 0x02; 0x00] ++ DMX_Data p) /\
  (forall b, snd (DMX_MarshalBinary p) = Ok b -> len b = 530).
Proof.
  intros p H. pose proof (marshal_bytes (PktDMX p) H) as E. cbn in E. unfold dmx_bytes in E.
  split; [ exact E | ]. cbn. intros b Hb. rewrite E in Hb. injection Hb as <-.
  cbn [magic app]. rewrite !len_cons. unfold wf_DMX, array_ok in H.
  replace (len (DMX_Data p)) with 512 by (symmetry; tauto). reflexivity.
Qed.

(** Stale header and Length contents do not influence the bytes. *)
Theorem C01_dmx_stale_header_irrelevant : forall p h l,
  snd (DMX_MarshalBinary (mkDMX h (DMX_Sequence p) (DMX_Physical p) (DMX_SubUni p) (DMX_Net p) l (DMX_Data p))) =
  snd (DMX_MarshalBinary p).
Proof. reflexivity. Qed.

Definition sample_dmx : ArtDMXPacket :=
  mkDMX (mkHeader (zeros 8) 77 [9; 9]) 63 1 0x21 5 3 ([255; 254; 253] ++ zeros 509).
Example sample_dmx_wf : wf_DMX sample_dmx.
Proof.
  unfold wf_DMX, wf_Header, array_ok, sample_dmx. cbn [DMX_Header DMX_Sequence DMX_Physical DMX_SubUni
    DMX_Net DMX_Length DMX_Data H_ID H_OpCode H_Version].
  repeat split; first [ apply bytes_ok_zeros | reflexivity | idtac ].
  - repeat constructor.
  - apply bytes_ok_app. split; [ repeat constructor | apply bytes_ok_zeros ].
Qed.
Example C01_ex : exists b, snd (DMX_MarshalBinary sample_dmx) = Ok b /\
  firstn 21 b = [65; 114; 116; 45; 78; 101; 116; 0; 0; 0x50; 0; 14; 63; 1; 0x21; 5; 2; 0; 255; 254; 253].
Proof. eexists. split; reflexivity. Qed.

(** ** C02 *)
Theorem C02_dmx_round_trip : forall p, wf_DMX p ->
  exists b q, snd (DMX_MarshalBinary p) = Ok b /\ Unmarshal b = Ret (Some (PktDMX q), None) /\
    DMX_Sequence q = DMX_Sequence p /\ DMX_Physical q = DMX_Physical p /\ DMX_SubUni q = DMX_SubUni p /\
    DMX_Net q = DMX_Net p /\ DMX_Data q = DMX_Data p /\ DMX_Length q = 512 /\
    GetOpCode (PktDMX q) = 0x5000 /\ DMX_Header q = mkHeader magic 0x5000 [0; 14].
Proof.
  intros p H. destruct (marshal_unmarshal (PktDMX p) H I) as (b & Hm & _ & _ & Hu).
  destruct p as [h a c d e f g]. cbn [canonical] in Hu.
  eexists b, _. split; [ exact Hm | ]. split; [ exact Hu | ]. repeat split.
Qed.
Example C02_ex : wf_DMX sample_dmx.
Proof. exact sample_dmx_wf. Qed.

(** ** C05 *)
Theorem C05_poll_encoding_and_round_trip : forall p, wf_Poll p ->
  snd (Poll_MarshalBinary p) =
    Ok [65; 114; 116; 45; 78; 101; 116; 0; 0x00; 0x20; 0; 14; Poll_TalkToMe p; Poll_Priority p] /\
  (forall b, snd (Poll_MarshalBinary p) = Ok b ->
     Unmarshal b = Ret (Some (PktPoll (mkPoll (mkHeader magic 0x2000 [0; 14]) (Poll_TalkToMe p) (Poll_Priority p))), None)).
Proof.
  intros p H. split; [ reflexivity | ]. intros b Hb.
  destruct (marshal_unmarshal (PktPoll p) H I) as (b' & Hm & _ & _ & Hu).
  cbn [MarshalBinary] in Hm. destruct (Poll_MarshalBinary p) as [p' r]. cbn [snd] in *.
  destruct p as [h a c]. cbn [canonical] in Hu. rewrite Hb in Hm. injection Hm as ->. exact Hu.
Qed.
Example C05_ex : wf_Poll (mkPoll Header_zero 2 0x80).
Proof. repeat split; try reflexivity; apply bytes_ok_zeros. Qed.

(** ** C06 *)
Theorem C06_pollreply_encoding_exact : forall p, wf_PollReply p ->
  snd (PollReply_MarshalBinary p) = Ok (pollreply_bytes p) /\ len (pollreply_bytes p) = 239.
Proof.
  intros p H. split; [ exact (marshal_bytes (PktPollReply p) H) | ].
  unfold wf_PollReply in H. unfold pollreply_bytes, magic, be16, le16. use_wf.
  repeat rewrite ?len_app, ?len_cons, ?len_nil.
  repeat match goal with E : len _ = _ |- _ => rewrite E; clear E end. reflexivity.
Qed.
(** A reply with a distinct value in every field, its bytes spelled out. *)
Definition sample_reply : ArtPollReplyPacket :=
  mkPollReply (zeros 8) 0 [192; 168; 1; 20] 6454 0x0102 3 4 0x0506 7 8 [9; 10]
    ([83; 104] ++ zeros 16) ([76] ++ zeros 63) ([35] ++ zeros 63) 0x0004
    [0x80; 0x81; 0x82; 0x83] [20; 21; 22; 23] [30; 31; 32; 33] [1; 2; 3; 4] [5; 6; 7; 8]
    40 41 42 1 [50; 51; 52; 53; 54; 55] [10; 0; 0; 1] 60 61.
Example sample_reply_wf : wf_PollReply sample_reply.
Proof.
  unfold wf_PollReply, sample_reply, array_ok.
  cbn [PollReply_ID PollReply_OpCode PollReply_IPAddress PollReply_Port PollReply_VersionInfo
      PollReply_NetSwitch PollReply_SubSwitch PollReply_Oem PollReply_UBEAVersion PollReply_Status1
      PollReply_ESTAmanufacturer PollReply_ShortName PollReply_LongName PollReply_NodeReport
      PollReply_NumPorts PollReply_PortTypes PollReply_GoodInput PollReply_GoodOutput PollReply_SwIn
      PollReply_SwOut PollReply_SwVideo PollReply_SwMacro PollReply_SwRemote PollReply_Style
      PollReply_Macaddress PollReply_BindIP PollReply_BindIndex PollReply_Status2].
  repeat split; try reflexivity; try apply bytes_ok_zeros; try (repeat constructor; fail).
Qed.
Example C06_ex : snd (PollReply_MarshalBinary sample_reply) = Ok (
  [65; 114; 116; 45; 78; 101; 116; 0; 0x00; 0x21; 192; 168; 1; 20; 0x36; 0x19; 1; 2; 3; 4; 5; 6; 7; 8; 9; 10]
  ++ [83; 104] ++ zeros 16 ++ [76] ++ zeros 63 ++ [35] ++ zeros 63 ++ [0; 4] ++ [0x80; 0x81; 0x82; 0x83]
  ++ [20; 21; 22; 23] ++ [30; 31; 32; 33] ++ [1; 2; 3; 4] ++ [5; 6; 7; 8] ++ [40; 41; 42; 0; 0; 0; 1]
  ++ [50; 51; 52; 53; 54; 55] ++ [10; 0; 0; 1] ++ [60; 61] ++ zeros 26).
Proof. vm_compute. reflexivity. Qed.

(** ** C07 *)
Theorem C07_pollreply_round_trip : forall p, wf_PollReply p ->
  PollReply_Port p = 6454 -> PollReply_Style p <= 6 ->
  exists b, snd (PollReply_MarshalBinary p) = Ok b /\
    Unmarshal b = Ret (Some (PktPollReply (PollReply_set p magic 0x2100 6454)), None).
Proof.
  intros p H Hp Hs. destruct (marshal_unmarshal (PktPollReply p) H (conj Hp Hs)) as (b & Hm & _ & _ & Hu).
  exists b. split; [ exact Hm | ]. destruct p. exact Hu.
Qed.
Example C07_ex : PollReply_Port sample_reply = 6454 /\ PollReply_Style sample_reply <= 6 /\ wf_PollReply sample_reply.
Proof. split; [ reflexivity | ]. split; [ discriminate | exact sample_reply_wf ]. Qed.

(** ** C09 *)
(** The nine types other than ArtPoll, ArtPollReply and ArtDmx. *)
Definition other_nine (p : packet) : Prop :=
  match p with PktPoll _ | PktPollReply _ | PktDMX _ => False | _ => True end.

Theorem C09_other_types_round_trip : forall p, wf_packet p -> other_nine p ->
  GetOpCode p = packet_opcode p ->
  exists b, snd (MarshalBinary p) = Ok b /\ b = packet_bytes p /\
    Unmarshal b = Ret (Some (canonical p), None).
Proof.
  intros p H Hn Ho.
  assert (He : encodable p) by (destruct p; cbn in Hn; try contradiction; exact Ho).
  destruct (marshal_unmarshal p H He) as (b & Hm & Hb & _ & Hu). eauto.
Qed.
Definition sample_trigger : packet :=
  PktTrigger (mkTrigger (mkHeader (zeros 8) 0x9900 (zeros 2)) 0x1234 3 4 (zeros 512)).
Example C09_ex : wf_packet sample_trigger /\ other_nine sample_trigger /\
  GetOpCode sample_trigger = packet_opcode sample_trigger.
Proof. repeat split; try reflexivity; apply bytes_ok_zeros. Qed.
Example C09_ex_bytes : exists b, snd (MarshalBinary sample_trigger) = Ok b /\
  firstn 19 b = [65; 114; 116; 45; 78; 101; 116; 0; 0; 0x99; 0; 14; 0; 0; 0x12; 0x34; 3; 4; 0].
Proof. eexists. split; reflexivity. Qed.

(** ** C10 *)
(** Refuted: whatever else is set, a packet of one of the nine types whose OpCode field was left as
    its constructor made it encodes to a datagram that Unmarshal rejects. *)
Theorem C10_constructor_opcode_refuted : forall p, wf_packet p -> other_nine p -> GetOpCode p = 0 ->
  exists b, snd (MarshalBinary p) = Ok b /\ Unmarshal b = Ret (None, Some (errInvalidOpCodeOf 0)).
Proof.
  intros p H Hn Ho. exists (packet_bytes p). split; [ apply marshal_bytes; assumption | ].
  assert (Hb : bytes_ok (packet_bytes p)) by (apply packet_bytes_ok; assumption).
  assert (E : exists r, packet_bytes p = magic ++ [0; 0; 0; 14] ++ r).
  { destruct p; cbn in Hn; try contradiction; cbn in Ho |- *; unfold Header_GetOpCode in Ho; rewrite Ho; eexists; reflexivity. }
  destruct E as [r E]. rewrite E in *.
  rewrite Unmarshal_dispatch; [ reflexivity | assumption | ].
  split; [ | split; [ reflexivity | ] ].
  - rewrite !len_app. change (len magic) with 8. change (len [0;0;0;14]) with 4. lia.
  - right. split; [ discriminate | cbn; lia ].
Qed.
Theorem C10_constructor_opcode_refuted_all :
  Forall (fun p => wf_packet p /\ other_nine p /\ GetOpCode p = 0)
    [ PktDiagData NewArtDiagDataPacket; PktCommand NewArtCommandPacket; PktNzs NewArtNzsPacket;
      PktSync NewArtSyncPacket; PktAddress NewArtAddressPacket; PktTimeCode NewArtTimeCodePacket;
      PktTrigger NewArtTriggerPacket; PktIPProg NewArtIPProgPacket; PktIPProgReply NewArtIPProgReplyPacket ].
Proof.
  repeat (apply Forall_cons; [ repeat split; first [ apply bytes_ok_zeros | reflexivity ] | ]). apply Forall_nil.
Qed.
(** What holds: ArtPoll and ArtDmx get their opcode from MarshalBinary, whatever their fields. *)
Theorem C10_constructor_opcode_partial : forall p, wf_packet p ->
  match p with PktPoll _ | PktDMX _ => True
             | PktPollReply r => PollReply_Port r = 6454 /\ PollReply_Style r <= 6
             | _ => False end ->
  exists b q, snd (MarshalBinary p) = Ok b /\ Unmarshal b = Ret (Some q, None) /\
    packet_opcode q = packet_opcode p.
Proof.
  intros p H Hp. assert (He : encodable p) by (destruct p; cbn in Hp; try contradiction; exact Hp).
  destruct (marshal_unmarshal p H He) as (b & Hm & _ & _ & Hu).
  exists b, (canonical p). repeat split; try assumption.
  destruct p as [p|p|p|p|p|p|p|p|p|p|p|p]; destruct p; reflexivity.
Qed.
Example C10_ex : wf_packet (PktDMX NewArtDMXPacket).
Proof. repeat split; try reflexivity; apply bytes_ok_zeros. Qed.

(** ** C11 *)
(** The outputs of n successive MarshalBinary calls on the same packet object. *)
Fixpoint marshal_n (n : nat) (p : packet) : list (res (list N)) :=
  match n with O => [] | S n => snd (MarshalBinary p) :: marshal_n n (fst (MarshalBinary p)) end.

Theorem C11_marshal_repeatable_refuted : forall p, wf_packet p -> encodable p ->
  match p with PktPoll _ | PktDMX _ => False | _ => True end ->
  exists b1 b2, marshal_n 2 p = [Ok b1; Ok b2] /\ b1 <> b2.
Proof.
  intros p H He Hn.
  destruct p as [p|p|p|p|p|p|p|p|p|p|p|p]; cbn in Hn; try contradiction; cbn in He;
  destruct p as [h];
  try (destruct h as [i o v]; cbn in He; subst o; do 2 eexists; split; [ reflexivity | ];
       intros E; apply (f_equal (fun l => nth 8 l 0)) in E; cbn in E; discriminate E).
  cbn in He. destruct He as [-> He]. cbn in H.
  destruct H as (_ & _ & Hip & _). apply proj1 in Hip. apply len_nat in Hip.
  rename PollReply_IPAddress into ip.
  do 4 (destruct ip as [|? ip]; [ discriminate Hip | ]). destruct ip; [ | discriminate Hip ].
  do 2 eexists; split; [ reflexivity | ].
  intros E. apply (f_equal (fun l => nth 14 l 0)) in E. cbn in E. discriminate E.
Qed.
Example C11_refuted_witness : wf_packet sample_trigger /\ encodable sample_trigger.
Proof. split; [ apply C09_ex | reflexivity ]. Qed.

(** What holds: ArtPoll and ArtDmx are repeatable any number of times; every type's output has
    period two. *)
Theorem C11_marshal_repeatable_partial : forall p n,
  match p with PktPoll _ | PktDMX _ => True | _ => False end -> wf_packet p ->
  marshal_n n p = repeat (Ok (packet_bytes p)) n.
Proof.
  intros p n Hp H.
  assert (G : forall m q, snd (MarshalBinary q) = Ok (packet_bytes p) ->
            match q with PktPoll _ | PktDMX _ => True | _ => False end ->
            marshal_n m q = repeat (Ok (packet_bytes p)) m).
  { induction m as [|m IH]; intros q Hq Hk; [ reflexivity | ]. cbn [marshal_n repeat]. f_equal; [ assumption | ].
    apply IH; destruct q; cbn in Hk |- *; try contradiction; exact I || exact Hq. }
  apply G; [ apply marshal_bytes; assumption | assumption ].
Qed.

Lemma swap_u16 x : swapUint16 (swapUint16 (swapUint16 x)) = swapUint16 x.
Proof. apply swap_swap. apply swap_word. Qed.

Theorem C11_marshal_period_two_partial : forall p a b c,
  marshal_n 3 p = [a; b; c] -> c = a.
Proof.
  intros p a b c H. cbn [marshal_n] in H. injection H as <- _ <-.
  destruct p as [p|p|p|p|p|p|p|p|p|p|p|p];
    cbv [MarshalBinary marshalPacket Poll_MarshalBinary PollReply_MarshalBinary DiagData_MarshalBinary Command_MarshalBinary DMX_MarshalBinary Nzs_MarshalBinary Sync_MarshalBinary Address_MarshalBinary TimeCode_MarshalBinary Trigger_MarshalBinary IPProg_MarshalBinary IPProgReply_MarshalBinary]; cbn [fst snd];
    match goal with |- Ok (binary_write _ (_ (?f (?f (?f ?p))))) = _ => replace (f (f (f p))) with (f p) end;
    try reflexivity; destruct p;
    cbv [Poll_finish PollReply_finish DiagData_finish Command_finish DMX_finish Nzs_finish Sync_finish Address_finish TimeCode_finish Trigger_finish IPProg_finish IPProgReply_finish Header_finish Header_swapOpCode PollReply_set Poll_set_Header DiagData_set_Header Command_set_Header DMX_set_Header Nzs_set_Header Sync_set_Header Address_set_Header TimeCode_set_Header Trigger_set_Header IPProg_set_Header IPProgReply_set_Header];
    cbn - [swapUint16]; rewrite ?swap_u16; reflexivity.
Qed.

(** ** C12 *)
Theorem C12_marshal_disturbs_refuted : forall p, wf_packet p -> encodable p ->
  GetOpCode p = packet_opcode p -> GetOpCode (fst (MarshalBinary p)) <> GetOpCode p.
Proof.
  intros p H He Ho.
  destruct p as [p|p|p|p|p|p|p|p|p|p|p|p]; cbn in Ho |- *; unfold Header_GetOpCode, PollReply_GetOpCode in *; rewrite Ho; discriminate.
Qed.
Theorem C12_marshal_disturbs_port_refuted : forall p, PollReply_Port p = 6454 ->
  PollReply_Port (fst (PollReply_MarshalBinary p)) = 0x3619.
Proof. intros p H. cbn. rewrite H. reflexivity. Qed.
Example C12_ex : GetOpCode sample_trigger = packet_opcode sample_trigger /\ encodable sample_trigger.
Proof. split; reflexivity. Qed.

(** What holds: every field outside the header (and the ones Art-Net fixes) is untouched, and
    marshalling twice restores the opcode and the port. *)
Theorem C12_marshal_keeps_payload_partial : forall p,
  canonical (fst (MarshalBinary p)) = canonical p.
Proof. intros p. destruct p as [p|p|p|p|p|p|p|p|p|p|p|p]; destruct p; reflexivity. Qed.
(** ... and the name of the concrete fields for an ArtDmx. *)
Theorem C12_dmx_fields_kept_partial : forall p,
  let q := fst (DMX_MarshalBinary p) in
  DMX_Sequence q = DMX_Sequence p /\ DMX_Physical q = DMX_Physical p /\ DMX_SubUni q = DMX_SubUni p /\
  DMX_Net q = DMX_Net p /\ DMX_Data q = DMX_Data p /\ DMX_Length q = 512.
Proof. intros p. repeat split. Qed.

(** ** C20 *)
(** p with its version set to 0.14 and, for an ArtDmx, Length 512; nothing else changed. *)
Definition reversion (p : packet) : packet :=
  let h q := mkHeader (H_ID q) (H_OpCode q) [0; 14] in
  match p with
  | PktPoll (mkPoll q a b) => PktPoll (mkPoll (h q) a b)
  | PktPollReply r => PktPollReply r
  | PktDiagData (mkDiagData q a b c) => PktDiagData (mkDiagData (h q) a b c)
  | PktCommand (mkCommand q a b c) => PktCommand (mkCommand (h q) a b c)
  | PktDMX (mkDMX q a b c d _ e) => PktDMX (mkDMX (h q) a b c d 512 e)
  | PktNzs (mkNzs q a b c d e f) => PktNzs (mkNzs (h q) a b c d e f)
  | PktSync (mkSync q) => PktSync (mkSync (h q))
  | PktAddress (mkAddress q a b c d e f g i j) => PktAddress (mkAddress (h q) a b c d e f g i j)
  | PktTimeCode (mkTimeCode q a b c d e) => PktTimeCode (mkTimeCode (h q) a b c d e)
  | PktTrigger (mkTrigger q a b c d) => PktTrigger (mkTrigger (h q) a b c d)
  | PktIPProg (mkIPProg q a b c d) => PktIPProg (mkIPProg (h q) a b c d)
  | PktIPProgReply (mkIPProgReply q a b c d) => PktIPProgReply (mkIPProgReply (h q) a b c d)
  end.

Theorem C20_reencoding_canonical : forall b p, bytes_ok b ->
  Unmarshal b = Ret (Some p, None) ->
  exists b', snd (MarshalBinary p) = Ok b' /\ Unmarshal b' = Ret (Some (reversion p), None).
Proof.
  intros b p Hb H. apply Unmarshal_accepts in H; [ | assumption ].
  destruct (accepted_wf b p Hb H) as [Hw He].
  destruct (marshal_unmarshal p Hw He) as (b' & Hm & _ & _ & Hu).
  exists b'. split; [ exact Hm | ].
  replace (reversion p) with (canonical p); [ exact Hu | ]. destruct H; reflexivity.
Qed.
(** A version 15 ArtDmx frame of two channels with trailing bytes. *)
Example C20_ex : exists p,
  Unmarshal (magic ++ [0; 0x50; 1; 15; 7; 0; 3; 4; 0; 2; 200; 100; 9; 9; 9]) = Ret (Some p, None).
Proof. eexists. vm_compute. reflexivity. Qed.

(** Axioms used by any of the theorems above (expected: none). *)
Definition P_Encode_theorems :=
  (C01_dmx_encoding_exact,
   C01_dmx_stale_header_irrelevant,
   C02_dmx_round_trip,
   C05_poll_encoding_and_round_trip,
   C06_pollreply_encoding_exact,
   C07_pollreply_round_trip,
   C09_other_types_round_trip,
   C10_constructor_opcode_refuted,
   C10_constructor_opcode_refuted_all,
   C10_constructor_opcode_partial,
   C11_marshal_repeatable_refuted,
   C11_marshal_repeatable_partial,
   C11_marshal_period_two_partial,
   C12_marshal_disturbs_refuted,
   C12_marshal_disturbs_port_refuted,
   C12_marshal_keeps_payload_partial,
   C12_dmx_fields_kept_partial,
   C20_reencoding_canonical).
Print Assumptions P_Encode_theorems.
