(** MarshalBinary against the wire specification. *)
From Verif Require Export DispatchFacts.
Open Scope N_scope.

Lemma be16_put x : word_ok x -> put16 x = be16 x.
Proof. apply put16_eq. Qed.

#[local] Arguments put16 : simpl never.
#[local] Arguments swapUint16 : simpl never.
#[local] Arguments zeros : simpl never.

Lemma marshal_bytes p : wf_packet p -> snd (MarshalBinary p) = Ok (packet_bytes p).
Proof.
  destruct p as [p|p|p|p|p|p|p|p|p|p|p|p]; cbn [wf_packet packet_bytes]; intros H.
  - destruct p as [[? ? ?] ? ?]. reflexivity.
  - unfold wf_PollReply in H.
    cbv [MarshalBinary PollReply_MarshalBinary marshalPacket PollReply_finish PollReply_set]. cbn [snd]. f_equal.
    cbn [PollReply_layout PollReply_vals binary_write fst snd PollReply_ID PollReply_OpCode PollReply_IPAddress PollReply_Port PollReply_VersionInfo
      PollReply_NetSwitch PollReply_SubSwitch PollReply_Oem PollReply_UBEAVersion PollReply_Status1
      PollReply_ESTAmanufacturer PollReply_ShortName PollReply_LongName PollReply_NodeReport
      PollReply_NumPorts PollReply_PortTypes PollReply_GoodInput PollReply_GoodOutput PollReply_SwIn
      PollReply_SwOut PollReply_SwVideo PollReply_SwMacro PollReply_SwRemote PollReply_Style
      PollReply_Macaddress PollReply_BindIP PollReply_BindIndex PollReply_Status2].
    rewrite !put16_swap by first [ tauto | reflexivity ]. rewrite !be16_put by tauto.
    unfold pollreply_bytes. reflexivity.
  - destruct p as [[? ? ?] ? ? ?]. unfold wf_DiagData, wf_Header in H. cbn in H.
    cbn. rewrite put16_swap, be16_put by tauto. rewrite ?app_nil_r. reflexivity.
  - destruct p as [[? ? ?] ? ? ?]. unfold wf_Command, wf_Header in H. cbn in H.
    cbn. rewrite put16_swap, be16_put by tauto. rewrite ?app_nil_r. reflexivity.
  - destruct p as [[? ? ?] ? ? ? ? ? ?]. cbn. rewrite app_nil_r. reflexivity.
  - destruct p as [[? ? ?] ? ? ? ? ? ?]. unfold wf_Nzs, wf_Header in H. cbn in H.
    cbn. rewrite put16_swap, be16_put by tauto. rewrite ?app_nil_r. reflexivity.
  - destruct p as [[? ? ?]]. unfold wf_Sync, wf_Header in H. cbn in H.
    cbn. rewrite put16_swap by tauto. rewrite ?app_nil_r. reflexivity.
  - destruct p as [[? ? ?] ? ? ? ? ? ? ? ? ?]. unfold wf_Address, wf_Header in H. cbn in H.
    cbn. rewrite put16_swap by tauto. rewrite ?app_nil_r. reflexivity.
  - destruct p as [[? ? ?] ? ? ? ? ?]. unfold wf_TimeCode, wf_Header in H. cbn in H.
    cbn. rewrite put16_swap by tauto. rewrite ?app_nil_r. reflexivity.
  - destruct p as [[? ? ?] ? ? ? ?]. unfold wf_Trigger, wf_Header in H. cbn in H.
    cbn. rewrite put16_swap, be16_put by tauto. rewrite ?app_nil_r. reflexivity.
  - destruct p as [[? ? ?] ? ? ? ?]. unfold wf_IPProg, wf_Header in H. cbn in H.
    cbn. rewrite put16_swap by tauto. rewrite ?app_nil_r. reflexivity.
  - destruct p as [[? ? ?] ? ? ? ?]. unfold wf_IPProgReply, wf_Header in H. cbn in H.
    cbn. rewrite put16_swap by tauto. rewrite ?app_nil_r. reflexivity.
Qed.

Lemma be16_word x : word_ok x -> exists hi lo, be16 x = [hi; lo] /\ x = 256 * hi + lo /\ byte_ok hi /\ byte_ok lo.
Proof.
  intros H. exists (x / 256), (x mod 256). unfold word_ok, byte_ok in *. repeat split.
  - apply N.div_mod. discriminate.
  - apply N.div_lt_upper_bound; lia.
  - apply N.mod_lt. discriminate.
Qed.

Lemma be16_eq x : x = 256 * (x / 256) + x mod 256.
Proof. apply N.div_mod. discriminate. Qed.

Ltac use_wf :=
  repeat match goal with
  | H : _ /\ _ |- _ => destruct H
  | H : array_ok _ _ |- _ => destruct H
  end.

Lemma bytes_accepted p : wf_packet p -> encodable p -> wire_accepts (packet_bytes p) (canonical p).
Proof.
  destruct p as [p|p|p|p|p|p|p|p|p|p|p|p]; cbn [wf_packet packet_bytes encodable canonical]; intros H Ho.
  - destruct p as [[? ? ?] a c]. apply (WA_Poll 0 14 a c []). lia.
  - destruct p as [a0 a1 a2 a3 a4 a5 a6 a7 a8 a9 a10 a11 a12 a13 a14 a15 a16 a17 a18 a19 a20 a21 a22 a23 a24 a25 a26 a27].
    unfold wf_PollReply in H. cbn in H, Ho. destruct Ho as [-> Hs]. use_wf.
    eapply wire_eq; [ eapply (WA_PollReply a2 [0x36; 0x19] (a4 / 256) (a4 mod 256) a5 a6 (a7 / 256) (a7 mod 256)
      a8 a9 a10 a11 a12 a13 (a14 / 256) (a14 mod 256) a15 a16 a17 a18 a19 a20 a21 a22 [0;0;0] a23 a24 a25 a26 a27
      (zeros 26) []); try assumption; try reflexivity; auto | | ].
    + rewrite <- !be16_eq. reflexivity.
    + reflexivity.
  - destruct p as [[? ? ?] a c d]. unfold wf_DiagData in H. cbn in H, Ho. subst. use_wf.
    eapply wire_eq; [ apply (WA_DiagData 0 14 0 a 0 0 (c / 256) (c mod 256) d []); [ lia | assumption ] | | ].
    + rewrite <- be16_eq. reflexivity.
    + cbn. rewrite app_nil_r. reflexivity.
  - destruct p as [[? ? ?] a c d]. unfold wf_Command in H. cbn in H, Ho. subst. use_wf.
    eapply wire_eq; [ apply (WA_Command 0 14 (c / 256) (c mod 256) d []); [ lia | assumption ] | | ].
    + rewrite <- be16_eq. reflexivity.
    + cbn. rewrite app_nil_r. reflexivity.
  - destruct p as [[? ? ?] a c d e f g]. unfold wf_DMX in H. cbn in H. use_wf.
    eapply wire_eq; [ apply (WA_DMX 0 14 a c d e 2 0 g []) | | ];
      repeat match goal with H : len g = _ |- _ => rewrite H end;
      try lia; try reflexivity.
    + cbn [N.sub N.to_nat repeat]. rewrite app_nil_r. reflexivity.
    + cbn. rewrite app_nil_r. reflexivity.
  - destruct p as [[? ? ?] a c d e f g]. unfold wf_Nzs in H. cbn in H, Ho. subst. use_wf.
    eapply wire_eq; [ apply (WA_Nzs 0 14 a c d e (f / 256) (f mod 256) g []); [ lia | assumption ] | | ].
    + rewrite <- be16_eq. reflexivity.
    + cbn. rewrite app_nil_r. reflexivity.
  - destruct p as [[? ? ?]]. cbn in Ho. subst. apply (WA_Sync 0 14 0 0 []). lia.
  - destruct p as [[? ? ?] a c d e f g i j k]. unfold wf_Address in H. cbn in H, Ho. subst. use_wf.
    eapply wire_eq; [ apply (WA_Address 0 14 a c d e f g i j k []); [ lia | assumption .. ] | | ];
    reflexivity.
  - destruct p as [[? ? ?] a c d e f]. cbn in Ho. subst. apply (WA_TimeCode 0 14 0 0 a c d e f []). lia.
  - destruct p as [[? ? ?] a c d e]. unfold wf_Trigger in H. cbn in H, Ho. subst. use_wf.
    eapply wire_eq; [ apply (WA_Trigger 0 14 0 0 (a / 256) (a mod 256) c d e []); [ lia | assumption .. ] | | ].
    + rewrite <- be16_eq. reflexivity.
    + cbn. rewrite app_nil_r. reflexivity.
  - destruct p as [[? ? ?] a c d e]. unfold wf_IPProg in H. cbn in H, Ho. subst. use_wf.
    eapply wire_eq; [ apply (WA_IPProg 0 14 0 0 a 0 c d e [0;0;0;0;0;0;0;0] []); [ lia | try assumption; reflexivity .. ] | | ];
    reflexivity.
  - destruct p as [[? ? ?] a c d e]. unfold wf_IPProgReply in H. cbn in H, Ho. subst. use_wf.
    eapply wire_eq; [ apply (WA_IPProgReply 0 14 [0;0;0;0] a c d e [0;0;0;0;0;0;0] []); [ lia | try assumption; reflexivity .. ] | | ];
    reflexivity.
Qed.

Lemma div256_ok x : word_ok x -> byte_ok (x / 256).
Proof. unfold word_ok, byte_ok. intros. apply N.div_lt_upper_bound; lia. Qed.
Lemma mod256_ok x : byte_ok (x mod 256).
Proof. apply N.mod_lt. discriminate. Qed.

Lemma be16_ok x : word_ok x -> bytes_ok (be16 x).
Proof. intros H. repeat constructor; [ apply div256_ok; assumption | apply mod256_ok ]. Qed.
Lemma le16_ok x : word_ok x -> bytes_ok (le16 x).
Proof. intros H. repeat constructor; [ apply mod256_ok | apply div256_ok; assumption ]. Qed.

Ltac bytes_ok_tac :=
  repeat first
    [ apply Forall_nil
    | apply be16_ok; assumption | apply le16_ok; assumption
    | assumption
    | apply Forall_app; split
    | apply Forall_cons; [ first [ assumption | reflexivity ] | ] ].

Lemma packet_bytes_ok p : wf_packet p -> bytes_ok (packet_bytes p).
Proof.
  destruct p as [p|p|p|p|p|p|p|p|p|p|p|p]; cbn [wf_packet packet_bytes]; intros H.
  - unfold wf_Poll in H. use_wf. unfold poll_bytes, magic. bytes_ok_tac.
  - unfold wf_PollReply in H. use_wf. unfold pollreply_bytes, magic. bytes_ok_tac.
  - unfold wf_DiagData, wf_Header in H. use_wf. unfold diagdata_bytes, magic. bytes_ok_tac.
  - unfold wf_Command, wf_Header in H. use_wf. unfold command_bytes, magic. bytes_ok_tac.
  - unfold wf_DMX in H. use_wf. unfold dmx_bytes, magic. bytes_ok_tac.
  - unfold wf_Nzs, wf_Header in H. use_wf. unfold nzs_bytes, magic. bytes_ok_tac.
  - unfold wf_Sync, wf_Header in H. use_wf. unfold sync_bytes, magic. bytes_ok_tac.
  - unfold wf_Address, wf_Header in H. use_wf. unfold address_bytes, magic. bytes_ok_tac.
  - unfold wf_TimeCode, wf_Header in H. use_wf. unfold timecode_bytes, magic. bytes_ok_tac.
  - unfold wf_Trigger, wf_Header in H. use_wf. unfold trigger_bytes, magic. bytes_ok_tac.
  - unfold wf_IPProg, wf_Header in H. use_wf. unfold ipprog_bytes, magic. bytes_ok_tac.
  - unfold wf_IPProgReply, wf_Header in H. use_wf. unfold ipprogreply_bytes, magic. bytes_ok_tac.
Qed.

Theorem marshal_unmarshal p : wf_packet p -> encodable p ->
  exists b, snd (MarshalBinary p) = Ok b /\ b = packet_bytes p /\ bytes_ok b /\
            Unmarshal b = Ret (Some (canonical p), None).
Proof.
  intros H Ho. exists (packet_bytes p). split; [ apply marshal_bytes; assumption | ].
  split; [ reflexivity | ]. split; [ apply packet_bytes_ok; assumption | ].
  apply Unmarshal_accepts; [ apply packet_bytes_ok; assumption | apply bytes_accepted; assumption ].
Qed.

(** Every accepted datagram yields a packet value in the range of its Go types that can be
    marshalled again. *)
Ltac bok_all :=
  repeat match goal with
  | H : bytes_ok (_ ++ _) |- _ => apply bytes_ok_app in H; destruct H
  | H : bytes_ok (_ :: _) |- _ => apply bytes_ok_cons in H; destruct H
  end.

Lemma accepted_wf b p : bytes_ok b -> wire_accepts b p -> wf_packet p /\ encodable p.
Proof.
  intros Hb H. destruct H; unfold magic in Hb; bok_all;
    cbn [wf_packet encodable];
    unfold wf_Poll, wf_PollReply, wf_DiagData, wf_Command, wf_DMX, wf_Nzs, wf_Sync, wf_Address, wf_TimeCode,
      wf_Trigger, wf_IPProg, wf_IPProgReply, wf_Header;
    cbn - [array_ok word_ok byte_ok len N.add N.mul N.sub repeat app];
    unfold array_ok, word_ok, byte_ok in *;
    repeat split; try assumption; try reflexivity; try lia;
    try solve [ unfold bytes_ok, magic; bytes_ok_tac ].
  - rewrite len_app. fold (zeros (512 - len data)). rewrite len_zeros. lia.
  - apply bytes_ok_app. split; [ assumption | ]. apply bytes_ok_zeros.
Qed.

Lemma accepts_app b p s : wire_accepts b p -> wire_accepts (b ++ s) p.
Proof.
  intros H. destruct H; rewrite <- !app_assoc.
  - apply WA_Poll; assumption.
  - apply WA_PollReply; assumption.
  - apply WA_DiagData; assumption.
  - apply WA_Command; assumption.
  - apply WA_DMX; assumption.
  - apply WA_Nzs; assumption.
  - apply WA_Sync; assumption.
  - apply WA_Address; assumption.
  - apply WA_TimeCode; assumption.
  - apply WA_Trigger; assumption.
  - apply WA_IPProg; assumption.
  - apply WA_IPProgReply; assumption.
Qed.
