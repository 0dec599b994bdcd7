(** Properties C25-C30: code tables and status registers (package packet/code). *)
From Coq Require Import DecimalString DecimalN.
From Verif Require Export Codes.
Open Scope N_scope.

(** Exhaustive check over the 256 values of a Go uint8. *)
Definition all_bytes : list N := map N.of_nat (seq 0 256).
Lemma byte_cases (P : N -> bool) : forallb P all_bytes = true -> forall s, byte_ok s -> P s = true.
Proof.
  intros H s Hs. rewrite forallb_forall in H. apply H. unfold all_bytes, byte_ok in *.
  apply in_map_iff. exists (N.to_nat s). split; [ apply N2Nat.id | ]. apply in_seq. lia.
Qed.

(** ** C25 *)

(** The flag with documented bit number k: the setter sets bit k and no other, the getter reads it. *)
Definition flag_spec (f : N * (N -> bool -> N) * (N -> bool)) : Prop :=
  let '(k, set, get) := f in
  forall s, byte_ok s ->
    byte_ok (set s true) /\
    (forall j, N.testbit (set s true) j = if j =? k then true else N.testbit s j) /\
    get s = N.testbit s k /\ get (set s true) = true.

(** All flags with the bit numbers documented in the Art-Net field descriptions. *)
Definition all_flags : list (N * (N -> bool -> N) * (N -> bool)) :=
  [ (1, TalkToMe_WithReplyOnChange, TalkToMe_ReplyOnChange);
    (2, TalkToMe_WithDiagnostics, TalkToMe_Diagnostics);
    (3, TalkToMe_WithDiagUnicast, TalkToMe_DiagUnicast);
    (4, TalkToMe_WithVLC, TalkToMe_VLC);
    (6, PortType_WithInput, PortType_Input);
    (7, PortType_WithOutput, PortType_Output);
    (2, GoodInput_WithReceive, GoodInput_Receive);
    (3, GoodInput_WithDisabled, GoodInput_Disabled);
    (4, GoodInput_WithText, GoodInput_Text);
    (5, GoodInput_WithSIP, GoodInput_SIP);
    (6, GoodInput_WithTest, GoodInput_Test);
    (7, GoodInput_WithData, GoodInput_Data);
    (0, GoodOutput_WithACN, GoodOutput_ACN);
    (1, GoodOutput_WithLTP, GoodOutput_LTP);
    (2, GoodOutput_WithOutput, GoodOutput_Output);
    (3, GoodOutput_WithMerging, GoodOutput_Merging);
    (4, GoodOutput_WithText, GoodOutput_Text);
    (5, GoodOutput_WithSIP, GoodOutput_SIP);
    (6, GoodOutput_WithTest, GoodOutput_Test);
    (7, GoodOutput_WithData, GoodOutput_Data);
    (0, Status1_WithUBEA, Status1_UBEA);
    (1, Status1_WithRDM, Status1_RDM);
    (2, Status1_WithBootROM, Status1_BootROM);
    (0, Status2_WithBrowser, Status2_Browser);
    (1, Status2_WithDHCP, Status2_DHCP);
    (2, Status2_WithDHCPCapable, Status2_DHCPCapable);
    (3, Status2_WithPort15, Status2_Port15);
    (4, Status2_WithSwitch, Status2_Switch);
    (5, Status2_WithSquawk, Status2_Squawk);
    (0, SwMacro_WithMacro1, SwMacro_Macro1);
    (1, SwMacro_WithMacro2, SwMacro_Macro2);
    (2, SwMacro_WithMacro3, SwMacro_Macro3);
    (3, SwMacro_WithMacro4, SwMacro_Macro4);
    (4, SwMacro_WithMacro5, SwMacro_Macro5);
    (5, SwMacro_WithMacro6, SwMacro_Macro6);
    (6, SwMacro_WithMacro7, SwMacro_Macro7);
    (7, SwMacro_WithMacro8, SwMacro_Macro8);
    (0, SwRemote_WithRemote1, SwRemote_Remote1);
    (1, SwRemote_WithRemote2, SwRemote_Remote2);
    (2, SwRemote_WithRemote3, SwRemote_Remote3);
    (3, SwRemote_WithRemote4, SwRemote_Remote4);
    (4, SwRemote_WithRemote5, SwRemote_Remote5);
    (5, SwRemote_WithRemote6, SwRemote_Remote6);
    (6, SwRemote_WithRemote7, SwRemote_Remote7);
    (7, SwRemote_WithRemote8, SwRemote_Remote8) ].

Lemma bit_const k : k < 8 -> u8 (N.shiftl 1 k) = 2 ^ k.
Proof.
  intros H. rewrite N.shiftl_1_l. unfold u8. apply N.mod_small.
  change 256 with (2 ^ 8). apply N.pow_lt_mono_r; lia.
Qed.

Lemma lor_pow_bits s k j : N.testbit (N.lor s (2 ^ k)) j = if j =? k then true else N.testbit s j.
Proof.
  rewrite N.lor_spec, N.pow2_bits_eqb, N.eqb_sym.
  destruct (j =? k); [ apply orb_true_r | apply orb_false_r ].
Qed.

Lemma get_bit_eq k s : k < 8 -> get_bit k s = N.testbit s k.
Proof.
  intros H. unfold get_bit. rewrite bit_const by assumption.
  destruct (N.testbit s k) eqn:E.
  - apply N.ltb_lt. destruct (N.eq_dec (N.land s (2 ^ k)) 0) as [Z|Z]; [ | lia ].
    apply (f_equal (fun x => N.testbit x k)) in Z. rewrite N.land_spec, E, N.pow2_bits_true, N.bits_0 in Z. discriminate Z.
  - apply N.ltb_ge. replace (N.land s (2 ^ k)) with 0; [ lia | ].
    symmetry. apply N.bits_inj. intros j. rewrite N.land_spec, N.pow2_bits_eqb, N.bits_0.
    destruct (N.eqb_spec k j) as [<-|]; [ rewrite E; reflexivity | apply andb_false_r ].
Qed.

Lemma byte_bits s : byte_ok s <-> (forall j, 8 <= j -> N.testbit s j = false).
Proof.
  unfold byte_ok. split.
  - intros H j Hj. destruct (N.eq_dec s 0) as [->|Hs]; [ apply N.bits_0 | ].
    apply N.bits_above_log2.
    assert (N.log2 s < 8); [ | lia ]. apply N.log2_lt_pow2; [ lia | exact H ].
  - intros H. change 256 with (2 ^ 8).
    destruct (N.eq_dec s 0) as [->|Hs]; [ reflexivity | ].
    apply N.log2_lt_pow2; [ lia | ].
    destruct (N.lt_ge_cases (N.log2 s) 8) as [?|Hl]; [ assumption | ].
    apply H in Hl. rewrite N.bit_log2 in Hl by assumption. discriminate Hl.
Qed.

Lemma flag_generic k : k < 8 -> flag_spec (k, with_bit k, get_bit k).
Proof.
  intros Hk s Hs. unfold with_bit. rewrite bit_const by assumption.
  repeat split.
  - apply byte_bits. intros j Hj. rewrite lor_pow_bits.
    destruct (N.eqb_spec j k); [ lia | ]. apply byte_bits; assumption.
  - apply lor_pow_bits.
  - apply get_bit_eq; assumption.
  - rewrite get_bit_eq, lor_pow_bits, N.eqb_refl by assumption. reflexivity.
Qed.

Theorem C25_flags_set_exactly_one_bit : Forall flag_spec all_flags.
Proof. repeat (apply Forall_cons; [ apply flag_generic; reflexivity | ]). apply Forall_nil. Qed.
Example C25_ex : Status2_WithDHCP 0x09 true = 0x0b /\ Status2_DHCP 0x0b = true /\ Status2_DHCP 0x09 = false.
Proof. repeat split. Qed.

(** ** C26 *)
(** Refuted for every flag: clearing has no effect on a register where the bit is set. *)
Theorem C26_flags_clear_refuted :
  Forall (fun f : N * (N -> bool -> N) * (N -> bool) => let '(k, set, get) := f in
            exists s, byte_ok s /\ get s = true /\ get (set s false) = true) all_flags.
Proof. repeat (apply Forall_cons; [ exists 255; repeat split | ]). apply Forall_nil. Qed.
(** What holds: With<Flag>(false) never changes the register, so the flag stays what it was. *)
Theorem C26_flags_clear_partial :
  Forall (fun f : N * (N -> bool -> N) * (N -> bool) => let '(k, set, get) := f in
            forall s, set s false = s /\ (get (set s false) = false <-> get s = false)) all_flags.
Proof.
  assert (G : forall k s, with_bit k s false = s).
  { intros k s. unfold with_bit. rewrite N.shiftl_0_l. apply N.lor_0_r. }
  repeat (apply Forall_cons;
    [ intros s; match goal with |- ?f s false = _ /\ _ => replace (f s false) with s by (symmetry; apply G) end;
      split; [ reflexivity | split; auto ] | ]).
  apply Forall_nil.
Qed.

(** ** C27 *)
Theorem C27_status1_enums_refuted :
  Status1_PortAddr (Status1_WithPortAddr 0 "net") = "unknown"%string /\
  Status1_PortAddr (Status1_WithPortAddr 0 "unused") = "front"%string /\
  Status1_Indicator (Status1_WithIndicator 0 "mute") = "unknown"%string /\
  Status1_Indicator (Status1_WithIndicator 0 "normal") = "locate"%string.
Proof. repeat split. Qed.
(** ... for every register whose relevant bits are clear, not just 0. *)
Theorem C27_status1_enums_always_refuted : forall s, byte_ok s -> N.land s 0xf0 = 0 ->
  Status1_PortAddr (Status1_WithPortAddr s "net") <> "net"%string /\
  Status1_PortAddr (Status1_WithPortAddr s "unused") <> "unused"%string /\
  Status1_Indicator (Status1_WithIndicator s "mute") <> "mute"%string /\
  Status1_Indicator (Status1_WithIndicator s "normal") <> "normal"%string.
Proof.
  intros s Hs Hz.
  pose proof (byte_cases (fun s => negb (N.land s 0xf0 =? 0) ||
    (negb (String.eqb (Status1_PortAddr (Status1_WithPortAddr s "net")) "net") &&
     negb (String.eqb (Status1_PortAddr (Status1_WithPortAddr s "unused")) "unused") &&
     negb (String.eqb (Status1_Indicator (Status1_WithIndicator s "mute")) "mute") &&
     negb (String.eqb (Status1_Indicator (Status1_WithIndicator s "normal")) "normal"))) ltac:(vm_compute; reflexivity) s Hs) as H.
  cbv beta in H. rewrite Hz, N.eqb_refl in H. cbn [negb orb] in H.
  rewrite !andb_true_iff, !negb_true_iff, !String.eqb_neq in H. tauto.
Qed.
(** What holds: the documented values unknown/front and unknown/locate round-trip. *)
Theorem C27_status1_enums_partial : forall s, byte_ok s -> N.land s 0xf0 = 0 ->
  Status1_PortAddr (Status1_WithPortAddr s "unknown") = "unknown"%string /\
  Status1_PortAddr (Status1_WithPortAddr s "front") = "front"%string /\
  Status1_Indicator (Status1_WithIndicator s "unknown") = "unknown"%string /\
  Status1_Indicator (Status1_WithIndicator s "locate") = "locate"%string.
Proof.
  intros s Hs Hz.
  pose proof (byte_cases (fun s => negb (N.land s 0xf0 =? 0) ||
    (String.eqb (Status1_PortAddr (Status1_WithPortAddr s "unknown")) "unknown" &&
     String.eqb (Status1_PortAddr (Status1_WithPortAddr s "front")) "front" &&
     String.eqb (Status1_Indicator (Status1_WithIndicator s "unknown")) "unknown" &&
     String.eqb (Status1_Indicator (Status1_WithIndicator s "locate")) "locate")) ltac:(vm_compute; reflexivity) s Hs) as H.
  cbv beta in H. rewrite Hz, N.eqb_refl in H. cbn [negb orb] in H.
  rewrite !andb_true_iff, !String.eqb_eq in H. tauto.
Qed.
(** The four values written are nevertheless pairwise different, in the documented two-bit fields. *)
Theorem C27_status1_bits_partial : forall s, byte_ok s -> N.land s 0xf0 = 0 ->
  Status1_WithPortAddr s "unknown" = s /\ Status1_WithPortAddr s "front" = s + 16 /\
  Status1_WithPortAddr s "net" = s + 32 /\ Status1_WithPortAddr s "unused" = s + 48 /\
  Status1_WithIndicator s "unknown" = s /\ Status1_WithIndicator s "locate" = s + 64 /\
  Status1_WithIndicator s "mute" = s + 128 /\ Status1_WithIndicator s "normal" = s + 192.
Proof.
  intros s Hs Hz.
  pose proof (byte_cases (fun s => negb (N.land s 0xf0 =? 0) ||
    ((Status1_WithPortAddr s "unknown" =? s) && (Status1_WithPortAddr s "front" =? s + 16) &&
     (Status1_WithPortAddr s "net" =? s + 32) && (Status1_WithPortAddr s "unused" =? s + 48) &&
     (Status1_WithIndicator s "unknown" =? s) && (Status1_WithIndicator s "locate" =? s + 64) &&
     (Status1_WithIndicator s "mute" =? s + 128) && (Status1_WithIndicator s "normal" =? s + 192)))
    ltac:(vm_compute; reflexivity) s Hs) as H.
  cbv beta in H. rewrite Hz, N.eqb_refl in H. cbn [negb orb] in H.
  rewrite !andb_true_iff, !N.eqb_eq in H. tauto.
Qed.
Example C27_ex : byte_ok 0x07 /\ N.land 0x07 0xf0 = 0.
Proof. split; reflexivity. Qed.

(** ** C28 *)
Definition protocols : list string := ["DMX512"; "MIDI"; "Avab"; "Colortran CMX"; "ADB 62.5"; "Art-Net"]%string.
Theorem C28_porttype_round_trip : forall s t, byte_ok s -> N.land s 0x1f = 0 -> In t protocols ->
  PortType_Type (PortType_WithType s t) = t /\
  PortType_Input (PortType_WithType s t) = PortType_Input s /\
  PortType_Output (PortType_WithType s t) = PortType_Output s.
Proof.
  intros s t Hs Hz Ht.
  pose proof (byte_cases (fun s => negb (N.land s 0x1f =? 0) ||
    forallb (fun t => String.eqb (PortType_Type (PortType_WithType s t)) t &&
       Bool.eqb (PortType_Input (PortType_WithType s t)) (PortType_Input s) &&
       Bool.eqb (PortType_Output (PortType_WithType s t)) (PortType_Output s)) protocols)
    ltac:(vm_compute; reflexivity) s Hs) as H.
  cbv beta in H. rewrite Hz, N.eqb_refl in H. cbn [negb orb] in H. rewrite forallb_forall in H. specialize (H t Ht).
  rewrite !andb_true_iff, String.eqb_eq, !Bool.eqb_true_iff in H. tauto.
Qed.
Theorem C28_porttype_flags_keep_type : forall s e, byte_ok s ->
  PortType_Type (PortType_WithInput s e) = PortType_Type s /\
  PortType_Type (PortType_WithOutput s e) = PortType_Type s /\
  PortType_Output (PortType_WithInput s e) = PortType_Output s /\
  PortType_Input (PortType_WithOutput s e) = PortType_Input s.
Proof.
  intros s e Hs.
  pose proof (byte_cases (fun s => forallb (fun e =>
    String.eqb (PortType_Type (PortType_WithInput s e)) (PortType_Type s) &&
    String.eqb (PortType_Type (PortType_WithOutput s e)) (PortType_Type s) &&
    Bool.eqb (PortType_Output (PortType_WithInput s e)) (PortType_Output s) &&
    Bool.eqb (PortType_Input (PortType_WithOutput s e)) (PortType_Input s)) [true; false])
    ltac:(vm_compute; reflexivity) s Hs) as H.
  cbv beta in H. rewrite forallb_forall in H. specialize (H e ltac:(destruct e; cbn; auto)).
  rewrite !andb_true_iff, !String.eqb_eq, !Bool.eqb_true_iff in H. tauto.
Qed.
Example C28_ex : byte_ok 0xc0 /\ N.land 0xc0 0x1f = 0 /\ In "Avab"%string protocols /\
  PortType_WithType 0xc0 "Avab" = 0xc2.
Proof. repeat split. cbn. auto. Qed.

(** ** C29 *)
Definition opcode_names : list (N * string) :=
  [ (0x2000, "OpPoll"); (0x2100, "OpPollReply"); (0x2300, "OpDiagData"); (0x2400, "OpCommand");
    (0x5000, "OpOutput"); (0x5100, "OpNzs"); (0x5200, "OpSync"); (0x6000, "OpAddress"); (0x7000, "OpInput");
    (0x8000, "OpTodRequest"); (0x8100, "OpTodData"); (0x8200, "OpTodControl"); (0x8300, "OpRdm");
    (0x8400, "OpRdmSub"); (0x9000, "OpMedia"); (0x9100, "OpMediaPatch"); (0x9200, "OpMediaControl");
    (0x9300, "OpMediaContrlReply"); (0x9700, "OpTimeCode"); (0x9800, "OpTimeSync"); (0x9900, "OpTrigger");
    (0x9a00, "OpDirectory"); (0x9b00, "OpDirectoryReply"); (0xa010, "OpVideoSetup");
    (0xa020, "OpVideoPalette"); (0xa040, "OpVideoData"); (0xf000, "OpMacMaster"); (0xf100, "OpMacSlave");
    (0xf200, "OpFirmwareMaster"); (0xf300, "OpFirmwareReply"); (0xf400, "OpFileTnMaster");
    (0xf500, "OpFileFnMaster"); (0xf600, "OpFileFnReply"); (0xf800, "OpIPProg"); (0xf900, "OpIPProgReply") ]%string.
Definition style_names : list (N * string) :=
  [ (0, "Node"); (1, "Controller"); (2, "Media"); (3, "Route"); (4, "Backup"); (5, "Config"); (6, "Visual") ]%string.
Definition report_names : list (N * string) :=
  [ (0, "RcDebug"); (1, "RcPowerOk"); (2, "RcPowerFail"); (3, "RcSocketWr1"); (4, "RcParseFail");
    (5, "RcUDPFail"); (6, "RcShNameOk"); (7, "RcLoNameOk"); (8, "RcDmxError"); (9, "RcDmxUDPFull");
    (10, "RcDmxRxFull"); (11, "RcSwitchErr"); (12, "RcConfigErr"); (13, "RcDmxShort");
    (14, "RcFirmwareFail"); (15, "RcUserFail"); (16, "RcFactoryRes") ]%string.
Definition priority_names : list (N * string) :=
  [ (0, "DpAll"); (0x10, "DpLow"); (0x40, "DpMed"); (0x80, "DpHigh"); (0xe0, "DpCritical"); (0xf0, "DpVolatile") ]%string.

(** The documented rendering: the constant's name, or Type(number). *)
Definition code_name (ty : string) (names : list (N * string)) (i : N) : string :=
  match find (fun e => fst e =? i) names with
  | Some (_, n) => n
  | None => (ty ++ "(" ++ sprint_d i ++ ")")%string
  end.

Lemma find_lookup ty i : forall m names,
  Forall2 (fun k e => fst k = fst e /\ str_slice OpCode_name (fst (snd k)) (snd (snd k)) = Ret (snd e)) m names ->
  match OpCode_lookup m i with
  | Some (lo, hi) => str_slice OpCode_name lo hi
  | None => Ret (ty ++ "(" ++ sprint_d i ++ ")")%string
  end = Ret (code_name ty names i).
Proof.
  unfold code_name. induction 1 as [|[k [lo hi]] [k' n] m names [E1 E2] H IH].
  - reflexivity.
  - cbn [fst snd] in E1, E2. subst k'. cbn [OpCode_lookup find fst].
    destruct (k =? i); [ exact E2 | exact IH ].
Qed.

Theorem C29_opcode_string : forall i, OpCode_String i = Ret (code_name "OpCode" opcode_names i).
Proof.
  intros i. unfold OpCode_String. apply (find_lookup "OpCode").
  repeat (apply Forall2_cons; [ split; vm_compute; reflexivity | ]). apply Forall2_nil.
Qed.

Lemma code_name_small ty names i : (forall e, In e names -> fst e < i) ->
  code_name ty names i = (ty ++ "(" ++ sprint_d i ++ ")")%string.
Proof.
  intros H. unfold code_name. destruct (find _ _) as [[k n]|] eqn:E; [ | reflexivity ].
  apply find_some in E. destruct E as [E1 E2]. cbn in E2. apply N.eqb_eq in E2. subst k.
  apply H in E1. cbn in E1. lia.
Qed.

Theorem C29_style_string : forall i, byte_ok i -> StyleCode_String i = Ret (code_name "StyleCode" style_names i).
Proof.
  intros i Hi. destruct (N.le_gt_cases 7 i) as [H|H].
  - rewrite code_name_small; [ | cbn; intuition (subst; cbn; lia) ].
    unfold StyleCode_String. change (u8 (N.of_nat (length styleCodeIndex) - 1)) with 7.
    apply N.leb_le in H. rewrite H. reflexivity.
  - assert (i = 0 \/ i = 1 \/ i = 2 \/ i = 3 \/ i = 4 \/ i = 5 \/ i = 6) as C by lia.
    repeat (destruct C as [->|C]; [ vm_compute; reflexivity | ]). subst. vm_compute. reflexivity.
Qed.

Theorem C29_report_string : forall i, byte_ok i -> NodeReportCode_String i = Ret (code_name "NodeReportCode" report_names i).
Proof.
  intros i Hi. destruct (N.le_gt_cases 17 i) as [H|H].
  - rewrite code_name_small; [ | cbn; intuition (subst; cbn; lia) ].
    unfold NodeReportCode_String. change (u8 (N.of_nat (length NodeReportCode_index) - 1)) with 17.
    apply N.leb_le in H. rewrite H. reflexivity.
  - assert (i = 0 \/ i = 1 \/ i = 2 \/ i = 3 \/ i = 4 \/ i = 5 \/ i = 6 \/ i = 7 \/ i = 8 \/ i = 9 \/ i = 10
            \/ i = 11 \/ i = 12 \/ i = 13 \/ i = 14 \/ i = 15 \/ i = 16) as C by lia.
    repeat (destruct C as [->|C]; [ vm_compute; reflexivity | ]). subst. vm_compute. reflexivity.
Qed.

Theorem C29_priority_string : forall i, PriorityCode_String i = code_name "PriorityCode" priority_names i.
Proof.
  intros i. unfold PriorityCode_String, code_name, priority_names. cbn [find fst].
  rewrite (N.eqb_sym 0), (N.eqb_sym 0x10), (N.eqb_sym 0x40), (N.eqb_sym 0x80), (N.eqb_sym 0xe0), (N.eqb_sym 0xf0).
  repeat match goal with |- context [i =? ?k] => destruct (i =? k); [ reflexivity | ] end. reflexivity.
Qed.

Lemma sprint_d_inj x y : sprint_d x = sprint_d y -> x = y.
Proof.
  unfold sprint_d. intros H.
  assert (E : forall u, u <> Decimal.Nil -> NilZero.uint_of_string (NilZero.string_of_uint u) = Some u)
    by (intros; apply NilZero.usu; assumption).
  assert (NN : forall n, N.to_uint n <> Decimal.Nil).
  { intros n. destruct n; [ discriminate | ]. unfold N.to_uint. apply DecimalPos.Unsigned.to_uint_nonnil. }
  assert (EU : N.to_uint x = N.to_uint y).
  { pose proof (E _ (NN x)) as Ex. pose proof (E _ (NN y)) as Ey. rewrite H in Ex. congruence. }
  rewrite <- (DecimalN.Unsigned.of_to x), <- (DecimalN.Unsigned.of_to y). congruence.
Qed.

Lemma append_inj_l a b c : (a ++ b = a ++ c)%string -> b = c.
Proof. induction a as [|x a IH]; cbn; [ auto | intros [= H]; auto ]. Qed.

Lemma append_len (a b : string) : String.length (a ++ b)%string = (String.length a + String.length b)%nat.
Proof. induction a as [|x a IH]; cbn; [ reflexivity | rewrite IH; reflexivity ]. Qed.

Lemma append_inj_r a b c : (a ++ c = b ++ c)%string -> a = b.
Proof.
  revert b. induction a as [|x a IH]; intros [|y b] H.
  - reflexivity.
  - apply (f_equal String.length) in H. cbn in H. rewrite append_len in H. exfalso. lia.
  - apply (f_equal String.length) in H. cbn in H. rewrite append_len in H. exfalso. lia.
  - cbn in H. injection H as -> H. f_equal. apply IH. exact H.
Qed.

(** No name contains an opening parenthesis, so a name is never a Type(number) string. *)
Fixpoint has_paren (s : string) : bool :=
  match s with
  | EmptyString => false
  | String c s => (Ascii.N_of_ascii c =? 40) || has_paren s
  end.
Lemma has_paren_app a b : has_paren (a ++ b)%string = has_paren a || has_paren b.
Proof. induction a as [|c a IH]; cbn; [ reflexivity | rewrite IH, orb_assoc; reflexivity ]. Qed.

Lemma code_name_inj ty names :
  NoDup (map snd names) -> Forall (fun e => has_paren (snd e) = false) names ->
  forall i j, code_name ty names i = code_name ty names j -> i = j.
Proof.
  intros Hd Hp i j H. unfold code_name in H.
  destruct (find (fun e => fst e =? i) names) as [[k n]|] eqn:Ei;
  destruct (find (fun e => fst e =? j) names) as [[k' n']|] eqn:Ej.
  - apply find_some in Ei. apply find_some in Ej. destruct Ei as [Ii Ei]. destruct Ej as [Ij Ej].
    cbn in Ei, Ej. apply N.eqb_eq in Ei. apply N.eqb_eq in Ej. subst k k' n'.
    clear Hp. induction names as [|e names IH]; [ destruct Ii | ].
    cbn in Hd. inversion Hd as [|? ? Hn Hd']; subst.
    destruct Ii as [->|Ii]; destruct Ij as [Ej|Ij].
    + injection Ej as <-. reflexivity.
    + exfalso. apply Hn. cbn. apply in_map_iff. exists (j, n). auto.
    + exfalso. apply Hn. subst e. cbn. apply in_map_iff. exists (i, n). auto.
    + apply IH; assumption.
  - apply find_some in Ei. destruct Ei as [Ii _]. rewrite Forall_forall in Hp. apply Hp in Ii. cbn in Ii.
    rewrite H, has_paren_app in Ii. cbn in Ii. rewrite orb_true_r in Ii. discriminate Ii.
  - apply find_some in Ej. destruct Ej as [Ij _]. rewrite Forall_forall in Hp. apply Hp in Ij. cbn in Ij.
    rewrite <- H, has_paren_app in Ij. cbn in Ij. rewrite orb_true_r in Ij. discriminate Ij.
  - apply append_inj_l in H. apply append_inj_l in H. apply append_inj_r in H. apply sprint_d_inj. exact H.
Qed.

Ltac names_ok :=
  apply code_name_inj;
  [ repeat (apply NoDup_cons; [ cbn; intuition discriminate | ]); apply NoDup_nil
  | repeat (apply Forall_cons; [ reflexivity | ]); apply Forall_nil ].

Theorem C29_codes_unambiguous :
  (forall i j, OpCode_String i = OpCode_String j -> i = j) /\
  (forall i j, byte_ok i -> byte_ok j -> StyleCode_String i = StyleCode_String j -> i = j) /\
  (forall i j, byte_ok i -> byte_ok j -> NodeReportCode_String i = NodeReportCode_String j -> i = j) /\
  (forall i j, PriorityCode_String i = PriorityCode_String j -> i = j).
Proof.
  split; [ | split; [ | split ] ].
  - intros i j. rewrite !C29_opcode_string. intros [= H]. revert H. names_ok.
  - intros i j Hi Hj. rewrite !C29_style_string by assumption. intros [= H]. revert H. names_ok.
  - intros i j Hi Hj. rewrite !C29_report_string by assumption. intros [= H]. revert H. names_ok.
  - intros i j. rewrite !C29_priority_string. names_ok.
Qed.

(** The declared constants render as their own names. *)
Theorem C29_constants_named :
  Forall (fun e => OpCode_String (fst e) = Ret (snd e))
    [
      (OpPoll, "OpPoll"); (OpPollReply, "OpPollReply"); (OpDiagData, "OpDiagData"); (OpCommand, "OpCommand");
      (OpOutput, "OpOutput"); (OpNzs, "OpNzs"); (OpSync, "OpSync"); (OpAddress, "OpAddress"); (OpInput, "OpInput");
      (OpTodRequest, "OpTodRequest"); (OpTodData, "OpTodData"); (OpTodControl, "OpTodControl"); (OpRdm, "OpRdm");
      (OpRdmSub, "OpRdmSub"); (OpMedia, "OpMedia"); (OpMediaPatch, "OpMediaPatch");
      (OpMediaControl, "OpMediaControl"); (OpMediaContrlReply, "OpMediaContrlReply"); (OpTimeCode, "OpTimeCode");
      (OpTimeSync, "OpTimeSync"); (OpTrigger, "OpTrigger"); (OpDirectory, "OpDirectory");
      (OpDirectoryReply, "OpDirectoryReply"); (OpVideoSetup, "OpVideoSetup"); (OpVideoPalette, "OpVideoPalette");
      (OpVideoData, "OpVideoData"); (OpMacMaster, "OpMacMaster"); (OpMacSlave, "OpMacSlave");
      (OpFirmwareMaster, "OpFirmwareMaster"); (OpFirmwareReply, "OpFirmwareReply");
      (OpFileTnMaster, "OpFileTnMaster"); (OpFileFnMaster, "OpFileFnMaster"); (OpFileFnReply, "OpFileFnReply");
      (OpIPProg, "OpIPProg"); (OpIPProgReply, "OpIPProgReply")
    ]%string /\
  Forall (fun e => StyleCode_String (fst e) = Ret (snd e))
    [
      (StNode, "Node"); (StController, "Controller"); (StMedia, "Media"); (StRoute, "Route"); (StBackup, "Backup");
      (StConfig, "Config"); (StVisual, "Visual")
    ]%string /\
  Forall (fun e => NodeReportCode_String (fst e) = Ret (snd e))
    [
      (RcDebug, "RcDebug"); (RcPowerOk, "RcPowerOk"); (RcPowerFail, "RcPowerFail"); (RcSocketWr1, "RcSocketWr1");
      (RcParseFail, "RcParseFail"); (RcUDPFail, "RcUDPFail"); (RcShNameOk, "RcShNameOk");
      (RcLoNameOk, "RcLoNameOk"); (RcDmxError, "RcDmxError"); (RcDmxUDPFull, "RcDmxUDPFull");
      (RcDmxRxFull, "RcDmxRxFull"); (RcSwitchErr, "RcSwitchErr"); (RcConfigErr, "RcConfigErr");
      (RcDmxShort, "RcDmxShort"); (RcFirmwareFail, "RcFirmwareFail"); (RcUserFail, "RcUserFail");
      (RcFactoryRes, "RcFactoryRes")
    ]%string /\
  Forall (fun e => PriorityCode_String (fst e) = snd e)
    [
      (DpAll, "DpAll"); (DpLow, "DpLow"); (DpMed, "DpMed"); (DpHigh, "DpHigh"); (DpCritical, "DpCritical");
      (DpVolatile, "DpVolatile")
    ]%string /\ OpDMX = OpOutput.
Proof. split; [ | split; [ | split; [ | split; [ | reflexivity ] ] ] ]; repeat (apply Forall_cons; [ vm_compute; reflexivity | ]); apply Forall_nil. Qed.

Theorem C29_valid_iff_named :
  (forall i, ValidOp i = true <-> In i (map fst opcode_names)) /\
  (forall i, byte_ok i -> (ValidStyle i = true <-> In i (map fst style_names))).
Proof.
  split.
  - intros i. unfold ValidOp.
    assert (E : map fst OpCode_map = map fst opcode_names) by reflexivity. rewrite <- E. clear E.
    generalize OpCode_map. induction l as [|[k r] m IH]; cbn [OpCode_lookup map In fst].
    + split; [ discriminate | tauto ].
    + destruct (N.eqb_spec k i) as [->|Hk].
      * split; auto.
      * rewrite IH. split; [ auto | intros [?|?]; [ contradiction | assumption ] ].
  - intros i Hi. unfold ValidStyle. change (u8 (N.of_nat (length styleCodeIndex) - 1)) with 7.
    destruct (N.leb_spec 7 i) as [H|H].
    + split; [ discriminate | ]. cbn. intuition (subst; lia).
    + split; [ | reflexivity ]. intros _. cbn.
      assert (i = 0 \/ i = 1 \/ i = 2 \/ i = 3 \/ i = 4 \/ i = 5 \/ i = 6) by lia. intuition.
Qed.
Example C29_ex : OpCode_String 0x5000 = Ret "OpOutput"%string /\ OpCode_String 0x1234 = Ret "OpCode(4660)"%string /\
  StyleCode_String 7 = Ret "StyleCode(7)"%string /\ PriorityCode_String 0xf0 = "DpVolatile"%string.
Proof. repeat split; vm_compute; reflexivity. Qed.

(** ** C30 *)
Definition yes (s : N) (k : N) : string := if N.testbit s k then "yes"%string else "no"%string.
Definition on (s : N) (k : N) : string := if N.testbit s k then "on"%string else "off"%string.
(** A report: label, value, label, value, ... *)
Fixpoint report (l : list (string * string)) : string :=
  match l with [] => ""%string | (a, b) :: l => (a ++ b ++ report l)%string end.

Lemma report_last a b : report [(a, b)] = (a ++ b)%string.
Proof.
  cbn. assert (E : forall x, (x ++ "")%string = x).
  { induction x as [|c x IH]; cbn; [ reflexivity | rewrite IH; reflexivity ]. }
  rewrite E. reflexivity.
Qed.

Theorem C30_strings_truthful : forall s, byte_ok s ->
  TalkToMe_String s = report [("TalkToMe: ReplyOnChange: ", yes s 1); (", Diagnostics: ", yes s 2);
    (" (as unicast: ", yes s 3); ("), VLC: ", yes s 4)]%string /\
  GoodInput_String s = report [("GoodInput: ReceiveErrors: ", yes s 2); (", Disabled: ", yes s 3);
    (", DMX512Text: ", yes s 4); (", DMX512SIP: ", yes s 5); (", DMX512Test: ", yes s 6);
    (", DataReceived: ", yes s 7)]%string /\
  GoodOutput_String s = report [("GoodOutput: OutputACN: ", yes s 0); (", LTPMergeMode: ", yes s 1);
    (", OutputShort: ", yes s 2); (", Merging: ", yes s 3); (", DMX512Text: ", yes s 4);
    (", DMX512SIP: ", yes s 5); (", DMX512Test: ", yes s 6); (", DataSending: ", yes s 7)]%string /\
  Status2_String s = report [("Status2: Browser: ", yes s 0); (", DHCP: ", yes s 1);
    (", DHCPCapable: ", yes s 2); (", Port 15bit: ", yes s 3); (", CanSwitch: ", yes s 4);
    (", Squawking: ", yes s 5)]%string /\
  SwMacro_String s = report [("SwMacro: Macro1: ", on s 0); (", Macro2: ", on s 1); (", Macro3: ", on s 2);
    (", Macro4: ", on s 3); (", Macro5: ", on s 4); (", Macro6: ", on s 5); (", Macro7: ", on s 6);
    (", Macro8: ", on s 7)]%string /\
  SwRemote_String s = report [("SwRemote: Remote1: ", on s 0); (", Remote2: ", on s 1); (", Remote3: ", on s 2);
    (", Remote4: ", on s 3); (", Remote5: ", on s 4); (", Remote6: ", on s 5); (", Remote7: ", on s 6);
    (", Remote8: ", on s 7)]%string /\
  PortType_String s = report [("PortType: Type: ", nth (N.to_nat (s mod 32)) protocols "unknown"); (", Output: ", yes s 7);
    (", Input: ", yes s 6)]%string.
Proof.
  intros s Hs.
  pose proof (byte_cases (fun s => 
  String.eqb (TalkToMe_String s) (report [("TalkToMe: ReplyOnChange: ", yes s 1); (", Diagnostics: ", yes s 2);
    (" (as unicast: ", yes s 3); ("), VLC: ", yes s 4)])%string &&
  String.eqb (GoodInput_String s) (report [("GoodInput: ReceiveErrors: ", yes s 2); (", Disabled: ", yes s 3);
    (", DMX512Text: ", yes s 4); (", DMX512SIP: ", yes s 5); (", DMX512Test: ", yes s 6);
    (", DataReceived: ", yes s 7)])%string &&
  String.eqb (GoodOutput_String s) (report [("GoodOutput: OutputACN: ", yes s 0); (", LTPMergeMode: ", yes s 1);
    (", OutputShort: ", yes s 2); (", Merging: ", yes s 3); (", DMX512Text: ", yes s 4);
    (", DMX512SIP: ", yes s 5); (", DMX512Test: ", yes s 6); (", DataSending: ", yes s 7)])%string &&
  String.eqb (Status2_String s) (report [("Status2: Browser: ", yes s 0); (", DHCP: ", yes s 1);
    (", DHCPCapable: ", yes s 2); (", Port 15bit: ", yes s 3); (", CanSwitch: ", yes s 4);
    (", Squawking: ", yes s 5)])%string &&
  String.eqb (SwMacro_String s) (report [("SwMacro: Macro1: ", on s 0); (", Macro2: ", on s 1); (", Macro3: ", on s 2);
    (", Macro4: ", on s 3); (", Macro5: ", on s 4); (", Macro6: ", on s 5); (", Macro7: ", on s 6);
    (", Macro8: ", on s 7)])%string &&
  String.eqb (SwRemote_String s) (report [("SwRemote: Remote1: ", on s 0); (", Remote2: ", on s 1); (", Remote3: ", on s 2);
    (", Remote4: ", on s 3); (", Remote5: ", on s 4); (", Remote6: ", on s 5); (", Remote7: ", on s 6);
    (", Remote8: ", on s 7)])%string &&
  String.eqb (PortType_String s) (report [("PortType: Type: ", nth (N.to_nat (s mod 32)) protocols "unknown"); (", Output: ", yes s 7);
    (", Input: ", yes s 6)])%string) ltac:(vm_compute; reflexivity) s Hs) as H.
  cbv beta in H. rewrite !andb_true_iff, !String.eqb_eq in H. tauto.
Qed.
Example C30_ex : Status2_String 0x0a =
  "Status2: Browser: no, DHCP: yes, DHCPCapable: no, Port 15bit: yes, CanSwitch: no, Squawking: no"%string.
Proof. reflexivity. Qed.

(** Status1: the flags are reported truthfully, the two enumerations are not. *)
Definition port_addr_names : list string := ["unknown"; "front"; "net"; "unused"]%string.
Definition indicator_names : list string := ["unknown"; "locate"; "mute"; "normal"]%string.
Definition status1_report (s : N) : string :=
  report [("Status1: UBEA: ", yes s 0); (", RDM: ", yes s 1); (", BootRom: ", yes s 2);
    (", PortAddr: ", nth (N.to_nat (N.shiftr s 4 mod 4)) port_addr_names "");
    (", Indicator: ", nth (N.to_nat (N.shiftr s 6 mod 4)) indicator_names "")]%string.
Theorem C30_status1_string_refuted : exists s, byte_ok s /\ Status1_String s <> status1_report s.
Proof. exists 0xc0. split; [ reflexivity | vm_compute; discriminate ]. Qed.
(** It is truthful exactly when bits 5 and 7 are clear. *)
Theorem C30_status1_string_partial : forall s, byte_ok s ->
  (Status1_String s = status1_report s <-> N.testbit s 5 = false /\ N.testbit s 7 = false).
Proof.
  intros s Hs.
  pose proof (byte_cases (fun s => Bool.eqb (String.eqb (Status1_String s) (status1_report s))
     (negb (N.testbit s 5) && negb (N.testbit s 7))) ltac:(vm_compute; reflexivity) s Hs) as H.
  cbv beta in H. apply Bool.eqb_prop in H. rewrite <- String.eqb_eq, H, andb_true_iff, !negb_true_iff. tauto.
Qed.

Definition P_Codes_theorems :=
  (C25_flags_set_exactly_one_bit, C26_flags_clear_refuted, C26_flags_clear_partial,
   C27_status1_enums_refuted, C27_status1_enums_always_refuted, C27_status1_enums_partial, C27_status1_bits_partial,
   C28_porttype_round_trip, C28_porttype_flags_keep_type, C29_opcode_string, C29_style_string,
   C29_report_string, C29_priority_string, C29_constants_named, C29_codes_unambiguous, C29_valid_iff_named,
   C30_strings_truthful, C30_status1_string_refuted, C30_status1_string_partial).
Print Assumptions P_Codes_theorems.
