(** Property C105: announcing again what was discovered (ConfigFromArtPollReply, then ArtPollReplyFromConfig), as a proxy for a node would. *)
From Verif Require Import WireSpec P_Codes P_Config.
Open Scope list_scope.
Open Scope N_scope.

(** * Specification *)
(** q is what is announced for the configuration read from p. *)
Definition reannounced (p q : ArtPollReplyPacket) : Prop := exists cfg, ConfigFromArtPollReply p = Ret cfg /\ q = ArtPollReplyFromConfig cfg.
(** A text of at most n ASCII characters, filled up with zeros. *)
Definition padded (n : N) (b : list N) : Prop := exists s k, b = s ++ zeros k /\ ascii_text s /\ len b = n.
(** All ports that the reply declares go in the same directions (0x40: input, 0x80: output) and have a documented protocol. *)
Definition uniform (p : ArtPollReplyPacket) (dir : N) : Prop :=
  In dir [0x40; 0x80; 0xc0] /\ PollReply_NumPorts p <= 4 /\
  forall i, N.of_nat i < PollReply_NumPorts p -> exists k, k <= 5 /\ nth i (PollReply_PortTypes p) 0 = dir + k.

(** * C105 *)
(** Refuted: an input port and an output port, announced one after the other, become a single port in both directions ... *)
Definition two_ports : ArtPollReplyPacket :=
  mkPollReply (zeros 8) 0x2100 [10; 0; 0; 9] 6454 1 0 0 2 3 0 [65; 66] (zeros 18) (zeros 64) (zeros 64) 2
    [0x40; 0x80; 0; 0] [0; 0; 0; 0] [0; 0; 0; 0] [1; 0; 0; 0] [0; 2; 0; 0] 0 0 0 0 (zeros 6) [0; 0; 0; 0] 0 0.
Theorem C105_ports_refuted : exists p q, wf_PollReply p /\ reannounced p q /\
  PollReply_NumPorts p = 2 /\ PollReply_PortTypes p = [0x40; 0x80; 0; 0] /\ PollReply_NumPorts q = 1 /\ PollReply_PortTypes q = [0xc0; 0; 0; 0].
Proof.
  exists two_ports. eexists. split; [ repeat split; try reflexivity; repeat constructor | ]. split; [ eexists; split; [ vm_compute; reflexivity | reflexivity ] | ].
  repeat split.
Qed.
(** ... and the universes and states of the ports are never announced again. *)
Theorem C105_switches_refuted : forall p q, reannounced p q ->
  PollReply_SwIn q = [0; 0; 0; 0] /\ PollReply_SwOut q = [0; 0; 0; 0] /\ PollReply_GoodInput q = [0; 0; 0; 0] /\ PollReply_GoodOutput q = [0; 0; 0; 0] /\
  PollReply_SwVideo q = 0 /\ PollReply_SwMacro q = 0 /\ PollReply_SwRemote q = 0.
Proof. intros p q (cfg & _ & ->). repeat split. Qed.
(** What does survive: the identity of the node, ... *)
Theorem C105_identity_partial : forall p, wf_PollReply p -> exists q, reannounced p q /\ wf_PollReply q /\
  PollReply_IPAddress q = PollReply_IPAddress p /\ PollReply_VersionInfo q = PollReply_VersionInfo p /\
  PollReply_NetSwitch q = PollReply_NetSwitch p /\ PollReply_SubSwitch q = PollReply_SubSwitch p /\ PollReply_Oem q = PollReply_Oem p /\
  PollReply_UBEAVersion q = PollReply_UBEAVersion p /\ PollReply_Status1 q = PollReply_Status1 p /\ PollReply_NodeReport q = PollReply_NodeReport p /\
  PollReply_Style q = PollReply_Style p /\ PollReply_Macaddress q = PollReply_Macaddress p /\ PollReply_BindIP q = PollReply_BindIP p /\
  PollReply_BindIndex q = PollReply_BindIndex p /\ PollReply_Status2 q = PollReply_Status2 p /\ PollReply_Port q = 6454.
Proof.
  intros p Hp. destruct (config_from_reply p Hp) as (cfg & Ec & Hcfg). exists (ArtPollReplyFromConfig cfg). split; [ exists cfg; auto | ].
  pose proof Hp as Hp'. unfold wf_PollReply in Hp'.
  destruct Hp' as (_ & _ & [L4 B4] & W1 & W2 & W3 & W4 & W5 & W6 & W7 & [LE BE] & [LS BS] & [LL BL] & [LR BR] & W8 & [LP BP] & [LGI BGI] & [LGO BGO] & [LSI BSI] & [LSO BSO] & _ & _ & _ & W9 & [LM BM] & [LB BB] & W10 & W11).
  assert (Dec : forall s, bytes_ok s -> bytes_ok (decodeString s)).
  { intros s Hs. unfold bytes_ok in *. induction Hs as [|c s Hc Hs IH]; cbn [decodeString]; [ constructor | ]. destruct (c =? 0); [ constructor | ].
    apply bytes_ok_app. split; [ | exact IH ]. apply Forall_forall. intros x Hx. revert x Hx. apply Forall_forall.
    pose proof (byte_cases (fun c => forallb (fun x => x <? 256) (utf8_of_byte c)) ltac:(vm_compute; reflexivity) c Hc) as K. cbv beta in K.
    apply List.Forall_forall. intros x Hx. rewrite forallb_forall in K. apply N.ltb_lt. exact (K x Hx). }
  assert (Nth : forall l i, bytes_ok l -> byte_ok (nth i l 0)) by (intros l i Hl; apply DispatchFacts.bytes_ok_nth; exact Hl).
  assert (LorB : forall a b, byte_ok a -> byte_ok b -> byte_ok (N.lor a b)).
  { intros a b Ha Hb. unfold byte_ok in *. apply (proj2 (byte_bits _)). intros j Hj. rewrite N.lor_spec, (proj1 (byte_bits a) Ha j Hj), (proj1 (byte_bits b) Hb j Hj). reflexivity. }
  assert (Pok : forall sw good l, bytes_ok sw -> bytes_ok good -> Forall port_ok (map (reply_port p sw good) l)).
  { intros sw good l Hs Hg. induction l as [|i l IH]; cbn [map]; constructor; [ | exact IH ]. repeat split; cbn; auto. }
  split.
  { apply announcement_wf. rewrite Hcfg. unfold wf_config.
    cbn [C_OEM C_Version C_BiosVersion C_Manufacturer C_Type C_Name C_Description C_Ethernet C_IP C_BindIP C_BindIndex C_Port C_Report C_Status1 C_Status2 C_BaseAddress C_InputPorts C_OutputPorts].
    repeat match goal with |- _ /\ _ => split end; auto; try (split; cbn; auto); apply Pok; assumption. }
  rewrite Hcfg. unfold ArtPollReplyFromConfig.
  cbn [PollReply_IPAddress PollReply_VersionInfo PollReply_NetSwitch PollReply_SubSwitch PollReply_Oem PollReply_UBEAVersion PollReply_Status1 PollReply_NodeReport PollReply_Style PollReply_Macaddress PollReply_BindIP
       PollReply_BindIndex PollReply_Status2 PollReply_Port C_OEM C_Version C_BiosVersion C_Manufacturer C_Type C_Name C_Description C_Ethernet C_IP C_BindIP C_BindIndex C_Port C_Report C_Status1 C_Status2 C_BaseAddress A_Net A_SubUni fst snd].
  assert (T4 : forall ip, len ip = 4 -> To4 ip = ip) by (intros ip H; unfold To4; rewrite H; reflexivity).
  rewrite !T4, !go_copy_full by assumption. repeat split.
Qed.
(** ... its names, when they are ASCII text filled up with zeros, ... *)
Lemma padded_kept n b : padded n b -> go_copy (zeros n) (decodeString b) = b.
Proof.
  intros (s & k & -> & Ha & Hl). rewrite decode_ascii by exact Ha. rewrite go_copy_zeros. rewrite len_app, len_zeros in Hl. unfold len in Hl.
  rewrite firstn_all2 by lia. f_equal. f_equal. unfold len. lia.
Qed.
Theorem C105_names_partial : forall p q, wf_PollReply p -> reannounced p q ->
  (padded 18 (PollReply_ShortName p) -> PollReply_ShortName q = PollReply_ShortName p) /\
  (padded 64 (PollReply_LongName p) -> PollReply_LongName q = PollReply_LongName p) /\
  (padded 2 (PollReply_ESTAmanufacturer p) -> PollReply_ESTAmanufacturer q = PollReply_ESTAmanufacturer p).
Proof.
  intros p q Hp (cfg & Ec & ->). destruct (config_from_reply p Hp) as (cfg' & Ec' & Hcfg). rewrite Ec in Ec'. injection Ec' as <-. rewrite Hcfg.
  split; [ | split ]; intros H; exact (padded_kept _ _ H).
Qed.
(** ... and its port types, when all its ports are alike in their directions. Missing from the full statement: mixed directions, undocumented
    protocols, more than four ports, other names, and everything in [C105_switches_refuted]. *)
Lemma dir_bits dir k : In dir [0x40; 0x80; 0xc0] -> k <= 5 ->
  N.testbit (dir + k) 6 = N.testbit dir 6 /\ N.testbit (dir + k) 7 = N.testbit dir 7 /\ announced_protocol (dir + k) = k.
Proof.
  intros Hd Hk. assert (k = 0 \/ k = 1 \/ k = 2 \/ k = 3 \/ k = 4 \/ k = 5) as C by lia.
  destruct Hd as [<-|[<-|[<-|[]]]]; repeat (destruct C as [->|C]; [ repeat split | ]); subst; repeat split.
Qed.
Theorem C105_uniform_ports_partial : forall p q dir, wf_PollReply p -> reannounced p q -> uniform p dir ->
  PollReply_NumPorts q = PollReply_NumPorts p /\
  forall i, nth_error (PollReply_PortTypes q) i = if N.of_nat i <? PollReply_NumPorts p then nth_error (PollReply_PortTypes p) i else if (i <? 4)%nat then Some 0 else None.
Proof.
  intros p q dir Hp (cfg & Ec & ->) (Hd & Hn & Hu). destruct (config_from_reply p Hp) as (cfg' & Ec' & Hcfg). rewrite Ec in Ec'. injection Ec' as <-.
  assert (Hw : wf_PollReply (ArtPollReplyFromConfig cfg)). { destruct (C105_identity_partial p Hp) as (q & (c & Ec' & ->) & K & _). rewrite Ec in Ec'. injection Ec' as <-. exact K. }
  unfold wf_PollReply in Hp. destruct Hp as (_&_&_&_&_&_&_&_&_&_&_&_&_&_& Hnp &[Hpt Bpt]&_).
  unfold ArtPollReplyFromConfig. cbn [PollReply_NumPorts PollReply_PortTypes]. unfold NumberOfPorts, PortTypes.
  destruct (PollReply_PortTypes p) as [|a [|b [|c [|d [|? ?]]]]] eqn:Ept; try discriminate Hpt; [ | unfold len in Hpt; cbn in Hpt; lia ].
  remember (PollReply_NumPorts p) as n eqn:En.
  assert (WT : forall k, k <= 5 -> forall fl, In fl [0x40; 0x80; 0xc0] -> PortType_WithType fl (PortType_Type (dir + k)) = fl + k).
  { intros k Hk fl Hfl. destruct (dir_bits dir k Hd Hk) as (_ & _ & K). rewrite <- K at 2. apply WithType_bits; [ | exact Hfl ]. unfold byte_ok. destruct Hd as [<-|[<-|[<-|[]]]]; lia. }
  assert (Hty : forall i, P_Type (reply_port p (PollReply_SwIn p) (PollReply_GoodInput p) i) = nth i [a; b; c; d] 0) by (intros i; cbn; rewrite Ept; reflexivity).
  assert (Hto : forall i, P_Type (reply_port p (PollReply_SwOut p) (PollReply_GoodOutput p) i) = nth i [a; b; c; d] 0) by (intros i; cbn; rewrite Ept; reflexivity).
  assert (Cn : n = 0 \/ n = 1 \/ n = 2 \/ n = 3 \/ n = 4) by lia. clear Hn.
  assert (F : forall k, flagged p k = filter (fun i => (N.of_nat i <? n) && N.testbit (nth i [a; b; c; d] 0) k) [0; 1; 2; 3]%nat) by (intros k; unfold flagged; rewrite Ept, <- En; reflexivity).
  assert (Hin : C_InputPorts cfg = map (reply_port p (PollReply_SwIn p) (PollReply_GoodInput p)) (flagged p 6)) by (rewrite Hcfg; reflexivity).
  assert (Hout : C_OutputPorts cfg = map (reply_port p (PollReply_SwOut p) (PollReply_GoodOutput p)) (flagged p 7)) by (rewrite Hcfg; reflexivity).
  rewrite F in Hin, Hout. cbn [filter nth] in Hin, Hout.
  assert (Ent : forall i, N.of_nat i < n -> exists k, k <= 5 /\ nth i [a; b; c; d] 0 = dir + k) by exact Hu.
  Ltac entry Ent i := let k := fresh "k" in let Hk := fresh "Hk" in let E := fresh "E" in destruct (Ent i) as (k & Hk & E); [ cbn; lia | cbn [nth] in E; subst ].
  destruct Cn as [->|[->|[->|[->| ->]]]].
  all: try entry Ent 0%nat; try entry Ent 1%nat; try entry Ent 2%nat; try entry Ent 3%nat.
  all: cbn [N.of_nat Pos.of_succ_nat Pos.succ N.ltb N.compare Pos.compare Pos.compare_cont andb] in Hin, Hout.
  all: repeat match goal with Hd : In ?dd _, Hk : ?k <= 5, H1 : context [N.testbit (?dd + ?k) 6], H2 : context [N.testbit (?dd + ?k) 7] |- _ =>
         let B6 := fresh in let B7 := fresh in destruct (dir_bits dd k Hd Hk) as (B6 & B7 & _); rewrite B6 in H1; rewrite B7 in H2; clear B6 B7 end.
  all: destruct Hd as [<-|[<-|[<-|[]]]]; cbn [N.testbit Pos.testbit N.pred Pos.pred_N Pos.pred_double map] in Hin, Hout; unfold plen, PortTypes_at; rewrite Hin, Hout; clear Hin Hout; cbn [length];
    (split; [ reflexivity | ]); intros i; destruct i as [|[|[|[|i]]]]; cbn [nth_error map]; rewrite ?Hty, ?Hto; cbn [nth]; try reflexivity.
  all: cbn [N.of_nat Pos.of_succ_nat Pos.succ N.ltb N.compare Pos.compare Pos.compare_cont nth_error]; try (f_equal; apply WT; [ assumption | cbn; auto ]).
  all: assert (Z : nth_error (@nil N) i = None) by (destruct i; reflexivity); rewrite ?Z; repeat match goal with |- context [if ?x then _ else _] => destruct x eqn:?X end; try reflexivity; match goal with H : (_ <? 4)%nat = true |- _ => apply Nat.ltb_lt in H; lia end.
Qed.
Example C105_ex : uniform (mkPollReply (zeros 8) 0x2100 [10; 0; 0; 9] 6454 1 0 0 2 3 0 [65; 66] ([83] ++ zeros 17) (zeros 64) (zeros 64) 2
    [0x80; 0x81; 0; 0] [0; 0; 0; 0] [0; 0; 0; 0] [1; 0; 0; 0] [0; 2; 0; 0] 0 0 0 0 (zeros 6) [0; 0; 0; 0] 0 0) 0x80 /\ padded 18 ([83] ++ zeros 17).
Proof.
  split; [ split; [ cbn; auto | ]; split; [ discriminate | ]; cbn [PollReply_NumPorts PollReply_PortTypes]; intros [|[|i]] Hi; cbn [nth]; [ exists 0; split; [ discriminate | reflexivity ] | exists 1; split; [ discriminate | reflexivity ] | lia ] | ].
  exists [83], 17. repeat split. repeat constructor.
Qed.

Definition P_Reannounce_theorems := (C105_ports_refuted, C105_switches_refuted, C105_identity_partial, C105_names_partial, C105_uniform_ports_partial, C105_ex).
Print Assumptions P_Reannounce_theorems.
