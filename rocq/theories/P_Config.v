(** Properties C31-C39: universe addresses and node configurations (config.go). *)
From Coq Require Import Sorted.
From Verif Require Export Config EncodeFacts P_Codes.
Open Scope list_scope.
Open Scope N_scope.

#[local] Arguments zeros : simpl never.

(** * Specification vocabulary *)

(** Values in the range of their Go types. *)
Definition addr_ok (a : Address) : Prop := byte_ok (fst a) /\ byte_ok (snd a).
Definition port_ok (p : Port) : Prop := addr_ok (P_Address p) /\ byte_ok (P_Type p) /\ byte_ok (P_Status p).
Definition wf_config (c : NodeConfig) : Prop :=
  word_ok (C_OEM c) /\ word_ok (C_Version c) /\ byte_ok (C_BiosVersion c) /\ bytes_ok (C_Manufacturer c) /\
  byte_ok (C_Type c) /\ bytes_ok (C_Name c) /\ bytes_ok (C_Description c) /\ bytes_ok (C_Ethernet c) /\
  bytes_ok (C_IP c) /\ bytes_ok (C_BindIP c) /\ byte_ok (C_BindIndex c) /\ word_ok (C_Port c) /\
  bytes_ok (C_Report c) /\ byte_ok (C_Status1 c) /\ byte_ok (C_Status2 c) /\ addr_ok (C_BaseAddress c) /\
  Forall port_ok (C_InputPorts c) /\ Forall port_ok (C_OutputPorts c).

(** The protocol of a port type is in its low five bits; 0-5 have names. *)
Definition protocol (t : N) : N := t mod 32.
Definition protocol_name (t : N) : string := nth (N.to_nat (protocol t)) protocols "unknown"%string.
Definition announceable (p : Port) : Prop := protocol (P_Type p) <= 5.

(** A valid configuration. *)
Definition valid_config (c : NodeConfig) : Prop :=
  (length (C_InputPorts c) <= 4)%nat /\ (length (C_OutputPorts c) <= 4)%nat /\
  forall i inp outp, nth_error (C_InputPorts c) i = Some inp -> nth_error (C_OutputPorts c) i = Some outp ->
    protocol_name (P_Type inp) = protocol_name (P_Type outp).

(** * Small facts *)

Lemma Type_name t : byte_ok t -> PortType_Type t = protocol_name t.
Proof.
  intros H. apply String.eqb_eq.
  exact (byte_cases (fun t => String.eqb (PortType_Type t) (protocol_name t)) ltac:(vm_compute; reflexivity) t H).
Qed.

Lemma go_copy_zeros n s : go_copy (zeros n) s = firstn (N.to_nat n) s ++ zeros (n - len s).
Proof.
  unfold go_copy. rewrite length_zeros. f_equal. unfold zeros, len.
  replace (N.to_nat (n - N.of_nat (length s))) with (N.to_nat n - length s)%nat by lia.
  generalize (N.to_nat n) as k. induction (length s) as [|m IH]; intros k; [ cbn; rewrite Nat.sub_0_r; reflexivity | ].
  destruct k; [ reflexivity | cbn; apply IH ].
Qed.

Lemma bytes_ok_firstn n s : bytes_ok s -> bytes_ok (firstn n s).
Proof. intros H. revert n. induction H; intros [|n]; cbn; constructor; auto. apply IHForall. Qed.
Lemma bytes_ok_skipn n s : bytes_ok s -> bytes_ok (skipn n s).
Proof. intros H. revert n. induction H; intros [|n]; cbn; auto; constructor; auto. Qed.

Lemma go_copy_array n s : bytes_ok s -> array_ok n (go_copy (zeros n) s).
Proof.
  intros H. rewrite go_copy_zeros. split.
  - rewrite len_app, len_zeros. unfold len. rewrite firstn_length. lia.
  - apply bytes_ok_app. split; [ apply bytes_ok_firstn; assumption | apply bytes_ok_zeros ].
Qed.

Lemma To4_ok ip : bytes_ok ip -> bytes_ok (To4 ip).
Proof.
  intros H. unfold To4. destruct (len ip =? 4); [ assumption | ].
  destruct (_ && _); [ apply bytes_ok_skipn; assumption | apply bytes_ok_nil ].
Qed.

Lemma go_copy_full n s : len s = n -> go_copy (zeros n) s = s.
Proof.
  intros H. rewrite go_copy_zeros, H, N.sub_diag. change (zeros 0) with (@nil N). rewrite app_nil_r.
  apply firstn_all2. unfold len in H. lia.
Qed.

(** * C31 *)

Lemma lor_shift a b : b < 256 -> N.lor (N.shiftl a 8) b = a * 256 + b.
Proof.
  intros H. rewrite <- N.lxor_lor, <- N.add_nocarry_lxor.
  - rewrite N.shiftl_mul_pow2. reflexivity.
  - apply N.bits_inj. intros j. rewrite N.land_spec, N.bits_0.
    destruct (N.lt_ge_cases j 8); [ rewrite N.shiftl_spec_low by assumption; reflexivity | ].
    rewrite (proj1 (byte_bits b) H j) by assumption. apply andb_false_r.
  - apply N.bits_inj. intros j. rewrite N.land_spec, N.bits_0.
    destruct (N.lt_ge_cases j 8); [ rewrite N.shiftl_spec_low by assumption; reflexivity | ].
    rewrite (proj1 (byte_bits b) H j) by assumption. apply andb_false_r.
Qed.

Theorem C31_address_integer : forall a, addr_ok a ->
  Address_Integer a = fst a * 256 + snd a /\ Address_Integer a < 65536.
Proof.
  intros [n s] [Hn Hs]. unfold Address_Integer, A_Net, A_SubUni, byte_ok in *. cbn [fst snd] in *.
  unfold u16. rewrite N.mod_small by (rewrite N.shiftl_mul_pow2; change (2 ^ 8) with 256; lia).
  rewrite lor_shift by assumption. lia.
Qed.
Theorem C31_address_integer_injective : forall a b, addr_ok a -> addr_ok b ->
  Address_Integer a = Address_Integer b -> a = b.
Proof.
  intros a b Ha Hb H. rewrite (proj1 (C31_address_integer a Ha)), (proj1 (C31_address_integer b Hb)) in H.
  destruct a as [n s], b as [n' s'], Ha as [Ha1 Ha2], Hb as [Hb1 Hb2]. unfold byte_ok in *. cbn [fst snd] in *.
  f_equal; lia.
Qed.

Fixpoint no_char (c : N) (s : string) : bool :=
  match s with EmptyString => true | String x s => negb (N_of_ascii x =? c) && no_char c s end.
Lemma split_char c a : forall b r r', no_char (N_of_ascii c) a = true -> no_char (N_of_ascii c) b = true ->
  (a ++ String c r = b ++ String c r')%string -> a = b /\ r = r'.
Proof.
  induction a as [|x a IH]; intros [|y b] r r' Ha Hb H; cbn in *.
  - injection H as ->. auto.
  - injection H as -> _. rewrite N.eqb_refl in Hb. discriminate Hb.
  - injection H as <- _. rewrite N.eqb_refl in Ha. discriminate Ha.
  - injection H as -> H. apply andb_true_iff in Ha, Hb. destruct (IH b r r') as [-> ->]; tauto.
Qed.
Lemma digits_no c : c = 58 \/ c = 46 -> forall n, byte_ok n -> no_char c (sprint_d n) = true.
Proof.
  intros [->| ->] n H.
  - exact (byte_cases (fun n => no_char 58 (sprint_d n)) ltac:(vm_compute; reflexivity) n H).
  - exact (byte_cases (fun n => no_char 46 (sprint_d n)) ltac:(vm_compute; reflexivity) n H).
Qed.
Lemma nibbles s : byte_ok s -> s = 16 * N.shiftr s 4 + N.land s 15 /\ N.shiftr s 4 < 16 /\ N.land s 15 < 16.
Proof.
  intros H. unfold byte_ok in H. rewrite N.shiftr_div_pow2. change 15 with (N.ones 4). rewrite N.land_ones.
  change (2 ^ 4) with 16. split; [ apply N.div_mod'; discriminate | ]. split; [ | apply N.mod_lt; discriminate ].
  apply N.div_lt_upper_bound; lia.
Qed.
Theorem C31_address_string_injective : forall a b, addr_ok a -> addr_ok b ->
  Address_String a = Address_String b -> a = b.
Proof.
  intros [n s] [n' s'] [Hn Hs] [Hn' Hs'] H. unfold Address_String, A_Net, A_SubUni in *. cbn [fst snd] in *.
  destruct (nibbles s Hs) as (E & B1 & B2). destruct (nibbles s' Hs') as (E' & B1' & B2').
  change (":" ++ ?x)%string with (String ":" x) in H. change ("." ++ ?x)%string with (String "." x) in H.
  apply split_char in H; [ | apply digits_no; [ left; reflexivity | assumption ] .. ].
  destruct H as [H1 H]. apply sprint_d_inj in H1. subst n'.
  apply split_char in H; [ | apply digits_no; [ right; reflexivity | unfold byte_ok; lia ] .. ].
  destruct H as [H2 H3]. apply sprint_d_inj in H2. apply sprint_d_inj in H3.
  f_equal. rewrite E, E', H2, H3. reflexivity.
Qed.
Example C31_ex : Address_Integer (3, 0x4a) = 0x34a /\ Address_String (3, 0x4a) = "3:4.10"%string.
Proof. split; reflexivity. Qed.

(** * C32 *)
Lemma validate_loop_none c is :
  Forall port_ok (C_InputPorts c) -> Forall port_ok (C_OutputPorts c) ->
  (validate_loop c is = None <->
   forall i inp outp, In i is -> nth_error (C_InputPorts c) i = Some inp ->
     nth_error (C_OutputPorts c) i = Some outp -> protocol_name (P_Type inp) = protocol_name (P_Type outp)).
Proof.
  intros Hi Ho. assert (OK : forall l i (p : Port), Forall port_ok l -> nth_error l i = Some p -> byte_ok (P_Type p)).
  { intros l i p Hl E. apply nth_error_In in E. rewrite Forall_forall in Hl. apply Hl in E. apply E. }
  induction is as [|i is IH]; cbn [validate_loop In].
  - split; [ intros _ i inp outp [] | reflexivity ].
  - destruct (nth_error (C_InputPorts c) i) as [inp|] eqn:Ei;
    [ destruct (nth_error (C_OutputPorts c) i) as [outp|] eqn:Eo | ].
    + rewrite (Type_name (P_Type inp)), (Type_name (P_Type outp)) by eauto.
      destruct (String.eqb_spec (protocol_name (P_Type inp)) (protocol_name (P_Type outp))) as [E|E]; cbn [negb].
      * rewrite IH. split; [ | eauto ]. intros H j inp' outp' [<-|Hj]; [ | eauto ]. congruence.
      * split; [ discriminate | ]. intros H. exfalso. apply E. apply (H i); auto.
    + rewrite IH. split; [ | eauto ]. intros H j inp' outp' [<-|Hj]; [ congruence | eauto ].
    + rewrite IH. split; [ | eauto ]. intros H j inp' outp' [<-|Hj]; [ congruence | eauto ].
Qed.

Theorem C32_validate_exact : forall c, wf_config c -> (validate c = None <-> valid_config c).
Proof.
  intros c Hc. destruct Hc as (_&_&_&_&_&_&_&_&_&_&_&_&_&_&_&_& Hi & Ho).
  unfold validate, valid_config, plen.
  destruct (N.ltb_spec 4 (N.of_nat (length (C_InputPorts c)))) as [H1|H1].
  { split; [ discriminate | intros (? & _); lia ]. }
  destruct (N.ltb_spec 4 (N.of_nat (length (C_OutputPorts c)))) as [H2|H2].
  { split; [ discriminate | intros (_ & ? & _); lia ]. }
  rewrite validate_loop_none by assumption. split.
  - intros H. split; [ lia | ]. split; [ lia | ]. intros i inp outp E1 E2. apply (H i); auto.
    assert (i < length (C_InputPorts c))%nat by (apply nth_error_Some; congruence). cbn. lia.
  - intros (_ & _ & H) i inp outp _. apply H.
Qed.

(** * C75 *)
(** What the user is told when Start refuses the configuration: the number of ports of the kind there are too many of, or
    the first pair of ports with the same index that are of different types, numbered from 1. *)
Definition too_many (kind : string) (n : nat) : string :=
  ("validation error: more than 4 " ++ kind ++ " ports configured (" ++ sprint_d (N.of_nat n) ++ ") for the node, this isn't supported by the library")%string.
Definition mismatch (i : nat) (inp outp : Port) : string :=
  ("validation error: the type (" ++ protocol_name (P_Type inp) ++ ") of input port " ++ sprint_d (N.of_nat (S i)) ++ " has a different type (" ++ protocol_name (P_Type outp) ++
   ") than output port " ++ sprint_d (N.of_nat (S i)) ++ ", input and output ports with the same index must have the same type")%string.
Definition first_mismatch (c : NodeConfig) (i : nat) (inp outp : Port) : Prop :=
  nth_error (C_InputPorts c) i = Some inp /\ nth_error (C_OutputPorts c) i = Some outp /\ protocol_name (P_Type inp) <> protocol_name (P_Type outp) /\
  forall j inp' outp', (j < i)%nat -> nth_error (C_InputPorts c) j = Some inp' -> nth_error (C_OutputPorts c) j = Some outp' -> protocol_name (P_Type inp') = protocol_name (P_Type outp').
Lemma validate_loop_first c e k n : Forall port_ok (C_InputPorts c) -> Forall port_ok (C_OutputPorts c) -> validate_loop c (seq k n) = Some e ->
  exists i inp outp, (k <= i)%nat /\ nth_error (C_InputPorts c) i = Some inp /\ nth_error (C_OutputPorts c) i = Some outp /\ protocol_name (P_Type inp) <> protocol_name (P_Type outp) /\
    (forall j inp' outp', (k <= j < i)%nat -> nth_error (C_InputPorts c) j = Some inp' -> nth_error (C_OutputPorts c) j = Some outp' -> protocol_name (P_Type inp') = protocol_name (P_Type outp')) /\
    cfgerr_Error e = mismatch i inp outp.
Proof.
  intros Hi Ho. assert (OK : forall l i (p : Port), Forall port_ok l -> nth_error l i = Some p -> byte_ok (P_Type p)).
  { intros l i p Hl E. apply nth_error_In in E. rewrite Forall_forall in Hl. apply Hl in E. apply E. }
  revert k. induction n as [|n IH]; intros k H; cbn [seq validate_loop] in H; [ discriminate | ].
  assert (Next : validate_loop c (seq (S k) n) = Some e ->
    (forall inp' outp', nth_error (C_InputPorts c) k = Some inp' -> nth_error (C_OutputPorts c) k = Some outp' -> protocol_name (P_Type inp') = protocol_name (P_Type outp')) ->
    exists i inp outp, (k <= i)%nat /\ nth_error (C_InputPorts c) i = Some inp /\ nth_error (C_OutputPorts c) i = Some outp /\ protocol_name (P_Type inp) <> protocol_name (P_Type outp) /\
    (forall j inp' outp', (k <= j < i)%nat -> nth_error (C_InputPorts c) j = Some inp' -> nth_error (C_OutputPorts c) j = Some outp' -> protocol_name (P_Type inp') = protocol_name (P_Type outp')) /\
    cfgerr_Error e = mismatch i inp outp).
  { intros H1 H2. destruct (IH (S k) H1) as (i & inp & outp & L & A1 & A2 & A3 & A4 & A5). exists i, inp, outp. repeat (split; [ first [ assumption | lia ] | ]). split; [ | exact A5 ].
    intros j inp' outp' Hj. destruct (Nat.eq_dec j k) as [->|Hn]; [ apply H2 | apply A4; lia ]. }
  destruct (nth_error (C_InputPorts c) k) as [inp|] eqn:Ei; [ destruct (nth_error (C_OutputPorts c) k) as [outp|] eqn:Eo | ].
  - rewrite (Type_name (P_Type inp)), (Type_name (P_Type outp)) in H by eauto.
    destruct (String.eqb_spec (protocol_name (P_Type inp)) (protocol_name (P_Type outp))) as [E|E]; cbn [negb] in H.
    + apply Next; [ exact H | ]. intros inp' outp' [= <-] [= <-]. exact E.
    + injection H as <-. exists k, inp, outp. repeat (split; [ first [ assumption | lia ] | ]).
      cbn [cfgerr_Error]. unfold mismatch. rewrite N.add_1_r, <- Nat2N.inj_succ. reflexivity.
  - apply Next; [ exact H | ]. intros inp' outp' _ K. discriminate.
  - apply Next; [ exact H | ]. intros inp' outp' K. discriminate.
Qed.
(** Refuted: for five output ports and no input port the message says 0. *)
Theorem C75_message_refuted : exists c e, wf_config c /\ length (C_InputPorts c) = 0%nat /\ length (C_OutputPorts c) = 5%nat /\ validate c = Some e /\
  cfgerr_Error e = too_many "output" 0 /\ cfgerr_Error e <> too_many "output" 5.
Proof.
  exists (mkConfig 0 0 0 [] 0 [] [] [] [] [] 0 0 [] 0 0 (0, 0) [] (repeat (mkPort (0, 0) 0x80 0) 5)), (errTooManyOutputs 0).
  split; [ repeat (split; [ repeat constructor | ]); repeat constructor | ]. repeat (split; [ reflexivity | ]). discriminate.
Qed.
(** Otherwise the message is right, and a configuration is refused for the first of the three reasons that applies. *)
Theorem C75_message_partial : forall c e, wf_config c -> validate c = Some e ->
  (4 < length (C_InputPorts c))%nat /\ cfgerr_Error e = too_many "input" (length (C_InputPorts c)) \/
  (length (C_InputPorts c) <= 4 /\ 4 < length (C_OutputPorts c))%nat /\ cfgerr_Error e = too_many "output" (length (C_InputPorts c)) \/
  (length (C_InputPorts c) <= 4 /\ length (C_OutputPorts c) <= 4)%nat /\ exists i inp outp, first_mismatch c i inp outp /\ cfgerr_Error e = mismatch i inp outp.
Proof.
  intros c e (_&_&_&_&_&_&_&_&_&_&_&_&_&_&_&_& Hi & Ho). unfold validate, plen. intros H.
  destruct (N.ltb_spec 4 (N.of_nat (length (C_InputPorts c)))) as [H1|H1]; [ injection H as <-; left; split; [ lia | reflexivity ] | right ].
  destruct (N.ltb_spec 4 (N.of_nat (length (C_OutputPorts c)))) as [H2|H2]; [ injection H as <-; left; split; [ lia | reflexivity ] | right ].
  split; [ lia | ]. destruct (validate_loop_first c e 0 4 Hi Ho H) as (i & inp & outp & _ & A1 & A2 & A3 & A4 & A5). exists i, inp, outp. split; [ | exact A5 ].
  repeat (split; [ assumption | ]). intros j inp' outp' Hj. apply A4. lia.
Qed.
Example C75_ex : exists c e, wf_config c /\ validate c = Some e /\
  cfgerr_Error e = "validation error: the type (MIDI) of input port 2 has a different type (DMX512) than output port 2, input and output ports with the same index must have the same type"%string.
Proof.
  exists (mkConfig 0 0 0 [] 0 [] [] [] [] [] 0 0 [] 0 0 (0, 0) [mkPort (0, 0) 0x40 0; mkPort (0, 0) 0x41 0] [mkPort (0, 0) 0x80 0; mkPort (0, 0) 0x80 0]). eexists.
  split; [ repeat (split; [ repeat constructor | ]); repeat constructor | ]. split; reflexivity.
Qed.

(** * C33 *)
Lemma nth_error_lt {A} (l : list A) i : (exists x, nth_error l i = Some x) <-> (i < length l)%nat.
Proof.
  rewrite <- nth_error_Some. destruct (nth_error l i); split; intros H; try congruence; eauto.
  destruct H as [x H]. discriminate H.
Qed.

(** The announced protocol number: unnamed protocols are announced as DMX512. *)
Definition announced_protocol (t : N) : N := if protocol t <=? 5 then protocol t else 0.

Lemma WithType_bits t fl : byte_ok t -> In fl [0x40; 0x80; 0xc0] ->
  PortType_WithType fl (PortType_Type t) = fl + announced_protocol t.
Proof.
  intros H Hf.
  pose proof (byte_cases (fun t => forallb (fun fl =>
     PortType_WithType fl (PortType_Type t) =? fl + announced_protocol t) [0x40; 0x80; 0xc0])
     ltac:(vm_compute; reflexivity) t H) as E. cbv beta in E.
  rewrite forallb_forall in E. apply E in Hf. apply N.eqb_eq. exact Hf.
Qed.

(** What PortTypes puts at index i. *)
Definition announced_type (c : NodeConfig) (i : nat) : N :=
  match nth_error (C_InputPorts c) i, nth_error (C_OutputPorts c) i with
  | None, None => 0
  | Some p, None => 0x40 + announced_protocol (P_Type p)
  | None, Some p => 0x80 + announced_protocol (P_Type p)
  | Some _, Some p => 0xc0 + announced_protocol (P_Type p)
  end.
Lemma PortTypes_at_eq c i : wf_config c -> PortTypes_at c i = announced_type c i.
Proof.
  intros Hc. destruct Hc as (_&_&_&_&_&_&_&_&_&_&_&_&_&_&_&_& Hi & Ho).
  assert (OK : forall l i (p : Port), Forall port_ok l -> nth_error l i = Some p -> byte_ok (P_Type p)).
  { intros l j p Hl E. apply nth_error_In in E. rewrite Forall_forall in Hl. apply Hl in E. apply E. }
  unfold PortTypes_at, announced_type. cbv zeta.
  destruct (nth_error (C_InputPorts c) i) as [inp|] eqn:Ei;
  destruct (nth_error (C_OutputPorts c) i) as [outp|] eqn:Eo; try reflexivity.
  - change (PortType_WithOutput (PortType_WithInput 0 true) true) with 0xc0. apply WithType_bits; [ eauto | cbn; auto ].
  - change (PortType_WithInput 0 true) with 0x40. apply WithType_bits; [ eauto | cbn; auto ].
  - change (PortType_WithOutput 0 true) with 0x80. apply WithType_bits; [ eauto | cbn; auto ].
Qed.
Lemma announced_protocol_small t : announced_protocol t <= 5.
Proof. unfold announced_protocol. destruct (N.leb_spec (protocol t) 5); lia. Qed.
Lemma announced_type_ok c i : byte_ok (announced_type c i).
Proof.
  unfold announced_type, byte_ok.
  destruct (nth_error (C_InputPorts c) i) as [inp|]; destruct (nth_error (C_OutputPorts c) i) as [outp|]; try lia;
  match goal with |- _ + announced_protocol ?t < _ => pose proof (announced_protocol_small t) end; lia.
Qed.
Lemma announced_bits t fl : In fl [0x40; 0x80; 0xc0] ->
  let x := fl + announced_protocol t in
  N.testbit x 6 = N.testbit fl 6 /\ N.testbit x 7 = N.testbit fl 7 /\ protocol x = announced_protocol t.
Proof.
  intros Hf. pose proof (announced_protocol_small t) as H. generalize dependent (announced_protocol t).
  intros k H. assert (k = 0 \/ k = 1 \/ k = 2 \/ k = 3 \/ k = 4 \/ k = 5) as C by lia.
  destruct Hf as [<-|[<-|[<-|[]]]]; repeat (destruct C as [->|C]; [ repeat split | ]); subst; repeat split.
Qed.
Lemma announced_type_flags c i :
  N.testbit (announced_type c i) 6 = (i <? length (C_InputPorts c))%nat /\
  N.testbit (announced_type c i) 7 = (i <? length (C_OutputPorts c))%nat.
Proof.
  unfold announced_type.
  destruct (nth_error (C_InputPorts c) i) as [inp|] eqn:Ei; destruct (nth_error (C_OutputPorts c) i) as [outp|] eqn:Eo.
  all: repeat match goal with
  | E : nth_error ?l ?j = Some _ |- _ =>
      assert (j < length l)%nat by (apply nth_error_Some; rewrite E; discriminate); clear E
  | E : nth_error ?l ?j = None |- _ => apply nth_error_None in E end.
  all: repeat match goal with
  | H : (?j < ?n)%nat |- context [(?j <? ?n)%nat] => rewrite (proj2 (Nat.ltb_lt j n) H)
  | H : (?n <= ?j)%nat |- context [(?j <? ?n)%nat] => rewrite (proj2 (Nat.ltb_ge j n) H) end.
  - destruct (announced_bits (P_Type outp) 0xc0) as (-> & -> & _); [ cbn; auto | split; reflexivity ].
  - destruct (announced_bits (P_Type inp) 0x40) as (-> & -> & _); [ cbn; auto | split; reflexivity ].
  - destruct (announced_bits (P_Type outp) 0x80) as (-> & -> & _); [ cbn; auto | split; reflexivity ].
  - split; reflexivity.
Qed.
Lemma PortTypes_eq c : wf_config c ->
  PortTypes c = map (announced_type c) [0; 1; 2; 3]%nat.
Proof. intros Hc. unfold PortTypes. apply map_ext. intros i. apply PortTypes_at_eq. assumption. Qed.

(** Refuted as stated: a port with one of the 26 unnamed protocol numbers is announced as DMX512. *)
Definition cfg0 : NodeConfig :=
  mkConfig 0x1122 0x3344 5 [] 0 [] [] [] [2; 0; 0; 1] [] 0 0 [] 0 0 (0, 0) [] [].
Definition with_ports (ins outs : list Port) : NodeConfig :=
  mkConfig 0x1122 0x3344 5 [] 0 [] [] [] [2; 0; 0; 1] [] 0 0 [] 0 0 (0, 0) ins outs.
Theorem C33_announced_ports_refuted :
  exists c p, wf_config c /\ validate c = None /\ C_OutputPorts c = [p] /\
    protocol_name (P_Type p) = "unknown"%string /\ protocol_name (nth 0 (PortTypes c) 0) = "DMX512"%string.
Proof.
  exists (with_ports [] [mkPort (0, 1) 6 0]), (mkPort (0, 1) 6 0).
  split; [ repeat (split; [ repeat constructor | ]); repeat constructor | ]. repeat split.
Qed.
(** Everything else in the statement. Missing: the protocol of unnamed types. *)
Theorem C33_announced_ports_partial : forall c, wf_config c -> validate c = None ->
  NumberOfPorts c = N.max (N.of_nat (length (C_InputPorts c))) (N.of_nat (length (C_OutputPorts c))) /\
  length (PortTypes c) = 4%nat /\
  forall i t, nth_error (PortTypes c) i = Some t ->
    (N.testbit t 6 = true <-> exists p, nth_error (C_InputPorts c) i = Some p) /\
    (N.testbit t 7 = true <-> exists p, nth_error (C_OutputPorts c) i = Some p) /\
    (forall p, nth_error (C_InputPorts c) i = Some p \/ nth_error (C_OutputPorts c) i = Some p ->
       announceable p -> protocol t = protocol (P_Type p)) /\
    (nth_error (C_InputPorts c) i = None -> nth_error (C_OutputPorts c) i = None -> t = 0).
Proof.
  intros c Hc Hv. pose proof Hv as Hv'. apply C32_validate_exact in Hv; [ | assumption ].
  destruct Hv as (L1 & L2 & Hm).
  split; [ | split; [ reflexivity | ] ].
  { unfold NumberOfPorts, plen, u16.
    destruct (N.ltb_spec (N.of_nat (length (C_OutputPorts c))) (N.of_nat (length (C_InputPorts c)))); rewrite N.mod_small by lia; lia. }
  intros i t Et. rewrite PortTypes_eq in Et by assumption.
  assert (Ei : (i < 4)%nat).
  { change 4%nat with (length (map (announced_type c) [0; 1; 2; 3]%nat)). apply nth_error_Some. congruence. }
  assert (t = announced_type c i) as ->.
  { assert (i = 0 \/ i = 1 \/ i = 2 \/ i = 3)%nat as C by lia.
    repeat (destruct C as [->|C]; [ cbn in Et; congruence | ]). subst. cbn in Et. congruence. }
  destruct (announced_type_flags c i) as [F6 F7]. rewrite F6, F7, !Nat.ltb_lt, !nth_error_lt.
  split; [ reflexivity | ]. split; [ reflexivity | ]. split.
  - intros p Hp Ha. unfold announceable in Ha.
    assert (AP : announced_protocol (P_Type p) = protocol (P_Type p)).
    { unfold announced_protocol. apply N.leb_le in Ha. rewrite Ha. reflexivity. }
    rewrite <- AP. unfold announced_type.
    destruct (nth_error (C_InputPorts c) i) as [inp|] eqn:Ei1; destruct (nth_error (C_OutputPorts c) i) as [outp|] eqn:Eo.
    + destruct (announced_bits (P_Type outp) 0xc0) as (_ & _ & ->); [ cbn; auto | ].
      destruct Hp as [Hp|Hp]; [ | congruence ]. injection Hp as ->.
      specialize (Hm i p outp Ei1 Eo). unfold protocol_name in Hm. unfold announced_protocol.
      apply N.leb_le in Ha. rewrite Ha. apply N.leb_le in Ha.
      assert (B : protocol (P_Type outp) < 32) by (apply N.mod_lt; discriminate).
      generalize dependent (protocol (P_Type outp)). generalize dependent (protocol (P_Type p)).
      clear. intros a Ha _ b Hm Hb.
      assert (a = 0 \/ a = 1 \/ a = 2 \/ a = 3 \/ a = 4 \/ a = 5) as C by lia.
      assert (D : b = 0 \/ b = 1 \/ b = 2 \/ b = 3 \/ b = 4 \/ b = 5 \/ 6 <= b) by lia.
      assert (U : 6 <= b -> nth (N.to_nat b) protocols "unknown"%string = "unknown"%string).
      { intros Hb6. apply nth_overflow. cbn. lia. }
      destruct C as [->|[->|[->|[->|[->| ->]]]]];
      (destruct D as [->|[->|[->|[->|[->|[->|D]]]]]]; [ try reflexivity; discriminate Hm .. | rewrite (U D) in Hm; discriminate Hm ]).
    + destruct (announced_bits (P_Type inp) 0x40) as (_ & _ & ->); [ cbn; auto | ]. destruct Hp as [Hp|Hp]; congruence.
    + destruct (announced_bits (P_Type outp) 0x80) as (_ & _ & ->); [ cbn; auto | ]. destruct Hp as [Hp|Hp]; congruence.
    + destruct Hp as [Hp|Hp]; congruence.
  - intros E1 E2. unfold announced_type. rewrite E1, E2. reflexivity.
Qed.
Definition sample_cfg : NodeConfig :=
  mkConfig 0x1122 0x3344 5 [65; 66] 0 [70; 71; 72] [80; 81] [1; 2; 3; 4; 5; 6] [10; 0; 0; 7] [10; 0; 0; 9] 3 6454
    [1] 4 6 (2, 0x30) [mkPort (2, 0x31) 0 0x80] [mkPort (2, 0x32) 0x80 0x80; mkPort (2, 0x33) 0x85 0].
Example sample_cfg_wf : wf_config sample_cfg.
Proof. repeat (split; [ repeat constructor | ]). repeat constructor. Qed.
Example sample_cfg_valid : validate sample_cfg = None /\ NumberOfPorts sample_cfg = 2 /\
  PortTypes sample_cfg = [0xc0; 0x85; 0; 0].
Proof. repeat split. Qed.

(** * C34 *)

(** The announcement is a well-typed reply ... *)
Lemma announcement_wf c : wf_config c -> wf_PollReply (ArtPollReplyFromConfig c).
Proof.
  intros Hc. pose proof Hc as Hc'.
  destruct Hc as (?&?&?&?&?&?&?&?&?&?&?&?&?&?&?&[? ?]& Hi & Ho).
  unfold wf_PollReply, ArtPollReplyFromConfig.
  cbn [PollReply_ID PollReply_OpCode PollReply_IPAddress PollReply_Port PollReply_VersionInfo
      PollReply_NetSwitch PollReply_SubSwitch PollReply_Oem PollReply_UBEAVersion PollReply_Status1
      PollReply_ESTAmanufacturer PollReply_ShortName PollReply_LongName PollReply_NodeReport
      PollReply_NumPorts PollReply_PortTypes PollReply_GoodInput PollReply_GoodOutput PollReply_SwIn
      PollReply_SwOut PollReply_SwVideo PollReply_SwMacro PollReply_SwRemote PollReply_Style
      PollReply_Macaddress PollReply_BindIP PollReply_BindIndex PollReply_Status2].
  assert (Z : forall n, array_ok n (zeros n)) by (intros n; split; [ apply len_zeros | apply bytes_ok_zeros ]).
  repeat match goal with |- _ /\ _ => split end;
    first [ apply go_copy_array; first [ assumption | apply To4_ok; assumption ] | apply Z | assumption | reflexivity | idtac ].
  - unfold NumberOfPorts, u16, word_ok. destruct (_ <? _); apply N.mod_lt; discriminate.
  - rewrite PortTypes_eq by assumption. split; [ reflexivity | ].
    repeat (apply Forall_cons; [ apply announced_type_ok | ]). apply Forall_nil.
Qed.

(** ... and a peer that receives it obtains the configuration [cfg]. *)
Definition discovered (c cfg : NodeConfig) : Prop :=
  exists b q, snd (PollReply_MarshalBinary (ArtPollReplyFromConfig c)) = Ok b /\
    Unmarshal b = Ret (Some (PktPollReply q), None) /\ ConfigFromArtPollReply q = Ret cfg.

(** ** The ports of a reply (C37) *)

(** The universe the library computes for switch value sw. *)
Definition reply_port (p : ArtPollReplyPacket) (sw good : list N) (i : nat) : Port :=
  mkPort (PollReply_NetSwitch p, N.lor (PollReply_SubSwitch p) (nth i sw 0))
         (nth i (PollReply_PortTypes p) 0) (nth i good 0).
(** The indices below min(NumPorts, 4) whose port type has bit k, in order. *)
Definition flagged (p : ArtPollReplyPacket) (k : N) : list nat :=
  filter (fun i => (N.of_nat i <? PollReply_NumPorts p) && N.testbit (nth i (PollReply_PortTypes p) 0) k)
    [0; 1; 2; 3]%nat.

Lemma index_nth l i n : len l = n -> (N.of_nat i < n) -> go_index l i = Ret (nth i l 0).
Proof.
  intros H Hi. unfold go_index. destruct (nth_error l i) eqn:E.
  - f_equal. symmetry. apply nth_error_nth. exact E.
  - apply nth_error_None in E. unfold len in H. lia.
Qed.

Lemma cfg_loop_eq p : wf_PollReply p ->
  forall is st, Forall (fun i => i < 4)%nat is -> Sorted.StronglySorted lt is ->
  let pick k := filter (fun i => (N.of_nat i <? PollReply_NumPorts p) && N.testbit (nth i (PollReply_PortTypes p) 0) k) is in
  cfg_loop p (PollReply_NetSwitch p, PollReply_SubSwitch p) is st =
  Ret (fst st ++ map (reply_port p (PollReply_SwOut p) (PollReply_GoodOutput p)) (pick 7),
       snd st ++ map (reply_port p (PollReply_SwIn p) (PollReply_GoodInput p)) (pick 6)).
Proof.
  intros Hp. unfold wf_PollReply in Hp.
  destruct Hp as (_&_&_&_&_&_&_&_&_&_&_&_&_&_&_&[Hpt _]&[Hgi _]&[Hgo _]&[Hsi _]&[Hso _]&_).
  induction is as [|i is IH]; intros st Hf Hs.
  - cbn. destruct st. rewrite !app_nil_r. reflexivity.
  - inversion Hf as [|? ? Hi4 Hf']; subst. inversion Hs as [|? ? Hs' Hlt]; subst.
    cbn [cfg_loop filter]. destruct (N.ltb_spec (N.of_nat i) (PollReply_NumPorts p)) as [H|H].
    + unfold cfg_body. destruct st as [outs ins].
      rewrite (index_nth _ i 4 Hpt), (index_nth _ i 4 Hgi), (index_nth _ i 4 Hgo),
              (index_nth _ i 4 Hsi), (index_nth _ i 4 Hso) by lia.
      cbn [bind]. unfold PortType_Output, PortType_Input. rewrite !get_bit_eq by reflexivity.
      cbn [andb].
      destruct (N.testbit (nth i (PollReply_PortTypes p) 0) 7);
      destruct (N.testbit (nth i (PollReply_PortTypes p) 0) 6); cbn [bind];
      rewrite IH by assumption; cbn [fst snd map]; rewrite <- ?app_assoc; reflexivity.
    + cbn [andb]. assert (E : forall k, filter (fun i => (N.of_nat i <? PollReply_NumPorts p) &&
          N.testbit (nth i (PollReply_PortTypes p) 0) k) is = []).
      { intros k. clear -H Hlt. induction is as [|j is IH]; [ reflexivity | ]. cbn [filter].
        inversion Hlt; subst. destruct (N.ltb_spec (N.of_nat j) (PollReply_NumPorts p)); [ lia | ]. apply IH. assumption. }
      rewrite !E. cbn. destruct st. rewrite !app_nil_r. reflexivity.
Qed.

Lemma config_from_reply p : wf_PollReply p ->
  exists cfg, ConfigFromArtPollReply p = Ret cfg /\
    cfg = mkConfig (PollReply_Oem p) (PollReply_VersionInfo p) (PollReply_UBEAVersion p)
      (decodeString (PollReply_ESTAmanufacturer p)) (PollReply_Style p) (decodeString (PollReply_ShortName p))
      (decodeString (PollReply_LongName p)) (PollReply_Macaddress p) (PollReply_IPAddress p) (PollReply_BindIP p)
      (PollReply_BindIndex p) (PollReply_Port p) (PollReply_NodeReport p) (PollReply_Status1 p) (PollReply_Status2 p)
      (PollReply_NetSwitch p, PollReply_SubSwitch p)
      (map (reply_port p (PollReply_SwIn p) (PollReply_GoodInput p)) (flagged p 6))
      (map (reply_port p (PollReply_SwOut p) (PollReply_GoodOutput p)) (flagged p 7)).
Proof.
  intros Hp. eexists. split; [ | reflexivity ].
  unfold ConfigFromArtPollReply. cbv zeta. rewrite (cfg_loop_eq p Hp).
  - reflexivity.
  - repeat constructor.
  - repeat constructor.
Qed.

Theorem C37_reply_ports_exact : forall p, wf_PollReply p ->
  exists cfg, ConfigFromArtPollReply p = Ret cfg /\
    C_OutputPorts cfg = map (reply_port p (PollReply_SwOut p) (PollReply_GoodOutput p)) (flagged p 7) /\
    C_InputPorts cfg = map (reply_port p (PollReply_SwIn p) (PollReply_GoodInput p)) (flagged p 6).
Proof.
  intros p Hp. destruct (config_from_reply p Hp) as (cfg & E & ->). eexists. split; [ exact E | ]. split; reflexivity.
Qed.
Theorem C37_reply_other_fields : forall p, wf_PollReply p ->
  exists cfg, ConfigFromArtPollReply p = Ret cfg /\
    C_OEM cfg = PollReply_Oem p /\ C_Version cfg = PollReply_VersionInfo p /\
    C_BiosVersion cfg = PollReply_UBEAVersion p /\ C_Type cfg = PollReply_Style p /\
    C_Ethernet cfg = PollReply_Macaddress p /\ C_IP cfg = PollReply_IPAddress p /\
    C_BindIP cfg = PollReply_BindIP p /\ C_BindIndex cfg = PollReply_BindIndex p /\ C_Port cfg = PollReply_Port p /\
    C_Report cfg = PollReply_NodeReport p /\ C_Status1 cfg = PollReply_Status1 p /\
    C_Status2 cfg = PollReply_Status2 p /\ C_BaseAddress cfg = (PollReply_NetSwitch p, PollReply_SubSwitch p).
Proof.
  intros p Hp. destruct (config_from_reply p Hp) as (cfg & E & ->). eexists. split; [ exact E | ]. repeat split.
Qed.
Definition sample_discovery : ArtPollReplyPacket :=
  mkPollReply (zeros 8) 0x2100 [192; 168; 1; 20] 6454 0x0102 3 0x40 0x0506 7 8 [9; 10]
    ([83; 104] ++ zeros 16) ([76] ++ zeros 63) ([35] ++ zeros 63) 60000
    [0x80; 0x41; 0xc2; 0x03] [20; 21; 22; 23] [30; 31; 32; 33] [1; 2; 3; 4] [5; 6; 7; 8]
    40 41 42 1 [50; 51; 52; 53; 54; 55] [10; 0; 0; 1] 60 61.
Example C37_ex : exists cfg, ConfigFromArtPollReply sample_discovery = Ret cfg /\
  C_OutputPorts cfg = [mkPort (3, 0x45) 0x80 30; mkPort (3, 0x47) 0xc2 32] /\
  C_InputPorts cfg = [mkPort (3, 0x42) 0x41 21; mkPort (3, 0x43) 0xc2 22].
Proof. eexists. split; [ vm_compute; reflexivity | ]. split; reflexivity. Qed.

(** ** C34 proper *)
Lemma discovery c : wf_config c -> C_Type c <= 6 ->
  let p := PollReply_set (ArtPollReplyFromConfig c) magic 0x2100 6454 in
  exists cfg, discovered c cfg /\ ConfigFromArtPollReply p = Ret cfg /\ wf_PollReply p.
Proof.
  intros Hc Ht p. pose proof (announcement_wf c Hc) as Hw.
  destruct (marshal_unmarshal (PktPollReply (ArtPollReplyFromConfig c)) Hw (conj eq_refl Ht)) as (b & Hm & _ & _ & Hu).
  assert (Hwp : wf_PollReply p).
  { revert Hw. unfold wf_PollReply, p, PollReply_set.
    cbn [PollReply_ID PollReply_OpCode PollReply_IPAddress PollReply_Port PollReply_VersionInfo
      PollReply_NetSwitch PollReply_SubSwitch PollReply_Oem PollReply_UBEAVersion PollReply_Status1
      PollReply_ESTAmanufacturer PollReply_ShortName PollReply_LongName PollReply_NodeReport
      PollReply_NumPorts PollReply_PortTypes PollReply_GoodInput PollReply_GoodOutput PollReply_SwIn
      PollReply_SwOut PollReply_SwVideo PollReply_SwMacro PollReply_SwRemote PollReply_Style
      PollReply_Macaddress PollReply_BindIP PollReply_BindIndex PollReply_Status2].
    intros (_ & _ & H1 & _ & H2). split; [ split; [ reflexivity | repeat constructor ] | ].
    split; [ reflexivity | ]. split; [ exact H1 | ]. split; [ reflexivity | exact H2 ]. }
  destruct (config_from_reply p Hwp) as (cfg & Ec & _).
  exists cfg. split; [ | split; assumption ].
  exists b, p. split; [ exact Hm | ]. split; [ exact Hu | exact Ec ].
Qed.

Lemma discovered_fun c a b : discovered c a -> discovered c b -> a = b.
Proof. intros (x & p & H1 & H2 & H3) (y & q & H4 & H5 & H6). congruence. Qed.

Theorem C34_identity_survives : forall c, wf_config c -> C_Type c <= 6 ->
  len (To4 (C_IP c)) = 4 -> len (To4 (C_BindIP c)) = 4 -> len (C_Ethernet c) = 6 ->
  exists cfg, discovered c cfg /\
    C_OEM cfg = C_OEM c /\ C_Version cfg = C_Version c /\ C_BiosVersion cfg = C_BiosVersion c /\
    C_Type cfg = C_Type c /\ C_BindIndex cfg = C_BindIndex c /\ C_Status1 cfg = C_Status1 c /\
    C_Status2 cfg = C_Status2 c /\ C_BaseAddress cfg = C_BaseAddress c /\ C_IP cfg = To4 (C_IP c) /\
    C_BindIP cfg = To4 (C_BindIP c) /\ C_Ethernet cfg = C_Ethernet c /\ C_Port cfg = 6454.
Proof.
  intros c Hc Ht Hip Hbip Hmac. destruct (discovery c Hc Ht) as (cfg & Hd & Ec & Hw).
  exists cfg. split; [ exact Hd | ].
  destruct (config_from_reply _ Hw) as (cfg' & Ec' & E'). assert (cfg' = cfg) as -> by congruence. subst cfg.
  unfold PollReply_set, ArtPollReplyFromConfig.
  cbn [C_OEM C_Version C_BiosVersion C_Type C_BindIndex C_Status1 C_Status2 C_BaseAddress C_IP C_BindIP C_Ethernet C_Port
      PollReply_IPAddress PollReply_Port PollReply_VersionInfo
      PollReply_NetSwitch PollReply_SubSwitch PollReply_Oem PollReply_UBEAVersion PollReply_Status1
      PollReply_Style PollReply_Macaddress PollReply_BindIP PollReply_BindIndex PollReply_Status2].
  rewrite !go_copy_full by assumption. repeat split. destruct (C_BaseAddress c); reflexivity.
Qed.
Example C34_ex : len (To4 (C_IP sample_cfg)) = 4 /\ len (To4 (C_BindIP sample_cfg)) = 4 /\ len (C_Ethernet sample_cfg) = 6 /\
  To4 ([0;0;0;0;0;0;0;0;0;0;0xff;0xff;10;0;0;1]) = [10;0;0;1].
Proof. repeat split. Qed.

(** * C35 *)
Definition ascii_text (s : list N) : Prop := Forall (fun c => 0 < c < 128) s.

Lemma decode_zeros n : decodeString (zeros n) = [].
Proof. unfold zeros. destruct (N.to_nat n); reflexivity. Qed.
Lemma utf8_nonzero c : c <> 0 -> ~ In 0 (utf8_of_byte c).
Proof.
  intros H. unfold utf8_of_byte. destruct (c <? 0x80); cbn [In]; [ intuition congruence | ].
  intros [E|[E|[]]]; apply N.lor_eq_0_iff in E; destruct E; discriminate.
Qed.
Lemma decode_nonzero s : ~ In 0 (decodeString s).
Proof.
  induction s as [|c s IH]; cbn; [ tauto | ]. destruct (N.eqb_spec c 0); [ cbn; tauto | ].
  rewrite in_app_iff. intros [H|H]; [ revert H; apply utf8_nonzero; assumption | contradiction ].
Qed.
Lemma decode_longer s k : ~ In 0 s -> (length s <= length (decodeString (s ++ zeros k)))%nat /\
  (length (decodeString (s ++ zeros k)) = length s -> Forall (fun c => 0 < c < 128) s).
Proof.
  induction s as [|c s IH]; intros H; cbn [length app].
  - split; [ lia | intros _; constructor ].
  - cbn [decodeString]. cbn in H. destruct (N.eqb_spec c 0); [ subst; exfalso; tauto | ].
    destruct IH as [IH1 IH2]; [ tauto | ]. rewrite app_length. unfold utf8_of_byte.
    destruct (N.ltb_spec c 0x80); cbn [length].
    + split; [ lia | ]. intros E. constructor; [ lia | apply IH2; lia ].
    + split; [ lia | ]. intros E. lia.
Qed.
Lemma decode_ascii s k : ascii_text s -> decodeString (s ++ zeros k) = s.
Proof.
  induction 1 as [|c s Hc Hs IH]; cbn [app]; [ apply decode_zeros | ].
  cbn [decodeString]. destruct (N.eqb_spec c 0); [ lia | ]. unfold utf8_of_byte.
  destruct (N.ltb_spec c 0x80); [ cbn [app]; f_equal; exact IH | lia ].
Qed.
Lemma decode_exact s k : decodeString (s ++ zeros k) = s <-> ascii_text s.
Proof.
  split; [ | apply decode_ascii ]. intros H.
  assert (Hz : ~ In 0 s) by (rewrite <- H; apply decode_nonzero).
  apply (decode_longer s k Hz). rewrite H. reflexivity.
Qed.

(** Refuted: a node called e-acute (UTF-8 c3 a9) is discovered under another name; a name with an
    embedded NUL is cut. *)
Theorem C35_names_refuted :
  (exists c cfg, wf_config c /\ C_Type c <= 6 /\ discovered c cfg /\ len (C_Name c) <= 18 /\ C_Name c = [0xc3; 0xa9] /\
     C_Name cfg = [0xc3; 0x83; 0xc2; 0xa9]) /\
  (exists c cfg, wf_config c /\ C_Type c <= 6 /\ discovered c cfg /\ len (C_Name c) <= 18 /\ C_Name c = [65; 0; 66] /\
     C_Name cfg = [65]).
Proof.
  assert (W : forall n, bytes_ok n -> wf_config (mkConfig 0 0 0 [] 0 n [] [] [2; 0; 0; 1] [] 0 0 [] 0 0 (0, 0) [] [])).
  { intros n Hn. repeat (split; [ first [ exact Hn | repeat constructor ] | ]). constructor. }
  assert (B1 : bytes_ok [0xc3; 0xa9]) by repeat constructor.
  assert (B2 : bytes_ok [65; 0; 66]) by repeat constructor.
  split.
  - destruct (discovery _ (W _ B1)) as (cfg & Hd & Ec & _); [ discriminate | ].
    exists (mkConfig 0 0 0 [] 0 [0xc3; 0xa9] [] [] [2; 0; 0; 1] [] 0 0 [] 0 0 (0, 0) [] []), cfg.
    split; [ apply W; assumption | ]. split; [ discriminate | ]. split; [ exact Hd | ].
    split; [ discriminate | ]. split; [ reflexivity | ].
    vm_compute in Ec. injection Ec as <-. reflexivity.
  - destruct (discovery _ (W _ B2)) as (cfg & Hd & Ec & _); [ discriminate | ].
    exists (mkConfig 0 0 0 [] 0 [65; 0; 66] [] [] [2; 0; 0; 1] [] 0 0 [] 0 0 (0, 0) [] []), cfg.
    split; [ apply W; assumption | ]. split; [ discriminate | ]. split; [ exact Hd | ].
    split; [ discriminate | ]. split; [ reflexivity | ].
    vm_compute in Ec. injection Ec as <-. reflexivity.
Qed.
(** Exact: the three strings survive iff their (truncated) contents are NUL-free ASCII. *)
Theorem C35_names_partial : forall c, wf_config c -> C_Type c <= 6 ->
  exists cfg, discovered c cfg /\
    (C_Name cfg = firstn 18 (C_Name c) <-> ascii_text (firstn 18 (C_Name c))) /\
    (C_Description cfg = firstn 64 (C_Description c) <-> ascii_text (firstn 64 (C_Description c))) /\
    (C_Manufacturer cfg = firstn 2 (C_Manufacturer c) <-> ascii_text (firstn 2 (C_Manufacturer c))).
Proof.
  intros c Hc Ht. destruct (discovery c Hc Ht) as (cfg & Hd & Ec & Hw).
  exists cfg. split; [ exact Hd | ].
  destruct (config_from_reply _ Hw) as (cfg' & Ec' & E'). assert (cfg' = cfg) as -> by congruence. subst cfg.
  unfold PollReply_set, ArtPollReplyFromConfig.
  cbn [C_Name C_Description C_Manufacturer PollReply_ESTAmanufacturer PollReply_ShortName PollReply_LongName].
  rewrite !go_copy_zeros, !decode_exact. repeat split; auto.
Qed.
Example C35_ex : ascii_text (firstn 18 (C_Name sample_cfg)) /\ C_Name sample_cfg = [70; 71; 72].
Proof. split; [ | reflexivity ]. repeat constructor. Qed.

(** * C36 *)
(** What is discovered of the ports: their number, order and (named) protocol; every one of them at
    the node's base address and with status 0. *)
Definition seen_ports (c : NodeConfig) (l : list Port) : list Port :=
  map (fun i => mkPort (C_BaseAddress c) (announced_type c i) 0) (seq 0 (length l)).

Lemma flagged_eq c k (l : list Port) (p : ArtPollReplyPacket) : wf_config c -> valid_config c -> (length l <= 4)%nat ->
  PollReply_PortTypes p = map (announced_type c) [0; 1; 2; 3]%nat ->
  PollReply_NumPorts p = N.max (N.of_nat (length (C_InputPorts c))) (N.of_nat (length (C_OutputPorts c))) ->
  (N.of_nat (length l) <= PollReply_NumPorts p) ->
  (forall i, N.testbit (announced_type c i) k = (i <? length l)%nat) ->
  flagged p k = seq 0 (length l).
Proof.
  intros Hc Hv Hl Ept En Hle Hk. unfold flagged. rewrite Ept.
  assert (E : forall i, (i < 4)%nat -> nth i (map (announced_type c) [0; 1; 2; 3]%nat) 0 = announced_type c i).
  { intros i Hi. assert (i = 0 \/ i = 1 \/ i = 2 \/ i = 3)%nat as C by lia.
    repeat (destruct C as [->|C]; [ reflexivity | ]). subst. reflexivity. }
  assert (F : forall i, (i < 4)%nat -> (N.of_nat i <? PollReply_NumPorts p) &&
     N.testbit (nth i (map (announced_type c) [0; 1; 2; 3]%nat) 0) k = (i <? length l)%nat).
  { intros i Hi. rewrite E, Hk by assumption. destruct (Nat.ltb_spec i (length l)); [ | apply andb_false_r ].
    rewrite andb_true_r. apply N.ltb_lt. lia. }
  cbn [filter]. rewrite (F 0%nat), (F 1%nat), (F 2%nat), (F 3%nat) by lia.
  destruct (length l) as [|[|[|[|[|n]]]]]; try reflexivity. lia.
Qed.

Lemma nth_zeros4 i : nth i (zeros 4) 0 = 0.
Proof. do 5 (destruct i as [|i]; [ reflexivity | ]). reflexivity. Qed.

Lemma map_ext_in_seq {A} (f g : nat -> A) n : (forall i, (i < n)%nat -> f i = g i) -> map f (seq 0 n) = map g (seq 0 n).
Proof. intros H. apply map_ext_in. intros i Hi. apply in_seq in Hi. apply H. lia. Qed.

Theorem C36_ports_seen_partial : forall c, wf_config c -> validate c = None -> C_Type c <= 6 ->
  exists cfg, discovered c cfg /\
    C_InputPorts cfg = seen_ports c (C_InputPorts c) /\ C_OutputPorts cfg = seen_ports c (C_OutputPorts c).
Proof.
  intros c Hc Hv Ht. destruct (discovery c Hc Ht) as (cfg & Hd & Ec & Hw).
  exists cfg. split; [ exact Hd | ].
  destruct (config_from_reply _ Hw) as (cfg' & Ec' & E'). assert (cfg' = cfg) as -> by congruence. subst cfg.
  destruct (C33_announced_ports_partial c Hc Hv) as (En & _).
  pose proof Hv as Hval. apply C32_validate_exact in Hval; [ | assumption ].
  cbn [C_InputPorts C_OutputPorts]. unfold seen_ports.
  assert (Ept : PollReply_PortTypes (PollReply_set (ArtPollReplyFromConfig c) magic 0x2100 6454)
              = map (announced_type c) [0; 1; 2; 3]%nat) by (apply PortTypes_eq; assumption).
  assert (Enp : PollReply_NumPorts (PollReply_set (ArtPollReplyFromConfig c) magic 0x2100 6454)
              = NumberOfPorts c) by reflexivity.
  rewrite En in Enp.
  assert (G : forall k (l : list Port) sw good, (length l <= 4)%nat -> sw = zeros 4 -> good = zeros 4 ->
     N.of_nat (length l) <= N.max (N.of_nat (length (C_InputPorts c))) (N.of_nat (length (C_OutputPorts c))) ->
     (forall i, N.testbit (announced_type c i) k = (i <? length l)%nat) ->
     map (reply_port (PollReply_set (ArtPollReplyFromConfig c) magic 0x2100 6454) sw good)
         (flagged (PollReply_set (ArtPollReplyFromConfig c) magic 0x2100 6454) k) =
     map (fun i => mkPort (C_BaseAddress c) (announced_type c i) 0) (seq 0 (length l))).
  { intros k l sw good Hl -> -> Hle Hk.
    rewrite (flagged_eq c k l _ Hc Hval Hl Ept Enp) by (rewrite ?Enp; assumption).
    apply map_ext_in_seq. intros i Hi. unfold reply_port. rewrite Ept, nth_zeros4.
    change (PollReply_NetSwitch _) with (fst (C_BaseAddress c)).
    change (PollReply_SubSwitch _) with (snd (C_BaseAddress c)). rewrite N.lor_0_r, <- surjective_pairing.
    f_equal. assert (i = 0 \/ i = 1 \/ i = 2 \/ i = 3)%nat as C by lia.
    repeat (destruct C as [->|C]; [ reflexivity | ]). subst. reflexivity. }
  destruct Hval as (L1 & L2 & _).
  split; apply G; try assumption; try reflexivity; try lia; intros i; apply announced_type_flags.
Qed.

(** Number and protocol names survive, given nameable protocols. *)
Theorem C36_ports_survive_partial : forall c, wf_config c -> validate c = None -> C_Type c <= 6 ->
  Forall announceable (C_InputPorts c) -> Forall announceable (C_OutputPorts c) ->
  exists cfg, discovered c cfg /\
    map (fun p => protocol (P_Type p)) (C_InputPorts cfg) = map (fun p => protocol (P_Type p)) (C_InputPorts c) /\
    map (fun p => protocol (P_Type p)) (C_OutputPorts cfg) = map (fun p => protocol (P_Type p)) (C_OutputPorts c).
Proof.
  intros c Hc Hv Ht Ai Ao. destruct (C36_ports_seen_partial c Hc Hv Ht) as (cfg & Hd & Ei & Eo).
  exists cfg. split; [ exact Hd | ]. rewrite Ei, Eo. unfold seen_ports. rewrite !map_map.
  destruct (C33_announced_ports_partial c Hc Hv) as (_ & _ & Hp).
  assert (Hv' := Hv). apply C32_validate_exact in Hv'; [ | assumption ]. destruct Hv' as (L1 & L2 & _).
  assert (G : forall l, (length l <= 4)%nat -> Forall announceable l ->
     (forall i p, nth_error l i = Some p -> nth_error (C_InputPorts c) i = Some p \/ nth_error (C_OutputPorts c) i = Some p) ->
     map (fun i => protocol (P_Type (mkPort (C_BaseAddress c) (announced_type c i) 0))) (seq 0 (length l)) =
     map (fun p => protocol (P_Type p)) l).
  { intros l Hl Ha Hin.
    assert (X : forall i p, nth_error l i = Some p -> protocol (announced_type c i) = protocol (P_Type p)).
    { intros i p E. assert (i < length l)%nat by (apply nth_error_Some; congruence).
      assert (Et : nth_error (PortTypes c) i = Some (announced_type c i)).
      { rewrite PortTypes_eq by assumption. assert (i = 0 \/ i = 1 \/ i = 2 \/ i = 3)%nat as C by lia.
        repeat (destruct C as [->|C]; [ reflexivity | ]). subst. reflexivity. }
      apply Hp in Et. destruct Et as (_ & _ & Et & _). apply Et; [ auto | ].
      rewrite Forall_forall in Ha. apply Ha. apply nth_error_In with i. assumption. }
    cbn [P_Type]. clear -X. revert X.
    assert (S : forall k, (forall i p, nth_error l i = Some p -> protocol (announced_type c (k + i)) = protocol (P_Type p)) ->
       map (fun i => protocol (announced_type c i)) (seq k (length l)) = map (fun p => protocol (P_Type p)) l).
    { induction l as [|x l IH]; intros k H; [ reflexivity | ]. cbn [length seq map]. f_equal.
      - specialize (H 0%nat x eq_refl). rewrite Nat.add_0_r in H. exact H.
      - apply IH. intros i p E. specialize (H (S i) p E). rewrite Nat.add_succ_r in H. exact H. }
    intros X. apply S. exact X. }
  split; apply G; auto.
Qed.

(** Refuted: two output ports on different universes are both discovered on the base universe, and
    statuses are lost. *)
Theorem C36_ports_survive_refuted : exists cfg, wf_config sample_cfg /\ validate sample_cfg = None /\ C_Type sample_cfg <= 6 /\
  discovered sample_cfg cfg /\
  map P_Address (C_OutputPorts sample_cfg) = [(2, 0x32); (2, 0x33)] /\
  map P_Address (C_OutputPorts cfg) = [(2, 0x30); (2, 0x30)] /\
  map P_Status (C_OutputPorts sample_cfg) = [0x80; 0] /\
  map P_Status (C_OutputPorts cfg) = [0; 0].
Proof.
  destruct (C36_ports_seen_partial sample_cfg sample_cfg_wf eq_refl) as (cfg & Hd & _ & Eo); [ discriminate | ].
  exists cfg. split; [ exact sample_cfg_wf | ]. split; [ reflexivity | ]. split; [ discriminate | ].
  split; [ exact Hd | ]. rewrite Eo. repeat split.
Qed.
Lemma list_ext {A} : forall l l' : list A, (forall i, nth_error l i = nth_error l' i) -> l = l'.
Proof.
  induction l as [|x l IH]; intros [|y l'] H; [ reflexivity | specialize (H 0%nat); discriminate H .. | ].
  f_equal; [ specialize (H 0%nat); injection H; auto | apply IH; intros i; exact (H (S i)) ].
Qed.
(** Ports of one direction are discovered as configured exactly when all of them sit on the base address
    with status 0 and the announced type byte; this holds for inputs and for outputs. *)
Definition as_announced (c : NodeConfig) (l : list Port) : Prop :=
  forall i p, nth_error l i = Some p -> P_Address p = C_BaseAddress c /\ P_Status p = 0 /\ P_Type p = announced_type c i.
Lemma seen_ports_same c l : seen_ports c l = l <-> as_announced c l.
Proof.
  unfold seen_ports, as_announced.
  assert (N : forall i, nth_error (map (fun i => mkPort (C_BaseAddress c) (announced_type c i) 0) (seq 0 (length l))) i
     = match nth_error l i with Some _ => Some (mkPort (C_BaseAddress c) (announced_type c i) 0) | None => None end).
  { intros i. rewrite nth_error_map.
    destruct (nth_error l i) eqn:E.
    - assert (i < length l)%nat by (apply nth_error_Some; congruence).
      rewrite (nth_error_nth' _ 0%nat) by (rewrite seq_length; assumption). rewrite seq_nth by assumption. reflexivity.
    - apply nth_error_None in E. rewrite (proj2 (nth_error_None _ _)) by (rewrite seq_length; assumption). reflexivity. }
  split.
  - intros H i p E. rewrite H in N. specialize (N i). rewrite E in N. injection N as ->. repeat split.
  - intros H. apply list_ext. intros i. rewrite N. specialize (H i).
    destruct (nth_error l i) as [p|]; [ | reflexivity ].
    destruct (H p eq_refl) as (<- & Hs & <-). destruct p; cbn in *. subst. reflexivity.
Qed.
Theorem C36_ports_exact_partial : forall c, wf_config c -> validate c = None -> C_Type c <= 6 ->
  exists cfg, discovered c cfg /\
    (C_InputPorts cfg = C_InputPorts c <-> as_announced c (C_InputPorts c)) /\
    (C_OutputPorts cfg = C_OutputPorts c <-> as_announced c (C_OutputPorts c)).
Proof.
  intros c Hc Hv Ht. destruct (C36_ports_seen_partial c Hc Hv Ht) as (cfg & Hd & Ei & Eo).
  exists cfg. split; [ exact Hd | ]. rewrite Ei, Eo. split; apply seen_ports_same.
Qed.
(** A node whose ports all survive: one slot used in both directions and a second output, on the base address. *)
Definition plain_cfg : NodeConfig :=
  mkConfig 0x1122 0x3344 5 [65; 66] 0 [70; 71; 72] [80; 81] [1; 2; 3; 4; 5; 6] [10; 0; 0; 7] [10; 0; 0; 9] 3 6454
    [1] 4 6 (2, 0x30) [mkPort (2, 0x30) 0xc5 0] [mkPort (2, 0x30) 0xc5 0; mkPort (2, 0x30) 0x80 0].
Example C36_ex : wf_config plain_cfg /\ validate plain_cfg = None /\ C_Type plain_cfg <= 6 /\
  as_announced plain_cfg (C_InputPorts plain_cfg) /\ as_announced plain_cfg (C_OutputPorts plain_cfg) /\
  ~ as_announced sample_cfg (C_InputPorts sample_cfg) /\ ~ as_announced sample_cfg (C_OutputPorts sample_cfg).
Proof.
  split; [ repeat (split; [ repeat constructor | ]); repeat constructor | ]. split; [ reflexivity | ]. split; [ discriminate | ].
  split; [ intros [|[|i]] p E; cbn in E; try discriminate E; injection E as <-; repeat split | ].
  split; [ intros [|[|[|i]]] p E; cbn in E; try discriminate E; injection E as <-; repeat split | ].
  split; intros H; destruct (H 0%nat _ eq_refl) as (H1 & _); discriminate H1.
Qed.

(** * C38 *)
Definition documented_universe (net sub sw : N) : N := (net mod 128) * 256 + (sub mod 16) * 16 + sw mod 16.
Theorem C38_universe_refuted : exists p cfg q, wf_PollReply p /\ ConfigFromArtPollReply p = Ret cfg /\
  C_OutputPorts cfg = [q] /\ PollReply_SubSwitch p = 1 /\ nth 0 (PollReply_SwOut p) 0 = 2 /\
  Address_Integer (P_Address q) = 0x003 /\ documented_universe 0 1 2 = 0x012.
Proof.
  set (p := mkPollReply (zeros 8) 0x2100 (zeros 4) 6454 0 0 1 0 0 0 (zeros 2) (zeros 18) (zeros 64) (zeros 64) 1
              [0x80; 0; 0; 0] (zeros 4) (zeros 4) (zeros 4) [2; 0; 0; 0] 0 0 0 0 (zeros 6) (zeros 4) 0 0).
  exists p. eexists. eexists. split.
  { unfold wf_PollReply, p, array_ok. cbn [PollReply_ID PollReply_OpCode PollReply_IPAddress PollReply_Port PollReply_VersionInfo
      PollReply_NetSwitch PollReply_SubSwitch PollReply_Oem PollReply_UBEAVersion PollReply_Status1
      PollReply_ESTAmanufacturer PollReply_ShortName PollReply_LongName PollReply_NodeReport
      PollReply_NumPorts PollReply_PortTypes PollReply_GoodInput PollReply_GoodOutput PollReply_SwIn
      PollReply_SwOut PollReply_SwVideo PollReply_SwMacro PollReply_SwRemote PollReply_Style
      PollReply_Macaddress PollReply_BindIP PollReply_BindIndex PollReply_Status2].
    repeat split; try reflexivity; try apply bytes_ok_zeros; try (repeat constructor; fail). }
  split; [ vm_compute; reflexivity | ]. split; [ reflexivity | ]. repeat split.
Qed.
(** For replies that follow the documentation (7-bit net, nibbles in the low bits) the universe is
    right exactly when SubSwitch is 0. *)
Theorem C38_universe_partial : forall net sub sw, net < 128 -> sub < 16 -> sw < 16 ->
  (Address_Integer (net, N.lor sub sw) = documented_universe net sub sw <-> sub = 0).
Proof.
  intros net sub sw Hn Hs Hw.
  assert (B : N.lor sub sw < 16).
  { assert (P := byte_cases (fun a => forallb (fun b => negb ((a <? 16) && (b <? 16)) || (N.lor a b <? 16)) all_bytes) ltac:(vm_compute; reflexivity) sub).
    cbv beta in P. assert (byte_ok sub) as Hb by (unfold byte_ok; lia). specialize (P Hb).
    rewrite forallb_forall in P. assert (I : In sw all_bytes).
    { unfold all_bytes. apply in_map_iff. exists (N.to_nat sw). split; [ apply N2Nat.id | apply in_seq; lia ]. }
    apply P in I. apply N.ltb_lt in Hs, Hw. rewrite Hs, Hw in I. cbn in I. apply N.ltb_lt. exact I. }
  rewrite (proj1 (C31_address_integer (net, N.lor sub sw) ltac:(split; unfold byte_ok; cbn [fst snd]; lia))).
  cbn [fst snd]. unfold documented_universe. rewrite !N.mod_small by lia. split.
  - intros H. lia.
  - intros ->. rewrite N.lor_0_l. lia.
Qed.
(** ... and it is what the ports of a discovered node carry. *)
Theorem C38_universe_ports_partial : forall p, wf_PollReply p -> PollReply_NetSwitch p < 128 -> PollReply_SubSwitch p = 0 ->
  Forall (fun x => x < 16) (PollReply_SwOut p) ->
  exists cfg, ConfigFromArtPollReply p = Ret cfg /\
    map (fun q => Address_Integer (P_Address q)) (C_OutputPorts cfg) =
    map (fun i => documented_universe (PollReply_NetSwitch p) 0 (nth i (PollReply_SwOut p) 0)) (flagged p 7).
Proof.
  intros p Hp Hn Hs Hw. destruct (C37_reply_ports_exact p Hp) as (cfg & E & Eo & _).
  exists cfg. split; [ exact E | ]. rewrite Eo, map_map. apply map_ext. intros i. unfold reply_port. cbn [P_Address].
  rewrite Hs. apply C38_universe_partial; [ assumption | reflexivity | | reflexivity ].
  destruct (nth_in_or_default i (PollReply_SwOut p) 0) as [I|I]; [ | rewrite I; reflexivity ].
  rewrite Forall_forall in Hw. apply Hw. exact I.
Qed.
Example C38_ex : exists cfg, ConfigFromArtPollReply
   (mkPollReply (zeros 8) 0x2100 (zeros 4) 6454 0 5 0 0 0 0 (zeros 2) (zeros 18) (zeros 64) (zeros 64) 1
              [0x80; 0; 0; 0] (zeros 4) (zeros 4) (zeros 4) [2; 0; 0; 0] 0 0 0 0 (zeros 6) (zeros 4) 0 0) = Ret cfg /\
   map (fun q => Address_Integer (P_Address q)) (C_OutputPorts cfg) = [0x502].
Proof. eexists. split; vm_compute; reflexivity. Qed.

(** * C39 *)
Lemma reply_bytes_at p : wf_PollReply p ->
  nth 200 (pollreply_bytes p) 0 = PollReply_Style p /\
  nth 14 (pollreply_bytes p) 0 = PollReply_Port p mod 256 /\ nth 15 (pollreply_bytes p) 0 = PollReply_Port p / 256 /\
  len (pollreply_bytes p) = 239 /\ firstn 8 (pollreply_bytes p) = magic /\ wire_opcode (pollreply_bytes p) = 0x2100.
Proof.
  intros H. assert (L : len (pollreply_bytes p) = 239).
  { unfold wf_PollReply in H. unfold pollreply_bytes, magic, be16, le16. use_wf.
    repeat rewrite ?len_app, ?len_cons, ?len_nil.
    repeat match goal with E : len _ = _ |- _ => rewrite E; clear E end. reflexivity. }
  unfold wf_PollReply in H.
  destruct H as (_&_&[H4 _]&_&_&_&_&_&_&_&[H2 _]&[H18 _]&[H64 _]&[H64' _]&_&[Ha _]&[Hb _]&[Hc _]&[Hd _]&[He _]&_).
  assert (A : forall x y n d, len x = n -> nth (N.to_nat n) (x ++ d :: y) 0 = d).
  { intros x y n d E. rewrite app_nth2; unfold len in E; [ | lia ]. replace (N.to_nat n - length x)%nat with 0%nat by lia. reflexivity. }
  split; [ | split; [ | split; [ | split; [ exact L | split; reflexivity ] ] ] ].
  - set (x := magic ++ [0x00; 0x21] ++ PollReply_IPAddress p ++ le16 (PollReply_Port p) ++
      be16 (PollReply_VersionInfo p) ++ [PollReply_NetSwitch p; PollReply_SubSwitch p] ++
      be16 (PollReply_Oem p) ++ [PollReply_UBEAVersion p; PollReply_Status1 p] ++
      PollReply_ESTAmanufacturer p ++ PollReply_ShortName p ++ PollReply_LongName p ++
      PollReply_NodeReport p ++ be16 (PollReply_NumPorts p) ++ PollReply_PortTypes p ++
      PollReply_GoodInput p ++ PollReply_GoodOutput p ++ PollReply_SwIn p ++ PollReply_SwOut p ++
      [PollReply_SwVideo p; PollReply_SwMacro p; PollReply_SwRemote p; 0; 0; 0]).
    assert (E : exists y, pollreply_bytes p = x ++ PollReply_Style p :: y).
    { eexists. unfold x, pollreply_bytes. repeat rewrite <- app_assoc. reflexivity. }
    destruct E as [y ->]. change 200%nat with (N.to_nat 200). apply A. unfold x, magic, be16, le16.
    repeat rewrite ?len_app, ?len_cons, ?len_nil.
    repeat match goal with E : len _ = _ |- _ => rewrite E; clear E end. reflexivity.
  - assert (E : exists y, pollreply_bytes p = (magic ++ [0x00; 0x21] ++ PollReply_IPAddress p) ++ (PollReply_Port p mod 256) :: y).
    { eexists. unfold pollreply_bytes, le16. repeat rewrite <- app_assoc. reflexivity. }
    destruct E as [y ->]. change 14%nat with (N.to_nat 14). apply A. rewrite !len_app, H4. reflexivity.
  - assert (E : exists y, pollreply_bytes p = (magic ++ [0x00; 0x21] ++ PollReply_IPAddress p ++ [PollReply_Port p mod 256]) ++ (PollReply_Port p / 256) :: y).
    { eexists. unfold pollreply_bytes, le16. repeat rewrite <- app_assoc. reflexivity. }
    destruct E as [y ->]. change 15%nat with (N.to_nat 15). apply A. rewrite !len_app, H4. reflexivity.
Qed.

(** Exact: an announcement is accepted iff the node's style is one of the seven documented ones. *)
Theorem C39_announcement_decodable_partial : forall c, wf_config c ->
  exists b, snd (PollReply_MarshalBinary (ArtPollReplyFromConfig c)) = Ok b /\
    ((exists q, Unmarshal b = Ret (Some q, None)) <-> C_Type c <= 6) /\
    (6 < C_Type c -> exists o, Unmarshal b = Ret (o, Some errInvalidStyleCode)).
Proof.
  intros c Hc. pose proof (announcement_wf c Hc) as Hw.
  assert (Hm : snd (PollReply_MarshalBinary (ArtPollReplyFromConfig c)) = Ok (pollreply_bytes (ArtPollReplyFromConfig c)))
    by exact (marshal_bytes (PktPollReply _) Hw).
  assert (Hb : bytes_ok (pollreply_bytes (ArtPollReplyFromConfig c))) by exact (packet_bytes_ok (PktPollReply _) Hw).
  eexists. split; [ exact Hm | ].
  assert (R : 6 < C_Type c -> exists o, Unmarshal (pollreply_bytes (ArtPollReplyFromConfig c)) = Ret (o, Some errInvalidStyleCode)).
  { intros Ht. apply Unmarshal_rejects; [ exact Hb | ].
    destruct (reply_bytes_at _ Hw) as (E1 & E2 & E3 & E4 & E5 & E6).
    apply WE_style.
    - split; [ rewrite E4; discriminate | ]. split; [ exact E5 | left; exact E6 ].
    - exact E6.
    - rewrite E4. apply N.le_refl.
    - rewrite E2, E3. right. reflexivity.
    - rewrite E1. exact Ht. }
  split; [ | exact R ]. split.
  - intros [q Hq]. destruct (N.le_gt_cases (C_Type c) 6) as [?|Ht]; [ assumption | ].
    destruct (R Ht) as [o Ho]. congruence.
  - intros Ht. destruct (marshal_unmarshal (PktPollReply (ArtPollReplyFromConfig c)) Hw (conj eq_refl Ht)) as (b & Hm' & -> & _ & Hu).
    eexists. exact Hu.
Qed.
Theorem C39_announcement_decodable_refuted : exists c b, wf_config c /\ validate c = None /\ C_Type c = 7 /\
  snd (PollReply_MarshalBinary (ArtPollReplyFromConfig c)) = Ok b /\
  exists o, Unmarshal b = Ret (o, Some errInvalidStyleCode).
Proof.
  set (c := mkConfig 0 0 0 [] 7 [] [] [] [2; 0; 0; 1] [] 0 0 [] 0 0 (0, 0) [] []).
  assert (W : wf_config c) by (repeat (split; [ repeat constructor | ]); constructor).
  destruct (C39_announcement_decodable_partial c W) as (b & Hm & _ & R).
  exists c, b. split; [ exact W | ]. split; [ reflexivity | ]. split; [ reflexivity | ]. split; [ exact Hm | ].
  apply R. reflexivity.
Qed.

Definition P_Config_theorems :=
  (C31_address_integer, C31_address_integer_injective, C31_address_string_injective, C32_validate_exact, C75_message_refuted, C75_message_partial, C75_ex,
   C33_announced_ports_refuted, C33_announced_ports_partial, C34_identity_survives, C35_names_refuted,
   C35_names_partial, C36_ports_seen_partial, C36_ports_survive_partial, C36_ports_survive_refuted,
   C36_ports_exact_partial, C37_reply_ports_exact, C37_reply_other_fields, C38_universe_refuted,
   C38_universe_partial, C38_universe_ports_partial, C39_announcement_decodable_partial,
   C39_announcement_decodable_refuted).
Print Assumptions P_Config_theorems.
