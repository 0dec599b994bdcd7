(** Property C101: the messages of the errors with which Unmarshal rejects a datagram. *)
From Coq Require Import HexadecimalString HexadecimalPos HexadecimalN Ascii String.
From Verif Require Import WireSpec DispatchFacts P_Codes P_Decode.
Open Scope list_scope.
Open Scope N_scope.

(** * Model *)
(** Go standard library, fmt: %#v for an unsigned integer type without a GoString method (code.OpCode has only String,
    packet/code/opcode_string.go:89) is 0x and the number in lower-case hexadecimal without leading zeros. *)
Definition sprint_x (x : N) : string := ("0x" ++ NilZero.string_of_uint (N.to_hex_uint x))%string.
(** The Error method of each error value: packet/header.go:17-21 and 86, packet/artpollreply.go:174, packet/packet.go:17, 70 and 72
    (%w inserts the message of the wrapped error), io.EOF and io.ErrUnexpectedEOF of the Go standard library. *)
Definition goerr_Error (e : goerr) : string :=
  (match e with
   | errIncorrectHeaderLength => "header length incorrect"
   | errInvalidPacket => "invalid Art-Net packet"
   | errInvalidOpCode => "invalid OpCode in packet"
   | errInvalidStyleCode => "invalid StyleCode in packet"
   | errIncompatibleVersion got => "incompatible version. want: =>14, got: " ++ sprint_d got
   | errInvalidPort got => "invalid port: want: " ++ sprint_d ArtNetPort ++ ", got: " ++ sprint_d got
   | errEOF => "EOF"
   | errUnexpectedEOF => "unexpected EOF"
   | errUnimplemented op => "unimplemented opcode " ++ sprint_x op ++ " found"
   | errNotImplementedOpCode op => "not implemented OpCode in packet " ++ sprint_x op
   | errInvalidOpCodeOf op => "invalid OpCode in packet " ++ sprint_x op
   end)%string.

(** * Specification *)
(** The digits 0-9 and a-f, and the number a string of them stands for in base [r]; [None] for any other string. *)
Definition digit (c : ascii) : option N :=
  let n := N_of_ascii c in
  if (48 <=? n) && (n <=? 57) then Some (n - 48) else if (97 <=? n) && (n <=? 102) then Some (n - 87) else None.
Fixpoint value (r acc : N) (s : string) : option N :=
  match s with
  | EmptyString => Some acc
  | String c s => match digit c with Some d => if d <? r then value r (r * acc + d) s else None | None => None end
  end.
(** [s] is the numeral of [n] in base [r], without leading zeros. *)
Definition numeral (r n : N) (s : string) : Prop :=
  value r 0 s = Some n /\ s <> ""%string /\ (forall t, s = String "0" t -> t = ""%string).
(** What the message says about the datagram: the first defect found, with the offending value of the datagram. The port of an
    ArtPollReply is transmitted low byte first. *)
Inductive says (b : list N) : string -> Prop :=
| S_short : len b < 12 -> says b "header length incorrect"
| S_not_artnet : 12 <= len b -> firstn 8 b <> magic -> says b "invalid Art-Net packet"
| S_version d : 12 <= len b -> firstn 8 b = magic -> wire_opcode b <> 0x2100 -> wire_version b < 14 -> numeral 10 (wire_version b) d ->
    says b ("incompatible version. want: =>14, got: " ++ d)
| S_input : header_ok b -> wire_opcode b = op_input -> says b "unimplemented opcode 0x7000 found"
| S_unsupported d : header_ok b -> In (wire_opcode b) ops_unsupported -> numeral 16 (wire_opcode b) d ->
    says b ("not implemented OpCode in packet 0x" ++ d)
| S_unknown d : header_ok b -> ~ In (wire_opcode b) ops_documented -> numeral 16 (wire_opcode b) d ->
    says b ("invalid OpCode in packet 0x" ++ d)
| S_truncated n : header_ok b -> fixed_size (wire_opcode b) n -> len b < n -> says b "unexpected EOF"
| S_dmx : header_ok b -> wire_opcode b = 0x5000 -> ~ (exists p, wire_accepts b p) -> says b "invalid Art-Net packet"
| S_esta : header_ok b -> wire_opcode b = 0x2400 -> 528 <= len b -> (nth 12 b 0 <> 0xff \/ nth 13 b 0 <> 0xff) -> says b "invalid Art-Net packet"
| S_port d : header_ok b -> wire_opcode b = 0x2100 -> 239 <= len b -> nth 14 b 0 + 256 * nth 15 b 0 <> 6454 -> numeral 10 (nth 14 b 0 + 256 * nth 15 b 0) d ->
    says b ("invalid port: want: 6454, got: " ++ d)
| S_style : header_ok b -> wire_opcode b = 0x2100 -> 239 <= len b -> 6 < nth 200 b 0 -> says b "invalid StyleCode in packet".

(** * Numerals *)
Definition numeralb (r n : N) (s : string) : bool :=
  match value r 0 s with Some m => m =? n | None => false end &&
  match s with EmptyString => false | String c t => negb (N_of_ascii c =? 48) || (match t with EmptyString => true | _ => false end) end.
Lemma numeralb_ok r n s : numeralb r n s = true -> numeral r n s.
Proof.
  unfold numeralb, numeral. intros H. apply andb_prop in H. destruct H as [H1 H2]. destruct (value r 0 s) as [m|]; [ | discriminate ]. apply N.eqb_eq in H1. subst m.
  split; [ reflexivity | ]. destruct s as [|c t]; [ discriminate | ]. split; [ discriminate | ]. intros t' [= -> ->]. cbn in H2. destruct t'; [ reflexivity | discriminate ].
Qed.
Fixpoint from (n : nat) (x : N) (P : N -> bool) : bool := match n with O => true | S n => P x && from n (N.succ x) P end.
Lemma from_ok n P : forall x, from n x P = true -> forall y, x <= y -> y < x + N.of_nat n -> P y = true.
Proof.
  induction n as [|n IH]; cbn [from]; intros x H y Hx Hy; [ lia | ]. apply andb_prop in H. destruct H as [H1 H2].
  destruct (N.eq_dec y x) as [->|D]; [ exact H1 | ]. apply (IH (N.succ x) H2); lia.
Qed.
(** All 65536 values of a uint16. *)
Lemma words (P : N -> bool) : from (N.to_nat 65536) 0 P = true -> forall x, word_ok x -> P x = true.
Proof. intros H x Hx. apply (from_ok _ _ _ H); unfold word_ok in Hx; lia. Qed.
Lemma sprint_d_words : from (N.to_nat 65536) 0 (fun x => numeralb 10 x (sprint_d x)) = true.
Proof. vm_compute. reflexivity. Qed.
Lemma sprint_x_words : from (N.to_nat 65536) 0 (fun x => numeralb 16 x (NilZero.string_of_uint (N.to_hex_uint x))) = true.
Proof. vm_compute. reflexivity. Qed.
Lemma sprint_d_numeral x : word_ok x -> numeral 10 x (sprint_d x).
Proof. intros H. apply numeralb_ok. exact (words _ sprint_d_words x H). Qed.
Lemma sprint_x_numeral x : word_ok x -> exists d, sprint_x x = ("0x" ++ d)%string /\ numeral 16 x d.
Proof.
  intros H. eexists. split; [ reflexivity | ]. apply numeralb_ok.
  exact (words _ sprint_x_words x H).
Qed.
Lemma numeral_unique r n m s : numeral r n s -> numeral r m s -> n = m.
Proof. intros [H _] [K _]. congruence. Qed.
Lemma sprint_x_inj x y : sprint_x x = sprint_x y -> x = y.
Proof.
  unfold sprint_x. intros H. apply append_inj_l in H.
  assert (E : forall u, u <> Hexadecimal.Nil -> NilZero.uint_of_string (NilZero.string_of_uint u) = Some u) by (intros; apply NilZero.usu; assumption).
  assert (NN : forall n, N.to_hex_uint n <> Hexadecimal.Nil).
  { intros n. destruct n; [ discriminate | ]. apply HexadecimalPos.Unsigned.to_uint_nonnil. }
  assert (EU : N.to_hex_uint x = N.to_hex_uint y). { pose proof (E _ (NN x)) as Ex. pose proof (E _ (NN y)) as Ey. rewrite H in Ex. congruence. }
  rewrite <- (HexadecimalN.Unsigned.of_to x), <- (HexadecimalN.Unsigned.of_to y). congruence.
Qed.
Lemma wire_opcode_word b : bytes_ok b -> word_ok (wire_opcode b).
Proof. intros H. pose proof (bytes_ok_nth b 8 H) as H1. pose proof (bytes_ok_nth b 9 H) as H2. unfold wire_opcode, word_ok, byte_ok in *. lia. Qed.

Lemma bytes_okb d : forallb (fun b => b <? 256) d = true -> bytes_ok d.
Proof. intros H. apply Forall_forall. rewrite forallb_forall in H. intros x Hx. apply N.ltb_lt. exact (H x Hx). Qed.

(** * C101 *)
(** Refuted: the port in the message is not the port of the reply but that port with its two bytes exchanged ... *)
Theorem C101_port_refuted : exists b o e, bytes_ok b /\ Unmarshal b = Ret (o, Some e) /\ wire_opcode b = 0x2100 /\ nth 14 b 0 + 256 * nth 15 b 0 = 1 /\
  goerr_Error e = "invalid port: want: 6454, got: 256"%string /\ ~ says b (goerr_Error e).
Proof.
  set (b := magic ++ [0; 0x21; 10; 0; 0; 1; 1; 0] ++ repeat 0 223). exists b. eexists _, (errInvalidPort 256).
  assert (Hb : bytes_ok b) by (apply bytes_okb; vm_compute; reflexivity).
  split; [ exact Hb | ]. split; [ vm_compute; reflexivity | ]. split; [ reflexivity | ]. split; [ reflexivity | ]. split; [ reflexivity | ].
  change (goerr_Error (errInvalidPort 256)) with "invalid port: want: 6454, got: 256"%string. intros H.
  remember "invalid port: want: 6454, got: 256"%string as t eqn:Et. destruct H; try discriminate Et.
  cbn in Et. injection Et as ->. destruct H3 as [H3 _]. vm_compute in H3. discriminate.
Qed.
(** ... and a datagram of the current version with the unknown opcode 0x0021 is reported as one of version 0. *)
Theorem C101_opcode_refuted : exists b o e, bytes_ok b /\ Unmarshal b = Ret (o, Some e) /\ wire_version b = 14 /\ wire_opcode b = 0x0021 /\
  goerr_Error e = "incompatible version. want: =>14, got: 0"%string /\ ~ says b (goerr_Error e).
Proof.
  set (b := magic ++ [0x21; 0; 0; 14; 0; 0]). exists b. eexists _, (errIncompatibleVersion 0).
  assert (Hb : bytes_ok b) by (apply bytes_okb; vm_compute; reflexivity).
  split; [ exact Hb | ]. split; [ vm_compute; reflexivity | ]. split; [ reflexivity | ]. split; [ reflexivity | ]. split; [ reflexivity | ].
  change (goerr_Error (errIncompatibleVersion 0)) with "incompatible version. want: =>14, got: 0"%string. intros H.
  remember "incompatible version. want: =>14, got: 0"%string as t eqn:Et. destruct H; try discriminate Et. vm_compute in H2. discriminate.
Qed.
(** Everything else is right: the message of every other rejection says what is wrong with the datagram, and the two wrong ones are
    exactly the above. Missing from the full statement: nothing else. *)
Theorem C101_says_partial : forall b o e, bytes_ok b -> Unmarshal b = Ret (o, Some e) ->
  says b (goerr_Error e) \/
  (wire_opcode b = 0x0021 /\ goerr_Error e = "incompatible version. want: =>14, got: 0"%string) \/
  (wire_opcode b = 0x2100 /\ nth 14 b 0 + 256 * nth 15 b 0 <> 6454 /\
   exists d, numeral 10 (256 * nth 14 b 0 + nth 15 b 0) d /\ goerr_Error e = ("invalid port: want: 6454, got: " ++ d)%string).
Proof.
  intros b o e Hb H. assert (W : wire_error b e). { apply Unmarshal_rejects; [ exact Hb | ]. exists o. exact H. }
  pose proof (wire_opcode_word b Hb) as Hop. assert (N14 : byte_ok (nth 14 b 0)) by (apply bytes_ok_nth; exact Hb). assert (N15 : byte_ok (nth 15 b 0)) by (apply bytes_ok_nth; exact Hb).
  destruct W as [W|W1 W2|W1 W2 W3 W4 W5|W1 W2 W3|W1 W2|W1 W2|W1 W2|n W1 W2 W3|W1 W2 W3|l W1 W2 W3 W4 W5|W1 W2 W3 W4|port W1 W2 W3 W4 W5 W6|W1 W2 W3 W4 W5]; cbn [goerr_Error].
  - left. apply S_short. exact W.
  - left. apply S_not_artnet; assumption.
  - left. apply S_version; try assumption. apply sprint_d_numeral. unfold word_ok. lia.
  - right. left. auto.
  - left. apply S_input; assumption.
  - left. destruct (sprint_x_numeral _ Hop) as (d & -> & Hd). apply (S_unsupported b d); assumption.
  - left. destruct (sprint_x_numeral _ Hop) as (d & -> & Hd). apply (S_unknown b d); assumption.
  - left. apply (S_truncated b n); assumption.
  - left. apply S_dmx; try assumption. intros [p Hp]. apply Unmarshal_accepts in Hp; [ congruence | exact Hb ].
  - left. apply S_dmx; try assumption. intros [p Hp]. apply Unmarshal_accepts in Hp; [ congruence | exact Hb ].
  - left. apply S_esta; assumption.
  - right. right. split; [ exact W2 | ]. unfold byte_ok in *. split; [ lia | ]. exists (sprint_d port). split; [ subst port; apply sprint_d_numeral; unfold word_ok; lia | reflexivity ].
  - left. apply S_style; assumption.
Qed.
(** Two different errors never have the same message. *)
Theorem C101_messages_distinct : forall e f, goerr_Error e = goerr_Error f -> e = f.
Proof.
  intros e f H. destruct e, f; try reflexivity; try (exfalso; cbn in H; discriminate H); cbn [goerr_Error] in H.
  - f_equal. apply append_inj_l in H. apply sprint_d_inj. exact H.
  - f_equal. apply append_inj_l in H. apply append_inj_l in H. apply append_inj_l in H. apply sprint_d_inj. exact H.
  - f_equal. apply append_inj_l in H. apply append_inj_r in H. apply sprint_x_inj. exact H.
  - f_equal. apply append_inj_l in H. apply sprint_x_inj. exact H.
  - f_equal. apply append_inj_l in H. apply sprint_x_inj. exact H.
Qed.
(** Refuted: the message does not tell three defects apart: a datagram of another protocol, an ArtDmx with an odd number of slots
    and an ArtCommand for another manufacturer. *)
Theorem C101_defects_merged_refuted : exists b1 b2 b3 o1 o2 o3 e, bytes_ok b1 /\ bytes_ok b2 /\ bytes_ok b3 /\
  firstn 8 b1 <> magic /\ header_ok b2 /\ wire_opcode b2 = 0x5000 /\ header_ok b3 /\ wire_opcode b3 = 0x2400 /\
  Unmarshal b1 = Ret (o1, Some e) /\ Unmarshal b2 = Ret (o2, Some e) /\ Unmarshal b3 = Ret (o3, Some e) /\ goerr_Error e = "invalid Art-Net packet"%string.
Proof.
  exists (repeat 1 20), (magic ++ [0; 0x50; 0; 14; 0; 0; 0; 0; 0; 3; 1; 2; 3]), (magic ++ [0; 0x24; 0; 14; 1; 2; 0; 0] ++ repeat 0 512). eexists _, _, _, errInvalidPacket.
  do 3 (split; [ apply bytes_okb; vm_compute; reflexivity | ]). split; [ discriminate | ].
  split; [ split; [ discriminate | split; [ reflexivity | right; split; discriminate ] ] | ]. split; [ reflexivity | ].
  split; [ split; [ discriminate | split; [ reflexivity | right; split; discriminate ] ] | ]. split; [ reflexivity | ].
  split; [ vm_compute; reflexivity | ]. split; [ vm_compute; reflexivity | ]. split; [ vm_compute; reflexivity | reflexivity ].
Qed.
Example C101_ex : exists b o e, bytes_ok b /\ Unmarshal b = Ret (o, Some e) /\ goerr_Error e = "not implemented OpCode in packet 0x8000"%string /\ says b (goerr_Error e).
Proof.
  set (b := magic ++ [0x00; 0x80; 0; 14; 0; 0]). exists b. eexists _, (errNotImplementedOpCode 0x8000).
  assert (Hb : bytes_ok b) by (apply bytes_okb; vm_compute; reflexivity). split; [ exact Hb | ]. split; [ vm_compute; reflexivity | ]. split; [ reflexivity | ].
  apply (S_unsupported b "8000"); [ split; [ discriminate | split; [ reflexivity | right; split; discriminate ] ] | cbn; tauto | apply numeralb_ok; reflexivity ].
Qed.

Definition P_Errors_theorems := (C101_port_refuted, C101_opcode_refuted, C101_says_partial, C101_messages_distinct, C101_defects_merged_refuted, C101_ex).
Print Assumptions P_Errors_theorems.
