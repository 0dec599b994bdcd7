(** Property C119: the text in which a node hands its listen address to the network (node.go:129) is read back as that address. *)
From Coq Require Import String Ascii DecimalString DecimalN.
From Verif Require Import WireSpec BinaryFacts P_Config Log Listen P_Listen.
From stdpp Require Import base list.
Open Scope list_scope.
Open Scope N_scope.

(** * Writing (Go standard library) *)
(** encoding as in net.hexString. *)
Definition hex_digit (n : N) : ascii := ascii_of_N (if n <? 10 then 48 + n else 87 + n).
Fixpoint hexString (l : list N) : string := match l with [] => EmptyString | b :: l => String (hex_digit (b / 16)) (String (hex_digit (b mod 16)) (hexString l)) end.
(** net.UDPAddr.String without a zone: ipEmptyString, IP.String and JoinHostPort. [None]: an IP of 16 bytes that is no IPv4 address, whose text is not modelled. *)
Definition host_text (ip : list N) : option string :=
  if len ip =? 0 then Some EmptyString else if len (To4 ip) =? 4 then ip_text (To4 ip) else if len ip =? 16 then None else Some (String "?" (hexString ip)).
Definition UDPAddr_String (a : UDPAddr) : option string := match host_text (fst a) with Some h => Some (h ++ String ":" (sprint_d (snd a)))%string | None => None end.

(** * Reading (Go standard library) *)
(** A non-empty sequence of decimal digits. *)
Fixpoint digits (acc : N) (s : string) : option N :=
  match s with
  | EmptyString => Some acc
  | String c s => let v := N_of_ascii c in if (48 <=? v) && (v <=? 57) then digits (acc * 10 + (v - 48)) s else None
  end.
Definition atoi (s : string) : option N := match s with EmptyString => None | _ => digits 0 s end.
(** net.ParseIP for a text without colons: four numbers up to 255 without leading zeros, separated by points. *)
Fixpoint fields (c : ascii) (s : string) : list string :=
  match s with
  | EmptyString => [EmptyString]
  | String x s => if Ascii.eqb x c then EmptyString :: fields c s else match fields c s with f :: l => String x f :: l | [] => [String x EmptyString] end
  end.
Definition octet (s : string) : option N :=
  match s with
  | String "0" (String _ _) => None
  | _ => match atoi s with Some n => if n <? 256 then Some n else None | None => None end
  end.
Definition ParseIPv4 (s : string) : option (list N) := match fields "." s with [_; _; _; _] as l => mapM octet l | _ => None end.
(** net.SplitHostPort: the last colon; brackets and further colons (IPv6) are refused here. *)
Fixpoint last_split (c : ascii) (s : string) : option (string * string) :=
  match s with
  | EmptyString => None
  | String x s => match last_split c s with Some (a, b) => Some (String x a, b) | None => if Ascii.eqb x c then Some (EmptyString, s) else None end
  end.
(** net.ListenPacket("udp4", text), internetAddrList: the address it binds. A host that is no IP is a name, which is not found. An empty host is the empty IP. *)
Definition Resolve4 (text : string) : option UDPAddr :=
  match last_split ":" text with
  | None => None
  | Some (h, p) =>
      match last_split ":" h, atoi p with
      | None, Some n => if n <? 65536 then match h with EmptyString => Some ([], n) | _ => match ParseIPv4 h with Some ip => Some (ip, n) | None => None end end else None
      | _, _ => None
      end
  end.

(** * Facts *)
Local Arguments String.append : simpl nomatch.
Lemma digits_pos d : forall p, digits (Npos p) (NilEmpty.string_of_uint d) = Some (Npos (Pos.of_uint_acc d p)).
Proof. induction d; intros p; [ reflexivity | .. ]; cbn [NilEmpty.string_of_uint Pos.of_uint_acc]; rewrite <- IHd; cbn [digits];
  match goal with |- context [N_of_ascii ?c] => let v := eval vm_compute in (N_of_ascii c) in change (N_of_ascii c) with v end; cbn [N.leb N.compare Pos.compare Pos.compare_cont andb]; f_equal; lia. Qed.
Lemma digits_uint d : digits 0 (NilEmpty.string_of_uint d) = Some (N.of_uint d).
Proof. unfold N.of_uint. induction d; [ reflexivity | exact IHd | .. ]; cbn [NilEmpty.string_of_uint Pos.of_uint]; rewrite <- digits_pos; reflexivity. Qed.
Lemma atoi_sprint n : atoi (sprint_d n) = Some n.
Proof.
  unfold sprint_d. pose proof (Unsigned.of_to n) as H. destruct (N.to_uint n) as [|d|d|d|d|d|d|d|d|d|d] eqn:E; [ cbn in H; subst n; discriminate E | .. ]; rewrite <- H, <- digits_uint; reflexivity.
Qed.
Lemma digits_clean c s : c < 48 \/ 57 < c -> forall acc n, digits acc s = Some n -> no_char c s = true.
Proof.
  intros Hc. induction s as [|x s IH]; intros acc n H; [ reflexivity | ]. cbn [digits] in H. cbn [no_char]. destruct ((48 <=? N_of_ascii x) && (N_of_ascii x <=? 57)) eqn:E; [ | discriminate H ].
  apply andb_prop in E. destruct E as [E1 E2]. apply N.leb_le in E1, E2. rewrite (IH _ _ H), andb_true_r. apply negb_true_iff, N.eqb_neq. lia.
Qed.
Lemma sprint_clean c n : c < 48 \/ 57 < c -> no_char c (sprint_d n) = true.
Proof. intros Hc. pose proof (atoi_sprint n) as H. unfold atoi in H. destruct (sprint_d n) as [|x s]; [ reflexivity | ]. exact (digits_clean c _ Hc _ _ H). Qed.
Lemma eqb_code x c : Ascii.eqb x c = (N_of_ascii x =? N_of_ascii c).
Proof. destruct (Ascii.eqb_spec x c) as [->|n]; [ symmetry; apply N.eqb_refl | ]. symmetry. apply N.eqb_neq. intros H. apply n. rewrite <- (ascii_N_embedding x), <- (ascii_N_embedding c), H. reflexivity. Qed.
Lemma last_split_none c s : no_char (N_of_ascii c) s = true -> last_split c s = None.
Proof. induction s as [|x s IH]; [ reflexivity | ]. cbn. intros H. apply andb_prop in H. destruct H as [H1 H2]. rewrite (IH H2), eqb_code. apply negb_true_iff in H1. rewrite H1. reflexivity. Qed.
Lemma last_split_at c a b : no_char (N_of_ascii c) b = true -> last_split c (a ++ String c b) = Some (a, b).
Proof. intros H. induction a as [|x a IH]; cbn [String.append last_split]; [ rewrite (last_split_none _ _ H), Ascii.eqb_refl; reflexivity | rewrite IH; reflexivity ]. Qed.
Lemma fields_one c a : no_char (N_of_ascii c) a = true -> fields c a = [a].
Proof. induction a as [|x a IH]; [ reflexivity | ]. cbn. intros H. apply andb_prop in H. destruct H as [H1 H2]. rewrite eqb_code. apply negb_true_iff in H1. rewrite H1, (IH H2). reflexivity. Qed.
Lemma fields_cons c a b : no_char (N_of_ascii c) a = true -> fields c (a ++ String c b) = a :: fields c b.
Proof. induction a as [|x a IH]; cbn [String.append fields no_char]; [ rewrite Ascii.eqb_refl; reflexivity | ]. intros H. apply andb_prop in H. destruct H as [H1 H2]. rewrite eqb_code. apply negb_true_iff in H1. rewrite H1, (IH H2). reflexivity. Qed.
Lemma no_char_app c a b : no_char c (a ++ b) = no_char c a && no_char c b.
Proof. induction a as [|x a IH]; [ reflexivity | ]. cbn [String.append no_char]. rewrite IH. apply andb_assoc. Qed.
Lemma octet_sprint n : byte_ok n -> octet (sprint_d n) = Some n.
Proof.
  intros H. pose proof (P_Codes.byte_cases (fun n => match octet (sprint_d n) with Some m => m =? n | None => false end) ltac:(vm_compute; reflexivity) n H) as K. cbv beta in K.
  destruct (octet (sprint_d n)); [ apply N.eqb_eq in K; congruence | discriminate K ].
Qed.
Lemma hex_clean c l : c = 58 \/ c = 46 -> bytes_ok l -> no_char c (hexString l) = true.
Proof.
  intros Hc. induction l as [|b l IH]; intros H; [ reflexivity | ]. inversion H; subst. cbn [hexString no_char]. rewrite (IH H3), andb_true_r.
  pose proof (P_Codes.byte_cases (fun b => forallb (fun c => negb (N_of_ascii (hex_digit (b / 16)) =? c) && negb (N_of_ascii (hex_digit (b mod 16)) =? c)) [58; 46]) ltac:(vm_compute; reflexivity) b H2) as K. cbv beta in K.
  cbn [forallb] in K. apply andb_prop in K. destruct K as [K1 K2]. rewrite andb_true_r in K2. destruct Hc as [->| ->]; assumption.
Qed.
Lemma four ip : len ip = 4 -> exists a b c d, ip = [a; b; c; d].
Proof. unfold len. intros H. destruct ip as [|a [|b [|c [|d [|]]]]]; cbn in H; try lia. eauto. Qed.
Lemma parse_quad a b c d : bytes_ok [a; b; c; d] -> exists t, ip_text [a; b; c; d] = Some t /\ ParseIPv4 t = Some [a; b; c; d] /\ t <> EmptyString /\ no_char 58 t = true.
Proof.
  intros H. inversion H as [|? ? A H1]; subst. inversion H1 as [|? ? B H2]; subst. inversion H2 as [|? ? C H3]; subst. inversion H3 as [|? ? D _]; subst.
  eexists. split; [ reflexivity | ]. split; [ | split ].
  - unfold ParseIPv4. cbn [String.append]. change (N_of_ascii ".") with 46 in *. assert (Z : forall n, no_char (N_of_ascii ".") (sprint_d n) = true) by (intros n; apply sprint_clean; left; reflexivity).
    rewrite !fields_cons, fields_one by apply Z. cbn [mapM]. rewrite !octet_sprint by assumption. reflexivity.
  - intros K. destruct (sprint_d a); discriminate K.
  - rewrite !no_char_app. cbn [no_char]. rewrite !sprint_clean by lia. reflexivity.
Qed.
Lemma resolve_host h p : no_char 58 h = true -> Resolve4 (h ++ String ":" (sprint_d p)) =
  if p <? 65536 then match h with EmptyString => Some ([], p) | _ => match ParseIPv4 h with Some ip => Some (ip, p) | None => None end end else None.
Proof. intros H. unfold Resolve4. rewrite last_split_at by (apply sprint_clean; right; reflexivity). rewrite (last_split_none ":" h H), atoi_sprint. reflexivity. Qed.

(** * C119 *)
(** An address with an IPv4 address, in 4 or 16 bytes, or with none: its text is read as the same address, unless the port is none of UDP. *)
Theorem C119_read_back : forall ip p, bytes_ok ip -> ip = [] \/ len (To4 ip) = 4 -> exists t, UDPAddr_String (ip, p) = Some t /\ Resolve4 t = (if p <? 65536 then Some (To4 ip, p) else None).
Proof.
  intros ip p Hb [->|H4]; unfold UDPAddr_String, host_text; cbn [fst snd].
  - eexists. split; [ reflexivity | ]. rewrite (resolve_host EmptyString) by reflexivity. reflexivity.
  - destruct (N.eqb_spec (len ip) 0) as [E|_]; [ unfold len in E; destruct ip; [ discriminate H4 | cbn in E; lia ] | ]. rewrite H4. cbn [N.eqb Pos.eqb]. destruct (four _ H4) as (a & b & c & d & E). pose proof (To4_ok ip Hb) as Hb4. rewrite E in *.
    destruct (parse_quad a b c d Hb4) as (t & -> & H1 & H2 & H3). eexists. split; [ reflexivity | ]. rewrite (resolve_host t p H3), H1. destruct t; [ contradiction H2; reflexivity | reflexivity ].
Qed.
(** Different addresses have different texts: the same text means the same IP, up to its form, and the same port. *)
Theorem C119_unambiguous : forall ip p ip' p', bytes_ok ip -> bytes_ok ip' -> ip = [] \/ len (To4 ip) = 4 -> ip' = [] \/ len (To4 ip') = 4 -> p < 65536 -> p' < 65536 ->
  (UDPAddr_String (ip, p) = UDPAddr_String (ip', p') <-> To4 ip = To4 ip' /\ p = p').
Proof.
  intros ip p ip' p' B B' H H' P P'. split.
  - intros E. destruct (C119_read_back ip p B H) as (t & T1 & T2). destruct (C119_read_back ip' p' B' H') as (t' & T1' & T2'). apply N.ltb_lt in P, P'. rewrite P in T2. rewrite P' in T2'. assert (t = t') by congruence. subst t'.
    rewrite T2 in T2'. injection T2' as -> ->. auto.
  - intros [E ->]. unfold UDPAddr_String, host_text. cbn [fst snd]. destruct H as [->|H], H' as [->|H'].
    + reflexivity.
    + rewrite <- E in H'. discriminate H'.
    + rewrite E in H. discriminate H.
    + rewrite H, H', E. cbn [N.eqb Pos.eqb]. destruct (N.eqb_spec (len ip) 0) as [Z|_]; [ unfold len in Z; destruct ip; [ discriminate H | cbn in Z; lia ] | ]. destruct (N.eqb_spec (len ip') 0) as [Z|_]; [ unfold len in Z; destruct ip'; [ discriminate H' | cbn in Z; lia ] | ]. reflexivity.
Qed.
(** An IP of any other length than 4 and 16 makes a text that is no address. *)
Theorem C119_malformed : forall ip p, bytes_ok ip -> len ip <> 0 -> len ip <> 4 -> len ip <> 16 -> exists t, UDPAddr_String (ip, p) = Some t /\ Resolve4 t = None.
Proof.
  intros ip p Hb H0 H4 H16. assert (E : To4 ip = []) by (unfold To4; apply N.eqb_neq in H4, H16; rewrite H4, H16; reflexivity). unfold UDPAddr_String, host_text. cbn [fst snd]. rewrite E. apply N.eqb_neq in H0, H16. rewrite H0, H16. cbn [len length N.of_nat N.eqb].
  eexists. split; [ reflexivity | ]. rewrite resolve_host by (cbn; apply hex_clean; auto). unfold ParseIPv4. rewrite fields_one by (cbn; apply hex_clean; auto). destruct (p <? 65536); reflexivity.
Qed.
(** Hence the socket a node opens by way of the text is bound as Listen.v says. *)
Theorem C119_binds : forall a t b, bytes_ok (fst a) -> UDPAddr_String a = Some t -> ((exists r, Resolve4 t = Some r /\ binds r b) <-> binds a b).
Proof.
  intros [ip p] t b Hb Ht. cbn [fst] in Hb. destruct (decide (ip = [] \/ len (To4 ip) = 4)) as [H|H].
  - destruct (C119_read_back ip p Hb H) as (t' & T1 & T2). assert (t' = t) by congruence. subst t'. rewrite T2.
    assert (X : bound_ip (To4 ip) = bound_ip ip).
    { destruct H as [->|H]; [ reflexivity | ]. unfold bound_ip. assert (To4 (To4 ip) = To4 ip) by (unfold To4 at 1; rewrite H; reflexivity). rewrite H0, H. cbn [N.eqb Pos.eqb]. destruct (N.eqb_spec (len ip) 0) as [Z|_]; [ unfold len in Z; destruct ip; [ discriminate H | cbn in Z; lia ] | reflexivity ]. }
    unfold binds. cbn [fst snd]. destruct (N.ltb_spec p 65536) as [P|P].
    + split; [ intros (r & E & K); injection E as <-; cbn [fst snd] in K; rewrite X in K; exact K | intros K; eexists; split; [ reflexivity | cbn [fst snd]; rewrite X; exact K ] ].
    + split; [ intros (r & E & _); discriminate E | intros (_ & K & _); lia ].
  - assert (H0 : len ip <> 0) by (intros Z; apply H; left; unfold len in Z; destruct ip; [ reflexivity | cbn in Z; lia ]).
    assert (H4 : len ip <> 4) by (intros Z; apply H; right; unfold To4; rewrite Z; exact Z).
    assert (H16 : len ip <> 16).
    { intros Z. unfold UDPAddr_String, host_text in Ht. cbn [fst] in Ht. rewrite Z in Ht. cbn [N.eqb Pos.eqb] in Ht. destruct (N.eqb_spec (len (To4 ip)) 4) as [K|K]; [ tauto | discriminate Ht ]. }
    destruct (C119_malformed ip p Hb H0 H4 H16) as (t' & T1 & T2). assert (t' = t) by congruence. subst t'. rewrite T2. split; [ intros (r & E & _); discriminate E | ]. intros (K & _). exfalso. cbn [fst] in K. unfold bound_ip in K.
    assert (E : To4 ip = []) by (unfold To4; apply N.eqb_neq in H4, H16; rewrite H4, H16; reflexivity). rewrite E in K. apply N.eqb_neq in H0. rewrite H0 in K. cbn [len length N.of_nat N.eqb] in K.
    destruct (eqbytes ip (zeros 16)) eqn:Z; [ | discriminate K ]. apply eqbytes_eq in Z. subst ip. apply H16. reflexivity.
Qed.

(** The default, an address in both forms, and texts that are no address. *)
Example C119_ex : UDPAddr_String (E_listen (NewNode [0x6e] StNode [10; 0; 0; 1] [])) = Some ":6454"%string /\ UDPAddr_String ([2; 0; 10; 255], 6454) = Some "2.0.10.255:6454"%string /\
  UDPAddr_String ([0; 0; 0; 0; 0; 0; 0; 0; 0; 0; 0xff; 0xff; 2; 0; 10; 255], 6454) = Some "2.0.10.255:6454"%string /\ UDPAddr_String ([2; 0; 255], 6454) = Some "?0200ff:6454"%string /\
  Resolve4 "2.0.10.255:6454" = Some ([2; 0; 10; 255], 6454) /\ Resolve4 ":6454" = Some ([], 6454) /\
  Resolve4 "?0200ff:6454" = None /\ Resolve4 "2.0.10:6454" = None /\ Resolve4 "2.0.10.256:6454" = None /\ Resolve4 "2.0.010.255:6454" = None /\ Resolve4 "2.0.10.255:65536" = None /\ Resolve4 "2.0.10.255:" = None /\ Resolve4 "::1:6454" = None.
Proof. repeat split; vm_compute; reflexivity. Qed.

Definition P_AddrText_theorems := (C119_read_back, C119_unambiguous, C119_malformed, C119_binds, C119_ex).
Print Assumptions P_AddrText_theorems.
