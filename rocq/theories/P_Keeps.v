(** Property C114: how much a controller keeps and sends at once (controller.go:264-350). *)
From Verif Require Import SysFacts SysLaws SysRun SysOrder SysScript P_Node P_Config P_Controller P_Wire.
From stdpp Require Import base list gmap.
From Verif Require Import P_Known.
Open Scope N_scope.

(** * Specification *)
(** The IP of every answer that the controller took note of. *)
Definition answer_ip (x : Controller * event * list payload) : list (list N) :=
  match x with (_, EReply p _, _) => if decide (tracked p) then [PollReply_IPAddress p] else [] | _ => [] end.
Definition answering (h : history) : list (list N) := concat (map answer_ip h).
(** The node at ip has announced the output universe a in h. *)
Definition has_announced (h : history) (ip : list N) (a : Address) : Prop :=
  exists s p t out, In (s, EReply p t, out) h /\ tracked p /\ PollReply_IPAddress p = ip /\ a ∈ reply_outputs p.

(** * Where entries come from *)
Lemma kept_length {A} (f : A -> bool) l : (length (List.filter f l) <= length l)%nat.
Proof. induction l as [|x l IH]; [ reflexivity | ]. cbn. destruct (f x); cbn; lia. Qed.
Lemma answering_in h s p t out : In (s, EReply p t, out) h -> tracked p -> In (PollReply_IPAddress p) (answering h).
Proof. intros Hi Ht. apply in_concat. exists (answer_ip (s, EReply p t, out)). split; [ apply in_map; exact Hi | ]. cbn. rewrite decide_True by exact Ht. left. reflexivity. Qed.
Lemma has_announced_app h h' ip a : has_announced h ip a -> has_announced (h ++ h') ip a.
Proof. intros (s & p & t & out & H & K). exists s, p, t, out. split; [ apply in_or_app; left; exact H | exact K ]. Qed.
Lemma kept_inv fps h s : reach fps h s -> forall n cn, K_heap s !! n = Some cn ->
  In (C_IP (CN_Node cn)) (answering h) /\ (length (C_OutputPorts (CN_Node cn)) <= 4)%nat /\ (length (C_InputPorts (CN_Node cn)) <= 4)%nat /\
  (forall a, a ∈ addresses (C_OutputPorts (CN_Node cn)) -> has_announced h (C_IP (CN_Node cn)) a) /\
  (forall a b, CN_DMXBuffer cn !! a = Some b -> has_announced h (C_IP (CN_Node cn)) a).
Proof.
  induction 1 as [|h s e s' out Hr IH Ho E]; intros n cn Hc; [ cbn in Hc; rewrite lookup_empty in Hc; discriminate Hc | ].
  pose proof (reach_inv _ _ _ Hr) as H.
  assert (Old : forall m c c', K_heap s !! m = Some c -> CN_Node c' = CN_Node c -> (forall a b, CN_DMXBuffer c' !! a = Some b -> (exists b', CN_DMXBuffer c !! a = Some b') \/ a ∈ addresses (C_OutputPorts (CN_Node c))) ->
    In (C_IP (CN_Node c')) (answering (h ++ [(s, e, out)])) /\ (length (C_OutputPorts (CN_Node c')) <= 4)%nat /\ (length (C_InputPorts (CN_Node c')) <= 4)%nat /\
    (forall a, a ∈ addresses (C_OutputPorts (CN_Node c')) -> has_announced (h ++ [(s, e, out)]) (C_IP (CN_Node c')) a) /\
    (forall a b, CN_DMXBuffer c' !! a = Some b -> has_announced (h ++ [(s, e, out)]) (C_IP (CN_Node c')) a)).
  { intros m c c' Hm Hn Hb. destruct (IH m c Hm) as (I1 & I2 & I3 & I4 & I5). rewrite !Hn. split; [ unfold answering; rewrite map_app, concat_app; apply in_or_app; left; exact I1 | ]. split; [ exact I2 | ]. split; [ exact I3 | ].
    split; [ intros a Ha; apply has_announced_app; exact (I4 a Ha) | ]. intros a b Hab. apply has_announced_app. destruct (Hb a b Hab) as [[b' K]|K]; [ exact (I5 a b' K) | exact (I4 a K) ]. }
  assert (Same : forall m c, K_heap s !! m = Some c -> K_heap s' !! m = Some c -> m = n -> In (C_IP (CN_Node cn)) (answering (h ++ [(s, e, out)])) /\ (length (C_OutputPorts (CN_Node cn)) <= 4)%nat /\ (length (C_InputPorts (CN_Node cn)) <= 4)%nat /\
    (forall a, a ∈ addresses (C_OutputPorts (CN_Node cn)) -> has_announced (h ++ [(s, e, out)]) (C_IP (CN_Node cn)) a) /\
    (forall a b, CN_DMXBuffer cn !! a = Some b -> has_announced (h ++ [(s, e, out)]) (C_IP (CN_Node cn)) a)).
  { intros m c Hm Hm' ->. rewrite Hc in Hm'. injection Hm' as <-. apply (Old n cn cn Hm eq_refl). intros a b K. left. eauto. }
  destruct e as [p now|clock|dmx b|order now|]; cbn [event_ok] in Ho.
  - cbn [step] in E. destruct (handle_reply_eq s p now Ho) as (cfg & Ec & Hip & Hou & Hin & Hok & Eh). rewrite Eh in E.
    destruct (decide (tracked p)) as [Ht|Ht]; cbn in E; [ | injection E as <- <-; exact (Same n cn Hc Hc eq_refl) ].
    assert (New : forall c', CN_Node c' = cfg -> (forall a b, CN_DMXBuffer c' !! a = Some b -> a ∈ reply_outputs p \/ has_announced h (PollReply_IPAddress p) a) ->
      In (C_IP (CN_Node c')) (answering (h ++ [(s, EReply p now, out)])) /\ (length (C_OutputPorts (CN_Node c')) <= 4)%nat /\ (length (C_InputPorts (CN_Node c')) <= 4)%nat /\
      (forall a, a ∈ addresses (C_OutputPorts (CN_Node c')) -> has_announced (h ++ [(s, EReply p now, out)]) (C_IP (CN_Node c')) a) /\
      (forall a b, CN_DMXBuffer c' !! a = Some b -> has_announced (h ++ [(s, EReply p now, out)]) (C_IP (CN_Node c')) a)).
    { intros c' -> Hb. rewrite Hip. assert (Hi : In (s, EReply p now, out) (h ++ [(s, EReply p now, out)])) by (apply in_or_app; right; left; reflexivity).
      split; [ exact (answering_in _ _ _ _ _ Hi Ht) | ]. destruct (C37_reply_ports_exact p Ho) as (cfg' & Ec' & Q1 & Q2). rewrite Ec in Ec'. injection Ec' as <-.
      assert (L : forall k, (length (flagged p k) <= 4)%nat). { intros k. unfold flagged. etransitivity; [ apply kept_length | reflexivity ]. }
      split; [ rewrite Q1, map_length; apply L | ]. split; [ rewrite Q2, map_length; apply L | ].
      assert (A : forall a, a ∈ reply_outputs p -> has_announced (h ++ [(s, EReply p now, out)]) (PollReply_IPAddress p) a) by (intros a Ha; exists s, p, now, out; auto).
      split; [ intros a Ha; apply A; rewrite <- Hou; exact Ha | ]. intros a b0 Hab. destruct (Hb a b0 Hab) as [K|K]; [ exact (A a K) | apply has_announced_app; exact K ]. }
    destruct (updateNode_eq s cfg now H) as [(m & cm & Hm & Hcm & Hi & Eu)|(Hn & Eu)]; rewrite Eu in E; cbn in E; injection E as <- <-; cbn in Hc.
    + destruct (decide (n = m)) as [->|Hne].
      * rewrite lookup_insert in Hc. injection Hc as <-. apply New; [ reflexivity | ]. cbn [CN_DMXBuffer]. intros a b0 Hab. right. rewrite <- Hip, <- Hi. exact (proj2 (proj2 (proj2 (proj2 (IH m cm Hcm)))) a b0 Hab).
      * rewrite lookup_insert_ne in Hc by congruence. apply (Old n cn cn Hc eq_refl). intros a b0 K. left. eauto.
    + destruct (decide (n = K_next s)) as [->|Hne].
      * rewrite lookup_insert in Hc. injection Hc as <-. apply New; [ reflexivity | ]. cbn [CN_DMXBuffer]. intros a b0 Hab. left. rewrite blackout_lookup in Hab. rewrite <- Hou. destruct (decide _) as [D|D]; [ exact D | discriminate Hab ].
      * rewrite lookup_insert_ne in Hc by congruence. apply (Old n cn cn Hc eq_refl). intros a b0 K. left. eauto.
  - cbn [step] in E. destruct (gcNode_eq s clock H) as (s1 & k & Eg & C). rewrite Eg in E. cbn in E. injection E as <- <-. rewrite (col_heap _ _ _ _ _ C) in Hc. apply (Old n cn cn Hc eq_refl). intros a b0 K. left. eauto.
  - cbn [step] in E. destruct (SendDMXToAddress s dmx b) as [[s1 ok]|] eqn:Es; [ | discriminate E ]. cbn in E. injection E as <- <-.
    unfold SendDMXToAddress in Es. destruct (K_OutputAddress s !! b) as [m|] eqn:Eb; [ | injection Es as <- _; apply (Old n cn cn Hc eq_refl); intros a b0 K; left; eauto ].
    unfold deref in Es. destruct (K_heap s !! m) as [cm|] eqn:Hcm; cbn [bind] in Es; [ | discriminate Es ]. unfold setDMXBuffer in Es.
    destruct (CN_DMXBuffer cm !! b) as [bf|] eqn:Ebf; cbn in Es; injection Es as <- _; cbn in Hc; (destruct (decide (n = m)) as [->|Hne]; [ rewrite lookup_insert in Hc; injection Hc as <- | rewrite lookup_insert_ne in Hc by congruence; apply (Old n cn cn Hc eq_refl); intros a b0 K; left; eauto ]).
    + eapply (Old m cm); [ exact Hcm | reflexivity | ]. cbn [CN_DMXBuffer CN_Node]. intros a b0 Hab. left. destruct (decide (a = b)) as [->|Hne]; [ eauto | rewrite lookup_insert_ne in Hab by congruence; eauto ].
    + eapply (Old m cm); [ exact Hcm | reflexivity | ]. cbn [CN_DMXBuffer CN_Node]. intros a b0 Hab. left. eauto.
  - destruct (C44_tick_effect fps h s order now s' out Hr Ho E) as (_ & _ & _ & _ & Hs). cbn [step] in E. destruct (tick_exact s order now H Ho) as (s2 & E2 & K & K0). rewrite E2 in E. injection E as <- _.
    destruct (K_heap s !! n) as [c|] eqn:Ex; [ | rewrite (K0 n Ex) in Hc; discriminate Hc ]. destruct (K n c Ex) as (cn' & Hc' & _ & Hn & _). rewrite Hc' in Hc. injection Hc as ->.
    apply (Old n c cn Ex Hn). intros a b0 Hab. specialize (Hs n a). unfold stored in Hs. rewrite Hc', Ex, Hab in Hs. destruct (decide (K_OutputAddress s !! a = Some n)) as [D|D].
    + right. destruct (inv_out s H a n D) as [_ (c0 & Hc0 & Ha)]. rewrite Ex in Hc0. injection Hc0 as <-. exact Ha.
    + left. eauto.
  - cbn in E. injection E as <- <-. apply (Old n cn cn Hc eq_refl). intros a b0 K. left. eauto.
Qed.
Lemma keys_bound {A} (m : gmap Address A) (l : list Address) : (forall a x, m !! a = Some x -> In a l) -> (size m <= length l)%nat.
Proof.
  intros H. unfold size, map_size. rewrite <- (map_length fst (map_to_list m)). apply NoDup_incl_length; [ apply NoDup_ListNoDup; apply NoDup_fst_map_to_list | ].
  intros a Ha. apply in_map_iff in Ha. destruct Ha as ([b x] & <- & Hx). apply (H b x). apply elem_of_list_In, elem_of_map_to_list in Hx. exact Hx.
Qed.
Lemma concat_bound {A B} (f : A -> list B) k (l : list A) : (forall x, In x l -> (length (f x) <= k)%nat) -> (length (concat (map f l)) <= k * length l)%nat.
Proof.
  induction l as [|x l IH]; intros H; [ cbn; lia | ]. cbn [map concat length]. rewrite app_length. specialize (IH (fun y Hy => H y (or_intror Hy))). specialize (H x (or_introl eq_refl)). lia.
Qed.
Definition all_addresses : list Address := list_prod (map N.of_nat (seq 0 256)) (map N.of_nat (seq 0 256)).
Lemma all_addresses_in a : byte_ok (fst a) -> byte_ok (snd a) -> In a all_addresses.
Proof.
  destruct a as [x y]. unfold byte_ok. cbn [fst snd]. intros Hx Hy. apply in_prod; apply in_map_iff; [ exists (N.to_nat x) | exists (N.to_nat y) ]; (split; [ lia | apply in_seq; lia ]).
Qed.
Lemma all_addresses_length : length all_addresses = N.to_nat 65536.
Proof. unfold all_addresses. etransitivity; [ apply prod_length | ]. rewrite !map_length, !seq_length. rewrite <- (Nat2N.id (256 * 256)), Nat2N.inj_mul. reflexivity. Qed.

(** * C114 *)
(** A controller lists at most as many nodes as different addresses have answered. *)
Theorem C114_nodes : forall fps h s, reach fps h s -> (length (K_Nodes s) <= length (remove_dups (answering h)))%nat.
Proof.
  intros fps h s R. pose proof (reach_inv _ _ _ R) as H. rewrite <- (map_length (ip_of s)). apply NoDup_incl_length; [ apply NoDup_ListNoDup; exact (inv_ip s H) | ].
  intros ip Hi. apply in_map_iff in Hi. destruct Hi as (n & <- & Hn). apply elem_of_list_In, elem_of_remove_dups, elem_of_list_In. apply elem_of_list_In in Hn. destruct (inv_listed s H n Hn) as [cn Hc].
  unfold ip_of. rewrite Hc. exact (proj1 (kept_inv _ _ _ R n cn Hc)).
Qed.
(** It has at most four output and four input routes per listed node, and never more than there are universes. *)
Theorem C114_routes : forall fps h s, reach fps h s ->
  (size (K_OutputAddress s) <= 4 * length (K_Nodes s))%nat /\ (size (K_InputAddress s) <= 4 * length (K_Nodes s))%nat /\
  (size (K_OutputAddress s) <= N.to_nat 65536)%nat /\ (size (K_InputAddress s) <= N.to_nat 65536)%nat.
Proof.
  intros fps h s R. pose proof (reach_inv _ _ _ R) as H.
  assert (G : forall (ports : NodeConfig -> list Port) (m : gmap Address nid), (forall n cn, K_heap s !! n = Some cn -> (length (ports (CN_Node cn)) <= 4)%nat /\ Forall addr_ok (addresses (ports (CN_Node cn)))) ->
    (forall a n, m !! a = Some n -> backed s ports a n) -> (size m <= 4 * length (K_Nodes s))%nat /\ (size m <= N.to_nat 65536)%nat).
  { intros ports m Hp Hm. split.
    - set (f := fun n => match K_heap s !! n with Some cn => addresses (ports (CN_Node cn)) | None => [] end). etransitivity; [ apply (keys_bound m (concat (map f (K_Nodes s)))) | ].
      + intros a n Ha. destruct (Hm a n Ha) as [Hn (cn & Hc & Hi)]. apply in_concat. exists (f n). split; [ apply in_map; apply elem_of_list_In; exact Hn | ]. unfold f. rewrite Hc. apply elem_of_list_In. exact Hi.
      + apply concat_bound. intros n _. unfold f. destruct (K_heap s !! n) as [cn|] eqn:Hc; [ unfold addresses; rewrite map_length; exact (proj1 (Hp n cn Hc)) | cbn; lia ].
    - rewrite <- all_addresses_length. apply keys_bound. intros a n Ha. destruct (Hm a n Ha) as [Hn (cn & Hc & Hi)]. destruct (Hp n cn Hc) as [_ K]. rewrite Forall_forall in K. destruct (K a Hi) as [K1 K2]. apply all_addresses_in; assumption. }
  destruct (G C_OutputPorts (K_OutputAddress s)) as [A1 A2].
  { intros n cn Hc. split; [ exact (proj1 (proj2 (kept_inv _ _ _ R n cn Hc))) | ]. pose proof (inv_cn s H n cn Hc) as (_ & _ & K & _). exact K. } { exact (inv_out s H). }
  destruct (G C_InputPorts (K_InputAddress s)) as [B1 B2].
  { intros n cn Hc. split; [ exact (proj1 (proj2 (proj2 (kept_inv _ _ _ R n cn Hc)))) | ]. pose proof (inv_cn s H n cn Hc) as (_ & _ & _ & K & _). exact K. } { exact (inv_in s H). }
  auto.
Qed.
(** A tick makes at most one frame per output route, so at most four per listed node. *)
Theorem C114_frames : forall fps h s order now s' out, reach fps h s -> order ≡ₚ map_to_list (K_OutputAddress s) -> step s (ETick order now) = Ret (s', out) ->
  (length out <= size (K_OutputAddress s))%nat /\ (length out <= 4 * length (K_Nodes s))%nat.
Proof.
  intros fps h s order now s' out R Ho E. pose proof (reach_inv _ _ _ R) as H. destruct (tick_exact s order now H Ho) as (s2 & E2 & _). cbn [step] in E. rewrite E2 in E. injection E as _ <-.
  rewrite map_length, (tick_frames_is s now order (routed_heap s order H Ho)), zip_with_length. pose proof (proj1 (C114_routes _ _ _ R)) as L.
  assert (K : (length (List.filter (is_due s now) order) <= size (K_OutputAddress s))%nat). { unfold size, map_size. rewrite <- Ho. apply kept_length. } lia.
Qed.
(** A node has buffers only for output universes it has announced at some time, at most 65536. *)
Theorem C114_buffers_partial : forall fps h s n cn, reach fps h s -> K_heap s !! n = Some cn ->
  (forall a b, CN_DMXBuffer cn !! a = Some b -> has_announced h (C_IP (CN_Node cn)) a) /\ (size (CN_DMXBuffer cn) <= N.to_nat 65536)%nat.
Proof.
  intros fps h s n cn R Hc. destruct (kept_inv _ _ _ R n cn Hc) as (_ & _ & _ & _ & K). split; [ exact K | ]. rewrite <- all_addresses_length. apply keys_bound. intros a b Hab.
  destruct (K a b Hab) as (s0 & p & t & out & Hi & Ht & _ & Ha). apply in_split in Hi. destruct Hi as (h1 & h2 & ->). destruct (reach_prefix _ _ _ _ _ _ _ R) as (_ & Ho & _). cbn [event_ok] in Ho.
  destruct (handle_reply_eq s0 p t Ho) as (cfg & _ & _ & Hou & _ & [Hok _] & _). rewrite Hou, Forall_forall in Hok. destruct (Hok a Ha) as [H1 H2]. apply all_addresses_in; assumption.
Qed.
(** Refuted: not only for those it announces: a node that never announces more than one universe at a time has twenty buffers. *)
Definition wandering : list cmd := Start :: concat (map (fun k => [Reply (one_port 1 (N.of_nat k)) (sec 1); Tick (sec 1 + Z.of_nat k)%Z]) (seq 1 20)).
Theorem C114_buffers_refuted : exists h s cn, reach 1000 h s /\ K_Nodes s = [0] /\ K_heap s !! 0 = Some cn /\ length (C_OutputPorts (CN_Node cn)) = 1%nat /\ size (CN_DMXBuffer cn) = 20%nat.
Proof.
  assert (Hok : Forall cmd_ok wandering). { unfold wandering. cbn [seq map concat app]. cmds_ok. }
  destruct (test_reach wandering (fun s h => bool_decide (K_Nodes s = [0]) && match K_heap s !! 0 with Some cn => bool_decide (length (C_OutputPorts (CN_Node cn)) = 1%nat /\ size (CN_DMXBuffer cn) = 20%nat) | None => false end) Hok) as (s & h & R & T); [ vm_compute; reflexivity | ].
  apply andb_true_iff in T. destruct T as [T1 T2]. apply bool_decide_eq_true in T1. destruct (K_heap s !! 0) as [cn|] eqn:Hc; [ | discriminate T2 ]. apply bool_decide_eq_true in T2. destruct T2 as [T2 T3].
  exists h, s, cn. auto.
Qed.

(** Refuted: nothing limits the number of nodes: answers with k different addresses, all at the same time, make k nodes, up to the 2^32 addresses there are. *)
Definition ip_number (k : N) : list N := [k / 16777216 mod 256; k / 65536 mod 256; k / 256 mod 256; k mod 256].
Definition answer_from (k : N) : ArtPollReplyPacket :=
  mkPollReply (zeros 8) 0x2100 (ip_number k) 6454 0 0 0 0 0 0 [0; 0] (zeros 18) (zeros 64) (zeros 64) 1 [0x80; 0; 0; 0] (zeros 4) (zeros 4) (zeros 4) [1; 0; 0; 0] 0 0 0 0 (zeros 6) (zeros 4) 0 0.
Lemma ip_number_inj j k : j < 4294967296 -> k < 4294967296 -> ip_number j = ip_number k -> j = k.
Proof.
  intros Hj Hk E. injection E as E1 E2 E3 E4.
  assert (D : forall x, x < 4294967296 -> x = x / 16777216 mod 256 * 16777216 + x / 65536 mod 256 * 65536 + x / 256 mod 256 * 256 + x mod 256).
  { intros x Hx. clear -Hx. change 16777216 with (256 * 65536) at 1. change 65536 with (256 * 256) at 1 2. rewrite <- !N.div_div by discriminate.
    pose proof (N.div_mod' x 256) as A. pose proof (N.div_mod' (x / 256) 256) as B. pose proof (N.div_mod' (x / 256 / 256) 256) as C.
    assert (D : x / 256 / 256 / 256 < 256) by (repeat (apply N.div_lt_upper_bound; [ discriminate | ]); exact Hx). rewrite (N.mod_small (x / 256 / 256 / 256)) by exact D. lia. }
  rewrite (D j Hj), (D k Hk), E1, E2, E3, E4. reflexivity.
Qed.
Lemma ip_number_ok k : array_ok 4 (ip_number k).
Proof. split; [ reflexivity | ]. unfold ip_number. repeat constructor; unfold byte_ok; apply N.mod_lt; discriminate. Qed.
Lemma answer_from_wf k : wf_PollReply (answer_from k).
Proof.
  unfold wf_PollReply, answer_from. cbn -[zeros ip_number]. repeat match goal with |- _ /\ _ => split end; try apply ip_number_ok; try apply array_ok_zeros; try (unfold byte_ok, word_ok; lia);
    (split; [ reflexivity | ]); repeat constructor; unfold byte_ok; lia.
Qed.
Theorem C114_flood_refuted : forall fps k, N.of_nat k <= 4294967296 -> exists h s, reach fps h s /\ length h = S k /\ length (K_Nodes s) = k /\
  (forall s0 e out, In (s0, e, out) h -> e = EStart \/ exists j, e = EReply (answer_from j) (sec 1)).
Proof.
  intros fps k Hk. assert (G : exists h s, reach fps h s /\ length h = S k /\ length (K_Nodes s) = k /\ (forall s0 e out, In (s0, e, out) h -> e = EStart \/ exists j, e = EReply (answer_from j) (sec 1)) /\
    (forall n, n ∈ K_Nodes s -> exists j, j < N.of_nat k /\ ip_of s n = ip_number j)).
  { induction k as [|k IH].
    - destruct (C40_events_never_panic _ _ _ EStart (reach_init fps) I) as (s1 & o0 & E0). exists ([] ++ [(NewController fps, EStart, o0)]), s1. split; [ exact (reach_step _ _ _ EStart _ _ (reach_init fps) I E0) | ].
      cbn in E0. injection E0 as <- <-. split; [ reflexivity | ]. split; [ reflexivity | ]. split; [ intros s0 e out [K|[]]; injection K as _ <- _; left; reflexivity | ]. intros n Hn. cbn in Hn. inversion Hn.
    - destruct IH as (h & s & R & Hl & Hn & Hh & Hi); [ lia | ]. set (p := answer_from (N.of_nat k)). pose proof (answer_from_wf (N.of_nat k)) as W. fold p in W.
      destruct (C40_events_never_panic _ _ _ (EReply p (sec 1)) R W) as (s1 & o1 & E1). exists (h ++ [(s, EReply p (sec 1), o1)]), s1. split; [ exact (reach_step _ _ _ (EReply p (sec 1)) _ _ R W E1) | ].
      split; [ rewrite app_length; cbn; lia | ]. cbn [step] in E1. destruct (handle_reply_eq s p (sec 1) W) as (cfg & Ec & Hip & _ & _ & _ & Eh). rewrite decide_True in Eh by (left; reflexivity).
      pose proof (reach_inv _ _ _ R) as HI. destruct (updateNode_eq s cfg (sec 1) HI) as [(m & cm & Hm & Hcm & Hx & Eu)|(Hnew & Eu)].
      + exfalso. destruct (Hi m Hm) as (j & Hj & Hjm). unfold ip_of in Hjm. rewrite Hcm, Hx, Hip in Hjm. apply ip_number_inj in Hjm; lia.
      + rewrite Eh, Eu in E1. cbn in E1. injection E1 as <- <-. cbn [K_Nodes added route set_in set_out]. split; [ cbn; rewrite app_length, Hn; cbn; lia | ]. split.
        * intros s0 e out K. apply in_app_or in K. destruct K as [K|[K|[]]]; [ exact (Hh _ _ _ K) | injection K as _ <- _; right; exists (N.of_nat k); reflexivity ].
        * intros n Hn'. cbn in Hn'. apply elem_of_app in Hn'. destruct Hn' as [Hn'|Hn'].
          -- destruct (Hi n Hn') as (j & Hj & Hjn). exists j. split; [ lia | ]. rewrite <- Hjn. unfold ip_of. cbn. rewrite lookup_insert_ne; [ reflexivity | ]. intros <-. destruct (inv_listed s HI _ Hn') as [c Hc]. apply (inv_next s HI) in Hc. lia.
          -- apply elem_of_list_singleton in Hn'. subst n. exists (N.of_nat k). split; [ lia | ]. unfold ip_of. cbn. rewrite lookup_insert. cbn. exact Hip. }
  destruct G as (h & s & R & H1 & H2 & H3 & _). exists h, s. auto.
Qed.
(** The same for the tables of a controller in any run of its goroutines. *)
Theorem C114_run : forall E ls y tr, runs E ls y tr -> let s := S_tables (Y_sh y) in
  (length (K_Nodes s) <= length (remove_dups (answering (hist tr))))%nat /\ (size (K_OutputAddress s) <= 4 * length (K_Nodes s))%nat /\ (size (K_InputAddress s) <= 4 * length (K_Nodes s))%nat /\
  (forall s0 order now out, In (OTable s0 (ETick order now) out) tr -> (length out <= 4 * length (K_Nodes s0))%nat).
Proof.
  intros E ls y tr R s. pose proof (ok_reach _ _ _ (sys_shared _ _ _ (runs_ok _ _ _ _ R))) as Rt. destruct (C114_routes _ _ _ Rt) as (A & B & _). split; [ exact (C114_nodes _ _ _ Rt) | ]. split; [ exact A | ]. split; [ exact B | ].
  intros s0 order now out Hi. apply in_split in Hi. destruct Hi as (t1 & t2 & ->). rewrite hist_app in Rt. change (hist (OTable s0 (ETick order now) out :: t2)) with ((s0, ETick order now, out) :: hist t2) in Rt.
  destruct (reach_prefix _ _ _ _ _ _ _ Rt) as (R1 & Ho & s1 & Es). exact (proj2 (C114_frames _ _ _ _ _ _ _ R1 Ho Es)).
Qed.
(** Two nodes, one with one and one with two universes; both answer twice; the first tick makes three frames. *)
Definition three_frames : list cmd := [Start; Reply (one_port 1 7) (sec 1); Reply (two_ports 2 8 9) (sec 1); Reply (one_port 1 7) (sec 1); Reply (two_ports 2 8 9) (sec 1); Tick (sec 2)].
Example C114_ex : exists h s, reach 1000 h s /\ length (answering h) = 4%nat /\ length (remove_dups (answering h)) = 2%nat /\ length (K_Nodes s) = 2%nat /\ size (K_OutputAddress s) = 3%nat /\ map (fun x => length (snd x)) h = [0; 0; 0; 0; 0; 3]%nat.
Proof.
  assert (Hok : Forall cmd_ok three_frames) by (unfold three_frames; cmds_ok).
  destruct (test_reach three_frames (fun s h => bool_decide (length (answering h) = 4%nat /\ length (remove_dups (answering h)) = 2%nat /\ length (K_Nodes s) = 2%nat /\ size (K_OutputAddress s) = 3%nat /\ map (fun x => length (snd x)) h = [0; 0; 0; 0; 0; 3]%nat)) Hok) as (s & h & R & T); [ vm_compute; reflexivity | ].
  apply bool_decide_eq_true in T. exists h, s. split; [ exact R | exact T ].
Qed.

Definition P_Keeps_theorems := (C114_nodes, C114_routes, C114_frames, C114_buffers_partial, C114_buffers_refuted, C114_flood_refuted, C114_run, C114_ex).
Print Assumptions P_Keeps_theorems.
