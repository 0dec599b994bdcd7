(** C112: what a controller knows does not depend on the order in which nodes answered, nor on how often. *)
From Verif Require Import WireSpec P_Encode P_Decode P_Config P_Controller ControllerFacts SysFacts SysLaws SysRun SysOrder SysScript P_Node P_Life P_Live P_Wire P_Settle Net P_Net P_Flow.
From stdpp Require Import base list gmap.
From Verif Require Import P_Known.
Open Scope N_scope.

(** * Specification *)
(** A reply that was applied and that makes the controller keep its sender; the last one of an IP. *)
Definition answered (h : history) (p : ArtPollReplyPacket) : Prop := exists s t out, In (s, EReply p t, out) h /\ tracked p.
Definition latest (h : history) (ip : list N) (p : ArtPollReplyPacket) : Prop :=
  exists h1 s t out h2, h = h1 ++ (s, EReply p t, out) :: h2 /\ tracked p /\ PollReply_IPAddress p = ip /\ no_answer ip h2.
(** No two nodes have a universe in common; no node is silent for more than 7 s at a clean-up; the controller is not restarted. *)
Definition apart (h : history) : Prop :=
  forall p p' a, answered h p -> answered h p' -> PollReply_IPAddress p <> PollReply_IPAddress p' -> a ∈ reply_outputs p -> a ∉ reply_outputs p'.
Definition kept (h : history) : Prop :=
  forall h1 s p t out h2, h = h1 ++ (s, EReply p t, out) :: h2 -> tracked p -> no_answer (PollReply_IPAddress p) h2 -> fresh h2 t.
Definition not_restarted (h : history) : Prop := forall h1 s out h2, h = h1 ++ (s, EStart, out) :: h2 -> forall p, ~ answered h1 p.
(** The controller sends universe a to ip. *)
Definition routed (s : Controller) (a : Address) (ip : list N) : Prop :=
  exists n cn, K_OutputAddress s !! a = Some n /\ K_heap s !! n = Some cn /\ C_IP (CN_Node cn) = ip.
(** Every node announces the same whenever it answers. *)
Definition steady (h : history) : Prop := forall p p', answered h p -> answered h p' -> PollReply_IPAddress p = PollReply_IPAddress p' -> p = p'.

(** * Proofs *)
Lemma latest_dec ip h : no_answer ip h \/ exists h1 s p t out h2, h = h1 ++ (s, EReply p t, out) :: h2 /\ tracked p /\ PollReply_IPAddress p = ip /\ no_answer ip h2.
Proof.
  induction h as [|[[s e] out] h IH] using rev_ind; [ left; intros s e out [] | ]. destruct (answers_dec ip e) as [(p & t & -> & T & Hip)|N].
  - right. exists h, s, p, t, out, []. split; [ reflexivity | ]. split; [ exact T | ]. split; [ exact Hip | ]. intros ? ? ? [].
  - assert (K : no_answer ip [(s, e, out)]) by (intros s0 e0 o0 [[= <- <- <-]|[]]; exact N).
    destruct IH as [IH|(h1 & s1 & p & t & o1 & h2 & -> & T & Hip & Hn)]; [ left; apply no_answer_app; auto | ]. right.
    exists h1, s1, p, t, o1, (h2 ++ [(s, e, out)]). split; [ rewrite <- app_assoc; reflexivity | ]. split; [ exact T | ]. split; [ exact Hip | ]. apply no_answer_app. auto.
Qed.
Lemma latest_answered h ip p : latest h ip p -> answered h p /\ PollReply_IPAddress p = ip.
Proof. intros (h1 & s & t & out & h2 & -> & T & Hip & _). split; [ | exact Hip ]. exists s, t, out. split; [ apply in_elt | exact T ]. Qed.
Lemma answered_latest h p : answered h p -> exists p', latest h (PollReply_IPAddress p) p'.
Proof.
  intros (s & t & out & Hi & T). destruct (latest_dec (PollReply_IPAddress p) h) as [N|(h1 & s1 & p' & t1 & o1 & h2 & H)].
  - exfalso. apply (N _ _ _ Hi). exists p, t. auto.
  - exists p', h1, s1, t1, o1, h2. exact H.
Qed.
Lemma latest_fun h ip p p' : latest h ip p -> latest h ip p' -> p = p'.
Proof.
  intros (h1 & s & t & out & h2 & E & T & Hip & Hn) (h1' & s' & t' & out' & h2' & E' & T' & Hip' & Hn'). rewrite E in E'. clear E.
  revert h1' E'. induction h1 as [|x h1 IH]; intros [|x' h1'] E'.
  - injection E' as _ <- _ _ _. reflexivity.
  - exfalso. injection E' as _ ->. apply (Hn s' (EReply p' t') out'); [ apply in_elt | exists p', t'; auto ].
  - exfalso. injection E' as _ E'. apply (Hn' s (EReply p t) out); [ rewrite <- E'; apply in_elt | exists p, t; auto ].
  - injection E' as _ E'. exact (IH _ E').
Qed.
Lemma answered_wf fps h s p : reach fps h s -> answered h p -> wf_PollReply p.
Proof.
  intros R (s0 & t & out & Hi & _). apply in_split in Hi. destruct Hi as (h1 & h2 & ->). destruct (reach_prefix _ _ _ _ _ _ _ R) as (_ & Hev & _). exact Hev.
Qed.
(** Whoever is listed answered, and its entry is what it announced last. *)
Lemma listed_latest fps h s n cn : reach fps h s -> n ∈ K_Nodes s -> K_heap s !! n = Some cn -> exists p, latest h (C_IP (CN_Node cn)) p /\ ConfigFromArtPollReply p = Ret (CN_Node cn).
Proof.
  intros R Hn Hc. destruct (C90_known fps h s (C_IP (CN_Node cn)) R) as [K1 K2].
  destruct (latest_dec (C_IP (CN_Node cn)) h) as [N|(h1 & s1 & p & t & o1 & h2 & E & T & Hip & Hno)]; [ exfalso; exact (K1 N n cn Hn Hc eq_refl) | ].
  destruct (K2 _ _ _ _ _ _ E T Hip Hno) as (cfg & Hcfg & [(m & cm & Hm & Hcm & Hipm & Hx & _)|U] & _); [ | exfalso; exact (U n cn Hn Hc eq_refl) ].
  assert (m = n) as -> by (apply (inv_ip_inj s m n (reach_inv _ _ _ R) Hm Hn); unfold ip_of; rewrite Hc, Hcm; congruence).
  exists p. split; [ exists h1, s1, t, o1, h2; auto | ]. rewrite Hcfg, <- Hx. f_equal. congruence.
Qed.
Lemma all_calm fps h s : reach fps h s -> apart h -> not_restarted h -> forall s0 e out, In (s0, e, out) h -> calm s0 e.
Proof.
  intros R A S s0 e out Hi. apply in_split in Hi. destruct Hi as (h1 & h2 & ->). destruct (reach_prefix _ _ _ _ _ _ _ R) as (R1 & Hev & s1 & Hs).
  assert (Sub : forall p, answered h1 p -> answered (h1 ++ (s0, e, out) :: h2) p) by (intros p (s' & t & o & Hi & T); exists s', t, o; split; [ apply in_or_app; auto | exact T ]).
  destruct e as [p t|clock|dmx a|order now|]; cbn [calm]; try exact I.
  - intros T n cn a Hn Hc Hip Ha Hin. destruct (listed_latest _ _ _ _ _ R1 Hn Hc) as (p' & Hl & Hcfg). destruct (latest_answered _ _ _ Hl) as [Ha' Hip'].
    pose proof (answered_wf _ _ _ _ R1 Ha') as W. destruct (handle_reply_eq s0 p' 0%Z W) as (cfg & Hc' & _ & Eo & _). rewrite Hcfg in Hc'. injection Hc' as <-. rewrite Eo in Hin.
    refine (A p p' a _ (Sub _ Ha') _ Ha Hin); [ exists s0, t, out; split; [ apply in_elt | exact T ] | congruence ].
  - destruct (K_Nodes s0) as [|n l] eqn:En; [ reflexivity | exfalso ]. assert (Hn : n ∈ K_Nodes s0) by (rewrite En; left). destruct (inv_listed _ (reach_inv _ _ _ R1) _ Hn) as [cn Hc].
    destruct (listed_latest _ _ _ _ _ R1 Hn Hc) as (p' & Hl & _). apply (S h1 s0 out h2 eq_refl p'). exact (proj1 (latest_answered _ _ _ Hl)).
Qed.

(** * Theorems *)
(** The tables are determined by the last answer of every node. *)
Theorem C112_tables : forall fps h s, reach fps h s -> apart h -> kept h -> not_restarted h ->
  (forall ip cfg, (exists t, knows s ip cfg t) <-> exists p, latest h ip p /\ ConfigFromArtPollReply p = Ret cfg) /\
  (forall a ip, routed s a ip <-> exists p, latest h ip p /\ a ∈ reply_outputs p).
Proof.
  intros fps h s R A K S. pose proof (reach_inv _ _ _ R) as HI.
  assert (P1 : forall ip cfg, (exists t, knows s ip cfg t) <-> exists p, latest h ip p /\ ConfigFromArtPollReply p = Ret cfg).
  { intros ip cfg. split.
    - intros (t & n & cn & Hn & Hc & <- & <- & _). destruct (listed_latest _ _ _ _ _ R Hn Hc) as (p & H). exists p. exact H.
    - intros (p & (h1 & s1 & t & out & h2 & E & T & Hip & Hno) & Hcfg). destruct (proj2 (C90_known fps h s ip R) _ _ _ _ _ _ E T Hip Hno) as (cfg' & Hc' & _ & F & _). assert (cfg' = cfg) as -> by congruence.
      exists t. apply F. apply (K _ _ _ _ _ _ E T). rewrite Hip. exact Hno. }
  split; [ exact P1 | ]. intros a ip. split.
  - intros (n & cn & Ho & Hc & Hip). destruct (proj1 (C41_routing_never_dangles _ _ _ R) _ _ Ho) as (Hn & cn' & pt & Hc' & Hpt & Hpa). assert (cn' = cn) as -> by congruence.
    destruct (listed_latest _ _ _ _ _ R Hn Hc) as (p & Hl & Hcfg). exists p. rewrite <- Hip. split; [ exact Hl | ].
    pose proof (answered_wf _ _ _ _ R (proj1 (latest_answered _ _ _ Hl))) as W. destruct (handle_reply_eq s p 0%Z W) as (cfg & Hx & _ & Eo & _). rewrite Hcfg in Hx. injection Hx as <-. rewrite <- Eo.
    unfold addresses. apply elem_of_list_In, in_map_iff. eauto.
  - intros (p & Hl & Ha). destruct (latest_answered _ _ _ Hl) as [Han Hip]. pose proof (answered_wf _ _ _ _ R Han) as W. destruct (handle_reply_eq s p 0%Z W) as (cfg & Hcfg & _ & Eo & _).
    destruct (proj2 (P1 ip cfg)) as (t & n & cn & Hn & Hc & Hip' & Hx & _); [ exists p; auto | ]. exists n, cn. split; [ | auto ].
    apply (C42_routable_partial _ _ _ R (all_calm _ _ _ R A S) n cn a Hn Hc). rewrite Hx, Eo. exact Ha.
Qed.
(** So for any two histories in which every IP answered the same last, whatever the order, the times and the number of answers, and whatever ticks, clean-ups and writes came between. *)
Theorem C112_order : forall fps h s fps' h' s', reach fps h s -> reach fps' h' s' -> apart h -> kept h -> not_restarted h -> kept h' -> not_restarted h' ->
  (forall p, answered h' p -> answered h p) -> (forall ip p, latest h ip p <-> latest h' ip p) ->
  (forall ip cfg, (exists t, knows s ip cfg t) <-> (exists t, knows s' ip cfg t)) /\ (forall a ip, routed s a ip <-> routed s' a ip).
Proof.
  intros fps h s fps' h' s' R R' A K S K' S' Sub L. assert (A' : apart h') by (intros p p' a Hp Hp'; apply A; auto).
  destruct (C112_tables _ _ _ R A K S) as [P1 P2]. destruct (C112_tables _ _ _ R' A' K' S') as [P1' P2'].
  split; [ intros ip cfg; rewrite P1, P1' | intros a ip; rewrite P2, P2' ]; split; intros (p & Hl & H); exists p; (split; [ apply L; exact Hl | exact H ]).
Qed.
(** And if every node always announces the same, only the set of the answers counts. *)
Theorem C112_set : forall fps h s fps' h' s', reach fps h s -> reach fps' h' s' -> apart h -> kept h -> not_restarted h -> kept h' -> not_restarted h' ->
  steady h -> (forall p, answered h p <-> answered h' p) ->
  (forall ip cfg, (exists t, knows s ip cfg t) <-> (exists t, knows s' ip cfg t)) /\ (forall a ip, routed s a ip <-> routed s' a ip).
Proof.
  intros fps h s fps' h' s' R R' A K S K' S' St Sub. apply (C112_order fps h s fps' h' s'); try assumption; [ intros p; apply Sub | ].
  assert (X : forall g g', (forall p, answered g p <-> answered h p) -> (forall p, answered g' p <-> answered h p) -> forall ip p, latest g ip p -> latest g' ip p).
  { intros g g' G G' ip p Hl. destruct (latest_answered _ _ _ Hl) as [Ha Hip]. apply G, G' in Ha. destruct (answered_latest _ _ Ha) as [p' Hl']. destruct (latest_answered _ _ _ Hl') as [Ha' Hip'].
    rewrite (St p p'); [ rewrite <- Hip; exact Hl' | apply G'; exact Ha | apply G'; exact Ha' | congruence ]. }
  intros ip p. split; apply X; intros q; try reflexivity; symmetry; apply Sub.
Qed.

(** * Executions *)
Lemma in_hist s e out tr : In (s, e, out) (hist tr) <-> In (OTable s e out) tr.
Proof.
  unfold hist. rewrite <- !elem_of_list_In, elem_of_list_omap. split.
  - intros (o & Ho & E). destruct o; try discriminate E. injection E as <- <- <-. exact Ho.
  - intros H. exists (OTable s e out). auto.
Qed.
Lemma no_start E y ls y' tr : live E y -> steps E y ls y' tr -> calls ls = [] -> no_errors ls = true -> forall s out, ~ In (OTable s EStart out) tr.
Proof.
  intros V S. induction S as [|y ls y1 tr l y2 o S IH Hl He]; intros C N s out Hi; [ destruct Hi | ]. rewrite calls_app in C. apply app_eq_nil in C. rewrite no_errors_app in N. apply andb_prop in N.
  apply in_app_or in Hi. destruct Hi as [Hi|Hi]; [ exact (IH V (proj1 C) (proj1 N) s out Hi) | ]. pose proof (proj1 (live_steps _ _ _ _ _ S V (proj1 C) (proj1 N))) as V1.
  destruct (live_facts E y1 V1) as (g & ch & k & _ & _ & _ & _ & _ & _ & _ & _ & _ & _ & _ & _ & _ & F & _).
  apply exec_cases in He. destruct He as [(i & c & t & s' & t' & sp & -> & Et & Es & ->)|[(t & -> & -> & Hk)|(mm & op & f & -> & _)]]; [ | destruct Hi | destruct Hi as [Hi|[]]; discriminate Hi ].
  destruct (Forall_lookup_1 _ _ _ _ F Et) as [Ha _]. tcases Es; cbn in Hi, Ha; try discriminate Ha; try contradiction; repeat match goal with H : _ \/ _ |- _ => destruct H as [H|H] | H : False |- _ => destruct H end; discriminate.
Qed.
(** A controller that ran without having received anything (from y0 on its goroutines work) and is at rest after tr, during which no call of Start or Stop was made and no socket operation failed; no
    answer is older than 7 s at a clean-up. *)
Record session (E : env) (tr : list obs) (y : sys) : Prop := {
  ss_ctl : E_ctl E = true; ss_type : C_Type (E_config E) = StController;
  ss_run : exists y0 ls0 tr0 ls, runs E ls0 y0 tr0 /\ others (E_localIP E) tr0 = [] /\ works E y0 ls y tr /\ kept (hist (tr0 ++ tr)) }.
(** The datagrams are answers of nodes that share no universe and always announce the same. *)
Definition answer_in (ds : list (list N)) (p : ArtPollReplyPacket) : Prop := tracked p /\ exists d, In d ds /\ wire_accepts d (PktPollReply p).
Definition distinct_nodes (ds : list (list N)) : Prop := forall p p', answer_in ds p -> answer_in ds p' ->
  (PollReply_IPAddress p = PollReply_IPAddress p' -> p = p') /\ (PollReply_IPAddress p <> PollReply_IPAddress p' -> forall a, a ∈ reply_outputs p -> a ∉ reply_outputs p').
Lemma session_history E tr y : session E tr y -> exists h, reach (E_maxFPS E) h (S_tables (Y_sh y)) /\ kept h /\ not_restarted h /\ forall p, answered h p <-> answer_in (others (E_localIP E) tr) p.
Proof.
  intros [C T (y0 & ls0 & tr0 & ls & R0 & O & Wk & K)]. pose proof Wk as [V St Cl Er Rst]. assert (R : runs E (ls0 ++ ls) y (tr0 ++ tr)) by (eapply runs_steps; eassumption).
  assert (N0 : forall p, ~ answered (hist tr0) p).
  { intros p (s & t & out & Hi & _). apply in_hist in Hi. destruct (applied_called _ _ _ _ _ _ _ _ R0 Hi) as [h Hc]. destruct (proj2 (proj2 (C58_own_ignored _ _ _ _ R0)) O) as (_ & X & _).
    assert (In (PktPollReply p) (called tr0)) as Y by (unfold called; apply in_collect; eexists; split; [ exact Hc | left; reflexivity ]). rewrite X in Y. destruct Y. }
  exists (hist (tr0 ++ tr)). split; [ exact (ok_reach _ _ _ (sys_shared _ _ _ (runs_ok _ _ _ _ R))) | ]. split; [ exact K | ]. split.
  - intros h1 s out h2 E0 p Ha. rewrite hist_app in E0. assert (Hno : forall h3, hist tr <> h3 ++ (s, EStart, out) :: h2).
    { intros h3 X. apply (no_start _ _ _ _ _ V St Cl Er s out). apply in_hist. rewrite X. apply in_elt. }
    assert (X : exists h3, hist tr0 = h1 ++ h3).
    { clear -E0 Hno. revert h1 E0. induction (hist tr0) as [|x l IH]; intros h1 E0; [ exfalso; exact (Hno _ E0) | ]. destruct h1 as [|x' h1]; [ exists (x :: l); reflexivity | ].
      injection E0 as <- E0. destruct (IH _ E0) as [h3 ->]. exists h3. reflexivity. }
    destruct X as [h3 X]. apply (N0 p). destruct Ha as (s' & t & o & Hi & Tr). exists s', t, o. split; [ rewrite X; apply in_or_app; auto | exact Tr ].
  - intros p. split.
    + intros (s & t & out & Hi & Tr). split; [ exact Tr | ]. apply in_hist in Hi. destruct (applied_called _ _ _ _ _ _ _ _ R Hi) as [h Hc].
      destruct (proj1 (proj2 (C58_own_ignored _ _ _ _ R)) (PktPollReply p)) as (d & Hd & Hw); [ unfold called; apply in_collect; eexists; split; [ exact Hc | left; reflexivity ] | ].
      exists d. split; [ | exact Hw ]. unfold others in Hd, O |- *. rewrite collect_app, O in Hd. exact Hd.
    + intros (Tr & d & Hd & Hw). unfold others in Hd. apply in_collect in Hd. destruct Hd as (o & Ho & Hd). destruct o as [from data| | | | | | | | | | | | | | | | | |]; try contradiction. destruct from as [src port].
      destruct (decide (to16 src = to16 (E_localIP E))) as [|Hs]; [ contradiction | ]. destruct Hd as [<-|[]].
      destruct (reply_applied E y0 ls y tr src port data p Wk T) as (s & now & out & Hi); [ rewrite (ctl_callbacks _ _ _ _ C R0); reflexivity | exact Hs | exact Ho | exact Hw | ].
      exists s, now, out. split; [ rewrite hist_app; apply in_or_app; right; apply in_hist; exact Hi | exact Tr ].
Qed.
(** Two controllers, or one on two days, that received the same datagrams, in any order and any number of times, under any schedules, with any traffic of their own, know the same nodes and send every universe
    to the same IP. *)
Theorem C112_datagrams : forall E tr y E' tr' y', session E tr y -> session E' tr' y' -> distinct_nodes (others (E_localIP E) tr) ->
  (forall d, In d (others (E_localIP E) tr) <-> In d (others (E_localIP E') tr')) ->
  (forall ip cfg, (exists t, knows (S_tables (Y_sh y)) ip cfg t) <-> (exists t, knows (S_tables (Y_sh y')) ip cfg t)) /\
  (forall a ip, routed (S_tables (Y_sh y)) a ip <-> routed (S_tables (Y_sh y')) a ip).
Proof.
  intros E tr y E' tr' y' H H' D Sm. destruct (session_history _ _ _ H) as (h & R & K & S & A). destruct (session_history _ _ _ H') as (h' & R' & K' & S' & A').
  apply (C112_set (E_maxFPS E) h _ (E_maxFPS E') h'); try assumption.
  - intros p p' a Hp Hp' Hn. exact (proj2 (D p p' (proj1 (A _) Hp) (proj1 (A _) Hp')) Hn a).
  - intros p p' Hp Hp'. exact (proj1 (D p p' (proj1 (A _) Hp) (proj1 (A _) Hp'))).
  - intros p. rewrite A, A'. unfold answer_in. split; intros (T & d & Hd & Hw); (split; [ exact T | ]); exists d; (split; [ apply Sm; exact Hd | exact Hw ]).
Qed.
(** With a universe in common the order counts: the same two answers in either order. *)
Definition routes_to (a : Address) (ip : list N) (s : Controller) : bool :=
  match K_OutputAddress s !! a with Some n => match K_heap s !! n with Some cn => eqbytes (C_IP (CN_Node cn)) ip | None => false end | None => false end.
Lemma routes_to_ok a ip s : routes_to a ip s = true <-> routed s a ip.
Proof.
  unfold routes_to, routed. split.
  - destruct (K_OutputAddress s !! a) as [n|] eqn:Ho; [ | discriminate ]. destruct (K_heap s !! n) as [cn|] eqn:Hc; [ | discriminate ]. intros H. apply eqbytes_eq in H. exists n, cn. auto.
  - intros (n & cn & -> & -> & <-). apply eqbytes_eq. reflexivity.
Qed.
Definition replies_of (h : history) : list (ArtPollReplyPacket) := omap (fun x => match x with (_, EReply p _, _) => Some p | _ => None end) h.
Definition quiet (h : history) : bool := forallb (fun x => match x with (_, EGc _, _) => false | _ => true end) h.
Lemma quiet_kept h : quiet h = true -> kept h.
Proof.
  unfold quiet. rewrite forallb_forall. intros H h1 s p t out h2 -> _ _ s' clock o Hi. exfalso. specialize (H (s', EGc clock, o)). cbn in H. discriminate H. apply in_or_app. right. right. exact Hi.
Qed.
Theorem C112_order_refuted : exists h s h' s' a ip, reach 1000 h s /\ reach 1000 h' s' /\ kept h /\ kept h' /\ (forall p, In p (replies_of h) <-> In p (replies_of h')) /\ NoDup (map PollReply_IPAddress (replies_of h)) /\
  routed s a ip /\ ~ routed s' a ip.
Proof.
  destruct (test_reach [Start; Reply (one_port 1 7) (sec 1); Reply (one_port 2 7) (sec 1)] (fun s h => routes_to (0, 7) [10; 0; 0; 2] s && quiet h && bool_decide (replies_of h = [one_port 1 7; one_port 2 7]))) as (s & h & R & H);
    [ cmds_ok | vm_compute; reflexivity | ].
  destruct (test_reach [Start; Reply (one_port 2 7) (sec 1); Reply (one_port 1 7) (sec 1)] (fun s h => negb (routes_to (0, 7) [10; 0; 0; 2] s) && quiet h && bool_decide (replies_of h = [one_port 2 7; one_port 1 7]))) as (s' & h' & R' & H');
    [ cmds_ok | vm_compute; reflexivity | ].
  apply andb_prop in H, H'. destruct H as [H H3], H' as [H' H3']. apply andb_prop in H, H'. destruct H as [H1 H2], H' as [H1' H2']. apply bool_decide_eq_true in H3, H3'.
  exists h, s, h', s', (0, 7), [10; 0; 0; 2]. split; [ exact R | ]. split; [ exact R' | ]. split; [ exact (quiet_kept _ H2) | ]. split; [ exact (quiet_kept _ H2') | ].
  split; [ rewrite H3, H3'; intros p; cbn [In]; tauto | ]. split; [ rewrite H3; apply (bool_decide_unpack _); vm_compute; reflexivity | ].
  split; [ apply routes_to_ok; exact H1 | ]. intros X. apply routes_to_ok in X. rewrite X in H1'. discriminate H1'.
Qed.

(** * Examples *)
Definition lantern (n : N) : NodeConfig := mkConfig 0 0 0 [] StNode [] [] [] [10; 0; 0; n] [] 0 0 [] 0 0 (0, n) [] [mkPort (0, n) 0x80 0].
Definition light (n : N) : list N := pollreply_bytes (ArtPollReplyFromConfig (lantern n)).
(** Whatever can be done without input is done, n times. *)
Definition auto : sys -> label := fun y =>
  match List.find (fun l => match exec ctl1 y l with RNext _ _ => true | _ => false end) (map (fun i => LRun i CGo) (seq 0 (length (Y_threads y))) ++ [LRun 4 (CTime 5%Z)]) with Some l => l | None => LStart end.
Definition from_light (n : N) : script := act (LRun 6 (CDatagram ([10; 0; 0; n], 6454) (light n))).
(** Two lanterns answer, in one order and in the other, the second one twice. *)
Definition night1 : script := from_light 1 ++ repeat auto 30 ++ from_light 2 ++ repeat auto 13.
Definition night2 : script := from_light 2 ++ repeat auto 30 ++ from_light 1 ++ repeat auto 13 ++ from_light 2 ++ repeat auto 13.
Definition listed (y : sys) : list (list N) := map (ip_of (S_tables (Y_sh y))) (K_Nodes (S_tables (Y_sh y))).
Lemma a_session fs ds ips : tested_lives ctl1 carefulb up_ctl fs (fun ls1 y1 tr1 ls2 y2 tr2 ph => match ph with Up => true | _ => false end && bool_decide (others (E_localIP ctl1) tr1 = []) && bool_decide (calls ls2 = []) &&
    no_errors ls2 && at_restb y2 && quiet (hist (tr1 ++ tr2)) && bool_decide (others (E_localIP ctl1) tr2 = ds) && bool_decide (listed y2 = ips)) = true ->
  tested_life ctl1 carefulb up_ctl (fun _ _ _ ph => match ph with Up => true | _ => false end) = true ->
  exists tr y, session ctl1 tr y /\ others (E_localIP ctl1) tr = ds /\ listed y = ips.
Proof.
  unfold tested_lives, tested_life. intros H H0. destruct (play_life ctl1 carefulb (init ctl1) Idle up_ctl) as [[[[ls1 y1] tr1] ph]|] eqn:Hp; [ | discriminate ]. destruct ph; try discriminate H0.
  destruct (play_life ctl1 carefulb y1 Up fs) as [[[[ls2 y2] tr2] ph2]|] eqn:Hq; [ | discriminate ].
  repeat (apply andb_prop in H; let X := fresh "X" in destruct H as [H X]). apply bool_decide_eq_true in X, X0, X4, X5. exists tr2, y2. split; [ | auto ].
  pose proof (play_life_steps _ _ _ _ _ _ _ _ _ Hp) as S1. pose proof (play_life_steps _ _ _ _ _ _ _ _ _ Hq) as S2.
  split; [ reflexivity | reflexivity | ]. exists y1, ls1, tr1, ls2. split; [ exact S1 | ]. split; [ exact X5 | ]. split; [ | exact (quiet_kept _ X1) ].
  constructor; try assumption; [ | apply at_restb_ok; assumption ].
  split; [ repeat (split; [ repeat constructor | ]); repeat constructor | intros _; split; [ reflexivity | discriminate ] | left; reflexivity | ]. exists ls1, tr1.
  exact (play_life_ok ctl1 carefulb careful up_ctl carefulb_ok _ _ _ _ _ _ _ _ (life_nil ctl1 careful) Hp).
Qed.
Definition reply_in (d : list N) : ArtPollReplyPacket := match Unmarshal d with Ret (Some (PktPollReply p), None) => p | _ => NewArtPollReplyPacket end.
Lemma reply_in_ok d p : bytes_ok d -> wire_accepts d (PktPollReply p) -> p = reply_in d.
Proof. intros B H. apply Unmarshal_accepts in H; [ | exact B ]. unfold reply_in. rewrite H. reflexivity. Qed.
Lemma light_ok n : n < 256 -> bytes_ok (light n).
Proof. intros H. unfold light. apply (packet_bytes_ok (PktPollReply _)). apply announcement_wf. unfold wf_config, lantern, word_ok, bytes_ok, addr_ok, byte_ok, StNode. cbn. repeat split; try lia; repeat constructor; cbn; unfold byte_ok; lia. Qed.
Example C112_ex : exists tr y tr' y', session ctl1 tr y /\ session ctl1 tr' y' /\ distinct_nodes (others (E_localIP ctl1) tr) /\
  (forall d, In d (others (E_localIP ctl1) tr) <-> In d (others (E_localIP ctl1) tr')) /\ listed y = [[10; 0; 0; 1]; [10; 0; 0; 2]] /\ listed y' = [[10; 0; 0; 2]; [10; 0; 0; 1]].
Proof.
  destruct (a_session night1 [light 1; light 2] [[10; 0; 0; 1]; [10; 0; 0; 2]] ltac:(vm_compute; reflexivity) ltac:(vm_compute; reflexivity)) as (tr & y & S & O & L).
  destruct (a_session night2 [light 2; light 1; light 2] [[10; 0; 0; 2]; [10; 0; 0; 1]] ltac:(vm_compute; reflexivity) ltac:(vm_compute; reflexivity)) as (tr' & y' & S' & O' & L').
  exists tr, y, tr', y'. split; [ exact S | ]. split; [ exact S' | ]. rewrite O, O'. split; [ | split; [ intros d; cbn [In]; tauto | auto ] ].
  assert (K : forall p, answer_in [light 1; light 2] p -> p = reply_in (light 1) \/ p = reply_in (light 2)).
  { intros p (_ & d & [<-|[<-|[]]] & Hw); [ left | right ]; (apply reply_in_ok; [ apply light_ok; lia | exact Hw ]). }
  intros p p' Hp Hp'. apply K in Hp, Hp'. assert (X : forall i j a, In i [1; 2] -> In j [1; 2] -> i <> j -> a ∈ reply_outputs (reply_in (light i)) -> a ∉ reply_outputs (reply_in (light j))).
  { intros i j a Hi Hj Hn Ha Ha'. assert (Y : Forall (fun k => reply_outputs (reply_in (light k)) = [(0, k)]) [1; 2]) by (repeat constructor; vm_compute; reflexivity). rewrite List.Forall_forall in Y.
    rewrite (Y _ Hi) in Ha. rewrite (Y _ Hj) in Ha'. apply elem_of_list_singleton in Ha, Ha'. congruence. }
  assert (Z : PollReply_IPAddress (reply_in (light 1)) <> PollReply_IPAddress (reply_in (light 2))) by (vm_compute; discriminate).
  destruct Hp as [-> | ->], Hp' as [-> | ->]; split; intros E; try reflexivity; try contradiction; try congruence; intros a; apply X; cbn; try tauto; lia.
Qed.

Definition P_Order_theorems := (C112_tables, C112_order, C112_set, C112_datagrams, C112_order_refuted, C112_ex).
Print Assumptions P_Order_theorems.
