(** Property C123: a lost route comes back with the next answer. *)
From Verif Require Import SysFacts SysLaws SysRun SysOrder SysScript P_Node ControllerFacts P_Controller P_Wire P_Known P_Listing P_Owner.
From stdpp Require Import base list gmap.
Open Scope N_scope.

(** * Specification *)
(** The event does not take the universe from ip: ip itself still announces it; no other node announces it or stops announcing it; no node that
    announces it expires; the controller is not started again. *)
Definition leaves (s : Controller) (e : event) (a : Address) (ip : list N) : Prop :=
  match e with
  | EReply p _ => tracked p -> if decide (PollReply_IPAddress p = ip) then a ∈ reply_outputs p else a ∉ reply_outputs p /\ ~ has_port s (PollReply_IPAddress p) a
  | EGc clock => forall j n cn, n ∈ K_Nodes s -> K_heap s !! n = Some cn -> a ∈ addresses (C_OutputPorts (CN_Node cn)) -> (clock j <= CN_LastSeen cn + 7000000000)%Z
  | ESend _ _ | ETick _ _ => True
  | EStart => False
  end.

(** * Proofs *)
Lemma reach_last fps h s0 e o s : reach fps (h ++ [(s0, e, o)]) s -> reach fps h s0 /\ event_ok s0 e /\ step s0 e = Ret (s, o).
Proof.
  intros R. inversion R as [X|h' s' e' s'' o' R' Ho E X]; subst; [ destruct h; discriminate | ]. apply app_inj_tail in X. destruct X as [-> X]. injection X as <- <- <-. auto.
Qed.
(** Whatever happened before, from an answer on the node that answered gets the universes it announced, as long as no event takes them away. *)
Theorem C123_comes_back : forall fps h s h1 s1 p t o h2 a, reach fps h s -> h = h1 ++ (s1, EReply p t, o) :: h2 -> tracked p -> a ∈ reply_outputs p ->
  Forall (fun x => leaves (fst (fst x)) (snd (fst x)) a (PollReply_IPAddress p)) h2 -> owner s a = Some (PollReply_IPAddress p).
Proof.
  intros fps h s h1 s1 p t o h2 a R -> T A. revert s R. induction h2 as [|[[s2 e] o2] h2 IH] using rev_ind; intros s R F.
  - apply reach_last in R. destruct R as (R & Ho & E). exact (proj1 (proj2 (C121_step _ _ _ _ _ _ a R Ho E) T) A).
  - rewrite app_comm_cons, app_assoc in R. apply reach_last in R. destruct R as (R & Ho & E). apply Forall_app in F. destruct F as [F F2]. apply Forall_cons in F2. destruct F2 as [F2 _]. cbn in F2.
    specialize (IH s2 R F). pose proof (C121_step _ _ _ _ _ _ a R Ho E) as C. destruct e as [p' t'|clock|d b|order now|]; cbn in F2.
    + destruct C as [C1 C2]. destruct (decide (tracked p')) as [T'|T']; [ | rewrite (C1 T'); exact IH ]. specialize (F2 T'). destruct (C2 T') as [C3 C4].
      destruct (decide (PollReply_IPAddress p' = PollReply_IPAddress p)) as [Hi|Hi]; [ rewrite <- Hi; exact (C3 F2) | ]. destruct F2 as [F2 F3]. rewrite (proj2 (C4 F2) F3). exact IH.
    + destruct C as [_ C]. rewrite C; [ exact IH | ]. intros ip (n & cn & Hn & Hc & Hi & Ha). pose proof (reach_inv _ _ _ R) as HI. cbn [step] in E.
      destruct (gcNode_eq s2 clock HI) as (s3 & k & E1 & G). rewrite E1 in E. cbn in E. injection E as <- <-. apply elem_of_list_In, in_map_iff. exists n. split; [ unfold ip_of; rewrite (col_heap _ _ _ _ _ G), Hc; exact Hi | ].
      apply elem_of_list_In. destruct (decide (n ∈ K_Nodes s3)) as [K|K]; [ exact K | ]. destruct (col_removed _ _ _ _ _ G n Hn K) as (j & _ & cn' & Hc' & St). rewrite Hc in Hc'. injection Hc' as <-. specialize (F2 j n cn Hn Hc Ha). lia.
    + rewrite C. exact IH.
    + rewrite C. exact IH.
    + destruct F2.
Qed.
Lemma owner_has s a ip : Inv s -> owner s a = Some ip -> has_port s ip a.
Proof.
  unfold owner. intros HI H. destruct (K_OutputAddress s !! a) as [n|] eqn:En; cbn in H; [ | discriminate ]. destruct (inv_out s HI a n En) as (Hn & cn & Hc & Ha). exists n, cn. split; [ exact Hn | ]. split; [ exact Hc | ].
  split; [ | exact Ha ]. unfold ip_of in H. rewrite Hc in H. congruence.
Qed.
(** For answers the condition is exact: the others take the universe away. *)
Theorem C123_exact : forall fps h s p t s' out a ip, reach fps h s -> event_ok s (EReply p t) -> step s (EReply p t) = Ret (s', out) -> owner s a = Some ip ->
  (owner s' a = Some ip <-> leaves s (EReply p t) a ip).
Proof.
  intros fps h s p t s' out a ip R Ho E Hw. pose proof (owner_has s a ip (reach_inv _ _ _ R) Hw) as Hp. destruct (C121_step _ _ _ _ _ _ a R Ho E) as [C1 C2]. cbn.
  destruct (decide (tracked p)) as [T|T]; [ | rewrite (C1 T), Hw; tauto ]. destruct (C2 T) as [C3 C4]. destruct (decide (PollReply_IPAddress p = ip)) as [Hi|Hi]; destruct (decide (a ∈ reply_outputs p)) as [Ha|Ha].
  - rewrite (C3 Ha), Hi. tauto.
  - destruct (C4 Ha) as [C5 _]. rewrite Hi in C5. rewrite (C5 Hp). split; [ discriminate | intros K; destruct (Ha (K T)) ].
  - rewrite (C3 Ha). split; [ congruence | intros K; destruct (proj1 (K T) Ha) ].
  - destruct (C4 Ha) as [C5 C6]. destruct (has_dec s (PollReply_IPAddress p) a) as [K|K]; [ rewrite (C5 K); split; [ discriminate | intros L; destruct (proj2 (L T) K) ] | rewrite (C6 K), Hw; tauto ].
Qed.
(** The same for the controller's goroutines, whatever their interleaving. *)
Theorem C123_run : forall E ls y tr1 s1 p t o tr2 a, runs E ls y (tr1 ++ OTable s1 (EReply p t) o :: tr2) -> tracked p -> a ∈ reply_outputs p ->
  Forall (fun x => leaves (fst (fst x)) (snd (fst x)) a (PollReply_IPAddress p)) (hist tr2) -> owner (S_tables (Y_sh y)) a = Some (PollReply_IPAddress p).
Proof.
  intros E ls y tr1 s1 p t o tr2 a R T A F. pose proof (ok_reach _ _ _ (sys_shared _ _ _ (runs_ok _ _ _ _ R))) as Hr.
  apply (C123_comes_back _ _ _ (hist tr1) s1 p t o (hist tr2) a Hr); try assumption. rewrite hist_app. reflexivity.
Qed.

(** Node 1 and node 2 share universe 7; node 1 expires and takes the route of node 2 with it; the next answer of node 2 brings it back, and it
    stays when node 1 comes back with another universe and data is sent. *)
Definition healing : list cmd := [Start; Reply (one_port 1 7) (sec 1); Reply (one_port 2 7) (sec 8); Gc (sec 9); Reply (one_port 2 7) (sec 10); Reply (one_port 1 9) (sec 10); Send (repeat 255 512) (0, 7); Tick (sec 12)].
Lemma healing_ok : Forall cmd_ok healing.
Proof. unfold healing. cmds_ok. Qed.
Example C123_ex : exists s h1 s1 p t o h2, reach 1000 (h1 ++ (s1, EReply p t, o) :: h2) s /\ map (fun x => owner (fst (fst x)) (0, 7)) h1 = [None; None; Some [10; 0; 0; 1]; Some [10; 0; 0; 2]] /\
  owner s1 (0, 7) = None /\ tracked p /\ (0, 7) ∈ reply_outputs p /\ PollReply_IPAddress p = [10; 0; 0; 2] /\ length h2 = 3%nat /\
  Forall (fun x => leaves (fst (fst x)) (snd (fst x)) (0, 7) (PollReply_IPAddress p)) h2 /\ owner s (0, 7) = Some [10; 0; 0; 2].
Proof.
  destruct (test_reach healing (fun s h => match h with
    | [x0; x1; x2; x3; (s1, EReply p t, o); (s2, EReply p2 t2, o2); (s3, ESend d b, o3); (s4, ETick r w, o4)] =>
        bool_decide (map (fun x => owner (fst (fst x)) (0, 7)) [x0; x1; x2; x3] = [None; None; Some [10; 0; 0; 1]; Some [10; 0; 0; 2]] /\ owner s1 (0, 7) = None /\ tracked p /\ (0, 7) ∈ reply_outputs p /\
          PollReply_IPAddress p = [10; 0; 0; 2] /\ PollReply_IPAddress p2 = [10; 0; 0; 1] /\ (0, 7) ∉ reply_outputs p2 /\ PollReply_IPAddress p2 ∉ ips s2)
    | _ => false end) healing_ok) as (s & h & Hr & E); [ vm_compute; reflexivity | ].
  destruct h as [|x0 [|x1 [|x2 [|x3 [|[[s1 [p t| | | |]] o] [|[[s2 [p2 t2| | | |]] o2] [|[[s3 [| |d b| |]] o3] [|[[s4 [| | |r w|]] o4] [|]]]]]]]]]; try discriminate E.
  apply bool_decide_eq_true in E. destruct E as (E1 & E2 & E3 & E4 & E5 & E6 & E7 & E8).
  assert (F : Forall (fun x => leaves (fst (fst x)) (snd (fst x)) (0, 7) (PollReply_IPAddress p)) [(s2, EReply p2 t2, o2); (s3, ESend d b, o3); (s4, ETick r w, o4)]).
  { constructor; [ | repeat constructor ]. cbn. intros _. rewrite E5, E6. destruct (decide ([10; 0; 0; 1] = [10; 0; 0; 2])) as [K|_]; [ discriminate K | ]. split; [ exact E7 | ].
    intros (n & cn & Hn & Hc & Hi & _). apply E8. apply elem_of_list_In, in_map_iff. exists n. split; [ unfold ip_of; rewrite Hc, E6; exact Hi | apply elem_of_list_In, Hn ]. }
  exists s, [x0; x1; x2; x3], s1, p, t, o, [(s2, EReply p2 t2, o2); (s3, ESend d b, o3); (s4, ETick r w, o4)]. conj; try assumption; [ reflexivity | ].
  rewrite <- E5. exact (C123_comes_back _ _ _ [x0; x1; x2; x3] s1 p t o _ _ Hr eq_refl E3 E4 F).
Qed.

Definition P_Heals_theorems := (C123_comes_back, C123_exact, C123_run, C123_ex).
Print Assumptions P_Heals_theorems.
