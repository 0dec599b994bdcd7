(** C111: who may change what a controller knows. The address a datagram comes from is compared with the own address and written to the log (node.go:221-236), nothing else. *)
From Verif Require Import WireSpec P_Encode P_Decode P_Config P_Controller ControllerFacts SysFacts SysLaws SysRun SysOrder SysScript P_Node P_Life P_Live P_Wire P_Settle Net P_Net P_Flow P_Fair.
From stdpp Require Import base list gmap.
Open Scope N_scope.

(** * The source of a datagram makes no difference *)
(** The same step, but a datagram may come from another host. *)
Inductive same_label (E : env) : label -> label -> Prop :=
| same_l l : same_label E l l
| same_dgram i a b d : foreign E a = foreign E b -> same_label E (LRun i (CDatagram a d)) (LRun i (CDatagram b d)).
Inductive same_obs (E : env) : obs -> obs -> Prop :=
| same_o o : same_obs E o o
| same_recv a b d : foreign E a = foreign E b -> same_obs E (ORecv a d) (ORecv b d)
| same_disc a b d : foreign E a = foreign E b -> same_obs E (ODiscard a d) (ODiscard b d).
Inductive same_thread (E : env) : thread -> thread -> Prop :=
| same_t t : same_thread E t t
| same_got buf a b n : foreign E a = foreign E b -> same_thread E (RD_got buf (Some (a, n))) (RD_got buf (Some (b, n))).
Definition same_sys (E : env) (y z : sys) : Prop := Y_sh y = Y_sh z /\ Forall2 (same_thread E) (Y_threads y) (Y_threads z).
Lemma same_obs_refl E o : Forall2 (same_obs E) o o. Proof. induction o; constructor; [ constructor | assumption ]. Qed.
Lemma same_threads_refl E l : Forall2 (same_thread E) l l. Proof. induction l; constructor; [ constructor | assumption ]. Qed.
Inductive same_outcome (E : env) : outcome -> outcome -> Prop :=
| so_blocked : same_outcome E Blocked Blocked
| so_crash : same_outcome E Crash Crash
| so_next s t t' sp o o' : same_thread E t t' -> Forall2 (same_obs E) o o' -> same_outcome E (Next s t sp o) (Next s t' sp o').
Lemma same_outcome_refl E r : same_outcome E r r.
Proof. destruct r; constructor; [ constructor | apply same_obs_refl ]. Qed.
Lemma same_tstep E s t t' : same_thread E t t' -> forall c c', same_label E (LRun 0 c) (LRun 0 c') -> same_outcome E (tstep E s t c) (tstep E s t' c').
Proof.
  intros H c c' Hc. inversion H as [x|buf a b n K]; subst.
  - inversion Hc as [l|i a b d K]; subst; [ apply same_outcome_refl | ]. destruct t'; try apply same_outcome_refl.
    cbn [tstep]. destruct (flag_at _ _); [ | constructor ]. constructor; [ apply same_got; exact K | ]. constructor; [ apply same_recv; exact K | constructor ].
  - inversion Hc as [l|i a' b' d K']; subst; [ | constructor ]. unfold foreign in K. apply (f_equal negb) in K. rewrite !negb_involutive in K.
    destruct c'; try (constructor; fail). cbn [tstep]. destruct (S_shutdown s).
    + constructor; [ constructor | ]. constructor; [ apply same_disc; unfold foreign; congruence | constructor ].
    + rewrite K. destruct (IP_Equal (E_localIP E) (fst b)); constructor; constructor.
Qed.
Inductive same_result (E : env) : result -> result -> Prop :=
| sr_blocked : same_result E RBlocked RBlocked
| sr_crash : same_result E RCrash RCrash
| sr_next y z o o' : same_sys E y z -> Forall2 (same_obs E) o o' -> same_result E (RNext y o) (RNext z o').
Lemma same_exec E y z l l' : same_sys E y z -> same_label E l l' -> same_result E (exec E y l) (exec E z l').
Proof.
  intros [H1 H2] Hl. destruct y as [s ts], z as [s' ts']. cbn [Y_sh Y_threads] in *. subst s'.
  assert (R : forall i c c', same_label E (LRun 0 c) (LRun 0 c') -> same_result E (exec E (mkSys s ts) (LRun i c)) (exec E (mkSys s ts') (LRun i c'))).
  { intros i c c' Hc. cbn [exec Y_threads Y_sh]. destruct (ts !! i) as [t|] eqn:Ht.
    - destruct (Forall2_lookup_l _ _ _ _ _ H2 Ht) as (t' & -> & Hs). pose proof (same_tstep E s t t' Hs c c' Hc) as K. inversion K; subst; constructor; [ | assumption ].
      split; [ reflexivity | ]. cbn [Y_threads]. apply Forall2_app; [ | apply same_threads_refl ]. apply Forall2_insert; assumption.
    - rewrite (Forall2_lookup_None_l _ _ _ _ _ _ H2 Ht) || (assert (ts' !! i = None) as -> by (rewrite lookup_ge_None in *; rewrite <- (Forall2_length _ _ _ H2); exact Ht)). constructor. }
  inversion Hl as [l0|i a b d K]; subst.
  - destruct l' as [i c| | | | | ]; [ apply R; constructor | | | | | ].
    1,2: cbn; constructor; [ split; [ reflexivity | ]; cbn; apply Forall2_app; [ assumption | apply same_threads_refl ] | apply same_obs_refl ].
    + cbn. destruct (E_ctl E); [ | constructor ]. constructor; [ split; [ reflexivity | ]; cbn; apply Forall2_app; [ assumption | apply same_threads_refl ] | apply same_obs_refl ].
    + cbn. destruct (E_ctl E); constructor; [ split; [ reflexivity | assumption ] | apply same_obs_refl ].
    + cbn. destruct (E_ctl E); constructor; [ split; [ reflexivity | assumption ] | apply same_obs_refl ].
  - apply R. constructor. exact K.
Qed.
(** Whoever sent the datagrams: if others (not the host itself) had sent the same bytes at the same times, the node or controller would be in the same state, and the observations would be the same, apart from the
    source of the datagrams; it would crash or be blocked at the same steps. *)
Theorem C111_source : forall E ls y tr ls', runs E ls y tr -> Forall2 (same_label E) ls ls' ->
  exists y' tr', runs E ls' y' tr' /\ Y_sh y' = Y_sh y /\ Forall2 (same_obs E) tr tr' /\
    forall l l', same_label E l l' -> (exec E y l = RCrash <-> exec E y' l' = RCrash) /\ (exec E y l = RBlocked <-> exec E y' l' = RBlocked).
Proof.
  intros E ls y tr ls' R. revert ls'. enough (K : forall ls', Forall2 (same_label E) ls ls' -> exists y' tr', runs E ls' y' tr' /\ same_sys E y y' /\ Forall2 (same_obs E) tr tr').
  { intros ls' F. destruct (K ls' F) as (y' & tr' & R' & S & O). exists y', tr'. split; [ exact R' | ]. split; [ symmetry; apply S | ]. split; [ exact O | ].
    intros l l' Hl. pose proof (same_exec E y y' l l' S Hl) as X. inversion X; split; split; intros; congruence. }
  unfold runs in *. remember (init E) as y0 eqn:Ey. induction R as [|y ls y1 tr l y2 o R IH Hl He]; intros ls' F.
  - inversion F; subst. exists (init E), []. split; [ constructor | ]. split; [ split; [ reflexivity | apply same_threads_refl ] | constructor ].
  - apply Forall2_app_inv_l in F. destruct F as (ls1 & l2 & F1 & F2 & ->). inversion F2 as [|? l' ? ? Hll F3]; subst. inversion F3; subst.
    destruct (IH eq_refl ls1 F1) as (y' & tr' & R' & S & O). pose proof (same_exec E y1 y' l l' S Hll) as X. rewrite He in X. inversion X as [| |? z ? o' Sz Oz]; subst.
    exists z, (tr' ++ o'). split; [ | split; [ exact Sz | apply Forall2_app; assumption ] ]. eapply steps_snoc; [ exact R' | | congruence ]. inversion Hll; subst; exact Hl.
Qed.

(** * Forged answers *)
(** An announcement anybody can make: a node with IP v and its outputs at universe a. *)
Definition forged (v : list N) (a : Address) (outs : list Port) : NodeConfig := mkConfig 0 0 0 [] StNode [] [] [] v [] 0 0 [] 0 0 a [] outs.
Definition forged_env (v : list N) (a : Address) (outs : list Port) : env := mkEnv false (forged v a outs) v ([], 6454) defaultBroadcastAddr defaultBroadcastAddr 0%Z.
Definition forged_datagram (v : list N) (a : Address) (outs : list Port) : list N := pollreply_bytes (ArtPollReplyFromConfig (forged v a outs)).
Lemma forged_wf v a outs : bytes_ok v -> addr_ok a -> Forall port_ok outs -> wf_config (forged v a outs).
Proof. intros H1 H2 H3. unfold wf_config, forged. cbn. repeat split; try assumption; try (constructor; fail); unfold word_ok, byte_ok, StNode; try lia; try apply H2. Qed.
Lemma table_after E y l y' o s q now out : exec E y l = RNext y' o -> In (OTable s (EReply q now) out) o -> step s (EReply q now) = Ret (S_tables (Y_sh y'), out).
Proof.
  intros He Ho. apply exec_cases in He. destruct He as [(i & c & t & s' & t' & sp & -> & Et & Es & ->)|[(t & -> & -> & [[-> _]|[[-> _]|(? & ? & -> & _)]])|(mm & op & f & -> & _ & _ & -> & _)]].
  2-5: try (cbn in Ho; intuition discriminate).
  tcases Es; cbn in Ho; try contradiction; repeat match goal with H : _ \/ _ |- _ => destruct H as [H|H] | H : False |- _ => destruct H end; try discriminate.
  match goal with H : OTable _ _ _ = _ |- _ => injection H as <- <- <- <- end. assumption.
Qed.
(** A running controller can receive the forged announcement from any other host, and apply it at once: no other datagram arrives, nobody calls the API, no network error occurs. *)
Lemma forgery E y v a outs evil port : live E y -> E_ctl E = true -> C_Type (E_config E) = StController -> to16 evil <> to16 (E_localIP E) -> bytes_ok v -> addr_ok a -> Forall port_ok outs -> (length outs <= 4)%nat ->
  exists ls y' tr m cn, steps E y ls y' tr /\ calls ls = [] /\ no_errors ls = true /\ Forall (fun l => no_datagram l \/ exists r, l = LRun r (CDatagram (evil, port) (forged_datagram v a outs))) ls /\
    m ∈ K_Nodes (S_tables (Y_sh y')) /\ K_heap (S_tables (Y_sh y')) !! m = Some cn /\ announces (forged_env v a outs) (CN_Node cn) /\
    (outs <> [] -> K_OutputAddress (S_tables (Y_sh y')) !! a = Some m).
Proof.
  intros V C T Hsrc Bv Ba Bo Lo. pose proof (forged_wf v a outs Bv Ba Bo) as W. assert (Hle : C_Type (forged v a outs) <= 6) by (unfold forged, StNode; cbn; lia).
  assert (Val : valid_config (forged v a outs)). { split; [ cbn; lia | ]. split; [ exact Lo | ]. intros [|i] inp outp H; discriminate H. }
  pose proof (announcement_wf _ W) as Ha. destruct (marshal_unmarshal (PktPollReply (ArtPollReplyFromConfig (forged v a outs))) Ha (conj eq_refl Hle)) as (b & Hm & -> & Hb & Hu).
  change (packet_bytes (PktPollReply (ArtPollReplyFromConfig (forged v a outs)))) with (forged_datagram v a outs) in *.
  set (q := PollReply_set (ArtPollReplyFromConfig (forged v a outs)) magic 0x2100 6454) in *. change (canonical (PktPollReply (ArtPollReplyFromConfig (forged v a outs)))) with (PktPollReply q) in Hu.
  assert (Hshort : firstn 4096 (forged_datagram v a outs) = forged_datagram v a outs).
  { apply (item_short (forged_env v a outs) (KReply, (defaultBroadcastAddr, forged_datagram v a outs)) W). split; [ reflexivity | ]. exact Hm. }
  destruct (receive_round E y (evil, port) (forged_datagram v a outs) V Hb) as (ls & y' & tr & Wk & D & Hr).
  destruct (works_runs _ _ _ _ _ Wk) as (ls0 & tr0 & R0 & R1).
  assert (Ho : exists s now out, In (OTable s (EReply q now) out) tr).
  { refine (reply_applied E y ls y' tr evil port (forged_datagram v a outs) q Wk T _ Hsrc Hr _); [ rewrite (ctl_callbacks _ _ _ _ C R0); reflexivity | rewrite Hshort; apply Unmarshal_accepts; assumption ]. }
  destruct Ho as (s & now & out & Ho). destruct Wk as [_ Ws Wc We _].
  assert (K : exists ls1 l ls2 y1 y2 t1 o, ls = ls1 ++ l :: ls2 /\ steps E y ls1 y1 t1 /\ label_ok l /\ exec E y1 l = RNext y2 o /\ In (OTable s (EReply q now) out) o).
  { clear -Ws Ho. induction Ws as [|y ls y1 tr l y2 o Ws IH Hl He]; [ destruct Ho | ]. apply in_app_or in Ho. destruct Ho as [Ho|Ho].
    - destruct (IH Ho) as (ls1 & l1 & ls2 & z1 & z2 & t1 & o1 & -> & H). exists ls1, l1, (ls2 ++ [l]), z1, z2, t1, o1. rewrite <- app_assoc. auto.
    - exists ls, l, [], y1, y2, tr, o. auto. }
  destruct K as (ls1 & l & ls2 & y1 & y2 & t1 & o & -> & S1 & Hl & He & Hin).
  pose proof (table_after _ _ _ _ _ _ _ _ _ He Hin) as Hst.
  pose proof (steps_snoc E y ls1 y1 t1 l y2 o S1 Hl He) as S2.
  assert (R2 : runs E (ls0 ++ (ls1 ++ [l])) y2 (tr0 ++ (t1 ++ o))) by (eapply steps_app; [ exact R0 | exact S2 ]).
  destruct (reply_entry E (forged_env v a outs) (ls0 ++ (ls1 ++ [l])) y2 (tr0 ++ t1 ++ o) s now out q W Val (or_introl eq_refl) eq_refl R2) as (s' & m & cn & K1 & K2 & K3 & K4 & _ & K5).
  { apply in_or_app. right. apply in_or_app. right. exact Hin. }
  rewrite Hst in K1. injection K1 as <-. exists (ls1 ++ [l]), y2, (t1 ++ o), m, cn. split; [ exact S2 | ].
  assert (EQ : ls1 ++ l :: ls2 = (ls1 ++ [l]) ++ ls2) by (rewrite <- app_assoc; reflexivity). rewrite EQ in *. rewrite calls_app in Wc. apply app_eq_nil in Wc. rewrite no_errors_app in We. apply andb_prop in We. apply Forall_app in D.
  repeat split; try tauto; try (apply K4).
Qed.
(** So in every running state, one datagram of any host makes the controller send universe a to whatever IP that datagram names. *)
Theorem C111_redirect_refuted : forall E y v a evil port, live E y -> E_ctl E = true -> C_Type (E_config E) = StController -> to16 evil <> to16 (E_localIP E) -> len v = 4 -> bytes_ok v -> addr_ok a ->
  exists d ls y' tr m cn, steps E y ls y' tr /\ calls ls = [] /\ no_errors ls = true /\ Forall (fun l => no_datagram l \/ exists r, l = LRun r (CDatagram (evil, port) d)) ls /\
    K_OutputAddress (S_tables (Y_sh y')) !! a = Some m /\ K_heap (S_tables (Y_sh y')) !! m = Some cn /\ C_IP (CN_Node cn) = v.
Proof.
  intros E y v a evil port V C T Hs Lv Bv Ba. assert (Bp : Forall port_ok [mkPort a 0x80 0]) by (repeat constructor; try apply Ba; unfold byte_ok; cbn; lia).
  destruct (forgery E y v a [mkPort a 0x80 0] evil port V C T Hs Bv Ba Bp ltac:(cbn; lia)) as (ls & y' & tr & m & cn & H1 & H2 & H3 & H4 & H5 & H6 & H7 & H8).
  exists (forged_datagram v a [mkPort a 0x80 0]), ls, y', tr, m, cn. repeat (split; [ assumption | ]). split; [ apply H8; discriminate | ]. split; [ exact H6 | ].
  assert (T4 : To4 v = v) by (unfold To4; rewrite Lv; reflexivity). pose proof (forged_wf v a [mkPort a 0x80 0] Bv Ba Bp) as W.
  assert (L4 : len (To4 (C_IP (E_config (forged_env v a [mkPort a 0x80 0])))) = 4) by (cbn [forged_env forged E_config C_IP]; rewrite T4; exact Lv).
  rewrite (announced_ip (forged_env v a [mkPort a 0x80 0]) _ W L4 H7). exact T4.
Qed.
(** ... and one datagram of any host takes all universes from the node with a given IP. *)
Theorem C111_silence_refuted : forall E y v evil port, live E y -> E_ctl E = true -> C_Type (E_config E) = StController -> to16 evil <> to16 (E_localIP E) -> len v = 4 -> bytes_ok v ->
  exists d ls y' tr, steps E y ls y' tr /\ calls ls = [] /\ no_errors ls = true /\ Forall (fun l => no_datagram l \/ exists r, l = LRun r (CDatagram (evil, port) d)) ls /\
    forall a m cn, K_OutputAddress (S_tables (Y_sh y')) !! a = Some m -> K_heap (S_tables (Y_sh y')) !! m = Some cn -> C_IP (CN_Node cn) <> v.
Proof.
  intros E y v evil port V C T Hs Lv Bv. assert (Ba : addr_ok (0, 0)) by (split; unfold byte_ok; cbn; lia).
  destruct (forgery E y v (0, 0) [] evil port V C T Hs Bv Ba ltac:(constructor) ltac:(cbn; lia)) as (ls & y' & tr & m & cn & H1 & H2 & H3 & H4 & H5 & H6 & H7 & _).
  exists (forged_datagram v (0, 0) []), ls, y', tr. repeat (split; [ assumption | ]). intros a m' cn' Ho Hh Hv.
  pose proof (forged_wf v (0, 0) [] Bv Ba ltac:(constructor)) as W. assert (T4 : To4 v = v) by (unfold To4; rewrite Lv; reflexivity).
  assert (L4 : len (To4 (C_IP (E_config (forged_env v (0, 0) [])))) = 4) by (cbn [forged_env forged E_config C_IP]; rewrite T4; exact Lv).
  assert (Hip : C_IP (CN_Node cn) = v) by (rewrite (announced_ip (forged_env v (0, 0) []) _ W L4 H7); exact T4).
  destruct V as [_ _ _ (ls0 & tr0 & L)]. pose proof (life_runs _ _ _ _ _ _ L) as R0. assert (R : runs E (ls0 ++ ls) y' (tr0 ++ tr)) by (eapply steps_app; [ exact R0 | exact H1 ]).
  pose proof (ok_reach _ _ _ (sys_shared _ _ _ (runs_ok _ _ _ _ R))) as Hre. pose proof (reach_inv _ _ _ Hre) as I.
  destruct (proj1 (C41_routing_never_dangles _ _ _ Hre) _ _ Ho) as (Hl & cn2 & pt & Hc & Hpt & Hpa). assert (cn2 = cn') as -> by congruence.
  assert (m' = m) as ->. { apply (inv_ip_inj _ _ _ I Hl H5). unfold ip_of. rewrite Hh, H6. congruence. }
  assert (cn' = cn) as -> by congruence. destruct (announced_outputs (forged_env v (0, 0) []) _ a W H7) as [_ K]; [ | apply K; reflexivity ]. unfold addresses. apply elem_of_list_In, in_map_iff. eauto.
Qed.

(** * Examples *)
(** The controller drives universe 0:0.0 at 2.0.0.1. The host 10.0.0.66, which is no node, says that it is at 10.0.0.66: the next frame goes there. *)
Definition evil : UDPAddr := ([10; 0; 0; 66], 6454).
Definition stolen : script := arrive 6 evil (forged_datagram [10; 0; 0; 66] (0, 0) [mkPort (0, 0) 0x80 0]) ++ parse 2 ++ go_n 8 3 ++ go_n 4 2 ++ act (LRun 4 (CTime 6%Z)) ++ tick 5 2000000000 ++ go_n 5 4.
Definition route_ip (y : sys) (a : Address) : option (list N) := match K_OutputAddress (S_tables (Y_sh y)) !! a with Some m => option_map (fun cn => C_IP (CN_Node cn)) (K_heap (S_tables (Y_sh y)) !! m) | None => None end.
Example C111_ex : exists ls1 y1 tr1 ls2 y2 tr2 d, runs ctl1 ls1 y1 tr1 /\ route_ip y1 (0, 0) = Some [2; 0; 0; 1] /\
  steps ctl1 y1 ls2 y2 tr2 /\ route_ip y2 (0, 0) = Some [10; 0; 0; 66] /\ In (OQueued (KDmx, (([10; 0; 0; 66], 6454), d))) tr2.
Proof.
  pose (P := fun (ls1 : list label) y1 (tr1 : list obs) (ls2 : list label) y2 tr2 => bool_decide (route_ip y1 (0, 0) = Some [2; 0; 0; 1]) && bool_decide (route_ip y2 (0, 0) = Some [10; 0; 0; 66]) &&
    existsb (fun o => match o with OQueued (KDmx, (a, _)) => bool_decide (a = ([10; 0; 0; 66], 6454)) | _ => false end) tr2).
  assert (T : tested2 ctl1 (up_ctl ++ discover) stolen P = true) by (vm_compute; reflexivity).
  destruct (tested2_runs _ _ _ _ T) as (ls1 & y1 & tr1 & ls2 & y2 & tr2 & R & S & H). clear T. unfold P in H. clear P. apply andb_prop in H. destruct H as [H H3]. apply andb_prop in H. destruct H as [H1 H2]. apply bool_decide_eq_true in H1, H2.
  apply existsb_exists in H3. destruct H3 as (o & Ho & H3). destruct o as [| | | | | | | |x| | | | | | | | | |]; try discriminate H3. destruct x as [k [a d]]. destruct k; try discriminate H3. apply bool_decide_eq_true in H3. subst a.
  exists ls1, y1, tr1, ls2, y2, tr2, d. auto 10.
Qed.
(** The theorems, for the busy controller of P_Live. *)
Example C111_busy_ex : exists d ls y' tr m cn, steps ctl1 busy_state ls y' tr /\ calls ls = [] /\ no_errors ls = true /\ Forall (fun l => no_datagram l \/ exists r, l = LRun r (CDatagram evil d)) ls /\
    K_OutputAddress (S_tables (Y_sh y')) !! (0, 0) = Some m /\ K_heap (S_tables (Y_sh y')) !! m = Some cn /\ C_IP (CN_Node cn) = [10; 0; 0; 66].
Proof. exact (C111_redirect_refuted ctl1 busy_state [10; 0; 0; 66] (0, 0) (fst evil) (snd evil) busy_live eq_refl eq_refl ltac:(discriminate) eq_refl ltac:(repeat constructor) ltac:(split; reflexivity)). Qed.

Definition P_Source_theorems := (C111_source, C111_redirect_refuted, C111_silence_refuted, C111_ex, C111_busy_ex).
Print Assumptions P_Source_theorems.
