(** Property C104: how many ArtPolls a node may leave unanswered before the controller forgets it (controller.go:19-20, 131, 379-381). *)
From Verif Require Import SysFacts SysLaws SysRun SysOrder SysScript P_Node P_Controller P_Wire P_Known.
From stdpp Require Import base list gmap.
Open Scope N_scope.

(** * Specification *)
(** Polls and clean-ups happen every 3 s, poll number k at 3 k s. A node answers poll k not before that, and the clean-up
    that comes with poll m is done within a second. *)
Definition poll_time (k : Z) : Z := (k * 3000000000)%Z.
Definition cleanup_with (m : Z) (clock : nat -> Z) : Prop := forall j, (poll_time m <= clock j <= poll_time m + 1000000000)%Z.
(** In the history h, whenever the controller cleans up, the last poll that the node at ip has answered before is fewer than
    [missed] + 2 polls ago: the node has left at most [missed] polls in a row unanswered before the poll that comes with the clean-up. *)
Definition misses_at_most (missed : Z) (ip : list N) (h : history) : Prop :=
  forall h1 s0 p t out h2 s1 clock out1 h3, h = h1 ++ (s0, EReply p t, out) :: h2 ++ (s1, EGc clock, out1) :: h3 -> tracked p -> PollReply_IPAddress p = ip -> no_answer ip h2 ->
  exists k m, (poll_time k <= t)%Z /\ cleanup_with m clock /\ (m <= k + 1 + missed)%Z.

(** * C104 *)
(** The comment in gcNode: nodes are stale after 5 missed ArtPolls. Refuted: a node that has answered poll 0 and leaves only the polls 1 and 2 unanswered is forgotten with poll 3. *)
Theorem C104_five_missed_refuted : exists h s ip, reach 1000 h s /\ misses_at_most 2 ip h /\ ~ no_answer ip h /\ unknown s ip.
Proof.
  pose proof (reach_init 1000) as R0. set (s0 := NewController 1000) in R0.
  destruct (C40_events_never_panic _ _ _ EStart R0 I) as (s1 & o0 & E0). pose proof (reach_step _ _ _ EStart _ _ R0 I E0) as R1.
  assert (W1 : wf_PollReply (one_port 1 7)) by (apply one_port_wf; unfold byte_ok; lia). assert (T1 : tracked (one_port 1 7)) by (left; reflexivity).
  destruct (C40_events_never_panic _ _ _ (EReply (one_port 1 7) 500000000%Z) R1 W1) as (s2 & o1 & E1). pose proof (reach_step _ _ _ (EReply (one_port 1 7) 500000000%Z) _ _ R1 W1 E1) as R2.
  destruct (C40_events_never_panic _ _ _ (EGc (fun _ => sec 3)%Z) R2 I) as (s3 & o2 & E2). pose proof (reach_step _ _ _ (EGc (fun _ => sec 3)%Z) _ _ R2 I E2) as R3.
  destruct (C40_events_never_panic _ _ _ (EGc (fun _ => sec 6)%Z) R3 I) as (s4 & o3 & E3). pose proof (reach_step _ _ _ (EGc (fun _ => sec 6)%Z) _ _ R3 I E3) as R4.
  destruct (C40_events_never_panic _ _ _ (EGc (fun _ => sec 9)%Z) R4 I) as (s & o4 & E4). pose proof (reach_step _ _ _ (EGc (fun _ => sec 9)%Z) _ _ R4 I E4) as R. cbn [app] in R.
  match type of R with reach _ ?hh _ => set (h := hh) in R end. exists h, s, [10; 0; 0; 1].
  assert (N : no_answer [10; 0; 0; 1] (skipn 2 h)). { intros z e o [K|[K|[K|[]]]]; injection K as <- <- <-; intros (p & t & K & _); discriminate K. }
  split; [ exact R | ]. split; [ | split ].
  - intros h1 x0 p t out h2 x1 clock out1 h3 Hh Ht Hip Hn.
    assert (Ha : t = 500000000%Z). { assert (K : In (x0, EReply p t, out) h) by (rewrite Hh; apply in_elt). destruct K as [K|[K|[K|[K|[K|[]]]]]]; try discriminate K. injection K as _ _ <- _. reflexivity. }
    assert (Hc : In (x1, EGc clock, out1) h) by (rewrite Hh; apply in_or_app; right; right; apply in_elt).
    exists 0%Z. destruct Hc as [K|[K|[K|[K|[K|[]]]]]]; try discriminate K; injection K as <- <- <-; [ exists 1%Z | exists 2%Z | exists 3%Z ]; subst t; unfold cleanup_with, poll_time, sec; repeat split; lia.
  - intros K. apply (K s1 (EReply (one_port 1 7) 500000000%Z) o1); [ right; left; reflexivity | ]. exists (one_port 1 7), 500000000%Z. auto.
  - assert (X1 : expired (skipn 2 h) 500000000%Z). { exists s4. eexists. exists o4. split; [ right; right; left; reflexivity | ]. intros j. vm_compute. reflexivity. }
    destruct (proj2 (C90_known _ _ _ [10; 0; 0; 1] R) (firstn 1 h) s1 _ _ o1 (skipn 2 h) eq_refl T1 eq_refl N) as (cfg & _ & _ & _ & K). exact (K X1).
Qed.
(** What holds instead: a node that leaves at most one poll in a row unanswered stays known, with the configuration and time of its last answer. *)
Theorem C104_one_missed_partial : forall fps h s ip, reach fps h s -> misses_at_most 1 ip h -> ~ no_answer ip h ->
  exists h1 s0 p t out h2 cfg, h = h1 ++ (s0, EReply p t, out) :: h2 /\ PollReply_IPAddress p = ip /\ no_answer ip h2 /\ ConfigFromArtPollReply p = Ret cfg /\ knows s ip cfg t.
Proof.
  intros fps h s ip R M Ha. destruct (last_answer ip h) as [N|(h1 & s0 & p & t & out & h2 & Hh & Ht & Hip & N)]; [ contradiction | ].
  destruct (proj2 (C90_known _ _ _ ip R) h1 s0 p t out h2 Hh Ht Hip N) as (cfg & Ec & _ & K & _). exists h1, s0, p, t, out, h2, cfg.
  split; [ exact Hh | ]. split; [ exact Hip | ]. split; [ exact N | ]. split; [ exact Ec | ]. apply K. intros s1 clock out1 Hin j.
  apply in_split in Hin. destruct Hin as (a & b & ->). assert (Na : no_answer ip a) by (intros z e o Hz; apply (N z e o); apply in_or_app; left; exact Hz).
  destruct (M h1 s0 p t out a s1 clock out1 b Hh Ht Hip Na) as (k & m & Hk & Hm & Hkm). specialize (Hm j). unfold poll_time in *. lia.
Qed.
(** The same for the tables of a controller in any run of its goroutines. *)
Theorem C104_run_partial : forall E ls y tr ip, runs E ls y tr -> misses_at_most 1 ip (hist tr) -> ~ no_answer ip (hist tr) ->
  exists cfg t, knows (S_tables (Y_sh y)) ip cfg t.
Proof.
  intros E ls y tr ip R M Ha. destruct (C104_one_missed_partial _ _ _ ip (ok_reach _ _ _ (sys_shared _ _ _ (runs_ok _ _ _ _ R))) M Ha) as (h1 & s0 & p & t & out & h2 & cfg & _ & _ & _ & _ & K). eauto.
Qed.
(** Poll 1 is left unanswered. *)
Example C104_ex : exists h s, reach 1000 h s /\ misses_at_most 1 [10; 0; 0; 1] h /\ ~ no_answer [10; 0; 0; 1] h /\ length h = 4%nat.
Proof.
  pose proof (reach_init 1000) as R0. set (s0 := NewController 1000) in R0.
  destruct (C40_events_never_panic _ _ _ EStart R0 I) as (s1 & o0 & E0). pose proof (reach_step _ _ _ EStart _ _ R0 I E0) as R1.
  assert (W1 : wf_PollReply (one_port 1 7)) by (apply one_port_wf; unfold byte_ok; lia). assert (T1 : tracked (one_port 1 7)) by (left; reflexivity).
  destruct (C40_events_never_panic _ _ _ (EReply (one_port 1 7) 500000000%Z) R1 W1) as (s2 & o1 & E1). pose proof (reach_step _ _ _ (EReply (one_port 1 7) 500000000%Z) _ _ R1 W1 E1) as R2.
  destruct (C40_events_never_panic _ _ _ (EGc (fun _ => sec 3)%Z) R2 I) as (s3 & o2 & E2). pose proof (reach_step _ _ _ (EGc (fun _ => sec 3)%Z) _ _ R2 I E2) as R3.
  destruct (C40_events_never_panic _ _ _ (EGc (fun _ => sec 6)%Z) R3 I) as (s4 & o3 & E3). pose proof (reach_step _ _ _ (EGc (fun _ => sec 6)%Z) _ _ R3 I E3) as R. cbn [app] in R.
  match type of R with reach _ ?hh _ => set (h := hh) in R end. exists h, s4. split; [ exact R | ]. split; [ | split; [ | reflexivity ] ].
  - intros h1 x0 p t out h2 x1 clock out1 h3 Hh Ht Hip Hn.
    assert (Ha : t = 500000000%Z). { assert (K : In (x0, EReply p t, out) h) by (rewrite Hh; apply in_elt). destruct K as [K|[K|[K|[K|[]]]]]; try discriminate K. injection K as _ _ <- _. reflexivity. }
    assert (Hc : In (x1, EGc clock, out1) h) by (rewrite Hh; apply in_or_app; right; right; apply in_elt).
    exists 0%Z. destruct Hc as [K|[K|[K|[K|[]]]]]; try discriminate K; injection K as <- <- <-; [ exists 1%Z | exists 2%Z ]; subst t; unfold cleanup_with, poll_time, sec; repeat split; lia.
  - intros K. apply (K s1 (EReply (one_port 1 7) 500000000%Z) o1); [ right; left; reflexivity | ]. exists (one_port 1 7), 500000000%Z. auto.
Qed.

Definition P_Missed_theorems := (C104_five_missed_refuted, C104_one_missed_partial, C104_run_partial, C104_ex).
Print Assumptions P_Missed_theorems.
