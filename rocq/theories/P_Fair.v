(** C96: infinite executions under a fair scheduler, with input that never ends. *)
From Verif Require Import WireSpec BinaryFacts P_Config ControllerFacts P_Controller SysFacts SysLaws SysRun SysOrder SysScript P_Node P_Life P_Live P_Wire P_Settle Net P_Net P_Flow.
From stdpp Require Import base list gmap.
Open Scope N_scope.

(** * Infinite executions *)
(** States [f 0], [f 1], ...; step [n] has label [l n] and observations [o n]. The node or controller runs in [f 0]. Anything can happen afterwards (datagrams, ticks, SendDMXToAddress),
    except Start, Stop and failing socket operations. *)
Record execution (E : env) (f : nat -> sys) (l : nat -> label) (o : nat -> list obs) : Prop := {
  ex_live : live E (f 0%nat);
  ex_label : forall n, label_ok (l n);
  ex_calls : forall n, calls [l n] = [];
  ex_errors : forall n, no_errors [l n] = true;
  ex_step : forall n, exec E (f n) (l n) = RNext (f (S n)) (o n);
}.
(** What goroutine or call [i] can do by itself: go on ([b] = false) or receive from a channel in a select ([b] = true). *)
Definition able (E : env) (y : sys) (i : nat) (b : bool) : Prop :=
  exists t c y' o, Y_threads y !! i = Some t /\ resting t = b /\ internal t c = true /\ exec E y (LRun i c) = RNext y' o.
Definition took (f : nat -> sys) (l : nat -> label) (n i : nat) (b : bool) : Prop :=
  exists t c, Y_threads (f n) !! i = Some t /\ resting t = b /\ internal t c = true /\ l n = LRun i c.
(** Strong fairness: at any time, a goroutine (or call) goes on again later, unless from some moment on it never can; and the same for receiving in its select. Go's channels and mutexes serve
    waiters in order of arrival and select chooses at random. *)
Definition fair (E : env) (f : nat -> sys) (l : nat -> label) : Prop := forall i b n,
  (exists m, (n <= m)%nat /\ took f l m i b) \/ (exists m, (n <= m)%nat /\ forall k, (m <= k)%nat -> ~ able E (f k) i b).
(** What was observed in the first [n] steps. *)
Definition upto (o : nat -> list obs) (n : nat) : list obs := concat (map o (seq 0 n)).

(** * One step *)
Definition curq {A} (sel : chans -> list A) (y : sys) : list A :=
  match last_index (S_gens (Y_sh y)) with Some g => match S_gens (Y_sh y) !! g with Some ch => sel ch | None => [] end | None => [] end.
(** The queue is unchanged, or one entry was added, or the waiting reader [is] took one. *)
Definition moved {A} (sel : chans -> list A) (is : thread -> Prop) (y : sys) (l : label) (y' : sys) : Prop :=
  curq sel y' = curq sel y \/ (exists x, curq sel y' = curq sel y ++ [x]) \/
  (exists x i t, l = LRun i CGo /\ Y_threads y !! i = Some t /\ is t /\ curq sel y = x :: curq sel y').
Definition at_sl (t : thread) : Prop := match t with SL_wait _ => True | _ => False end.
Definition at_pr (t : thread) : Prop := match t with PR_wait _ _ => True | _ => False end.
Definition at_rl (t : thread) : Prop := match t with RL_wait _ => True | _ => False end.
Definition at_cp (t : thread) : Prop := match t with CP_wait _ _ _ => True | _ => False end.
Lemma queues_move E y l y' o : live E y -> calls [l] = [] -> no_errors [l] = true -> exec E y l = RNext y' o ->
  moved Q_send at_sl y l y' /\ moved Q_poll at_pr y l y' /\ moved Q_recv at_rl y l y' /\ moved Q_reply at_cp y l y'.
Proof.
  intros V Hc Hn He. destruct (live_facts E y V) as (g & ch & k & G1 & G2 & G3 & _ & _ & Sh & _ & _ & _ & _ & _ & _ & Hg & Hth & _).
  assert (Hg' : (g < length (S_gens (Y_sh y)))%nat) by (eapply lookup_lt_Some; exact G2).
  apply exec_cases in He. destruct He as [(i & c & t & s & t' & sp & -> & Et & Es & ->)|[(t & -> & -> & Hk)|(mm & op & f & -> & -> & _ & _)]].
  2, 3: repeat split; left; reflexivity.
  pose proof (Forall_lookup_1 _ _ _ _ Hth Et) as [Ha Hr]. pose proof (Forall_lookup_1 _ _ _ _ Hg Et) as Hh.
  assert (Up : forall {A} (sel : chans -> list A) ch', curq sel (mkSys (upd_gen (Y_sh y) g ch') (<[i:=t']> (Y_threads y) ++ sp)) = sel ch').
  { intros A sel ch'. unfold curq, upd_gen, last_index in *. cbn [Y_sh S_gens with_gens]. rewrite insert_length, G1. rewrite list_lookup_insert by exact Hg'. reflexivity. }
  assert (Cu : forall {A} (sel : chans -> list A), curq sel y = sel ch) by (intros A sel; unfold curq; rewrite G1, G2; reflexivity).
  tcases Es; try discriminate Ha; try discriminate Hn; cbn in Hh; try match type of Hh with _ /\ _ => destruct Hh as [Hh _] end; try match type of Hh with ?a = g => subst a end; try (repeat split; left; reflexivity).
  all: match type of G2 with _ = Some ?c2 => match goal with G : S_gens _ !! _ = Some ?c |- _ => tryif constr_eq c c2 then fail else (assert (c = c2) as -> by congruence) end end.
  all: try match goal with G : push _ _ = Some _ |- _ => apply push_Some in G; destruct G as [-> _] end.
  all: unfold moved; rewrite !Up, !Cu; cbn [Q_send Q_recv Q_poll Q_reply set_send set_recv set_poll set_reply].
  all: repeat split; first [ left; reflexivity | right; left; eexists; reflexivity | right; right; eexists _, _, _; split; [ reflexivity | ]; split; [ exact Et | ]; split; [ exact I | ]; eassumption ].
Qed.

(** * Steps of a fair execution *)
(** Steps a goroutine can take before it waits for something to happen. *)
Definition rank (t : thread) : nat :=
  match t with
  | PR_start => 2 | PR_loop _ => 1 | PR_send _ => 3 | PR_sending _ _ => 2
  | SL_loop => 1 | SL_check _ => 3 | SL_write _ => 2
  | RL_start => 2 | RL_loop => 1 | RL_parse _ => 2
  | RD_read _ => 1 | RD_got _ _ => 4 | RD_push _ _ => 3 | RD_pushing _ _ _ => 2
  | H_start _ => 3 | H_poll _ | H_reply _ => 2 | H_polling _ _ | H_replying _ _ => 1
  | CP_start => 6 | CP_send _ => 5 | CP_sending _ _ => 4 | CP_poll _ => 3 | CP_polling _ _ => 2 | CP_loop _ => 1 | CP_gc _ | CP_reply _ _ => 2
  | DL_start => 2 | DL_loop => 1 | DL_push fs => 2 * length fs + 2 | DL_pushing _ fs _ => 2 * length fs + 3
  | U_send _ _ => 1
  | _ => 0
  end.
Lemma rank_down E s t c s' t' sp o : is_api t = 0%nat -> resting t = false -> locking t = 0%nat -> trans E s t c s' t' sp o -> (rank t' < rank t)%nat.
Proof. intros Ha Hr Hl H. destruct H; try discriminate Ha; try discriminate Hr; try discriminate Hl; cbn [rank length]; lia. Qed.
Lemma nat_le_ind (P : nat -> Prop) n : P n -> (forall m, (n <= m)%nat -> P m -> P (S m)) -> forall m, (n <= m)%nat -> P m.
Proof. intros H0 HS m Hm. induction Hm; auto. Qed.

Section fair.
Context (E : env) (f : nat -> sys) (l : nat -> label) (o : nat -> list obs) (X : execution E f l o) (Fr : fair E f l).

Lemma live_at n : live E (f n).
Proof. induction n as [|n IH]; [ exact (ex_live _ _ _ _ X) | ]. destruct (live_label E _ _ _ _ IH (ex_label _ _ _ _ X n) (ex_calls _ _ _ _ X n) (ex_errors _ _ _ _ X n) (ex_step _ _ _ _ X n)) as [H _]. exact H. Qed.
Lemma thread_moves n i t : Y_threads (f n) !! i = Some t -> (exists c, l n = LRun i c) \/ Y_threads (f (S n)) !! i = Some t.
Proof.
  intros Ht. pose proof (ex_step _ _ _ _ X n) as He. apply exec_cases in He. destruct He as [(j & c & u & s & u' & sp & Hl & Eu & Es & Hy)|[(u & _ & Hy & _)|(mm & op & g & _ & Hy & _)]]; rewrite Hy; cbn [Y_threads].
  - destruct (Nat.eq_dec j i) as [->|Hn]; [ left; eauto | right ]. apply lookup_app_l_Some. rewrite list_lookup_insert_ne by exact Hn. exact Ht.
  - right. apply lookup_app_l_Some. exact Ht.
  - right. exact Ht.
Qed.
Lemma own_step n i t c : Y_threads (f n) !! i = Some t -> l n = LRun i c ->
  exists s t' sp, trans E (Y_sh (f n)) t c s t' sp (o n) /\ f (S n) = mkSys s (<[i := t']> (Y_threads (f n)) ++ sp) /\ Y_threads (f (S n)) !! i = Some t' /\ is_api t = 0%nat /\ c <> CErr.
Proof.
  intros Ht Hl. pose proof (ex_step _ _ _ _ X n) as He. rewrite Hl in He. apply exec_cases in He. destruct He as [(j & c' & u & s & u' & sp & K & Eu & Es & Hy)|[(u & _ & _ & [[K _]|[[K _]|(? & ? & K & _)]])|(mm & op & g & _ & _ & _ & _ & K)]];
    try discriminate K; [ | destruct g; discriminate K ].
  injection K as <- <-. rewrite Ht in Eu. injection Eu as <-. exists s, u', sp. split; [ apply tstep_trans, Es | ]. split; [ exact Hy | ]. split.
  - rewrite Hy. cbn [Y_threads]. apply lookup_app_l_Some. apply list_lookup_insert. eapply lookup_lt_Some. exact Ht.
  - destruct (live_facts E _ (live_at n)) as (g & ch & k & _ & _ & _ & _ & _ & _ & _ & _ & _ & _ & _ & _ & _ & Hth & _). split; [ exact (proj1 (Forall_lookup_1 _ _ _ _ Hth Ht)) | ].
    intros ->. pose proof (ex_errors _ _ _ _ X n) as K. rewrite Hl in K. discriminate K.
Qed.
(** A condition that lasts until goroutine [i] takes a step, and in which it is able to again and again. *)
Lemma leads (P : sys -> Prop) i b n : P (f n) -> (forall m, (n <= m)%nat -> P (f m) -> (exists c, l m = LRun i c) \/ P (f (S m))) ->
  (forall m, (n <= m)%nat -> P (f m) -> exists k, (m <= k)%nat /\ (P (f k) -> able E (f k) i b)) -> exists m c, (n <= m)%nat /\ P (f m) /\ l m = LRun i c.
Proof.
  intros H0 HP HA. assert (S1 : forall m, (n <= m)%nat -> (exists k c, (n <= k)%nat /\ P (f k) /\ l k = LRun i c) \/ P (f m)).
  { apply nat_le_ind; [ right; exact H0 | ]. intros m Hm [K|K]; [ left; exact K | ]. destruct (HP m Hm K) as [[c Hc]|K']; [ left; eauto | right; exact K' ]. }
  destruct (Fr i b n) as [(m & Hm & t & c & _ & _ & _ & Hl)|(m & Hm & Hk)].
  - destruct (S1 m Hm) as [K|K]; [ exact K | eauto ].
  - destruct (S1 m Hm) as [K|K]; [ exact K | ]. destruct (HA m Hm K) as (k & Hk1 & Hk2). destruct (S1 k ltac:(lia)) as [K'|K']; [ exact K' | ]. exfalso. exact (Hk k Hk1 (Hk2 K')).
Qed.
Definition goes (i : nat) (t : thread) (n : nat) : Prop := exists m c, (n <= m)%nat /\ Y_threads (f m) !! i = Some t /\ l m = LRun i c.
Lemma go_on i t n : Y_threads (f n) !! i = Some t -> (forall m, (n <= m)%nat -> exists k, (m <= k)%nat /\ (Y_threads (f k) !! i = Some t -> able E (f k) i (resting t))) -> goes i t n.
Proof. intros Ht HA. apply (leads (fun y => Y_threads y !! i = Some t) i (resting t) n Ht); [ intros m _ K; exact (thread_moves m i t K) | intros m Hm _; exact (HA m Hm) ]. Qed.
Lemma able_go n i t c : Y_threads (f n) !! i = Some t -> internal t c = true -> tstep E (Y_sh (f n)) t c <> Blocked -> able E (f n) i (resting t).
Proof.
  intros Ht Hi Hb. pose proof (live_nocrash E _ (live_at n) (LRun i c)) as Hc. cbn [exec] in Hc. rewrite Ht in Hc.
  destruct (tstep E (Y_sh (f n)) t c) as [| |s t' sp ob] eqn:Es; try contradiction. exists t, c. cbn [exec]. rewrite Ht, Es. eauto 6.
Qed.

(** The threads that are never blocked. *)
Definition immediate (t : thread) : bool :=
  negb (resting t) && match t with
  | PR_sending _ _ | CP_sending _ _ | DL_pushing _ _ _ | H_polling _ _ | CP_polling _ _ | H_replying _ _ | RD_pushing _ _ _ | CP_gc _ | CP_reply _ _ | DL_lock _ | U_send _ _ => false
  | _ => true
  end.
Lemma immediate_able n i t : Y_threads (f n) !! i = Some t -> immediate t = true -> able E (f n) i false.
Proof.
  intros Ht Hi. destruct (live_facts E _ (live_at n)) as (g & ch & k & G1 & G2 & G3 & C1 & C2 & Sd & Lk & N1 & N2 & N3 & N4 & Hrep & Hpl & Hth & Hctl).
  pose proof (Forall_lookup_1 _ _ _ _ Hth Ht) as [Ha Hr]. pose proof (Forall_lookup_1 _ _ _ _ Hctl Ht) as Hc. cbn beta in Hc.
  assert (Gen : forall h, eval_gen (Y_sh (f n)) h <> Blocked) by (intros h; unfold eval_gen; rewrite G1; discriminate).
  assert (R : resting t = false) by (unfold immediate in Hi; destruct (resting t); [ discriminate Hi | reflexivity ]). rewrite <- R.
  apply (able_go n i t CGo Ht); [ destruct t; reflexivity | ].
  destruct t; try discriminate Hi; try discriminate Ha; cbn [tstep]; try rewrite Sd; try solve [ auto | discriminate | cases; fail ].
  all: try (rewrite C1, ?C2; discriminate).
  all: try (destruct (N4 (Hc eq_refl)) as (_ & _ & cg & Hcg); rewrite Hcg; solve [ auto | discriminate ]).
  all: try (destruct fs; [ discriminate | auto ]).
Qed.
Lemma immediate_goes n i t : Y_threads (f n) !! i = Some t -> immediate t = true -> goes i t n.
Proof.
  intros Ht Hi. apply go_on; [ exact Ht | ]. intros m Hm. exists m. split; [ lia | ]. intros K. replace (resting t) with false; [ exact (immediate_able m i t K Hi) | ].
  unfold immediate in Hi. destruct (resting t); [ discriminate Hi | reflexivity ].
Qed.

(** ** A goroutine that exists once *)
Definition one (w : thread -> nat) : Prop := (forall n, sum_list_with w (Y_threads (f n)) = 1%nat) /\ (forall t, (w t <= 1)%nat) /\ (forall p, w (H_start p) = 0%nat) /\ (forall b, w (RD_read b) = 0%nat).
Lemma one_at w n : one w -> exists i t, Y_threads (f n) !! i = Some t /\ w t = 1%nat.
Proof. intros (H1 & H2 & _). destruct (sum_pos w (Y_threads (f n))) as (i & t & Ht & Hw); [ rewrite H1; lia | ]. exists i, t. split; [ exact Ht | ]. specialize (H2 t). lia. Qed.
Lemma one_same w n i j t u : one w -> Y_threads (f n) !! i = Some t -> Y_threads (f n) !! j = Some u -> w t = 1%nat -> w u = 1%nat -> i = j.
Proof. intros (H1 & _) Ht Hu Wt Wu. destruct (Nat.eq_dec i j) as [K|K]; [ exact K | ]. pose proof (sum_two w _ _ _ _ _ K Ht Hu). rewrite H1 in H. lia. Qed.
Lemma one_keeps w n i t : one w -> Y_threads (f n) !! i = Some t -> w t = 1%nat -> exists u, Y_threads (f (S n)) !! i = Some u /\ w u = 1%nat.
Proof.
  intros (H1 & H2 & H3 & H4) Ht Wt. destruct (thread_moves n i t Ht) as [[c Hc]|K]; [ | eauto ]. destruct (own_step n i t c Ht Hc) as (s & t' & sp & Hs & Hy & Hi & Ha & _). exists t'. split; [ exact Hi | ].
  pose proof (H1 (S n)) as K. rewrite Hy in K. cbn [Y_threads] in K. rewrite sum_list_with_app in K. pose proof (sum_insert w _ i t t' Ht) as J. rewrite H1 in J.
  assert (Z : sum_list_with w sp = 0%nat). { destruct Hs; try discriminate Ha; cbn; rewrite ?H3, ?H4; reflexivity. } lia.
Qed.
Lemma one_stays w n i t : one w -> Y_threads (f n) !! i = Some t -> w t = 1%nat -> forall m, (n <= m)%nat -> exists u, Y_threads (f m) !! i = Some u /\ w u = 1%nat.
Proof. intros O Ht Wt. apply nat_le_ind; [ eauto | ]. intros m _ (u & Hu & Wu). exact (one_keeps w m i u O Hu Wu). Qed.
(** It comes back to its select. *)
Lemma returns w (isat : thread -> Prop) : one w -> (forall t, w t = 1%nat -> resting t = true -> isat t) -> (forall t, w t = 1%nat -> locking t = 0%nat) ->
  (forall n i t, Y_threads (f n) !! i = Some t -> w t = 1%nat -> resting t = false -> goes i t n) ->
  forall n i t, Y_threads (f n) !! i = Some t -> w t = 1%nat -> exists m u, (n <= m)%nat /\ Y_threads (f m) !! i = Some u /\ isat u /\ w u = 1%nat.
Proof.
  intros O Hat Hlk Hgo n i t. remember (rank t) as r. revert n t Heqr. induction r as [r IH] using lt_wf_ind. intros n t Hr Ht Wt.
  destruct (resting t) eqn:Rt; [ exists n, t; auto | ]. destruct (Hgo n i t Ht Wt Rt) as (m & c & Hm & Hk & Hc). destruct (own_step m i t c Hk Hc) as (s & t' & sp & Hs & _ & Hi & Ha & _).
  destruct (one_keeps w m i t O Hk Wt) as (u & Hu & Wu). rewrite Hi in Hu. injection Hu as <-. pose proof (rank_down _ _ _ _ _ _ _ _ Ha Rt (Hlk _ Wt) Hs) as Hd.
  destruct (IH (rank t') ltac:(lia) (S m) t' eq_refl Hi Wu) as (m' & v & M1 & M2 & M3). exists m', v. split; [ lia | auto ].
Qed.
(** Then it takes what is in its queue, and there is room in the queue. *)
Definition pop {A} (sel : chans -> list A) (i n : nat) : Prop := exists x, l n = LRun i CGo /\ curq sel (f n) = x :: curq sel (f (S n)).
Lemma pops {A} (sel : chans -> list A) w (isat : thread -> Prop) n i t : one w -> (forall u, isat u -> w u = 1%nat) ->
  (forall n, moved sel isat (f n) (l n) (f (S n))) ->
  (forall n t, Y_threads (f n) !! i = Some t -> w t = 1%nat -> exists m u, (n <= m)%nat /\ Y_threads (f m) !! i = Some u /\ isat u /\ w u = 1%nat) ->
  (forall n t, Y_threads (f n) !! i = Some t -> isat t -> curq sel (f n) <> [] -> able E (f n) i true) ->
  (forall n t, Y_threads (f n) !! i = Some t -> w t = 1%nat -> took f l n i true -> pop sel i n) ->
  Y_threads (f n) !! i = Some t -> w t = 1%nat -> curq sel (f n) <> [] -> exists m, (n <= m)%nat /\ pop sel i m.
Proof.
  intros O Hat Hmv Hret Hab Htk Ht Wt Hq.
  assert (Kp : forall n, (exists u, Y_threads (f n) !! i = Some u /\ w u = 1%nat) -> curq sel (f n) <> [] -> forall m, (n <= m)%nat -> (exists k, (n <= k)%nat /\ pop sel i k) \/ curq sel (f m) <> []).
  { clear Ht Wt Hq. clear n t. intros n (u & Hu & Wu) Hq. apply nat_le_ind; [ right; exact Hq | ]. intros m Hm [K|K]; [ left; exact K | ].
    destruct (Hmv m) as [Q|[(x & Q)|(x & j & v & Hl & Hv & Av & Q)]]; [ right; congruence | right; rewrite Q; destruct (curq sel (f m)); discriminate | ]. left. exists m. split; [ exact Hm | ].
    destruct (one_stays w n i u O Hu Wu m Hm) as (u' & Hu' & Wu'). assert (j = i) as -> by (apply (one_same w m j i v u' O Hv Hu'); auto). exists x. auto. }
  destruct (Fr i true n) as [(m & Hm & Hk)|(m & Hm & Hk)].
  - destruct (one_stays w n i t O Ht Wt m Hm) as (u & Hu & Wu). exists m. split; [ exact Hm | ]. exact (Htk m u Hu Wu Hk).
  - destruct (Kp n (ex_intro _ t (conj Ht Wt)) Hq m Hm) as [K|K]; [ exact K | ]. destruct (one_stays w n i t O Ht Wt m Hm) as (u & Hu & Wu). destruct (Hret m u Hu Wu) as (m' & v & M1 & M2 & M3 & M4).
    destruct (Kp m (ex_intro _ u (conj Hu Wu)) K m' M1) as [(k & K1 & K2)|K']; [ exists k; split; [ lia | exact K2 ] | ]. exfalso. exact (Hk m' M1 (Hab m' v M2 M3 K')).
Qed.
Lemma room {A} (sel : chans -> list A) : (forall n, (length (curq sel (f n)) <= 10)%nat) -> (forall n, curq sel (f n) <> [] -> exists m i, (n <= m)%nat /\ pop sel i m) ->
  forall n, exists m, (n <= m)%nat /\ (length (curq sel (f m)) < 10)%nat.
Proof.
  intros Hb Hp n. destruct (Nat.lt_ge_cases (length (curq sel (f n))) 10) as [K|K]; [ exists n; auto | ]. destruct (Hp n) as (m & i & Hm & x & _ & Hx); [ destruct (curq sel (f n)); [ cbn in K; lia | discriminate ] | ].
  exists (S m). split; [ lia | ]. specialize (Hb m). rewrite Hx in Hb. cbn [length] in Hb. lia.
Qed.
Lemma caps n : (length (curq Q_send (f n)) <= 10)%nat /\ (length (curq Q_recv (f n)) <= 10)%nat /\ (length (curq Q_poll (f n)) <= 10)%nat /\ (length (curq Q_reply (f n)) <= 10)%nat.
Proof.
  destruct (live_facts E _ (live_at n)) as (g & ch & k & G1 & G2 & _). destruct (live_at n) as [_ _ _ (ls & tr & L)]. pose proof (runs_ok _ _ _ _ (life_runs _ _ _ _ _ _ L)) as OK.
  pose proof (Forall_lookup_1 _ _ _ _ (ok_gens _ _ _ (sys_shared _ _ _ OK)) G2) as K. unfold g_ok, chan_cap in K. unfold curq. rewrite G1, G2. intuition lia.
Qed.

(** ** Every goroutine in turn *)
Lemma facts n : exists g ch k,
  last_index (S_gens (Y_sh (f n))) = Some g /\ S_gens (Y_sh (f n)) !! g = Some ch /\ gen_closed (Y_sh (f n)) g = false /\ last_index (S_conns (Y_sh (f n))) = Some k /\ flag_at (S_conns (Y_sh (f n))) k = true /\
  S_shutdown (Y_sh (f n)) = false /\ lock_inv (f n) /\ (forall A (sel : chans -> list A), curq sel (f n) = sel ch) /\
  (forall A (sel : chans -> list A) ch' th, curq sel (mkSys (upd_gen (Y_sh (f n)) g ch') th) = sel ch') /\
  Forall (fun t => match t with
                   | PR_wait _ h | PR_sending _ h | SL_wait h | RL_wait h | RD_pushing _ _ h | H_polling _ h
                   | CP_sending _ h | CP_polling _ h | CP_wait _ h _ | DL_pushing _ _ h => h = g
                   | H_replying _ h => h = g /\ C_Type (E_config E) = StController
                   | _ => True
                   end) (Y_threads (f n)).
Proof.
  destruct (live_facts E _ (live_at n)) as (g & ch & k & G1 & G2 & G3 & C1 & C2 & Sd & Lk & N1 & N2 & N3 & N4 & Hrep & Hpl & Hth & Hctl). exists g, ch, k. repeat (split; [ assumption | ]).
  split; [ intros A sel; unfold curq; rewrite G1, G2; reflexivity | ]. split; [ | exact Hpl ]. intros A sel ch' th. unfold curq, upd_gen, last_index in *. cbn [Y_sh S_gens with_gens]. rewrite insert_length, G1.
  rewrite list_lookup_insert by (eapply lookup_lt_Some; exact G2). reflexivity.
Qed.
Lemma moves n : moved Q_send at_sl (f n) (l n) (f (S n)) /\ moved Q_poll at_pr (f n) (l n) (f (S n)) /\ moved Q_recv at_rl (f n) (l n) (f (S n)) /\ moved Q_reply at_cp (f n) (l n) (f (S n)).
Proof. exact (queues_move E _ _ _ _ (live_at n) (ex_calls _ _ _ _ X n) (ex_errors _ _ _ _ X n) (ex_step _ _ _ _ X n)). Qed.
Lemma one_sl : one is_sl.
Proof. split; [ | split; [ intros []; cbn; lia | split; reflexivity ] ]. intros n. destruct (live_facts E _ (live_at n)) as (? & ? & ? & _ & _ & _ & _ & _ & _ & _ & _ & N & _). exact N. Qed.
Lemma one_pr : one is_pr.
Proof. split; [ | split; [ intros []; cbn; lia | split; reflexivity ] ]. intros n. destruct (live_facts E _ (live_at n)) as (? & ? & ? & _ & _ & _ & _ & _ & _ & _ & N & _). exact N. Qed.
Lemma one_rl : one is_rl.
Proof. split; [ | split; [ intros []; cbn; lia | split; reflexivity ] ]. intros n. destruct (live_facts E _ (live_at n)) as (? & ? & ? & _ & _ & _ & _ & _ & _ & _ & _ & _ & N & _). exact N. Qed.
Lemma one_cp : E_ctl E = true -> one is_cp.
Proof. intros C. split; [ | split; [ intros []; cbn; lia | split; reflexivity ] ]. intros n. destruct (live_facts E _ (live_at n)) as (? & ? & ? & _ & _ & _ & _ & _ & _ & _ & _ & _ & _ & N & _). apply (N C). Qed.
Lemma one_dl : E_ctl E = true -> one is_dl.
Proof. intros C. split; [ | split; [ intros []; cbn; lia | split; reflexivity ] ]. intros n. destruct (live_facts E _ (live_at n)) as (? & ? & ? & _ & _ & _ & _ & _ & _ & _ & _ & _ & _ & N & _). apply (N C). Qed.

(** sendLoop *)
Lemma sl_returns n i t : Y_threads (f n) !! i = Some t -> is_sl t = 1%nat -> exists m u, (n <= m)%nat /\ Y_threads (f m) !! i = Some u /\ at_sl u /\ is_sl u = 1%nat.
Proof.
  apply (returns is_sl at_sl one_sl); [ intros []; try discriminate; intros _ _; exact I | intros []; try discriminate; reflexivity | ]. clear n i t. intros n i t Ht Hw Hr. apply immediate_goes; [ exact Ht | ].
  destruct t; try discriminate; reflexivity.
Qed.
Lemma sl_pops n i t : Y_threads (f n) !! i = Some t -> is_sl t = 1%nat -> curq Q_send (f n) <> [] -> exists m, (n <= m)%nat /\ pop Q_send i m.
Proof.
  apply (pops Q_send is_sl at_sl n i t one_sl).
  - intros [] H; try contradiction; reflexivity.
  - intros k. apply (moves k).
  - intros k u. apply sl_returns.
  - intros k u Hu Au Hq. destruct (facts k) as (g & ch & _ & _ & G2 & _ & _ & _ & _ & _ & Cu & _ & Hpl). pose proof (Forall_lookup_1 _ _ _ _ Hpl Hu) as Hg. rewrite Cu in Hq. destruct u; try contradiction. cbn in Hg. subst g0.
    apply (able_go k i (SL_wait g) CGo Hu eq_refl). cbn [tstep]. rewrite G2. destruct (Q_send ch); [ contradiction | discriminate ].
  - intros k u Hu Wu (u' & c & Hu' & Ru & Hi & Hl). rewrite Hu in Hu'. injection Hu' as <-. destruct (own_step k i u c Hu Hl) as (s & t' & sp & Hs & Hy & _). destruct u; try discriminate Wu; try discriminate Ru. destruct c; try discriminate Hi.
    destruct (facts k) as (g' & ch & _ & _ & G2 & _ & _ & _ & _ & _ & Cu & Up & Hpl). pose proof (Forall_lookup_1 _ _ _ _ Hpl Hu) as Hg. cbn in Hg. inversion Hs; subst. exists x. split; [ exact Hl | ]. rewrite Hy, Cu, Up.
    match goal with G : S_gens _ !! g' = Some ?c |- _ => assert (c = ch) as -> by congruence end. assumption.
Qed.
Lemma send_room n : exists m, (n <= m)%nat /\ (length (curq Q_send (f m)) < 10)%nat.
Proof.
  revert n. apply (room Q_send); [ intros n; apply (caps n) | ]. intros n Hq. destruct (one_at is_sl n one_sl) as (i & t & Ht & Wt). destruct (sl_pops n i t Ht Wt Hq) as (m & Hm & Hp). eauto.
Qed.
Lemma send_goes n i t : Y_threads (f n) !! i = Some t -> match t with PR_sending _ _ | CP_sending _ _ | DL_pushing _ _ _ => True | _ => False end -> goes i t n.
Proof.
  intros Ht Hk. apply go_on; [ exact Ht | ]. intros m Hm. destruct (send_room m) as (k & Hk1 & Hk2). exists k. split; [ exact Hk1 | ]. intros K.
  destruct (facts k) as (g & ch & _ & _ & G2 & _ & _ & _ & _ & _ & Cu & _ & Hpl). pose proof (Forall_lookup_1 _ _ _ _ Hpl K) as Hg. rewrite Cu in Hk2.
  destruct t; try contradiction; cbn in Hg; subst g0; (apply (able_go k i _ CGo K eq_refl); cbn [tstep]; rewrite G2; cbv zeta; rewrite (SysFacts.push_room _ _ Hk2); discriminate).
Qed.
(** pollReplyLoop *)
Lemma pr_goes n i t : Y_threads (f n) !! i = Some t -> is_pr t = 1%nat -> resting t = false -> goes i t n.
Proof. intros Ht Hw Hr. destruct t; try discriminate Hw; try discriminate Hr; first [ apply immediate_goes; [ exact Ht | reflexivity ] | apply send_goes; [ exact Ht | exact I ] ]. Qed.
Lemma pr_pops n i t : Y_threads (f n) !! i = Some t -> is_pr t = 1%nat -> curq Q_poll (f n) <> [] -> exists m, (n <= m)%nat /\ pop Q_poll i m.
Proof.
  apply (pops Q_poll is_pr at_pr n i t one_pr).
  - intros [] H; try contradiction; reflexivity.
  - intros k. apply (moves k).
  - intros k u. apply (returns is_pr at_pr one_pr); [ intros []; try discriminate; intros _ _; exact I | intros []; try discriminate; reflexivity | exact pr_goes ].
  - intros k u Hu Au Hq. destruct (facts k) as (g & ch & _ & _ & G2 & _ & _ & _ & _ & _ & Cu & _ & Hpl). pose proof (Forall_lookup_1 _ _ _ _ Hpl Hu) as Hg. rewrite Cu in Hq. destruct u; try contradiction. cbn in Hg. subst g0.
    apply (able_go k i (PR_wait me g) CGo Hu eq_refl). cbn [tstep]. rewrite G2. destruct (Q_poll ch); [ contradiction | discriminate ].
  - intros k u Hu Wu (u' & c & Hu' & Ru & Hi & Hl). rewrite Hu in Hu'. injection Hu' as <-. destruct (own_step k i u c Hu Hl) as (s & t' & sp & Hs & Hy & _). destruct u; try discriminate Wu; try discriminate Ru. destruct c; try discriminate Hi.
    destruct (facts k) as (g' & ch & _ & _ & G2 & _ & _ & _ & _ & _ & Cu & Up & Hpl). pose proof (Forall_lookup_1 _ _ _ _ Hpl Hu) as Hg. cbn in Hg. inversion Hs; subst. eexists. split; [ exact Hl | ]. rewrite Hy, Cu, Up.
    match goal with G : S_gens _ !! g' = Some ?c |- _ => assert (c = ch) as -> by congruence end. eassumption.
Qed.
Lemma poll_room n : exists m, (n <= m)%nat /\ (length (curq Q_poll (f m)) < 10)%nat.
Proof.
  revert n. apply (room Q_poll); [ intros n; apply (caps n) | ]. intros n Hq. destruct (one_at is_pr n one_pr) as (i & t & Ht & Wt). destruct (pr_pops n i t Ht Wt Hq) as (m & Hm & Hp). eauto.
Qed.
Lemma poll_goes n i t : Y_threads (f n) !! i = Some t -> match t with H_polling _ _ | CP_polling _ _ => True | _ => False end -> goes i t n.
Proof.
  intros Ht Hk. apply go_on; [ exact Ht | ]. intros m Hm. destruct (poll_room m) as (k & Hk1 & Hk2). exists k. split; [ exact Hk1 | ]. intros K.
  destruct (facts k) as (g & ch & _ & _ & G2 & _ & _ & _ & _ & _ & Cu & _ & Hpl). pose proof (Forall_lookup_1 _ _ _ _ Hpl K) as Hg. rewrite Cu in Hk2.
  destruct t; try contradiction; cbn in Hg; subst g0; (apply (able_go k i _ CGo K eq_refl); cbn [tstep]; rewrite G2; cbv zeta; rewrite (SysFacts.push_room _ _ Hk2); discriminate).
Qed.
(** recvLoop and the reader *)
Lemma rl_pops n i t : Y_threads (f n) !! i = Some t -> is_rl t = 1%nat -> curq Q_recv (f n) <> [] -> exists m, (n <= m)%nat /\ pop Q_recv i m.
Proof.
  apply (pops Q_recv is_rl at_rl n i t one_rl).
  - intros [] H; try contradiction; reflexivity.
  - intros k. apply (moves k).
  - intros k u. apply (returns is_rl at_rl one_rl); [ intros []; try discriminate; intros _ _; exact I | intros []; try discriminate; reflexivity | ]. clear k u. intros k j u Hu Hw Hr. apply immediate_goes; [ exact Hu | ].
    destruct u; try discriminate; reflexivity.
  - intros k u Hu Au Hq. destruct (facts k) as (g & ch & _ & _ & G2 & _ & _ & _ & _ & _ & Cu & _ & Hpl). pose proof (Forall_lookup_1 _ _ _ _ Hpl Hu) as Hg. rewrite Cu in Hq. destruct u; try contradiction. cbn in Hg. subst g0.
    apply (able_go k i (RL_wait g) CGo Hu eq_refl). cbn [tstep]. rewrite G2. destruct (Q_recv ch); [ contradiction | discriminate ].
  - intros k u Hu Wu (u' & c & Hu' & Ru & Hi & Hl). rewrite Hu in Hu'. injection Hu' as <-. destruct (own_step k i u c Hu Hl) as (s & t' & sp & Hs & Hy & _). destruct u; try discriminate Wu; try discriminate Ru. destruct c; try discriminate Hi.
    destruct (facts k) as (g' & ch & _ & _ & G2 & _ & _ & _ & _ & _ & Cu & Up & Hpl). pose proof (Forall_lookup_1 _ _ _ _ Hpl Hu) as Hg. cbn in Hg. inversion Hs; subst. eexists. split; [ exact Hl | ]. rewrite Hy, Cu, Up.
    match goal with G : S_gens _ !! g' = Some ?c |- _ => assert (c = ch) as -> by congruence end. eassumption.
Qed.
Lemma recv_room n : exists m, (n <= m)%nat /\ (length (curq Q_recv (f m)) < 10)%nat.
Proof.
  revert n. apply (room Q_recv); [ intros n; apply (caps n) | ]. intros n Hq. destruct (one_at is_rl n one_rl) as (i & t & Ht & Wt). destruct (rl_pops n i t Ht Wt Hq) as (m & Hm & Hp). eauto.
Qed.
Lemma rd_goes n i b d h : Y_threads (f n) !! i = Some (RD_pushing b d h) -> goes i (RD_pushing b d h) n.
Proof.
  intros Ht. apply go_on; [ exact Ht | ]. intros m Hm. destruct (recv_room m) as (k & Hk1 & Hk2). exists k. split; [ exact Hk1 | ]. intros K.
  destruct (facts k) as (g & ch & _ & _ & G2 & _ & _ & _ & _ & _ & Cu & _ & Hpl). pose proof (Forall_lookup_1 _ _ _ _ Hpl K) as Hg. rewrite Cu in Hk2.
  cbn in Hg; subst h; (apply (able_go k i _ CGo K eq_refl); cbn [tstep]; rewrite G2; cbv zeta; rewrite (SysFacts.push_room _ _ Hk2); discriminate).
Qed.
(** The lock *)
Lemma delivery_ends n i t : Y_threads (f n) !! i = Some t -> delivering t = 1%nat -> exists m, (n <= m)%nat /\ S_lock (Y_sh (f m)) = false.
Proof.
  remember (rank t) as r. revert n t Heqr. induction r as [r IH] using lt_wf_ind. intros n t Hr Ht Hd.
  assert (G : goes i t n) by (destruct t; try discriminate Hd; [ apply immediate_goes; [ exact Ht | reflexivity ] | apply send_goes; [ exact Ht | exact I ] ]).
  destruct G as (m & c & Hm & Hk & Hc). destruct (own_step m i t c Hk Hc) as (s & t' & sp & Hs & Hy & Hi & Ha & _).
  assert (K : delivering t' = 1%nat \/ S_lock (Y_sh (f (S m))) = false). { rewrite Hy. cbn [Y_sh]. destruct Hs; try discriminate Hd; [ right | left | left ]; reflexivity. }
  destruct K as [K|K]; [ | exists (S m); split; [ lia | exact K ] ].
  destruct (IH (rank t') ltac:(subst r; apply (rank_down _ _ _ _ _ _ _ _ Ha) in Hs; [ exact Hs | | ]; destruct t; try discriminate Hd; reflexivity) (S m) t' eq_refl Hi K) as (m' & M1 & M2). exists m'. split; [ lia | exact M2 ].
Qed.
Lemma lock_frees n : exists m, (n <= m)%nat /\ S_lock (Y_sh (f m)) = false.
Proof.
  destruct (S_lock (Y_sh (f n))) eqn:Hl; [ | exists n; auto ]. destruct (facts n) as (_ & _ & _ & _ & _ & _ & _ & _ & _ & Lk & _). unfold lock_inv in Lk. rewrite Hl in Lk.
  destruct (sum_pos delivering (Y_threads (f n))) as (i & t & Ht & Hw); [ lia | ]. apply (delivery_ends n i t Ht). destruct t; cbn in *; lia.
Qed.
Lemma lock_goes n i t : Y_threads (f n) !! i = Some t -> match t with CP_gc _ | CP_reply _ _ | DL_lock _ | U_send _ _ => True | _ => False end -> goes i t n.
Proof.
  intros Ht Hk. apply go_on; [ exact Ht | ]. intros m Hm. destruct (lock_frees m) as (k & Hk1 & Hl). exists k. split; [ exact Hk1 | ]. intros K. destruct t; try contradiction.
  - apply (able_go k i _ (CClock (fun _ => 0%Z)) K eq_refl). cbn [tstep]. rewrite Hl. destruct (step _ _) as [[? ?]|]; discriminate.
  - apply (able_go k i _ (CTime 0%Z) K eq_refl). cbn [tstep]. rewrite Hl. destruct (step _ _) as [[? ?]|]; discriminate.
  - apply (able_go k i _ (COrder (map_to_list (K_OutputAddress (S_tables (Y_sh (f k)))))) K eq_refl). cbn [tstep]. rewrite Hl. rewrite bool_decide_eq_true_2 by reflexivity. destruct (step _ _) as [[? ?]|]; discriminate.
  - apply (able_go k i _ CGo K eq_refl). cbn [tstep]. rewrite Hl. destruct (step _ _) as [[? ?]|]; discriminate.
Qed.
(** pollLoop *)
Lemma cp_goes n i t : Y_threads (f n) !! i = Some t -> is_cp t = 1%nat -> resting t = false -> goes i t n.
Proof.
  intros Ht Hw Hr. destruct t; try discriminate Hw; try discriminate Hr;
    first [ apply immediate_goes; [ exact Ht | reflexivity ] | apply send_goes; [ exact Ht | exact I ] | apply poll_goes; [ exact Ht | exact I ] | apply lock_goes; [ exact Ht | exact I ] ].
Qed.
Lemma cp_pops n i t : E_ctl E = true -> Y_threads (f n) !! i = Some t -> is_cp t = 1%nat -> curq Q_reply (f n) <> [] -> exists m, (n <= m)%nat /\ pop Q_reply i m.
Proof.
  intros Ec. apply (pops Q_reply is_cp at_cp n i t (one_cp Ec)).
  - intros [] H; try contradiction; reflexivity.
  - intros k. apply (moves k).
  - intros k u. apply (returns is_cp at_cp (one_cp Ec)); [ intros []; try discriminate; intros _ _; exact I | intros []; try discriminate; reflexivity | exact cp_goes ].
  - intros k u Hu Au Hq. destruct (facts k) as (g & ch & _ & _ & G2 & _ & _ & _ & _ & _ & Cu & _ & Hpl). pose proof (Forall_lookup_1 _ _ _ _ Hpl Hu) as Hg. rewrite Cu in Hq. destruct u; try contradiction. cbn in Hg. subst g0.
    apply (able_go k i (CP_wait pb g cg) CGo Hu eq_refl). cbn [tstep]. rewrite G2. destruct (Q_reply ch); [ contradiction | discriminate ].
  - intros k u Hu Wu (u' & c & Hu' & Ru & Hi & Hl). rewrite Hu in Hu'. injection Hu' as <-. destruct (own_step k i u c Hu Hl) as (s & t' & sp & Hs & Hy & _). destruct u; try discriminate Wu; try discriminate Ru. destruct c; try discriminate Hi.
    destruct (facts k) as (g' & ch & _ & _ & G2 & _ & _ & _ & _ & _ & Cu & Up & Hpl). pose proof (Forall_lookup_1 _ _ _ _ Hpl Hu) as Hg. cbn in Hg. inversion Hs; subst. eexists. split; [ exact Hl | ]. rewrite Hy, Cu, Up.
    match goal with G : S_gens _ !! g' = Some ?c |- _ => assert (c = ch) as -> by congruence end. eassumption.
Qed.
Lemma style n : curq Q_reply (f n) <> [] -> E_ctl E = true.
Proof.
  intros Hq. destruct (live_facts E _ (live_at n)) as (g & ch & k & G1 & G2 & _ & _ & _ & _ & _ & _ & _ & _ & _ & Hrep & _). destruct (lv_style _ _ (live_at n)) as [K|K]; [ exact K | ]. exfalso. apply Hq. unfold curq. rewrite G1, G2. exact (Hrep K).
Qed.
Lemma reply_room n : exists m, (n <= m)%nat /\ (length (curq Q_reply (f m)) < 10)%nat.
Proof.
  revert n. apply (room Q_reply); [ intros n; apply (caps n) | ]. intros n Hq. pose proof (style n Hq) as Ec. destruct (one_at is_cp n (one_cp Ec)) as (i & t & Ht & Wt). destruct (cp_pops n i t Ec Ht Wt Hq) as (m & Hm & Hp). eauto.
Qed.
Lemma reply_goes n i q h : Y_threads (f n) !! i = Some (H_replying q h) -> goes i (H_replying q h) n.
Proof.
  intros Ht. apply go_on; [ exact Ht | ]. intros m Hm. destruct (reply_room m) as (k & Hk1 & Hk2). exists k. split; [ exact Hk1 | ]. intros K.
  destruct (facts k) as (g & ch & _ & _ & G2 & _ & _ & _ & _ & _ & Cu & _ & Hpl). pose proof (Forall_lookup_1 _ _ _ _ Hpl K) as Hg. rewrite Cu in Hk2.
  cbn in Hg; destruct Hg as [-> _]; (apply (able_go k i _ CGo K eq_refl); cbn [tstep]; rewrite G2; cbv zeta; rewrite (SysFacts.push_room _ _ Hk2); discriminate).
Qed.
(** Nobody is blocked for ever. *)
Lemma all_go n i t : Y_threads (f n) !! i = Some t -> resting t = false -> goes i t n.
Proof.
  intros Ht Hr. destruct (immediate t) eqn:Hi; [ exact (immediate_goes n i t Ht Hi) | ]. destruct t; try discriminate Hr; try discriminate Hi;
    first [ apply send_goes; [ exact Ht | exact I ] | apply poll_goes; [ exact Ht | exact I ] | apply lock_goes; [ exact Ht | exact I ] | exact (rd_goes _ _ _ _ _ Ht) | exact (reply_goes _ _ _ _ Ht) ].
Qed.

(** ** What is on its way arrives *)
Definition between (n m : nat) : list obs := concat (map o (seq n (m - n))).
Lemma upto_S n : upto o (S n) = upto o n ++ o n.
Proof. unfold upto. rewrite seq_S, map_app, concat_app. cbn. rewrite app_nil_r. reflexivity. Qed.
Lemma upto_between n m : (n <= m)%nat -> upto o m = upto o n ++ between n m.
Proof. intros H. unfold upto, between. rewrite <- concat_app, <- map_app, <- seq_app. do 3 f_equal. lia. Qed.
Lemma between_in n m k x : (n <= k < m)%nat -> In x (o k) -> In x (between n m).
Proof. intros H Hx. unfold between. apply in_concat. exists (o k). split; [ | exact Hx ]. apply in_map, in_seq. lia. Qed.
Lemma steps_upto n : steps E (f 0%nat) (map l (seq 0 n)) (f n) (upto o n).
Proof.
  induction n as [|n IH]; [ constructor | ]. rewrite upto_S, seq_S, map_app. cbn [map Nat.add]. eapply steps_snoc; [ exact IH | exact (ex_label _ _ _ _ X n) | exact (ex_step _ _ _ _ X n) ].
Qed.
Lemma calls_upto n : calls (map l (seq 0 n)) = [] /\ no_errors (map l (seq 0 n)) = true.
Proof.
  induction n as [|n [I1 I2]]; [ split; reflexivity | ]. rewrite seq_S, map_app, calls_app, no_errors_app, I1, I2. cbn [map Nat.add]. rewrite (ex_calls _ _ _ _ X n), (ex_errors _ _ _ _ X n). split; reflexivity.
Qed.
(** Conservation and order, from the start of the execution. *)
Definition send_rest (n : nat) : list (tag * payload) := collect sl_view (Y_threads (f n)) ++ curq Q_send (f n).
Definition recv_rest (n : nat) : list (list N) := collect rl_view (Y_threads (f n)) ++ curq Q_recv (f n) ++ collect (rd_view E) (Y_threads (f n)).
Lemma base : exists trz, (forall n, exists ls, runs E ls (f n) (trz ++ upto o n)) /\
  (forall n, send_rest 0 ++ queued (upto o n) = transmitted (upto o n) ++ send_rest n) /\
  (forall n, recv_rest 0 ++ received E (upto o n) = parsed (upto o n) ++ recv_rest n).
Proof.
  destruct (live_at 0) as [Wf Fp St (ls0 & tr0 & L)]. destruct (careful_split _ _ _ _ _ L) as (lsa & ya & tra & lsb & trb & Ra & Qa & Sb & Nb & -> & ->). exists (tra ++ trb).
  assert (Sc : forall n, steps E ya (lsb ++ map l (seq 0 n)) (f n) (trb ++ upto o n)) by (intros n; eapply steps_app; [ exact Sb | apply steps_upto ]).
  assert (Nc : forall n, (starts (lsb ++ map l (seq 0 n)) <= 1)%nat).
  { intros n. unfold starts. rewrite sum_list_with_app. fold (starts lsb). enough (sum_list_with is_start (map l (seq 0 n)) = 0%nat) by lia. destruct (calls_upto n) as [K _].
    revert K. generalize (map l (seq 0 n)). intros k K. induction k as [|x k IH]; [ reflexivity | ]. change (x :: k) with ([x] ++ k) in K. rewrite calls_app in K. apply app_eq_nil in K. cbn. rewrite (IH (proj2 K)). destruct x; try reflexivity. destruct K; discriminate. }
  assert (G : forall n, curq Q_send (f n) = sendq (length (S_gens (Y_sh ya))) (Y_sh (f n)) /\ curq Q_recv (f n) = recvq (length (S_gens (Y_sh ya))) (Y_sh (f n))).
  { intros n. pose proof (single_run E _ _ _ _ Qa (Sc n) (Nc n)) as Sg. destruct (one_at is_pr n one_pr) as (i & t & Ht & Wt). pose proof (sg_bounded _ _ _ _ _ Sg) as ((_ & B) & _).
    pose proof (Forall_lookup_1 _ _ _ _ (sg_placed _ _ _ _ _ Sg) Ht) as Pl.
    assert (B2 : (length (S_gens (Y_sh ya)) < length (S_gens (Y_sh (f n))))%nat) by (destruct t; try discriminate Wt; cbn [placed] in Pl; apply Pl).
    unfold curq, sendq, recvq, last_index. pose proof (Nc n). destruct (length (S_gens (Y_sh (f n)))) as [|k] eqn:Hk; [ lia | ]. replace (length (S_gens (Y_sh ya))) with k by lia. split; reflexivity. }
  assert (D : forall n, discarded E (trb ++ upto o n) = []).
  { intros n. apply discarded_0. destruct (one_at is_rl n one_rl) as (i & t & Ht & Wt).
    destruct (returns is_rl at_rl one_rl ltac:(intros []; try discriminate; intros _ _; exact I) ltac:(intros []; try discriminate; reflexivity) ltac:(intros k j u Hu Hw Hr; apply immediate_goes; [ exact Hu | destruct u; try discriminate; reflexivity ]) n i t Ht Wt) as (m & u & Hm & Hu & Au & Wu).
    pose proof (sg_rd _ _ _ _ _ (single_run E _ _ _ _ Qa (Sc m) (Nc m))) as B. pose proof (Nc m) as Nm.
    destruct (live_at m) as [_ _ _ (ls1 & tr1 & L1)]. pose proof (fu_rd _ _ (careful_full _ _ _ _ _ Wf L1 (or_intror eq_refl))) as F.
    assert (R1 : sum_list_with is_rd (Y_threads (f m)) = 1%nat).
    { rewrite <- F. apply sum_ext. apply Forall_forall. intros v Hv. apply elem_of_list_lookup in Hv. destruct Hv as [j Hv]. unfold w_reader.
      assert (O1 : w_opening v = 0%nat). { destruct (live_facts E _ (live_at m)) as (? & ? & ? & _ & _ & _ & _ & _ & _ & _ & _ & _ & _ & _ & _ & _ & Hth & _). pose proof (proj1 (Forall_lookup_1 _ _ _ _ Hth Hv)) as Ha. destruct v; try discriminate Ha; reflexivity. }
      rewrite O1. destruct v; try reflexivity. exfalso. assert (j = i) as -> by (apply (one_same is_rl m _ _ _ _ one_rl Hv Hu eq_refl Wu)). rewrite Hu in Hv. injection Hv as ->. exact Au. }
    rewrite (upto_between n m Hm), app_assoc, sum_list_with_app in B. lia. }
  assert (Dr : forall n, dropped (upto o n) = []).
  { intros n. destruct (calls_upto n) as [C1 C2]. destruct (live_steps E _ _ _ _ (steps_upto n) (live_at 0) C1 C2) as (_ & _ & K & _). exact K. }
  split; [ intros n; exists ((lsa ++ lsb) ++ map l (seq 0 n)); rewrite <- !app_assoc; eapply runs_steps; [ exact Ra | apply Sc ] | ]. split; intros n.
  - pose proof (send_order E _ _ _ _ _ _ Ra Qa (Sc 0%nat) (Nc 0%nat)) as K1. pose proof (send_order E _ _ _ _ _ _ Ra Qa (Sc n) (Nc n)) as K2. rewrite <- (proj1 (G 0%nat)) in K1. rewrite <- (proj1 (G n)) in K2. fold (send_rest 0) in K1. fold (send_rest n) in K2.
    change (upto o 0) with (@nil obs) in K1. rewrite app_nil_r in K1.
    unfold queued, finished in K2. rewrite !(collect_app _ trb) in K2. fold (queued trb) (queued (upto o n)) (finished trb) (finished (upto o n)) in K2. rewrite K1, <- !app_assoc in K2. apply app_inv_head in K2. rewrite (finished_transmitted _ (Dr n)) in K2. exact K2.
  - pose proof (recv_order E _ _ _ _ _ _ Ra Qa (Sc 0%nat) (Nc 0%nat)) as K1. pose proof (recv_order E _ _ _ _ _ _ Ra Qa (Sc n) (Nc n)) as K2. rewrite <- (proj2 (G 0%nat)), D in K1. rewrite <- (proj2 (G n)), D in K2. rewrite app_nil_r in K1, K2.
    fold (recv_rest 0) in K1. fold (recv_rest n) in K2. change (upto o 0) with (@nil obs) in K1. rewrite app_nil_r in K1.
    unfold received, parsed in K2. rewrite !(collect_app _ trb) in K2. fold (received E trb) (received E (upto o n)) (parsed trb) (parsed (upto o n)) in K2. rewrite K1, <- !app_assoc in K2. apply app_inv_head in K2. unfold recv_rest at 1. rewrite <- !app_assoc. exact K2.
Qed.

Lemma prefix_of_longer {A} (a b c d : list A) : a ++ b = c ++ d -> (length c <= length a)%nat -> exists z, a = c ++ z.
Proof.
  revert c. induction a as [|x a IH]; intros c H Hl; [ destruct c; [ exists []; reflexivity | cbn in Hl; lia ] | ]. destruct c as [|u c]; [ eexists; reflexivity | ].
  cbn in H, Hl. injection H as -> H. destruct (IH c H ltac:(lia)) as [z ->]. exists z. reflexivity.
Qed.
(** A queue that moves on as long as it is not empty: everything in it at time [n] comes out, in order. *)
Lemma drains {A} (g h : list obs -> list A) (rest : nat -> list A) : (forall a b, g (a ++ b) = g a ++ g b) -> (forall a b, h (a ++ b) = h a ++ h b) ->
  (forall n, rest 0%nat ++ g (upto o n) = h (upto o n) ++ rest n) -> (forall n, rest n <> [] -> exists m, (n <= m)%nat /\ h (o m) <> []) ->
  forall n, exists m0, forall m, (m0 <= m)%nat -> (n <= m)%nat /\ exists z, h (between n m) = rest n ++ z.
Proof.
  intros Hg Hh Hlaw Hp n.
  assert (Loc : forall m, (n <= m)%nat -> rest n ++ g (between n m) = h (between n m) ++ rest m).
  { intros m Hm. pose proof (Hlaw n) as K1. pose proof (Hlaw m) as K2. rewrite (upto_between n m Hm), Hg, Hh, app_assoc, K1, <- !app_assoc in K2. apply app_inv_head in K2. exact K2. }
  assert (Cnt : forall k, (k <= length (rest n))%nat -> exists m, (n <= m)%nat /\ (k <= length (h (between n m)))%nat).
  { induction k as [|k IH]; intros Hk; [ exists n; split; lia | ]. destruct (IH ltac:(lia)) as (m & Hm & Hlen). destruct (Nat.eq_dec k (length (h (between n m)))) as [->|Hne]; [ | exists m; split; lia ].
    pose proof (Loc m Hm) as K. assert (Hr : rest m <> []). { intros Hr. rewrite Hr, app_nil_r in K. apply (f_equal length) in K. rewrite app_length in K. lia. }
    destruct (Hp m Hr) as (m' & Hm' & Ho). exists (S m'). split; [ lia | ]. replace (between n (S m')) with (between n m ++ between m m' ++ o m').
    - rewrite !Hh, !app_length. destruct (h (o m')); [ contradiction | cbn [length]; lia ].
    - apply (app_inv_head (upto o n)). rewrite <- (upto_between n (S m')) by lia. rewrite upto_S, (upto_between n m'), <- app_assoc by lia. f_equal. rewrite !app_assoc. f_equal.
      apply (app_inv_head (upto o n)). rewrite <- (upto_between n m') by lia. rewrite app_assoc, <- (upto_between n m) by lia. rewrite <- (upto_between m m') by lia. reflexivity. }
  destruct (Cnt _ (Nat.le_refl _)) as (m0 & Hm0 & Hl). exists m0. intros m Hm. split; [ lia | ]. apply (prefix_of_longer _ (rest m) _ (g (between n m))); [ rewrite Loc by lia; reflexivity | ].
  replace (between n m) with (between n m0 ++ between m0 m); [ rewrite Hh, app_length; lia | ]. apply (app_inv_head (upto o n)). rewrite app_assoc, <- !upto_between by lia. reflexivity.
Qed.
Lemma collect_at {A B} (v : A -> list B) th : collect v th <> [] -> exists i t, th !! i = Some t /\ v t <> [].
Proof.
  induction th as [|t th IH]; intros H; [ contradiction | ]. rewrite collect_cons in H. destruct (v t) eqn:Hv; [ destruct (IH H) as (i & u & Hi & Hu); exists (S i), u; auto | exists 0%nat, t; split; [ reflexivity | congruence ] ].
Qed.
Lemma app_nil {A} (a b : list A) : a ++ b <> [] -> a <> [] \/ b <> [].
Proof. intros H. destruct a; [ right; exact H | left; discriminate ]. Qed.
(** The next step of a goroutine that is not waiting in a select. *)
Lemma follow n i t : Y_threads (f n) !! i = Some t -> resting t = false ->
  exists m c s t' sp, (n <= m)%nat /\ Y_threads (f m) !! i = Some t /\ l m = LRun i c /\ trans E (Y_sh (f m)) t c s t' sp (o m) /\ f (S m) = mkSys s (<[i := t']> (Y_threads (f m)) ++ sp) /\
    Y_threads (f (S m)) !! i = Some t' /\ c <> CErr.
Proof.
  intros Ht Hr. destruct (all_go n i t Ht Hr) as (m & c & Hm & Hk & Hc). destruct (own_step m i t c Hk Hc) as (s & t' & sp & Hs & Hf & Hi & _ & Hn). exists m, c, s, t', sp. repeat (split; [ assumption | ]). exact Hn.
Qed.
(** Who receives takes the entry in hand. *)
Lemma pop_hand {A} (sel : chans -> list A) i m : pop sel i m -> exists t s t' sp, Y_threads (f m) !! i = Some t /\ trans E (Y_sh (f m)) t CGo s t' sp (o m) /\ f (S m) = mkSys s (<[i := t']> (Y_threads (f m)) ++ sp) /\
  Y_threads (f (S m)) !! i = Some t' /\ curq sel (mkSys s []) <> curq sel (f m).
Proof.
  intros (x & Hl & Hx). destruct (Y_threads (f m) !! i) as [t|] eqn:Ht.
  - destruct (own_step m i t CGo Ht Hl) as (s & t' & sp & Hs & Hf & Hi & _). exists t, s, t', sp. repeat (split; [ assumption || reflexivity | ]). intros K. rewrite Hx, Hf in K. unfold curq in K. cbn [Y_sh] in K. symmetry in K. apply (f_equal length) in K. cbn [length] in K. lia.
  - exfalso. pose proof (ex_step _ _ _ _ X m) as He. rewrite Hl in He. cbn [exec] in He. rewrite Ht in He. discriminate He.
Qed.
(** Everything on sendCh is transmitted. *)
Lemma send_drains : forall n, exists m0, forall m, (m0 <= m)%nat -> (n <= m)%nat /\ exists z, transmitted (between n m) = send_rest n ++ z.
Proof.
  destruct base as (trz & _ & L & _). apply (drains queued transmitted send_rest (collect_app _) (collect_app _) L).
  assert (W : forall n i x, Y_threads (f n) !! i = Some (SL_write x) -> exists m, (n <= m)%nat /\ transmitted (o m) <> []).
  { intros n i x Ht. destruct (follow n i _ Ht eq_refl) as (m & c & s & t' & sp & Hm & _ & _ & Hs & _ & _ & Hn). exists m. split; [ exact Hm | ].
    assert (O : o m = [OTx x]) by (inversion Hs; subst; [ reflexivity | contradiction ]). rewrite O. discriminate. }
  assert (C : forall n i x, Y_threads (f n) !! i = Some (SL_check x) -> exists m, (n <= m)%nat /\ transmitted (o m) <> []).
  { intros n i x Ht. destruct (follow n i _ Ht eq_refl) as (m & c & s & t' & sp & Hm & _ & _ & Hs & _ & Hi & Hn).
    destruct (facts m) as (_ & _ & _ & _ & _ & _ & _ & _ & Sd & _). assert (t' = SL_write x) as -> by (inversion Hs; subst; [ congruence | reflexivity ]). destruct (W (S m) i x Hi) as (m' & M1 & M2). exists m'. split; [ lia | exact M2 ]. }
  intros n H. apply app_nil in H. destruct H as [H|H].
  - destruct (collect_at _ _ H) as (i & t & Ht & Hv). destruct t; try contradiction; [ exact (C n i _ Ht) | exact (W n i _ Ht) ].
  - destruct (one_at is_sl n one_sl) as (i & t & Ht & Wt). destruct (sl_pops n i t Ht Wt H) as (m & Hm & Hp). destruct (one_stays is_sl n i t one_sl Ht Wt m Hm) as (u & Hu & Wu).
    destruct (pop_hand _ _ _ Hp) as (u' & s & t' & sp & Hu' & Hs & _ & Hi & Hq). rewrite Hu in Hu'. injection Hu' as <-.
    destruct u; try discriminate Wu; inversion Hs; subst; try (exfalso; apply Hq; reflexivity).
    destruct (C (S m) i _ Hi) as (m' & M1 & M2). exists m'. split; [ lia | exact M2 ].
Qed.
(** Every datagram received from another host is parsed. *)
Lemma recv_drains : forall n, exists m0, forall m, (m0 <= m)%nat -> (n <= m)%nat /\ exists z, parsed (between n m) = recv_rest n ++ z.
Proof.
  destruct base as (trz & _ & _ & L). apply (drains (received E) parsed recv_rest (collect_app _) (collect_app _) L).
  assert (P : forall n i d, Y_threads (f n) !! i = Some (RL_parse d) -> exists m, (n <= m)%nat /\ parsed (o m) <> []).
  { intros n i d Ht. destruct (follow n i _ Ht eq_refl) as (m & c & s & t' & sp & Hm & _ & _ & Hs & _ & _ & Hn). exists m. split; [ exact Hm | ]. inversion Hs; subst; discriminate. }
  assert (Q : forall n, curq Q_recv (f n) <> [] -> exists m, (n <= m)%nat /\ parsed (o m) <> []).
  { intros n H. destruct (one_at is_rl n one_rl) as (i & t & Ht & Wt). destruct (rl_pops n i t Ht Wt H) as (m & Hm & Hp). destruct (one_stays is_rl n i t one_rl Ht Wt m Hm) as (u & Hu & Wu).
    destruct (pop_hand _ _ _ Hp) as (u' & s & t' & sp & Hu' & Hs & _ & Hi & Hq). rewrite Hu in Hu'. injection Hu' as <-.
    destruct u; try discriminate Wu; inversion Hs; subst; try (exfalso; apply Hq; reflexivity).
    destruct (P (S m) i _ Hi) as (m' & M1 & M2). exists m'. split; [ lia | exact M2 ]. }
  assert (D3 : forall n i b d g, Y_threads (f n) !! i = Some (RD_pushing b d g) -> exists m, (n <= m)%nat /\ parsed (o m) <> []).
  { intros n i b d g Ht. destruct (follow n i _ Ht eq_refl) as (m & c & s & t' & sp & Hm & Hk & _ & Hs & Hf & _ & Hn). destruct (Q (S m)) as (m' & M1 & M2); [ | exists m'; split; [ lia | exact M2 ] ].
    destruct (facts m) as (g' & ch & _ & _ & G2 & _ & _ & _ & _ & _ & _ & Up & Hpl). pose proof (Forall_lookup_1 _ _ _ _ Hpl Hk) as Hg. cbn in Hg. subst g'. inversion Hs; subst. rewrite Hf, Up. cbn [Q_recv set_recv].
    match goal with G : push _ _ = Some _ |- _ => apply push_Some in G; destruct G as [-> _] end. destruct (Q_recv _); discriminate. }
  assert (D2 : forall n i b d, Y_threads (f n) !! i = Some (RD_push b d) -> exists m, (n <= m)%nat /\ parsed (o m) <> []).
  { intros n i b d Ht. destruct (follow n i _ Ht eq_refl) as (m & c & s & t' & sp & Hm & Hk & _ & Hs & Hf & Hi & Hn). inversion Hs; subst. destruct (D3 (S m) _ _ _ _ Hi) as (m' & M1 & M2). exists m'. split; [ lia | exact M2 ]. }
  intros n H. apply app_nil in H. destruct H as [H|H]; [ | apply app_nil in H; destruct H as [H|H] ].
  - destruct (collect_at _ _ H) as (i & t & Ht & Hv). destruct t; try contradiction. exact (P n i _ Ht).
  - exact (Q n H).
  - destruct (collect_at _ _ H) as (i & t & Ht & Hv). destruct t; try contradiction; [ | exact (D2 n i _ _ Ht) | exact (D3 n i _ _ _ Ht) ]. destruct r as [[from num]|]; [ | contradiction ]. cbn [rd_view] in Hv.
    destruct (foreign E from) eqn:Fo; [ | contradiction ]. destruct (follow n i _ Ht eq_refl) as (m & c & s & t' & sp & Hm & Hk & _ & Hs & Hf & Hi & Hn). destruct (facts m) as (_ & _ & _ & _ & _ & _ & _ & _ & Sd & _).
    inversion Hs; subst; [ congruence | unfold foreign in Fo; match goal with G : IP_Equal _ _ = true |- _ => rewrite G in Fo end; discriminate Fo | ]. destruct (D2 (S m) _ _ _ Hi) as (m' & M1 & M2). exists m'. split; [ lia | exact M2 ].
Qed.

(** Frames of a tick. *)
Lemma frames_drain : forall n, exists m0, forall m, (m0 <= m)%nat -> (n <= m)%nat /\ exists z, frames_queued (between n m) = collect undelivered (Y_threads (f n)) ++ z.
Proof.
  destruct base as (trz & R & _). apply (drains frames_made frames_queued (fun n => collect undelivered (Y_threads (f n))) (collect_app _) (collect_app _)).
  - intros n. destruct (R 0%nat) as (l0 & R0). destruct (R n) as (l1 & R1). pose proof (proj2 (frames_in_order _ _ _ _ R0)) as K0. pose proof (proj2 (frames_in_order _ _ _ _ R1)) as K1. change (upto o 0) with (@nil obs) in K0. rewrite app_nil_r in K0.
    unfold frames_made, frames_queued in *. rewrite !(collect_app _ trz), K0, <- !app_assoc in K1. apply app_inv_head in K1. exact K1.
  - assert (D : forall n i x fs g, Y_threads (f n) !! i = Some (DL_pushing x fs g) -> exists m, (n <= m)%nat /\ frames_queued (o m) <> []).
    { intros n i x fs g Ht. destruct (follow n i _ Ht eq_refl) as (m & c & s & t' & sp & Hm & _ & _ & Hs & _ & _ & Hn). exists m. split; [ exact Hm | ]. inversion Hs; subst; discriminate. }
    intros n H. destruct (collect_at _ _ H) as (i & t & Ht & Hv). destruct t; try contradiction; [ | exact (D n i _ _ _ Ht) ]. destruct fs as [|x fs]; [ contradiction | ].
    destruct (follow n i _ Ht eq_refl) as (m & c & s & t' & sp & Hm & _ & _ & Hs & _ & Hi & Hn). inversion Hs; subst. destruct (D (S m) _ _ _ _ Hi) as (m' & M1 & M2). exists m'. split; [ lia | exact M2 ].
Qed.

(** Handlers: every handler of time [n] has ended later. *)
Definition handler (t : thread) : bool := match t with H_start _ | H_poll _ | H_polling _ _ | H_reply _ | H_replying _ _ => true | _ => false end.
Lemma not_handler n m i t : (n <= m)%nat -> Y_threads (f n) !! i = Some t -> handler t = false -> exists u, Y_threads (f m) !! i = Some u /\ handler u = false.
Proof.
  intros Hm Ht Hh. revert m Hm. apply nat_le_ind; [ exists t; auto | ]. intros m Hm (u & Hu & Hv). destruct (thread_moves m i u Hu) as [[c Hc]|K]; [ | exists u; auto ].
  destruct (own_step m i u c Hu Hc) as (s & t' & sp & Hs & _ & Hi & _). exists t'. split; [ exact Hi | ]. destruct Hs; try reflexivity; discriminate Hv.
Qed.
Lemma handler_ends n i t : Y_threads (f n) !! i = Some t -> exists m0, (n <= m0)%nat /\ forall m, (m0 <= m)%nat -> exists u, Y_threads (f m) !! i = Some u /\ handler u = false.
Proof.
  remember (rank t) as r eqn:Hr. revert n t Hr. induction r as [r IH] using lt_wf_ind. intros n t -> Ht. destruct (handler t) eqn:Hh; [ | exists n; split; [ lia | intros m Hm; exact (not_handler n m i t Hm Ht Hh) ] ].
  assert (Rt : resting t = false) by (destruct t; try discriminate Hh; reflexivity). destruct (follow n i t Ht Rt) as (m & c & s & t' & sp & Hm & Hk & Hl & Hs & _ & Hi & Hn).
  destruct (own_step m i t c Hk Hl) as (_ & _ & _ & _ & _ & _ & Ha & _). assert (Lk : locking t = 0%nat) by (destruct t; try discriminate Hh; reflexivity).
  destruct (IH (rank t') (rank_down _ _ _ _ _ _ _ _ Ha Rt Lk Hs) (S m) t' eq_refl Hi) as (m0 & M1 & M2). exists m0. split; [ lia | exact M2 ].
Qed.
Lemma handlers_end n : exists m0, (n <= m0)%nat /\ forall m i t, (m0 <= m)%nat -> (i < length (Y_threads (f n)))%nat -> Y_threads (f m) !! i = Some t -> handler t = false.
Proof.
  assert (K : forall k, (k <= length (Y_threads (f n)))%nat -> exists m0, (n <= m0)%nat /\ forall m i t, (m0 <= m)%nat -> (i < k)%nat -> Y_threads (f m) !! i = Some t -> handler t = false).
  { induction k as [|k IH]; intros Hk; [ exists n; split; [ lia | intros; lia ] | ]. destruct (IH ltac:(lia)) as (m1 & M1 & M2). destruct (lookup_lt_is_Some_2 (Y_threads (f n)) k ltac:(lia)) as [t Ht].
    destruct (handler_ends n k t Ht) as (m2 & M3 & M4). exists (Nat.max m1 m2). split; [ lia | ]. intros m i u Hm Hi Hu. destruct (Nat.eq_dec i k) as [->|Hne]; [ | apply (M2 m i u); [ lia | lia | exact Hu ] ].
    destruct (M4 m ltac:(lia)) as (u' & Hu' & K). rewrite Hu in Hu'. injection Hu' as <-. exact K. }
  exact (K _ (Nat.le_refl _)).
Qed.
(** Goroutines, by number. *)
Definition among {A} (v : thread -> list A) (k n : nat) : list A := collect v (take k (Y_threads (f n))).
Lemma cnt_in {A} (P : A -> bool) (v : thread -> list A) th i t : th !! i = Some t -> (cnt P (collect v th) = cnt P (collect v (<[i := TDone]> th)) + cnt P (v t))%nat \/ v TDone <> [].
Proof.
  intros Ht. destruct (v TDone) eqn:Hd; [ left | right; discriminate ]. revert i Ht. induction th as [|x th IH]; intros [|i] Ht; try discriminate Ht; cbn in Ht.
  - injection Ht as ->. cbn [insert list_insert]. rewrite !collect_cons, Hd. cbn [app]. rewrite cnt_app. lia.
  - cbn [insert list_insert]. change (list_insert i TDone th) with (<[i := TDone]> th). rewrite !collect_cons, !cnt_app, (IH i Ht). apply Nat.add_assoc.
Qed.
Lemma among_step {A} (v : thread -> list A) (h : list obs -> list A) P k n : v TDone = [] -> (forall s t c s' t' sp ob, trans E s t c s' t' sp ob -> (cnt P (v t) <= cnt P (h ob) + cnt P (v t'))%nat) ->
  (k <= length (Y_threads (f n)))%nat -> (cnt P (among v k n) <= cnt P (h (o n)) + cnt P (among v k (S n)))%nat.
Proof.
  intros Hd Hv Hk. pose proof (ex_step _ _ _ _ X n) as He. apply exec_cases in He. unfold among.
  destruct He as [(i & c & t & s & t' & sp & Hl & Ht & Hs & Hf)|[(t & _ & Hf & _)|(mm & op & g & _ & Hf & _)]].
  - rewrite Hf. cbn [Y_threads]. rewrite take_app_le by (rewrite insert_length; exact Hk). apply tstep_trans in Hs. pose proof (Hv _ _ _ _ _ _ _ Hs) as K. destruct (decide (i < k)%nat) as [Hi|Hi].
    + assert (Ht2 : take k (Y_threads (f n)) !! i = Some t) by (rewrite lookup_take by exact Hi; exact Ht).
      assert (Ht3 : take k (<[i := t']> (Y_threads (f n))) !! i = Some t') by (rewrite lookup_take by exact Hi; apply list_lookup_insert; eapply lookup_lt_Some; exact Ht).
      destruct (cnt_in P v _ _ _ Ht2) as [K2|K2]; [ | contradiction ]. destruct (cnt_in P v _ _ _ Ht3) as [K3|K3]; [ | contradiction ].
      assert (Eq : <[i := TDone]> (take k (<[i := t']> (Y_threads (f n)))) = <[i := TDone]> (take k (Y_threads (f n)))).
      { apply list_eq. intros j. destruct (decide (j = i)) as [->|Hj]; [ rewrite !list_lookup_insert by (rewrite take_length, ?insert_length; apply lookup_lt_Some in Ht; lia); reflexivity | ].
        rewrite !list_lookup_insert_ne by congruence. destruct (decide (j < k)%nat); [ rewrite !lookup_take by assumption; apply list_lookup_insert_ne; congruence | rewrite !lookup_take_ge by lia; reflexivity ]. }
      rewrite Eq in K3. lia.
    + assert (Eq : take k (<[i := t']> (Y_threads (f n))) = take k (Y_threads (f n))).
      { apply list_eq. intros j. destruct (decide (j < k)%nat); [ rewrite !lookup_take by assumption; apply list_lookup_insert_ne; lia | rewrite !lookup_take_ge by lia; reflexivity ]. }
      rewrite Eq. lia.
  - rewrite Hf. cbn [Y_threads]. rewrite take_app_le by exact Hk. lia.
  - rewrite Hf. cbn [Y_threads]. lia.
Qed.
Lemma threads_grow n m : (n <= m)%nat -> (length (Y_threads (f n)) <= length (Y_threads (f m)))%nat.
Proof.
  revert m. apply nat_le_ind; [ lia | ]. intros m Hm IH. pose proof (ex_step _ _ _ _ X m) as He. apply exec_cases in He.
  destruct He as [(i & c & t & s & t' & sp & Hl & Ht & Hs & ->)|[(t & _ & -> & _)|(mm & op & g & _ & -> & _)]]; cbn [Y_threads]; rewrite ?app_length, ?insert_length; lia.
Qed.
Lemma between_S n m : (n <= m)%nat -> between n (S m) = between n m ++ o m.
Proof. intros H. apply (app_inv_head (upto o n)). rewrite app_assoc, <- !upto_between, upto_S by lia. reflexivity. Qed.
(** What the goroutines of time [n] still have to do has been done when none of them holds anything. *)
Lemma crowd {A} (v : thread -> list A) (h : list obs -> list A) n m1 : (forall a b, h (a ++ b) = h a ++ h b) -> v TDone = [] ->
  (forall P s t c s' t' sp ob, trans E s t c s' t' sp ob -> (cnt P (v t) <= cnt P (h ob) + cnt P (v t'))%nat) ->
  (n <= m1)%nat -> (forall i t, (i < length (Y_threads (f n)))%nat -> Y_threads (f m1) !! i = Some t -> v t = []) ->
  forall m, (m1 <= m)%nat -> forall P, (cnt P (collect v (Y_threads (f n))) <= cnt P (h (between n m)))%nat.
Proof.
  intros Hh Hd Hst Hm1 Hv m Hm P. set (k := length (Y_threads (f n))) in *.
  assert (K : forall m, (n <= m)%nat -> (cnt P (among v k n) <= cnt P (h (between n m)) + cnt P (among v k m))%nat).
  { apply nat_le_ind; [ lia | ]. intros m' Hm' IH. rewrite (between_S n m' Hm'), Hh, cnt_app. pose proof (among_step v h P k m' Hd (Hst P) (threads_grow n m' Hm')). lia. }
  specialize (K m1 Hm1). assert (E1 : among v k n = collect v (Y_threads (f n))) by (unfold among, k; rewrite firstn_all; reflexivity).
  assert (E2 : among v k m1 = []).
  { destruct (among v k m1) eqn:Hq; [ reflexivity | ]. exfalso. assert (Hc : among v k m1 <> []) by congruence. destruct (collect_at _ _ Hc) as (i & t & Ht & Hw). apply lookup_take_Some in Ht. destruct Ht as [Ht Hi]. exact (Hw (Hv i t Hi Ht)). }
  assert (E3 : between n m = between n m1 ++ between m1 m) by (apply (app_inv_head (upto o n)); rewrite app_assoc, <- !upto_between by lia; reflexivity).
  rewrite E1, E2 in K. rewrite E3, Hh, cnt_app. cbn in K. lia.
Qed.

(** pollCh and pollReplyCh, with what the receiver has in hand. *)
Definition hand {A} (v : thread -> list A) (p n : nat) : list A := match Y_threads (f n) !! p with Some t => v t | None => [] end.
Lemma sums_up {A} (g h : list obs -> list A) (rest : nat -> list A) : (forall a b, g (a ++ b) = g a ++ g b) -> (forall a b, h (a ++ b) = h a ++ h b) -> g [] = [] -> h [] = [] ->
  (forall n, rest n ++ g (o n) = h (o n) ++ rest (S n)) -> forall n, rest 0%nat ++ g (upto o n) = h (upto o n) ++ rest n.
Proof.
  intros Hg Hh G0 H0 Hs n. induction n as [|n IH]; [ change (upto o 0) with (@nil obs); rewrite G0, H0, app_nil_r; reflexivity | ]. rewrite upto_S, Hg, Hh, app_assoc, IH, <- !app_assoc. f_equal. apply Hs.
Qed.

Lemma step_of n :
  (exists i c t s t' sp, l n = LRun i c /\ Y_threads (f n) !! i = Some t /\ trans E (Y_sh (f n)) t c s t' sp (o n) /\ f (S n) = mkSys s (<[i := t']> (Y_threads (f n)) ++ sp) /\ is_api t = 0%nat /\ c <> CErr) \/
  ((o n = [] \/ exists op g, o n = [ORegister op g]) /\ (forall A (sel : chans -> list A), curq sel (f (S n)) = curq sel (f n)) /\ forall i t, Y_threads (f n) !! i = Some t -> Y_threads (f (S n)) !! i = Some t).
Proof.
  pose proof (ex_step _ _ _ _ X n) as He. apply exec_cases in He. destruct He as [(i & c & t & s & t' & sp & Hl & Ht & Hs & Hf)|[(t & Ho & Hf & _)|(mm & op & g & Ho & Hf & _)]].
  - left. destruct (own_step n i t c Ht Hl) as (_ & _ & _ & _ & _ & _ & Ha & Hn). exists i, c, t, s, t', sp. repeat (split; [ assumption || (apply tstep_trans; assumption) | ]). exact Hn.
  - right. split; [ left; exact Ho | ]. rewrite Hf. split; [ reflexivity | ]. intros i u Hu. cbn [Y_threads]. apply lookup_app_l_Some, Hu.
  - right. split; [ right; eauto | ]. rewrite Hf. split; [ reflexivity | ]. intros i u Hu. exact Hu.
Qed.
Definition polled (tr : list obs) : list unit := collect (fun o => match o with OPolled _ => [tt] | _ => [] end) tr.
Definition replied (tr : list obs) : list unit := collect (fun o => match o with OQueued (KReply, _) => [tt] | _ => [] end) tr.
Definition pr_hand (t : thread) : list unit := match t with PR_send _ | PR_sending _ _ => [tt] | _ => [] end.
Definition cp_hand (t : thread) : list ArtPollReplyPacket := match t with CP_reply _ q => [q] | _ => [] end.
Definition poll_rest (p n : nat) : list unit := hand pr_hand p n ++ map (fun _ => tt) (curq Q_poll (f n)).
Definition reply_rest (p n : nat) : list ArtPollReplyPacket := hand cp_hand p n ++ curq Q_reply (f n).
Lemma poll_law p u : Y_threads (f 0%nat) !! p = Some u -> is_pr u = 1%nat -> forall n, poll_rest p n ++ polled (o n) = replied (o n) ++ poll_rest p (S n).
Proof.
  intros H0 W0 n. destruct (one_stays is_pr 0 p u one_pr H0 W0 n ltac:(lia)) as (v & Hv & Wv). unfold poll_rest, hand. rewrite Hv.
  destruct (step_of n) as [(i & c & t & s & t' & sp & Hl & Ht & Hs & Hf & Ha & Hn)|([Ho|(op & g & Ho)] & Hq & Hth)]; [ | rewrite Hq, Ho, (Hth _ _ Hv); cbn; rewrite app_nil_r; reflexivity .. ].
  destruct (facts n) as (g & ch & _ & _ & G2 & _ & _ & _ & _ & _ & Cu & Up & Hpl). pose proof (Forall_lookup_1 _ _ _ _ Hpl Ht) as Hg.
  assert (Same : forall A (sel : chans -> list A) th, curq sel (mkSys (Y_sh (f n)) th) = curq sel (f n)) by reflexivity.
  assert (Hp : Y_threads (f (S n)) !! p = Some (if decide (i = p) then t' else v)).
  { rewrite Hf. cbn [Y_threads]. apply lookup_app_l_Some. destruct (decide (i = p)) as [->|Hne]; [ apply list_lookup_insert; eapply lookup_lt_Some; exact Ht | rewrite list_lookup_insert_ne by exact Hne; exact Hv ]. }
  rewrite Hp, Hf. destruct (decide (i = p)) as [->|Hne].
  - rewrite Hv in Ht. injection Ht as <-. destruct Hs; try discriminate Wv; try contradiction; cbn in Hg; try subst g; rewrite ?Up, ?Same, ?Cu.
    all: try match goal with G : S_gens _ !! _ = Some ?c2 |- _ => tryif constr_eq c2 ch then fail else (assert (c2 = ch) as -> by congruence) end.
    all: cbn; rewrite ?app_nil_r; try reflexivity.
    match goal with G : Q_poll ch = _ |- _ => rewrite G end. reflexivity.
  - assert (Wt : is_pr t = 0%nat). { destruct (is_pr t) as [|[|k]] eqn:Wt; [ reflexivity | exfalso; apply Hne; exact (one_same is_pr n _ _ _ _ one_pr Ht Hv Wt Wv) | destruct t; discriminate Wt ]. }
    destruct Hs; try discriminate Wt; try discriminate Ha; try contradiction; cbn in Hg; try match type of Hg with _ /\ _ => destruct Hg as [Hg _] end; try match type of Hg with ?a = g => subst a end; rewrite ?Up, ?Same, ?Cu.
    all: try match goal with G : S_gens _ !! _ = Some ?c2 |- _ => tryif constr_eq c2 ch then fail else (assert (c2 = ch) as -> by congruence) end.
    all: cbn; rewrite ?app_nil_r; try reflexivity.
    all: try match goal with G : push _ _ = Some _ |- _ => apply push_Some in G; destruct G as [-> _]; rewrite map_app, app_assoc; reflexivity end.
    all: exact (f_equal (fun q => pr_hand v ++ map (fun _ => tt) q) (eq_sym (Cu _ Q_poll))).
Qed.
Lemma reply_law p u : E_ctl E = true -> Y_threads (f 0%nat) !! p = Some u -> is_cp u = 1%nat -> forall n, reply_rest p n ++ replies_queued (o n) = replies_applied (o n) ++ reply_rest p (S n).
Proof.
  intros Ec H0 W0 n. destruct (one_stays is_cp 0 p u (one_cp Ec) H0 W0 n ltac:(lia)) as (v & Hv & Wv). unfold reply_rest, hand. rewrite Hv.
  destruct (step_of n) as [(i & c & t & s & t' & sp & Hl & Ht & Hs & Hf & Ha & Hn)|([Ho|(op & g & Ho)] & Hq & Hth)]; [ | rewrite Hq, Ho, (Hth _ _ Hv); cbn; rewrite app_nil_r; reflexivity .. ].
  destruct (facts n) as (g & ch & _ & _ & G2 & _ & _ & _ & _ & _ & Cu & Up & Hpl). pose proof (Forall_lookup_1 _ _ _ _ Hpl Ht) as Hg.
  assert (Same : forall A (sel : chans -> list A) th, curq sel (mkSys (Y_sh (f n)) th) = curq sel (f n)) by reflexivity.
  assert (Hp : Y_threads (f (S n)) !! p = Some (if decide (i = p) then t' else v)).
  { rewrite Hf. cbn [Y_threads]. apply lookup_app_l_Some. destruct (decide (i = p)) as [->|Hne]; [ apply list_lookup_insert; eapply lookup_lt_Some; exact Ht | rewrite list_lookup_insert_ne by exact Hne; exact Hv ]. }
  assert (Tab : forall A (sel : chans -> list A) k b th, curq sel (mkSys (with_tables (Y_sh (f n)) k b) th) = curq sel (f n)) by reflexivity.
  rewrite Hp, Hf. destruct (decide (i = p)) as [->|Hne].
  - rewrite Hv in Ht. injection Ht as <-. destruct Hs; try discriminate Wv; try contradiction; cbn in Hg; try subst g; rewrite ?Up, ?Same, ?Tab, ?Cu.
    all: try match goal with G : S_gens _ !! _ = Some ?c2 |- _ => tryif constr_eq c2 ch then fail else (assert (c2 = ch) as -> by congruence) end.
    all: cbn; rewrite ?app_nil_r; try reflexivity.
    match goal with G : Q_reply ch = _ |- _ => rewrite G end. reflexivity.
  - assert (Wt : is_cp t = 0%nat). { destruct (is_cp t) as [|[|k]] eqn:Wt; [ reflexivity | exfalso; apply Hne; exact (one_same is_cp n _ _ _ _ (one_cp Ec) Ht Hv Wt Wv) | destruct t; discriminate Wt ]. }
    destruct Hs; try discriminate Wt; try discriminate Ha; try contradiction; cbn in Hg; try match type of Hg with _ /\ _ => destruct Hg as [Hg _] end; try match type of Hg with ?a = g => subst a end; rewrite ?Up, ?Same, ?Tab, ?Cu.
    all: try match goal with G : S_gens _ !! _ = Some ?c2 |- _ => tryif constr_eq c2 ch then fail else (assert (c2 = ch) as -> by congruence) end.
    all: cbn; rewrite ?app_nil_r; try reflexivity.
    all: try match goal with G : push _ _ = Some _ |- _ => apply push_Some in G; destruct G as [-> _]; rewrite app_assoc; reflexivity end.
Qed.
Lemma poll_drains p u : Y_threads (f 0%nat) !! p = Some u -> is_pr u = 1%nat -> forall n, exists m0, forall m, (m0 <= m)%nat -> (n <= m)%nat /\ exists z, replied (between n m) = poll_rest p n ++ z.
Proof.
  intros H0 W0. apply (drains polled replied (poll_rest p) (collect_app _) (collect_app _)); [ apply sums_up; try reflexivity; [ apply collect_app .. | exact (poll_law p u H0 W0) ] | ].
  assert (S2 : forall n i me g, Y_threads (f n) !! i = Some (PR_sending me g) -> exists m, (n <= m)%nat /\ replied (o m) <> []).
  { intros n i me g Ht. destruct (follow n i _ Ht eq_refl) as (m & c & s & t' & sp & Hm & _ & _ & Hs & _ & _ & Hn). exists m. split; [ exact Hm | ]. inversion Hs; subst; discriminate. }
  assert (S1 : forall n i me, Y_threads (f n) !! i = Some (PR_send me) -> exists m, (n <= m)%nat /\ replied (o m) <> []).
  { intros n i me Ht. destruct (follow n i _ Ht eq_refl) as (m & c & s & t' & sp & Hm & _ & _ & Hs & _ & Hi & Hn). inversion Hs; subst. destruct (S2 (S m) _ _ _ Hi) as (m' & M1 & M2). exists m'. split; [ lia | exact M2 ]. }
  intros n H. apply app_nil in H. destruct (one_stays is_pr 0 p u one_pr H0 W0 n ltac:(lia)) as (t & Ht & Wt). destruct H as [H|H].
  - unfold hand in H. rewrite Ht in H. destruct t; try contradiction; [ exact (S1 n p _ Ht) | exact (S2 n p _ _ Ht) ].
  - assert (Hq : curq Q_poll (f n) <> []) by (intros K; rewrite K in H; apply H; reflexivity). destruct (pr_pops n p t Ht Wt Hq) as (m & Hm & Hp). destruct (one_stays is_pr n p t one_pr Ht Wt m Hm) as (w & Hw & Ww).
    destruct (pop_hand _ _ _ Hp) as (u' & s & t' & sp & Hu' & Hs & _ & Hi & Hz). rewrite Hw in Hu'. injection Hu' as <-.
    destruct w; try discriminate Ww; inversion Hs; subst; try (exfalso; apply Hz; reflexivity).
    + destruct (S1 (S m) _ _ Hi) as (m' & M1 & M2). exists m'. split; [ lia | exact M2 ].
    + exists m. split; [ exact Hm | ]. match goal with G : _ = o m |- _ => rewrite <- G end. discriminate.
Qed.
Lemma reply_drains p u : E_ctl E = true -> Y_threads (f 0%nat) !! p = Some u -> is_cp u = 1%nat -> forall n, exists m0, forall m, (m0 <= m)%nat -> (n <= m)%nat /\ exists z, replies_applied (between n m) = reply_rest p n ++ z.
Proof.
  intros Ec H0 W0. apply (drains replies_queued replies_applied (reply_rest p) (collect_app _) (collect_app _)); [ apply sums_up; try reflexivity; [ apply collect_app .. | exact (reply_law p u Ec H0 W0) ] | ].
  assert (S1 : forall n i pb q, Y_threads (f n) !! i = Some (CP_reply pb q) -> exists m, (n <= m)%nat /\ replies_applied (o m) <> []).
  { intros n i pb q Ht. destruct (follow n i _ Ht eq_refl) as (m & c & s & t' & sp & Hm & _ & _ & Hs & _ & _ & Hn). exists m. split; [ exact Hm | ]. inversion Hs; subst; discriminate. }
  intros n H. apply app_nil in H. destruct (one_stays is_cp 0 p u (one_cp Ec) H0 W0 n ltac:(lia)) as (t & Ht & Wt). destruct H as [H|H].
  - unfold hand in H. rewrite Ht in H. destruct t; try contradiction. exact (S1 n p _ _ Ht).
  - destruct (cp_pops n p t Ec Ht Wt H) as (m & Hm & Hp). destruct (one_stays is_cp n p t (one_cp Ec) Ht Wt m Hm) as (w & Hw & Ww).
    destruct (pop_hand _ _ _ Hp) as (u' & s & t' & sp & Hu' & Hs & _ & Hi & Hz). rewrite Hw in Hu'. injection Hu' as <-.
    assert (Aw : at_cp w).
    { destruct Hp as (x & Hl & Hx). destruct (moves m) as (_ & _ & _ & [K|[[y K]|(y & j & t2 & K1 & K2 & K3 & _)]]); [ rewrite Hx in K; apply (f_equal length) in K; cbn in K; lia | rewrite Hx in K; apply (f_equal length) in K; rewrite app_length in K; cbn in K; lia | ].
      rewrite Hl in K1. injection K1 as <-. congruence. }
    destruct w; try contradiction; inversion Hs; subst. destruct (S1 (S m) _ _ _ Hi) as (m' & M1 & M2). exists m'. split; [ lia | exact M2 ].
Qed.

(** The end of every chain: what had been received, made, accepted or called after [n] steps has been dealt with after [m]. *)
Lemma upto_drained {A} (g h : list obs -> list A) (rest : nat -> list A) : (forall a b, h (a ++ b) = h a ++ h b) -> (forall n, rest 0%nat ++ g (upto o n) = h (upto o n) ++ rest n) ->
  (forall n, exists m0, forall m, (m0 <= m)%nat -> (n <= m)%nat /\ exists z, h (between n m) = rest n ++ z) ->
  forall n, exists m0, forall m, (m0 <= m)%nat -> (n <= m)%nat /\ exists z, h (upto o m) = rest 0%nat ++ g (upto o n) ++ z.
Proof.
  intros Hh L D n. destruct (D n) as (m0 & H0). exists m0. intros m Hm. destruct (H0 m Hm) as (Hnm & z & Hz). split; [ exact Hnm | ]. exists z. rewrite (upto_between n m Hnm), Hh, Hz, !app_assoc. f_equal. symmetry. exact (L n).
Qed.

Lemma start_ok : exists tr, sys_ok E (f 0%nat) tr.
Proof. destruct base as (trz & R & _). destruct (R 0%nat) as (ls & R0). eexists. exact (runs_ok _ _ _ _ R0). Qed.
Lemma law_upto {A} (w : law A) P n : respects E w -> (cnt P (collect (v_in w) (upto o n)) + cnt P (held w (f 0%nat)) = cnt P (collect (v_out w) (upto o n)) + cnt P (held w (f n)))%nat.
Proof. intros Hw. destruct start_ok as [tr0 OK]. exact (law_steps E w _ _ _ _ tr0 P Hw OK (steps_upto n)). Qed.
(** Accepted packets are handed to their callbacks. *)
Lemma packets_handled n : exists m0, forall m, (m0 <= m)%nat -> forall P, (cnt P (spawned (upto o n)) <= cnt P (collect (v_out law_packets) (upto o m)))%nat.
Proof.
  destruct (handlers_end n) as (m1 & M1 & M2). exists m1. intros m Hm P.
  assert (K : (cnt P (collect (v_t law_packets) (Y_threads (f n))) <= cnt P (collect (v_out law_packets) (between n m)))%nat).
  { apply (crowd (v_t law_packets) (collect (v_out law_packets)) n m1 (collect_app _)); try assumption; try reflexivity.
    - intros Q s t c s' t' sp ob Hs. destruct Hs; cbn; rewrite ?cnt_nil; lia.
    - intros i t Hi Ht. pose proof (M2 m1 i t (Nat.le_refl _) Hi Ht) as Hh. destruct t; try discriminate Hh; reflexivity. }
  pose proof (law_upto law_packets P n (packets_respected E)) as L. unfold held in L. cbn [v_g law_packets] in L. rewrite !collect_none, !app_nil_r in L.
  rewrite (upto_between n m) by lia. rewrite collect_app, cnt_app. change (collect (v_in law_packets) (upto o n)) with (spawned (upto o n)) in L. lia.
Qed.
(** Poll replies given to the callback of a controller reach its tables. *)
Lemma replies_reach n : C_Type (E_config E) = StController -> exists m0, forall m, (m0 <= m)%nat -> forall P, (cnt P (replies_called (upto o n)) <= cnt P (replies_applied (upto o m)))%nat.
Proof.
  intros Hty. assert (Ec : E_ctl E = true) by (destruct (lv_style _ _ (live_at 0)); [ assumption | contradiction ]).
  destruct (handlers_end n) as (m1 & M1 & M2).
  assert (K : forall P, (cnt P (replies_called (upto o n)) <= cnt P (replies_queued (upto o m1)))%nat).
  { intros P. assert (K : (cnt P (collect (v_t (law_reply_calls E)) (Y_threads (f n))) <= cnt P (collect (v_out (law_reply_calls E)) (between n m1)))%nat).
    { apply (crowd (v_t (law_reply_calls E)) (collect (v_out (law_reply_calls E))) n m1 (collect_app _)); try assumption; try reflexivity.
      - intros Q s t c s' t' sp ob Hs. destruct Hs; cbn; rewrite ?cnt_nil; lia.
      - intros i t Hi Ht. pose proof (M2 m1 i t (Nat.le_refl _) Hi Ht) as Hh. destruct t; try discriminate Hh; reflexivity. }
    pose proof (law_upto (law_reply_calls E) P n (reply_calls_respected E)) as L. unfold held in L. cbn [v_g law_reply_calls] in L. rewrite !collect_none, !app_nil_r in L.
    assert (E1 : collect (v_in (law_reply_calls E)) (upto o n) = replies_called (upto o n)).
    { unfold replies_called. apply collect_ext. intros ob. destruct ob; try reflexivity. cbn. rewrite Hty. reflexivity. }
    rewrite E1 in L. rewrite (upto_between n m1) by lia. unfold replies_queued. rewrite collect_app, cnt_app. cbn [v_out law_reply_calls] in *. lia. }
  destruct (one_at is_cp 0 (one_cp Ec)) as (p & u & Hu & Wu).
  destruct (upto_drained replies_queued replies_applied (reply_rest p) (collect_app _) (sums_up _ _ _ (collect_app _) (collect_app _) eq_refl eq_refl (reply_law p u Ec Hu Wu)) (reply_drains p u Ec Hu Wu) m1) as (m0 & M0).
  exists m0. intros m Hm P. destruct (M0 m Hm) as (_ & z & ->). rewrite !cnt_app. specialize (K P). lia.
Qed.
(** Polls are answered. *)
Lemma polls_answered n : exists m0, forall m, (m0 <= m)%nat -> (length (polls_handled (upto o n)) + cnt is_poll (queued (upto o n)) <= cnt is_reply (transmitted (upto o m)))%nat.
Proof.
  destruct base as (trz & R & Ls & _). pose proof (lv_wf _ _ (live_at 0)) as Wf.
  assert (HO : forall k, Forall (obs_ok E) (upto o k)).
  { intros k. destruct (R k) as (ls & Rk). pose proof (sys_obs _ _ _ (runs_ok _ _ _ _ Rk)) as K. apply Forall_app in K. apply K. }
  destruct (handlers_end n) as (m1 & M1 & M2).
  assert (B : exists m2, (m1 <= m2)%nat /\ forall i t, Y_threads (f m2) !! i = Some t -> match t with CP_poll _ | CP_polling _ _ => False | _ => True end).
  { destruct (E_ctl E) eqn:Ec.
    - destruct (one_at is_cp m1 (one_cp Ec)) as (i & t & Ht & Wt).
      destruct (returns is_cp at_cp (one_cp Ec) ltac:(intros []; try discriminate; intros _ _; exact I) ltac:(intros []; try discriminate; reflexivity) cp_goes m1 i t Ht Wt) as (m2 & u & Hm & Hu & Au & Wu).
      exists m2. split; [ exact Hm | ]. intros j w Hw. destruct w; try exact I; assert (j = i) as -> by (exact (one_same is_cp m2 _ _ _ _ (one_cp Ec) Hw Hu eq_refl Wu)); rewrite Hu in Hw; injection Hw as ->; exact Au.
    - exists m1. split; [ lia | ]. intros i t Ht. destruct (live_facts E _ (live_at m1)) as (? & ? & ? & _ & _ & _ & _ & _ & _ & _ & _ & _ & _ & _ & _ & _ & _ & Hc). pose proof (Forall_lookup_1 _ _ _ _ Hc Ht) as K.
      destruct t; try exact I; cbn in K; pose proof (K eq_refl); congruence. }
  destruct B as (m2 & M3 & M4).
  assert (K : (length (polls_handled (upto o n)) + cnt is_poll (queued (upto o n)) <= length (polled (upto o m2)))%nat).
  { assert (K : (cnt (fun _ => true) (collect (v_t law_polls) (Y_threads (f n))) <= cnt (fun _ => true) (collect (v_out law_polls) (between n m2)))%nat).
    { apply (crowd (v_t law_polls) (collect (v_out law_polls)) n m2 (collect_app _)); try lia; try reflexivity.
      - intros Q s t c s' t' sp ob Hs. destruct Hs; cbn; rewrite ?cnt_nil; lia.
      - intros i t Hi Ht. pose proof (M2 m2 i t M3 Hi Ht) as Hh. pose proof (M4 i t Ht) as Hc. destruct t; try discriminate Hh; try contradiction; reflexivity. }
    pose proof (law_upto law_polls (fun _ => true) n (polls_respected E)) as L. unfold held in L. cbn [v_g law_polls] in L. rewrite !collect_none, !app_nil_r in L.
    assert (E1 : cnt (fun _ => true) (collect (v_in law_polls) (upto o n)) = (length (polls_handled (upto o n)) + cnt is_poll (queued (upto o n)))%nat).
    { unfold polls_handled, queued. rewrite <- cnt_all, !cnt_collect, <- sum_add. apply sum_ext. eapply Forall_impl; [ exact (HO n) | ]. intros ob Ho. destruct ob; try reflexivity.
      - cbn. destruct h; try reflexivity. destruct p; reflexivity.
      - cbn [obs_ok] in Ho. pose proof (item_is_poll E x Wf Ho) as Ki. destruct x as [k q]. cbn. rewrite Ki. destruct k; reflexivity. }
    assert (E2 : forall tr, cnt (fun _ => true) (collect (v_out law_polls) tr) = length (polled tr)).
    { intros tr. unfold polled. rewrite <- cnt_all, !cnt_collect. apply sum_ext. apply Forall_forall. intros ob _. destruct ob; reflexivity. }
    rewrite E1 in L. rewrite !E2 in *. rewrite (upto_between n m2) by lia. unfold polled at 1. rewrite collect_app, app_length. fold (polled (upto o n)) (polled (between n m2)). lia. }
  destruct (one_at is_pr 0 one_pr) as (p & u & Hu & Wu).
  destruct (upto_drained polled replied (poll_rest p) (collect_app _) (sums_up _ _ _ (collect_app _) (collect_app _) eq_refl eq_refl (poll_law p u Hu Wu)) (poll_drains p u Hu Wu) m2) as (m3 & M5).
  destruct (M5 m3 (Nat.le_refl _)) as (_ & z & Hz). apply (f_equal length) in Hz. rewrite !app_length in Hz.
  assert (E3 : length (replied (upto o m3)) = cnt is_reply (queued (upto o m3))).
  { unfold replied, queued. rewrite <- cnt_all, !cnt_collect. apply sum_ext. eapply Forall_impl; [ exact (HO m3) | ]. intros ob Ho. destruct ob; try reflexivity.
    cbn [obs_ok] in Ho. pose proof (item_is_reply E x Wf Ho) as Ki. destruct x as [k q]. cbn. rewrite Ki. destruct k; reflexivity. }
  destruct (upto_drained queued transmitted send_rest (collect_app _) Ls send_drains m3) as (m4 & M6). exists m4. intros m Hm. destruct (M6 m Hm) as (_ & z' & ->). rewrite !cnt_app. lia.
Qed.

(** Goroutines come back to their select; handlers and calls end. *)
Lemma rests_again n i t : Y_threads (f n) !! i = Some t -> exists m u, (n <= m)%nat /\ Y_threads (f m) !! i = Some u /\ resting u = true.
Proof.
  assert (K : forall r n t, rank t = r -> locking t = 0%nat -> Y_threads (f n) !! i = Some t -> exists m u, (n <= m)%nat /\ Y_threads (f m) !! i = Some u /\ resting u = true).
  { intros r. induction r as [r IH] using lt_wf_ind. intros k u Hr Hl Hu. destruct (resting u) eqn:Ru; [ exists k, u; auto | ]. destruct (follow k i u Hu Ru) as (m & c & s & t' & sp & Hm & Hk & Hc & Hs & _ & Hi & _).
    destruct (own_step m i u c Hk Hc) as (_ & _ & _ & _ & _ & _ & Ha & _). pose proof (rank_down _ _ _ _ _ _ _ _ Ha Ru Hl Hs) as Rd.
    assert (Hl' : locking t' = 0%nat) by (destruct Hs; try reflexivity; discriminate Ru).
    destruct (IH (rank t') ltac:(lia) (S m) t' eq_refl Hl' Hi) as (m' & u' & M1 & M2). exists m', u'. split; [ lia | exact M2 ]. }
  intros Ht. destruct (locking t) eqn:Hl; [ exact (K _ n t eq_refl Hl Ht) | ]. assert (Rt : resting t = false) by (destruct t; try discriminate Hl; reflexivity).
  destruct (follow n i t Ht Rt) as (m & c & s & t' & sp & Hm & Hk & Hc & Hs & _ & Hi & _). assert (Hl' : locking t' = 0%nat) by (destruct Hs; try discriminate Hl; reflexivity).
  destruct (K _ (S m) t' eq_refl Hl' Hi) as (m' & u' & M1 & M2). exists m', u'. split; [ lia | exact M2 ].
Qed.
Lemma call_returns n i dmx a : Y_threads (f n) !! i = Some (U_send dmx a) -> exists m, (n <= m)%nat /\ In OSend (o m) /\ Y_threads (f (S m)) !! i = Some TDone.
Proof.
  intros Ht. destruct (follow n i _ Ht eq_refl) as (m & c & s & t' & sp & Hm & _ & _ & Hs & _ & Hi & _). exists m. split; [ exact Hm | ]. inversion Hs; subst. split; [ right; left; reflexivity | exact Hi ].
Qed.
(** While it runs the callbacks stay as they are. *)
Lemma same_callbacks n : S_callbacks (Y_sh (f n)) = S_callbacks (Y_sh (f 0%nat)).
Proof.
  induction n as [|n IH]; [ reflexivity | ]. rewrite <- IH. pose proof (ex_step _ _ _ _ X n) as He. apply exec_cases in He.
  destruct He as [(i & c & t & s & t' & sp & Hl & Ht & Hs & ->)|[(t & _ & -> & _)|(mm & op & g & _ & -> & _ & Hm & _)]]; [ tcases Hs; reflexivity | reflexivity | ].
  destruct (facts n) as (_ & _ & _ & _ & _ & _ & _ & _ & Sd & _). rewrite Sd in Hm. subst. reflexivity.
Qed.
Lemma spawned_upto n : spawned (upto o n) = omap accept (parsed (upto o n)).
Proof.
  destruct base as (trz & R & _). destruct (R 0%nat) as (l0 & R0). destruct (R n) as (l1 & R1). apply spawned_parsed in R0, R1. change (upto o 0) with (@nil obs) in R0. rewrite app_nil_r in R0.
  unfold spawned, parsed in R1. rewrite !(collect_app _ trz), omap_app in R1. fold (spawned trz) (parsed trz) (spawned (upto o n)) (parsed (upto o n)) in R1. rewrite R0 in R1. apply app_inv_head in R1. exact R1.
Qed.
Lemma ignored_upto n p : In p (ignored (upto o n)) -> S_callbacks (Y_sh (f 0%nat)) !! GetOpCode p = None.
Proof.
  induction n as [|n IH]; [ intros [] | ]. rewrite upto_S. unfold ignored. rewrite collect_app. intros H. apply in_app_or in H. destruct H as [H|H]; [ exact (IH H) | ].
  unfold collect in H. apply in_concat in H. destruct H as (k & H1 & H2). apply in_map_iff in H1. destruct H1 as (ob & <- & Ho). destruct ob; try contradiction. destruct H2 as [->|[]].
  apply in_split in Ho. destruct Ho as (a & b & Ho). pose proof (ex_step _ _ _ _ X n) as He. rewrite Ho in He. apply ignore_unregistered in He. rewrite <- (same_callbacks n). apply He.
Qed.
End fair.

(** * C96 *)
Lemma cnt_sub {A} `{EqDecision A} (a b : list A) : (forall P, (cnt P a <= cnt P b)%nat) -> exists c, b ≡ₚ a ++ c.
Proof.
  revert b. induction a as [|x a IH]; intros b H; [ exists b; reflexivity | ]. assert (Hx : In x b).
  { pose proof (H (fun y => bool_decide (x = y))) as K. unfold cnt in K. cbn in K. rewrite bool_decide_eq_true_2 in K by reflexivity. cbn in K. destruct (List.filter _ b) as [|y r] eqn:Hf; [ cbn in K; lia | ].
    assert (Hy : In y (List.filter (fun y => bool_decide (x = y)) b)) by (rewrite Hf; left; reflexivity). apply filter_In in Hy. destruct Hy as [Hy K2]. apply bool_decide_eq_true in K2. subst. exact Hy. }
  apply in_split in Hx. destruct Hx as (b1 & b2 & ->). destruct (IH (b1 ++ b2)) as [c Hc].
  { intros P. specialize (H P). change (x :: a) with ([x] ++ a) in H. change (x :: b2) with ([x] ++ b2) in H. rewrite !cnt_app in *. lia. }
  exists c. cbn [app]. rewrite <- Hc. symmetry. apply Permutation_middle.
Qed.
(** Nothing is stuck for ever: whatever else happens, a goroutine that is not waiting for something to happen takes a step, every loop comes back to its select and every handler ends, and a pending
    SendDMXToAddress returns. *)
Theorem C96_goes_on : forall E f l o, execution E f l o -> fair E f l ->
  (forall n i t, Y_threads (f n) !! i = Some t -> resting t = false -> exists m c, (n <= m)%nat /\ Y_threads (f m) !! i = Some t /\ l m = LRun i c) /\
  (forall n i t, Y_threads (f n) !! i = Some t -> exists m u, (n <= m)%nat /\ Y_threads (f m) !! i = Some u /\ resting u = true) /\
  (forall n i p, Y_threads (f n) !! i = Some (H_start p) -> exists m, (n <= m)%nat /\ Y_threads (f m) !! i = Some TDone) /\
  (forall n i dmx a, Y_threads (f n) !! i = Some (U_send dmx a) -> exists m, (n <= m)%nat /\ In OSend (o m) /\ Y_threads (f (S m)) !! i = Some TDone).
Proof.
  intros E f l o X Fr. split; [ exact (all_go E f l o X Fr) | ]. split; [ exact (rests_again E f l o X Fr) | ]. split; [ | exact (call_returns E f l o X Fr) ].
  intros n i p Ht.
  assert (K : forall m, (n <= m)%nat -> exists u, Y_threads (f m) !! i = Some u /\ (handler u = true \/ u = TDone)).
  { apply nat_le_ind; [ eexists; split; [ exact Ht | left; reflexivity ] | ]. intros m Hm (u & Hu & Hh). destruct (thread_moves E f l o X m i u Hu) as [[c Hc]|K]; [ | eauto ].
    destruct (own_step E f l o X m i u c Hu Hc) as (s & t' & sp & Hs & _ & Hi & _). exists t'. split; [ exact Hi | ]. destruct Hh as [Hh| ->]; [ destruct Hs; try discriminate Hh; auto | inversion Hs ]. }
  destruct (rests_again E f l o X Fr n i _ Ht) as (m & u & Hm & Hu & Ru). exists m. split; [ exact Hm | ]. destruct (K m Hm) as (u' & Hu' & [Hh| ->]); [ | exact Hu' ]. rewrite Hu in Hu'. injection Hu' as <-. destruct u; discriminate.
Qed.
(** What happened in the first [n] steps has, from some moment on, had its effect, although datagrams, ticks and calls keep coming:
    - the datagrams of other hosts were parsed, in order;
    - the accepted ones were handed to the callback, if there is one for the opcode;
    - what was queued for sending was transmitted, in order, and so were the frames made by the ticks;
    - every ArtPoll given to the poll handler and every own poll was answered;
    - the poll replies given to a controller have updated its tables. *)
Theorem C96_delivered : forall E f l o, execution E f l o -> fair E f l -> forall n, exists m0, forall m, (m0 <= m)%nat -> (n <= m)%nat /\
  let past := upto o n in let now := upto o m in
  (exists a z, parsed now = a ++ others (E_localIP E) past ++ z) /\
  (exists ps, Forall2 (fun d p => forall q, p = Some q <-> wire_accepts d q) (others (E_localIP E) past) ps /\
     (exists rest, called now ++ ignored now ≡ₚ omap id ps ++ rest) /\
     (exists rest, called now ≡ₚ List.filter (fun p => match S_callbacks (Y_sh (f 0%nat)) !! GetOpCode p with Some _ => true | None => false end) (omap id ps) ++ rest)) /\
  (exists a z, transmitted now = a ++ queued past ++ z) /\
  (exists a z, dmx_out now = a ++ frames_made past ++ z) /\
  (length (polls_handled past) + cnt is_poll (queued past) <= cnt is_reply (transmitted now))%nat /\
  (C_Type (E_config E) = 1 -> exists rest, replies_applied now ≡ₚ replies_called past ++ rest).
Proof.
  intros E f l o X Fr n. destruct (base E f l o X Fr) as (trz & R & Ls & Lr). pose proof (lv_wf _ _ (ex_live _ _ _ _ X)) as Wf.
  destruct (upto_drained o (received E) parsed (recv_rest E f) (collect_app _) Lr (recv_drains E f l o X Fr) n) as (m1 & M1).
  destruct (packets_handled E f l o X Fr m1) as (m2 & M2).
  destruct (upto_drained o queued transmitted (send_rest f) (collect_app _) Ls (send_drains E f l o X Fr) n) as (m3 & M3).
  assert (Lf : forall k, collect undelivered (Y_threads (f 0%nat)) ++ frames_made (upto o k) = frames_queued (upto o k) ++ collect undelivered (Y_threads (f k))).
  { intros k. destruct (R 0%nat) as (l0 & R0). destruct (R k) as (l1 & R1). pose proof (proj2 (frames_in_order _ _ _ _ R0)) as K0. pose proof (proj2 (frames_in_order _ _ _ _ R1)) as K1. change (upto o 0) with (@nil obs) in K0. rewrite app_nil_r in K0.
    unfold frames_made, frames_queued in *. rewrite !(collect_app _ trz), K0, <- !app_assoc in K1. apply app_inv_head in K1. exact K1. }
  destruct (upto_drained o frames_made frames_queued (fun k => collect undelivered (Y_threads (f k))) (collect_app _) Lf (frames_drain E f l o X Fr) n) as (m4 & M4).
  destruct (upto_drained o queued transmitted (send_rest f) (collect_app _) Ls (send_drains E f l o X Fr) m4) as (m5 & M5).
  destruct (polls_answered E f l o X Fr n) as (m6 & M6).
  assert (M7 : exists m7, forall m, (m7 <= m)%nat -> C_Type (E_config E) = StController -> forall P, (cnt P (replies_called (upto o n)) <= cnt P (replies_applied (upto o m)))%nat).
  { destruct (N.eq_dec (C_Type (E_config E)) StController) as [Hty|Hty]; [ | exists 0%nat; intros; contradiction ]. destruct (replies_reach E f l o X Fr n Hty) as (m7 & M7). exists m7. intros m Hm _. exact (M7 m Hm). }
  destruct M7 as (m7 & M7).
  exists (list_max [n; m1; m2; m3; m4; m5; m6; m7]). intros m Hm. apply list_max_le in Hm. rewrite !List.Forall_cons_iff in Hm. destruct Hm as (H0 & H1 & H2 & H3 & H4 & H5 & H6 & H7 & _). split; [ exact H0 | ]. cbv zeta.
  rewrite others_received.
  destruct (M1 m1 (Nat.le_refl _)) as (_ & z1 & Z1). split; [ destruct (M1 m H1) as (_ & z & Hz); eexists _, z; exact Hz | ]. split; [ | split; [ destruct (M3 m H3) as (_ & z & Hz); eexists _, z; exact Hz | split; [ | split; [ exact (M6 m H6) | ] ] ] ].
  - exists (map accept (received E (upto o n))). split.
    + assert (F : forall d, In d (received E (upto o n)) -> bytes_ok d).
      { intros d Hd. assert (Hp : In d (parsed (upto o m1))) by (rewrite Z1; apply in_or_app; right; apply in_or_app; left; exact Hd). destruct (R m1) as (ls & Rm). unfold parsed, collect in Hp. apply in_concat in Hp. destruct Hp as (k & K1 & K2).
        apply in_map_iff in K1. destruct K1 as (ob & <- & Ho). destruct ob; cbn in K2; try contradiction. destruct K2 as [->|[]]. exact (obs_in _ _ _ _ _ Rm (in_or_app _ _ _ (or_intror Ho))). }
      revert F. generalize (received E (upto o n)). intros k F. induction k as [|d r IH]; cbn [map]; constructor; [ intros q; apply accept_wire, F; left; reflexivity | apply IH; intros; apply F; right; assumption ].
    + assert (E0 : omap id (map accept (received E (upto o n))) = omap accept (received E (upto o n))) by (generalize (received E (upto o n)); intros r; induction r as [|d r IH]; [ reflexivity | cbn; destruct (accept d); rewrite IH; reflexivity ]).
      rewrite E0. assert (K : forall P, (cnt P (omap accept (received E (upto o n))) <= cnt P (called (upto o m) ++ ignored (upto o m)))%nat).
      { intros P. specialize (M2 m H2 P). rewrite (spawned_upto E f l o X Fr), Z1, !omap_app, !cnt_app in M2.
        assert (E1 : cnt P (collect (v_out law_packets) (upto o m)) = cnt P (called (upto o m) ++ ignored (upto o m))).
        { unfold called, ignored. apply P_Wire.cnt_perm. rewrite <- collect_union. erewrite collect_ext; [ reflexivity | ]. intros ob. destruct ob; reflexivity. }
        rewrite E1 in M2. lia. }
      split; [ apply cnt_sub; exact K | ]. apply cnt_sub. intros P.
      set (reg := fun p => match S_callbacks (Y_sh (f 0%nat)) !! GetOpCode p with Some _ => true | None => false end).
      assert (Ef : forall r, cnt P (List.filter reg r) = cnt (fun p => reg p && P p) r).
      { intros r. unfold cnt. induction r as [|x r IH]; [ reflexivity | ]. cbn [List.filter]. destruct (reg x); cbn [List.filter andb]; [ destruct (P x); cbn [length]; rewrite IH; reflexivity | exact IH ]. }
      rewrite Ef. specialize (K (fun p => reg p && P p)). rewrite cnt_app in K.
      assert (Z : cnt (fun p => reg p && P p) (ignored (upto o m)) = 0%nat).
      { unfold cnt. pose proof (ignored_upto E f l o X m) as Hi. revert Hi. generalize (ignored (upto o m)). intros k Hi. induction k as [|x r IH]; [ reflexivity | ]. cbn [List.filter]. unfold reg at 1. rewrite (Hi x (or_introl eq_refl)). cbn [andb]. apply IH. intros q Hq. apply Hi. right. exact Hq. }
      assert (Le : forall r, (cnt (fun p => reg p && P p) r <= cnt P r)%nat) by (intros r; unfold cnt; induction r as [|x r IH]; [ apply Nat.le_refl | cbn [List.filter]; destruct (reg x), (P x); cbn [andb length]; lia ]).
      specialize (Le (called (upto o m))). lia.
  - destruct (M4 m4 (Nat.le_refl _)) as (_ & z4 & Z4). destruct (M5 m H5) as (_ & z5 & Z5). unfold dmx_out. rewrite Z5, !List.filter_app, !map_app.
    assert (Eq : map snd (List.filter is_dmx (queued (upto o m4))) = frames_queued (upto o m4)).
    { rewrite frames_queued_eq. symmetry. apply (omap_filter_dmx E); [ exact Wf | ]. intros x Hx. destruct (R m4) as (ls & Rm). eapply queued_ok; [ exact Rm | ]. unfold queued. rewrite collect_app. apply in_or_app. right. exact Hx. }
    rewrite Eq, Z4. eexists (map snd (List.filter is_dmx (send_rest f 0)) ++ collect undelivered (Y_threads (f 0%nat))), (z4 ++ map snd (List.filter is_dmx z5)). rewrite <- !app_assoc. reflexivity.
  - intros Hty. apply cnt_sub. exact (M7 m H7 Hty).
Qed.

(** A schedule that repeats itself: [pre] once and [cyc] for ever. *)
Section periodic.
Context (E : env) (y0 : sys) (pre cyc : script).
Definition turn (n : nat) : sys -> label := nth (if (n <? length pre)%nat then n else (n - length pre) mod (length cyc))%nat (if (n <? length pre)%nat then pre else cyc) (fun _ => LRun 0 CGo).
Fixpoint states (n : nat) : sys := match n with O => y0 | S n => let y := states n in match exec E y (turn n y) with RNext y' _ => y' | _ => y end end.
Definition labels (n : nat) : label := turn n (states n).
Definition seen (n : nat) : list obs := match exec E (states n) (labels n) with RNext _ o => o | _ => [] end.
Definition goodb (n : nat) : bool :=
  label_okb (labels n) && bool_decide (calls [labels n] = []) && no_errors [labels n] && match exec E (states n) (labels n) with RNext _ _ => true | _ => false end.
Definition tookb (m i : nat) (b : bool) : bool :=
  match Y_threads (states m) !! i with
  | Some t => eqb (resting t) b && match labels m with LRun j c => (j =? i)%nat && internal t c | _ => false end
  | None => false
  end.
Definition ableb (y : sys) (i : nat) (b : bool) : bool :=
  match Y_threads y !! i with
  | Some t => eqb (resting t) b && match t with CP_gc _ | CP_reply _ _ | DL_lock _ => true | _ => match exec E y (LRun i CGo) with RNext _ _ => true | _ => false end end
  | None => false
  end.
Definition fairb (i : nat) (b : bool) : bool :=
  existsb (fun j => tookb (length pre + j) i b) (seq 0 (length cyc)) || forallb (fun j => negb (ableb (states (length pre + j)) i b)) (seq 0 (length cyc)).
Context (Live : live E y0) (Cyc : cyc <> []) (Per : states (length pre + length cyc) = states (length pre)) (Good : forallb goodb (seq 0 (length pre + length cyc)) = true)
  (Size : forallb (fun j => (length (Y_threads (states (length pre + j))) =? length (Y_threads (states (length pre))))%nat) (seq 0 (length cyc)) = true)
  (Fair : forallb (fun i => fairb i true && fairb i false) (seq 0 (length (Y_threads (states (length pre))))) = true).
Lemma cyc_pos : (length cyc <> 0)%nat.
Proof. destruct cyc; [ contradiction | discriminate ]. Qed.
Lemma turn_again n : (length pre <= n)%nat -> turn (n + length cyc) = turn n.
Proof.
  intros H. unfold turn. destruct (Nat.ltb_spec n (length pre)); [ lia | ]. destruct (Nat.ltb_spec (n + length cyc) (length pre)); [ lia | ]. f_equal. replace (n + length cyc - length pre)%nat with ((n - length pre) + 1 * length cyc)%nat by lia.
  apply Nat.mod_add. exact cyc_pos.
Qed.
Lemma states_again n : (length pre <= n)%nat -> states (n + length cyc) = states n.
Proof. revert n. apply nat_le_ind; [ exact Per | ]. intros n Hn IH. change (S n + length cyc)%nat with (S (n + length cyc)). cbn [states]. rewrite IH, (turn_again n Hn). reflexivity. Qed.
Lemma again n q : (length pre <= n)%nat -> states (n + q * length cyc) = states n /\ labels (n + q * length cyc) = labels n.
Proof.
  intros Hn. induction q as [|q [I1 I2]]; [ cbn; rewrite Nat.add_0_r; auto | ]. replace (n + S q * length cyc)%nat with (n + q * length cyc + length cyc)%nat by lia. unfold labels in *. rewrite states_again, turn_again by lia. auto.
Qed.
Lemma folded n : exists k, (k < length pre + length cyc)%nat /\ states n = states k /\ labels n = labels k /\ ((length pre <= n)%nat -> (length pre <= k)%nat).
Proof.
  destruct (Nat.lt_ge_cases n (length pre)) as [H|H]; [ exists n; split; [ lia | auto ] | ]. pose proof (Nat.div_mod_eq (n - length pre) (length cyc)) as D. pose proof (Nat.mod_upper_bound (n - length pre) (length cyc) cyc_pos) as U.
  exists (length pre + (n - length pre) mod length cyc)%nat. split; [ lia | ]. destruct (again (length pre + (n - length pre) mod length cyc) ((n - length pre) / length cyc) ltac:(lia)) as [A1 A2].
  replace n with (length pre + (n - length pre) mod length cyc + (n - length pre) / length cyc * length cyc)%nat at 1 3 by lia. repeat split; [ assumption | assumption | lia ].
Qed.
Lemma good_at n : goodb n = true.
Proof.
  destruct (folded n) as (k & Hk & Es & El & _). unfold goodb. rewrite Es, El. fold (goodb k). rewrite forallb_forall in Good. apply Good, in_seq. lia.
Qed.
Lemma periodic_execution : execution E states labels seen.
Proof.
  split; [ exact Live | intros n; pose proof (good_at n) as K; unfold goodb in K; rewrite !andb_true_iff in K; destruct K as (((K1 & K2) & K3) & K4) .. ].
  - apply label_okb_ok. exact K1.
  - apply bool_decide_eq_true in K2. exact K2.
  - exact K3.
  - cbn [states]. unfold seen. change (turn n (states n)) with (labels n). destruct (exec E (states n) (labels n)); try discriminate K4. reflexivity.
Qed.
Lemma not_ableb y i b : ableb y i b = false -> ~ able E y i b.
Proof.
  unfold ableb. intros H (t & c & y' & ob & Ht & Hr & Hi & He). rewrite Ht, Hr, eqb_reflx in H. destruct t; try discriminate H; destruct c; try discriminate Hi; rewrite He in H; discriminate H.
Qed.
Lemma periodic_fair : fair E states labels.
Proof.
  intros i b n. pose proof cyc_pos as Pos. destruct (Nat.lt_ge_cases i (length (Y_threads (states (length pre))))) as [Hi|Hi].
  - rewrite forallb_forall in Fair. pose proof (Fair i ltac:(apply in_seq; lia)) as F. assert (Fb : fairb i b = true) by (apply andb_prop in F; destruct b; apply F). unfold fairb in Fb. apply orb_prop in Fb. destruct Fb as [Fb|Fb].
    + left. apply existsb_exists in Fb. destruct Fb as (j & Hj & T). exists (length pre + j + n * length cyc)%nat. split; [ nia | ]. destruct (again (length pre + j) n ltac:(lia)) as [A1 A2]. unfold took. rewrite A1, A2.
      unfold tookb in T. destruct (Y_threads (states (length pre + j)) !! i) as [t|]; [ | discriminate T ]. apply andb_prop in T. destruct T as [T1 T2]. apply eqb_prop in T1. destruct (labels (length pre + j)) as [k c| | | | |]; try discriminate T2. apply andb_prop in T2. destruct T2 as [T2 T3].
      apply Nat.eqb_eq in T2. subst k. exists t, c. auto.
    + right. exists (Nat.max n (length pre)). split; [ lia | ]. intros k Hk. apply not_ableb. destruct (folded k) as (k' & Hk' & Es & _ & Hp). rewrite Es. rewrite forallb_forall in Fb. specialize (Hp ltac:(lia)).
      specialize (Fb (k' - length pre)%nat ltac:(apply in_seq; lia)). replace (length pre + (k' - length pre))%nat with k' in Fb by lia. apply negb_true_iff in Fb. exact Fb.
  - right. exists (Nat.max n (length pre)). split; [ lia | ]. intros k Hk (t & c & y' & ob & Ht & _). destruct (folded k) as (k' & Hk' & Es & _ & Hp). rewrite Es in Ht. apply lookup_lt_Some in Ht. rewrite forallb_forall in Size. specialize (Hp ltac:(lia)).
    specialize (Size (k' - length pre)%nat ltac:(apply in_seq; lia)). replace (length pre + (k' - length pre))%nat with k' in Size by lia. apply Nat.eqb_eq in Size. lia.
Qed.
End periodic.

(** A busy controller (a DMX frame about to be queued, an ArtPoll and a call pending); afterwards a datagram that is no Art-Net packet, the poll ticker, the dmx ticker and the garbage collection, for ever. *)
Definition pick (y : sys) (t : thread) : Sys.choice :=
  match t with CP_gc _ => CClock (fun _ => 0%Z) | CP_reply _ _ => CTime 5%Z | DL_lock _ => COrder (map_to_list (K_OutputAddress (S_tables (Y_sh y)))) | _ => CGo end.
Definition some_go (y : sys) : label :=
  let k := hd 0%nat (List.filter (fun k => match exec ctl1 y (LRun k (pick y (thread_at y k))) with RNext _ _ => true | _ => false end) (seq 0 (length (Y_threads y)))) in LRun k (pick y (thread_at y k)).
Definition round : script := act (LRun 6 (CDatagram host2 [1; 2; 3])) ++ repeat some_go 7 ++ act (LRun 4 CPollTick) ++ repeat some_go 17 ++ act (LRun 5 (CTime 2000000000%Z)) ++ repeat some_go 3 ++ act (LRun 4 CGcTick) ++ repeat some_go 2.
Definition busy_state : sys := match play_life ctl1 carefulb (init ctl1) Idle busy with Some (_, y, _, _) => y | _ => init ctl1 end.
Global Instance Port_eq_dec : EqDecision Port. Proof. solve_decision. Defined.
Global Instance NodeConfig_eq_dec : EqDecision NodeConfig. Proof. solve_decision. Defined.
Global Instance dmxBuffer_eq_dec : EqDecision dmxBuffer. Proof. solve_decision. Defined.
Global Instance ControlledNode_eq_dec : EqDecision ControlledNode. Proof. solve_decision. Defined.
Global Instance Controller_eq_dec : EqDecision Controller. Proof. solve_decision. Defined.
Global Instance chans_eq_dec : EqDecision chans. Proof. solve_decision. Defined.
Global Instance shared_eq_dec : EqDecision shared. Proof. solve_decision. Defined.
Global Instance thread_eq_dec : EqDecision thread. Proof. solve_decision. Defined.
Global Instance sys_eq_dec : EqDecision sys. Proof. solve_decision. Defined.
Lemma busy_live : live ctl1 busy_state.
Proof.
  assert (K : match play_life ctl1 carefulb (init ctl1) Idle busy with Some (_, _, _, Up) => true | _ => false end = true) by (vm_compute; reflexivity).
  unfold busy_state. destruct (play_life ctl1 carefulb (init ctl1) Idle busy) as [[[[ls y] tr] ph]|] eqn:Hp; [ | discriminate K ]. destruct ph; try discriminate K.
  split; [ repeat (split; [ repeat constructor | ]); repeat constructor | intros _; split; [ reflexivity | discriminate ] | left; reflexivity | ]. exists ls, tr. exact (play_life_ok ctl1 carefulb careful busy carefulb_ok _ _ _ _ _ _ _ _ (life_nil ctl1 careful) Hp).
Qed.
Definition pre_round : script := repeat some_go 35 ++ round.
Lemma pre_len : length pre_round = 68%nat. Proof. reflexivity. Qed.
Lemma round_len : length round = 33%nat. Proof. reflexivity. Qed.
Example C96_ex : exists f l o, execution ctl1 f l o /\ fair ctl1 f l /\
  (* a pending call, a frame on its way, a poll that is answered *)
  (exists dmx a, Y_threads (f 0%nat) !! 8%nat = Some (U_send dmx a)) /\ length (collect undelivered (Y_threads (f 0%nat))) = 1%nat /\ dmx_out (upto o 40) <> [] /\ length (polls_handled (upto o 40)) = 1%nat /\
  (* input never ends *)
  (forall n, exists m, (n <= m)%nat /\ In (ORecv host2 [1; 2; 3]) (o m)).
Proof.
  assert (Cyc : round <> []) by discriminate.
  assert (Per : states ctl1 busy_state pre_round round (length pre_round + length round) = states ctl1 busy_state pre_round round (length pre_round)).
  { assert (K : bool_decide (states ctl1 busy_state pre_round round (length pre_round + length round) = states ctl1 busy_state pre_round round (length pre_round)) = true) by (vm_compute; reflexivity). apply bool_decide_eq_true in K. exact K. }
  assert (Good : forallb (goodb ctl1 busy_state pre_round round) (seq 0 (length pre_round + length round)) = true) by (vm_compute; reflexivity).
  assert (Size : forallb (fun j => (length (Y_threads (states ctl1 busy_state pre_round round (length pre_round + j))) =? length (Y_threads (states ctl1 busy_state pre_round round (length pre_round))))%nat) (seq 0 (length round)) = true) by (vm_compute; reflexivity).
  assert (Fair : forallb (fun i => fairb ctl1 busy_state pre_round round i true && fairb ctl1 busy_state pre_round round i false) (seq 0 (length (Y_threads (states ctl1 busy_state pre_round round (length pre_round))))) = true) by (vm_compute; reflexivity).
  exists (states ctl1 busy_state pre_round round), (labels ctl1 busy_state pre_round round), (seen ctl1 busy_state pre_round round).
  split; [ exact (periodic_execution _ _ _ _ busy_live Cyc Per Good Size) | ]. split; [ exact (periodic_fair _ _ _ _ Cyc Per Good Size Fair) | ].
  split.
  { assert (K : match Y_threads (states ctl1 busy_state pre_round round 0) !! 8%nat with Some (U_send _ _) => true | _ => false end = true) by (vm_compute; reflexivity).
    destruct (Y_threads (states ctl1 busy_state pre_round round 0) !! 8%nat) as [t|]; [ | discriminate K ]. destruct t; try discriminate K. eexists _, _. reflexivity. }
  split; [ vm_compute; reflexivity | ].
  split; [ assert (K : length (dmx_out (upto (seen ctl1 busy_state pre_round round) 40)) = 1%nat) by (vm_compute; reflexivity); intros K2; rewrite K2 in K; discriminate K | ]. split; [ vm_compute; reflexivity | ].
  intros n. exists (length pre_round + n * length round)%nat. split; [ rewrite pre_len, round_len; lia | ]. unfold seen. destruct (again _ _ _ _ Cyc Per Good Size (length pre_round) n (Nat.le_refl _)) as [-> ->].
  assert (K1 : match exec ctl1 (states ctl1 busy_state pre_round round (length pre_round)) (labels ctl1 busy_state pre_round round (length pre_round)) with RNext _ [ORecv from d] => bool_decide (from = host2 /\ d = [1; 2; 3]) | _ => false end = true) by (vm_compute; reflexivity).
  destruct (exec ctl1 (states ctl1 busy_state pre_round round (length pre_round)) (labels ctl1 busy_state pre_round round (length pre_round))) as [| |y' ob]; try discriminate K1.
  destruct ob as [|[] [|? ?]]; try discriminate K1. apply bool_decide_eq_true in K1. destruct K1 as [-> ->]. left. reflexivity.
Qed.

Definition P_Fair_theorems := (C96_goes_on, C96_delivered, C96_ex).
Print Assumptions P_Fair_theorems.
