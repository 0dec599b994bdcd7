(** C79: under every schedule, what the goroutines of a running node do by themselves comes to an end; in every run of the interleaving semantics of Sys.v. *)
From Verif Require Import WireSpec P_Config P_Controller SysFacts SysLaws SysRun SysOrder SysScript P_Node P_Life P_Live P_Wire.
From stdpp Require Import base list gmap.
Open Scope N_scope.

(** * C79 *)
(** One step a goroutine or pending call takes by itself, and sequences of them. *)
Definition quiet1 (E : env) (y y' : sys) : Prop := exists i t c o, Y_threads y !! i = Some t /\ internal t c = true /\ exec E y (LRun i c) = RNext y' o.
Inductive quiets (E : env) : sys -> list label -> sys -> list obs -> Prop :=
| quiets_nil y : quiets E y [] y []
| quiets_cons y i t c y1 o ls y2 tr : Y_threads y !! i = Some t -> internal t c = true -> exec E y (LRun i c) = RNext y1 o -> quiets E y1 ls y2 tr ->
    quiets E y (LRun i c :: ls) y2 (o ++ tr).
Lemma quiets_quietly E y ls y' tr : quiets E y ls y' tr -> quietly E y y'.
Proof. induction 1; [ constructor | econstructor; eassumption ]. Qed.
Lemma quiets_steps E y ls y' tr : quiets E y ls y' tr -> steps E y ls y' tr.
Proof. induction 1 as [|y i t c y1 o ls y2 tr Ht Hi He Q IH]; [ constructor | ]. eapply steps_cons; [ | exact He | exact IH ]. destruct t, c; try discriminate Hi; exact I. Qed.
Lemma quiets_life E y ls y' tr : quiets E y ls y' tr -> live E y -> live E y' /\ forall ls0 tr0, life E careful ls0 y tr0 Up ->
  life E careful (ls0 ++ ls) y' (tr0 ++ tr) Up /\ calls ls = [] /\ no_errors ls = true.
Proof.
  induction 1 as [|y i t c y1 o ls y2 tr Ht Hi He Q IH]; intros V; [ split; [ exact V | ]; intros ls0 tr0 L; rewrite !app_nil_r; auto | ].
  destruct (IH (live_next _ _ _ _ _ _ _ V Ht Hi He)) as [V' K]. split; [ exact V' | ]. intros ls0 tr0 L.
  destruct (K _ _ (life_internal _ _ _ _ _ _ _ _ _ V L Ht Hi He)) as (K1 & K2 & K3). rewrite <- !app_assoc in K1. split; [ exact K1 | ]. split; [ exact K2 | ].
  unfold no_errors in *. cbn [forallb]. rewrite K3. destruct t, c; try discriminate Hi; reflexivity.
Qed.
(** A step either takes the lock of a tick, or makes less work. *)
Lemma quiet_step E y y' : live E y -> quiet1 E y y' -> live E y' /\
  ((sum_list_with locking (Y_threads y') < sum_list_with locking (Y_threads y))%nat \/
   sum_list_with locking (Y_threads y') = sum_list_with locking (Y_threads y) /\ (weight y' < weight y)%nat).
Proof.
  intros V (i & t & c & o & Ht & Hi & He). split; [ exact (live_next _ _ _ _ _ _ _ V Ht Hi He) | ].
  destruct (live_facts E y V) as (g & ch & k & _ & _ & _ & _ & _ & _ & _ & _ & _ & _ & _ & _ & _ & Hth & _). pose proof (Forall_lookup_1 _ _ _ _ Hth Ht) as [Ha _].
  cbn [exec] in He. rewrite Ht in He. destruct (tstep E (Y_sh y) t c) as [| |s t' sp o1] eqn:Es; try discriminate He. injection He as <- <-. cbn [Y_threads].
  pose proof (sum_insert locking _ i t t' Ht) as I2. pose proof (sum_insert weigh _ i t t' Ht) as I1. rewrite !sum_list_with_app.
  destruct (Nat.eq_dec (locking t) 0%nat) as [Hl|Hl].
  - right. destruct (quiet_decreases E _ _ _ _ _ _ _ Ha Hl Hi Es) as (W1 & W2 & W3). split; [ lia | ]. unfold weight. cbn [Y_sh Y_threads]. rewrite sum_list_with_app. lia.
  - left. destruct t; try (exfalso; apply Hl; reflexivity). apply tstep_trans in Es. inversion Es; subst. cbn in *. lia.
Qed.
Lemma quiet_terminates E : forall k n y, sum_list_with locking (Y_threads y) = k -> (weight y <= n)%nat -> live E y -> Acc (fun b a => quiet1 E a b) y.
Proof.
  induction k as [k IHk] using lt_wf_ind. induction n as [n IHn] using lt_wf_ind. intros y Hk Hn V. constructor. intros y' Hq.
  destruct (quiet_step E y y' V Hq) as [V' [Hl|[Hl Hw]]].
  - apply (IHk (sum_list_with locking (Y_threads y'))) with (n := weight y'); [ lia | reflexivity | reflexivity | exact V' ].
  - apply (IHn (weight y')); [ lia | congruence | reflexivity | exact V' ].
Qed.
Lemma no_infinite {A} (R : A -> A -> Prop) x : Acc (fun b a => R a b) x -> ~ exists f : nat -> A, f 0%nat = x /\ forall n, R (f n) (f (S n)).
Proof. induction 1 as [x _ IH]. intros (f & <- & Hf). apply (IH (f 1%nat) (Hf 0%nat)). exists (fun n => f (S n)). split; [ reflexivity | ]. intros n. apply Hf. Qed.
(** If no datagram arrives, no ticker fires, no socket operation fails and no call is made, then whatever the scheduler does only finitely many steps are left; as long as anything is left
    to do some step is possible; and when no step is possible any more, everything received, queued, routed and called so far is dealt with (as in C78). *)
Theorem C79_finishes : forall E ls0 y0 tr0 ls y tr, wf_config (E_config E) -> (E_ctl E = true -> (0 < E_maxFPS E <= 1000000000)%Z) ->
  (E_ctl E = true \/ C_Type (E_config E) <> StController) -> life E careful (ls0 ++ ls) y (tr0 ++ tr) Up ->
  (~ exists f : nat -> sys, f 0%nat = y /\ forall n, quiet1 E (f n) (f (S n))) /\
  forall ls' y' tr', quiets E y ls' y' tr' -> (forall y2, ~ quiet1 E y' y2) ->
    (forall j dmx a, Y_threads y !! j = Some (U_send dmx a) -> Y_threads y' !! j = Some TDone) /\
    (runs E ls0 y0 tr0 -> Forall (eq TDone) (Y_threads y0) -> steps E y0 ls y tr -> calls ls = [true] -> no_errors ls = true -> let T := tr ++ tr' in
       parsed T = others (E_localIP E) T /\
       (exists ps, Forall2 (fun d o => forall p, o = Some p <-> wire_accepts d p) (others (E_localIP E) T) ps /\ omap id ps ≡ₚ called T ++ ignored T) /\
       transmitted T = queued T /\ dmx_out T = frames_made T /\
       (length (polls_handled T) + cnt is_poll (queued T) = cnt is_reply (transmitted T))%nat /\
       (C_Type (E_config E) = StController -> replies_called T ≡ₚ replies_applied T)).
Proof.
  intros E ls0 y0 tr0 ls y tr Wf Fp St L. assert (V : live E y) by (constructor; eauto). split; [ apply no_infinite; eapply quiet_terminates; [ reflexivity | reflexivity | exact V ] | ].
  intros ls' y' tr' Q F. destruct (quiets_life E _ _ _ _ Q V) as [V' K]. destruct (K _ _ L) as (L' & C & N).
  assert (R : at_rest y'). { destruct (live_progress E y' V') as [R|(i & t & c & y2 & o & Ht & Hi & He)]; [ exact R | ]. exfalso. apply (F y2). exists i, t, c, o. auto. }
  split.
  - intros j dmx a Hj. destruct (quietly_send E y y' (quiets_quietly _ _ _ _ _ Q) j dmx a (or_introl Hj)) as [J|J]; [ | exact J ]. pose proof (Forall_lookup_1 _ _ _ _ (proj1 R) J). discriminate.
  - intros R0 Q0 S0 Hc Hn. cbv zeta. apply (at_rest_done E ls0 y0 tr0 (ls ++ ls') y'); try assumption.
    + eapply steps_app; [ exact S0 | eapply quiets_steps; exact Q ].
    + unfold calls in *. rewrite collect_app, Hc, C. reflexivity.
    + unfold no_errors in *. rewrite forallb_app, Hn, N. reflexivity.
Qed.
Lemma at_rest_final E y : live E y -> at_rest y -> forall y2, ~ quiet1 E y y2.
Proof.
  intros V [R1 R2] y2 (i & t & c & o & Ht & Hi & He).
  destruct (live_facts E y V) as (g & ch & k & G1 & G2 & _ & _ & _ & _ & _ & _ & _ & _ & _ & _ & Hg & _ & _). destruct (R2 _ _ G1 G2) as (Z1 & Z2 & Z3 & Z4).
  pose proof (Forall_lookup_1 _ _ _ _ R1 Ht) as Hr. pose proof (Forall_lookup_1 _ _ _ _ Hg Ht) as Hh. cbn [exec] in He. rewrite Ht in He.
  destruct t; try discriminate Hr; destruct c; try discriminate Hi; cbn [tstep] in He; try discriminate He; subst; rewrite G2 in He; rewrite ?Z1, ?Z2, ?Z3, ?Z4 in He; discriminate He.
Qed.
(** The controller of C78_ex: schedules that run until nothing is left exist, and payloads are on the wire then. *)
Example C79_ex : exists ls y tr ls' y' tr', wf_config (E_config ctl1) /\ life ctl1 careful ls y tr Up /\ calls ls = [true] /\ no_errors ls = true /\
  length (transmitted tr) = 0%nat /\ quiets ctl1 y ls' y' tr' /\ (forall y2, ~ quiet1 ctl1 y' y2) /\ (0 < length (transmitted (tr ++ tr')))%nat.
Proof.
  destruct C78_ex as (ls & y & tr & Wf & L & C & N & _ & _ & X1 & X2 & _). 
  assert (Fp : E_ctl ctl1 = true -> (0 < E_maxFPS ctl1 <= 1000000000)%Z) by (intros _; split; [ reflexivity | discriminate ]).
  assert (V : live ctl1 y) by (constructor; [ exact Wf | exact Fp | left; reflexivity | eauto ]).
  destruct (settle_live _ _ V) as (y' & Q & R & V').
  assert (Q' : exists ls' tr', quiets ctl1 y ls' y' tr').
  { clear - Q. induction Q as [|y i t c y1 o y2 Ht Hi He Q (ls & tr & IH)]; [ exists [], []; constructor | ]. exists (LRun i c :: ls), (o ++ tr). econstructor; eassumption. }
  destruct Q' as (ls' & tr' & Q'). pose proof (at_rest_final _ _ V' R) as F. exists ls, y, tr, ls', y', tr'. repeat (split; [ assumption | ]).
  destruct (C79_finishes ctl1 [] (init ctl1) [] ls y tr Wf Fp (or_introl eq_refl) L) as [_ K]. destruct (K _ _ _ Q' F) as [_ K'].
  destruct (K' (steps_nil _ _) (Forall_nil_2 _) (life_runs _ _ _ _ _ _ L) C N) as (_ & _ & K3 & _). rewrite K3.
  unfold queued in *. rewrite collect_app, app_length. lia.
Qed.

Definition P_Settle_theorems := (C79_finishes, C79_ex).
Print Assumptions P_Settle_theorems.
