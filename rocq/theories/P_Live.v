(** C68-C70: what can still happen in a running and in a stopped node, in every run of the interleaving semantics of Sys.v. *)
From Verif Require Import WireSpec P_Config P_Controller SysFacts SysLaws SysRun SysOrder SysScript P_Node P_Life.
From stdpp Require Import base list gmap.
Open Scope N_scope.

(** * C68 *)
(** The steps goroutines and pending calls take by themselves: no ticker fires, no datagram arrives, no
    socket operation fails, no shutdown channel is looked at. *)
Definition internal (t : thread) (c : Sys.choice) : bool :=
  match t, c with
  | CP_gc _, CClock _ => true
  | CP_reply _ _, CTime _ => true
  | DL_lock _, COrder _ => true
  | _, CGo => true
  | _, _ => false
  end.
Inductive quietly (E : env) : sys -> sys -> Prop :=
| quietly_nil y : quietly E y y
| quietly_cons y i t c y1 o y2 : Y_threads y !! i = Some t -> internal t c = true -> exec E y (LRun i c) = RNext y1 o -> quietly E y1 y2 -> quietly E y y2.
Lemma quietly_app E y1 y2 y3 : quietly E y1 y2 -> quietly E y2 y3 -> quietly E y1 y3.
Proof. intros H K. induction H; [ exact K | econstructor; eauto ]. Qed.
(** Every goroutine waits for something to do and nothing is queued; no call is pending. *)
Definition resting (t : thread) : bool :=
  match t with TDone | PR_wait _ _ | SL_wait _ | RL_wait _ | RD_reading _ _ | CP_wait _ _ _ | DL_wait _ => true | _ => false end.
Definition drained (ch : chans) : Prop := Q_send ch = [] /\ Q_recv ch = [] /\ Q_poll ch = [] /\ Q_reply ch = [].
Definition at_rest (y : sys) : Prop :=
  Forall (fun t => resting t = true) (Y_threads y) /\ forall g ch, last_index (S_gens (Y_sh y)) = Some g -> S_gens (Y_sh y) !! g = Some ch -> drained ch.

(** The work left. *)
Definition weigh (t : thread) : nat :=
  match t with
  | PR_start => 2 | PR_loop _ => 1 | PR_wait _ _ => 0 | PR_send _ => 7 | PR_sending _ _ => 6
  | SL_loop => 1 | SL_wait _ => 0 | SL_check _ => 3 | SL_write _ => 2
  | RL_start => 3 | RL_loop => 1 | RL_wait _ => 0 | RL_parse _ => 13
  | RD_read _ => 1 | RD_reading _ _ => 0 | RD_got _ _ => 18 | RD_push _ _ => 17 | RD_pushing _ _ _ => 16
  | H_start _ => 11 | H_poll _ => 10 | H_polling _ _ => 9 | H_reply _ => 6 | H_replying _ _ => 5
  | CP_start => 18 | CP_send _ => 17 | CP_sending _ _ => 16 | CP_poll _ => 11 | CP_polling _ _ => 10 | CP_loop _ => 1 | CP_wait _ _ _ => 0
  | CP_gc _ => 2 | CP_reply _ _ => 3
  | DL_start => 2 | DL_loop => 1 | DL_wait _ => 0 | DL_lock _ => 0 | DL_push fs => 2 + 6 * length fs | DL_pushing _ fs _ => 7 + 6 * length fs
  | U_send _ _ => 1
  | _ => 0
  end%nat.
Definition weigh_ch (ch : chans) : nat := (4 * length (Q_send ch) + 14 * length (Q_recv ch) + 8 * length (Q_poll ch) + 4 * length (Q_reply ch))%nat.
Definition weight (y : sys) : nat := (sum_list_with weigh_ch (S_gens (Y_sh y)) + sum_list_with weigh (Y_threads y))%nat.
Definition locking (t : thread) : nat := match t with DL_lock _ => 1 | _ => 0 end%nat.
Lemma push_length {A} (q : list A) x qs : push q x = Some qs -> length qs = S (length q).
Proof. unfold push. destruct (_ <? _)%nat; [ | discriminate ]. intros H. injection H as <-. rewrite app_length. cbn. lia. Qed.
Lemma quiet_decreases E s t c s' t' sp o : is_api t = 0%nat -> locking t = 0%nat -> internal t c = true -> tstep E s t c = Next s' t' sp o ->
  (weigh t' + sum_list_with weigh sp + sum_list_with weigh_ch (S_gens s') < weigh t + sum_list_with weigh_ch (S_gens s))%nat /\
  locking t' = 0%nat /\ sum_list_with locking sp = 0%nat.
Proof.
  intros Ha Hl Hi H. tcases H; try discriminate Ha; try discriminate Hl; try discriminate Hi.
  all: split; [ | split; reflexivity ].
  all: cbn [S_gens upd_gen with_tables with_gens].
  all: unfold upd_gen; cbn [S_gens with_gens].
  all: try match goal with H : S_gens ?s !! ?g = Some ?ch |- context [<[?g := ?ch']> (S_gens ?s)] => pose proof (sum_insert weigh_ch (S_gens s) g ch ch' H) as Hw end.
  all: unfold weigh_ch in *; cbn [Q_send Q_recv Q_poll Q_reply set_send set_recv set_poll set_reply] in *.
  all: repeat match goal with H : push _ _ = Some _ |- _ => apply push_length in H; rewrite H in * end.
  all: repeat match goal with H : Q_send _ = _ |- _ => rewrite H in * | H : Q_recv _ = _ |- _ => rewrite H in * | H : Q_poll _ = _ |- _ => rewrite H in * | H : Q_reply _ = _ |- _ => rewrite H in * end.
  all: cbn [weigh sum_list_with length] in *; try lia.
Qed.

(** Some internal step is possible. *)
Definition can (E : env) (y : sys) : Prop := exists i t c y' o, Y_threads y !! i = Some t /\ internal t c = true /\ exec E y (LRun i c) = RNext y' o.
Lemma sum_pos {A} (w : A -> nat) l : (0 < sum_list_with w l)%nat -> exists i x, l !! i = Some x /\ (0 < w x)%nat.
Proof.
  induction l as [|x l IH]; cbn; [ lia | ]. intros H. destruct (decide (w x = 0%nat)) as [Hx|Hx].
  - destruct IH as (i & z & Hi & Hz); [ lia | ]. exists (S i), z. auto.
  - exists 0%nat, x. split; [ reflexivity | lia ].
Qed.
(** Running states. *)
Record live (E : env) (y : sys) : Prop := {
  lv_wf : wf_config (E_config E);
  lv_fps : E_ctl E = true -> (0 < E_maxFPS E <= 1000000000)%Z;
  lv_style : E_ctl E = true \/ C_Type (E_config E) <> StController;
  lv_life : exists ls tr, life E careful ls y tr Up;
}.
Section live.
Context (E : env) (y : sys) (V : live E y).
Lemma live_nocrash l : exec E y l <> RCrash.
Proof.
  destruct V as [Wf Fp St (ls & tr & L)]. intros H. destruct (proj1 (C61_calls_in_turn_partial _ _ _ _ _ (life_any _ _ _ _ _ _ L)) l H) as (i & t & _ & Ht & [(b & -> & Hs)|[-> K]]).
  - pose proof (qr_error _ (careful_reader _ _ _ _ _ L) _ _ Ht). congruence.
  - pose proof (runs_ok _ _ _ _ (life_runs _ _ _ _ _ _ L)) as OK. destruct (Forall_lookup_1 _ _ _ _ (sys_threads _ _ _ OK) Ht) as [_ [_ Rf]].
    pose proof (Fp (ok_cgens _ _ _ (sys_shared _ _ _ OK) Rf)). lia.
Qed.
Lemma live_can i t c : Y_threads y !! i = Some t -> internal t c = true -> tstep E (Y_sh y) t c <> Blocked -> can E y.
Proof.
  intros Ht Hi Hb. pose proof (live_nocrash (LRun i c)) as Hc. cbn [exec] in Hc. rewrite Ht in Hc.
  destruct (tstep E (Y_sh y) t c) as [| |s t' sp o] eqn:Es; try contradiction. exists i, t, c. cbn [exec]. rewrite Ht, Es. eauto.
Qed.
(** What C72 and the invariants say, for the current channels and socket. *)
Lemma live_facts : exists g ch k,
  last_index (S_gens (Y_sh y)) = Some g /\ S_gens (Y_sh y) !! g = Some ch /\ gen_closed (Y_sh y) g = false /\
  last_index (S_conns (Y_sh y)) = Some k /\ flag_at (S_conns (Y_sh y)) k = true /\ S_shutdown (Y_sh y) = false /\ lock_inv y /\
  sum_list_with is_pr (Y_threads y) = 1%nat /\ sum_list_with is_sl (Y_threads y) = 1%nat /\ sum_list_with is_rl (Y_threads y) = 1%nat /\
  (E_ctl E = true -> sum_list_with is_cp (Y_threads y) = 1%nat /\ sum_list_with is_dl (Y_threads y) = 1%nat /\ exists cg, last_index (S_cgens (Y_sh y)) = Some cg) /\
  (C_Type (E_config E) <> StController -> Q_reply ch = []) /\
  Forall (fun t => match t with
                   | PR_wait _ h | PR_sending _ h | SL_wait h | RL_wait h | RD_pushing _ _ h | H_polling _ h
                   | CP_sending _ h | CP_polling _ h | CP_wait _ h _ | DL_pushing _ _ h => h = g
                   | H_replying _ h => h = g /\ C_Type (E_config E) = StController
                   | _ => True
                   end) (Y_threads y) /\
  Forall (fun t => is_api t = 0%nat /\ forall b, t <> RD_got b None) (Y_threads y) /\
  Forall (fun t => (is_cp t + is_dl t = 1)%nat -> E_ctl E = true) (Y_threads y).
Proof.
  destruct V as [Wf Fp St (ls & tr & L)].
  destruct (C72_one_set_partial _ _ _ _ Wf L) as (P1 & P2 & P3 & P4 & P5 & P6 & (g & k & G1 & G2 & G3 & G4 & G5) & P8).
  pose proof (life_tidy _ _ _ _ _ (life_any _ _ _ _ _ _ L)) as T. pose proof (runs_ok _ _ _ _ (life_runs _ _ _ _ _ _ L)) as OK.
  pose proof (careful_full _ _ _ _ _ Wf L (or_intror eq_refl)) as F.
  assert (Z : sum_list_with w_opening (Y_threads y) = 0%nat) by (apply (sum_0_le _ w_starting _ (td_starting _ _ _ T)); intros []; cbn; lia).
  pose proof (fu_flag _ _ F Z) as Hs.
  assert (Hg : (g < length (S_gens (Y_sh y)))%nat) by (unfold last_index in G1; destruct (length (S_gens (Y_sh y))); [ discriminate | injection G1 as ->; lia ]).
  destruct (lookup_lt_is_Some_2 _ _ Hg) as [ch Hch]. exists g, ch, k. repeat (split; [ assumption | ]).
  split; [ exact (proj1 (frames_in_order _ _ _ _ (life_runs _ _ _ _ _ _ L))) | ]. repeat (split; [ assumption | ]).
  split. { intros K. destruct (P6 K) as [K1 K2]. split; [ exact K1 | ]. split; [ exact K2 | ]. destruct (td_up _ _ _ T eq_refl) as [_ U]. destruct (U K) as [(cg & U1 & _) _]. eauto. }
  split. { pose proof (Forall_lookup_1 _ _ _ _ (ok_gens _ _ _ (sys_shared _ _ _ OK)) Hch) as (_ & _ & _ & K & _). exact K. }
  split.
  { apply Forall_forall. intros t Ht. pose proof (proj1 (Forall_forall _ _) G5 t Ht) as K1. pose proof (proj1 (Forall_forall _ _) (sys_threads _ _ _ OK) t Ht) as [K2 _].
    destruct t; try exact I; try exact K1. split; [ exact K1 | exact (proj1 K2) ]. }
  split.
  { apply Forall_forall. intros t Ht. apply elem_of_list_lookup in Ht. destruct Ht as [i Ht]. split.
    - pose proof (sum_lookup w_starting _ _ _ Ht) as A1. pose proof (sum_lookup is_stopping _ _ _ Ht) as A2. rewrite (td_starting _ _ _ T) in A1. rewrite (td_stopping _ _ _ T) in A2. unfold is_api. lia.
    - intros b ->. pose proof (qr_error _ (careful_reader _ _ _ _ _ L) _ _ Ht). congruence. }
  apply Forall_forall. intros t Ht Hk. apply (ok_cgens _ _ _ (sys_shared _ _ _ OK)). pose proof (proj1 (Forall_forall _ _) (sys_threads _ _ _ OK) t Ht) as [_ K].
  destruct t; try discriminate Hk; cbn [t_refs] in K; unfold has in *; lia.
Qed.
End live.
Ltac cases := repeat match goal with |- context [match ?x with _ => _ end] => destruct x end; try discriminate.
Lemma push_room {A} (q : list A) x : q = [] -> push q x <> None.
Proof. intros ->. discriminate. Qed.
(** A running node is at rest or can go on by itself. *)
Lemma live_progress E y : live E y -> at_rest y \/ can E y.
Proof.
  intros V. destruct (live_facts E y V) as (g & ch & k & G1 & G2 & G3 & C1 & C2 & Sd & Lk & N1 & N2 & N3 & N4 & Hrep & Hpl & Hth & Hctl).
  pose proof (live_can E y V) as Can.
  assert (Gen : forall f, eval_gen (Y_sh y) f <> Blocked) by (intros f; unfold eval_gen; rewrite G1; discriminate).
  (* sendLoop takes what is queued *)
  assert (Dsend : Q_send ch <> [] -> can E y).
  { intros Hq. destruct (sum_pos is_sl (Y_threads y)) as (i & t & Ht & Hw); [ lia | ]. pose proof (Forall_lookup_1 _ _ _ _ Hpl Ht) as K.
    apply (Can i t CGo Ht); [ destruct t; reflexivity | ]. destruct t; cbn in Hw; try lia; cbn [tstep]; auto.
    - subst g0. rewrite G2. destruct (Q_send ch); [ contradiction | discriminate ].
    - rewrite Sd. discriminate.
    - rewrite C1, C2. discriminate. }
  assert (Or : forall i t c, Y_threads y !! i = Some t -> internal t c = true -> can E y \/ tstep E (Y_sh y) t c = Blocked).
  { intros i t c Ht Hi. destruct (tstep E (Y_sh y) t c) eqn:Es; [ right; reflexivity | | ]; left; apply (Can i t c Ht Hi); congruence. }
  assert (Psend : forall i t, Y_threads y !! i = Some t -> match t with PR_sending _ _ | CP_sending _ _ | DL_pushing _ _ _ => True | _ => False end -> can E y).
  { intros i t Ht Hk. destruct (Or i t CGo Ht) as [K|B]; [ destruct t; reflexivity | exact K | ]. pose proof (Forall_lookup_1 _ _ _ _ Hpl Ht) as K.
    destruct t; try contradiction; cbn beta iota in K; subst g0; cbn [tstep] in B; rewrite G2 in B; cbv zeta in B;
      (match type of B with context [push ?q ?x] => destruct (push q x) eqn:Hp; [ discriminate B | apply Dsend; intros Hq; exact (push_room _ x Hq Hp) ] end). }
  (* pollReplyLoop *)
  assert (Dpoll : Q_poll ch <> [] -> can E y).
  { intros Hq. destruct (sum_pos is_pr (Y_threads y)) as (i & t & Ht & Hw); [ lia | ]. pose proof (Forall_lookup_1 _ _ _ _ Hpl Ht) as K.
    destruct t; cbn in Hw; try lia; try (apply (Psend i _ Ht I)); apply (Can i _ CGo Ht eq_refl); cbn [tstep]; auto.
    all: try solve [ cases ].
    cbn beta iota in K. subst g0. rewrite G2. destruct (Q_poll ch); [ contradiction | discriminate ]. }
  assert (Ppoll : forall i t, Y_threads y !! i = Some t -> match t with H_polling _ _ | CP_polling _ _ => True | _ => False end -> can E y).
  { intros i t Ht Hk. destruct (Or i t CGo Ht) as [K|B]; [ destruct t; reflexivity | exact K | ]. pose proof (Forall_lookup_1 _ _ _ _ Hpl Ht) as K.
    destruct t; try contradiction; cbn beta iota in K; subst g0; cbn [tstep] in B; rewrite G2 in B; cbv zeta in B;
      (match type of B with context [push ?q ?x] => destruct (push q x) eqn:Hp; [ discriminate B | apply Dpoll; intros Hq; exact (push_room _ x Hq Hp) ] end). }
  (* the holder of the lock *)
  assert (Dlock : S_lock (Y_sh y) = true -> can E y).
  { intros Hq. unfold lock_inv in Lk. rewrite Hq in Lk. destruct (sum_pos delivering (Y_threads y)) as (i & t & Ht & Hw); [ lia | ].
    destruct t; cbn in Hw; try lia; [ | exact (Psend i _ Ht I) ]. apply (Can i _ CGo Ht eq_refl). cbn [tstep]. destruct fs; [ discriminate | auto ]. }
  assert (Plock : forall i t c, Y_threads y !! i = Some t -> internal t c = true -> (S_lock (Y_sh y) = false -> tstep E (Y_sh y) t c <> Blocked) -> can E y).
  { intros i t c Ht Hi Hn. destruct (S_lock (Y_sh y)) eqn:Hl; [ exact (Dlock eq_refl) | ]. exact (Can i t c Ht Hi (Hn eq_refl)). }
  (* pollLoop *)
  assert (Pcp : forall i t, Y_threads y !! i = Some t -> is_cp t = 1%nat -> resting t = false -> can E y).
  { intros i t Ht Hw Hn. pose proof (Forall_lookup_1 _ _ _ _ Hctl Ht) as Hc. cbn beta in Hc. assert (Ec : E_ctl E = true) by (apply Hc; destruct t; try discriminate Hw; reflexivity).
    destruct (N4 Ec) as (_ & _ & cg & Hcg).
    destruct t; try discriminate Hw; try discriminate Hn; try (apply (Psend i _ Ht I)); try (apply (Ppoll i _ Ht I)).
    - apply (Can i _ CGo Ht eq_refl). cbn [tstep]. cases.
    - apply (Can i _ CGo Ht eq_refl). cbn [tstep]. auto.
    - apply (Can i _ CGo Ht eq_refl). cbn [tstep]. auto.
    - apply (Can i _ CGo Ht eq_refl). cbn [tstep]. rewrite Hcg. auto.
    - apply (Plock i _ (CClock (fun _ => 0%Z)) Ht eq_refl). intros Hl. cbn [tstep]. rewrite Hl. destruct (step _ _) as [[? ?]|]; discriminate.
    - apply (Plock i _ (CTime 0%Z) Ht eq_refl). intros Hl. cbn [tstep]. rewrite Hl. destruct (step _ _) as [[? ?]|]; discriminate. }
  assert (Dreply : Q_reply ch <> [] -> can E y).
  { intros Hq. assert (Ec : E_ctl E = true). { destruct (lv_style _ _ V) as [K|K]; [ exact K | exfalso; exact (Hq (Hrep K)) ]. }
    destruct (N4 Ec) as (Ncp & _ & _). destruct (sum_pos is_cp (Y_threads y)) as (i & t & Ht & Hw); [ lia | ].
    assert (Hw1 : is_cp t = 1%nat) by (destruct t; cbn in *; lia). destruct (resting t) eqn:Hwt; [ | exact (Pcp i t Ht Hw1 Hwt) ].
    pose proof (Forall_lookup_1 _ _ _ _ Hpl Ht) as K. destruct t; try discriminate Hw1; try discriminate Hwt. cbn beta iota in K. subst g0.
    apply (Can i _ CGo Ht eq_refl). cbn [tstep]. rewrite G2. destruct (Q_reply ch); [ contradiction | discriminate ]. }
  (* recvLoop *)
  assert (Drecv : Q_recv ch <> [] -> can E y).
  { intros Hq. destruct (sum_pos is_rl (Y_threads y)) as (i & t & Ht & Hw); [ lia | ]. pose proof (Forall_lookup_1 _ _ _ _ Hpl Ht) as K.
    apply (Can i t CGo Ht); [ destruct t; reflexivity | ]. destruct t; cbn in Hw; try lia; cbn [tstep]; auto.
    all: try solve [ cases ].
    cbn beta iota in K. subst g0. rewrite G2. destruct (Q_recv ch); [ contradiction | discriminate ]. }
  (* any thread that is not resting *)
  assert (Any : forall i t, Y_threads y !! i = Some t -> resting t = false -> can E y).
  { intros i t Ht Hn. pose proof (Forall_lookup_1 _ _ _ _ Hth Ht) as [Ha Hr]. pose proof (Forall_lookup_1 _ _ _ _ Hpl Ht) as K. cbn beta iota in K.
    pose proof (Forall_lookup_1 _ _ _ _ Hctl Ht) as Hc. cbn beta in Hc.
    destruct t; try discriminate Hn; try discriminate Ha; try (apply (Psend i _ Ht I)); try (apply (Ppoll i _ Ht I)); try (exact (Pcp i _ Ht eq_refl eq_refl)).
    all: try (apply (Can i _ CGo Ht eq_refl); cbn [tstep]; solve [ auto | discriminate | cases; fail ]).
    - apply (Can i _ CGo Ht eq_refl). cbn [tstep]. rewrite C1, C2. discriminate.
    - (* RD_pushing *) destruct (Or i _ CGo Ht eq_refl) as [B|B]; [ exact B | ]. subst g0. cbn [tstep] in B. rewrite G2 in B.
      match type of B with context [push ?q ?x] => destruct (push q x) eqn:Hp; [ discriminate B | apply Drecv; intros Hq; exact (push_room _ x Hq Hp) ] end.
    - (* H_replying *) destruct (Or i _ CGo Ht eq_refl) as [B|B]; [ exact B | ]. destruct K as [-> _]. cbn [tstep] in B. rewrite G2 in B.
      match type of B with context [push ?q ?x] => destruct (push q x) eqn:Hp; [ discriminate B | apply Dreply; intros Hq; exact (push_room _ x Hq Hp) ] end.
    - (* DL_loop *) apply (Can i _ CGo Ht eq_refl). cbn [tstep]. destruct (N4 (Hc eq_refl)) as (_ & _ & cg & Hcg). rewrite Hcg. discriminate.
    - (* DL_lock *) apply (Plock i _ (COrder (map_to_list (K_OutputAddress (S_tables (Y_sh y))))) Ht eq_refl). intros Hl. cbn [tstep]. rewrite Hl.
      rewrite bool_decide_eq_true_2 by reflexivity. destruct (step _ _) as [[? ?]|]; discriminate.
    - (* DL_push *) apply (Can i _ CGo Ht eq_refl). cbn [tstep]. destruct fs; [ discriminate | auto ].
    - (* U_send *) apply (Plock i _ CGo Ht eq_refl). intros Hl. cbn [tstep]. rewrite Hl. destruct (step _ _) as [[? ?]|]; discriminate. }
  destruct (forallb resting (Y_threads y)) eqn:Hw.
  - destruct (Q_send ch) as [|x1 q1] eqn:E1; [ | right; apply Dsend; discriminate ]. destruct (Q_recv ch) as [|x2 q2] eqn:E2; [ | right; apply Drecv; discriminate ].
    destruct (Q_poll ch) as [|x3 q3] eqn:E3; [ | right; apply Dpoll; discriminate ]. destruct (Q_reply ch) as [|x4 q4] eqn:E4; [ | right; apply Dreply; discriminate ].
    left. split.
    + apply Forall_forall. intros t Ht. rewrite forallb_forall in Hw. apply Hw, elem_of_list_In, Ht.
    + intros g' ch' Hg Hch. rewrite G1 in Hg. injection Hg as <-. rewrite G2 in Hch. injection Hch as <-. repeat split; assumption.
  - right. assert (K : exists i t, Y_threads y !! i = Some t /\ resting t = false).
    { clear - Hw. induction (Y_threads y) as [|t l IH]; [ discriminate | ]. cbn in Hw. destruct (resting t) eqn:Ht; [ destruct (IH Hw) as (i & u & Hi & Hu); exists (S i), u; auto | exists 0%nat, t; auto ]. }
    destruct K as (i & t & Ht & Hn). exact (Any i t Ht Hn).
Qed.
Lemma live_next E y i t c y' o : live E y -> Y_threads y !! i = Some t -> internal t c = true -> exec E y (LRun i c) = RNext y' o -> live E y'.
Proof.
  intros V Ht Hi He. destruct (live_facts E y V) as (g & ch & k & _ & _ & _ & _ & _ & _ & _ & _ & _ & _ & _ & _ & _ & Hth & _).
  destruct V as [Wf Fp St (ls & tr & L)]. constructor; try assumption. pose proof (Forall_lookup_1 _ _ _ _ Hth Ht) as [Ha _].
  assert (Hl : label_ok (LRun i c)) by (destruct t, c; try discriminate Hi; exact I).
  assert (Hc : careful y (LRun i c)). { split; [ discriminate | ]. intros j b d K Hj. injection K as -> ->. rewrite Hj in Ht. injection Ht as <-. discriminate Hi. }
  pose proof (life_snoc E careful ls y tr Up (LRun i c) Up y' o L Hc Hl eq_refl He) as L'.
  assert (K : fold_left answer o Up = Up).
  { cbn [exec] in He. rewrite Ht in He. destruct (tstep E (Y_sh y) t c) as [| |s t' sp o1] eqn:Es; try discriminate He. injection He as <- <-.
    exact (proj1 (proj2 (proj2 (other_step _ _ _ _ _ _ _ _ Ha Es))) Up). }
  rewrite K in L'. eauto.
Qed.
Lemma settle E : forall n y, (weight y < n)%nat -> live E y -> sum_list_with locking (Y_threads y) = 0%nat -> exists y', quietly E y y' /\ at_rest y' /\ live E y'.
Proof.
  induction n as [|n IH]; intros y Hn V Hl; [ lia | ]. destruct (live_progress E y V) as [R|(i & t & c & y' & o & Ht & Hi & He)]; [ exists y; split; [ constructor | auto ] | ].
  pose proof (live_next _ _ _ _ _ _ _ V Ht Hi He) as V'. destruct (live_facts E y V) as (g & ch & k & _ & _ & _ & _ & _ & _ & _ & _ & _ & _ & _ & _ & _ & Hth & _).
  pose proof (Forall_lookup_1 _ _ _ _ Hth Ht) as [Ha _]. pose proof (sum_lookup locking _ _ _ Ht) as Hlt.
  pose proof He as He'. cbn [exec] in He'. rewrite Ht in He'. destruct (tstep E (Y_sh y) t c) as [| |s t' sp o1] eqn:Es; try discriminate He'. injection He' as <- <-.
  destruct (quiet_decreases E _ _ _ _ _ _ _ Ha ltac:(lia) Hi Es) as (W1 & W2 & W3).
  pose proof (sum_insert weigh _ i t t' Ht) as I1. pose proof (sum_insert locking _ i t t' Ht) as I2.
  destruct (IH _ (ltac:(unfold weight in *; cbn [Y_sh Y_threads]; rewrite sum_list_with_app; lia) : (weight (mkSys s (<[i:=t']> (Y_threads y) ++ sp)) < n)%nat) V') as (y2 & Q & R & V2).
  { cbn [Y_threads]. rewrite sum_list_with_app. lia. }
  exists y2. split; [ econstructor; eassumption | auto ].
Qed.
Lemma settle_live E y : live E y -> exists y', quietly E y y' /\ at_rest y' /\ live E y'.
Proof.
  intros V. destruct (live_facts E y V) as (g & ch & k & _ & _ & _ & _ & _ & _ & Lk & _ & _ & _ & N4 & _ & _ & Hth & Hctl).
  assert (K : sum_list_with locking (Y_threads y) = 0%nat \/ exists i now, Y_threads y !! i = Some (DL_lock now)).
  { clear. induction (Y_threads y) as [|t l IH]; [ left; reflexivity | ]. destruct t; try (destruct IH as [IH|(i & now & Hi)]; [ left; exact IH | right; exists (S i), now; exact Hi ]).
    right. exists 0%nat, now. reflexivity. }
  destruct K as [K|(i & now & Hi)]; [ destruct (settle E _ y (Nat.lt_succ_diag_r _) V K) as (y' & Q & R & V'); eauto | ].
  assert (Ec : E_ctl E = true) by (apply (Forall_lookup_1 _ _ _ _ Hctl Hi); reflexivity). destruct (N4 Ec) as (_ & N & _).
  assert (Hl : S_lock (Y_sh y) = false).
  { destruct (S_lock (Y_sh y)) eqn:Hl; [ | reflexivity ]. exfalso. unfold lock_inv in Lk. rewrite Hl in Lk. destruct (sum_pos delivering (Y_threads y)) as (j & t & Hj & Ht); [ lia | ].
    assert (Hn : i <> j) by (intros ->; rewrite Hi in Hj; injection Hj as <-; cbn in Ht; lia). pose proof (sum_two is_dl _ _ _ _ _ Hn Hi Hj) as K. destruct t; cbn in *; lia. }
  pose (c := COrder (map_to_list (K_OutputAddress (S_tables (Y_sh y))))).
  pose proof (live_nocrash E y V (LRun i c)) as Hc. destruct (exec E y (LRun i c)) as [| |y1 o] eqn:He; [ exfalso | contradiction | ].
  { cbn [exec] in He. rewrite Hi in He. unfold c in He. cbn [tstep] in He. rewrite Hl, bool_decide_eq_true_2 in He by reflexivity. destruct (step _ _) as [[? ?]|]; discriminate He. }
  pose proof (live_next E y i _ c y1 o V Hi eq_refl He) as V1. 
  assert (K : sum_list_with locking (Y_threads y1) = 0%nat).
  { cbn [exec] in He. rewrite Hi in He. destruct (tstep E (Y_sh y) (DL_lock now) c) as [| |s t' sp o1] eqn:Es; try discriminate He. injection He as <- <-. cbn [Y_threads].
    apply tstep_trans in Es. inversion Es; subst. rewrite app_nil_r. match goal with |- context [DL_push ?out] => pose proof (sum_insert locking _ i (DL_lock now) (DL_push out) Hi) as K end. cbn in K.
    assert (K2 : (sum_list_with locking (Y_threads y) <= sum_list_with is_dl (Y_threads y))%nat) by (apply sum_le; intros []; cbn; lia). lia. }
  destruct (settle E _ y1 (Nat.lt_succ_diag_r _) V1 K) as (y' & Q & R & V'). exists y'. split; [ | auto ]. econstructor; [ exact Hi | | exact He | exact Q ]. reflexivity.
Qed.
Lemma quietly_send E y y' : quietly E y y' -> forall j dmx a, Y_threads y !! j = Some (U_send dmx a) \/ Y_threads y !! j = Some TDone ->
  Y_threads y' !! j = Some (U_send dmx a) \/ Y_threads y' !! j = Some TDone.
Proof.
  induction 1 as [|y i t c y1 o y2 Ht Hi He Q IH]; intros j dmx a Hj; [ exact Hj | ]. apply IH. cbn [exec] in He. rewrite Ht in He.
  destruct (tstep E (Y_sh y) t c) as [| |s t' sp o1] eqn:Es; try discriminate He. injection He as <- <-. cbn [Y_threads].
  assert (Hlt : (j < length (<[i := t']> (Y_threads y)))%nat) by (rewrite insert_length; destruct Hj as [Hj|Hj]; apply lookup_lt_Some in Hj; exact Hj).
  rewrite !lookup_app_l by exact Hlt. destruct (Nat.eq_dec i j) as [->|Hn]; [ | rewrite list_lookup_insert_ne by exact Hn; exact Hj ].
  rewrite list_lookup_insert by (eapply lookup_lt_Some; exact Ht). destruct Hj as [Hj|Hj]; rewrite Hj in Ht; injection Ht as <-.
  - right. apply tstep_trans in Es. inversion Es; subst. reflexivity.
  - apply tstep_trans in Es. inversion Es.
Qed.
(** From every state of a running node, by steps the goroutines take by themselves, all queues can be drained and
    every pending SendDMXToAddress returns. *)
Theorem C68_settles_partial : forall E ls y tr, wf_config (E_config E) -> (E_ctl E = true -> (0 < E_maxFPS E <= 1000000000)%Z) ->
  (E_ctl E = true \/ C_Type (E_config E) <> StController) -> life E careful ls y tr Up ->
  exists y', quietly E y y' /\ at_rest y' /\ forall j dmx a, Y_threads y !! j = Some (U_send dmx a) -> Y_threads y' !! j = Some TDone.
Proof.
  intros E ls y tr Wf Fp St L. assert (V : live E y) by (constructor; eauto). destruct (settle_live E y V) as (y' & Q & R & _). exists y'. split; [ exact Q | ]. split; [ exact R | ].
  intros j dmx a Hj. destruct (quietly_send E y y' Q j dmx a (or_introl Hj)) as [K|K]; [ | exact K ]. pose proof (Forall_lookup_1 _ _ _ _ (proj1 R) K). discriminate.
Qed.

(** Who takes from a queue. *)
Lemma queues_step E s t c s' t' sp o g ch : tstep E s t c = Next s' t' sp o -> S_gens s !! g = Some ch ->
  exists ch', S_gens s' !! g = Some ch' /\ (t = SL_wait g \/ (length (Q_send ch) <= length (Q_send ch'))%nat) /\
    ((exists me, t = PR_wait me g) \/ (length (Q_poll ch) <= length (Q_poll ch'))%nat) /\
    ((exists pb cg, t = CP_wait pb g cg) \/ (length (Q_reply ch) <= length (Q_reply ch'))%nat).
Proof.
  intros H Hg.
  assert (K : (S_gens s' = S_gens s \/ S_gens s' = S_gens s ++ [new_chans]) \/ exists g1 ch1 ch2, S_gens s !! g1 = Some ch1 /\ S_gens s' = <[g1 := ch2]> (S_gens s) /\
     (t = SL_wait g1 \/ (length (Q_send ch1) <= length (Q_send ch2))%nat) /\ ((exists me, t = PR_wait me g1) \/ (length (Q_poll ch1) <= length (Q_poll ch2))%nat) /\
     ((exists pb cg, t = CP_wait pb g1 cg) \/ (length (Q_reply ch1) <= length (Q_reply ch2))%nat)).
  { clear Hg. tcases H; try (left; left; reflexivity); try (left; right; reflexivity).
    all: right; match goal with H : S_gens ?s !! ?g1 = Some ?ch1 |- context [upd_gen _ _ ?ch2] => exists g1, ch1, ch2; split; [ exact H | ]; split; [ reflexivity | ] end.
    all: cbn [Q_send Q_recv Q_poll Q_reply set_send set_recv set_poll set_reply set_closed].
    all: repeat match goal with H : push _ _ = Some _ |- _ => apply push_length in H; rewrite ?H end.
    all: repeat split; solve [ left; eauto | right; lia ]. }
  destruct K as [[-> | ->]|(g1 & ch1 & ch2 & K1 & -> & K2 & K3 & K4)].
  - exists ch. repeat split; auto.
  - exists ch. split; [ apply lookup_app_l_Some; exact Hg | repeat split; auto ].
  - destruct (Nat.eq_dec g1 g) as [->|Hn].
    + rewrite Hg in K1. injection K1 as <-. exists ch2. rewrite list_lookup_insert by (eapply lookup_lt_Some; exact Hg). auto.
    + exists ch. rewrite list_lookup_insert_ne by exact Hn. split; [ exact Hg | repeat split; auto ].
Qed.
Lemma push_full {A} (q : list A) x : (10 <= length q)%nat -> push q x = None.
Proof. intros H. unfold push. destruct (Nat.ltb_spec (length q) chan_cap) as [K|K]; [ unfold chan_cap in K; lia | reflexivity ]. Qed.
Lemma thread_kept {A} (l : list A) i j t t' sp : l !! j = Some t -> i <> j -> (<[i := t']> l ++ sp) !! j = Some t.
Proof. intros H Hn. apply lookup_app_l_Some. rewrite list_lookup_insert_ne by exact Hn. exact H. Qed.

(** A plain node of controller style queues the ArtPollReply packets it receives, but only a Controller takes them: after
    ten of them every further handler is stuck. *)
Definition bridge : env := NewNode [110] StController [10; 0; 0; 1] [].
Definition reply_stuck (j : nat) (q : ArtPollReplyPacket) (g : nat) (y : sys) : Prop :=
  Y_threads y !! j = Some (H_replying q g) /\ exists ch, S_gens (Y_sh y) !! g = Some ch /\ (10 <= length (Q_reply ch))%nat.
Lemma reply_stuck_forever E j q g y ls0 tr0 ls y' tr : E_ctl E = false -> runs E ls0 y tr0 -> reply_stuck j q g y -> steps E y ls y' tr -> reply_stuck j q g y'.
Proof.
  intros Ec R S H. revert S. induction H as [|y ls y1 tr1 l y2 o Hs IH Hl He]; intros S; [ exact S | ].
  destruct (IH R S) as [S1 (ch & S2 & S3)]. pose proof (runs_ok _ _ _ _ (steps_app _ _ _ _ _ _ _ _ R Hs)) as OK. apply exec_cases in He.
  destruct He as [(i & c & t & s & t' & sp & -> & Et & Es & ->)|[(t & -> & -> & Hk)|(mm & op & f & -> & -> & _)]].
  - assert (Hn : i <> j).
    { intros ->. rewrite S1 in Et. injection Et as <-. apply tstep_trans in Es. inversion Es; subst. rewrite S2 in *. match goal with H : Some _ = Some _ |- _ => injection H as <- end.
      match goal with H : push _ _ = Some _ |- _ => rewrite push_full in H by exact S3; discriminate H end. }
    split; [ exact (thread_kept _ _ _ _ _ _ S1 Hn) | ]. destruct (queues_step E _ _ _ _ _ _ _ g ch Es S2) as (ch' & K1 & _ & _ & K2). exists ch'. split; [ exact K1 | ].
    destruct K2 as [(pb & cg & ->)|K2]; [ | lia ]. exfalso. destruct (Forall_lookup_1 _ _ _ _ (sys_threads _ _ _ OK) Et) as [_ [_ Rf]].
    pose proof (ok_cgens _ _ _ (sys_shared _ _ _ OK)) as K. unfold has in K. rewrite K in Ec by lia. discriminate.
  - split; [ apply lookup_app_l_Some; exact S1 | eauto ].
  - split; [ exact S1 | eauto ].
Qed.
Definition eleven_replies : script := concat (map (fun i => arrive 4 host2 reply_bytes1 ++ parse 2 ++ go_n i 3) (seq 5 10)) ++ arrive 4 host2 reply_bytes1 ++ parse 2 ++ go_n 15 2.
Theorem C68_node_of_controller_style_refuted : exists ls y tr j q g, wf_config (E_config bridge) /\ life bridge careful ls y tr Up /\ calls ls = [true] /\ no_errors ls = true /\
  Y_threads y !! j = Some (H_replying q g) /\ forall ls' y' tr', steps bridge y ls' y' tr' -> Y_threads y' !! j = Some (H_replying q g).
Proof.
  destruct (tested_life_ok bridge carefulb careful (up_node ++ eleven_replies) (fun ls y tr ph => bool_decide (calls ls = [true]) && no_errors ls && match ph with Up => true | _ => false end &&
     match Y_threads y !! 15%nat with Some (H_replying _ g) => match S_gens (Y_sh y) !! g with Some ch => (10 <=? length (Q_reply ch))%nat | None => false end | _ => false end))
    as (ls & y & tr & ph & L & H); [ exact carefulb_ok | vm_compute; reflexivity | ].
  apply andb_prop in H. destruct H as [H H4]. apply andb_prop in H. destruct H as [H H3]. apply andb_prop in H. destruct H as [H1 H2]. apply bool_decide_eq_true in H1.
  destruct ph; try discriminate. destruct (Y_threads y !! 15%nat) as [t|] eqn:Ht; [ | discriminate ]. destruct t; try discriminate.
  destruct (S_gens (Y_sh y) !! g) as [ch|] eqn:Hg; [ | discriminate ]. apply Nat.leb_le in H4.
  exists ls, y, tr, 15%nat, q, g. split; [ repeat (split; [ repeat constructor | ]); repeat constructor | ]. repeat (split; [ assumption | ]). intros ls' y' tr' S.
  assert (S0 : reply_stuck 15 q g y) by (split; eauto). exact (proj1 (reply_stuck_forever bridge 15 q g y _ _ ls' y' tr' eq_refl (life_runs _ _ _ _ _ _ L) S0 S)).
Qed.

(** * C69 *)
(** The DMX loop is blocked on the full queue of channels [g], whose sendLoop has ended, and holds the lock. *)
Definition no_sender (g : nat) (y : sys) : Prop :=
  Forall (fun t => match t with SL_wait h => (g < h < length (S_gens (Y_sh y)))%nat | SL_loop | SL_check _ | SL_write _ | U_listen => (S g < length (S_gens (Y_sh y)))%nat | _ => True end) (Y_threads y).
Definition send_stuck (i : nat) (f : payload) (fs : list payload) (g : nat) (y : sys) : Prop :=
  Y_threads y !! i = Some (DL_pushing f fs g) /\ (exists ch, S_gens (Y_sh y) !! g = Some ch /\ (10 <= length (Q_send ch))%nat) /\ no_sender g y.
Lemma no_sender_step E s t c s' t' sp o g : tstep E s t c = Next s' t' sp o -> (g < length (S_gens s))%nat ->
  match t with SL_wait h => (g < h < length (S_gens s))%nat | SL_loop | SL_check _ | SL_write _ | U_listen => (S g < length (S_gens s))%nat | _ => True end ->
  Forall (fun t => match t with SL_wait h => (g < h < length (S_gens s'))%nat | SL_loop | SL_check _ | SL_write _ | U_listen => (S g < length (S_gens s'))%nat | _ => True end) (t' :: sp).
Proof.
  intros H Hg Ht. assert (L : (length (S_gens s) <= length (S_gens s'))%nat) by exact (proj1 (tstep_later E _ _ _ _ _ _ _ H)).
  tcases H; repeat (apply Forall_cons; split; [ try exact I; try lia | ]); try apply Forall_nil_2.
  all: try (cbn [S_gens with_conns] in *; lia).
  - match goal with H : last_index _ = Some _ |- _ => unfold last_index in H; destruct (length (S_gens s)) as [|n]; [ discriminate H | injection H as <- ]; lia end.
  - unfold with_shutdown, with_gens. cbn [S_gens]. rewrite ?app_length. cbn [length]. lia.
Qed.
Lemma forall_step {A} (P P' : A -> Prop) l i t' sp : (forall x, P x -> P' x) -> Forall P l -> Forall P' (t' :: sp) -> Forall P' (<[i := t']> l ++ sp).
Proof.
  intros HP H1 H2. apply Forall_cons in H2. destruct H2 as [H2 H3]. apply Forall_app. split; [ | exact H3 ]. apply Forall_insert; [ | exact H2 ]. eapply Forall_impl; eassumption.
Qed.
Lemma send_stuck_forever E i f fs g y ls0 tr0 ls y' tr : runs E ls0 y tr0 -> send_stuck i f fs g y -> steps E y ls y' tr -> send_stuck i f fs g y'.
Proof.
  intros R S H. revert S. induction H as [|y ls y1 tr1 l y2 o Hs IH Hl He]; intros S; [ exact S | ].
  destruct (IH R S) as (S1 & (ch & S2 & S3) & S4). pose proof (lookup_lt_Some _ _ _ S2) as Hg. apply exec_cases in He.
  destruct He as [(j & c & t & s & t' & sp & -> & Et & Es & ->)|[(t & -> & -> & Hk)|(mm & op & ff & -> & -> & _)]].
  - assert (Hn : j <> i).
    { intros ->. rewrite S1 in Et. injection Et as <-. apply tstep_trans in Es. inversion Es; subst. rewrite S2 in *. match goal with H : Some _ = Some _ |- _ => injection H as <- end.
      match goal with H : push _ _ = Some _ |- _ => rewrite push_full in H by exact S3; discriminate H end. }
    pose proof (Forall_lookup_1 _ _ _ _ S4 Et) as Ht. cbn beta in Ht.
    split; [ exact (thread_kept _ _ _ _ _ _ S1 Hn) | ]. split.
    + destruct (queues_step E _ _ _ _ _ _ _ g ch Es S2) as (ch' & K1 & K2 & _). exists ch'. split; [ exact K1 | ]. destruct K2 as [->|K2]; lia.
    + pose proof (proj1 (tstep_later E _ _ _ _ _ _ _ Es)) as Lt. unfold no_sender. cbn [Y_sh Y_threads]. eapply forall_step; [ | exact S4 | exact (no_sender_step _ _ _ _ _ _ _ _ g Es Hg Ht) ].
      intros []; auto; lia.
  - split; [ apply lookup_app_l_Some; exact S1 | ]. split; [ eauto | ]. apply Forall_app. split; [ exact S4 | ]. apply Forall_singleton.
    destruct Hk as [[-> ->]|[[-> ->]|(dmx & a & -> & _ & ->)]]; try destruct (E_ctl E); exact I.
  - split; [ exact S1 | ]. split; [ eauto | exact S4 ].
Qed.
Lemma call_stuck E i f fs g y ls0 tr0 j dmx a ls y' tr : runs E ls0 y tr0 -> send_stuck i f fs g y -> Y_threads y !! j = Some (U_send dmx a) -> steps E y ls y' tr ->
  Y_threads y' !! j = Some (U_send dmx a).
Proof.
  intros R S Hj H. revert S Hj. induction H as [|y ls y1 tr1 l y2 o Hs IH Hl He]; intros S Hj; [ exact Hj | ].
  specialize (IH R S Hj). pose proof (send_stuck_forever _ _ _ _ _ _ _ _ _ _ _ R S Hs) as (S1 & _ & _).
  pose proof (proj1 (frames_in_order _ _ _ _ (steps_app _ _ _ _ _ _ _ _ R Hs))) as Lk. unfold lock_inv in Lk. pose proof (sum_lookup delivering _ _ _ S1) as K. cbn in K.
  assert (Hl1 : S_lock (Y_sh y1) = true) by (destruct (S_lock (Y_sh y1)); [ reflexivity | lia ]). apply exec_cases in He.
  destruct He as [(k & c & t & s & t' & sp & -> & Et & Es & ->)|[(t & -> & -> & Hk)|(mm & op & ff & -> & -> & _)]].
  - apply thread_kept; [ exact IH | ]. intros ->. rewrite IH in Et. injection Et as <-. apply tstep_trans in Es. inversion Es; subst. congruence.
  - apply lookup_app_l_Some. exact IH.
  - exact IH.
Qed.
(** A controller has discovered a node with an output; sendLoop is slow; ten ticks of the DMX ticker; Stop. *)
Definition one_output : list N := pollreply_bytes (ArtPollReplyFromConfig (with_ports [] [mkPort (0, 1) 0x80 0])).
Definition discover : script := arrive 6 host2 one_output ++ parse 2 ++ go_n 7 3 ++ go_n 4 6 ++ act (LRun 4 (CTime 5%Z)).
Definition ten_ticks : script := concat (map (fun k => tick 5 (Z.of_nat k * 2000000000) ++ go_n 5 4) (seq 1 9)) ++ tick 5 20000000000 ++ go_n 5 1.
Definition blocked_stop : script := up_ctl ++ discover ++ ten_ticks ++ stop_ctl 8 ++ act (LRun 3 CDown) ++ act (LSend (zeros 512) (0, 1)).
Definition no_senderb (g : nat) (y : sys) : bool := forallb (fun t => match t with SL_wait _ | SL_loop | SL_check _ | SL_write _ | U_listen => false | _ => true end) (Y_threads y).
Lemma no_senderb_ok g y : no_senderb g y = true -> no_sender g y.
Proof. intros H. apply Forall_forall. intros t Ht. unfold no_senderb in H. rewrite forallb_forall in H. specialize (H t (proj1 (elem_of_list_In _ _) Ht)). destruct t; try exact I; discriminate. Qed.
(** The DMX loop was queueing frames when Stop ended the sendLoop: it holds the lock for ever, and a call of
    SendDMXToAddress never returns. *)
Theorem C69_send_after_stop_refuted : exists ls y tr j dmx a, wf_config (E_config ctl1) /\ life ctl1 careful ls y tr Idle /\ calls ls = [true; false] /\ no_errors ls = true /\ In OStop tr /\
  Y_threads y !! j = Some (U_send dmx a) /\ forall ls' y' tr', steps ctl1 y ls' y' tr' -> Y_threads y' !! j = Some (U_send dmx a).
Proof.
  destruct (tested_life_ok ctl1 carefulb careful blocked_stop (fun ls y tr ph => bool_decide (calls ls = [true; false]) && no_errors ls && match ph with Idle => true | _ => false end &&
     existsb (fun o => match o with OStop => true | _ => false end) tr && match Y_threads y !! 9%nat with Some (U_send _ _) => true | _ => false end &&
     match Y_threads y !! 5%nat with Some (DL_pushing _ _ g) => no_senderb g y && match S_gens (Y_sh y) !! g with Some ch => (10 <=? length (Q_send ch))%nat | None => false end | _ => false end))
    as (ls & y & tr & ph & L & H); [ exact carefulb_ok | vm_compute; reflexivity | ].
  apply andb_prop in H. destruct H as [H H6]. apply andb_prop in H. destruct H as [H H5]. apply andb_prop in H. destruct H as [H H4]. apply andb_prop in H. destruct H as [H H3]. apply andb_prop in H. destruct H as [H1 H2].
  apply bool_decide_eq_true in H1. destruct ph; try discriminate. apply existsb_exists in H4. destruct H4 as (u & Hu & H4). destruct u; try discriminate.
  destruct (Y_threads y !! 9%nat) as [t|] eqn:Ht; [ | discriminate ]. destruct t; try discriminate. destruct (Y_threads y !! 5%nat) as [t|] eqn:H5t; [ | discriminate ]. destruct t; try discriminate.
  apply andb_prop in H6. destruct H6 as [H6 H7]. destruct (S_gens (Y_sh y) !! g) as [ch|] eqn:Hg; [ | discriminate ]. apply Nat.leb_le in H7.
  exists ls, y, tr, 9%nat, dmx, a. split; [ repeat (split; [ repeat constructor | ]); repeat constructor | ]. repeat (split; [ assumption | ]). intros ls' y' tr' S.
  apply (call_stuck ctl1 5 f fs g y _ _ 9 dmx a ls' y' tr' (life_runs _ _ _ _ _ _ L)); [ | exact Ht | exact S ]. split; [ exact H5t | ]. split; [ eauto | exact (no_senderb_ok _ _ H6) ].
Qed.

(** What is true: the call returns, by steps the DMX loop takes by itself, whenever the channels have room for the frames
    this loop is still to queue; and if it is not queueing any, at once. *)
Definition stage_weight (t : thread) : nat := (2 * length (undelivered t) + match t with DL_pushing _ _ _ => 0 | _ => 1 end)%nat.
Lemma last_index_has {A} (l : list A) : has l -> exists g x, last_index l = Some g /\ l !! g = Some x.
Proof.
  unfold has, last_index. intros H. destruct (length l) as [|n] eqn:El; [ lia | ]. exists n. destruct (lookup_lt_is_Some_2 l n) as [x Hx]; [ lia | ]. eauto.
Qed.
Lemma push_ok {A} (q : list A) x : (length q < 10)%nat -> push q x = Some (q ++ [x]).
Proof. intros H. unfold push. destruct (Nat.ltb_spec (length q) chan_cap) as [K|K]; [ reflexivity | unfold chan_cap in K; lia ]. Qed.
Lemma deliver E : forall n y ls tr i t j dmx a, (stage_weight t <= n)%nat -> runs E ls y tr -> Y_threads y !! i = Some t -> delivering t = 1%nat -> Y_threads y !! j = Some (U_send dmx a) ->
  (forall g ch, S_gens (Y_sh y) !! g = Some ch -> (length (Q_send ch) + length (undelivered t) <= 10)%nat) ->
  exists ls' y' tr', quietly E y y' /\ runs E ls' y' tr' /\ S_lock (Y_sh y') = false /\ Y_threads y' !! j = Some (U_send dmx a).
Proof.
  induction n as [|n IH]; intros y ls tr i t j dmx a Hn R Hi Hd Hj Room.
  { destruct t; try discriminate Hd; unfold stage_weight in Hn; cbn in Hn; lia. }
  pose proof (runs_ok _ _ _ _ R) as OK. destruct (Forall_lookup_1 _ _ _ _ (sys_threads _ _ _ OK) Hi) as [_ Rf]. assert (Hne : i <> j) by (intros ->; rewrite Hj in Hi; injection Hi as <-; discriminate Hd).
  assert (Step : forall s' t', tstep E (Y_sh y) t CGo = Next s' t' [] [] \/ (exists f, tstep E (Y_sh y) t CGo = Next s' t' [] [OQueued (KDmx, f)]) ->
     exists o, exec E y (LRun i CGo) = RNext (mkSys s' (<[i := t']> (Y_threads y))) o /\ runs E (ls ++ [LRun i CGo]) (mkSys s' (<[i := t']> (Y_threads y))) (tr ++ o) /\
       <[i := t']> (Y_threads y) !! i = Some t' /\ <[i := t']> (Y_threads y) !! j = Some (U_send dmx a)).
  { intros s' t' Hs. assert (K : exists o, exec E y (LRun i CGo) = RNext (mkSys s' (<[i := t']> (Y_threads y))) o).
    { cbn [exec]. rewrite Hi. destruct Hs as [Hs|[f Hs]]; rewrite Hs, app_nil_r; eauto. }
    destruct K as [o K]. exists o. split; [ exact K | ]. split; [ econstructor; [ exact R | exact I | exact K ] | ].
    split; [ apply list_lookup_insert; eapply lookup_lt_Some; exact Hi | rewrite list_lookup_insert_ne by exact Hne; exact Hj ]. }
  destruct t; try discriminate Hd.
  - destruct Rf as [Rf _]. destruct fs as [|f fs].
    + destruct (Step _ _ (or_introl eq_refl)) as (o & S1 & S2 & S3 & S4). eexists _, _, _. split; [ econstructor; [ exact Hi | | exact S1 | constructor ]; reflexivity | ]. split; [ exact S2 | ]. split; [ reflexivity | exact S4 ].
    + destruct (last_index_has _ Rf) as (g & ch & G1 & G2).
      assert (Hs : tstep E (Y_sh y) (DL_push (f :: fs)) CGo = Next (Y_sh y) (DL_pushing f fs g) [] []) by (cbn [tstep]; unfold eval_gen; rewrite G1; reflexivity).
      destruct (Step _ _ (or_introl Hs)) as (o & S1 & S2 & S3 & S4).
      destruct (IH _ _ _ i _ j dmx a (ltac:(unfold stage_weight in *; cbn [undelivered length] in *; lia) : (stage_weight (DL_pushing f fs g) <= n)%nat) S2 S3 eq_refl S4 Room) as (ls' & y' & tr' & Q & Rest).
      exists ls', y', tr'. split; [ | exact Rest ]. econstructor; [ exact Hi | | exact S1 | exact Q ]. reflexivity.
  - destruct Rf as [Rf _]. destruct (lookup_lt_is_Some_2 _ _ Rf) as [ch Hg]. pose proof (Room g ch Hg) as Rm. cbn [undelivered length] in Rm.
    assert (Hs : tstep E (Y_sh y) (DL_pushing f fs g) CGo = Next (upd_gen (Y_sh y) g (set_send ch (Q_send ch ++ [(KDmx, f)]))) (DL_push fs) [] [OQueued (KDmx, f)]).
    { cbn [tstep]. rewrite Hg, push_ok by lia. reflexivity. }
    destruct (Step _ _ (or_intror (ex_intro _ f Hs))) as (o & S1 & S2 & S3 & S4).
    destruct (IH _ _ _ i _ j dmx a (ltac:(unfold stage_weight in *; cbn [undelivered length] in *; lia) : (stage_weight (DL_push fs) <= n)%nat) S2 S3 eq_refl S4) as (ls' & y' & tr' & Q & Rest).
    { cbn [Y_sh upd_gen with_gens S_gens undelivered]. intros g1 ch1 H1. destruct (Nat.eq_dec g g1) as [<-|Hg1].
      - rewrite list_lookup_insert in H1 by exact Rf. injection H1 as <-. cbn [Q_send set_send]. rewrite app_length. cbn [length]. lia.
      - rewrite list_lookup_insert_ne in H1 by exact Hg1. pose proof (Room g1 ch1 H1) as K. cbn [undelivered length] in K. lia. }
    exists ls', y', tr'. split; [ | exact Rest ]. econstructor; [ exact Hi | | exact S1 | exact Q ]. reflexivity.
Qed.
Lemma collect_lookup {A B} (f : A -> list B) l i x : l !! i = Some x -> (length (f x) <= length (collect f l))%nat.
Proof.
  revert i. induction l as [|z l IH]; intros [|i] H; try discriminate; unfold collect in *; cbn in *; rewrite app_length.
  - injection H as ->. lia.
  - specialize (IH i H). lia.
Qed.
Lemma quietly_steps E y y' : quietly E y y' -> exists ls tr, steps E y ls y' tr /\ calls ls = [] /\ no_errors ls = true.
Proof.
  induction 1 as [|y i t c y1 o y2 Ht Hi He Q (ls & tr & S & C & N)]; [ exists [], []; split; [ constructor | auto ] | ].
  exists (LRun i c :: ls), (o ++ tr). split; [ eapply steps_cons; [ | exact He | exact S ]; destruct t, c; try discriminate Hi; exact I | ].
  split; [ exact C | ]. unfold no_errors in *. cbn [forallb]. rewrite N. destruct t, c; try discriminate Hi; reflexivity.
Qed.
Theorem C69_returns_partial : forall E ls y tr j dmx a, runs E ls y tr -> Y_threads y !! j = Some (U_send dmx a) ->
  (forall g ch, S_gens (Y_sh y) !! g = Some ch -> (length (Q_send ch) + length (collect undelivered (Y_threads y)) <= 10)%nat) ->
  exists ls' y' tr', steps E y ls' y' tr' /\ calls ls' = [] /\ no_errors ls' = true /\ Y_threads y' !! j = Some TDone /\ In OSend tr'.
Proof.
  intros E ls y tr j dmx a R Hj Room.
  assert (K : exists ls1 y1 tr1, quietly E y y1 /\ runs E ls1 y1 tr1 /\ S_lock (Y_sh y1) = false /\ Y_threads y1 !! j = Some (U_send dmx a)).
  { destruct (S_lock (Y_sh y)) eqn:Hl; [ | exists ls, y, tr; split; [ constructor | auto ] ].
    pose proof (proj1 (frames_in_order _ _ _ _ R)) as Lk. unfold lock_inv in Lk. rewrite Hl in Lk. destruct (sum_pos delivering (Y_threads y)) as (i & t & Hi & Hw); [ lia | ].
    assert (Hd : delivering t = 1%nat) by (destruct t; cbn in *; lia).
    apply (deliver E _ y ls tr i t j dmx a (Nat.le_refl _) R Hi Hd Hj). intros g ch Hg. specialize (Room g ch Hg). pose proof (collect_lookup undelivered _ _ _ Hi). lia. }
  destruct K as (ls1 & y1 & tr1 & Q & R1 & Hl & Hj1). destruct (quietly_steps _ _ _ Q) as (ls2 & tr2 & S & C & N).
  pose proof (runs_ok _ _ _ _ R1) as OK. destruct (Forall_lookup_1 _ _ _ _ (sys_threads _ _ _ OK) Hj1) as [Td _].
  destruct (C40_events_never_panic _ _ _ (ESend dmx a) (ok_reach _ _ _ (sys_shared _ _ _ OK)) ltac:(exact Td)) as (k & out & Es).
  assert (He : exec E y1 (LRun j CGo) = RNext (mkSys (with_tables (Y_sh y1) k false) (<[j := TDone]> (Y_threads y1))) [OTable (S_tables (Y_sh y1)) (ESend dmx a) out; OSend]).
  { cbn [exec]. rewrite Hj1. cbn [tstep]. rewrite Hl, Es, app_nil_r. reflexivity. }
  eexists _, _, _. split; [ eapply (steps_snoc E y _ _ _ (LRun j CGo)); [ exact S | exact I | exact He ] | ]. unfold calls, no_errors in *. rewrite collect_app, forallb_app, C, N.
  split; [ reflexivity | ]. split; [ reflexivity | ]. split; [ apply list_lookup_insert; eapply lookup_lt_Some; exact Hj1 | ]. apply in_or_app. right. right. left. reflexivity.
Qed.
(** The DMX loop has one frame to queue when Stop ends the sendLoop. *)
Definition room_stop : script := up_ctl ++ discover ++ tick 5 2000000000 ++ stop_ctl 8 ++ act (LRun 3 CDown) ++ act (LSend (zeros 512) (0, 1)).
Example C69_ex : exists ls y tr j dmx a, life ctl1 careful ls y tr Idle /\ In OStop tr /\ Y_threads y !! j = Some (U_send dmx a) /\ S_lock (Y_sh y) = true /\ length (collect undelivered (Y_threads y)) = 1%nat /\
  (forall g ch, S_gens (Y_sh y) !! g = Some ch -> (length (Q_send ch) + length (collect undelivered (Y_threads y)) <= 10)%nat).
Proof.
  destruct (tested_life_ok ctl1 carefulb careful room_stop (fun ls y tr ph => match ph with Idle => true | _ => false end && existsb (fun o => match o with OStop => true | _ => false end) tr &&
     match Y_threads y !! 9%nat with Some (U_send _ _) => true | _ => false end && S_lock (Y_sh y) && bool_decide (length (collect undelivered (Y_threads y)) = 1%nat) &&
     forallb (fun ch => (length (Q_send ch) <=? 9)%nat) (S_gens (Y_sh y))))
    as (ls & y & tr & ph & L & H); [ exact carefulb_ok | vm_compute; reflexivity | ].
  apply andb_prop in H. destruct H as [H H6]. apply andb_prop in H. destruct H as [H H5]. apply andb_prop in H. destruct H as [H H4]. apply andb_prop in H. destruct H as [H H3]. apply andb_prop in H. destruct H as [H1 H2].
  destruct ph; try discriminate. apply existsb_exists in H2. destruct H2 as (u & Hu & H2). destruct u; try discriminate. destruct (Y_threads y !! 9%nat) as [t|] eqn:Ht; [ | discriminate ]. destruct t; try discriminate.
  apply bool_decide_eq_true in H5. exists ls, y, tr, 9%nat, dmx, a. repeat (split; [ assumption | ]). intros g ch Hg. rewrite H5. rewrite forallb_forall in H6.
  specialize (H6 ch (proj1 (elem_of_list_In _ _) (elem_of_list_lookup_2 _ _ _ Hg))). apply Nat.leb_le in H6. lia.
Qed.

(** * C70 *)
(** A handler is blocked on the full queue of polls of channels [g], whose pollReplyLoop has ended. *)
Definition no_replier (g : nat) (y : sys) : Prop :=
  Forall (fun t => match t with PR_wait _ h => (g < h < length (S_gens (Y_sh y)))%nat | PR_start | PR_loop _ | PR_send _ | PR_sending _ _ | U_listen => (S g < length (S_gens (Y_sh y)))%nat | _ => True end) (Y_threads y).
Definition poll_stuck (j : nat) (q : ArtPollPacket) (g : nat) (y : sys) : Prop :=
  Y_threads y !! j = Some (H_polling q g) /\ (exists ch, S_gens (Y_sh y) !! g = Some ch /\ (10 <= length (Q_poll ch))%nat) /\ no_replier g y.
Lemma no_replier_step E s t c s' t' sp o g : tstep E s t c = Next s' t' sp o -> (g < length (S_gens s))%nat ->
  match t with PR_wait _ h => (g < h < length (S_gens s))%nat | PR_start | PR_loop _ | PR_send _ | PR_sending _ _ | U_listen => (S g < length (S_gens s))%nat | _ => True end ->
  Forall (fun t => match t with PR_wait _ h => (g < h < length (S_gens s'))%nat | PR_start | PR_loop _ | PR_send _ | PR_sending _ _ | U_listen => (S g < length (S_gens s'))%nat | _ => True end) (t' :: sp).
Proof.
  intros H Hg Ht. assert (L : (length (S_gens s) <= length (S_gens s'))%nat) by exact (proj1 (tstep_later E _ _ _ _ _ _ _ H)).
  tcases H; repeat (apply Forall_cons; split; [ try exact I; try lia | ]); try apply Forall_nil_2.
  all: try (cbn [S_gens with_conns] in *; lia).
  - match goal with H : last_index _ = Some _ |- _ => unfold last_index in H; destruct (length (S_gens s)) as [|n]; [ discriminate H | injection H as <- ]; lia end.
  - unfold with_shutdown, with_gens. cbn [S_gens]. rewrite ?app_length. cbn [length]. lia.
Qed.
Lemma poll_stuck_forever E j q g y ls0 tr0 ls y' tr : runs E ls0 y tr0 -> poll_stuck j q g y -> steps E y ls y' tr -> poll_stuck j q g y'.
Proof.
  intros R S H. revert S. induction H as [|y ls y1 tr1 l y2 o Hs IH Hl He]; intros S; [ exact S | ].
  destruct (IH R S) as (S1 & (ch & S2 & S3) & S4). pose proof (lookup_lt_Some _ _ _ S2) as Hg. apply exec_cases in He.
  destruct He as [(i & c & t & s & t' & sp & -> & Et & Es & ->)|[(t & -> & -> & Hk)|(mm & op & ff & -> & -> & _)]].
  - assert (Hn : i <> j).
    { intros ->. rewrite S1 in Et. injection Et as <-. apply tstep_trans in Es. inversion Es; subst. rewrite S2 in *. match goal with H : Some _ = Some _ |- _ => injection H as <- end.
      match goal with H : push _ _ = Some _ |- _ => rewrite push_full in H by exact S3; discriminate H end. }
    pose proof (Forall_lookup_1 _ _ _ _ S4 Et) as Ht. cbn beta in Ht.
    split; [ exact (thread_kept _ _ _ _ _ _ S1 Hn) | ]. split.
    + destruct (queues_step E _ _ _ _ _ _ _ g ch Es S2) as (ch' & K1 & _ & K2 & _). exists ch'. split; [ exact K1 | ]. destruct K2 as [[me ->]|K2]; lia.
    + pose proof (proj1 (tstep_later E _ _ _ _ _ _ _ Es)) as Lt. unfold no_replier. cbn [Y_sh Y_threads]. eapply forall_step; [ | exact S4 | exact (no_replier_step _ _ _ _ _ _ _ _ g Es Hg Ht) ].
      intros []; auto; lia.
  - split; [ apply lookup_app_l_Some; exact S1 | ]. split; [ eauto | ]. apply Forall_app. split; [ exact S4 | ]. apply Forall_singleton.
    destruct Hk as [[-> ->]|[[-> ->]|(dmx & a & -> & _ & ->)]]; try destruct (E_ctl E); exact I.
  - split; [ exact S1 | ]. split; [ eauto | exact S4 ].
Qed.
(** Eleven polls arrive while pollReplyLoop is slow; Stop; pollReplyLoop ends: the last handler never ends. *)
Definition eleven_polls : script := concat (map (fun i => arrive 4 host2 poll_bytes ++ parse 2 ++ go_n i 3) (seq 5 10)) ++ arrive 4 host2 poll_bytes ++ parse 2 ++ go_n 15 2.
Definition no_replierb (y : sys) : bool := forallb (fun t => (is_pr t =? 0)%nat && match t with U_listen => false | _ => true end) (Y_threads y).
Lemma no_replierb_ok g y : no_replierb y = true -> no_replier g y.
Proof. intros H. apply Forall_forall. intros t Ht. unfold no_replierb in H. rewrite forallb_forall in H. specialize (H t (proj1 (elem_of_list_In _ _) Ht)). destruct t; try exact I; discriminate. Qed.
Theorem C70_handler_refuted : exists ls y tr j q g, wf_config (E_config node1) /\ life node1 careful ls y tr Idle /\ calls ls = [true; false] /\ no_errors ls = true /\ In OStop tr /\
  Y_threads y !! j = Some (H_polling q g) /\ forall ls' y' tr', steps node1 y ls' y' tr' -> Y_threads y' !! j = Some (H_polling q g).
Proof.
  destruct (tested_life_ok node1 carefulb careful (up_node ++ eleven_polls ++ stop_node 16 ++ act (LRun 1 CDown)) (fun ls y tr ph => bool_decide (calls ls = [true; false]) && no_errors ls && match ph with Idle => true | _ => false end &&
     existsb (fun o => match o with OStop => true | _ => false end) tr && no_replierb y &&
     match Y_threads y !! 15%nat with Some (H_polling _ g) => match S_gens (Y_sh y) !! g with Some ch => (10 <=? length (Q_poll ch))%nat | None => false end | _ => false end))
    as (ls & y & tr & ph & L & H); [ exact carefulb_ok | vm_compute; reflexivity | ].
  apply andb_prop in H. destruct H as [H H6]. apply andb_prop in H. destruct H as [H H5]. apply andb_prop in H. destruct H as [H H4]. apply andb_prop in H. destruct H as [H H3]. apply andb_prop in H. destruct H as [H1 H2].
  apply bool_decide_eq_true in H1. destruct ph; try discriminate. apply existsb_exists in H4. destruct H4 as (u & Hu & H4). destruct u; try discriminate.
  destruct (Y_threads y !! 15%nat) as [t|] eqn:Ht; [ | discriminate ]. destruct t; try discriminate. destruct (S_gens (Y_sh y) !! g) as [ch|] eqn:Hg; [ | discriminate ]. apply Nat.leb_le in H6.
  exists ls, y, tr, 15%nat, q, g. split; [ repeat (split; [ repeat constructor | ]); repeat constructor | ]. repeat (split; [ assumption | ]). intros ls' y' tr' S.
  assert (S0 : poll_stuck 15 q g y) by (split; [ exact Ht | split; [ eauto | exact (no_replierb_ok _ _ H5) ] ]).
  exact (proj1 (poll_stuck_forever node1 15 q g y _ _ ls' y' tr' (life_runs _ _ _ _ _ _ L) S0 S)).
Qed.

(** What is true: a running node can always be brought to rest, stopped and all its goroutines ended, so that it may be started again. *)
Lemma life_internal E ls y tr i t c y' o : live E y -> life E careful ls y tr Up -> Y_threads y !! i = Some t -> internal t c = true -> exec E y (LRun i c) = RNext y' o ->
  life E careful (ls ++ [LRun i c]) y' (tr ++ o) Up.
Proof.
  intros V L Ht Hi He. destruct (live_facts E y V) as (g & ch & k & _ & _ & _ & _ & _ & _ & _ & _ & _ & _ & _ & _ & _ & Hth & _).
  pose proof (Forall_lookup_1 _ _ _ _ Hth Ht) as [Ha _]. assert (Hl : label_ok (LRun i c)) by (destruct t, c; try discriminate Hi; exact I).
  assert (Hc : careful y (LRun i c)). { split; [ discriminate | ]. intros j b d K Hj. injection K as -> ->. rewrite Hj in Ht. injection Ht as <-. discriminate Hi. }
  pose proof (life_snoc E careful ls y tr Up (LRun i c) Up y' o L Hc Hl eq_refl He) as L'.
  assert (K : fold_left answer o Up = Up).
  { cbn [exec] in He. rewrite Ht in He. destruct (tstep E (Y_sh y) t c) as [| |s t' sp o1] eqn:Es; try discriminate He. injection He as <- <-.
    exact (proj1 (proj2 (proj2 (other_step _ _ _ _ _ _ _ _ Ha Es))) Up). }
  rewrite K in L'. exact L'.
Qed.
Lemma quietly_life E y y' : quietly E y y' -> live E y -> forall ls tr, life E careful ls y tr Up -> exists ls' tr', life E careful (ls ++ ls') y' (tr ++ tr') Up /\ calls ls' = [].
Proof.
  induction 1 as [|y i t c y1 o y2 Ht Hi He Q IH]; intros V ls tr L; [ exists [], []; rewrite !app_nil_r; auto | ].
  destruct (IH (live_next _ _ _ _ _ _ _ V Ht Hi He) _ _ (life_internal _ _ _ _ _ _ _ _ _ V L Ht Hi He)) as (ls' & tr' & L' & C).
  exists (LRun i c :: ls'), (o ++ tr'). rewrite <- !app_assoc in L'. split; [ exact L' | exact C ].
Qed.
(** The goroutines at rest look at the current channels and socket. *)
Definition parked (s : shared) (g k : nat) (t : thread) : Prop :=
  match t with
  | TDone => True
  | PR_wait _ h | SL_wait h | RL_wait h => h = g
  | RD_reading _ d => d = k
  | CP_wait _ _ h | DL_wait h => last_index (S_cgens s) = Some h
  | _ => False
  end.
Lemma live_parked E y g k : live E y -> Forall (fun t => resting t = true) (Y_threads y) -> last_index (S_gens (Y_sh y)) = Some g -> last_index (S_conns (Y_sh y)) = Some k ->
  Forall (parked (Y_sh y) g k) (Y_threads y).
Proof.
  intros [Wf Fp St (ls & tr & L)] Rest Hg Hk. pose proof (life_tidy _ _ _ _ _ (life_any _ _ _ _ _ _ L)) as T. pose proof (runs_ok _ _ _ _ (life_runs _ _ _ _ _ _ L)) as OK.
  destruct (careful_split _ _ _ _ _ L) as (ls0 & y0 & tr0 & ls1 & tr1 & R & Q & S & N & _ & _). pose proof (single_run _ _ _ _ _ Q S N) as G. destruct (sg_bounded _ _ _ _ _ G) as (B1 & B2 & B3).
  assert (C : forall h, (length (S_cgens (Y_sh y0)) < length (S_cgens (Y_sh y)))%nat -> h = length (S_cgens (Y_sh y0)) -> last_index (S_cgens (Y_sh y)) = Some h).
  { intros h K ->. destruct (last_index_has (S_cgens (Y_sh y))) as (h & x & K1 & _); [ unfold has; lia | ]. rewrite K1. f_equal. exact (last_unique _ _ _ B3 K K1). }
  apply Forall_forall. intros t Ht. pose proof (proj1 (Forall_forall _ _) Rest t Ht) as Hr. cbn beta in Hr. pose proof (proj1 (Forall_forall _ _) (sg_placed _ _ _ _ _ G) t Ht) as P.
  destruct t; try discriminate Hr; cbn [placed parked] in *; try exact I; try (rewrite (last_unique _ _ _ B1 (proj1 P) Hg); tauto); try (apply C; tauto).
  rewrite (last_unique _ _ _ B2 (proj1 (proj2 P)) Hk). tauto.
Qed.
(** Continuations of careful lives. *)
Definition extends (E : env) (y : sys) (ph : phase) (ls' : list label) (y' : sys) (ph' : phase) (tr' : list obs) : Prop :=
  forall ls tr, life E careful ls y tr ph -> life E careful (ls ++ ls') y' (tr ++ tr') ph'.
Lemma extends_nil E y ph : extends E y ph [] y ph [].
Proof. intros ls tr L. rewrite !app_nil_r. exact L. Qed.
Lemma extends_app E y ph ls1 y1 ph1 tr1 ls2 y2 ph2 tr2 : extends E y ph ls1 y1 ph1 tr1 -> extends E y1 ph1 ls2 y2 ph2 tr2 -> extends E y ph (ls1 ++ ls2) y2 ph2 (tr1 ++ tr2).
Proof. intros H1 H2 ls tr L. rewrite !app_assoc. apply H2, H1, L. Qed.
Lemma extends_one E y ph l ph1 y' o : careful y l -> label_ok l -> call ph l = Some ph1 -> exec E y l = RNext y' o -> extends E y ph [l] y' (fold_left answer o ph1) o.
Proof. intros H1 H2 H3 H4 ls tr L. econstructor; eassumption. Qed.
Lemma extends_last E s l t s' t' o ph : tstep E s t CGo = Next s' t' [] o -> extends E (mkSys s (l ++ [t])) ph [LRun (length l) CGo] (mkSys s' (l ++ [t'])) (fold_left answer o ph) o.
Proof.
  intros H. apply extends_one with (ph1 := ph); [ split; discriminate | exact I | reflexivity | ]. cbn [exec Y_threads Y_sh].
  rewrite list_lookup_middle by reflexivity. rewrite H, app_nil_r. rewrite insert_app_r_alt by reflexivity. rewrite Nat.sub_diag. reflexivity.
Qed.
Lemma lookup_last {A} (l : list A) g : last_index l = Some g -> (g < length l)%nat.
Proof. unfold last_index. destruct (length l); [ discriminate | ]. intros H. injection H as <-. lia. Qed.
Lemma flag_set l i b : (i < length l)%nat -> flag_at (<[i := b]> l) i = b.
Proof. intros H. unfold flag_at. rewrite list_lookup_insert by exact H. reflexivity. Qed.
Lemma extends_stop E s l g ch k cg : last_index (S_gens s) = Some g -> S_gens s !! g = Some ch -> Q_closed ch = false -> last_index (S_conns s) = Some k ->
  (E_ctl E = true -> last_index (S_cgens s) = Some cg /\ flag_at (S_cgens s) cg = false /\ S_tickers s = true) ->
  exists ls' s' tr', extends E (mkSys s l) Up ls' (mkSys s' (l ++ [TDone])) Idle tr' /\ calls ls' = [false] /\ In OStop tr' /\
    S_shutdown s' = true /\ gen_closed s' g = true /\ flag_at (S_conns s') k = false /\ length (S_cgens s') = length (S_cgens s) /\ (E_ctl E = true -> flag_at (S_cgens s') cg = true).
Proof.
  intros G1 G2 G3 K1 C. pose proof (lookup_last _ _ G1) as Lg. pose proof (lookup_last _ _ K1) as Lk.
  assert (P0 : extends E (mkSys s l) Up [LStop] (mkSys s (l ++ [if E_ctl E then U_stop_ctl else U_flag])) Stopping []).
  { apply (extends_one E (mkSys s l) Up LStop Stopping); [ split; discriminate | exact I | reflexivity | reflexivity ]. }
  pose (s1 := with_shutdown s true). pose (s2 := upd_gen s1 g (set_closed ch)). pose (s3 := with_conns s2 (<[k := false]> (S_conns s2))).
  assert (P1 : extends E (mkSys s (l ++ [U_flag])) Stopping [LRun (length l) CGo] (mkSys s1 (l ++ [U_close])) Stopping [ODown]) by (apply (extends_last E s l U_flag s1 U_close [ODown]); reflexivity).
  assert (P2 : extends E (mkSys s1 (l ++ [U_close])) Stopping [LRun (length l) CGo] (mkSys s2 (l ++ [U_closeconn])) Stopping []).
  { apply (extends_last E s1 l U_close s2 U_closeconn []). cbn [tstep s1 with_shutdown S_gens]. rewrite G1, G2, G3. reflexivity. }
  assert (F1 : S_shutdown s3 = true) by reflexivity.
  assert (F2 : gen_closed s3 g = true). { unfold gen_closed, s3, s2, upd_gen. cbn [with_conns with_gens S_gens]. rewrite list_lookup_insert by exact Lg. reflexivity. }
  assert (F3 : flag_at (S_conns s3) k = false) by (apply flag_set; exact Lk).
  assert (K2 : last_index (S_conns s2) = Some k) by exact K1.
  destruct (E_ctl E) eqn:Ec.
  - destruct (C eq_refl) as (C1 & C2 & C3). pose proof (lookup_last _ _ C1) as Lc. pose (s4 := with_cgens s3 (<[cg := true]> (S_cgens s3))).
    assert (P : extends E (mkSys s (l ++ [U_stop_ctl])) Stopping [LRun (length l) CGo] (mkSys s (l ++ [U_flag])) Stopping []).
    { apply (extends_last E s l U_stop_ctl s U_flag []). cbn [tstep]. rewrite C3. reflexivity. }
    assert (P3 : extends E (mkSys s2 (l ++ [U_closeconn])) Stopping [LRun (length l) CGo] (mkSys s3 (l ++ [U_waitclosed])) Stopping []).
    { apply (extends_last E s2 l U_closeconn s3 U_waitclosed []). cbn [tstep]. rewrite Ec, K2. reflexivity. }
    assert (P4 : extends E (mkSys s3 (l ++ [U_waitclosed])) Stopping [LRun (length l) CGo] (mkSys s3 (l ++ [U_closectl])) Stopping []).
    { apply (extends_last E s3 l U_waitclosed s3 U_closectl []). cbn [tstep]. assert (G4 : last_index (S_gens s3) = Some g) by (unfold last_index, s3, s2, upd_gen; cbn [S_gens with_conns with_gens]; rewrite insert_length; exact G1).
      rewrite G4, F2. reflexivity. }
    assert (P5 : extends E (mkSys s3 (l ++ [U_closectl])) Stopping [LRun (length l) CGo] (mkSys s4 (l ++ [TDone])) Idle [OStop]).
    { apply (extends_last E s3 l U_closectl s4 TDone [OStop]). cbn [tstep]. assert (C4 : S_cgens s3 = S_cgens s) by reflexivity. rewrite C4, C1, C2. reflexivity. }
    eexists _, s4, _. split; [ exact (extends_app _ _ _ _ _ _ _ _ _ _ _ P0 (extends_app _ _ _ _ _ _ _ _ _ _ _ P (extends_app _ _ _ _ _ _ _ _ _ _ _ P1 (extends_app _ _ _ _ _ _ _ _ _ _ _ P2
       (extends_app _ _ _ _ _ _ _ _ _ _ _ P3 (extends_app _ _ _ _ _ _ _ _ _ _ _ P4 P5)))))) | ].
    split; [ reflexivity | ]. split; [ right; left; reflexivity | ]. repeat (split; [ assumption | ]). split; [ exact (insert_length _ _ _) | ]. intros _. apply flag_set. exact Lc.
  - assert (P3 : extends E (mkSys s2 (l ++ [U_closeconn])) Stopping [LRun (length l) CGo] (mkSys s3 (l ++ [TDone])) Idle [OStop]).
    { apply (extends_last E s2 l U_closeconn s3 TDone [OStop]). cbn [tstep]. rewrite Ec, K2. reflexivity. }
    eexists _, s3, _. split; [ exact (extends_app _ _ _ _ _ _ _ _ _ _ _ P0 (extends_app _ _ _ _ _ _ _ _ _ _ _ P1 (extends_app _ _ _ _ _ _ _ _ _ _ _ P2 P3))) | ].
    split; [ reflexivity | ]. split; [ right; left; reflexivity | ]. repeat (split; [ assumption | ]). split; [ reflexivity | discriminate ].
Qed.
Lemma extends_mid E s pre t suf c s' t' o ph : careful (mkSys s (pre ++ t :: suf)) (LRun (length pre) c) -> label_ok (LRun (length pre) c) -> tstep E s t c = Next s' t' [] o ->
  extends E (mkSys s (pre ++ t :: suf)) ph [LRun (length pre) c] (mkSys s' (pre ++ t' :: suf)) (fold_left answer o ph) o.
Proof.
  intros Hc Hl H. apply extends_one with (ph1 := ph); [ exact Hc | exact Hl | reflexivity | ]. cbn [exec Y_threads Y_sh].
  rewrite list_lookup_middle by reflexivity. rewrite H, app_nil_r. rewrite insert_app_r_alt by reflexivity. rewrite Nat.sub_diag. reflexivity.
Qed.
Lemma extends_drain E s g k : S_shutdown s = true -> gen_closed s g = true -> flag_at (S_conns s) k = false -> (forall h, last_index (S_cgens s) = Some h -> flag_at (S_cgens s) h = true) ->
  forall suf pre, Forall (fun t => t = TDone) pre -> Forall (parked s g k) suf ->
  exists ls' l' tr', extends E (mkSys s (pre ++ suf)) Idle ls' (mkSys s l') Idle tr' /\ calls ls' = [] /\ Forall (fun t => t = TDone) l'.
Proof.
  intros F1 F2 F3 F4. induction suf as [|t suf IH]; intros pre Hp Hs.
  { exists [], pre, []. rewrite app_nil_r. split; [ apply extends_nil | auto ]. }
  apply Forall_cons in Hs. destruct Hs as [Ht Hs].
  assert (D : exists ls1 tr1, extends E (mkSys s (pre ++ t :: suf)) Idle ls1 (mkSys s (pre ++ TDone :: suf)) Idle tr1 /\ calls ls1 = []).
  { assert (D1 : tstep E s t CDown = Next s TDone [] [] -> exists ls1 tr1, extends E (mkSys s (pre ++ t :: suf)) Idle ls1 (mkSys s (pre ++ TDone :: suf)) Idle tr1 /\ calls ls1 = []).
    { intros H. eexists _, _. split; [ apply (extends_mid E s pre t suf CDown s TDone [] Idle); [ split; discriminate | exact I | exact H ] | reflexivity ]. }
    destruct t; try contradiction Ht.
    - exists [], []. split; [ apply extends_nil | reflexivity ].
    - apply D1. cbn [parked] in Ht. subst. cbn [tstep on_closed]. rewrite F2. reflexivity.
    - apply D1. cbn [parked] in Ht. subst. cbn [tstep on_closed]. rewrite F2. reflexivity.
    - apply D1. cbn [parked] in Ht. subst. cbn [tstep on_closed]. rewrite F2. reflexivity.
    - cbn [parked] in Ht. subst. eexists _, _. split.
      + eapply extends_app.
        * apply (extends_mid E s pre (RD_reading b k) suf CErr s (RD_got b None) [] Idle); [ split; [ discriminate | ] | exact I | reflexivity ].
          intros i b' d Ei Hd. injection Ei as <-. cbn [Y_threads] in Hd. rewrite list_lookup_middle in Hd by reflexivity. injection Hd as <- <-. exact F3.
        * apply (extends_mid E s pre (RD_got b None) suf CGo s TDone [] Idle); [ split; discriminate | exact I | ]. cbn [tstep]. rewrite F1. reflexivity.
      + reflexivity.
    - apply D1. cbn [parked] in Ht. cbn [tstep on_closed]. rewrite (F4 _ Ht). reflexivity.
    - apply D1. cbn [parked] in Ht. cbn [tstep on_closed]. rewrite (F4 _ Ht). reflexivity. }
  destruct D as (ls1 & tr1 & D1 & D2). destruct (IH (pre ++ [TDone])) as (ls2 & l' & tr2 & D3 & D4 & D5); [ apply Forall_app; split; [ exact Hp | apply Forall_singleton; reflexivity ] | exact Hs | ].
  rewrite <- app_assoc in D3. cbn [app] in D3. eexists _, l', _. split; [ exact (extends_app _ _ _ _ _ _ _ _ _ _ _ D1 D3) | ]. unfold calls in *. rewrite collect_app, D2, D4. auto.
Qed.
Theorem C70_can_stop_partial : forall E ls y tr, wf_config (E_config E) -> (E_ctl E = true -> (0 < E_maxFPS E <= 1000000000)%Z) ->
  (E_ctl E = true \/ C_Type (E_config E) <> StController) -> life E careful ls y tr Up ->
  exists ls' y' tr', life E careful (ls ++ ls') y' (tr ++ tr') Idle /\ calls ls' = [false] /\ In OStop tr' /\ quiescent y'.
Proof.
  intros E ls y tr Wf Fp St L. assert (V : live E y) by (constructor; eauto). destruct (settle_live E y V) as (y1 & Q & R & V1).
  destruct (quietly_life E y y1 Q V ls tr L) as (ls1 & tr1 & L1 & C1).
  destruct (live_facts E y1 V1) as (g & ch & k & G1 & G2 & G3 & K1 & _). pose proof (life_tidy _ _ _ _ _ (life_any _ _ _ _ _ _ L1)) as T.
  pose proof (live_parked E y1 g k V1 (proj1 R) G1 K1) as Pk. destruct y1 as [s l]. cbn [Y_sh Y_threads] in *.
  assert (G4 : Q_closed ch = false) by (unfold gen_closed in G3; rewrite G2 in G3; exact G3).
  assert (Cg : exists cg, E_ctl E = true -> last_index (S_cgens s) = Some cg /\ flag_at (S_cgens s) cg = false /\ S_tickers s = true).
  { destruct (td_up _ _ _ T eq_refl) as [_ U]. cbn [Y_sh] in U. destruct (E_ctl E); [ | exists 0%nat; discriminate ]. destruct (U eq_refl) as [(cg & U1 & U2) U3]. eauto. }
  destruct Cg as [cg Cg]. destruct (extends_stop E s l g ch k cg G1 G2 G4 K1 Cg) as (ls2 & s' & tr2 & X & C2 & O2 & F1 & F2 & F3 & F4 & F5).
  pose proof (X _ _ L1) as L2. pose proof (runs_ok _ _ _ _ (life_runs _ _ _ _ _ _ L2)) as OK.
  assert (Li : last_index (S_cgens s') = last_index (S_cgens s)) by (unfold last_index; rewrite F4; reflexivity).
  destruct (extends_drain E s' g k F1 F2 F3) with (suf := l ++ [TDone]) (pre := @nil thread) as (ls3 & l' & tr3 & X3 & C3 & D3).
  { intros h Hh. assert (Ec : E_ctl E = true) by (apply (ok_cgens _ _ _ (sys_shared _ _ _ OK)); cbn [Y_sh]; unfold has; pose proof (lookup_last _ _ Hh); lia).
    rewrite Li in Hh. rewrite (proj1 (Cg Ec)) in Hh. injection Hh as <-. exact (F5 Ec). }
  { apply Forall_nil_2. }
  { apply Forall_app. split; [ | apply Forall_singleton; exact I ]. eapply Forall_impl; [ exact Pk | ]. intros t Ht. destruct t; try exact Ht; cbn [parked] in *; rewrite Li; exact Ht. }
  pose proof (X3 _ _ L2) as L3. exists (ls1 ++ ls2 ++ ls3), (mkSys s' l'), (tr1 ++ tr2 ++ tr3). rewrite !app_assoc in *. split; [ exact L3 | ].
  unfold calls in *. rewrite !collect_app, C1, C2, C3. split; [ reflexivity | ]. split; [ | exact D3 ]. apply in_or_app. left. apply in_or_app. right. exact O2.
Qed.
(** A controller that has discovered a node, with frames being queued and a call pending. *)
Definition busy : script := up_ctl ++ discover ++ tick 5 2000000000 ++ go_n 5 1 ++ arrive 6 host2 poll_bytes ++ act (LSend (zeros 512) (0, 1)).
Example C68_C70_ex : exists ls y tr j dmx a, wf_config (E_config ctl1) /\ (0 < E_maxFPS ctl1 <= 1000000000)%Z /\ life ctl1 careful ls y tr Up /\
  Y_threads y !! j = Some (U_send dmx a) /\ S_lock (Y_sh y) = true /\ ~ at_rest y.
Proof.
  destruct (tested_life_ok ctl1 carefulb careful busy (fun ls y tr ph => match ph with Up => true | _ => false end &&
     match Y_threads y !! 8%nat with Some (U_send _ _) => true | _ => false end && S_lock (Y_sh y)))
    as (ls & y & tr & ph & L & H); [ exact carefulb_ok | vm_compute; reflexivity | ].
  apply andb_prop in H. destruct H as [H H3]. apply andb_prop in H. destruct H as [H1 H2]. destruct ph; try discriminate.
  destruct (Y_threads y !! 8%nat) as [t|] eqn:Ht; [ | discriminate ]. destruct t; try discriminate.
  exists ls, y, tr, 8%nat, dmx, a. split; [ repeat (split; [ repeat constructor | ]); repeat constructor | ]. split; [ split; [ reflexivity | discriminate ] | ]. repeat (split; [ assumption | ]).
  intros [K _]. pose proof (Forall_lookup_1 _ _ _ _ K Ht). discriminate.
Qed.

Definition P_Live_theorems :=
  (C68_settles_partial, C68_node_of_controller_style_refuted, C69_send_after_stop_refuted, C69_returns_partial, C70_handler_refuted, C70_can_stop_partial).
Print Assumptions P_Live_theorems.
