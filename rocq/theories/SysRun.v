(** Runs in which the node is started at most once from a quiescent state (no goroutine left): at most
    one goroutine of each kind, one set of channels, FIFO order. *)
From Verif Require Import SysFacts SysLaws.
From stdpp Require Import base list gmap.
Open Scope N_scope.

(** * Weights that never grow except by calls *)
Record descends (E : env) (m : shared -> nat) (w : thread -> nat) (d : obs -> nat) (lw : label -> nat) : Prop := {
  desc_step : forall s t c s' t' sp o, tstep E s t c = Next s' t' sp o ->
    (m s' + w t' + sum_list_with w sp + sum_list_with d o <= m s + w t)%nat;
  desc_start : (w (if E_ctl E then U_start_ctl else U_start_node) <= lw LStart)%nat;
  desc_stop : (w (if E_ctl E then U_stop_ctl else U_flag) <= lw LStop)%nat;
  desc_send : forall dmx a, w (U_send dmx a) = 0%nat;
  desc_reg : forall s cb, m (with_callbacks s cb) = m s;
  desc_reg_obs : forall op f, d (ORegister op f) = 0%nat;
}.
Lemma descends_steps E m w d lw y ls y' tr : descends E m w d lw -> steps E y ls y' tr ->
  (m (Y_sh y') + sum_list_with w (Y_threads y') + sum_list_with d tr <=
   m (Y_sh y) + sum_list_with w (Y_threads y) + sum_list_with lw ls)%nat.
Proof.
  intros D H. induction H as [|y ls y1 tr1 l y2 o Hs IH Hl He]; [ simpl; lia | ].
  rewrite !sum_list_with_app. simpl. apply exec_cases in He.
  destruct He as [(i & c & t & s & t' & sp & -> & Et & Es & ->)|[(t & -> & -> & Hk)|(mm & op & f & -> & -> & _ & _ & ->)]]; cbn [Y_sh Y_threads].
  - pose proof (desc_step _ _ _ _ _ D _ _ _ _ _ _ _ Es). pose proof (sum_insert w _ i t t' Et). rewrite sum_list_with_app. lia.
  - rewrite sum_list_with_app. simpl. destruct Hk as [[-> ->]|[[-> ->]|(dmx & a & -> & _ & ->)]].
    + pose proof (desc_start _ _ _ _ _ D). lia.
    + pose proof (desc_stop _ _ _ _ _ D). lia.
    + rewrite (desc_send _ _ _ _ _ D). lia.
  - rewrite (desc_reg _ _ _ _ _ D). simpl. rewrite (desc_reg_obs _ _ _ _ _ D). lia.
Qed.
Definition is_start (l : label) : nat := match l with LStart => 1 | _ => 0 end.
Definition is_stop (l : label) : nat := match l with LStop => 1 | _ => 0 end.
(** The number of Start calls. *)
Definition starts (ls : list label) : nat := sum_list_with is_start ls.
Definition stops (ls : list label) : nat := sum_list_with is_stop ls.
(** No goroutine and no call is active. *)
Definition quiescent (y : sys) : Prop := Forall (fun t => t = TDone) (Y_threads y).
Lemma quiescent_sum (w : thread -> nat) y : w TDone = 0%nat -> quiescent y -> sum_list_with w (Y_threads y) = 0%nat.
Proof. intros Hw H. apply sum_0. eapply Forall_impl; [ exact H | ]. intros t ->. exact Hw. Qed.

Definition no_obs : obs -> nat := fun _ => 0%nat.
Ltac desc_tac :=
  constructor; [ intros s t c s' t' sp o H; tcases H; cbn -[N.add] in *; rewrite ?app_length, ?insert_length; cbn [length]; try lia
               | intros; try destruct (E_ctl _); cbn; try reflexivity; lia .. ].

(** Start has not yet made the channels / opened the socket. *)
Definition w_pre (t : thread) : nat := match t with U_start_ctl | U_start_node => 1 | _ => 0 end.
Definition w_opening (t : thread) : nat := match t with U_start_ctl | U_start_node | U_listen => 1 | _ => 0 end.
Definition w_starting (t : thread) : nat := match t with U_start_ctl | U_start_node | U_listen | U_start_loops => 1 | _ => 0 end.
Definition w_ctl (t : thread) : nat := match t with U_start_ctl => 1 | _ => 0 end.
(** The goroutines by kind. *)
Definition is_pr (t : thread) : nat := match t with PR_start | PR_loop _ | PR_wait _ _ | PR_send _ | PR_sending _ _ => 1 | _ => 0 end.
Definition is_sl (t : thread) : nat := match t with SL_loop | SL_wait _ | SL_check _ | SL_write _ => 1 | _ => 0 end.
Definition is_rl (t : thread) : nat := match t with RL_start | RL_loop | RL_wait _ | RL_parse _ => 1 | _ => 0 end.
Definition is_rd (t : thread) : nat := match t with RD_read _ | RD_reading _ _ | RD_got _ _ | RD_push _ _ | RD_pushing _ _ _ => 1 | _ => 0 end.
Definition is_cp (t : thread) : nat :=
  match t with CP_start | CP_send _ | CP_sending _ _ | CP_poll _ | CP_polling _ _ | CP_loop _ | CP_wait _ _ _ | CP_gc _ | CP_reply _ _ => 1 | _ => 0 end.
Definition is_dl (t : thread) : nat :=
  match t with DL_start | DL_loop | DL_wait _ | DL_lock _ | DL_push _ | DL_pushing _ _ _ => 1 | _ => 0 end.
Definition is_stopping (t : thread) : nat := match t with U_stop_ctl | U_flag | U_close | U_closeconn | U_waitclosed | U_closectl => 1 | _ => 0 end.
Definition w_reader (t : thread) : nat := (w_opening t + (match t with RL_start => 1 | _ => 0 end) + is_rd t)%nat.
Definition discards (o : obs) : nat := match o with ODiscard _ _ => 1 | _ => 0 end.

Lemma gens_descends E : descends E (fun s => length (S_gens s)) w_pre no_obs is_start.
Proof. desc_tac. Qed.
Lemma conns_descends E : descends E (fun s => length (S_conns s)) w_opening no_obs is_start.
Proof. desc_tac. Qed.
Lemma cgens_descends E : descends E (fun s => length (S_cgens s)) w_ctl no_obs is_start.
Proof. desc_tac. Qed.
Lemma pr_descends E : descends E (fun _ => 0%nat) (fun t => w_opening t + is_pr t)%nat no_obs is_start.
Proof. desc_tac. Qed.
Lemma sl_descends E : descends E (fun _ => 0%nat) (fun t => w_opening t + is_sl t)%nat no_obs is_start.
Proof. desc_tac. Qed.
Lemma rl_descends E : descends E (fun _ => 0%nat) (fun t => w_opening t + is_rl t)%nat no_obs is_start.
Proof. desc_tac. Qed.
Lemma rd_descends E : descends E (fun _ => 0%nat) w_reader discards is_start.
Proof. desc_tac. Qed.
Lemma cp_descends E : descends E (fun _ => 0%nat) (fun t => w_starting t + is_cp t)%nat no_obs is_start.
Proof. desc_tac. Qed.
Lemma dl_descends E : descends E (fun _ => 0%nat) (fun t => w_starting t + is_dl t)%nat no_obs is_start.
Proof. desc_tac. Qed.
Lemma stop_descends E : descends E (fun _ => 0%nat) is_stopping no_obs is_stop.
Proof. desc_tac. Qed.

(** * All goroutines work on the channels and the socket of the one Start *)
Section single.
Context (E : env) (g0 c0 k0 : nat).
Definition placed (s : shared) (t : thread) : Prop :=
  let gen := (g0 < length (S_gens s))%nat in
  let con := (c0 < length (S_conns s))%nat in
  let ctl := (k0 < length (S_cgens s))%nat in
  match t with
  | TDone | U_send _ _ | U_start_ctl | U_stop_ctl | U_flag | U_close | U_closeconn | U_waitclosed | U_closectl => True
  | U_start_node => E_ctl E = true -> ctl
  | U_listen => gen /\ (E_ctl E = true -> ctl)
  | U_start_loops => gen /\ con /\ ctl
  | PR_start | PR_loop _ | PR_send _ | H_start _ | H_poll _ | H_reply _ => gen /\ con
  | PR_wait _ g | PR_sending _ g | H_polling _ g | H_replying _ g => gen /\ con /\ g = g0
  | SL_loop | SL_check _ | SL_write _ | RL_start | RL_loop | RL_parse _ | RD_read _ | RD_got _ _ | RD_push _ _ => gen /\ con
  | SL_wait g | RL_wait g | RD_pushing _ _ g => gen /\ con /\ g = g0
  | RD_reading _ c => gen /\ con /\ c = c0
  | CP_start | CP_send _ | CP_poll _ | CP_loop _ | CP_gc _ | CP_reply _ _ => gen /\ con /\ ctl
  | CP_sending _ g | CP_polling _ g => gen /\ con /\ ctl /\ g = g0
  | CP_wait _ g cg => gen /\ con /\ ctl /\ g = g0 /\ cg = k0
  | DL_start | DL_loop | DL_lock _ | DL_push _ => gen /\ con /\ ctl
  | DL_wait cg => gen /\ con /\ ctl /\ cg = k0
  | DL_pushing _ _ g => gen /\ con /\ ctl /\ g = g0
  end.
(** At most one Start worth of channels, sockets and controller shutdown channels is new. *)
Definition bounded (s : shared) : Prop :=
  (g0 <= length (S_gens s) <= S g0 /\ c0 <= length (S_conns s) <= S c0 /\ k0 <= length (S_cgens s) <= S k0)%nat.
Lemma placed_later s s' t : later s s' -> placed s t -> placed s' t.
Proof. intros (H1 & H2 & H3). destruct t; cbn [placed]; intuition lia. Qed.
Lemma tstep_later s t c s' t' sp o : tstep E s t c = Next s' t' sp o -> later s s'.
Proof.
  intros H. tcases H; unfold later; cbn [S_gens S_conns S_cgens with_shutdown with_err with_gens with_conns with_tables with_cgens with_tickers upd_gen];
    unfold upd_gen; cbn [S_gens S_conns S_cgens with_gens]; rewrite ?app_length, ?insert_length; lia.
Qed.
Lemma tstep_placed s t c s' t' sp o : bounded s -> bounded s' -> placed s t -> tstep E s t c = Next s' t' sp o ->
  placed s' t' /\ Forall (placed s') sp.
Proof.
  intros B B' H Hs. unfold bounded in *.
  tcases Hs; qfacts; cbn [placed] in *;
    cbn [S_gens S_conns S_cgens with_shutdown with_err with_gens with_conns with_tables with_cgens with_tickers upd_gen] in *;
    unfold upd_gen in *; cbn [S_gens S_conns S_cgens with_gens] in *; rewrite ?app_length, ?insert_length in *; cbn [length] in *.
  all: split; [ try (intuition lia) | ].
  all: repeat (apply Forall_cons; split); try apply Forall_nil; try exact I.
  all: cbn [placed]; cbn [S_gens S_conns S_cgens with_conns with_tickers]; rewrite ?app_length; cbn [length]; try (intuition lia).
Qed.
End single.

(** The invariant of a run from [y0] with [n] Start calls so far. *)
Record single (E : env) (y0 : sys) (n : nat) (y : sys) (tr : list obs) : Prop := {
  sg_bounded : bounded (length (S_gens (Y_sh y0))) (length (S_conns (Y_sh y0))) (length (S_cgens (Y_sh y0))) (Y_sh y);
  sg_placed : Forall (placed E (length (S_gens (Y_sh y0))) (length (S_conns (Y_sh y0))) (length (S_cgens (Y_sh y0))) (Y_sh y)) (Y_threads y);
  sg_pr : (sum_list_with is_pr (Y_threads y) <= n)%nat;
  sg_sl : (sum_list_with is_sl (Y_threads y) <= n)%nat;
  sg_rl : (sum_list_with is_rl (Y_threads y) <= n)%nat;
  sg_rd : (sum_list_with is_rd (Y_threads y) + sum_list_with discards tr <= n)%nat;
  sg_cp : (sum_list_with is_cp (Y_threads y) <= n)%nat;
  sg_dl : (sum_list_with is_dl (Y_threads y) <= n)%nat;
}.
Lemma sum_le {A} (f g : A -> nat) l : (forall x, f x <= g x)%nat -> (sum_list_with f l <= sum_list_with g l)%nat.
Proof. intros H. induction l as [|x l IH]; simpl; [ lia | ]. specialize (H x). lia. Qed.
Lemma steps_later E y ls y' tr : steps E y ls y' tr -> later (Y_sh y) (Y_sh y').
Proof.
  intros H. induction H as [|y ls y1 tr1 l y2 o Hs IH Hl He]; [ unfold later; lia | ].
  enough (later (Y_sh y1) (Y_sh y2)) by (unfold later in *; lia). apply exec_cases in He.
  destruct He as [(i & c & t & s & t' & sp & -> & Et & Es & ->)|[(t & -> & -> & Hk)|(mm & op & f & -> & -> & _)]]; cbn [Y_sh].
  - eapply tstep_later. exact Es.
  - unfold later. lia.
  - unfold later. cbn. lia.
Qed.
Theorem single_run E y0 ls y tr : quiescent y0 -> steps E y0 ls y tr -> (starts ls <= 1)%nat -> single E y0 (starts ls) y tr.
Proof.
  intros Q H Hn.
  assert (B : forall ls y tr, steps E y0 ls y tr -> (starts ls <= 1)%nat ->
     bounded (length (S_gens (Y_sh y0))) (length (S_conns (Y_sh y0))) (length (S_cgens (Y_sh y0))) (Y_sh y)).
  { clear - Q. intros ls y tr H Hn. pose proof (steps_later E _ _ _ _ H) as (L1 & L2 & L3).
    pose proof (descends_steps _ _ _ _ _ _ _ _ _ (gens_descends E) H).
    pose proof (descends_steps _ _ _ _ _ _ _ _ _ (conns_descends E) H).
    pose proof (descends_steps _ _ _ _ _ _ _ _ _ (cgens_descends E) H).
    rewrite !(quiescent_sum _ y0 eq_refl Q) in *. unfold bounded, starts in *. lia. }
  assert (P : forall w d m, descends E m w d is_start -> w TDone = 0%nat ->
     (m (Y_sh y) + sum_list_with w (Y_threads y) + sum_list_with d tr <= m (Y_sh y0) + starts ls)%nat).
  { intros w d m D W. pose proof (descends_steps _ _ _ _ _ _ _ _ _ D H) as K. rewrite (quiescent_sum w y0 W Q) in K. unfold starts. lia. }
  constructor.
  - eapply B; eassumption.
  - revert Hn. clear P. induction H as [|y0 ls y1 tr1 l y2 o Hs IH Hl He]; intros Hn.
    + eapply Forall_impl; [ exact Q | ]. intros t ->. exact I.
    + assert (Hn1 : (starts ls <= 1)%nat) by (unfold starts in *; rewrite sum_list_with_app in Hn; lia).
      specialize (IH Q B Hn1). pose proof (B _ _ _ Hs Hn1) as B1.
      pose proof (B _ _ _ (steps_snoc E y0 ls y1 tr1 l y2 o Hs Hl He) Hn) as B2. apply exec_cases in He.
      destruct He as [(i & c & t & s & t' & sp & -> & Et & Es & ->)|[(t & -> & -> & Hk)|(mm & op & f & -> & -> & _)]]; cbn [Y_sh Y_threads] in *.
      * destruct (tstep_placed E _ _ _ _ _ _ _ _ _ _ B1 B2 (Forall_lookup_1 _ _ _ _ IH Et) Es) as [P1 P2].
        apply Forall_app. split; [ | exact P2 ]. apply Forall_insert; [ | exact P1 ].
        eapply Forall_impl; [ exact IH | ]. intros u. apply placed_later. eapply tstep_later. exact Es.
      * apply Forall_snoc; [ exact IH | ]. destruct Hk as [[-> ->]|[[-> ->]|(dmx & a & -> & _ & ->)]]; destruct (E_ctl E) eqn:Ec; cbn; auto; rewrite ?Ec; discriminate.
      * exact IH.
  - pose proof (P _ _ _ (pr_descends E) eq_refl). pose proof (sum_le is_pr _ (Y_threads y) (fun t => Nat.le_add_l (is_pr t) (w_opening t))). lia.
  - pose proof (P _ _ _ (sl_descends E) eq_refl). pose proof (sum_le is_sl _ (Y_threads y) (fun t => Nat.le_add_l (is_sl t) (w_opening t))). lia.
  - pose proof (P _ _ _ (rl_descends E) eq_refl). pose proof (sum_le is_rl _ (Y_threads y) (fun t => Nat.le_add_l (is_rl t) (w_opening t))). lia.
  - pose proof (P _ _ _ (rd_descends E) eq_refl). assert (forall t, is_rd t <= w_reader t)%nat as L by (intros t; unfold w_reader; lia).
    pose proof (sum_le is_rd _ (Y_threads y) L). lia.
  - pose proof (P _ _ _ (cp_descends E) eq_refl). pose proof (sum_le is_cp _ (Y_threads y) (fun t => Nat.le_add_l (is_cp t) (w_starting t))). lia.
  - pose proof (P _ _ _ (dl_descends E) eq_refl). pose proof (sum_le is_dl _ (Y_threads y) (fun t => Nat.le_add_l (is_dl t) (w_starting t))). lia.
Qed.
