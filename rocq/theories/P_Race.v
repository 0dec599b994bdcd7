(** C81: data races between goroutines and calls, in every run of the interleaving semantics of Sys.v. *)
From Verif Require Import WireSpec P_Config P_Controller SysFacts SysLaws SysRun SysOrder SysScript P_Node P_Life P_Live.
From stdpp Require Import base list gmap.
Open Scope N_scope.

(** * Memory accesses *)
(** The variables that are shared between goroutines without being channels or locks themselves: the tables of a controller (Nodes, the two maps and what they refer to, controller.go:84-87), the channel
    fields of a node, its fields shutdown, conn, shutdownErr and callbacks (node.go:20-44), the fields shutdownCh, pollTicker and gcTicker of a controller (controller.go:92-98), and the loggers. *)
Inductive var := VTables | VChans | VFlag | VConn | VErr | VCallbacks | VCtlChan | VTickers | VLog.
(** [A_locked]: the access is made holding the lock meant for the variable (nodeLock for the tables, shutdownLock for shutdown). *)
Record access := mkAccess { A_var : var; A_write : bool; A_locked : bool }.
Definition rd (v : var) : access := mkAccess v false false.
Definition wr (v : var) : access := mkAccess v true false.
Definition rd_locked (v : var) : access := mkAccess v false true.
Definition wr_locked (v : var) : access := mkAccess v true true.
(** What the next step of a goroutine or call accesses. *)
Definition accesses (t : thread) : list access :=
  match t with
  | TDone => []
  (* node.go:146-179: the operands n.pollCh, n.shutdownCh, n.sendCh are read when the statement is reached *)
  | PR_start => [rd VLog] | PR_loop _ => [rd VChans] | PR_wait _ _ => [rd VLog] | PR_send _ => [rd VChans] | PR_sending _ _ => []
  (* node.go:182-203 *)
  | SL_loop => [rd VChans] | SL_wait _ => [] | SL_check _ => [rd_locked VFlag] | SL_write _ => [rd VConn; rd VLog]
  (* node.go:210-271 *)
  | RL_start => [] | RL_loop => [rd VChans] | RL_wait _ => [] | RL_parse _ => [rd VLog]
  | RD_read _ => [rd VConn] | RD_reading _ _ => [] | RD_got _ _ => [rd_locked VFlag; rd VLog] | RD_push _ _ => [rd VChans] | RD_pushing _ _ _ => []
  (* node.go:274-305: the lookup in n.callbacks *)
  | H_start _ => [rd VCallbacks; rd VLog] | H_poll _ => [rd VChans] | H_polling _ _ => [] | H_reply _ => [rd VChans] | H_replying _ _ => []
  (* controller.go:152-210 *)
  | CP_start => [rd VLog] | CP_send _ => [rd VChans] | CP_sending _ _ => [] | CP_poll _ => [rd VChans] | CP_polling _ _ => []
  | CP_loop _ => [rd VTickers; rd VChans; rd VCtlChan] | CP_wait _ _ _ => []
  | CP_gc _ => [wr_locked VTables; rd VLog] | CP_reply _ _ => [wr_locked VTables; rd VLog]
  (* controller.go:235-290: the tables are used, under the lock, until the end of the tick *)
  | DL_start => [] | DL_loop => [rd VCtlChan] | DL_wait _ => []
  | DL_lock _ => [wr_locked VTables; rd VLog] | DL_push _ => [wr_locked VTables; rd VLog; rd VChans] | DL_pushing _ _ _ => []
  (* controller.go:214-232 *)
  | U_send _ _ => [rd VLog; wr_locked VTables]
  (* controller.go:120-136, node.go:115-142: without any lock *)
  | U_start_ctl => [wr VTables; wr VCtlChan; wr VLog]
  | U_start_node => [wr VChans; wr VFlag; rd VLog]
  | U_listen => [wr VConn; wr VErr; rd VLog]
  | U_start_loops => [wr VTickers; rd VErr]
  (* controller.go:139-149, node.go:97-107 *)
  | U_stop_ctl => [rd VTickers] | U_flag => [wr_locked VFlag] | U_close => [rd VChans] | U_closeconn => [rd VConn; rd VLog] | U_waitclosed => [rd VChans] | U_closectl => [rd VCtlChan]
  end.
(** node.go:311-330: RegisterCallback and DeregisterCallback look at the flag, and change the map if it is set. *)
Definition call_accesses (s : shared) (l : label) : list access :=
  match l with
  | LRegister _ _ | LDeregister _ => rd_locked VFlag :: if S_shutdown s then [wr VCallbacks] else []
  | _ => []
  end.
(** Two accesses to the same variable, at least one of them writing, not both under its lock. *)
Definition conflict (a b : access) : Prop := A_var a = A_var b /\ A_write a || A_write b = true /\ A_locked a && A_locked b = false.
(** A data race: two conflicting accesses are both about to happen, in different goroutines. (A program none of whose interleavings gets into such a state behaves as interleaved, by the Go memory model.) *)
Definition about_to (E : env) (y : sys) (i : nat) (a : access) : Prop :=
  exists t c, Y_threads y !! i = Some t /\ tstep E (Y_sh y) t c <> Blocked /\ In a (accesses t).
Definition race (E : env) (y : sys) (v : var) : Prop := exists i j a b, i <> j /\ about_to E y i a /\ about_to E y j b /\ conflict a b /\ A_var a = v.
Definition race_call (E : env) (y : sys) (l : label) (v : var) : Prop := exists i a b, about_to E y i a /\ exec E y l <> RBlocked /\ In b (call_accesses (Y_sh y) l) /\ conflict a b /\ A_var a = v.

(** * Race-free use *)
(** Start only when all goroutines of the previous run have ended, no SendDMXToAddress while Start runs, registering callbacks only when the node runs or all its goroutines have ended. *)
Definition orderly (y : sys) (l : label) : Prop :=
  careful y l /\
  match l with
  | LSend _ _ => Forall (fun t => w_starting t = 0%nat) (Y_threads y)
  | LRegister _ _ | LDeregister _ => Forall (fun t => w_starting t = 0%nat) (Y_threads y) /\ (S_shutdown (Y_sh y) = true -> quiescent y)
  | _ => True
  end.
Definition early (t : thread) : nat := match t with U_start_ctl | U_start_node | U_listen => 1 | _ => 0 end%nat.
(** While Start is not that far, there is nothing else, except perhaps calls of SendDMXToAddress. *)
Definition bystander (sends : bool) (u : thread) : Prop := match u with TDone => True | U_send _ _ => sends = true | _ => False end.
Definition alone (sends : bool) (y : sys) : Prop :=
  forall i t, Y_threads y !! i = Some t ->
    (early t = 1%nat -> forall j u, j <> i -> Y_threads y !! j = Some u -> bystander sends u) /\
    (t = U_start_loops -> forall j u, Y_threads y !! j = Some u -> (is_cp u + is_dl u + is_stopping u)%nat = 0%nat).
Lemma early_step E s t c s' t' sp o : early t = 1%nat -> tstep E s t c = Next s' t' sp o ->
  early t' = 1%nat /\ sp = [] \/ early t' = 0%nat /\ is_cp t' = 0%nat /\ is_dl t' = 0%nat /\ is_stopping t' = 0%nat /\
    Forall (fun u => early u = 0%nat /\ u <> U_start_loops /\ is_cp u = 0%nat /\ is_dl u = 0%nat /\ is_stopping u = 0%nat) sp.
Proof. intros He H. tcases H; try discriminate He; first [ left; split; reflexivity | right; repeat split; repeat constructor; discriminate ]. Qed.
Lemma other_early E s t c s' t' sp o : early t = 0%nat -> tstep E s t c = Next s' t' sp o ->
  early t' = 0%nat /\ t' <> U_start_loops /\ Forall (fun u => early u = 0%nat /\ u <> U_start_loops) sp /\
  (t <> U_start_loops -> is_cp t = 0%nat -> is_dl t = 0%nat -> is_stopping t = 0%nat ->
     is_cp t' = 0%nat /\ is_dl t' = 0%nat /\ is_stopping t' = 0%nat /\ Forall (fun u => is_cp u = 0%nat /\ is_dl u = 0%nat /\ is_stopping u = 0%nat) sp).
Proof.
  intros He H. tcases H; try discriminate He; repeat split; try discriminate; repeat constructor; try discriminate; try (intros; discriminate); try reflexivity; try contradiction.
Qed.
Lemma bystander_step E sends s t c s' t' sp o : bystander sends t -> tstep E s t c = Next s' t' sp o -> t' = TDone /\ sp = [].
Proof. intros H K. destruct t; try contradiction; apply tstep_trans in K; inversion K; auto. Qed.
Lemma bystander_idle sends u : bystander sends u -> early u = 0%nat /\ u <> U_start_loops /\ (is_cp u + is_dl u + is_stopping u)%nat = 0%nat.
Proof. destruct u; try contradiction; repeat split; discriminate. Qed.
Lemma life_alone E sends (allow : sys -> label -> Prop) : (forall y l, allow y l -> careful y l) ->
  (sends = false -> forall y dmx a, allow y (LSend dmx a) -> Forall (fun t => w_starting t = 0%nat) (Y_threads y)) ->
  forall ls y tr ph, life E allow ls y tr ph -> alone sends y.
Proof.
  intros HA HS ls y tr ph L. induction L as [|ls y tr ph l ph1 y' o L IH A Hok Hc He]; [ intros i t Hi; discriminate Hi | ].
  pose proof (life_tidy _ _ _ _ _ (life_any _ _ _ _ _ _ L)) as T. apply exec_cases in He.
  destruct He as [(i & c & t & s & t' & sp & -> & Et & Es & ->)|[(t & -> & -> & Hk)|(mm & op & f & -> & -> & _ & _ & ->)]].
  - assert (Lk : forall j u, (<[i := t']> (Y_threads y) ++ sp) !! j = Some u -> j = i /\ u = t' \/ j <> i /\ Y_threads y !! j = Some u \/ In u sp).
    { intros j u Hj. apply lookup_app_Some in Hj. destruct Hj as [Hj|[_ Hj]].
      - destruct (Nat.eq_dec j i) as [->|Hn]; [ left | right; left ].
        + rewrite list_lookup_insert in Hj by (eapply lookup_lt_Some; exact Et). injection Hj as <-. auto.
        + rewrite list_lookup_insert_ne in Hj by congruence. auto.
      - right. right. apply elem_of_list_In. eapply elem_of_list_lookup_2. exact Hj. }
    destruct (Nat.eq_dec (early t) 0%nat) as [Ee|Ee].
    + destruct (other_early E _ _ _ _ _ _ _ Ee Es) as (O1 & O2 & O3 & O4). rewrite Forall_forall in O3.
      intros j u Hj. cbn [Y_threads] in *. destruct (Lk _ _ Hj) as [[-> ->]|[[Hn Hu]|Hu]].
      * split; [ lia | intros; contradiction ].
      * split.
        -- intros K k w Hk Hw. pose proof (proj1 (IH _ _ Hu) K) as By. destruct (bystander_step _ _ _ _ _ _ _ _ _ (By i t (not_eq_sym Hn) Et) Es) as [-> ->].
           destruct (Lk _ _ Hw) as [[_ ->]|[[_ Hw2]|[]]]; [ exact I | exact (By _ _ Hk Hw2) ].
        -- intros -> k w Hw. assert (Ht : t <> U_start_loops).
           { intros ->. pose proof (sum_two w_starting _ _ _ _ _ Hn Hu Et) as K. rewrite (td_starting _ _ _ T) in K. destruct ph; cbn in K; lia. }
           pose proof (proj2 (IH _ _ Hu) eq_refl) as K. pose proof (K _ _ Et) as K1. destruct O4 as (P1 & P2 & P3 & P4); [ exact Ht | lia | lia | lia | ]. rewrite Forall_forall in P4.
           destruct (Lk _ _ Hw) as [[-> ->]|[[_ Hw2]|Hw2]]; [ lia | exact (K _ _ Hw2) | ]. destruct (P4 w) as (Q1 & Q2 & Q3); [ apply elem_of_list_In; exact Hw2 | lia ].
      * destruct (O3 u) as [Q1 Q2]; [ apply elem_of_list_In; exact Hu | ]. split; [ lia | intros; contradiction ].
    + assert (Ee1 : early t = 1%nat) by (destruct t; cbn in *; lia). pose proof (proj1 (IH _ _ Et) Ee1) as Al.
      destruct (early_step E _ _ _ _ _ _ _ Ee1 Es) as [[O1 ->]|(O1 & O2 & O3 & O4 & O5)].
      * intros j u Hj. cbn [Y_threads] in *. destruct (Lk _ _ Hj) as [[-> ->]|[[Hn Hu]|[]]].
        -- split; [ | intros ->; discriminate O1 ]. intros _ k w Hk Hw. destruct (Lk _ _ Hw) as [[-> ->]|[[_ Hw2]|[]]]; [ contradiction | exact (Al _ _ Hk Hw2) ].
        -- destruct (bystander_idle _ _ (Al _ _ Hn Hu)) as (B1 & B2 & _). split; [ lia | contradiction ].
      * rewrite Forall_forall in O5. intros j u Hj. cbn [Y_threads] in *. destruct (Lk _ _ Hj) as [[-> ->]|[[Hn Hu]|Hu]].
        -- split; [ lia | ]. intros _ k w Hw. destruct (Lk _ _ Hw) as [[-> ->]|[[Hn Hw2]|Hw2]]; [ lia | exact (proj2 (proj2 (bystander_idle _ _ (Al _ _ Hn Hw2)))) | ].
           destruct (O5 w) as (_ & _ & Q1 & Q2 & Q3); [ apply elem_of_list_In; exact Hw2 | lia ].
        -- destruct (bystander_idle _ _ (Al _ _ Hn Hu)) as (B1 & B2 & _). split; [ lia | contradiction ].
        -- destruct (O5 u) as (Q1 & Q2 & _); [ apply elem_of_list_In; exact Hu | ]. split; [ lia | contradiction ].
  - assert (Lk : forall j u, (Y_threads y ++ [t]) !! j = Some u -> Y_threads y !! j = Some u \/ j = length (Y_threads y) /\ u = t).
    { intros j u Hj. apply lookup_app_Some in Hj. destruct Hj as [Hj|[K Hj]]; [ auto | ]. apply list_lookup_singleton_Some in Hj. destruct Hj as [Hj <-]. right. split; [ lia | reflexivity ]. }
    destruct Hk as [[-> ->]|[[-> ->]|(dmx & a & -> & _ & ->)]].
    + pose proof (proj1 (HA _ _ A) eq_refl) as Q. intros j u Hj. cbn [Y_threads] in *. destruct (Lk _ _ Hj) as [Hu|[-> ->]].
      * rewrite (Forall_lookup_1 _ _ _ _ Q Hu). split; discriminate.
      * split; [ | destruct (E_ctl E); discriminate ]. intros _ k w Hn Hw. destruct (Lk _ _ Hw) as [Hw2|[-> _]]; [ rewrite (Forall_lookup_1 _ _ _ _ Q Hw2); exact I | contradiction ].
    + destruct ph; try discriminate Hc. pose proof (td_starting _ _ _ T) as Ts. cbn in Ts. intros j u Hj. cbn [Y_threads] in *. destruct (Lk _ _ Hj) as [Hu|[-> ->]].
      * pose proof (sum_lookup w_starting _ _ _ Hu). split; [ | intros ->; cbn in *; lia ]. intros K. exfalso. destruct u; try discriminate K; cbn in *; lia.
      * split; destruct (E_ctl E); discriminate.
    + intros j u Hj. cbn [Y_threads] in *. destruct (Lk _ _ Hj) as [Hu|[-> ->]]; [ | split; discriminate ]. split.
      * intros K k w Hk Hw. destruct (Lk _ _ Hw) as [Hw2|[_ ->]]; [ exact (proj1 (IH _ _ Hu) K _ _ Hk Hw2) | ]. cbn. destruct sends eqn:Hs; [ reflexivity | ]. exfalso.
        pose proof (Forall_lookup_1 _ _ _ _ (HS eq_refl _ _ _ A) Hu) as W. cbn beta in W. destruct u; discriminate.
      * intros K k w Hw. destruct (Lk _ _ Hw) as [Hw2|[_ ->]]; [ exact (proj2 (IH _ _ Hu) K _ _ Hw2) | reflexivity ].
  - intros j u Hj. exact (IH j u Hj).
Qed.
Lemma done_idle E y i a : Y_threads y !! i = Some TDone -> ~ about_to E y i a.
Proof. intros H (t & c & Ht & _ & Ha). rewrite H in Ht. injection Ht as <-. exact Ha. Qed.
Lemma conflict_sym a b : conflict a b -> conflict b a.
Proof. intros (H1 & H2 & H3). split; [ auto | ]. rewrite orb_comm, andb_comm. auto. Qed.
(** Which goroutines can conflict at all. *)
Lemma conflict_pairs t u a b : In a (accesses t) -> In b (accesses u) -> conflict a b ->
  early t = 1%nat \/ early u = 1%nat \/ t = U_start_loops /\ (u = U_start_loops \/ is_cp u + is_dl u + is_stopping u = 1)%nat \/ u = U_start_loops /\ (is_cp t + is_dl t + is_stopping t = 1)%nat.
Proof.
  intros Ha Hb (C1 & C2 & C3). destruct (Nat.eq_dec (early t) 1%nat) as [K|K]; [ auto | ]. destruct (Nat.eq_dec (early u) 1%nat) as [K'|K']; [ auto | ].
  destruct t; try (exfalso; apply K; reflexivity); cbn [accesses In] in Ha; repeat match type of Ha with _ \/ _ => destruct Ha as [Ha|Ha] end; try contradiction; subst a; cbn in C1, C2, C3.
  all: destruct u; try (exfalso; apply K'; reflexivity); cbn [accesses In] in Hb; repeat match type of Hb with _ \/ _ => destruct Hb as [Hb|Hb] end; try contradiction; subst b; try discriminate C1; try discriminate C2; try discriminate C3.
  all: auto 6.
Qed.
(** Used that way no data race is possible, on any variable. *)
Theorem C81_orderly_partial : forall E ls y tr ph v, life E orderly ls y tr ph -> ~ race E y v /\ forall l, orderly y l -> ~ race_call E y l v.
Proof.
  intros E ls y tr ph v L. assert (Al : alone false y) by (apply (life_alone E false orderly) with (3 := L); [ intros z l Hz; exact (proj1 Hz) | intros _ z dmx a Hz; exact (proj2 Hz) ]). pose proof (life_tidy _ _ _ _ _ (life_any _ _ _ _ _ _ L)) as T. split.
  - intros (i & j & a & b & Hn & Ha & Hb & Hc & _). pose proof (done_idle E y) as Di. destruct Ha as (t & c & Ht & Hs & Ha). destruct Hb as (u & d & Hu & Hd & Hb).
    destruct (conflict_pairs t u a b Ha Hb Hc) as [K|[K|[[-> K]|[-> K]]]].
    + pose proof (proj1 (Al _ _ Ht) K j u (not_eq_sym Hn) Hu) as B. destruct u; try contradiction; discriminate B.
    + pose proof (proj1 (Al _ _ Hu) K i t Hn Ht) as B. destruct t; try contradiction; discriminate B.
    + destruct K as [-> |K]; [ | pose proof (proj2 (Al _ _ Ht) eq_refl _ _ Hu); lia ]. pose proof (sum_two w_starting _ _ _ _ _ Hn Ht Hu) as K. rewrite (td_starting _ _ _ T) in K. destruct ph; cbn in K; lia.
    + pose proof (proj2 (Al _ _ Hu) eq_refl _ _ Ht). lia.
  - intros l [_ Ho] (i & a & b & (t & c & Ht & Hs & Ha) & _ & Hb & Hc & _).
    assert (K : b = rd_locked VFlag \/ S_shutdown (Y_sh y) = true /\ b = wr VCallbacks).
    { assert (K : In b (rd_locked VFlag :: if S_shutdown (Y_sh y) then [wr VCallbacks] else [])) by (destruct l; first [ contradiction | exact Hb ]).
      destruct K as [<-|K]; [ auto | ]. destruct (S_shutdown (Y_sh y)); [ | contradiction ]. destruct K as [<-|[]]. auto. }
    assert (O : Forall (fun t => w_starting t = 0%nat) (Y_threads y) /\ (S_shutdown (Y_sh y) = true -> quiescent y)) by (destruct l; try contradiction; exact Ho). destruct O as [O1 O2].
    destruct K as [-> |[Sd ->]].
    + pose proof (Forall_lookup_1 _ _ _ _ O1 Ht) as W. cbn beta in W. destruct Hc as (C1 & C2 & C3).
      destruct t; try discriminate W; cbn [accesses In] in Ha; repeat match type of Ha with _ \/ _ => destruct Ha as [Ha|Ha] end; try contradiction; subst a; try discriminate C1; try discriminate C2; discriminate C3.
    + rewrite (Forall_lookup_1 _ _ _ _ (O2 Sd) Ht) in Ha. exact Ha.
Qed.
(** If only restarts wait for the goroutines of the previous run, the only races are those with SendDMXToAddress while Start runs, on the tables and the loggers, and those of registering callbacks. *)
Theorem C81_careful_partial : forall E ls y tr ph v, life E careful ls y tr ph -> (race E y v -> v = VTables \/ v = VLog) /\ forall l, race_call E y l v -> v = VCallbacks \/ v = VFlag.
Proof.
  intros E ls y tr ph v L. assert (Al : alone true y) by (apply (life_alone E true careful) with (3 := L); [ auto | discriminate ]). pose proof (life_tidy _ _ _ _ _ (life_any _ _ _ _ _ _ L)) as T. split.
  - intros (i & j & a & b & Hn & (t & c & Ht & Hs & Ha) & (u & d & Hu & Hd & Hb) & Hc & <-).
    assert (By : forall w x, bystander true w -> In x (accesses w) -> A_var x = VTables \/ A_var x = VLog).
    { intros w x Hw Hx. destruct w; try contradiction; cbn [accesses In] in Hx; repeat match type of Hx with _ \/ _ => destruct Hx as [Hx|Hx] end; try contradiction; subst x; auto. }
    destruct (conflict_pairs t u a b Ha Hb Hc) as [K|[K|[[-> K]|[-> K]]]].
    + rewrite (proj1 Hc). exact (By _ _ (proj1 (Al _ _ Ht) K j u (not_eq_sym Hn) Hu) Hb).
    + exact (By _ _ (proj1 (Al _ _ Hu) K i t Hn Ht) Ha).
    + exfalso. destruct K as [-> |K]; [ | pose proof (proj2 (Al _ _ Ht) eq_refl _ _ Hu); lia ]. pose proof (sum_two w_starting _ _ _ _ _ Hn Ht Hu) as K. rewrite (td_starting _ _ _ T) in K. destruct ph; cbn in K; lia.
    + exfalso. pose proof (proj2 (Al _ _ Hu) eq_refl _ _ Ht). lia.
  - intros l (i & a & b & _ & _ & Hb & (-> & _) & <-). destruct l; try contradiction; (destruct Hb as [<-|Hb]; [ right; reflexivity | ]); destruct (S_shutdown (Y_sh y)); try contradiction; destruct Hb as [<-|[]]; left; reflexivity.
Qed.

(** * Races *)
Global Instance var_eq_dec : EqDecision var. Proof. solve_decision. Defined.
Global Instance access_eq_dec : EqDecision access. Proof. solve_decision. Defined.
Definition about_tob (E : env) (y : sys) (i : nat) (a : access) : bool :=
  existsb (fun b => bool_decide (a = b)) (accesses (thread_at y i)) && match tstep E (Y_sh y) (thread_at y i) CGo with Blocked => false | _ => true end.
Lemma about_tob_ok E y i a : about_tob E y i a = true -> about_to E y i a.
Proof.
  intros H. apply andb_prop in H. destruct H as [H1 H2]. apply existsb_exists in H1. destruct H1 as (b & Hb & H1). apply bool_decide_eq_true in H1. subst b.
  unfold thread_at in *. destruct (Y_threads y !! i) as [t|] eqn:Ht; [ | contradiction ]. exists t, CGo. split; [ exact Ht | ]. split; [ destruct (tstep E (Y_sh y) t CGo); discriminate | exact Hb ].
Qed.
(** After Stop has returned the flag allows registering callbacks, but a handler goroutine of a packet received before may still be about to look into the map: in Go the process is then ended with
    "concurrent map read and map write". *)
Theorem C81_callbacks_refuted : exists ls y tr op f, wf_config (E_config node1) /\ life node1 careful ls y tr Idle /\ calls ls = [true; false] /\ no_errors ls = true /\ In OStop tr /\
  race_call node1 y (LRegister op f) VCallbacks.
Proof.
  destruct (tested_life_ok node1 carefulb careful (up_node ++ arrive 4 host2 poll_bytes ++ parse 2 ++ stop_node 6) (fun ls y tr ph => bool_decide (calls ls = [true; false]) && no_errors ls && match ph with Idle => true | _ => false end &&
     existsb (fun o => match o with OStop => true | _ => false end) tr && S_shutdown (Y_sh y) && about_tob node1 y 5 (rd VCallbacks)))
    as (ls & y & tr & ph & L & H); [ exact carefulb_ok | vm_compute; reflexivity | ].
  apply andb_prop in H. destruct H as [H H6]. apply andb_prop in H. destruct H as [H H5]. apply andb_prop in H. destruct H as [H H4]. apply andb_prop in H. destruct H as [H H3]. apply andb_prop in H. destruct H as [H1 H2].
  apply bool_decide_eq_true in H1. destruct ph; try discriminate. apply existsb_exists in H4. destruct H4 as (u & Hu & H4). destruct u; try discriminate.
  exists ls, y, tr, 0, 0. split; [ repeat (split; [ repeat constructor | ]); repeat constructor | ]. repeat (split; [ assumption | ]).
  exists 5%nat, (rd VCallbacks), (wr VCallbacks). split; [ exact (about_tob_ok _ _ _ _ H6) | ]. split; [ discriminate | ]. split; [ cbn [call_accesses]; rewrite H5; right; left; reflexivity | ]. repeat split.
Qed.
(** SendDMXToAddress takes the lock of the tables, but Start replaces them without it. *)
Theorem C81_send_while_starting_refuted : exists ls y tr, wf_config (E_config ctl1) /\ life ctl1 careful ls y tr Starting /\ calls ls = [true] /\ race ctl1 y VTables /\ race ctl1 y VLog.
Proof.
  destruct (tested_life_ok ctl1 carefulb careful (act LStart ++ act (LSend (zeros 512) (0, 1))) (fun ls y tr ph => bool_decide (calls ls = [true]) && match ph with Starting => true | _ => false end &&
     about_tob ctl1 y 0 (wr VTables) && about_tob ctl1 y 1 (wr_locked VTables) && about_tob ctl1 y 0 (wr VLog) && about_tob ctl1 y 1 (rd VLog)))
    as (ls & y & tr & ph & L & H); [ exact carefulb_ok | vm_compute; reflexivity | ].
  apply andb_prop in H. destruct H as [H H6]. apply andb_prop in H. destruct H as [H H5]. apply andb_prop in H. destruct H as [H H4]. apply andb_prop in H. destruct H as [H H3]. apply andb_prop in H. destruct H as [H1 H2].
  apply bool_decide_eq_true in H1. destruct ph; try discriminate. exists ls, y, tr. split; [ repeat (split; [ repeat constructor | ]); repeat constructor | ]. repeat (split; [ assumption | ]). split.
  - exists 0%nat, 1%nat, (wr VTables), (wr_locked VTables). repeat (split; [ first [ discriminate | apply about_tob_ok; assumption | repeat split ] | ]). reflexivity.
  - exists 0%nat, 1%nat, (wr VLog), (rd VLog). repeat (split; [ first [ discriminate | apply about_tob_ok; assumption | repeat split ] | ]). reflexivity.
Qed.
(** When Start follows Stop at once, it writes the channel fields and the flag (without the lock) while the goroutines of the previous run read them. *)
Theorem C81_restart_refuted : exists ls y tr, wf_config (E_config node1) /\ life node1 closed_read ls y tr Starting /\ calls ls = [true; false; true] /\ no_errors ls = true /\
  race node1 y VChans /\ race node1 y VFlag.
Proof.
  destruct (tested_life_ok node1 closed_readb closed_read (act LStart ++ go_n 0 2 ++ go_n 2 1 ++ go_n 4 1 ++ act (LRun 4 (CDatagram host2 poll_bytes)) ++ stop_node 5 ++ act LStart) (fun ls y tr ph => bool_decide (calls ls = [true; false; true]) && no_errors ls && match ph with Starting => true | _ => false end &&
     about_tob node1 y 6 (wr VChans) && about_tob node1 y 3 (rd VChans) && about_tob node1 y 6 (wr VFlag) && about_tob node1 y 4 (rd_locked VFlag)))
    as (ls & y & tr & ph & L & H); [ exact closed_readb_ok | vm_compute; reflexivity | ].
  apply andb_prop in H. destruct H as [H H7]. apply andb_prop in H. destruct H as [H H6]. apply andb_prop in H. destruct H as [H H5]. apply andb_prop in H. destruct H as [H H4]. apply andb_prop in H. destruct H as [H H3]. apply andb_prop in H. destruct H as [H1 H2].
  apply bool_decide_eq_true in H1. destruct ph; try discriminate. exists ls, y, tr. split; [ repeat (split; [ repeat constructor | ]); repeat constructor | ]. repeat (split; [ assumption | ]). split.
  - exists 6%nat, 3%nat, (wr VChans), (rd VChans). repeat (split; [ first [ discriminate | apply about_tob_ok; assumption | repeat split ] | ]). reflexivity.
  - exists 6%nat, 4%nat, (wr VFlag), (rd_locked VFlag). repeat (split; [ first [ discriminate | apply about_tob_ok; assumption | repeat split ] | ]). reflexivity.
Qed.
(** Orderly lives: a node that is started, answers a poll, is stopped, gets a callback once its goroutines have ended and is started again; a controller that discovers a node and is given data. *)
Definition orderlyb (y : sys) (l : label) : bool :=
  carefulb y l && match l with
                  | LSend _ _ => forallb (fun t => (w_starting t =? 0)%nat) (Y_threads y)
                  | LRegister _ _ | LDeregister _ => forallb (fun t => (w_starting t =? 0)%nat) (Y_threads y) && (negb (S_shutdown (Y_sh y)) || forallb is_done (Y_threads y))
                  | _ => true
                  end.
Lemma orderlyb_ok y l : orderlyb y l = true -> orderly y l.
Proof.
  intros H. apply andb_prop in H. destruct H as [H1 H2]. split; [ exact (carefulb_ok _ _ H1) | ].
  assert (F : forall P : thread -> bool, forallb P (Y_threads y) = true -> Forall (fun t => P t = true) (Y_threads y)).
  { intros P K. apply Forall_forall. intros t Ht. rewrite forallb_forall in K. apply K, elem_of_list_In, Ht. }
  assert (F0 : forallb (fun t => (w_starting t =? 0)%nat) (Y_threads y) = true -> Forall (fun t => w_starting t = 0%nat) (Y_threads y)).
  { intros K. eapply Forall_impl; [ exact (F _ K) | ]. intros t. apply Nat.eqb_eq. }
  assert (F1 : forallb is_done (Y_threads y) = true -> quiescent y).
  { intros K. eapply Forall_impl; [ exact (F _ K) | ]. intros [] Ht; try discriminate Ht. reflexivity. }
  destruct l; try exact I; auto; apply andb_prop in H2; destruct H2 as [H2 H3]; (split; [ auto | ]); intros Sd; rewrite Sd in H3; auto.
Qed.
Example C81_node_ex : exists ls y tr, life node1 orderly ls y tr Up /\ calls ls = [true; false; true] /\ (0 < length (transmitted tr))%nat /\ exists op f, In (ORegister op (Some f)) tr.
Proof.
  destruct (tested_life_ok node1 orderlyb orderly (up_node ++ arrive 4 host2 poll_bytes ++ parse 2 ++ go_n 5 3 ++ go_n 1 3 ++ transmit 3 ++ stop_node 6 ++ map (fun i _ => LRun i CDown) [2; 3]%nat ++ go_n 1 1 ++ act (LRun 1 CDown) ++
     act (LRun 4 CErr) ++ go_n 4 1 ++ act (LRegister OpDMX 7) ++ act LStart ++ go_n 7 2) (fun ls y tr ph => bool_decide (calls ls = [true; false; true]) && match ph with Up => true | _ => false end &&
     (0 <? length (transmitted tr))%nat && existsb (fun o => match o with ORegister _ (Some _) => true | _ => false end) tr))
    as (ls & y & tr & ph & L & H); [ exact orderlyb_ok | vm_compute; reflexivity | ].
  apply andb_prop in H. destruct H as [H H4]. apply andb_prop in H. destruct H as [H H3]. apply andb_prop in H. destruct H as [H1 H2]. apply bool_decide_eq_true in H1. destruct ph; try discriminate.
  apply Nat.ltb_lt in H3. apply existsb_exists in H4. destruct H4 as (u & Hu & H4). destruct u as [| | | | | | | | | | | | | | |op [f|]| | |]; try discriminate. exists ls, y, tr. repeat (split; [ assumption | ]). eauto.
Qed.
Example C81_controller_ex : exists ls y tr, life ctl1 orderly ls y tr Up /\ exists dmx a, In (LSend dmx a) ls.
Proof.
  destruct (tested_life_ok ctl1 orderlyb orderly busy (fun ls y tr ph => match ph with Up => true | _ => false end && existsb (fun l => match l with LSend _ _ => true | _ => false end) ls))
    as (ls & y & tr & ph & L & H); [ exact orderlyb_ok | vm_compute; reflexivity | ].
  apply andb_prop in H. destruct H as [H1 H2]. destruct ph; try discriminate. apply existsb_exists in H2. destruct H2 as (u & Hu & H2). destruct u; try discriminate. exists ls, y, tr. eauto.
Qed.

Definition P_Race_theorems := (C81_orderly_partial, C81_careful_partial, C81_callbacks_refuted, C81_send_while_starting_refuted, C81_restart_refuted).
Print Assumptions P_Race_theorems.
