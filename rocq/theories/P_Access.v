(** C81, continued: the table of memory accesses of P_Race.v agrees with the model: a step changes only variables it is listed as writing, and depends only on variables it is listed as accessing. *)
From Verif Require Import WireSpec P_Config ControllerFacts P_Controller SysFacts SysLaws SysRun SysOrder SysScript P_Node P_Life P_Live P_Race.
From stdpp Require Import base list gmap.
Open Scope N_scope.

(** The value of a variable is the same in two states. A field that holds a channel or socket has the same value if it refers to the same one; the content of channels, whether channels or sockets
    are closed, and locks are not variables. Loggers are not modelled. *)
Definition same (v : var) (s s' : shared) : Prop :=
  match v with
  | VTables => S_tables s' = S_tables s
  | VChans => last_index (S_gens s') = last_index (S_gens s)
  | VFlag => S_shutdown s' = S_shutdown s
  | VConn => last_index (S_conns s') = last_index (S_conns s)
  | VErr => S_shutdownErr s' = S_shutdownErr s
  | VCallbacks => S_callbacks s' = S_callbacks s
  | VCtlChan => last_index (S_cgens s') = last_index (S_cgens s)
  | VTickers => S_tickers s' = S_tickers s
  | VLog => True
  end.
(** Another goroutine gives a variable another value: any tables (of a controller with the same frame rate, which is never changed), other channels, another socket, ... *)
Inductive meddles (E : env) : var -> (shared -> shared) -> Prop :=
| meddle_tables k : K_maxFPS k = E_maxFPS E -> meddles E VTables (fun s => with_tables s k (S_lock s))
| meddle_chans ch : meddles E VChans (fun s => with_gens s (S_gens s ++ [ch]))
| meddle_flag b : meddles E VFlag (fun s => with_shutdown s b)
| meddle_conn b : meddles E VConn (fun s => with_conns s (S_conns s ++ [b]))
| meddle_err b : meddles E VErr (fun s => with_err s b)
| meddle_callbacks m : meddles E VCallbacks (fun s => with_callbacks s m)
| meddle_ctlchan b : meddles E VCtlChan (fun s => with_cgens s (S_cgens s ++ [b]))
| meddle_tickers : meddles E VTickers with_tickers.
Definition after (f : shared -> shared) (r : outcome) : outcome :=
  match r with Next s t sp o => Next (f s) t sp o | Blocked => Blocked | Crash => Crash end.

Lemma last_index_insert {A} (l : list A) i x : last_index (<[i := x]> l) = last_index l.
Proof. unfold last_index. rewrite insert_length. reflexivity. Qed.
(** * Steps of goroutines *)
Lemma tstep_writes E s t c s' t' sp o v : tstep E s t c = Next s' t' sp o -> (forall a, In a (accesses t) -> A_var a = v -> A_write a = false) -> same v s s'.
Proof.
  intros H Ha. assert (K : forall a, In a (accesses t) -> A_write a = true -> A_var a = v -> False) by (intros a H1 H2 H3; rewrite (Ha a H1 H3) in H2; discriminate H2). clear Ha.
  tcases H; destruct v; cbn; rewrite ?last_index_insert; try reflexivity; try exact I;
    try (exfalso; eapply K; [ left; reflexivity | reflexivity | reflexivity ]);
    try (exfalso; eapply K; [ right; left; reflexivity | reflexivity | reflexivity ]);
    try (exfalso; eapply K; [ right; right; left; reflexivity | reflexivity | reflexivity ]).
  all: try (match goal with |- context [ last_index ?l ] => destruct (last_index l); cbn; rewrite ?last_index_insert; reflexivity end).
Qed.
(** The channels and sockets a goroutine has already evaluated exist. *)
Definition holds (s : shared) (t : thread) : Prop :=
  match t with
  | PR_wait _ g | PR_sending _ g | H_polling _ g | H_replying _ g | SL_wait g | RL_wait g | RD_pushing _ _ g | CP_sending _ g | CP_polling _ g | DL_pushing _ _ g => (g < length (S_gens s))%nat
  | CP_wait _ g cg => (g < length (S_gens s))%nat /\ (cg < length (S_cgens s))%nat
  | DL_wait cg => (cg < length (S_cgens s))%nat
  | RD_reading _ c => (c < length (S_conns s))%nat
  | _ => True
  end.
Lemma t_inv_holds E s t : t_inv E s t -> holds s t.
Proof. intros [_ H]. destruct t; cbn in *; tauto. Qed.
Lemma flag_at_app l k i : (i < length l)%nat -> flag_at (l ++ k) i = flag_at l i.
Proof. intros H. unfold flag_at. rewrite lookup_app_l by exact H. reflexivity. Qed.
Lemma gen_closed_app s l k g : S_gens s = l -> (g < length l)%nat -> gen_closed (with_gens s (l ++ k)) g = gen_closed s g.
Proof. intros <- H. unfold gen_closed. cbn. rewrite lookup_app_l by exact H. reflexivity. Qed.
Lemma upd_gen_app s k g x : (g < length (S_gens s))%nat -> upd_gen (with_gens s (S_gens s ++ k)) g x = with_gens (upd_gen s g x) (S_gens (upd_gen s g x) ++ k).
Proof. intros H. unfold upd_gen, with_gens. cbn. rewrite insert_app_l by exact H. reflexivity. Qed.
Ltac frame_step := cbn [tstep]; unfold eval_gen, on_closed, gen_closed, flag_at, upd_gen, with_tables, with_gens, with_shutdown, with_conns, with_err, with_callbacks, with_cgens, with_tickers;
  cbn [S_shutdown S_shutdownErr S_gens S_conns S_callbacks S_tables S_lock S_cgens S_tickers]; rewrite ?lookup_app_l by lia;
  repeat (case_match; cbn [S_shutdown S_shutdownErr S_gens S_conns S_callbacks S_tables S_lock S_cgens S_tickers] in *; try discriminate); simplify_eq;
  cbn [after S_shutdown S_shutdownErr S_gens S_conns S_callbacks S_tables S_lock S_cgens S_tickers]; rewrite ?insert_app_l by lia; try reflexivity; try congruence.
Lemma tstep_reads E s t c v f : K_maxFPS (S_tables s) = E_maxFPS E -> holds s t -> meddles E v f -> (forall a, In a (accesses t) -> A_var a <> v) ->
  tstep E (f s) t c = after f (tstep E s t c).
Proof.
  intros Hf Hh M Ha. destruct M as [k Hk|ch|b|b|b|m|b|];
    destruct t; try (exfalso; eapply Ha; [ left; reflexivity | reflexivity ]); try (exfalso; eapply Ha; [ right; left; reflexivity | reflexivity ]);
      try (exfalso; eapply Ha; [ right; right; left; reflexivity | reflexivity ]); clear Ha; cbn in Hh; destruct c; try reflexivity;
      try solve [ assert (X : ticker_period k = ticker_period (S_tables s)) by (unfold ticker_period; rewrite Hf; rewrite Hk; reflexivity);
        cbn [tstep]; cbn [with_tables S_tables]; rewrite X; destruct (ticker_period (S_tables s)); reflexivity ]; frame_step.
Qed.
(** * The theorems *)
(** In every run the step a goroutine is about to take leaves every variable alone that it is not listed as writing; and if it is not listed as accessing a variable at all, then another value of this variable,
    whoever put it there, makes no difference: the same step is possible, with the same events, and has the same effect. *)
Theorem C81_accesses : forall E ls y tr i t c v, runs E ls y tr -> Y_threads y !! i = Some t ->
  (forall s' t' sp o, tstep E (Y_sh y) t c = Next s' t' sp o -> (forall a, In a (accesses t) -> A_var a = v -> A_write a = false) -> same v (Y_sh y) s') /\
  (forall f, meddles E v f -> (forall a, In a (accesses t) -> A_var a <> v) -> tstep E (f (Y_sh y)) t c = after f (tstep E (Y_sh y) t c)).
Proof.
  intros E ls y tr i t c v R Ht. pose proof (runs_ok _ _ _ _ R) as K. split.
  - intros s' t' sp o H Ha. exact (tstep_writes _ _ _ _ _ _ _ _ _ H Ha).
  - intros f M Ha. apply (tstep_reads E _ _ _ v); [ exact (reach_fps _ _ _ (ok_reach _ _ _ (sys_shared _ _ _ K))) | | exact M | exact Ha ].
    apply (t_inv_holds E). exact (Forall_lookup_1 _ _ _ _ (sys_threads _ _ _ K) Ht).
Qed.
(** The calls that are one step: RegisterCallback and DeregisterCallback change the callbacks, and only if they are listed as doing so. *)
Theorem C81_call_accesses : forall E y l y' o v, (forall i c, l <> LRun i c) -> exec E y l = RNext y' o ->
  (forall a, In a (call_accesses (Y_sh y) l) -> A_var a = v -> A_write a = false) -> same v (Y_sh y) (Y_sh y').
Proof.
  intros E y l y' o v Hl He Ha. destruct l; cbn in He; try (exfalso; eapply Hl; reflexivity); repeat case_match; try discriminate He; injection He as <- <-; unfold RegisterCallback, DeregisterCallback; cbn;
    destruct v; try reflexivity; try exact I; cbn in Ha; destruct (S_shutdown (Y_sh y)) eqn:Es; cbn; rewrite ?Es; try reflexivity; try discriminate;
    exfalso; discriminate (Ha (wr VCallbacks) (or_intror (or_introl eq_refl)) eq_refl).
Qed.
(** The lock: a goroutine listed as accessing the tables under the lock waits while another one holds it. *)
Theorem C81_lock : forall E s t c a, In a (accesses t) -> A_var a = VTables -> A_locked a = true -> S_lock s = true -> (forall fs, t <> DL_push fs) -> tstep E s t c = Blocked.
Proof.
  intros E s t c a Ha Hv Hk Hl Hn. destruct t; cbn in Ha; repeat (destruct Ha as [<-|Ha]; [ try discriminate Hv; try discriminate Hk | ]); try contradiction; try (exfalso; eapply Hn; reflexivity);
    destruct c; cbn; rewrite ?Hl; reflexivity.
Qed.

(** A handler about to look up its callback: other callbacks make a difference, the flag does not. *)
Example C81_accesses_ex : exists ls y tr i t m s2 t2 sp2 o2, runs node1 ls y tr /\ Y_threads y !! i = Some t /\ In (rd VCallbacks) (accesses t) /\ meddles node1 VCallbacks (fun s => with_callbacks s m) /\
  tstep node1 (Y_sh y) t CGo = Next s2 t2 sp2 o2 /\ tstep node1 (with_callbacks (Y_sh y) m) t CGo <> after (fun s => with_callbacks s m) (tstep node1 (Y_sh y) t CGo) /\
  (* and a variable it does not access *)
  (forall a, In a (accesses t) -> A_var a <> VFlag) /\ tstep node1 (with_shutdown (Y_sh y) true) t CGo = Next (with_shutdown s2 true) t2 sp2 o2.
Proof.
  destruct (tested_runs node1 (up_node ++ arrive 4 host2 SysScript.poll_bytes ++ parse 2) (fun _ y tr => match Y_threads y !! 5%nat with Some (H_start p) => bool_decide (S_callbacks (Y_sh y) !! GetOpCode p = Some HPoll) && match p with PktPoll _ => true | _ => false end | _ => false end))
    as (ls & y & tr & R & H); [ vm_compute; reflexivity | ].
  destruct (Y_threads y !! 5%nat) as [t|] eqn:Et; [ | discriminate H ]. destruct t; try discriminate H. apply andb_prop in H. destruct H as [H1 H2]. apply bool_decide_eq_true in H1. destruct p; try discriminate H2.
  eexists ls, y, tr, 5%nat, _, ∅, _, _, _, _. split; [ exact R | ]. split; [ exact Et | ]. split; [ left; reflexivity | ]. split; [ constructor | ]. split; [ cbn [tstep]; rewrite H1; reflexivity | ].
  split; [ cbn [tstep with_callbacks S_callbacks]; rewrite H1, lookup_empty; discriminate | ]. split; [ intros a [<-|[<-|[]]]; discriminate | cbn [tstep with_shutdown S_callbacks]; rewrite H1; reflexivity ].
Qed.

Definition P_Access_theorems := (C81_accesses, C81_call_accesses, C81_lock, C81_accesses_ex).
Print Assumptions P_Access_theorems.
