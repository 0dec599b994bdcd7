(** C99: SetOption at any time, in every run of Options.v. *)
From Verif Require Import WireSpec P_Config ControllerFacts P_Controller SysFacts SysLaws SysRun SysOrder SysScript P_Node P_Life P_Race Options.
From stdpp Require Import base list gmap.
Open Scope N_scope.

(** * Other options make other addresses *)
(** The same payload, thread, ... with the broadcast addresses of E. *)
Definition to_x (E : env) (x : tag * payload) : tag * payload :=
  match x with
  | (KReply, (_, d)) => (KReply, (E_nodeBroadcast E, d))
  | (KPoll, (_, d)) => (KPoll, (E_ctlBroadcast E, d))
  | (KDmx, f) => (KDmx, f)
  end.
Definition to_ch (E : env) (ch : chans) : chans := set_send ch (map (to_x E) (Q_send ch)).
Definition to_sh (E : env) (s : shared) : shared := with_gens s (to_ch E <$> S_gens s).
Definition to_t (E : env) (t : thread) : thread :=
  match t with SL_check x => SL_check (to_x E x) | SL_write x => SL_write (to_x E x) | t => t end.
Definition to_obs (E : env) (o : obs) : obs :=
  match o with OQueued x => OQueued (to_x E x) | OTx x => OTx (to_x E x) | ODrop x => ODrop (to_x E x) | o => o end.
Definition to_sys (E : env) (y : sys) : sys := mkSys (to_sh E (Y_sh y)) (to_t E <$> Y_threads y).
Definition to_out (E : env) (r : outcome) : outcome :=
  match r with Next s t sp o => Next (to_sh E s) (to_t E t) (to_t E <$> sp) (to_obs E <$> o) | Blocked => Blocked | Crash => Crash end.

(** Options do not touch these. *)
Definition alike (E E' : env) : Prop := E_ctl E' = E_ctl E /\ E_config E' = E_config E /\ E_localIP E' = E_localIP E.

Lemma last_index_map {A B} (f : A -> B) l : last_index (f <$> l) = last_index l.
Proof. unfold last_index. rewrite fmap_length. reflexivity. Qed.
Lemma to_upd E s g ch : upd_gen (to_sh E s) g (to_ch E ch) = to_sh E (upd_gen s g ch).
Proof. unfold upd_gen, to_sh, with_gens. cbn. rewrite list_fmap_insert. reflexivity. Qed.
Lemma to_closed E s g : gen_closed (to_sh E s) g = gen_closed s g.
Proof. unfold gen_closed, to_sh, with_gens. cbn. rewrite list_lookup_fmap. destruct (S_gens s !! g); reflexivity. Qed.
Lemma to_push E ch x : push (Q_send (to_ch E ch)) (to_x E x) = map (to_x E) <$> push (Q_send ch) x.
Proof. unfold push, to_ch. cbn. rewrite map_length. case_match; [ | reflexivity ]. cbn. rewrite map_app. reflexivity. Qed.
Lemma to_ch_send E ch q : set_send (to_ch E ch) (map (to_x E) q) = to_ch E (set_send ch q). Proof. reflexivity. Qed.
Lemma to_ch_recv E ch q : set_recv (to_ch E ch) q = to_ch E (set_recv ch q). Proof. reflexivity. Qed.
Lemma to_ch_poll E ch q : set_poll (to_ch E ch) q = to_ch E (set_poll ch q). Proof. reflexivity. Qed.
Lemma to_ch_reply E ch q : set_reply (to_ch E ch) q = to_ch E (set_reply ch q). Proof. reflexivity. Qed.
Lemma to_ch_closed E ch : set_closed (to_ch E ch) = to_ch E (set_closed ch). Proof. reflexivity. Qed.

Lemma to_tstep E E0 s t c : alike E0 E -> tstep E0 (to_sh E0 s) (to_t E0 t) c = to_out E0 (tstep E s t c).
Proof.
  intros (A1 & A2 & A3).
  destruct t; destruct c; try reflexivity; cbn [tstep to_t]; unfold eval_gen, on_closed; cbv zeta;
    rewrite ?A1, ?A2, ?A3, ?to_closed;
    change (S_shutdown (to_sh E0 s)) with (S_shutdown s); change (S_conns (to_sh E0 s)) with (S_conns s); change (S_callbacks (to_sh E0 s)) with (S_callbacks s);
    change (S_tables (to_sh E0 s)) with (S_tables s); change (S_lock (to_sh E0 s)) with (S_lock s); change (S_cgens (to_sh E0 s)) with (S_cgens s);
    change (S_tickers (to_sh E0 s)) with (S_tickers s); change (S_gens (to_sh E0 s)) with (to_ch E0 <$> S_gens s);
    rewrite ?last_index_map, ?list_lookup_fmap;
    try match goal with |- context [last_index (S_gens s)] => destruct (last_index (S_gens s)) as [g'|] eqn:Hl; try reflexivity; rewrite ?to_closed, ?list_lookup_fmap end;
    try match goal with |- context [to_ch E0 <$> (S_gens s !! ?g)] => destruct (S_gens s !! g) as [ch|] eqn:Hg; [ | reflexivity ]; cbn [fmap option_fmap option_map] end;
    try match goal with |- context [push (Q_send (to_ch E0 ?ch)) ?x] => 
     match goal with |- context [push (Q_send ch) ?x'] => change x with (to_x E0 x') end; rewrite to_push; destruct (push (Q_send ch) _); reflexivity || (cbn; rewrite <- to_upd; reflexivity) end;
    try reflexivity;
    try match goal with |- context [Q_poll (to_ch E0 ?ch)] => change (Q_poll (to_ch E0 ch)) with (Q_poll ch) end;
    try match goal with |- context [Q_recv (to_ch E0 ?ch)] => change (Q_recv (to_ch E0 ch)) with (Q_recv ch) end;
    try match goal with |- context [Q_reply (to_ch E0 ?ch)] => change (Q_reply (to_ch E0 ch)) with (Q_reply ch) end;
    try match goal with |- context [Q_closed (to_ch E0 ?ch)] => change (Q_closed (to_ch E0 ch)) with (Q_closed ch) end;
    try match goal with |- context [Q_send (to_ch E0 ?ch)] => change (Q_send (to_ch E0 ch)) with (map (to_x E0) (Q_send ch)); destruct (Q_send ch); cbn [map] end;
    rewrite ?to_ch_send, ?to_ch_recv, ?to_ch_poll, ?to_ch_reply, ?to_ch_closed;
    repeat match goal with |- context [match ?x with _ => _ end] => lazymatch x with context [match _ with _ => _ end] => fail | context [to_out] => fail | _ => destruct x eqn:?; try reflexivity end end;
    cbn [to_out]; rewrite <- ?to_upd; try reflexivity.
  unfold to_sh, with_shutdown, with_gens. cbn. rewrite fmap_app. reflexivity.
Qed.
Lemma to_exec E E0 y l : alike E0 E -> exec E0 (to_sys E0 y) l = match exec E y l with RNext y' o => RNext (to_sys E0 y') (to_obs E0 <$> o) | r => r end.
Proof.
  intros A. pose proof A as (A1 & _). destruct l; cbn [exec]; rewrite ?A1; unfold spawn.
  - cbn [to_sys Y_threads Y_sh]. rewrite list_lookup_fmap. destruct (Y_threads y !! i) as [t|]; [ | reflexivity ]. cbn [fmap option_fmap option_map].
    rewrite (to_tstep E E0 _ _ _ A). destruct (tstep E (Y_sh y) t c); try reflexivity. cbn [to_out]. unfold to_sys. cbn [Y_sh Y_threads].
    rewrite fmap_app, list_fmap_insert. reflexivity.
  - unfold to_sys. cbn. rewrite fmap_app. destruct (E_ctl E0); reflexivity.
  - unfold to_sys. cbn. rewrite fmap_app. destruct (E_ctl E0); reflexivity.
  - destruct (E_ctl E0); [ | reflexivity ]. unfold to_sys. cbn. rewrite fmap_app. reflexivity.
  - destruct (E_ctl E0); [ reflexivity | ]. unfold to_sys, RegisterCallback. cbn. destruct (negb (S_shutdown (Y_sh y))); reflexivity.
  - destruct (E_ctl E0); [ reflexivity | ]. unfold to_sys, DeregisterCallback. cbn. destruct (negb (S_shutdown (Y_sh y))); reflexivity.
Qed.
Lemma set_option_alike E o E' : set_option E o = Some E' -> alike E E'.
Proof. unfold set_option. destruct o as [o|o]; destruct (E_ctl E) eqn:K; intros H; try discriminate; injection H as <-; destruct o; repeat split. Qed.
Lemma alike_trans E1 E2 E3 : alike E1 E2 -> alike E2 E3 -> alike E1 E3.
Proof. unfold alike. intuition congruence. Qed.

(** A step of dmxUpdateLoop past its start leaves it there, and nothing else gets there. *)
Definition past (t : thread) : bool := is_dmx t && uses t.
Lemma past_step E s t c s' t' sp o : tstep E s t c = Next s' t' sp o -> (past t' = true -> past t = true \/ t = DL_start) /\ Forall (fun t => past t = false) sp.
Proof. intros H. tcases H; cbn; (split; [ auto; discriminate | repeat constructor ]). Qed.
(** No dmxUpdateLoop is started while maxFPS is different from what it was at first. *)
Definition steady (E0 : env) (z : osys) (l : olabel) : Prop :=
  forall i c, l = ODo (LRun i c) -> Y_threads (O_sys z) !! i = Some DL_start -> E_maxFPS (O_env z) = E_maxFPS E0.
(** The steps other than SetOption. *)
Fixpoint done (ls : list olabel) : list label :=
  match ls with [] => [] | OSet _ :: ls => done ls | ODo l :: ls => l :: done ls end.
Lemma done_app a b : done (a ++ b) = done a ++ done b.
Proof. induction a as [|[o|l] a IH]; cbn; [ reflexivity | exact IH | f_equal; exact IH ]. Qed.
Record osound (E0 : env) (z : osys) : Prop := {
  os_env : alike E0 (O_env z);
  os_loc : forall j, alike E0 (O_loc z j);
  os_fps : forall j t, Y_threads (O_sys z) !! j = Some t -> past t = true -> E_maxFPS (O_loc z j) = E_maxFPS E0;
}.
Lemma with_fps_same s fps : K_maxFPS (S_tables s) = fps -> with_fps s fps = s.
Proof. destruct s as [a b c d e [f g h i j k] l m n]. cbn. intros ->. reflexivity. Qed.
Lemma seen_steady E0 z l : osound E0 z -> steady E0 z (ODo l) -> K_maxFPS (S_tables (Y_sh (O_sys z))) = E_maxFPS E0 ->
  alike E0 (fst (seen z l)) /\ snd (seen z l) = O_sys z.
Proof.
  intros [A B C] S K. unfold seen. destruct l; try (split; [ exact A | reflexivity ]). specialize (S _ _ eq_refl). destruct (Y_threads (O_sys z) !! i) as [t|] eqn:Ht; [ | split; [ exact A | reflexivity ] ].
  cbv zeta. cbn [fst snd]. split; [ destruct (uses t); auto | ]. destruct (is_dmx t) eqn:D; [ | reflexivity ].
  destruct (O_sys z) as [s ts] eqn:Es. cbn [Y_sh Y_threads] in *. f_equal. apply with_fps_same. rewrite K. symmetry.
  destruct (uses t) eqn:U; [ apply (C i t); [ exact Ht | unfold past; rewrite D, U; reflexivity ] | ].
  destruct t; try discriminate D; try discriminate U. exact (S eq_refl).
Qed.
Lemma exec_past E y l y' o j t : exec E y l = RNext y' o -> Y_threads y' !! j = Some t -> past t = true ->
  (exists t0, Y_threads y !! j = Some t0 /\ past t0 = true) \/ exists c, l = LRun j c /\ Y_threads y !! j = Some DL_start.
Proof.
  intros He Hj Hp. apply exec_cases in He. destruct He as [(i & c & t1 & s & t' & sp & -> & Et & Es & ->)|[(t1 & -> & -> & Hk)|(mm & op & f & -> & -> & _)]]; cbn [Y_threads] in Hj.
  - destruct (past_step _ _ _ _ _ _ _ _ Es) as [P1 P2]. apply lookup_app_Some in Hj. destruct Hj as [Hj|[_ Hj]].
    + destruct (Nat.eq_dec i j) as [->|Hn].
      * rewrite list_lookup_insert in Hj by (eapply lookup_lt_Some; exact Et). injection Hj as ->. destruct (P1 Hp) as [P| ->]; [ left; eauto | right; exists c; auto ].
      * rewrite list_lookup_insert_ne in Hj by exact Hn. left. eauto.
    + rewrite (Forall_lookup_1 _ _ _ _ P2 Hj) in Hp. discriminate.
  - apply lookup_app_Some in Hj. destruct Hj as [Hj|[_ Hj]]; [ left; eauto | ]. apply elem_of_list_lookup_2 in Hj. apply elem_of_list_singleton in Hj. subst t1.
    destruct Hk as [[_ ->]|[[_ ->]|(dmx & a & _ & _ & ->)]]; try destruct (E_ctl E); discriminate.
  - left. eauto.
Qed.
Lemma simulate (allow : osys -> olabel -> Prop) E0 ls z tr : (forall z l, allow z l -> steady E0 z l) -> oruns allow E0 ls z tr ->
  osound E0 z /\ runs E0 (done ls) (to_sys E0 (O_sys z)) (to_obs E0 <$> tr).
Proof.
  intros HS R. unfold oruns in R. remember (oinit E0) as z0 eqn:E. revert E. induction R as [|z0 ls z1 tr l z2 o R IH Ha Hl He]; intros ->.
  - split; [ | constructor ]. split; [ repeat split | intros j; repeat split | ]. intros j t H. cbn in H. rewrite lookup_nil in H. discriminate.
  - destruct (IH eq_refl) as [[A B C] RR]. specialize (HS _ _ Ha). rewrite done_app, fmap_app.
    destruct l as [o'|l]; cbn [oexec] in He.
    + destruct (set_option (O_env z1) o') as [E'|] eqn:Ho; [ | discriminate ]. injection He as <- <-. cbn [done O_sys]. cbn [fmap list_fmap]. rewrite !app_nil_r. split; [ | exact RR ].
      split; cbn [O_env O_loc O_sys]; auto. eapply alike_trans; [ exact A | exact (set_option_alike _ _ _ Ho) ].
    + pose proof (reach_fps _ _ _ (ok_reach _ _ _ (sys_shared _ _ _ (runs_ok _ _ _ _ RR)))) as K. cbn [to_sys Y_sh] in K. change (S_tables (to_sh E0 (Y_sh (O_sys z1)))) with (S_tables (Y_sh (O_sys z1))) in K.
      destruct (seen_steady E0 z1 l (Build_osound _ _ A B C) HS K) as [A' Hs]. rewrite Hs in He.
      pose proof (to_exec _ E0 (O_sys z1) l A') as X. destruct (exec (fst (seen z1 l)) (O_sys z1) l) as [| |y o'] eqn:Hx; try discriminate. injection He as <- <-.
      split.
      * split; cbn [O_env O_loc O_sys].
        -- exact A.
        -- intros j. unfold remember. destruct l; auto. destruct (Y_threads (O_sys z1) !! i) as [t|]; auto. destruct (reads t); auto. destruct (decide (j = i)); auto.
        -- intros j t Hj Hp. destruct (exec_past _ _ _ _ _ _ _ Hx Hj Hp) as [(t0 & H1 & H2)|(c & -> & H1)].
           ++ specialize (C _ _ H1 H2). unfold remember. destruct l; auto. destruct (Y_threads (O_sys z1) !! i) as [t1|] eqn:Ht1; auto. destruct (reads t1) eqn:Hr; auto.
              destruct (decide (j = i)) as [->|]; [ | exact C ]. rewrite Ht1 in H1. injection H1 as ->. destruct t0; discriminate.
           ++ unfold remember. rewrite H1. cbn [reads]. rewrite decide_True by reflexivity. exact (HS _ _ eq_refl H1).
      * cbn [done O_sys]. eapply steps_snoc; [ exact RR | exact Hl | exact X ].
Qed.

(** Options set at any time change nothing but the destination of polls and replies: every run with SetOption is, apart from these destinations, a run without, and stops, blocks or crashes where that one
    does. (MaxFPS may be set as well, as long as no dmxUpdateLoop starts before it is set back.) *)
Theorem C99_addresses_only : forall E0 ls z tr, oruns (steady E0) E0 ls z tr ->
  runs E0 (done ls) (to_sys E0 (O_sys z)) (to_obs E0 <$> tr) /\
  forall l, steady E0 z (ODo l) -> (oexec z (ODo l) = OCrash <-> exec E0 (to_sys E0 (O_sys z)) l = RCrash) /\ (oexec z (ODo l) = OBlocked <-> exec E0 (to_sys E0 (O_sys z)) l = RBlocked).
Proof.
  intros E0 ls z tr R. destruct (simulate _ _ _ _ _ (fun _ _ H => H) R) as [S RR]. split; [ exact RR | ]. intros l Hl.
  pose proof (reach_fps _ _ _ (ok_reach _ _ _ (sys_shared _ _ _ (runs_ok _ _ _ _ RR)))) as K. cbn [to_sys Y_sh] in K. change (S_tables (to_sh E0 (Y_sh (O_sys z)))) with (S_tables (Y_sh (O_sys z))) in K.
  destruct (seen_steady E0 z l S Hl K) as [A Hs]. cbn [oexec]. rewrite Hs, (to_exec _ E0 (O_sys z) l A). destruct (exec (fst (seen z l)) (O_sys z) l); split; split; intros H; try discriminate H; reflexivity.
Qed.
(** In particular everything transmitted is valid Art-Net (C71), whatever options are set meanwhile. *)
Theorem C99_transmits_artnet : forall E0 ls z tr k dst d, wf_config (E_config E0) -> C_Type (E_config E0) <= 6 -> oruns (steady E0) E0 ls z tr ->
  In (OTx (k, (dst, d))) tr -> exists p, wire_accepts d p /\ Unmarshal d = Ret (Some p, None).
Proof.
  intros E0 ls z tr k dst d Hc Ht R H. destruct (C99_addresses_only _ _ _ _ R) as [RR _].
  assert (X : exists dst', In (OTx (k, (dst', d))) (to_obs E0 <$> tr)).
  { apply (in_map (to_obs E0)) in H. cbn [to_obs] in H. destruct k; cbn [to_x] in H; eexists; exact H. }
  destruct X as [dst' X]. destruct (C71_transmits_artnet _ _ _ _ _ _ _ Hc Ht RR X) as (p & P1 & P2 & _). eauto.
Qed.

(** * Which addresses *)
Definition x_ok (P : tag * payload -> Prop) (o : obs) : Prop := match o with OQueued x | OTx x | ODrop x => P x | _ => True end.
Definition t_x (P : tag * payload -> Prop) (t : thread) : Prop := match t with SL_check x | SL_write x => P x | _ => True end.
Definition carries (P : tag * payload -> Prop) (s : shared) : Prop := forall g ch, S_gens s !! g = Some ch -> Forall P (Q_send ch).
Lemma carries_upd P s g ch : carries P s -> Forall P (Q_send ch) -> carries P (upd_gen s g ch).
Proof.
  intros H K g' ch' Hg. unfold upd_gen in Hg. cbn in Hg. destruct (Nat.eq_dec g g') as [->|Hn].
  - destruct (decide (g' < length (S_gens s))%nat); [ rewrite list_lookup_insert in Hg by assumption; injection Hg as <-; exact K | ]. rewrite list_insert_ge in Hg by lia. exact (H _ _ Hg).
  - rewrite list_lookup_insert_ne in Hg by exact Hn. exact (H _ _ Hg).
Qed.
Lemma push_Forall {A} (P : A -> Prop) q x q' : push q x = Some q' -> Forall P q -> P x -> Forall P q'.
Proof. unfold push. destruct (length q <? chan_cap)%nat; [ | discriminate ]. intros H; injection H as <-. intros F K. apply Forall_app. split; [ exact F | ]. repeat constructor. exact K. Qed.
Lemma carries_step E (P : tag * payload -> Prop) s t c s' t' sp o :
  (forall me g, t = PR_sending me g -> P (KReply, (E_nodeBroadcast E, me))) -> (forall pb g, t = CP_sending pb g -> P (KPoll, (E_ctlBroadcast E, pb))) -> (forall f, P (KDmx, f)) ->
  carries P s -> t_x P t -> tstep E s t c = Next s' t' sp o -> carries P s' /\ t_x P t' /\ Forall (t_x P) sp /\ Forall (x_ok P) o.
Proof.
  intros P1 P2 P3 Hc Ht H. tcases H; cbn [t_x x_ok] in *; (split; [ | split; [ | split ] ]);
    try exact Hc; try exact I; try (repeat constructor; fail); try exact Ht; try (repeat constructor; assumption);
    try (apply carries_upd; [ exact Hc | ]; cbn; try (eapply Hc; eassumption)).
  - eapply push_Forall; [ eassumption | eapply Hc; eassumption | eapply P1; reflexivity ].
  - repeat constructor. eapply P1; reflexivity.
  - match goal with G : S_gens s !! _ = Some _, Q : Q_send _ = _ |- _ => pose proof (Hc _ _ G) as F; rewrite Q in F end. inversion F; assumption.
  - match goal with G : S_gens s !! _ = Some _, Q : Q_send _ = _ |- _ => pose proof (Hc _ _ G) as F; rewrite Q in F end. inversion F; assumption.
  - eapply push_Forall; [ eassumption | eapply Hc; eassumption | eapply P2; reflexivity ].
  - repeat constructor. eapply P2; reflexivity.
  - eapply push_Forall; [ eassumption | eapply Hc; eassumption | apply P3 ].
  - repeat constructor. apply P3.
  - intros g ch Hg. cbn in Hg. apply lookup_app_Some in Hg. destruct Hg as [Hg|[_ Hg]]; [ exact (Hc _ _ Hg) | ]. apply elem_of_list_lookup_2 in Hg. apply elem_of_list_singleton in Hg. subst ch. constructor.
Qed.
Lemma carries_exec E (P : tag * payload -> Prop) y l y' o :
  (forall i c me g, l = LRun i c -> Y_threads y !! i = Some (PR_sending me g) -> P (KReply, (E_nodeBroadcast E, me))) ->
  (forall i c pb g, l = LRun i c -> Y_threads y !! i = Some (CP_sending pb g) -> P (KPoll, (E_ctlBroadcast E, pb))) -> (forall f, P (KDmx, f)) ->
  carries P (Y_sh y) -> Forall (t_x P) (Y_threads y) -> exec E y l = RNext y' o -> carries P (Y_sh y') /\ Forall (t_x P) (Y_threads y') /\ Forall (x_ok P) o.
Proof.
  intros P1 P2 P3 Hc Ht He. apply exec_cases in He. destruct He as [(i & c & t & s & t' & sp & -> & Et & Es & ->)|[(t & -> & -> & Hk)|(mm & op & f & -> & -> & _)]]; cbn [Y_threads Y_sh].
  - destruct (carries_step E P _ _ _ _ _ _ _ (fun me g K => P1 i c me g eq_refl (eq_trans Et (f_equal Some K))) (fun pb g K => P2 i c pb g eq_refl (eq_trans Et (f_equal Some K))) P3 Hc (Forall_lookup_1 _ _ _ _ Ht Et) Es) as (A & B & C & D).
    split; [ exact A | split; [ | exact D ] ]. apply Forall_app. split; [ | exact C ]. apply Forall_insert; assumption.
  - split; [ exact Hc | split; [ | constructor ] ]. apply Forall_app. split; [ exact Ht | ]. repeat constructor. destruct Hk as [[_ ->]|[[_ ->]|(dmx & a & _ & _ & ->)]]; try destruct (E_ctl E); exact I.
  - split; [ exact Hc | split; [ exact Ht | repeat constructor ] ].
Qed.
Lemma seen_threads z l : Y_threads (snd (seen z l)) = Y_threads (O_sys z).
Proof. unfold seen. destruct l; try reflexivity. destruct (Y_threads (O_sys z) !! i) as [t|]; [ | reflexivity ]. cbn. destruct (is_dmx t); reflexivity. Qed.
Lemma seen_carries P z l : carries P (Y_sh (O_sys z)) -> carries P (Y_sh (snd (seen z l))).
Proof. unfold seen. destruct l; auto. destruct (Y_threads (O_sys z) !! i) as [t|]; auto. cbn. destruct (is_dmx t); auto. Qed.
Lemma seen_sending z i c t : Y_threads (O_sys z) !! i = Some t -> uses t = true -> fst (seen z (LRun i c)) = O_loc z i.
Proof. intros H U. unfold seen. rewrite H. cbn. rewrite U. reflexivity. Qed.

(** Only addresses that were set are ever used, for polls those of the controller, for replies those of the node. (In a controller SetOption reaches c.broadcastAddr only, so its own replies keep going to
    the default address: C54.) *)
Definition polls_to (E0 : env) (ls : list olabel) (a : UDPAddr) : Prop := a = E_ctlBroadcast E0 \/ In (OSet (SetC (BroadcastAddr a))) ls.
Definition replies_to (E0 : env) (ls : list olabel) (a : UDPAddr) : Prop := a = E_nodeBroadcast E0 \/ E_ctl E0 = false /\ In (OSet (SetN (NodeBroadcastAddress a))) ls.
Definition to_set (E0 : env) (ls : list olabel) (x : tag * payload) : Prop :=
  match x with (KPoll, (a, _)) => polls_to E0 ls a | (KReply, (a, _)) => replies_to E0 ls a | (KDmx, _) => True end.
Lemma polls_to_app E0 ls l a : polls_to E0 ls a -> polls_to E0 (ls ++ l) a.
Proof. intros [H|H]; [ left; exact H | right; apply in_or_app; auto ]. Qed.
Lemma replies_to_app E0 ls l a : replies_to E0 ls a -> replies_to E0 (ls ++ l) a.
Proof. intros [H|[H K]]; [ left; exact H | right; split; [ exact H | apply in_or_app; auto ] ]. Qed.
Lemma to_set_app E0 ls l x : to_set E0 ls x -> to_set E0 (ls ++ l) x.
Proof. destruct x as [[] [a d]]; cbn; auto using polls_to_app, replies_to_app. Qed.
Theorem C99_addresses_set : forall E0 ls z tr k a d, oruns (fun _ _ => True) E0 ls z tr -> In (OQueued (k, (a, d))) tr \/ In (OTx (k, (a, d))) tr ->
  (k = KPoll -> a = E_ctlBroadcast E0 \/ In (OSet (SetC (BroadcastAddr a))) ls) /\
  (k = KReply -> a = E_nodeBroadcast E0 \/ E_ctl E0 = false /\ In (OSet (SetN (NodeBroadcastAddress a))) ls).
Proof.
  intros E0 ls z tr k a d R.
  assert (G : (E_ctl (O_env z) = E_ctl E0 /\ polls_to E0 ls (E_ctlBroadcast (O_env z)) /\ replies_to E0 ls (E_nodeBroadcast (O_env z))) /\
              (forall j, polls_to E0 ls (E_ctlBroadcast (O_loc z j)) /\ replies_to E0 ls (E_nodeBroadcast (O_loc z j))) /\
              carries (to_set E0 ls) (Y_sh (O_sys z)) /\ Forall (t_x (to_set E0 ls)) (Y_threads (O_sys z)) /\ Forall (x_ok (to_set E0 ls)) tr).
  { unfold oruns in R. remember (oinit E0) as z0 eqn:E. revert E. induction R as [|z0 ls z1 tr l z2 o R IH Ha Hl He]; intros ->.
    - unfold polls_to, replies_to. cbn. repeat split; auto. intros g ch H. cbn in H. rewrite lookup_nil in H. discriminate.
    - destruct (IH eq_refl) as ((A0 & A1 & A2) & B & C & D & F). clear IH.
      assert (C' : carries (to_set E0 (ls ++ [l])) (Y_sh (O_sys z1))) by (intros g ch Hg; eapply Forall_impl; [ exact (C _ _ Hg) | intros x; apply to_set_app ]).
      assert (D' : Forall (t_x (to_set E0 (ls ++ [l]))) (Y_threads (O_sys z1))) by (eapply Forall_impl; [ exact D | intros t; destruct t; cbn; auto using to_set_app ]).
      assert (F' : Forall (x_ok (to_set E0 (ls ++ [l]))) tr) by (eapply Forall_impl; [ exact F | intros b; destruct b; cbn; auto using to_set_app ]).
      assert (B' : forall j, polls_to E0 (ls ++ [l]) (E_ctlBroadcast (O_loc z1 j)) /\ replies_to E0 (ls ++ [l]) (E_nodeBroadcast (O_loc z1 j)))
        by (intros j; destruct (B j); auto using polls_to_app, replies_to_app).
      destruct l as [o'|l]; cbn [oexec] in He.
      + destruct (set_option (O_env z1) o') as [E'|] eqn:Ho; [ | discriminate ]. injection He as <- <-. cbn [O_env O_sys O_loc]. rewrite app_nil_r.
        split; [ | auto ]. unfold set_option in Ho. destruct o' as [o'|o']; destruct (E_ctl (O_env z1)) eqn:Ec; try discriminate; injection Ho as <-.
        * destruct o'; cbn; (split; [ congruence | split ]); try (apply polls_to_app; exact A1); try (apply replies_to_app; exact A2).
          right. split; [ congruence | ]. apply in_or_app. right. left. reflexivity.
        * destruct o'; cbn; (split; [ congruence | split ]); try (apply polls_to_app; exact A1); try (apply replies_to_app; exact A2).
          right. apply in_or_app. right. left. reflexivity.
      + destruct (exec (fst (seen z1 l)) (snd (seen z1 l)) l) as [| |y o'] eqn:Hx; try discriminate. injection He as <- <-. cbn [O_env O_sys O_loc].
        assert (X : carries (to_set E0 (ls ++ [ODo l])) (Y_sh y) /\ Forall (t_x (to_set E0 (ls ++ [ODo l]))) (Y_threads y) /\ Forall (x_ok (to_set E0 (ls ++ [ODo l]))) o').
        { eapply carries_exec; [ | | | apply seen_carries; exact C' | rewrite seen_threads; exact D' | exact Hx ].
          - intros i c me g -> Hi. rewrite seen_threads in Hi. rewrite (seen_sending z1 i c _ Hi eq_refl). apply B'.
          - intros i c pb g -> Hi. rewrite seen_threads in Hi. rewrite (seen_sending z1 i c _ Hi eq_refl). apply B'.
          - intros f. exact I. }
        destruct X as (X1 & X2 & X3). split; [ split; [ exact A0 | auto using polls_to_app, replies_to_app ] | ]. split; [ | split; [ exact X1 | split; [ exact X2 | apply Forall_app; auto ] ] ].
        intros j. unfold remember. destruct l; auto. destruct (Y_threads (O_sys z1) !! i) as [t|]; auto. destruct (reads t); auto. destruct (decide (j = i)); auto using polls_to_app, replies_to_app. }
  intros H. destruct G as (_ & _ & _ & _ & G). rewrite Forall_forall in G.
  assert (X : to_set E0 ls (k, (a, d))) by (destruct H as [H|H]; apply elem_of_list_In in H; exact (G _ H)).
  split; intros ->; exact X.
Qed.

(** A new address is used from the next poll (reply) on: everything queued by a goroutine that was not just sending. *)
Definition sending (t : thread) : bool := match t with PR_sending _ _ | CP_sending _ _ => true | _ => false end.
Definition keeps_addresses (l : olabel) : Prop := match l with OSet (SetC (BroadcastAddr _)) | OSet (SetN (NodeBroadcastAddress _)) => False | _ => True end.
Lemma sending_step E s t c s' t' sp o : tstep E s t c = Next s' t' sp o -> (sending t' = true -> reads t = true) /\ Forall (fun t => sending t = false) sp.
Proof. intros H. tcases H; cbn; (split; [ auto; discriminate | repeat constructor ]). Qed.
Definition fresh_x (E : env) (x : tag * payload) : Prop := match x with (KPoll, (a, _)) => a = E_ctlBroadcast E | (KReply, (a, _)) => a = E_nodeBroadcast E | (KDmx, _) => True end.
Definition queued_ok (P : tag * payload -> Prop) (o : obs) : Prop := match o with OQueued x => P x | _ => True end.
Lemma queued_step E (P : tag * payload -> Prop) s t c s' t' sp o :
  (forall me g, t = PR_sending me g -> P (KReply, (E_nodeBroadcast E, me))) -> (forall pb g, t = CP_sending pb g -> P (KPoll, (E_ctlBroadcast E, pb))) -> (forall f, P (KDmx, f)) ->
  tstep E s t c = Next s' t' sp o -> Forall (queued_ok P) o.
Proof. intros P1 P2 P3 H. tcases H; repeat constructor; cbn; eauto. Qed.
Theorem C99_takes_effect : forall z ls z' tr k a d, osteps (fun _ _ => True) z ls z' tr -> (forall j t, Y_threads (O_sys z) !! j = Some t -> sending t = false) -> Forall keeps_addresses ls ->
  In (OQueued (k, (a, d))) tr -> (k = KPoll -> a = E_ctlBroadcast (O_env z)) /\ (k = KReply -> a = E_nodeBroadcast (O_env z)).
Proof.
  intros z ls z' tr k a d R Hz Hls Hin.
  assert (G : (E_ctlBroadcast (O_env z') = E_ctlBroadcast (O_env z) /\ E_nodeBroadcast (O_env z') = E_nodeBroadcast (O_env z)) /\
              (forall j t, Y_threads (O_sys z') !! j = Some t -> sending t = true -> E_ctlBroadcast (O_loc z' j) = E_ctlBroadcast (O_env z) /\ E_nodeBroadcast (O_loc z' j) = E_nodeBroadcast (O_env z)) /\
              Forall (queued_ok (fresh_x (O_env z))) tr).
  { clear Hin. induction R as [|z ls z1 tr l z2 o R IH Ha Hl He].
    - split; [ auto | ]. split; [ | constructor ]. intros j t H1 H2. rewrite (Hz j t H1) in H2. discriminate.
    - apply Forall_app in Hls. destruct Hls as [Hls Hk]. inversion Hk as [|? ? K _]; subst. destruct (IH Hz Hls) as ((A1 & A2) & B & C). clear IH Hls Hk.
      destruct l as [o'|l]; cbn [oexec] in He.
      + destruct (set_option (O_env z1) o') as [E'|] eqn:Ho; [ | discriminate ]. injection He as <- <-. cbn [O_env O_sys O_loc]. rewrite app_nil_r. split; [ | auto ].
        unfold set_option in Ho. destruct o' as [o'|o']; destruct (E_ctl (O_env z1)) eqn:Ec; try discriminate; injection Ho as <-; destruct o'; try contradiction; auto.
      + destruct (exec (fst (seen z1 l)) (snd (seen z1 l)) l) as [| |y o'] eqn:Hx; try discriminate. injection He as <- <-. cbn [O_env O_sys O_loc]. split; [ auto | ].
        apply exec_cases in Hx. rewrite ?seen_threads in Hx. destruct Hx as [(i & c & t & s & t' & sp & -> & Et & Es & ->)|[(t & -> & -> & Hk)|(mm & op & f & -> & -> & _)]]; cbn [Y_threads].
        * rewrite ?seen_threads in *. destruct (sending_step _ _ _ _ _ _ _ _ Es) as [S1 S2]. split.
          -- intros j u Hj Hu. unfold remember. rewrite Et. apply lookup_app_Some in Hj. destruct Hj as [Hj|[_ Hj]]; [ | rewrite (Forall_lookup_1 _ _ _ _ S2 Hj) in Hu; discriminate ].
             destruct (Nat.eq_dec i j) as [->|Hn].
             ++ rewrite list_lookup_insert in Hj by (eapply lookup_lt_Some; exact Et). injection Hj as ->. rewrite (S1 Hu), decide_True by reflexivity. auto.
             ++ rewrite list_lookup_insert_ne in Hj by exact Hn. destruct (reads t); [ rewrite decide_False by congruence | ]; eapply B; eassumption.
          -- apply Forall_app. split; [ exact C | ]. eapply queued_step; [ | | | exact Es ].
             ++ intros me g ->. rewrite (seen_sending z1 i c _ Et eq_refl). cbn. apply (B i _ Et eq_refl).
             ++ intros pb g ->. rewrite (seen_sending z1 i c _ Et eq_refl). cbn. apply (B i _ Et eq_refl).
             ++ intros f. exact I.
        * rewrite app_nil_r, ?seen_threads. split; [ | exact C ]. intros j u Hj Hu. apply lookup_app_Some in Hj. destruct Hj as [Hj|[_ Hj]].
          -- destruct (B j u Hj Hu) as [B1 B2]. unfold remember. destruct l; auto. destruct (Y_threads (O_sys z1) !! i) as [t1|]; auto. destruct (reads t1); auto. destruct (decide (j = i)); auto.
          -- apply elem_of_list_lookup_2 in Hj. apply elem_of_list_singleton in Hj. subst t. destruct Hk as [[_ ->]|[[_ ->]|(dmx & a' & _ & _ & ->)]]; try (match type of Hu with context [if ?b then _ else _] => destruct b end); discriminate.
        * rewrite ?seen_threads. split; [ | apply Forall_app; split; [ exact C | repeat constructor ] ]. intros j u Hj Hu. destruct (B j u Hj Hu) as [B1 B2].
          unfold remember. destruct l; auto. destruct (Y_threads (O_sys z1) !! i) as [t1|]; auto. destruct (reads t1); auto. destruct (decide (j = i)); auto. }
  destruct G as (_ & _ & G). rewrite Forall_forall in G. apply elem_of_list_In in Hin. specialize (G _ Hin). split; intros ->; exact G.
Qed.

(** * MaxFPS *)
(** The same values apart from maxFPS. *)
Definition refps (E : env) (fps : Z) : env := mkEnv (E_ctl E) (E_config E) (E_localIP E) (E_listen E) (E_nodeBroadcast E) (E_ctlBroadcast E) fps.
Lemma exec_refps E fps y l : exec (refps E fps) y l = exec E y l.
Proof. destruct l; reflexivity. Qed.
Definition but_fps (E E' : env) : Prop := E' = refps E (E_maxFPS E').
Lemma but_fps_exec E E' y l : but_fps E E' -> exec E' y l = exec E y l.
Proof. intros ->. apply exec_refps. Qed.
Lemma but_fps_set E E' o E1 : but_fps E E' -> set_option E o = Some E1 -> exists E1', set_option E' o = Some E1' /\ but_fps E1 E1'.
Proof.
  intros -> H. unfold set_option in *. cbn [E_ctl refps] in *. destruct o as [o|o]; destruct (E_ctl E) eqn:Ec; try discriminate; injection H as <-; eexists; (split; [ reflexivity | ]);
    destruct o; unfold but_fps, refps; cbn; congruence.
Qed.
(** No dmxUpdateLoop is starting. *)
Definition running (z : osys) (l : olabel) : Prop := forall i c, l = ODo (LRun i c) -> Y_threads (O_sys z) !! i <> Some DL_start.
Record twin (z z' : osys) : Prop := {
  tw_sys : O_sys z' = O_sys z;
  tw_env : but_fps (O_env z) (O_env z');
  tw_loc : forall j, but_fps (O_loc z j) (O_loc z' j);
  tw_fps : forall j t, Y_threads (O_sys z) !! j = Some t -> past t = true -> E_maxFPS (O_loc z' j) = E_maxFPS (O_loc z j)
}.
Lemma twin_step z z' l z1 o : twin z z' -> running z l -> oexec z l = ONext z1 o -> exists z1', oexec z' l = ONext z1' o /\ twin z1 z1'.
Proof.
  intros [A B C D] Hr He. destruct l as [o'|l]; cbn [oexec] in *.
  - destruct (set_option (O_env z) o') as [E1|] eqn:Ho; [ | discriminate ]. injection He as <- <-. destruct (but_fps_set _ _ _ _ B Ho) as (E1' & -> & B1).
    eexists. split; [ reflexivity | ]. split; cbn [O_sys O_env O_loc]; auto.
  - assert (X : exec (fst (seen z' l)) (snd (seen z' l)) l = exec (fst (seen z l)) (snd (seen z l)) l).
    { unfold seen. rewrite A. destruct l; try (cbn [fst snd]; apply but_fps_exec; exact B). specialize (Hr _ _ eq_refl). destruct (Y_threads (O_sys z) !! i) as [t|] eqn:Ht; cbv zeta; cbn [fst snd]; [ | apply but_fps_exec; exact B ].
      destruct (is_dmx t) eqn:Dm.
      - assert (U : uses t = true) by (destruct t; try discriminate Dm; try reflexivity; exfalso; apply Hr; reflexivity). rewrite U.
        rewrite (D i t Ht) by (unfold past; rewrite Dm, U; reflexivity). apply but_fps_exec. apply C.
      - apply but_fps_exec. destruct (uses t); auto. }
    rewrite X. destruct (exec (fst (seen z l)) (snd (seen z l)) l) as [| |y o'] eqn:Hx; try discriminate. injection He as <- <-. eexists. split; [ reflexivity | ].
    split; cbn [O_sys O_env O_loc].
    + reflexivity.
    + exact B.
    + intros j. unfold remember. rewrite A. destruct l; auto. destruct (Y_threads (O_sys z) !! i) as [t|]; auto. destruct (reads t); auto. destruct (decide (j = i)); auto.
    + intros j t Hj Hp. destruct (exec_past _ _ _ _ _ _ _ Hx Hj Hp) as [(t0 & H1 & H2)|(c & -> & H1)]; rewrite seen_threads in H1.
      * specialize (D _ _ H1 H2). unfold remember. rewrite A. destruct l; auto. destruct (Y_threads (O_sys z) !! i) as [t1|] eqn:Ht1; auto. destruct (reads t1) eqn:Hre; auto.
        destruct (decide (j = i)) as [->|]; [ | exact D ]. rewrite Ht1 in H1. injection H1 as ->. destruct t0; discriminate.
      * exfalso. exact (Hr _ _ eq_refl H1).
Qed.
(** MaxFPS set on a running controller has no effect at all until the next Start: everything can go on exactly as if it had not been set, and in no other way. *)
Theorem C99_maxfps_ignored_refuted : forall z ls z' tr fps z1 o1, osteps running z ls z' tr -> oexec z (OSet (SetC (MaxFPS fps))) = ONext z1 o1 ->
  exists z1', osteps running z1 ls z1' (o1 ++ tr) /\ O_sys z1' = O_sys z'.
Proof.
  intros z ls z' tr fps z1 o1 R H. cbn [oexec set_option] in H. destruct (E_ctl (O_env z)); [ | discriminate ]. injection H as <- <-. cbn [app].
  assert (G : exists z1', osteps running (mkOsys (ctl_option (O_env z) (MaxFPS fps)) (O_sys z) (O_loc z)) ls z1' tr /\ twin z' z1').
  { induction R as [z|z ls z1 tr l z2 o R IH Ha Hl He].
    - eexists. split; [ constructor | ]. split; cbn [O_sys O_env O_loc]; auto; [ reflexivity | ]. intros j. unfold but_fps. destruct (O_loc z j). reflexivity.
    - destruct IH as (w & Rw & Tw). destruct (twin_step _ _ _ _ _ Tw Ha He) as (w' & Ew & Tw'). exists w'. split; [ | exact Tw' ].
      eapply osteps_snoc; [ exact Rw | | exact Hl | exact Ew ]. unfold running in *. rewrite (tw_sys _ _ Tw). exact Ha. }
  destruct G as (z1' & R' & T). exists z1'. split; [ exact R' | exact (tw_sys _ _ T) ].
Qed.
Theorem C99_maxfps_no_other : forall z ls fps z1 o1 z1' tr, oexec z (OSet (SetC (MaxFPS fps))) = ONext z1 o1 -> osteps running z1 ls z1' tr ->
  exists z', osteps running z ls z' tr /\ O_sys z' = O_sys z1'.
Proof.
  intros z ls fps z1 o1 z1' tr H R. cbn [oexec set_option] in H. destruct (E_ctl (O_env z)); [ | discriminate ]. injection H as E0 _.
  assert (G : exists z', osteps running z ls z' tr /\ twin z1' z').
  { induction R as [q|q ls z2 tr l z3 o R IH Ha Hl He].
    - subst q. eexists. split; [ constructor | ]. split; cbn [O_sys O_env O_loc]; auto.
      + unfold but_fps, refps. destruct (O_env z). reflexivity.
      + intros j. unfold but_fps. destruct (O_loc z j). reflexivity.
    - destruct (IH E0) as (w & Rw & Tw). destruct (twin_step _ _ _ _ _ Tw Ha He) as (w' & Ew & Tw'). exists w'. split; [ | exact Tw' ].
      eapply osteps_snoc; [ exact Rw | | exact Hl | exact Ew ]. unfold running in *. rewrite (tw_sys _ _ Tw). exact Ha. }
  destruct G as (z' & R' & T). exists z'. split; [ exact R' | exact (tw_sys _ _ T) ].
Qed.
(** It counts from the next Start on: the ticks of loops started after MaxFPS was set use it, and the start crashes exactly if no ticker can be made with it. *)
Definition keeps_fps (l : olabel) : Prop := match l with OSet (SetC (MaxFPS _)) => False | _ => True end.
Definition tick_fps (fps : Z) (o : obs) : Prop := match o with OTable s (ETick _ _) _ => K_maxFPS s = fps | _ => True end.
Lemma tick_step E s t c s' t' sp o fps : (is_dmx t = true -> uses t = true -> K_maxFPS (S_tables s) = fps) -> tstep E s t c = Next s' t' sp o -> Forall (tick_fps fps) o.
Proof. intros K H. tcases H; repeat constructor; cbn; auto. Qed.
Theorem C99_maxfps_next_start : forall z ls z' tr s order now out, osteps (fun _ _ => True) z ls z' tr -> (forall j t, Y_threads (O_sys z) !! j = Some t -> past t = false) -> Forall keeps_fps ls ->
  In (OTable s (ETick order now) out) tr -> K_maxFPS s = E_maxFPS (O_env z).
Proof.
  intros z ls z' tr s order now out R Hz Hls Hin.
  assert (G : E_maxFPS (O_env z') = E_maxFPS (O_env z) /\ (forall j t, Y_threads (O_sys z') !! j = Some t -> past t = true -> E_maxFPS (O_loc z' j) = E_maxFPS (O_env z)) /\
              Forall (tick_fps (E_maxFPS (O_env z))) tr).
  { clear Hin. induction R as [|z ls z1 tr l z2 o R IH Ha Hl He].
    - split; [ reflexivity | ]. split; [ | constructor ]. intros j t H1 H2. rewrite (Hz j t H1) in H2. discriminate.
    - apply Forall_app in Hls. destruct Hls as [Hls Hk]. inversion Hk as [|? ? K _]; subst. destruct (IH Hz Hls) as (A & B & C). clear IH Hls Hk.
      destruct l as [o'|l]; cbn [oexec] in He.
      + destruct (set_option (O_env z1) o') as [E'|] eqn:Ho; [ | discriminate ]. injection He as <- <-. cbn [O_env O_sys O_loc]. rewrite app_nil_r. split; [ | auto ].
        unfold set_option in Ho. destruct o' as [o'|o']; destruct (E_ctl (O_env z1)) eqn:Ec; try discriminate; injection Ho as <-; destruct o'; try contradiction; auto.
      + destruct (exec (fst (seen z1 l)) (snd (seen z1 l)) l) as [| |y o'] eqn:Hx; try discriminate. injection He as <- <-. cbn [O_env O_sys O_loc]. split; [ exact A | ]. split.
        * intros j t Hj Hp. destruct (exec_past _ _ _ _ _ _ _ Hx Hj Hp) as [(t0 & H1 & H2)|(c & -> & H1)]; rewrite seen_threads in H1.
          -- specialize (B _ _ H1 H2). unfold remember. destruct l; auto. destruct (Y_threads (O_sys z1) !! i) as [t1|] eqn:Ht1; auto. destruct (reads t1) eqn:Hre; auto. destruct (decide (j = i)); auto.
          -- unfold remember. rewrite H1. cbn [reads]. rewrite decide_True by reflexivity. exact A.
        * apply Forall_app. split; [ exact C | ]. apply exec_cases in Hx. destruct Hx as [(i & c & t & s1 & t' & sp & -> & Et & Es & ->)|[(t & -> & -> & Hk)|(mm & op & f & -> & -> & _)]]; try (repeat constructor; fail).
          rewrite seen_threads in Et. eapply tick_step; [ | exact Es ]. intros D U. unfold seen. rewrite Et. cbv zeta. cbn [snd]. rewrite D. cbn [Y_sh with_fps with_tables S_tables K_maxFPS]. rewrite U.
          apply (B i t Et). unfold past. rewrite D, U. reflexivity. }
  destruct G as (_ & _ & G). rewrite Forall_forall in G. apply elem_of_list_In in Hin. exact (G _ Hin).
Qed.
Theorem C99_bad_maxfps : forall z i, Y_threads (O_sys z) !! i = Some DL_start ->
  (oexec z (ODo (LRun i CGo)) = OCrash <-> E_maxFPS (O_env z) <= 0 \/ 1000000000 < E_maxFPS (O_env z))%Z.
Proof.
  intros z i H. cbn [oexec seen]. rewrite H. cbv zeta. cbn [uses is_dmx fst snd]. cbn [exec Y_threads]. rewrite H. cbn [tstep Y_sh]. unfold ticker_period. cbn [with_fps with_tables S_tables K_maxFPS].
  set (f := E_maxFPS (O_env z)). destruct (Z.eqb_spec f 0) as [->|Hf]; [ split; [ left; lia | reflexivity ] | ]. cbv zeta.
  destruct (Z.leb_spec (Z.quot 1000000000 f) 0) as [Hq|Hq].
  - split; [ intros _ | reflexivity ]. destruct (Z.le_gt_cases f 0); [ auto | right ]. destruct (Z.lt_ge_cases 1000000000 f); [ assumption | exfalso ].
    rewrite Z.quot_div_nonneg in Hq by lia. pose proof (Z.div_str_pos 1000000000 f ltac:(lia)). lia.
  - split; [ discriminate | ]. intros [K|K]; exfalso.
    + pose proof (Z.quot_opp_r 1000000000 (- f) ltac:(lia)) as Q. rewrite Z.opp_involutive in Q. pose proof (Z.quot_pos 1000000000 (- f) ltac:(lia) ltac:(lia)). lia.
    + rewrite Z.quot_small in Hq by lia. lia.
Qed.

(** * Before the first Start *)
(** Setting options on a new node or controller is the same as giving them to the constructor. *)
Lemma sets_ctl os : forall z, E_ctl (O_env z) = true -> osteps (fun _ _ => True) z (map (fun o => OSet (SetC o)) os) (mkOsys (fold_left ctl_option os (O_env z)) (O_sys z) (O_loc z)) [].
Proof.
  induction os as [|o os IH] using rev_ind; intros z H; [ destruct z; constructor | ]. rewrite map_app, fold_left_app. cbn [map fold_left]. change (@nil obs) with (@nil obs ++ []).
  eapply osteps_snoc; [ exact (IH z H) | exact I | exact I | ]. cbn [oexec set_option O_env O_sys O_loc].
  assert (K : forall os E, E_ctl (fold_left ctl_option os E) = E_ctl E) by (clear; intros os; induction os as [|o os IH]; intros E; [ reflexivity | cbn; rewrite IH; destruct o; reflexivity ]).
  rewrite K, H. reflexivity.
Qed.
Lemma sets_node os : forall z, E_ctl (O_env z) = false -> osteps (fun _ _ => True) z (map (fun o => OSet (SetN o)) os) (mkOsys (fold_left node_option os (O_env z)) (O_sys z) (O_loc z)) [].
Proof.
  induction os as [|o os IH] using rev_ind; intros z H; [ destruct z; constructor | ]. rewrite map_app, fold_left_app. cbn [map fold_left]. change (@nil obs) with (@nil obs ++ []).
  eapply osteps_snoc; [ exact (IH z H) | exact I | exact I | ]. cbn [oexec set_option O_env O_sys O_loc].
  assert (K : forall os E, E_ctl (fold_left node_option os E) = E_ctl E) by (clear; intros os; induction os as [|o os IH]; intros E; [ reflexivity | cbn; rewrite IH; destruct o; reflexivity ]).
  rewrite K, H. reflexivity.
Qed.
Theorem C99_before_start : forall name ip,
  (forall opts os, exists z, oruns (fun _ _ => True) (NewController_env name ip opts) (map (fun o => OSet (SetC o)) os) z [] /\ O_env z = NewController_env name ip (opts ++ os) /\ Y_threads (O_sys z) = []) /\
  (forall style opts os, exists z, oruns (fun _ _ => True) (NewNode name style ip opts) (map (fun o => OSet (SetN o)) os) z [] /\ O_env z = NewNode name style ip (opts ++ os) /\ Y_threads (O_sys z) = []).
Proof.
  intros name ip. split; intros; eexists.
  - split; [ apply sets_ctl | ]; [ | split; [ | reflexivity ] ].
    + unfold NewController_env. cbv zeta. match goal with |- context [fold_left _ _ ?E0] => destruct (ctl_options opts E0) as (K & _) end. cbn [oinit O_env]. rewrite K. reflexivity.
    + unfold NewController_env. cbv zeta. cbn [O_env oinit]. rewrite <- fold_left_app. reflexivity.
  - split; [ apply sets_node | ]; [ | split; [ | reflexivity ] ].
    + unfold NewNode. cbn [oinit O_env]. assert (K : forall os E, E_ctl (fold_left node_option os E) = E_ctl E) by (clear; intros os; induction os as [|o os IH]; intros E; [ reflexivity | cbn; rewrite IH; destruct o; reflexivity ]).
      rewrite K. reflexivity.
    + unfold NewNode. cbn [O_env oinit]. rewrite <- fold_left_app. reflexivity.
Qed.

(** * Witnesses *)
Fixpoint oplay (ok : osys -> olabel -> bool) (z : osys) (fs : list (sys -> olabel)) : option (list olabel * osys * list obs) :=
  match fs with
  | [] => Some ([], z, [])
  | f :: fs =>
      let l := f (O_sys z) in
      if (match l with ODo l => label_okb l | _ => true end) && ok z l then
        match oexec z l with
        | ONext z' o => match oplay ok z' fs with Some (ls, z'', tr) => Some (l :: ls, z'', o ++ tr) | None => None end
        | _ => None
        end
      else None
  end.
Lemma oplay_ok ok (allow : osys -> olabel -> Prop) fs : (forall z l, ok z l = true -> allow z l) -> forall z0 ls0 z tr0 ls z' tr, osteps allow z0 ls0 z tr0 ->
  oplay ok z fs = Some (ls, z', tr) -> osteps allow z0 (ls0 ++ ls) z' (tr0 ++ tr).
Proof.
  intros A. induction fs as [|f fs IH]; intros z0 ls0 z tr0 ls z' tr R H; cbn [oplay] in H.
  - injection H as <- <- <-. rewrite !app_nil_r. exact R.
  - cbv zeta in H. destruct (match f (O_sys z) with ODo l => label_okb l | _ => true end) eqn:Hl; [ | discriminate ]. destruct (ok z (f (O_sys z))) eqn:Ho; [ | discriminate ]. cbn [andb] in H.
    destruct (oexec z (f (O_sys z))) as [| |z1 o] eqn:He; try discriminate. destruct (oplay ok z1 fs) as [[[ls1 z2] tr1]|] eqn:Hp; [ | discriminate ]. injection H as <- <- <-.
    assert (R1 : osteps allow z0 (ls0 ++ [f (O_sys z)]) z1 (tr0 ++ o)).
    { eapply osteps_snoc; [ exact R | exact (A _ _ Ho) | | exact He ]. destruct (f (O_sys z)); [ exact I | apply label_okb_ok; exact Hl ]. }
    pose proof (IH _ _ _ _ _ _ _ R1 Hp) as K. rewrite <- !app_assoc in K. exact K.
Qed.
Definition does (fs : script) : list (sys -> olabel) := map (fun f y => ODo (f y)) fs.
Definition setting_now (o : setting) : list (sys -> olabel) := [fun _ => OSet o].
Definition otested (ok : osys -> olabel -> bool) (E : env) (fs1 fs2 : list (sys -> olabel)) (P : list olabel -> osys -> list obs -> list olabel -> osys -> list obs -> bool) : bool :=
  match oplay ok (oinit E) fs1 with
  | Some (ls1, z1, tr1) => match oplay ok z1 fs2 with Some (ls2, z2, tr2) => P ls1 z1 tr1 ls2 z2 tr2 | None => false end
  | None => false
  end.
Lemma otested_ok ok (allow : osys -> olabel -> Prop) E fs1 fs2 P : (forall z l, ok z l = true -> allow z l) -> otested ok E fs1 fs2 P = true ->
  exists ls1 z1 tr1 ls2 z2 tr2, oruns allow E ls1 z1 tr1 /\ osteps allow z1 ls2 z2 tr2 /\ P ls1 z1 tr1 ls2 z2 tr2 = true.
Proof.
  intros A. unfold otested. destruct (oplay ok (oinit E) fs1) as [[[ls1 z1] tr1]|] eqn:Hp; [ | discriminate ]. destruct (oplay ok z1 fs2) as [[[ls2 z2] tr2]|] eqn:Hq; [ | discriminate ]. intros H.
  exists ls1, z1, tr1, ls2, z2, tr2. split; [ exact (oplay_ok ok allow fs1 A _ _ _ _ _ _ _ (osteps_nil _ _) Hp) | ]. split; [ exact (oplay_ok ok allow fs2 A _ _ _ _ _ _ _ (osteps_nil _ _) Hq) | exact H ].
Qed.
Definition steadyb (E0 : env) (z : osys) (l : olabel) : bool :=
  match l with ODo (LRun i _) => match Y_threads (O_sys z) !! i with Some DL_start => (E_maxFPS (O_env z) =? E_maxFPS E0)%Z | _ => true end | _ => true end.
Lemma steadyb_ok E0 z l : steadyb E0 z l = true -> steady E0 z l.
Proof. intros H i c -> K. cbn in H. rewrite K in H. apply Z.eqb_eq. exact H. Qed.
Definition runningb (z : osys) (l : olabel) : bool :=
  match l with ODo (LRun i _) => match Y_threads (O_sys z) !! i with Some DL_start => false | _ => true end | _ => true end.
Lemma runningb_ok z l : runningb z l = true -> running z l.
Proof. intros H i c -> K. cbn in H. rewrite K in H. discriminate. Qed.

Definition net2 : UDPAddr := ([192; 168; 1; 255], 6454).
Definition isb (P : Prop) `{Decision P} : bool := bool_decide P.
Definition to_of (tr : list obs) : list (tag * UDPAddr) := collect (fun o => match o with OTx (k, (a, _)) => [(k, a)] | _ => [] end) tr.

(** Not at once: a controller is just sending a poll when the address is set; the poll still goes to the old address, the next one to the new one. *)
Theorem C99_at_once_refuted : exists ls z tr ls' z' tr', oruns (steady ctl1) ctl1 ls z tr /\ E_ctlBroadcast (O_env z) = net2 /\
  osteps (steady ctl1) z ls' z' tr' /\ Forall (fun l => exists m, l = ODo m) ls' /\ to_of tr' = [(KPoll, defaultBroadcastAddr); (KReply, defaultBroadcastAddr); (KPoll, net2)].
Proof.
  destruct (otested_ok (steadyb ctl1) (steady ctl1) ctl1 (does (up_ctl ++ go_n 4 1) ++ setting_now (SetC (BroadcastAddr net2)))
     (does (go_n 4 4 ++ go_n 1 3 ++ transmit 3 ++ transmit 3 ++ act (LRun 4 CPollTick) ++ go_n 4 2 ++ transmit 3))
     (fun ls1 z1 tr1 ls2 z2 tr2 => isb (E_ctlBroadcast (O_env z1) = net2) && forallb (fun l => match l with ODo _ => true | _ => false end) ls2 &&
        isb (to_of tr2 = [(KPoll, defaultBroadcastAddr); (KReply, defaultBroadcastAddr); (KPoll, net2)])))
    as (ls1 & z1 & tr1 & ls2 & z2 & tr2 & R1 & R2 & H); [ exact (steadyb_ok ctl1) | vm_compute; reflexivity | ].
  apply andb_prop in H. destruct H as [H H3]. apply andb_prop in H. destruct H as [H1 H2]. apply bool_decide_eq_true in H1, H3. exists ls1, z1, tr1, ls2, z2, tr2.
  split; [ exact R1 | ]. split; [ exact H1 | ]. split; [ exact R2 | ]. split; [ | exact H3 ].
  apply Forall_forall. intros l Hl. rewrite forallb_forall in H2. apply elem_of_list_In in Hl. specialize (H2 _ Hl). destruct l; [ discriminate | eauto ].
Qed.
(** A data race: pollLoop is about to read c.broadcastAddr and SetOption about to write it, nothing orders the two, and which of them is first makes a difference. *)
Theorem C99_race_refuted : exists ls z tr pb za zb, oruns (steady ctl1) ctl1 ls z tr /\ Y_threads (O_sys z) !! 4%nat = Some (CP_send pb) /\
  osteps (fun _ _ => True) z [OSet (SetC (BroadcastAddr net2)); ODo (LRun 4 CGo); ODo (LRun 4 CGo)] za [OQueued (KPoll, (net2, pb))] /\
  osteps (fun _ _ => True) z [ODo (LRun 4 CGo); OSet (SetC (BroadcastAddr net2)); ODo (LRun 4 CGo)] zb [OQueued (KPoll, (defaultBroadcastAddr, pb))].
Proof.
  destruct (otested_ok (steadyb ctl1) (steady ctl1) ctl1 (does up_ctl) []
     (fun ls1 z1 tr1 ls2 z2 tr2 =>
        match Y_threads (O_sys z1) !! 4%nat with
        | Some (CP_send pb) =>
            match oplay (fun _ _ => true) z1 [fun _ => OSet (SetC (BroadcastAddr net2)); fun _ => ODo (LRun 4 CGo); fun _ => ODo (LRun 4 CGo)],
                  oplay (fun _ _ => true) z1 [fun _ => ODo (LRun 4 CGo); fun _ => OSet (SetC (BroadcastAddr net2)); fun _ => ODo (LRun 4 CGo)] with
            | Some (_, _, [OQueued (KPoll, (a, p))]), Some (_, _, [OQueued (KPoll, (a', p'))]) => isb (a = net2 /\ a' = defaultBroadcastAddr /\ p = pb /\ p' = pb)
            | _, _ => false end
        | _ => false
        end))
    as (ls1 & z1 & tr1 & ls2 & z2 & tr2 & R1 & R2 & H); [ exact (steadyb_ok ctl1) | vm_compute; reflexivity | ].
  destruct (Y_threads (O_sys z1) !! 4%nat) as [[]|] eqn:Ht; try discriminate.
  destruct (oplay _ z1 [fun _ => OSet _; _; _]) as [[[la za] ta]|] eqn:Ha; [ | discriminate ]. destruct ta as [|[ | | | | | | | |[[] [a p]]| | | | | | | | | |] [|]]; try discriminate.
  destruct (oplay _ z1 [fun _ => ODo _; _; _]) as [[[lb zb] tb]|] eqn:Hb; [ | discriminate ]. destruct tb as [|[ | | | | | | | |[[] [a' p']]| | | | | | | | | |] [|]]; try discriminate.
  apply bool_decide_eq_true in H. destruct H as (-> & -> & -> & ->). exists ls1, z1, tr1, pb, za, zb. split; [ exact R1 | ]. split; [ exact Ht | ].
  pose proof (oplay_ok _ (fun _ _ => True) _ (fun _ _ _ => I) _ _ _ _ _ _ _ (osteps_nil _ z1) Ha) as Ka.
  pose proof (oplay_ok _ (fun _ _ => True) _ (fun _ _ _ => I) _ _ _ _ _ _ _ (osteps_nil _ z1) Hb) as Kb.
  assert (Ea : la = [OSet (SetC (BroadcastAddr net2)); ODo (LRun 4 CGo); ODo (LRun 4 CGo)]).
  { clear -Ha. cbn [oplay label_okb andb] in Ha. repeat case_match; simplify_eq; reflexivity. }
  assert (Eb : lb = [ODo (LRun 4 CGo); OSet (SetC (BroadcastAddr net2)); ODo (LRun 4 CGo)]).
  { clear -Hb. cbn [oplay label_okb andb] in Hb. repeat case_match; simplify_eq; reflexivity. }
  rewrite Ea in Ka. rewrite Eb in Kb. split; assumption.
Qed.
(** A run meeting the hypotheses of C99_addresses_only, C99_transmits_artnet, C99_addresses_set and C99_takes_effect: a controller polls, gets another address while waiting, and polls again. *)
Example C99_ex : exists ls z tr ls' z' tr', oruns (steady ctl1) ctl1 ls z tr /\ osteps (steady ctl1) z ls' z' tr' /\ wf_config (E_config ctl1) /\ C_Type (E_config ctl1) <= 6 /\
  (forall j t, Y_threads (O_sys z) !! j = Some t -> sending t = false) /\ Forall keeps_addresses ls' /\
  to_of tr = [(KPoll, defaultBroadcastAddr)] /\ E_ctlBroadcast (O_env z) = net2 /\ to_of tr' = [(KPoll, net2)].
Proof.
  destruct (otested_ok (steadyb ctl1) (steady ctl1) ctl1 (does (up_ctl ++ go_n 4 5 ++ transmit 3) ++ setting_now (SetC (BroadcastAddr net2)))
     (setting_now (SetC (MaxFPS 30)) ++ does (act (LRun 4 CPollTick) ++ go_n 4 2 ++ transmit 3))
     (fun ls1 z1 tr1 ls2 z2 tr2 => forallb (fun t => negb (sending t)) (Y_threads (O_sys z1)) && forallb (fun l => match l with ODo _ | OSet (SetC (MaxFPS _)) => true | _ => false end) ls2 &&
        isb (to_of tr1 = [(KPoll, defaultBroadcastAddr)] /\ E_ctlBroadcast (O_env z1) = net2 /\ to_of tr2 = [(KPoll, net2)])))
    as (ls1 & z1 & tr1 & ls2 & z2 & tr2 & R1 & R2 & H); [ exact (steadyb_ok ctl1) | vm_compute; reflexivity | ].
  apply andb_prop in H. destruct H as [H H3]. apply andb_prop in H. destruct H as [H1 H2]. apply bool_decide_eq_true in H3. exists ls1, z1, tr1, ls2, z2, tr2.
  split; [ exact R1 | ]. split; [ exact R2 | ]. split; [ apply new_config_wf; repeat constructor | ]. split; [ discriminate | ]. split; [ | split; [ | exact H3 ] ].
  - intros j t Hj. rewrite forallb_forall in H1. apply elem_of_list_lookup_2, elem_of_list_In in Hj. specialize (H1 _ Hj). destruct (sending t); [ discriminate | reflexivity ].
  - apply Forall_forall. intros l Hl. rewrite forallb_forall in H2. apply elem_of_list_In in Hl. specialize (H2 _ Hl). destruct l as [[]|]; try discriminate; [ destruct o; try discriminate | ]; exact I.
Qed.
(** MaxFPS set on a running controller (C99_maxfps_ignored_refuted, C99_maxfps_no_other): the next tick still has the default of 1000; after a restart it has the new value. *)
Definition ticks_at (tr : list obs) : list Z := collect (fun o => match o with OTable s (ETick _ _) _ => [K_maxFPS s] | _ => [] end) tr.
Example C99_maxfps_ex : exists ls z tr z1 ls' z' tr', oruns (fun _ _ => True) ctl1 ls z tr /\ oexec z (OSet (SetC (MaxFPS 30))) = ONext z1 [] /\ osteps running z1 ls' z' tr' /\ ticks_at tr' = [1000%Z].
Proof.
  destruct (otested_ok (fun _ _ => true) (fun _ _ => True) ctl1 (does up_ctl) []
     (fun ls1 z1 tr1 ls2 z2 tr2 => match oexec z1 (OSet (SetC (MaxFPS 30))) with
        | ONext z3 [] => match oplay runningb z3 (does (tick 5 7%Z)) with Some (_, _, tr) => isb (ticks_at tr = [1000%Z]) | None => false end | _ => false end))
    as (ls1 & z1 & tr1 & ls2 & z2 & tr2 & R1 & R2 & H); [ exact (fun _ _ _ => I) | vm_compute; reflexivity | ].
  destruct (oexec z1 (OSet (SetC (MaxFPS 30)))) as [| |z3 [|]] eqn:H3; try discriminate. destruct (oplay runningb z3 (does (tick 5 7%Z))) as [[[ls4 z4] tr4]|] eqn:H4; [ | discriminate ]. apply bool_decide_eq_true in H.
  exists ls1, z1, tr1, z3, ls4, z4, tr4. split; [ exact R1 | ]. split; [ exact H3 | ]. split; [ exact (oplay_ok runningb running _ runningb_ok _ _ _ _ _ _ _ (osteps_nil _ z3) H4) | exact H ].
Qed.
Example C99_restart_ex : exists ls z tr ls' z' tr', oruns (fun _ _ => True) ctl1 ls z tr /\ osteps (fun _ _ => True) z ls' z' tr' /\
  (forall j t, Y_threads (O_sys z) !! j = Some t -> past t = false) /\ Forall keeps_fps ls' /\ ticks_at tr = [1000%Z] /\ E_maxFPS (O_env z) = 30%Z /\ ticks_at tr' = [30%Z].
Proof.
  destruct (otested_ok (fun _ _ => true) (fun _ _ => True) ctl1 (does (up_ctl ++ tick 5 7%Z ++ go_n 5 2 ++ stop_ctl 7 ++ act (LRun 5 CDown)) ++ setting_now (SetC (MaxFPS 30)))
     (does (act LStart ++ go_n 8 4 ++ go_n 13 2 ++ tick 13 9%Z))
     (fun ls1 z1 tr1 ls2 z2 tr2 => forallb (fun t => negb (past t)) (Y_threads (O_sys z1)) && forallb (fun l => match l with ODo _ => true | _ => false end) ls2 &&
        isb (ticks_at tr1 = [1000%Z] /\ E_maxFPS (O_env z1) = 30%Z /\ ticks_at tr2 = [30%Z])))
    as (ls1 & z1 & tr1 & ls2 & z2 & tr2 & R1 & R2 & H); [ exact (fun _ _ _ => I) | vm_compute; reflexivity | ].
  apply andb_prop in H. destruct H as [H H3]. apply andb_prop in H. destruct H as [H1 H2]. apply bool_decide_eq_true in H3. exists ls1, z1, tr1, ls2, z2, tr2.
  split; [ exact R1 | ]. split; [ exact R2 | ]. split; [ | split; [ | exact H3 ] ].
  - intros j t Hj. rewrite forallb_forall in H1. apply elem_of_list_lookup_2, elem_of_list_In in Hj. specialize (H1 _ Hj). destruct (past t); [ discriminate | reflexivity ].
  - apply Forall_forall. intros l Hl. rewrite forallb_forall in H2. apply elem_of_list_In in Hl. specialize (H2 _ Hl). destruct l; [ discriminate | exact I ].
Qed.
(** MaxFPS(0) set on a running controller: the next Start crashes (C99_bad_maxfps). *)
Example C99_bad_ex : exists ls z tr, oruns (fun _ _ => True) ctl1 ls z tr /\ Y_threads (O_sys z) !! 13%nat = Some DL_start /\ E_maxFPS (O_env z) = 0%Z.
Proof.
  destruct (otested_ok (fun _ _ => true) (fun _ _ => True) ctl1 (does up_ctl ++ setting_now (SetC (MaxFPS 0)) ++ does (tick 5 7%Z ++ go_n 5 2 ++ stop_ctl 7 ++ act LStart ++ go_n 8 4)) []
     (fun ls1 z1 tr1 ls2 z2 tr2 => match Y_threads (O_sys z1) !! 13%nat with Some DL_start => (E_maxFPS (O_env z1) =? 0)%Z | _ => false end))
    as (ls1 & z1 & tr1 & ls2 & z2 & tr2 & R1 & R2 & H); [ exact (fun _ _ _ => I) | vm_compute; reflexivity | ].
  exists ls1, z1, tr1. split; [ exact R1 | ]. destruct (Y_threads (O_sys z1) !! 13%nat) as [[]|]; try discriminate. split; [ reflexivity | apply Z.eqb_eq; exact H ].
Qed.

Definition P_Options_theorems := (C99_addresses_only, C99_transmits_artnet, C99_addresses_set, C99_takes_effect, C99_maxfps_ignored_refuted, C99_maxfps_no_other, C99_maxfps_next_start, C99_bad_maxfps,
  C99_before_start, C99_at_once_refuted, C99_race_refuted, C99_ex, C99_maxfps_ex, C99_restart_ex, C99_bad_ex).
Print Assumptions P_Options_theorems.
