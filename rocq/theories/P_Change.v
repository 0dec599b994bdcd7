(** C106: n.Config assigned at any time, in every run of Changes.v. *)
From Verif Require Import WireSpec P_Config ControllerFacts P_Controller SysFacts SysLaws SysRun SysOrder SysScript P_Node P_Life P_Race Options P_Options Changes.
From stdpp Require Import base list gmap.
Open Scope N_scope.

(** The datagram with which a configuration is announced (config.go:68-94, packet/artpollreply.go). *)
Definition announces (cfg : NodeConfig) (d : list N) : Prop := snd (PollReply_MarshalBinary (ArtPollReplyFromConfig cfg)) = Ok d.
(** Configurations that n.Config had: the first one and those assigned. *)
Definition had (E : env) (ls : list clabel) (cfg : NodeConfig) : Prop := cfg = E_config E \/ In (CAssign cfg) ls.
Definition any (z : csys) (l : clabel) : Prop := True.

(** * What is announced *)
Definition t_me (M : list N -> Prop) (t : thread) : Prop := match t with PR_loop me | PR_wait me _ | PR_send me | PR_sending me _ => M me | _ => True end.
Definition reply_x (M : list N -> Prop) (x : tag * payload) : Prop := match x with (KReply, (_, d)) => M d | _ => True end.
Lemma me_step E (M : list N -> Prop) s t c s' t' sp o : (t = PR_start -> forall me, announces (E_config E) me -> M me) -> t_me M t ->
  tstep E s t c = Next s' t' sp o -> t_me M t' /\ Forall (t_me M) sp /\ Forall (queued_ok (reply_x M)) o.
Proof.
  intros HM Ht H. split; [ | split ].
  - tcases H; cbn [t_me] in *; auto.
  - tcases H; repeat constructor.
  - eapply (queued_step E (reply_x M)); [ | | | exact H ].
    + intros me g ->. exact Ht.
    + intros; exact I.
    + intros; exact I.
Qed.
(** [J] holds along the execution and pollReplyLoop begins only where its announcement satisfies [M]: then every reply queued satisfies M, and every reply transmitted if none was on its way before. *)
Section inv.
  Variables (allow : csys -> clabel -> Prop) (E : env) (J : csys -> Prop) (M : list N -> Prop).
  Hypothesis start_ok : forall z i me, J z -> Y_threads (G_sys z) !! i = Some PR_start -> announces (G_cfg z) me -> M me.
  Lemma inv_exec z l z' o : J z -> cexec E z l = CNext z' o -> Forall (t_me M) (Y_threads (G_sys z)) -> Forall (t_me M) (Y_threads (G_sys z')) /\ Forall (queued_ok (reply_x M)) o.
  Proof.
    intros Hj He Ht. destruct l as [cfg|l]; cbn [cexec] in He.
    - destruct (E_ctl E); [ discriminate | ]. injection He as <- <-. cbn. split; [ exact Ht | constructor ].
    - destruct (exec (with_config E (G_cfg z)) (G_sys z) l) as [| |y o'] eqn:Hx; try discriminate. injection He as <- <-. cbn [G_sys].
      apply exec_cases in Hx. destruct Hx as [(i & c & t & s & t' & sp & -> & Et & Es & ->)|[(t & -> & -> & Hk)|(mm & op & f & -> & -> & _)]]; cbn [Y_threads].
      + assert (K : t = PR_start -> forall me, announces (E_config (with_config E (G_cfg z))) me -> M me). { intros -> me Hm. exact (start_ok z i me Hj Et Hm). }
        destruct (me_step (with_config E (G_cfg z)) M _ _ _ _ _ _ _ K (Forall_lookup_1 _ _ _ _ Ht Et) Es) as (A & B & C).
        split; [ | exact C ]. apply Forall_app. split; [ apply Forall_insert; assumption | exact B ].
      + split; [ | constructor ]. apply Forall_app. split; [ exact Ht | ]. repeat constructor. destruct Hk as [[_ ->]|[[_ ->]|(dmx & a & _ & _ & ->)]]; try (match goal with |- context [if ?b then _ else _] => destruct b end); exact I.
      + split; [ exact Ht | repeat constructor ].
  Qed.
  Lemma inv_queued z ls z' tr : (forall z1 l z2 o, In l ls -> J z1 -> allow z1 l -> cexec E z1 l = CNext z2 o -> J z2) -> csteps allow E z ls z' tr -> J z -> Forall (t_me M) (Y_threads (G_sys z)) ->
    J z' /\ Forall (t_me M) (Y_threads (G_sys z')) /\ Forall (queued_ok (reply_x M)) tr.
  Proof.
    intros HJ R Hj Ht. induction R as [|z ls z1 tr l z2 o R IH Ha Hl He]; [ auto | ].
    destruct IH as (A & B & C); auto. { intros; eapply HJ; eauto. apply in_or_app; auto. }
    destruct (inv_exec _ _ _ _ A He B) as [D F]. split; [ eapply HJ; eauto; apply in_or_app; right; left; reflexivity | ]. split; [ exact D | apply Forall_app; auto ].
  Qed.
  Lemma inv_sent z ls z' tr : (forall z1 l z2 o, In l ls -> J z1 -> allow z1 l -> cexec E z1 l = CNext z2 o -> J z2) -> csteps allow E z ls z' tr -> J z -> Forall (t_me M) (Y_threads (G_sys z)) ->
    carries (reply_x M) (Y_sh (G_sys z)) -> Forall (t_x (reply_x M)) (Y_threads (G_sys z)) ->
    J z' /\ Forall (t_me M) (Y_threads (G_sys z')) /\ carries (reply_x M) (Y_sh (G_sys z')) /\ Forall (t_x (reply_x M)) (Y_threads (G_sys z')) /\ Forall (x_ok (reply_x M)) tr.
  Proof.
    intros HJ R Hj Ht Hc Hx. induction R as [|z ls z1 tr l z2 o R IH Ha Hl He]; [ auto 10 | ].
    destruct IH as (A & B & C & D & F); auto. { intros; eapply HJ; eauto. apply in_or_app; auto. }
    destruct (inv_exec _ _ _ _ A He B) as [G _]. split; [ eapply HJ; eauto; apply in_or_app; right; left; reflexivity | ]. split; [ exact G | ].
    destruct l as [cfg|l]; cbn [cexec] in He.
    - destruct (E_ctl E); [ discriminate | ]. injection He as <- <-. cbn. rewrite app_nil_r. auto.
    - destruct (exec (with_config E (G_cfg z1)) (G_sys z1) l) as [| |y o'] eqn:Hy; try discriminate. injection He as <- <-. cbn [G_sys].
      assert (X : carries (reply_x M) (Y_sh y) /\ Forall (t_x (reply_x M)) (Y_threads y) /\ Forall (x_ok (reply_x M)) o').
      { eapply carries_exec; [ | | | exact C | exact D | exact Hy ]; try (intros; exact I).
        intros i c me g _ Hi. exact (Forall_lookup_1 _ _ _ _ B Hi). }
      destruct X as (X1 & X2 & X3). split; [ exact X1 | split; [ exact X2 | apply Forall_app; auto ] ].
  Qed.
End inv.
Lemma reply_in M k dst d tr : Forall (x_ok (reply_x M)) tr -> In (OQueued (k, (dst, d))) tr \/ In (OTx (k, (dst, d))) tr -> k = KReply -> M d.
Proof. intros F H ->. rewrite Forall_forall in F. destruct H as [H|H]; apply elem_of_list_In in H; exact (F _ H). Qed.
Lemma init_carries E P : carries P (Y_sh (init E)).
Proof. intros g ch H. cbn in H. rewrite lookup_nil in H. discriminate. Qed.

(** Whenever n.Config is assigned: a reply announces, as a whole, one of the configurations that n.Config had. *)
Theorem C106_one_of_them : forall E ls z tr dst d, cruns any E ls z tr -> In (OQueued (KReply, (dst, d))) tr \/ In (OTx (KReply, (dst, d))) tr ->
  exists cfg, (cfg = E_config E \/ In (CAssign cfg) ls) /\ announces cfg d.
Proof.
  intros E ls z tr dst d R H.
  destruct (inv_sent any E (fun z => had E ls (G_cfg z)) (fun d => exists cfg, had E ls cfg /\ announces cfg d)
    (fun z1 i me Hj _ Ha => ex_intro _ (G_cfg z1) (conj Hj Ha)) (cinit E) ls z tr) as (_ & _ & _ & _ & F).
  - intros z1 l z2 o Hl Hj _ He. destruct l as [cfg|l]; cbn [cexec] in He.
    + destruct (E_ctl E); [ discriminate | ]. injection He as <- _. right. exact Hl.
    + destruct (exec _ _ l) as [| |y o']; try discriminate. injection He as <- _. exact Hj.
  - exact R.
  - left. reflexivity.
  - constructor.
  - apply init_carries.
  - constructor.
  - exact (reply_in _ _ _ _ _ F H eq_refl).
Qed.
(** If Config is left alone from some moment on at which no pollReplyLoop has read it already, every reply queued from then on announces it; every reply transmitted as well, if no other was on its way. *)
Definition no_replier (y : sys) : Prop := Forall (t_me (fun _ => False)) (Y_threads y).
Definition nothing_on_its_way (y : sys) : Prop := carries (reply_x (fun _ => False)) (Y_sh y) /\ Forall (t_x (reply_x (fun _ => False))) (Y_threads y).
Theorem C106_next_start : forall E z ls z' tr dst d, csteps any E z ls z' tr -> no_replier (G_sys z) -> (forall cfg, ~ In (CAssign cfg) ls) ->
  (In (OQueued (KReply, (dst, d))) tr -> announces (G_cfg z) d) /\
  (nothing_on_its_way (G_sys z) -> In (OTx (KReply, (dst, d))) tr -> announces (G_cfg z) d).
Proof.
  intros E z ls z' tr dst d R Hn Hls.
  assert (HJ : forall z1 l z2 o, In l ls -> G_cfg z1 = G_cfg z -> any z1 l -> cexec E z1 l = CNext z2 o -> G_cfg z2 = G_cfg z).
  { intros z1 l z2 o Hl Hj _ He. destruct l as [cfg|l]; [ destruct (Hls _ Hl) | ]. cbn [cexec] in He. destruct (exec _ _ l) as [| |y o']; try discriminate. injection He as <- _. exact Hj. }
  assert (HS : forall z1 i me, G_cfg z1 = G_cfg z -> Y_threads (G_sys z1) !! i = Some PR_start -> announces (G_cfg z1) me -> announces (G_cfg z) me) by (intros z1 i me <- _ H; exact H).
  assert (HT : Forall (t_me (announces (G_cfg z))) (Y_threads (G_sys z))) by (eapply Forall_impl; [ exact Hn | intros t; destruct t; cbn; tauto ]).
  split.
  - intros H. destruct (inv_queued any E _ _ HS z ls z' tr HJ R eq_refl HT) as (_ & _ & F). rewrite Forall_forall in F. apply elem_of_list_In in H. exact (F _ H).
  - intros [Hc Hx] H. destruct (inv_sent any E _ _ HS z ls z' tr HJ R eq_refl HT) as (_ & _ & _ & _ & F).
    + intros g ch Hg. eapply Forall_impl; [ exact (Hc _ _ Hg) | intros [[] [? ?]]; cbn; tauto ].
    + eapply Forall_impl; [ exact Hx | intros t; destruct t; cbn; auto; destruct x as [[] [? ?]]; cbn; tauto ].
    + exact (reply_in _ _ _ _ _ F (or_intror H) eq_refl).
Qed.

(** * Validation *)
(** Between validate (node.go:117) and pollReplyLoop reading Config (150). *)
Definition between (t : thread) : bool := match t with U_listen | PR_start => true | _ => false end.
(** Config is not assigned in between. *)
Definition orderly (z : csys) (l : clabel) : Prop := forall cfg, l = CAssign cfg -> Forall (fun t => between t = false) (Y_threads (G_sys z)).
Lemma between_step E s t c s' t' sp o : tstep E s t c = Next s' t' sp o ->
  (between t' = true -> between t = true \/ validate (E_config E) = None) /\ (Exists (fun t => between t = true) sp -> between t = true).
Proof. intros H. tcases H; cbn; (split; [ auto; discriminate | ]); intros K; try reflexivity; repeat (apply Exists_cons in K; destruct K as [K|K]; [ discriminate | ]); apply Exists_nil in K; contradiction. Qed.
Theorem C106_validated : forall E ls z tr dst d, cruns orderly E ls z tr -> In (OQueued (KReply, (dst, d))) tr \/ In (OTx (KReply, (dst, d))) tr ->
  exists cfg, (cfg = E_config E \/ In (CAssign cfg) ls) /\ validate cfg = None /\ announces cfg d.
Proof.
  intros E ls z tr dst d R H.
  destruct (inv_sent orderly E (fun z => had E ls (G_cfg z) /\ (Exists (fun t => between t = true) (Y_threads (G_sys z)) -> validate (G_cfg z) = None))
    (fun d => exists cfg, had E ls cfg /\ validate cfg = None /\ announces cfg d)) with (z := cinit E) (ls := ls) (z' := z) (tr := tr) as (_ & _ & _ & _ & F).
  - intros z1 i me [Hj Hv] Hi Ha. exists (G_cfg z1). split; [ exact Hj | ]. split; [ | exact Ha ]. apply Hv. apply Exists_exists. exists PR_start. split; [ | reflexivity ]. eapply elem_of_list_lookup_2; exact Hi.
  - intros z1 l z2 o Hl [Hj Hv] Ho He. destruct l as [cfg|l]; cbn [cexec] in He.
    + destruct (E_ctl E); [ discriminate | ]. injection He as <- _. cbn [G_cfg G_sys]. split; [ right; exact Hl | ]. specialize (Ho _ eq_refl). intros K.
      apply Exists_exists in K. destruct K as (t & Ht & K). rewrite Forall_forall in Ho. rewrite (Ho _ Ht) in K. discriminate.
    + destruct (exec _ _ l) as [| |y o'] eqn:Hx; try discriminate. injection He as <- _. cbn [G_cfg G_sys]. split; [ exact Hj | ].
      apply exec_cases in Hx. destruct Hx as [(i & c & t & s & t' & sp & -> & Et & Es & ->)|[(t & -> & -> & Hk)|(mm & op & f & -> & -> & _)]]; cbn [Y_threads].
      * destruct (between_step _ _ _ _ _ _ _ _ Es) as [B1 B2]. cbn [with_config E_config] in B1.
        assert (Hb : between t = true -> validate (G_cfg z1) = None) by (intros K; apply Hv; apply Exists_exists; exists t; split; [ eapply elem_of_list_lookup_2; exact Et | exact K ]).
        intros K. apply Exists_app in K. destruct K as [K|K]; [ | exact (Hb (B2 K)) ]. apply Exists_exists in K. destruct K as (u & Hu & K). apply elem_of_list_lookup in Hu. destruct Hu as [j Hu].
        destruct (Nat.eq_dec i j) as [->|Hn].
        -- rewrite list_lookup_insert in Hu by (eapply lookup_lt_Some; exact Et). injection Hu as ->. destruct (B1 K) as [K'|K']; [ exact (Hb K') | exact K' ].
        -- rewrite list_lookup_insert_ne in Hu by exact Hn. apply Hv. apply Exists_exists. exists u. split; [ eapply elem_of_list_lookup_2; exact Hu | exact K ].
      * intros K. apply Exists_app in K. destruct K as [K|K]; [ exact (Hv K) | ]. apply Exists_exists in K. destruct K as (u & Hu & K). apply elem_of_list_singleton in Hu. subst u.
        destruct Hk as [[_ ->]|[[_ ->]|(dmx & a & _ & _ & ->)]]; try (match type of K with context [if ?b then _ else _] => destruct b end); discriminate.
      * exact Hv.
  - exact R.
  - split; [ left; reflexivity | ]. cbn. intros K. apply Exists_nil in K. contradiction.
  - constructor.
  - apply init_carries.
  - constructor.
  - exact (reply_in _ _ _ _ _ F H eq_refl).
Qed.

(** * Assigning Config while the node runs has no effect before the next Start *)
Definition same_role (c1 c2 : NodeConfig) : Prop := C_Type c1 = StController <-> C_Type c2 = StController.
(** No Start, and no pollReplyLoop beginning. *)
Definition no_start (z : csys) (l : clabel) : Prop := forall i c, l = CDo (LRun i c) -> Y_threads (G_sys z) !! i <> Some U_start_node /\ Y_threads (G_sys z) !! i <> Some PR_start.
Lemma role_tstep E c1 c2 s t c : same_role c1 c2 -> t <> U_start_node -> t <> PR_start -> tstep (with_config E c1) s t c = tstep (with_config E c2) s t c.
Proof.
  intros S H1 H2. destruct t; try contradiction; try reflexivity. destruct c; try reflexivity. cbn [tstep with_config E_config].
  assert (K : (C_Type c1 =? StController) = (C_Type c2 =? StController)); [ | rewrite K; reflexivity ].
  unfold same_role in S. destruct (N.eqb_spec (C_Type c1) StController), (N.eqb_spec (C_Type c2) StController); tauto.
Qed.
Theorem C106_until_restart : forall E z ls z' tr cfg, csteps no_start E z ls z' tr -> same_role (G_cfg z) cfg ->
  exists z1, csteps no_start E (mkCsys cfg (G_sys z)) ls z1 tr /\ G_sys z1 = G_sys z' /\ same_role (G_cfg z') (G_cfg z1).
Proof.
  intros E z ls z' tr cfg R S. induction R as [|z ls z1 tr l z2 o R IH Ha Hl He].
  - exists (mkCsys cfg (G_sys z)). split; [ constructor | ]. split; [ reflexivity | exact S ].
  - destruct (IH S) as (w & Rw & Ew & Sw). destruct l as [c|l]; cbn [cexec] in He.
    + destruct (E_ctl E) eqn:Ec; [ discriminate | ]. injection He as <- <-. exists (mkCsys c (G_sys w)). split; [ | split; [ exact Ew | cbn; unfold same_role; tauto ] ].
      eapply csteps_snoc; [ exact Rw | intros i c' K; discriminate | exact I | cbn [cexec]; rewrite Ec; reflexivity ].
    + destruct (exec (with_config E (G_cfg z1)) (G_sys z1) l) as [| |y o'] eqn:Hx; try discriminate. injection He as <- <-. exists (mkCsys (G_cfg w) y). cbn [G_cfg G_sys].
      split; [ | split; [ reflexivity | exact Sw ] ]. eapply csteps_snoc; [ exact Rw | | exact Hl | ].
      * intros i c K. rewrite Ew. exact (Ha i c K).
      * cbn [cexec]. rewrite Ew. assert (X : exec (with_config E (G_cfg w)) (G_sys z1) l = RNext y o'); [ | rewrite X; reflexivity ]. rewrite <- Hx.
        destruct l; try reflexivity. cbn [exec]. destruct (Y_threads (G_sys z1) !! i) as [t|] eqn:Et; [ | reflexivity ]. destruct (Ha _ _ eq_refl) as [H1 H2].
        rewrite (role_tstep E (G_cfg w) (G_cfg z1)); [ reflexivity | unfold same_role in *; tauto | congruence | congruence ].
Qed.

(** * Everything else is as if Config had never been assigned *)
(** The same payload, thread, ... with the announcement me0. *)
Definition re_x (me0 : list N) (x : tag * payload) : tag * payload := match x with (KReply, (a, _)) => (KReply, (a, me0)) | x => x end.
Definition re_ch (me0 : list N) (ch : chans) : chans := set_send ch (map (re_x me0) (Q_send ch)).
Definition re_sh (me0 : list N) (s : shared) : shared := with_gens s (re_ch me0 <$> S_gens s).
Definition re_t (me0 : list N) (t : thread) : thread :=
  match t with
  | PR_loop _ => PR_loop me0 | PR_wait _ g => PR_wait me0 g | PR_send _ => PR_send me0 | PR_sending _ g => PR_sending me0 g
  | SL_check x => SL_check (re_x me0 x) | SL_write x => SL_write (re_x me0 x) | t => t
  end.
Definition re_obs (me0 : list N) (o : obs) : obs :=
  match o with OQueued x => OQueued (re_x me0 x) | OTx x => OTx (re_x me0 x) | ODrop x => ODrop (re_x me0 x) | o => o end.
Definition re_sys (me0 : list N) (y : sys) : sys := mkSys (re_sh me0 (Y_sh y)) (re_t me0 <$> Y_threads y).
Definition re_out (me0 : list N) (r : outcome) : outcome :=
  match r with Next s t sp o => Next (re_sh me0 s) (re_t me0 t) (re_t me0 <$> sp) (re_obs me0 <$> o) | Blocked => Blocked | Crash => Crash end.
(** Configurations between which nothing but the announcement differs: both valid or both not, both of a controller or both not, and both can be encoded. *)
Definition as_good (c1 c2 : NodeConfig) : Prop := (validate c1 = None <-> validate c2 = None) /\ same_role c1 c2 /\ (exists d, announces c1 d) /\ exists d, announces c2 d.
Lemma re_upd E s g ch : upd_gen (re_sh E s) g (re_ch E ch) = re_sh E (upd_gen s g ch).
Proof. unfold upd_gen, re_sh, with_gens. cbn. rewrite list_fmap_insert. reflexivity. Qed.
Lemma re_closed E s g : gen_closed (re_sh E s) g = gen_closed s g.
Proof. unfold gen_closed, re_sh, with_gens. cbn. rewrite list_lookup_fmap. destruct (S_gens s !! g); reflexivity. Qed.
Lemma re_push E ch x : push (Q_send (re_ch E ch)) (re_x E x) = map (re_x E) <$> push (Q_send ch) x.
Proof. unfold push, re_ch. cbn. rewrite map_length. case_match; [ | reflexivity ]. cbn. rewrite map_app. reflexivity. Qed.
Lemma re_ch_send E ch q : set_send (re_ch E ch) (map (re_x E) q) = re_ch E (set_send ch q). Proof. reflexivity. Qed.
Lemma re_ch_recv E ch q : set_recv (re_ch E ch) q = re_ch E (set_recv ch q). Proof. reflexivity. Qed.
Lemma re_ch_poll E ch q : set_poll (re_ch E ch) q = re_ch E (set_poll ch q). Proof. reflexivity. Qed.
Lemma re_ch_reply E ch q : set_reply (re_ch E ch) q = re_ch E (set_reply ch q). Proof. reflexivity. Qed.
Lemma re_ch_closed E ch : set_closed (re_ch E ch) = re_ch E (set_closed ch). Proof. reflexivity. Qed.
Lemma re_tstep E cfg me0 s t c : as_good (E_config E) cfg -> announces (E_config E) me0 -> tstep E (re_sh me0 s) (re_t me0 t) c = re_out me0 (tstep (with_config E cfg) s t c).
Proof.
  intros (Hv & Hr & _ & d1 & Ha) H0.
  assert (K1 : forall A (x y : A), match validate (E_config E) with Some _ => x | None => y end = match validate cfg with Some _ => x | None => y end).
  { intros A x y. destruct (validate (E_config E)), (validate cfg); try reflexivity; destruct Hv as [V1 V2]; [ discriminate (V2 eq_refl) | discriminate (V1 eq_refl) ]. }
  assert (K2 : (C_Type (E_config E) =? StController) = (C_Type cfg =? StController)).
  { unfold same_role in Hr. destruct (N.eqb_spec (C_Type (E_config E)) StController), (N.eqb_spec (C_Type cfg) StController); tauto. }
  assert (Hp : t = PR_start \/ t <> PR_start) by (destruct t; first [ left; reflexivity | right; discriminate ]). destruct Hp as [->|Hp].
  { destruct c; try reflexivity. cbn [tstep re_t with_config E_config]. unfold announces in *. rewrite H0, Ha. reflexivity. }
  destruct t; try (contradiction Hp; reflexivity); destruct c; try reflexivity; cbn [tstep re_t]; unfold eval_gen, on_closed; cbv zeta; cbn [with_config E_config E_ctl E_localIP E_nodeBroadcast E_ctlBroadcast];
    rewrite ?K2, ?re_closed;
    change (S_shutdown (re_sh me0 s)) with (S_shutdown s); change (S_conns (re_sh me0 s)) with (S_conns s); change (S_callbacks (re_sh me0 s)) with (S_callbacks s);
    change (S_tables (re_sh me0 s)) with (S_tables s); change (S_lock (re_sh me0 s)) with (S_lock s); change (S_cgens (re_sh me0 s)) with (S_cgens s);
    change (S_tickers (re_sh me0 s)) with (S_tickers s); change (S_gens (re_sh me0 s)) with (re_ch me0 <$> S_gens s);
    rewrite ?last_index_map, ?list_lookup_fmap;
    try match goal with |- context [last_index (S_gens s)] => destruct (last_index (S_gens s)) as [g'|] eqn:Hl; try reflexivity; rewrite ?re_closed, ?list_lookup_fmap end;
    try match goal with |- context [re_ch me0 <$> (S_gens s !! ?g)] => destruct (S_gens s !! g) as [ch|] eqn:Hg; [ | reflexivity ]; cbn [fmap option_fmap option_map] end;
    try match goal with |- context [push (Q_send (re_ch me0 ?ch)) ?x] =>
     match goal with |- context [push (Q_send ch) ?x'] => change x with (re_x me0 x') end; rewrite re_push; destruct (push (Q_send ch) _); reflexivity || (cbn; rewrite <- re_upd; reflexivity) end;
    try reflexivity;
    try match goal with |- context [Q_poll (re_ch me0 ?ch)] => change (Q_poll (re_ch me0 ch)) with (Q_poll ch) end;
    try match goal with |- context [Q_recv (re_ch me0 ?ch)] => change (Q_recv (re_ch me0 ch)) with (Q_recv ch) end;
    try match goal with |- context [Q_reply (re_ch me0 ?ch)] => change (Q_reply (re_ch me0 ch)) with (Q_reply ch) end;
    try match goal with |- context [Q_closed (re_ch me0 ?ch)] => change (Q_closed (re_ch me0 ch)) with (Q_closed ch) end;
    try match goal with |- context [Q_send (re_ch me0 ?ch)] => change (Q_send (re_ch me0 ch)) with (map (re_x me0) (Q_send ch)); destruct (Q_send ch); cbn [map] end;
    rewrite ?re_ch_send, ?re_ch_recv, ?re_ch_poll, ?re_ch_reply, ?re_ch_closed;
    try (rewrite K1; destruct (validate cfg); [ reflexivity | ]; cbn [re_out]; unfold re_sh, with_shutdown, with_gens; cbn; rewrite fmap_app; reflexivity);
    repeat match goal with |- context [match ?x with _ => _ end] => lazymatch x with context [match _ with _ => _ end] => fail | context [re_out] => fail | _ => destruct x eqn:?; try reflexivity end end;
    cbn [re_out]; rewrite <- ?re_upd; try reflexivity.
Qed.
Lemma re_exec E cfg me0 y l : as_good (E_config E) cfg -> announces (E_config E) me0 ->
  exec E (re_sys me0 y) l = match exec (with_config E cfg) y l with RNext y' o => RNext (re_sys me0 y') (re_obs me0 <$> o) | r => r end.
Proof.
  intros G A. destruct l; cbn [exec with_config E_ctl]; unfold spawn.
  - cbn [re_sys Y_threads Y_sh]. rewrite list_lookup_fmap. destruct (Y_threads y !! i) as [t|]; [ | reflexivity ]. cbn [fmap option_fmap option_map].
    rewrite (re_tstep E cfg me0 _ _ _ G A). unfold with_config. destruct (tstep _ (Y_sh y) t c); try reflexivity. cbn [re_out]. unfold re_sys. cbn [Y_sh Y_threads].
    rewrite fmap_app, list_fmap_insert. reflexivity.
  - unfold re_sys. cbn. rewrite fmap_app. destruct (E_ctl E); reflexivity.
  - unfold re_sys. cbn. rewrite fmap_app. destruct (E_ctl E); reflexivity.
  - destruct (E_ctl E); [ | reflexivity ]. unfold re_sys. cbn. rewrite fmap_app. reflexivity.
  - destruct (E_ctl E); [ reflexivity | ]. unfold re_sys, RegisterCallback. cbn. destruct (negb (S_shutdown (Y_sh y))); reflexivity.
  - destruct (E_ctl E); [ reflexivity | ]. unfold re_sys, DeregisterCallback. cbn. destruct (negb (S_shutdown (Y_sh y))); reflexivity.
Qed.
(** The steps other than assignments. *)
Fixpoint cdone (ls : list clabel) : list label := match ls with [] => [] | CAssign _ :: ls => cdone ls | CDo l :: ls => l :: cdone ls end.
Lemma cdone_app a b : cdone (a ++ b) = cdone a ++ cdone b.
Proof. induction a as [|[o|l] a IH]; cbn; [ reflexivity | exact IH | f_equal; exact IH ]. Qed.
(** Only configurations as good as the first one are assigned. *)
Definition assigns_good (E : env) (z : csys) (l : clabel) : Prop := forall cfg, l = CAssign cfg -> as_good (E_config E) cfg.
Lemma encodable c : wf_config c -> exists d, announces c d.
Proof. intros H. pose proof (announcement_wf c H) as Hw. eexists. exact (marshal_bytes (PktPollReply _) Hw). Qed.
(** Apart from the contents of the replies every run is a run without assignments, and it stops, blocks or crashes where that one does. All theorems about Sys.v apply to it. *)
Theorem C106_only_announcements : forall E ls z tr me0, announces (E_config E) me0 -> cruns (assigns_good E) E ls z tr ->
  runs E (cdone ls) (re_sys me0 (G_sys z)) (re_obs me0 <$> tr) /\
  forall l, (cexec E z (CDo l) = CCrash <-> exec E (re_sys me0 (G_sys z)) l = RCrash) /\ (cexec E z (CDo l) = CBlocked <-> exec E (re_sys me0 (G_sys z)) l = RBlocked).
Proof.
  intros E ls z tr me0 H0 R.
  assert (G : as_good (E_config E) (G_cfg z) /\ runs E (cdone ls) (re_sys me0 (G_sys z)) (re_obs me0 <$> tr)).
  { unfold cruns in R. remember (cinit E) as z0 eqn:Ez. revert Ez. induction R as [|z0 ls z1 tr l z2 o R IH Ha Hl He]; intros ->.
    - split; [ | constructor ]. cbn. unfold as_good, same_role. split; [ tauto | ]. split; [ tauto | ]. split; eauto.
    - destruct (IH eq_refl) as [A B]. rewrite cdone_app, fmap_app. destruct l as [cfg|l]; cbn [cexec] in He.
      + destruct (E_ctl E); [ discriminate | ]. injection He as <- <-. cbn [cdone G_sys G_cfg fmap list_fmap]. rewrite !app_nil_r. split; [ exact (Ha _ eq_refl) | exact B ].
      + pose proof (re_exec E (G_cfg z1) me0 (G_sys z1) l A H0) as X. destruct (exec (with_config E (G_cfg z1)) (G_sys z1) l) as [| |y o'] eqn:Hx; try discriminate. injection He as <- <-.
        split; [ exact A | ]. eapply steps_snoc; [ exact B | exact Hl | exact X ]. }
  destruct G as [A B]. split; [ exact B | ]. intros l. rewrite (re_exec E (G_cfg z) me0 (G_sys z) l A H0). cbn [cexec].
  destruct (exec (with_config E (G_cfg z)) (G_sys z) l); split; split; intros H; try discriminate H; reflexivity.
Qed.

(** * Concrete runs *)
Fixpoint cplay (ok : csys -> clabel -> bool) (E : env) (z : csys) (fs : list (sys -> clabel)) : option (list clabel * csys * list obs) :=
  match fs with
  | [] => Some ([], z, [])
  | f :: fs =>
      let l := f (G_sys z) in
      if (match l with CDo l => label_okb l | _ => true end) && ok z l then
        match cexec E z l with
        | CNext z' o => match cplay ok E z' fs with Some (ls, z'', tr) => Some (l :: ls, z'', o ++ tr) | None => None end
        | _ => None
        end
      else None
  end.
Lemma cplay_ok ok (allow : csys -> clabel -> Prop) E fs : (forall z l, ok z l = true -> allow z l) -> forall z0 ls0 z tr0 ls z' tr, csteps allow E z0 ls0 z tr0 ->
  cplay ok E z fs = Some (ls, z', tr) -> csteps allow E z0 (ls0 ++ ls) z' (tr0 ++ tr).
Proof.
  intros A. induction fs as [|f fs IH]; intros z0 ls0 z tr0 ls z' tr R H; cbn [cplay] in H.
  - injection H as <- <- <-. rewrite !app_nil_r. exact R.
  - cbv zeta in H. destruct (match f (G_sys z) with CDo l => label_okb l | _ => true end) eqn:Hl; [ | discriminate ]. destruct (ok z (f (G_sys z))) eqn:Ho; [ | discriminate ]. cbn [andb] in H.
    destruct (cexec E z (f (G_sys z))) as [| |z1 o] eqn:He; try discriminate. destruct (cplay ok E z1 fs) as [[[ls1 z2] tr1]|] eqn:Hp; [ | discriminate ]. injection H as <- <- <-.
    assert (R1 : csteps allow E z0 (ls0 ++ [f (G_sys z)]) z1 (tr0 ++ o)).
    { eapply csteps_snoc; [ exact R | exact (A _ _ Ho) | | exact He ]. destruct (f (G_sys z)); [ exact I | apply label_okb_ok; exact Hl ]. }
    pose proof (IH _ _ _ _ _ _ _ R1 Hp) as K. rewrite <- !app_assoc in K. exact K.
Qed.
Definition cdoes (fs : script) : list (sys -> clabel) := map (fun f y => CDo (f y)) fs.
Definition assign_now (cfg : NodeConfig) : list (sys -> clabel) := [fun _ => CAssign cfg].
Definition ctested (ok : csys -> clabel -> bool) (E : env) (fs1 fs2 : list (sys -> clabel)) (P : list clabel -> csys -> list obs -> list clabel -> csys -> list obs -> bool) : bool :=
  match cplay ok E (cinit E) fs1 with
  | Some (ls1, z1, tr1) => match cplay ok E z1 fs2 with Some (ls2, z2, tr2) => P ls1 z1 tr1 ls2 z2 tr2 | None => false end
  | None => false
  end.
Lemma ctested_ok ok (allow : csys -> clabel -> Prop) E fs1 fs2 P : (forall z l, ok z l = true -> allow z l) -> ctested ok E fs1 fs2 P = true ->
  exists ls1 z1 tr1 ls2 z2 tr2, cruns allow E ls1 z1 tr1 /\ csteps allow E z1 ls2 z2 tr2 /\ P ls1 z1 tr1 ls2 z2 tr2 = true.
Proof.
  intros A. unfold ctested. destruct (cplay ok E (cinit E) fs1) as [[[ls1 z1] tr1]|] eqn:Hp; [ | discriminate ]. destruct (cplay ok E z1 fs2) as [[[ls2 z2] tr2]|] eqn:Hq; [ | discriminate ]. intros H.
  exists ls1, z1, tr1, ls2, z2, tr2. split; [ exact (cplay_ok ok allow E fs1 A _ _ _ _ _ _ _ (csteps_nil _ _ _) Hp) | ]. split; [ exact (cplay_ok ok allow E fs2 A _ _ _ _ _ _ _ (csteps_nil _ _ _) Hq) | exact H ].
Qed.

(** The configuration of node1 with another name, and with five output ports, which cannot be announced (ArtPollReply has room for four). *)
Definition renamed : NodeConfig := mkConfig 0 0 0 [] StNode [0x6d] [] [] [10; 0; 0; 1] [] 0 0 [] 0 0 (0, 0) [] [].
Definition five_ports : NodeConfig := mkConfig 0 0 0 [] StNode [0x6e] [] [] [10; 0; 0; 1] [] 0 0 [] 0 0 (0, 0) [] (repeat (mkPort (0, 0) 0x80 0) 5).
Definition replied (tr : list obs) : list (list N) := collect (fun o => match o with OTx (KReply, (_, d)) => [d] | _ => [] end) tr.
Definition announcesb (cfg : NodeConfig) (d : list N) : bool := match snd (PollReply_MarshalBinary (ArtPollReplyFromConfig cfg)) with Ok x => bool_decide (x = d) | _ => false end.
Lemma announcesb_true cfg d : announcesb cfg d = true <-> announces cfg d.
Proof. unfold announcesb, announces. destruct (snd _) as [x|e]; split; intros H; try discriminate; [ apply bool_decide_eq_true in H; subst; reflexivity | injection H as ->; apply bool_decide_eq_true; reflexivity ]. Qed.
Definition received (from : UDPAddr) (d : list N) (tr : list obs) : bool := existsb (fun o => match o with ORecv f x => bool_decide (f = from) && bool_decide (x = d) | _ => false end) tr.
Lemma received_in from d tr : received from d tr = true -> In (ORecv from d) tr.
Proof.
  unfold received. rewrite existsb_exists. intros (o & Ho & H). destruct o; try discriminate. apply andb_prop in H. destruct H as [H1 H2]. apply bool_decide_eq_true in H1, H2. subst. exact Ho.
Qed.
Definition started (tr : list obs) : bool := existsb (fun o => match o with OStart true => true | _ => false end) tr.
Lemma started_in tr : started tr = true -> In (OStart true) tr.
Proof. unfold started. rewrite existsb_exists. intros (o & Ho & H). destruct o; try discriminate. destruct ok; [ exact Ho | discriminate ]. Qed.
Definition no_assign (ls : list clabel) : bool := forallb (fun l => match l with CAssign _ => false | _ => true end) ls.
Lemma no_assign_ok ls : no_assign ls = true -> forall cfg, ~ In (CAssign cfg) ls.
Proof. unfold no_assign. rewrite forallb_forall. intros H cfg K. discriminate (H _ K). Qed.
(** A poll arrives and is answered: the reader is thread 4, recvLoop 2, pollReplyLoop 1, sendLoop 3, the handler thread h. *)
Definition answer (h : nat) : script := arrive 4 host2 poll_bytes ++ parse 2 ++ go_n h 3 ++ go_n 1 3 ++ transmit 3.

Local Instance port_eq_dec : EqDecision Port. Proof. solve_decision. Defined.
Local Instance config_eq_dec : EqDecision NodeConfig. Proof. solve_decision. Defined.

(** The announcement is not kept up to date: n.Config has been assigned while the node runs, a controller polls after that and is told the old configuration. *)
Theorem C106_up_to_date_refuted : exists ls z tr ls' z' tr' d, cruns any node1 ls z tr /\ G_cfg z = renamed /\ csteps any node1 z ls' z' tr' /\ (forall cfg, ~ In (CAssign cfg) ls') /\
  In (ORecv host2 poll_bytes) tr' /\ replied tr' = [d] /\ announces (E_config node1) d /\ ~ announces renamed d.
Proof.
  destruct (ctested_ok (fun _ _ => true) any node1 (cdoes up_node ++ assign_now renamed) (cdoes (answer 5))
     (fun ls1 z1 tr1 ls2 z2 tr2 => match replied tr2 with [d] => announcesb (E_config node1) d && negb (announcesb renamed d) && received host2 poll_bytes tr2 && no_assign ls2 && bool_decide (G_cfg z1 = renamed) | _ => false end))
    as (ls1 & z1 & tr1 & ls2 & z2 & tr2 & R1 & R2 & H); [ intros; exact I | vm_compute; reflexivity | ].
  destruct (replied tr2) as [|d [|]] eqn:Hr; try discriminate. apply andb_prop in H. destruct H as [H H5]. apply andb_prop in H. destruct H as [H H4]. apply andb_prop in H. destruct H as [H H3].
  apply andb_prop in H. destruct H as [H1 H2]. apply bool_decide_eq_true in H5. exists ls1, z1, tr1, ls2, z2, tr2, d. split; [ exact R1 | ]. split; [ exact H5 | ]. split; [ exact R2 | ].
  split; [ apply no_assign_ok; exact H4 | ]. split; [ apply received_in; exact H3 | ]. split; [ exact Hr | ]. split; [ apply announcesb_true; exact H1 | ].
  intros K. apply announcesb_true in K. rewrite K in H2. discriminate.
Qed.
(** Validation can be missed: Start has validated the configuration and returned, the program assigns another one, and pollReplyLoop, which begins only now, announces five ports. *)
Theorem C106_validated_refuted : exists ls z tr ls' z' tr' d, cruns any node1 ls z tr /\ In (OStart true) tr /\ csteps any node1 z (CAssign five_ports :: ls') z' tr' /\
  validate five_ports <> None /\ replied tr' = [d] /\ announces five_ports d /\ nth 173 d 0 = 5.
Proof.
  destruct (ctested_ok (fun _ _ => true) any node1 (cdoes (act LStart ++ go_n 0 2)) (assign_now five_ports ++ cdoes (go_n 1 2 ++ go_n 2 2 ++ go_n 3 1 ++ go_n 4 1 ++ answer 5))
     (fun ls1 z1 tr1 ls2 z2 tr2 => match replied tr2, ls2 with [d], CAssign c :: _ => announcesb five_ports d && (nth 173 d 0 =? 5) && started tr1 && bool_decide (c = five_ports) | _, _ => false end))
    as (ls1 & z1 & tr1 & ls2 & z2 & tr2 & R1 & R2 & H); [ intros; exact I | vm_compute; reflexivity | ].
  destruct (replied tr2) as [|d [|]] eqn:Hr; try discriminate. destruct ls2 as [|[c|] ls2]; try discriminate. apply andb_prop in H. destruct H as [H H4]. apply andb_prop in H. destruct H as [H H3].
  apply andb_prop in H. destruct H as [H1 H2]. apply bool_decide_eq_true in H4. subst c. exists ls1, z1, tr1, ls2, z2, tr2, d. split; [ exact R1 | ]. split; [ apply started_in; exact H3 | ]. split; [ exact R2 | ].
  split; [ discriminate | ]. split; [ exact Hr | ]. split; [ apply announcesb_true; exact H1 | apply N.eqb_eq; exact H2 ].
Qed.
(** A data race: Start has returned, pollReplyLoop is about to read n.Config and the program about to write it, nothing orders the two, and which of them is first makes a difference. *)
Theorem C106_race_refuted : exists ls z tr za zb me me', cruns any node1 ls z tr /\ In (OStart true) tr /\ Y_threads (G_sys z) !! 1%nat = Some PR_start /\
  csteps any node1 z [CAssign renamed; CDo (LRun 1 CGo)] za [] /\ csteps any node1 z [CDo (LRun 1 CGo); CAssign renamed] zb [] /\
  Y_threads (G_sys za) !! 1%nat = Some (PR_loop me) /\ Y_threads (G_sys zb) !! 1%nat = Some (PR_loop me') /\ me <> me'.
Proof.
  destruct (ctested_ok (fun _ _ => true) any node1 (cdoes (act LStart ++ go_n 0 2)) []
     (fun ls1 z1 tr1 _ _ _ => started tr1 && bool_decide (G_cfg z1 = E_config node1) && match Y_threads (G_sys z1) !! 1%nat with Some PR_start => true | _ => false end))
    as (ls1 & z1 & tr1 & ls2 & z2 & tr2 & R1 & _ & H); [ intros; exact I | vm_compute; reflexivity | ].
  apply andb_prop in H. destruct H as [H H2]. apply andb_prop in H. destruct H as [H1 H3]. apply bool_decide_eq_true in H3. destruct (Y_threads (G_sys z1) !! 1%nat) as [[]|] eqn:Ht; try discriminate. clear H2.
  assert (W1 : wf_config renamed) by (apply (new_config_wf [0x6d] StNode [10; 0; 0; 1]); repeat constructor). assert (W2 : wf_config (E_config node1)) by (apply new_config_wf; repeat constructor).
  destruct (encodable renamed W1) as [me Hm]. destruct (encodable _ W2) as [me' Hm'].
  assert (X : forall cfg d w, announces cfg d -> w = mkCsys cfg (G_sys z1) -> cexec node1 w (CDo (LRun 1 CGo)) = CNext (mkCsys cfg (mkSys (Y_sh (G_sys z1)) (<[1%nat := PR_loop d]> (Y_threads (G_sys z1)) ++ []))) []).
  { intros cfg d w Hd ->. cbn [cexec G_sys G_cfg exec]. rewrite Ht. cbn [tstep with_config E_config]. unfold announces in Hd. rewrite Hd. reflexivity. }
  assert (L : forall d, (<[1%nat := PR_loop d]> (Y_threads (G_sys z1)) ++ []) !! 1%nat = Some (PR_loop d)) by (intros d; rewrite app_nil_r; apply list_lookup_insert; eapply lookup_lt_Some; exact Ht).
  do 3 eexists. exists (mkCsys renamed (mkSys (Y_sh (G_sys z1)) (<[1%nat := PR_loop me]> (Y_threads (G_sys z1)) ++ []))), (mkCsys renamed (mkSys (Y_sh (G_sys z1)) (<[1%nat := PR_loop me']> (Y_threads (G_sys z1)) ++ []))), me, me'.
  split; [ exact R1 | ]. split; [ apply started_in; exact H1 | ]. split; [ exact Ht | ]. split; [ | split; [ | split; [ apply L | split; [ apply L | ] ] ] ].
  - eapply (csteps_snoc any node1 _ [CAssign renamed] (mkCsys renamed (G_sys z1)) [] (CDo (LRun 1 CGo)) _ []); [ | exact I | exact I | exact (X _ _ _ Hm eq_refl) ].
    eapply (csteps_snoc any node1 _ [] _ [] (CAssign renamed) _ []); [ constructor | exact I | exact I | reflexivity ].
  - eapply (csteps_snoc any node1 _ [CDo (LRun 1 CGo)] (mkCsys (E_config node1) (mkSys (Y_sh (G_sys z1)) (<[1%nat := PR_loop me']> (Y_threads (G_sys z1)) ++ []))) [] (CAssign renamed) _ []); [ | exact I | exact I | reflexivity ].
    eapply (csteps_snoc any node1 _ [] _ [] (CDo (LRun 1 CGo)) _ []); [ constructor | exact I | exact I | ]. apply X; [ exact Hm' | ]. destruct z1 as [c y]. cbn in H3. subst c. reflexivity.
  - intros <-. revert Hm'. apply announcesb_true in Hm. clear -Hm. intros K. apply announcesb_true in K. revert Hm K. unfold announcesb. 
    destruct (snd (PollReply_MarshalBinary (ArtPollReplyFromConfig renamed))) as [x|] eqn:Ex; [ | discriminate ]. destruct (snd (PollReply_MarshalBinary (ArtPollReplyFromConfig (E_config node1)))) as [y|] eqn:Ey; [ | discriminate ].
    intros H1 H2. apply bool_decide_eq_true in H1, H2. subst x y. rewrite <- Ey in Ex. apply (f_equal (fun r => match r with Ok x => nth 26 x 0 | Err _ => 0 end)) in Ex. vm_compute in Ex. discriminate.
Qed.

Definition orderlyb (z : csys) (l : clabel) : bool := match l with CAssign _ => forallb (fun t => negb (between t)) (Y_threads (G_sys z)) | _ => true end.
Lemma orderlyb_ok z l : orderlyb z l = true -> orderly z l.
Proof. intros H cfg ->. cbn in H. rewrite forallb_forall in H. apply Forall_forall. intros t Ht. apply elem_of_list_In in Ht. specialize (H _ Ht). destruct (between t); [ discriminate | reflexivity ]. Qed.
Definition exb (z : csys) (l : clabel) : bool := orderlyb z l && match l with CAssign c => bool_decide (c = renamed) | _ => true end.
Lemma renamed_good : as_good (E_config node1) renamed.
Proof.
  split; [ split; reflexivity | ]. split; [ unfold same_role; cbn; tauto | ]. split; apply encodable.
  - apply new_config_wf; repeat constructor.
  - apply (new_config_wf [0x6d] StNode [10; 0; 0; 1]); repeat constructor.
Qed.
(** Stop, and all goroutines end; Start again and answer a poll. *)
Definition down_all : script := go_n 1 1 ++ act LStop ++ go_n 6 3 ++ [fun _ => LRun 1 CDown; fun _ => LRun 2 CDown; fun _ => LRun 3 CDown; fun _ => LRun 4 CErr] ++ go_n 4 1.
Definition up_again : script := act LStart ++ go_n 7 2 ++ go_n 8 2 ++ go_n 9 2 ++ go_n 10 1 ++ go_n 11 1 ++ arrive 11 host2 poll_bytes ++ parse 9 ++ go_n 12 3 ++ go_n 8 3 ++ transmit 10.
(** A node answers a poll, its Config is assigned while it runs, it answers another poll as before (C106_until_restart), is stopped and started again, and announces the new configuration (C106_next_start). *)
Example C106_ex : exists ls z tr ls' z' tr' d d', cruns (fun z l => orderly z l /\ assigns_good node1 z l) node1 ls z tr /\ replied tr = [d] /\ announces (E_config node1) d /\
  G_cfg z = renamed /\ no_replier (G_sys z) /\ nothing_on_its_way (G_sys z) /\
  csteps any node1 z ls' z' tr' /\ (forall cfg, ~ In (CAssign cfg) ls') /\ replied tr' = [d'] /\ announces renamed d' /\ d' <> d.
Proof.
  destruct (ctested_ok exb (fun z l => orderly z l /\ assigns_good node1 z l) node1 (cdoes up_node ++ assign_now renamed ++ cdoes (answer 5 ++ down_all)) (cdoes up_again)
     (fun ls1 z1 tr1 ls2 z2 tr2 => match replied tr1, replied tr2 with [d], [d'] => announcesb (E_config node1) d && announcesb renamed d' && bool_decide (d' <> d) && no_assign ls2 && bool_decide (G_cfg z1 = renamed) &&
         forallb (fun t => match t with PR_loop _ | PR_wait _ _ | PR_send _ | PR_sending _ _ | SL_check _ | SL_write _ => false | _ => true end) (Y_threads (G_sys z1)) &&
         forallb (fun ch => match Q_send ch with [] => true | _ => false end) (S_gens (Y_sh (G_sys z1))) | _, _ => false end))
    as (ls1 & z1 & tr1 & ls2 & z2 & tr2 & R1 & R2 & H).
  { intros z l H. apply andb_prop in H. destruct H as [H1 H2]. split; [ apply orderlyb_ok; exact H1 | ]. intros cfg ->. apply bool_decide_eq_true in H2. subst cfg. exact renamed_good. }
  { vm_compute. reflexivity. }
  destruct (replied tr1) as [|d [|]] eqn:Hr; try discriminate. destruct (replied tr2) as [|d' [|]] eqn:Hr'; try discriminate. apply andb_prop in H. destruct H as [H H7]. apply andb_prop in H. destruct H as [H H6]. apply andb_prop in H. destruct H as [H H5].
  apply andb_prop in H. destruct H as [H H4]. apply andb_prop in H. destruct H as [H H3]. apply andb_prop in H. destruct H as [H1 H2]. apply bool_decide_eq_true in H3, H5. rewrite forallb_forall in H6, H7.
  exists ls1, z1, tr1, ls2, z2, tr2, d, d'. split; [ exact R1 | ]. split; [ exact Hr | ]. split; [ apply announcesb_true; exact H1 | ]. split; [ exact H5 | ]. split; [ | split; [ split | ] ].
  - apply Forall_forall. intros t Ht. apply elem_of_list_In in Ht. specialize (H6 _ Ht). destruct t; try discriminate; exact I.
  - intros g ch Hg. apply elem_of_list_lookup_2, elem_of_list_In in Hg. specialize (H7 _ Hg). destruct (Q_send ch); [ constructor | discriminate ].
  - apply Forall_forall. intros t Ht. apply elem_of_list_In in Ht. specialize (H6 _ Ht). destruct t; try discriminate; exact I.
  - split; [ | split; [ apply no_assign_ok; exact H4 | split; [ exact Hr' | split; [ apply announcesb_true; exact H2 | exact H3 ] ] ] ].
    clear -R2. induction R2; [ constructor | eapply csteps_snoc; eauto; exact I ].
Qed.
(** Assignment to a running node: the state after up_node meets the hypotheses of C106_until_restart. *)
Example C106_running_ex : exists ls z tr ls' z' tr', cruns any node1 ls z tr /\ csteps no_start node1 z ls' z' tr' /\ same_role (G_cfg z) renamed /\ length (replied tr') = 1%nat.
Proof.
  destruct (ctested_ok (fun _ _ => true) any node1 (cdoes up_node) (cdoes (answer 5))
     (fun ls1 z1 tr1 ls2 z2 tr2 => (length (replied tr2) =? 1)%nat && bool_decide (G_cfg z1 = E_config node1) &&
        match cplay (fun z l => match l with CDo (LRun i _) => match Y_threads (G_sys z) !! i with Some U_start_node | Some PR_start => false | _ => true end | _ => true end) node1 z1 (cdoes (answer 5)) with
        | Some (_, _, tr) => (length (replied tr) =? 1)%nat | None => false end))
    as (ls1 & z1 & tr1 & ls2 & z2 & tr2 & R1 & R2 & H); [ intros; exact I | vm_compute; reflexivity | ].
  apply andb_prop in H. destruct H as [H H3]. apply andb_prop in H. destruct H as [_ H2]. apply bool_decide_eq_true in H2.
  destruct (cplay _ node1 z1 _) as [[[ls z'] tr]|] eqn:Hp; [ | discriminate ]. exists ls1, z1, tr1, ls, z', tr. split; [ exact R1 | ]. split; [ | split ].
  - refine (cplay_ok _ no_start node1 _ _ z1 [] z1 [] ls z' tr (csteps_nil _ _ _) Hp). intros z l H i c ->. destruct (Y_threads (G_sys z) !! i) as [[]|]; try discriminate; split; discriminate.
  - rewrite H2. unfold same_role. cbn. tauto.
  - apply Nat.eqb_eq. exact H3.
Qed.

Definition P_Change_theorems := (C106_one_of_them, C106_next_start, C106_validated, C106_until_restart, C106_only_announcements, C106_up_to_date_refuted, C106_validated_refuted, C106_race_refuted, C106_ex, C106_running_ex).
Print Assumptions P_Change_theorems.
