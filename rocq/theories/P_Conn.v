(** Property C118: the socket a program gets from Node.Connection, and what using it does to the node. *)
From Verif Require Import WireSpec P_Config ControllerFacts P_Controller SysFacts SysLaws SysRun SysOrder SysScript P_Node P_Life P_Access P_Live P_Settle P_Flow.
From stdpp Require Import base list gmap.
Open Scope N_scope.

(** * The program and the socket *)
(** node.go:92-94: n.conn, nil before a socket has been opened. Controllers keep their node to themselves; the theorems hold for them too. *)
Definition Connection (y : sys) : option nat := last_index (S_conns (Y_sh y)).
Definition is_open (y : sys) (c : nat) : bool := flag_at (S_conns (Y_sh y)) c.
(** Between any two steps of Sys.v the program can close the socket, write a datagram to it or read one from it. Simplifications: it uses the socket n.conn at that moment; a call that fails changes nothing and is left out, like
    one on nil. *)
Inductive klabel := KDo (l : label) | KClose | KWrite (to : UDPAddr) (d : list N) | KRead (from : UDPAddr) (d : list N).
Inductive kobs := KO (o : obs) | KClosed | KTx (to : UDPAddr) (d : list N) | KGot (from : UDPAddr) (d : list N).
Definition close_conn (y : sys) (c : nat) : sys := mkSys (with_conns (Y_sh y) (<[c := false]> (S_conns (Y_sh y)))) (Y_threads y).
Inductive kstep (E : env) (y : sys) : klabel -> sys -> list kobs -> Prop :=
| k_do l y' o : label_ok l -> exec E y l = RNext y' o -> kstep E y (KDo l) y' (map KO o)
| k_close c : Connection y = Some c -> kstep E y KClose (close_conn y c) [KClosed]
| k_write c to d : Connection y = Some c -> is_open y c = true -> kstep E y (KWrite to d) y [KTx to d]
| k_read c from d : Connection y = Some c -> is_open y c = true -> kstep E y (KRead from d) y [KGot from d].
Inductive ksteps (E : env) (y : sys) : list klabel -> sys -> list kobs -> Prop :=
| ks_nil : ksteps E y [] y []
| ks_snoc ls y1 tr l y2 o : ksteps E y ls y1 tr -> kstep E y1 l y2 o -> ksteps E y (ls ++ [l]) y2 (tr ++ o).
(** What the node does. *)
Definition node_labels (ls : list klabel) : list label := omap (fun l => match l with KDo l => Some l | _ => None end) ls.
Definition node_obs (tr : list kobs) : list obs := omap (fun o => match o with KO o => Some o | _ => None end) tr.
Lemma node_obs_map o : node_obs (map KO o) = o.
Proof. induction o as [|x o IH]; [ reflexivity | ]. cbn. f_equal. exact IH. Qed.

(** * C118 *)
(** What Connection returns: nil exactly until a socket has been opened; an open socket while the node runs; a closed one from the return of Stop to the next Start. *)
Lemma conns_step E s t c s' t' sp o : tstep E s t c = Next s' t' sp o ->
  (S_conns s' = S_conns s /\ ~ In OListen o) \/ (t = U_listen /\ S_conns s' = S_conns s ++ [true] /\ In OListen o) \/ (t = U_closeconn /\ (exists k, last_index (S_conns s) = Some k /\ S_conns s' = <[k := false]> (S_conns s)) /\ ~ In OListen o).
Proof.
  intros Es. tcases Es; cbn [S_conns with_conns with_shutdown with_err with_gens with_callbacks with_tables with_cgens with_tickers upd_gen];
    try (left; split; [ reflexivity | cbn; intuition discriminate ]);
    try (right; left; split; [ reflexivity | split; [ reflexivity | left; reflexivity ] ]); right; right; (split; [ reflexivity | split; [ eauto | cbn; intuition discriminate ] ]).
Qed.
Lemma conns_exec E y l y' o : exec E y l = RNext y' o ->
  (S_conns (Y_sh y') = S_conns (Y_sh y) /\ ~ In OListen o) \/ (S_conns (Y_sh y') = S_conns (Y_sh y) ++ [true] /\ In OListen o) \/
  ((exists k, Connection y = Some k /\ S_conns (Y_sh y') = <[k := false]> (S_conns (Y_sh y))) /\ ~ In OListen o).
Proof.
  intros He. apply exec_cases in He. destruct He as [(i & c & t & s & t' & sp & -> & Et & Es & ->)|[(t & -> & -> & Hk)|(mm & op & f & -> & -> & K)]]; cbn [Y_sh].
  - destruct (conns_step _ _ _ _ _ _ _ _ Es) as [?|[(_ & H1 & H2)|(_ & H1 & H2)]]; auto.
  - left. split; [ reflexivity | intros [] ].
  - left. split; [ reflexivity | cbn; intuition discriminate ].
Qed.
Theorem C118_connection : forall E,
  (forall ls y tr, runs E ls y tr -> (Connection y = None <-> ~ In OListen tr)) /\
  (forall y, live E y -> exists c, Connection y = Some c /\ is_open y c = true) /\
  (forall ls0 y0 tr0 ls y tr, life E any ls0 y0 tr0 Up -> steps E y0 ls y tr -> starts ls = 0%nat -> In OStop tr -> forall c, Connection y = Some c -> is_open y c = false).
Proof.
  intros E. split; [ | split ].
  - intros ls y tr R. unfold runs in R. remember (init E) as y0 eqn:Hy0. induction R as [|y ls y1 tr l y2 o S IH Hl He].
    + subst. cbn. split; [ intros _ [] | reflexivity ].
    + specialize (IH Hy0). rewrite in_app_iff. unfold Connection in *. destruct (conns_exec _ _ _ _ _ He) as [[H1 H2]|[[H1 H2]|[(k & H1 & H2) H3]]].
      * rewrite H1. tauto.
      * rewrite H1. unfold last_index. rewrite app_length, Nat.add_1_r. split; [ discriminate | tauto ].
      * rewrite H2, last_index_insert. tauto.
  - intros y V. destruct (live_facts E y V) as (g & ch & k & _ & _ & _ & G4 & G5 & _). exists k. split; assumption.
  - intros ls0 y0 tr0 ls y tr L S N Hin. apply in_split in Hin. destruct Hin as (a & b & Ht). pose proof (life_tidy _ _ _ _ _ L) as T.
    destruct (steps_at E _ _ _ _ _ _ _ S Ht) as (ls1 & y1 & tr1 & l & ls2 & y2 & o1 & o2 & tr2 & H1 & Hl & He & H2 & -> & -> & ->). unfold starts in N. rewrite sum_list_with_app in N. cbn [sum_list_with] in N.
    destruct (silent_steps E y0 ls1 y1 tr1) as [K1 _]; [ apply settled_silent; split; [ exact (td_starting _ _ _ T) | exact (td_stopping _ _ _ T) ] | unfold starts; lia | exact H1 | ].
    destruct (silent_step E y1 l y2 (o1 ++ OStop :: o2) K1) as (K2 & _ & K3); [ lia | exact He | ]. destruct K3 as [K3 _]; [ apply in_or_app; right; left; reflexivity | ].
    destruct (silent_steps E y2 ls2 y tr2 K2) as [_ K5]; [ unfold starts; lia | exact H2 | ]. destruct (K5 K3) as [K6 _]. exact K6.
Qed.
(** Reading from it and writing to it do not affect the node: without Close, the node does what it could do without the program using the socket. *)
Theorem C118_transparent_partial : forall E y,
  (forall ls y' tr, ksteps E y ls y' tr -> ~ In KClose ls -> steps E y (node_labels ls) y' (node_obs tr)) /\
  (forall ls y' tr, steps E y ls y' tr -> ksteps E y (map KDo ls) y' (map KO tr)).
Proof.
  intros E y. split.
  - intros ls y' tr S. induction S as [|ls y1 tr l y2 o S IH K]; intros N; [ constructor | ]. rewrite in_app_iff in N. unfold node_labels, node_obs in *. rewrite !omap_app. specialize (IH (fun H => N (or_introl H))).
    destruct K as [l y2 o Hl He|c _|c to d _ _|c from d _ _]; cbn; rewrite ?app_nil_r; try exact IH.
    + fold (node_obs (map KO o)). rewrite node_obs_map. econstructor; eassumption.
    + exfalso. apply N. right. left. reflexivity.
  - intros ls y' tr S. induction S as [|y ls y1 tr l y2 o S IH Hl He]; [ constructor | ]. rewrite !map_app. econstructor; [ exact IH | ]. constructor; assumption.
Qed.

(** After Close, nothing arrives or leaves until Start opens another socket. *)
Definition dead (y : sys) : Prop := shut (Y_sh y) /\ Forall (fun t => match t with RD_reading _ c => is_open y c = false | _ => True end) (Y_threads y).
Lemma flag_insert l k c : flag_at l c = false -> flag_at (<[k := false]> l) c = false.
Proof. unfold flag_at. destruct (decide (k = c)) as [->|n]; [ | rewrite list_lookup_insert_ne by exact n; auto ]. destruct (decide (c < length l)%nat) as [h|h]; [ rewrite list_lookup_insert by exact h; reflexivity | ]. rewrite list_insert_ge by lia. auto. Qed.
Definition carried (o : obs) : bool := match o with ORecv _ _ | OTx _ => true | _ => false end.
Lemma dead_tstep E s t c s' t' sp o : tstep E s t c = Next s' t' sp o -> ~ In OListen o -> shut s -> (match t with RD_reading _ c => flag_at (S_conns s) c = false | _ => True end) ->
  forallb (fun o => negb (carried o)) o = true /\ Forall (fun t => match t with RD_reading _ c => flag_at (S_conns s) c = false | _ => True end) (t' :: sp).
Proof.
  intros Es N Sh Ht. tcases Es; cbn in Ht, N |- *; (split; [ try reflexivity | repeat constructor ]); try congruence; try (exfalso; congruence); try (exfalso; tauto); try (apply Sh; assumption).
  match goal with H1 : last_index _ = Some _, H2 : flag_at _ _ = true |- _ => rewrite (Sh _ H1) in H2; discriminate H2 end.
Qed.
Lemma dead_close y c : Connection y = Some c -> Forall (fun t => match t with RD_reading _ k => k = c \/ is_open y k = false | _ => True end) (Y_threads y) -> dead (close_conn y c).
Proof.
  intros Hc F. split; [ apply shut_close; exact Hc | ]. cbn [close_conn Y_threads]. eapply Forall_impl; [ exact F | ]. intros t Ht. destruct t; try exact I. destruct Ht as [->|Ht]; [ | apply flag_insert; exact Ht ].
  exact (shut_close _ _ Hc _ ltac:(cbn; rewrite last_index_insert; exact Hc)).
Qed.
Lemma conns_closed E y l y' o : exec E y l = RNext y' o -> ~ In OListen o -> last_index (S_conns (Y_sh y')) = last_index (S_conns (Y_sh y)) /\ forall c, is_open y c = false -> is_open y' c = false.
Proof.
  intros He N. unfold is_open. destruct (conns_exec _ _ _ _ _ He) as [[-> _]|[[_ K]|[(k & _ & ->) _]]]; [ auto | contradiction | ]. rewrite last_index_insert. split; [ reflexivity | ]. intros c. apply flag_insert.
Qed.
Lemma dead_kstep E y l y' o : dead y -> kstep E y l y' o -> ~ In (KO OListen) o -> dead y' /\ Forall (fun x => match x with KO x => carried x = false | KClosed => True | _ => False end) o.
Proof.
  intros [D1 D2] K N. destruct K as [l y' o Hl He|c Hc|c to d Hc Ho|c from d Hc Ho].
  - assert (N' : ~ In OListen o) by (intros H; apply N; apply in_map; exact H). destruct (conns_closed _ _ _ _ _ He N') as [Cl Cn].
    assert (M : forall t, match t with RD_reading _ c => is_open y c = false | _ => True end -> match t with RD_reading _ c => is_open y' c = false | _ => True end) by (intros []; auto).
    assert (A : Forall (fun t => match t with RD_reading _ c => is_open y c = false | _ => True end) (Y_threads y') /\ forallb (fun o => negb (carried o)) o = true).
    { apply exec_cases in He. destruct He as [(i & c & t & s & t' & sp & -> & Et & Es & ->)|[(t & -> & -> & Hk)|(mm & op & f & -> & -> & K)]]; cbn [Y_sh Y_threads] in *.
      - destruct (dead_tstep _ _ _ _ _ _ _ _ Es N' D1 (Forall_lookup_1 _ _ _ _ D2 Et)) as [A B]. split; [ | exact A ]. inversion B; subst. apply Forall_app. split; [ apply Forall_insert; assumption | assumption ].
      - split; [ | reflexivity ]. apply Forall_app. split; [ exact D2 | ]. constructor; [ | constructor ]. destruct Hk as [[_ ->]|[[_ ->]|(? & ? & _ & _ & ->)]]; try destruct (E_ctl E); exact I.
      - split; [ exact D2 | reflexivity ]. }
    destruct A as [A B]. split; [ split; [ | eapply Forall_impl; [ exact A | exact M ] ] | ].
    + intros c. rewrite Cl. intros Hc. apply Cn, D1, Hc.
    + apply Forall_map, Forall_forall. intros x Hx. apply elem_of_list_In in Hx. rewrite forallb_forall in B. specialize (B x Hx). cbn. destruct (carried x); [ discriminate B | reflexivity ].
  - split; [ | repeat constructor ]. apply dead_close; [ exact Hc | ]. eapply Forall_impl; [ exact D2 | ]. intros []; auto.
  - rewrite (D1 _ Hc : is_open y c = false) in Ho. discriminate Ho.
  - rewrite (D1 _ Hc : is_open y c = false) in Ho. discriminate Ho.
Qed.
Lemma live_readers E y c : live E y -> Connection y = Some c -> Forall (fun t => match t with RD_reading _ k => k = c | _ => True end) (Y_threads y).
Proof.
  intros [Wf Fp St (ls & tr & L)] Hc. destruct (careful_split _ _ _ _ _ L) as (ls0 & y0 & tr0 & ls1 & tr1 & R & Q & S & N & _ & _). pose proof (single_run _ _ _ _ _ Q S N) as G. destruct (sg_bounded _ _ _ _ _ G) as (B1 & B2 & B3).
  eapply Forall_impl; [ exact (sg_placed _ _ _ _ _ G) | ]. intros t P. destruct t; try exact I. cbn [placed] in P. rewrite (last_unique _ _ _ B2 (proj1 (proj2 P)) Hc). tauto.
Qed.
Theorem C118_cut_off : forall E y ls1 y1 ls y' tr, live E y -> kstep E y KClose y1 ls1 -> ksteps E y1 ls y' tr -> ~ In (KO OListen) tr ->
  forall x, In x tr -> match x with KO (ORecv _ _) | KO (OTx _) | KTx _ _ | KGot _ _ => False | _ => True end.
Proof.
  intros E y ls1 y1 ls y' tr V K S N. inversion K as [|c Hc| |]; subst. assert (D : dead (close_conn y c)).
  { apply dead_close; [ exact Hc | ]. eapply Forall_impl; [ exact (live_readers E y c V Hc) | ]. intros []; auto. }
  clear V K Hc. assert (A : dead y' /\ Forall (fun x => match x with KO x => carried x = false | KClosed => True | _ => False end) tr).
  { induction S as [|ls y1 tr l y2 o S IH K]; [ split; [ exact D | constructor ] | ]. rewrite in_app_iff in N. destruct IH as [I1 I2]; [ tauto | ]. destruct (dead_kstep _ _ _ _ _ I1 K) as [J1 J2]; [ tauto | ].
    split; [ exact J1 | ]. apply Forall_app. split; assumption. }
  destruct A as [_ A]. intros x Hx. pose proof (proj1 (Forall_forall _ _) A x (proj2 (elem_of_list_In _ _) Hx)) as Z. destruct x as [[]| | |]; try exact I; try contradiction Z; discriminate Z.
Qed.

(** But Close does not just cut the node off: the failing read makes the reader dereference a nil address. Whatever happens after Close on a node at rest, the process can die at any time until Stop is called. *)
Definition doomed (y : sys) (i : nat) : Prop := S_shutdown (Y_sh y) = false /\ exists b, Y_threads y !! i = Some (RD_got b None) \/ exists c, Y_threads y !! i = Some (RD_reading b c) /\ (c < length (S_conns (Y_sh y)))%nat /\ is_open y c = false.
Lemma shutdown_step E s t c s' t' sp o : tstep E s t c = Next s' t' sp o -> ~ In ODown o -> S_shutdown s = false -> S_shutdown s' = false.
Proof. intros Es N H. tcases Es; cbn in *; try assumption; try reflexivity; exfalso; tauto. Qed.
Lemma open_kept E y l y' o c : exec E y l = RNext y' o -> (c < length (S_conns (Y_sh y)))%nat -> is_open y c = false -> (c < length (S_conns (Y_sh y')))%nat /\ is_open y' c = false.
Proof.
  intros He Hl Ho. unfold is_open in *. destruct (conns_exec _ _ _ _ _ He) as [[-> _]|[[-> _]|[(k & _ & ->) _]]]; [ auto | | ].
  - rewrite app_length. split; [ lia | ]. unfold flag_at in *. rewrite lookup_app_l by exact Hl. exact Ho.
  - rewrite insert_length. split; [ exact Hl | apply flag_insert; exact Ho ].
Qed.
Lemma doomed_kstep E y i l y' o : doomed y i -> kstep E y l y' o -> ~ In (KO ODown) o -> doomed y' i.
Proof.
  intros (D1 & b & D2) K N. destruct K as [l y' o Hl He|c Hc|c to d Hc Ho|c from d Hc Ho]; [ | | split; eauto | split; eauto ].
  - assert (N' : ~ In ODown o) by (intros H; apply N; apply in_map; exact H). assert (Op := fun c => open_kept E y l y' o c He).
    apply exec_cases in He. destruct He as [(j & c & t & s & t' & sp & -> & Et & Es & ->)|[(t & -> & -> & Hk)|(mm & op & f & -> & -> & K)]]; cbn [Y_sh Y_threads] in *.
    + split; [ exact (shutdown_step _ _ _ _ _ _ _ _ Es N' D1) | ]. cbn [Y_threads]. destruct (decide (j = i)) as [->|n].
      * destruct D2 as [D2|(k & D2 & D3 & D4)]; rewrite Et in D2; injection D2 as ->.
        -- apply tstep_trans in Es. inversion Es; subst; congruence.
        -- apply tstep_trans in Es. inversion Es; subst; [ unfold is_open in D4; congruence | ]. exists b. left. apply lookup_app_l_Some. apply list_lookup_insert. eapply lookup_lt_Some. exact Et.
      * exists b. destruct D2 as [D2|(k & D2 & D3 & D4)]; [ left | right; exists k; destruct (Op k D3 D4); split; [ | auto ] ]; apply lookup_app_l_Some; rewrite list_lookup_insert_ne by exact n; exact D2.
    + split; [ exact D1 | ]. exists b. cbn [Y_threads]. destruct D2 as [D2|(k & D2 & D3)]; [ left | right; exists k; split; [ | exact D3 ] ]; apply lookup_app_l_Some; exact D2.
    + split; [ exact D1 | ]. exists b. exact D2.
  - split; [ exact D1 | ]. exists b. destruct D2 as [D2|(k & D2 & D3 & D4)]; [ left; exact D2 | right; exists k; split; [ exact D2 | ] ]. unfold is_open. cbn. rewrite insert_length. split; [ exact D3 | apply flag_insert; exact D4 ].
Qed.
Lemma doomed_dies E y i : doomed y i -> exec E y (LRun i CGo) = RCrash \/ exists y', exec E y (LRun i CErr) = RNext y' [] /\ exec E y' (LRun i CGo) = RCrash.
Proof.
  intros (D1 & b & [D2|(k & D2 & _)]); [ left; cbn [exec]; rewrite D2; cbn [tstep]; rewrite D1; reflexivity | right ].
  cbn [exec]. rewrite D2. cbn [tstep]. eexists. split; [ reflexivity | ]. cbn [exec Y_threads Y_sh]. rewrite app_nil_r, list_lookup_insert by (eapply lookup_lt_Some; exact D2). cbn [tstep]. rewrite D1. reflexivity.
Qed.
Theorem C118_close_refuted : forall E y o1 y1, live E y -> at_rest y -> kstep E y KClose y1 o1 ->
  exists i, forall ls y' tr, ksteps E y1 ls y' tr -> ~ In (KO ODown) tr -> exec E y' (LRun i CGo) = RCrash \/ exists y2, exec E y' (LRun i CErr) = RNext y2 [] /\ exec E y2 (LRun i CGo) = RCrash.
Proof.
  intros E y o1 y1 V R K. destruct (resting_rd E y V R) as (i & b & k & Hi & _). exists i. inversion K as [|c Hc| |]; subst. destruct (live_facts E y V) as (g & ch & k' & _ & _ & _ & _ & _ & Sh & _).
  pose proof (Forall_lookup_1 _ _ _ _ (live_readers E y c V Hc) Hi) as Hk. cbn in Hk. subst k. intros ls y' tr S N. apply doomed_dies.
  induction S as [|ls y1 tr l y2 o S IH Kl].
  - split; [ exact Sh | ]. exists b. right. exists c. split; [ exact Hi | ]. cbn. rewrite insert_length. split; [ pose proof (last_index_Some _ _ Hc); lia | ]. exact (shut_close _ _ Hc _ ltac:(cbn; rewrite last_index_insert; exact Hc)).
  - rewrite in_app_iff in N. eapply doomed_kstep; [ apply IH; tauto | exact Kl | tauto ].
Qed.
(** Such a moment comes whenever nothing arrives for a while. *)
Theorem C118_close_any_time_refuted : forall E y, live E y -> exists ls y1 tr c i y2, steps E y ls y1 tr /\ calls ls = [] /\ no_errors ls = true /\ kstep E y1 KClose (close_conn y1 c) [KClosed] /\
  exec E (close_conn y1 c) (LRun i CErr) = RNext y2 [] /\ exec E y2 (LRun i CGo) = RCrash.
Proof.
  intros E y V. destruct (settle_works E y V) as (ls & y1 & tr & W & _). pose proof (works_live _ _ _ _ _ W) as V1. destruct (live_facts E y1 V1) as (g & ch & c & _ & _ & _ & Hc & _ & Sh & _). assert (K : kstep E y1 KClose (close_conn y1 c) [KClosed]) by (constructor; exact Hc).
  destruct (resting_rd E y1 V1 (wk_rest _ _ _ _ _ W)) as (i & b & k & Hi & _). destruct W as [_ S C N R]. exists ls, y1, tr, c, i, (mkSys (Y_sh (close_conn y1 c)) (<[i := RD_got b None]> (Y_threads y1) ++ [])).
  repeat (split; [ assumption | ]). split; cbn [exec close_conn Y_threads Y_sh]; [ rewrite Hi; reflexivity | ]. rewrite app_nil_r, list_lookup_insert by (eapply lookup_lt_Some; exact Hi). cbn [tstep S_shutdown with_conns]. rewrite Sh. reflexivity.
Qed.

(** A node that runs, whose program closes the connection and calls Stop before the reader has noticed: Stop returns, the goroutines end. *)
Definition stop_closed : script := act LStop ++ go_n 5 3 ++ act (LRun 1 CDown) ++ act (LRun 2 CDown) ++ act (LRun 3 CDown) ++ act (LRun 4 CErr) ++ go_n 4 1.
Example C118_ex : exists y c ls y' tr, live node1 y /\ at_rest y /\ Connection y = Some c /\ is_open y c = true /\ kstep node1 y KClose (close_conn y c) [KClosed] /\
  ksteps node1 (close_conn y c) ls y' tr /\ In (KO OStop) tr /\ quiescent y'.
Proof.
  destruct (tested_life_ok node1 carefulb careful up_node (fun ls y tr ph => match ph with Up => true | _ => false end && at_restb y && bool_decide (Connection y = Some 0%nat) && is_open y 0 &&
    match play node1 (close_conn y 0) stop_closed with
    | Some (_, y', tr') => existsb (fun o => match o with OStop => true | _ => false end) tr' && forallb (fun t => match t with TDone => true | _ => false end) (Y_threads y')
    | None => false
    end)) as (ls & y & tr & ph & L & H); [ exact carefulb_ok | vm_compute; reflexivity | ].
  apply andb_prop in H. destruct H as [H H5]. apply andb_prop in H. destruct H as [H H4]. apply andb_prop in H. destruct H as [H H3]. apply andb_prop in H. destruct H as [H1 H2]. destruct ph; try discriminate H1. apply bool_decide_eq_true in H3.
  destruct (play node1 (close_conn y 0) stop_closed) as [[[ls' y'] tr']|] eqn:P; [ | discriminate H5 ]. apply andb_prop in H5. destruct H5 as [H5 H6]. apply play_steps in P. apply existsb_exists in H5. destruct H5 as (x & Hx & H5). destruct x; try discriminate H5.
  exists y, 0%nat, (map KDo ls'), y', (map KO tr').
  split; [ constructor; [ apply new_config_wf; repeat constructor | discriminate | right; discriminate | eauto ] | ]. split; [ apply at_restb_ok; exact H2 | ]. split; [ exact H3 | ]. split; [ exact H4 | ]. split; [ constructor; exact H3 | ].
  split; [ apply (proj2 (C118_transparent_partial node1 (close_conn y 0))); exact P | ]. split; [ apply (in_map KO _ _ Hx) | ].
  apply Forall_forall. intros t Ht. apply elem_of_list_In in Ht. pose proof (proj1 (forallb_forall _ _) H6 t Ht) as Z. destruct t; try discriminate Z; reflexivity.
Qed.

Definition P_Conn_theorems := (C118_connection, C118_transparent_partial, C118_cut_off, C118_close_refuted, C118_close_any_time_refuted, C118_ex).
Print Assumptions P_Conn_theorems.
