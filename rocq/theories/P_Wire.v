(** C73, C74, C76-C78, and an addition to C64: from the controller's tables to the wire and from the wire to the callbacks, composed over the
    whole system, in every run of the interleaving semantics of Sys.v. *)
From Verif Require Import WireSpec P_Config P_Controller SysFacts SysLaws SysRun SysOrder SysScript P_Node P_Life P_Live.
From stdpp Require Import base list gmap.
Open Scope N_scope.

(** * C73 *)
(** The ArtDmx datagrams transmitted. *)
Definition is_dmx (x : tag * payload) : bool := wire_opcode (snd (snd x)) =? 0x5000.
Definition dmx_out (tr : list obs) : list payload := map snd (List.filter is_dmx (transmitted tr)).
Lemma item_is_dmx E x : wf_config (E_config E) -> item_ok E x -> is_dmx x = match fst x with KDmx => true | _ => false end.
Proof. destruct x as [k [a d]]. intros Hc H. destruct (item_opcode E k a d Hc H) as [_ K]. unfold is_dmx. cbn [snd fst]. rewrite K. destruct k; reflexivity. Qed.

(** A run can be cut at a transmission. *)
Lemma tx_alone E y l y' o1 x o2 : exec E y l = RNext y' (o1 ++ OTx x :: o2) -> o1 = [] /\ o2 = [].
Proof.
  intros He. apply exec_cases in He.
  destruct He as [(i & c & t & s & t' & sp & -> & Et & Es & ->)|[(t & Ho & -> & Hk)|(mm & op & f & Ho & -> & _)]].
  - remember (o1 ++ OTx x :: o2) as o eqn:Eo. tcases Es; destruct o1 as [|ob1 [|ob2 o1]]; try discriminate Eo; try (cbn in Eo; destruct o1; discriminate Eo);
      injection Eo as -> <-; auto.
  - destruct o1; discriminate.
  - destruct o1 as [|z [|w o1]]; discriminate.
Qed.
Lemma runs_at_tx E ls y tr1 x tr2 : runs E ls y (tr1 ++ OTx x :: tr2) -> exists ls1 y1, runs E ls1 y1 (tr1 ++ [OTx x]).
Proof.
  unfold runs. remember (tr1 ++ OTx x :: tr2) as tr eqn:Etr. remember (init E) as y0 eqn:E0. intros R. revert E0 tr2 Etr.
  induction R as [|y0 ls y1 tr l y2 o Hs IH Hl He]; intros -> tr2 Etr; [ destruct tr1; discriminate | ].
  apply app_eq_app in Etr. destruct Etr as (k & [[E1 E2]|[E1 E2]]).
  - destruct k as [|z k].
    + cbn in E2. subst o. rewrite app_nil_r in E1. subst tr1. destruct (tx_alone E y1 l y2 [] x tr2 He) as [_ ->].
      exists (ls ++ [l]), y2. econstructor; eassumption.
    + cbn in E2. injection E2 as <- ->. exact (IH eq_refl k E1).
  - subst. destruct (tx_alone E y1 l y2 k x tr2 He) as [-> ->]. exists (ls ++ [l]), y2. rewrite app_nil_r. econstructor; eassumption.
Qed.

Lemma queued_ok E ls y tr x : runs E ls y tr -> In x (queued tr) -> item_ok E x.
Proof.
  intros R H. pose proof (sys_obs _ _ _ (runs_ok _ _ _ _ R)) as HO. unfold queued, collect in H. apply in_concat in H. destruct H as (l & H1 & H2).
  apply in_map_iff in H1. destruct H1 as (o & <- & Ho). destruct o; cbn in H2; try contradiction. destruct H2 as [->|[]].
  rewrite Forall_forall in HO. specialize (HO (OQueued x)). apply HO. apply elem_of_list_In. exact Ho.
Qed.
Lemma finished_split tr : finished tr ≡ₚ transmitted tr ++ dropped tr.
Proof.
  unfold finished, transmitted, dropped. rewrite <- collect_union. erewrite collect_ext; [ reflexivity | ]. intros o. destruct o; reflexivity.
Qed.
Lemma frames_queued_eq tr : frames_queued tr = omap (fun x => match fst x with KDmx => Some (snd x) | _ => None end) (queued tr).
Proof.
  unfold frames_queued, queued. induction tr as [|o tr IH]; [ reflexivity | ]. rewrite !collect_cons, omap_app, IH.
  f_equal. destruct o as [| | | | | | | |x| | | | | | | | | |]; try reflexivity. destruct x as [[] f]; reflexivity.
Qed.
Lemma omap_filter_dmx E l : wf_config (E_config E) -> (forall x, In x l -> item_ok E x) ->
  omap (fun x => match fst x with KDmx => Some (snd x) | _ => None end) l = map snd (List.filter is_dmx l).
Proof.
  intros Hc. induction l as [|x l IH]; intros H; [ reflexivity | ]. cbn. rewrite (item_is_dmx E x Hc) by (apply H; left; reflexivity).
  rewrite IH by (intros z Hz; apply H; right; exact Hz). destruct x as [[] f]; reflexivity.
Qed.
(** Frames made by ticks are put on the queue once each; what is transmitted was queued. *)
Lemma sent_once E ls y tr : runs E ls y tr -> exists rest, queued tr ≡ₚ transmitted tr ++ rest.
Proof.
  intros R. pose proof (law_runs E law_payloads _ _ _ (payloads_respected E) R) as P. cbn [v_in v_out] in P.
  change (collect (v_in law_payloads) tr) with (queued tr) in P. change (collect (v_out law_payloads) tr) with (finished tr) in P.
  rewrite finished_split, <- app_assoc in P. eauto.
Qed.
Lemma filter_perm {A} (f : A -> bool) l l' : l ≡ₚ l' -> List.filter f l ≡ₚ List.filter f l'.
Proof.
  induction 1; cbn; [ reflexivity | destruct (f x); [ constructor | ]; assumption | destruct (f x), (f y); try reflexivity; constructor | etransitivity; eassumption ].
Qed.
Theorem C73_frames_once : forall E ls y tr, wf_config (E_config E) -> runs E ls y tr -> exists rest, frames_made tr ≡ₚ dmx_out tr ++ rest.
Proof.
  intros E ls y tr Hc R. destruct (frames_in_order _ _ _ _ R) as [_ ->]. rewrite frames_queued_eq, (omap_filter_dmx E) by (try assumption; intros x; eapply queued_ok; exact R).
  destruct (sent_once _ _ _ _ R) as (rest & P). apply (filter_perm is_dmx), (Permutation_map snd) in P. rewrite List.filter_app, map_app in P.
  exists (map snd (List.filter is_dmx rest) ++ collect undelivered (Y_threads y)). unfold dmx_out. rewrite app_assoc. apply Permutation_app_tail. exact P.
Qed.
Lemma frames_made_at f tr : In f (frames_made tr) -> exists tra s e out trb, tr = tra ++ OTable s e out :: trb /\ In f out.
Proof.
  unfold frames_made, collect. intros H. apply in_concat in H. destruct H as (l & H1 & H2). apply in_map_iff in H1. destruct H1 as (o & <- & Ho).
  apply in_split in Ho. destruct Ho as (tra & trb & ->). destruct o; try contradiction. eauto 8.
Qed.
(** Every ArtDmx datagram on the wire comes from an earlier tick: it goes to the node that the tick found routed for its
    universe and carries the data written last for this universe before the tick. *)
Theorem C73_wire_data : forall E ls y tr1 x tr2, wf_config (E_config E) -> runs E ls y (tr1 ++ OTx x :: tr2) -> is_dmx x = true ->
  exists tra s order now out trb a n cn q, tr1 = tra ++ OTable s (ETick order now) out :: trb /\ In (snd x) out /\
    K_OutputAddress s !! a = Some n /\ K_heap s !! n = Some cn /\ fst (snd x) = (C_IP (CN_Node cn), 6454) /\
    Unmarshal (snd (snd x)) = Ret (Some (PktDMX q), None) /\ (DMX_Net q, DMX_SubUni q) = a /\
    DMX_Data q = last_write (hist tra) n a.
Proof.
  intros E ls y tr1 x tr2 Hc R0 Hx. destruct (runs_at_tx _ _ _ _ _ _ R0) as (ls1 & y1 & R). clear R0.
  destruct (C73_frames_once _ _ _ _ Hc R) as (rest & P).
  assert (Hf : In (snd x) (frames_made (tr1 ++ [OTx x]))).
  { apply elem_of_list_In. rewrite P. apply elem_of_app. left. unfold dmx_out, transmitted. rewrite collect_app. cbn. rewrite List.filter_app, map_app. apply elem_of_app. right.
    cbn. rewrite Hx. left. }
  unfold frames_made in Hf. rewrite collect_app in Hf. cbn in Hf. rewrite app_nil_r in Hf. apply frames_made_at in Hf.
  destruct Hf as (tra & s & e & out & trb & -> & Hf). pose proof (ok_reach _ _ _ (sys_shared _ _ _ (runs_ok _ _ _ _ R))) as Hr.
  rewrite !hist_app in Hr. cbn [hist omap list_omap] in Hr. change (omap _ trb) with (hist trb) in Hr. rewrite <- app_assoc in Hr. cbn [app] in Hr.
  destruct (reach_prefix _ _ _ _ _ _ _ Hr) as (_ & _ & s1 & Es). apply step_quiet in Es. destruct e as [| | |order now|]; try (subst out; contradiction).
  destruct (C46_last_write_wins _ _ _ _ _ _ _ _ (snd x) Hr) as (a & n & cn & q & H1 & H2 & H3 & H4 & H5 & H6 & H7); [ apply elem_of_list_In; exact Hf | ].
  exists tra, s, order, now, out, trb, a, n, cn, q. rewrite H5, H6. destruct a. repeat (split; [ first [ reflexivity | assumption ] | ]). assumption.
Qed.
(** A controller discovers a node, the user writes a universe, a tick follows, sendLoop transmits: the poll, the answer to
    the own poll is still waiting, and the frame with the data written. *)
Definition sevens : list N := repeat 7 512.
Definition wire_script : script := up_ctl ++ discover ++ act (LSend sevens (0, 0)) ++ go_n 8 1 ++ tick 5 2000000000 ++ go_n 5 3 ++ transmit 3 ++ transmit 3.
Definition carries_sevens (x : tag * payload) : bool := match Unmarshal (snd (snd x)) with Ret (Some (PktDMX q), None) => bool_decide (DMX_Data q = sevens) | _ => false end.
Example C73_ex : exists ls y tr1 x tr2, wf_config (E_config ctl1) /\ runs ctl1 ls y (tr1 ++ OTx x :: tr2) /\ is_dmx x = true /\ carries_sevens x = true.
Proof.
  destruct (tested_runs ctl1 wire_script (fun _ _ tr => existsb (fun o => match o with OTx x => is_dmx x && carries_sevens x | _ => false end) tr))
    as (ls & y & tr & R & H); [ vm_compute; reflexivity | ].
  apply existsb_exists in H. destruct H as (o & Ho & H). destruct o; try discriminate. apply andb_prop in H. destruct H as [H1 H2].
  apply in_split in Ho. destruct Ho as (tr1 & tr2 & ->). exists ls, y, tr1, x, tr2. split; [ repeat (split; [ repeat constructor | ]); repeat constructor | auto ].
Qed.

(** * C74 *)
(** Start right after Stop, with an old sendLoop that has taken a payload from its queue: threads of the second run are 8 Start,
    9 pollReplyLoop, 10 recvLoop, 11 sendLoop, 12 pollLoop, 13 dmxUpdateLoop. *)
Definition sent_late : script := up_ctl ++ go_n 4 2 ++ go_n 3 2 ++ stop_ctl 7 ++ act LStart ++ go_n 8 4 ++ go_n 12 5 ++ go_n 9 5 ++ go_n 11 9 ++ go_n 3 1.
Theorem C74_order_refuted : exists ls y tr x z, life ctl1 closed_read ls y tr Up /\ calls ls = [true; false; true] /\ no_errors ls = true /\
  queued tr = [x; x; z] /\ transmitted tr = [x; z; x] /\ x <> z.
Proof.
  destruct (tested_life_ok ctl1 closed_readb closed_read sent_late (fun ls y tr ph => match ph with Up => true | _ => false end && bool_decide (calls ls = [true; false; true]) && no_errors ls &&
      match queued tr with [a; b; z] => bool_decide (a = b /\ transmitted tr = [a; z; a] /\ a <> z) | _ => false end))
    as (ls & y & tr & ph & L & H); [ exact closed_readb_ok | vm_compute; reflexivity | ].
  apply andb_prop in H. destruct H as [H H4]. apply andb_prop in H. destruct H as [H H3]. apply andb_prop in H. destruct H as [H1 H2]. destruct ph; try discriminate.
  apply bool_decide_eq_true in H2. destruct (queued tr) as [|a [|b [|z [|? ?]]]] eqn:Eq; try discriminate. apply bool_decide_eq_true in H4. destruct H4 as (<- & K1 & K2).
  exists ls, y, tr, a, z. rewrite Eq. auto 10.
Qed.
(** In careful lives, what holds of each run from a state without goroutines holds of the whole. *)
Lemma careful_sublist E {A} (F Q : list obs -> list A) : (forall a b, F (a ++ b) = F a ++ F b) -> (forall a b, Q (a ++ b) = Q a ++ Q b) ->
  (forall ls0 y0 tr0 ls y tr, runs E ls0 y0 tr0 -> quiescent y0 -> steps E y0 ls y tr -> (starts ls <= 1)%nat -> F tr `sublist_of` Q tr) ->
  forall ls y tr ph, life E careful ls y tr ph -> F tr `sublist_of` Q tr.
Proof.
  intros HF HQ P ls y tr ph L.
  assert (K : exists ls0 y0 tr0 ls1 tr1, runs E ls0 y0 tr0 /\ quiescent y0 /\ steps E y0 ls1 y tr1 /\ (starts ls1 <= 1)%nat /\ tr = tr0 ++ tr1 /\ F tr0 `sublist_of` Q tr0).
  { induction L as [|ls y tr ph l ph1 y' o L IH A1 Hl Hc He].
    - exists [], (init E), [], [], []. repeat (split; [ first [ solve [ constructor ] | reflexivity | cbn; lia ] | ]).
      apply (P [] (init E) [] [] (init E) []); [ constructor | constructor | constructor | cbn; lia ].
    - destruct IH as (ls0 & y0 & tr0 & ls1 & tr1 & R & Qu & S & N & -> & Sub).
      assert (K : l = LStart \/ is_start l = 0%nat) by (destruct l; auto). destruct K as [->|K].
      + exists (ls0 ++ ls1), y, (tr0 ++ tr1), [LStart], o. split; [ eapply steps_app; eassumption | ]. split; [ apply A1; reflexivity | ].
        split; [ exact (steps_snoc E y [] y [] LStart y' o (steps_nil E y) Hl He) | ]. split; [ cbn; lia | ]. split; [ reflexivity | ].
        rewrite HF, HQ. apply sublist_app; [ exact Sub | ]. exact (P _ _ _ _ _ _ R Qu S N).
      + exists ls0, y0, tr0, (ls1 ++ [l]), (tr1 ++ o). repeat (split; [ first [ assumption | econstructor; eassumption ] | ]).
        split; [ unfold starts in *; rewrite sum_list_with_app; cbn [sum_list_with]; lia | ]. rewrite app_assoc. auto. }
  destruct K as (ls0 & y0 & tr0 & ls1 & tr1 & R & Qu & S & N & -> & Sub). rewrite HF, HQ. apply sublist_app; [ exact Sub | ]. exact (P _ _ _ _ _ _ R Qu S N).
Qed.
Lemma transmitted_finished tr : transmitted tr `sublist_of` finished tr.
Proof.
  unfold transmitted, finished. induction tr as [|o tr IH]; [ constructor | ]. rewrite !collect_cons. apply sublist_app; [ | exact IH ].
  destruct o; try reflexivity. apply sublist_nil_l.
Qed.
Lemma sublist_filter {A} (f : A -> bool) l l' : l `sublist_of` l' -> List.filter f l `sublist_of` List.filter f l'.
Proof. induction 1 as [|x l l' _ IH|x l l' _ IH]; cbn; [ constructor | destruct (f x); [ constructor | ]; exact IH | destruct (f x); [ constructor | ]; exact IH ]. Qed.
Lemma sublist_map {A B} (f : A -> B) l l' : l `sublist_of` l' -> map f l `sublist_of` map f l'.
Proof. induction 1; cbn; constructor; assumption. Qed.
(** Payloads are transmitted in the order in which they were queued, ArtDmx frames in the order of the ticks; datagrams are parsed in the order of arrival. *)
Theorem C74_order_partial : forall E ls y tr ph, wf_config (E_config E) -> life E careful ls y tr ph ->
  transmitted tr `sublist_of` queued tr /\ dmx_out tr `sublist_of` frames_made tr.
Proof.
  intros E ls y tr ph Hc L.
  assert (K : transmitted tr `sublist_of` queued tr).
  { apply (careful_sublist E transmitted queued) with (ls := ls) (y := y) (ph := ph); [ intros; apply collect_app | intros; apply collect_app | | exact L ].
    intros ls0 y0 tr0 ls1 y1 tr1 R Q S N. rewrite (send_order E _ _ _ _ _ _ R Q S N). apply sublist_inserts_r. apply transmitted_finished. }
  split; [ exact K | ]. pose proof (life_runs _ _ _ _ _ _ L) as R. destruct (frames_in_order _ _ _ _ R) as [_ ->]. apply sublist_inserts_r.
  rewrite frames_queued_eq, (omap_filter_dmx E) by (try assumption; intros x; eapply queued_ok; exact R). apply sublist_map, sublist_filter, K.
Qed.
Theorem C64_order_life_partial : forall E ls y tr ph, life E careful ls y tr ph -> parsed tr `sublist_of` others (E_localIP E) tr.
Proof.
  intros E ls y tr ph L. rewrite others_received. apply (careful_sublist E parsed (received E)) with (ls := ls) (y := y) (ph := ph); [ intros; apply collect_app | intros; apply collect_app | | exact L ].
  intros ls0 y0 tr0 ls1 y1 tr1 R Q S N. rewrite (recv_order E _ _ _ _ _ _ R Q S N). apply sublist_inserts_r. reflexivity.
Qed.
Lemma collect_none_in {A B} (f : A -> list B) l : (forall x, In x l -> f x = []) -> collect f l = [].
Proof. induction l as [|x l IH]; intros H; [ reflexivity | ]. rewrite collect_cons, (H x (or_introl eq_refl)), IH; [ reflexivity | ]. intros z Hz. apply H. right. exact Hz. Qed.
(** Before any Stop: no goroutine is stopping, and the node is not shut down once a Start has passed its check. *)
Definition before_start (t : thread) : Prop := match t with TDone | U_start_ctl | U_start_node | U_send _ _ => True | _ => False end.
Record unstopped (y : sys) : Prop := {
  un_stopping : Forall (fun t => is_stopping t = 0%nat) (Y_threads y);
  un_flag : S_shutdown (Y_sh y) = false \/ Forall before_start (Y_threads y) }.
Lemma unstopped_step E y l y' o : unstopped y -> is_stop l = 0%nat -> exec E y l = RNext y' o -> unstopped y' /\ (forall b, In b o -> match b with ODrop _ => exists i, l = LRun i CErr | ODiscard _ _ => False | _ => True end).
Proof.
  intros [U1 U2] Hl He. apply exec_cases in He. destruct He as [(i & c & t & s & t' & sp & -> & Et & Es & ->)|[(t & -> & -> & Hk)|(mm & op & f & -> & -> & _)]]; cbn [Y_sh Y_threads].
  - pose proof (Forall_lookup_1 _ _ _ _ U1 Et) as T1. destruct U2 as [U2|U2].
    + split.
      * tcases Es; try discriminate T1; constructor; cbn [Y_sh Y_threads]; try (left; exact U2); try (left; reflexivity); apply (forall_step _ _ _ _ _ _ (fun _ K => K) U1); repeat constructor.
      * intros x Hx. tcases Es; cbn [In] in Hx; repeat match goal with H : _ \/ _ |- _ => destruct H as [H|H] end; try discriminate; try contradiction; try congruence; subst; eauto; try exact I; congruence.
    + pose proof (Forall_lookup_1 _ _ _ _ U2 Et) as T2. split.
      * tcases Es; try contradiction T2; constructor; cbn [Y_sh Y_threads]; try (left; reflexivity);
          try (apply (forall_step _ _ _ _ _ _ (fun _ K => K) U1); repeat constructor); right; apply (forall_step _ _ _ _ _ _ (fun _ K => K) U2); repeat constructor.
      * intros x Hx. tcases Es; try contradiction T2; cbn [In] in Hx; repeat match goal with H : _ \/ _ |- _ => destruct H as [H|H] end; try discriminate; try contradiction; subst; exact I.
  - split; [ | intros x [] ]. destruct Hk as [[-> ->]|[[-> ->]|(dmx & a & -> & _ & ->)]]; try discriminate Hl; constructor; cbn [Y_sh Y_threads];
      try (apply Forall_snoc; [ exact U1 | try destruct (E_ctl E); reflexivity ]); (destruct U2 as [U2|U2]; [ left; exact U2 | right; apply Forall_snoc; [ exact U2 | try destruct (E_ctl E); exact I ] ]).
  - split; [ | intros x [<-|[]]; exact I ]. constructor; cbn [Y_sh Y_threads]; [ exact U1 | ]. destruct U2 as [U2|U2]; [ left; exact U2 | right; exact U2 ].
Qed.
Lemma unstopped_quiescent y : quiescent y -> unstopped y.
Proof. intros Q. constructor; [ | right ]; eapply Forall_impl; try exact Q; intros t ->; [ reflexivity | exact I ]. Qed.
Lemma unstopped_steps E y0 ls y tr : steps E y0 ls y tr -> unstopped y0 -> stops ls = 0%nat -> unstopped y /\ sum_list_with discards tr = 0%nat /\ (no_errors ls = true -> dropped tr = []).
Proof.
  intros R U0. induction R as [|y ls y1 tr1 l y2 o Hs IH Hl He]; intros Hst.
  - split; [ exact U0 | split; reflexivity ].
  - unfold stops in Hst. rewrite sum_list_with_app in Hst. cbn [sum_list_with] in Hst. assert (H1 : stops ls = 0%nat) by (unfold stops; lia). assert (H2 : is_stop l = 0%nat) by lia. destruct (IH U0 H1) as (U & C & D).
    destruct (unstopped_step E _ _ _ _ U H2 He) as [U' D']. split; [ exact U' | ]. split.
    { rewrite sum_list_with_app, C. apply sum_0. apply Forall_forall. intros b Hb. apply elem_of_list_In in Hb. specialize (D' b Hb). destruct b; try reflexivity. contradiction. }
    intros Hn. unfold no_errors in Hn. rewrite forallb_app in Hn. apply andb_prop in Hn. destruct Hn as [Hn1 Hn2].
    unfold dropped. rewrite collect_app. fold (dropped tr1). rewrite (D Hn1). cbn [app]. apply collect_none_in. intros b Hb. destruct b; try reflexivity.
    specialize (D' _ Hb). cbn in D'. destruct D' as [j ->]. discriminate Hn2.
Qed.
Lemma unstopped_runs E ls y tr : runs E ls y tr -> stops ls = 0%nat -> unstopped y /\ sum_list_with discards tr = 0%nat /\ (no_errors ls = true -> dropped tr = []).
Proof. intros R. apply (unstopped_steps E (init E)); [ exact R | ]. apply unstopped_quiescent. constructor. Qed.
(** The channels of earlier Starts are not touched. *)
Lemma gens_kept E y0 ls y tr : quiescent y0 -> steps E y0 ls y tr -> (starts ls <= 1)%nat -> stops ls = 0%nat -> exists new, S_gens (Y_sh y) = S_gens (Y_sh y0) ++ new.
Proof.
  intros Q H. induction H as [|y0 ls y1 tr1 l y2 o Hs IH Hl He]; intros Hn Hz; [ exists []; rewrite app_nil_r; reflexivity | ].
  assert (Hn1 : (starts ls <= 1)%nat) by (unfold starts in *; rewrite sum_list_with_app in Hn; lia). assert (Hz1 : stops ls = 0%nat) by (unfold stops in *; rewrite sum_list_with_app in Hz; lia). destruct (IH Q Hn1 Hz1) as [new K].
  destruct (unstopped_steps E _ _ _ _ Hs (unstopped_quiescent _ Q) Hz1) as ([Un _] & _).
  pose proof (single_run E _ _ _ _ Q Hs Hn1) as S1. apply exec_cases in He. destruct He as [(i & c & t & s & t' & sp & -> & Et & Es & ->)|[(t & -> & -> & Hk)|(mm & op & f & -> & -> & _)]]; cbn [Y_sh].
  - pose proof (Forall_lookup_1 _ _ _ _ (sg_placed _ _ _ _ _ S1) Et) as Pl.
    assert (U : forall g ch, (length (S_gens (Y_sh y0)) <= g)%nat -> exists new', <[g := ch]> (S_gens (Y_sh y1)) = S_gens (Y_sh y0) ++ new').
    { intros g ch Hg. rewrite K, insert_app_r_alt by exact Hg. eauto. }
    tcases Es; cbn [placed] in Pl; unfold upd_gen; cbn [S_gens with_gens with_shutdown with_err with_conns with_tables with_cgens with_tickers]; try (exists new; exact K);
      try (apply U; intuition lia); try (rewrite K, <- app_assoc; eauto);
      pose proof (Forall_lookup_1 _ _ _ _ Un Et) as X; discriminate X.
  - exists new. exact K.
  - exists new. exact K.
Qed.
Lemma finished_transmitted tr : dropped tr = [] -> finished tr = transmitted tr.
Proof.
  unfold dropped, finished, transmitted. induction tr as [|o tr IH]; [ reflexivity | ]. rewrite !collect_cons. intros H. apply app_eq_nil in H. destruct H as [H1 H2].
  rewrite IH by exact H2. destruct o; try reflexivity. discriminate.
Qed.
Lemma collect_length {A B} (f : A -> list B) (r : A -> nat) l : (forall x, (length (f x) <= r x)%nat) -> (length (collect f l) <= sum_list_with r l)%nat.
Proof. intros H. induction l as [|x l IH]; [ reflexivity | ]. rewrite collect_cons, app_length. cbn [sum_list_with]. specialize (H x). lia. Qed.
(** From a Start until Stop, without network errors, what was transmitted is exactly the beginning of what was queued, and at most eleven payloads behind; [y0] is the state before
    the Start, in which the goroutines of earlier runs have all ended. *)
Theorem C74_running_partial : forall E ls0 y0 tr0 ls y tr, runs E ls0 y0 tr0 -> Forall (eq TDone) (Y_threads y0) -> steps E y0 ls y tr -> (starts ls <= 1)%nat -> stops ls = 0%nat -> no_errors ls = true ->
  exists rest, queued tr = transmitted tr ++ rest /\ (length rest <= 11)%nat.
Proof.
  intros E ls0 y0 tr0 ls y tr R0 Q0 R Hn Hs He. assert (Q : quiescent y0) by (eapply Forall_impl; [ exact Q0 | intros t <-; reflexivity ]).
  destruct (unstopped_steps E _ _ _ _ R (unstopped_quiescent _ Q) Hs) as (_ & _ & D). specialize (D He).
  pose proof (send_order E ls0 y0 tr0 ls y tr R0 Q R Hn) as K. rewrite (finished_transmitted _ D) in K. eexists. split; [ exact K | ].
  rewrite app_length. pose proof (sg_sl _ _ _ _ _ (single_run E _ _ _ _ Q R Hn)) as K1.
  assert (K2 : (length (collect sl_view (Y_threads y)) <= sum_list_with is_sl (Y_threads y))%nat) by (apply collect_length; intros t; destruct t; cbn; lia).
  assert (K3 : (length (sendq (length (S_gens (Y_sh y0))) (Y_sh y)) <= 10)%nat).
  { unfold sendq. destruct (S_gens (Y_sh y) !! _) as [ch|] eqn:Ech; [ | cbn; lia ]. pose proof (ok_gens _ _ _ (sys_shared _ _ _ (runs_ok E _ _ _ (runs_steps E _ _ _ _ _ _ R0 R)))) as G.
    apply (Forall_lookup_1 _ _ _ _ G Ech). }
  lia.
Qed.
Example C74_running_ex : exists ls y tr, runs ctl1 ls y tr /\ (starts ls <= 1)%nat /\ stops ls = 0%nat /\ no_errors ls = true /\ length (queued tr) = 2%nat /\ length (transmitted tr) = 1%nat.
Proof.
  destruct (tested_runs ctl1 (up_ctl ++ go_n 4 4 ++ go_n 1 3 ++ transmit 3) (fun ls y tr => (starts ls <=? 1)%nat && (stops ls =? 0)%nat && no_errors ls && (length (queued tr) =? 2)%nat && (length (transmitted tr) =? 1)%nat))
    as (ls & y & tr & R & H); [ vm_compute; reflexivity | ].
  repeat (apply andb_prop in H; let K := fresh in destruct H as [H K]). exists ls, y, tr. rewrite ?Nat.leb_le, ?Nat.eqb_eq in *. auto 10.
Qed.

(** * C76 *)
(** The loops of the first Start wait on channels nobody writes to or closes any more. *)
Definition deaf_thread (t : thread) : Prop :=
  match t with
  | TDone | RD_read _ | RD_reading _ _ | RD_got _ _ | RD_push _ _ | U_flag | U_close | U_closeconn => True
  | PR_wait _ g | SL_wait g | RL_wait g => g = 0%nat
  | RD_pushing _ _ g => g = 1%nat
  | _ => False
  end.
Definition deaf (y : sys) : Prop :=
  (exists b c q, S_gens (Y_sh y) = [mkChans [] [] [] q false; mkChans [] b [] [] c]) /\ Forall deaf_thread (Y_threads y).
Definition stuck_loop (t : thread) : bool := match t with PR_wait _ 0 | SL_wait 0 | RL_wait 0 => true | _ => false end.
Lemma deaf_step E y l y' o : E_ctl E = false -> deaf y -> is_start l = 0%nat -> exec E y l = RNext y' o ->
  deaf y' /\ parsed o = [] /\ transmitted o = [] /\ forall i t, Y_threads y !! i = Some t -> stuck_loop t = true -> Y_threads y' !! i = Some t.
Proof.
  intros Ec [(b & c & q & G) D] Hl He. apply exec_cases in He. destruct He as [(i & ch & t & s & t' & sp & -> & Et & Es & ->)|[(t & -> & -> & Hk)|(mm & op & f & -> & -> & _)]]; cbn [Y_sh Y_threads].
  - pose proof (Forall_lookup_1 _ _ _ _ D Et) as T.
    assert (K : deaf_thread t' /\ sp = [] /\ parsed o = [] /\ transmitted o = [] /\ stuck_loop t = false /\ exists b c q, S_gens s = [mkChans [] [] [] q false; mkChans [] b [] [] c]).
    { destruct t; try contradiction T; destruct ch; try discriminate Es; cbn [tstep deaf_thread] in *; unfold on_closed, eval_gen, gen_closed, last_index in Es; subst; rewrite ?G in Es; cbn in Es;
        repeat match type of Es with context [match ?x with _ => _ end] => destruct x eqn:?; try discriminate Es end; try discriminate Es;
        injection Es as <- <- <- <-; cbn; repeat (split; [ solve [ auto | congruence ] | ]); unfold upd_gen; cbn [S_gens with_shutdown with_gens with_conns]; rewrite ?G; cbn; eauto. }
    destruct K as (K1 & -> & K2 & K3 & K4 & K5). split; [ split; [ exact K5 | rewrite app_nil_r; cbn [Y_threads]; apply Forall_insert; assumption ] | ]. split; [ exact K2 | ]. split; [ exact K3 | ].
    intros j u Hj Hu. rewrite app_nil_r. rewrite list_lookup_insert_ne; [ exact Hj | ]. intros ->. congruence.
  - destruct Hk as [[-> ->]|[[-> ->]|(dmx & a & _ & Ec' & _)]]; [ discriminate Hl | | congruence ].
    split; [ split; [ cbn; eauto | apply Forall_snoc; [ exact D | rewrite Ec; exact I ] ] | ]. split; [ reflexivity | ]. split; [ reflexivity | ]. intros j u Hj _. apply lookup_app_l_Some. exact Hj.
  - split; [ split; [ cbn; eauto | exact D ] | ]. split; [ reflexivity | ]. split; [ reflexivity | ]. auto.
Qed.
Lemma deaf_forever E y ls y' tr : E_ctl E = false -> deaf y -> steps E y ls y' tr -> starts ls = 0%nat ->
  deaf y' /\ parsed tr = [] /\ transmitted tr = [] /\ forall i t, Y_threads y !! i = Some t -> stuck_loop t = true -> Y_threads y' !! i = Some t.
Proof.
  intros Ec D S. induction S as [|y ls y1 tr1 l y2 o Hs IH Hl He]; intros Hn; [ auto | ].
  unfold starts in Hn. rewrite sum_list_with_app in Hn. cbn [sum_list_with] in Hn. assert (H1 : starts ls = 0%nat) by (unfold starts; lia). assert (H2 : is_start l = 0%nat) by lia.
  destruct (IH D H1) as (I1 & I2 & I3 & I4). destruct (deaf_step E _ _ _ _ Ec I1 H2 He) as (J1 & J2 & J3 & J4).
  split; [ exact J1 | ]. unfold parsed, transmitted in *. rewrite !collect_app, I2, I3, J2, J3. auto.
Qed.
Definition deafb (y : sys) : bool :=
  match S_gens (Y_sh y) with
  | [mkChans [] [] [] _ false; mkChans [] _ [] [] _] => forallb (fun t => match t with
      | TDone | RD_read _ | RD_reading _ _ | RD_got _ _ | RD_push _ _ | U_flag | U_close | U_closeconn => true
      | PR_wait _ g | SL_wait g | RL_wait g => (g =? 0)%nat
      | RD_pushing _ _ g => (g =? 1)%nat
      | _ => false
      end) (Y_threads y)
  | _ => false
  end.
Lemma deafb_ok y : deafb y = true -> deaf y.
Proof.
  unfold deafb, deaf. repeat match goal with |- context [match ?x with _ => _ end = true -> _] => destruct x; try discriminate end. intros H. split; [ eauto | ].
  apply Forall_forall. intros t Ht. rewrite forallb_forall in H. specialize (H t (proj1 (elem_of_list_In _ _) Ht)). destruct t; try discriminate H; cbn; try exact I; apply Nat.eqb_eq, H.
Qed.
(** A node is running and Start is called once more; the port is taken, so this Start returns an error. From then on, for ever and whatever arrives, the node parses and
    transmits nothing, and its three loops do not end, not even after Stop. *)
Theorem C76_second_start_refuted : exists ls y tr, runs node1 ls y tr /\ calls ls = [true; true] /\
  collect (fun o => match o with OStart b => [b] | _ => [] end) tr = [true; false] /\
  (exists ls' y' tr', steps node1 y ls' y' tr' /\ calls ls' = [false] /\ received node1 tr' = [poll_bytes] /\ In OStop tr') /\
  forall ls' y' tr', steps node1 y ls' y' tr' -> starts ls' = 0%nat -> parsed tr' = [] /\ transmitted tr' = [] /\
    forall i, In i [1; 2; 3]%nat -> exists t, Y_threads y' !! i = Some t /\ (is_pr t + is_sl t + is_rl t = 1)%nat.
Proof.
  destruct (tested2_runs node1 (up_node ++ act LStart ++ go_n 5 1 ++ act (LRun 5 CErr)) (arrive 4 host2 poll_bytes ++ act LStop ++ go_n 6 3)
     (fun ls y tr ls' y' tr' => bool_decide (calls ls = [true; true]) && bool_decide (collect (fun o => match o with OStart b => [b] | _ => [] end) tr = [true; false]) &&
        bool_decide (calls ls' = [false]) && bool_decide (received node1 tr' = [poll_bytes]) && existsb (fun o => match o with OStop => true | _ => false end) tr' && deafb y &&
        bool_decide (map stuck_loop (Y_threads y) = [false; true; true; true; false; false])))
    as (ls & y & tr & ls' & y' & tr' & R & S & H); [ vm_compute; reflexivity | ].
  repeat (apply andb_prop in H; let K := fresh "K" in destruct H as [H K]). apply bool_decide_eq_true in H, K4, K3, K2, K. apply deafb_ok in K0.
  exists ls, y, tr. repeat (split; [ assumption | ]). split.
  - exists ls', y', tr'. repeat (split; [ assumption | ]). apply existsb_exists in K1. destruct K1 as (o & Ho & K1). destruct o; try discriminate. exact Ho.
  - intros ls1 y1 tr1 S1 N1. destruct (deaf_forever node1 _ _ _ _ eq_refl K0 S1 N1) as (D & D1 & D2 & D3). split; [ exact D1 | ]. split; [ exact D2 | ].
    intros i Hi. assert (X : exists t, Y_threads y !! i = Some t /\ stuck_loop t = true).
    { assert (X : map stuck_loop (Y_threads y) !! i = Some true) by (rewrite K; cbn in Hi; destruct Hi as [<-|[<-|[<-|[]]]]; reflexivity).
      rewrite list_lookup_fmap in X. destruct (Y_threads y !! i) as [t|]; [ | discriminate ]. exists t. split; [ reflexivity | ]. injection X as X. exact X. }
    destruct X as (t & X1 & X2). exists t. split; [ apply D3; assumption | ]. destruct t; try discriminate X2; reflexivity.
Qed.
(** Without Stop and without network errors no number of Starts crashes the program. *)
Theorem C76_starts_partial : forall E ls y tr, runs E ls y tr -> stops ls = 0%nat -> no_errors ls = true -> (0 < E_maxFPS E <= 1000000000)%Z -> forall l, exec E y l <> RCrash.
Proof.
  intros E ls y tr R Hs Hn Hf l H. destruct (unstopped_runs E ls y tr R Hs) as ([U _] & _). apply (exec_crash E y tr l (runs_ok _ _ _ _ R)) in H. destruct H as (i & t & -> & Ht & Hc).
  pose proof (Forall_lookup_1 _ _ _ _ U Ht) as T. destruct t; cbn [crashing is_stopping] in *; try contradiction; try discriminate; try lia.
  destruct r; [ contradiction | ]. destruct (error_label E ls y tr R) as [j Hj]; [ eauto | ]. unfold no_errors in Hn. rewrite forallb_forall in Hn. specialize (Hn _ Hj). discriminate.
Qed.
Example C76_ex : exists ls y tr, runs ctl1 ls y tr /\ starts ls = 2%nat /\ stops ls = 0%nat /\ no_errors ls = true /\ (0 < E_maxFPS ctl1 <= 1000000000)%Z /\ sum_list_with is_dl (Y_threads y) = 2%nat.
Proof.
  destruct (tested_runs ctl1 (up_ctl ++ act LStart ++ go_n 7 4) (fun ls y tr => (starts ls =? 2)%nat && (stops ls =? 0)%nat && no_errors ls && (sum_list_with is_dl (Y_threads y) =? 2)%nat))
    as (ls & y & tr & R & H); [ vm_compute; reflexivity | ].
  repeat (apply andb_prop in H; let K := fresh in destruct H as [H K]). rewrite ?Nat.eqb_eq in *. exists ls, y, tr. repeat (split; [ first [ assumption | split; [ reflexivity | discriminate ] ] | ]). assumption.
Qed.

(** * C77 *)
Definition listens (o : obs) : nat := match o with OListen => 1 | _ => 0 end.
Definition poll_tick (l : label) : nat := match l with LRun _ CPollTick => 1 | _ => 0 end.
(** Polls about to be queued: Controller.Start before it starts pollLoop, pollLoop before its first send and after a tick. *)
Definition poll_due (t : thread) : nat := match t with U_start_loops | CP_start | CP_send _ | CP_sending _ _ => 1 | _ => 0 end.
Definition k_poll (x : tag * payload) : bool := match fst x with KPoll => true | _ => false end.
Lemma poll_step E s t c s' t' sp o : E_ctl E = true -> tstep E s t c = Next s' t' sp o ->
  (sum_list_with listens o + poll_tick (LRun 0 c) + poll_due t = cnt k_poll (queued o) + poll_due t' + sum_list_with poll_due sp)%nat.
Proof. intros Ec H. tcases H; try congruence; try reflexivity; rewrite poll_datagram_eq in *; discriminate. Qed.
Lemma poll_count E ls y tr : E_ctl E = true -> runs E ls y tr ->
  (sum_list_with listens tr + sum_list_with poll_tick ls = cnt k_poll (queued tr) + sum_list_with poll_due (Y_threads y))%nat.
Proof.
  intros Ec R. unfold runs in R. remember (init E) as y0 eqn:Ey. revert Ey. induction R as [|y ls y1 tr1 l y2 o Hs IH Hl He]; intros ->; [ reflexivity | ]. specialize (IH eq_refl).
  unfold queued in *. rewrite !sum_list_with_app, collect_app, cnt_app. cbn [sum_list_with]. apply exec_cases in He.
  destruct He as [(i & c & t & s & t' & sp & -> & Et & Es & ->)|[(t & -> & -> & Hk)|(mm & op & f & -> & -> & K & _)]]; cbn [Y_sh Y_threads].
  - pose proof (poll_step E _ _ _ _ _ _ _ Ec Es) as P. unfold queued in P. pose proof (sum_insert poll_due _ i t t' Et). rewrite sum_list_with_app. cbn [poll_tick] in *. lia.
  - rewrite sum_list_with_app, collect_nil, cnt_nil. cbn [sum_list_with]. destruct Hk as [[-> ->]|[[-> ->]|(dmx & a & -> & _ & ->)]]; rewrite ?Ec; cbn; lia.
  - congruence.
Qed.
Lemma cnt_ext_in {A} (P Q : A -> bool) l : (forall x, In x l -> P x = Q x) -> cnt P l = cnt Q l.
Proof. unfold cnt. induction l as [|x l IH]; intros H; [ reflexivity | ]. cbn. rewrite (H x (or_introl eq_refl)). destruct (Q x); cbn; [ f_equal | ]; apply IH; intros z Hz; apply H; right; exact Hz. Qed.
Lemma cnt_perm {A} (P : A -> bool) l k : l ≡ₚ k -> cnt P l = cnt P k.
Proof. intros H. unfold cnt. apply Permutation_length, filter_perm, H. Qed.
(** One ArtPoll is queued for each opened socket and for each tick of the poll ticker, except those about to be queued; what is transmitted as ArtPoll is always the same
    14 bytes, sent to the broadcast address of the controller. *)
Theorem C77_polls : forall E ls y tr, wf_config (E_config E) -> E_ctl E = true -> runs E ls y tr ->
  (sum_list_with listens tr + sum_list_with poll_tick ls = cnt is_poll (queued tr) + sum_list_with poll_due (Y_threads y))%nat /\
  (cnt is_poll (transmitted tr) <= cnt is_poll (queued tr))%nat /\
  forall x, In x (transmitted tr) -> is_poll x = true -> snd x = (E_ctlBroadcast E, [0x41; 0x72; 0x74; 0x2d; 0x4e; 0x65; 0x74; 0; 0x00; 0x20; 0; 14; 0x02; 0x00]).
Proof.
  intros E ls y tr Hc Ec R. split; [ | split ].
  - rewrite (poll_count E ls y tr Ec R). f_equal. apply cnt_ext_in. intros x Hx. symmetry. apply (item_is_poll E x Hc). eapply queued_ok; eassumption.
  - destruct (sent_once E ls y tr R) as [rest P]. rewrite (cnt_perm _ _ _ P), cnt_app. lia.
  - intros [k [a d]] Hx Hp. unfold transmitted, collect in Hx. apply in_concat in Hx. destruct Hx as (o' & H1 & H2). apply in_map_iff in H1. destruct H1 as (o & <- & Ho).
    destruct o; try contradiction. destruct H2 as [->|[]]. pose proof (tx_item E _ _ _ _ R Ho) as K. rewrite (item_is_poll E _ Hc K) in Hp. destruct k; try discriminate Hp.
    destruct K as [-> ->]. reflexivity.
Qed.
Example C77_ex : exists ls y tr, wf_config (E_config ctl1) /\ runs ctl1 ls y tr /\ sum_list_with listens tr = 1%nat /\ sum_list_with poll_tick ls = 1%nat /\ cnt is_poll (transmitted tr) = 2%nat.
Proof.
  destruct (tested_runs ctl1 (up_ctl ++ go_n 4 5 ++ act (LRun 4 CPollTick) ++ go_n 4 2 ++ transmit 3 ++ transmit 3)
    (fun ls y tr => (sum_list_with listens tr =? 1)%nat && (sum_list_with poll_tick ls =? 1)%nat && (cnt is_poll (transmitted tr) =? 2)%nat)) as (ls & y & tr & R & H); [ vm_compute; reflexivity | ].
  repeat (apply andb_prop in H; let K := fresh in destruct H as [H K]). rewrite ?Nat.eqb_eq in *. exists ls, y, tr.
  split; [ repeat (split; [ repeat constructor | ]); repeat constructor | auto 10 ].
Qed.

(** * C78 *)
Lemma calls_counts ls : calls ls = [true] -> starts ls = 1%nat /\ stops ls = 0%nat.
Proof.
  intros H. assert (K : forall ls, starts ls = cnt (fun b : bool => b) (calls ls) /\ stops ls = cnt negb (calls ls)).
  { clear. induction ls as [|l ls [I1 I2]]; [ split; reflexivity | ]. unfold calls, starts, stops in *. rewrite collect_cons, !cnt_app. cbn [sum_list_with]. rewrite I1, I2. destruct l; split; reflexivity. }
  destruct (K ls) as [-> ->]. rewrite H. split; reflexivity.
Qed.
Lemma quietly_life2 E y y' : quietly E y y' -> live E y -> forall ls tr, life E careful ls y tr Up ->
  exists ls' tr', steps E y ls' y' tr' /\ life E careful (ls ++ ls') y' (tr ++ tr') Up /\ calls ls' = [] /\ no_errors ls' = true /\ others (E_localIP E) tr' = [].
Proof.
  induction 1 as [|y i t c y1 o y2 Ht Hi He Q IH]; intros V ls tr L; [ exists [], []; rewrite !app_nil_r; split; [ constructor | auto ] | ].
  destruct (IH (live_next _ _ _ _ _ _ _ V Ht Hi He) _ _ (life_internal _ _ _ _ _ _ _ _ _ V L Ht Hi He)) as (ls' & tr' & S & L' & C & N & O).
  exists (LRun i c :: ls'), (o ++ tr'). rewrite <- !app_assoc in L'.
  split; [ eapply steps_cons; [ | exact He | exact S ]; destruct t, c; try discriminate Hi; exact I | ]. split; [ exact L' | ]. split; [ exact C | ]. split.
  - unfold no_errors in *. cbn [forallb]. rewrite N. destruct t, c; try discriminate Hi; reflexivity.
  - unfold others in *. rewrite collect_app, O, app_nil_r. cbn [exec] in He. rewrite Ht in He. destruct (tstep E (Y_sh y) t c) as [| |s t' sp o1] eqn:Es; try discriminate He. injection He as <- <-.
    apply collect_none_in. intros b Hb. destruct b; try reflexivity. exfalso. apply tstep_trans in Es. destruct Es; cbn [In] in Hb; repeat match goal with H : _ \/ _ |- _ => destruct H as [H|H] end; try discriminate; try contradiction.
Qed.
(** Where everything rests, everything since the last Start is done. *)
Lemma at_rest_done E ls0 y0 tr0 ls y' T : live E y' -> at_rest y' -> runs E ls0 y0 tr0 -> Forall (eq TDone) (Y_threads y0) -> steps E y0 ls y' T -> calls ls = [true] -> no_errors ls = true ->
    parsed T = others (E_localIP E) T /\
    (exists ps, Forall2 (fun d o => forall p, o = Some p <-> wire_accepts d p) (others (E_localIP E) T) ps /\ omap id ps ≡ₚ called T ++ ignored T) /\
    transmitted T = queued T /\ dmx_out T = frames_made T /\
    (length (polls_handled T) + cnt is_poll (queued T) = cnt is_reply (transmitted T))%nat /\
    (C_Type (E_config E) = StController -> replies_called T ≡ₚ replies_applied T).
Proof.
  intros V' [R1 R2] R0 Qu0 St Hcalls Hne. pose proof (lv_wf _ _ V') as Wf.
  assert (Qu : quiescent y0) by (eapply Forall_impl; [ exact Qu0 | intros t <-; reflexivity ]).
  pose proof (runs_steps E _ _ _ _ _ _ R0 St) as R. destruct (live_facts E y' V') as (g & ch & k & G1 & G2 & _ & _ & _ & _ & _ & Npr & _).
  destruct (calls_counts _ Hcalls) as [Hst Hsp].
  destruct (unstopped_steps E _ _ _ _ St (unstopped_quiescent _ Qu) Hsp) as (_ & D1 & D2). specialize (D2 Hne).
  assert (Hn : (starts ls <= 1)%nat) by lia. pose proof (single_run E _ _ _ _ Qu St Hn) as Sg.
  destruct (gens_kept E _ _ _ _ Qu St Hn Hsp) as [new Hg].
  assert (Hg' : g = length (S_gens (Y_sh y0)) /\ new = [ch]).
  { pose proof (sg_bounded _ _ _ _ _ Sg) as ((_ & B) & _). rewrite Hg, app_length in B.
    assert (B2 : (length (S_gens (Y_sh y0)) < length (S_gens (Y_sh y')))%nat).
    { assert (X : exists i t, Y_threads y' !! i = Some t /\ (0 < is_pr t)%nat) by (apply sum_pos; rewrite Npr; lia).
      destruct X as (i & t & X1 & X2). pose proof (Forall_lookup_1 _ _ _ _ (sg_placed _ _ _ _ _ Sg) X1) as Pl. destruct t; cbn [is_pr] in X2; try lia; cbn [placed] in Pl; apply Pl. }
    rewrite Hg, app_length in B2. unfold last_index in G1. rewrite Hg in G1, G2. destruct new as [|c1 [|c2 l]]; cbn [length] in *; try lia. rewrite app_length in G1. cbn [length] in G1.
    replace (length (S_gens (Y_sh y0)) + 1)%nat with (S (length (S_gens (Y_sh y0)))) in G1 by lia. injection G1 as <-. split; [ reflexivity | ].
    rewrite lookup_app_r, Nat.sub_diag in G2 by lia. injection G2 as <-. reflexivity. }
  destruct Hg' as [Hgg ->]. destruct (R2 _ _ G1 G2) as (Z1 & Z2 & Z3 & Z4). subst g.
  assert (Rest : forall {B} (f : thread -> list B), (forall t, resting t = true -> f t = []) -> collect f (Y_threads y') = []).
  { intros B0 f Hf. apply collect_none_in. intros t Ht. apply Hf. apply (proj1 (Forall_forall _ _) R1). apply elem_of_list_In. exact Ht. }
  assert (Rest0 : forall {B} (f : thread -> list B), f TDone = [] -> collect f (Y_threads y0) = []).
  { intros B0 f Hf. apply collect_none_in. intros t Ht. apply elem_of_list_In in Ht. rewrite <- (proj1 (Forall_forall _ _) Qu0 t Ht). exact Hf. }
  assert (P : parsed T = others (E_localIP E) T).
  { rewrite others_received, (recv_order E ls0 y0 tr0 _ _ _ R0 Qu St Hn), (discarded_0 E T D1).
    rewrite !Rest by (intros t Ht; destruct t; try discriminate Ht; reflexivity). unfold recvq. rewrite G2, Z2, !app_nil_r. reflexivity. }
  assert (Tx : transmitted T = queued T).
  { rewrite (send_order E ls0 y0 tr0 _ _ _ R0 Qu St Hn), (finished_transmitted T D2).
    rewrite !Rest by (intros t Ht; destruct t; try discriminate Ht; reflexivity). unfold sendq. rewrite G2, Z1, !app_nil_r. reflexivity. }
  split; [ exact P | ]. split.
  { destruct (C57_callbacks E _ _ _ R) as (_ & (ps & P1 & P2) & _). destruct (C57_callbacks E _ _ _ R0) as (_ & (ps0 & P3 & P4) & _).
    unfold waiting in P2, P4. rewrite Rest in P2 by (intros t Ht; destruct t; try discriminate Ht; reflexivity). rewrite Rest0 in P4 by reflexivity. rewrite app_nil_r in P2, P4.
    unfold parsed in P1. rewrite collect_app in P1. apply Forall2_app_inv_l in P1. destruct P1 as (qs & qs' & F1 & F2 & ->).
    assert (qs = ps0) as ->.
    { clear - F1 P3. fold (parsed tr0) in F1. revert qs F1. induction P3 as [|d o l l' H1 _ IH]; intros qs F; inversion F as [|d' o' m m' H2 F']; subst; [ reflexivity | ]. rewrite (IH _ F'). f_equal.
      destruct o as [p|]; [ apply H2, H1; reflexivity | ]. destruct o' as [p|]; [ | reflexivity ]. symmetry. apply H1, H2. reflexivity. }
    exists qs'. rewrite <- P. split; [ exact F2 | ]. rewrite omap_app, P4 in P2. unfold called, ignored in P2. rewrite !collect_app in P2. unfold called, ignored.
    apply (Permutation_app_inv_l (called tr0 ++ ignored tr0)). etransitivity; [ exact P2 | ]. unfold called, ignored. rewrite <- !app_assoc. apply Permutation_app_head.
    rewrite !app_assoc. apply Permutation_app_tail. apply Permutation_app_comm. }
  split; [ exact Tx | ]. split.
  { destruct (frames_in_order _ _ _ _ R) as [_ K]. destruct (frames_in_order _ _ _ _ R0) as [_ K0]. rewrite Rest in K by (intros t Ht; destruct t; try discriminate Ht; reflexivity).
    rewrite Rest0 in K0 by reflexivity. rewrite app_nil_r in K, K0. unfold frames_made, frames_queued in K, K0. rewrite !collect_app in K. rewrite K0 in K. apply app_inv_head in K.
    fold (frames_made T) (frames_queued T) in K. rewrite K, frames_queued_eq, (omap_filter_dmx E).
    - rewrite <- Tx. reflexivity.
    - exact Wf.
    - intros x Hx. eapply queued_ok; [ exact R | ]. unfold queued. rewrite collect_app. apply in_or_app. right. exact Hx. }
  split.
  { destruct (C59_replies E _ _ _ Wf R) as (K & _). destruct (C59_replies E _ _ _ Wf R0) as (K0 & _).
    unfold polls_handled, queued, transmitted, dropped in K. rewrite !collect_app, app_length, !cnt_app in K. fold (polls_handled tr0) (polls_handled T) (queued tr0) (queued T) (transmitted tr0) (transmitted T) (dropped tr0) (dropped T) in K.
    rewrite D2, cnt_nil in K.
    assert (U : unanswered y' = unanswered y0).
    { unfold unanswered. rewrite Hg, sum_list_with_app. cbn [sum_list_with]. rewrite Z1, Z3.
      assert (U1 : forall f, (forall t, resting t = true -> f t = 0%nat) -> sum_list_with f (Y_threads y') = 0%nat).
      { intros f Hf. apply sum_0. eapply Forall_impl; [ exact R1 | ]. intros t Ht. apply Hf, Ht. }
      assert (U2 : forall f, f TDone = 0%nat -> sum_list_with f (Y_threads y0) = 0%nat).
      { intros f Hf. apply sum_0. eapply Forall_impl; [ exact Qu0 | ]. intros t <-. apply Hf. }
      rewrite U1 by (intros t Ht; destruct t; try discriminate Ht; reflexivity). rewrite U2 by reflexivity. cbn. lia. }
    lia. }
  { intros Hty. destruct (C60_poll_replies E _ _ _ R) as (_ & K1 & K2). destruct (C60_poll_replies E _ _ _ R0) as (_ & K3 & K4). specialize (K1 Hty). specialize (K3 Hty).
    unfold replies_pending, replies_stored in *. rewrite Hg, collect_app in K2. rewrite !collect_cons, collect_nil, Z4 in K2.
    rewrite !Rest in K1, K2 by (intros t Ht; destruct t; try discriminate Ht; reflexivity). rewrite !Rest0 in K3, K4 by reflexivity. rewrite !app_nil_r in *. cbn [app] in K2, K4.
    rewrite K2 in K1. rewrite K4 in K3. unfold replies_called, replies_applied in K1. rewrite !collect_app in K1. fold (replies_called tr0) (replies_called T) (replies_applied tr0) (replies_applied T) in K1.
    rewrite K3 in K1. apply (Permutation_app_inv_l (replies_applied tr0 ++ collect Q_reply (S_gens (Y_sh y0)))). etransitivity; [ exact K1 | ]. rewrite <- !app_assoc. apply Permutation_app_head, Permutation_app_comm. }
Qed.
(** A node that meets no network error since its last Start ([y0] is the state before it, in which the goroutines of earlier runs have ended) loses nothing: from every state it can,
    by steps its goroutines take by themselves and without anything new arriving, have parsed exactly the datagrams of other hosts, in order; called (or ignored for want of a callback)
    each accepted packet; transmitted exactly what was queued, in order, and exactly the frames of the ticks, in order; answered every poll; applied every ArtPollReply. *)
Theorem C78_nothing_lost : forall E ls0 y0 tr0 ls y tr, wf_config (E_config E) -> (E_ctl E = true -> (0 < E_maxFPS E <= 1000000000)%Z) ->
  (E_ctl E = true \/ C_Type (E_config E) <> StController) -> life E careful (ls0 ++ ls) y (tr0 ++ tr) Up ->
  runs E ls0 y0 tr0 -> Forall (eq TDone) (Y_threads y0) -> steps E y0 ls y tr -> calls ls = [true] -> no_errors ls = true ->
  exists ls' y' tr', steps E y ls' y' tr' /\ calls ls' = [] /\ no_errors ls' = true /\ others (E_localIP E) tr' = [] /\
    let T := tr ++ tr' in
    parsed T = others (E_localIP E) T /\
    (exists ps, Forall2 (fun d o => forall p, o = Some p <-> wire_accepts d p) (others (E_localIP E) T) ps /\ omap id ps ≡ₚ called T ++ ignored T) /\
    transmitted T = queued T /\ dmx_out T = frames_made T /\
    (length (polls_handled T) + cnt is_poll (queued T) = cnt is_reply (transmitted T))%nat /\
    (C_Type (E_config E) = StController -> replies_called T ≡ₚ replies_applied T) /\
    (forall j dmx a, Y_threads y !! j = Some (U_send dmx a) -> Y_threads y' !! j = Some TDone).
Proof.
  intros E ls0 y0 tr0 ls y tr Wf Fp St L R0 Q0 S0 Hcalls Hne. assert (V : live E y) by (constructor; eauto).
  destruct (settle_live E y V) as (y' & Q & R1 & V'). destruct (quietly_life2 E y y' Q V _ _ L) as (ls' & tr' & S & L' & C & N & O).
  exists ls', y', tr'. repeat (split; [ assumption | ]). cbv zeta.
  assert (Hcalls' : calls (ls ++ ls') = [true]) by (unfold calls in *; rewrite collect_app, Hcalls, C; reflexivity).
  assert (Hne' : no_errors (ls ++ ls') = true) by (unfold no_errors in *; rewrite forallb_app, Hne, N; reflexivity).
  destruct (at_rest_done E _ _ _ _ _ _ V' R1 R0 Q0 (steps_app E _ _ _ _ _ _ _ S0 S) Hcalls' Hne') as (K1 & K2 & K3 & K4 & K5 & K6). repeat (split; [ assumption | ]).
  intros j dmx a Hj. destruct (quietly_send E y y' Q j dmx a (or_introl Hj)) as [K|K]; [ | exact K ]. pose proof (Forall_lookup_1 _ _ _ _ (proj1 R1) K). discriminate.
Qed.
(** A controller with a poll in its queue to the network, a frame being delivered, a poll received and a call pending. *)
Example C78_ex : exists ls y tr, wf_config (E_config ctl1) /\ life ctl1 careful ls y tr Up /\ calls ls = [true] /\ no_errors ls = true /\
  length (parsed tr) = 1%nat /\ length (others (E_localIP ctl1) tr) = 2%nat /\ length (transmitted tr) = 0%nat /\ length (queued tr) = 1%nat /\
  length (dmx_out tr) = 0%nat /\ length (frames_made tr) = 1%nat.
Proof.
  destruct (tested_life_ok ctl1 carefulb careful busy (fun ls y tr ph => match ph with Up => true | _ => false end && bool_decide (calls ls = [true]) && no_errors ls &&
     (length (parsed tr) =? 1)%nat && (length (others (E_localIP ctl1) tr) =? 2)%nat && (length (transmitted tr) =? 0)%nat && (length (queued tr) =? 1)%nat &&
     (length (dmx_out tr) =? 0)%nat && (length (frames_made tr) =? 1)%nat)) as (ls & y & tr & ph & L & H); [ exact carefulb_ok | vm_compute; reflexivity | ].
  repeat (apply andb_prop in H; let K := fresh "K" in destruct H as [H K]). apply bool_decide_eq_true in K6. rewrite ?Nat.eqb_eq in *. destruct ph; try discriminate H. exists ls, y, tr.
  split; [ repeat (split; [ repeat constructor | ]); repeat constructor | auto 12 ].
Qed.

Lemma play_life_steps E ok fs : forall y ph ls y' tr ph', play_life E ok y ph fs = Some (ls, y', tr, ph') -> steps E y ls y' tr.
Proof.
  induction fs as [|f fs IH]; intros y ph ls y' tr ph' H; cbn [play_life] in H; [ injection H as <- <- <- <-; constructor | ].
  cbv zeta in H. destruct (label_okb (f y)) eqn:Hl; [ | discriminate ]. destruct (ok y (f y)); [ | discriminate ]. cbn [andb] in H. destruct (call ph (f y)) as [ph1|]; [ | discriminate ].
  destruct (exec E y (f y)) as [| |y1 o] eqn:He; try discriminate. destruct (play_life E ok y1 (fold_left answer o ph1) fs) as [[[[ls1 y2] tr1] ph2]|] eqn:Hp; [ | discriminate ].
  injection H as <- <- <- <-. eapply steps_cons; [ apply label_okb_ok, Hl | exact He | eapply IH; exact Hp ].
Qed.
(** A life and its continuation. *)
Definition tested_lives (E : env) (ok : sys -> label -> bool) (fs1 fs2 : script) (P : list label -> sys -> list obs -> list label -> sys -> list obs -> phase -> bool) : bool :=
  match play_life E ok (init E) Idle fs1 with
  | Some (ls1, y1, tr1, ph) => match play_life E ok y1 ph fs2 with Some (ls2, y2, tr2, ph') => P ls1 y1 tr1 ls2 y2 tr2 ph' | None => false end
  | None => false
  end.
Lemma tested_lives_ok E ok (allow : sys -> label -> Prop) fs1 fs2 P : (forall y l, ok y l = true -> allow y l) -> tested_lives E ok fs1 fs2 P = true ->
  exists ls1 y1 tr1 ls2 y2 tr2 ph, runs E ls1 y1 tr1 /\ steps E y1 ls2 y2 tr2 /\ life E allow (ls1 ++ ls2) y2 (tr1 ++ tr2) ph /\ P ls1 y1 tr1 ls2 y2 tr2 ph = true.
Proof.
  intros A. unfold tested_lives. destruct (play_life E ok (init E) Idle fs1) as [[[[ls1 y1] tr1] ph]|] eqn:Hp; [ | discriminate ].
  destruct (play_life E ok y1 ph fs2) as [[[[ls2 y2] tr2] ph']|] eqn:Hq; [ | discriminate ]. intros H. exists ls1, y1, tr1, ls2, y2, tr2, ph'.
  split; [ exact (play_life_steps _ _ _ _ _ _ _ _ _ Hp) | ]. split; [ exact (play_life_steps _ _ _ _ _ _ _ _ _ Hq) | ]. split; [ | exact H ].
  eapply play_life_ok; [ exact A | | exact Hq ]. exact (play_life_ok E ok allow fs1 A _ _ _ _ _ _ _ _ (life_nil E allow) Hp).
Qed.
(** The second run of a node, whose first run ended with a socket error; a poll has arrived. *)
Example C78_again_ex : exists ls0 y0 tr0 ls y tr, wf_config (E_config node1) /\ C_Type (E_config node1) <> StController /\ life node1 careful (ls0 ++ ls) y (tr0 ++ tr) Up /\
  runs node1 ls0 y0 tr0 /\ Forall (eq TDone) (Y_threads y0) /\ steps node1 y0 ls y tr /\ calls ls0 = [true; false] /\ calls ls = [true] /\ no_errors ls0 = false /\ no_errors ls = true /\
  length (others (E_localIP node1) tr0) = 1%nat /\ length (others (E_localIP node1) tr) = 1%nat /\ length (parsed tr) = 0%nat /\ length (queued tr) = 0%nat.
Proof.
  destruct (tested_lives_ok node1 carefulb careful (up_node ++ arrive 4 host2 poll_bytes ++ parse 2 ++ go_n 5 3 ++ go_n 1 4 ++ transmit 3 ++ stop_node 6 ++ drain_node 0) (up_again 7 ++ arrive 11 host2 poll_bytes)
    (fun ls0 y0 tr0 ls y tr ph => match ph with Up => true | _ => false end && forallb (fun t => match t with TDone => true | _ => false end) (Y_threads y0) &&
     bool_decide (calls ls0 = [true; false]) && bool_decide (calls ls = [true]) && negb (no_errors ls0) && no_errors ls &&
     (length (others (E_localIP node1) tr0) =? 1)%nat && (length (others (E_localIP node1) tr) =? 1)%nat && (length (parsed tr) =? 0)%nat && (length (queued tr) =? 0)%nat))
    as (ls0 & y0 & tr0 & ls & y & tr & ph & R0 & S & L & H); [ exact carefulb_ok | vm_compute; reflexivity | ].
  repeat (apply andb_prop in H; let K := fresh "K" in destruct H as [H K]). apply bool_decide_eq_true in K6, K5. apply negb_true_iff in K4. rewrite ?Nat.eqb_eq in *. destruct ph; try discriminate H. exists ls0, y0, tr0, ls, y, tr.
  split; [ repeat (split; [ repeat constructor | ]); repeat constructor | ]. split; [ discriminate | ]. split; [ exact L | ]. split; [ exact R0 | ]. split.
  - apply Forall_forall. intros t Ht. rewrite forallb_forall in K7. specialize (K7 t (proj1 (elem_of_list_In _ _) Ht)). destruct t; try discriminate. reflexivity.
  - auto 12.
Qed.

Definition P_Wire_theorems :=
  (C73_frames_once, C73_wire_data, C73_ex, C74_order_refuted, C74_order_partial, C64_order_life_partial, C74_running_partial, C74_running_ex,
   C76_second_start_refuted, C76_starts_partial, C76_ex, C77_polls, C77_ex, C78_nothing_lost, C78_ex, C78_again_ex).
Print Assumptions P_Wire_theorems.
