(** From any moment of a running node or controller on: what happens to everything that arrives, is queued or ticks until all goroutines rest. And what this means for a controller and a node on a network (C85-C88). *)
From Verif Require Import WireSpec P_Encode P_Decode P_Config P_Controller ControllerFacts SysFacts SysLaws SysRun SysOrder SysScript P_Node P_Life P_Live P_Wire P_Settle Net P_Net.
From stdpp Require Import base list gmap.
Open Scope N_scope.

(** * C85 *)
Lemma live_label E y l y' o : live E y -> label_ok l -> calls [l] = [] -> no_errors [l] = true -> exec E y l = RNext y' o ->
  live E y' /\ (forall ls tr, life E careful ls y tr Up -> life E careful (ls ++ [l]) y' (tr ++ o) Up) /\ dropped o = [] /\ sum_list_with discards o = 0%nat /\
  exists g ch ch', last_index (S_gens (Y_sh y)) = Some g /\ S_gens (Y_sh y) !! g = Some ch /\ S_gens (Y_sh y') = <[g := ch']> (S_gens (Y_sh y)).
Proof.
  intros V Hl Hc Hn He. destruct (live_facts E y V) as (g & ch & k & G1 & G2 & G3 & _ & _ & Sh & _ & _ & _ & _ & _ & _ & Hg & Hth & _).
  assert (A : careful y l).
  { split; [ intros ->; discriminate Hc | ]. intros i b c -> _. discriminate Hn. }
  assert (K : (forall ls tr, life E careful ls y tr Up -> life E careful (ls ++ [l]) y' (tr ++ o) Up) /\ dropped o = [] /\ sum_list_with discards o = 0%nat /\
     exists ch', S_gens (Y_sh y') = <[g := ch']> (S_gens (Y_sh y))).
  { assert (Same : S_gens (Y_sh y) = <[g := ch]> (S_gens (Y_sh y))) by (symmetry; apply list_insert_id; exact G2).
    pose proof He as He0. apply exec_cases in He. destruct He as [(i & c & t & s & t' & sp & -> & Et & Es & ->)|[(t & -> & -> & Hk)|(mm & op & f & -> & -> & _ & _ & ->)]].
    - pose proof (Forall_lookup_1 _ _ _ _ Hth Et) as [Ha Hr]. pose proof (Forall_lookup_1 _ _ _ _ Hg Et) as Hh. split.
      { intros ls tr L. pose proof (life_snoc E careful ls y tr Up (LRun i c) Up _ o L A Hl eq_refl He0) as L'. rewrite (proj1 (proj2 (proj2 (other_step _ _ _ _ _ _ _ _ Ha Es))) Up) in L'. exact L'. }
      cbn [Y_sh]. tcases Es; try discriminate Ha; try discriminate Hn; try congruence; cbn in Hh; subst; try (split; [ reflexivity | ]; split; [ reflexivity | ]; eauto; fail);
        try (exfalso; eapply Hr; reflexivity).
      all: try (split; [ reflexivity | ]; split; [ reflexivity | ]; eexists; unfold upd_gen; cbn [S_gens with_gens]; first [ reflexivity | exact Same ]).
      destruct Hh as [-> _]. split; [ reflexivity | ]. split; [ reflexivity | ]. eexists. reflexivity.
    - destruct Hk as [[-> ->]|[[-> ->]|(dmx & a & -> & _ & ->)]]; try discriminate Hc. split.
      { intros ls tr L. exact (life_snoc E careful ls y tr Up _ Up _ _ L A Hl eq_refl He0). }
      cbn. eauto.
    - split; [ | cbn; eauto ]. intros ls tr L. exact (life_snoc E careful ls y tr Up _ Up _ _ L A Hl ltac:(destruct f; reflexivity) He0). }
  destruct K as (K1 & K2 & K3 & ch' & K4). split.
  - destruct V as [W F S (ls & tr & L)]. constructor; try assumption. eauto.
  - split; [ exact K1 | ]. split; [ exact K2 | ]. split; [ exact K3 | ]. exists g, ch, ch'. auto.
Qed.

Lemma calls_app a b : calls (a ++ b) = calls a ++ calls b. Proof. apply collect_app. Qed.
Lemma no_errors_app a b : no_errors (a ++ b) = no_errors a && no_errors b. Proof. apply forallb_app. Qed.
Lemma live_steps E y ls y' tr : steps E y ls y' tr -> live E y -> calls ls = [] -> no_errors ls = true ->
  live E y' /\ (forall ls0 tr0, life E careful ls0 y tr0 Up -> life E careful (ls0 ++ ls) y' (tr0 ++ tr) Up) /\ dropped tr = [] /\ sum_list_with discards tr = 0%nat /\
  exists g ch ch', last_index (S_gens (Y_sh y)) = Some g /\ S_gens (Y_sh y) !! g = Some ch /\ S_gens (Y_sh y') = <[g := ch']> (S_gens (Y_sh y)).
Proof.
  intros R V. induction R as [|y ls y1 tr1 l y2 o Hs IH Hl He]; intros Hc Hn.
  - destruct (live_facts E y V) as (g & ch & k & G1 & G2 & _). split; [ exact V | ]. split; [ intros ls0 tr0 L; rewrite !app_nil_r; exact L | ]. split; [ reflexivity | ]. split; [ reflexivity | ].
    exists g, ch, ch. split; [ exact G1 | ]. split; [ exact G2 | ]. symmetry. apply list_insert_id, G2.
  - rewrite calls_app in Hc. apply app_eq_nil in Hc. destruct Hc as [Hc1 Hc2]. rewrite no_errors_app in Hn. apply andb_prop in Hn. destruct Hn as [Hn1 Hn2].
    destruct (IH V Hc1 Hn1) as (V1 & L1 & D1 & S1 & g & ch & ch' & G1 & G2 & G3).
    destruct (live_label E _ _ _ _ V1 Hl Hc2 Hn2 He) as (V2 & L2 & D2 & S2 & g' & c & c' & G4 & G5 & G6).
    split; [ exact V2 | ]. split; [ intros ls0 tr0 L; rewrite !app_assoc; apply L2, L1, L | ]. unfold dropped in *. rewrite collect_app, D1, D2, sum_list_with_app, S1, S2. split; [ reflexivity | ]. split; [ reflexivity | ].
    assert (g' = g) as -> by (unfold last_index in *; rewrite G3, insert_length in G4; congruence). exists g, ch, c'. split; [ exact G1 | ]. split; [ exact G2 | ]. rewrite G6, G3. apply list_insert_insert.
Qed.
(** A node or controller runs (state [y]); after any further steps without Start, Stop and network errors all its goroutines rest (state [y']; that they can and will is C68 and C79). Then, of these steps:
    everything received was parsed and everything queued was transmitted, in order, after what was on its way in [y] already; frames of the ticks alike; every accepted packet was handled;
    every poll was answered; every ArtPollReply was applied to the tables. *)
Theorem C85_flow : forall E ls0 y tr0 ls y' tr, wf_config (E_config E) -> (E_ctl E = true -> (0 < E_maxFPS E <= 1000000000)%Z) -> (E_ctl E = true \/ C_Type (E_config E) <> StController) ->
  life E careful ls0 y tr0 Up -> steps E y ls y' tr -> calls ls = [] -> no_errors ls = true -> at_rest y' ->
  (exists before, parsed tr = before ++ others (E_localIP E) tr) /\
  (exists before, transmitted tr = before ++ queued tr) /\
  (exists before, dmx_out tr = before ++ frames_made tr) /\
  (exists ps before, Forall2 (fun d o => forall p, o = Some p <-> wire_accepts d p) (others (E_localIP E) tr) ps /\ called tr ++ ignored tr ≡ₚ before ++ omap id ps) /\
  (length (polls_handled tr) + cnt is_poll (queued tr) <= cnt is_reply (transmitted tr))%nat /\
  (C_Type (E_config E) = StController -> exists before, replies_applied tr ≡ₚ before ++ replies_called tr).
Proof.
  intros E ls0 y tr0 ls y' tr Wf Fp St L Sy Hc Hn [R1 R2].
  assert (V : live E y) by (constructor; eauto).
  destruct (live_steps E _ _ _ _ Sy V Hc Hn) as (V' & Lx & D1 & D2 & g & ch & ch' & G1 & G2 & G3). specialize (Lx _ _ L).
  assert (Gl : last_index (S_gens (Y_sh y')) = Some g) by (unfold last_index in *; rewrite G3, insert_length; exact G1).
  assert (G4 : S_gens (Y_sh y') !! g = Some ch') by (rewrite G3; apply list_lookup_insert; eapply lookup_lt_Some; exact G2).
  destruct (R2 _ _ Gl G4) as (Z1 & Z2 & Z3 & Z4).
  destruct (careful_split _ _ _ _ _ L) as (lsa & ya & tra & lsb & trb & Ra & Qa & Sb & Nb & -> & ->).
  assert (Sc : steps E ya (lsb ++ ls) y' (trb ++ tr)) by (eapply steps_app; eassumption).
  assert (Nc : (starts (lsb ++ ls) <= 1)%nat).
  { unfold starts. rewrite sum_list_with_app. fold (starts lsb). enough (sum_list_with is_start ls = 0%nat) by lia. clear - Hc. induction ls as [|l ls IH]; [ reflexivity | ].
    change (l :: ls) with ([l] ++ ls) in Hc. rewrite calls_app in Hc. apply app_eq_nil in Hc. cbn. rewrite (IH (proj2 Hc)). destruct l; try reflexivity. destruct Hc; discriminate. }
  assert (Ga : g = length (S_gens (Y_sh ya))).
  { pose proof (single_run E _ _ _ _ Qa Sb Nb) as Sg. destruct (live_facts E y V) as (g1 & _ & k & H1 & _ & _ & _ & _ & _ & _ & Npr & _). assert (g1 = g) as -> by congruence.
    pose proof (sg_bounded _ _ _ _ _ Sg) as ((_ & B) & _). assert (X : exists i t, Y_threads y !! i = Some t /\ (0 < is_pr t)%nat) by (apply sum_pos; rewrite Npr; lia).
    destruct X as (i & t & X1 & X2). pose proof (Forall_lookup_1 _ _ _ _ (sg_placed _ _ _ _ _ Sg) X1) as Pl.
    assert (B2 : (length (S_gens (Y_sh ya)) < length (S_gens (Y_sh y)))%nat) by (destruct t; cbn [is_pr] in X2; try lia; cbn [placed] in Pl; apply Pl).
    unfold last_index in H1. destruct (length (S_gens (Y_sh y))) as [|n]; [ lia | ]. injection H1 as <-. lia. }
  assert (Rest : forall {B} (f : thread -> list B), (forall t, resting t = true -> f t = []) -> collect f (Y_threads y') = []).
  { intros B0 f Hf. apply collect_none_in. intros t Ht. apply Hf. apply (proj1 (Forall_forall _ _) R1). apply elem_of_list_In. exact Ht. }
  assert (T : exists before, transmitted tr = before ++ queued tr).
  { pose proof (send_order E _ _ _ _ _ _ Ra Qa Sb Nb) as K1. pose proof (send_order E _ _ _ _ _ _ Ra Qa Sc Nc) as K2. unfold sendq in K2. rewrite <- Ga, G4, Z1 in K2.
    rewrite Rest in K2 by (intros t Ht; destruct t; try discriminate Ht; reflexivity). cbn [app] in K2. rewrite app_nil_r in K2. unfold queued, finished in K2. rewrite !collect_app in K2.
    fold (queued trb) (queued tr) (finished trb) (finished tr) in K2. rewrite K1, <- app_assoc in K2. apply app_inv_head in K2. rewrite (finished_transmitted _ D1) in K2. rewrite <- K2. eauto. }
  destruct T as [bt T]. pose proof (runs_steps E _ _ _ _ _ _ Ra Sb) as Ry. pose proof (runs_steps E _ _ _ _ _ _ Ry Sy) as Ry'.
  assert (P : exists before, parsed tr = before ++ others (E_localIP E) tr).
  { pose proof (recv_order E _ _ _ _ _ _ Ra Qa Sb Nb) as K1. pose proof (recv_order E _ _ _ _ _ _ Ra Qa Sc Nc) as K2. unfold recvq in K2. rewrite <- Ga, G4, Z2 in K2.
    rewrite !Rest in K2 by (intros t Ht; destruct t; try discriminate Ht; reflexivity). cbn [app] in K2.
    assert (D : discarded E (trb ++ tr) = []).
    { apply discarded_0. pose proof (sg_rd _ _ _ _ _ (single_run E _ _ _ _ Qa Sc Nc)) as B.
      enough (sum_list_with is_rd (Y_threads y') = 1%nat) by (pose proof Nc; lia).
      pose proof (fu_rd _ _ (careful_full _ _ _ _ _ Wf Lx (or_intror eq_refl))) as F. rewrite <- F. apply sum_ext. eapply Forall_impl; [ exact R1 | ]. intros t Ht. destruct t; try discriminate Ht; reflexivity. }
    rewrite D, app_nil_r in K2. unfold discarded in D. rewrite collect_app in D. apply app_eq_nil in D. destruct D as [D _]. unfold discarded in K1. rewrite D, app_nil_r in K1.
    unfold received, parsed in K2. rewrite !collect_app in K2. fold (received E trb) (received E tr) (parsed trb) (parsed tr) in K2. rewrite K1, <- app_assoc in K2. apply app_inv_head in K2.
    rewrite others_received, <- K2. eauto. }
  destruct P as [bp P]. split; [ eauto | ]. split; [ eauto | ]. split.
  { destruct (frames_in_order _ _ _ _ Ry) as [_ K0]. destruct (frames_in_order _ _ _ _ Ry') as [_ K]. rewrite Rest in K by (intros t Ht; destruct t; try discriminate Ht; reflexivity).
    rewrite app_nil_r in K. unfold frames_made, frames_queued in K. rewrite (collect_app _ (tra ++ trb)), (collect_app _ (tra ++ trb)) in K. fold (frames_made tr) (frames_queued tr) (frames_made (tra ++ trb)) (frames_queued (tra ++ trb)) in K.
    rewrite K0, <- app_assoc in K. apply app_inv_head in K.
    unfold dmx_out. rewrite T. rewrite List.filter_app, map_app. rewrite <- (omap_filter_dmx E (queued tr) Wf), <- frames_queued_eq, <- K; [ rewrite app_assoc; eauto | ].
    intros x Hx. eapply queued_ok; [ exact Ry' | ]. unfold queued. rewrite collect_app. apply in_or_app. right. exact Hx. }
  split.
  { destruct (C57_callbacks E _ _ _ Ry') as (_ & (ps & P1 & P2) & _). destruct (C57_callbacks E _ _ _ Ry) as (_ & (ps0 & P3 & P4) & _).
    unfold waiting in P2. rewrite Rest in P2 by (intros t Ht; destruct t; try discriminate Ht; reflexivity). rewrite app_nil_r in P2.
    unfold parsed in P1. rewrite collect_app in P1. fold (parsed (tra ++ trb)) (parsed tr) in P1. apply Forall2_app_inv_l in P1. destruct P1 as (qs & qs' & F1 & F2 & ->).
    assert (qs = ps0) as ->.
    { clear - F1 P3. revert qs F1. induction P3 as [|d o l l' H1 _ IH]; intros qs F; inversion F as [|d' o' m m' H2 F']; subst; [ reflexivity | ]. rewrite (IH _ F'). f_equal.
      destruct o as [p|]; [ apply H2, H1; reflexivity | ]. destruct o' as [p|]; [ | reflexivity ]. symmetry. apply H1, H2. reflexivity. }
    rewrite P in F2. apply Forall2_app_inv_l in F2. destruct F2 as (q1 & q2 & F2 & F3 & ->). exists q2, (waiting y ++ omap id q1). split; [ exact F3 | ].
    rewrite omap_app, P4 in P2. unfold called, ignored in P2. rewrite (collect_app _ (tra ++ trb)), (collect_app _ (tra ++ trb)) in P2. fold (called tr) (ignored tr) (called (tra ++ trb)) (ignored (tra ++ trb)) (waiting y) in P2.
    apply (Permutation_app_inv_l (called (tra ++ trb) ++ ignored (tra ++ trb))). rewrite omap_app in P2. rewrite <- !app_assoc in P2. rewrite <- !app_assoc. rewrite P2. apply Permutation_app_head.
    rewrite !app_assoc. apply Permutation_app_tail. apply Permutation_app_comm. }
  split.
  { destruct (C59_replies E _ _ _ Wf Ry') as (K & _). destruct (C59_replies E _ _ _ Wf Ry) as (K0 & _).
    unfold polls_handled, queued, transmitted, dropped in K. rewrite !(collect_app _ (tra ++ trb)), app_length, !cnt_app in K.
    fold (polls_handled (tra ++ trb)) (polls_handled tr) (queued (tra ++ trb)) (queued tr) (transmitted (tra ++ trb)) (transmitted tr) (dropped (tra ++ trb)) (dropped tr) in K. rewrite D1, cnt_nil in K.
    assert (U : (unanswered y' <= unanswered y)%nat).
    { unfold unanswered. assert (U1 : forall f, (forall t, resting t = true -> f t = 0%nat) -> sum_list_with f (Y_threads y') = 0%nat).
      { intros f Hf. apply sum_0. eapply Forall_impl; [ exact R1 | ]. intros t Ht. apply Hf, Ht. }
      rewrite U1 by (intros t Ht; destruct t; try discriminate Ht; reflexivity). rewrite G3.
      pose proof (sum_insert (fun ch => (length (Q_poll ch) + cnt is_reply (Q_send ch))%nat) (S_gens (Y_sh y)) g ch ch' G2) as X. cbn beta in X. rewrite Z1, Z3, cnt_nil in X. cbn [length] in X. lia. }
    lia. }
  { intros Hty. destruct (C60_poll_replies E _ _ _ Ry') as (_ & K1 & K2). destruct (C60_poll_replies E _ _ _ Ry) as (_ & K3 & K4). specialize (K1 Hty). specialize (K3 Hty).
    unfold replies_pending, replies_stored in *. rewrite !Rest in K1, K2 by (intros t Ht; destruct t; try discriminate Ht; reflexivity). rewrite app_nil_r in K1. cbn [app] in K2.
    exists (collect (fun t => match t with CP_reply _ q => [q] | _ => [] end) (Y_threads y) ++ Q_reply ch ++ replies_pending y). apply SysFacts.cnt_perm. intros Pr.
    pose proof (collect_insert Pr Q_reply (S_gens (Y_sh y)) g ch ch' G2) as X. rewrite Z4, cnt_nil, <- G3 in X. apply (P_Wire.cnt_perm Pr) in K1, K2, K3, K4.
    unfold replies_called, replies_queued, replies_applied, replies_pending in *. rewrite ?(collect_app _ (tra ++ trb)), ?cnt_app in *. lia. }
Qed.

Lemma callbacks_kept E y ls y' tr : steps E y ls y' tr -> live E y -> calls ls = [] -> no_errors ls = true -> S_callbacks (Y_sh y') = S_callbacks (Y_sh y).
Proof.
  intros R V. induction R as [|y ls y1 tr1 l y2 o Hs IH Hl He]; intros Hc Hn; [ reflexivity | ].
  rewrite calls_app in Hc. apply app_eq_nil in Hc. destruct Hc as [Hc1 Hc2]. rewrite no_errors_app in Hn. apply andb_prop in Hn. destruct Hn as [Hn1 Hn2].
  rewrite <- (IH V Hc1 Hn1). destruct (live_steps _ _ _ _ _ Hs V Hc1 Hn1) as (V1 & _). destruct (live_facts E y1 V1) as (g & ch & k & _ & _ & _ & _ & _ & Sh & _).
  apply exec_cases in He. destruct He as [(i & c & t & s & t' & sp & -> & Et & Es & ->)|[(t & -> & -> & Hk)|(mm & op & f & -> & -> & K)]]; cbn [Y_sh].
  - clear - Es. tcases Es; reflexivity.
  - reflexivity.
  - destruct K as (_ & -> & _). rewrite Sh. reflexivity.
Qed.
Lemma in_collect {A B} (f : A -> list B) l x : In x (collect f l) <-> exists a, In a l /\ In x (f a).
Proof. unfold collect. rewrite in_concat. setoid_rewrite in_map_iff. split; [ intros (z & (a & <- & H) & K); eauto | intros (a & H & K); eauto ]. Qed.
(** The callback registered for a packet of another host that arrives is invoked with it. *)
Theorem C85_called : forall E y ls y' tr src port d p h, live E y -> steps E y ls y' tr -> calls ls = [] -> no_errors ls = true -> at_rest y' ->
  In (ORecv (src, port) d) tr -> to16 src <> to16 (E_localIP E) -> wire_accepts (firstn 4096 d) p -> S_callbacks (Y_sh y) !! GetOpCode p = Some h -> In (OCall h p) tr.
Proof.
  intros E y ls y' tr src port d p h V S Hc Hn Hr Hi Hs Ha Hh. pose proof V as [Wf Fp St (ls0 & tr0 & L)].
  destruct (C85_flow E ls0 y tr0 ls y' tr Wf Fp St L S Hc Hn Hr) as (_ & _ & _ & (ps & before & F & P) & _).
  assert (Ho : In (firstn 4096 d) (others (E_localIP E) tr)).
  { unfold others. apply in_collect. exists (ORecv (src, port) d). split; [ exact Hi | ]. cbn [fst]. rewrite decide_False by exact Hs. left. reflexivity. }
  assert (Hp : In (Some p) ps).
  { clear - F Ho Ha. induction F as [|x o l k H F IH]; [ contradiction | ]. destruct Ho as [->|Ho]; [ left; apply H; exact Ha | right; apply IH; exact Ho ]. }
  assert (Hin : In p (called tr ++ ignored tr)).
  { apply elem_of_list_In. rewrite P. apply elem_of_app. right. apply elem_of_list_omap. exists (Some p). split; [ apply elem_of_list_In; exact Hp | reflexivity ]. }
  assert (At : forall a x b, tr = a ++ x :: b -> exists y1 l y2 o1 o2, exec E y1 l = RNext y2 (o1 ++ x :: o2) /\ S_callbacks (Y_sh y1) = S_callbacks (Y_sh y)).
  { intros a x b Ht. destruct (steps_at E _ _ _ _ _ _ _ S Ht) as (ls1 & y1 & tr1 & l & ls2 & y2 & o1 & o2 & tr2 & S1 & _ & He & _ & _ & _ & ->).
    rewrite calls_app in Hc. apply app_eq_nil in Hc. rewrite no_errors_app in Hn. apply andb_prop in Hn. exists y1, l, y2, o1, o2. split; [ exact He | ].
    eapply callbacks_kept; [ exact S1 | exact V | apply Hc | apply Hn ]. }
  apply in_app_or in Hin. destruct Hin as [Hin|Hin]; unfold called, ignored in Hin; apply in_collect in Hin; destruct Hin as (o & Ho1 & Ho2); destruct o; try contradiction; destruct Ho2 as [->|[]];
    apply in_split in Ho1; destruct Ho1 as (a & b & Ht); destruct (At _ _ _ Ht) as (y1 & l & y2 & o1 & o2 & He & Hk).
  - apply call_registered in He. destruct He as [_ He]. assert (h0 = h) as -> by congruence. rewrite Ht. apply in_elt.
  - apply ignore_unregistered in He. destruct He as [_ He]. congruence.
Qed.

(** * C86 *)
(** The callbacks of a controller are the built-in ones: its node is private. *)
Lemma ctl_callbacks E ls y tr : E_ctl E = true -> runs E ls y tr -> S_callbacks (Y_sh y) = {[ OpPoll := HPoll; OpPollReply := HPollReply ]}.
Proof.
  intros Ec R. unfold runs in R. remember (init E) as y0 eqn:Ey. revert Ey. induction R as [|y ls y1 tr1 l y2 o Hs IH Hl He]; intros ->; [ reflexivity | ]. rewrite <- (IH eq_refl). clear IH.
  apply exec_cases in He. destruct He as [(i & c & t & s & t' & sp & -> & Et & Es & ->)|[(t & -> & -> & Hk)|(mm & op & f & -> & -> & K & _)]]; cbn [Y_sh]; [ clear - Es; tcases Es; reflexivity | reflexivity | congruence ].
Qed.
(** Host E runs (state [y]); it takes the steps [ls] without Start, Stop and network errors, after which its goroutines rest. *)
Record works (E : env) (y : sys) (ls : list label) (y' : sys) (tr : list obs) : Prop := {
  wk_live : live E y; wk_steps : steps E y ls y' tr; wk_calls : calls ls = []; wk_errors : no_errors ls = true; wk_rest : at_rest y' }.
Lemma works_flow E y ls y' tr : works E y ls y' tr ->
  (exists before, parsed tr = before ++ others (E_localIP E) tr) /\
  (exists before, transmitted tr = before ++ queued tr) /\
  (exists before, dmx_out tr = before ++ frames_made tr) /\
  (exists ps before, Forall2 (fun d o => forall p, o = Some p <-> wire_accepts d p) (others (E_localIP E) tr) ps /\ called tr ++ ignored tr ≡ₚ before ++ omap id ps) /\
  (length (polls_handled tr) + cnt is_poll (queued tr) <= cnt is_reply (transmitted tr))%nat /\
  (C_Type (E_config E) = StController -> exists before, replies_applied tr ≡ₚ before ++ replies_called tr).
Proof. intros [[W F S (ls0 & tr0 & L)] St Hc Hn Hr]. eapply C85_flow; eassumption. Qed.
Lemma works_runs E y ls y' tr : works E y ls y' tr -> exists ls0 tr0, runs E ls0 y tr0 /\ runs E (ls0 ++ ls) y' (tr0 ++ tr).
Proof. intros [[W F S (ls0 & tr0 & L)] St Hc Hn Hr]. pose proof (life_runs _ _ _ _ _ _ L) as R. exists ls0, tr0. split; [ exact R | ]. eapply runs_steps; eassumption. Qed.
Lemma works_wf E y ls y' tr : works E y ls y' tr -> wf_config (E_config E). Proof. intros [[W _ _ _] _ _ _ _]. exact W. Qed.
Lemma in_transmitted x tr : In x (transmitted tr) <-> In (OTx x) tr.
Proof. unfold transmitted. rewrite in_collect. split; [ intros (o & Ho & H); destruct o; try contradiction; destruct H as [->|[]]; exact Ho | intros H; exists (OTx x); split; [ exact H | left; reflexivity ] ]. Qed.
Lemma cnt_pos_in {A} (P : A -> bool) l : (0 < cnt P l)%nat -> exists x, In x l /\ P x = true.
Proof. induction l as [|a l IH]; intros H; [ unfold cnt in H; cbn in H; lia | ]. destruct (P a) eqn:E; [ exists a; split; [ left; reflexivity | exact E ] | ]. change (a :: l) with ([a] ++ l) in H. rewrite cnt_app in H. unfold cnt in H at 1. cbn in H. rewrite E in H. destruct (IH H) as (x & H1 & H2). exists x. split; [ right; exact H1 | exact H2 ]. Qed.
Lemma works_tx E y ls y' tr x : works E y ls y' tr -> In (OTx x) tr -> item_ok E x.
Proof. intros Wk H. destruct (works_runs _ _ _ _ _ Wk) as (ls0 & tr0 & _ & R). eapply tx_item; [ exact R | ]. apply in_or_app. right. exact H. Qed.
(** A tick of the poll ticker makes a controller broadcast ArtPoll. *)
Lemma poll_sent E y ls y' tr n : works E y ls y' tr -> E_ctl E = true -> In (LRun n CPollTick) ls -> In (OTx (KPoll, (E_ctlBroadcast E, poll_datagram))) tr.
Proof.
  intros Wk Ec Hi. destruct (works_runs _ _ _ _ _ Wk) as (ls0 & tr0 & R & R'). pose proof (poll_count E _ _ _ Ec R) as C. pose proof (poll_count E _ _ _ Ec R') as C'.
  unfold queued in C'. rewrite !sum_list_with_app, collect_app, cnt_app in C'. fold (queued tr) (queued tr0) in C'.
  assert (D : sum_list_with poll_due (Y_threads y') = 0%nat).
  { apply sum_0. eapply Forall_impl; [ exact (proj1 (wk_rest _ _ _ _ _ Wk)) | ]. intros t Ht. destruct t; try discriminate Ht; reflexivity. }
  assert (P : (0 < sum_list_with poll_tick ls)%nat). { clear - Hi. induction ls as [|l ls IH]; [ contradiction | ]. cbn. destruct Hi as [->|Hi]; [ cbn; lia | specialize (IH Hi); lia ]. }
  destruct (cnt_pos_in k_poll (queued tr)) as (x & Hx & Hk); [ lia | ]. destruct (works_flow _ _ _ _ _ Wk) as (_ & (before & T) & _).
  assert (X : In (OTx x) tr) by (apply in_transmitted; rewrite T; apply in_or_app; right; exact Hx). pose proof (works_tx _ _ _ _ _ _ Wk X) as K.
  destruct x as [k [a d]]. destruct k; try discriminate Hk. destruct K as [-> ->]. exact X.
Qed.
Definition the_reply (E : env) : list N := pollreply_bytes (ArtPollReplyFromConfig (E_config E)).
Lemma reply_is E d : wf_config (E_config E) -> reply_datagram E d -> d = the_reply E.
Proof.
  intros Hc Hd. unfold reply_datagram in Hd. pose proof (announcement_wf _ Hc) as Hw.
  rewrite (marshal_bytes (PktPollReply _) Hw : snd (PollReply_MarshalBinary (ArtPollReplyFromConfig (E_config E))) = Ok (the_reply E)) in Hd. congruence.
Qed.
(** ArtPoll of another host makes a node broadcast its ArtPollReply. *)
Lemma poll_answered E y ls y' tr src port : works E y ls y' tr -> S_callbacks (Y_sh y) !! OpPoll = Some HPoll -> to16 src <> to16 (E_localIP E) -> In (ORecv (src, port) poll_datagram) tr ->
  In (OTx (KReply, (E_nodeBroadcast E, the_reply E))) tr.
Proof.
  intros Wk Hh Hs Hi. assert (A : exists q, wire_accepts (firstn 4096 poll_datagram) (PktPoll q)).
  { assert (X : exists q, Unmarshal poll_datagram = Ret (Some (PktPoll q), None)) by (eexists; vm_compute; reflexivity). destruct X as [q X]. exists q.
    change (firstn 4096 poll_datagram) with poll_datagram. apply Unmarshal_accepts; [ apply bytes_okb; reflexivity | exact X ]. }
  destruct A as [q A]. assert (C : In (OCall HPoll (PktPoll q)) tr).
  { destruct Wk as [V St Hc Hn Hr]. refine (C85_called E y ls y' tr src port poll_datagram (PktPoll q) HPoll V St Hc Hn Hr Hi Hs A _). rewrite <- (accepts_opcode _ _ A). exact Hh. }
  destruct (works_flow _ _ _ _ _ Wk) as (_ & _ & _ & _ & K & _).
  assert (P : In q (polls_handled tr)) by (unfold polls_handled; apply in_collect; exists (OCall HPoll (PktPoll q)); split; [ exact C | left; reflexivity ]).
  destruct (cnt_pos_in is_reply (transmitted tr)) as (x & Hx & Hk). { destruct (polls_handled tr); [ contradiction | cbn [length] in K; lia ]. }
  apply in_transmitted in Hx. pose proof (works_tx _ _ _ _ _ _ Wk Hx) as I0. pose proof (works_wf _ _ _ _ _ Wk) as Hc. destruct x as [k [a d]]. destruct (item_opcode E k a d Hc I0) as [_ Ko].
  unfold is_reply in Hk. cbn [snd] in Hk. rewrite Ko in Hk. destruct k; try discriminate Hk. destruct I0 as [-> Hd]. rewrite <- (reply_is E d Hc Hd). exact Hx.
Qed.
(** ArtPollReply of another host is applied to the tables. *)
Lemma reply_applied E y ls y' tr src port d q : works E y ls y' tr -> C_Type (E_config E) = StController -> S_callbacks (Y_sh y) !! OpPollReply = Some HPollReply -> to16 src <> to16 (E_localIP E) ->
  In (ORecv (src, port) d) tr -> wire_accepts (firstn 4096 d) (PktPollReply q) -> exists s now out, In (OTable s (EReply q now) out) tr.
Proof.
  intros Wk Ht Hh Hs Hi A. assert (C : In (OCall HPollReply (PktPollReply q)) tr).
  { destruct Wk as [V St Hc Hn Hr]. refine (C85_called E y ls y' tr src port d (PktPollReply q) HPollReply V St Hc Hn Hr Hi Hs A _). rewrite <- (accepts_opcode _ _ A). inversion A; exact Hh. }
  destruct (works_flow _ _ _ _ _ Wk) as (_ & _ & _ & _ & _ & K). destruct (K Ht) as (before & P).
  assert (X : In q (replies_applied tr)).
  { apply elem_of_list_In. rewrite P. apply elem_of_app. right. apply elem_of_list_In. unfold replies_called. apply in_collect. eexists. split; [ exact C | left; reflexivity ]. }
  unfold replies_applied in X. apply in_collect in X. destruct X as (o & Ho & X). destruct o; try contradiction. destruct e; try contradiction. destruct X as [->|[]]. eauto.
Qed.

(** What host i sends and host j hears arrives at j at least once (a broadcast repeated often enough, or a link that does not lose it this time). *)
Definition relays (Z : site) (G : list (nat * obs)) (i j : nat) (E : env) (d : list N) : Prop :=
  forall k dst, In (i, OTx (k, (dst, d))) G -> Z_hears Z j dst -> exists port, In (j, ORecv (E_localIP E, port) d) G.
(** A host of the network works. *)
Definition host_works (Z : site) (w : net) (L : list (nat * label)) (w' : net) (G : list (nat * obs)) (i : nat) (E : env) (y : sys) : Prop :=
  Z_envs Z !! i = Some E /\ W_hosts w !! i = Some y /\ exists y', W_hosts w' !! i = Some y' /\ works E y (acts i L) y' (proj i G).

(** The ArtPollReply of a node, as received, applied to the tables of a controller: they contain the node afterwards. *)
Lemma reply_entry Ei Ej ls y tr s now out q : wf_config (E_config Ej) -> valid_config (E_config Ej) ->
  (C_Type (E_config Ej) = 0 \/ (C_Type (E_config Ej) = 1 /\ C_OutputPorts (E_config Ej) <> [])) -> q = PollReply_set (ArtPollReplyFromConfig (E_config Ej)) magic 0x2100 6454 ->
  runs Ei ls y tr -> In (OTable s (EReply q now) out) tr ->
  exists s' m cn, step s (EReply q now) = Ret (s', out) /\ m ∈ K_Nodes s' /\ K_heap s' !! m = Some cn /\ announces Ej (CN_Node cn) /\ CN_LastSeen cn = now /\
    (C_OutputPorts (E_config Ej) <> [] -> K_OutputAddress s' !! C_BaseAddress (E_config Ej) = Some m).
Proof.
  intros Hw Hval Hst Eq RE Ho. assert (Hle : C_Type (E_config Ej) <= 6) by lia.
  destruct (discovery _ Hw Hle) as (cfg & Hd & Hcfg & Hwq). rewrite <- Eq in Hcfg, Hwq.
  apply in_split in Ho. destruct Ho as (t1 & t2 & ->).
  pose proof (ok_reach _ _ _ (sys_shared _ _ _ (runs_ok _ _ _ _ RE))) as Hre. rewrite hist_app in Hre. cbn [hist omap list_omap] in Hre. change (omap _ ?l) with (hist l) in Hre.
  destruct (reach_prefix _ _ _ _ _ _ _ Hre) as (Hre1 & Hev & s' & Hs). pose proof (reach_step _ _ _ _ _ _ Hre1 Hev Hs) as Hre2.
  pose proof Hval as Hval'. apply C32_validate_exact in Hval'; [ | exact Hw ]. destruct (C36_ports_seen_partial _ Hw Hval' Hle) as (cfg' & Hd' & _ & Eo). assert (cfg' = cfg) as -> by exact (discovered_fun _ _ _ Hd' Hd).
  destruct (handle_reply_eq s q now Hwq) as (cfg2 & Hc2 & _ & Eo2 & _). assert (cfg2 = cfg) as -> by congruence.
  assert (Hout : C_OutputPorts (E_config Ej) <> [] -> C_BaseAddress (E_config Ej) ∈ reply_outputs q).
  { intros Hne. rewrite <- Eo2, Eo. unfold seen_ports, addresses. rewrite map_map. apply elem_of_list_In, in_map_iff. exists 0%nat. split; [ reflexivity | ]. apply in_seq. destruct (C_OutputPorts (E_config Ej)); [ congruence | cbn [length]; lia ]. }
  assert (Htr : tracked q).
  { unfold tracked. destruct Hst as [Hst|[Hst Hne]]; [ left; rewrite Eq; exact Hst | right ]. split; [ rewrite Eq; exact Hst | ]. specialize (Hout Hne). intros X. rewrite X in Hout. apply elem_of_nil in Hout. exact Hout. }
  destruct (C51_tracked_reply _ _ _ q now Hre1 Hwq Htr) as (s1 & m & cn & cfg3 & Hh & Hc3 & Hm1 & Hn1 & Hl1 & Hip1 & _ & Hin). assert (cfg3 = cfg) as -> by congruence.
  pose proof Hs as Hs0. cbn [step] in Hs0. rewrite Hh in Hs0. cbn in Hs0. injection Hs0 as -> _.
  assert (Hmn : m ∈ K_Nodes s').
  { destruct Hin as [(X1 & _ & X2 & _)|(_ & _ & X & _)]; [ rewrite X2; exact X1 | rewrite X; apply elem_of_app; right; left ]. }
  exists s', m, cn. split; [ exact Hs | ]. split; [ exact Hmn | ]. split; [ exact Hm1 | ]. split; [ split; [ exact Hval | split; [ exact Hle | rewrite Hn1; exact Hd ] ] | ]. split; [ exact Hl1 | ].
  intros Hne. destruct (C53_reply_restores_partial _ _ _ q now s' out Hre1 Hwq Htr Hs) as (m2 & Hm2 & Hi2 & Hr2). rewrite (Hr2 _ (Hout Hne)). f_equal.
  unfold ip_of in Hi2. destruct (K_heap s' !! m2) as [c2|] eqn:Ec2.
  - apply elem_of_list_In, In_nth_error in Hmn, Hm2. destruct Hmn as [a1 Hmn]. destruct Hm2 as [a2 Hm2]. pose proof (C40_each_ip_once _ _ _ Hre2 a1 a2 _ _ _ _ Hmn Hm2 Hm1 Ec2) as X. rewrite Hn1 in X. rewrite X in Hmn by congruence. congruence.
  - destruct (inv_listed s' (reach_inv _ _ _ Hre2)) with (n := m2) as (cc & Hcc); [ exact Hm2 | congruence ].
Qed.

(** Controller i and node j run, hear each other's broadcasts and have different addresses, and a tick of the poll ticker of i falls into the segment: then i's tables get an entry for j with what j's
    configuration announces, and the base address of j, if it has outputs, is routed to that entry. *)
Theorem C86_discovery : forall Z w G L w' G' i j Ei Ej yi yj n, nruns Z w G -> nmoves Z w L w' G' -> host_works Z w L w' G' i Ei yi -> host_works Z w L w' G' j Ej yj ->
  E_ctl Ei = true -> C_Type (E_config Ei) = 1 -> to16 (E_localIP Ei) <> to16 (E_localIP Ej) ->
  S_callbacks (Y_sh yj) !! 0x2000 = Some HPoll -> (C_Type (E_config Ej) = 0 \/ (C_Type (E_config Ej) = 1 /\ C_OutputPorts (E_config Ej) <> [])) ->
  Z_hears Z j (E_ctlBroadcast Ei) -> Z_hears Z i (E_nodeBroadcast Ej) -> relays Z G' i j Ei poll_datagram -> relays Z G' j i Ej (the_reply Ej) ->
  In (i, LRun n CPollTick) L ->
  exists s q now out s' m cn, In (i, OTable s (EReply q now) out) G' /\ step s (EReply q now) = Ret (s', out) /\
    m ∈ K_Nodes s' /\ K_heap s' !! m = Some cn /\ announces Ej (CN_Node cn) /\ CN_LastSeen cn = now /\
    (C_OutputPorts (E_config Ej) <> [] -> K_OutputAddress s' !! C_BaseAddress (E_config Ej) = Some m).
Proof.
  intros Z w G L w' G' i j Ei Ej yi yj n R Sn (Hi & Hyi & yi' & Hyi' & Wi) (Hj & Hyj & yj' & Hyj' & Wj) Ec Hty Hip Hcb Hst Hij Hji Lij Lji Ht.
  assert (T1 : In (OTx (KPoll, (E_ctlBroadcast Ei, poll_datagram))) (proj i G')) by (eapply poll_sent; [ exact Wi | exact Ec | apply acts_in; exact Ht ]).
  apply proj_in in T1. destruct (Lij _ _ T1 Hij) as (port & R1). apply proj_in in R1.
  assert (T2 : In (OTx (KReply, (E_nodeBroadcast Ej, the_reply Ej))) (proj j G')) by (eapply poll_answered; [ exact Wj | exact Hcb | exact Hip | exact R1 ]).
  pose proof T2 as T2'. apply proj_in in T2. destruct (Lji _ _ T2 Hji) as (port2 & R2). apply proj_in in R2.
  pose proof (works_wf _ _ _ _ _ Wj) as Hw. assert (Hle : C_Type (E_config Ej) <= 6) by lia.
  pose proof (announcement_wf _ Hw) as Ha. destruct (marshal_unmarshal (PktPollReply (ArtPollReplyFromConfig (E_config Ej))) Ha (conj eq_refl Hle)) as (b & Hm & -> & Hb & Hu).
  change (packet_bytes (PktPollReply (ArtPollReplyFromConfig (E_config Ej)))) with (the_reply Ej) in *.
  destruct (discovery _ Hw Hle) as (cfg & Hd & Hcfg & Hwq). set (q := PollReply_set (ArtPollReplyFromConfig (E_config Ej)) magic 0x2100 6454) in *. change (canonical (PktPollReply (ArtPollReplyFromConfig (E_config Ej)))) with (PktPollReply q) in Hu.
  assert (Hacc : wire_accepts (firstn 4096 (the_reply Ej)) (PktPollReply q)).
  { pose proof (item_short Ej _ Hw (works_tx _ _ _ _ _ _ Wj T2')) as Hsh. cbn [snd] in Hsh. rewrite Hsh. apply Unmarshal_accepts; [ exact Hb | exact Hu ]. }
  destruct (works_runs _ _ _ _ _ Wi) as (lsi & tri & Ri & _).
  assert (Ho : exists s now out, In (OTable s (EReply q now) out) (proj i G')).
  { refine (reply_applied Ei _ _ _ _ _ _ _ q Wi Hty _ _ R2 Hacc); [ rewrite (ctl_callbacks _ _ _ _ Ec Ri); reflexivity | congruence ]. }
  destruct Ho as (s & now & out & Ho).
  (* the tables *)
  destruct (proj2 (nruns_host _ _ _ (nruns_nmoves _ _ _ _ _ _ R Sn)) i Ei Hi) as (ls & y & _ & RE).
  assert (Hval : valid_config (E_config Ej)).
  { destruct (validate (E_config Ej)) as [e|] eqn:Hv; [ | apply C32_validate_exact; assumption ]. exfalso.
    assert (V : ~ valid_config (E_config Ej)) by (intros V; apply C32_validate_exact in V; [ congruence | exact Hw ]).
    destruct (works_runs _ _ _ _ _ Wj) as (lsj & trj & _ & Rj). destruct (C62_invalid_partial _ _ _ _ Hw V Rj) as (_ & _ & K & _).
    destruct (K (OTx (KReply, (E_nodeBroadcast Ej, the_reply Ej)))) as (_ & _ & _ & K'); [ apply in_or_app; right; exact T2' | ]. exact (K' _ eq_refl). }
  destruct (reply_entry Ei Ej ls y (proj i (G ++ G')) s now out q Hw Hval Hst eq_refl RE) as (s' & m & cn & E1 & E2 & E3 & E4 & E5 & E6); [ rewrite proj_app; apply in_or_app; right; exact Ho | ].
  exists s, q, now, out, s', m, cn. split; [ apply proj_in; exact Ho | ]. auto 10.
Qed.

(** * C87 *)
(** A universe that is due at a tick is transmitted, with the data most recently written to it. *)
Lemma due_sent E y ls y' tr lsa tra s order now out t1 t2 a n cn : works E y ls y' tr -> runs E lsa y tra -> tr = t1 ++ OTable s (ETick order now) out :: t2 ->
  K_OutputAddress s !! a = Some n -> K_heap s !! n = Some cn -> is_due s now (a, n) = true ->
  exists k f q, In (OTx (k, f)) tr /\ In f out /\ carries a f = true /\ fst f = (C_IP (CN_Node cn), 6454) /\ bytes_ok (snd f) /\ firstn 4096 (snd f) = snd f /\ wire_accepts (snd f) (PktDMX q) /\
    (DMX_Net q, DMX_SubUni q) = a /\ DMX_Data q = last_write (hist (tra ++ t1)) n a.
Proof.
  intros Wi Ra Et Ha Hn Hdue. pose proof (runs_steps E _ _ _ _ _ _ Ra (wk_steps _ _ _ _ _ Wi)) as RE. rewrite Et, app_assoc in RE.
  pose proof (ok_reach _ _ _ (sys_shared _ _ _ (runs_ok _ _ _ _ RE))) as Hre. rewrite hist_app in Hre. cbn [hist omap list_omap] in Hre. change (omap _ ?l) with (hist l) in Hre.
  destruct (reach_prefix _ _ _ _ _ _ _ Hre) as (Hre1 & Hev & s' & Hs).
  destruct (C44_tick_sends_exactly_the_due _ _ _ order now Hre1 Hev) as (s2 & qs & Hs2 & Hlen). assert (Hout : out = zip_with (dmx_frame s) (List.filter (is_due s now) order) qs) by congruence.
  destruct (zip_with_elem_l (dmx_frame s) (List.filter (is_due s now) order) qs (a, n) Hlen) as (k & Hk).
  { apply elem_of_list_In, filter_In. split; [ | exact Hdue ]. apply elem_of_list_In. apply (order_routed s order Hev). exact Ha. }
  rewrite <- Hout in Hk. assert (Hca : carries a (dmx_frame s (a, n) k) = true). { unfold carries, dmx_frame. cbn. rewrite !N.eqb_refl. reflexivity. }
  destruct (C45_frames_are_right _ _ _ _ _ _ _ _ Hre1 Hev Hs Hk) as (a' & n' & cn' & q & Ha' & Hn' & Hf & Hb & Hu & Q1 & Q2 & _ & Q3 & _).
  pose proof (proj1 (Unmarshal_accepts _ _ Hb) Hu) as Hacc.
  assert (Ea : a' = a). { rewrite (surjective_pairing a'), (surjective_pairing a), <- Q1, <- Q2. unfold dmx_frame in Hacc. cbn [fst snd app] in Hacc. inversion Hacc; subst. reflexivity. }
  subst a'. pose proof (eq_trans (eq_sym Ha') Ha) as X1. injection X1 as ->. pose proof (eq_trans (eq_sym Hn') Hn) as X2. injection X2 as ->.
  destruct (works_flow _ _ _ _ _ Wi) as (_ & _ & (before & D) & _). revert Hk Hca Hf Hb Hacc. generalize (dmx_frame s (a, n) k). intros f Hk Hca Hf Hb Hacc.
  assert (Hd : In f (dmx_out tr)).
  { rewrite D. apply in_or_app. right. unfold frames_made. apply in_collect. exists (OTable s (ETick order now) out). split; [ rewrite Et; apply in_elt | apply elem_of_list_In; exact Hk ]. }
  unfold dmx_out in Hd. apply in_map_iff in Hd. destruct Hd as ([kd f'] & Ef & Hd). cbn [snd] in Ef. subst f'. apply filter_In in Hd. destruct Hd as [Hd _]. apply in_transmitted in Hd.
  pose proof (item_short E _ (works_wf _ _ _ _ _ Wi) (works_tx _ _ _ _ _ _ Wi Hd)) as Hsh. cbn [snd] in Hsh.
  exists kd, f, q. split; [ exact Hd | ]. split; [ apply elem_of_list_In; exact Hk | ]. repeat (split; [ assumption | ]). split; [ rewrite Q1, Q2; symmetry; apply surjective_pairing | ]. rewrite Q3. exact (data_inv _ _ _ Hre1 n a).
Qed.
(** ArtDmx of another host is given to the callback. *)
Lemma frame_called E y ls y' tr src port d q h : works E y ls y' tr -> to16 src <> to16 (E_localIP E) -> In (ORecv (src, port) d) tr -> firstn 4096 d = d -> wire_accepts d (PktDMX q) ->
  S_callbacks (Y_sh y) !! 0x5000 = Some h -> In (OCall h (PktDMX q)) tr.
Proof.
  intros [V St Hc Hne Hr] Hip Hrx Hsh Hacc Hcb. refine (C85_called E _ _ _ _ _ _ _ _ h V St Hc Hne Hr Hrx Hip _ _); [ rewrite Hsh; exact Hacc | ]. rewrite <- (accepts_opcode _ _ Hacc). inversion Hacc; exact Hcb.
Qed.
(** A tick of controller i at which universe [a], routed to the node with entry [cn], is due; host j hears the node's address and runs with a callback for ArtDmx: this callback is given the universe with the
    data most recently written to it. *)
Theorem C87_delivery : forall Z w G L w' G' i j Ei Ej yi yj t1 s order now out t2 a n cn h,
  nruns Z w G -> nmoves Z w L w' G' -> host_works Z w L w' G' i Ei yi -> host_works Z w L w' G' j Ej yj -> to16 (E_localIP Ei) <> to16 (E_localIP Ej) ->
  proj i G' = t1 ++ OTable s (ETick order now) out :: t2 -> K_OutputAddress s !! a = Some n -> K_heap s !! n = Some cn -> is_due s now (a, n) = true ->
  Z_hears Z j (C_IP (CN_Node cn), 6454) -> (forall f, In f out -> carries a f = true -> relays Z G' i j Ei (snd f)) -> S_callbacks (Y_sh yj) !! 0x5000 = Some h ->
  exists q, In (j, OCall h (PktDMX q)) G' /\ (DMX_Net q, DMX_SubUni q) = a /\ DMX_Data q = last_write (hist (proj i G ++ t1)) n a.
Proof.
  intros Z w G L w' G' i j Ei Ej yi yj t1 s order now out t2 a n cn h R Sn (Hi & Hyi & yi' & Hyi' & Wi) (Hj & Hyj & yj' & Hyj' & Wj) Hip Et Ha Hn Hdue Hh Hrel Hcb.
  destruct (proj2 (nruns_host _ _ _ R) i Ei Hi) as (ls & y & Hy & RE). assert (y = yi) as -> by congruence.
  destruct (due_sent Ei _ _ _ _ _ _ _ _ _ _ _ _ _ _ _ Wi RE Et Ha Hn Hdue) as (k & f & q & F1 & F2 & F3 & F4 & F5 & F6 & F7 & F8 & F9). exists q. split; [ | auto ].
  apply proj_in in F1. assert (Hrx : exists port, In (j, ORecv (E_localIP Ei, port) (snd f)) G').
  { apply (Hrel f F2 F3 k (fst f)); [ rewrite <- surjective_pairing; exact F1 | exact (eq_ind_r (Z_hears Z j) Hh F4) ]. }
  destruct Hrx as (port & Hrx). apply proj_in in Hrx. apply proj_in. eapply frame_called; eassumption.
Qed.
(** In particular: the user wrote [d] to the universe before the tick ([accepted] by SendDMXToAddress) and nothing after it. Then the callback is given [d]. *)
Theorem C87_written : forall Z w G L w' G' i j Ei Ej yi yj t1 s order now out t2 a n cn h t3 s0 d o0 t4,
  nruns Z w G -> nmoves Z w L w' G' -> host_works Z w L w' G' i Ei yi -> host_works Z w L w' G' j Ej yj -> to16 (E_localIP Ei) <> to16 (E_localIP Ej) ->
  proj i G' = t1 ++ OTable s (ETick order now) out :: t2 -> K_OutputAddress s !! a = Some n -> K_heap s !! n = Some cn -> is_due s now (a, n) = true ->
  Z_hears Z j (C_IP (CN_Node cn), 6454) -> (forall f, In f out -> carries a f = true -> relays Z G' i j Ei (snd f)) -> S_callbacks (Y_sh yj) !! 0x5000 = Some h ->
  proj i G ++ t1 = t3 ++ OTable s0 (ESend d a) o0 :: t4 -> (exists s1, SendDMXToAddress s0 d a = Ret (s1, true)) -> K_OutputAddress s0 !! a = Some n ->
  (forall s1 d1 o1, ~ In (OTable s1 (ESend d1 a) o1) t4) ->
  exists q, In (j, OCall h (PktDMX q)) G' /\ (DMX_Net q, DMX_SubUni q) = a /\ DMX_Data q = d.
Proof.
  intros Z w G L w' G' i j Ei Ej yi yj t1 s order now out t2 a n cn h t3 s0 d o0 t4 R Sn Wi Wj Hip Et Ha Hn Hdue Hh Hrel Hcb Ew (s1 & Hok) Hrt Hno.
  destruct (C87_delivery Z w G L w' G' i j Ei Ej yi yj t1 s order now out t2 a n cn h R Sn Wi Wj Hip Et Ha Hn Hdue Hh Hrel Hcb) as (q & H1 & H2 & H3).
  exists q. split; [ exact H1 | ]. split; [ exact H2 | ]. rewrite H3, Ew, hist_app. cbn [hist omap list_omap]. change (omap _ ?l) with (hist l).
  unfold last_write. rewrite fold_left_app. cbn [fold_left]. unfold accepted at 2. rewrite Hok, bool_decide_true by auto. cbn [andb].
  assert (X : forall s1 d1 o1, ~ In (s1, ESend d1 a, o1) (hist t4)) by (intros s2 d2 o2 X; apply in_hist in X; exact (Hno _ _ _ X)). clear - X. induction (hist t4) as [|[[s2 e] o2] l IH]; [ reflexivity | ]. cbn [fold_left].
  destruct e as [| |d2 b| |]; try (apply IH; intros s3 d3 o3 K; apply (X s3 d3 o3); right; exact K).
  rewrite bool_decide_false; [ apply IH; intros s3 d3 o3 K; apply (X s3 d3 o3); right; exact K | ]. intros [-> _]. apply (X s2 d2 o2). left. reflexivity.
Qed.

(** * C88 *)
(** Steps of one host only, in which no datagram arrives except those that can. *)
Lemma possible_more Z air more i l : possible Z air i l -> possible Z (air ++ more) i l.
Proof.
  destruct l as [r c| | | | |]; try exact id. destruct c; try exact id. intros [(j & E & dst & H1 & H2 & H3 & H4)|H]; [ left | right; exact H ]. exists j, E, dst. repeat (split; [ assumption | ]). split; [ | exact H4 ]. apply in_or_app. left. exact H3.
Qed.
Lemma nmoves_solo Z i E y ls y' tr : steps E y ls y' tr -> forall w, Z_envs Z !! i = Some E -> W_hosts w !! i = Some y -> Forall (possible Z (W_air w) i) ls ->
  exists w', nmoves Z w (map (pair i) ls) w' (map (pair i) tr) /\ W_hosts w' = <[i := y']> (W_hosts w) /\ exists more, W_air w' = W_air w ++ more.
Proof.
  induction 1 as [|y ls y1 tr1 l y2 o Hs IH Hl He]; intros w HE Hy Hp.
  - exists w. split; [ constructor | ]. split; [ symmetry; apply list_insert_id; exact Hy | exists []; symmetry; apply app_nil_r ].
  - apply Forall_app in Hp. destruct Hp as [Hp1 Hp2]. destruct (IH w HE Hy Hp1) as (w1 & M & Hh & more & Ha).
    assert (Hy1 : W_hosts w1 !! i = Some y1) by (rewrite Hh; apply list_lookup_insert; eapply lookup_lt_Some; exact Hy).
    exists (mkNet (<[i := y2]> (W_hosts w1)) (W_air w1 ++ aired i o)). rewrite !map_app. split; [ | split ].
    + cbn [map]. eapply nmoves_snoc; [ exact M | exact HE | exact Hy1 | exact Hl | | exact He ]. rewrite Ha. apply possible_more. rewrite Forall_singleton in Hp2. exact Hp2.
    + cbn [W_hosts]. rewrite Hh. apply list_insert_insert.
    + exists (more ++ aired i o). cbn [W_air]. rewrite Ha. symmetry. apply app_assoc.
Qed.
Lemma acts_same i ls : acts i (map (pair i) ls) = ls.
Proof. induction ls as [|l ls IH]; [ reflexivity | ]. unfold acts in *. cbn. rewrite decide_True by reflexivity. cbn. f_equal. exact IH. Qed.
Lemma acts_other i j ls : i <> j -> acts i (map (pair j) ls) = [].
Proof. intros H. induction ls as [|l ls IH]; [ reflexivity | ]. unfold acts in *. cbn. rewrite decide_False by congruence. exact IH. Qed.
Definition no_datagram (l : label) : Prop := match l with LRun _ (CDatagram _ _) => False | _ => True end.
Lemma no_datagram_possible Z air i l : no_datagram l -> possible Z air i l.
Proof. destruct l as [r c| | | | |]; try (intros _; exact I). destruct c; try (intros _; exact I). intros []. Qed.
Lemma works_app E y ls y1 tr ls' y' tr' : works E y ls y1 tr -> works E y1 ls' y' tr' -> works E y (ls ++ ls') y' (tr ++ tr').
Proof.
  intros [V1 S1 C1 N1 R1] [V2 S2 C2 N2 R2]. constructor; [ exact V1 | eapply steps_app; eassumption | rewrite calls_app, C1, C2; reflexivity | rewrite no_errors_app, N1, N2; reflexivity | exact R2 ].
Qed.
Lemma works_live E y ls y' tr : works E y ls y' tr -> live E y'.
Proof. intros [V S C N R]. exact (proj1 (live_steps _ _ _ _ _ S V C N)). Qed.
Lemma settle_works E y : live E y -> exists ls y' tr, works E y ls y' tr /\ Forall no_datagram ls.
Proof.
  intros V. destruct (settle_live E y V) as (y' & Q & R & _).
  assert (K : exists ls tr, steps E y ls y' tr /\ calls ls = [] /\ no_errors ls = true /\ Forall no_datagram ls).
  { clear V R. induction Q as [|y i t c y1 o y2 Ht Hi He Q (ls & tr & S & C & N & D)]; [ exists [], []; split; [ constructor | auto ] | ].
    exists (LRun i c :: ls), (o ++ tr). split; [ eapply steps_cons; [ | exact He | exact S ]; destruct t, c; try discriminate Hi; exact I | ].
    split; [ exact C | ]. unfold no_errors in *. cbn [forallb]. rewrite N. split; [ destruct t, c; try discriminate Hi; reflexivity | ]. constructor; [ destruct t, c; try discriminate Hi; exact I | exact D ]. }
  destruct K as (ls & tr & S & C & N & D). exists ls, y', tr. split; [ | exact D ]. constructor; assumption.
Qed.
(** One label of a resting host, then rest again. *)
Lemma label_works E y l y1 o : live E y -> label_ok l -> calls [l] = [] -> no_errors [l] = true -> exec E y l = RNext y1 o ->
  exists ls y' tr, works E y (l :: ls) y' (o ++ tr) /\ Forall no_datagram ls.
Proof.
  intros V Hl Hc Hn He. destruct (live_label E y l y1 o V Hl Hc Hn He) as (V1 & _). destruct (settle_works E y1 V1) as (ls & y' & tr & [_ S C N R] & D).
  exists ls, y', tr. split; [ | exact D ]. constructor; [ exact V | eapply steps_cons; eassumption | | | exact R ].
  - change (l :: ls) with ([l] ++ ls). rewrite calls_app, Hc, C. reflexivity.
  - change (l :: ls) with ([l] ++ ls). rewrite no_errors_app, Hn, N. reflexivity.
Qed.
Lemma resting_cp E y : live E y -> at_rest y -> E_ctl E = true -> exists i pb g cg, Y_threads y !! i = Some (CP_wait pb g cg).
Proof.
  intros V [R _] Ec. destruct (live_facts E y V) as (g & ch & k & _ & _ & _ & _ & _ & _ & _ & _ & _ & _ & N & _). destruct (N Ec) as (N1 & _).
  assert (X : exists i t, Y_threads y !! i = Some t /\ (0 < is_cp t)%nat) by (apply sum_pos; rewrite N1; lia). destruct X as (i & t & X1 & X2). pose proof (Forall_lookup_1 _ _ _ _ R X1) as Ht. cbn beta in Ht.
  destruct t; try discriminate Ht; cbn [is_cp] in X2; try lia. eauto.
Qed.
Lemma resting_rd E y : live E y -> at_rest y -> exists i b k, Y_threads y !! i = Some (RD_reading b k) /\ flag_at (S_conns (Y_sh y)) k = true.
Proof.
  intros V [R _]. destruct (live_facts E y V) as (g & ch & k & G1 & _ & _ & G4 & G5 & _). pose proof (live_parked E y g k V R G1 G4) as P. destruct V as [Wf Fp St (ls & tr & L)].
  pose proof (fu_rd _ _ (careful_full _ _ _ _ _ Wf L (or_intror eq_refl))) as F.
  assert (X : exists i t, Y_threads y !! i = Some t /\ (0 < w_reader t)%nat) by (apply sum_pos; rewrite F; lia). destruct X as (i & t & X1 & X2). pose proof (Forall_lookup_1 _ _ _ _ R X1) as Ht. pose proof (Forall_lookup_1 _ _ _ _ P X1) as Hk. cbn beta in Ht.
  destruct t; try discriminate Ht; cbn in X2; try lia. cbn [parked] in Hk. subst c. eauto.
Qed.
Lemma poll_round E y : live E y -> E_ctl E = true -> exists ls y' tr n, works E y ls y' tr /\ Forall no_datagram ls /\ In (LRun n CPollTick) ls.
Proof.
  intros V Ec. destruct (settle_works E y V) as (ls1 & y1 & tr1 & W1 & D1). pose proof (works_live _ _ _ _ _ W1) as V1. destruct (resting_cp E y1 V1 (wk_rest _ _ _ _ _ W1) Ec) as (n & pb & g & cg & Hn).
  destruct (label_works E y1 (LRun n CPollTick) (mkSys (Y_sh y1) (<[n := CP_send pb]> (Y_threads y1) ++ [])) [] V1) as (ls2 & y2 & tr2 & W2 & D2); [ exact I | reflexivity | reflexivity | cbn [exec]; rewrite Hn; reflexivity | ].
  exists (ls1 ++ LRun n CPollTick :: ls2), y2, (tr1 ++ [] ++ tr2), n. split; [ exact (works_app _ _ _ _ _ _ _ _ W1 W2) | ]. split; [ apply Forall_app; split; [ exact D1 | constructor; [ exact I | exact D2 ] ] | apply in_elt ].
Qed.
Lemma receive_round E y from d : live E y -> bytes_ok d -> exists ls y' tr, works E y ls y' tr /\ Forall (fun l => no_datagram l \/ exists r, l = LRun r (CDatagram from d)) ls /\ In (ORecv from d) tr.
Proof.
  intros V Hb. destruct (settle_works E y V) as (ls1 & y1 & tr1 & W1 & D1). pose proof (works_live _ _ _ _ _ W1) as V1. destruct (resting_rd E y1 V1 (wk_rest _ _ _ _ _ W1)) as (n & b & k & Hn & Hk).
  assert (He : exists y2, exec E y1 (LRun n (CDatagram from d)) = RNext y2 [ORecv from d]) by (cbn [exec]; rewrite Hn; cbn [tstep]; rewrite Hk; eauto). destruct He as [y2 He].
  destruct (label_works E y1 (LRun n (CDatagram from d)) y2 _ V1 Hb eq_refl eq_refl He) as (ls2 & y3 & tr2 & W2 & D2).
  exists (ls1 ++ LRun n (CDatagram from d) :: ls2), y3, (tr1 ++ [ORecv from d] ++ tr2). split; [ exact (works_app _ _ _ _ _ _ _ _ W1 W2) | ].
  split; [ | apply in_or_app; right; left; reflexivity ]. apply Forall_app. split; [ eapply Forall_impl; [ exact D1 | ]; auto | ]. constructor; [ right; eauto | ]. eapply Forall_impl; [ exact D2 | ]. auto.
Qed.
(** Whatever happened before on the network, and whatever is queued and pending at the two hosts: controller i can discover node j, by steps of their own goroutines, one tick of the poll ticker and two
    datagrams that arrive. *)
Theorem C88_can_discover : forall Z w G i j Ei Ej yi yj, nruns Z w G -> Z_envs Z !! i = Some Ei -> Z_envs Z !! j = Some Ej -> W_hosts w !! i = Some yi -> W_hosts w !! j = Some yj -> live Ei yi -> live Ej yj ->
  E_ctl Ei = true -> C_Type (E_config Ei) = 1 -> to16 (E_localIP Ei) <> to16 (E_localIP Ej) ->
  S_callbacks (Y_sh yj) !! 0x2000 = Some HPoll -> (C_Type (E_config Ej) = 0 \/ (C_Type (E_config Ej) = 1 /\ C_OutputPorts (E_config Ej) <> [])) ->
  Z_hears Z j (E_ctlBroadcast Ei) -> Z_hears Z i (E_nodeBroadcast Ej) ->
  exists L w' G' s q now out s' m cn, nmoves Z w L w' G' /\ Forall (fun x => (fst x = i \/ fst x = j) /\ calls [snd x] = [] /\ no_errors [snd x] = true) L /\
    In (i, OTable s (EReply q now) out) G' /\ step s (EReply q now) = Ret (s', out) /\
    m ∈ K_Nodes s' /\ K_heap s' !! m = Some cn /\ announces Ej (CN_Node cn) /\ (C_OutputPorts (E_config Ej) <> [] -> K_OutputAddress s' !! C_BaseAddress (E_config Ej) = Some m).
Proof.
  intros Z w G i j Ei Ej yi yj R Hi Hj Hyi Hyj Vi Vj Ec Hty Hip Hcb Hst Hij Hji. assert (Hne : i <> j) by (intros ->; assert (Ei = Ej) as -> by congruence; congruence).
  (* the poll *)
  destruct (poll_round Ei yi Vi Ec) as (l1 & yi1 & t1 & n & W1 & D1 & Ht).
  destruct (nmoves_solo Z i Ei _ _ _ _ (wk_steps _ _ _ _ _ W1) w Hi Hyi) as (w1 & M1 & H1 & _). { eapply Forall_impl; [ exact D1 | ]. intros l. apply no_datagram_possible. }
  pose proof (poll_sent _ _ _ _ _ _ W1 Ec Ht) as T1. pose proof (nruns_nmoves _ _ _ _ _ _ R M1) as R1.
  assert (A1 : In (i, (E_ctlBroadcast Ei, poll_datagram)) (W_air w1)). { apply (nruns_air _ _ _ R1). exists KPoll. apply in_or_app. right. apply in_map. exact T1. }
  (* the answer *)
  destruct (receive_round Ej yj (E_localIP Ei, 6454) poll_datagram Vj) as (l2 & yj2 & t2 & W2 & D2 & Rx2); [ apply bytes_okb; reflexivity | ].
  assert (Hyj1 : W_hosts w1 !! j = Some yj) by (rewrite H1, list_lookup_insert_ne by exact Hne; exact Hyj).
  destruct (nmoves_solo Z j Ej _ _ _ _ (wk_steps _ _ _ _ _ W2) w1 Hj Hyj1) as (w2 & M2 & H2 & _).
  { eapply Forall_impl; [ exact D2 | ]. intros l [Hl|(r & ->)]; [ apply no_datagram_possible; exact Hl | ]. left. exists i, Ei, (E_ctlBroadcast Ei). auto. }
  pose proof (poll_answered _ _ _ _ _ _ _ W2 Hcb Hip Rx2) as T2. pose proof (nruns_nmoves _ _ _ _ _ _ R1 M2) as R2.
  assert (A2 : In (j, (E_nodeBroadcast Ej, the_reply Ej)) (W_air w2)). { apply (nruns_air _ _ _ R2). exists KReply. apply in_or_app. right. apply in_map. exact T2. }
  (* its arrival *)
  assert (Hb : bytes_ok (the_reply Ej)) by (apply (item_opcode Ej KReply (E_nodeBroadcast Ej)); [ apply (works_wf _ _ _ _ _ W2) | apply (works_tx _ _ _ _ _ _ W2 T2) ]).
  destruct (receive_round Ei yi1 (E_localIP Ej, 6454) (the_reply Ej) (works_live _ _ _ _ _ W1) Hb) as (l3 & yi3 & t3 & W3 & D3 & Rx3).
  assert (Hyi2 : W_hosts w2 !! i = Some yi1). { rewrite H2, list_lookup_insert_ne by congruence. rewrite H1. apply list_lookup_insert. eapply lookup_lt_Some. exact Hyi. }
  destruct (nmoves_solo Z i Ei _ _ _ _ (wk_steps _ _ _ _ _ W3) w2 Hi Hyi2) as (w3 & M3 & H3 & _).
  { eapply Forall_impl; [ exact D3 | ]. intros l [Hl|(r & ->)]; [ apply no_datagram_possible; exact Hl | ]. left. exists j, Ej, (E_nodeBroadcast Ej). auto. }
  (* together *)
  set (L := (map (pair i) l1 ++ map (pair j) l2) ++ map (pair i) l3). set (G' := (map (pair i) t1 ++ map (pair j) t2) ++ map (pair i) t3).
  assert (M : nmoves Z w L w3 G') by (eapply nmoves_app; [ eapply nmoves_app; [ exact M1 | exact M2 ] | exact M3 ]).
  assert (Wi : host_works Z w L w3 G' i Ei yi).
  { split; [ exact Hi | ]. split; [ exact Hyi | ]. exists yi3. split; [ rewrite H3; apply list_lookup_insert; eapply lookup_lt_Some; exact Hyi2 | ].
    unfold L, G'. rewrite !acts_app, !proj_app, !acts_same, !proj_same, acts_other, proj_other, !app_nil_r by exact Hne. eapply works_app; eassumption. }
  assert (Wj : host_works Z w L w3 G' j Ej yj).
  { split; [ exact Hj | ]. split; [ exact Hyj | ]. exists yj2. split; [ rewrite H3, list_lookup_insert_ne, H2 by exact Hne; apply list_lookup_insert; eapply lookup_lt_Some; exact Hyj1 | ].
    unfold L, G'. rewrite !acts_app, !proj_app, acts_same, proj_same, !(acts_other j i), !(proj_other j i), !app_nil_r by congruence. exact W2. }
  destruct (C86_discovery Z w G L w3 G' i j Ei Ej yi yj n R M Wi Wj Ec Hty Hip Hcb Hst Hij Hji) as (s & q & now & out & s' & m & cn & K1 & K2 & K3 & K4 & K5 & _ & K6).
  - intros k dst _ _. exists 6454. apply in_or_app. left. apply in_or_app. right. apply in_map. exact Rx2.
  - intros k dst _ _. exists 6454. apply in_or_app. right. apply in_map. exact Rx3.
  - apply in_or_app. left. apply in_or_app. left. apply in_map. exact Ht.
  - exists L, w3, G', s, q, now, out, s', m, cn. split; [ exact M | ]. split; [ | auto 8 ].
    assert (X : forall E y ls y' tr k, works E y ls y' tr -> (k = i \/ k = j) -> Forall (fun x => (fst x = i \/ fst x = j) /\ calls [snd x] = [] /\ no_errors [snd x] = true) (map (pair k) ls)).
    { clear. intros E y ls y' tr k [_ _ C N _] Hk. induction ls as [|l ls IH]; [ constructor | ]. change (l :: ls) with ([l] ++ ls) in C, N. rewrite calls_app in C. apply app_eq_nil in C. destruct C as [C1 C2].
      rewrite no_errors_app in N. apply andb_prop in N. destruct N as [N1 N2]. constructor; [ auto | exact (IH C2 N2) ]. }
    unfold L. rewrite !Forall_app. split; [ split | ]; eapply X; eauto.
Qed.

(** And it can deliver: from every state in which the goroutines of controller i rest and universe [a] is routed to a node whose address j hears, the user can write any [d] and the callback of j gets it at
    the next tick. *)
Theorem C88_can_deliver : forall Z w G i j Ei Ej yi yj a n cn b h d now, nruns Z w G -> Z_envs Z !! i = Some Ei -> Z_envs Z !! j = Some Ej -> W_hosts w !! i = Some yi -> W_hosts w !! j = Some yj -> live Ei yi -> live Ej yj ->
  E_ctl Ei = true -> at_rest yi -> to16 (E_localIP Ei) <> to16 (E_localIP Ej) ->
  K_OutputAddress (S_tables (Y_sh yi)) !! a = Some n -> K_heap (S_tables (Y_sh yi)) !! n = Some cn -> CN_DMXBuffer cn !! a = Some b -> (B_LastUpdate b < now - E_maxFPS Ei)%Z ->
  Z_hears Z j (C_IP (CN_Node cn), 6454) -> S_callbacks (Y_sh yj) !! 0x5000 = Some h -> array_ok 512 d ->
  exists m L w' G' q, nmoves Z w ((i, LSend d a) :: (i, LRun m CGo) :: L) w' G' /\ Forall (fun x => (fst x = i \/ fst x = j) /\ calls [snd x] = [] /\ no_errors [snd x] = true) L /\
    In (j, OCall h (PktDMX q)) G' /\ (DMX_Net q, DMX_SubUni q) = a /\ DMX_Data q = d.
Proof.
  intros Z w G i j Ei Ej yi yj a n cn b h d now R Hi Hj Hyi Hyj Vi Vj Ec Hr Hip Ha Hn Hb Hnow Hh Hcb Hd. assert (Hne : i <> j) by (intros ->; assert (Ei = Ej) as -> by congruence; congruence).
  destruct (proj2 (nruns_host _ _ _ R) i Ei Hi) as (ls0 & y0 & Hy0 & RE). assert (y0 = yi) as -> by congruence. clear Hy0.
  pose proof (ok_reach _ _ _ (sys_shared _ _ _ (runs_ok _ _ _ _ RE))) as Hre.
  destruct (live_facts Ei yi Vi) as (g & ch & k & _ & _ & _ & _ & _ & _ & Lk & _ & _ & _ & Hctl & _). destruct (Hctl Ec) as (_ & Ndl & _).
  assert (Hl : S_lock (Y_sh yi) = false).
  { destruct (S_lock (Y_sh yi)) eqn:Hl; [ | reflexivity ]. exfalso. unfold lock_inv in Lk. rewrite Hl in Lk. destruct (sum_pos delivering (Y_threads yi)) as (r & t & Ht & Hp); [ lia | ].
    pose proof (Forall_lookup_1 _ _ _ _ (proj1 Hr) Ht) as K. destruct t; try discriminate K; cbn in Hp; lia. }
  assert (X : exists r t, Y_threads yi !! r = Some t /\ (0 < is_dl t)%nat) by (apply sum_pos; rewrite Ndl; lia). destruct X as (r & t & Hrt & X2). pose proof (Forall_lookup_1 _ _ _ _ (proj1 Hr) Hrt) as Ht. cbn beta in Ht.
  destruct t; try discriminate Ht; cbn [is_dl] in X2; try lia. clear X2 Ht.
  (* the write *)
  set (s := S_tables (Y_sh yi)) in *. assert (Hst : stored s n a = Some b) by (unfold stored; rewrite Hn; exact Hb).
  destruct (C43_send_routed s d a n b Ha Hst) as (s1 & Hs1 & (T1 & T2 & T3 & T4 & T5) & Hst1 & _).
  assert (Hstep1 : step s (ESend d a) = Ret (s1, [])) by (cbn [step]; rewrite Hs1; reflexivity).
  assert (Hre1 : reach (E_maxFPS Ei) (hist (proj i G) ++ [(s, ESend d a, [])]) s1) by (econstructor; [ exact Hre | exact Hd | exact Hstep1 ]).
  set (m := length (Y_threads yi)). set (y1 := mkSys (Y_sh yi) (Y_threads yi ++ [U_send d a])).
  assert (E1 : exec Ei yi (LSend d a) = RNext y1 []) by (cbn [exec]; rewrite Ec; reflexivity).
  assert (Hm1 : Y_threads y1 !! m = Some (U_send d a)) by (unfold y1, m; cbn [Y_threads]; rewrite lookup_app_r, Nat.sub_diag by lia; reflexivity).
  assert (E2 : exists th, exec Ei y1 (LRun m CGo) = RNext (mkSys (with_tables (Y_sh yi) s1 false) th) [OTable s (ESend d a) []; OSend] /\ th !! r = Some (DL_wait cg)).
  { eexists. split; [ cbn [exec]; rewrite Hm1; cbn [tstep]; change (Y_sh y1) with (Y_sh yi); rewrite Hl; fold s; rewrite Hstep1; reflexivity | ].
    rewrite app_nil_r. pose proof (lookup_lt_Some _ _ _ Hrt) as Hlt. rewrite list_lookup_insert_ne by (unfold m; lia). unfold y1. cbn [Y_threads]. rewrite lookup_app_l by exact Hlt. exact Hrt. }
  destruct E2 as (th2 & E2 & Hr2). set (y2 := mkSys (with_tables (Y_sh yi) s1 false) th2) in *.
  (* the tick *)
  assert (E3 : exec Ei y2 (LRun r (CTime now)) = RNext (mkSys (Y_sh y2) (<[r := DL_lock now]> th2 ++ [])) []) by (cbn [exec]; change (Y_threads y2) with th2; rewrite Hr2; reflexivity).
  set (y3 := mkSys (Y_sh y2) (<[r := DL_lock now]> th2 ++ [])) in *. set (order := map_to_list (K_OutputAddress s1)).
  assert (Hr3 : Y_threads y3 !! r = Some (DL_lock now)) by (unfold y3; cbn [Y_threads]; rewrite app_nil_r; apply list_lookup_insert; eapply lookup_lt_Some; exact Hr2).
  destruct (C44_tick_sends_exactly_the_due _ _ s1 order now Hre1 (reflexivity _)) as (s4 & qs & Hstep4 & _). set (out := zip_with (dmx_frame s1) (List.filter (is_due s1 now) order) qs) in *.
  assert (E4 : exists y4, exec Ei y3 (LRun r (COrder order)) = RNext y4 [OTable s1 (ETick order now) out]).
  { eexists. cbn [exec]. rewrite Hr3. cbn [tstep]. change (S_lock (Y_sh y3)) with false. change (S_tables (Y_sh y3)) with s1. cbv iota. rewrite bool_decide_true by reflexivity. rewrite Hstep4. reflexivity. }
  destruct E4 as (y4 & E4).
  assert (S4 : steps Ei yi ([LSend d a; LRun m CGo; LRun r (CTime now)] ++ [LRun r (COrder order)]) y4 (([] ++ [OTable s (ESend d a) []; OSend] ++ [] ++ []) ++ [OTable s1 (ETick order now) out])).
  { eapply steps_app; [ eapply steps_cons; [ exact Hd | exact E1 | ]; eapply steps_cons; [ exact I | exact E2 | ]; eapply steps_cons; [ exact I | exact E3 | constructor ] | ]. eapply steps_one; [ exact I | exact E4 ]. }
  cbn [app] in S4. destruct (live_steps Ei _ _ _ _ S4 Vi eq_refl eq_refl) as (V4 & _). destruct (settle_works Ei y4 V4) as (l5 & y5 & t5 & [_ S5 C5 N5 R5] & D5).
  set (l1 := [LSend d a; LRun m CGo; LRun r (CTime now); LRun r (COrder order)] ++ l5). set (t1 := [OTable s (ESend d a) []; OSend; OTable s1 (ETick order now) out] ++ t5).
  assert (W1 : works Ei yi l1 y5 t1). { constructor; [ exact Vi | eapply steps_app; [ exact S4 | exact S5 ] | exact C5 | exact N5 | exact R5 ]. }
  (* what goes out *)
  assert (Hcn1 : exists cn1, K_heap s1 !! n = Some cn1 /\ CN_Node cn1 = CN_Node cn).
  { specialize (T5 n). unfold rest in T5. rewrite Hn in T5. destruct (K_heap s1 !! n) as [cn1|] eqn:Hc; [ | discriminate T5 ]. exists cn1. split; [ reflexivity | congruence ]. }
  destruct Hcn1 as (cn1 & Hn1 & Hcn1). assert (Ha1 : K_OutputAddress s1 !! a = Some n) by (rewrite T2; exact Ha).
  assert (Hdue : is_due s1 now (a, n) = true).
  { unfold is_due. cbn [fst snd]. unfold pending. rewrite Hst1. cbn [default B_Stale B_LastUpdate]. rewrite (reach_fps _ _ _ Hre1). apply orb_true_iff. left. cbn. apply Z.ltb_lt. exact Hnow. }
  destruct (due_sent Ei _ _ _ _ _ _ s1 order now out [OTable s (ESend d a) []; OSend] t5 a n cn1 W1 RE eq_refl Ha1 Hn1 Hdue) as (kd & f & q & F1 & _ & _ & F4 & F5 & F6 & F7 & F8 & F9).
  assert (Hdat : DMX_Data q = d).
  { rewrite F9, hist_app. unfold last_write. rewrite fold_left_app. cbn. rewrite bool_decide_true by auto. unfold accepted. rewrite Hs1. reflexivity. }
  (* the network *)
  destruct (nmoves_solo Z i Ei _ _ _ _ (wk_steps _ _ _ _ _ W1) w Hi Hyi) as (w1 & M1 & H1 & _).
  { unfold l1. cbn [app]. repeat (constructor; [ exact I | ]). eapply Forall_impl; [ exact D5 | ]. intros l. apply no_datagram_possible. }
  pose proof (nruns_nmoves _ _ _ _ _ _ R M1) as R1.
  assert (A1 : In (i, f) (W_air w1)). { apply (nruns_air _ _ _ R1). exists kd. apply in_or_app. right. apply in_map. exact F1. }
  destruct (receive_round Ej yj (E_localIP Ei, 6454) (snd f) Vj F5) as (l2 & yj2 & t2 & W2 & D2 & Rx2).
  assert (Hyj1 : W_hosts w1 !! j = Some yj) by (rewrite H1, list_lookup_insert_ne by exact Hne; exact Hyj).
  destruct (nmoves_solo Z j Ej _ _ _ _ (wk_steps _ _ _ _ _ W2) w1 Hj Hyj1) as (w2 & M2 & H2 & _).
  { eapply Forall_impl; [ exact D2 | ]. intros l [Hl2|(rr & ->)]; [ apply no_datagram_possible; exact Hl2 | ]. left. exists i, Ei, (fst f). split; [ exact Hi | ]. split; [ reflexivity | ]. split; [ rewrite <- surjective_pairing; exact A1 | ].
    rewrite F4, Hcn1. exact Hh. }
  pose proof (frame_called Ej _ _ _ _ _ _ _ q h W2 Hip Rx2 F6 F7 Hcb) as Hcall.
  exists m, (map (pair i) ([LRun r (CTime now); LRun r (COrder order)] ++ l5) ++ map (pair j) l2), w2, (map (pair i) t1 ++ map (pair j) t2), q.
  split; [ exact (nmoves_app _ _ _ _ _ _ _ _ M1 M2) | ]. split.
  - assert (X : forall ls k, calls ls = [] -> no_errors ls = true -> (k = i \/ k = j) -> Forall (fun x => (fst x = i \/ fst x = j) /\ calls [snd x] = [] /\ no_errors [snd x] = true) (map (pair k) ls)).
    { clear. intros ls k C N Hk. induction ls as [|l ls IH]; [ constructor | ]. change (l :: ls) with ([l] ++ ls) in C, N. rewrite calls_app in C. apply app_eq_nil in C. destruct C as [C1 C2].
      rewrite no_errors_app in N. apply andb_prop in N. destruct N as [N1 N2]. constructor; [ auto | exact (IH C2 N2) ]. }
    rewrite Forall_app. split; [ apply X; auto | apply X; [ exact (wk_calls _ _ _ _ _ W2) | exact (wk_errors _ _ _ _ _ W2) | auto ] ].
  - split; [ apply in_or_app; right; apply in_map; exact Hcall | ]. auto.
Qed.

(** * A network *)
(** Playing a script on a network whose hosts are used carefully. *)
Fixpoint nlives (envs : list env) (hears : nat -> UDPAddr -> bool) (w : net) (ps : list phase) (fs : nscript) : option (net * list phase * list (nat * label) * list (nat * obs)) :=
  match fs with
  | [] => Some (w, ps, [], [])
  | (i, f) :: fs =>
      match envs !! i, W_hosts w !! i, ps !! i with
      | Some E, Some y, Some ph =>
          let l := f w y in
          if label_okb l && possibleb envs hears (W_air w) i l && carefulb y l then
            match exec E y l, call ph l with
            | RNext y' o, Some ph1 =>
                match nlives envs hears (mkNet (<[i := y']> (W_hosts w)) (W_air w ++ aired i o)) (<[i := fold_left answer o ph1]> ps) fs with
                | Some (w', ps', L, G) => Some (w', ps', (i, l) :: L, map (pair i) o ++ G)
                | None => None
                end
            | _, _ => None
            end
          else None
      | _, _, _ => None
      end
  end.
Definition alive (envs : list env) (w : net) (ps : list phase) : Prop :=
  forall i E y ph, envs !! i = Some E -> W_hosts w !! i = Some y -> ps !! i = Some ph -> exists ls tr, life E careful ls y tr ph.
Lemma nmoves_cons Z w i E y l y' o L w' G : Z_envs Z !! i = Some E -> W_hosts w !! i = Some y -> label_ok l -> possible Z (W_air w) i l -> exec E y l = RNext y' o ->
  nmoves Z (mkNet (<[i := y']> (W_hosts w)) (W_air w ++ aired i o)) L w' G -> nmoves Z w ((i, l) :: L) w' (map (pair i) o ++ G).
Proof.
  intros HE Hy Hl Hp He H. change ((i, l) :: L) with ([(i, l)] ++ L). eapply nmoves_app; [ | exact H ]. exact (nmoves_snoc Z w [] w [] i E y l y' o (nmoves_nil Z w) HE Hy Hl Hp He).
Qed.
Lemma nlives_ok envs hears fs : forall w ps w' ps' L G, alive envs w ps -> nlives envs hears w ps fs = Some (w', ps', L, G) -> nmoves (closed_site envs hears) w L w' G /\ alive envs w' ps'.
Proof.
  induction fs as [|[i f] fs IH]; intros w ps w' ps' L G A H; cbn [nlives] in H.
  - injection H as <- <- <- <-. split; [ constructor | exact A ].
  - cbv zeta in H. destruct (envs !! i) as [E|] eqn:HE; [ | discriminate ]. destruct (W_hosts w !! i) as [y|] eqn:Hy; [ | discriminate ]. destruct (ps !! i) as [ph|] eqn:Hph; [ | discriminate ].
    destruct (label_okb (f w y) && possibleb envs hears (W_air w) i (f w y) && carefulb y (f w y)) eqn:Hl; [ | discriminate ]. apply andb_prop in Hl. destruct Hl as [Hl Hc]. apply andb_prop in Hl. destruct Hl as [Hl Hp].
    destruct (exec E y (f w y)) as [| |y1 o] eqn:He; try discriminate. destruct (call ph (f w y)) as [ph1|] eqn:Hcall; [ | discriminate ].
    destruct (nlives _ _ _ _ fs) as [[[[w2 ps2] L2] G2]|] eqn:HP; [ | discriminate ]. injection H as <- <- <- <-.
    apply label_okb_ok in Hl. apply possibleb_ok in Hp. apply carefulb_ok in Hc.
    assert (A' : alive envs (mkNet (<[i := y1]> (W_hosts w)) (W_air w ++ aired i o)) (<[i := fold_left answer o ph1]> ps)).
    { intros j F z q HF Hz Hq. cbn [W_hosts] in Hz. destruct (Nat.eq_dec j i) as [->|Hn].
      * rewrite list_lookup_insert in Hz by (eapply lookup_lt_Some; exact Hy). rewrite list_lookup_insert in Hq by (eapply lookup_lt_Some; exact Hph). injection Hz as <-. injection Hq as <-.
        assert (F = E) as -> by congruence. destruct (A i E y ph HE Hy Hph) as (ls & tr & Lf). eexists _, _. eapply life_snoc; eassumption.
      * rewrite list_lookup_insert_ne in Hz by congruence. rewrite list_lookup_insert_ne in Hq by congruence. exact (A j F z q HF Hz Hq). }
    destruct (IH _ _ _ _ _ _ A' HP) as [I1 I2]. split; [ | exact I2 ]. eapply nmoves_cons; eassumption.
Qed.
Lemma alive_init envs : alive envs (mkNet (map init envs) []) (map (fun _ => Idle) envs).
Proof.
  intros i E y ph HE Hy Hp. cbn [W_hosts] in Hy. pose proof (list_lookup_fmap init envs i) as K. rewrite HE in K. cbn in K. change (map init envs !! i = Some (init E)) in K. rewrite K in Hy. injection Hy as <-.
  pose proof (list_lookup_fmap (fun _ : env => Idle) envs i) as K2. rewrite HE in K2. change (map (fun _ => Idle) envs !! i = Some Idle) in K2. rewrite K2 in Hp. injection Hp as <-. exists [], []. constructor.
Qed.
(** Two scripts, one after the other. *)
Definition ntested2 (envs : list env) (hears : nat -> UDPAddr -> bool) (fs1 fs2 : nscript) (P : net -> list phase -> list (nat * obs) -> list (nat * label) -> net -> list (nat * obs) -> bool) : bool :=
  match nlives envs hears (mkNet (map init envs) []) (map (fun _ => Idle) envs) fs1 with
  | Some (w, ps, _, G) => match nlives envs hears w ps fs2 with Some (w', _, L, G') => P w ps G L w' G' | None => false end
  | None => false
  end.
Lemma ntested2_ok envs hears fs1 fs2 P : ntested2 envs hears fs1 fs2 P = true -> exists w ps G L w' G', nruns (closed_site envs hears) w G /\ alive envs w ps /\ nmoves (closed_site envs hears) w L w' G' /\ P w ps G L w' G' = true.
Proof.
  unfold ntested2. destruct (nlives _ _ _ _ fs1) as [[[[w ps] L0] G]|] eqn:H1; [ | discriminate ]. destruct (nlives _ _ w _ fs2) as [[[[w' ps'] L] G']|] eqn:H2; [ | discriminate ]. intros H.
  destruct (nlives_ok _ _ _ _ _ _ _ _ _ (alive_init envs) H1) as [M1 A1]. destruct (nlives_ok _ _ _ _ _ _ _ _ _ A1 H2) as [M2 _]. exists w, ps, G, L, w', G'.
  split; [ exact (nruns_nmoves _ _ _ _ _ _ (nruns_init (closed_site envs hears)) M1) | ]. auto.
Qed.
Definition at_restb (y : sys) : bool :=
  forallb resting (Y_threads y) && match last_index (S_gens (Y_sh y)) with
    | Some g => match S_gens (Y_sh y) !! g with Some ch => match Q_send ch, Q_recv ch, Q_poll ch, Q_reply ch with [], [], [], [] => true | _, _, _, _ => false end | None => true end
    | None => true end.
Lemma at_restb_ok y : at_restb y = true -> at_rest y.
Proof.
  unfold at_restb. intros H. apply andb_prop in H. destruct H as [H1 H2]. split; [ apply Forall_forall; intros t Ht; apply elem_of_list_In in Ht; exact (proj1 (forallb_forall _ _) H1 t Ht) | ].
  intros g ch Hg Hc. rewrite Hg, Hc in H2. unfold drained. destruct (Q_send ch); [ | discriminate ]. destruct (Q_recv ch); [ | discriminate ]. destruct (Q_poll ch); [ | discriminate ]. destruct (Q_reply ch); [ | discriminate ]. auto.
Qed.
Definition relaysb (envs : list env) (hears : nat -> UDPAddr -> bool) (G : list (nat * obs)) (i j : nat) (E : env) (d : list N) : bool :=
  negb (existsb (fun x => match x with (k, OTx (_, (dst, d'))) => (k =? i)%nat && bool_decide (d' = d) && hears j dst | _ => false end) G) ||
  existsb (fun x => match x with (k, ORecv (src, _) d') => (k =? j)%nat && bool_decide (src = E_localIP E) && bool_decide (d' = d) | _ => false end) G.
Lemma relaysb_ok envs hears G i j E d : relaysb envs hears G i j E d = true -> relays (closed_site envs hears) G i j E d.
Proof.
  unfold relaysb. intros H k dst Hi Hh. cbn in Hh. apply orb_prop in H. destruct H as [H|H].
  - exfalso. apply negb_true_iff in H. rewrite <- not_true_iff_false in H. apply H. apply existsb_exists. eexists. split; [ exact Hi | ]. cbn. rewrite Nat.eqb_refl, bool_decide_true, Hh by reflexivity. reflexivity.
  - apply existsb_exists in H. destruct H as ([m o] & Ho & H). destruct o; try discriminate H. destruct from as [src port]. apply andb_prop in H. destruct H as [H H3]. apply andb_prop in H. destruct H as [H1 H2].
    apply Nat.eqb_eq in H1. apply bool_decide_eq_true in H2. apply bool_decide_eq_true in H3. subst. exists port. exact Ho.
Qed.
(** Host i lets some goroutine that can go on take a step, n times. *)
Definition next_go (E : env) (y : sys) : label :=
  LRun (hd 0%nat (List.filter (fun k => match exec E y (LRun k CGo) with RNext _ _ => true | _ => false end) (seq 0 (length (Y_threads y))))) CGo.
Definition run_on (E : env) (i n : nat) : nscript := repeat (i, fun _ y => next_go E y) n.
Definition lan_up : nscript := on 1 (act (LRegister 0x5000 1) ++ up_node) ++ on 0 up_ctl.
Definition receive (envs : list env) (i r k : nat) : nscript := firstn 1 (deliver envs i r k).
(** The first poll and one more; one of them reaches the node, its answer the controller; the user writes universe 0/7; the frame reaches the node. *)
Definition lan_work : nscript :=
  run_on ctl1 0 17 ++ on 0 (act (LRun 4 CPollTick)) ++ run_on ctl1 0 17 ++ receive lan 1 4 0 ++ run_on lamp 1 18 ++
  receive lan 0 6 4 ++ run_on ctl1 0 11 ++ on 0 (act (LRun 4 (CTime 5%Z))) ++ run_on ctl1 0 1 ++ on 0 (act (LSend sevens (0, 7))) ++ run_on ctl1 0 1 ++ on 0 (tick 5 2000000000) ++ run_on ctl1 0 8 ++
  receive lan 1 4 5 ++ run_on lamp 1 8.
Definition workedb (L : list (nat * label)) (w' : net) (i : nat) : bool :=
  bool_decide (calls (acts i L) = []) && no_errors (acts i L) && match W_hosts w' !! i with Some y => at_restb y | None => false end.
Lemma workedb_ok Z w L w' G i E y : nmoves Z w L w' G -> Z_envs Z !! i = Some E -> W_hosts w !! i = Some y -> live E y -> workedb L w' i = true -> host_works Z w L w' G i E y.
Proof.
  intros M HE Hy V H. unfold workedb in H. apply andb_prop in H. destruct H as [H H3]. apply andb_prop in H. destruct H as [H1 H2]. apply bool_decide_eq_true in H1.
  destruct (nmoves_host _ _ _ _ _ M i E y HE Hy) as (y' & Hy' & S). rewrite Hy' in H3. split; [ exact HE | ]. split; [ exact Hy | ]. exists y'. split; [ exact Hy' | ]. constructor; try assumption. apply at_restb_ok, H3.
Qed.
Lemma lan_wf i E : lan !! i = Some E -> wf_config (E_config E) /\ (E_ctl E = true -> (0 < E_maxFPS E <= 1000000000)%Z) /\ (E_ctl E = true \/ C_Type (E_config E) <> StController).
Proof.
  intros H. destruct i as [|[|i]]; [ | | destruct i; discriminate H ]; injection H as <-; (split; [ repeat (split; [ repeat constructor | ]); repeat constructor | ]).
  - split; [ intros _; vm_compute; split; [ reflexivity | discriminate ] | left; reflexivity ].
  - split; [ discriminate | right; discriminate ].
Qed.
Definition ticked (o : obs) : bool :=
  match o with OTable s (ETick order now) out => bool_decide (K_OutputAddress s !! (0, 7) = Some 0) && is_due s now ((0, 7), 0) && match K_heap s !! 0 with Some cn => bool_decide (C_IP (CN_Node cn) = [10; 0; 0; 1]) | None => false end | _ => false end.
Definition written (o : obs) : bool :=
  match o with OTable s (ESend d a) _ => bool_decide (a = (0, 7) /\ d = sevens /\ K_OutputAddress s !! a = Some 0) && match SendDMXToAddress s d a with Ret (_, true) => true | _ => false end | _ => false end.
Fixpoint split_at {A} (f : A -> bool) (l : list A) : option (list A * A * list A) :=
  match l with
  | [] => None
  | x :: l => if f x then Some ([], x, l) else match split_at f l with Some (a, y, b) => Some (x :: a, y, b) | None => None end
  end.
Lemma split_at_ok {A} (f : A -> bool) l : forall a x b, split_at f l = Some (a, x, b) -> l = a ++ x :: b /\ f x = true.
Proof.
  induction l as [|z l IH]; intros a x b H; [ discriminate | ]. cbn in H. destruct (f z) eqn:Hz; [ injection H as <- <- <-; auto | ]. destruct (split_at f l) as [[[a' y] b']|]; [ | discriminate ]. injection H as <- <- <-.
  destruct (IH _ _ _ eq_refl) as [-> K]. auto.
Qed.
Definition lan_test (w : net) (ps : list phase) (G : list (nat * obs)) (L : list (nat * label)) (w' : net) (G' : list (nat * obs)) : bool :=
  match ps with [Up; Up] => true | _ => false end && workedb L w' 0 && workedb L w' 1 &&
  match W_hosts w with [yi; yj] => bool_decide (S_callbacks (Y_sh yj) !! 0x2000 = Some HPoll /\ S_callbacks (Y_sh yj) !! 0x5000 = Some (HUser 1)) | _ => false end &&
  relaysb lan lan_hears G' 0 1 ctl1 poll_datagram && relaysb lan lan_hears G' 1 0 lamp (the_reply lamp) && existsb (fun x => match x with (0%nat, LRun 4 CPollTick) => true | _ => false end) L &&
  match split_at ticked (proj 0 G') with
  | Some (t1, OTable s _ out, t2) => forallb (fun f => relaysb lan lan_hears G' 0 1 ctl1 (snd f)) out &&
      match split_at written (proj 0 G ++ t1) with Some (_, _, t4) => negb (existsb (fun o => match o with OTable _ (ESend _ a) _ => true | _ => false end) t4) | None => false end
  | _ => false
  end.
(** All hypotheses of C86 and C87 hold of the controller and the node of C82_ex. *)
Example C86_ex : exists w G L w' G' yi yj n t1 s order now out t2 cn t3 s0 o0 t4,
  nruns lan_site w G /\ nmoves lan_site w L w' G' /\ host_works lan_site w L w' G' 0 ctl1 yi /\ host_works lan_site w L w' G' 1 lamp yj /\
  E_ctl ctl1 = true /\ C_Type (E_config ctl1) = 1 /\ to16 (E_localIP ctl1) <> to16 (E_localIP lamp) /\ S_callbacks (Y_sh yj) !! 0x2000 = Some HPoll /\ C_Type (E_config lamp) = 0 /\
  lan_hears 1 (E_ctlBroadcast ctl1) = true /\ lan_hears 0 (E_nodeBroadcast lamp) = true /\ relays lan_site G' 0 1 ctl1 poll_datagram /\ relays lan_site G' 1 0 lamp (the_reply lamp) /\ In (0%nat, LRun n CPollTick) L /\
  (* C87 *)
  proj 0 G' = t1 ++ OTable s (ETick order now) out :: t2 /\ K_OutputAddress s !! (0, 7) = Some 0 /\ K_heap s !! 0 = Some cn /\ is_due s now ((0, 7), 0) = true /\ lan_hears 1 (C_IP (CN_Node cn), 6454) = true /\
  (forall f, In f out -> carries (0, 7) f = true -> relays lan_site G' 0 1 ctl1 (snd f)) /\ S_callbacks (Y_sh yj) !! 0x5000 = Some (HUser 1) /\
  proj 0 G ++ t1 = t3 ++ OTable s0 (ESend sevens (0, 7)) o0 :: t4 /\ (exists s1, SendDMXToAddress s0 sevens (0, 7) = Ret (s1, true)) /\ K_OutputAddress s0 !! (0, 7) = Some 0 /\
  (forall s1 d1 o1, ~ In (OTable s1 (ESend d1 (0, 7)) o1) t4).
Proof.
  destruct (ntested2_ok lan lan_hears lan_up lan_work lan_test) as (w & ps & G & L & w' & G' & R & A & M & H); [ vm_compute; reflexivity | ].
  unfold lan_test in H. repeat (apply andb_prop in H; let K := fresh "K" in destruct H as [H K]).
  destruct ps as [|[] [|[] [|]]]; try discriminate H. destruct (W_hosts w) as [|yi [|yj [|]]] eqn:Hw; try discriminate K3. apply bool_decide_eq_true in K3. destruct K3 as [C1 C2].
  assert (Hi : W_hosts w !! 0%nat = Some yi) by (rewrite Hw; reflexivity). assert (Hj : W_hosts w !! 1%nat = Some yj) by (rewrite Hw; reflexivity).
  assert (Vi : live ctl1 yi) by (destruct (lan_wf 0 ctl1 eq_refl) as (W1 & W2 & W3); constructor; try assumption; exact (A 0%nat _ _ Up eq_refl Hi eq_refl)).
  assert (Vj : live lamp yj) by (destruct (lan_wf 1 lamp eq_refl) as (W1 & W2 & W3); constructor; try assumption; exact (A 1%nat _ _ Up eq_refl Hj eq_refl)).
  destruct (split_at ticked (proj 0 G')) as [[[t1 o] t2]|] eqn:E1; [ | discriminate K ]. apply split_at_ok in E1. destruct E1 as [E1 F1]. destruct o; try discriminate F1. destruct e; try discriminate F1.
  apply andb_prop in K. destruct K as [K Kw]. destruct (split_at written (proj 0 G ++ t1)) as [[[t3 o] t4]|] eqn:E2; [ | discriminate Kw ]. apply split_at_ok in E2. destruct E2 as [E2 F2]. destruct o; try discriminate F2. destruct e; try discriminate F2.
  unfold ticked in F1. apply andb_prop in F1. destruct F1 as [F1 F3]. apply andb_prop in F1. destruct F1 as [F1 F4]. apply bool_decide_eq_true in F1. destruct (K_heap s !! 0) as [cn|] eqn:Hcn; [ | discriminate F3 ]. apply bool_decide_eq_true in F3.
  unfold written in F2. apply andb_prop in F2. destruct F2 as [F2 F5]. apply bool_decide_eq_true in F2. destruct F2 as (-> & -> & F2).
  apply existsb_exists in K0. destruct K0 as ([i l] & Hl & K0). destruct i; [ | discriminate K0 ]. destruct l as [[|[|[|[|[|k]]]]] c| | | | |]; try discriminate K0. destruct c; try discriminate K0.
  exists w, G, L, w', G', yi, yj, 4%nat, t1, s, order, now, out, t2, cn, t3, s0, out0, t4.
  split; [ exact R | ]. split; [ exact M | ]. split; [ eapply workedb_ok; [ exact M | reflexivity | exact Hi | exact Vi | exact K5 ] | ]. split; [ eapply workedb_ok; [ exact M | reflexivity | exact Hj | exact Vj | exact K4 ] | ].
  do 2 (split; [ reflexivity | ]). split; [ discriminate | ]. split; [ exact C1 | ]. split; [ reflexivity | ]. do 2 (split; [ reflexivity | ]). split; [ apply relaysb_ok; exact K2 | ]. split; [ apply relaysb_ok; exact K1 | ]. split; [ exact Hl | ].
  split; [ exact E1 | ]. split; [ exact F1 | ]. split; [ exact Hcn | ]. split; [ exact F4 | ]. split; [ rewrite F3; reflexivity | ].
  split; [ intros f Hf _; apply relaysb_ok; exact (proj1 (forallb_forall _ _) K f Hf) | ]. split; [ exact C2 | ]. split; [ exact E2 | ].
  split; [ destruct (SendDMXToAddress s0 sevens (0, 7)) as [[s1 []]|]; try discriminate F5; eauto | ]. split; [ exact F2 | ].
  intros s1 d1 o1 X. apply negb_true_iff in Kw. rewrite <- not_true_iff_false in Kw. apply Kw. apply existsb_exists. eexists. split; [ exact X | reflexivity ].
Qed.

(** The hypotheses of C88 hold after it. *)
Example C88_ex : exists w G yi yj cn b, nruns lan_site w G /\ W_hosts w !! 0%nat = Some yi /\ W_hosts w !! 1%nat = Some yj /\ live ctl1 yi /\ live lamp yj /\ at_rest yi /\
  S_callbacks (Y_sh yj) !! 0x2000 = Some HPoll /\ S_callbacks (Y_sh yj) !! 0x5000 = Some (HUser 1) /\
  K_OutputAddress (S_tables (Y_sh yi)) !! (0, 7) = Some 0 /\ K_heap (S_tables (Y_sh yi)) !! 0 = Some cn /\ CN_DMXBuffer cn !! (0, 7) = Some b /\ (B_LastUpdate b < 3000000000 - E_maxFPS ctl1)%Z /\
  lan_hears 1 (C_IP (CN_Node cn), 6454) = true.
Proof.
  destruct (ntested2_ok lan lan_hears (lan_up ++ lan_work) [] (fun w ps _ _ _ _ => match ps with [Up; Up] => true | _ => false end &&
     match W_hosts w with
     | [yi; yj] => at_restb yi && bool_decide (S_callbacks (Y_sh yj) !! 0x2000 = Some HPoll /\ S_callbacks (Y_sh yj) !! 0x5000 = Some (HUser 1) /\ K_OutputAddress (S_tables (Y_sh yi)) !! (0, 7) = Some 0) &&
         match K_heap (S_tables (Y_sh yi)) !! 0 with Some cn => match CN_DMXBuffer cn !! (0, 7) with Some b => (B_LastUpdate b <? 3000000000 - E_maxFPS ctl1)%Z && lan_hears 1 (C_IP (CN_Node cn), 6454) | None => false end | None => false end
     | _ => false
     end)) as (w & ps & G & L & w' & G' & R & A & _ & H); [ vm_compute; reflexivity | ].
  apply andb_prop in H. destruct H as [H K]. destruct ps as [|[] [|[] [|]]]; try discriminate H. destruct (W_hosts w) as [|yi [|yj [|]]] eqn:Hw; try discriminate K.
  apply andb_prop in K. destruct K as [K K2]. apply andb_prop in K. destruct K as [K K1]. apply bool_decide_eq_true in K1. destruct K1 as (C1 & C2 & C3).
  destruct (K_heap (S_tables (Y_sh yi)) !! 0) as [cn|] eqn:Hn; [ | discriminate K2 ]. destruct (CN_DMXBuffer cn !! (0, 7)) as [b|] eqn:Hb; [ | discriminate K2 ]. apply andb_prop in K2. destruct K2 as [K2 K3]. apply Z.ltb_lt in K2.
  assert (Hi : W_hosts w !! 0%nat = Some yi) by (rewrite Hw; reflexivity). assert (Hj : W_hosts w !! 1%nat = Some yj) by (rewrite Hw; reflexivity).
  exists w, G, yi, yj, cn, b. split; [ exact R | ]. split; [ exact Hi | ]. split; [ exact Hj | ].
  split; [ destruct (lan_wf 0 ctl1 eq_refl) as (W1 & W2 & W3); constructor; try assumption; exact (A 0%nat _ _ Up eq_refl Hi eq_refl) | ].
  split; [ destruct (lan_wf 1 lamp eq_refl) as (W1 & W2 & W3); constructor; try assumption; exact (A 1%nat _ _ Up eq_refl Hj eq_refl) | ].
  split; [ apply at_restb_ok; exact K | ]. auto 8.
Qed.

Definition P_Flow_theorems := (C85_flow, C85_called, C86_discovery, C87_delivery, C87_written, C88_can_discover, C88_can_deliver, C86_ex, C88_ex).
Print Assumptions P_Flow_theorems.
