(** Property C90: which nodes a controller knows, over every history of events: those that answered and have not been silent for longer than 7 s at a clean-up since. *)
From Verif Require Import SysFacts SysLaws SysRun SysOrder SysScript P_Node P_Controller P_Wire.
From stdpp Require Import base list gmap.
Open Scope N_scope.

(** * Specification *)
(** An ArtPollReply from ip that makes the controller keep ip's node in its tables. *)
Definition answers (ip : list N) (e : event) : Prop := exists p t, e = EReply p t /\ tracked p /\ PollReply_IPAddress p = ip.
Definition no_answer (ip : list N) (h : history) : Prop := forall s e out, In (s, e, out) h -> ~ answers ip e.
(** The controller knows a node with this address, configuration and time of last answer; it knows no such node. *)
Definition knows (s : Controller) (ip : list N) (cfg : NodeConfig) (t : Z) : Prop :=
  exists n cn, n ∈ K_Nodes s /\ K_heap s !! n = Some cn /\ C_IP (CN_Node cn) = ip /\ CN_Node cn = cfg /\ CN_LastSeen cn = t.
Definition unknown (s : Controller) (ip : list N) : Prop := forall n cn, n ∈ K_Nodes s -> K_heap s !! n = Some cn -> C_IP (CN_Node cn) <> ip.
(** Every clean-up in h reads only clocks up to t + 7 s; some clean-up in h reads only later clocks. *)
Definition fresh (h : history) (t : Z) : Prop := forall s clock out, In (s, EGc clock, out) h -> forall j, (clock j <= t + 7000000000)%Z.
Definition expired (h : history) (t : Z) : Prop := exists s clock out, In (s, EGc clock, out) h /\ forall j, (t + 7000000000 < clock j)%Z.

(** * One event *)
Lemma knows_tick s order now s' out ip cfg t : Inv s -> order ≡ₚ map_to_list (K_OutputAddress s) -> step s (ETick order now) = Ret (s', out) -> knows s ip cfg t -> knows s' ip cfg t.
Proof.
  intros HI Ho E (n & cn & Hn & Hc & Hip & Hcfg & Ht). cbn [step] in E.
  destruct (order_routed s order Ho) as [Hr _]. destruct (tick_loop_inv order now s HI) as (s1 & o1 & E1 & _ & HN & _); [ intros a m; apply Hr | ].
  destruct (tick_exact s order now HI Ho) as (s2 & E2 & K & _). rewrite E1 in E, E2. injection E2 as <- _. injection E as <- <-.
  destruct (K n cn Hc) as (cn' & Hc' & L & C & _). exists n, cn'. rewrite HN, C, L. auto.
Qed.
Lemma unknown_tick s order now s' out ip : Inv s -> order ≡ₚ map_to_list (K_OutputAddress s) -> step s (ETick order now) = Ret (s', out) -> unknown s ip -> unknown s' ip.
Proof.
  intros HI Ho E U n cn Hn Hc. cbn [step] in E.
  destruct (order_routed s order Ho) as [Hr _]. destruct (tick_loop_inv order now s HI) as (s1 & o1 & E1 & _ & HN & _); [ intros a m; apply Hr | ].
  destruct (tick_exact s order now HI Ho) as (s2 & E2 & K & K0). rewrite E1 in E, E2. injection E2 as <- _. injection E as <- <-. rewrite HN in Hn.
  destruct (K_heap s !! n) as [c|] eqn:Ec; [ | pose proof (K0 n Ec) as K1; congruence ]. destruct (K n c Ec) as (cn' & Hc' & _ & C & _).
  pose proof (eq_trans (eq_sym Hc') Hc) as X. injection X as ->. rewrite C. exact (U n c Hn Ec).
Qed.
Lemma send_cases s d a s' ok : SendDMXToAddress s d a = Ret (s', ok) -> s' = s \/ exists n cn cn', K_heap s !! n = Some cn /\ s' = set_heap s (<[n := cn']> (K_heap s)) /\ CN_Node cn' = CN_Node cn /\ CN_LastSeen cn' = CN_LastSeen cn.
Proof.
  unfold SendDMXToAddress. destruct (K_OutputAddress s !! a) as [n|]; [ | intros [= <- _]; auto ]. unfold deref. destruct (K_heap s !! n) as [cn|] eqn:Hc; cbn [bind]; [ | discriminate ].
  unfold setDMXBuffer. destruct (CN_DMXBuffer cn !! a); cbn; intros [= <- _]; right; exists n, cn; eexists; (split; [ exact Hc | ]); (split; [ reflexivity | ]); cbn; auto.
Qed.
Lemma knows_reply s p t s' out : Inv s -> wf_PollReply p -> tracked p -> step s (EReply p t) = Ret (s', out) ->
  exists cfg, ConfigFromArtPollReply p = Ret cfg /\ knows s' (PollReply_IPAddress p) cfg t.
Proof.
  intros HI Hp Ht E. cbn [step] in E. destruct (handle_reply_eq s p t Hp) as (cfg & Ec & Hip & _ & _ & _ & Eh). rewrite decide_True in Eh by exact Ht. exists cfg. split; [ exact Ec | ].
  destruct (updateNode_eq s cfg t HI) as [(m & cm & Hm & Hcm & Hi & Eu)|(Hn & Eu)]; rewrite Eh, Eu in E; cbn in E; injection E as <- <-.
  - exists m. eexists. split; [ exact Hm | ]. split; [ apply lookup_insert | ]. cbn. auto.
  - exists (K_next s). eexists. split; [ cbn; apply elem_of_app; right; left | ]. split; [ apply lookup_insert | ]. cbn. auto.
Qed.
Lemma knows_step s e s' out ip cfg t : Inv s -> event_ok s e -> step s e = Ret (s', out) -> knows s ip cfg t -> ~ answers ip e ->
  (forall clock, e = EGc clock -> forall j, (clock j <= t + 7000000000)%Z) -> knows s' ip cfg t.
Proof.
  intros HI Ho E Hk Ha Hg. destruct e as [p now|clock|d a|order now|].
  - destruct Hk as (n & cn & Hn & Hc & Hip & Hcfg & Ht). cbn [step event_ok] in *. destruct (handle_reply_eq s p now Ho) as (cfg' & Ec & Hip' & _ & _ & _ & Eh).
    destruct (decide (tracked p)) as [Htr|Htr]; [ | rewrite Eh in E; injection E as <- <-; exists n, cn; auto ].
    assert (Hne : PollReply_IPAddress p <> ip). { intros K. apply Ha. exists p, now. auto. }
    destruct (updateNode_eq s cfg' now HI) as [(m & cm & Hm & Hcm & Hi & Eu)|(Hn' & Eu)]; rewrite Eh, Eu in E; cbn in E; injection E as <- <-.
    + exists n, cn. split; [ exact Hn | ]. split; [ | auto ]. cbn. rewrite lookup_insert_ne; [ exact Hc | ]. intros ->. rewrite Hcm in Hc. injection Hc as <-. congruence.
    + exists n, cn. split; [ cbn; apply elem_of_app; left; exact Hn | ]. split; [ | auto ]. cbn. rewrite lookup_insert_ne; [ exact Hc | ]. pose proof (inv_next s HI n cn Hc). lia.
  - specialize (Hg clock eq_refl). destruct Hk as (n & cn & Hn & Hc & Hip & Hcfg & Ht). cbn [step] in E. destruct (gcNode_eq s clock HI) as (s1 & k & E1 & C). rewrite E1 in E. cbn in E. injection E as <- <-.
    exists n, cn. rewrite (col_heap _ _ _ _ _ C). split; [ | auto ]. destruct (decide (n ∈ K_Nodes s1)) as [D|D]; [ exact D | ].
    exfalso. destruct (col_removed _ _ _ _ _ C n Hn D) as (j & _ & cn' & Hc' & Hs). pose proof (eq_trans (eq_sym Hc') Hc) as X. injection X as ->. specialize (Hg j). lia.
  - destruct Hk as (n & cn & Hn & Hc & Hip & Hcfg & Ht). cbn [step] in E. destruct (SendDMXToAddress s d a) as [[s1 ok]|] eqn:Es; [ | discriminate ]. cbn in E. injection E as <- <-.
    destruct (send_cases _ _ _ _ _ Es) as [->|(m & cm & cm' & Hcm & -> & C1 & C2)]; [ exists n, cn; auto | ].
    destruct (decide (m = n)) as [->|Hne].
    + rewrite Hcm in Hc. injection Hc as <-. exists n, cm'. split; [ exact Hn | ]. split; [ apply lookup_insert | ]. rewrite C1, C2. auto.
    + exists n, cn. split; [ exact Hn | ]. split; [ | auto ]. cbn. rewrite lookup_insert_ne by exact Hne. exact Hc.
  - exact (knows_tick _ _ _ _ _ _ _ _ HI Ho E Hk).
  - cbn [step] in E. injection E as <- <-. exact Hk.
Qed.
Lemma unknown_step s e s' out ip : Inv s -> event_ok s e -> step s e = Ret (s', out) -> unknown s ip -> ~ answers ip e -> unknown s' ip.
Proof.
  intros HI Ho E U Ha. destruct e as [p now|clock|d a|order now|].
  - cbn [step event_ok] in *. destruct (handle_reply_eq s p now Ho) as (cfg' & Ec & Hip' & _ & _ & _ & Eh).
    destruct (decide (tracked p)) as [Htr|Htr]; [ | rewrite Eh in E; injection E as <- <-; exact U ].
    assert (Hne : PollReply_IPAddress p <> ip). { intros K. apply Ha. exists p, now. auto. }
    destruct (updateNode_eq s cfg' now HI) as [(m & cm & Hm & Hcm & Hi & Eu)|(Hn' & Eu)]; rewrite Eh, Eu in E; cbn in E; injection E as <- <-; intros n cn Hn Hc; cbn in Hn, Hc.
    + destruct (decide (n = m)) as [->|D]; [ rewrite lookup_insert in Hc; injection Hc as <-; cbn; congruence | ]. rewrite lookup_insert_ne in Hc by congruence. exact (U n cn Hn Hc).
    + destruct (decide (n = K_next s)) as [->|D]; [ rewrite lookup_insert in Hc; injection Hc as <-; cbn; congruence | ]. rewrite lookup_insert_ne in Hc by congruence.
      apply elem_of_app in Hn. destruct Hn as [Hn|Hn]; [ exact (U n cn Hn Hc) | apply elem_of_list_singleton in Hn; contradiction ].
  - cbn [step] in E. destruct (gcNode_eq s clock HI) as (s1 & k & E1 & C). rewrite E1 in E. cbn in E. injection E as <- <-. intros n cn Hn Hc. rewrite (col_heap _ _ _ _ _ C) in Hc.
    destruct (col_order _ _ _ _ _ C) as [keep Hk]. rewrite Hk in Hn. apply elem_of_list_In, filter_In in Hn. destruct Hn as [Hn _]. apply elem_of_list_In in Hn. exact (U n cn Hn Hc).
  - cbn [step] in E. destruct (SendDMXToAddress s d a) as [[s1 ok]|] eqn:Es; [ | discriminate ]. cbn in E. injection E as <- <-.
    destruct (send_cases _ _ _ _ _ Es) as [->|(m & cm & cm' & Hcm & -> & C1 & C2)]; [ exact U | ]. intros n cn Hn Hc. cbn in Hn, Hc.
    destruct (decide (m = n)) as [->|Hne]; [ rewrite lookup_insert in Hc; injection Hc as <-; rewrite C1; exact (U _ _ Hn Hcm) | rewrite lookup_insert_ne in Hc by exact Hne; exact (U n cn Hn Hc) ].
  - exact (unknown_tick _ _ _ _ _ _ HI Ho E U).
  - cbn [step] in E. injection E as <- <-. exact U.
Qed.
Lemma gone_or_stays s clock s' out ip cfg t : Inv s -> step s (EGc clock) = Ret (s', out) -> knows s ip cfg t -> knows s' ip cfg t \/ unknown s' ip.
Proof.
  intros HI E (n & cn & Hn & Hc & Hip & Hcfg & Ht). cbn [step] in E. destruct (gcNode_eq s clock HI) as (s1 & k & E1 & C). rewrite E1 in E. cbn in E. injection E as <- <-.
  destruct (decide (n ∈ K_Nodes s1)) as [D|D]; [ left; exists n, cn; rewrite (col_heap _ _ _ _ _ C); auto | ]. right. intros m cm Hm Hcm Hipm. rewrite (col_heap _ _ _ _ _ C) in Hcm.
  destruct (col_order _ _ _ _ _ C) as [keep Hk]. pose proof Hm as Hm'. rewrite Hk in Hm'. apply elem_of_list_In, filter_In in Hm'. destruct Hm' as [Hm' _]. apply elem_of_list_In in Hm'.
  apply D. replace n with m; [ exact Hm | ]. apply (inv_ip_inj s m n HI Hm' Hn). unfold ip_of. rewrite Hc, Hcm. congruence.
Qed.
Lemma gone s clock s' out ip cfg t : Inv s -> step s (EGc clock) = Ret (s', out) -> knows s ip cfg t -> (forall j, (t + 7000000000 < clock j)%Z) -> unknown s' ip.
Proof.
  intros HI E Hk Hg. destruct (gone_or_stays _ _ _ _ _ _ _ HI E Hk) as [(n & cn & Hn & Hc & Hip & Hcfg & Ht)|U]; [ | exact U ]. exfalso.
  cbn [step] in E. destruct (gcNode_eq s clock HI) as (s1 & k & E1 & C). rewrite E1 in E. cbn in E. injection E as <- <-.
  destruct (col_kept _ _ _ _ _ C n Hn) as (j & _ & Hs). apply Hs. rewrite (col_heap _ _ _ _ _ C) in Hc. exists cn. split; [ exact Hc | ]. specialize (Hg j). lia.
Qed.

(** * C90 *)
Lemma no_answer_app ip h h' : no_answer ip (h ++ h') <-> no_answer ip h /\ no_answer ip h'.
Proof.
  split.
  - intros H. split; intros s e out K; apply (H s e out); apply in_or_app; auto.
  - intros [H H'] s e out K. apply in_app_or in K. destruct K; [ eapply H | eapply H' ]; eassumption.
Qed.
Lemma answers_dec ip e : answers ip e \/ ~ answers ip e.
Proof.
  destruct e as [p t| | | |]; try (right; intros (p' & t' & K & _); discriminate K). destruct (decide (tracked p)) as [T|T]; [ | right; intros (p' & t' & [= <- <-] & K & _); contradiction ].
  destruct (decide (PollReply_IPAddress p = ip)) as [D|D]; [ left; exists p, t; auto | right; intros (p' & t' & [= <- <-] & _ & K); contradiction ].
Qed.
(** After the last answer of ip everything is determined by the clean-ups. *)
Theorem C90_known : forall fps h s ip, reach fps h s ->
  (no_answer ip h -> unknown s ip) /\
  (forall h1 s0 p t out h2, h = h1 ++ (s0, EReply p t, out) :: h2 -> tracked p -> PollReply_IPAddress p = ip -> no_answer ip h2 ->
     exists cfg, ConfigFromArtPollReply p = Ret cfg /\ (knows s ip cfg t \/ unknown s ip) /\ (fresh h2 t -> knows s ip cfg t) /\ (expired h2 t -> unknown s ip)).
Proof.
  intros fps h s ip R. induction R as [|h s e s' out R IH Ho E].
  - split; [ intros _ n cn Hn; cbn in Hn; inversion Hn | ]. intros h1 s0 p t out h2 H. destruct h1; discriminate H.
  - destruct IH as [I1 I2]. pose proof (reach_inv _ _ _ R) as HI. split.
    + intros Hn. apply no_answer_app in Hn. destruct Hn as [H1 H2]. eapply unknown_step; [ exact HI | exact Ho | exact E | exact (I1 H1) | ]. apply (H2 s e out). left. reflexivity.
    + intros h1 s0 p t out0 h2 H Ht Hip Hn. apply app_cons_split in H. destruct H as [(h2' & -> & H)|(h1' & -> & H)].
      * apply no_answer_app in Hn. destruct Hn as [Hn He]. destruct (I2 h1 s0 p t out0 h2' H Ht Hip Hn) as (cfg & Ec & K1 & K2 & K3). exists cfg. split; [ exact Ec | ].
        assert (Ha : ~ answers ip e) by (apply (He s e out); left; reflexivity). split; [ | split ].
        -- destruct K1 as [K1|K1]; [ | right; eapply unknown_step; eassumption ].
           destruct e as [p' t'|clock|d a|order now|]; try (left; eapply knows_step; try eassumption; discriminate). eapply gone_or_stays; eassumption.
        -- intros F. assert (F' : fresh h2' t) by (intros s1 c o K; apply (F s1 c o); apply in_or_app; left; exact K). eapply knows_step; [ exact HI | exact Ho | exact E | exact (K2 F') | exact Ha | ].
           intros clock ->. apply (F s clock out). apply in_or_app. right. left. reflexivity.
        -- intros (s1 & c & o & K & Kc). apply in_app_or in K. destruct K as [K|[K|[]]].
           ++ eapply unknown_step; [ exact HI | exact Ho | exact E | | exact Ha ]. apply K3. exists s1, c, o. auto.
           ++ injection K as <- -> <-. destruct K1 as [K1|K1]; [ eapply gone; eassumption | eapply unknown_step; eassumption ].
      * destruct h1' as [|z h1']; [ | destruct h1'; discriminate H ]. cbn in H. injection H as <- -> <- <-.
        destruct (knows_reply _ _ _ _ _ HI Ho Ht E) as (cfg & Ec & K). rewrite Hip in K. exists cfg. split; [ exact Ec | ]. split; [ left; exact K | ]. split; [ intros _; exact K | ].
        intros (s1 & c & o & [] & _).
Qed.
(** Frames go to nodes that have answered before, announcing the universe, and have not expired since. *)
Lemma last_answer ip h : no_answer ip h \/ exists h1 s0 p t out h2, h = h1 ++ (s0, EReply p t, out) :: h2 /\ tracked p /\ PollReply_IPAddress p = ip /\ no_answer ip h2.
Proof.
  induction h as [|[[s e] o] h IH]; [ left; intros s e o [] | ]. destruct IH as [IH|(h1 & s0 & p & t & out & h2 & -> & H)]; [ | right; exists ((s, e, o) :: h1), s0, p, t, out, h2; split; [ reflexivity | exact H ] ].
  destruct (answers_dec ip e) as [(p & t & -> & Ht & Hip)|Hn].
  - right. exists [], s, p, t, o, h. auto.
  - left. intros s1 e1 o1 [K|K]; [ injection K as <- <- <-; exact Hn | exact (IH _ _ _ K) ].
Qed.
Lemma reach_split fps h1 h2 s : reach fps (h1 ++ h2) s -> match h2 with [] => reach fps h1 s | (s1, e, out) :: _ => reach fps h1 s1 /\ event_ok s1 e /\ exists s2, step s1 e = Ret (s2, out) end.
Proof.
  remember (h1 ++ h2) as h eqn:Hh. intros R. revert h1 h2 Hh. induction R as [|h s e s' out R IH Ho E]; intros h1 h2 Hh.
  - symmetry in Hh. apply app_eq_nil in Hh. destruct Hh as [-> ->]. constructor.
  - destruct h2 as [|[[s1 e1] o1] h2 _] using rev_ind.
    + rewrite app_nil_r in Hh. subst h1. econstructor; eassumption.
    + rewrite app_assoc in Hh. apply app_inj_tail in Hh. destruct Hh as [-> X]. injection X as <- <- <-. specialize (IH h1 h2 eq_refl).
      destruct h2 as [|[[s1 e1] o1] h2]; cbn [app]; [ split; [ exact IH | split; [ exact Ho | eauto ] ] | exact IH ].
Qed.
Theorem C90_frames_to_known : forall fps h s s0 order now out h0 h3 f, reach fps h s -> h = h0 ++ (s0, ETick order now, out) :: h3 -> In f out ->
  exists h1 s1 p t out1 h2 q, h0 = h1 ++ (s1, EReply p t, out1) :: h2 /\ tracked p /\ fst f = (PollReply_IPAddress p, 6454) /\ no_answer (PollReply_IPAddress p) h2 /\ ~ expired h2 t /\
    Unmarshal (snd f) = Ret (Some (PktDMX q), None) /\ (DMX_Net q, DMX_SubUni q) ∈ reply_outputs p.
Proof.
  intros fps h s s0 order now out h0 h3 f R -> Hf. apply reach_split in R. destruct R as (R & Ho & s2 & E). cbn [event_ok] in Ho.
  assert (Hf' : f ∈ out) by (apply elem_of_list_In; exact Hf). destruct (C45_frames_are_right _ _ _ _ _ _ _ _ R Ho E Hf') as (a & n & cn & q & Ha & Hc & Hdst & _ & Hq & Q1 & Q2 & _).
  destruct (C41_routing_never_dangles _ _ _ R) as [D _]. destruct (D a n Ha) as (Hn & cn' & pt & Hc' & Hpt & Hpa). pose proof (eq_trans (eq_sym Hc') Hc) as X. injection X as ->.
  set (ip := C_IP (CN_Node cn)). destruct (C90_known _ _ _ ip R) as [K0 K1].
  destruct (last_answer ip h0) as [N|(h1 & s1 & p & t & out1 & h2 & -> & Ht & Hip & N)]; [ exfalso; exact (K0 N n cn Hn Hc eq_refl) | ].
  exists h1, s1, p, t, out1, h2, q. split; [ reflexivity | ]. split; [ exact Ht | ]. split; [ rewrite Hip; exact Hdst | ]. split; [ rewrite Hip; exact N | ].
  destruct (K1 _ _ _ _ _ _ eq_refl Ht Hip N) as (cfg & Ec & K2 & _ & K4). split; [ intros X; exact (K4 X n cn Hn Hc eq_refl) | ]. split; [ exact Hq | ].
  destruct K2 as [(m & cm & Hm & Hcm & Hipm & Hcfg & _)|U]; [ | exfalso; exact (U n cn Hn Hc eq_refl) ].
  assert (m = n). { apply (inv_ip_inj _ m n (reach_inv _ _ _ R) Hm Hn). unfold ip_of. rewrite Hc, Hcm. exact Hipm. } subst m. pose proof (eq_trans (eq_sym Hcm) Hc) as X. injection X as ->.
  apply reach_split in R. destruct R as (_ & Hwf & _). cbn [event_ok] in Hwf. destruct (handle_reply_eq s1 p t Hwf) as (cfg' & Ec' & _ & Eo & _). rewrite Ec in Ec'. injection Ec' as <-.
  rewrite <- Eo, <- Hcfg. destruct a as [an au]. cbn in Q1, Q2. rewrite Q1, Q2, <- Hpa. apply elem_of_list_In. unfold addresses. apply in_map. exact Hpt.
Qed.
(** The same for the controller's goroutines: every ArtDmx datagram on the wire was made at a tick for a node that had answered before and had not expired when the tick came. *)
Theorem C90_wire : forall E ls y tr1 x tr2, wf_config (E_config E) -> runs E ls y (tr1 ++ OTx x :: tr2) -> is_dmx x = true ->
  exists tra s order now out trb h1 s1 p t out1 h2 q, tr1 = tra ++ OTable s (ETick order now) out :: trb /\ In (snd x) out /\
    hist tra = h1 ++ (s1, EReply p t, out1) :: h2 /\ tracked p /\ fst (snd x) = (PollReply_IPAddress p, 6454) /\ no_answer (PollReply_IPAddress p) h2 /\ ~ expired h2 t /\
    Unmarshal (snd (snd x)) = Ret (Some (PktDMX q), None) /\ (DMX_Net q, DMX_SubUni q) ∈ reply_outputs p.
Proof.
  intros E ls y tr1 x tr2 Hc R Hx. destruct (C73_wire_data _ _ _ _ _ _ Hc R Hx) as (tra & s & order & now & out & trb & _ & _ & _ & _ & -> & Hin & _).
  pose proof (ok_reach _ _ _ (sys_shared _ _ _ (runs_ok _ _ _ _ R))) as Hr. rewrite <- app_assoc in Hr. rewrite hist_app in Hr.
  change (hist ((OTable s (ETick order now) out :: trb) ++ OTx x :: tr2)) with ((s, ETick order now, out) :: hist (trb ++ OTx x :: tr2)) in Hr.
  destruct (C90_frames_to_known _ _ _ _ _ _ _ _ _ (snd x) Hr eq_refl Hin) as (h1 & s1 & p & t & out1 & h2 & q & H). exists tra, s, order, now, out, trb, h1, s1, p, t, out1, h2, q. split; [ reflexivity | ]. split; [ exact Hin | exact H ].
Qed.
Theorem C90_run : forall E ls y tr ip, runs E ls y tr ->
  (no_answer ip (hist tr) -> unknown (S_tables (Y_sh y)) ip) /\
  (forall tr1 s0 p t out tr2, tr = tr1 ++ OTable s0 (EReply p t) out :: tr2 -> tracked p -> PollReply_IPAddress p = ip -> no_answer ip (hist tr2) ->
     exists cfg, ConfigFromArtPollReply p = Ret cfg /\ (knows (S_tables (Y_sh y)) ip cfg t \/ unknown (S_tables (Y_sh y)) ip) /\
       (fresh (hist tr2) t -> knows (S_tables (Y_sh y)) ip cfg t) /\ (expired (hist tr2) t -> unknown (S_tables (Y_sh y)) ip)).
Proof.
  intros E ls y tr ip R. destruct (C90_known _ _ _ ip (ok_reach _ _ _ (sys_shared _ _ _ (runs_ok _ _ _ _ R)))) as [H1 H2]. split; [ exact H1 | ].
  intros tr1 s0 p t out tr2 -> Ht Hip Hn. apply (H2 (hist tr1) s0 p t out (hist tr2)); [ | exact Ht | exact Hip | exact Hn ]. rewrite hist_app. reflexivity.
Qed.
(** Node 1 answers at 1 s, node 2 at 5 s; the clean-up just after 8 s forgets node 1 and keeps node 2. *)
Example C90_ex : exists s0 s1 s2 s3 s o0 o1 o2 o3,
  let h := [(s0, EStart, o0); (s1, EReply (one_port 1 7) (sec 1), o1); (s2, EReply (one_port 2 8) (sec 5), o2); (s3, EGc (fun _ => sec 8 + 1)%Z, o3)] in
  reach 1000 h s /\ tracked (one_port 1 7) /\ tracked (one_port 2 8) /\
  no_answer [10; 0; 0; 1] (skipn 2 h) /\ expired (skipn 2 h) (sec 1) /\ unknown s [10; 0; 0; 1] /\
  no_answer [10; 0; 0; 2] (skipn 3 h) /\ fresh (skipn 3 h) (sec 5) /\ exists cfg, knows s [10; 0; 0; 2] cfg (sec 5).
Proof.
  pose proof (reach_init 1000) as R0. set (s0 := NewController 1000) in R0.
  destruct (C40_events_never_panic _ _ _ EStart R0 I) as (s1 & o0 & E0). pose proof (reach_step _ _ _ EStart _ _ R0 I E0) as R1.
  assert (W1 : wf_PollReply (one_port 1 7)) by (apply one_port_wf; unfold byte_ok; lia). assert (W2 : wf_PollReply (one_port 2 8)) by (apply one_port_wf; unfold byte_ok; lia).
  destruct (C40_events_never_panic _ _ _ (EReply (one_port 1 7) (sec 1)) R1 W1) as (s2 & o1 & E1). pose proof (reach_step _ _ _ (EReply (one_port 1 7) (sec 1)) _ _ R1 W1 E1) as R2.
  destruct (C40_events_never_panic _ _ _ (EReply (one_port 2 8) (sec 5)) R2 W2) as (s3 & o2 & E2). pose proof (reach_step _ _ _ (EReply (one_port 2 8) (sec 5)) _ _ R2 W2 E2) as R3.
  destruct (C40_events_never_panic _ _ _ (EGc (fun _ => sec 8 + 1)%Z) R3 I) as (s & o3 & E3). pose proof (reach_step _ _ _ (EGc (fun _ => sec 8 + 1)%Z) _ _ R3 I E3) as R. cbn [app] in R.
  exists s0, s1, s2, s3, s, o0, o1, o2, o3. intros h. assert (T1 : tracked (one_port 1 7)) by (left; reflexivity). assert (T2 : tracked (one_port 2 8)) by (left; reflexivity).
  assert (N1 : no_answer [10; 0; 0; 1] (skipn 2 h)).
  { intros z e o [K|[K|[]]]; injection K as <- <- <-; intros (p & t & K & _ & Hip); [ injection K as <- <-; discriminate Hip | discriminate K ]. }
  assert (N2 : no_answer [10; 0; 0; 2] (skipn 3 h)). { intros z e o [K|[]]; injection K as <- <- <-; intros (p & t & K & _ & Hip); discriminate K. }
  assert (X1 : expired (skipn 2 h) (sec 1)). { exists s3. eexists. exists o3. split; [ right; left; reflexivity | ]. intros j. vm_compute. reflexivity. }
  assert (F2 : fresh (skipn 3 h) (sec 5)). { intros z c o [K|[]] j. injection K as <- <- <-. vm_compute. discriminate. }
  split; [ exact R | ]. split; [ exact T1 | ]. split; [ exact T2 | ]. split; [ exact N1 | ]. split; [ exact X1 | ].
  split; [ | split; [ exact N2 | split; [ exact F2 | ] ] ].
  - destruct (proj2 (C90_known _ _ _ [10; 0; 0; 1] R) (firstn 1 h) s1 _ _ o1 (skipn 2 h) eq_refl T1 eq_refl N1) as (cfg & _ & _ & _ & K). exact (K X1).
  - destruct (proj2 (C90_known _ _ _ [10; 0; 0; 2] R) (firstn 2 h) s2 _ _ o2 (skipn 3 h) eq_refl T2 eq_refl N2) as (cfg & _ & _ & K & _). exists cfg. exact (K F2).
Qed.

Definition P_Known_theorems := (C90_known, C90_frames_to_known, C90_wire, C90_run, C90_ex).
Print Assumptions P_Known_theorems.
