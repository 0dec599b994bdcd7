(** Property C113: how long things take: repeated frames, written data, forgotten nodes (controller.go:127-133, 236-288, 368-400). *)
From Verif Require Import SysFacts SysLaws SysRun SysOrder SysScript P_Node P_Controller P_Wire.
From stdpp Require Import base list gmap.
From Verif Require Import P_Known.
Open Scope N_scope.

(** * Specification *)
Definition is_tick (x : Controller * event * list payload) : bool := match x with (_, ETick _ _, _) => true | _ => false end.
Definition no_tick (h : history) : Prop := forall x, In x h -> is_tick x = false.
(** Successive ticks are between lo and hi apart; the clock is past the first 250 ms after Go's zero time. *)
Definition ticks_apart (lo hi : Z) (h : history) : Prop :=
  (forall h1 s0 o0 t0 out0 h2 s1 o1 t1 out1 h3, h = h1 ++ (s0, ETick o0 t0, out0) :: h2 ++ (s1, ETick o1 t1, out1) :: h3 -> no_tick h2 -> (lo <= t1 - t0 <= hi)%Z) /\
  (forall s o t out, In (s, ETick o t, out) h -> (250000000 < t)%Z).
(** Universe a belongs to node n at every tick in h. *)
Definition routed_throughout (n : nid) (a : Address) (h : history) : Prop :=
  forall s o t out, In (s, ETick o t, out) h -> K_OutputAddress s !! a = Some n.
(** No call for universe a was accepted in h. *)
Definition unwritten (a : Address) (h : history) : Prop := forall s d out, In (s, ESend d a, out) h -> accepted s d a = false.
(** From t to now the controller cleans up at least every g: every interval of that length has a whole clean-up in it. *)
Definition cleans_every (g t now : Z) (h : history) : Prop := forall u, (t <= u)%Z -> (u + g <= now)%Z ->
  exists s clock out, In (s, EGc clock, out) h /\ forall j, (u <= clock j <= u + g)%Z.
(** The datagram that carries the 512 values d to universe a with sequence number q (packet/dmx.go:13-37). *)
Definition art_dmx (a : Address) (q : N) (d : list N) : list N :=
  [65; 114; 116; 45; 78; 101; 116; 0; 0x00; 0x50; 0; 14; q; 0; snd a; fst a; 0x02; 0x00] ++ d.

(** * The times of transmissions *)
Ltac assoc := repeat (progress (rewrite <- ?app_assoc; cbn [app])).
Lemma last_tick (h : history) : no_tick h \/ exists h1 s o t out h2, h = h1 ++ (s, ETick o t, out) :: h2 /\ no_tick h2.
Proof.
  induction h as [|[[s e] out] h IH]; [ left; intros x [] | ]. destruct IH as [IH|(h1 & s1 & o & t & out1 & h2 & -> & H)]; [ | right; exists ((s, e, out) :: h1), s1, o, t, out1, h2; auto ].
  destruct e as [p now|clock|d a|o t|]; try (left; intros x [<-|Hx]; [ reflexivity | exact (IH x Hx) ]). right. exists [], s, o, t, out, h. auto.
Qed.
Lemma last_sent_app h1 h2 n a : (forall x, In x h2 -> transmits n a x = false) -> last_sent (h1 ++ h2) n a = last_sent h1 n a.
Proof.
  intros H. unfold last_sent. rewrite fold_left_app. fold (last_sent h1 n a). generalize (last_sent h1 n a) as acc. induction h2 as [|[[s e] out] h2 IH]; intros acc; [ reflexivity | ].
  cbn [fold_left]. destruct e; rewrite ?(H _ (or_introl eq_refl)); apply IH; intros x Hx; apply H; right; exact Hx.
Qed.
Lemma last_sent_at h s o t out n a : transmits n a (s, ETick o t, out) = true -> last_sent (h ++ [(s, ETick o t, out)]) n a = Some t.
Proof. intros H. unfold last_sent. rewrite fold_left_app. cbn [fold_left]. rewrite H. reflexivity. Qed.
Lemma no_tick_sends h n a : no_tick h -> forall x, In x h -> transmits n a x = false.
Proof. intros H [[s e] out] Hx. pose proof (H _ Hx) as K. destruct e; try reflexivity. discriminate K. Qed.

(** * C113 *)
(** Between two frames for a universe of the same node lie at most 250 ms and the longest distance d of two ticks. *)
Theorem C113_frame_gap : forall fps h s lo d n a h1 s1 o1 u out1 h2 s2 o2 v out2 h3, reach fps h s -> ticks_apart lo d h -> (0 <= d)%Z ->
  h = h1 ++ (s1, ETick o1 u, out1) :: h2 ++ (s2, ETick o2 v, out2) :: h3 ->
  transmits n a (s1, ETick o1 u, out1) = true -> (forall x, In x h2 -> transmits n a x = false) -> routed_throughout n a h2 ->
  (v - u <= 250000000 + d)%Z.
Proof.
  intros fps h s lo d n a h1 s1 o1 u out1 h2 s2 o2 v out2 h3 R [T P] Hd -> Hx Hn Hr. destruct (last_tick h2) as [N|(h4 & s4 & o4 & w & out4 & h5 & -> & N)].
  - specialize (T _ _ _ _ _ _ _ _ _ _ _ eq_refl N). lia.
  - assert (Hwv : (lo <= v - w <= d)%Z).
    { apply (T (h1 ++ (s1, ETick o1 u, out1) :: h4) s4 o4 w out4 h5 s2 o2 v out2 h3); [ | exact N ]. assoc; reflexivity. }
    assert (Hw : (250000000 < w)%Z). { apply (P s4 o4 w out4). apply in_or_app. right. right. apply in_or_app. left. apply in_or_app. right. left. reflexivity. }
    pose proof (Hr s4 o4 w out4 ltac:(apply in_or_app; right; left; reflexivity)) as Ha.
    assert (R4 : reach fps ((h1 ++ (s1, ETick o1 u, out1) :: h4) ++ (s4, ETick o4 w, out4) :: (h5 ++ (s2, ETick o2 v, out2) :: h3)) s).
    { revert R. assoc. exact (fun r => r). }
    destruct (reach_prefix _ _ _ _ _ _ _ R4) as (R5 & Ho & s5 & E). cbn [event_ok] in Ho.
    destruct (C48_keep_alive _ _ _ _ _ _ _ R5 Ho E Hw a n Ha) as [(t & Ht & Hle) _].
    assert (X : last_sent ((h1 ++ (s1, ETick o1 u, out1) :: h4) ++ [(s4, ETick o4 w, out4)]) n a = Some u).
    { rewrite <- (last_sent_at h1 s1 o1 u out1 n a Hx).
      replace ((h1 ++ (s1, ETick o1 u, out1) :: h4) ++ [(s4, ETick o4 w, out4)]) with ((h1 ++ [(s1, ETick o1 u, out1)]) ++ (h4 ++ [(s4, ETick o4 w, out4)])) by (assoc; reflexivity).
      apply last_sent_app. intros x Hi. apply Hn. apply in_app_or in Hi. apply in_or_app. destruct Hi as [Hi|[<-|[]]]; [ left; exact Hi | right; left; reflexivity ]. }
    rewrite Ht in X. injection X as ->. lia.
Qed.

Lemma stale_step fps h s e s' out n a : reach fps h s -> event_ok s e -> step s e = Ret (s', out) -> is_tick (s, e, out) = false ->
  B_Stale (pending s n a) = true -> B_Stale (pending s' n a) = true.
Proof.
  intros Hr Ho E Hk Hst. pose proof (reach_inv _ _ _ Hr) as H. destruct e as [p now|clock|dmx b|order now|]; cbn [event_ok] in Ho; [ | | | discriminate Hk | ].
  - cbn [step] in E. destruct (handle_reply_eq s p now Ho) as (cfg & _ & _ & _ & _ & Hok & Eh). rewrite Eh in E.
    destruct (decide (tracked p)); cbn in E; [ | injection E as <- <-; exact Hst ].
    destruct (updateNode_eq s cfg now H) as [(m & cm & Hm & Hcm & Hi & Eu)|(Hn & Eu)]; rewrite Eu in E; cbn in E; injection E as <- <-; unfold pending, stored in *; cbn.
    + destruct (decide (n = m)) as [->|Hne]; [ rewrite lookup_insert; rewrite Hcm in Hst; exact Hst | rewrite lookup_insert_ne by congruence; exact Hst ].
    + rewrite lookup_insert_ne; [ exact Hst | ]. intros <-. destruct (K_heap s !! K_next s) as [cn|] eqn:Ex; [ apply (inv_next s H) in Ex; lia | discriminate Hst ].
  - cbn [step] in E. destruct (gcNode_eq s clock H) as (s1 & k & Eg & C). rewrite Eg in E. cbn in E. injection E as <- <-. unfold pending, stored in *. rewrite (col_heap _ _ _ _ _ C). exact Hst.
  - cbn [step] in E. destruct (K_OutputAddress s !! b) as [m|] eqn:Eb.
    2:{ rewrite (C43_send_unrouted s dmx b Eb) in *. cbn in E. injection E as <- <-. exact Hst. }
    destruct (stored s m b) as [bf|] eqn:Est.
    + destruct (C43_send_routed s dmx b m bf Eb Est) as (s1 & E1 & _ & S1 & S2). rewrite E1 in *. cbn in E. injection E as <- <-.
      destruct (decide ((n, a) = (m, b))) as [[= -> ->]|Hd]; unfold pending in *; [ rewrite S1; reflexivity | rewrite S2 by exact Hd; exact Hst ].
    + destruct (C43_send_without_buffer fps h s dmx b m Hr Eb Est) as (s1 & E1 & _ & S2). rewrite E1 in *. cbn in E. injection E as <- <-. unfold pending in *. rewrite S2. exact Hst.
  - cbn in E. injection E as <- <-. exact Hst.
Qed.
Lemma stale_written fps h s0 d a out s1 n : reach fps h s0 -> step s0 (ESend d a) = Ret (s1, out) -> K_OutputAddress s0 !! a = Some n -> accepted s0 d a = true -> B_Stale (pending s1 n a) = true.
Proof.
  intros R E Ha Hacc. unfold accepted in Hacc. cbn [step] in E. destruct (stored s0 n a) as [bf|] eqn:Est.
  - destruct (C43_send_routed s0 d a n bf Ha Est) as (s2 & E1 & _ & S1 & _). rewrite E1 in E. cbn in E. injection E as <- <-. unfold pending. rewrite S1. reflexivity.
  - destruct (C43_send_without_buffer fps h s0 d a n R Ha Est) as (s2 & E1 & _). rewrite E1 in Hacc. discriminate Hacc.
Qed.
Lemma stale_until_tick fps h1 s0 d a out0 n h2 : forall s, reach fps (h1 ++ (s0, ESend d a, out0) :: h2) s -> K_OutputAddress s0 !! a = Some n -> accepted s0 d a = true -> no_tick h2 ->
  B_Stale (pending s n a) = true.
Proof.
  induction h2 as [|x h2 IH] using rev_ind; intros s R Ha Hacc N; inversion R as [E|h s3 e s4 o R0 Ho Es E]; try (destruct h1; discriminate E).
  - apply app_inj_tail in E. destruct E as [-> [= -> -> ->]]. eapply stale_written; eassumption.
  - change (h1 ++ (s0, ESend d a, out0) :: h2 ++ [x]) with (h1 ++ ((s0, ESend d a, out0) :: h2) ++ [x]) in E. rewrite app_assoc in E. apply app_inj_tail in E. destruct E as [-> <-].
    eapply stale_step; [ exact R0 | exact Ho | exact Es | apply N; apply in_or_app; right; left; reflexivity | ]. apply IH; try assumption. intros y Hy. apply N. apply in_or_app. left. exact Hy.
Qed.
Lemma last_write_kept h1 s0 d a out0 n h2 : K_OutputAddress s0 !! a = Some n -> accepted s0 d a = true -> unwritten a h2 -> last_write (h1 ++ (s0, ESend d a, out0) :: h2) n a = d.
Proof.
  intros Ha Hacc U. unfold last_write. rewrite fold_left_app. cbn [fold_left]. rewrite Hacc. rewrite bool_decide_true by auto. cbn [andb].
  revert U. induction h2 as [|[[s e] out] h2 IH]; intros U; [ reflexivity | ]. cbn [fold_left]. replace (match e with ESend d0 b => _ | _ => d end) with d; [ apply IH; intros s1 d1 o1 Hi; apply (U s1 d1 o1); right; exact Hi | ].
  destruct e as [| |d1 b| |]; try reflexivity. destruct (bool_decide_reflect (b = a /\ K_OutputAddress s !! a = Some n)) as [[-> _]|_]; [ | reflexivity ]. rewrite (U s d1 out (or_introl eq_refl)). reflexivity.
Qed.
(** Written data leaves with the very next tick, if ticks come no closer than the period of MaxFPS(fps) with fps at most 31622: the accepted call's 512 values, to the
    node that has the universe, once no newer data were accepted. *)
Theorem C113_written_next_tick_partial : forall fps h s per hi h1 s0 d a out0 h2 s1 o1 now out1 h3 n, reach fps h s -> (1 <= fps <= 31622)%Z ->
  ticker_period (NewController fps) = Ret per -> ticks_apart per hi h ->
  h = h1 ++ (s0, ESend d a, out0) :: h2 ++ (s1, ETick o1 now, out1) :: h3 ->
  K_OutputAddress s0 !! a = Some n -> accepted s0 d a = true -> no_tick h2 -> unwritten a h2 -> K_OutputAddress s1 !! a = Some n ->
  exists cn q, K_heap s1 !! n = Some cn /\ ((C_IP (CN_Node cn), 6454), art_dmx a q d) ∈ out1.
Proof.
  intros fps h s per hi h1 s0 d a out0 h2 s1 o1 now out1 h3 n R Hf Hper [T P] -> Ha Hacc N U Ha1.
  destruct (C52_no_crash_partial fps ltac:(lia)) as (per' & Hper' & Hpos & Hlo & Hhi). rewrite Hper in Hper'. injection Hper' as <-.
  assert (Hgap : (fps < per)%Z) by nia.
  change (h1 ++ (s0, ESend d a, out0) :: h2 ++ (s1, ETick o1 now, out1) :: h3) with (h1 ++ ((s0, ESend d a, out0) :: h2) ++ (s1, ETick o1 now, out1) :: h3) in R. rewrite app_assoc in R.
  destruct (reach_prefix _ _ _ _ _ _ _ R) as (R1 & Ho & s2 & E). cbn [event_ok] in Ho. pose proof (reach_inv _ _ _ R1) as HI.
  pose proof (stale_until_tick _ _ _ _ _ _ _ _ _ R1 Ha Hacc N) as Hst. pose proof (last_write_kept h1 s0 d a out0 n h2 Ha Hacc U) as Hlw.
  pose proof (data_inv _ _ _ R1 n a) as Hd. rewrite Hlw in Hd.
  assert (D : is_due s1 now (a, n) = true).
  { unfold is_due. cbn [fst snd]. rewrite Hst, (lastupdate_inv _ _ _ R1 n a), (reach_fps _ _ _ R1). apply orb_true_iff. left. apply andb_true_iff. split; [ reflexivity | ]. apply Z.ltb_lt.
    assert (Hnow : (250000000 < now)%Z). { apply (P s1 o1 now out1). apply in_or_app. right. right. apply in_or_app. right. left. reflexivity. }
    rewrite last_sent_app; [ | intros x [<-|Hx]; [ reflexivity | exact (no_tick_sends h2 n a N x Hx) ] ].
    destruct (last_sent h1 n a) as [t|] eqn:El; cbn [default]; [ | cbn; lia ]. unfold id.
    destruct (last_tick h1) as [N1|(h4 & s4 & o4 & w & out4 & h5 & -> & N1)].
    - destruct (last_sent_tick _ _ _ _ El) as (x & y & z & Hi). specialize (N1 _ Hi). discriminate N1.
    - assert (Hw : (per <= now - w)%Z).
      { apply (T h4 s4 o4 w out4 (h5 ++ (s0, ESend d a, out0) :: h2) s1 o1 now out1 h3); [ assoc; reflexivity | ].
        intros x Hx. apply in_app_or in Hx. destruct Hx as [Hx|[<-|Hx]]; [ exact (N1 x Hx) | reflexivity | exact (N x Hx) ]. }
      assert (Hm : forall k, (k ≤ length h4)%nat -> forall s5 o5 t5 out5, In (s5, ETick o5 t5, out5) (drop (length h4 - k) h4) -> (t5 <= w)%Z).
      { induction k as [|k IHk]; intros Hk s5 o5 t5 out5 Hi; [ rewrite Nat.sub_0_r, drop_all in Hi; destruct Hi | ].
        destruct (lookup_lt_is_Some_2 h4 (length h4 - S k)) as [x Hx]; [ lia | ]. rewrite (drop_S h4 x _ Hx) in Hi. replace (S (length h4 - S k)) with (length h4 - k)%nat in Hi by lia.
        destruct Hi as [->|Hi]; [ | exact (IHk ltac:(lia) _ _ _ _ Hi) ].
        pose proof (take_drop_middle h4 _ _ Hx) as Hh. replace (S (length h4 - S k)) with (length h4 - k)%nat in Hh by lia.
        set (g := drop (length h4 - k) h4) in *. assert (Hall : forall s6 o6 t6 out6, In (s6, ETick o6 t6, out6) g -> (t6 <= w)%Z) by (intros; eapply IHk; [ lia | eassumption ]).
        clearbody g. clear IHk Hx.
        assert (F : no_tick g \/ exists g1 s6 o6 t6 out6 g2, g = g1 ++ (s6, ETick o6 t6, out6) :: g2 /\ no_tick g1).
        { clear. induction g as [|[[s e] out] g IH]; [ left; intros x [] | ]. destruct e as [| | |o t|]; try (destruct IH as [IH|(g1 & s6 & o6 & t6 & out6 & g2 & -> & H)]; [ left; intros x [<-|Hx]; [ reflexivity | exact (IH x Hx) ] |
            right; eexists (_ :: g1), s6, o6, t6, out6, g2; split; [ reflexivity | intros x [<-|Hx]; [ reflexivity | exact (H x Hx) ] ] ]). right. exists [], s, o, t, out, g. split; [ reflexivity | intros x [] ]. }
        destruct F as [F|(g1 & s6 & o6 & t6 & out6 & g2 & -> & F)].
        - assert (per <= w - t5)%Z; [ | lia ]. refine (proj1 (T (take (length h4 - S k) h4) s5 o5 t5 out5 g s4 o4 w out4 (h5 ++ (s0, ESend d a, out0) :: h2 ++ (s1, ETick o1 now, out1) :: h3) _ F)). rewrite <- Hh at 1. assoc. reflexivity.
        - assert (per <= t6 - t5)%Z; [ | specialize (Hall s6 o6 t6 out6 ltac:(apply in_or_app; right; left; reflexivity)); lia ].
          refine (proj1 (T (take (length h4 - S k) h4) s5 o5 t5 out5 g1 s6 o6 t6 out6 (g2 ++ (s4, ETick o4 w, out4) :: h5 ++ (s0, ESend d a, out0) :: h2 ++ (s1, ETick o1 now, out1) :: h3) _ F)). rewrite <- Hh at 1. assoc; reflexivity. }
      destruct (last_sent_tick _ _ _ _ El) as (x & y & z & Hi). apply in_app_or in Hi. destruct Hi as [Hi|[Hi|Hi]].
      + specialize (Hm (length h4) ltac:(lia) x y t z). rewrite Nat.sub_diag in Hm. specialize (Hm Hi). lia.
      + injection Hi as _ _ <- _. lia.
      + specialize (N1 _ Hi). discriminate N1. }
  destruct (inv_out s1 HI a n Ha1) as [_ (cn & Hc & _)]. exists cn. destruct (tick_exact s1 o1 now HI Ho) as (s3 & E3 & _). cbn [step] in E. rewrite E3 in E. injection E as _ <-.
  rewrite (tick_frames_is s1 now o1 (routed_heap s1 o1 HI Ho)).
  destruct (zip_with_elem_l (fun x q => (snd x, dmx_frame s1 x q)) (List.filter (is_due s1 now) o1) (seqs s1 [] (List.filter (is_due s1 now) o1)) (a, n)) as [q Hq].
  { apply seqs_length. } { apply elem_of_list_In, filter_In. split; [ apply elem_of_list_In, (proj1 (order_routed s1 o1 Ho)); exact Ha1 | exact D ]. }
  exists q. split; [ exact Hc | ]. apply elem_of_list_fmap. eexists. split; [ | exact Hq ]. cbn [fst snd]. unfold dmx_frame, art_dmx, ip_of. cbn [fst snd]. rewrite Hc, Hd. reflexivity.
Qed.
(** Refuted: with MaxFPS(31623) the data of an accepted call are not in the next tick although the ticks are exactly one period apart. *)
Definition too_fast : list cmd := [Start; Reply (one_port 1 7) (sec 1); Tick (sec 2); Send (repeat 255 512) (0, 7); Tick (sec 2 + 31622)%Z].
Theorem C113_written_next_tick_refuted : exists h1 s0 s1 o1 out0 out1 s, reach 31623 (h1 ++ [(s0, ESend (repeat 255 512) (0, 7), out0); (s1, ETick o1 (sec 2 + 31622)%Z, out1)]) s /\
  ticker_period (NewController 31623) = Ret 31622%Z /\ last_sent h1 0 (0, 7) = Some (sec 2) /\ K_OutputAddress s0 !! (0, 7) = Some 0 /\ accepted s0 (repeat 255 512) (0, 7) = true /\ K_OutputAddress s1 !! (0, 7) = Some 0 /\ out1 = [].
Proof.
  assert (Hok : Forall cmd_ok too_fast) by (unfold too_fast; cmds_ok).
  assert (T : match drive (NewController 31623) too_fast with
    | Ret (s, [x1; x2; x3; (s0, ESend d0 a0, out0); (s1, ETick o1 t1, out1)]) => bool_decide (d0 = repeat 255 512 /\ a0 = (0, 7) /\ t1 = (sec 2 + 31622)%Z /\ last_sent [x1; x2; x3] 0 (0, 7) = Some (sec 2) /\ K_OutputAddress s0 !! (0, 7) = Some 0 /\
        accepted s0 (repeat 255 512) (0, 7) = true /\ K_OutputAddress s1 !! (0, 7) = Some 0 /\ out1 = [])
    | _ => false end = true) by (vm_compute; reflexivity).
  destruct (drive (NewController 31623) too_fast) as [[s h]|] eqn:Ed; [ | discriminate T ]. pose proof (drive_reach 31623 _ [] _ _ _ (reach_init 31623) Hok Ed) as R. cbn [app] in R.
  destruct h as [|x1 [|x2 [|x3 [|[[s0 e0] out0] h]]]]; try discriminate T. destruct e0 as [| |d0 a0| |]; try discriminate T. destruct h as [|[[s1 e1] out1] h]; try discriminate T.
  destruct e1 as [| | |o1 t1|]; try discriminate T. destruct h; [ | discriminate T ]. apply bool_decide_eq_true in T. destruct T as (-> & -> & -> & T1 & T2 & T3 & T4 & T5).
  exists [x1; x2; x3], s0, s1, o1, out0, out1, s. split; [ exact R | ]. split; [ reflexivity | auto ].
Qed.

(** A node that answers no more is forgotten at the latest g + 7 s after its last answer, if the controller cleans up every g; not before 7 s. *)
Theorem C113_forgotten : forall fps h s ip h1 s0 p t out h2 g now, reach fps h s -> h = h1 ++ (s0, EReply p t, out) :: h2 -> tracked p -> PollReply_IPAddress p = ip -> no_answer ip h2 -> (0 <= g)%Z ->
  (cleans_every g t now h2 -> (t + 7000000000 + g < now)%Z -> unknown s ip /\ (forall a n cn, K_OutputAddress s !! a = Some n -> K_heap s !! n = Some cn -> C_IP (CN_Node cn) <> ip)) /\
  ((forall s1 clock out1, In (s1, EGc clock, out1) h2 -> forall j, (clock j <= now)%Z) -> (now <= t + 7000000000)%Z -> exists cfg, ConfigFromArtPollReply p = Ret cfg /\ knows s ip cfg t).
Proof.
  intros fps h s ip h1 s0 p t out h2 g now R Hh Ht Hip N Hg. destruct (proj2 (C90_known _ _ _ ip R) h1 s0 p t out h2 Hh Ht Hip N) as (cfg & Ec & _ & Kf & Ke). split.
  - intros C Hnow. destruct (C (t + 7000000001)%Z ltac:(lia) ltac:(lia)) as (s1 & clock & out1 & Hi & Hj).
    assert (U : unknown s ip). { apply Ke. exists s1, clock, out1. split; [ exact Hi | ]. intros j. specialize (Hj j). lia. }
    split; [ exact U | ]. intros a n cn Ha Hc. destruct (C41_routing_never_dangles _ _ _ R) as [D _]. destruct (D a n Ha) as (Hn & _). exact (U n cn Hn Hc).
  - intros C Hnow. exists cfg. split; [ exact Ec | ]. apply Kf. intros s1 clock out1 Hi j. specialize (C s1 clock out1 Hi j). lia.
Qed.
(** The same for the tables of a controller in any run of its goroutines. *)
Theorem C113_run : forall E ls y tr lo d n a h1 s1 o1 u out1 h2 s2 o2 v out2 h3, runs E ls y tr -> ticks_apart lo d (hist tr) -> (0 <= d)%Z ->
  hist tr = h1 ++ (s1, ETick o1 u, out1) :: h2 ++ (s2, ETick o2 v, out2) :: h3 ->
  transmits n a (s1, ETick o1 u, out1) = true -> (forall x, In x h2 -> transmits n a x = false) -> routed_throughout n a h2 ->
  (v - u <= 250000000 + d)%Z.
Proof. intros E ls y tr lo d n a h1 s1 o1 u out1 h2 s2 o2 v out2 h3 R. exact (C113_frame_gap _ _ _ lo d n a h1 s1 o1 u out1 h2 s2 o2 v out2 h3 (ok_reach _ _ _ (sys_shared _ _ _ (runs_ok _ _ _ _ R)))). Qed.
Theorem C113_run_forgotten : forall E ls y tr ip h1 s0 p t out h2 g now, runs E ls y tr -> hist tr = h1 ++ (s0, EReply p t, out) :: h2 -> tracked p -> PollReply_IPAddress p = ip -> no_answer ip h2 -> (0 <= g)%Z ->
  (cleans_every g t now h2 -> (t + 7000000000 + g < now)%Z -> unknown (S_tables (Y_sh y)) ip) /\
  ((forall s1 clock out1, In (s1, EGc clock, out1) h2 -> forall j, (clock j <= now)%Z) -> (now <= t + 7000000000)%Z -> exists cfg, ConfigFromArtPollReply p = Ret cfg /\ knows (S_tables (Y_sh y)) ip cfg t).
Proof.
  intros E ls y tr ip h1 s0 p t out h2 g now R Hh Ht Hip N Hg. destruct (C113_forgotten _ _ _ ip h1 s0 p t out h2 g now (ok_reach _ _ _ (sys_shared _ _ _ (runs_ok _ _ _ _ R))) Hh Ht Hip N Hg) as [H1 H2].
  split; [ intros C Hn; exact (proj1 (H1 C Hn)) | exact H2 ].
Qed.

(** * Examples *)
Fixpoint apartb (lo hi : Z) (last : option Z) (h : history) : bool :=
  match h with
  | [] => true
  | (_, ETick _ t, _) :: h => (250000000 <? t)%Z && match last with Some t0 => (lo <=? t - t0)%Z && (t - t0 <=? hi)%Z | None => true end && apartb lo hi (Some t) h
  | _ :: h => apartb lo hi last h
  end.
Lemma apartb_ok lo hi h : forall last, apartb lo hi last h = true -> ticks_apart lo hi h /\
  (forall t0, last = Some t0 -> forall h2 s1 o1 t1 out1 h3, h = h2 ++ (s1, ETick o1 t1, out1) :: h3 -> no_tick h2 -> (lo <= t1 - t0 <= hi)%Z).
Proof.
  induction h as [|[[s e] out] h IH]; intros last H.
  - split; [ split; [ intros h1 s0 o0 t0 out0 h2 s1 o1 t1 out1 h3 E; destruct h1; discriminate E | intros ? ? ? ? [] ] | intros t0 _ h2 s1 o1 t1 out1 h3 E; destruct h2; discriminate E ].
  - assert (D : (exists o t, e = ETick o t) \/ (is_tick (s, e, out) = false /\ apartb lo hi last h = true)) by (destruct e; try (right; split; [ reflexivity | exact H ]); left; eauto).
    destruct D as [(o & t & ->)|[Hk H']].
    + cbn [apartb] in H. rewrite !andb_true_iff in H. destruct H as [[H1 H2] H3]. apply Z.ltb_lt in H1. destruct (IH _ H3) as [[A B] C]. split; [ split | ].
      * intros [|x h1] s0 o0 t0 out0 h2 s1 o1 t1 out1 h3 E N; cbn [app] in E; [ injection E as _ _ -> _ E | injection E as _ E ]; [ exact (C _ eq_refl _ _ _ _ _ _ E N) | exact (A _ _ _ _ _ _ _ _ _ _ _ E N) ].
      * intros s1 o1 t1 out1 [K|K]; [ injection K as _ _ <- _; exact H1 | exact (B _ _ _ _ K) ].
      * intros t0 -> [|x h2] s1 o1 t1 out1 h3 E N; cbn [app] in E; [ injection E as _ _ <- _ _; apply andb_true_iff in H2; lia | ]. injection E as <- _. specialize (N _ (or_introl eq_refl)). discriminate N.
    + destruct (IH _ H') as [[A B] C]. split; [ split | ].
      * intros [|x h1] s0 o0 t0 out0 h2 s1 o1 t1 out1 h3 E N; cbn [app] in E; [ injection E as _ -> _ _; discriminate Hk | injection E as _ E; exact (A _ _ _ _ _ _ _ _ _ _ _ E N) ].
      * intros s1 o1 t1 out1 [K|K]; [ injection K as _ -> _; discriminate Hk | exact (B _ _ _ _ K) ].
      * intros t0 Hl [|x h2] s1 o1 t1 out1 h3 E N; cbn [app] in E; [ injection E as _ -> _ _; discriminate Hk | ]. injection E as _ E. apply (C _ Hl h2 s1 o1 t1 out1 h3 E). intros z Hz. apply N. right. exact Hz.
Qed.
(** Ticks 200 ms apart, nothing written: frames at 2 s and 2.4 s. *)
Definition idle_ticks : list cmd := [Start; Reply (one_port 1 7) (sec 1); Tick (sec 2); Tick 2200000000%Z; Tick 2400000000%Z].
Lemma idle_ticks_ok : Forall cmd_ok idle_ticks.
Proof. unfold idle_ticks. cmds_ok. Qed.
Example C113_ex : exists s h1 x1 x2 x3, reach 1000 (h1 ++ [x1; x2; x3]) s /\ ticks_apart 200000000 200000000 (h1 ++ [x1; x2; x3]) /\ map is_tick [x1; x2; x3] = [true; true; true] /\ map (transmits 0 (0, 7)) [x1; x2; x3] = [true; false; true].
Proof.
  destruct (test_reach idle_ticks (fun s h => apartb 200000000 200000000 None h && match h with [y1; y2; x1; x2; x3] => bool_decide (map is_tick [x1; x2; x3] = [true; true; true] /\ map (transmits 0 (0, 7)) [x1; x2; x3] = [true; false; true]) | _ => false end) idle_ticks_ok)
    as (s & h & R & T); [ vm_compute; reflexivity | ]. apply andb_true_iff in T. destruct T as [T1 T2]. pose proof (proj1 (apartb_ok _ _ _ _ T1)) as A.
  destruct h as [|y1 [|y2 [|x1 [|x2 [|x3 [|]]]]]]; try discriminate T2. apply bool_decide_eq_true in T2. exists s, [y1; y2], x1, x2, x3. auto.
Qed.
(** MaxFPS(1000), ticks 1 ms apart: what is written between two ticks goes out with the second. *)
Definition write_between : list cmd := [Start; Reply (one_port 1 7) (sec 1); Tick (sec 2); Send (repeat 255 512) (0, 7); Tick 2001000000%Z].
Lemma write_between_ok : Forall cmd_ok write_between.
Proof. unfold write_between. cmds_ok. Qed.
Example C113_written_ex : exists s h1 s0 out0 s1 o1 out1, reach 1000 (h1 ++ (s0, ESend (repeat 255 512) (0, 7), out0) :: [] ++ [(s1, ETick o1 2001000000%Z, out1)]) s /\ ticker_period (NewController 1000) = Ret 1000000%Z /\
  ticks_apart 1000000 1000000 (h1 ++ (s0, ESend (repeat 255 512) (0, 7), out0) :: [] ++ [(s1, ETick o1 2001000000%Z, out1)]) /\ K_OutputAddress s0 !! (0, 7) = Some 0 /\ accepted s0 (repeat 255 512) (0, 7) = true /\ K_OutputAddress s1 !! (0, 7) = Some 0 /\
  out1 = [(([10; 0; 0; 1], 6454), art_dmx (0, 7) 2 (repeat 255 512))].
Proof.
  destruct (test_reach write_between (fun s h => apartb 1000000 1000000 None h && match h with [x1; x2; x3; (s0, ESend d0 a0, out0); (s1, ETick o1 t1, out1)] => bool_decide (d0 = repeat 255 512 /\ a0 = (0, 7) /\ t1 = 2001000000%Z /\ K_OutputAddress s0 !! (0, 7) = Some 0 /\
    accepted s0 (repeat 255 512) (0, 7) = true /\ K_OutputAddress s1 !! (0, 7) = Some 0 /\ out1 = [(([10; 0; 0; 1], 6454), art_dmx (0, 7) 2 (repeat 255 512))]) | _ => false end) write_between_ok)
    as (s & h & R & T); [ vm_compute; reflexivity | ]. apply andb_true_iff in T. destruct T as [T1 T]. pose proof (proj1 (apartb_ok _ _ _ _ T1)) as A.
  destruct h as [|x1 [|x2 [|x3 [|[[s0 e0] out0] h]]]]; try discriminate T. destruct e0 as [| |d0 a0| |]; try discriminate T. destruct h as [|[[s1 e1] out1] h]; try discriminate T.
  destruct e1 as [| | |o1 t1|]; try discriminate T. destruct h; [ | discriminate T ]. apply bool_decide_eq_true in T. destruct T as (-> & -> & -> & T2 & T3 & T4 & T5).
  exists s, [x1; x2; x3], s0, out0, s1, o1, out1. cbn [app]. split; [ exact R | ]. split; [ reflexivity | auto ].
Qed.
(** An answer at 1 s, clean-ups at 3, 6, 9 and 12 s: by 12.5 s the node is forgotten. *)
Example C113_forgotten_ex : exists s h1 s0 out h2, reach 1000 (h1 ++ (s0, EReply (one_port 1 7) (sec 1), out) :: h2) s /\ tracked (one_port 1 7) /\ no_answer [10; 0; 0; 1] h2 /\ cleans_every 4000000000 (sec 1) 12500000000 h2.
Proof.
  pose proof (reach_init 1000) as R0. set (s0 := NewController 1000) in R0.
  destruct (C40_events_never_panic _ _ _ EStart R0 I) as (s1 & o0 & E0). pose proof (reach_step _ _ _ EStart _ _ R0 I E0) as R1.
  assert (W1 : wf_PollReply (one_port 1 7)) by (apply one_port_wf; unfold byte_ok; lia). assert (T1 : tracked (one_port 1 7)) by (left; reflexivity).
  destruct (C40_events_never_panic _ _ _ (EReply (one_port 1 7) (sec 1)) R1 W1) as (s2 & o1 & E1). pose proof (reach_step _ _ _ (EReply (one_port 1 7) (sec 1)) _ _ R1 W1 E1) as R2.
  destruct (C40_events_never_panic _ _ _ (EGc (fun _ => sec 3)%Z) R2 I) as (s3 & o2 & E2). pose proof (reach_step _ _ _ (EGc (fun _ => sec 3)%Z) _ _ R2 I E2) as R3.
  destruct (C40_events_never_panic _ _ _ (EGc (fun _ => sec 6)%Z) R3 I) as (s4 & o3 & E3). pose proof (reach_step _ _ _ (EGc (fun _ => sec 6)%Z) _ _ R3 I E3) as R4.
  destruct (C40_events_never_panic _ _ _ (EGc (fun _ => sec 9)%Z) R4 I) as (s5 & o4 & E4). pose proof (reach_step _ _ _ (EGc (fun _ => sec 9)%Z) _ _ R4 I E4) as R5.
  destruct (C40_events_never_panic _ _ _ (EGc (fun _ => sec 12)%Z) R5 I) as (s6 & o5 & E5). pose proof (reach_step _ _ _ (EGc (fun _ => sec 12)%Z) _ _ R5 I E5) as R. cbn [app] in R.
  exists s6. eexists [_], s1, o1, [_; _; _; _]. cbn [app]. split; [ exact R | ]. split; [ exact T1 | ]. split.
  - intros z e o [K|[K|[K|[K|[]]]]]; injection K as <- <- <-; intros (p & t & K & _); discriminate K.
  - intros u H1 H2. unfold sec in *. destruct (Z.le_gt_cases u 3000000000); [ | destruct (Z.le_gt_cases u 6000000000); [ | destruct (Z.le_gt_cases u 9000000000) ] ]; do 3 eexists;
      [ split; [ left; reflexivity | ] | split; [ right; left; reflexivity | ] | split; [ right; right; left; reflexivity | ] | split; [ right; right; right; left; reflexivity | ] ]; intros j; cbn beta; lia.
Qed.

Definition P_Deadlines_theorems := (C113_frame_gap, C113_written_next_tick_partial, C113_written_next_tick_refuted, C113_forgotten, C113_run, C113_run_forgotten, C113_ex, C113_written_ex, C113_forgotten_ex).
Print Assumptions P_Deadlines_theorems.
