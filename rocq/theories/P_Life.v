(** C61-C63, C66, C72: starting and stopping, in every run of the interleaving semantics of Sys.v. *)
From Verif Require Import WireSpec P_Config P_Controller SysFacts SysLaws SysRun SysOrder SysScript P_Node.
From stdpp Require Import base list gmap.
Open Scope N_scope.

(** * Lives: runs in which Start and Stop are used in turn *)
(** Start is only called on a node that is not running, Stop only after Start succeeded, and calls do not
    overlap. *)
Inductive phase := Idle | Starting | Up | Stopping.
Definition call (ph : phase) (l : label) : option phase :=
  match l, ph with
  | LStart, Idle => Some Starting
  | LStart, _ => None
  | LStop, Up => Some Stopping
  | LStop, _ => None
  | _, _ => Some ph
  end.
Definition answer (ph : phase) (o : obs) : phase :=
  match o with OStart true => Up | OStart false => Idle | OStop => Idle | _ => ph end.
(** [allow] restricts the steps further. *)
Inductive life (E : env) (allow : sys -> label -> Prop) : list label -> sys -> list obs -> phase -> Prop :=
| life_nil : life E allow [] (init E) [] Idle
| life_snoc ls y tr ph l ph1 y' o : life E allow ls y tr ph -> allow y l -> label_ok l -> call ph l = Some ph1 ->
    exec E y l = RNext y' o -> life E allow (ls ++ [l]) y' (tr ++ o) (fold_left answer o ph1).
Definition any (y : sys) (l : label) : Prop := True.

Lemma life_runs E allow ls y tr ph : life E allow ls y tr ph -> runs E ls y tr.
Proof. induction 1; [ constructor | econstructor; eassumption ]. Qed.
Lemma life_any E allow ls y tr ph : life E allow ls y tr ph -> life E any ls y tr ph.
Proof. induction 1; econstructor; try eassumption. exact I. Qed.

Definition gen_open (s : shared) : Prop := exists g, last_index (S_gens s) = Some g /\ gen_closed s g = false.
Definition cgen_open (s : shared) : Prop := exists g, last_index (S_cgens s) = Some g /\ flag_at (S_cgens s) g = false.
Definition stage (E : env) (s : shared) (t : thread) : Prop :=
  match t with
  | U_start_node => E_ctl E = true -> cgen_open s
  | U_listen => gen_open s /\ (E_ctl E = true -> cgen_open s)
  | U_start_loops => gen_open s /\ (E_ctl E = true -> cgen_open s)
  | U_stop_ctl => gen_open s /\ (E_ctl E = true -> cgen_open s) /\ S_tickers s = true
  | U_flag => gen_open s /\ (E_ctl E = true -> cgen_open s)
  | U_close => gen_open s /\ (E_ctl E = true -> cgen_open s) /\ S_shutdown s = true
  | U_closeconn | U_waitclosed | U_closectl => (E_ctl E = true -> cgen_open s) /\ S_shutdown s = true
  | _ => True
  end.
Record tidy (E : env) (y : sys) (ph : phase) : Prop := {
  td_starting : sum_list_with w_starting (Y_threads y) = match ph with Starting => 1%nat | _ => 0%nat end;
  td_stopping : sum_list_with is_stopping (Y_threads y) = match ph with Stopping => 1%nat | _ => 0%nat end;
  td_stage : Forall (stage E (Y_sh y)) (Y_threads y);
  td_up : ph = Up -> gen_open (Y_sh y) /\ (E_ctl E = true -> cgen_open (Y_sh y) /\ S_tickers (Y_sh y) = true);
}.
Definition is_api (t : thread) : nat := (w_starting t + is_stopping t)%nat.

Lemma gen_closed_upd s g ch ch' g' : S_gens s !! g = Some ch -> Q_closed ch' = Q_closed ch -> gen_closed (upd_gen s g ch') g' = gen_closed s g'.
Proof.
  intros H E. unfold gen_closed, upd_gen. cbn. destruct (Nat.eq_dec g g') as [->|Hn].
  - rewrite list_lookup_insert by (eapply lookup_lt_Some; exact H). rewrite H. exact E.
  - rewrite list_lookup_insert_ne by exact Hn. reflexivity.
Qed.
Lemma gen_open_upd s g ch ch' : S_gens s !! g = Some ch -> Q_closed ch' = Q_closed ch -> gen_open s -> gen_open (upd_gen s g ch').
Proof.
  intros H E (g0 & H1 & H2). exists g0. rewrite (gen_closed_upd _ _ _ _ _ H E). split; [ | exact H2 ].
  unfold last_index, upd_gen in *. cbn. rewrite insert_length. exact H1.
Qed.
(** Steps of the goroutines do not concern the life cycle. *)
Lemma other_step E s t c s' t' sp o : is_api t = 0%nat -> tstep E s t c = Next s' t' sp o ->
  is_api t' = 0%nat /\ sum_list_with is_api sp = 0%nat /\ (forall ph, fold_left answer o ph = ph) /\
  (gen_open s -> gen_open s') /\ S_cgens s' = S_cgens s /\ S_tickers s' = S_tickers s /\ S_shutdown s' = S_shutdown s /\ S_conns s' = S_conns s.
Proof.
  intros Ha H. tcases H; try discriminate Ha; repeat split; try (intros K; exact K);
    try (intros K; eapply gen_open_upd; [ eassumption | reflexivity | exact K ]).
Qed.
Lemma stage_other E s s' u : (gen_open s -> gen_open s') -> S_cgens s' = S_cgens s -> S_tickers s' = S_tickers s -> S_shutdown s' = S_shutdown s ->
  stage E s u -> stage E s' u.
Proof. intros H1 H2 H3 H4 H. unfold cgen_open in *. destruct u; cbn [stage] in *; unfold cgen_open in *; rewrite ?H2, ?H3, ?H4; intuition. Qed.
Lemma stage_idle E s u : is_api u = 0%nat -> stage E s u.
Proof. destruct u; cbn; intros; try exact I; discriminate. Qed.
Lemma last_app {A} (l : list A) x : last_index (l ++ [x]) = Some (length l).
Proof. unfold last_index. rewrite app_length. cbn. rewrite Nat.add_1_r. reflexivity. Qed.
Lemma gen_open_new s b : gen_open (with_shutdown (with_gens s (S_gens s ++ [new_chans])) b).
Proof. exists (length (S_gens s)). cbn. rewrite last_app. split; [ reflexivity | ]. unfold gen_closed. cbn. rewrite list_lookup_middle by reflexivity. reflexivity. Qed.
Lemma cgen_open_new l : exists g, last_index (l ++ [false]) = Some g /\ flag_at (l ++ [false]) g = false.
Proof. exists (length l). rewrite last_app. split; [ reflexivity | ]. unfold flag_at. rewrite list_lookup_middle by reflexivity. reflexivity. Qed.

(** Steps of Start and Stop. *)
Lemma api_step E s t c s' t' sp o : stage E s t -> t_refs E s t -> tstep E s t c = Next s' t' sp o ->
  sum_list_with is_api sp = 0%nat /\ stage E s' t' /\
  (w_starting t = 1%nat -> (w_starting t' = 1%nat /\ is_stopping t' = 0%nat /\ (forall ph, fold_left answer o ph = ph)) \/
     (is_api t' = 0%nat /\ (forall ph, fold_left answer o ph = Idle)) \/
     (is_api t' = 0%nat /\ (forall ph, fold_left answer o ph = Up) /\ gen_open s' /\ (E_ctl E = true -> cgen_open s' /\ S_tickers s' = true))) /\
  (is_stopping t = 1%nat -> (is_stopping t' = 1%nat /\ w_starting t' = 0%nat /\ (forall ph, fold_left answer o ph = ph)) \/
     (is_api t' = 0%nat /\ (forall ph, fold_left answer o ph = Idle))).
Proof.
  intros Hst Hr H. tcases H; cbn [stage t_refs w_starting is_stopping] in *.
  all: split; [ reflexivity | ].
  all: split; [ try exact I | split; [ intros W; try discriminate W | intros W; try discriminate W ] ].
  all: try (left; split; [ reflexivity | split; [ reflexivity | reflexivity ] ]).
  all: try (right; split; [ reflexivity | reflexivity ]).
  all: try (right; left; split; [ reflexivity | reflexivity ]).
  - (* U_start_ctl *) intros _. apply cgen_open_new.
  - (* U_start_node *) split; [ apply gen_open_new | exact Hst ].
  - (* U_listen *) exact Hst.
  - right. right. split; [ reflexivity | ]. split; [ reflexivity | ]. split; [ exact (proj1 Hst) | congruence ].
  - (* U_start_loops *) destruct (S_shutdownErr s); [ right; left; split; reflexivity | ]. right. right. split; [ reflexivity | ]. split; [ reflexivity | ].
    split; [ exact (proj1 Hst) | ]. intros K. split; [ exact (proj2 Hst K) | reflexivity ].
  - (* U_stop_ctl *) tauto.
  - (* U_flag *) destruct Hst as [H1 H2]. split; [ exact H1 | ]. split; [ exact H2 | reflexivity ].
  - (* U_close *) tauto.
  - tauto.
  - tauto.
  - tauto.
Qed.

Lemma api_split l : sum_list_with is_api l = (sum_list_with w_starting l + sum_list_with is_stopping l)%nat.
Proof. unfold is_api. apply sum_add. Qed.
Lemma idle_insert (l : list thread) i t t' (P : thread -> Prop) : l !! i = Some t -> is_api t = 1%nat -> (sum_list_with is_api l <= 1)%nat ->
  (forall u, is_api u = 0%nat -> P u) -> P t' -> Forall P (<[i := t']> l).
Proof.
  intros Hi Ht Hs HP Ht'. apply Forall_lookup_2. intros j u Hj. destruct (Nat.eq_dec i j) as [->|Hn].
  - rewrite list_lookup_insert in Hj by (eapply lookup_lt_Some; exact Hi). injection Hj as <-. exact Ht'.
  - rewrite list_lookup_insert_ne in Hj by exact Hn. apply HP.
    assert (K : l !! j = Some u) by exact Hj. clear - Hi Ht Hs K Hn.
    pose proof (sum_insert is_api l i t TDone Hi) as S1. assert (K' : <[i := TDone]> l !! j = Some u) by (rewrite list_lookup_insert_ne by exact Hn; exact K).
    pose proof (sum_ge is_api _ _ _ K'). cbn in S1. lia.
Qed.
Lemma life_tidy E ls y tr ph : life E any ls y tr ph -> tidy E y ph.
Proof.
  intros H. induction H as [|ls y tr ph l ph1 y' o Hl IH _ Hok Hc He].
  - constructor; cbn; auto; first [ discriminate | constructor ].
  - pose proof (runs_ok _ _ _ _ (life_runs _ _ _ _ _ _ Hl)) as OK. destruct IH as [T1 T2 T3 T4]. apply exec_cases in He.
    destruct He as [(i & c & t & s & t' & sp & -> & Et & Es & ->)|[(t & -> & -> & Hk)|(mm & op & f & -> & -> & Ec & _ & ->)]].
    + cbn in Hc. injection Hc as <-. destruct (Forall_lookup_1 _ _ _ _ (sys_threads _ _ _ OK) Et) as [_ R].
      pose proof (Forall_lookup_1 _ _ _ _ T3 Et) as St.
      pose proof (sum_insert w_starting _ i t t' Et) as I1. pose proof (sum_insert is_stopping _ i t t' Et) as I2.
      pose proof (sum_ge w_starting _ _ _ Et) as G1. pose proof (sum_ge is_stopping _ _ _ Et) as G2.
      destruct (is_api t) as [|n] eqn:Ea.
      * destruct (other_step E _ _ _ _ _ _ _ Ea Es) as (O1 & O2 & O3 & O4 & O5 & O6 & O7 & _). rewrite O3.
        rewrite api_split in O2. unfold is_api in Ea, O1.
        constructor; cbn [Y_sh Y_threads]; rewrite ?sum_list_with_app; try lia.
        -- apply Forall_app. split.
           ++ apply Forall_insert; [ | apply stage_idle; unfold is_api; lia ]. eapply Forall_impl; [ exact T3 | ]. intros u. apply stage_other; assumption.
           ++ apply Forall_forall. intros u Hu. apply stage_idle. apply elem_of_list_lookup_1 in Hu. destruct Hu as [j Hj].
              pose proof (sum_ge w_starting _ _ _ Hj). pose proof (sum_ge is_stopping _ _ _ Hj). unfold is_api. lia.
        -- intros Hu. destruct (T4 Hu) as [U1 U2]. split; [ auto | ]. unfold cgen_open in *. rewrite O5, O6. exact U2.
      * assert (Ht1 : is_api t = 1%nat). { destruct t; cbn in *; try discriminate; reflexivity. }
        destruct (api_step E _ _ _ _ _ _ _ St R Es) as (A1 & A2 & A3 & A4). rewrite api_split in A1.
        assert (Hsum : (sum_list_with is_api (Y_threads y) <= 1)%nat) by (rewrite api_split; destruct ph; lia).
        assert (Hst : Forall (stage E s) (<[i:=t']> (Y_threads y) ++ sp)).
        { apply Forall_app. split.
          - eapply idle_insert; [ exact Et | exact Ht1 | exact Hsum | intros u Hu; apply stage_idle; exact Hu | exact A2 ].
          - apply Forall_forall. intros u Hu. apply stage_idle. apply elem_of_list_lookup_1 in Hu. destruct Hu as [j Hj].
            pose proof (sum_ge w_starting _ _ _ Hj). pose proof (sum_ge is_stopping _ _ _ Hj). unfold is_api. lia. }
        unfold is_api in Ht1. destruct (w_starting t) as [|w] eqn:Ew.
        -- assert (Hs1 : is_stopping t = 1%nat) by lia. assert (ph = Stopping) as -> by (destruct ph; try lia; reflexivity).
           destruct (A4 Hs1) as [(B1 & B2 & B3)|(B1 & B3)]; rewrite B3; unfold is_api in *; constructor; cbn [Y_sh Y_threads]; rewrite ?sum_list_with_app; try lia; try exact Hst; discriminate.
        -- assert (w = 0%nat) as -> by lia. assert (ph = Starting) as -> by (destruct ph; try lia; reflexivity).
           destruct (A3 eq_refl) as [(B1 & B2 & B3)|[(B1 & B3)|(B1 & B3 & B4)]]; rewrite B3; unfold is_api in *; constructor; cbn [Y_sh Y_threads]; rewrite ?sum_list_with_app; try lia; try exact Hst; try discriminate.
           intros _. exact B4.
    + cbn [fold_left]. destruct Hk as [[-> ->]|[[-> ->]|(dmx & a & -> & Ec & ->)]].
      * destruct ph; try discriminate. cbn in Hc. injection Hc as <-.
        constructor; cbn [Y_sh Y_threads]; rewrite ?sum_list_with_app; try discriminate; destruct (E_ctl E) eqn:Ec; simpl; try lia;
          apply Forall_app; (split; [ exact T3 | ]); repeat constructor; cbn [stage]; congruence.
      * destruct ph; try discriminate. cbn in Hc. injection Hc as <-. destruct (T4 eq_refl) as [U1 U2].
        constructor; cbn [Y_sh Y_threads]; rewrite ?sum_list_with_app; try discriminate; destruct (E_ctl E) eqn:Ec; simpl; try lia;
          apply Forall_app; (split; [ exact T3 | ]); constructor; try constructor; cbn [stage]; rewrite ?Ec; intuition congruence.
      * assert (ph1 = ph) as -> by (destruct ph; cbn in Hc; congruence).
        constructor; cbn [Y_sh Y_threads]; rewrite ?sum_list_with_app; simpl; try lia; [ | exact T4 ]. apply Forall_snoc; [ exact T3 | exact I ].
    + assert (ph1 = ph) as -> by (destruct f, ph; cbn in Hc; congruence). cbn [fold_left answer].
      constructor; cbn [Y_sh Y_threads]; try assumption.
Qed.

(** * C61 *)
(** The calls of Start (true) and Stop (false), and whether a socket operation failed. *)
Definition calls (ls : list label) : list bool := collect (fun l => match l with LStart => [true] | LStop => [false] | _ => [] end) ls.
Definition no_errors (ls : list label) : bool := forallb (fun l => match l with LRun _ CErr => false | _ => true end) ls.
Definition crashes (E : env) (y : sys) : bool :=
  existsb (fun i => match exec E y (LRun i CGo) with RCrash => true | _ => false end) (seq 0 (length (Y_threads y))).
Lemma crashes_at E y : crashes E y = true -> exists i, exec E y (LRun i CGo) = RCrash.
Proof. intros H. apply existsb_exists in H. destruct H as (i & _ & H). exists i. destruct (exec E y (LRun i CGo)); try discriminate. reflexivity. Qed.
Lemma crash_script E cs s : tested E s (fun ls y tr => bool_decide (calls ls = cs) && no_errors ls && crashes E y) = true ->
  exists ls y tr i, runs E ls y tr /\ calls ls = cs /\ no_errors ls = true /\ exec E y (LRun i CGo) = RCrash.
Proof.
  intros H. destruct (tested_runs _ _ _ H) as (ls & y & tr & R & K). apply andb_prop in K. destruct K as [K K3]. apply andb_prop in K. destruct K as [K1 K2].
  apply bool_decide_eq_true in K1. destruct (crashes_at _ _ K3) as [i Hi]. exists ls, y, tr, i. auto.
Qed.
(** Stop before Start, Stop twice, and Stop of a controller that was never started crash. *)
Theorem C61_stop_first_refuted : exists ls y tr i, runs node1 ls y tr /\ calls ls = [false] /\ no_errors ls = true /\ exec node1 y (LRun i CGo) = RCrash.
Proof. apply (crash_script node1 [false] (act LStop ++ go_n 0 1)). vm_compute. reflexivity. Qed.
Theorem C61_stop_twice_refuted : exists ls y tr i, runs node1 ls y tr /\ calls ls = [true; false; false] /\ no_errors ls = true /\ exec node1 y (LRun i CGo) = RCrash.
Proof. apply (crash_script node1 [true; false; false] (up_node ++ stop_node 5 ++ act LStop ++ go_n 6 1)). vm_compute. reflexivity. Qed.
Theorem C61_controller_stop_first_refuted : exists ls y tr i, runs ctl1 ls y tr /\ calls ls = [false] /\ no_errors ls = true /\ exec ctl1 y (LRun i CGo) = RCrash.
Proof. apply (crash_script ctl1 [false] (act LStop)). vm_compute. reflexivity. Qed.
(** When Start and Stop are used in turn the only crashes are those of the reader (a read error while running, C63)
    and of the DMX ticker (frame rate not in 1..10^9). *)
Lemma error_label E ls y tr : runs E ls y tr -> (exists i b, Y_threads y !! i = Some (RD_got b None)) -> exists j, In (LRun j CErr) ls.
Proof.
  intros R. unfold runs in R. remember (init E) as y0 eqn:E0. revert E0. induction R as [|y0 ls y1 tr1 l y2 o Hs IH Hl He]; intros -> (i & b & Hi).
  - cbn in Hi. rewrite lookup_nil in Hi. discriminate.
  - apply exec_cases in He.
    assert (K : (exists i b, Y_threads y1 !! i = Some (RD_got b None)) \/ exists j, l = LRun j CErr).
    { destruct He as [(j & c & t & s & t' & sp & -> & Et & Es & ->)|[(t & -> & -> & Hk)|(mm & op & f & -> & -> & _)]]; cbn [Y_threads] in Hi.
      - destruct c; try (right; eexists; reflexivity); left.
        all: apply lookup_app_Some in Hi; destruct Hi as [Hi|[_ Hi]].
        all: try (destruct (Nat.eq_dec j i) as [->|Hn]; [ rewrite list_lookup_insert in Hi by (eapply lookup_lt_Some; exact Et); injection Hi as -> | rewrite list_lookup_insert_ne in Hi by exact Hn; eauto ]).
        all: exfalso; apply tstep_trans in Es; inversion Es; subst; try discriminate; try (apply elem_of_list_lookup_2 in Hi; repeat (apply elem_of_cons in Hi; destruct Hi as [Hi|Hi]; [ discriminate | ]); apply elem_of_nil in Hi; exact Hi).
      - left. apply lookup_app_Some in Hi. destruct Hi as [Hi|[_ Hi]]; [ eauto | ]. exfalso. apply elem_of_list_lookup_2 in Hi. apply elem_of_list_singleton in Hi.
        destruct Hk as [[-> ->]|[[-> ->]|(dmx & a & -> & _ & ->)]]; try destruct (E_ctl E); discriminate.
      - left. eauto. }
    destruct K as [K|[j ->]]; [ destruct (IH eq_refl K) as [j Hj]; exists j; apply in_or_app; auto | exists j; apply in_or_app; right; left; reflexivity ].
Qed.
Theorem C61_calls_in_turn_partial : forall E ls y tr ph, life E any ls y tr ph ->
  (forall l, exec E y l = RCrash -> exists i t, l = LRun i CGo /\ Y_threads y !! i = Some t /\
     ((exists b, t = RD_got b None /\ S_shutdown (Y_sh y) = false) \/ t = DL_start /\ (E_maxFPS E <= 0 \/ 1000000000 < E_maxFPS E)%Z)) /\
  (no_errors ls = true -> (0 < E_maxFPS E <= 1000000000)%Z -> forall l, exec E y l <> RCrash).
Proof.
  intros E ls y tr ph L. pose proof (life_runs _ _ _ _ _ _ L) as R. pose proof (runs_ok _ _ _ _ R) as OK. pose proof (life_tidy _ _ _ _ _ L) as T.
  assert (M : forall l, exec E y l = RCrash -> exists i t, l = LRun i CGo /\ Y_threads y !! i = Some t /\
     ((exists b, t = RD_got b None /\ S_shutdown (Y_sh y) = false) \/ t = DL_start /\ (E_maxFPS E <= 0 \/ 1000000000 < E_maxFPS E)%Z)).
  { intros l H. apply (exec_crash E y tr l OK) in H. destruct H as (i & t & -> & Ht & Hc). exists i, t. split; [ reflexivity | ]. split; [ exact Ht | ].
    pose proof (Forall_lookup_1 _ _ _ _ (td_stage _ _ _ T) Ht) as St. pose proof (Forall_lookup_1 _ _ _ _ (sys_threads _ _ _ OK) Ht) as [_ Rf].
    destruct t; cbn [crashing stage t_refs] in *; try contradiction.
    - destruct r; [ contradiction | ]. left. eauto.
    - right. auto.
    - exfalso. destruct St as (_ & _ & K). congruence.
    - exfalso. destruct St as ((g & K1 & K2) & _). unfold last_closed in Hc. rewrite K1 in Hc. congruence.
    - exfalso. destruct Rf as [_ Rf]. pose proof (ok_cgens _ _ _ (sys_shared _ _ _ OK) Rf) as Ec. destruct St as [St _]. destruct (St Ec) as (g & K1 & K2).
      unfold last_ctl_closed in Hc. rewrite K1 in Hc. congruence. }
  split; [ exact M | ]. intros Hn Hf l H. destruct (M l H) as (i & t & _ & Ht & [(b & -> & _)|[_ K]]); [ | lia ].
  destruct (error_label E ls y tr R) as [j Hj]; [ eauto | ]. unfold no_errors in Hn. rewrite forallb_forall in Hn. specialize (Hn _ Hj). discriminate.
Qed.
(** A life with two starts and two stops. *)
Fixpoint play_life (E : env) (ok : sys -> label -> bool) (y : sys) (ph : phase) (fs : script) : option (list label * sys * list obs * phase) :=
  match fs with
  | [] => Some ([], y, [], ph)
  | f :: fs =>
      let l := f y in
      if label_okb l && ok y l then
        match call ph l with
        | Some ph1 => match exec E y l with
          | RNext y' o => match play_life E ok y' (fold_left answer o ph1) fs with Some (ls, y'', tr, ph') => Some (l :: ls, y'', o ++ tr, ph') | None => None end
          | _ => None end
        | None => None
        end
      else None
  end.
Lemma play_life_ok E ok (allow : sys -> label -> Prop) fs : (forall y l, ok y l = true -> allow y l) -> forall ls0 y tr0 ph ls y' tr ph', life E allow ls0 y tr0 ph ->
  play_life E ok y ph fs = Some (ls, y', tr, ph') -> life E allow (ls0 ++ ls) y' (tr0 ++ tr) ph'.
Proof.
  intros A. induction fs as [|f fs IH]; intros ls0 y tr0 ph ls y' tr ph' L H; cbn [play_life] in H.
  - injection H as <- <- <- <-. rewrite !app_nil_r. exact L.
  - cbv zeta in H. destruct (label_okb (f y)) eqn:Hl; [ | discriminate ]. destruct (ok y (f y)) eqn:Ho; [ | discriminate ]. cbn [andb] in H. destruct (call ph (f y)) as [ph1|] eqn:Hc; [ | discriminate ].
    destruct (exec E y (f y)) as [| |y1 o] eqn:He; try discriminate.
    destruct (play_life E ok y1 (fold_left answer o ph1) fs) as [[[[ls1 y2] tr1] ph2]|] eqn:Hp; [ | discriminate ]. injection H as <- <- <- <-.
    pose proof (life_snoc E allow ls0 y tr0 ph (f y) ph1 y1 o L (A _ _ Ho) (label_okb_ok _ Hl) Hc He) as L1.
    pose proof (IH _ _ _ _ _ _ _ _ L1 Hp) as L2. rewrite <- !app_assoc in L2. exact L2.
Qed.
Definition tested_life (E : env) (ok : sys -> label -> bool) (fs : script) (P : list label -> sys -> list obs -> phase -> bool) : bool :=
  match play_life E ok (init E) Idle fs with Some (ls, y, tr, ph) => P ls y tr ph | None => false end.
Lemma tested_life_ok E ok (allow : sys -> label -> Prop) fs P : (forall y l, ok y l = true -> allow y l) -> tested_life E ok fs P = true -> exists ls y tr ph, life E allow ls y tr ph /\ P ls y tr ph = true.
Proof.
  intros A. unfold tested_life. destruct (play_life E ok (init E) Idle fs) as [[[[ls y] tr] ph]|] eqn:Hp; [ | discriminate ]. intros H. exists ls, y, tr, ph. split; [ | exact H ].
  exact (play_life_ok E ok allow fs A _ _ _ _ _ _ _ _ (life_nil E allow) Hp).
Qed.
(** A life, up to phase Up, and then an execution. *)
Definition tested_life2 (E : env) (ok : sys -> label -> bool) (fs1 fs2 : script) (P : list label -> sys -> list obs -> list label -> sys -> list obs -> bool) : bool :=
  match play_life E ok (init E) Idle fs1 with
  | Some (ls1, y1, tr1, Up) => match play E y1 fs2 with Some (ls2, y2, tr2) => P ls1 y1 tr1 ls2 y2 tr2 | None => false end
  | _ => false
  end.
Lemma tested_life2_ok E ok (allow : sys -> label -> Prop) fs1 fs2 P : (forall y l, ok y l = true -> allow y l) -> tested_life2 E ok fs1 fs2 P = true ->
  exists ls1 y1 tr1 ls2 y2 tr2, life E allow ls1 y1 tr1 Up /\ steps E y1 ls2 y2 tr2 /\ P ls1 y1 tr1 ls2 y2 tr2 = true.
Proof.
  intros A. unfold tested_life2. destruct (play_life E ok (init E) Idle fs1) as [[[[ls1 y1] tr1] ph]|] eqn:Hp; [ | discriminate ]. destruct ph; try discriminate.
  destruct (play E y1 fs2) as [[[ls2 y2] tr2]|] eqn:Hq; [ | discriminate ]. intros H. exists ls1, y1, tr1, ls2, y2, tr2.
  split; [ exact (play_life_ok E ok allow fs1 A _ _ _ _ _ _ _ _ (life_nil E allow) Hp) | ]. split; [ exact (play_steps E fs2 _ _ _ _ Hq) | exact H ].
Qed.
Definition stop_ctl (i : nat) : script := act LStop ++ go_n i 6.
Example C61_ex : exists ls y tr ph, life ctl1 any ls y tr ph /\ calls ls = [true; false; true; false] /\ no_errors ls = true /\ (0 < E_maxFPS ctl1 <= 1000000000)%Z.
Proof.
  destruct (tested_life_ok ctl1 (fun _ _ => true) any (up_ctl ++ stop_ctl 7 ++ act LStart ++ go_n 8 4 ++ stop_ctl 14)
    (fun ls y tr ph => bool_decide (calls ls = [true; false; true; false]) && no_errors ls)) as (ls & y & tr & ph & L & H); [ intros; exact I | vm_compute; reflexivity | ].
  apply andb_prop in H. destruct H as [H1 H2]. apply bool_decide_eq_true in H1. exists ls, y, tr, ph. repeat (split; [ assumption | ]). split; [ reflexivity | discriminate ].
Qed.

(** * C62 *)
(** The socket cannot be opened: Start fails, but the node counts as running; registrations are ignored. *)
Definition no_listen : script := act LStart ++ go_n 0 1 ++ act (LRun 0 CErr).
Theorem C62_listen_failure_refuted : exists ls y tr, runs node1 ls y tr /\ calls ls = [true] /\ last tr = Some (OStart false) /\ S_shutdown (Y_sh y) = false /\ ~ stopped tr /\
  forall op f, exists y' o, exec node1 y (LRegister op f) = RNext y' o /\ S_callbacks (Y_sh y') = S_callbacks (Y_sh y).
Proof.
  destruct (tested_runs node1 no_listen (fun ls y tr => bool_decide (calls ls = [true]) && match last tr with Some (OStart false) => true | _ => false end && negb (S_shutdown (Y_sh y))))
    as (ls & y & tr & R & H); [ vm_compute; reflexivity | ].
  apply andb_prop in H. destruct H as [H H3]. apply andb_prop in H. destruct H as [H1 H2]. apply bool_decide_eq_true in H1. apply negb_true_iff in H3.
  exists ls, y, tr. split; [ exact R | ]. split; [ exact H1 | ]. split; [ destruct (last tr) as [[]|]; try discriminate; destruct ok; [ discriminate | reflexivity ] | ].
  split; [ exact H3 | ]. pose proof (proj2 (proj2 (C56_registry _ _ _ _ 0 R))) as K. split; [ intros S; apply K in S; congruence | ].
  intros op f. eexists. eexists. split; [ reflexivity | ]. cbn. unfold RegisterCallback. rewrite H3. reflexivity.
Qed.
(** Controller.Start returns the error of an earlier, failed Start although the node is running and transmitting. *)
Definition is_tx (o : obs) : bool := match o with OTx _ => true | _ => false end.
Theorem C62_stale_error_refuted : exists ls y tr a b, runs ctl1 ls y tr /\ calls ls = [true; true] /\ tr = a ++ OListen :: OStart false :: b /\ (exists x, In (OTx x) b) /\ S_shutdown (Y_sh y) = false.
Proof.
  destruct (tested2_runs ctl1 (act LStart ++ go_n 0 2 ++ act (LRun 0 CErr) ++ act LStart ++ go_n 1 3) (go_n 1 1 ++ go_n 4 1 ++ go_n 5 3 ++ go_n 4 3)
    (fun ls1 y1 tr1 ls2 y2 tr2 => bool_decide (calls (ls1 ++ ls2) = [true; true]) && negb (S_shutdown (Y_sh y2)) &&
       match last tr1 with Some OListen => true | _ => false end && match tr2 with OStart false :: b => existsb is_tx b | _ => false end))
    as (ls1 & y1 & tr1 & ls2 & y2 & tr2 & R & S & H); [ vm_compute; reflexivity | ].
  apply andb_prop in H. destruct H as [H H4]. apply andb_prop in H. destruct H as [H H3]. apply andb_prop in H. destruct H as [H1 H2].
  apply bool_decide_eq_true in H1. apply negb_true_iff in H2. destruct tr2 as [|o b]; [ discriminate | ]. destruct o; try discriminate. destruct ok; [ discriminate | ].
  exists (ls1 ++ ls2), y2, (tr1 ++ OStart false :: b), (removelast tr1), b.
  split; [ eapply steps_app; eassumption | ]. split; [ exact H1 | ]. split.
  - destruct tr1 as [|o tr1 _] using rev_ind; [ discriminate | ]. rewrite last_snoc in H3. destruct o; try discriminate. rewrite removelast_last, <- app_assoc. reflexivity.
  - split; [ | exact H2 ]. apply existsb_exists in H4. destruct H4 as (o & Ho & Hx). destruct o; try discriminate. eauto.
Qed.
(** A configuration that Start rejects: the node stays stopped, nothing is opened or transmitted. *)
Definition early (t : thread) : bool :=
  match t with TDone | U_send _ _ | U_start_ctl | U_start_node | U_stop_ctl | U_flag | U_close => true | _ => false end.
Lemma invalid_run E ls y tr : validate (E_config E) <> None -> runs E ls y tr ->
  S_shutdown (Y_sh y) = true /\ S_gens (Y_sh y) = [] /\ S_conns (Y_sh y) = [] /\ Forall (fun t => early t = true) (Y_threads y) /\
  Forall (fun o => match o with OTable _ _ _ | ODown | ORegister _ _ | OStart false | OSend => True | _ => False end) tr.
Proof.
  intros V R. unfold runs in R. remember (init E) as y0 eqn:E0. revert E0. induction R as [|y0 ls y1 tr1 l y2 o Hs IH Hl He]; intros ->.
  - repeat (split; [ first [ reflexivity | apply Forall_nil_2 ] | ]). apply Forall_nil_2.
  - destruct (IH eq_refl) as (I1 & I2 & I3 & I4 & I5). clear IH. apply exec_cases in He.
    destruct He as [(i & c & t & s & t' & sp & -> & Et & Es & ->)|[(t & -> & -> & Hk)|(mm & op & f & -> & -> & _)]]; cbn [Y_sh Y_threads].
    + pose proof (Forall_lookup_1 _ _ _ _ I4 Et) as Ht. cbn beta in Ht.
      assert (K : S_shutdown s = true /\ S_gens s = [] /\ S_conns s = [] /\ early t' = true /\ sp = [] /\
         Forall (fun o => match o with OTable _ _ _ | ODown | ORegister _ _ | OStart false | OSend => True | _ => False end) o).
      { tcases Es; try discriminate Ht; try (exfalso; congruence); cbn [S_shutdown S_gens S_conns with_tables with_cgens with_shutdown];
          repeat (split; [ first [ assumption | reflexivity ] | ]); repeat (apply Forall_cons; split; [ exact I | ]); try apply Forall_nil_2.
        match goal with H : last_index (S_gens _) = Some _ |- _ => rewrite I2 in H; discriminate end. }
      destruct K as (K1 & K2 & K3 & K4 & -> & K6). repeat (split; [ assumption | ]). rewrite app_nil_r. split; [ apply Forall_insert; assumption | ].
      apply Forall_app. split; assumption.
    + rewrite app_nil_r. repeat (split; [ assumption | ]). split; [ | assumption ]. apply Forall_app. split; [ exact I4 | ]. apply Forall_singleton.
      destruct Hk as [[-> ->]|[[-> ->]|(dmx & a & -> & _ & ->)]]; try destruct (E_ctl E); reflexivity.
    + cbn [S_shutdown S_gens S_conns with_callbacks]. repeat (split; [ assumption | ]). apply Forall_app. split; [ exact I5 | ]. apply Forall_singleton. exact I.
Qed.
Theorem C62_invalid_partial : forall E ls y tr, wf_config (E_config E) -> ~ valid_config (E_config E) -> runs E ls y tr ->
  S_shutdown (Y_sh y) = true /\ stopped tr /\ (forall o, In o tr -> o <> OUp /\ o <> OListen /\ o <> OStart true /\ forall x, o <> OTx x) /\
  (E_ctl E = false -> forall op f, exists y', exec E y (LRegister op f) = RNext y' [ORegister op (Some f)] /\ S_callbacks (Y_sh y') !! op = Some (HUser f)).
Proof.
  intros E ls y tr W V R. destruct (invalid_run E ls y tr) as (H1 & H2 & H3 & H4 & H5); [ | exact R | ].
  { intros K. apply V. apply C32_validate_exact; assumption. }
  assert (Q : forall o, In o tr -> o <> OUp /\ o <> OListen /\ o <> OStart true /\ forall x, o <> OTx x).
  { intros o Ho. apply elem_of_list_In in Ho. pose proof (proj1 (Forall_forall _ _) H5 o Ho) as K. destruct o; try contradiction; try (repeat split; intros; discriminate).
    destruct ok; [ contradiction | ]. repeat split; intros; discriminate. }
  split; [ exact H1 | ]. split.
  - intros a b ->. destruct (Q OUp) as [K _]; [ apply in_or_app; right; left; reflexivity | ]. contradiction.
  - split; [ exact Q | ]. intros Hc op f. cbn [exec]. rewrite Hc. eexists. split; [ reflexivity | ]. cbn. unfold RegisterCallback. rewrite H1. cbn. apply lookup_insert.
Qed.
(** A node with five output ports whose Start is called. *)
Definition crowded : env := mkEnv false (with_ports [] (repeat (mkPort (0, 0) 0x80 0) 5)) [10; 0; 0; 1] ([], ArtNetPort) defaultBroadcastAddr defaultBroadcastAddr 0%Z.
Example C62_ex : exists ls y tr, wf_config (E_config crowded) /\ ~ valid_config (E_config crowded) /\ runs crowded ls y tr /\ calls ls = [true] /\ tr = [OStart false].
Proof.
  destruct (tested_runs crowded (act LStart ++ go_n 0 1) (fun ls y tr => bool_decide (calls ls = [true]) && match tr with [OStart false] => true | _ => false end))
    as (ls & y & tr & R & H); [ vm_compute; reflexivity | ].
  apply andb_prop in H. destruct H as [H1 H2]. apply bool_decide_eq_true in H1. exists ls, y, tr. split.
  - repeat (split; [ repeat constructor | ]); repeat constructor.
  - split; [ intros (_ & K & _); cbn in K; lia | ]. split; [ exact R | ]. split; [ exact H1 | ].
    destruct tr as [|o [|? ?]]; try discriminate; destruct o; try discriminate; destruct ok; try discriminate. reflexivity.
Qed.

(** * C63 *)
(** A read error while the node is running ends the program. *)
Theorem C63_read_error_refuted : exists ls y tr i, runs node1 ls y tr /\ calls ls = [true] /\ (exists b, Y_threads y !! i = Some (RD_got b None)) /\ exec node1 y (LRun i CGo) = RCrash.
Proof.
  destruct (tested_runs node1 (up_node ++ act (LRun 4 CErr)) (fun ls y tr => bool_decide (calls ls = [true]) &&
      match Y_threads y !! 4%nat with Some (RD_got b None) => true | _ => false end && match exec node1 y (LRun 4 CGo) with RCrash => true | _ => false end))
    as (ls & y & tr & R & H); [ vm_compute; reflexivity | ].
  apply andb_prop in H. destruct H as [H H3]. apply andb_prop in H. destruct H as [H1 H2]. apply bool_decide_eq_true in H1.
  exists ls, y, tr, 4%nat. split; [ exact R | ]. split; [ exact H1 | ]. split.
  - destruct (Y_threads y !! 4%nat) as [t|]; [ | discriminate ]. destruct t; try discriminate. destruct r; [ discriminate | eauto ].
  - destruct (exec node1 y (LRun 4 CGo)); try discriminate. reflexivity.
Qed.
(** Lives in which Start is only called once the goroutines of the previous run have ended, and a read fails only
    because the socket was closed. *)
Definition careful (y : sys) (l : label) : Prop :=
  (l = LStart -> quiescent y) /\
  (forall i b c, l = LRun i CErr -> Y_threads y !! i = Some (RD_reading b c) -> flag_at (S_conns (Y_sh y)) c = false).
Lemma careful_split E ls y tr ph : life E careful ls y tr ph -> exists ls0 y0 tr0 ls1 tr1,
  runs E ls0 y0 tr0 /\ quiescent y0 /\ steps E y0 ls1 y tr1 /\ (starts ls1 <= 1)%nat /\ ls = ls0 ++ ls1 /\ tr = tr0 ++ tr1.
Proof.
  induction 1 as [|ls y tr ph l ph1 y' o L IH A Hl Hc He].
  - exists [], (init E), [], [], []. repeat (split; [ first [ solve [ constructor ] | reflexivity | cbn; lia ] | ]). reflexivity.
  - destruct IH as (ls0 & y0 & tr0 & ls1 & tr1 & R & Q & S & N & -> & ->).
    assert (K : l = LStart \/ is_start l = 0%nat) by (destruct l; auto). destruct K as [->|K].
    + exists (ls0 ++ ls1), y, (tr0 ++ tr1), [LStart], o. split; [ eapply steps_app; eassumption | ]. split; [ apply A; reflexivity | ].
      split; [ exact (steps_snoc E y [] y [] LStart y' o (steps_nil E y) Hl He) | ]. repeat (split; [ first [ reflexivity | cbn; lia ] | ]). reflexivity.
    + exists ls0, y0, tr0, (ls1 ++ [l]), (tr1 ++ o). repeat (split; [ first [ assumption | econstructor; eassumption ] | ]).
      split; [ unfold starts in *; rewrite sum_list_with_app; cbn [sum_list_with]; lia | ]. rewrite !app_assoc. auto.
Qed.
(** The socket of the current run is closed. *)
Definition shut (s : shared) : Prop := forall c, last_index (S_conns s) = Some c -> flag_at (S_conns s) c = false.
Definition reads (t : thread) : Prop := is_rd t = 1%nat \/ t = RL_start.
Record quiet_reader (y : sys) : Prop := {
  qr_error : forall i b, Y_threads y !! i = Some (RD_got b None) -> S_shutdown (Y_sh y) = true;
  qr_reader : forall i t, Y_threads y !! i = Some t -> reads t -> shut (Y_sh y) -> S_shutdown (Y_sh y) = true;
}.
Lemma reads_weight t : reads t -> w_reader t = 1%nat.
Proof. intros [H| ->]; [ destruct t; try discriminate; reflexivity | reflexivity ]. Qed.
Lemma sum_lookup {A} (w : A -> nat) l i x : l !! i = Some x -> (w x <= sum_list_with w l)%nat.
Proof. revert i. induction l as [|z l IH]; intros [|i] H; cbn in *; [ discriminate | discriminate | injection H as ->; lia | specialize (IH i H); lia ]. Qed.
Lemma sum_two {A} (w : A -> nat) l i j x z : i <> j -> l !! i = Some x -> l !! j = Some z -> (w x + w z <= sum_list_with w l)%nat.
Proof.
  revert i j. induction l as [|u l IH]; intros [|i] [|j] Hn Hi Hj; cbn in *; try discriminate; try congruence.
  - injection Hi as ->. pose proof (sum_lookup w _ _ _ Hj). lia.
  - injection Hj as ->. pose proof (sum_lookup w _ _ _ Hi). lia.
  - assert (i <> j) by congruence. pose proof (IH i j H Hi Hj). lia.
Qed.
Lemma reader_single E y0 ls y tr : quiescent y0 -> steps E y0 ls y tr -> (starts ls <= 1)%nat -> (sum_list_with w_reader (Y_threads y) <= 1)%nat.
Proof. intros Q S N. pose proof (descends_steps _ _ _ _ _ _ _ _ _ (rd_descends E) S) as D. cbv beta in D. rewrite (quiescent_sum w_reader y0 eq_refl Q) in D. unfold starts in N. lia. Qed.
(** Where the readers come from, and what a step does to the flag and the socket. *)
Lemma reads_from E s t c s' t' sp o u : tstep E s t c = Next s' t' sp o -> In u (t' :: sp) -> reads u -> reads t \/ (t = U_listen /\ c = CGo).
Proof.
  intros Es Hu Hr. tcases Es; cbn in Hu; repeat (destruct Hu as [Hu|Hu]; [ subst u | ]); try contradiction; try (exfalso; destruct Hr as [Hr|Hr]; discriminate);
    try (left; left; reflexivity); try (left; right; reflexivity); try (right; split; reflexivity).
Qed.
Lemma errors_from E s t c s' t' sp o b : tstep E s t c = Next s' t' sp o -> In (RD_got b None) (t' :: sp) -> c = CErr /\ exists k, t = RD_reading b k.
Proof.
  intros Es Hu. tcases Es; cbn in Hu; repeat (destruct Hu as [Hu|Hu]; [ try discriminate | ]); try contradiction. injection Hu as ->. eauto.
Qed.
Lemma not_shut_new s : ~ shut (with_conns s (S_conns s ++ [true])).
Proof. intros K. specialize (K (length (S_conns s))). cbn in K. rewrite last_app in K. specialize (K eq_refl). unfold flag_at in K. rewrite list_lookup_middle in K by reflexivity. discriminate. Qed.
Lemma careful_reader E ls y tr ph : life E careful ls y tr ph -> quiet_reader y.
Proof.
  induction 1 as [|ls y tr ph l ph1 y' o L IH A Hl Hc He].
  - constructor; intros i; cbn; rewrite lookup_nil; discriminate.
  - pose proof (life_tidy _ _ _ _ _ (life_any _ _ _ _ _ _ L)) as T. destruct (careful_split _ _ _ _ _ L) as (ls0 & y0 & tr0 & ls1 & tr1 & R & Q & S & N & -> & ->).
    pose proof (single_run _ _ _ _ _ Q S N) as G. pose proof (reader_single _ _ _ _ _ Q S N) as W.
    destruct IH as [I1 I2]. apply exec_cases in He.
    destruct He as [(i & c & t & s & t' & sp & -> & Et & Es & ->)|[(t & -> & -> & Hk)|(mm & op & f & -> & -> & _)]].
    + (* threads of the new state *)
      assert (M : forall j u, (<[i := t']> (Y_threads y) ++ sp) !! j = Some u -> (j <> i /\ Y_threads y !! j = Some u) \/ In u (t' :: sp)).
      { intros j u Hj. apply lookup_app_Some in Hj. destruct Hj as [Hj|[_ Hj]].
        - destruct (Nat.eq_dec i j) as [->|Hn]; [ rewrite list_lookup_insert in Hj by (eapply lookup_lt_Some; exact Et); injection Hj as ->; right; left; reflexivity | ].
          rewrite list_lookup_insert_ne in Hj by exact Hn. auto.
        - right. right. apply elem_of_list_In. eapply elem_of_list_lookup_2. exact Hj. }
      (* a failed read *)
      assert (F : forall b, In (RD_got b None) (t' :: sp) -> S_shutdown (Y_sh y) = true).
      { intros b Hb. destruct (errors_from _ _ _ _ _ _ _ _ _ Es Hb) as (-> & k & ->). destruct A as [_ A]. specialize (A i b k eq_refl Et).
        apply (I2 i _ Et); [ left; reflexivity | ]. intros c0 Hc0. pose proof (Forall_lookup_1 _ _ _ _ (sg_placed _ _ _ _ _ G) Et) as (_ & P1 & P2).
        pose proof (sg_bounded _ _ _ _ _ G) as (_ & B & _). unfold last_index in Hc0. destruct (length (S_conns (Y_sh y))) as [|n] eqn:El; [ discriminate | ]. injection Hc0 as ->.
        replace c0 with k by lia. exact A. }
      assert (Z : (S_shutdown s = S_shutdown (Y_sh y) /\ S_conns s = S_conns (Y_sh y) /\ (t = U_listen -> c = CErr)) \/ t = U_start_node \/ S_shutdown s = true \/
         (S_shutdown s = S_shutdown (Y_sh y) /\ t = U_listen /\ ~ shut s)).
      { pose proof (Forall_lookup_1 _ _ _ _ (td_stage _ _ _ T) Et) as St. clear - Es St. tcases Es; try (left; repeat (split; [ reflexivity | ]); solve [ discriminate | reflexivity ]);
          try (right; left; reflexivity); try (right; right; left; solve [ reflexivity | exact (proj2 St) ]).
        all: right; right; right; split; [ reflexivity | split; [ reflexivity | apply not_shut_new ] ]. }
      constructor; cbn [Y_sh Y_threads].
      * intros j b Hj. apply M in Hj. destruct Z as [(Z1 & Z2 & Z3)|[ ->|[Z|(Z1 & -> & Z2)]]].
        -- rewrite Z1. destruct Hj as [[_ Hj]|Hj]; [ exact (I1 _ _ Hj) | exact (F _ Hj) ].
        -- exfalso. destruct Hj as [[Hn Hj]|Hj]; [ | destruct (errors_from _ _ _ _ _ _ _ _ _ Es Hj) as (_ & k & K); discriminate ].
           pose proof (sum_two w_reader _ _ _ _ _ Hn Hj Et) as K. cbn in K. lia.
        -- exact Z.
        -- rewrite Z1. destruct Hj as [[_ Hj]|Hj]; [ exact (I1 _ _ Hj) | exact (F _ Hj) ].
      * intros j u Hj Hr Hs. apply M in Hj. destruct Z as [(Z1 & Z2 & Z3)|[ ->|[Z|(Z1 & -> & Z2)]]].
        -- rewrite Z1. unfold shut in Hs. rewrite Z2 in Hs. destruct Hj as [[_ Hj]|Hj]; [ exact (I2 _ _ Hj Hr Hs) | ].
           destruct (reads_from _ _ _ _ _ _ _ _ _ Es Hj Hr) as [K|[-> ->]]; [ exact (I2 _ _ Et K Hs) | discriminate (Z3 eq_refl) ].
        -- exfalso. destruct Hj as [[Hn Hj]|Hj].
           ++ pose proof (sum_two w_reader _ _ _ _ _ Hn Hj Et) as K. rewrite (reads_weight _ Hr) in K. cbn in K. lia.
           ++ destruct (reads_from _ _ _ _ _ _ _ _ _ Es Hj Hr) as [K|[K _]]; [ destruct K; discriminate | discriminate ].
        -- exact Z.
        -- contradiction.
    + assert (M : forall j u, (Y_threads y ++ [t]) !! j = Some u -> Y_threads y !! j = Some u \/ u = t).
      { intros j u Hj. apply lookup_app_Some in Hj. destruct Hj as [Hj|[_ Hj]]; [ auto | ]. right. apply elem_of_list_lookup_2 in Hj. apply elem_of_list_singleton in Hj. exact Hj. }
      assert (Hr : ~ reads t /\ forall b, t <> RD_got b None).
      { destruct Hk as [[-> ->]|[[-> ->]|(dmx & a & -> & _ & ->)]]; try destruct (E_ctl E); split; intros; try discriminate; intros [K|K]; discriminate. }
      destruct Hr as [Hr1 Hr2]. constructor; cbn [Y_sh Y_threads].
      * intros j b Hj. destruct (M _ _ Hj) as [K|K]; [ exact (I1 _ _ K) | exfalso; exact (Hr2 _ (eq_sym K)) ].
      * intros j u Hj Hr. destruct (M _ _ Hj) as [K| ->]; [ exact (I2 _ _ K Hr) | contradiction ].
    + constructor; cbn [Y_sh Y_threads]; [ exact I1 | exact I2 ].
Qed.
(** The reader stops the program only after a read error while the node is running; in careful lives never. *)
Theorem C63_reader_partial :
  (forall E ls y tr i t l, runs E ls y tr -> Y_threads y !! i = Some t -> is_rd t = 1%nat -> l = LRun i CGo ->
     (exec E y l = RCrash <-> (exists b, t = RD_got b None) /\ S_shutdown (Y_sh y) = false)) /\
  (forall E ls y tr ph i t c, life E careful ls y tr ph -> Y_threads y !! i = Some t -> is_rd t = 1%nat -> exec E y (LRun i c) <> RCrash).
Proof.
  assert (X : forall E ls y tr i t l, runs E ls y tr -> Y_threads y !! i = Some t -> is_rd t = 1%nat -> l = LRun i CGo ->
     (exec E y l = RCrash <-> (exists b, t = RD_got b None) /\ S_shutdown (Y_sh y) = false)).
  { intros E ls y tr i t l R Ht Hr ->. split.
    - intros H. apply (exec_crash E y tr _ (runs_ok _ _ _ _ R)) in H. destruct H as (j & u & K & Hu & Hx). injection K as ->. rewrite Ht in Hu. injection Hu as ->.
      destruct u; try discriminate; cbn [crashing] in Hx; try contradiction. destruct r; [ contradiction | ]. eauto.
    - intros [(b & ->) Hd]. cbn [exec]. rewrite Ht. cbn [tstep]. rewrite Hd. reflexivity. }
  split; [ exact X | ]. intros E ls y tr ph i t c L Ht Hr H. pose proof (life_runs _ _ _ _ _ _ L) as R.
  pose proof H as H'. apply (exec_crash E y tr _ (runs_ok _ _ _ _ R)) in H'. destruct H' as (j & u & K & _). injection K as -> ->.
  apply (X E ls y tr j t _ R Ht Hr eq_refl) in H. destruct H as [(b & ->) Hd]. pose proof (qr_error _ (careful_reader _ _ _ _ _ L) _ _ Ht). congruence.
Qed.
(** Checking [careful] by computation. *)
Definition closed_readb (y : sys) (l : label) : bool :=
  match l with LRun i CErr => match Y_threads y !! i with Some (RD_reading _ c) => negb (flag_at (S_conns (Y_sh y)) c) | _ => true end | _ => true end.
Definition is_done (t : thread) : bool := match t with TDone => true | _ => false end.
Definition carefulb (y : sys) (l : label) : bool := match l with LStart => forallb is_done (Y_threads y) | _ => closed_readb y l end.
Definition closed_read (y : sys) (l : label) : Prop :=
  forall i b c, l = LRun i CErr -> Y_threads y !! i = Some (RD_reading b c) -> flag_at (S_conns (Y_sh y)) c = false.
Lemma closed_readb_ok y l : closed_readb y l = true -> closed_read y l.
Proof. intros H i b c -> Ht. cbn in H. rewrite Ht in H. apply negb_true_iff in H. exact H. Qed.
Lemma carefulb_ok y l : carefulb y l = true -> careful y l.
Proof.
  intros H. split.
  - intros ->. cbn in H. rewrite forallb_forall in H. apply Forall_forall. intros t Ht. apply elem_of_list_In in Ht. specialize (H t Ht). destruct t; try discriminate. reflexivity.
  - assert (K : closed_readb y l = true) by (destruct l; try exact H; reflexivity). exact (closed_readb_ok y l K).
Qed.
(** The goroutines of a node (1-4) or controller (1-6) end after Stop: the loops see the closed shutdown channels, the reader the closed socket. *)
Definition drain_node (i : nat) : script := act (LRun (i + 1) CDown) ++ act (LRun (i + 2) CDown) ++ act (LRun (i + 3) CDown) ++ act (LRun (i + 4) CErr) ++ go_n (i + 4) 1.
Definition up_again (i : nat) : script := act LStart ++ go_n i 2 ++ go_n (i + 1) 2 ++ go_n (i + 2) 2 ++ go_n (i + 3) 1 ++ go_n (i + 4) 1.
Definition clean_restart : script := up_node ++ stop_node 5 ++ drain_node 0 ++ up_again 6.
Example C63_ex : exists ls y tr i t, life node1 careful ls y tr Up /\ calls ls = [true; false; true] /\ no_errors ls = false /\ Y_threads y !! i = Some t /\ is_rd t = 1%nat.
Proof.
  destruct (tested_life_ok node1 carefulb careful clean_restart (fun ls y tr ph => bool_decide (calls ls = [true; false; true]) && negb (no_errors ls) &&
      match ph with Up => true | _ => false end && match Y_threads y !! 10%nat with Some (RD_reading _ _) => true | _ => false end))
    as (ls & y & tr & ph & L & H); [ exact carefulb_ok | vm_compute; reflexivity | ].
  apply andb_prop in H. destruct H as [H H4]. apply andb_prop in H. destruct H as [H H3]. apply andb_prop in H. destruct H as [H1 H2].
  apply bool_decide_eq_true in H1. apply negb_true_iff in H2. destruct ph; try discriminate. destruct (Y_threads y !! 10%nat) as [t|] eqn:Ht; [ | discriminate ].
  exists ls, y, tr, 10%nat, t. repeat (split; [ assumption | ]). destruct t; try discriminate. reflexivity.
Qed.

(** * C66 *)
(** From a moment when neither Start nor Stop is in progress on, and as long as Start is not called. *)
Definition settled_calls (y : sys) : Prop := sum_list_with w_starting (Y_threads y) = 0%nat /\ sum_list_with is_stopping (Y_threads y) = 0%nat.
Definition past_close (t : thread) : bool := match t with U_waitclosed | U_closectl => true | _ => false end.
Record silent (y : sys) : Prop := {
  si_opening : sum_list_with w_starting (Y_threads y) = 0%nat;
  si_close : (exists i t, Y_threads y !! i = Some t /\ past_close t = true) -> shut (Y_sh y);
}.
Lemma starting_none y i t : sum_list_with w_starting (Y_threads y) = 0%nat -> Y_threads y !! i = Some t -> w_starting t = 0%nat.
Proof. intros H Ht. pose proof (sum_lookup w_starting _ _ _ Ht). lia. Qed.
Lemma shut_close s c : last_index (S_conns s) = Some c -> shut (with_conns s (<[c := false]> (S_conns s))).
Proof.
  intros H k Hk. cbn in *. unfold last_index in Hk, H. rewrite insert_length in Hk. rewrite H in Hk. injection Hk as <-.
  unfold flag_at. rewrite list_lookup_insert; [ reflexivity | ]. destruct (length (S_conns s)); [ discriminate | ]. injection H as ->. lia.
Qed.
Lemma shut_none s : last_index (S_conns s) = None -> shut s.
Proof. intros H c Hc. congruence. Qed.
(** One step: the socket stays closed, and after OStop it is closed. *)
Lemma silent_step E y l y' o : silent y -> is_start l = 0%nat -> exec E y l = RNext y' o ->
  silent y' /\ (shut (Y_sh y) -> shut (Y_sh y') /\ forall x, ~ In (OTx x) o) /\ (In OStop o -> shut (Y_sh y') /\ o = [OStop]).
Proof.
  intros [S1 S2] Hl He. apply exec_cases in He.
  destruct He as [(i & c & t & s & t' & sp & -> & Et & Es & ->)|[(t & -> & -> & Hk)|(mm & op & f & -> & -> & _)]]; cbn [Y_sh Y_threads].
  - pose proof (sum_insert w_starting _ i t t' Et) as I1. pose proof (starting_none y i t S1 Et) as W.
    assert (K : w_starting t' = 0%nat /\ sum_list_with w_starting sp = 0%nat).
    { clear - W Es. tcases Es; try discriminate W; split; reflexivity. }
    destruct K as [K1 K2].
    assert (M : (shut (Y_sh y) -> shut s) /\ (past_close t' = true -> past_close t = true \/ shut s) /\ Forall (fun u => past_close u = false) sp /\
       (shut (Y_sh y) -> forall x, ~ In (OTx x) o) /\ (In OStop o -> (past_close t = true \/ shut s) /\ o = [OStop])).
    { clear - W Es. tcases Es; try discriminate W.
      all: split; [ try (intros K; exact K); try (intros _; apply shut_close; assumption) | ].
      all: split; [ try discriminate; intros _; first [ left; reflexivity | right; apply shut_close; assumption | right; apply shut_none; assumption ] | ].
      all: split; [ repeat (apply Forall_cons; split; [ reflexivity | ]); apply Forall_nil_2 | ].
      all: split; [ intros K x0 Hx; repeat (destruct Hx as [Hx|Hx]; [ try discriminate Hx | ]); try contradiction | ].
      all: try (intros Hx; repeat (destruct Hx as [Hx|Hx]; [ try discriminate Hx | ]); try contradiction).
      - match goal with A : last_index _ = Some _, B : flag_at _ _ = true |- _ => rewrite (K _ A) in B; discriminate B end.
      - split; [ right; apply shut_close; assumption | reflexivity ].
      - split; [ right; apply shut_none; assumption | reflexivity ].
      - split; [ left; reflexivity | reflexivity ]. }
    destruct M as (M1 & M2 & M3 & M4 & M5).
    assert (P : past_close t = true \/ shut s -> shut s) by (intros [P|P]; [ apply M1, S2; eauto | exact P ]).
    split; [ | split ].
    + constructor; cbn [Y_sh Y_threads]; [ rewrite sum_list_with_app; lia | ]. intros (j & u & Hj & Hu). apply lookup_app_Some in Hj. destruct Hj as [Hj|[_ Hj]].
      * destruct (Nat.eq_dec i j) as [->|Hn].
        -- rewrite list_lookup_insert in Hj by (eapply lookup_lt_Some; exact Et). injection Hj as ->. apply P, M2, Hu.
        -- rewrite list_lookup_insert_ne in Hj by exact Hn. apply M1, S2. eauto.
      * pose proof (Forall_lookup_1 _ _ _ _ M3 Hj). cbn beta in *. congruence.
    + intros K. split; [ exact (M1 K) | exact (M4 K) ].
    + intros K. destruct (M5 K) as [K3 K4]. split; [ exact (P K3) | exact K4 ].
  - assert (W : w_starting t = 0%nat /\ past_close t = false) by (destruct Hk as [[-> ->]|[[-> ->]|(dmx & a & -> & _ & ->)]]; try discriminate Hl; try destruct (E_ctl E); split; reflexivity).
    destruct W as [W1 W2]. split; [ | split; [ intros K; split; [ exact K | intros x [] ] | intros [] ] ].
    constructor; cbn [Y_sh Y_threads]; [ rewrite sum_list_with_app; cbn [sum_list_with]; lia | ]. intros (j & u & Hj & Hu). apply S2. apply lookup_app_Some in Hj. destruct Hj as [Hj|[_ Hj]]; [ eauto | ].
    apply elem_of_list_lookup_2 in Hj. apply elem_of_list_singleton in Hj. subst u. congruence.
  - split; [ constructor; [ exact S1 | exact S2 ] | ]. split; [ intros K; split; [ exact K | intros x [Hx|[]]; discriminate ] | intros [Hx|[]]; discriminate ].
Qed.
Lemma silent_steps E y ls y' tr : silent y -> starts ls = 0%nat -> steps E y ls y' tr -> silent y' /\ (shut (Y_sh y) -> shut (Y_sh y') /\ forall x, ~ In (OTx x) tr).
Proof.
  intros S N H. induction H as [|y ls y1 tr1 l y2 o Hs IH Hl He]; [ split; [ exact S | intros K; split; [ exact K | intros x [] ] ] | ].
  unfold starts in N. rewrite sum_list_with_app in N. cbn [sum_list_with] in N. destruct (IH S) as [I1 I2]; [ unfold starts; lia | ].
  destruct (silent_step E y1 l y2 o I1) as (K1 & K2 & _); [ lia | exact He | ]. split; [ exact K1 | ]. intros K. destruct (I2 K) as [K3 K4]. destruct (K2 K3) as [K5 K6].
  split; [ exact K5 | ]. intros x Hx. apply in_app_or in Hx. destruct Hx as [Hx|Hx]; [ exact (K4 x Hx) | exact (K6 x Hx) ].
Qed.
Lemma settled_silent y : settled_calls y -> silent y.
Proof. intros [H1 H2]. constructor; [ exact H1 | ]. intros (i & t & Ht & K). exfalso. pose proof (sum_lookup is_stopping _ _ _ Ht). destruct t; try discriminate K; cbn in *; lia. Qed.
Theorem C66_silent_after_stop : forall E ls0 y0 tr0 ls y tr a b, runs E ls0 y0 tr0 -> settled_calls y0 ->
  steps E y0 ls y tr -> starts ls = 0%nat -> tr = a ++ OStop :: b -> forall x, ~ In (OTx x) b.
Proof.
  intros E ls0 y0 tr0 ls y tr a b R Q S N Ht. destruct (steps_at E _ _ _ _ _ _ _ S Ht) as (ls1 & y1 & tr1 & l & ls2 & y2 & o1 & o2 & tr2 & H1 & Hl & He & H2 & -> & -> & ->).
  unfold starts in N. rewrite sum_list_with_app in N. cbn [sum_list_with] in N.
  destruct (silent_steps E y0 ls1 y1 tr1 (settled_silent _ Q)) as [K1 _]; [ unfold starts; lia | exact H1 | ].
  destruct (silent_step E y1 l y2 (o1 ++ OStop :: o2) K1) as (K2 & _ & K3); [ lia | exact He | ]. destruct K3 as [K3 K4]; [ apply in_or_app; right; left; reflexivity | ].
  destruct (silent_steps E y2 ls2 y tr2 K2) as [_ K5]; [ unfold starts; lia | exact H2 | ]. destruct (K5 K3) as [_ K6].
  destruct o1 as [|u [|? ?]]; try discriminate K4. cbn in K4. injection K4 as ->. exact K6.
Qed.
(** In particular when Start and Stop are used in turn. *)
Theorem C66_silent_in_turn : forall E ls0 y0 tr0 ls y tr a b, life E any ls0 y0 tr0 Up ->
  steps E y0 ls y tr -> starts ls = 0%nat -> tr = a ++ OStop :: b -> forall x, ~ In (OTx x) b.
Proof.
  intros E ls0 y0 tr0 ls y tr a b L. pose proof (life_tidy _ _ _ _ _ L) as T. apply (C66_silent_after_stop E ls0 y0 tr0); [ exact (life_runs _ _ _ _ _ _ L) | ].
  split; [ exact (td_starting _ _ _ T) | exact (td_stopping _ _ _ T) ].
Qed.
(** A poll arrives, the node is stopped before its answer leaves; afterwards sendLoop drops the answer. *)
Example C66_ex : exists ls0 y0 tr0 ls y tr a b, life node1 any ls0 y0 tr0 Up /\ steps node1 y0 ls y tr /\ starts ls = 0%nat /\ tr = a ++ OStop :: b /\ (exists x, In (ODrop x) b).
Proof.
  assert (K : exists ls1 y1 tr1 ls2 y2 tr2, life node1 any ls1 y1 tr1 Up /\ steps node1 y1 ls2 y2 tr2 /\
     (bool_decide (starts ls2 = 0%nat) && match tr2 with [ODown; OStop; ODrop _] => true | _ => false end) = true).
  { apply (tested_life2_ok node1 (fun _ _ => true) any (up_node ++ arrive 4 host2 poll_bytes ++ parse 2 ++ go_n 5 3 ++ go_n 1 4 ++ go_n 3 1) (stop_node 6 ++ go_n 3 1)
      (fun _ _ _ ls2 y2 tr2 => bool_decide (starts ls2 = 0%nat) && match tr2 with [ODown; OStop; ODrop _] => true | _ => false end) (fun _ _ _ => I)).
    vm_compute. reflexivity. }
  destruct K as (ls1 & y1 & tr1 & ls2 & y2 & tr2 & L & S & H). apply andb_prop in H. destruct H as [H1 H2]. apply bool_decide_eq_true in H1.
  exists ls1, y1, tr1, ls2, y2, tr2, [ODown], (tl (tl tr2)). split; [ exact L | ]. split; [ exact S | ]. split; [ exact H1 | ].
  destruct tr2 as [|o1 [|o2 [|o3 [|? ?]]]]; try discriminate; destruct o1; try discriminate; destruct o2; try discriminate; destruct o3; try discriminate.
  split; [ reflexivity | ]. eexists. left. reflexivity.
Qed.

(** * C72 *)
(** Start right after Stop: the old reader's read fails because its own socket was closed, and crashes the program. *)
Theorem C72_old_reader_refuted : exists ls y tr i, life node1 closed_read ls y tr Up /\ calls ls = [true; false; true] /\ exec node1 y (LRun i CGo) = RCrash.
Proof.
  destruct (tested_life_ok node1 closed_readb closed_read (up_node ++ stop_node 5 ++ act (LRun 4 CErr) ++ act LStart ++ go_n 6 2) (fun ls y tr ph => bool_decide (calls ls = [true; false; true]) &&
      match ph with Up => true | _ => false end && crashes node1 y)) as (ls & y & tr & ph & L & H); [ exact closed_readb_ok | vm_compute; reflexivity | ].
  apply andb_prop in H. destruct H as [H H3]. apply andb_prop in H. destruct H as [H1 H2]. apply bool_decide_eq_true in H1. destruct ph; try discriminate.
  destruct (crashes_at _ _ H3) as [i Hi]. exists ls, y, tr, i. auto.
Qed.
(** ... or the old loops, if they are slow, go on with the channels and the socket of the new run: two sendLoops
    take from the same channel. *)
Definition sends_on (g : nat) (t : thread) : nat := match t with SL_wait h => if Nat.eqb g h then 1 else 0 | _ => 0 end.
Theorem C72_two_loops_refuted : exists ls y tr, life node1 closed_read ls y tr Up /\ calls ls = [true; false; true] /\ length (S_gens (Y_sh y)) = 2%nat /\
  sum_list_with (sends_on 1) (Y_threads y) = 2%nat.
Proof.
  destruct (tested_life_ok node1 closed_readb closed_read (act LStart ++ go_n 0 2 ++ stop_node 4 ++ act LStart ++ go_n 5 2 ++ go_n 3 1 ++ go_n 8 1)
      (fun ls y tr ph => bool_decide (calls ls = [true; false; true]) && bool_decide (length (S_gens (Y_sh y)) = 2%nat) && bool_decide (sum_list_with (sends_on 1) (Y_threads y) = 2%nat) &&
      match ph with Up => true | _ => false end)) as (ls & y & tr & ph & L & H); [ exact closed_readb_ok | vm_compute; reflexivity | ].
  apply andb_prop in H. destruct H as [H H4]. apply andb_prop in H. destruct H as [H H3]. apply andb_prop in H. destruct H as [H1 H2].
  apply bool_decide_eq_true in H1, H2, H3. destruct ph; try discriminate. exists ls, y, tr. auto.
Qed.
(** In careful lives there is exactly one goroutine of each kind from Start to Stop, on the channels and the socket
    of the current run. *)
Definition on (ph : phase) : Prop := ph = Starting \/ ph = Up.
Record full (E : env) (y : sys) : Prop := {
  fu_pr : sum_list_with (fun t => w_opening t + is_pr t)%nat (Y_threads y) = 1%nat;
  fu_sl : sum_list_with (fun t => w_opening t + is_sl t)%nat (Y_threads y) = 1%nat;
  fu_rl : sum_list_with (fun t => w_opening t + is_rl t)%nat (Y_threads y) = 1%nat;
  fu_rd : sum_list_with w_reader (Y_threads y) = 1%nat;
  fu_cp : E_ctl E = true -> sum_list_with (fun t => w_starting t + is_cp t)%nat (Y_threads y) = 1%nat;
  fu_dl : E_ctl E = true -> sum_list_with (fun t => w_starting t + is_dl t)%nat (Y_threads y) = 1%nat;
  fu_flag : sum_list_with w_opening (Y_threads y) = 0%nat -> S_shutdown (Y_sh y) = false;
  fu_listening : forall i, Y_threads y !! i = Some U_listen -> S_shutdown (Y_sh y) = false;
  fu_conn : sum_list_with w_opening (Y_threads y) = 0%nat -> exists c, last_index (S_conns (Y_sh y)) = Some c /\ flag_at (S_conns (Y_sh y)) c = true;
}.
Definition is_loop (t : thread) : nat := (is_pr t + is_sl t + is_rl t + is_rd t + is_cp t + is_dl t)%nat.
Lemma announce_ok E e : wf_config (E_config E) -> snd (PollReply_MarshalBinary (ArtPollReplyFromConfig (E_config E))) = Err e -> False.
Proof. intros W H. destruct (C39_announcement_decodable_partial _ W) as (b & Hb & _). congruence. Qed.
Lemma poll_ok e : snd (Poll_MarshalBinary (mkPoll Header_zero (TalkToMe_WithReplyOnChange 0 true) DpAll)) = Err e -> False.
Proof. intros H. vm_compute in H. discriminate. Qed.
(** A loop thread of a running node: Start has opened the socket, nothing is closed. *)
Lemma loop_open E y ph i t : on ph -> full E y -> tidy E y ph -> (is_cp t + is_dl t = 0 \/ E_ctl E = true)%nat -> Y_threads y !! i = Some t -> is_loop t = 1%nat ->
  sum_list_with w_opening (Y_threads y) = 0%nat /\ S_shutdown (Y_sh y) = false /\ gen_open (Y_sh y) /\ (E_ctl E = true -> cgen_open (Y_sh y)).
Proof.
  intros O F T Hc Ht Hl.
  assert (Z : sum_list_with w_opening (Y_threads y) = 0%nat).
  { pose proof (fu_pr _ _ F) as F1. pose proof (fu_sl _ _ F) as F2. pose proof (fu_rl _ _ F) as F3. pose proof (fu_rd _ _ F) as F4. rewrite !sum_add in *.
    unfold w_reader in F4. rewrite !sum_add in F4.
    pose proof (sum_lookup is_pr _ _ _ Ht). pose proof (sum_lookup is_sl _ _ _ Ht). pose proof (sum_lookup is_rl _ _ _ Ht). pose proof (sum_lookup is_rd _ _ _ Ht).
    pose proof (sum_lookup is_cp _ _ _ Ht). pose proof (sum_lookup is_dl _ _ _ Ht).
    assert (K : (sum_list_with w_opening (Y_threads y) <= sum_list_with w_starting (Y_threads y))%nat) by (apply sum_le; intros []; cbn; lia).
    unfold is_loop in Hl. destruct Hc as [Hc|Hc]; [ lia | ]. pose proof (fu_cp _ _ F Hc) as F5. pose proof (fu_dl _ _ F Hc) as F6. rewrite !sum_add in *. lia. }
  split; [ exact Z | ]. split; [ exact (fu_flag _ _ F Z) | ]. destruct O as [->| ->].
  - pose proof (td_starting _ _ _ T) as S1. cbn in S1.
    assert (K : exists j, Y_threads y !! j = Some U_start_loops).
    { clear - Z S1. induction (Y_threads y) as [|u l IH]; cbn in *; [ discriminate | ]. destruct (decide (w_starting u = 0%nat)) as [Hu|Hu].
      - destruct IH as [j Hj]; [ lia | lia | ]. exists (S j). exact Hj.
      - exists 0%nat. cbn. f_equal. destruct u; cbn in *; try lia; reflexivity. }
    destruct K as [j Hj]. exact (Forall_lookup_1 _ _ _ _ (td_stage _ _ _ T) Hj).
  - pose proof (td_up _ _ _ T eq_refl) as [K1 K2]. split; [ exact K1 | ]. intros K. exact (proj1 (K2 K)).
Qed.
Lemma last_unique {A} (l : list A) n g : (n <= length l <= S n)%nat -> (n < length l)%nat -> last_index l = Some g -> g = n.
Proof. unfold last_index. destruct (length l) as [|k]; [ lia | ]. intros H1 H2 H. injection H as <-. lia. Qed.
Lemma full_step E ls0 y0 tr0 ls1 y tr1 ph i c t s t' sp o : wf_config (E_config E) -> runs E ls0 y0 tr0 -> quiescent y0 -> steps E y0 ls1 y tr1 -> (starts ls1 <= 1)%nat ->
  on ph -> full E y -> tidy E y ph -> Y_threads y !! i = Some t -> tstep E (Y_sh y) t c = Next s t' sp o -> on (fold_left answer o ph) ->
  full E (mkSys s (<[i := t']> (Y_threads y) ++ sp)).
Proof.
  intros Wf R Q S N O F T Et Es O'. pose proof (single_run _ _ _ _ _ Q S N) as G.
  pose proof (runs_ok _ _ _ _ (steps_app _ _ _ _ _ _ _ _ R S)) as OK.
  pose proof (Forall_lookup_1 _ _ _ _ (sg_placed _ _ _ _ _ G) Et) as P. destruct (sg_bounded _ _ _ _ _ G) as (B1 & B2 & B3).
  assert (Hctl : (length (S_gens (Y_sh y0)) < length (S_gens (Y_sh y)) -> length (S_cgens (Y_sh y0)) < length (S_cgens (Y_sh y)) -> E_ctl E = true)%nat).
  { intros _ K. apply (ok_cgens _ _ _ (sys_shared _ _ _ OK)). unfold has. lia. }
  assert (Hcp : (is_cp t + is_dl t = 0 \/ E_ctl E = true)%nat) by (destruct t; cbn [is_cp is_dl placed] in *; try (left; reflexivity); right; apply Hctl; tauto).
  pose proof (loop_open E y ph i t O F T Hcp Et) as X.
  assert (X2 : forall g, is_loop t = 1%nat -> (length (S_gens (Y_sh y0)) < length (S_gens (Y_sh y)))%nat -> g = length (S_gens (Y_sh y0)) -> gen_closed (Y_sh y) g = false).
  { intros g K1 K2 ->. destruct (X K1) as (_ & _ & (g & K3 & K4) & _). rewrite <- (last_unique _ _ _ B1 K2 K3). exact K4. }
  assert (X3 : forall k, is_loop t = 1%nat -> (length (S_gens (Y_sh y0)) < length (S_gens (Y_sh y)))%nat -> (length (S_cgens (Y_sh y0)) < length (S_cgens (Y_sh y)))%nat -> k = length (S_cgens (Y_sh y0)) -> flag_at (S_cgens (Y_sh y)) k = false).
  { intros k K1 K0 K2 ->. destruct (X K1) as (_ & _ & _ & K). destruct (K (Hctl K0 K2)) as (g & K3 & K4). rewrite <- (last_unique _ _ _ B3 K2 K3). exact K4. }
  assert (X4 : is_stopping t = 0%nat).
  { pose proof (sum_lookup is_stopping _ _ _ Et) as K. rewrite (td_stopping _ _ _ T) in K. destruct O as [-> | ->]; lia. }
  assert (X5 : t = U_listen -> S_shutdown (Y_sh y) = false) by (intros ->; exact (fu_listening _ _ F i Et)).
  assert (M : (w_opening t' + is_pr t' + sum_list_with (fun t => w_opening t + is_pr t) sp = w_opening t + is_pr t /\
              w_opening t' + is_sl t' + sum_list_with (fun t => w_opening t + is_sl t) sp = w_opening t + is_sl t /\
              w_opening t' + is_rl t' + sum_list_with (fun t => w_opening t + is_rl t) sp = w_opening t + is_rl t /\
              w_reader t' + sum_list_with w_reader sp = w_reader t /\
              (E_ctl E = true -> w_starting t' + is_cp t' + sum_list_with (fun t => w_starting t + is_cp t) sp = w_starting t + is_cp t) /\
              (E_ctl E = true -> w_starting t' + is_dl t' + sum_list_with (fun t => w_starting t + is_dl t) sp = w_starting t + is_dl t) /\
              w_opening t' + sum_list_with w_opening sp + (match t with U_listen => 1 | _ => 0 end) = w_opening t)%nat /\
              (w_opening t' = 1%nat -> t' = U_listen -> S_shutdown s = false) /\ Forall (fun u => u <> U_listen) sp /\
              (w_opening t = 0%nat -> S_shutdown s = S_shutdown (Y_sh y) /\ S_conns s = S_conns (Y_sh y)) /\
              (t = U_listen -> S_shutdown s = false /\ exists c, last_index (S_conns s) = Some c /\ flag_at (S_conns s) c = true)).
  { clear - Wf X X2 X3 X4 X5 P O' Es Hctl. tcases Es; try discriminate X4; cbn [placed] in P.
    all: try (exfalso; match goal with H : PollReply_MarshalBinary _ = _ |- _ => idtac | H : snd (PollReply_MarshalBinary _) = Err _ |- _ => exact (announce_ok _ _ Wf H)
               | H : snd (Poll_MarshalBinary _) = Err _ |- _ => exact (poll_ok _ H) end).
    all: try (exfalso; match goal with H : gen_closed _ _ = true |- _ => rewrite X2 in H by tauto; discriminate H end).
    all: try (exfalso; match goal with H : flag_at (S_cgens _) _ = true |- _ => rewrite X3 in H by tauto; discriminate H end).
    all: try (exfalso; match goal with H : S_shutdown _ = true |- _ => destruct (X eq_refl) as (_ & K & _); congruence end).
    all: try (exfalso; destruct O' as [O'|O']; discriminate O').
    all: split; [ repeat (split; [ try reflexivity; try (intros; reflexivity); try (intros; congruence) | ]); reflexivity | ].
    all: split; [ try discriminate; try reflexivity; try (intros; discriminate) | ].
    all: split; [ repeat (apply Forall_cons; split; [ discriminate | ]); apply Forall_nil_2 | ].
    all: split; [ try discriminate; intros _; split; reflexivity | ].
    all: try discriminate.
    all: intros _; split; [ exact (X5 eq_refl) | ]; cbn [S_conns with_conns]; exists (length (S_conns (Y_sh y))); rewrite last_app; split; [ reflexivity | ];
      unfold flag_at; rewrite list_lookup_middle by reflexivity; reflexivity. }
  destruct M as ((M1 & M2 & M3 & M4 & M5 & M6 & M7) & M8 & M9 & M10 & M11).
  assert (U : forall w, (w t' + sum_list_with w sp = w t)%nat -> sum_list_with w (<[i := t']> (Y_threads y) ++ sp) = sum_list_with w (Y_threads y)).
  { intros w K. rewrite sum_list_with_app. pose proof (sum_insert w _ i t t' Et). lia. }
  assert (V : (sum_list_with w_opening (<[i := t']> (Y_threads y) ++ sp) + match t with U_listen => 1 | _ => 0 end = sum_list_with w_opening (Y_threads y))%nat).
  { rewrite sum_list_with_app. pose proof (sum_insert w_opening _ i t t' Et). lia. }
  constructor; cbn [Y_sh Y_threads].
  - rewrite U; [ exact (fu_pr _ _ F) | exact M1 ].
  - rewrite U; [ exact (fu_sl _ _ F) | exact M2 ].
  - rewrite U; [ exact (fu_rl _ _ F) | exact M3 ].
  - rewrite U; [ exact (fu_rd _ _ F) | exact M4 ].
  - intros K. rewrite U; [ exact (fu_cp _ _ F K) | exact (M5 K) ].
  - intros K. rewrite U; [ exact (fu_dl _ _ F K) | exact (M6 K) ].
  - intros K. assert (D : t = U_listen \/ t <> U_listen) by (destruct t; try (left; reflexivity); right; discriminate). destruct D as [D|D].
    + apply M11, D.
    + assert (K0 : sum_list_with w_opening (Y_threads y) = 0%nat) by (destruct t; try contradiction; lia).
      destruct M10 as [M10 _]; [ pose proof (sum_lookup w_opening _ _ _ Et); lia | ]. rewrite M10. exact (fu_flag _ _ F K0).
  - intros j Hj. apply lookup_app_Some in Hj. destruct Hj as [Hj|[_ Hj]]; [ | exfalso; exact (Forall_lookup_1 _ _ _ _ M9 Hj eq_refl) ].
    destruct (Nat.eq_dec i j) as [->|Hn].
    + rewrite list_lookup_insert in Hj by (eapply lookup_lt_Some; exact Et). injection Hj as ->. exact (M8 eq_refl eq_refl).
    + rewrite list_lookup_insert_ne in Hj by exact Hn. assert (K : w_opening t = 0%nat).
      { pose proof (sum_two w_opening _ _ _ _ _ Hn Et Hj) as K. cbn in K. pose proof (fu_pr _ _ F) as K2. rewrite sum_add in K2. lia. }
      destruct (M10 K) as [-> _]. exact (fu_listening _ _ F j Hj).
  - intros K. assert (D : t = U_listen \/ t <> U_listen) by (destruct t; try (left; reflexivity); right; discriminate). destruct D as [D|D].
    + apply M11, D.
    + assert (K0 : sum_list_with w_opening (Y_threads y) = 0%nat) by (destruct t; try contradiction; lia).
      destruct M10 as [_ M10]; [ pose proof (sum_lookup w_opening _ _ _ Et); lia | ]. rewrite M10. exact (fu_conn _ _ F K0).
Qed.
Lemma sum_0_le {A} (f g : A -> nat) l : sum_list_with g l = 0%nat -> (forall x, (f x <= g x)%nat) -> sum_list_with f l = 0%nat.
Proof. intros H K. pose proof (sum_le f g l K). lia. Qed.
Lemma careful_full E ls y tr ph : wf_config (E_config E) -> life E careful ls y tr ph -> on ph -> full E y.
Proof.
  intros Wf L. induction L as [|ls y tr ph l ph1 y' o L IH A Hl Hc He]; intros O; [ destruct O; discriminate | ].
  pose proof (life_tidy _ _ _ _ _ (life_any _ _ _ _ _ _ L)) as T. destruct (careful_split _ _ _ _ _ L) as (ls0 & y0 & tr0 & ls1 & tr1 & R & Q & S & N & -> & ->).
  apply exec_cases in He.
  destruct He as [(i & c & t & s & t' & sp & -> & Et & Es & ->)|[(t & -> & -> & Hk)|(mm & op & f & -> & -> & X)]].
  - cbn in Hc. injection Hc as <-. assert (D : on ph \/ ~ on ph) by (unfold on; destruct ph; auto; right; intros [K|K]; discriminate). destruct D as [D|D].
    + exact (full_step E ls0 y0 tr0 ls1 y tr1 ph i c t s t' sp o Wf R Q S N D (IH D) T Et Es O).
    + exfalso. apply D. pose proof (td_starting _ _ _ T) as K1. assert (K2 : w_starting t = 0%nat) by (pose proof (sum_lookup w_starting _ _ _ Et); destruct ph; try lia; exfalso; apply D; left; reflexivity).
      assert (K3 : fold_left answer o ph = ph \/ fold_left answer o ph = Idle) by (clear - K2 Es; tcases Es; try discriminate K2; auto).
      destruct K3 as [K3|K3]; rewrite K3 in O; [ exact O | destruct O; discriminate ].
  - destruct Hk as [[-> ->]|[[-> ->]|(dmx & a & -> & _ & ->)]].
    + destruct ph; try discriminate Hc. injection Hc as <-. destruct A as [A _]. specialize (A eq_refl).
      assert (K : forall w : thread -> nat, w TDone = 0%nat -> sum_list_with w (Y_threads y ++ [if E_ctl E then U_start_ctl else U_start_node]) = w (if E_ctl E then U_start_ctl else U_start_node)).
      { intros w Hw. rewrite sum_list_with_app, (quiescent_sum w y Hw A). cbn. lia. }
      constructor; cbn [Y_sh Y_threads]; intros; rewrite ?K in * by reflexivity; try (destruct (E_ctl E); reflexivity); try (destruct (E_ctl E); discriminate).
      exfalso. match goal with H : _ !! _ = Some U_listen |- _ => apply lookup_app_Some in H; destruct H as [H|[_ H]] end.
      * pose proof (Forall_lookup_1 _ _ _ _ A H) as K2. cbn beta in K2. discriminate K2.
      * apply elem_of_list_lookup_2 in H. apply elem_of_list_singleton in H. destruct (E_ctl E); discriminate.
    + destruct ph; try discriminate Hc. injection Hc as <-. destruct O; discriminate.
    + cbn in Hc. injection Hc as <-. destruct (IH O) as [F1 F2 F3 F4 F5 F6 F7 F8 F9].
      assert (K : forall w : thread -> nat, w (U_send dmx a) = 0%nat -> sum_list_with w (Y_threads y ++ [U_send dmx a]) = sum_list_with w (Y_threads y)).
      { intros w Hw. rewrite sum_list_with_app. cbn. lia. }
      constructor; cbn [Y_sh Y_threads]; intros; rewrite ?K in * by reflexivity; auto.
      match goal with H : _ !! _ = Some U_listen |- _ => apply lookup_app_Some in H; destruct H as [H|[_ H]] end; [ eauto | ].
      exfalso. apply elem_of_list_lookup_2 in H. apply elem_of_list_singleton in H. discriminate.
  - assert (Hp : ph1 = ph) by (destruct X as (_ & _ & ->); destruct f; cbn in Hc; injection Hc as <-; reflexivity). subst ph1. cbn in O.
    destruct (IH O) as [F1 F2 F3 F4 F5 F6 F7 F8 F9]. constructor; cbn [Y_sh Y_threads S_shutdown S_conns with_callbacks]; auto.
Qed.
Theorem C72_one_set_partial : forall E ls y tr, wf_config (E_config E) -> life E careful ls y tr Up ->
  sum_list_with is_pr (Y_threads y) = 1%nat /\ sum_list_with is_sl (Y_threads y) = 1%nat /\ sum_list_with is_rl (Y_threads y) = 1%nat /\
  (sum_list_with is_rd (Y_threads y) <= 1)%nat /\ (sum_list_with is_rd (Y_threads y) = 0%nat -> exists i, Y_threads y !! i = Some RL_start) /\
  (E_ctl E = true -> sum_list_with is_cp (Y_threads y) = 1%nat /\ sum_list_with is_dl (Y_threads y) = 1%nat) /\
  (exists g c, last_index (S_gens (Y_sh y)) = Some g /\ gen_closed (Y_sh y) g = false /\ last_index (S_conns (Y_sh y)) = Some c /\ flag_at (S_conns (Y_sh y)) c = true /\
     Forall (fun t => match t with
                      | PR_wait _ h | PR_sending _ h | SL_wait h | RL_wait h | RD_pushing _ _ h | H_polling _ h | H_replying _ h
                      | CP_sending _ h | CP_polling _ h | CP_wait _ h _ | DL_pushing _ _ h => h = g
                      | RD_reading _ d => d = c
                      | _ => True
                      end) (Y_threads y)) /\
  (forall i c, (exists t, Y_threads y !! i = Some t /\ is_rd t = 1%nat) -> exec E y (LRun i c) <> RCrash).
Proof.
  intros E ls y tr Wf L. pose proof (careful_full _ _ _ _ _ Wf L (or_intror eq_refl)) as F. pose proof (life_tidy _ _ _ _ _ (life_any _ _ _ _ _ _ L)) as T.
  destruct (careful_split _ _ _ _ _ L) as (ls0 & y0 & tr0 & ls1 & tr1 & R & Q & S & N & _ & _). pose proof (single_run _ _ _ _ _ Q S N) as G.
  pose proof (td_starting _ _ _ T) as S1. cbn in S1.
  assert (Z : sum_list_with w_opening (Y_threads y) = 0%nat) by (apply (sum_0_le _ w_starting _ S1); intros []; cbn; lia).
  pose proof (fu_pr _ _ F) as F1. pose proof (fu_sl _ _ F) as F2. pose proof (fu_rl _ _ F) as F3. pose proof (fu_rd _ _ F) as F4.
  unfold w_reader in F4. rewrite !sum_add in *.
  split; [ lia | ]. split; [ lia | ]. split; [ lia | ]. split; [ lia | ]. split.
  { intros K. assert (K1 : sum_list_with (fun t => match t with RL_start => 1 | _ => 0 end)%nat (Y_threads y) = 1%nat) by lia. clear - K1.
    induction (Y_threads y) as [|t l IH]; cbn in *; [ discriminate | ]. destruct t; try (destruct (IH K1) as [j Hj]; exists (S j); exact Hj). exists 0%nat. reflexivity. }
  split. { intros K. pose proof (fu_cp _ _ F K) as F5. pose proof (fu_dl _ _ F K) as F6. rewrite !sum_add in *. lia. }
  split.
  { destruct (td_up _ _ _ T eq_refl) as [(g & G1 & G2) _]. destruct (fu_conn _ _ F Z) as (c & C1 & C2). exists g, c. repeat (split; [ assumption | ]).
    destruct (sg_bounded _ _ _ _ _ G) as (B1 & B2 & B3).
    eapply Forall_impl; [ exact (sg_placed _ _ _ _ _ G) | ]. intros t P. destruct t; try exact I; cbn [placed] in P; try (rewrite (last_unique _ _ _ B1 (proj1 P) G1); tauto).
    rewrite (last_unique _ _ _ B2 (proj1 (proj2 P)) C1). tauto. }
  intros i c (t & Ht & Hr). exact (proj2 C63_reader_partial E ls y tr Up i t c L Ht Hr).
Qed.
Definition P_Life_theorems :=
  (C61_stop_first_refuted, C61_stop_twice_refuted, C61_controller_stop_first_refuted, C61_calls_in_turn_partial, C62_listen_failure_refuted, C62_stale_error_refuted,
   C62_invalid_partial, C63_read_error_refuted, C63_reader_partial, C66_silent_after_stop, C66_silent_in_turn, C72_old_reader_refuted, C72_two_loops_refuted, C72_one_set_partial,
   C61_ex, C62_ex, C63_ex, C66_ex).
Print Assumptions P_Life_theorems.
