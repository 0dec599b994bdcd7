(** C80: under every schedule, how a stopped node or controller comes to an end, and which goroutines hang for ever; in every run of the interleaving semantics of Sys.v. *)
From Verif Require Import WireSpec P_Config P_Controller SysFacts SysLaws SysRun SysOrder SysScript P_Node P_Life P_Live P_Wire P_Settle.
From stdpp Require Import base list gmap.
Open Scope N_scope.

(** * C80 *)
(** The last call of Start or Stop that returned was one of Stop. *)
Definition stopped_last (tr : list obs) : bool := fold_left (fun b o => match o with OStop => true | OStart _ => false | _ => b end) tr false.
(** What Stop leaves behind: the flag set, the channels and the socket of the last Start closed. *)
Definition closed_down (s : shared) : Prop :=
  S_shutdown s = true /\ (forall g, last_index (S_gens s) = Some g -> gen_closed s g = true) /\
  (forall k, last_index (S_conns s) = Some k -> flag_at (S_conns s) k = false) /\ (forall k, last_index (S_cgens s) = Some k -> flag_at (S_cgens s) k = true).
Definition part_down (s : shared) (t : thread) : Prop :=
  let gens := forall g, last_index (S_gens s) = Some g -> gen_closed s g = true in
  let conns := forall k, last_index (S_conns s) = Some k -> flag_at (S_conns s) k = false in
  match t with
  | U_close => S_shutdown s = true
  | U_closeconn => S_shutdown s = true /\ gens
  | U_waitclosed | U_closectl => S_shutdown s = true /\ gens /\ conns
  | _ => True
  end.
Lemma part_down_idle s u : is_stopping u = 0%nat -> part_down s u.
Proof. destruct u; cbn; intros; try exact I; discriminate. Qed.
(** Steps of the goroutines leave closed what is closed. *)
Lemma other_closed E s t c s' t' sp o : is_api t = 0%nat -> tstep E s t c = Next s' t' sp o ->
  (forall b, fold_left (fun b o => match o with OStop => true | OStart _ => false | _ => b end) o b = b) /\
  ((forall g, last_index (S_gens s) = Some g -> gen_closed s g = true) -> forall g, last_index (S_gens s') = Some g -> gen_closed s' g = true).
Proof.
  intros Ha H. tcases H; try discriminate Ha; (split; [ reflexivity | ]); intros K; try exact K.
  all: intros h Hh; erewrite gen_closed_upd by first [ eassumption | reflexivity ]; apply K; unfold last_index, upd_gen in *; cbn [S_gens with_gens] in Hh; rewrite insert_length in Hh; exact Hh.
Qed.
Lemma flag_insert (l : list bool) k b : last_index l = Some k -> forall k', last_index (<[k := b]> l) = Some k' -> flag_at (<[k := b]> l) k' = b.
Proof.
  unfold last_index. rewrite insert_length. intros H k' H'. rewrite H in H'. injection H' as <-. unfold flag_at. rewrite list_lookup_insert; [ reflexivity | ].
  destruct (length l); [ discriminate | ]. injection H as ->. lia.
Qed.
Lemma stop_step E s t c s' t' sp o : is_stopping t = 1%nat -> (E_ctl E = false -> S_cgens s = []) -> part_down s t -> tstep E s t c = Next s' t' sp o ->
  sp = [] /\ part_down s' t' /\ (is_stopping t' = 0%nat -> closed_down s') /\ (is_stopping t' = 1%nat -> o = [] \/ o = [ODown]).
Proof.
  intros Ha Hc Hp H. tcases H; try discriminate Ha; (split; [ reflexivity | ]); cbn [part_down] in *.
  all: split; [ try exact I | split; [ intros K; try discriminate K | intros K; try discriminate K; auto ] ].
  - reflexivity.
  - split; [ exact Hp | ]. intros h Hh. unfold last_index, upd_gen in *. cbn [S_gens with_gens] in Hh. rewrite insert_length in Hh. unfold gen_closed. cbn [S_gens with_gens].
    replace h with g by congruence. rewrite list_lookup_insert by (eapply lookup_lt_Some; eassumption). reflexivity.
  - destruct Hp as [P1 P2]. split; [ exact P1 | ]. split; [ exact P2 | ]. apply flag_insert. assumption.
  - destruct Hp as [P1 P2]. split; [ exact P1 | ]. split; [ exact P2 | ]. congruence.
  - destruct Hp as [P1 P2]. split; [ exact P1 | ]. split; [ exact P2 | ]. split; [ apply flag_insert; assumption | ]. cbn [S_cgens with_conns]. rewrite Hc by assumption. discriminate.
  - destruct Hp as [P1 P2]. split; [ exact P1 | ]. split; [ exact P2 | ]. split; [ congruence | ]. rewrite Hc by assumption. discriminate.
  - exact Hp.
  - destruct Hp as (P1 & P2 & P3). split; [ exact P1 | ]. split; [ exact P2 | ]. split; [ exact P3 | ]. apply flag_insert. assumption.
Qed.
Lemma stopped_last_app tr o : stopped_last (tr ++ o) = fold_left (fun b o => match o with OStop => true | OStart _ => false | _ => b end) o (stopped_last tr).
Proof. apply fold_left_app. Qed.
Lemma life_down E ls y tr ph : life E any ls y tr ph -> Forall (part_down (Y_sh y)) (Y_threads y) /\ (ph = Idle -> stopped_last tr = true -> closed_down (Y_sh y)).
Proof.
  intros H. induction H as [|ls y tr ph l ph1 y' o L IH _ Hok Hc He]; [ split; [ constructor | discriminate ] | ]. destruct IH as [P D].
  pose proof (life_tidy _ _ _ _ _ L) as T. pose proof (life_tidy _ _ _ _ _ (life_snoc E any _ _ _ _ _ _ _ _ L I Hok Hc He)) as T'.
  pose proof (runs_ok _ _ _ _ (life_runs _ _ _ _ _ _ L)) as OK.
  assert (Hcg : E_ctl E = false -> S_cgens (Y_sh y) = []).
  { intros K. destruct (S_cgens (Y_sh y)) eqn:Eg; [ reflexivity | ]. assert (has (S_cgens (Y_sh y))) by (rewrite Eg; unfold has; cbn; lia). pose proof (ok_cgens _ _ _ (sys_shared _ _ _ OK) ltac:(assumption)). congruence. }
  assert (Z : forall s (l : list thread), sum_list_with is_stopping l = 0%nat -> Forall (part_down s) l).
  { intros s l0 H0. apply Forall_forall. intros u Hu. apply elem_of_list_lookup in Hu. destruct Hu as [j Hu]. apply part_down_idle. pose proof (sum_lookup is_stopping _ _ _ Hu). lia. }
  pose proof He as He'. apply exec_cases in He.
  destruct He as [(i & c & t & s & t' & sp & -> & Et & Es & ->)|[(t & -> & -> & Hk)|(mm & op & f & -> & -> & _ & _ & ->)]].
  - cbn in Hc. injection Hc as <-. cbn [Y_sh Y_threads] in *. rewrite stopped_last_app.
    destruct (is_api t) as [|n] eqn:Ea.
    + destruct (other_step E _ _ _ _ _ _ _ Ea Es) as (O1 & O2 & O3 & O4 & O5 & O6 & O7 & O8). destruct (other_closed E _ _ _ _ _ _ _ Ea Es) as [C1 C2]. rewrite C1, O3.
      split.
      * assert (Ps : forall u, part_down (Y_sh y) u -> part_down s u) by (intros []; cbn [part_down]; rewrite ?O7, ?O8; intuition).
        apply Forall_app. split; [ | apply Z; rewrite api_split in O2; lia ]. apply Forall_insert; [ | apply part_down_idle; unfold is_api in O1; lia ]. eapply Forall_impl; [ exact P | exact Ps ].
      * intros K1 K2. destruct (D K1 K2) as (D1 & D2 & D3 & D4). unfold closed_down. rewrite O5, O7, O8. split; [ exact D1 | ]. split; [ exact (C2 D2) | ]. split; [ exact D3 | exact D4 ].
    + pose proof (sum_lookup is_stopping _ _ _ Et) as S1. pose proof (sum_lookup w_starting _ _ _ Et) as S2. rewrite (td_stopping _ _ _ T) in S1. rewrite (td_starting _ _ _ T) in S2.
      destruct ph; unfold is_api in Ea; try lia.
      * (* Starting *)
        assert (St : is_stopping t = 0%nat) by lia. 
        split.
        -- apply Z. pose proof (sum_insert is_stopping _ i t t' Et) as I1. rewrite sum_list_with_app, (td_stopping _ _ _ T) in *. cbn [Y_threads] in *.
           assert (is_stopping t' = 0%nat /\ sum_list_with is_stopping sp = 0%nat) by (clear - Es St Ea; tcases Es; try discriminate St; try discriminate Ea; try lia; split; reflexivity). lia.
        -- intros K1 K2. exfalso. clear - K1 K2 Es St Ea. tcases Es; try discriminate St; try discriminate Ea; try discriminate K1; try discriminate K2; cbn in St, Ea; try lia.
      * (* Stopping *)
        assert (St : is_stopping t = 1%nat) by (pose proof (sum_lookup is_stopping _ _ _ Et); destruct t; cbn in *; lia).
        destruct (stop_step E _ _ _ _ _ _ _ St Hcg (Forall_lookup_1 _ _ _ _ P Et) Es) as (-> & Q1 & Q2 & Q3). rewrite app_nil_r in *.
        pose proof (sum_insert is_stopping _ i t t' Et) as I1. rewrite (td_stopping _ _ _ T) in I1.
        split.
        -- apply Forall_lookup_2. intros j u Hj. destruct (Nat.eq_dec i j) as [->|Hn]; [ rewrite list_lookup_insert in Hj by (eapply lookup_lt_Some; exact Et); injection Hj as <-; exact Q1 | ].
           rewrite list_lookup_insert_ne in Hj by exact Hn. apply part_down_idle. pose proof (sum_two is_stopping _ _ _ _ _ Hn Et Hj). rewrite (td_stopping _ _ _ T) in *. lia.
        -- intros K1 K2. apply Q2. assert (is_stopping t' = 0 \/ is_stopping t' = 1)%nat as [K|K] by (destruct t'; cbn; lia); [ exact K | ]. destruct (Q3 K) as [-> | ->]; discriminate K1.
  - cbn [Y_sh Y_threads fold_left] in *. rewrite app_nil_r. destruct Hk as [[-> ->]|[[-> ->]|(dmx & a & -> & _ & ->)]].
    + destruct ph; try discriminate Hc. injection Hc as <-. split; [ | discriminate ]. apply Forall_app. split; [ exact P | ]. constructor; [ destruct (E_ctl E); exact I | constructor ].
    + destruct ph; try discriminate Hc. injection Hc as <-. split; [ | discriminate ]. apply Forall_app. split; [ exact P | ]. constructor; [ destruct (E_ctl E); exact I | constructor ].
    + cbn in Hc. injection Hc as <-. split; [ apply Forall_app; split; [ exact P | repeat constructor ] | exact D ].
  - assert (ph1 = ph) as -> by (destruct f, ph; cbn in Hc; congruence). cbn [fold_left answer]. rewrite stopped_last_app. cbn [fold_left].
    split; [ eapply Forall_impl; [ exact P | ]; intros []; cbn; auto | exact D ].
Qed.

(** What goroutines do in a stopped node when no datagram arrives, no ticker fires and no call is made: their own steps, seeing closed channels, and failing socket operations. *)
Definition ending (t : thread) (c : Sys.choice) : bool :=
  internal t c || match t, c with
                  | (PR_wait _ _ | SL_wait _ | RL_wait _ | CP_wait _ _ _ | DL_wait _), CDown => true
                  | (RD_reading _ _ | SL_write _), CErr => true
                  | _, _ => false
                  end.
Definition end1 (E : env) (y y' : sys) : Prop := exists i t c o, Y_threads y !! i = Some t /\ ending t c = true /\ exec E y (LRun i c) = RNext y' o.
Inductive ends (E : env) : sys -> list label -> sys -> list obs -> Prop :=
| ends_nil y : ends E y [] y []
| ends_cons y i t c y1 o ls y2 tr : Y_threads y !! i = Some t -> ending t c = true -> exec E y (LRun i c) = RNext y1 o -> ends E y1 ls y2 tr ->
    ends E y (LRun i c :: ls) y2 (o ++ tr).
(** Stopped states. *)
Record stopped (E : env) (y : sys) : Prop := {
  sd_fps : E_ctl E = true -> (0 < E_maxFPS E <= 1000000000)%Z;
  sd_life : exists ls tr, life E careful ls y tr Idle /\ stopped_last tr = true;
}.
Lemma stopped_down E y : stopped E y -> closed_down (Y_sh y).
Proof. intros [_ (ls & tr & L & St)]. exact (proj2 (life_down _ _ _ _ _ (life_any _ _ _ _ _ _ L)) eq_refl St). Qed.
Lemma stopped_idle E y i t : stopped E y -> Y_threads y !! i = Some t -> is_api t = 0%nat.
Proof.
  intros [_ (ls & tr & L & St)] Ht. pose proof (life_tidy _ _ _ _ _ (life_any _ _ _ _ _ _ L)) as T. pose proof (sum_lookup w_starting _ _ _ Ht) as A1. pose proof (sum_lookup is_stopping _ _ _ Ht) as A2.
  rewrite (td_starting _ _ _ T) in A1. rewrite (td_stopping _ _ _ T) in A2. unfold is_api. lia.
Qed.
Lemma stopped_nocrash E y l : stopped E y -> exec E y l <> RCrash.
Proof.
  intros V H. pose proof (stopped_down E y V) as (D & _). destruct V as [Fp (ls & tr & L & St)].
  destruct (proj1 (C61_calls_in_turn_partial _ _ _ _ _ (life_any _ _ _ _ _ _ L)) l H) as (i & t & _ & Ht & [(b & -> & Hs)|[-> K]]); [ congruence | ].
  pose proof (runs_ok _ _ _ _ (life_runs _ _ _ _ _ _ L)) as OK. destruct (Forall_lookup_1 _ _ _ _ (sys_threads _ _ _ OK) Ht) as [_ [_ Rf]].
  pose proof (Fp (ok_cgens _ _ _ (sys_shared _ _ _ OK) Rf)). lia.
Qed.
(** Everything that is left belongs to the last Start. *)
Lemma stopped_placed E y : stopped E y ->
  Forall (fun t => match t with
                   | TDone | U_send _ _ => True
                   | _ => exists g ch k, last_index (S_gens (Y_sh y)) = Some g /\ S_gens (Y_sh y) !! g = Some ch /\ last_index (S_conns (Y_sh y)) = Some k /\
                       ((is_cp t + is_dl t = 1)%nat -> exists cg, last_index (S_cgens (Y_sh y)) = Some cg) /\
                       match t with
                       | PR_wait _ h | PR_sending _ h | SL_wait h | RL_wait h | RD_pushing _ _ h | H_polling _ h | H_replying _ h
                       | CP_sending _ h | CP_polling _ h | DL_pushing _ _ h => h = g
                       | CP_wait _ h cg => h = g /\ last_index (S_cgens (Y_sh y)) = Some cg
                       | DL_wait cg => last_index (S_cgens (Y_sh y)) = Some cg
                       | RD_reading _ h => h = k
                       | _ => True
                       end
                   end) (Y_threads y).
Proof.
  intros V. pose proof (stopped_idle E y) as Id. apply Forall_forall. intros t Ht. apply elem_of_list_lookup in Ht. destruct Ht as [i Ht]. pose proof (Id i t V Ht) as Ha.
  destruct V as [_ (ls & tr & L & _)].
  destruct (careful_split _ _ _ _ _ L) as (ls0 & y0 & tr0 & ls1 & tr1 & R & Q & St & N & _ & _). pose proof (single_run _ _ _ _ _ Q St N) as G.
  destruct (sg_bounded _ _ _ _ _ G) as (B1 & B2 & B3). pose proof (Forall_lookup_1 _ _ _ _ (sg_placed _ _ _ _ _ G) Ht) as P.
  assert (La : forall A (l : list A) n, (n <= length l <= S n)%nat -> (n < length l)%nat -> last_index l = Some n).
  { intros A l n K1 K2. unfold last_index. destruct (length l) as [|m]; [ lia | ]. f_equal. lia. }
  assert (Key : (length (S_gens (Y_sh y0)) < length (S_gens (Y_sh y)))%nat -> (length (S_conns (Y_sh y0)) < length (S_conns (Y_sh y)))%nat ->
    exists g ch k, last_index (S_gens (Y_sh y)) = Some g /\ S_gens (Y_sh y) !! g = Some ch /\ last_index (S_conns (Y_sh y)) = Some k /\ g = length (S_gens (Y_sh y0)) /\ k = length (S_conns (Y_sh y0))).
  { intros K1 K2. destruct (lookup_lt_is_Some_2 _ _ K1) as [ch Hch]. exists (length (S_gens (Y_sh y0))), ch, (length (S_conns (Y_sh y0))). repeat (split; [ auto | ]). auto. }
  destruct t; try exact I; try discriminate Ha; cbn [placed] in P.
  all: destruct Key as (g' & ch & k & K1 & K2 & K3 & K4 & K5); [ tauto | tauto | ].
  all: exists g', ch, k; split; [ exact K1 | split; [ exact K2 | split; [ exact K3 | ] ] ].
  all: split; [ cbn; intros W; first [ discriminate W | exists (length (S_cgens (Y_sh y0))); apply La; tauto ] | ].
  all: try exact I; try (destruct P as (P1 & P2 & P3); congruence).
  - destruct P as (_ & _ & _ & P). congruence.
  - destruct P as (_ & _ & _ & P). congruence.
  - destruct P as (_ & _ & P1 & P2 & P3). split; [ congruence | ]. rewrite P3. apply La; assumption.
  - destruct P as (_ & _ & P1 & P2). rewrite P2. apply La; assumption.
  - destruct P as (_ & _ & _ & P). congruence.
Qed.
Lemma stopped_life E y i t c y' o ls tr : (E_ctl E = true -> (0 < E_maxFPS E <= 1000000000)%Z) -> life E careful ls y tr Idle -> stopped_last tr = true ->
  Y_threads y !! i = Some t -> ending t c = true -> exec E y (LRun i c) = RNext y' o -> life E careful (ls ++ [LRun i c]) y' (tr ++ o) Idle /\ stopped_last (tr ++ o) = true.
Proof.
  intros Fp L St Ht Hi He. assert (V : stopped E y) by (constructor; eauto). pose proof (stopped_idle E y i t V Ht) as Ha. pose proof (stopped_down E y V) as (_ & _ & D & _).
  assert (Hl : label_ok (LRun i c)) by (destruct t, c; try discriminate Hi; exact I).
  assert (Hc : careful y (LRun i c)).
  { split; [ discriminate | ]. intros j b d K Hj. injection K as -> ->. rewrite Hj in Ht. injection Ht as <-. pose proof (Forall_lookup_1 _ _ _ _ (stopped_placed E y V) Hj) as K.
    cbn beta iota in K. destruct K as (g & ch & k & _ & _ & K1 & _ & ->). exact (D _ K1). }
  pose proof (life_snoc E careful ls y tr Idle (LRun i c) Idle y' o L Hc Hl eq_refl He) as L'.
  cbn [exec] in He. rewrite Ht in He. destruct (tstep E (Y_sh y) t c) as [| |s t' sp o1] eqn:Es; try discriminate He. injection He as <- <-.
  rewrite (proj1 (proj2 (proj2 (other_step _ _ _ _ _ _ _ _ Ha Es))) Idle) in L'. split; [ exact L' | ]. rewrite stopped_last_app, (proj1 (other_closed _ _ _ _ _ _ _ _ Ha Es)). exact St.
Qed.
Lemma stopped_next E y i t c y' o : stopped E y -> Y_threads y !! i = Some t -> ending t c = true -> exec E y (LRun i c) = RNext y' o -> stopped E y'.
Proof. intros [Fp (ls & tr & L & St)] Ht Hi He. constructor; [ exact Fp | ]. destruct (stopped_life E y i t c y' o ls tr Fp L St Ht Hi He). eauto. Qed.

(** The measure. *)
Definition remains (t : thread) : nat :=
  match t with
  | TDone => 0
  | RD_got _ None => 3
  | RL_start => 47
  | RD_read _ | RD_reading _ _ | RD_got _ (Some _) | RD_push _ _ | RD_pushing _ _ _ => 2 * weigh t + 41
  | _ => 2 * weigh t + 1
  end%nat.
Definition remaining (y : sys) : nat := (sum_list_with (fun ch => 2 * weigh_ch ch) (S_gens (Y_sh y)) + sum_list_with remains (Y_threads y))%nat.
Lemma end_decreases E s t c s' t' sp o : is_api t = 0%nat -> locking t = 0%nat -> ending t c = true -> tstep E s t c = Next s' t' sp o ->
  (remains t' + sum_list_with remains sp + sum_list_with (fun ch => 2 * weigh_ch ch) (S_gens s') < remains t + sum_list_with (fun ch => 2 * weigh_ch ch) (S_gens s))%nat /\
  locking t' = 0%nat /\ sum_list_with locking sp = 0%nat.
Proof.
  intros Ha Hl Hi H. tcases H; try discriminate Ha; try discriminate Hl; try discriminate Hi.
  all: split; [ | split; reflexivity ].
  all: cbn [S_gens upd_gen with_tables with_gens].
  all: unfold upd_gen; cbn [S_gens with_gens].
  all: try match goal with H : S_gens ?s !! ?g = Some ?ch |- context [<[?g := ?ch']> (S_gens ?s)] => pose proof (sum_insert (fun ch => 2 * weigh_ch ch)%nat (S_gens s) g ch ch' H) as Hw end.
  all: unfold weigh_ch in *; cbn [Q_send Q_recv Q_poll Q_reply set_send set_recv set_poll set_reply] in *.
  all: repeat match goal with H : push _ _ = Some _ |- _ => apply push_length in H; rewrite H in * end.
  all: repeat match goal with H : Q_send _ = _ |- _ => rewrite H in * | H : Q_recv _ = _ |- _ => rewrite H in * | H : Q_poll _ = _ |- _ => rewrite H in * | H : Q_reply _ = _ |- _ => rewrite H in * end.
  all: cbn [remains weigh sum_list_with length] in *; try lia.
Qed.
Lemma end_step E y y' : stopped E y -> end1 E y y' -> stopped E y' /\
  ((sum_list_with locking (Y_threads y') < sum_list_with locking (Y_threads y))%nat \/
   sum_list_with locking (Y_threads y') = sum_list_with locking (Y_threads y) /\ (remaining y' < remaining y)%nat).
Proof.
  intros V (i & t & c & o & Ht & Hi & He). split; [ exact (stopped_next _ _ _ _ _ _ _ V Ht Hi He) | ]. pose proof (stopped_idle _ _ _ _ V Ht) as Ha.
  cbn [exec] in He. rewrite Ht in He. destruct (tstep E (Y_sh y) t c) as [| |s t' sp o1] eqn:Es; try discriminate He. injection He as <- <-. cbn [Y_threads].
  pose proof (sum_insert locking _ i t t' Ht) as I2. pose proof (sum_insert remains _ i t t' Ht) as I1. rewrite !sum_list_with_app.
  destruct (Nat.eq_dec (locking t) 0%nat) as [Hl|Hl].
  - right. destruct (end_decreases E _ _ _ _ _ _ _ Ha Hl Hi Es) as (W1 & W2 & W3). split; [ lia | ]. unfold remaining. cbn [Y_sh Y_threads]. rewrite sum_list_with_app. lia.
  - left. destruct t; try (exfalso; apply Hl; reflexivity). apply tstep_trans in Es. inversion Es; subst. cbn in *. lia.
Qed.
Lemma end_terminates E : forall k n y, sum_list_with locking (Y_threads y) = k -> (remaining y <= n)%nat -> stopped E y -> Acc (fun b a => end1 E a b) y.
Proof.
  induction k as [k IHk] using lt_wf_ind. induction n as [n IHn] using lt_wf_ind. intros y Hk Hn V. constructor. intros y' Hq.
  destruct (end_step E y y' V Hq) as [V' [Hl|[Hl Hw]]].
  - apply (IHk (sum_list_with locking (Y_threads y'))) with (n := remaining y'); [ lia | reflexivity | reflexivity | exact V' ].
  - apply (IHn (remaining y')); [ lia | congruence | reflexivity | exact V' ].
Qed.
Lemma ends_stopped E y ls y' tr : ends E y ls y' tr -> stopped E y -> stopped E y' /\
  (sum_list_with locking (Y_threads y) = 0%nat -> sum_list_with locking (Y_threads y') = 0%nat /\ (remaining y' <= remaining y)%nat).
Proof.
  induction 1 as [|y i t c y1 o ls y2 tr Ht Hi He Q IH]; intros V; [ auto | ]. destruct (end_step E y y1 V) as [V1 K]; [ exists i, t, c, o; auto | ].
  destruct (IH V1) as [V2 K2]. split; [ exact V2 | ]. intros Hl. destruct K as [K|[K1 K3]]; [ lia | ]. destruct K2 as [K4 K5]; [ lia | ]. split; [ exact K4 | lia ].
Qed.

(** A goroutine that has ended, or is blocked on a full queue of the last Start, or waits for the controller's lock. *)
Definition full_queue {A} (q : chans -> list A) (s : shared) (g : nat) : Prop :=
  last_index (S_gens s) = Some g /\ exists ch, S_gens s !! g = Some ch /\ length (q ch) = 10%nat.
Definition hung (s : shared) (t : thread) : Prop :=
  match t with
  | TDone => True
  | PR_sending _ g | CP_sending _ g | DL_pushing _ _ g => full_queue Q_send s g
  | RD_pushing _ _ g => full_queue Q_recv s g
  | H_polling _ g | CP_polling _ g => full_queue Q_poll s g
  | H_replying _ g => full_queue Q_reply s g
  | CP_gc _ | CP_reply _ _ | DL_lock _ | U_send _ _ => S_lock s = true
  | _ => False
  end.
Lemma push_full {A} (q : list A) x : (length q <= 10)%nat -> push q x = None -> length q = 10%nat.
Proof. unfold push, chan_cap. destruct (Nat.ltb_spec (length q) 10); [ discriminate | lia ]. Qed.
Lemma stopped_final E y : stopped E y -> (forall y2, ~ end1 E y y2) -> Forall (hung (Y_sh y)) (Y_threads y).
Proof.
  intros V F. apply Forall_forall. intros t Ht. apply elem_of_list_lookup in Ht. destruct Ht as [i Ht]. pose proof (stopped_idle _ _ _ _ V Ht) as Ha.
  pose proof (Forall_lookup_1 _ _ _ _ (stopped_placed E y V) Ht) as P. cbn beta in P. destruct (stopped_down E y V) as (D1 & D2 & D3 & D4).
  assert (B : forall c, ending t c = true -> tstep E (Y_sh y) t c = Blocked).
  { intros c Hc. pose proof (stopped_nocrash E y (LRun i c) V) as Hn. destruct (exec E y (LRun i c)) as [| |y2 o] eqn:He; [ | contradiction | ].
    - cbn [exec] in He. rewrite Ht in He. destruct (tstep E (Y_sh y) t c); [ reflexivity | discriminate He | discriminate He ].
    - exfalso. apply (F y2). exists i, t, c, o. auto. }
  assert (Le : forall g ch, S_gens (Y_sh y) !! g = Some ch -> (length (Q_send ch) <= 10 /\ length (Q_recv ch) <= 10 /\ length (Q_poll ch) <= 10 /\ length (Q_reply ch) <= 10)%nat).
  { intros g ch Hg. destruct V as [_ (ls & tr & L & _)]. pose proof (runs_ok _ _ _ _ (life_runs _ _ _ _ _ _ L)) as OK.
    pose proof (Forall_lookup_1 _ _ _ _ (ok_gens _ _ _ (sys_shared _ _ _ OK)) Hg) as K. unfold g_ok in K. unfold chan_cap in K. intuition. }
  destruct t; try discriminate Ha; try exact I; cbn beta iota in P; try (destruct P as (g' & ch & k & K1 & K2 & K3 & K4 & K5)); cbn [hung].
  all: try (specialize (B CGo eq_refl); cbn [tstep] in B; unfold eval_gen in B; rewrite ?K1, ?K3, ?D1 in B; discriminate B).
  all: try (specialize (B CDown eq_refl); cbn [tstep] in B; unfold on_closed in B; subst; rewrite D2 in B by exact K1; discriminate B).
  all: try (subst; specialize (B CGo eq_refl); cbn [tstep] in B; rewrite K2 in B; cbv zeta in B;
    match type of B with context [push ?q ?x] => destruct (push q x) eqn:Hp; [ discriminate B | ]; split; [ exact K1 | ]; exists ch; split; [ exact K2 | ]; apply (push_full _ _ (ltac:(apply (Le _ _ K2)) : (length q <= 10)%nat) Hp) end).
  all: try match goal with |- S_lock _ = true => destruct (S_lock (Y_sh y)) eqn:Hl; [ reflexivity | exfalso ] end.
  all: try (specialize (B CErr eq_refl); cbn [tstep] in B; rewrite ?K3 in B; discriminate B).
  all: try (destruct (K4 eq_refl) as [cg K6]).
  all: try (specialize (B CDown eq_refl); cbn [tstep] in B; unfold on_closed in B; first [ rewrite (D4 _ K5) in B | rewrite (D4 _ (proj2 K5)) in B ]; discriminate B).
  all: try (specialize (B CGo eq_refl); cbn [tstep] in B; unfold eval_gen in B; rewrite ?K6, ?K1, ?Hl in B; repeat match type of B with context [match ?x with _ => _ end] => destruct x end; discriminate B).
  - specialize (B (CClock (fun _ => 0%Z)) eq_refl). cbn [tstep] in B. rewrite Hl in B. destruct (step _ _) as [[? ?]|]; discriminate B.
  - specialize (B (CTime 0%Z) eq_refl). cbn [tstep] in B. rewrite Hl in B. destruct (step _ _) as [[? ?]|]; discriminate B.
  - specialize (B (COrder (map_to_list (K_OutputAddress (S_tables (Y_sh y))))) eq_refl). cbn [tstep] in B. rewrite Hl, bool_decide_eq_true_2 in B by reflexivity. destruct (step _ _) as [[? ?]|]; discriminate B.
Qed.

(** Whatever is started later only ever uses the channels of that later Start. *)
Definition newer (G : nat) (s : shared) (t : thread) : Prop :=
  match t with
  | TDone | U_send _ _ | U_start_ctl | U_start_node | U_stop_ctl | U_flag | U_close | U_closeconn | U_waitclosed | U_closectl => True
  | PR_wait _ g | PR_sending _ g | SL_wait g | RL_wait g | RD_pushing _ _ g | H_polling _ g | H_replying _ g | CP_sending _ g | CP_polling _ g | CP_wait _ g _ | DL_pushing _ _ g =>
      (G <= g)%nat /\ (G < length (S_gens s))%nat
  | _ => (G < length (S_gens s))%nat
  end.
Definition contents (ch : chans) := (Q_send ch, Q_recv ch, Q_poll ch, Q_reply ch).
Lemma newer_later G s s' t : (length (S_gens s) <= length (S_gens s'))%nat -> newer G s t -> newer G s' t.
Proof. intros H. destruct t; cbn [newer]; lia. Qed.
Lemma contents_upd (G : nat) s h (ch ch' : chans) : S_gens s !! h = Some ch -> (G <= h)%nat \/ contents ch' = contents ch ->
  forall g, (g < G)%nat -> (contents <$> S_gens (upd_gen s h ch') !! g) = (contents <$> S_gens s !! g).
Proof.
  intros H1 H2 g Hg. unfold upd_gen. cbn [S_gens with_gens]. destruct (Nat.eq_dec h g) as [->|Hn].
  - rewrite list_lookup_insert by (eapply lookup_lt_Some; exact H1). rewrite H1. cbn. destruct H2; [ lia | congruence ].
  - rewrite list_lookup_insert_ne by exact Hn. reflexivity.
Qed.
Lemma newer_step E G s t c s' t' sp o : (G <= length (S_gens s))%nat -> newer G s t -> tstep E s t c = Next s' t' sp o ->
  (length (S_gens s) <= length (S_gens s'))%nat /\ newer G s' t' /\ Forall (newer G s') sp /\
  (forall g, (g < G)%nat -> (contents <$> S_gens s' !! g) = (contents <$> S_gens s !! g)) /\
  (delivering t = 0%nat -> S_lock s = true -> S_lock s' = true).
Proof.
  intros HG Hn H. tcases H; cbn [newer] in Hn.
  all: split; [ unfold upd_gen; cbn [S_gens with_gens with_tables with_cgens with_shutdown with_conns with_err with_tickers]; rewrite ?insert_length, ?app_length; cbn; lia | ].
  all: split; [ cbn [newer]; unfold upd_gen; cbn [S_gens with_gens with_tables with_cgens with_shutdown with_conns with_err with_tickers]; rewrite ?insert_length, ?app_length;
    try match goal with H : last_index _ = Some _ |- _ => unfold last_index in H; destruct (length _) eqn:?; [ discriminate H | injection H as H ] end; cbn; try lia; try exact I | ].
  all: split; [ repeat constructor; cbn [newer S_gens with_conns with_tickers]; lia | ].
  all: split; [ intros h Hh | intros Dv Lk; try discriminate Dv; try congruence; try exact Lk ].
  all: try reflexivity.
  all: try (eapply (contents_upd G); [ eassumption | first [ left; tauto | right; reflexivity ] | exact Hh ]).
  cbn [S_gens with_shutdown with_gens]. rewrite lookup_app_l by lia. reflexivity.
Qed.
(** Goroutines that hang in a stopped node do so for ever, whatever happens later. *)
Record hanging (y0 y : sys) : Prop := {
  hg_lock : lock_inv y;
  hg_gens : (length (S_gens (Y_sh y0)) <= length (S_gens (Y_sh y)))%nat;
  hg_old : forall j t, Y_threads y0 !! j = Some t -> Y_threads y !! j = Some t;
  hg_new : forall j t, Y_threads y0 !! j = None -> Y_threads y !! j = Some t -> newer (length (S_gens (Y_sh y0))) (Y_sh y) t;
  hg_queues : forall g, (g < length (S_gens (Y_sh y0)))%nat -> (contents <$> S_gens (Y_sh y) !! g) = (contents <$> S_gens (Y_sh y0) !! g);
  hg_locked : S_lock (Y_sh y0) = true -> S_lock (Y_sh y) = true;
}.
Lemma hung_blocked E s0 s t c : hung s0 t -> (forall g, (g < length (S_gens s0))%nat -> (contents <$> S_gens s !! g) = (contents <$> S_gens s0 !! g)) ->
  (S_lock s0 = true -> S_lock s = true) -> tstep E s t c = Blocked.
Proof.
  intros Hh Hq Hl.
  assert (K : forall A (q : chans -> list A) (x : A) g, (forall c1 c2, contents c1 = contents c2 -> q c1 = q c2) -> full_queue q s0 g -> exists ch, S_gens s !! g = Some ch /\ push (q ch) x = None).
  { intros A q x g Hc (F1 & ch & F2 & F3). specialize (Hq g (lookup_lt_Some _ _ _ F2)). rewrite F2 in Hq. destruct (S_gens s !! g) as [ch'|]; [ | discriminate Hq ]. cbn in Hq.
    exists ch'. split; [ reflexivity | ]. rewrite (Hc ch' ch) by congruence. unfold push, chan_cap. rewrite F3. reflexivity. }
  unfold contents in K.
  destruct t, c; try contradiction; try reflexivity; cbn [hung] in Hh; cbn [tstep]; try (rewrite (Hl Hh); reflexivity).
  all: cbv zeta; match goal with |- context [push (?q _) ?x] => destruct (K _ q x _ ltac:(intros c1 c2 Hc; injection Hc; auto) Hh) as (ch & Hg & Hp) end; rewrite Hg, Hp; reflexivity.
Qed.
Lemma hanging_step E y0 y l y' o : Forall (hung (Y_sh y0)) (Y_threads y0) -> lock_inv y0 -> hanging y0 y -> exec E y l = RNext y' o -> hanging y0 y'.
Proof.
  intros Hh L0 [H1 H2 H3 H4 H5 H6] He. pose proof (lock_exec E y l y' o H1 He) as H1'. apply exec_cases in He.
  destruct He as [(i & c & t & s & t' & sp & -> & Et & Es & ->)|[(t & -> & -> & Hk)|(mm & op & f & -> & -> & _ & _ & ->)]].
  - destruct (Y_threads y0 !! i) as [u|] eqn:Eu.
    { exfalso. pose proof (H3 _ _ Eu) as K. rewrite Et in K. injection K as <-. rewrite (hung_blocked E _ _ t c (Forall_lookup_1 _ _ _ _ Hh Eu) H5 H6) in Es. discriminate Es. }
    destruct (newer_step E _ _ _ _ _ _ _ _ H2 (H4 _ _ Eu Et) Es) as (N1 & N2 & N3 & N4 & N5).
    constructor; cbn [Y_sh Y_threads]; [ exact H1' | lia | | | | ].
    + intros j u Hj. rewrite lookup_app_l by (rewrite insert_length; eapply lookup_lt_Some; exact (H3 _ _ Hj)). rewrite list_lookup_insert_ne by congruence. exact (H3 _ _ Hj).
    + intros j u Hj Hu. destruct (Nat.lt_ge_cases j (length (Y_threads y))) as [K|K].
      * rewrite lookup_app_l in Hu by (rewrite insert_length; exact K). destruct (Nat.eq_dec i j) as [->|Hn].
        -- rewrite list_lookup_insert in Hu by exact K. injection Hu as <-. exact N2.
        -- rewrite list_lookup_insert_ne in Hu by exact Hn. exact (newer_later _ _ _ _ N1 (H4 _ _ Hj Hu)).
      * rewrite lookup_app_r in Hu by (rewrite insert_length; exact K). exact (Forall_lookup_1 _ _ _ _ N3 Hu).
    + intros g Hg. rewrite (N4 _ Hg). exact (H5 _ Hg).
    + intros K. apply N5; [ | exact (H6 K) ]. unfold lock_inv in *. rewrite K in L0. rewrite (H6 K) in H1. destruct (sum_pos delivering (Y_threads y0)) as (j & u & Hj & Hu); [ lia | ].
      assert (Hn : i <> j) by congruence. pose proof (sum_two delivering _ _ _ _ _ Hn Et (H3 _ _ Hj)). lia.
  - assert (Hnew : forall s, newer (length (S_gens (Y_sh y0))) s t) by (destruct Hk as [[_ ->]|[[_ ->]|(dmx & a & _ & _ & ->)]]; try destruct (E_ctl E); intros s; exact I).
    constructor; cbn [Y_sh Y_threads]; try assumption.
    + intros j u Hj. rewrite lookup_app_l by (eapply lookup_lt_Some; exact (H3 _ _ Hj)). exact (H3 _ _ Hj).
    + intros j u Hj Hu. apply lookup_app_Some in Hu. destruct Hu as [Hu|[_ Hu]]; [ | apply list_lookup_singleton_Some in Hu; destruct Hu as [_ <-] ]; [ exact (H4 _ _ Hj Hu) | apply Hnew ].
  - constructor; cbn [Y_sh Y_threads]; try assumption.
Qed.
Lemma hangs E y0 ls y tr : Forall (hung (Y_sh y0)) (Y_threads y0) -> lock_inv y0 -> steps E y0 ls y tr -> hanging y0 y.
Proof.
  intros Hh L0 H. induction H as [|y0 ls y1 tr1 l y2 o Hs IH Hl He].
  - constructor; auto. intros j t H1 H2. congruence.
  - eapply hanging_step; [ eassumption | eassumption | apply IH; assumption | exact He ].
Qed.

(** When Stop finds everything settled, nothing can hang. *)
Definition calm (t : thread) : bool :=
  match t with TDone | PR_wait _ _ | SL_wait _ | RL_wait _ | RD_reading _ _ | RD_got _ None | CP_wait _ _ _ | DL_wait _ | U_send _ _ => true | _ => false end.
Definition settled (y : sys) : Prop :=
  Forall (fun t => calm t = true) (Y_threads y) /\ forall g ch, last_index (S_gens (Y_sh y)) = Some g -> S_gens (Y_sh y) !! g = Some ch -> drained ch.
Lemma settled_step E y y' : stopped E y -> settled y -> end1 E y y' -> settled y'.
Proof.
  intros V [C Q] (i & t & c & o & Ht & Hi & He). destruct (stopped_down E y V) as (D1 & _). pose proof (Forall_lookup_1 _ _ _ _ (stopped_placed E y V) Ht) as P. cbn beta in P.
  pose proof (Forall_lookup_1 _ _ _ _ C Ht) as Ct. cbn beta in Ct. cbn [exec] in He. rewrite Ht in He. destruct (tstep E (Y_sh y) t c) as [| |s t' sp o1] eqn:Es; try discriminate He. injection He as <- <-.
  enough (S_gens s = S_gens (Y_sh y) /\ calm t' = true /\ sp = []) as (K1 & K2 & ->).
  { split; cbn [Y_sh Y_threads]; [ rewrite app_nil_r; apply Forall_insert; assumption | rewrite K1; exact Q ]. }
  tcases Es; try discriminate Ct; try discriminate Hi; try (repeat split; reflexivity).
  all: destruct P as (g' & ch' & k & K1 & K2 & K3 & K4 & K5); try match type of K5 with _ /\ _ => destruct K5 as [K5 _] end; subst; destruct (Q _ _ K1 K2) as (Z1 & Z2 & Z3 & Z4); congruence.
Qed.
Lemma settled_ends E y ls y' tr : ends E y ls y' tr -> stopped E y -> settled y -> settled y'.
Proof.
  induction 1 as [|y i t c y1 o ls y2 tr Ht Hi He Q IH]; intros V S; [ exact S | ]. assert (K : end1 E y y1) by (exists i, t, c, o; auto).
  apply IH; [ exact (proj1 (end_step E y y1 V K)) | exact (settled_step E y y1 V S K) ].
Qed.

(** After Stop has returned, if no datagram arrives, no ticker fires and no call is made, then whatever the scheduler does only finitely many steps are left. When no step is possible any more,
    every goroutine has ended or is blocked: on a queue of the last Start that holds ten entries, or on the controller's lock, which then is held by the DMX loop blocked on such a queue.
    So nothing hangs if no queue is full at the end, nor if everything was settled when Stop returned. What hangs then does so for ever, whatever is called or started later. *)
Theorem C80_stopped : forall E ls y tr, (E_ctl E = true -> (0 < E_maxFPS E <= 1000000000)%Z) -> life E careful ls y tr Idle -> stopped_last tr = true ->
  (~ exists f : nat -> sys, f 0%nat = y /\ forall n, end1 E (f n) (f (S n))) /\
  forall ls' y' tr', ends E y ls' y' tr' -> (forall y2, ~ end1 E y' y2) ->
    Forall (hung (Y_sh y')) (Y_threads y') /\
    (S_lock (Y_sh y') = true -> exists j f fs g, Y_threads y' !! j = Some (DL_pushing f fs g) /\ full_queue Q_send (Y_sh y') g) /\
    ((forall g ch, last_index (S_gens (Y_sh y')) = Some g -> S_gens (Y_sh y') !! g = Some ch ->
        (length (Q_send ch) < 10 /\ length (Q_recv ch) < 10 /\ length (Q_poll ch) < 10 /\ length (Q_reply ch) < 10)%nat) -> quiescent y') /\
    (settled y -> quiescent y') /\
    (forall ls2 y2 tr2, steps E y' ls2 y2 tr2 -> forall j t, Y_threads y' !! j = Some t -> Y_threads y2 !! j = Some t).
Proof.
  intros E ls y tr Fp L St. assert (V : stopped E y) by (constructor; eauto). split; [ apply no_infinite; eapply end_terminates; [ reflexivity | reflexivity | exact V ] | ].
  intros ls' y' tr' Q F. destruct (ends_stopped E _ _ _ _ Q V) as [V' _]. pose proof (stopped_final E y' V' F) as H.
  assert (Lk : lock_inv y') by (destruct V' as [_ (ls1 & tr1 & L1 & _)]; exact (proj1 (frames_in_order _ _ _ _ (life_runs _ _ _ _ _ _ L1)))).
  assert (Hd : S_lock (Y_sh y') = true -> exists j f fs g, Y_threads y' !! j = Some (DL_pushing f fs g) /\ full_queue Q_send (Y_sh y') g).
  { intros K. unfold lock_inv in Lk. rewrite K in Lk. destruct (sum_pos delivering (Y_threads y')) as (j & t & Hj & Hw); [ lia | ]. pose proof (Forall_lookup_1 _ _ _ _ H Hj) as Ht.
    destruct t; cbn in Hw; try lia; [ contradiction | ]. exists j, f, fs, g. auto. }
  split; [ exact H | ]. split; [ exact Hd | ]. split; [ | split ].
  - intros K. assert (Hl : S_lock (Y_sh y') <> true).
    { intros K1. destruct (Hd K1) as (j & f & fs & g & _ & F1 & ch & F2 & F3). destruct (K _ _ F1 F2). lia. }
    eapply Forall_impl; [ exact H | ]. intros t Ht. destruct t; try contradiction; try reflexivity; cbn [hung] in Ht; try contradiction;
      destruct Ht as (F1 & ch & F2 & F3); destruct (K _ _ F1 F2) as (K1 & K2 & K3 & K4); lia.
  - intros S. destruct (settled_ends E _ _ _ _ Q V S) as [C _]. apply Forall_forall. intros t Ht. pose proof (proj1 (Forall_forall _ _) H t Ht) as K1. pose proof (proj1 (Forall_forall _ _) C t Ht) as K2.
    cbn beta in K2. destruct t; try discriminate K2; try contradiction; [ reflexivity | ]. exfalso. destruct (Hd K1) as (j & f & fs & g & Hj & _). pose proof (Forall_lookup_1 _ _ _ _ C Hj). discriminate.
  - intros ls2 y2 tr2 S. exact (hg_old _ _ (hangs E y' ls2 y2 tr2 H Lk S)).
Qed.

(** Concrete schedules. *)
Fixpoint play_ends (E : env) (y : sys) (fs : script) : option (list label * sys * list obs) :=
  match fs with
  | [] => Some ([], y, [])
  | f :: fs =>
      match f y with
      | LRun i c => if ending (thread_at y i) c then
          match exec E y (LRun i c) with
          | RNext y1 o => match play_ends E y1 fs with Some (ls, y2, tr) => Some (LRun i c :: ls, y2, o ++ tr) | None => None end
          | _ => None
          end else None
      | _ => None
      end
  end.
Lemma play_ends_ok E fs : forall y ls y' tr, play_ends E y fs = Some (ls, y', tr) -> ends E y ls y' tr.
Proof.
  induction fs as [|f fs IH]; intros y ls y' tr H; cbn [play_ends] in H; [ injection H as <- <- <-; constructor | ].
  destruct (f y) as [i c| | | | |]; try discriminate H. destruct (ending (thread_at y i) c) eqn:Hi; [ | discriminate H ]. destruct (exec E y (LRun i c)) as [| |y1 o] eqn:He; try discriminate H.
  destruct (play_ends E y1 fs) as [[[ls1 y2] tr1]|] eqn:Hp; [ | discriminate H ]. injection H as <- <- <-. unfold thread_at in Hi.
  destruct (Y_threads y !! i) as [t|] eqn:Ht; [ econstructor; eauto | ]. exfalso. cbn [exec] in He. rewrite Ht in He. discriminate He.
Qed.
Definition full_queueb {A} (q : chans -> list A) (s : shared) (g : nat) : bool :=
  bool_decide (last_index (S_gens s) = Some g) && match S_gens s !! g with Some ch => (length (q ch) =? 10)%nat | None => false end.
Definition hungb (s : shared) (t : thread) : bool :=
  match t with
  | TDone => true
  | PR_sending _ g | CP_sending _ g | DL_pushing _ _ g => full_queueb Q_send s g
  | RD_pushing _ _ g => full_queueb Q_recv s g
  | H_polling _ g | CP_polling _ g => full_queueb Q_poll s g
  | H_replying _ g => full_queueb Q_reply s g
  | CP_gc _ | CP_reply _ _ | DL_lock _ | U_send _ _ => S_lock s
  | _ => false
  end.
Lemma hungb_ok s t : hungb s t = true -> hung s t.
Proof.
  assert (K : forall A (q : chans -> list A) g, full_queueb q s g = true -> full_queue q s g).
  { intros A q g H. apply andb_prop in H. destruct H as [H1 H2]. apply bool_decide_eq_true in H1. split; [ exact H1 | ]. destruct (S_gens s !! g) as [ch|]; [ | discriminate H2 ]. exists ch. split; [ reflexivity | ]. apply Nat.eqb_eq, H2. }
  destruct t; cbn [hungb hung]; intros H; try exact I; try discriminate H; try exact H; apply K, H.
Qed.
Lemma hung_final E y : Forall (hung (Y_sh y)) (Y_threads y) -> forall y2, ~ end1 E y y2.
Proof.
  intros H y2 (i & t & c & o & Ht & _ & He). cbn [exec] in He. rewrite Ht, (hung_blocked E (Y_sh y) (Y_sh y) t c (Forall_lookup_1 _ _ _ _ H Ht)) in He; auto. discriminate He.
Qed.
Definition settledb (y : sys) : bool :=
  forallb calm (Y_threads y) && match last_index (S_gens (Y_sh y)) with
                                | Some g => match S_gens (Y_sh y) !! g with Some ch => match Q_send ch, Q_recv ch, Q_poll ch, Q_reply ch with [], [], [], [] => true | _, _, _, _ => false end | None => true end
                                | None => true end.
Lemma settledb_ok y : settledb y = true -> settled y.
Proof.
  unfold settledb. intros H. apply andb_prop in H. destruct H as [H1 H2]. split.
  - apply Forall_forall. intros t Ht. rewrite forallb_forall in H1. apply H1, elem_of_list_In, Ht.
  - intros g ch K1 K2. rewrite K1, K2 in H2. unfold drained. destruct (Q_send ch), (Q_recv ch), (Q_poll ch), (Q_reply ch); try discriminate H2. auto.
Qed.
Lemma tested_ends E ok (allow : sys -> label -> Prop) fs fs' (P P' : sys -> list obs -> bool) : (forall y l, ok y l = true -> allow y l) ->
  tested_life E ok fs (fun ls y tr ph => match ph with Idle => true | _ => false end && stopped_last tr && P y tr &&
    match play_ends E y fs' with Some (ls', y', tr') => forallb (hungb (Y_sh y')) (Y_threads y') && P' y' tr' | None => false end) = true ->
  exists ls y tr ls' y' tr', life E allow ls y tr Idle /\ stopped_last tr = true /\ P y tr = true /\ ends E y ls' y' tr' /\ (forall y2, ~ end1 E y' y2) /\ P' y' tr' = true.
Proof.
  intros A H. apply (tested_life_ok E ok allow) in H; [ | exact A ]. destruct H as (ls & y & tr & ph & L & H). apply andb_prop in H. destruct H as [H H4]. apply andb_prop in H. destruct H as [H H3].
  apply andb_prop in H. destruct H as [H1 H2]. destruct ph; try discriminate H1. destruct (play_ends E y fs') as [[[ls' y'] tr']|] eqn:Hp; [ | discriminate H4 ]. apply andb_prop in H4. destruct H4 as [H4 H5].
  exists ls, y, tr, ls', y', tr'. repeat (split; [ assumption | ]). split; [ exact (play_ends_ok _ _ _ _ _ _ Hp) | ]. split; [ | exact H5 ].
  apply hung_final, Forall_forall. intros t Ht. rewrite forallb_forall in H4. apply hungb_ok, H4, elem_of_list_In, Ht.
Qed.
(** The rest of a node, once Stop has returned: the loops see the closed channels, the reader sees the closed socket. *)
Definition all_down (ts : list nat) (r : nat) : script := map (fun i _ => LRun i CDown) ts ++ act (LRun r CErr) ++ go_n r 1.
(** A stopped node with the handler of the eleventh poll hanging; a stopped controller with the DMX loop hanging while it holds the lock, and SendDMXToAddress hanging on the lock; and a node in which
    everything was settled. *)
Example C80_node_ex : exists ls y tr ls' y' tr', life node1 careful ls y tr Idle /\ stopped_last tr = true /\ ends node1 y ls' y' tr' /\ (forall y2, ~ end1 node1 y' y2) /\
  exists j q g, Y_threads y' !! j = Some (H_polling q g).
Proof.
  destruct (tested_ends node1 carefulb careful (up_node ++ eleven_polls ++ stop_node 16) (all_down [1; 2; 3]%nat 4) (fun _ _ => true) (fun y _ => match thread_at y 15 with H_polling _ _ => true | _ => false end))
    as (ls & y & tr & ls' & y' & tr' & H1 & H2 & _ & H4 & H5 & H6); [ exact carefulb_ok | vm_compute; reflexivity | ].
  exists ls, y, tr, ls', y', tr'. repeat (split; [ assumption | ]). unfold thread_at in H6. destruct (Y_threads y' !! 15%nat) as [t|] eqn:Ht; [ | discriminate H6 ]. destruct t; try discriminate H6. eauto.
Qed.
Example C80_controller_ex : exists ls y tr ls' y' tr', life ctl1 careful ls y tr Idle /\ stopped_last tr = true /\ (0 < E_maxFPS ctl1 <= 1000000000)%Z /\ ends ctl1 y ls' y' tr' /\ (forall y2, ~ end1 ctl1 y' y2) /\
  (exists j f fs g, Y_threads y' !! j = Some (DL_pushing f fs g)) /\ exists j dmx a, Y_threads y' !! j = Some (U_send dmx a).
Proof.
  destruct (tested_ends ctl1 carefulb careful blocked_stop (go_n 4 1 ++ all_down [1; 2; 4]%nat 6) (fun _ _ => true) (fun y _ => match thread_at y 5, thread_at y 9 with DL_pushing _ _ _, U_send _ _ => true | _, _ => false end))
    as (ls & y & tr & ls' & y' & tr' & H1 & H2 & _ & H4 & H5 & H6); [ exact carefulb_ok | vm_compute; reflexivity | ].
  exists ls, y, tr, ls', y', tr'. repeat (split; [ first [ assumption | split; [ reflexivity | discriminate ] ] | ]). unfold thread_at in H6. destruct (Y_threads y' !! 5%nat) as [t|] eqn:Ht; [ | discriminate H6 ]. destruct t; try discriminate H6.
  destruct (Y_threads y' !! 9%nat) as [t|] eqn:Hu; [ | discriminate H6 ]. destruct t; try discriminate H6. eauto 10.
Qed.
Example C80_settled_ex : exists ls y tr ls' y' tr', life node1 careful ls y tr Idle /\ stopped_last tr = true /\ settled y /\ ~ quiescent y /\ ends node1 y ls' y' tr' /\ (forall y2, ~ end1 node1 y' y2).
Proof.
  destruct (tested_ends node1 carefulb careful (up_node ++ stop_node 5) (all_down [1; 2; 3]%nat 4) (fun y _ => settledb y && negb (forallb is_done (Y_threads y))) (fun y _ => true))
    as (ls & y & tr & ls' & y' & tr' & H1 & H2 & H3 & H4 & H5 & H6); [ exact carefulb_ok | vm_compute; reflexivity | ]. apply andb_prop in H3. destruct H3 as [H3 H7].
  exists ls, y, tr, ls', y', tr'. repeat (split; [ first [ assumption | apply settledb_ok; assumption ] | ]). split; [ | auto ]. intros Q. apply negb_true_iff in H7.
  assert (K : forallb is_done (Y_threads y) = true) by (apply forallb_forall; intros t Ht; rewrite (proj1 (Forall_forall _ _) Q t (proj2 (elem_of_list_In _ _) Ht)); reflexivity). congruence.
Qed.

Definition P_Stopped_theorems := C80_stopped.
Print Assumptions P_Stopped_theorems.
