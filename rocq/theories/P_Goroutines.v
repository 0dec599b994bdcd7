(** Property C115: how many goroutines a node or controller has (node.go:137-139, 213, 265; controller.go:133-134). *)
From Verif Require Import WireSpec BinaryFacts P_Config ControllerFacts P_Controller SysFacts SysLaws SysRun SysOrder SysScript P_Node P_Life P_Live P_Wire P_Settle Net P_Net P_Flow P_Programs.
From stdpp Require Import base list gmap.
Open Scope N_scope.

(** * Specification *)
(** A goroutine that has not ended; a goroutine that handles one packet. *)
Definition going (t : thread) : nat := match t with TDone => 0 | _ => 1 end.
Definition handling (t : thread) : nat := match t with H_start _ | H_poll _ | H_polling _ _ | H_reply _ | H_replying _ _ => 1 | _ => 0 end.
(** A call of Start, Stop or SendDMXToAddress that has not returned. *)
Definition calling (t : thread) : nat :=
  match t with U_send _ _ | U_start_ctl | U_start_node | U_listen | U_start_loops | U_stop_ctl | U_flag | U_close | U_closeconn | U_waitclosed | U_closectl => 1 | _ => 0 end.
Definition goroutines (y : sys) : nat := sum_list_with going (Y_threads y).
(** Four loops of a node; two more of a controller. *)
Definition loops (E : env) : nat := if E_ctl E then 6 else 4.

(** * Counting *)
Lemma going_split t : going t = (is_loop t + handling t + calling t)%nat.
Proof. destruct t; reflexivity. Qed.
Lemma sum_split3 (f g h k : thread -> nat) l : (forall t, f t = g t + h t + k t)%nat -> sum_list_with f l = (sum_list_with g l + sum_list_with h l + sum_list_with k l)%nat.
Proof. intros H. induction l as [|t l IH]; [ reflexivity | ]. cbn. rewrite H, IH. lia. Qed.
Lemma loops_bound E y : live E y -> (sum_list_with is_loop (Y_threads y) <= loops E)%nat /\ (at_rest y -> sum_list_with is_loop (Y_threads y) = loops E).
Proof.
  intros V. pose proof V as [Wf _ _ (ls & tr & L)]. destruct (C72_one_set_partial _ _ _ _ Wf L) as (H1 & H2 & H3 & H4 & H5 & H6 & _).
  assert (S : forall l, sum_list_with is_loop l = (sum_list_with is_pr l + sum_list_with is_sl l + sum_list_with is_rl l + sum_list_with is_rd l + sum_list_with is_cp l + sum_list_with is_dl l)%nat).
  { induction l as [|t l IH]; [ reflexivity | ]. cbn [sum_list_with]. rewrite IH. unfold is_loop. lia. }
  assert (C : (sum_list_with is_cp (Y_threads y) + sum_list_with is_dl (Y_threads y) = if E_ctl E then 2 else 0)%nat).
  { destruct (E_ctl E) eqn:Ec; [ destruct (H6 eq_refl) as [-> ->]; reflexivity | ]. destruct (node_plain _ _ _ _ Ec (life_runs _ _ _ _ _ _ L)) as [P _]. clear -P. induction (Y_threads y) as [|t l IH]; [ reflexivity | ].
    cbn [forallb] in P. apply andb_prop in P. destruct P as [P1 P2]. specialize (IH P2). cbn [sum_list_with]. destruct t; try discriminate P1; cbn; lia. }
  unfold loops. rewrite S. split; [ destruct (E_ctl E); lia | ]. intros [R _].
  assert (D : sum_list_with is_rd (Y_threads y) = 1%nat). { destruct (sum_list_with is_rd (Y_threads y)) as [|[|n]] eqn:X; [ | reflexivity | lia ]. destruct (H5 eq_refl) as [i Hi]. pose proof (Forall_lookup_1 _ _ _ _ R Hi) as K. discriminate K. }
  rewrite D. destruct (E_ctl E); lia.
Qed.

(** * C115 *)
(** A running node has its loops, one goroutine per packet being handled and the pending calls; with nothing to do exactly its loops. *)
Theorem C115_count : forall E y, live E y ->
  (goroutines y <= loops E + sum_list_with handling (Y_threads y) + sum_list_with calling (Y_threads y))%nat /\ (at_rest y -> goroutines y = loops E).
Proof.
  intros E y V. unfold goroutines. rewrite (sum_split3 _ is_loop handling calling _ going_split). destruct (loops_bound E y V) as [H1 H2]. split; [ lia | ]. intros R. rewrite (H2 R).
  assert (K : (sum_list_with handling (Y_threads y) = 0 /\ sum_list_with calling (Y_threads y) = 0)%nat); [ | lia ]. destruct R as [R _]. clear -R. induction R as [|t l Ht R IH]; [ auto | ]. cbn [sum_list_with].
  destruct IH as [-> ->]. destruct t; try discriminate Ht; auto.
Qed.
(** Every goroutine that handles a packet was started for a datagram of another host, one for each. *)
Theorem C115_handlers : forall E ls y tr, runs E ls y tr -> (sum_list_with handling (Y_threads y) <= length (received E tr))%nat.
Proof.
  intros E ls y tr R. assert (P : (length (parsed tr) <= length (received E tr))%nat). { destruct (C57_callbacks E ls y tr R) as (P & _). rewrite P, !app_length. lia. }
  etransitivity; [ | exact P ]. clear P. unfold runs in R. remember (init E) as y0 eqn:E0. revert E0. induction R as [|y0 ls y1 tr1 l y2 o Hs IH Hl He]; intros ->; [ cbn; lia | ]. specialize (IH eq_refl).
  unfold parsed in *. rewrite collect_app, app_length. apply exec_cases in He.
  destruct He as [(i & c & t & s & t' & sp & -> & Et & Es & ->)|[(t & -> & -> & Hk)|(mm & op & f & -> & -> & Ec & _ & ->)]]; cbn [Y_threads Y_sh].
  - match goal with |- context [collect ?f tr1] => assert (K : (handling t' + sum_list_with handling sp <= handling t + length (collect f o))%nat) by (clear -Es; tcases Es; subst; cbn; try lia; repeat case_match; subst; cbn; lia) end.
    rewrite sum_list_with_app. pose proof (sum_insert handling _ _ _ t' Et) as U. lia.
  - rewrite sum_list_with_app. cbn [sum_list_with]. assert (handling t = 0%nat); [ | lia ]. destruct Hk as [[_ ->]|[[_ ->]|(d & a & _ & _ & ->)]]; [ destruct (E_ctl E) | destruct (E_ctl E) | ]; reflexivity.
  - lia.
Qed.

(** * No bound *)
Section flood.
Context (E : env) (g k : nat) (w : thread -> nat).
Context (Wl : forall t, (handling t + calling t = 0)%nat -> w t = 0%nat).
(** The shared memory of a running node with the given datagrams and polls waiting. *)
Definition shok (s : shared) (q : list (list N)) (ps : list ArtPollPacket) (cb : gmap N handler) : Prop :=
  last_index (S_gens s) = Some g /\ (exists ch, S_gens s !! g = Some ch /\ Q_recv ch = q /\ Q_poll ch = ps) /\ last_index (S_conns s) = Some k /\ flag_at (S_conns s) k = true /\ S_shutdown s = false /\ S_callbacks s = cb.
Record stage (y : sys) (K : gmap nat thread) (q : list (list N)) (ps : list ArtPollPacket) (cb : gmap N handler) (m : nat) : Prop := {
  st_k : forall x t, K !! x = Some t -> Y_threads y !! x = Some t; st_sh : shok (Y_sh y) q ps cb; st_m : (m <= sum_list_with w (Y_threads y))%nat }.
Lemma stage_step y K q ps cb m x t c s' t' o q' ps' m' : stage y K q ps cb m -> K !! x = Some t -> tstep E (Y_sh y) t c = Next s' t' [] o -> shok s' q' ps' cb -> (w t + m' <= m + w t')%nat ->
  exec E y (LRun x c) = RNext (mkSys s' (<[x := t']> (Y_threads y) ++ [])) o /\ stage (mkSys s' (<[x := t']> (Y_threads y) ++ [])) (<[x := t']> K) q' ps' cb m'.
Proof.
  intros [H1 H2 H3] Hx Ht S M. pose proof (H1 _ _ Hx) as Hy. split; [ cbn [exec]; rewrite Hy, Ht; reflexivity | ]. constructor; cbn [Y_threads Y_sh]; [ | exact S | ].
  - intros z u. rewrite app_nil_r, lookup_insert_Some. intros [[<- <-]|[Hz Hu]]; [ apply list_lookup_insert; eapply lookup_lt_Some, Hy | ]. rewrite list_lookup_insert_ne by exact Hz. apply H1, Hu.
  - rewrite sum_list_with_app. cbn [sum_list_with]. pose proof (sum_insert w _ _ _ t' Hy) as U. lia.
Qed.
Lemma stage_spawn y K q ps cb m x t c s' t' u o q' ps' m' : stage y K q ps cb m -> K !! x = Some t -> tstep E (Y_sh y) t c = Next s' t' [u] o -> shok s' q' ps' cb -> (w t + m' <= m + w t' + w u)%nat ->
  exec E y (LRun x c) = RNext (mkSys s' (<[x := t']> (Y_threads y) ++ [u])) o /\ stage (mkSys s' (<[x := t']> (Y_threads y) ++ [u])) (<[length (Y_threads y) := u]> (<[x := t']> K)) q' ps' cb m'.
Proof.
  intros [H1 H2 H3] Hx Ht S M. pose proof (H1 _ _ Hx) as Hy. pose proof (lookup_lt_Some _ _ _ Hy) as Lx. split; [ cbn [exec]; rewrite Hy, Ht; reflexivity | ]. constructor; cbn [Y_threads Y_sh]; [ | exact S | ].
  - intros z v. rewrite lookup_insert_Some. intros [[<- <-]|[Hz Hv]]; [ apply list_lookup_middle; rewrite insert_length; reflexivity | ]. apply lookup_app_l_Some.
    rewrite lookup_insert_Some in Hv. destruct Hv as [[<- <-]|[Hz' Hv]]; [ apply list_lookup_insert, Lx | ]. rewrite list_lookup_insert_ne by exact Hz'. apply H1, Hv.
  - rewrite sum_list_with_app. cbn [sum_list_with]. pose proof (sum_insert w _ _ _ t' Hy) as U. lia.
Qed.
Lemma shok_upd s q q' ps ps' cb ch ch' : shok s q ps cb -> S_gens s !! g = Some ch -> Q_recv ch' = q' -> Q_poll ch' = ps' -> shok (upd_gen s g ch') q' ps' cb.
Proof.
  intros (H1 & _ & H3 & H4 & H5 & H6) Hc Hq Hp. repeat split; try assumption.
  - unfold last_index in *. cbn. rewrite insert_length. exact H1.
  - exists ch'. split; [ apply list_lookup_insert; eapply lookup_lt_Some, Hc | auto ].
Qed.
Definition flood_round (i j : nat) (from : UDPAddr) (d : list N) : list label :=
  [LRun j (CDatagram from d); LRun j CGo; LRun j CGo; LRun j CGo; LRun j CGo; LRun i CGo; LRun i CGo; LRun i CGo].
Ltac named S y := match type of S with stage ?z _ _ _ _ _ => set (y := z) in * end.
(** One datagram of another host: one more goroutine. *)
Lemma flood_once y K i j b ps cb m from d p : stage y K [] ps cb m -> i <> j -> K !! i = Some (RL_wait g) -> K !! j = Some (RD_reading b k) -> array_ok read_buffer b -> bytes_ok d -> IP_Equal (E_localIP E) (fst from) = false ->
  Unmarshal (truncated d) = Ret (Some p, None) ->
  exists b' y' tr K', steps E y (flood_round i j from d) y' tr /\ stage y' K' [] ps cb (m + w (H_start p)) /\ K' !! i = Some (RL_wait g) /\ K' !! j = Some (RD_reading b' k) /\ K' !! length (Y_threads y) = Some (H_start p) /\
    (forall x t, K !! x = Some t -> x <> i -> x <> j -> K' !! x = Some t) /\ length (Y_threads y') = S (length (Y_threads y)).
Proof.
  intros S0 Hij Hi Hj Hb Hd Hip Hu.
  set (num := Nat.min (length d) (length b)). set (b' := firstn num d ++ skipn num b).
  assert (Hcp : go_copy (zeros (N.of_nat num)) b' = truncated d).
  { rewrite go_copy_firstn; [ apply truncate_read, Hb | ]. unfold b'. rewrite app_length, firstn_length, skipn_length. lia. }
  pose proof (lookup_lt_Some _ _ _ (st_k _ _ _ _ _ _ S0 _ _ Hi)) as Li. pose proof (lookup_lt_Some _ _ _ (st_k _ _ _ _ _ _ S0 _ _ Hj)) as Lj.
  (* the reader *)
  pose proof (st_sh _ _ _ _ _ _ S0) as Q0. pose proof Q0 as (K1 & (ch & K2 & K3 & K3') & K4 & K5 & K6 & K7).
  assert (Wj : forall u, (handling u + calling u = 0)%nat -> forall v, (handling v + calling v = 0)%nat -> (w u + m <= m + w v)%nat) by (intros u Hu1 v Hv; rewrite (Wl u Hu1), (Wl v Hv); lia).
  destruct (stage_step _ _ _ _ _ _ j _ (CDatagram from d) (Y_sh y) (RD_got b' (Some (from, num))) [ORecv from d] [] ps m S0 Hj) as [X1 S1]; [ cbn [tstep]; rewrite K5; reflexivity | exact Q0 | apply Wj; reflexivity | ]. named S1 y1.
  destruct (stage_step _ _ _ _ _ _ j _ CGo (Y_sh y) (RD_push b' (truncated d)) [] [] ps m S1 (lookup_insert _ _ _)) as [X2 S2]; [ cbn [tstep y1 Y_sh]; rewrite K6, Hip, Hcp; reflexivity | exact Q0 | apply Wj; reflexivity | ]. named S2 y2.
  destruct (stage_step _ _ _ _ _ _ j _ CGo (Y_sh y) (RD_pushing b' (truncated d) g) [] [] ps m S2 (lookup_insert _ _ _)) as [X3 S3]; [ cbn [tstep y2 Y_sh]; unfold eval_gen; rewrite K1; reflexivity | exact Q0 | apply Wj; reflexivity | ]. named S3 y3.
  set (s4 := upd_gen (Y_sh y) g (set_recv ch [truncated d])). assert (Q4 : shok s4 [truncated d] ps cb) by (eapply shok_upd; [ exact Q0 | exact K2 | reflexivity | exact K3' ]).
  destruct (stage_step _ _ _ _ _ _ j _ CGo s4 (RD_read b') [] [truncated d] ps m S3 (lookup_insert _ _ _)) as [X4 S4]; [ cbn [tstep y3 Y_sh]; rewrite K2, K3; reflexivity | exact Q4 | apply Wj; reflexivity | ]. named S4 y4.
  pose proof Q4 as (L1 & (ch4 & L2 & L3 & L3') & L4 & L5 & L6 & L7).
  destruct (stage_step _ _ _ _ _ _ j _ CGo s4 (RD_reading b' k) [] [truncated d] ps m S4 (lookup_insert _ _ _)) as [X5 S5]; [ cbn [tstep y4 Y_sh]; rewrite L4; reflexivity | exact Q4 | apply Wj; reflexivity | ]. named S5 y5.
  rewrite !insert_insert in S5.
  (* the receive loop *)
  assert (Hi5 : <[j:=RD_reading b' k]> K !! i = Some (RL_wait g)) by (rewrite lookup_insert_ne by congruence; exact Hi).
  set (s6 := upd_gen s4 g (set_recv ch4 [])). assert (Q6 : shok s6 [] ps cb) by (eapply shok_upd; [ exact Q4 | exact L2 | reflexivity | exact L3' ]).
  destruct (stage_step _ _ _ _ _ _ i _ CGo s6 (RL_parse (truncated d)) [] [] ps m S5 Hi5) as [X6 S6]; [ cbn [tstep y5 Y_sh]; rewrite L2, L3; reflexivity | exact Q6 | apply Wj; reflexivity | ]. named S6 y6.
  destruct (stage_spawn _ _ _ _ _ _ i _ CGo s6 RL_loop (H_start p) [OParse (truncated d); OSpawn p] [] ps (m + w (H_start p)) S6 (lookup_insert _ _ _)) as [X7 S7]; [ cbn [tstep y6 Y_sh]; rewrite Hu; reflexivity | exact Q6 | rewrite !Wl by reflexivity; lia | ]. named S7 y7.
  assert (Ly : length (Y_threads y6) = length (Y_threads y)). { unfold y6, y5, y4, y3, y2, y1. cbn [Y_threads]. rewrite !app_nil_r, !insert_length. reflexivity. }
  pose proof Q6 as (M1 & _). rewrite Ly in S7.
  destruct (stage_step _ _ _ _ _ _ i RL_loop CGo s6 (RL_wait g) [] [] ps (m + w (H_start p)) S7) as [X8 S8]; [ rewrite lookup_insert_ne by lia; apply lookup_insert | cbn [tstep y7 Y_sh]; unfold eval_gen; rewrite M1; reflexivity | exact Q6 | rewrite !Wl by reflexivity; lia | ].
  eexists b', _, _, _. split; [ unfold flood_round; do 8 (eapply steps_cons; [ | eassumption | ]; [ solve [ exact Hd | exact I ] | ]); constructor | ]. split; [ exact S8 | ].
  split; [ apply lookup_insert | ]. split; [ rewrite !lookup_insert_ne by lia; apply lookup_insert | ]. split; [ rewrite lookup_insert_ne by lia; apply lookup_insert | ]. split.
  - intros x t Hx N1 N2. pose proof (lookup_lt_Some _ _ _ (st_k _ _ _ _ _ _ S0 _ _ Hx)) as Lx. rewrite !lookup_insert_ne by lia. exact Hx.
  - cbn [Y_threads]. rewrite app_nil_r, insert_length. unfold y7. cbn [Y_threads]. rewrite app_length, insert_length, Ly. cbn. lia.
Qed.
End flood.

(** An address that is not the node's own. *)
Lemma stranger ip : exists src, IP_Equal ip src = false /\ length src = 4%nat.
Proof.
  destruct (IP_Equal ip [10; 0; 0; 1]) eqn:H1; [ | eexists; split; [ exact H1 | reflexivity ] ]. exists [10; 0; 0; 2]. split; [ | reflexivity ].
  destruct (IP_Equal ip [10; 0; 0; 2]) eqn:H2; [ | reflexivity ]. apply IP_Equal_iff in H1, H2. rewrite H1 in H2. vm_compute in H2. discriminate.
Qed.
Lemma poll_is : exists q, Unmarshal (truncated poll_datagram) = Ret (Some (PktPoll q), None) /\ GetOpCode (PktPoll q) = 0x2000.
Proof. eexists. split; [ vm_compute; reflexivity | reflexivity ]. Qed.
(** The datagrams that arrive. *)
Definition arrivals (ls : list label) : list (UDPAddr * list N) := omap (fun l => match l with LRun _ (CDatagram from d) => Some (from, d) | _ => None end) ls.
(** There is no bound: from any state of a running node, [n] polls of one other host (14 bytes each) lead to more than [n] goroutines, if the new goroutines are not scheduled in between.  No call is made, nothing fails and the node
    is running. *)
Theorem C115_bounded_refuted : forall E y n, live E y ->
  exists from ls y' tr, steps E y ls y' tr /\ arrivals ls = replicate n (from, poll_datagram) /\ to16 (fst from) <> to16 (E_localIP E) /\
    calls ls = [] /\ no_errors ls = true /\ live E y' /\ (n < goroutines y')%nat.
Proof.
  intros E y n V. destruct (settle_works E y V) as (ls0 & y0 & tr0 & W & D). pose proof (works_live _ _ _ _ _ W) as V0. pose proof (wk_rest _ _ _ _ _ W) as R0.
  destruct (stranger (E_localIP E)) as (src & Hs & _). destruct poll_is as (q & Hq & _). destruct (live_facts E y0 V0) as (g & ch & k & G1 & G2 & _ & G4 & G5 & G6 & _ & _ & _ & G7 & _). destruct R0 as [R1 R2].
  pose proof (live_parked E y0 g k V0 R1 G1 G4) as P.
  assert (I0 : exists i, Y_threads y0 !! i = Some (RL_wait g)).
  { assert (X : exists i t, Y_threads y0 !! i = Some t /\ (0 < is_rl t)%nat) by (apply sum_pos; rewrite G7; lia). destruct X as (i & t & X1 & X2). exists i. pose proof (Forall_lookup_1 _ _ _ _ P X1) as Hp.
    pose proof (Forall_lookup_1 _ _ _ _ R1 X1) as Hr. cbn beta in Hr. destruct t; try discriminate Hr; cbn in X2; try lia. cbn [parked] in Hp. subst. exact X1. }
  destruct I0 as [i Hi]. destruct (resting_rd E y0 V0 (conj R1 R2)) as (j & b & k' & Hj & _). pose proof (Forall_lookup_1 _ _ _ _ P Hj) as Hk. cbn in Hk. subst k'.
  assert (Hij : i <> j) by congruence. set (K0 := <[i := RL_wait g]> (<[j := RD_reading b k]> ∅) : gmap nat thread). destruct (R2 g ch G1 G2) as (_ & Dr & Dp & _).
  assert (S0 : stage g k handling y0 K0 [] [] (S_callbacks (Y_sh y0)) 0).
  { constructor; [ | | lia ]; [ | split; [ exact G1 | ]; split; [ exists ch; auto | auto ] ]. intros x t. unfold K0. rewrite !lookup_insert_Some, lookup_empty. intros [[<- <-]|[_ [[<- <-]|[_ X]]]]; [ exact Hi | exact Hj | discriminate X ]. }
  assert (F : forall m, exists ls' y' tr' b' K', steps E y0 ls' y' tr' /\ arrivals ls' = replicate m ((src, 6454), poll_datagram) /\ calls ls' = [] /\ no_errors ls' = true /\ stage g k handling y' K' [] [] (S_callbacks (Y_sh y0)) m /\
    K' !! i = Some (RL_wait g) /\ K' !! j = Some (RD_reading b' k)).
  { induction m as [|m (ls' & y' & tr' & b' & K' & X1 & X2 & X3 & X4 & X5 & X6 & X7)].
    { exists [], y0, [], b, K0. split; [ constructor | ]. repeat (split; [ solve [ auto ] | ]). split; [ apply lookup_insert | unfold K0; rewrite lookup_insert_ne by exact Hij; apply lookup_insert ]. }
    destruct (live_steps E _ _ _ _ X1 V0 X3 X4) as (V' & _). pose proof V' as [_ _ _ (lz & tz & L)]. pose proof (runs_ok _ _ _ _ (life_runs _ _ _ _ _ _ L)) as OK.
    pose proof (Forall_lookup_1 _ _ _ _ (sys_threads _ _ _ OK) (st_k _ _ _ _ _ _ _ _ _ X5 _ _ X7)) as B.
    destruct (flood_once E g k handling) with (y := y') (K := K') (i := i) (j := j) (b := b') (ps := @nil ArtPollPacket) (cb := S_callbacks (Y_sh y0)) (m := m) (from := (src, 6454)) (d := poll_datagram) (p := PktPoll q)
      as (b2 & y2 & tr2 & K2 & Y1 & Y2 & Y3 & Y4 & _); [ intros t Ht; lia | exact X5 | exact Hij | exact X6 | exact X7 | apply B | apply bytes_okb; reflexivity | exact Hs | exact Hq | ].
    cbn [handling] in Y2. rewrite Nat.add_1_r in Y2.
    exists (ls' ++ flood_round i j (src, 6454) poll_datagram), y2, (tr' ++ tr2), b2, K2. split; [ eapply steps_app; eassumption | ]. unfold arrivals in *. rewrite omap_app, X2, calls_app, X3, no_errors_app, X4. split; [ | auto ].
    cbn [omap flood_round list_omap]. rewrite <- (replicate_cons_app m). reflexivity. }
  destruct (F n) as (ls' & y' & tr' & b' & K' & X1 & X2 & X3 & X4 & X5 & _). destruct (live_steps E _ _ _ _ X1 V0 X3 X4) as (V' & _).
  exists (src, 6454), (ls0 ++ ls'), y', (tr0 ++ tr'). split; [ eapply steps_app; [ exact (wk_steps _ _ _ _ _ W) | exact X1 ] | ].
  assert (A0 : arrivals ls0 = []). { clear -D. unfold arrivals. induction D as [|l ls H D IH]; [ reflexivity | ]. cbn. rewrite IH. destruct l as [i c| | | | |]; try reflexivity. destruct c; try reflexivity. contradiction H. }
  unfold arrivals in *. rewrite omap_app, A0, X2, calls_app, X3, (wk_calls _ _ _ _ _ W), no_errors_app, X4, (wk_errors _ _ _ _ _ W). split; [ reflexivity | ].
  split; [ intros K; assert (IP_Equal (E_localIP E) src = true) by (apply IP_Equal_iff; symmetry; exact K); congruence | ]. split; [ reflexivity | ]. split; [ reflexivity | ]. split; [ exact V' | ].
  unfold goroutines. rewrite (sum_split3 _ is_loop handling calling _ going_split). pose proof (st_m _ _ _ _ _ _ _ _ _ X5) as M. destruct (live_facts E y' V') as (_ & _ & _ & _ & _ & _ & _ & _ & _ & _ & Pr & _).
  assert (K : (sum_list_with is_pr (Y_threads y') <= sum_list_with is_loop (Y_threads y'))%nat). { clear. induction (Y_threads y') as [|t l IH]; [ auto | ]. cbn [sum_list_with]. unfold is_loop at 1. lia. }
  lia.
Qed.
(** Left alone, it has its loops again. *)
Theorem C115_settles : forall E y, live E y -> exists ls y' tr, steps E y ls y' tr /\ calls ls = [] /\ no_errors ls = true /\ live E y' /\ arrivals ls = [] /\ goroutines y' = loops E.
Proof.
  intros E y V. destruct (settle_works E y V) as (ls & y' & tr & W & D). pose proof (works_live _ _ _ _ _ W) as V'. exists ls, y', tr. destruct W as [_ S C N R]. split; [ exact S | ]. split; [ exact C | ]. split; [ exact N | ].
  split; [ exact V' | ]. split; [ | apply (C115_count E y' V'), R ]. clear -D. unfold arrivals. induction D as [|l ls H D IH]; [ reflexivity | ]. cbn. rewrite IH. destruct l as [i c| | | | |]; try reflexivity. destruct c; try reflexivity. contradiction H.
Qed.

(** * Left behind *)
(** A goroutine that waits to hand a poll to the pollReplyLoop of the channels [g]. *)
Definition polling (g : nat) (t : thread) : nat := match t with H_polling _ h => if (h =? g)%nat then 1 else 0 | _ => 0 end.
Section leak.
Context (E : env) (g k i j : nat) (cb : gmap N handler) (from : UDPAddr) (q : ArtPollPacket).
Context (Hij : i <> j) (Hf : IP_Equal (E_localIP E) (fst from) = false) (Hq : Unmarshal (truncated poll_datagram) = Ret (Some (PktPoll q), None)) (Ho : GetOpCode (PktPoll q) = 0x2000) (Hcb : cb !! 0x2000 = Some HPoll).
(** A poll arrives and its goroutine reaches the queue. *)
Lemma leak_once y K b ps m : stage g k (polling g) y K [] ps cb m -> K !! i = Some (RL_wait g) -> K !! j = Some (RD_reading b k) -> array_ok read_buffer b ->
  exists b' y' tr K', steps E y (flood_round i j from poll_datagram ++ [LRun (length (Y_threads y)) CGo; LRun (length (Y_threads y)) CGo]) y' tr /\ stage g k (polling g) y' K' [] ps cb (S m) /\
    K' !! i = Some (RL_wait g) /\ K' !! j = Some (RD_reading b' k) /\ K' !! length (Y_threads y) = Some (H_polling q g) /\ (forall x t, K !! x = Some t -> x <> i -> x <> j -> K' !! x = Some t).
Proof.
  intros S0 Hi Hj Hb. pose proof (lookup_lt_Some _ _ _ (st_k _ _ _ _ _ _ _ _ _ S0 _ _ Hi)) as Li. pose proof (lookup_lt_Some _ _ _ (st_k _ _ _ _ _ _ _ _ _ S0 _ _ Hj)) as Lj.
  destruct (flood_once E g k (polling g)) with (y := y) (K := K) (i := i) (j := j) (b := b) (ps := ps) (cb := cb) (m := m) (from := from) (d := poll_datagram) (p := PktPoll q)
    as (b1 & y1 & tr1 & K1 & Y1 & Y2 & Y3 & Y4 & Y5 & Y6 & Y7); [ intros t Ht; destruct t; try discriminate Ht; reflexivity | exact S0 | exact Hij | exact Hi | exact Hj | exact Hb | apply bytes_okb; reflexivity | exact Hf | exact Hq | ].
  cbn [polling] in Y2. rewrite Nat.add_0_r in Y2. set (x := length (Y_threads y)) in *. pose proof (st_sh _ _ _ _ _ _ _ _ _ Y2) as Q1. pose proof Q1 as (Z1 & (ch & Z2 & Z3 & Z4) & Z5 & Z6 & Z7 & Z8).
  destruct (stage_step E g k (polling g) y1 K1 [] ps cb m x (H_start (PktPoll q)) CGo (Y_sh y1) (H_poll q) [OCall HPoll (PktPoll q)] [] ps m Y2 Y5) as [X2 S2]; [ cbn [tstep]; rewrite Z8, Ho, Hcb; reflexivity | exact Q1 | cbn; lia | ].
  destruct (stage_step E g k (polling g) _ _ [] ps cb m x (H_poll q) CGo (Y_sh y1) (H_polling q g) [] [] ps (S m) S2 (lookup_insert _ _ _)) as [X3 S3]; [ cbn [tstep Y_sh]; unfold eval_gen; rewrite Z1; reflexivity | exact Q1 | cbn; rewrite Nat.eqb_refl; lia | ].
  eexists b1, _, _, _. split; [ eapply steps_app; [ exact Y1 | ]; eapply steps_cons; [ exact I | exact X2 | ]; eapply steps_cons; [ exact I | exact X3 | constructor ] | ]. split; [ exact S3 | ].
  split; [ rewrite !lookup_insert_ne by lia; exact Y3 | ]. split; [ rewrite !lookup_insert_ne by lia; exact Y4 | ]. split; [ apply lookup_insert | ].
  intros z t Hz N1 N2. pose proof (lookup_lt_Some _ _ _ (st_k _ _ _ _ _ _ _ _ _ S0 _ _ Hz)) as Lz. rewrite !lookup_insert_ne by lia. apply Y6; assumption.
Qed.
(** While there is room it hands over the poll and ends. *)
Lemma fill_once y K b ps m : stage g k (polling g) y K [] ps cb m -> K !! i = Some (RL_wait g) -> K !! j = Some (RD_reading b k) -> array_ok read_buffer b -> (length ps < 10)%nat ->
  exists b' y' ls tr K' ps', steps E y ls y' tr /\ calls ls = [] /\ no_errors ls = true /\ stage g k (polling g) y' K' [] ps' cb m /\ length ps' = S (length ps) /\
    K' !! i = Some (RL_wait g) /\ K' !! j = Some (RD_reading b' k) /\ (forall x t, K !! x = Some t -> x <> i -> x <> j -> K' !! x = Some t).
Proof.
  intros S0 Hi Hj Hb Hl. pose proof (lookup_lt_Some _ _ _ (st_k _ _ _ _ _ _ _ _ _ S0 _ _ Hi)) as Li. pose proof (lookup_lt_Some _ _ _ (st_k _ _ _ _ _ _ _ _ _ S0 _ _ Hj)) as Lj.
  destruct (leak_once y K b ps m S0 Hi Hj Hb) as (b1 & y1 & tr1 & K1 & Y1 & Y2 & Y3 & Y4 & Y5 & Y6). set (x := length (Y_threads y)) in *. pose proof (st_sh _ _ _ _ _ _ _ _ _ Y2) as Q1. pose proof Q1 as (Z1 & (ch & Z2 & Z3 & Z4) & _).
  assert (Hp : push (Q_poll ch) q = Some (ps ++ [q])). { unfold push, chan_cap. rewrite Z4. destruct (Nat.ltb_spec (length ps) 10); [ reflexivity | lia ]. }
  destruct (stage_step E g k (polling g) y1 K1 [] ps cb (S m) x (H_polling q g) CGo (upd_gen (Y_sh y1) g (set_poll ch (ps ++ [q]))) TDone [OPolled q] [] (ps ++ [q]) m Y2 Y5) as [X2 S2];
    [ cbn [tstep]; rewrite Z2, Hp; reflexivity | eapply shok_upd; [ exact Q1 | exact Z2 | exact Z3 | reflexivity ] | cbn; rewrite Nat.eqb_refl; lia | ].
  eexists b1, _, _, _, _, (ps ++ [q]). split; [ eapply steps_app; [ exact Y1 | ]; eapply steps_cons; [ | exact X2 | constructor ]; exact I | ]. split; [ reflexivity | ]. split; [ reflexivity | ]. split; [ exact S2 | ].
  split; [ rewrite app_length; cbn; lia | ]. split; [ rewrite !lookup_insert_ne by lia; exact Y3 | ]. split; [ rewrite !lookup_insert_ne by lia; exact Y4 | ].
  intros z t Hz N1 N2. pose proof (lookup_lt_Some _ _ _ (st_k _ _ _ _ _ _ _ _ _ S0 _ _ Hz)) as Lz. rewrite lookup_insert_ne by lia. apply Y6; assumption.
Qed.
End leak.

(** Stop, step by step. *)
Lemma stop_steps E s l g ch k cg : last_index (S_gens s) = Some g -> S_gens s !! g = Some ch -> Q_closed ch = false -> last_index (S_conns s) = Some k ->
  (E_ctl E = true -> last_index (S_cgens s) = Some cg /\ flag_at (S_cgens s) cg = false /\ S_tickers s = true) ->
  exists ls' s' tr', extends E (mkSys s l) Up ls' (mkSys s' (l ++ [TDone])) Idle tr' /\ calls ls' = [false] /\ no_errors ls' = true /\ In OStop tr' /\ S_gens s' = <[g := set_closed ch]> (S_gens s).
Proof.
  intros G1 G2 G3 K1 C. pose proof (lookup_last _ _ G1) as Lg.
  assert (P0 : extends E (mkSys s l) Up [LStop] (mkSys s (l ++ [if E_ctl E then U_stop_ctl else U_flag])) Stopping []).
  { apply (extends_one E (mkSys s l) Up LStop Stopping); [ split; discriminate | exact I | reflexivity | reflexivity ]. }
  pose (s1 := with_shutdown s true). pose (s2 := upd_gen s1 g (set_closed ch)). pose (s3 := with_conns s2 (<[k := false]> (S_conns s2))).
  assert (P1 : extends E (mkSys s (l ++ [U_flag])) Stopping [LRun (length l) CGo] (mkSys s1 (l ++ [U_close])) Stopping [ODown]) by (apply (extends_last E s l U_flag s1 U_close [ODown]); reflexivity).
  assert (P2 : extends E (mkSys s1 (l ++ [U_close])) Stopping [LRun (length l) CGo] (mkSys s2 (l ++ [U_closeconn])) Stopping []).
  { apply (extends_last E s1 l U_close s2 U_closeconn []). cbn [tstep s1 with_shutdown S_gens]. rewrite G1, G2, G3. reflexivity. }
  assert (F2 : gen_closed s3 g = true). { unfold gen_closed, s3, s2, upd_gen. cbn [with_conns with_gens S_gens]. rewrite list_lookup_insert by exact Lg. reflexivity. }
  assert (K2 : last_index (S_conns s2) = Some k) by exact K1.
  destruct (E_ctl E) eqn:Ec.
  - destruct (C eq_refl) as (C1 & C2 & C3). pose (s4 := with_cgens s3 (<[cg := true]> (S_cgens s3))).
    assert (P : extends E (mkSys s (l ++ [U_stop_ctl])) Stopping [LRun (length l) CGo] (mkSys s (l ++ [U_flag])) Stopping []).
    { apply (extends_last E s l U_stop_ctl s U_flag []). cbn [tstep]. rewrite C3. reflexivity. }
    assert (P3 : extends E (mkSys s2 (l ++ [U_closeconn])) Stopping [LRun (length l) CGo] (mkSys s3 (l ++ [U_waitclosed])) Stopping []).
    { apply (extends_last E s2 l U_closeconn s3 U_waitclosed []). cbn [tstep]. rewrite Ec, K2. reflexivity. }
    assert (P4 : extends E (mkSys s3 (l ++ [U_waitclosed])) Stopping [LRun (length l) CGo] (mkSys s3 (l ++ [U_closectl])) Stopping []).
    { apply (extends_last E s3 l U_waitclosed s3 U_closectl []). cbn [tstep]. assert (G4 : last_index (S_gens s3) = Some g) by (unfold last_index, s3, s2, upd_gen; cbn [S_gens with_conns with_gens]; rewrite insert_length; exact G1).
      rewrite G4, F2. reflexivity. }
    assert (P5 : extends E (mkSys s3 (l ++ [U_closectl])) Stopping [LRun (length l) CGo] (mkSys s4 (l ++ [TDone])) Idle [OStop]).
    { apply (extends_last E s3 l U_closectl s4 TDone [OStop]). cbn [tstep]. assert (C4 : S_cgens s3 = S_cgens s) by reflexivity. rewrite C4, C1, C2. reflexivity. }
    eexists _, s4, _. split; [ exact (extends_app _ _ _ _ _ _ _ _ _ _ _ P0 (extends_app _ _ _ _ _ _ _ _ _ _ _ P (extends_app _ _ _ _ _ _ _ _ _ _ _ P1 (extends_app _ _ _ _ _ _ _ _ _ _ _ P2
       (extends_app _ _ _ _ _ _ _ _ _ _ _ P3 (extends_app _ _ _ _ _ _ _ _ _ _ _ P4 P5)))))) | ].
    split; [ reflexivity | ]. split; [ reflexivity | ]. split; [ right; left; reflexivity | reflexivity ].
  - assert (P3 : extends E (mkSys s2 (l ++ [U_closeconn])) Stopping [LRun (length l) CGo] (mkSys s3 (l ++ [TDone])) Idle [OStop]).
    { apply (extends_last E s2 l U_closeconn s3 TDone [OStop]). cbn [tstep]. rewrite Ec, K2. reflexivity. }
    eexists _, s3, _. split; [ exact (extends_app _ _ _ _ _ _ _ _ _ _ _ P0 (extends_app _ _ _ _ _ _ _ _ _ _ _ P1 (extends_app _ _ _ _ _ _ _ _ _ _ _ P2 P3))) | ].
    split; [ reflexivity | ]. split; [ reflexivity | ]. split; [ right; left; reflexivity | reflexivity ].
Qed.
Lemma sum_kept (f : thread -> nat) l : forall l', (forall x t, l !! x = Some t -> (0 < f t)%nat -> l' !! x = Some t) -> (sum_list_with f l <= sum_list_with f l')%nat.
Proof.
  induction l as [|t l IH]; intros l' H; [ cbn; lia | ]. cbn [sum_list_with]. destruct l' as [|t' l'].
  - destruct (f t) eqn:Ft; [ | specialize (H 0%nat t eq_refl); rewrite Ft in H; discriminate H; lia ]. specialize (IH []). cbn in IH |- *. apply IH. intros x u Hx Hu. specialize (H (S x) u Hx Hu). discriminate H.
  - cbn [sum_list_with]. assert (K : (f t <= f t')%nat). { destruct (f t) eqn:Ft; [ lia | ]. specialize (H 0%nat t eq_refl). rewrite Ft in H. cbn in H. injection H as ->; lia. }
    specialize (IH l'). assert (sum_list_with f l <= sum_list_with f l')%nat; [ | lia ]. apply IH. intros x u Hx Hu. exact (H (S x) u Hx Hu).
Qed.
(** Goroutines pile up in stopped nodes, without bound: whatever a running node that answers polls has done, there are [n + 10] polls of another host after which Stop leaves [n] goroutines that never end, whatever happens
    afterwards - not even another Start and Stop. *)
Theorem C115_left_behind_refuted : forall E y n ls0 tr0, live E y -> life E careful ls0 y tr0 Up -> S_callbacks (Y_sh y) !! 0x2000 = Some HPoll ->
  exists ls y' tr, life E careful (ls0 ++ ls) y' (tr0 ++ tr) Idle /\ calls ls = [false] /\ no_errors ls = true /\ In OStop tr /\
    forall ls2 y2 tr2, steps E y' ls2 y2 tr2 -> (n <= goroutines y2)%nat.
Proof.
  intros E y n l0 t0 V L0 Hcb. destruct (settle_works E y V) as (ls1 & y1 & tr1 & W & D). pose proof (works_live _ _ _ _ _ W) as V1. destruct (wk_rest _ _ _ _ _ W) as [R1 R2].
  pose proof (callbacks_kept _ _ _ _ _ (wk_steps _ _ _ _ _ W) V (wk_calls _ _ _ _ _ W) (wk_errors _ _ _ _ _ W)) as Kc. rewrite <- Kc in Hcb.
  destruct (stranger (E_localIP E)) as (src & Hs & _). destruct poll_is as (q & Hq & Ho).
  destruct (live_facts E y1 V1) as (g & ch & k & G1 & G2 & G3 & G4 & G5 & G6 & _ & G8 & _ & G7 & _). pose proof (live_parked E y1 g k V1 R1 G1 G4) as P.
  assert (F1 : forall f : thread -> nat, (0 < sum_list_with f (Y_threads y1))%nat -> exists i t, Y_threads y1 !! i = Some t /\ (0 < f t)%nat /\ parked (Y_sh y1) g k t).
  { intros f Hf. destruct (sum_pos f (Y_threads y1) Hf) as (i & t & X1 & X2). exists i, t. split; [ exact X1 | ]. split; [ exact X2 | exact (Forall_lookup_1 _ _ _ _ P X1) ]. }
  destruct (F1 is_rl) as (i & t & Hi & X2 & X3); [ lia | ]. destruct t; try contradiction X3; cbn in X2; try lia. cbn [parked] in X3. subst g0.
  destruct (F1 is_pr) as (r & t & Hr & X2' & X3); [ lia | ]. destruct t; try contradiction X3; cbn in X2'; try lia. cbn [parked] in X3. subst g0.
  destruct (resting_rd E y1 V1 (conj R1 R2)) as (j & b & k' & Hj & _). pose proof (Forall_lookup_1 _ _ _ _ P Hj) as Hk. cbn in Hk. subst k'.
  assert (Hij : i <> j) by congruence. assert (Hir : i <> r) by congruence. assert (Hjr : j <> r) by congruence.
  set (cb := S_callbacks (Y_sh y1)) in *. set (K0 := <[i := RL_wait g]> (<[j := RD_reading b k]> (<[r := PR_wait me g]> ∅)) : gmap nat thread). destruct (R2 g ch G1 G2) as (_ & Dr & Dp & _).
  assert (S0 : stage g k (polling g) y1 K0 [] [] cb 0).
  { constructor; [ | | lia ]; [ | split; [ exact G1 | ]; split; [ exists ch; auto | auto ] ]. intros x t. unfold K0. rewrite !lookup_insert_Some, lookup_empty. intros [[<- <-]|[_ [[<- <-]|[_ [[<- <-]|[_ X]]]]]]; [ exact Hi | exact Hj | exact Hr | discriminate X ]. }
  assert (Ab : forall y' K' ps m b' ls' tr', steps E y1 ls' y' tr' -> calls ls' = [] -> no_errors ls' = true -> stage g k (polling g) y' K' [] ps cb m -> K' !! j = Some (RD_reading b' k) -> array_ok read_buffer b').
  { intros y' K' ps m b' ls' tr' X1 Xc Xn Xs Xj. destruct (live_steps E _ _ _ _ X1 V1 Xc Xn) as (V' & _). destruct V' as [_ _ _ (lz & tz & L)]. pose proof (runs_ok _ _ _ _ (life_runs _ _ _ _ _ _ L)) as OK.
    apply (Forall_lookup_1 _ _ _ _ (sys_threads _ _ _ OK) (st_k _ _ _ _ _ _ _ _ _ Xs _ _ Xj)). }
  pose (good := fun ps m => exists ls' y' tr' b' K', steps E y1 ls' y' tr' /\ calls ls' = [] /\ no_errors ls' = true /\ stage g k (polling g) y' K' [] ps cb m /\ K' !! i = Some (RL_wait g) /\ K' !! j = Some (RD_reading b' k) /\
    K' !! r = Some (PR_wait me g)).
  assert (A : forall m, (m <= 10)%nat -> exists ps, length ps = m /\ good ps 0%nat).
  { induction m as [|m IH]; intros Hm.
    { exists []. split; [ reflexivity | ]. exists [], y1, [], b, K0. split; [ constructor | ]. repeat (split; [ solve [ auto ] | ]). unfold K0. split; [ apply lookup_insert | ]. split; [ rewrite lookup_insert_ne by exact Hij; apply lookup_insert | ].
      rewrite !lookup_insert_ne by congruence. apply lookup_insert. }
    destruct IH as (ps & Hps & ls' & y' & tr' & b' & K' & X1 & Xc & Xn & Xs & Xi & Xj & Xr); [ lia | ].
    destruct (fill_once E g k i j cb (src, 6454) q Hij Hs Hq Ho Hcb y' K' b' ps 0%nat Xs Xi Xj (Ab _ _ _ _ _ _ _ X1 Xc Xn Xs Xj)) as (b2 & y2 & ls2 & tr2 & K2 & ps2 & Y1 & Yc & Yn & Ys & Yl & Yi & Yj & Yo); [ lia | ].
    exists ps2. split; [ lia | ]. exists (ls' ++ ls2), y2, (tr' ++ tr2), b2, K2. split; [ eapply steps_app; eassumption | ]. rewrite calls_app, Xc, Yc, no_errors_app, Xn, Yn. repeat (split; [ solve [ auto ] | ]). apply Yo; auto. }
  destruct (A 10%nat (le_n 10)) as (ps & Hps & B0). assert (B : forall m, good ps m).
  { induction m as [|m (ls' & y' & tr' & b' & K' & X1 & Xc & Xn & Xs & Xi & Xj & Xr)]; [ exact B0 | ].
    destruct (leak_once E g k i j cb (src, 6454) q Hij Hs Hq Ho Hcb y' K' b' ps m Xs Xi Xj (Ab _ _ _ _ _ _ _ X1 Xc Xn Xs Xj)) as (b2 & y2 & tr2 & K2 & Y1 & Ys & Yi & Yj & _ & Yo).
    eexists (ls' ++ _), y2, (tr' ++ tr2), b2, K2. split; [ eapply steps_app; eassumption | ]. rewrite calls_app, Xc, no_errors_app, Xn. repeat (split; [ solve [ auto ] | ]). apply Yo; auto. }
  destruct (B n) as (ls' & y' & tr' & b' & K' & X1 & Xc & Xn & Xs & Xi & Xj & Xr). clear A B B0 Ab F1 good.
  destruct (live_steps E _ _ _ _ (wk_steps _ _ _ _ _ W) V (wk_calls _ _ _ _ _ W) (wk_errors _ _ _ _ _ W)) as (_ & E1 & _). destruct (live_steps E _ _ _ _ X1 V1 Xc Xn) as (V' & E2 & _). pose proof (E2 _ _ (E1 _ _ L0)) as L1.
  pose proof (st_sh _ _ _ _ _ _ _ _ _ Xs) as (Z1 & (c' & Z2 & _ & Z3) & Z4 & _). pose proof (st_k _ _ _ _ _ _ _ _ _ Xs _ _ Xr) as Hr'. pose proof (st_m _ _ _ _ _ _ _ _ _ Xs) as M.
  destruct (live_facts E y' V') as (g' & c2 & k2 & Q1 & Q2 & Q3 & _ & _ & _ & _ & Q8 & _ & _ & _ & _ & _ & Q9 & _). rewrite Z1 in Q1. injection Q1 as <-. rewrite Z2 in Q2. injection Q2 as <-.
  pose proof (life_tidy _ _ _ _ _ (life_any _ _ _ _ _ _ L1)) as T. destruct y' as [s l]. cbn [Y_sh Y_threads] in *.
  assert (Qc : Q_closed c' = false) by (unfold gen_closed in Q3; rewrite Z2 in Q3; exact Q3).
  assert (Cg : exists cg, E_ctl E = true -> last_index (S_cgens s) = Some cg /\ flag_at (S_cgens s) cg = false /\ S_tickers s = true).
  { destruct (td_up _ _ _ T eq_refl) as [_ U]. cbn [Y_sh] in U. destruct (E_ctl E); [ | exists 0%nat; discriminate ]. destruct (U eq_refl) as [(cg & U1 & U2) U3]. eauto. }
  destruct Cg as [cg Cg]. destruct (stop_steps E s l g c' k cg Z1 Z2 Qc Z4 Cg) as (ls3 & s3 & tr3 & X3 & C3 & N3 & O3 & S3).
  assert (Lg : (g < length (S_gens s))%nat) by (eapply lookup_lt_Some, Z2). pose proof (lookup_lt_Some _ _ _ Hr') as Lr.
  assert (Hr3 : (l ++ [TDone]) !! r = Some (PR_wait me g)) by (apply lookup_app_l_Some, Hr').
  assert (X4 : extends E (mkSys s3 (l ++ [TDone])) Idle [LRun r CDown] (mkSys s3 (<[r := TDone]> (l ++ [TDone]) ++ [])) (fold_left answer [] Idle) []).
  { apply extends_one with (ph1 := Idle); [ split; discriminate | exact I | reflexivity | ]. cbn [exec Y_threads Y_sh]. rewrite Hr3. cbn [tstep]. unfold gen_closed. rewrite S3, list_lookup_insert by exact Lg. reflexivity. }
  pose proof (X4 _ _ (X3 _ _ L1)) as L4. cbn [fold_left] in L4. set (y4 := mkSys s3 (<[r := TDone]> (l ++ [TDone]) ++ [])) in *.
  exists (ls1 ++ ls' ++ ls3 ++ [LRun r CDown]), y4, (tr1 ++ tr' ++ tr3 ++ []). split; [ rewrite <- !app_assoc in L4; exact L4 | ].
  rewrite !calls_app, !no_errors_app, (wk_calls _ _ _ _ _ W), (wk_errors _ _ _ _ _ W), Xc, Xn, C3, N3. split; [ reflexivity | ]. split; [ reflexivity | ]. split; [ apply in_or_app; right; apply in_or_app; right; apply in_or_app; left; exact O3 | ].
  intros ls2 y2 tr2 St.
  assert (Sp : sum_list_with is_pr (Y_threads y4) = 0%nat).
  { unfold y4. cbn [Y_threads]. rewrite app_nil_r. pose proof (sum_insert is_pr _ _ _ TDone Hr3) as U. rewrite sum_list_with_app in U. cbn in U. lia. }
  assert (Nr : no_replier g y4).
  { apply Forall_forall. intros t Ht. apply elem_of_list_lookup in Ht. destruct Ht as [x Hx]. pose proof (sum_lookup is_pr _ _ _ Hx) as U. rewrite Sp in U. destruct t; try exact I; cbn in U; try lia.
    exfalso. unfold y4 in Hx. cbn [Y_threads] in Hx. rewrite app_nil_r in Hx. rewrite list_lookup_insert_Some in Hx. destruct Hx as [(_ & K & _)|[_ Hx]]; [ discriminate K | ]. apply lookup_app_Some in Hx.
    destruct Hx as [Hx|[_ Hx]]; [ | apply list_lookup_singleton_Some in Hx; destruct Hx as [_ Hx]; discriminate Hx ]. pose proof (Forall_lookup_1 _ _ _ _ Q9 Hx) as [K _]. discriminate K. }
  assert (M4 : (n <= sum_list_with (polling g) (Y_threads y4))%nat).
  { unfold y4. cbn [Y_threads]. rewrite app_nil_r. pose proof (sum_insert (polling g) _ _ _ TDone Hr3) as U. rewrite sum_list_with_app in U. cbn in U. lia. }
  etransitivity; [ exact M4 | ]. etransitivity; [ apply (sum_kept (polling g) _ (Y_threads y2)) | ].
  - intros x t Hx Hp. destruct t; cbn in Hp; try lia. destruct (Nat.eqb_spec g0 g) as [->|]; [ | lia ].
    apply (poll_stuck_forever E x q0 g y4 _ _ ls2 y2 tr2 (life_runs _ _ _ _ _ _ L4)); [ | exact St ]. split; [ exact Hx | ]. split; [ | exact Nr ].
    exists (set_closed c'). split; [ unfold y4; cbn [Y_sh]; rewrite S3; apply list_lookup_insert, Lg | ]. cbn. rewrite Z3, Hps. lia.
  - unfold goroutines. clear. induction (Y_threads y2) as [|t l IH]; [ auto | ]. cbn [sum_list_with]. assert (polling g t <= going t)%nat; [ | lia ]. destruct t; cbn; try lia. destruct (_ =? _)%nat; lia.
Qed.

(** A node that has been started has four goroutines and answers polls; a controller in the middle of its work eight. *)
Example C115_ex : exists y ls tr, live node1 y /\ life node1 careful ls y tr Up /\ at_rest y /\ goroutines y = 4%nat /\ S_callbacks (Y_sh y) !! 0x2000 = Some HPoll.
Proof.
  destruct (tested_life_ok node1 carefulb careful (up_node ++ arrive 4 host2 poll_bytes ++ parse 2 ++ go_n 5 3 ++ go_n 1 4 ++ go_n 3 4) (fun ls y tr ph => match ph with Up => true | _ => false end && at_restb y && (goroutines y =? 4)%nat && bool_decide (S_callbacks (Y_sh y) !! 0x2000 = Some HPoll)))
    as (ls & y & tr & ph & L & H); [ exact carefulb_ok | vm_compute; reflexivity | ].
  apply andb_prop in H. destruct H as [H H4]. apply andb_prop in H. destruct H as [H H3]. apply andb_prop in H. destruct H as [H1 H2]. destruct ph; try discriminate. apply Nat.eqb_eq in H3. apply bool_decide_eq_true in H4.
  exists y, ls, tr. split; [ | split; [ exact L | split; [ exact (at_restb_ok _ H2) | auto ] ] ]. constructor; [ repeat (split; [ repeat constructor | ]); repeat constructor | discriminate | right; discriminate | eauto ].
Qed.
Example C115_busy_ex : exists y, live ctl1 y /\ goroutines y = 8%nat /\ sum_list_with handling (Y_threads y) = 1%nat /\ sum_list_with calling (Y_threads y) = 1%nat.
Proof.
  destruct (tested_life_ok ctl1 carefulb careful (busy ++ parse 2) (fun ls y tr ph => match ph with Up => true | _ => false end && (goroutines y =? 8)%nat && (sum_list_with handling (Y_threads y) =? 1)%nat && (sum_list_with calling (Y_threads y) =? 1)%nat))
    as (ls & y & tr & ph & L & H); [ exact carefulb_ok | vm_compute; reflexivity | ].
  apply andb_prop in H. destruct H as [H H4]. apply andb_prop in H. destruct H as [H H3]. apply andb_prop in H. destruct H as [H1 H2]. destruct ph; try discriminate. apply Nat.eqb_eq in H2, H3, H4. exists y. split; [ | auto ].
  constructor; [ repeat (split; [ repeat constructor | ]); repeat constructor | intros _; split; [ reflexivity | discriminate ] | left; reflexivity | eauto ].
Qed.
Definition P_Goroutines_theorems := (C115_count, C115_handlers, C115_bounded_refuted, C115_settles, C115_left_behind_refuted, C115_ex, C115_busy_ex).
Print Assumptions P_Goroutines_theorems.
