(** C97, C98: discovery and delivery on networks that lose, repeat and reorder datagrams, under fair schedulers, in executions that never end. *)
From Coq Require Import ConstructiveEpsilon.
From Verif Require Import WireSpec BinaryFacts P_Config ControllerFacts P_Controller SysFacts SysLaws SysRun SysOrder SysScript P_Node P_Life P_Live P_Wire P_Settle Net P_Net P_Flow P_Fair.
From stdpp Require Import base list gmap.
Open Scope N_scope.

(** * Infinite executions of a network *)
(** [F n] is the network before step [n], which host [fst (A n)] takes with label [snd (A n)] and observations [O n]. *)
Record nexec (Z : site) (F : nat -> net) (A : nat -> nat * label) (O : nat -> list obs) : Prop := {
  nx_start : exists G, nruns Z (F 0%nat) G;
  nx_step : forall n, exists E y y', Z_envs Z !! fst (A n) = Some E /\ W_hosts (F n) !! fst (A n) = Some y /\ label_ok (snd (A n)) /\ possible Z (W_air (F n)) (fst (A n)) (snd (A n)) /\
    exec E y (snd (A n)) = RNext y' (O n) /\ F (S n) = mkNet (<[fst (A n) := y']> (W_hosts (F n))) (W_air (F n) ++ aired (fst (A n)) (O n));
}.
(** Host [i] runs from the beginning on: it is never stopped and its socket does not fail. *)
Definition up (Z : site) (F : nat -> net) (A : nat -> nat * label) (i : nat) (E : env) : Prop :=
  Z_envs Z !! i = Some E /\ (exists y, W_hosts (F 0%nat) !! i = Some y /\ live E y) /\ (forall n l, A n = (i, l) -> calls [l] = [] /\ no_errors [l] = true).
(** Its scheduler is fair (see [fair] in P_Fair.v), as far as the host gets to run at all. *)
Definition nfair (F : nat -> net) (A : nat -> nat * label) (i : nat) (E : env) : Prop := forall k b n,
  (exists m y t c, (n <= m)%nat /\ W_hosts (F m) !! i = Some y /\ Y_threads y !! k = Some t /\ resting t = b /\ internal t c = true /\ A m = (i, LRun k c)) \/
  (exists m, (n <= m)%nat /\ forall r y, (m <= r)%nat -> W_hosts (F r) !! i = Some y -> ~ able E y k b).
(** Again and again. *)
Definition often (P : nat -> Prop) : Prop := forall n, exists m, (n <= m)%nat /\ P m.
(** A link that may lose, repeat, delay and reorder datagrams, but not lose a kind of datagram for good: if [i] sends datagrams with property [P] again and again, to addresses that [j] hears, then such
    datagrams from [i] arrive at [j] again and again. *)
Definition link (Z : site) (A : nat -> nat * label) (O : nat -> list obs) (i j : nat) (E : env) : Prop := forall P : list N -> Prop,
  often (fun m => fst (A m) = i /\ exists k dst d, In (OTx (k, (dst, d))) (O m) /\ Z_hears Z j dst /\ P d) ->
  often (fun m => fst (A m) = j /\ exists port d, In (ORecv (E_localIP E, port) d) (O m) /\ P d).

(** * One host *)
Section host.
Context (Z : site) (F : nat -> net) (A : nat -> nat * label) (O : nat -> list obs) (X : nexec Z F A O) (i : nat) (E : env) (U : up Z F A i E) (Fr : nfair F A i E)
  (Mv : often (fun m => fst (A m) = i)).

(** The first step of host [i] not before step [n]. *)
Fixpoint first (n fuel : nat) : nat := match fuel with 0%nat => n | S fuel => if Nat.eqb (fst (A n)) i then n else first (S n) fuel end.
Lemma first_spec fuel : forall n, fst (A (n + fuel)%nat) = i -> (n <= first n fuel)%nat /\ fst (A (first n fuel)) = i /\ forall k, (n <= k < first n fuel)%nat -> fst (A k) <> i.
Proof.
  induction fuel as [|fuel IH]; intros n H; cbn [first]; [ rewrite Nat.add_0_r in H; split; [ lia | ]; split; [ exact H | intros; lia ] | ].
  destruct (Nat.eqb_spec (fst (A n)) i) as [K|K]; [ split; [ lia | ]; split; [ exact K | intros; lia ] | ].
  destruct (IH (S n)) as (H1 & H2 & H3); [ replace (S n + fuel)%nat with (n + S fuel)%nat by lia; exact H | ]. split; [ lia | ]. split; [ exact H2 | ]. intros k Hk. destruct (Nat.eq_dec k n) as [->|]; [ exact K | apply H3; lia ].
Qed.
Definition some_step (n : nat) : {d : nat | fst (A (n + d)%nat) = i}.
Proof.
  apply constructive_indefinite_ground_description_nat; [ intros d; apply Nat.eq_dec | ]. destruct (Mv n) as (m & Hm & H). exists (m - n)%nat. replace (n + (m - n))%nat with m by lia. exact H.
Defined.
Definition next (n : nat) : nat := first n (proj1_sig (some_step n)).
Lemma next_spec n : (n <= next n)%nat /\ fst (A (next n)) = i /\ forall k, (n <= k < next n)%nat -> fst (A k) <> i.
Proof. unfold next. apply first_spec. exact (proj2_sig (some_step n)). Qed.
(** The steps of host [i]. *)
Fixpoint at_step (k : nat) : nat := match k with 0%nat => next 0 | S k => next (S (at_step k)) end.
Lemma at_host k : fst (A (at_step k)) = i.
Proof. destruct k; cbn [at_step]; apply next_spec. Qed.
Lemma at_mono k : (at_step k < at_step (S k))%nat.
Proof. cbn [at_step]. pose proof (next_spec (S (at_step k))) as (H & _). lia. Qed.
Lemma at_ge k : (k <= at_step k)%nat.
Proof. induction k as [|k IH]; [ lia | ]. pose proof (at_mono k). lia. Qed.
Lemma at_all m : fst (A m) = i -> exists k, at_step k = m.
Proof.
  intros H. assert (K : forall k, (forall r, (r < k)%nat -> at_step r <> m) -> (k = 0%nat \/ (at_step (pred k) < m)%nat) -> (at_step k <= m)%nat).
  { intros k _ Hk. destruct k as [|k]; cbn [at_step].
    - destruct (next_spec 0) as (_ & _ & H3). destruct (le_lt_dec (next 0) m) as [L|L]; [ exact L | exfalso; apply (H3 m); [ lia | exact H ] ].
    - destruct Hk as [Hk|Hk]; [ lia | ]. cbn [pred] in Hk. destruct (next_spec (S (at_step k))) as (_ & _ & H3). destruct (le_lt_dec (next (S (at_step k))) m) as [L|L]; [ exact L | exfalso; apply (H3 m); [ lia | exact H ] ]. }
  assert (B : forall k, (exists r, (r < k)%nat /\ at_step r = m) \/ (at_step k <= m)%nat).
  { induction k as [|k IH]; [ right; apply K; [ intros; lia | left; reflexivity ] | ]. destruct IH as [(r & H1 & H2)|IH]; [ left; exists r; split; [ lia | exact H2 ] | ].
    destruct (Nat.eq_dec (at_step k) m) as [E1|E1]; [ left; exists k; split; [ lia | exact E1 ] | ]. right. destruct (next_spec (S (at_step k))) as (_ & _ & H3).
    cbn [at_step]. destruct (le_lt_dec (next (S (at_step k))) m) as [L|L]; [ exact L | exfalso; apply (H3 m); [ lia | exact H ] ]. }
  destruct (B (S m)) as [(r & _ & Hr)|H1]; [ eauto | ]. pose proof (at_ge (S m)). lia.
Qed.
Definition hf (k : nat) : sys := match W_hosts (F (at_step k)) !! i with Some y => y | None => init E end.
Definition hl (k : nat) : label := snd (A (at_step k)).
Definition ho (k : nat) : list obs := O (at_step k).
(** Steps of other hosts do not change host [i]. *)
Lemma others_keep n m : (n <= m)%nat -> (forall k, (n <= k < m)%nat -> fst (A k) <> i) -> W_hosts (F m) !! i = W_hosts (F n) !! i.
Proof.
  intros Hm. induction Hm as [|m Hm IH]; intros H; [ reflexivity | ]. destruct (nx_step _ _ _ _ X m) as (E1 & y & y' & _ & _ & _ & _ & _ & ->). cbn [W_hosts].
  rewrite list_lookup_insert_ne by (apply H; lia). apply IH. intros k Hk. apply H. lia.
Qed.
Lemma A_at k : A (at_step k) = (i, hl k).
Proof. rewrite (surjective_pairing (A (at_step k))), at_host. reflexivity. Qed.
Lemma hf_step k : (exists y, W_hosts (F (at_step k)) !! i = Some y) -> W_hosts (F (at_step k)) !! i = Some (hf k) /\ label_ok (hl k) /\ exec E (hf k) (hl k) = RNext (hf (S k)) (ho k) /\ W_hosts (F (S (at_step k))) !! i = Some (hf (S k)).
Proof.
  intros (y0 & Hy0). pose proof (at_host k) as Hh. destruct (nx_step _ _ _ _ X (at_step k)) as (E1 & y & y' & H1 & H2 & H3 & _ & H5 & H6). rewrite Hh in *. destruct U as (HE & _). assert (E1 = E) as -> by congruence.
  assert (hf k = y) as -> by (unfold hf; rewrite H2; reflexivity). split; [ exact H2 | ]. split; [ exact H3 | ].
  assert (N : W_hosts (F (S (at_step k))) !! i = Some y').
  { rewrite H6. cbn [W_hosts]. apply list_lookup_insert. eapply lookup_lt_Some. exact H2. }
  assert (hf (S k) = y') as ->; [ | split; [ exact H5 | exact N ] ].
  unfold hf. cbn [at_step]. destruct (next_spec (S (at_step k))) as (L1 & _ & L3). rewrite (others_keep _ _ L1 L3), N. reflexivity.
Qed.
Lemma hf_at k : W_hosts (F (at_step k)) !! i = Some (hf k).
Proof.
  assert (G : exists y, W_hosts (F (at_step k)) !! i = Some y); [ | exact (proj1 (hf_step k G)) ]. induction k as [|k IH].
  - destruct U as (_ & (y & Hy & _) & _). exists y. cbn [at_step]. destruct (next_spec 0) as (L1 & _ & L3). rewrite (others_keep _ _ L1 L3). exact Hy.
  - exists (hf (S k)). destruct (hf_step k IH) as (_ & _ & _ & N). cbn [at_step]. destruct (next_spec (S (at_step k))) as (L1 & _ & L3). rewrite (others_keep _ _ L1 L3). exact N.
Qed.
Lemma host_start : exists y, W_hosts (F 0%nat) !! i = Some y /\ hf 0 = y /\ live E y.
Proof.
  destruct U as (_ & (y & Hy & V) & _). exists y. split; [ exact Hy | ]. split; [ | exact V ]. unfold hf. cbn [at_step]. destruct (next_spec 0) as (L1 & _ & L3). rewrite (others_keep _ _ L1 L3), Hy. reflexivity.
Qed.
Lemma host_execution : execution E hf hl ho.
Proof.
  destruct host_start as (y & _ & Hy & V). destruct U as (_ & _ & Hc). constructor.
  - rewrite Hy. exact V.
  - intros k. apply (hf_step k). eexists. apply hf_at.
  - intros k. exact (proj1 (Hc _ _ (A_at k))).
  - intros k. exact (proj2 (Hc _ _ (A_at k))).
  - intros k. apply (hf_step k). eexists. apply hf_at.
Qed.
Lemma at_later n k : (at_step n <= at_step k)%nat -> (n <= k)%nat.
Proof. intros H. destruct (le_lt_dec n k) as [L|L]; [ exact L | exfalso ]. assert (K : (at_step k < at_step n)%nat) by (induction L as [|n L IH]; [ apply at_mono | pose proof (at_mono n); assert (at_step n <= at_step k \/ at_step k < at_step n)%nat as [?|?] by lia; [ specialize (IH ltac:(lia)); lia | lia ] ]). lia. Qed.
Lemma host_fair : fair E hf hl.
Proof.
  intros k b n. destruct (Fr k b (at_step n)) as [(m & y & t & c & Hm & Hy & Ht & Hr & Hi & HA)|(m & Hm & H)].
  - left. destruct (at_all m) as (r & <-); [ rewrite HA; reflexivity | ]. exists r. split; [ apply at_later; exact Hm | ]. exists t, c. rewrite hf_at in Hy. injection Hy as <-. repeat (split; [ assumption | ]). unfold hl. rewrite HA. reflexivity.
  - right. exists (Nat.max n m). split; [ lia | ]. intros r Hr. apply (H (at_step r)); [ pose proof (at_ge r); lia | apply hf_at ].
Qed.
End host.

(** What happens once in a fair execution of one host has its effect. *)
Section once.
Context (E : env) (f : nat -> sys) (l : nat -> label) (o : nat -> list obs) (X : execution E f l o) (Fr : fair E f l).
Lemma in_upto x n : In x (upto o n) <-> exists m, (m < n)%nat /\ In x (o m).
Proof.
  unfold upto. rewrite in_concat. setoid_rewrite in_map_iff. setoid_rewrite in_seq. split; [ intros (z & (m & <- & Hm) & Hx); exists m; split; [ lia | exact Hx ] | intros (m & Hm & Hx); exists (o m); split; [ exists m; split; [ reflexivity | lia ] | exact Hx ] ].
Qed.
Lemma upto_item x n : In (OTx x) (o n) -> item_ok E x.
Proof.
  intros H. destruct (base E f l o X Fr) as (trz & R & _). destruct (R (S n)) as (ls & Rn). eapply tx_item; [ exact Rn | ]. apply in_or_app. right. apply in_upto. exists n. split; [ lia | exact H ].
Qed.
Lemma once_sent n x : In (OQueued x) (o n) -> exists m, In (OTx x) (o m).
Proof.
  intros H. destruct (C96_delivered E f l o X Fr (S n)) as (m & K). destruct (K m (Nat.le_refl m)) as (_ & _ & _ & (a & z & T) & _). 
  assert (Q : In x (transmitted (upto o m))).
  { rewrite T. apply in_or_app. right. apply in_or_app. left. unfold queued. apply in_collect. exists (OQueued x). split; [ apply in_upto; exists n; split; [ lia | exact H ] | left; reflexivity ]. }
  apply in_transmitted in Q. apply in_upto in Q. destruct Q as (r & _ & Q). eauto.
Qed.
Lemma once_polled n i : l n = LRun i CPollTick -> exists m, In (OTx (KPoll, (E_ctlBroadcast E, poll_datagram))) (o m).
Proof.
  intros Hl. assert (Q : exists pb, Y_threads (f (S n)) !! i = Some (CP_send pb)).
  { destruct (Y_threads (f n) !! i) as [t|] eqn:Ht.
    - destruct (own_step E f l o X n i t _ Ht Hl) as (s & t' & sp & Hs & _ & Hi & _). inversion Hs; subst; eauto.
    - pose proof (ex_step _ _ _ _ X n) as He. rewrite Hl in He. cbn in He. rewrite Ht in He. discriminate He. }
  destruct Q as (pb & Q). destruct (follow E f l o X Fr _ i _ Q eq_refl) as (m & c & s & t' & sp & _ & _ & _ & Hs & _ & Ht' & Hc).
  assert (Q2 : exists g, t' = CP_sending pb g) by (inversion Hs; subst; eauto; congruence). destruct Q2 as (g & ->).
  destruct (follow E f l o X Fr _ i _ Ht' eq_refl) as (m2 & c2 & s2 & t2 & sp2 & _ & _ & _ & Hs2 & _).
  assert (Q3 : In (OQueued (KPoll, (E_ctlBroadcast E, pb))) (o m2)) by (inversion Hs2; subst; left; reflexivity).
  destruct (once_sent _ _ Q3) as (r & Hr). exists r. pose proof (upto_item _ _ Hr) as K. cbn in K. destruct K as [_ ->]. exact Hr.
Qed.
Lemma once_called n src port d p h : In (ORecv (src, port) d) (o n) -> to16 src <> to16 (E_localIP E) -> wire_accepts (firstn 4096 d) p -> S_callbacks (Y_sh (f 0%nat)) !! GetOpCode p = Some h ->
  exists m, In (OCall h p) (o m).
Proof.
  intros Hi Hs Ha Hh. destruct (C96_delivered E f l o X Fr (S n)) as (m & K). destruct (K m (Nat.le_refl m)) as (_ & _ & (ps & F2 & _ & (rest & P)) & _).
  assert (Ho : In (firstn 4096 d) (others (E_localIP E) (upto o (S n)))).
  { unfold others. apply in_collect. exists (ORecv (src, port) d). split; [ apply in_upto; exists n; split; [ lia | exact Hi ] | ]. cbn [fst]. rewrite decide_False by exact Hs. left. reflexivity. }
  assert (Hp : In (Some p) ps).
  { clear - F2 Ho Ha. induction F2 as [|x0 o0 l0 k0 H F2 IH]; [ contradiction | ]. destruct Ho as [->|Ho]; [ left; apply H; exact Ha | right; apply IH; exact Ho ]. }
  assert (Hin : In p (called (upto o m))).
  { apply elem_of_list_In. rewrite P. apply elem_of_app. left. apply elem_of_list_In, filter_In. split; [ | rewrite Hh; reflexivity ]. apply elem_of_list_In, elem_of_list_omap. exists (Some p). split; [ apply elem_of_list_In; exact Hp | reflexivity ]. }
  unfold called in Hin. apply in_collect in Hin. destruct Hin as (b & Hb & Hin). destruct b; try contradiction. destruct Hin as [->|[]]. apply in_upto in Hb. destruct Hb as (r & _ & Hb). exists r.
  pose proof Hb as Hb'. apply in_split in Hb'. destruct Hb' as (o1 & o2 & Eo). pose proof (ex_step _ _ _ _ X r) as He. rewrite Eo in He. apply call_registered in He. destruct He as [_ He].
  rewrite (same_callbacks E f l o X r), Hh in He. injection He as ->. exact Hb.
Qed.
Lemma once_answered n src port : S_callbacks (Y_sh (f 0%nat)) !! OpPoll = Some HPoll -> to16 src <> to16 (E_localIP E) -> In (ORecv (src, port) poll_datagram) (o n) ->
  exists m, In (OTx (KReply, (E_nodeBroadcast E, the_reply E))) (o m).
Proof.
  intros Hh Hs Hi. assert (A : exists q, wire_accepts (firstn 4096 poll_datagram) (PktPoll q)).
  { assert (Y : exists q, Unmarshal poll_datagram = Ret (Some (PktPoll q), None)) by (eexists; vm_compute; reflexivity). destruct Y as [q Y]. exists q.
    change (firstn 4096 poll_datagram) with poll_datagram. apply Unmarshal_accepts; [ apply bytes_okb; reflexivity | exact Y ]. }
  destruct A as [q A]. destruct (once_called n src port poll_datagram (PktPoll q) HPoll Hi Hs A) as (m & Hm); [ rewrite <- (accepts_opcode _ _ A); exact Hh | ].
  destruct (C96_delivered E f l o X Fr (S m)) as (r & K). destruct (K r (Nat.le_refl r)) as (_ & _ & _ & _ & _ & L & _).
  assert (P : In q (polls_handled (upto o (S m)))). { unfold polls_handled. apply in_collect. exists (OCall HPoll (PktPoll q)). split; [ apply in_upto; exists m; split; [ lia | exact Hm ] | left; reflexivity ]. }
  destruct (cnt_pos_in is_reply (transmitted (upto o r))) as (x & Hx & Hk). { destruct (polls_handled (upto o (S m))); [ contradiction | cbn [length] in L; lia ]. }
  apply in_transmitted in Hx. apply in_upto in Hx. destruct Hx as (r2 & _ & Hx). exists r2. pose proof (upto_item _ _ Hx) as I0. pose proof (lv_wf _ _ (ex_live _ _ _ _ X)) as Hc.
  destruct x as [k [a d]]. destruct (item_opcode E k a d Hc I0) as [_ Ko]. unfold is_reply in Hk. cbn [snd] in Hk. rewrite Ko in Hk. destruct k; try discriminate Hk. destruct I0 as [-> Hd]. rewrite <- (reply_is E d Hc Hd). exact Hx.
Qed.
Lemma once_applied n src port d q : C_Type (E_config E) = StController -> S_callbacks (Y_sh (f 0%nat)) !! OpPollReply = Some HPollReply -> to16 src <> to16 (E_localIP E) ->
  In (ORecv (src, port) d) (o n) -> wire_accepts (firstn 4096 d) (PktPollReply q) -> exists m s now out, In (OTable s (EReply q now) out) (o m).
Proof.
  intros Ht Hh Hs Hi A. destruct (once_called n src port d (PktPollReply q) HPollReply Hi Hs A) as (m & Hm); [ rewrite <- (accepts_opcode _ _ A); inversion A; exact Hh | ].
  destruct (C96_delivered E f l o X Fr (S m)) as (r & K). destruct (K r (Nat.le_refl r)) as (_ & _ & _ & _ & _ & _ & L). destruct (L Ht) as (rest & P).
  assert (Q : In q (replies_applied (upto o r))).
  { apply elem_of_list_In. rewrite P. apply elem_of_app. left. apply elem_of_list_In. unfold replies_called. apply in_collect. eexists. split; [ apply in_upto; exists m; split; [ lia | exact Hm ] | left; reflexivity ]. }
  unfold replies_applied in Q. apply in_collect in Q. destruct Q as (b & Hb & Q). destruct b; try contradiction. destruct e; try contradiction. destruct Q as [->|[]]. apply in_upto in Hb. destruct Hb as (r2 & _ & Hb). eauto.
Qed.
(** A universe that is due at a tick is transmitted, with the data in the buffer. *)
Lemma once_due n s order now out a k cn : In (OTable s (ETick order now) out) (o n) -> K_OutputAddress s !! a = Some k -> K_heap s !! k = Some cn -> is_due s now (a, k) = true ->
  exists m kd x q, In (OTx (kd, (fst x, snd x))) (o m) /\ fst x = (C_IP (CN_Node cn), 6454) /\ firstn 4096 (snd x) = snd x /\ wire_accepts (snd x) (PktDMX q) /\ (DMX_Net q, DMX_SubUni q) = a /\ DMX_Data q = B_Data (pending s k a).
Proof.
  intros Hi Ha Hn Hdue. destruct (base E f l o X Fr) as (trz & R & _). destruct (R (S n)) as (ls & RE).
  pose proof (proj2 (in_upto _ (S n)) (ex_intro _ n (conj (Nat.lt_succ_diag_r n) Hi))) as Hu. pose proof Hu as Hu'. apply in_split in Hu'. destruct Hu' as (t1 & t2 & Et). rewrite Et, app_assoc in RE.
  pose proof (ok_reach _ _ _ (sys_shared _ _ _ (runs_ok _ _ _ _ RE))) as Hre. rewrite hist_app in Hre. cbn [hist omap list_omap] in Hre. change (omap _ ?l) with (hist l) in Hre.
  destruct (reach_prefix _ _ _ _ _ _ _ Hre) as (Hre1 & Hev & s' & Hs).
  destruct (C44_tick_sends_exactly_the_due _ _ _ order now Hre1 Hev) as (s2 & qs & Hs2 & Hlen). assert (Hout : out = zip_with (dmx_frame s) (List.filter (is_due s now) order) qs) by congruence.
  destruct (zip_with_elem_l (dmx_frame s) (List.filter (is_due s now) order) qs (a, k) Hlen) as (sq & Hk).
  { apply elem_of_list_In, filter_In. split; [ | exact Hdue ]. apply elem_of_list_In. apply (order_routed s order Hev). exact Ha. }
  rewrite <- Hout in Hk.
  destruct (C45_frames_are_right _ _ _ _ _ _ _ _ Hre1 Hev Hs Hk) as (a' & n' & cn' & q & Ha' & Hn' & Hf & Hb & Hu2 & Q1 & Q2 & _ & Q3 & _).
  pose proof (proj1 (Unmarshal_accepts _ _ Hb) Hu2) as Hacc.
  assert (Ea : a' = a). { rewrite (surjective_pairing a'), (surjective_pairing a), <- Q1, <- Q2. unfold dmx_frame in Hacc. cbn [fst snd app] in Hacc. inversion Hacc; subst. reflexivity. }
  subst a'. pose proof (eq_trans (eq_sym Ha') Ha) as X1. injection X1 as ->. pose proof (eq_trans (eq_sym Hn') Hn) as X2. injection X2 as ->.
  revert Hk Hf Hb Hacc. generalize (dmx_frame s (a, k) sq). intros x Hk Hf Hb Hacc.
  destruct (C96_delivered E f l o X Fr (S n)) as (m & K). destruct (K m (Nat.le_refl m)) as (_ & _ & _ & _ & (z1 & z2 & D) & _).
  assert (Hd : In x (dmx_out (upto o m))).
  { rewrite D. apply in_or_app. right. apply in_or_app. left. unfold frames_made. apply in_collect. exists (OTable s (ETick order now) out). split; [ exact Hu | apply elem_of_list_In; exact Hk ]. }
  unfold dmx_out in Hd. apply in_map_iff in Hd. destruct Hd as ([kd x'] & Ex & Hd). cbn [snd] in Ex. subst x'. apply filter_In in Hd. destruct Hd as [Hd _]. apply in_transmitted in Hd. apply in_upto in Hd. destruct Hd as (r & _ & Hd).
  pose proof (item_short E _ (lv_wf _ _ (ex_live _ _ _ _ X)) (upto_item _ _ Hd)) as Hsh. cbn [snd] in Hsh.
  exists r, kd, x, q. rewrite <- surjective_pairing. split; [ exact Hd | ]. split; [ exact Hf | ]. split; [ exact Hsh | ]. split; [ exact Hacc | ]. split; [ rewrite Q1, Q2; symmetry; apply surjective_pairing | exact Q3 ].
Qed.
End once.

(** * Again and again *)
Lemma nexec_runs Z F A O : nexec Z F A O -> exists G, forall n, nruns Z (F n) (G ++ concat (map (fun k => map (pair (fst (A k))) (O k)) (seq 0 n))).
Proof.
  intros X. destruct (nx_start _ _ _ _ X) as (G & R). exists G. induction n as [|n IH]; [ cbn; rewrite app_nil_r; exact R | ].
  destruct (nx_step _ _ _ _ X n) as (E & y & y' & H1 & H2 & H3 & H4 & H5 & ->). rewrite seq_S, map_app, concat_app, app_assoc. cbn. rewrite app_nil_r. eapply nruns_step; eassumption.
Qed.
Lemma nexec_from Z F A O n : nexec Z F A O -> nexec Z (fun k => F (n + k)%nat) (fun k => A (n + k)%nat) (fun k => O (n + k)%nat).
Proof.
  intros X. constructor.
  - rewrite Nat.add_0_r. destruct (nexec_runs _ _ _ _ X) as (G & R). eexists. apply R.
  - intros k. rewrite <- plus_n_Sm. exact (nx_step _ _ _ _ X (n + k)).
Qed.
Lemma up_at Z F A O i E n : nexec Z F A O -> up Z F A i E -> exists y, W_hosts (F n) !! i = Some y /\ live E y.
Proof.
  intros X (HE & (y & Hy & V) & Hc). induction n as [|n (y1 & Hy1 & V1)]; [ eauto | ]. destruct (nx_step _ _ _ _ X n) as (E1 & y2 & y' & H1 & H2 & H3 & _ & H5 & ->). cbn [W_hosts]. destruct (Nat.eq_dec (fst (A n)) i) as [Hi|Hi].
  - rewrite Hi in *. assert (E1 = E) as -> by congruence. assert (y2 = y1) as -> by congruence. exists y'. split; [ apply list_lookup_insert; eapply lookup_lt_Some; exact H2 | ].
    destruct (Hc n (snd (A n))) as [C1 C2]; [ rewrite (surjective_pairing (A n)), Hi; reflexivity | ]. exact (proj1 (live_label E _ _ _ _ V1 H3 C1 C2 H5)).
  - rewrite list_lookup_insert_ne by exact Hi. eauto.
Qed.
Lemma up_from Z F A O i E n : nexec Z F A O -> up Z F A i E -> up Z (fun k => F (n + k)%nat) (fun k => A (n + k)%nat) i E.
Proof. intros X U. pose proof U as (HE & _ & Hc). split; [ exact HE | ]. split; [ rewrite Nat.add_0_r; eapply up_at; eassumption | ]. intros k l H. exact (Hc _ _ H). Qed.
Lemma nfair_from F A i E n : nfair F A i E -> nfair (fun k => F (n + k)%nat) (fun k => A (n + k)%nat) i E.
Proof.
  intros H k b m. destruct (H k b (n + m)%nat) as [(r & y & t & c & Hr & K)|(r & Hr & K)].
  - left. exists (r - n)%nat, y, t, c. replace (n + (r - n))%nat with r by lia. split; [ lia | exact K ].
  - right. exists (r - n)%nat. split; [ lia | ]. intros s y Hs. apply K. lia.
Qed.
Lemma often_from P n : often P -> often (fun k => P (n + k)%nat).
Proof. intros H m. destruct (H (n + m)%nat) as (r & Hr & K). exists (r - n)%nat. replace (n + (r - n))%nat with r by lia. split; [ lia | exact K ]. Qed.
(** The callbacks of a running host do not change. *)
Lemma callbacks_at Z F A O i E y0 n y : nexec Z F A O -> up Z F A i E -> W_hosts (F 0%nat) !! i = Some y0 -> W_hosts (F n) !! i = Some y -> S_callbacks (Y_sh y) = S_callbacks (Y_sh y0).
Proof.
  intros X U H0. revert y. induction n as [|n IH]; intros y Hy; [ congruence | ]. destruct (nx_step _ _ _ _ X n) as (E1 & y2 & y' & H1 & H2 & H3 & _ & H5 & H6). rewrite H6 in Hy. cbn [W_hosts] in Hy.
  destruct (up_at _ _ _ _ _ _ n X U) as (y1 & Hy1 & V1). rewrite <- (IH y1 Hy1). destruct (Nat.eq_dec (fst (A n)) i) as [Hi|Hi].
  - destruct U as (HE & _ & Hc). rewrite Hi in *. assert (E1 = E) as -> by congruence. assert (y2 = y1) as -> by congruence. rewrite list_lookup_insert in Hy by (eapply lookup_lt_Some; exact H2). injection Hy as <-.
    destruct (Hc n (snd (A n))) as [C1 C2]; [ rewrite (surjective_pairing (A n)), Hi; reflexivity | ].
    eapply (callbacks_kept E y1 [snd (A n)] y' (O n)); [ | exact V1 | exact C1 | exact C2 ]. change [snd (A n)] with ([] ++ [snd (A n)]). change (O n) with ([] ++ O n). eapply steps_snoc; [ constructor | exact H3 | exact H5 ].
  - rewrite list_lookup_insert_ne in Hy by exact Hi. congruence.
Qed.

Section again.
Context (Z : site) (F : nat -> net) (A : nat -> nat * label) (O : nat -> list obs) (X : nexec Z F A O).
(** From "an effect some time after a cause", for every execution of one host, to the network. *)
Lemma later i E (P Q : label -> list obs -> Prop) y0 m : up Z F A i E -> nfair F A i E -> often (fun m => fst (A m) = i) -> W_hosts (F 0%nat) !! i = Some y0 ->
  (forall f l o, execution E f l o -> fair E f l -> S_callbacks (Y_sh (f 0%nat)) = S_callbacks (Y_sh y0) -> (exists n, P (l n) (o n)) -> exists n, Q (l n) (o n)) ->
  fst (A m) = i -> P (snd (A m)) (O m) -> exists m', (m <= m')%nat /\ fst (A m') = i /\ Q (snd (A m')) (O m').
Proof.
  intros U Fr Mv0 H0 H K1 K2. pose proof (nexec_from _ _ _ _ m X) as Xn. pose proof (up_from _ _ _ _ _ _ m X U) as Un. pose proof (nfair_from _ _ _ _ m Fr) as Fn.
  pose proof (often_from (fun m => fst (A m) = i) m Mv0) as Mv. cbv beta in Mv.
  pose proof (host_execution _ _ _ _ Xn i E Un Mv) as Xe. pose proof (host_fair _ _ _ _ Xn i E Un Fn Mv) as Fe.
  destruct (H _ _ _ Xe Fe) as (k & Hk).
  - destruct (host_start _ _ _ _ Xn i E Un Mv) as (y & Hy & -> & _). rewrite Nat.add_0_r in Hy. exact (callbacks_at _ _ _ _ _ _ _ _ _ X U H0 Hy).
  - destruct (at_all _ i Mv 0) as (k & Hk); [ rewrite Nat.add_0_r; exact K1 | ]. exists k. unfold hl, ho. rewrite Hk, Nat.add_0_r. exact K2.
  - eexists. split; [ | split; [ exact (at_host _ i Mv k) | exact Hk ] ]. apply Nat.le_add_r.
Qed.
Lemma again_and_again i E (P Q : label -> list obs -> Prop) y0 : up Z F A i E -> nfair F A i E -> W_hosts (F 0%nat) !! i = Some y0 ->
  (forall f l o, execution E f l o -> fair E f l -> S_callbacks (Y_sh (f 0%nat)) = S_callbacks (Y_sh y0) -> (exists n, P (l n) (o n)) -> exists n, Q (l n) (o n)) ->
  often (fun m => fst (A m) = i /\ P (snd (A m)) (O m)) -> often (fun m => fst (A m) = i /\ Q (snd (A m)) (O m)).
Proof.
  intros U Fr H0 H Hp n. destruct (Hp n) as (m & Hm & K1 & K2).
  destruct (later i E P Q y0 m U Fr) as (m' & Hm' & K); try assumption; [ intros k; destruct (Hp k) as (r & Hr & K & _); eauto | ]. exists m'. split; [ lia | exact K ].
Qed.
End again.
Lemma table_after E y l y' o s e out : exec E y l = RNext y' o -> In (OTable s e out) o -> step s e = Ret (S_tables (Y_sh y'), out).
Proof.
  intros He Hi. apply exec_cases in He. destruct He as [(k & c & t & s1 & t' & sp & -> & Et & Es & ->)|[(t & -> & _)|(mm & op & g & -> & _)]].
  - cbn [Y_sh]. tcases Es; cbn in Hi; try contradiction; repeat (destruct Hi as [Hi|Hi]; [ try discriminate Hi | ]); try contradiction; injection Hi as <- <- <-; cbn [S_tables with_tables]; assumption.
  - destruct Hi.
  - destruct Hi as [Hi|[]]; discriminate Hi.
Qed.

(** Controller [i] and node [j] run for ever with fair schedulers, hear each other's broadcasts, have different addresses, and are connected by links that may lose any datagram but not all of them; the poll
    ticker of [i] keeps ticking. Then again and again the tables of [i] contain [j] with what its configuration announces, its base address (if it has outputs) being routed to it. *)
Theorem C97_discovered : forall Z F A O i j Ei Ej yj, nexec Z F A O -> up Z F A i Ei -> up Z F A j Ej -> nfair F A i Ei -> nfair F A j Ej ->
  E_ctl Ei = true -> C_Type (E_config Ei) = 1 -> to16 (E_localIP Ei) <> to16 (E_localIP Ej) ->
  W_hosts (F 0%nat) !! j = Some yj -> S_callbacks (Y_sh yj) !! 0x2000 = Some HPoll -> (C_Type (E_config Ej) = 0 \/ (C_Type (E_config Ej) = 1 /\ C_OutputPorts (E_config Ej) <> [])) ->
  Z_hears Z j (E_ctlBroadcast Ei) -> Z_hears Z i (E_nodeBroadcast Ej) -> link Z A O i j Ei -> link Z A O j i Ej ->
  often (fun m => exists k, A m = (i, LRun k CPollTick)) ->
  often (fun m => exists y n cn, W_hosts (F m) !! i = Some y /\ n ∈ K_Nodes (S_tables (Y_sh y)) /\ K_heap (S_tables (Y_sh y)) !! n = Some cn /\ announces Ej (CN_Node cn) /\
    (C_OutputPorts (E_config Ej) <> [] -> K_OutputAddress (S_tables (Y_sh y)) !! C_BaseAddress (E_config Ej) = Some n)).
Proof.
  intros Z F A O i j Ei Ej yj X Ui Uj Fi Fj Ec Hty Hip Hyj Hcb Hst Hij Hji Lij Lji Ht.
  destruct Ui as (HEi & (yi & Hyi & Vi) & Ci) eqn:EUi. destruct (nexec_runs _ _ _ _ X) as (G & R).
  destruct (proj2 (nruns_host _ _ _ (R 0%nat)) i Ei HEi) as (ls0 & y0 & H0 & R0). assert (y0 = yi) as -> by congruence.
  assert (T1 : often (fun m => fst (A m) = i /\ In (OTx (KPoll, (E_ctlBroadcast Ei, poll_datagram))) (O m))).
  { apply (again_and_again Z F A O X i Ei (fun l _ => exists k, l = LRun k CPollTick) (fun _ o => In (OTx (KPoll, (E_ctlBroadcast Ei, poll_datagram))) o) yi Ui Fi Hyi).
    - intros f l o Xe Fe _ (n & k & Hk). exact (once_polled Ei f l o Xe Fe n k Hk).
    - intros n. destruct (Ht n) as (m & Hm & k & Hk). exists m. split; [ exact Hm | ]. rewrite Hk. eauto. }
  assert (R1 : often (fun m => fst (A m) = j /\ exists port, In (ORecv (E_localIP Ei, port) poll_datagram) (O m))).
  { intros n. destruct (Lij (fun d => d = poll_datagram)) with (n := n) as (m & Hm & K1 & port & d & K2 & ->); [ | exists m; eauto ].
    intros r. destruct (T1 r) as (m & Hm & K1 & K2). exists m. split; [ exact Hm | ]. split; [ exact K1 | ]. eexists _, _, _. split; [ exact K2 | ]. split; [ exact Hij | reflexivity ]. }
  assert (T2 : often (fun m => fst (A m) = j /\ In (OTx (KReply, (E_nodeBroadcast Ej, the_reply Ej))) (O m))).
  { apply (again_and_again Z F A O X j Ej (fun _ o => exists port, In (ORecv (E_localIP Ei, port) poll_datagram) o) (fun _ o => In (OTx (KReply, (E_nodeBroadcast Ej, the_reply Ej))) o) yj Uj Fj Hyj).
    - intros f l o Xe Fe Hc (n & port & Hn). eapply (once_answered Ej f l o Xe Fe n (E_localIP Ei) port); [ rewrite Hc; exact Hcb | exact Hip | exact Hn ].
    - exact R1. }
  assert (R2 : often (fun m => fst (A m) = i /\ exists port, In (ORecv (E_localIP Ej, port) (the_reply Ej)) (O m))).
  { intros n. destruct (Lji (fun d => d = the_reply Ej)) with (n := n) as (m & Hm & K1 & port & d & K2 & ->); [ | exists m; eauto ].
    intros r. destruct (T2 r) as (m & Hm & K1 & K2). exists m. split; [ exact Hm | ]. split; [ exact K1 | ]. eexists _, _, _. split; [ exact K2 | ]. split; [ exact Hji | reflexivity ]. }
  (* the reply as received *)
  pose proof Uj as (HEj & (yj0 & Hyj0 & Vj) & _). pose proof (lv_wf _ _ Vj) as Hw. assert (Hle : C_Type (E_config Ej) <= 6) by lia.
  destruct (T2 0%nat) as (mt & _ & Tj & Tt). destruct (proj2 (nruns_host _ _ _ (R (S mt))) j Ej HEj) as (lsj & yjt & _ & Rj).
  assert (Tx : In (OTx (KReply, (E_nodeBroadcast Ej, the_reply Ej))) (proj j (G ++ concat (map (fun k => map (pair (fst (A k))) (O k)) (seq 0 (S mt)))))).
  { apply proj_in. apply in_or_app. right. apply in_concat. eexists. split; [ apply in_map_iff; exists mt; split; [ reflexivity | apply in_seq; lia ] | ]. rewrite Tj. apply in_map. exact Tt. }
  assert (Hval : valid_config (E_config Ej)).
  { destruct (validate (E_config Ej)) as [e|] eqn:Hv; [ | apply C32_validate_exact; assumption ]. exfalso.
    assert (V : ~ valid_config (E_config Ej)) by (intros V; apply C32_validate_exact in V; [ congruence | exact Hw ]).
    destruct (C62_invalid_partial _ _ _ _ Hw V Rj) as (_ & _ & K & _). destruct (K _ Tx) as (_ & _ & _ & K'). exact (K' _ eq_refl). }
  pose proof (announcement_wf _ Hw) as Ha. destruct (marshal_unmarshal (PktPollReply (ArtPollReplyFromConfig (E_config Ej))) Ha (conj eq_refl Hle)) as (b & Hm & -> & Hb & Hu).
  change (packet_bytes (PktPollReply (ArtPollReplyFromConfig (E_config Ej)))) with (the_reply Ej) in *.
  change (canonical (PktPollReply (ArtPollReplyFromConfig (E_config Ej)))) with (PktPollReply (PollReply_set (ArtPollReplyFromConfig (E_config Ej)) magic 0x2100 6454)) in Hu.
  remember (PollReply_set (ArtPollReplyFromConfig (E_config Ej)) magic 0x2100 6454) as q eqn:Eq.
  assert (Hacc : wire_accepts (firstn 4096 (the_reply Ej)) (PktPollReply q)).
  { pose proof (item_short Ej _ Hw (tx_item _ _ _ _ _ Rj Tx)) as Hsh. cbn [snd] in Hsh. rewrite Hsh. apply Unmarshal_accepts; [ exact Hb | exact Hu ]. }
  assert (T3 : often (fun m => fst (A m) = i /\ exists s now out, In (OTable s (EReply q now) out) (O m))).
  { apply (again_and_again Z F A O X i Ei (fun _ o => exists port, In (ORecv (E_localIP Ej, port) (the_reply Ej)) o) (fun _ o => exists s now out, In (OTable s (EReply q now) out) o) yi Ui Fi Hyi).
    - intros f l o Xe Fe Hc (n & port & Hn). eapply (once_applied Ei f l o Xe Fe n (E_localIP Ej) port (the_reply Ej) q); [ exact Hty | rewrite Hc, (ctl_callbacks _ _ _ _ Ec R0); reflexivity | congruence | exact Hn | exact Hacc ].
    - exact R2. }
  intros n. destruct (T3 n) as (m & Hmn & K1 & s & now & out & K2). exists (S m). split; [ lia | ].
  destruct (nx_step _ _ _ _ X m) as (E1 & y1 & y' & H1 & H2 & _ & _ & H5 & H6). rewrite K1 in *. assert (E1 = Ei) as -> by congruence.
  destruct (proj2 (nruns_host _ _ _ (R (S m))) i Ei HEi) as (lsm & ym & Hym & Rm).
  assert (Ho : In (OTable s (EReply q now) out) (proj i (G ++ concat (map (fun k => map (pair (fst (A k))) (O k)) (seq 0 (S m)))))).
  { apply proj_in. apply in_or_app. right. apply in_concat. eexists. split; [ apply in_map_iff; exists m; split; [ reflexivity | apply in_seq; lia ] | ]. rewrite K1. apply in_map. exact K2. }
  destruct (reply_entry Ei Ej lsm ym _ s now out q Hw Hval Hst Eq Rm Ho) as (s' & k & cn & S1 & S2 & S3 & S4 & _ & S6).
  rewrite (table_after _ _ _ _ _ _ _ _ H5 K2) in S1. injection S1 as S1. exists y', k, cn. rewrite S1. split; [ rewrite H6; cbn [W_hosts]; apply list_lookup_insert; eapply lookup_lt_Some; exact H2 | ]. auto.
Qed.
Lemma table_alone E y l y' o s e out : exec E y l = RNext y' o -> In (OTable s e out) o -> exists r, o = OTable s e out :: r /\ forall s' e' o', ~ In (OTable s' e' o') r.
Proof.
  intros He Hi. apply exec_cases in He. destruct He as [(k & c & t & s1 & t' & sp & -> & Et & Es & ->)|[(t & -> & _)|(mm & op & g & -> & _)]].
  - tcases Es; cbn in Hi; try contradiction; repeat (destruct Hi as [Hi|Hi]; [ try discriminate Hi | ]); try contradiction; injection Hi as <- <- <-; eexists; (split; [ reflexivity | ]); intros s' e' o' K; cbn in K; intuition discriminate.
  - destruct Hi.
  - destruct Hi as [Hi|[]]; discriminate Hi.
Qed.

(** What the buffer contains at a tick after the user's last write to universe [a] of entry [n]. *)
Lemma written_data Z F A O i Ei a n d m0 s0 s1 o0 m s order now out : nexec Z F A O -> Z_envs Z !! i = Some Ei -> fst (A m0) = i -> In (OTable s0 (ESend d a) o0) (O m0) -> SendDMXToAddress s0 d a = Ret (s1, true) ->
  K_OutputAddress s0 !! a = Some n -> (forall r s d' o', (m0 < r < m)%nat -> fst (A r) = i -> ~ In (OTable s (ESend d' a) o') (O r)) ->
  (m0 < m)%nat -> fst (A m) = i -> In (OTable s (ETick order now) out) (O m) -> B_Data (pending s n a) = d.
Proof.
  intros X HEi W1 W2 W3 W4 Wno Hm K1 K2. destruct (nexec_runs _ _ _ _ X) as (G & R). destruct (proj2 (nruns_host _ _ _ (R (S m))) i Ei HEi) as (ls & y & _ & RE).
    set (T := fun k => map (pair (fst (A k))) (O k)) in *.
    assert (Es : concat (map T (seq 0 (S m))) = (concat (map T (seq 0 m0)) ++ T m0) ++ concat (map T (seq (S m0) (m - S m0))) ++ T m).
    { replace (S m) with (m0 + (1 + ((m - S m0) + 1)))%nat by lia. rewrite !seq_app, !map_app, !concat_app. cbn [Nat.add seq map concat]. rewrite !app_nil_r. replace (m0 + 1 + (m - S m0))%nat with m by lia. replace (m0 + 1)%nat with (S m0) by lia. rewrite <- !app_assoc. reflexivity. }
    rewrite Es in RE. rewrite !proj_app in RE. unfold T in RE at 2 4. rewrite W1, K1, !proj_same in RE.
    destruct (nx_step _ _ _ _ X m0) as (E1 & y1 & y1' & _ & _ & _ & _ & He1 & _). destruct (nx_step _ _ _ _ X m) as (E2 & y2 & y2' & _ & _ & _ & _ & He2 & _).
    destruct (table_alone _ _ _ _ _ _ _ _ He1 W2) as (u2 & Eu & Nu). destruct (table_alone _ _ _ _ _ _ _ _ He2 K2) as (v2 & Ev & _).
    rewrite Eu, Ev in RE.
    replace ((proj i G ++ (proj i (concat (map T (seq 0 m0))) ++ OTable s0 (ESend d a) o0 :: u2) ++ proj i (concat (map T (seq (S m0) (m - S m0)))) ++ OTable s (ETick order now) out :: v2))
      with (((proj i G ++ proj i (concat (map T (seq 0 m0)))) ++ OTable s0 (ESend d a) o0 :: u2 ++ proj i (concat (map T (seq (S m0) (m - S m0))))) ++ OTable s (ETick order now) out :: v2) in RE
      by (rewrite <- !app_assoc; cbn [app]; rewrite <- !app_assoc; reflexivity).
    pose proof (ok_reach _ _ _ (sys_shared _ _ _ (runs_ok _ _ _ _ RE))) as Hre. rewrite hist_app in Hre. cbn [hist omap list_omap] in Hre. change (omap _ ?l) with (hist l) in Hre.
    destruct (reach_prefix _ _ _ _ _ _ _ Hre) as (Hre1 & _). rewrite (data_inv _ _ _ Hre1 n a). rewrite hist_app. cbn [hist omap list_omap]. change (omap _ ?l) with (hist l).
    unfold last_write. rewrite fold_left_app. cbn [fold_left]. unfold accepted at 2. rewrite W3, bool_decide_true by auto. cbn [andb].
    assert (No : forall s2 d2 o2, ~ In (s2, ESend d2 a, o2) (hist (u2 ++ proj i (concat (map T (seq (S m0) (m - S m0))))))).
    { intros s2 d2 o2 K. apply in_hist in K. apply in_app_or in K. destruct K as [K|K].
      - exact (Nu _ _ _ K).
      - apply proj_in in K. apply in_concat in K. destruct K as (z & Hz & K). apply in_map_iff in Hz. destruct Hz as (r & <- & Hr). apply in_seq in Hr. unfold T in K. apply in_map_iff in K. destruct K as (b & Eb & K). injection Eb as Eb ->. exact (Wno r _ _ _ ltac:(lia) Eb K). }
    clear - No. induction (hist _) as [|[[s2 e] o2] k IH]; [ reflexivity | ]. cbn [fold_left].
    destruct e as [| |d2 b| |]; try (apply IH; intros s3 d3 o3 K; apply (No s3 d3 o3); right; exact K).
    rewrite bool_decide_false; [ apply IH; intros s3 d3 o3 K; apply (No s3 d3 o3); right; exact K | ]. intros [-> _]. apply (No s2 d2 o2). left. reflexivity.
Qed.

(** Controller [i] and host [j] run for ever with fair schedulers. The user of [i] wrote [d] to universe [a] (step [m0]) when it was routed to entry [n], and does not write to [a] afterwards. Again and again a
    tick finds [a] routed to [n], with an IP that [j] hears, and due. Then the callback of [j] for ArtDmx is given the universe with [d] again and again, although the link may lose any datagram (but not all). *)
Theorem C98_often : forall Z F A O i j Ei Ej yj h a n d m0 s0 s1 o0, nexec Z F A O -> up Z F A i Ei -> up Z F A j Ej -> nfair F A i Ei -> nfair F A j Ej ->
  to16 (E_localIP Ei) <> to16 (E_localIP Ej) -> W_hosts (F 0%nat) !! j = Some yj -> S_callbacks (Y_sh yj) !! 0x5000 = Some h -> link Z A O i j Ei ->
  fst (A m0) = i -> In (OTable s0 (ESend d a) o0) (O m0) -> SendDMXToAddress s0 d a = Ret (s1, true) -> K_OutputAddress s0 !! a = Some n ->
  (forall m s d' o', (m0 < m)%nat -> fst (A m) = i -> ~ In (OTable s (ESend d' a) o') (O m)) ->
  often (fun m => fst (A m) = i /\ exists s order now out cn, In (OTable s (ETick order now) out) (O m) /\ K_OutputAddress s !! a = Some n /\ K_heap s !! n = Some cn /\ is_due s now (a, n) = true /\
    Z_hears Z j (C_IP (CN_Node cn), 6454)) ->
  often (fun m => fst (A m) = j /\ exists q, In (OCall h (PktDMX q)) (O m) /\ (DMX_Net q, DMX_SubUni q) = a /\ DMX_Data q = d).
Proof.
  intros Z F A O i j Ei Ej yj h a n d m0 s0 s1 o0 X Ui Uj Fi Fj Hip Hyj Hcb Lij W1 W2 W3 W4 Wno Ht.
  pose proof Ui as (HEi & (yi & Hyi & Vi) & Ci).
  set (P := fun b => firstn 4096 b = b /\ exists q, wire_accepts b (PktDMX q) /\ (DMX_Net q, DMX_SubUni q) = a /\ DMX_Data q = d).
  assert (T1 : often (fun m => fst (A m) = i /\ exists kd dst b, In (OTx (kd, (dst, b))) (O m) /\ Z_hears Z j dst /\ P b)).
  { apply (again_and_again Z F A O X i Ei
      (fun _ o => exists s order now out cn, In (OTable s (ETick order now) out) o /\ K_OutputAddress s !! a = Some n /\ K_heap s !! n = Some cn /\ is_due s now (a, n) = true /\ Z_hears Z j (C_IP (CN_Node cn), 6454) /\ B_Data (pending s n a) = d)
      (fun _ o => exists kd dst b, In (OTx (kd, (dst, b))) o /\ Z_hears Z j dst /\ P b) yi Ui Fi Hyi).
    - intros f l o Xe Fe _ (r & s & order & now & out & cn & K1 & K2 & K3 & K4 & K5 & K6). destruct (once_due Ei f l o Xe Fe r s order now out a n cn K1 K2 K3 K4) as (m & kd & x & q & Q1 & Q2 & Q3 & Q4 & Q5 & Q6).
      exists m, kd, (fst x), (snd x). split; [ exact Q1 | ]. split; [ rewrite Q2; exact K5 | ]. split; [ exact Q3 | ]. exists q. split; [ exact Q4 | ]. split; [ exact Q5 | congruence ].
    - intros r. destruct (Ht (Nat.max r (S m0))) as (m & Hm & K1 & s & order & now & out & cn & K2 & K3 & K4 & K5 & K6). exists m. split; [ lia | ]. split; [ exact K1 | ]. exists s, order, now, out, cn. repeat (split; [ assumption | ]).
      eapply (written_data Z F A O i Ei a n d m0 s0 s1 o0 m s order now out); try eassumption; [ intros r' s' d' o' Hr'; apply Wno; lia | lia ]. }
  pose proof (Lij P T1) as T2.
  apply (again_and_again Z F A O X j Ej (fun _ o => exists port b, In (ORecv (E_localIP Ei, port) b) o /\ P b) (fun _ o => exists q, In (OCall h (PktDMX q)) o /\ (DMX_Net q, DMX_SubUni q) = a /\ DMX_Data q = d) yj Uj Fj Hyj); [ | exact T2 ].
  intros f l o Xe Fe Hc (r & port & b & K1 & K2 & q & K3 & K4 & K5). destruct (once_called Ej f l o Xe Fe r (E_localIP Ei) port b (PktDMX q) h K1 Hip) as (m & Hm).
  - rewrite K2. exact K3.
  - rewrite Hc, <- (accepts_opcode _ _ K3). inversion K3; exact Hcb.
  - exists m, q. auto.
Qed.
(** Every datagram that [i] sends and [j] hears arrives at [j] (once or more often, with any delay, in any order). *)
Definition reliable (Z : site) (A : nat -> nat * label) (O : nat -> list obs) (i j : nat) (E : env) : Prop := forall m k dst d,
  fst (A m) = i -> In (OTx (k, (dst, d))) (O m) -> Z_hears Z j dst -> exists m' port, (m <= m')%nat /\ fst (A m') = j /\ In (ORecv (E_localIP E, port) d) (O m').
(** Controller [i] and host [j] run for ever with fair schedulers. The user of [i] wrote [d] to universe [a] (step [m0]) when it was routed to entry [n]; at the tick of step [m] nothing else was written to [a]
    since, [a] is routed to [n], with an IP that [j] hears, and due. Then the callback of [j] for ArtDmx is given the universe with [d] later. *)
Theorem C98_arrives : forall Z F A O i j Ei Ej yj h a n d m0 s0 s1 o0 m s order now out cn, nexec Z F A O -> up Z F A i Ei -> up Z F A j Ej -> nfair F A i Ei -> nfair F A j Ej ->
  often (fun m => fst (A m) = i) -> often (fun m => fst (A m) = j) ->
  to16 (E_localIP Ei) <> to16 (E_localIP Ej) -> W_hosts (F 0%nat) !! j = Some yj -> S_callbacks (Y_sh yj) !! 0x5000 = Some h -> reliable Z A O i j Ei ->
  fst (A m0) = i -> In (OTable s0 (ESend d a) o0) (O m0) -> SendDMXToAddress s0 d a = Ret (s1, true) -> K_OutputAddress s0 !! a = Some n ->
  (forall r s d' o', (m0 < r < m)%nat -> fst (A r) = i -> ~ In (OTable s (ESend d' a) o') (O r)) ->
  (m0 < m)%nat -> fst (A m) = i -> In (OTable s (ETick order now) out) (O m) -> K_OutputAddress s !! a = Some n -> K_heap s !! n = Some cn -> is_due s now (a, n) = true -> Z_hears Z j (C_IP (CN_Node cn), 6454) ->
  exists m' q, (m <= m')%nat /\ fst (A m') = j /\ In (OCall h (PktDMX q)) (O m') /\ (DMX_Net q, DMX_SubUni q) = a /\ DMX_Data q = d.
Proof.
  intros Z F A O i j Ei Ej yj h a n d m0 s0 s1 o0 m s order now out cn X Ui Uj Fi Fj Mi Mj Hip Hyj Hcb Lij W1 W2 W3 W4 Wno Hm K1 K2 K3 K4 K5 K6.
  pose proof Ui as (HEi & (yi & Hyi & Vi) & Ci).
  pose proof (written_data Z F A O i Ei a n d m0 s0 s1 o0 m s order now out X HEi W1 W2 W3 W4 Wno Hm K1 K2) as D.
  set (P := fun b => firstn 4096 b = b /\ exists q, wire_accepts b (PktDMX q) /\ (DMX_Net q, DMX_SubUni q) = a /\ DMX_Data q = d).
  destruct (later Z F A O X i Ei (fun _ o => In (OTable s (ETick order now) out) o) (fun _ o => exists kd dst b, In (OTx (kd, (dst, b))) o /\ Z_hears Z j dst /\ P b) yi m Ui Fi Mi Hyi) as (m1 & M1 & J1 & kd & dst & b & J2 & J3 & J4); [ | exact K1 | exact K2 | ].
  { intros f l o Xe Fe _ (r & Hr). destruct (once_due Ei f l o Xe Fe r s order now out a n cn Hr K3 K4 K5) as (m' & kd & x & q & Q1 & Q2 & Q3 & Q4 & Q5 & Q6).
    exists m', kd, (fst x), (snd x). split; [ exact Q1 | ]. split; [ rewrite Q2; exact K6 | ]. split; [ exact Q3 | ]. exists q. split; [ exact Q4 | ]. split; [ exact Q5 | congruence ]. }
  destruct (Lij _ _ _ _ J1 J2 J3) as (m2 & port & M2 & J5 & J6). destruct J4 as (J7 & q & J8 & J9 & J10).
  destruct (later Z F A O X j Ej (fun _ o => In (ORecv (E_localIP Ei, port) b) o) (fun _ o => In (OCall h (PktDMX q)) o) yj m2 Uj Fj Mj Hyj) as (m3 & M3 & J11 & J12); [ | exact J5 | exact J6 | exists m3, q; split; [ lia | auto ] ].
  intros f l o Xe Fe Hc (r & Hr). eapply (once_called Ej f l o Xe Fe r (E_localIP Ei) port b (PktDMX q) h Hr Hip); [ rewrite J7; exact J8 | rewrite Hc, <- (accepts_opcode _ _ J8); inversion J8; exact Hcb ].
Qed.


(** * Witnesses *)
(** A prefix of [p] steps and rounds of [len] steps. *)
Section positions.
Context (p len : nat) (Len : len <> 0%nat).
Definition round (n : nat) : nat := ((n - p) / len)%nat.
Definition pos (n : nat) : nat := if (n <? p)%nat then n else (p + (n - p) mod len)%nat.
Lemma pos_lt n : (pos n < p + len)%nat /\ (round n = 0%nat \/ (p <= pos n)%nat).
Proof.
  unfold pos, round. destruct (Nat.ltb_spec n p) as [H|H]; [ split; [ lia | left; replace (n - p)%nat with 0%nat by lia; apply Nat.div_small; lia ] | ].
  pose proof (Nat.mod_upper_bound (n - p) len Len). split; lia.
Qed.
Lemma pos_S n : (pos (S n) = S (pos n) /\ round (S n) = round n) \/ (S (pos n) = (p + len)%nat /\ pos (S n) = p /\ round (S n) = S (round n)).
Proof.
  unfold pos, round. destruct (Nat.ltb_spec n p) as [H|H].
  - left. destruct (Nat.ltb_spec (S n) p) as [H1|H1]; (split; [ | replace (S n - p)%nat with 0%nat by lia; replace (n - p)%nat with 0%nat by lia; reflexivity ]); [ reflexivity | ].
    replace (S n - p)%nat with 0%nat by lia. rewrite Nat.mod_0_l by exact Len. lia.
  - destruct (Nat.ltb_spec (S n) p) as [H1|H1]; [ lia | ]. replace (S n - p)%nat with (S (n - p)) by lia. generalize (n - p)%nat. intros k.
    pose proof (Nat.div_mod k len Len) as D. pose proof (Nat.mod_upper_bound k len Len) as U. destruct (Nat.eq_dec (S (k mod len)) len) as [K|K].
    + right. assert (Q : S k = (len * S (k / len) + 0)%nat) by lia. split; [ lia | ]. split; [ rewrite <- (Nat.mod_unique (S k) len (S (k / len)) 0 ltac:(lia) Q); lia | rewrite <- (Nat.div_unique (S k) len (S (k / len)) 0 ltac:(lia) Q); reflexivity ].
    + left. assert (Q : S k = (len * (k / len) + S (k mod len))%nat) by lia. split; [ rewrite <- (Nat.mod_unique (S k) len (k / len) (S (k mod len)) ltac:(lia) Q); lia | rewrite <- (Nat.div_unique (S k) len (k / len) (S (k mod len)) ltac:(lia) Q); reflexivity ].
Qed.
(** Every position of the round comes again and again. *)
Lemma comes_again r n : (p <= r < p + len)%nat -> exists m, (n <= m)%nat /\ pos m = r.
Proof.
  intros Hr. exists (p + ((r - p) + n * len))%nat. split; [ destruct len; [ congruence | lia ] | ]. unfold pos. destruct (Nat.ltb_spec (p + (r - p + n * len))%nat p) as [H|H]; [ lia | ].
  replace (p + (r - p + n * len) - p)%nat with (r - p + n * len)%nat by lia. rewrite Nat.mod_add by exact Len. rewrite Nat.mod_small by lia. lia.
Qed.
Lemma comes_in_round r q : (p <= r < p + len)%nat -> exists m, (q <= m)%nat /\ pos m = r /\ round m = q.
Proof.
  intros Hr. exists (p + ((r - p) + q * len))%nat. split; [ destruct len; [ congruence | lia ] | ]. unfold pos, round. destruct (Nat.ltb_spec (p + (r - p + q * len))%nat p) as [H|H]; [ lia | ].
  replace (p + (r - p + q * len) - p)%nat with (r - p + q * len)%nat by lia. rewrite Nat.mod_add, Nat.div_add by exact Len. rewrite Nat.mod_small, Nat.div_small by lia. lia.
Qed.
Lemma round_late q n : (p + q * len <= n)%nat -> (q <= round n)%nat /\ (p <= pos n < p + len)%nat.
Proof.
  intros H. split; [ unfold round; apply Nat.div_le_lower_bound; [ exact Len | lia ] | ]. unfold pos. destruct (Nat.ltb_spec n p); [ lia | ]. pose proof (Nat.mod_upper_bound (n - p) len Len). lia.
Qed.
End positions.
(** Executions that go through a prefix ([p] steps) and then through the same [len] steps again and again, round [q] differing from the first by a renaming [psi] of the states, [lam] of the labels and [om] of the
    observations. [T], [L] and [B] have the states, labels and observations of the prefix and the first round. *)
Section forever.
Context (Z : site) (p len : nat) (T : nat -> net) (L : nat -> nat * label) (B : nat -> list obs) (psi : nat -> nat -> sys -> sys) (lam : nat -> nat -> label -> label) (om : nat -> list obs -> list obs).
Context (Len : len <> 0%nat) (Start : exists G, nruns Z (T 0%nat) G)
  (Id : forall i y, psi 0 i y = y)
  (Step : forall q r, (r < p + len)%nat -> (q = 0%nat \/ (p <= r)%nat) -> exists E y y', let i := fst (L r) in Z_envs Z !! i = Some E /\ W_hosts (T r) !! i = Some y /\ label_ok (lam q i (snd (L r))) /\
     possible Z (W_air (T r)) i (lam q i (snd (L r))) /\ exec E (psi q i y) (lam q i (snd (L r))) = RNext (psi q i y') (om q (B r)) /\ aired i (om q (B r)) = aired i (B r) /\
     T (S r) = mkNet (<[i := y']> (W_hosts (T r))) (W_air (T r) ++ aired i (B r)))
  (Wrap : forall q, imap (psi q) (W_hosts (T (p + len)%nat)) = imap (psi (S q)) (W_hosts (T p))).
Definition FA (n : nat) : nat * label := let i := fst (L (pos p len n)) in (i, lam (round p len n) i (snd (L (pos p len n)))).
Definition FO (n : nat) : list obs := om (round p len n) (B (pos p len n)).
Fixpoint air (n : nat) : list (nat * payload) := match n with 0%nat => W_air (T 0%nat) | S n => air n ++ aired (fst (FA n)) (FO n) end.
Definition FF (n : nat) : net := mkNet (imap (psi (round p len n)) (W_hosts (T (pos p len n)))) (air n).
Lemma air_grows n m x : (n <= m)%nat -> In x (air n) -> In x (air m).
Proof. intros H. induction H as [|m H IH]; [ exact id | ]. intros K. cbn [air]. apply in_or_app. left. exact (IH K). Qed.
Lemma air_before r : (r <= p + len)%nat -> forall x, In x (W_air (T r)) -> forall n, (S (pos p len n) = S r \/ S (pos p len n) = r) -> (pos p len n = r -> In x (air n)) /\ (S (pos p len n) = r -> In x (air (S n))).
Proof.
  induction r as [|r IH]; intros Hr x Hx n Hn.
  - split; [ intros _; apply (air_grows 0); [ lia | exact Hx ] | lia ].
  - destruct (Step 0 r ltac:(lia) (or_introl eq_refl)) as (E & y & y' & _ & _ & _ & _ & _ & _ & HT). rewrite HT in Hx. cbn [W_air] in Hx. apply in_app_or in Hx.
    assert (K : forall n, pos p len n = r -> In x (air (S n))).
    { intros k Hk. destruct (pos_lt p len Len k) as [P1 P2]. destruct Hx as [Hx|Hx].
      - apply (air_grows k); [ lia | ]. apply (IH ltac:(lia) x Hx k); [ left; lia | exact Hk ].
      - cbn [air]. apply in_or_app. right. unfold FA, FO. cbn [fst]. rewrite Hk in *. destruct (Step (round p len k) r P1 P2) as (E2 & y2 & y2' & _ & _ & _ & _ & _ & Ha & _). rewrite Ha. exact Hx. }
    split; [ | intros H; apply K; lia ]. intros Hp.
    destruct n as [|n]; [ unfold pos in Hp; destruct (Nat.ltb_spec 0 p); [ discriminate Hp | rewrite Nat.sub_0_l, Nat.mod_0_l in Hp by exact Len; lia ] | ].
    destruct (pos_S p len Len n) as [[P _]|(P1 & P2 & _)]; [ apply K; lia | ].
    (* the first step of a later round *)
    assert (Ep : S r = p) by lia. 
    assert (G : forall m, (p <= m)%nat -> In x (air m)).
    { intros m Hm. apply (air_grows (S r)); [ lia | ]. apply K. unfold pos. rewrite (proj2 (Nat.ltb_lt r p)) by lia. reflexivity. }
    apply G. unfold pos in Hp. destruct (Nat.ltb_spec (S n) p); lia.
Qed.
Lemma forever : nexec Z FF FA FO.
Proof.
  constructor.
  - destruct Start as (G & R). exists G. replace (FF 0) with (T 0%nat); [ exact R | ]. unfold FF. cbn [air]. assert (P : pos p len 0 = 0%nat \/ p = 0%nat) by (unfold pos; destruct (Nat.ltb_spec 0 p); [ left; reflexivity | right; lia ]).
    assert (P0 : pos p len 0 = 0%nat). { destruct P as [P|P]; [ exact P | ]. unfold pos. rewrite P. cbn. apply Nat.mod_0_l. exact Len. }
    rewrite P0. assert (R0 : round p len 0 = 0%nat) by (unfold round; apply Nat.div_0_l; exact Len). rewrite R0. destruct (T 0%nat) as [hs a]. cbn. f_equal. apply list_eq. intros k. rewrite list_lookup_imap. destruct (hs !! k); cbn; [ rewrite Id; reflexivity | reflexivity ].
  - intros n. destruct (pos_lt p len Len n) as [P1 P2]. destruct (Step (round p len n) (pos p len n) P1 P2) as (E & y & y' & H1 & H2 & H3 & H4 & H5 & H6 & H7). unfold FA, FO at 1. cbn [fst snd]. exists E, (psi (round p len n) (fst (L (pos p len n))) y), (psi (round p len n) (fst (L (pos p len n))) y').
    split; [ exact H1 | ]. split; [ unfold FF; cbn [W_hosts]; rewrite list_lookup_imap, H2; reflexivity | ]. split; [ exact H3 | ]. split.
    { unfold FF. cbn [W_air]. revert H4. generalize (lam (round p len n) (fst (L (pos p len n))) (snd (L (pos p len n)))). intros l H4. destruct l as [k c| | | | |]; try exact I. destruct c; try exact I. destruct H4 as [(j & E1 & dst & J1 & J2 & J3 & J4)|J]; [ left | right; exact J ].
      exists j, E1, dst. repeat (split; [ assumption | ]). split; [ | exact J4 ]. apply (proj1 (air_before (pos p len n) ltac:(lia) _ J3 n (or_introl eq_refl))). reflexivity. }
    split; [ exact H5 | ]. unfold FF. cbn [air]. unfold FA at 1, FO at 1. cbn [fst]. f_equal.
    assert (Q : imap (psi (round p len (S n))) (W_hosts (T (pos p len (S n)))) = imap (psi (round p len n)) (W_hosts (T (S (pos p len n))))).
    { destruct (pos_S p len Len n) as [[-> ->]|(Q1 & -> & ->)]; [ reflexivity | ]. rewrite Q1. symmetry. apply Wrap. }
    rewrite Q, H7. cbn [W_hosts]. apply list_eq. intros k. rewrite list_lookup_imap. destruct (Nat.eq_dec k (fst (L (pos p len n)))) as [->|Hk].
    + rewrite !list_lookup_insert; [ reflexivity | rewrite imap_length | ]; eapply lookup_lt_Some; exact H2.
    + rewrite !list_lookup_insert_ne by congruence. rewrite list_lookup_imap. reflexivity.
Qed.
Lemma forever_up i E y : Z_envs Z !! i = Some E -> W_hosts (T 0%nat) !! i = Some y -> live E y ->
  (forall q r, (r < p + len)%nat -> (q = 0%nat \/ (p <= r)%nat) -> fst (L r) = i -> calls [lam q i (snd (L r))] = [] /\ no_errors [lam q i (snd (L r))] = true) -> up Z FF FA i E.
Proof.
  intros HE Hy V H. split; [ exact HE | ]. split.
  - exists y. split; [ | exact V ]. unfold FF. cbn [W_hosts]. assert (P0 : pos p len 0 = 0%nat). { unfold pos. destruct (Nat.ltb_spec 0 p); [ reflexivity | ]. rewrite Nat.mod_0_l by exact Len. lia. }
    assert (R0 : round p len 0 = 0%nat) by (unfold round; apply Nat.div_0_l; exact Len). rewrite P0, R0, list_lookup_imap, Hy. cbn. rewrite Id. reflexivity.
  - intros n l Hl. unfold FA in Hl. injection Hl as H1 H2. subst l. rewrite H1. destruct (pos_lt p len Len n) as [P1 P2]. exact (H (round p len n) (pos p len n) P1 P2 H1).
Qed.
Lemma forever_fair i E : (forall k b,
    (exists q0, forall q, (q0 <= q)%nat -> exists r y t c, (p <= r < p + len)%nat /\ W_hosts (T r) !! i = Some y /\ Y_threads (psi q i y) !! k = Some t /\ resting t = b /\ internal t c = true /\ fst (L r) = i /\ lam q i (snd (L r)) = LRun k c) \/
    (exists q0, forall q r y, (q0 <= q)%nat -> (p <= r < p + len)%nat -> W_hosts (T r) !! i = Some y -> ~ able E (psi q i y) k b)) -> nfair FF FA i E.
Proof.
  intros H k b n. destruct (H k b) as [(q0 & K)|(q0 & K)].
  - left. destruct (K (Nat.max q0 n)) as (r & y & t & c & Hr & Hy & Ht & Hb & Hi & Hf & Hl); [ lia | ]. destruct (comes_in_round p len Len r (Nat.max q0 n) Hr) as (m & Hm & Pm & Rm).
    exists m, (psi (Nat.max q0 n) i y), t, c. split; [ lia | ]. split; [ unfold FF; cbn [W_hosts]; rewrite Pm, Rm, list_lookup_imap, Hy; reflexivity | ]. repeat (split; [ assumption | ]). unfold FA. rewrite Pm, Rm, Hf, Hl. reflexivity.
  - right. exists (p + Nat.max q0 n * len)%nat. split; [ destruct len; [ congruence | lia ] | ]. intros m y Hm Hy. destruct (round_late p len Len _ _ Hm) as [Q1 Q2]. unfold FF in Hy. cbn [W_hosts] in Hy. rewrite list_lookup_imap in Hy.
    destruct (W_hosts (T (pos p len m)) !! i) as [y0|] eqn:Hy0; [ | discriminate Hy ]. injection Hy as <-. apply (K (round p len m) (pos p len m) y0); [ lia | exact Q2 | exact Hy0 ].
Qed.
End forever.


(** Rounds that leave finished goroutines behind: [k] of them, after the first [b] goroutines. *)
Definition pad (b k : nat) (y : sys) : sys := mkSys (Y_sh y) (take b (Y_threads y) ++ repeat TDone k ++ drop b (Y_threads y)).
Definition move (b k i : nat) : nat := if (i <? b)%nat then i else (i + k)%nat.
Definition moved_label (b k : nat) (l : label) : label := match l with LRun i c => LRun (move b k i) c | l => l end.
Lemma pad_0 b y : pad b 0 y = y.
Proof. destruct y as [s th]. unfold pad. cbn. rewrite take_drop. reflexivity. Qed.
Lemma moved_0 b l : moved_label b 0 l = l.
Proof. destruct l; try reflexivity. cbn. unfold move. rewrite Nat.add_0_r. destruct (_ <? _)%nat; reflexivity. Qed.
Lemma pad_lookup b k y i : (b <= length (Y_threads y))%nat -> Y_threads (pad b k y) !! move b k i = Y_threads y !! i.
Proof.
  intros H. cbn. unfold move. destruct (Nat.ltb_spec i b) as [K|K].
  - rewrite lookup_app_l by (rewrite take_length; lia). apply lookup_take. exact K.
  - rewrite lookup_app_r by (rewrite take_length; lia). rewrite take_length, Nat.min_l by exact H. rewrite lookup_app_r by (rewrite repeat_length; lia). rewrite repeat_length, lookup_drop. f_equal. lia.
Qed.
Lemma pad_insert b k y s i t sp : (b <= length (Y_threads y))%nat -> (i < length (Y_threads y))%nat ->
  pad b k (mkSys s (<[i := t]> (Y_threads y) ++ sp)) = mkSys s (<[move b k i := t]> (Y_threads (pad b k y)) ++ sp).
Proof.
  intros H Hi. unfold pad. cbn [Y_sh Y_threads]. f_equal. rewrite take_app_le by (rewrite insert_length; exact H). rewrite drop_app_le by (rewrite insert_length; exact H).
  transitivity ((take b (<[i:=t]> (Y_threads y)) ++ repeat TDone k ++ drop b (<[i:=t]> (Y_threads y))) ++ sp); [ rewrite <- !app_assoc; reflexivity | f_equal ]. unfold move. destruct (Nat.ltb_spec i b) as [K|K].
  - rewrite take_insert_lt by exact K. rewrite drop_insert_gt by exact K. rewrite insert_app_l by (rewrite take_length; lia). reflexivity.
  - rewrite take_insert by exact K. rewrite drop_insert_le by exact K. rewrite insert_app_r_alt by (rewrite take_length; lia). f_equal. rewrite take_length, Nat.min_l by exact H. rewrite insert_app_r_alt by (rewrite repeat_length; lia). f_equal. rewrite repeat_length. f_equal. lia.
Qed.
Lemma exec_pad E y i c y' o b k : (b <= length (Y_threads y))%nat -> exec E y (LRun i c) = RNext y' o -> exec E (pad b k y) (LRun (move b k i) c) = RNext (pad b k y') o.
Proof.
  intros H He. cbn [exec] in *. rewrite pad_lookup by exact H. destruct (Y_threads y !! i) as [t|] eqn:Ht; [ | discriminate He ]. change (Y_sh (pad b k y)) with (Y_sh y).
  destruct (tstep E (Y_sh y) t c) as [| |s t' sp o']; try discriminate He. injection He as <- <-. f_equal. symmetry. apply pad_insert; [ exact H | eapply lookup_lt_Some; exact Ht ].
Qed.
Lemma pad_able E y b k i bb : (b <= length (Y_threads y))%nat -> (i < b)%nat -> able E (pad b k y) i bb -> able E y i bb.
Proof.
  intros H Hi (t & c & y' & o & Ht & Hr & Hc & He). assert (M : i = move b k i) by (unfold move; rewrite (proj2 (Nat.ltb_lt _ _) Hi); reflexivity).
  rewrite M, pad_lookup in Ht by exact H. exists t, c. cbn [exec] in He. rewrite M, pad_lookup, Ht in He by exact H. change (Y_sh (pad b k y)) with (Y_sh y) in He.
  destruct (tstep E (Y_sh y) t c) as [| |s t' sp o'] eqn:Es; try discriminate He. eexists _, _. split; [ exact Ht | ]. split; [ exact Hr | ]. split; [ exact Hc | ]. cbn [exec]. rewrite Ht, Es. reflexivity.
Qed.
Lemma pad_done E y b k i bb : (b <= length (Y_threads y))%nat -> (b <= i < b + k)%nat -> ~ able E (pad b k y) i bb.
Proof.
  intros H Hi (t & c & y' & o & Ht & Hr & Hc & He). cbn [exec] in He. rewrite Ht in He. cbn in Ht. rewrite lookup_app_r in Ht by (rewrite take_length; lia). rewrite take_length, Nat.min_l in Ht by exact H. rewrite lookup_app_l in Ht by (rewrite repeat_length; lia).
  apply elem_of_list_lookup_2, elem_of_list_In, repeat_spec in Ht. subst t. destruct c; discriminate He.
Qed.
Lemma pad_pad b k g y : length (Y_threads y) = b -> pad b k (pad b g y) = pad b (g + k) y.
Proof.
  intros H. unfold pad. cbn [Y_sh Y_threads]. f_equal. rewrite take_app_le by (rewrite take_length; lia). rewrite drop_app_le by (rewrite take_length; lia). rewrite take_take, Nat.min_id. rewrite (drop_ge (take b _)) by (rewrite take_length; lia).
  rewrite (drop_ge (Y_threads y)) by lia. cbn [app]. rewrite !app_nil_r. rewrite Nat.add_comm, repeat_app. reflexivity.
Qed.

(** The states, labels and observations of a script. *)
Fixpoint ntrace (envs : list env) (hears : nat -> UDPAddr -> bool) (w : net) (fs : nscript) : option (list (net * (nat * label) * list obs) * net) :=
  match fs with
  | [] => Some ([], w)
  | (i, f) :: fs =>
      match envs !! i, W_hosts w !! i with
      | Some E, Some y =>
          let l := f w y in
          if label_okb l && possibleb envs hears (W_air w) i l then
            match exec E y l with
            | RNext y' o => match ntrace envs hears (mkNet (<[i := y']> (W_hosts w)) (W_air w ++ aired i o)) fs with Some (tr, w') => Some ((w, (i, l), o) :: tr, w') | None => None end
            | _ => None
            end
          else None
      | _, _ => None
      end
  end.
Definition state_at (tr : list (net * (nat * label) * list obs)) (w' : net) (r : nat) : net := match tr !! r with Some (w, _, _) => w | None => w' end.
Definition label_at (tr : list (net * (nat * label) * list obs)) (r : nat) : nat * label := match tr !! r with Some (_, l, _) => l | None => (0%nat, LStop) end.
Definition obs_at (tr : list (net * (nat * label) * list obs)) (r : nat) : list obs := match tr !! r with Some (_, _, o) => o | None => [] end.
Lemma ntrace_first envs hears fs : forall w tr w', ntrace envs hears w fs = Some (tr, w') -> state_at tr w' 0 = w.
Proof.
  destruct fs as [|[i f] fs]; intros w tr w' H; cbn [ntrace] in H; [ injection H as <- <-; reflexivity | ]. destruct (envs !! i); [ | discriminate ]. destruct (W_hosts w !! i); [ | discriminate ]. cbv zeta in H.
  destruct (_ && _); [ | discriminate ]. destruct (exec _ _ _); try discriminate. destruct (ntrace _ _ _ fs) as [[tr1 w1]|]; [ | discriminate ]. injection H as <- <-. reflexivity.
Qed.
Lemma ntrace_step envs hears fs : forall w tr w', ntrace envs hears w fs = Some (tr, w') -> forall r, (r < length tr)%nat -> exists E y y', let i := fst (label_at tr r) in
  envs !! i = Some E /\ W_hosts (state_at tr w' r) !! i = Some y /\ label_okb (snd (label_at tr r)) = true /\ possibleb envs hears (W_air (state_at tr w' r)) i (snd (label_at tr r)) = true /\
  exec E y (snd (label_at tr r)) = RNext y' (obs_at tr r) /\ state_at tr w' (S r) = mkNet (<[i := y']> (W_hosts (state_at tr w' r))) (W_air (state_at tr w' r) ++ aired i (obs_at tr r)).
Proof.
  induction fs as [|[i f] fs IH]; intros w tr w' H r Hr; cbn [ntrace] in H; [ injection H as <- <-; cbn in Hr; lia | ]. destruct (envs !! i) as [E|] eqn:HE; [ | discriminate ]. destruct (W_hosts w !! i) as [y|] eqn:Hy; [ | discriminate ]. cbv zeta in H.
  destruct (label_okb (f w y) && possibleb envs hears (W_air w) i (f w y)) eqn:Hl; [ | discriminate ]. apply andb_prop in Hl. destruct Hl as [Hl Hp]. destruct (exec E y (f w y)) as [| |y' o] eqn:He; try discriminate.
  destruct (ntrace _ _ _ fs) as [[tr1 w1]|] eqn:Ht; [ | discriminate ]. injection H as <- <-. destruct r as [|r].
  - exists E, y, y'. cbn. repeat (split; [ assumption | ]). exact (ntrace_first _ _ _ _ _ _ Ht).
  - cbn in Hr. exact (IH _ _ _ Ht r ltac:(lia)).
Qed.
Lemma ntrace_length envs hears fs : forall w tr w', ntrace envs hears w fs = Some (tr, w') -> length tr = length fs.
Proof.
  induction fs as [|[i f] fs IH]; intros w tr w' H; cbn [ntrace] in H; [ injection H as <- <-; reflexivity | ]. destruct (envs !! i); [ | discriminate ]. destruct (W_hosts w !! i); [ | discriminate ]. cbv zeta in H.
  destruct (_ && _); [ | discriminate ]. destruct (exec _ _ _); try discriminate. destruct (ntrace _ _ _ fs) as [[tr1 w1]|] eqn:Ht; [ | discriminate ]. injection H as <- <-. cbn. f_equal. exact (IH _ _ _ Ht).
Qed.

(** Rounds that differ by the time of day: all times that the dmx ticker leaves in the tables are [D] later. *)
Definition shift_buf (D : Z) (b : dmxBuffer) : dmxBuffer := mkBuf (B_Data b) (B_LastUpdate b + D) (B_Stale b).
Definition shift_cn (D : Z) (cn : ControlledNode) : ControlledNode := mkCN (CN_LastSeen cn) (CN_Node cn) (CN_UDPAddress cn) (CN_Sequence cn) (shift_buf D <$> CN_DMXBuffer cn).
Definition shift_tables (D : Z) (s : Controller) : Controller := set_heap s (shift_cn D <$> K_heap s).
Definition shift_thread (D : Z) (t : thread) : thread := match t with DL_lock now => DL_lock (now + D) | t => t end.
Definition shift_sh (D : Z) (s : shared) : shared := with_tables s (shift_tables D (S_tables s)) (S_lock s).
Definition shifted (D : Z) (y : sys) : sys := mkSys (shift_sh D (Y_sh y)) (map (shift_thread D) (Y_threads y)).
Definition shift_choice (D : Z) (t : thread) (c : Sys.choice) : Sys.choice := match t, c with DL_wait _, CTime now => CTime (now + D) | _, c => c end.
Definition shift_obs (D : Z) (o : obs) : obs := match o with OTable s (ETick order now) out => OTable (shift_tables D s) (ETick order (now + D)) out | o => o end.
(** The goroutines touch the tables only in ticks, and there are buffers for all universes. *)
Definition calm (t : thread) : bool := match t with CP_gc _ | CP_reply _ _ | U_send _ _ | U_start_ctl => false | _ => true end.
Definition bufferedb (s : Controller) (order : list (Address * nid)) : bool :=
  forallb (fun x => match K_heap s !! snd x with Some cn => match CN_DMXBuffer cn !! fst x with Some _ => true | None => false end | None => false end) order.
Definition calm_sys (y : sys) : bool := forallb calm (Y_threads y) && bufferedb (S_tables (Y_sh y)) (map_to_list (K_OutputAddress (S_tables (Y_sh y)))).
Lemma shift_cn_insert D cn a b : shift_buf D <$> <[a := b]> (CN_DMXBuffer cn) = <[a := shift_buf D b]> (shift_buf D <$> CN_DMXBuffer cn).
Proof. apply fmap_insert. Qed.
Lemma shift_lookup D cn a : CN_DMXBuffer (shift_cn D cn) !! a = match CN_DMXBuffer cn !! a with Some b => Some (shift_buf D b) | None => None end.
Proof. cbn [shift_cn CN_DMXBuffer]. rewrite lookup_fmap. destruct (CN_DMXBuffer cn !! a); reflexivity. Qed.
Lemma update_shift D cn a now : update (shift_cn D cn) a (now + D) = match update cn a now with Ret (cn', o) => Ret (shift_cn D cn', o) | Panic => Panic end.
Proof.
  unfold update, dmxUpdate. rewrite shift_lookup. destruct (CN_DMXBuffer cn !! a) as [b|] eqn:Hb; [ | reflexivity ]. cbv zeta. cbn [CN_DMXBuffer CN_LastSeen CN_Node CN_UDPAddress CN_Sequence].
  replace (size (CN_DMXBuffer (shift_cn D cn))) with (size (CN_DMXBuffer cn)) by (symmetry; apply map_size_fmap).
  cbn [shift_buf B_Data]. change (CN_Sequence (shift_cn D cn)) with (CN_Sequence cn). destruct (snd _); [ | reflexivity ]. cbn [CN_DMXBuffer]. rewrite shift_lookup, Hb. do 2 f_equal. unfold shift_cn. cbn [CN_DMXBuffer CN_LastSeen CN_Node CN_UDPAddress CN_Sequence]. f_equal. symmetry. apply (fmap_insert (shift_buf D)).
Qed.
Lemma update_keeps cn a now cn' o : update cn a now = Ret (cn', o) -> forall x, is_Some (CN_DMXBuffer cn !! x) -> is_Some (CN_DMXBuffer cn' !! x).
Proof.
  unfold update, dmxUpdate. intros H x Hx. destruct (CN_DMXBuffer cn !! a) as [b|] eqn:Hb; [ | injection H as <- <-; exact Hx ]. cbv zeta in H. cbn [CN_DMXBuffer] in H. destruct (snd _); [ | injection H as <- <-; exact Hx ].
  cbn [CN_DMXBuffer] in H. rewrite Hb in H. injection H as <- <-. cbn [CN_DMXBuffer]. destruct (decide (x = a)) as [->|Hn]; [ rewrite lookup_insert; eauto | rewrite lookup_insert_ne by congruence; exact Hx ].
Qed.
Lemma body_shift D f cn a now : is_Some (CN_DMXBuffer cn !! a) -> tick_body f (shift_cn D cn) a (now + D) = match tick_body f cn a now with Ret (cn', o) => Ret (shift_cn D cn', o) | Panic => Panic end.
Proof.
  intros [b Hb].
  assert (Q : forall z e, (z + D <? now + D - e)%Z = (z <? now - e)%Z) by (intros z e; destruct (Z.ltb_spec z (now - e)); destruct (Z.ltb_spec (z + D) (now + D - e)); try reflexivity; lia).
  assert (K : forall cn1 out, (match CN_DMXBuffer (shift_cn D cn1) !! a with None => Panic | Some buf => if (B_LastUpdate buf <? now + D - forceUpdate)%Z then bind (update (shift_cn D cn1) a (now + D)) (fun r => let '(cn0, sent) := r in match sent with Some f0 => Ret (cn0, out ++ [f0]) | None => Ret (cn0, out) end) else Ret (shift_cn D cn1, out) end) =
    match (match CN_DMXBuffer cn1 !! a with None => Panic | Some buf => if (B_LastUpdate buf <? now - forceUpdate)%Z then bind (update cn1 a now) (fun r => let '(cn0, sent) := r in match sent with Some f0 => Ret (cn0, out ++ [f0]) | None => Ret (cn0, out) end) else Ret (cn1, out) end) with Ret (cn', o) => Ret (shift_cn D cn', o) | Panic => Panic end).
  { intros cn1 out. rewrite shift_lookup. destruct (CN_DMXBuffer cn1 !! a) as [b1|]; [ | reflexivity ]. cbn [shift_buf B_LastUpdate]. rewrite Q.
    destruct (_ <? _)%Z; [ | reflexivity ]. rewrite update_shift. destruct (update cn1 a now) as [[c2 [f2|]]|]; reflexivity. }
  unfold tick_body. rewrite !shift_lookup, !Hb. cbv zeta. rewrite !shift_lookup, !Hb. cbn [shift_buf B_Stale B_LastUpdate]. rewrite Q.
  destruct (B_Stale b && (B_LastUpdate b <? now - f)%Z); [ rewrite update_shift; destruct (update cn a now) as [[c2 [f2|]]|]; cbn [bind]; [ exact (K c2 [f2]) | reflexivity | reflexivity ] | cbn [bind]; exact (K cn []) ].
Qed.
Lemma body_keeps f cn a now cn' o : is_Some (CN_DMXBuffer cn !! a) -> tick_body f cn a now = Ret (cn', o) -> forall x, is_Some (CN_DMXBuffer cn !! x) -> is_Some (CN_DMXBuffer cn' !! x).
Proof.
  intros [b Hb] H x Hx. unfold tick_body in H. rewrite Hb in H. cbv zeta in H. rewrite Hb in H.
  assert (K : forall cn1 out, is_Some (CN_DMXBuffer cn1 !! x) -> (match CN_DMXBuffer cn1 !! a with None => Panic | Some buf => if (B_LastUpdate buf <? now - forceUpdate)%Z then bind (update cn1 a now) (fun r => let '(cn0, sent) := r in match sent with Some f0 => Ret (cn0, out ++ [f0]) | None => Ret (cn0, out) end) else Ret (cn1, out) end) = Ret (cn', o) -> is_Some (CN_DMXBuffer cn' !! x)).
  { intros cn1 out Hx1 H1. destruct (CN_DMXBuffer cn1 !! a) as [b1|]; [ | discriminate H1 ]. destruct (B_LastUpdate b1 <? now - forceUpdate)%Z; [ | injection H1 as <- <-; exact Hx1 ]. destruct (update cn1 a now) as [[c2 s2]|] eqn:E2; [ | discriminate H1 ].
    cbn [bind] in H1. pose proof (update_keeps _ _ _ _ _ E2 x Hx1). destruct s2; injection H1 as <- <-; assumption. }
  destruct (B_Stale b && (B_LastUpdate b <? now - f)%Z); [ destruct (update cn a now) as [[c2 s2]|] eqn:E2; [ | discriminate H ]; cbn [bind] in H; pose proof (update_keeps _ _ _ _ _ E2 x Hx) as X2; destruct s2; cbn [bind] in H; [ exact (K _ _ X2 H) | injection H as <- <-; exact X2 ] | cbn [bind] in H; exact (K cn [] Hx H) ].
Qed.
Lemma shift_heap D s n : K_heap (shift_tables D s) !! n = match K_heap s !! n with Some cn => Some (shift_cn D cn) | None => None end.
Proof. cbn [shift_tables set_heap K_heap]. rewrite lookup_fmap. destruct (K_heap s !! n); reflexivity. Qed.
Lemma loop_shift D now order : forall s, bufferedb s order = true -> tick_loop (shift_tables D s) order (now + D) = match tick_loop s order now with Ret (s', o) => Ret (shift_tables D s', o) | Panic => Panic end.
Proof.
  induction order as [|[a n] order IH]; intros s H; [ reflexivity | ]. cbn [tick_loop]. cbn [bufferedb forallb fst snd] in H. apply andb_prop in H. destruct H as [H1 H2]. unfold deref. rewrite shift_heap. destruct (K_heap s !! n) as [cn|] eqn:Hn; [ | discriminate H1 ].
  destruct (CN_DMXBuffer cn !! a) as [b|] eqn:Hb; [ | discriminate H1 ]. cbn [bind]. change (K_maxFPS (shift_tables D s)) with (K_maxFPS s). rewrite body_shift by (rewrite Hb; eauto). destruct (tick_body (K_maxFPS s) cn a now) as [[cn' o]|] eqn:Et; [ | reflexivity ]. cbn [bind].
  replace (set_heap (shift_tables D s) (<[n:=shift_cn D cn']> (K_heap (shift_tables D s)))) with (shift_tables D (set_heap s (<[n:=cn']> (K_heap s)))) by (unfold shift_tables, set_heap; cbn [K_heap K_next K_Nodes K_OutputAddress K_InputAddress K_maxFPS]; rewrite fmap_insert; reflexivity).
  rewrite IH; [ destruct (tick_loop _ order now) as [[s' o']|]; reflexivity | ]. apply forallb_forall. intros [a2 n2] Hi. pose proof (proj1 (forallb_forall _ _) H2 _ Hi) as K. cbn [fst snd set_heap K_heap] in *. destruct (decide (n2 = n)) as [->|Hne].
  - rewrite lookup_insert. rewrite Hn in K. destruct (CN_DMXBuffer cn !! a2) eqn:Hb2; [ | discriminate K ]. destruct (body_keeps _ _ _ _ _ _ (ex_intro _ b Hb) Et a2) as [z ->]; [ rewrite Hb2; eauto | reflexivity ].
  - rewrite lookup_insert_ne by congruence. exact K.
Qed.
Lemma tstep_shift D E s t c s' t' sp o : calm t = true -> bufferedb (S_tables s) (map_to_list (K_OutputAddress (S_tables s))) = true -> tstep E s t c = Next s' t' sp o ->
  tstep E (shift_sh D s) (shift_thread D t) (shift_choice D t c) = Next (shift_sh D s') (shift_thread D t') (map (shift_thread D) sp) (map (shift_obs D) o).
Proof.
  intros Hc Hb H. destruct t; try discriminate Hc; destruct c; try discriminate H; cbn [shift_thread shift_choice]; unfold shift_sh; cbn [tstep] in *.
  all: try (unfold eval_gen, on_closed, gen_closed in *; cbn [with_tables S_gens S_conns S_callbacks S_shutdown S_shutdownErr S_lock S_cgens S_tickers S_tables] in *;
    repeat match type of H with context [match ?x with _ => _ end] => destruct x eqn:?; try discriminate H end; injection H as <- <- <- <-; reflexivity).
  - cbn [with_tables S_tables]. change (ticker_period (shift_tables D (S_tables s))) with (ticker_period (S_tables s)). destruct (ticker_period (S_tables s)); [ | discriminate H ]. injection H as <- <- <- <-. reflexivity.
  - cbn [with_tables S_lock S_tables]. destruct (S_lock s); [ discriminate H | ]. change (K_OutputAddress (shift_tables D (S_tables s))) with (K_OutputAddress (S_tables s)). destruct (bool_decide _) eqn:Hd; [ | discriminate H ]. apply bool_decide_eq_true in Hd.
    cbn [step] in *. rewrite loop_shift.
    + destruct (tick_loop (S_tables s) order now) as [[k out]|]; [ | discriminate H ]. injection H as <- <- <- <-. reflexivity.
    + apply forallb_forall. intros x Hx. apply (proj1 (forallb_forall _ _) Hb x). apply elem_of_list_In. rewrite <- Hd. apply elem_of_list_In. exact Hx.
Qed.
Definition shift_label (D : Z) (y : sys) (l : label) : label := match l with LRun i c => match Y_threads y !! i with Some t => LRun i (shift_choice D t c) | None => l end | l => l end.
Lemma calm_facts y : calm_sys y = true -> (forall i t, Y_threads y !! i = Some t -> calm t = true) /\ bufferedb (S_tables (Y_sh y)) (map_to_list (K_OutputAddress (S_tables (Y_sh y)))) = true.
Proof.
  intros H. apply andb_prop in H. destruct H as [H1 H2]. split; [ | exact H2 ]. intros i t Ht. apply (proj1 (forallb_forall _ _) H1). apply elem_of_list_In. eapply elem_of_list_lookup_2. exact Ht.
Qed.
Lemma exec_shift D E y i c y' o : calm_sys y = true -> exec E y (LRun i c) = RNext y' o -> exec E (shifted D y) (shift_label D y (LRun i c)) = RNext (shifted D y') (map (shift_obs D) o).
Proof.
  intros H He. apply calm_facts in H. destruct H as [H1 H2]. cbn [exec shift_label] in *. destruct (Y_threads y !! i) as [t|] eqn:Ht; [ | discriminate He ]. cbn [exec shifted Y_threads Y_sh]. change (map (shift_thread D) (Y_threads y)) with (shift_thread D <$> Y_threads y). rewrite list_lookup_fmap, Ht. cbn [fmap option_fmap option_map].
  destruct (tstep E (Y_sh y) t c) as [| |s t' sp o'] eqn:Es; try discriminate He. injection He as <- <-. rewrite (tstep_shift D _ _ _ _ _ _ _ _ (H1 _ _ Ht) H2 Es). f_equal. unfold shifted. cbn [Y_sh Y_threads]. f_equal.
  rewrite map_app. f_equal. symmetry. apply (list_fmap_insert (shift_thread D)).
Qed.
Lemma shift_cn_cn D1 D2 cn : shift_cn D2 (shift_cn D1 cn) = shift_cn (D1 + D2) cn.
Proof.
  destruct cn as [ls nd ua sq bs]. unfold shift_cn. cbn [CN_LastSeen CN_Node CN_UDPAddress CN_Sequence CN_DMXBuffer]. f_equal. rewrite <- map_fmap_compose. apply map_fmap_ext. intros j [dt lu st] _. unfold shift_buf. cbn. f_equal. lia.
Qed.
Lemma shift_shift D1 D2 y : shifted D2 (shifted D1 y) = shifted (D1 + D2) y.
Proof.
  destruct y as [s th]. unfold shifted. cbn [Y_sh Y_threads]. f_equal.
  - unfold shift_sh, with_tables. cbn. f_equal. unfold shift_tables, set_heap. cbn [K_heap K_next K_Nodes K_OutputAddress K_InputAddress K_maxFPS]. f_equal. rewrite <- map_fmap_compose. apply map_fmap_ext. intros i cn _. apply shift_cn_cn.
  - rewrite map_map. apply map_ext. intros t. destruct t; try reflexivity. cbn. f_equal. lia.
Qed.
Lemma shift_tables_0 s : shift_tables 0 s = s.
Proof.
  assert (B : forall bs : gmap Address dmxBuffer, shift_buf 0 <$> bs = bs). { intros bs. transitivity (id <$> bs); [ | apply map_fmap_id ]. apply map_fmap_ext. intros j [dt lu st] _. unfold shift_buf. cbn. f_equal. lia. }
  assert (C : forall h : gmap nid ControlledNode, shift_cn 0 <$> h = h). { intros h. transitivity (id <$> h); [ | apply map_fmap_id ]. apply map_fmap_ext. intros j [ls nd ua sq bs] _. unfold shift_cn. cbn [CN_LastSeen CN_Node CN_UDPAddress CN_Sequence CN_DMXBuffer]. rewrite B. reflexivity. }
  destruct s as [h nx ns oa ia fps]. unfold shift_tables, set_heap. cbn [K_heap K_next K_Nodes K_OutputAddress K_InputAddress K_maxFPS]. rewrite C. reflexivity.
Qed.
Lemma shift_0 y : shifted 0 y = y.
Proof.
  destruct y as [s th]. unfold shifted. cbn [Y_sh Y_threads]. f_equal.
  - destruct s as [a b c d e k l m n]. unfold shift_sh, with_tables. cbn. rewrite shift_tables_0. reflexivity.
  - rewrite <- (map_id th) at 2. apply map_ext. intros t. destruct t; try reflexivity. cbn. f_equal. lia.
Qed.
Lemma shift_back D y : shifted (- D) (shifted D y) = y.
Proof. rewrite shift_shift. replace (D + - D)%Z with 0%Z by lia. apply shift_0. Qed.
Lemma calm_shift D y : calm_sys (shifted D y) = calm_sys y.
Proof.
  unfold calm_sys. cbn [shifted Y_threads Y_sh shift_sh with_tables S_tables]. change (K_OutputAddress (shift_tables D (S_tables (Y_sh y)))) with (K_OutputAddress (S_tables (Y_sh y))). f_equal.
  - induction (Y_threads y) as [|t l IH]; [ reflexivity | ]. cbn [map forallb]. rewrite IH. f_equal. destruct t; reflexivity.
  - unfold bufferedb. induction (map_to_list _) as [|x l IH]; [ reflexivity | ]. cbn [forallb]. rewrite IH. f_equal. rewrite shift_heap. destruct (K_heap _ !! snd x); [ | reflexivity ]. rewrite shift_lookup. destruct (CN_DMXBuffer _ !! fst x); reflexivity.
Qed.
Lemma shift_resting D t : resting (shift_thread D t) = resting t. Proof. destruct t; reflexivity. Qed.
Lemma shift_internal D t c : internal (shift_thread D t) (shift_choice D t c) = internal t c. Proof. destruct t, c; reflexivity. Qed.
Lemma shift_able D E y k b : calm_sys y = true -> able E (shifted D y) k b -> able E y k b.
Proof.
  intros H (t & c & y' & o & Ht & Hr & Hc & He). pose proof He as He1. apply (exec_shift (- D)) in He1; [ | rewrite calm_shift; exact H ]. rewrite shift_back in He1.
  cbn [shift_label] in He1. rewrite Ht in He1. cbn [shifted Y_threads] in Ht. change (map (shift_thread D) (Y_threads y)) with (shift_thread D <$> Y_threads y) in Ht. rewrite list_lookup_fmap in Ht. destruct (Y_threads y !! k) as [t0|] eqn:H0; [ | discriminate Ht ]. injection Ht as <-.
  exists t0, (shift_choice (- D) (shift_thread D t0) c). eexists _, _. split; [ exact H0 | ]. split; [ rewrite <- (shift_resting D); exact Hr | ]. split; [ | exact He1 ].
  rewrite <- Hc. rewrite <- (shift_internal (- D) (shift_thread D t0) c). f_equal. destruct t0; try reflexivity. cbn. f_equal. lia.
Qed.
Lemma shift_pad D b k y : shifted D (pad b k y) = pad b k (shifted D y).
Proof.
  unfold shifted, pad. cbn [Y_sh Y_threads]. f_equal. rewrite !map_app, firstn_map, skipn_map. do 2 f_equal. induction k as [|k IH]; [ reflexivity | ]. cbn. rewrite IH. reflexivity.
Qed.
Definition timed_label (D : Z) (l : label) : label := match l with LRun i (CTime now) => LRun i (CTime (now + D)) | l => l end.
Lemma timed_0 l : timed_label 0 l = l. Proof. destruct l as [i c| | | | |]; try reflexivity. destruct c; try reflexivity. cbn. rewrite Z.add_0_r. reflexivity. Qed.
Lemma timed_ok D E y i c y' o : calm_sys y = true -> exec E y (LRun i c) = RNext y' o -> timed_label D (LRun i c) = shift_label D y (LRun i c).
Proof.
  intros H He. apply calm_facts in H. destruct H as [H _]. cbn [exec timed_label shift_label] in *. destruct (Y_threads y !! i) as [t|] eqn:Ht; [ | discriminate He ]. pose proof (H _ _ Ht) as Hc. destruct c; try (destruct t; reflexivity). destruct t; try discriminate Hc; try discriminate He; try reflexivity. destruct fs; discriminate He.
Qed.
Lemma shift_obs_0 o : map (shift_obs 0) o = o.
Proof. rewrite <- (map_id o) at 2. apply map_ext. intros [ | | | | | | | | | | |s e out| | | | | | | ]; try reflexivity. destruct e; try reflexivity. cbn. rewrite shift_tables_0, Z.add_0_r. reflexivity. Qed.
Lemma shift_aired D i o : aired i (map (shift_obs D) o) = aired i o.
Proof. induction o as [|x o IH]; [ reflexivity | ]. change (x :: o) with ([x] ++ o). rewrite map_app. unfold aired in *. rewrite !collect_app, IH. f_equal. destruct x; try reflexivity. destruct e; reflexivity. Qed.

(** Rounds of a script that leave finished goroutines behind. *)
Section rounds.
Context (envs : list env) (hears : nat -> UDPAddr -> bool) (w : net) (fs : nscript) (tr : list (net * (nat * label) * list obs)) (w' : net) (p len : nat) (D : Z).
Context (Start : exists G, nruns (closed_site envs hears) w G) (Tr : ntrace envs hears w fs = Some (tr, w')) (Size : length tr = (p + len)%nat) (Len : len <> 0%nat).
Let T := state_at tr w'. Let L := label_at tr. Let B := obs_at tr.
Definition goroutines (r i : nat) : nat := match W_hosts (state_at tr w' r) !! i with Some y => length (Y_threads y) | None => 0%nat end.
Definition more (i : nat) : nat := (goroutines (p + len) i - goroutines p i)%nat.
Definition psi (q i : nat) (y : sys) : sys := pad (goroutines p i) (q * more i) (shifted (Z.of_nat q * D) y).
Definition lam (q i : nat) (l : label) : label := moved_label (goroutines p i) (q * more i) (timed_label (Z.of_nat q * D) l).
Definition om (q : nat) (o : list obs) : list obs := map (shift_obs (Z.of_nat q * D)) o.
Definition same_againb : bool := forallb (fun i => match W_hosts (state_at tr w' (p + len)) !! i, W_hosts (state_at tr w' p) !! i with
  | Some z, Some y => bool_decide (z = pad (goroutines p i) (more i) (shifted D y)) | _, _ => false end) (seq 0 (length (W_hosts w))).
Definition stepb (r : nat) : bool := bool_decide (calls [snd (label_at tr r)] = []) && no_errors [snd (label_at tr r)].
Definition roundb (r : nat) : bool := match snd (label_at tr r) with LRun _ _ => true | _ => false end && forallb (fun i => (goroutines p i <=? goroutines r i)%nat) (seq 0 (length (W_hosts w))).
Context (Same : same_againb = true) (Steps : forallb stepb (seq 0 (p + len)) = true) (Rounds : forallb roundb (seq p len) = true) (Calm : (D =? 0)%Z || forallb (fun r => forallb calm_sys (W_hosts (state_at tr w' r))) (seq p len) = true).
Lemma round_facts r : (p <= r < p + len)%nat -> (exists i c, snd (L r) = LRun i c) /\ (forall i y, W_hosts (T r) !! i = Some y -> (goroutines p i <= length (Y_threads y))%nat).
Proof.
  intros Hr. pose proof (proj1 (forallb_forall _ _) Rounds r) as H. unfold roundb in H. apply andb_prop in H; [ | apply in_seq; lia ]. destruct H as [H1 H2]. split; [ unfold L; destruct (snd (label_at tr r)); try discriminate H1; eauto | ].
  intros i y Hy. pose proof (proj1 (forallb_forall _ _) H2 i) as K. assert (G : goroutines r i = length (Y_threads y)) by (unfold goroutines; fold (T r); rewrite Hy; reflexivity). rewrite <- G. apply Nat.leb_le, K. apply in_seq. split; [ lia | ].
  assert (N : forall m, (m <= p + len)%nat -> length (W_hosts (T m)) = length (W_hosts w)).
  { induction m as [|m IH]; intros Hm; [ unfold T; rewrite (ntrace_first _ _ _ _ _ _ Tr); reflexivity | ]. destruct (ntrace_step _ _ _ _ _ _ Tr m ltac:(lia)) as (E & y1 & y2 & _ & _ & _ & _ & _ & HT). fold T in HT. rewrite HT. cbn [W_hosts]. rewrite insert_length. apply IH. lia. }
  rewrite <- (N r) by lia. eapply lookup_lt_Some. exact Hy.
Qed.
Lemma hosts_same m : (m <= p + len)%nat -> length (W_hosts (T m)) = length (W_hosts w).
Proof.
  induction m as [|m IH]; intros Hm; [ unfold T; rewrite (ntrace_first _ _ _ _ _ _ Tr); reflexivity | ]. destruct (ntrace_step _ _ _ _ _ _ Tr m ltac:(lia)) as (E & y1 & y2 & _ & _ & _ & _ & _ & HT). fold T in HT. rewrite HT. cbn [W_hosts]. rewrite insert_length. apply IH. lia.
Qed.
Let Z := closed_site envs hears.
Notation RF := (FF p len T L B psi lam om). Notation RA := (FA p len L lam). Notation RO := (FO p len B om).
Lemma psi_0 i y : psi 0 i y = y. Proof. unfold psi. cbn [Nat.mul Z.of_nat Z.mul]. rewrite pad_0. apply shift_0. Qed.
Lemma round_calm r i y : (p <= r < p + len)%nat -> W_hosts (T r) !! i = Some y -> D = 0%Z \/ calm_sys y = true.
Proof.
  intros Hr Hy. apply orb_prop in Calm. destruct Calm as [H|H]; [ left; apply Z.eqb_eq; exact H | right ]. pose proof (proj1 (forallb_forall _ _) H r ltac:(apply in_seq; lia)) as K. apply (proj1 (forallb_forall _ _) K y). apply elem_of_list_In. eapply elem_of_list_lookup_2. exact Hy.
Qed.
Lemma rounds_step q r : (r < p + len)%nat -> (q = 0%nat \/ (p <= r)%nat) -> exists E y y', let i := fst (L r) in Z_envs Z !! i = Some E /\ W_hosts (T r) !! i = Some y /\ label_ok (lam q i (snd (L r))) /\
     possible Z (W_air (T r)) i (lam q i (snd (L r))) /\ exec E (psi q i y) (lam q i (snd (L r))) = RNext (psi q i y') (om q (B r)) /\ aired i (om q (B r)) = aired i (B r) /\
     T (S r) = mkNet (<[i := y']> (W_hosts (T r))) (W_air (T r) ++ aired i (B r)).
Proof.
  intros Hr Hq. destruct (ntrace_step _ _ _ _ _ _ Tr r ltac:(lia)) as (E & y & y' & H1 & H2 & H3 & H4 & H5 & H6). fold T in H2, H4, H6. fold L in H1, H2, H3, H4, H5, H6. fold B in H5, H6. apply label_okb_ok in H3. apply possibleb_ok in H4.
  exists E, y, y'. cbv zeta. split; [ exact H1 | ]. split; [ exact H2 | ].
  assert (K : label_ok (lam q (fst (L r)) (snd (L r))) /\ possible Z (W_air (T r)) (fst (L r)) (lam q (fst (L r)) (snd (L r)))).
  { unfold lam. destruct (snd (L r)) as [k c| | | | |]; [ destruct c | | | | | ]; split; assumption. }
  split; [ exact (proj1 K) | ]. split; [ exact (proj2 K) | ]. split; [ | split; [ apply shift_aired | exact H6 ] ].
  destruct Hq as [->|Hq]; [ unfold lam, om; rewrite !psi_0; cbn [Nat.mul Z.of_nat Z.mul]; rewrite timed_0, moved_0, shift_obs_0; exact H5 | ]. destruct (round_facts r ltac:(lia)) as [(k & c & El) Hb]. rewrite El in *.
  assert (K1 : exec E (shifted (Z.of_nat q * D) y) (timed_label (Z.of_nat q * D) (LRun k c)) = RNext (shifted (Z.of_nat q * D) y') (om q (B r))).
  { unfold om. destruct (round_calm r _ y ltac:(lia) H2) as [->|Hc]; [ rewrite Z.mul_0_r, !shift_0, timed_0, shift_obs_0; exact H5 | ]. rewrite (timed_ok _ _ _ _ _ _ _ Hc H5). apply exec_shift; assumption. }
  unfold psi, lam. assert (exists c', timed_label (Z.of_nat q * D) (LRun k c) = LRun k c') as [c' Ec'] by (destruct c; cbn; eauto). rewrite Ec' in *.
  apply exec_pad; [ unfold shifted; cbn [Y_threads]; rewrite map_length; exact (Hb _ _ H2) | exact K1 ].
Qed.
Lemma rounds_wrap q : imap (psi q) (W_hosts (T (p + len)%nat)) = imap (psi (S q)) (W_hosts (T p)).
Proof.
  apply list_eq. intros i. rewrite !list_lookup_imap. pose proof (hosts_same (p + len) ltac:(lia)) as N1. pose proof (hosts_same p ltac:(lia)) as N2.
  destruct (le_lt_dec (length (W_hosts w)) i) as [Hi|Hi]; [ rewrite !lookup_ge_None_2 by lia; reflexivity | ].
  pose proof (proj1 (forallb_forall _ _) Same i ltac:(apply in_seq; lia)) as K. cbv beta in K. fold (T (p + len)%nat) in K. fold (T p) in K. destruct (W_hosts (T (p + len)%nat) !! i) as [z|]; [ | discriminate K ].
  destruct (W_hosts (T p) !! i) as [y|] eqn:Hy; [ | discriminate K ]. apply bool_decide_eq_true in K. cbn. f_equal. unfold psi. rewrite K. rewrite shift_pad, shift_shift, pad_pad; [ f_equal; f_equal; lia | ]. unfold shifted. cbn [Y_threads]. rewrite map_length. unfold goroutines. fold (T p). rewrite Hy. reflexivity.
Qed.
Lemma rounds_exec : nexec Z RF RA RO.
Proof.
  apply (forever Z p len T L B psi lam om Len); [ unfold T; rewrite (ntrace_first _ _ _ _ _ _ Tr); exact Start | exact psi_0 | exact rounds_step | exact rounds_wrap ].
Qed.
Lemma rounds_up i E y : envs !! i = Some E -> W_hosts w !! i = Some y -> live E y -> up Z RF RA i E.
Proof.
  intros HE Hy V. apply (forever_up Z p len T L B psi lam om Len psi_0 i E y HE); [ unfold T; rewrite (ntrace_first _ _ _ _ _ _ Tr); exact Hy | exact V | ].
  intros q r Hr _ _. pose proof (proj1 (forallb_forall _ _) Steps r ltac:(apply in_seq; lia)) as K. unfold stepb in K. apply andb_prop in K. destruct K as [K1 K2]. apply bool_decide_eq_true in K1. fold L in K1, K2.
  unfold lam. destruct (snd (L r)) as [k c| | | | |]; [ destruct c; split; assumption | | | | | ]; split; assumption.
Qed.
(** The elements of the trace from position [p] on are the steps of the round. *)
Lemma skip_in x : In x (skipn p tr) <-> exists r, (p <= r < p + len)%nat /\ x = (T r, L r, B r).
Proof.
  assert (K : forall r z, tr !! r = Some z -> z = (T r, L r, B r)). { intros r [[u v] o] Hz. unfold T, L, B, state_at, label_at, obs_at. rewrite Hz. reflexivity. }
  rewrite <- elem_of_list_In, elem_of_list_lookup. setoid_rewrite lookup_drop. split.
  - intros (k & Hk). exists (p + k)%nat. split; [ apply lookup_lt_Some in Hk; lia | exact (K _ _ Hk) ].
  - intros (r & Hr & ->). exists (r - p)%nat. replace (p + (r - p))%nat with r by lia. destruct (lookup_lt_is_Some_2 tr r ltac:(lia)) as (z & Hz). rewrite Hz. f_equal. exact (K _ _ Hz).
Qed.
Definition tooks (i k : nat) (b : bool) (x : net * (nat * label) * list obs) : bool :=
  match W_hosts (fst (fst x)) !! i with
  | Some y => match Y_threads y !! k with Some t => if eqb (resting t) b then match snd (fst x) with (j, LRun k' c) => (j =? i)%nat && (k' =? k)%nat && internal t c | _ => false end else false | None => false end
  | None => false
  end.
Definition idle (E : env) (i k : nat) (b : bool) (x : net * (nat * label) * list obs) : bool :=
  match W_hosts (fst (fst x)) !! i with Some y => match Y_threads y !! k with Some t => if eqb (resting t) b then negb (ableb E y k b) else true | None => true end | None => true end.
Lemma idle_ok E i k b r y : idle E i k b (T r, L r, B r) = true -> W_hosts (T r) !! i = Some y -> ~ able E y k b.
Proof.
  unfold idle. cbn [fst]. intros H Hy A. rewrite Hy in H. pose proof A as (t & _ & _ & _ & Ht & Hr & _). rewrite Ht, Hr, eqb_reflx in H. apply negb_true_iff in H. exact (not_ableb E y k b H A).
Qed.
Fixpoint findb {A} (f : A -> bool) (l : list A) : bool := match l with [] => false | x :: l => if f x then true else findb f l end.
Lemma findb_ok {A} (f : A -> bool) l : findb f l = true -> exists x, In x l /\ f x = true.
Proof. induction l as [|x l IH]; cbn; [ discriminate | ]. destruct (f x) eqn:E; [ eauto | ]. intros H. destruct (IH H) as (z & H1 & H2). eauto. Qed.
Definition fair_hostb (E : env) (i : nat) : bool :=
  ((0 <? more i)%nat || forallb (fun r => (goroutines r i =? goroutines p i)%nat) (seq p len)) && forallb (fun k => forallb (fun b => if findb (tooks i k b) (skipn p tr) then true else forallb (idle E i k b) (skipn p tr)) [true; false]) (seq 0 (goroutines p i)).
Lemma rounds_fair i E : fair_hostb E i = true -> nfair RF RA i E.
Proof.
  intros H. unfold fair_hostb in H. apply andb_prop in H. destruct H as [Hm H]. apply (forever_fair Z p len T L B psi lam om Len rounds_step rounds_wrap). intros k b.
  destruct (le_lt_dec (goroutines p i) k) as [Hk|Hk].
  - right. exists (S (k - goroutines p i)). intros q r y Hq Hr Hy. pose proof (proj2 (round_facts r Hr) i y Hy) as Hb. destruct (Nat.ltb_spec 0 (more i)) as [Hm1|Hm1].
    + unfold psi. apply pad_done; [ unfold shifted; cbn [Y_threads]; rewrite map_length; exact Hb | ]. split; [ exact Hk | ]. assert (q * 1 <= q * more i)%nat by (apply Nat.mul_le_mono_l; lia). lia.
    + cbn [orb] in Hm. pose proof (proj1 (forallb_forall _ _) Hm r ltac:(apply in_seq; lia)) as G. apply Nat.eqb_eq in G. unfold goroutines in G at 1. fold (T r) in G. rewrite Hy in G. intros (t & _ & _ & _ & Ht & _). apply lookup_lt_Some in Ht. unfold psi, pad, shifted in Ht. cbn [Y_threads] in Ht.
      rewrite !app_length, repeat_length, take_length, drop_length, map_length in Ht. replace (more i) with 0%nat in Ht by lia. lia.
  - pose proof (proj1 (forallb_forall _ _) H k ltac:(apply in_seq; lia)) as K. pose proof (proj1 (forallb_forall _ _) K b ltac:(destruct b; cbn; auto)) as K2. cbv beta in K2. destruct (findb (tooks i k b) (skipn p tr)) eqn:K3; [ clear K2; rename K3 into K2 | clear K3 ].
    + left. exists 0%nat. intros q _. apply findb_ok in K2. destruct K2 as (x & Hr & K2). apply skip_in in Hr. destruct Hr as (r & Hr & ->). unfold tooks in K2. cbn [fst snd] in K2. destruct (W_hosts (T r) !! i) as [y|] eqn:Hy; [ | discriminate K2 ].
      destruct (Y_threads y !! k) as [t|] eqn:Ht; [ | discriminate K2 ]. destruct (L r) as [j l] eqn:El. destruct (eqb (resting t) b) eqn:K6; [ | discriminate K2 ]. rename K2 into K3. rename K6 into K2. destruct l as [k' c| | | | |]; try discriminate K3.
      apply andb_prop in K3. destruct K3 as [K3 K5]. apply andb_prop in K3. destruct K3 as [K3 K4]. apply Nat.eqb_eq in K3, K4. subst. apply eqb_prop in K2.
      pose proof (proj2 (round_facts r Hr) i y Hy) as Hb. assert (M : move (goroutines p i) (q * more i) k = k) by (unfold move; rewrite (proj2 (Nat.ltb_lt _ _) Hk); reflexivity).
      set (e := (Z.of_nat q * D)%Z). assert (exists c', timed_label e (LRun k c) = LRun k c' /\ internal (shift_thread e t) c' = true) as (c' & Ec & Hc').
      { destruct c; cbn [timed_label]; eexists; (split; [ reflexivity | ]); destruct t; try discriminate K5; reflexivity. }
      exists r, y, (shift_thread e t), c'. split; [ exact Hr | ]. split; [ exact Hy | ]. split.
      { unfold psi. rewrite <- M, pad_lookup by (unfold shifted; cbn [Y_threads]; rewrite map_length; exact Hb). unfold shifted. cbn [Y_threads]. change (map (shift_thread e) (Y_threads y)) with (shift_thread e <$> Y_threads y). rewrite list_lookup_fmap, Ht. reflexivity. }
      split; [ rewrite shift_resting; exact K2 | ]. split; [ exact Hc' | ]. rewrite El. split; [ reflexivity | ]. unfold lam. cbn [snd]. fold e. rewrite Ec. cbn [moved_label]. rewrite M. reflexivity.
    + right. exists 0%nat. intros q r y _ Hr Hy A. pose proof (proj1 (forallb_forall _ _) K2 (T r, L r, B r) ltac:(apply skip_in; eauto)) as K3. apply (idle_ok _ _ _ _ _ _ K3 Hy).
      unfold psi in A. apply pad_able in A; [ | unfold shifted; cbn [Y_threads]; rewrite map_length; exact (proj2 (round_facts r Hr) i y Hy) | exact Hk ]. destruct (round_calm r i y Hr Hy) as [E0|Hc]; [ rewrite E0, Z.mul_0_r, shift_0 in A; exact A | exact (shift_able _ _ _ _ _ Hc A) ].
Qed.
Lemma om_in q o x : match x with OTable _ _ _ => False | _ => True end -> In x (om q o) <-> In x o.
Proof.
  intros H. unfold om. rewrite in_map_iff. split.
  - intros (y & Ey & Hy). destruct y; cbn [shift_obs] in Ey; subst x; try exact Hy. destruct e; contradiction.
  - intros K. exists x. split; [ destruct x; try reflexivity; contradiction | exact K ].
Qed.
(** What is sent in the prefix or in a round arrives in the round, or in the prefix later. *)
Definition gotb (j : nat) (E : env) (d : list N) (r : nat) : bool :=
  (fst (label_at tr r) =? j)%nat && existsb (fun o => match o with ORecv from d' => bool_decide (fst from = E_localIP E) && bool_decide (d' = d) | _ => false end) (obs_at tr r).
Definition reliableb (i j : nat) (E : env) : bool :=
  forallb (fun r => if (fst (label_at tr r) =? i)%nat then
      forallb (fun o => match o with OTx (_, (dst, d)) => if hears j dst then if findb (gotb j E d) (seq r (p + len - r)) then true else findb (gotb j E d) (seq p len) else true | _ => true end) (obs_at tr r)
    else true) (seq 0 (p + len)).
Lemma gotb_ok j E d r m : gotb j E d r = true -> pos p len m = r -> fst (RA m) = j /\ exists port, In (ORecv (E_localIP E, port) d) (RO m).
Proof.
  intros H Hm. unfold gotb in H. apply andb_prop in H. destruct H as [H1 H2]. apply Nat.eqb_eq in H1. apply existsb_exists in H2. destruct H2 as (o & Ho & H2). destruct o; try discriminate H2. apply andb_prop in H2. destruct H2 as [H2 H3].
  apply bool_decide_eq_true in H2. apply bool_decide_eq_true in H3. subst. destruct from as [ip port]. cbn in H2. subst ip. unfold FA, FO. cbn [fst]. split; [ reflexivity | exists port; apply om_in; [ exact I | exact Ho ] ].
Qed.
Lemma rounds_reliable i j E : reliableb i j E = true -> reliable Z RA RO i j E.
Proof.
  intros H m k dst d Hi Ho Hh. destruct (pos_lt p len Len m) as [P1 _]. pose proof (proj1 (forallb_forall _ _) H (pos p len m) ltac:(apply in_seq; lia)) as K. cbv beta in K. unfold FA in Hi. cbn [fst] in Hi. fold L in K. rewrite Hi, Nat.eqb_refl in K.
  apply om_in in Ho; [ | exact I ]. pose proof (proj1 (forallb_forall _ _) K _ Ho) as K2. cbn beta iota in K2. cbn in Hh. rewrite Hh in K2. destruct (findb (gotb j E d) (seq (pos p len m) _)) eqn:K3; [ clear K2; rename K3 into K2 | clear K3 ].
  - apply findb_ok in K2. destruct K2 as (r & Hr & K2). apply in_seq in Hr. destruct (le_lt_dec p r) as [Hp|Hp].
    + destruct (comes_again p len Len r m ltac:(lia)) as (m' & Hm & Pm). destruct (gotb_ok j E d r m' K2 Pm) as (J1 & port & J2). eauto 8.
    + assert (Pm : pos p len m = m). { assert (X : (pos p len m < p)%nat) by lia. revert X. unfold pos. destruct (Nat.ltb_spec m p); [ reflexivity | ]. intros X. lia. }
      assert (Pr : pos p len r = r) by (unfold pos; rewrite (proj2 (Nat.ltb_lt r p)) by lia; reflexivity). destruct (gotb_ok j E d r r K2 Pr) as (J1 & port & J2). exists r, port. split; [ lia | auto ].
  - apply findb_ok in K2. destruct K2 as (r & Hr & K2). apply in_seq in Hr. destruct (comes_again p len Len r m Hr) as (m' & Hm & Pm). destruct (gotb_ok j E d r m' K2 Pm) as (J1 & port & J2). eauto 8.
Qed.
Lemma reliable_link i j E : reliable Z RA RO i j E -> link Z RA RO i j E.
Proof.
  intros H P Hp n. destruct (Hp n) as (m & Hm & K1 & k & dst & d & K2 & K3 & K4). destruct (H m k dst d K1 K2 K3) as (m' & port & Hm' & J1 & J2). exists m'. split; [ lia | ]. split; [ exact J1 | eauto ].
Qed.
(** What happens in a round happens again and again; what happens in the prefix happens there. *)
Lemma rounds_often (P : nat -> label -> list obs -> Prop) r : (p <= r < p + len)%nat -> (forall q, P (fst (L r)) (lam q (fst (L r)) (snd (L r))) (om q (B r))) -> often (fun m => P (fst (RA m)) (snd (RA m)) (RO m)).
Proof. intros Hr H n. destruct (comes_again p len Len r n Hr) as (m & Hm & Pm). exists m. split; [ exact Hm | ]. unfold FA, FO. cbn [fst snd]. rewrite Pm. apply H. Qed.
Lemma rounds_prefix r : (r < p)%nat -> RA r = L r /\ RO r = B r.
Proof.
  intros Hr. assert (Pr : pos p len r = r) by (unfold pos; rewrite (proj2 (Nat.ltb_lt r p)) by lia; reflexivity). assert (R0 : round p len r = 0%nat) by (unfold round; replace (r - p)%nat with 0%nat by lia; apply Nat.div_0_l; exact Len).
  unfold FA, FO. rewrite Pr, R0. split; [ unfold lam; cbn [Nat.mul Z.of_nat Z.mul]; rewrite timed_0, moved_0; symmetry; apply surjective_pairing | apply shift_obs_0 ].
Qed.
End rounds.

(** * A controller and a node that run for ever *)
(** The controller and the node of C86_ex are started, go through [pre], and then through [rd] again and again. *)
Definition traced := list (net * (nat * label) * list obs).
Definition lan_rounds (pre rd : nscript) (D : Z) (P : traced -> nat -> nat -> bool) : bool :=
  match nlives lan lan_hears (mkNet (map init lan) []) (map (fun _ => Idle) lan) lan_up with
  | Some (w, ps, _, _) =>
      match ntrace lan lan_hears w (pre ++ rd) with
      | Some (tr, w') =>
          let p := length pre in let len := length rd in
          match ps with [Up; Up] => true | _ => false end &&
          match W_hosts w with [yi; yj] => bool_decide (S_callbacks (Y_sh yj) !! 0x2000 = Some HPoll /\ S_callbacks (Y_sh yj) !! 0x5000 = Some (HUser 1)) | _ => false end &&
          negb (len =? 0)%nat && same_againb w tr w' p len D && forallb (stepb tr) (seq 0 (p + len)) && forallb (roundb w tr w' p) (seq p len) &&
          ((D =? 0)%Z || forallb (fun r => forallb calm_sys (W_hosts (state_at tr w' r))) (seq p len)) &&
          fair_hostb tr w' p len ctl1 0 && fair_hostb tr w' p len lamp 1 && reliableb lan_hears tr p len 0 1 ctl1 && reliableb lan_hears tr p len 1 0 lamp && P tr p len
      | None => false
      end
  | None => false
  end.
Lemma lan_rounds_ok pre rd D P : lan_rounds pre rd D P = true -> exists tr w' p len yj, length tr = (p + len)%nat /\ len <> 0%nat /\ P tr p len = true /\
  let F := FF p len (state_at tr w') (label_at tr) (obs_at tr) (psi tr w' p len D) (lam tr w' p len D) (om D) in let A := FA p len (label_at tr) (lam tr w' p len D) in let O := FO p len (obs_at tr) (om D) in
  nexec lan_site F A O /\ up lan_site F A 0 ctl1 /\ up lan_site F A 1 lamp /\ nfair F A 0 ctl1 /\ nfair F A 1 lamp /\ reliable lan_site A O 0 1 ctl1 /\ reliable lan_site A O 1 0 lamp /\ link lan_site A O 0 1 ctl1 /\ link lan_site A O 1 0 lamp /\
  W_hosts (F 0%nat) !! 1%nat = Some yj /\ S_callbacks (Y_sh yj) !! 0x2000 = Some HPoll /\ S_callbacks (Y_sh yj) !! 0x5000 = Some (HUser 1).
Proof.
  unfold lan_rounds. destruct (nlives _ _ _ _ lan_up) as [[[[w ps] L0] G]|] eqn:H1; [ | discriminate ]. destruct (ntrace _ _ w _) as [[tr w']|] eqn:Tr; [ | discriminate ]. cbv zeta. intros H.
  set (p := length pre) in *. set (len := length rd) in *.
  repeat (apply andb_prop in H; let K := fresh "K" in destruct H as [H K]). rename K9 into Hcb.
  destruct (nlives_ok _ _ _ _ _ _ _ _ _ (alive_init lan) H1) as [M1 A1]. pose proof (nruns_nmoves _ _ _ _ _ _ (nruns_init (closed_site lan lan_hears)) M1) as R.
  destruct ps as [|[] [|[] [|]]]; try discriminate H. destruct (W_hosts w) as [|yi [|yj [|]]] eqn:Hw; try discriminate Hcb. apply bool_decide_eq_true in Hcb. destruct Hcb as [C1 C2].
  assert (Hi : W_hosts w !! 0%nat = Some yi) by (rewrite Hw; reflexivity). assert (Hj : W_hosts w !! 1%nat = Some yj) by (rewrite Hw; reflexivity).
  assert (Vi : live ctl1 yi) by (destruct (lan_wf 0 ctl1 eq_refl) as (W1 & W2 & W3); constructor; try assumption; exact (A1 0%nat _ _ Up eq_refl Hi eq_refl)).
  assert (Vj : live lamp yj) by (destruct (lan_wf 1 lamp eq_refl) as (W1 & W2 & W3); constructor; try assumption; exact (A1 1%nat _ _ Up eq_refl Hj eq_refl)).
  assert (Size : length tr = (p + len)%nat) by (rewrite (ntrace_length _ _ _ _ _ _ Tr), app_length; reflexivity).
  assert (Len : len <> 0%nat) by (intros E0; rewrite E0 in K8; discriminate K8).
  exists tr, w', p, len, yj. split; [ exact Size | ]. split; [ exact Len | ]. split; [ exact K | ]. cbv zeta.
  pose proof (rounds_reliable lan lan_hears tr w' p len D Size Len 0 1 ctl1 K1) as L01. pose proof (rounds_reliable lan lan_hears tr w' p len D Size Len 1 0 lamp K0) as L10.
  split; [ eapply rounds_exec; try eassumption; eexists; exact R | ]. split; [ eapply rounds_up; try eassumption; reflexivity | ]. split; [ eapply rounds_up; try eassumption; reflexivity | ].
  split; [ eapply rounds_fair; eassumption | ]. split; [ eapply rounds_fair; eassumption | ]. split; [ exact L01 | ]. split; [ exact L10 | ].
  split; [ exact (reliable_link lan lan_hears tr w' p len D Size Len 0 1 ctl1 L01) | ]. split; [ exact (reliable_link lan lan_hears tr w' p len D Size Len 1 0 lamp L10) | ]. split; [ | auto ].
  unfold FF. cbn [W_hosts]. rewrite list_lookup_imap. assert (P0 : pos p len 0 = 0%nat). { unfold pos. destruct (Nat.ltb_spec 0 p); [ reflexivity | ]. rewrite Nat.mod_0_l by exact Len. lia. }
  assert (R0 : round p len 0 = 0%nat) by (unfold round; apply Nat.div_0_l; exact Len). rewrite P0, R0, (ntrace_first _ _ _ _ _ _ Tr), Hj. cbn. f_equal. apply psi_0.
Qed.
(** Host 1 receives the ArtPollReply with which the controller answers its own poll. *)
Definition own_reply : nscript := receive lan 1 4 1 ++ run_on lamp 1 8.
(** The poll ticker fires; the node receives the poll and the controller the answer. *)
Definition poll_round : nscript :=
  on 0 (act (LRun 4 CPollTick)) ++ run_on ctl1 0 17 ++ own_reply ++ receive lan 1 4 0 ++ run_on lamp 1 18 ++ receive lan 0 6 4 ++ run_on ctl1 0 11 ++ on 0 (act (LRun 4 (CTime 5%Z))) ++ run_on ctl1 0 1.
(** Ticks of dmxUpdateLoop at the given seconds; the node receives the frames. *)
Definition dmx_rounds (ks : list nat) : nscript := concat (map (fun k => on 0 (tick 5 (3000000000 + Z.of_nat k * 1000000000)) ++ run_on ctl1 0 8 ++ receive lan 1 4 (6 + k) ++ run_on lamp 1 8) ks).
Definition with_table (f : Controller -> event -> list payload -> bool) (o : list obs) : bool := existsb (fun o => match o with OTable s e out => f s e out | _ => false end) o.
Definition find_step (tr : traced) (f : list obs -> bool) : option nat := match split_at (fun x => f (snd x)) tr with Some (a, _, _) => Some (length a) | None => None end.
Lemma find_step_ok tr f r : find_step tr f = Some r -> (r < length tr)%nat /\ f (obs_at tr r) = true.
Proof.
  unfold find_step. destruct (split_at _ tr) as [[[a x] b]|] eqn:E; [ | discriminate ]. apply split_at_ok in E. destruct E as [-> E]. intros H. injection H as <-. split; [ rewrite app_length; cbn; lia | ].
  unfold obs_at. rewrite list_lookup_middle by reflexivity. destruct x as [[u v] o]. exact E.
Qed.
Definition no_writesb (tr : traced) (a b : nat) : bool := forallb (fun r => negb (existsb (fun o => match o with OTable _ (ESend _ _) _ => true | _ => false end) (obs_at tr r))) (seq a b).
Lemma no_writesb_ok D tr a b q r s d x o : no_writesb tr a b = true -> (a <= r < a + b)%nat -> ~ In (OTable s (ESend d x) o) (om D q (obs_at tr r)).
Proof.
  intros H Hr Hi. pose proof (proj1 (forallb_forall _ _) H r ltac:(apply in_seq; lia)) as K. cbv beta in K. apply negb_true_iff in K. rewrite <- not_true_iff_false in K. apply K. apply existsb_exists.
  unfold om in Hi. apply in_map_iff in Hi. destruct Hi as (z & Ez & Hz). exists z. split; [ exact Hz | ]. destruct z; try discriminate Ez. destruct e; try discriminate Ez. reflexivity.
Qed.
(** The user's write, a due tick in the prefix, and a poll tick in the round. *)
Definition poll_test (tr : traced) (p len : nat) : bool :=
  match find_step tr (existsb written), find_step tr (existsb ticked) with
  | Some m0, Some m => (m0 <? m)%nat && (m <? p)%nat && no_writesb tr (S m0) (m - S m0) && (fst (label_at tr m0) =? 0)%nat && (fst (label_at tr m) =? 0)%nat
  | _, _ => false
  end && findb (fun r => match label_at tr r with (0%nat, LRun _ CPollTick) => true | _ => false end) (seq p len) && findb (fun r => match label_at tr r with (1%nat, _) => true | _ => false end) (seq p len).
(** All hypotheses of C97_discovered and of C98_arrives. *)
Example C97_ex : exists F A O yj m0 s0 s1 o0 m s order now out cn,
  nexec lan_site F A O /\ up lan_site F A 0 ctl1 /\ up lan_site F A 1 lamp /\ nfair F A 0 ctl1 /\ nfair F A 1 lamp /\
  E_ctl ctl1 = true /\ C_Type (E_config ctl1) = 1 /\ to16 (E_localIP ctl1) <> to16 (E_localIP lamp) /\ W_hosts (F 0%nat) !! 1%nat = Some yj /\ S_callbacks (Y_sh yj) !! 0x2000 = Some HPoll /\
  C_Type (E_config lamp) = 0 /\ lan_hears 1 (E_ctlBroadcast ctl1) = true /\ lan_hears 0 (E_nodeBroadcast lamp) = true /\ link lan_site A O 0 1 ctl1 /\ link lan_site A O 1 0 lamp /\
  often (fun m => exists k, A m = (0%nat, LRun k CPollTick)) /\
  (* C98_arrives *)
  often (fun m => fst (A m) = 0%nat) /\ often (fun m => fst (A m) = 1%nat) /\ S_callbacks (Y_sh yj) !! 0x5000 = Some (HUser 1) /\ reliable lan_site A O 0 1 ctl1 /\
  fst (A m0) = 0%nat /\ In (OTable s0 (ESend sevens (0, 7)) o0) (O m0) /\ SendDMXToAddress s0 sevens (0, 7) = Ret (s1, true) /\ K_OutputAddress s0 !! (0, 7) = Some 0 /\
  (forall r s d' o', (m0 < r < m)%nat -> fst (A r) = 0%nat -> ~ In (OTable s (ESend d' (0, 7)) o') (O r)) /\
  (m0 < m)%nat /\ fst (A m) = 0%nat /\ In (OTable s (ETick order now) out) (O m) /\ K_OutputAddress s !! (0, 7) = Some 0 /\ K_heap s !! 0 = Some cn /\ is_due s now ((0, 7), 0) = true /\ lan_hears 1 (C_IP (CN_Node cn), 6454) = true.
Proof.
  destruct (lan_rounds_ok (lan_work ++ own_reply ++ poll_round) poll_round 0 poll_test) as (tr & w' & p & len & yj & Size & Len & T & X & U0 & U1 & F0 & F1 & R01 & R10 & L01 & L10 & Hyj & C1 & C2); [ vm_compute; reflexivity | ].
  unfold poll_test in T. apply andb_prop in T. destruct T as [T T1]. apply andb_prop in T. destruct T as [T T0].
  destruct (find_step tr (existsb written)) as [m0|] eqn:Em0; [ | discriminate T ]. destruct (find_step tr (existsb ticked)) as [m|] eqn:Em; [ | discriminate T ]. repeat (apply andb_prop in T; let K := fresh "K" in destruct T as [T K]).
  apply Nat.ltb_lt in T. apply Nat.ltb_lt in K2. apply Nat.eqb_eq in K0. apply Nat.eqb_eq in K.
  apply find_step_ok in Em0. destruct Em0 as [_ Em0]. apply find_step_ok in Em. destruct Em as [_ Em]. apply existsb_exists in Em0. destruct Em0 as (o1 & I1 & F2). apply existsb_exists in Em. destruct Em as (o2 & I2 & F3).
  destruct o1; try discriminate F2. destruct e; try discriminate F2. destruct o2; try discriminate F3. destruct e; try discriminate F3.
  unfold ticked in F3. apply andb_prop in F3. destruct F3 as [F3 F6]. apply andb_prop in F3. destruct F3 as [F3 F4]. apply bool_decide_eq_true in F3. destruct (K_heap s0 !! 0) as [cn|] eqn:Hcn; [ | discriminate F6 ]. apply bool_decide_eq_true in F6.
  unfold written in F2. apply andb_prop in F2. destruct F2 as [F2 F5]. apply bool_decide_eq_true in F2. destruct F2 as (-> & -> & F2). destruct (SendDMXToAddress s sevens (0, 7)) as [[s1 []]|] eqn:Es; try discriminate F5.
  destruct (rounds_prefix tr w' p len 0 Size Len m0 ltac:(lia)) as [A1 O1]. destruct (rounds_prefix tr w' p len 0 Size Len m ltac:(lia)) as [A2 O2].
  apply findb_ok in T0. destruct T0 as (r0 & Hr0 & T0). apply in_seq in Hr0. apply findb_ok in T1. destruct T1 as (r1 & Hr1 & T1). apply in_seq in Hr1.
  eexists _, _, _, yj, m0, s, s1, out, m, s0, order, now, out0, cn. split; [ exact X | ]. split; [ exact U0 | ]. split; [ exact U1 | ]. split; [ exact F0 | ]. split; [ exact F1 | ]. do 2 (split; [ reflexivity | ]). split; [ discriminate | ].
  split; [ exact Hyj | ]. split; [ exact C1 | ]. do 3 (split; [ reflexivity | ]). split; [ exact L01 | ]. split; [ exact L10 | ].
  destruct (label_at tr r0) as [j0 l0] eqn:El0. destruct j0; [ | discriminate T0 ]. destruct l0 as [k0 c0| | | | |]; try discriminate T0. destruct c0; try discriminate T0. destruct (label_at tr r1) as [j1 l1] eqn:El1. destruct j1 as [|[|]]; try discriminate T1.
  split. { intros n. destruct (rounds_often tr w' p len 0 Len (fun i l _ => i = 0%nat /\ exists k, l = LRun k CPollTick) r0 Hr0) with (n := n) as (m' & Hm' & K3 & k & K4); [ intros q; rewrite El0; cbn; eauto | ]. exists m'. split; [ exact Hm' | ]. exists k. rewrite <- K3, <- K4. apply surjective_pairing. }
  split. { apply (rounds_often tr w' p len 0 Len (fun i _ _ => i = 0%nat) r0 Hr0). intros q. rewrite El0. reflexivity. }
  split. { apply (rounds_often tr w' p len 0 Len (fun i _ _ => i = 1%nat) r1 Hr1). intros q. rewrite El1. reflexivity. }
  split; [ exact C2 | ]. split; [ exact R01 | ]. rewrite A1, O1, A2, O2. split; [ exact K0 | ]. split; [ exact I1 | ]. split; [ exact Es | ]. split; [ exact F2 | ].
  split. { intros r s' d' o' Hr _. unfold FO. replace (pos p len r) with r by (unfold pos; rewrite (proj2 (Nat.ltb_lt r p)) by lia; reflexivity). eapply no_writesb_ok; [ exact K1 | lia ]. }
  split; [ exact T | ]. split; [ exact K | ]. split; [ exact I2 | ]. split; [ exact F3 | ]. split; [ exact Hcn | ]. split; [ exact F4 | ]. rewrite F6. reflexivity.
Qed.

(** The hypotheses of C98_often: after the write, 256 ticks a second apart make a round, after which the sequence number is the same again and the time 256 seconds later. *)
Lemma due_shifted D s now a n cn b : K_heap s !! n = Some cn -> CN_DMXBuffer cn !! a = Some b -> is_due (shift_tables D s) (now + D) (a, n) = is_due s now (a, n).
Proof.
  intros Hn Hb. unfold is_due, pending, stored. cbn [fst snd]. rewrite shift_heap, Hn. cbn. rewrite lookup_fmap, Hb. cbn.
  replace (B_LastUpdate b + D <? now + D - K_maxFPS s)%Z with (B_LastUpdate b <? now - K_maxFPS s)%Z by (destruct (Z.ltb_spec (B_LastUpdate b) (now - K_maxFPS s)); destruct (Z.ltb_spec (B_LastUpdate b + D) (now + D - K_maxFPS s)); try reflexivity; lia).
  replace (B_LastUpdate b + D <? now + D - 250000000)%Z with (B_LastUpdate b <? now - 250000000)%Z by (destruct (Z.ltb_spec (B_LastUpdate b) (now - 250000000)); destruct (Z.ltb_spec (B_LastUpdate b + D) (now + D - 250000000)); try reflexivity; lia). reflexivity.
Qed.
Definition due_again (o : obs) : bool := ticked o && match o with OTable s _ _ => bufferedb s [((0, 7), 0)] | _ => false end.
Definition dmx_test (tr : traced) (p len : nat) : bool :=
  match find_step tr (existsb written) with
  | Some m0 => (m0 <? p)%nat && no_writesb tr (S m0) (p + len - S m0) && (fst (label_at tr m0) =? 0)%nat
  | None => false
  end && findb (fun r => (fst (label_at tr r) =? 0)%nat && existsb due_again (obs_at tr r)) (seq p len).
Example C98_ex : exists F A O yj m0 s0 s1 o0, nexec lan_site F A O /\ up lan_site F A 0 ctl1 /\ up lan_site F A 1 lamp /\ nfair F A 0 ctl1 /\ nfair F A 1 lamp /\
  to16 (E_localIP ctl1) <> to16 (E_localIP lamp) /\ W_hosts (F 0%nat) !! 1%nat = Some yj /\ S_callbacks (Y_sh yj) !! 0x5000 = Some (HUser 1) /\ link lan_site A O 0 1 ctl1 /\
  fst (A m0) = 0%nat /\ In (OTable s0 (ESend sevens (0, 7)) o0) (O m0) /\ SendDMXToAddress s0 sevens (0, 7) = Ret (s1, true) /\ K_OutputAddress s0 !! (0, 7) = Some 0 /\
  (forall m s d' o', (m0 < m)%nat -> fst (A m) = 0%nat -> ~ In (OTable s (ESend d' (0, 7)) o') (O m)) /\
  often (fun m => fst (A m) = 0%nat /\ exists s order now out cn, In (OTable s (ETick order now) out) (O m) /\ K_OutputAddress s !! (0, 7) = Some 0 /\ K_heap s !! 0 = Some cn /\ is_due s now ((0, 7), 0) = true /\
    lan_hears 1 (C_IP (CN_Node cn), 6454) = true).
Proof.
  destruct (lan_rounds_ok (lan_work ++ own_reply ++ dmx_rounds [0%nat]) (dmx_rounds (seq 1 256)) 256000000000 dmx_test) as (tr & w' & p & len & yj & Size & Len & T & X & U0 & U1 & F0 & F1 & R01 & R10 & L01 & L10 & Hyj & C1 & C2); [ vm_compute; reflexivity | ].
  unfold dmx_test in T. apply andb_prop in T. destruct T as [T T0].
  destruct (find_step tr (existsb written)) as [m0|] eqn:Em0; [ | discriminate T ]. repeat (apply andb_prop in T; let K := fresh "K" in destruct T as [T K]). apply Nat.ltb_lt in T. apply Nat.eqb_eq in K.
  apply find_step_ok in Em0. destruct Em0 as [_ Em0]. apply existsb_exists in Em0. destruct Em0 as (o1 & I1 & F2). destruct o1; try discriminate F2. destruct e; try discriminate F2.
  unfold written in F2. apply andb_prop in F2. destruct F2 as [F2 F5]. apply bool_decide_eq_true in F2. destruct F2 as (-> & -> & F2). destruct (SendDMXToAddress s sevens (0, 7)) as [[s1 []]|] eqn:Es; try discriminate F5.
  destruct (rounds_prefix tr w' p len 256000000000 Size Len m0 ltac:(lia)) as [A1 O1].
  apply findb_ok in T0. destruct T0 as (r0 & Hr0 & T0). apply in_seq in Hr0. apply andb_prop in T0. destruct T0 as [T0 T1]. apply Nat.eqb_eq in T0. apply existsb_exists in T1. destruct T1 as (o2 & I2 & T1). apply andb_prop in T1. destruct T1 as [F3 T1].
  destruct o2; try discriminate F3. destruct e; try discriminate F3. unfold ticked in F3. apply andb_prop in F3. destruct F3 as [F3 F6]. apply andb_prop in F3. destruct F3 as [F3 F4]. apply bool_decide_eq_true in F3.
  destruct (K_heap s0 !! 0) as [cn|] eqn:Hcn; [ | discriminate F6 ]. apply bool_decide_eq_true in F6.
  assert (exists b, CN_DMXBuffer cn !! (0, 7) = Some b) as [b Hb]. { unfold bufferedb in T1. cbn [forallb fst snd] in T1. match type of T1 with (match ?x with _ => _ end && _ = _) => assert (Ex : x = Some cn) by exact Hcn; rewrite Ex in T1 end. match type of T1 with (match ?x with _ => _ end && _ = _) => destruct x as [b|] eqn:Hb; [ exists b; exact Hb | discriminate T1 ] end. }
  eexists _, _, _, yj, m0, s, s1, out. split; [ exact X | ]. split; [ exact U0 | ]. split; [ exact U1 | ]. split; [ exact F0 | ]. split; [ exact F1 | ]. split; [ discriminate | ]. split; [ exact Hyj | ]. split; [ exact C2 | ]. split; [ exact L01 | ].
  rewrite A1, O1. split; [ exact K | ]. split; [ exact I1 | ]. split; [ exact Es | ]. split; [ exact F2 | ]. split.
  - intros m s' d' o' Hm _. unfold FO. destruct (pos_lt p len Len m) as [P1 _]. eapply no_writesb_ok; [ exact K0 | ]. unfold pos in *. destruct (Nat.ltb_spec m p); lia.
  - apply (rounds_often tr w' p len 256000000000 Len (fun i _ o => i = 0%nat /\ exists s order now out cn, In (OTable s (ETick order now) out) o /\ K_OutputAddress s !! (0, 7) = Some 0 /\ K_heap s !! 0 = Some cn /\ is_due s now ((0, 7), 0) = true /\
      lan_hears 1 (C_IP (CN_Node cn), 6454) = true) r0 Hr0). intros q. split; [ exact T0 | ]. set (e := (Z.of_nat q * 256000000000)%Z).
    exists (shift_tables e s0), order, (now + e)%Z, out0, (shift_cn e cn). split; [ unfold om; fold e; apply (in_map (shift_obs e) _ _ I2) | ]. split; [ exact F3 | ]. split; [ pose proof (shift_heap e s0 0) as Eh; etransitivity; [ exact Eh | ]; match goal with |- match ?x with _ => _ end = _ => assert (Ex : x = Some cn) by exact Hcn; rewrite Ex end; reflexivity | ].
    split; [ exact (eq_trans (due_shifted e s0 now (0, 7) 0 cn b Hcn Hb) F4) | ]. cbn [shift_cn CN_Node]. rewrite F6. reflexivity.
Qed.

Definition P_Eventual_theorems := (C97_discovered, C98_arrives, C98_often, C97_ex, C98_ex).
Print Assumptions P_Eventual_theorems.
