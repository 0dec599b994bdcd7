(** Property C107: invocations of the user's callbacks that last. *)
From Verif Require Import WireSpec P_Config P_Controller SysFacts SysLaws SysRun SysOrder SysScript P_Node P_Life P_Live P_Wire P_Settle Net P_Net P_Flow Invoked.
From stdpp Require Import base list gmap.
Open Scope N_scope.

(** * Basics *)
Lemma invoked_app a b : invoked (a ++ b) = invoked a ++ invoked b.
Proof. apply omap_app. Qed.
Lemma done_app a b : done (a ++ b) = done a ++ done b.
Proof. apply omap_app. Qed.
Lemma done_map ls : done (map IDo ls) = ls.
Proof. induction ls as [|l ls IH]; [ reflexivity | ]. cbn. f_equal. exact IH. Qed.
Lemma isteps_app E z ls z1 tr ls' z2 tr' : isteps E z ls z1 tr -> isteps E z1 ls' z2 tr' -> isteps E z (ls ++ ls') z2 (tr ++ tr').
Proof.
  intros H K. induction K as [|z1 ls' z2 tr' l z3 o K IH S]; [ rewrite !app_nil_r; exact H | ]. rewrite !app_assoc. eapply isteps_snoc; [ exact (IH H) | exact S ].
Qed.
Lemma forget E z ls z' tr : isteps E z ls z' tr -> steps E (I_sys z) (done ls) (I_sys z') tr.
Proof.
  induction 1 as [|z ls z1 tr l z2 o H IH S]; [ constructor | ]. rewrite done_app. destruct S as [z1 l y o Hl He|z1 k x Hk]; cbn [I_sys done omap list_omap app].
  - eapply steps_snoc; eassumption.
  - rewrite !app_nil_r. exact IH.
Qed.
Lemma endless E y ls y' tr : steps E y ls y' tr -> forall R, isteps E (mkI y R) (map IDo ls) (mkI y' (R ++ invoked tr)) tr.
Proof.
  induction 1 as [y|y ls y1 tr l y2 o H IH Hl He]; intros R; [ rewrite app_nil_r; constructor | ].
  rewrite map_app, invoked_app, app_assoc. eapply isteps_snoc; [ exact (IH R) | ]. exact (i_do E (mkI y1 (R ++ invoked tr)) l y2 o Hl He).
Qed.
Lemma steps_det E y ls y1 t1 : steps E y ls y1 t1 -> forall y2 t2, steps E y ls y2 t2 -> y1 = y2 /\ t1 = t2.
Proof.
  induction 1 as [y|y ls y1 t1 l y1' o H IH Hl He]; intros y2 t2 K.
  - apply steps_inv_nil in K. destruct K as [-> ->]. auto.
  - destruct (steps_inv _ _ _ _ _ K) as [(EQ & _)|(ls0 & l0 & y3 & tr0 & o' & EQ & -> & Hs & Hl' & He')]; [ destruct ls; discriminate EQ | ].
    apply app_inj_tail in EQ. destruct EQ as [<- <-]. destruct (IH _ _ Hs) as [-> ->]. rewrite He in He'. apply RNext_inj in He'. destruct He' as [-> ->]. auto.
Qed.
Lemma in_invoked f p tr : In (OCall (HUser f) p) tr -> exists a b, invoked tr = a ++ (f, p) :: b.
Proof.
  intros H. apply in_split in H. destruct H as (a & b & ->). rewrite invoked_app. exists (invoked a), (invoked b). reflexivity.
Qed.
Lemma at_most_one E y l y' o : exec E y l = RNext y' o -> (length (invoked o) <= 1)%nat.
Proof.
  intros He. apply exec_cases in He. destruct He as [(i & c & t & s & t' & sp & -> & Et & Es & ->)|[(t & -> & -> & Hk)|(mm & op & f & -> & -> & _)]]; [ | cbn; lia | cbn; lia ].
  clear - Es. tcases Es; cbn; try lia. all: try (destruct h; cbn; lia).
Qed.

(** * Theorems *)
(** Whether and when callbacks return makes no difference to anything else: what happens is an execution of Sys.v, and every execution of Sys.v is possible while no callback ever returns, whatever invocations
    are running already. *)
Theorem C107_transparent : forall E, (forall z ls z' tr, isteps E z ls z' tr -> steps E (I_sys z) (done ls) (I_sys z') tr) /\
  (forall y ls y' tr R, steps E y ls y' tr -> exists R', isteps E (mkI y R) (map IDo ls) (mkI y' R') tr).
Proof. intros E. split; [ intros; apply forget; assumption | ]. intros y ls y' tr R H. eexists. apply endless. exact H. Qed.

(** The callbacks of the user that were called in a run, with the packets. *)
Definition begun (tr : list obs) : list invocation := collect (fun o => match o with OCall (HUser f) p => [(f, p)] | _ => [] end) tr.
Lemma begun_eq tr : begun tr = invoked tr.
Proof. induction tr as [|o tr IH]; [ reflexivity | ]. unfold begun, invoked in *. rewrite collect_cons, IH. destruct o; try reflexivity. destruct h; reflexivity. Qed.
(** Every invocation runs until it returns: those observed are the running ones and those that returned, one for each return. At any time one more at most begins. *)
Theorem C107_accounted : forall E ls z tr, iruns E ls z tr ->
  (exists returned, begun tr ≡ₚ I_running z ++ returned /\ (length returned + length (done ls) = length ls)%nat) /\
  (forall l z' o, istep E z l z' o -> (length (I_running z') <= S (length (I_running z)))%nat).
Proof.
  intros E ls z tr R. rewrite begun_eq. split.
  - unfold iruns in R. remember (mkI (init E) []) as z0 eqn:Ez. revert Ez. induction R as [z|z ls z1 tr l z2 o H IH S]; intros ->; [ exists []; split; [ reflexivity | reflexivity ] | ].
    destruct (IH eq_refl) as (ret & P & N). rewrite invoked_app, done_app, !app_length. destruct S as [z1 l y o Hl He|z1 k x Hk].
    + exists ret. cbn [I_running]. split; [ rewrite P, <- !app_assoc; f_equiv; apply Permutation_app_comm | cbn; lia ].
    + exists (x :: ret). cbn [I_running invoked omap list_omap]. rewrite app_nil_r. split; [ | cbn; lia ]. rewrite P. rewrite (delete_Permutation _ _ _ Hk) at 1. cbn. apply Permutation_middle.
  - intros l z' o S. destruct S as [z l y o Hl He|z k x Hk]; cbn [I_running].
    + rewrite app_length. pose proof (at_most_one _ _ _ _ _ He). lia.
    + pose proof (f_equal length (delete_take_drop (I_running z) k)) as K. rewrite app_length, take_length, drop_length in K. lia.
Qed.

(** A running node gets everything done while callbacks run on: it can come to rest without any of them returning, and whenever it has come to rest, every datagram that arrived from another host with a packet
    somebody registered for has been handed over, whatever callbacks did or did not return. *)
Theorem C107_unhindered : forall E y R, live E y ->
  (exists ls y' tr, isteps E (mkI y R) (map IDo ls) (mkI y' (R ++ begun tr)) tr /\ calls ls = [] /\ no_errors ls = true /\ at_rest y') /\
  (forall ls z' tr src port d p h, isteps E (mkI y R) ls z' tr -> calls (done ls) = [] -> no_errors (done ls) = true -> at_rest (I_sys z') ->
     In (ORecv (src, port) d) tr -> to16 src <> to16 (E_localIP E) -> wire_accepts (firstn 4096 d) p -> S_callbacks (Y_sh y) !! GetOpCode p = Some h -> In (OCall h p) tr).
Proof.
  intros E y R V. split.
  - destruct (settle_works E y V) as (ls & y' & tr & [_ S C N Q] & _). exists ls, y', tr. rewrite begun_eq. split; [ apply endless; exact S | auto ].
  - intros ls z' tr src port d p h H Hc Hn Hr Hi Hs Hw Hh. exact (C85_called E y (done ls) (I_sys z') tr src port d p h V (forget _ _ _ _ _ H) Hc Hn Hr Hi Hs Hw Hh).
Qed.

(** Not one at a time: whenever a node runs, any number of invocations of a callback can come to run at the same time, one for each datagram. *)
Theorem C107_one_at_a_time_refuted : forall E y R f d p src port n, live E y -> S_callbacks (Y_sh y) !! GetOpCode p = Some (HUser f) ->
  bytes_ok d -> to16 src <> to16 (E_localIP E) -> wire_accepts (firstn 4096 d) p ->
  exists ls y' R' tr, isteps E (mkI y R) (map IDo ls) (mkI y' R') tr /\ calls ls = [] /\ no_errors ls = true /\ Forall (fun l => forall r from e, l = LRun r (CDatagram from e) -> from = (src, port) /\ e = d) ls /\
    exists more, R' ≡ₚ repeat (f, p) n ++ R ++ more.
Proof.
  intros E y R f d p src port n V Hh Hb Hs Hw. induction n as [|n (ls & y1 & R1 & tr & S & C & N & D & more & P)].
  - exists [], y, R, []. split; [ constructor | ]. repeat split; try constructor. exists []. rewrite app_nil_r. reflexivity.
  - pose proof (forget _ _ _ _ _ S) as S1. cbn [I_sys] in S1. rewrite done_map in S1. pose proof (proj1 (live_steps _ _ _ _ _ S1 V C N)) as V1. pose proof (callbacks_kept _ _ _ _ _ S1 V C N) as K.
    destruct (receive_round E y1 (src, port) d V1 Hb) as (ls2 & y2 & tr2 & [_ S2 C2 N2 R2] & D2 & I2).
    pose proof (C85_called E y1 ls2 y2 tr2 src port d p (HUser f) V1 S2 C2 N2 R2 I2 Hs Hw) as Hc. rewrite K in Hc. destruct (in_invoked _ _ _ (Hc Hh)) as (a & b & Hab).
    exists (ls ++ ls2), y2, (R1 ++ invoked tr2), (tr ++ tr2). split; [ rewrite map_app; eapply isteps_app; [ exact S | apply endless; exact S2 ] | ].
    split; [ rewrite calls_app, C, C2; reflexivity | ]. split; [ rewrite no_errors_app, N, N2; reflexivity | ]. split.
    + apply Forall_app. split; [ exact D | ]. eapply Forall_impl; [ exact D2 | ]. intros l [H|[r ->]] r' from e E'; [ subst l; contradiction H | injection E' as _ <- <-; auto ].
    + exists (more ++ a ++ b). rewrite P, Hab. cbn [repeat]. rewrite (app_assoc _ a), <- Permutation_middle, <- !app_assoc. reflexivity.
Qed.

(** Stop does not wait for callbacks, so it can be called from one: it returns, and all goroutines of the node end, while every callback that runs keeps running. *)
Theorem C107_stop : forall E ls0 y tr0 R, wf_config (E_config E) -> (E_ctl E = true -> (0 < E_maxFPS E <= 1000000000)%Z) -> (E_ctl E = true \/ C_Type (E_config E) <> StController) ->
  life E careful ls0 y tr0 Up -> exists ls y' more tr, isteps E (mkI y R) (map IDo ls) (mkI y' (R ++ more)) tr /\ calls ls = [false] /\ In OStop tr /\ quiescent y'.
Proof.
  intros E ls0 y tr0 R Wf Fp St L. destruct (C70_can_stop_partial E ls0 y tr0 Wf Fp St L) as (ls & y' & tr & L' & C & I & Q).
  pose proof (life_runs _ _ _ _ _ _ L) as R0. pose proof (life_runs _ _ _ _ _ _ L') as R1. unfold runs in *. destruct (steps_split _ _ _ _ _ _ R1) as (y1 & t1 & t2 & S1 & S2 & Ht).
  assert (K : y1 = y /\ t1 = tr0) by (eapply steps_det; eassumption). destruct K as [-> ->]. apply app_inv_head in Ht. subst t2.
  exists ls, y', (invoked tr), tr. split; [ apply endless; exact S2 | auto ].
Qed.

(** Not over after Stop: a callback can be invoked after Stop has returned, and Stop returns while callbacks run. *)
Definition poll_cb : script := act (LRegister 0x2000 7) ++ up_node.
Theorem C107_after_stop_refuted : exists ls z tr a f p p' b, iruns node1 ls z tr /\ calls (done ls) = [true; false] /\ no_errors (done ls) = true /\ tr = a ++ OStop :: OCall (HUser f) p :: b /\
  I_running z = [(f, p'); (f, p)] /\ In (OCall (HUser f) p') a.
Proof.
  destruct (tested_runs node1 (poll_cb ++ arrive 4 host2 poll_bytes ++ parse 2 ++ go_n 5 1 ++ arrive 4 host2 poll_bytes ++ parse 2 ++ stop_node 7 ++ go_n 6 1)
    (fun ls y tr => bool_decide (calls ls = [true; false]) && no_errors ls &&
       match rev tr with OCall (HUser 7) p :: OStop :: r => match invoked r with [(7, _)] => true | _ => false end | _ => false end)) as (ls & y & tr & R & H); [ vm_compute; reflexivity | ].
  apply andb_prop in H. destruct H as [H H3]. apply andb_prop in H. destruct H as [H1 H2]. apply bool_decide_eq_true in H1.
  destruct (rev tr) as [|[] r] eqn:Er; try discriminate H3. destruct h as [| |f]; try discriminate H3. destruct (decide (f = 7)) as [->|Hf]; [ | destruct f as [|f]; [ discriminate H3 | ]; repeat (destruct f; try discriminate H3); contradiction ].
  destruct r as [|[] r]; try discriminate H3. destruct (invoked r) as [|[f p'] [|]] eqn:Ei; try discriminate H3;
    (destruct (decide (f = 7)) as [->|Hf]; [ | destruct f as [|f]; [ discriminate H3 | ]; repeat (destruct f; try discriminate H3); contradiction ]); try discriminate H3.
  assert (Et : tr = rev r ++ [OStop; OCall (HUser 7) p]) by (rewrite <- (rev_involutive tr), Er; cbn [rev]; rewrite <- app_assoc; reflexivity).
  assert (Ia : In (OCall (HUser 7) p') r).
  { assert (K : (7, p') ∈ invoked r) by (rewrite Ei; left). apply elem_of_list_omap in K. destruct K as (x & Hx & K). destruct x; try discriminate K. destruct h; try discriminate K. injection K as -> ->. apply elem_of_list_In. exact Hx. }
  assert (Er' : invoked (rev r) = [(7, p')]).
  { assert (P : invoked (rev r) ≡ₚ [(7, p')]) by (transitivity (invoked r); [ apply omap_Permutation; symmetry; apply Permutation_rev | rewrite Ei; reflexivity ]). apply Permutation_singleton_r in P. exact P. }
  exists (map IDo ls), (mkI y ([] ++ invoked tr)), tr, (rev r), 7, p, p', []. split; [ apply endless; exact R | ]. rewrite done_map. split; [ exact H1 | ]. split; [ exact H2 | ]. split; [ exact Et | ].
  split; [ cbn [I_running app]; rewrite Et, invoked_app, Er'; reflexivity | apply in_rev in Ia; exact Ia ].
Qed.

(** A running node with a callback registered, a datagram for it, and two invocations running. *)
Example C107_ex : exists ls y tr R d p, life node1 careful ls y tr Up /\ wf_config (E_config node1) /\ C_Type (E_config node1) <> StController /\ S_callbacks (Y_sh y) !! GetOpCode p = Some (HUser 7) /\
  bytes_ok d /\ to16 (fst host2) <> to16 (E_localIP node1) /\ wire_accepts (firstn 4096 d) p /\ iruns node1 (map IDo ls) (mkI y R) tr /\ length R = 2%nat.
Proof.
  destruct (tested_life_ok node1 carefulb careful (poll_cb ++ arrive 4 host2 poll_bytes ++ parse 2 ++ go_n 5 1 ++ arrive 4 host2 poll_bytes ++ parse 2 ++ go_n 6 1)
    (fun ls y tr ph => match ph with Up => true | _ => false end && bool_decide (S_callbacks (Y_sh y) !! 0x2000 = Some (HUser 7)) && (length (invoked tr) =? 2)%nat)) as (ls & y & tr & ph & L & H); [ exact carefulb_ok | vm_compute; reflexivity | ].
  apply andb_prop in H. destruct H as [H H3]. apply andb_prop in H. destruct H as [H1 H2]. destruct ph; try discriminate H1. apply bool_decide_eq_true in H2. apply Nat.eqb_eq in H3.
  assert (A : exists q, wire_accepts (firstn 4096 poll_datagram) (PktPoll q)).
  { assert (X : exists q, Unmarshal poll_datagram = Ret (Some (PktPoll q), None)) by (eexists; vm_compute; reflexivity). destruct X as [q X]. exists q.
    change (firstn 4096 poll_datagram) with poll_datagram. apply Unmarshal_accepts; [ apply bytes_okb; reflexivity | exact X ]. }
  destruct A as [q A]. exists ls, y, tr, (invoked tr), poll_datagram, (PktPoll q). split; [ exact L | ]. split; [ apply new_config_wf; repeat constructor | ]. split; [ discriminate | ]. split; [ rewrite <- (accepts_opcode _ _ A); exact H2 | ].
  split; [ apply bytes_okb; vm_compute; reflexivity | ]. split; [ intros K; vm_compute in K; discriminate K | ]. split; [ exact A | ]. split; [ apply (endless _ _ _ _ _ (life_runs _ _ _ _ _ _ L) []) | exact H3 ].
Qed.

Definition P_Invoked_theorems := (C107_transparent, C107_accounted, C107_unhindered, C107_one_at_a_time_refuted, C107_stop, C107_after_stop_refuted, C107_ex).
Print Assumptions P_Invoked_theorems.
