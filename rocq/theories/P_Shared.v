(** Property C116: what a program can change by writing to slices it gave to a node or controller. *)
From Verif Require Import WireSpec BinaryFacts P_Config ControllerFacts P_Controller SysFacts SysLaws SysRun SysOrder SysScript P_Node P_Life P_Live P_Wire P_Race Options P_Options Changes P_Change Shared.
From stdpp Require Import base list gmap.
Open Scope N_scope.

Definition run_labels (ls : list mlabel) : list label := omap (fun l => match l with MDo l => Some l | _ => None end) ls.
Lemma set_ip_id c : set_ip c (C_IP c) = c. Proof. destruct c; reflexivity. Qed.
Lemma seen_id h r E : holds h r E -> seen h r E = E.
Proof. intros (H1 & H2 & H3 & H4). unfold seen. rewrite H3, H4, H1, <- H1, H2, set_ip_id, <- H2, H1. destruct E as [a b c d [e e'] [f f'] g]. reflexivity. Qed.

(** * C116 *)
(** Writes to memory that no slice of the node points to never matter: the node does what Sys.v says. *)
Theorem C116_elsewhere_partial : forall (own : nat -> Prop) E r h ls z tr, holds h r E -> ~ own (R_ip r) -> ~ own (R_node r) -> ~ own (R_ctl r) -> msteps own E r (minit h E) ls z tr -> runs E (run_labels ls) (M_sys z) tr.
Proof.
  intros own E r h ls z tr Hh N1 N2 N3 R. assert (K : holds (M_mem z) r E /\ runs E (run_labels ls) (M_sys z) tr); [ | apply K ].
  remember (minit h E) as z0 eqn:Ez. induction R as [|z0 ls z1 tr l z2 o R IH Ho Hl He]; subst; [ split; [ exact Hh | constructor ] | ]. destruct (IH eq_refl) as [K1 K2]. destruct l as [x i v|l]; cbn [mexec] in He.
  - injection He as <- <-. cbn [M_mem M_sys]. split; [ | unfold run_labels; rewrite omap_app, !app_nil_r; exact K2 ]. destruct K1 as (A1 & A2 & A3 & A4).
    assert (P : forall y, ~ own y -> poke (M_mem z1) x i v y = M_mem z1 y) by (intros y Hy; unfold poke; destruct (Nat.eqb_spec y x); [ subst; contradiction | reflexivity ]).
    unfold holds. rewrite !P by assumption. auto.
  - rewrite (seen_id _ _ _ K1) in He. destruct (exec E (M_sys z1) l) as [| |y o'] eqn:Hx; try discriminate He. injection He as <- <-. cbn [M_mem M_sys]. split; [ exact K1 | ].
    assert (K3 : runs E (run_labels ls ++ [l]) y (tr ++ o')) by (econstructor; eassumption). unfold run_labels. rewrite omap_app. cbn [omap list_omap].
    assert (Hid : map (dest_now (M_mem z1) r) o' = o'); [ | rewrite Hid; exact K3 ].
    pose proof (sys_obs _ _ _ (runs_ok _ _ _ _ K3)) as F. apply Forall_app in F. destruct F as [_ F]. clear -F K1. destruct K1 as (_ & _ & A3 & A4). induction F as [|u o Hu F IH]; [ reflexivity | ]. cbn [map]. rewrite IH. f_equal.
    destruct u; try reflexivity. destruct x as [[] [[a p] d]]; cbn in Hu |- *; [ | | reflexivity ]; destruct Hu as [Hu _]; [ rewrite A3, <- Hu | rewrite A4, <- Hu ]; reflexivity.
Qed.
(** What reads the shared bytes: of the address pollReplyLoop when it begins and the reader when a datagram has arrived; of a broadcast address the goroutine that queues a payload for it. Nothing else that the goroutines do depends on them, apart from where a queued payload goes (dest_now). *)
Theorem C116_readers : forall E r h h' s t c,
  (h (R_ip r) <> h' (R_ip r) -> t <> PR_start /\ forall b x, t <> RD_got b (Some x)) -> (h (R_node r) <> h' (R_node r) -> forall me g, t <> PR_sending me g) -> (h (R_ctl r) <> h' (R_ctl r) -> forall pb g, t <> CP_sending pb g) ->
  tstep (seen h r E) s t c = tstep (seen h' r E) s t c.
Proof.
  intros E r h h' s t c H1 H2 H3. destruct t; destruct c; try reflexivity.
  - destruct (decide (h (R_ip r) = h' (R_ip r))) as [K|K]; [ cbn [tstep seen E_config]; rewrite K; reflexivity | destruct (H1 K) as [X _]; contradiction ].
  - destruct (decide (h (R_node r) = h' (R_node r))) as [K|K]; [ cbn [tstep seen E_nodeBroadcast]; rewrite K; reflexivity | destruct (H2 K me g); reflexivity ].
  - cbn [tstep]. destruct (S_shutdown s); [ reflexivity | ]. destruct r0 as [[from num]|]; [ | reflexivity ]. destruct (decide (h (R_ip r) = h' (R_ip r))) as [K|K]; [ cbn [seen E_localIP]; rewrite K; reflexivity | ].
    destruct (H1 K) as [_ X]. destruct (X b (from, num)). reflexivity.
  - destruct (decide (h (R_ctl r) = h' (R_ctl r))) as [K|K]; [ cbn [tstep seen E_ctlBroadcast]; rewrite K; reflexivity | destruct (H3 K pb g); reflexivity ].
Qed.
(** Whatever is written to the shared bytes: only the address in the announcement changes, and only where datagrams go. Every reply is the announcement of the configuration with an address of the same length, every poll is the usual
    one. *)
Theorem C116_content_partial : forall own E r h ls z tr, holds h r E -> msteps own E r (minit h E) ls z tr ->
  (forall dst port d, In (OTx (KReply, ((dst, port), d))) tr -> exists ip, length ip = length (E_localIP E) /\ announces (set_ip (E_config E) ip) d) /\
  (forall dst port d, In (OTx (KPoll, ((dst, port), d))) tr -> d = poll_datagram).
Proof.
  intros own E r h ls z tr Hh R.
  pose (M := fun d => exists ip, length ip = length (E_localIP E) /\ announces (set_ip (E_config E) ip) d).
  pose (P := fun x : tag * payload => match x with (KReply, (_, d)) => M d | (KPoll, (_, d)) => d = poll_datagram | _ => True end).
  pose (T := fun t => t_me M t /\ match t with CP_send pb | CP_sending pb _ | CP_poll pb | CP_polling pb _ | CP_loop pb | CP_wait pb _ _ | CP_gc pb | CP_reply pb _ => pb = poll_datagram | _ => True end).
  assert (K : length (M_mem z (R_ip r)) = length (E_localIP E) /\ Forall T (Y_threads (M_sys z)) /\ carries P (Y_sh (M_sys z)) /\ Forall (t_x P) (Y_threads (M_sys z)) /\ Forall (x_ok P) tr).
  { remember (minit h E) as z0 eqn:Ez. induction R as [|z0 ls z1 tr l z2 o R IH Ho Hl He]; subst.
    { destruct Hh as (H1 & _). cbn. rewrite H1. split; [ reflexivity | ]. split; [ constructor | ]. split; [ apply init_carries | ]. split; constructor. }
    destruct (IH eq_refl) as (A1 & A2 & A3 & A4 & A5). destruct l as [x i v|l]; cbn [mexec] in He.
    - injection He as <- <-. cbn [M_mem M_sys]. rewrite app_nil_r. split; [ | auto ]. unfold poke. destruct (_ =? _)%nat; [ rewrite insert_length | ]; exact A1.
    - destruct (exec (seen (M_mem z1) r E) (M_sys z1) l) as [| |y o'] eqn:Hx; try discriminate He. injection He as <- <-. cbn [M_mem M_sys]. split; [ exact A1 | ].
      assert (B : carries P (Y_sh y) /\ Forall (t_x P) (Y_threads y) /\ Forall (x_ok P) o').
      { eapply carries_exec; [ | | | exact A3 | exact A4 | exact Hx ]; [ | | intros f; exact I ].
        - intros i c me g _ Hi. exact (proj1 (Forall_lookup_1 _ _ _ _ A2 Hi)).
        - intros i c pb g _ Hi. exact (proj2 (Forall_lookup_1 _ _ _ _ A2 Hi)). }
      destruct B as (B1 & B2 & B3). split; [ | split; [ exact B1 | split; [ exact B2 | ] ] ].
      + apply exec_cases in Hx. destruct Hx as [(i & c & t & s & t' & sp & -> & Et & Es & ->)|[(t & -> & -> & Hk)|(mm & op & f & -> & -> & _)]]; cbn [Y_threads].
        * pose proof (Forall_lookup_1 _ _ _ _ A2 Et) as [T1 T2]. destruct (me_step (seen (M_mem z1) r E) M _ _ _ _ _ _ _ (fun _ me Hm => ex_intro _ _ (conj A1 Hm)) T1 Es) as (C1 & C2 & _).
          assert (C3 : Forall (fun t => match t with CP_send pb | CP_sending pb _ | CP_poll pb | CP_polling pb _ | CP_loop pb | CP_wait pb _ _ | CP_gc pb | CP_reply pb _ => pb = poll_datagram | _ => True end) (t' :: sp)).
          { clear -Es T2. tcases Es; repeat constructor; try exact T2; rewrite poll_datagram_eq in *; congruence. }
          inversion C3 as [|? ? C4 C5]; subst. apply Forall_app. split; [ apply Forall_insert; [ exact A2 | split; assumption ] | ]. apply Forall_and. split; assumption.
        * apply Forall_app. split; [ exact A2 | ]. repeat constructor; destruct Hk as [[_ ->]|[[_ ->]|(dmx & a & _ & _ & ->)]]; try (match goal with |- context [if ?b then _ else _] => destruct b end); exact I.
        * exact A2.
      + apply Forall_app. split; [ exact A5 | ]. clear -B3. induction B3 as [|u o Hu B3 IH]; [ constructor | ]. cbn [map]. constructor; [ | exact IH ]. destruct u; try exact Hu. destruct x as [[] [[a p] d]]; exact Hu. }
  destruct K as (_ & _ & _ & _ & F). rewrite Forall_forall in F. split; intros dst port d Hin; apply elem_of_list_In in Hin; exact (F _ Hin).
Qed.

(** * Witnesses *)
Fixpoint mplay (E : env) (r : refs) (z : msys) (fs : list (msys -> mlabel)) : option (list mlabel * msys * list obs) :=
  match fs with
  | [] => Some ([], z, [])
  | f :: fs => match mexec E r z (f z) with MNext z1 o => match mplay E r z1 fs with Some (ls, z2, tr) => Some (f z :: ls, z2, o ++ tr) | None => None end | _ => None end
  end.
Definition mok (own : nat -> bool) (l : mlabel) : bool := match l with MWrite x _ v => own x && (v <? 256) | MDo (LRun _ (CDatagram _ d)) => forallb (fun v => v <? 256) d | MDo (LSend _ _) => false | _ => true end.
Lemma msteps_cons own E r z l z1 o ls z2 tr : match l with MWrite x _ _ => own x | MDo _ => True end -> mlabel_ok l -> mexec E r z l = MNext z1 o -> msteps own E r z1 ls z2 tr -> msteps own E r z (l :: ls) z2 (o ++ tr).
Proof.
  intros H1 H2 H3 H. induction H as [z1|z1 ls z3 tr l' z4 o' H IH G1 G2 G3]; [ rewrite app_nil_r; change [l] with ([] ++ [l]); change o with ([] ++ o); econstructor; [ constructor | assumption | assumption | exact H3 ] | ].
  rewrite app_assoc. change (l :: ls ++ [l']) with ((l :: ls) ++ [l']). econstructor; eauto.
Qed.
Lemma mplay_ok own E r fs : forall z ls z' tr, mplay E r z fs = Some (ls, z', tr) -> forallb (mok own) ls = true -> msteps (fun x => own x = true) E r z ls z' tr.
Proof.
  induction fs as [|f fs IH]; intros z ls z' tr H K; cbn [mplay] in H; [ injection H as <- <- <-; constructor | ]. destruct (mexec E r z (f z)) as [| |z1 o] eqn:He; try discriminate H.
  destruct (mplay E r z1 fs) as [[[ls1 z2] tr1]|] eqn:Hp; [ | discriminate H ]. injection H as <- <- <-. cbn [forallb] in K. apply andb_prop in K. destruct K as [K1 K2].
  eapply msteps_cons; [ | | exact He | exact (IH _ _ _ _ Hp K2) ].
  - destruct (f z); [ apply andb_prop in K1; apply K1 | exact I ].
  - destruct (f z) as [x i v|l]; cbn [mok mlabel_ok] in *; [ apply andb_prop in K1; destruct K1 as [_ K1]; apply N.ltb_lt, K1 | ]. destruct l as [i c| | | | |]; cbn; try exact I; [ | discriminate K1 ].
    destruct c; try exact I. apply Forall_forall. intros v Hv. rewrite forallb_forall in K1. apply N.ltb_lt, K1. apply elem_of_list_In, Hv.
Qed.
Definition does (fs : script) : list (msys -> mlabel) := map (fun f z => MDo (f (M_sys z))) fs.
Definition writes (x i : nat) (v : N) : list (msys -> mlabel) := [fun _ => MWrite x i v].
(** The array of the node's address at 0, of the broadcast address at 1, the default broadcast address at 2. *)
Definition mem1 (E : env) : mem := fun x => match x with 0%nat => E_localIP E | 1%nat => fst (E_nodeBroadcast E) | _ => fst (E_ctlBroadcast E) end.
Definition refs1 : refs := mkRefs 0 1 2.
Lemma tested_m own E fs (Q : msys -> list obs -> bool) : match mplay E refs1 (minit (mem1 E) E) fs with Some (ls, z, tr) => forallb (mok own) ls && Q z tr | None => false end = true ->
  exists ls z tr, msteps (fun x => own x = true) E refs1 (minit (mem1 E) E) ls z tr /\ Q z tr = true.
Proof.
  destruct (mplay E refs1 (minit (mem1 E) E) fs) as [[[ls z] tr]|] eqn:Hp; [ | discriminate ]. intros H. apply andb_prop in H. destruct H as [H1 H2]. exists ls, z, tr. split; [ exact (mplay_ok _ _ _ _ _ _ _ _ Hp H1) | exact H2 ].
Qed.
(** A poll with other flags. *)
Definition poll_other : list N := magic ++ [0x00; 0x20; 0; 14; 6; 0].
(** The program made node 10.0.0.1, started it and reuses the array of the address. Then the node takes its own poll for that of another host and answers it, and does not hear the host whose address is in the array now. *)
Theorem C116_own_ip_refuted : exists ls z tr, holds (mem1 node1) refs1 node1 /\ msteps (fun x => (x =? 0)%nat = true) node1 refs1 (minit (mem1 node1) node1) ls z tr /\ E_localIP node1 = [10; 0; 0; 1] /\
  collect (fun o => match o with ORecv (ip, _) d => [(ip, d)] | _ => [] end) tr = [([10; 0; 0; 1], poll_datagram); ([10; 0; 0; 2], poll_other)] /\ SysOrder.parsed tr = [poll_datagram] /\
  (exists b k, Y_threads (M_sys z) !! 4%nat = Some (RD_reading b k)) /\ (exists d, In (OTx (KReply, (defaultBroadcastAddr, d))) tr).
Proof.
  destruct (tested_m (fun x => (x =? 0)%nat) node1 (does up_node ++ writes 0 3 2 ++ does (arrive 4 ([10; 0; 0; 1], 6454) poll_datagram ++ parse 2 ++ go_n 5 3 ++ go_n 1 3 ++ go_n 3 3 ++ act (LRun 4 (CDatagram ([10; 0; 0; 2], 6454) poll_other)) ++ go_n 4 2))
    (fun z tr => bool_decide (collect (fun o => match o with ORecv (ip, _) d => [(ip, d)] | _ => [] end) tr = [([10; 0; 0; 1], poll_datagram); ([10; 0; 0; 2], poll_other)]) && bool_decide (SysOrder.parsed tr = [poll_datagram]) &&
      match Y_threads (M_sys z) !! 4%nat with Some (RD_reading _ _) => true | _ => false end &&
      existsb (fun o => match o with OTx (KReply, (a, d)) => bool_decide (a = defaultBroadcastAddr) | _ => false end) tr)) as (ls & z & tr & R & H); [ vm_compute; reflexivity | ].
  apply andb_prop in H. destruct H as [H H4]. apply andb_prop in H. destruct H as [H H3]. apply andb_prop in H. destruct H as [H1 H2]. apply bool_decide_eq_true in H1, H2.
  exists ls, z, tr. split; [ repeat split | ]. split; [ exact R | ]. split; [ reflexivity | ]. split; [ exact H1 | ]. split; [ exact H2 | ]. split.
  - destruct (Y_threads (M_sys z) !! 4%nat) as [t|]; [ | discriminate ]. destruct t; try discriminate. eauto.
  - apply existsb_exists in H4. destruct H4 as (o & Ho & H4). destruct o; try discriminate. destruct x as [[] [a d]]; try discriminate. apply bool_decide_eq_true in H4. subst. eauto.
Qed.
(** The same before Start: the node announces another address than the one NewNode was given. *)
Theorem C116_announced_refuted : exists ls z tr q, holds (mem1 node1) refs1 node1 /\ msteps (fun x => (x =? 0)%nat = true) node1 refs1 (minit (mem1 node1) node1) ls z tr /\
  collect (fun o => match o with OTx (KReply, (_, d)) => [d] | _ => [] end) tr = [q] /\ E_localIP node1 = [10; 0; 0; 1] /\ (exists p, Unmarshal q = Ret (Some (PktPollReply p), None) /\ PollReply_IPAddress p = [10; 0; 0; 7]).
Proof.
  destruct (tested_m (fun x => (x =? 0)%nat) node1 (writes 0 3 7 ++ does (up_node ++ arrive 4 ([10; 0; 0; 2], 6454) poll_datagram ++ parse 2 ++ go_n 5 3 ++ go_n 1 3 ++ go_n 3 3))
    (fun z tr => match collect (fun o => match o with OTx (KReply, (_, d)) => [d] | _ => [] end) tr with [q] => match Unmarshal q with Ret (Some (PktPollReply p), None) => bool_decide (PollReply_IPAddress p = [10; 0; 0; 7]) | _ => false end | _ => false end))
    as (ls & z & tr & R & H); [ vm_compute; reflexivity | ].
  destruct (collect _ tr) as [|q [|]] eqn:Hc; try discriminate H. exists ls, z, tr, q. split; [ repeat split | ]. split; [ exact R | ]. split; [ exact Hc | ]. split; [ reflexivity | ].
  destruct (Unmarshal q) as [[[p|] [e|]]|]; try discriminate H; destruct p; try discriminate H. apply bool_decide_eq_true in H. eauto.
Qed.
(** A broadcast address given as option: a reply that was queued for it goes where the array says when it is written. *)
Definition node_b : env := NewNode [0x6e] StNode [10; 0; 0; 1] [NodeBroadcastAddress ([10; 255; 255; 255], 6454)].
Theorem C116_destination_refuted : exists ls z tr d, holds (mem1 node_b) refs1 node_b /\ msteps (fun x => (x =? 1)%nat = true) node_b refs1 (minit (mem1 node_b) node_b) ls z tr /\
  queued tr = [(KReply, (([10; 255; 255; 255], 6454), d))] /\ transmitted tr = [(KReply, (([10; 255; 255; 1], 6454), d))].
Proof.
  destruct (tested_m (fun x => (x =? 1)%nat) node_b (does (up_node ++ arrive 4 ([10; 0; 0; 2], 6454) poll_datagram ++ parse 2 ++ go_n 5 3 ++ go_n 1 3) ++ writes 1 3 1 ++ does (go_n 3 3))
    (fun z tr => match queued tr, transmitted tr with [(KReply, (a, d))], [(KReply, (b, d'))] => bool_decide (a = ([10; 255; 255; 255], 6454)) && bool_decide (b = ([10; 255; 255; 1], 6454)) && bool_decide (d = d') | _, _ => false end))
    as (ls & z & tr & R & H); [ vm_compute; reflexivity | ].
  destruct (queued tr) as [|[[] [a d]] [|]] eqn:Hq; try discriminate H. destruct (transmitted tr) as [|[[] [b d']] [|]] eqn:Ht; try discriminate H.
  apply andb_prop in H. destruct H as [H H3]. apply andb_prop in H. destruct H as [H1 H2]. apply bool_decide_eq_true in H1, H2, H3. subst. exists ls, z, tr, d'. split; [ repeat split | ]. split; [ exact R | auto ].
Qed.
(** An array of its own does no harm. *)
Example C116_ex : exists ls z tr, holds (mem1 node1) refs1 node1 /\ msteps (fun x => (x =? 7)%nat = true) node1 refs1 (minit (mem1 node1) node1) ls z tr /\ In (MWrite 7 0 9) ls /\ (exists x, transmitted tr = [x]).
Proof.
  assert (K : exists ls z tr, mplay node1 refs1 (minit (mem1 node1) node1) (writes 7 0 9 ++ does (up_node ++ arrive 4 ([10; 0; 0; 2], 6454) poll_datagram ++ parse 2 ++ go_n 5 3 ++ go_n 1 3 ++ go_n 3 3)) = Some (MWrite 7 0 9 :: ls, z, tr) /\
    forallb (mok (fun x => (x =? 7)%nat)) (MWrite 7 0 9 :: ls) = true /\ exists x, transmitted tr = [x]).
  { eexists _, _, _. split; [ vm_compute; reflexivity | ]. split; [ vm_compute; reflexivity | eexists; vm_compute; reflexivity ]. }
  destruct K as (ls & z & tr & K1 & K2 & K3). exists (MWrite 7 0 9 :: ls), z, tr. split; [ repeat split | ]. split; [ exact (mplay_ok (fun x => (x =? 7)%nat) _ _ _ _ _ _ _ K1 K2) | ]. split; [ left; reflexivity | exact K3 ].
Qed.
Definition P_Shared_theorems := (C116_elsewhere_partial, C116_readers, C116_content_partial, C116_own_ip_refuted, C116_announced_refuted, C116_destination_refuted, C116_ex).
Print Assumptions P_Shared_theorems.
