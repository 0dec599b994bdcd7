(** Property C93: how much a host and a whole network of hosts transmit: no packet storms. *)
From Verif Require Import WireSpec BinaryFacts DispatchFacts EncodeFacts P_Encode P_Decode ControllerFacts P_Config P_Controller.
From Verif Require Import SysFacts SysLaws SysRun SysOrder SysScript P_Node P_Wire Net P_Net.
From stdpp Require Import base list gmap.
Open Scope N_scope.

(** * One host *)
(** The ArtPoll packets received from other hosts. *)
Definition is_artpoll (d : list N) : bool := match accept d with Some (PktPoll _) => true | _ => false end.
Definition polls_in (E : env) (tr : list obs) : nat := cnt is_artpoll (received E tr).
Lemma is_artpoll_wire d : bytes_ok d -> is_artpoll d = true <-> exists q, wire_accepts d (PktPoll q).
Proof.
  intros Hd. unfold is_artpoll. split.
  - destruct (accept d) as [p|] eqn:E; [ | discriminate ]. apply accept_wire in E; [ | exact Hd ]. destruct p; try discriminate. eauto.
  - intros (q & H). apply accept_wire in H; [ | exact Hd ]. rewrite H. reflexivity.
Qed.
Definition pkt_poll (p : packet) : bool := match p with PktPoll _ => true | _ => false end.
Lemma handled_called tr : (length (polls_handled tr) <= cnt pkt_poll (called tr))%nat.
Proof.
  unfold polls_handled, called. rewrite cnt_collect. unfold cnt. induction tr as [|o tr IH]; [ reflexivity | ]. rewrite collect_cons, app_length. simpl. destruct o; cbn; try exact IH.
  destruct h; cbn; destruct p; cbn; lia.
Qed.
Lemma parsed_ok E ls y tr : runs E ls y tr -> Forall bytes_ok (parsed tr).
Proof.
  intros R. apply Forall_forall. intros d Hd. apply elem_of_list_In in Hd. unfold parsed, collect in Hd. apply in_concat in Hd. destruct Hd as (l & H1 & H2).
  apply in_map_iff in H1. destruct H1 as (o & <- & Ho). destruct o; cbn in H2; try contradiction. destruct H2 as [->|[]]. exact (obs_in _ _ _ _ _ R Ho).
Qed.
Lemma cnt_accepted l ps : Forall bytes_ok l -> Forall2 (fun d o => forall p, o = Some p <-> wire_accepts d p) l ps -> cnt pkt_poll (omap id ps) = cnt is_artpoll l.
Proof.
  intros Hl F. induction F as [|d o l ps H F IH]; [ reflexivity | ]. inversion Hl as [|? ? Hd Hl']; subst. specialize (IH Hl'). unfold cnt in *.
  assert (K : accept d = o). { destruct (accept d) as [p|] eqn:E; [ apply accept_wire in E; [ symmetry; apply H; exact E | exact Hd ] | ]. destruct o as [p|]; [ | reflexivity ]. exfalso.
    assert (X : wire_accepts d p) by (apply H; reflexivity). apply accept_wire in X; [ congruence | exact Hd ]. }
  subst o. cbn [omap list_omap List.filter]. unfold is_artpoll at 1. destruct (accept d) as [p|]; cbn; [ destruct p; cbn; rewrite ?IH; reflexivity | exact IH ].
Qed.
Lemma handled_received E ls y tr : runs E ls y tr -> (length (polls_handled tr) <= polls_in E tr)%nat.
Proof.
  intros R. pose proof (handled_called tr) as H1. destruct (C57_callbacks E ls y tr R) as (P & (ps & F & Q) & _). apply (cnt_perm is_artpoll) in P. rewrite cnt_app in P.
  pose proof (cnt_accepted _ _ (parsed_ok _ _ _ _ R) F) as H2. apply (cnt_perm pkt_poll) in Q. rewrite cnt_app in Q. unfold polls_in. lia.
Qed.
Lemma transmitted_kinds E ls y tr : wf_config (E_config E) -> runs E ls y tr ->
  length (transmitted tr) = (cnt is_poll (transmitted tr) + cnt is_reply (transmitted tr) + cnt is_dmx (transmitted tr))%nat.
Proof.
  intros Hc R. assert (F : forall x, In x (transmitted tr) -> item_ok E x).
  { intros x Hx. unfold transmitted, collect in Hx. apply in_concat in Hx. destruct Hx as (o' & H1 & H2). apply in_map_iff in H1. destruct H1 as (o & <- & Ho). destruct o; try contradiction. destruct H2 as [->|[]]. exact (tx_item E _ _ _ _ R Ho). }
  induction (transmitted tr) as [|x l IH]; [ reflexivity | ]. specialize (IH (fun z Hz => F z (or_intror Hz))). pose proof (F x (or_introl eq_refl)) as Hx.
  pose proof (item_is_poll E x Hc Hx) as K1. pose proof (item_is_reply E x Hc Hx) as K2. pose proof (item_is_dmx E x Hc Hx) as K3. unfold cnt in *. cbn [List.filter length]. rewrite K1, K2, K3. destruct (fst x); cbn; lia.
Qed.
(** A host answers each ArtPoll from another host at most once and sends nothing else on account of others. A plain node sends nothing but these answers. A controller adds, for each
    opened socket and each tick of its poll ticker, at most one poll and one answer to it, and the frames its ticks make. *)
Theorem C93_host : forall E ls y tr, wf_config (E_config E) -> runs E ls y tr ->
  (length (transmitted tr) <= polls_in E tr + 2 * (sum_list_with listens tr + sum_list_with poll_tick ls) + length (frames_made tr))%nat /\
  (cnt is_poll (transmitted tr) <= sum_list_with listens tr + sum_list_with poll_tick ls)%nat /\
  (E_ctl E = false -> (length (transmitted tr) <= polls_in E tr)%nat /\ cnt is_poll (transmitted tr) = 0%nat).
Proof.
  intros E ls y tr Hc R. destruct (C59_replies E ls y tr Hc R) as (H1 & _ & H2). pose proof (handled_received _ _ _ _ R) as H3. pose proof (transmitted_kinds _ _ _ _ Hc R) as H4.
  destruct (C73_frames_once _ _ _ _ Hc R) as (rest & P). apply Permutation_length in P. rewrite app_length in P. unfold dmx_out in P. rewrite map_length in P. fold (cnt is_dmx (transmitted tr)) in P.
  destruct (sent_once E ls y tr R) as [rest' P']. apply (cnt_perm is_poll) in P'. rewrite cnt_app in P'. destruct (E_ctl E) eqn:Ec.
  - destruct (C77_polls E ls y tr Hc Ec R) as (H5 & H6 & _). split; [ lia | ]. split; [ lia | discriminate ].
  - specialize (H2 eq_refl). assert (Z : cnt is_dmx (transmitted tr) = 0%nat).
    { unfold cnt. destruct (List.filter is_dmx (transmitted tr)) as [|x l] eqn:Ef; [ reflexivity | ]. exfalso. assert (Hx : In x (List.filter is_dmx (transmitted tr))) by (rewrite Ef; left; reflexivity).
      apply filter_In in Hx. destruct Hx as [Hx Hd]. unfold transmitted, collect in Hx. apply in_concat in Hx. destruct Hx as (o' & K1 & K2). apply in_map_iff in K1. destruct K1 as (o & <- & Ho). destruct o; try contradiction. destruct K2 as [->|[]].
      pose proof (node_kind E ls y tr x Ec R Ho) as Hk. rewrite (item_is_dmx E x Hc (tx_item E _ _ _ _ R Ho)), Hk in Hd. discriminate Hd. }
    split; [ lia | ]. split; [ lia | ]. intros _. split; lia.
Qed.

(** * A network *)
Definition start_net (Z : site) : net := mkNet (map init (Z_envs Z)) [].
Definition over_hosts (Z : site) (f : nat -> nat) : nat := sum_list_with f (seq 0 (length (Z_envs Z))).
(** Everything transmitted by the hosts; the polls among it. *)
Definition sent_by (Z : site) (G : list (nat * obs)) : nat := over_hosts Z (fun i => length (transmitted (proj i G))).
Definition polls_by (Z : site) (G : list (nat * obs)) : nat := over_hosts Z (fun i => cnt is_poll (transmitted (proj i G))).
(** The polls a host receives are polls of the hosts, none more than once. *)
Definition no_copies (Z : site) (G : list (nat * obs)) : Prop := forall i E, Z_envs Z !! i = Some E -> (polls_in E (proj i G) <= polls_by Z G)%nat.
(** What the tickers and the users cause: sockets opened, poll ticks, frames due. *)
Definition rounds (Z : site) (L : list (nat * label)) (G : list (nat * obs)) : nat := over_hosts Z (fun i => (sum_list_with listens (proj i G) + sum_list_with poll_tick (acts i L))%nat).
Definition frames_by (Z : site) (G : list (nat * obs)) : nat := over_hosts Z (fun i => length (frames_made (proj i G))).
Lemma sum_le (f g : nat -> nat) l : (forall i, In i l -> (f i <= g i)%nat) -> (sum_list_with f l <= sum_list_with g l)%nat.
Proof. induction l as [|i l IH]; intros H; simpl; [ lia | ]. pose proof (H i (or_introl eq_refl)). specialize (IH (fun j Hj => H j (or_intror Hj))). lia. Qed.
Lemma sum_const c (l : list nat) : sum_list_with (fun _ => c) l = (length l * c)%nat.
Proof. induction l as [|i l IH]; simpl; [ reflexivity | ]. lia. Qed.
Lemma sum_mul c (f : nat -> nat) l : sum_list_with (fun i => (c * f i)%nat) l = (c * sum_list_with f l)%nat.
Proof. induction l as [|i l IH]; simpl; [ lia | ]. rewrite IH. lia. Qed.
Theorem C93_network : forall Z L w G, nmoves Z (start_net Z) L w G -> wf_site Z -> no_copies Z G ->
  (polls_by Z G <= rounds Z L G)%nat /\ (sent_by Z G <= (length (Z_envs Z) + 2) * rounds Z L G + frames_by Z G)%nat.
Proof.
  intros Z L w G M Hw Hn.
  assert (K : forall i, In i (seq 0 (length (Z_envs Z))) -> exists E y, Z_envs Z !! i = Some E /\ wf_config (E_config E) /\ runs E (acts i L) y (proj i G)).
  { intros i Hi. apply in_seq in Hi. destruct (lookup_lt_is_Some_2 (Z_envs Z) i) as [E HE]; [ lia | ]. assert (Hy : W_hosts (start_net Z) !! i = Some (init E)). { unfold start_net. cbn [W_hosts]. pose proof (list_lookup_fmap init (Z_envs Z) i) as X. rewrite HE in X. exact X. }
    destruct (nmoves_host _ _ _ _ _ M i E _ HE Hy) as (y & _ & S). exists E, y. split; [ exact HE | ]. split; [ exact (Forall_lookup_1 _ _ _ _ Hw HE) | exact S ]. }
  assert (P : (polls_by Z G <= rounds Z L G)%nat). { apply sum_le. intros i Hi. destruct (K i Hi) as (E & y & HE & Hc & R). exact (proj1 (proj2 (C93_host _ _ _ _ Hc R))). }
  split; [ exact P | ]. unfold sent_by, rounds, frames_by, over_hosts in *.
  transitivity (sum_list_with (fun i => (polls_by Z G + (2 * (sum_list_with listens (proj i G) + sum_list_with poll_tick (acts i L)) + length (frames_made (proj i G))))%nat) (seq 0 (length (Z_envs Z)))).
  - apply sum_le. intros i Hi. destruct (K i Hi) as (E & y & HE & Hc & R). pose proof (proj1 (C93_host _ _ _ _ Hc R)). pose proof (Hn i E HE). lia.
  - rewrite !sum_add, sum_const, sum_mul, seq_length. rewrite sum_add in P |- *. nia.
Qed.

(** * A case: the controller and the node of P_Net.v *)
Lemma nruns_start Z w G : nruns Z w G -> exists L, nmoves Z (start_net Z) L w G.
Proof. intros R. induction R as [|w G i E y l y' o R [L IH] HE Hy Hl Hp He]; [ exists []; constructor | ]. exists (L ++ [(i, l)]). eapply nmoves_snoc; eassumption. Qed.
(** One poll, received by the node and answered; one frame transmitted. *)
Example C93_ex : exists L w G, nmoves lan_site (start_net lan_site) L w G /\ wf_site lan_site /\ no_copies lan_site G /\
  polls_by lan_site G = 1%nat /\ polls_in lamp (proj 1 G) = 1%nat /\ length (transmitted (proj 1 G)) = 1%nat /\ sent_by lan_site G = 3%nat.
Proof.
  destruct (ntested_runs lan lan_hears lan_script (fun w G => (Nat.eqb (polls_by lan_site G) 1 && Nat.eqb (polls_in lamp (proj 1 G)) 1 && Nat.eqb (polls_in ctl1 (proj 0 G)) 0 &&
    Nat.eqb (length (transmitted (proj 1 G))) 1 && Nat.eqb (sent_by lan_site G) 3))) as (w & G & R & H); [ vm_compute; reflexivity | ].
  apply andb_prop in H. destruct H as [H H5]. apply andb_prop in H. destruct H as [H H4]. apply andb_prop in H. destruct H as [H H3]. apply andb_prop in H. destruct H as [H1 H2].
  apply Nat.eqb_eq in H1, H2, H3, H4, H5. destruct (nruns_start _ _ _ R) as [L M]. exists L, w, G. split; [ exact M | ].
  split; [ repeat (constructor; [ repeat (split; [ repeat constructor | ]); repeat constructor | ]); constructor | ]. split; [ | auto ].
  intros i E HE. rewrite H1. destruct i as [|[|i]]; [ | | destruct i; discriminate HE ]; injection HE as <-; [ rewrite H3; lia | rewrite H2; lia ].
Qed.

Definition P_Traffic_theorems := (C93_host, C93_network, C93_ex).
Print Assumptions P_Traffic_theorems.
