(** Property C120: the order in which a controller lists its nodes. *)
From Coq Require Import Sorted.
From Verif Require Import SysFacts SysLaws SysRun SysOrder SysScript P_Node ControllerFacts P_Controller P_Wire P_Known.
From stdpp Require Import base list gmap.
Open Scope N_scope.

(** * Specification *)
(** The addresses of c.Nodes, in order. *)
Definition ips (s : Controller) : list (list N) := map (ip_of s) (K_Nodes s).
(** The k-th event was an answer of ip, which was not listed then and has been listed ever since. *)
Definition listed_since (h : history) (ip : list N) (k : nat) : Prop :=
  exists h1 s1 p t o h2, h = h1 ++ (s1, EReply p t, o) :: h2 /\ length h1 = k /\ tracked p /\ PollReply_IPAddress p = ip /\ ip ∉ ips s1 /\ Forall (fun x => ip ∈ ips (fst (fst x))) h2.

(** * Steps *)
Lemma ips_heap s s' : K_Nodes s' = K_Nodes s -> (forall n, n ∈ K_Nodes s -> ip_of s' n = ip_of s n) -> ips s' = ips s.
Proof. intros E H. unfold ips. rewrite E. apply map_ext_in. intros n Hn. apply H, elem_of_list_In, Hn. Qed.
Lemma filter_sublist {A} (f : A -> bool) l : List.filter f l `sublist_of` l.
Proof. induction l as [|x l IH]; cbn; [ constructor | ]. destruct (f x); constructor; exact IH. Qed.
Lemma map_sublist {A B} (f : A -> B) l k : l `sublist_of` k -> map f l `sublist_of` map f k.
Proof. intros H. induction H; cbn; constructor; assumption. Qed.
(** One event leaves the list alone, adds the sender of the answer at the end, or only removes some. *)
Theorem C120_step : forall fps h s e s' out, reach fps h s -> event_ok s e -> step s e = Ret (s', out) ->
  match e with
  | EReply p _ => ips s' = ips s /\ (tracked p -> PollReply_IPAddress p ∈ ips s) \/ (tracked p /\ PollReply_IPAddress p ∉ ips s /\ ips s' = ips s ++ [PollReply_IPAddress p])
  | EGc _ => ips s' `sublist_of` ips s
  | _ => ips s' = ips s
  end.
Proof.
  intros fps h s e s' out R Ho E. pose proof (reach_inv _ _ _ R) as HI. destruct e as [p now|clock|d a|order now|]; cbn [step event_ok] in *.
  - destruct (handle_reply_eq s p now Ho) as (cfg & Ec & Hip & _ & _ & _ & Eh). destruct (decide (tracked p)) as [Ht|Ht]; [ | rewrite Eh in E; injection E as <- <-; left; split; [ reflexivity | contradiction ] ].
    destruct (updateNode_eq s cfg now HI) as [(m & cm & Hm & Hcm & Hi & Eu)|(Hn & Eu)]; rewrite Eh, Eu in E; cbn in E; injection E as <- <-.
    + left. split.
      * apply ips_heap; [ reflexivity | ]. intros n _. unfold ip_of. cbn. destruct (decide (n = m)) as [->|Hne]; [ rewrite lookup_insert, Hcm; cbn; congruence | rewrite lookup_insert_ne by congruence; reflexivity ].
      * intros _. apply elem_of_list_In, in_map_iff. exists m. split; [ unfold ip_of; rewrite Hcm; congruence | apply elem_of_list_In, Hm ].
    + right. split; [ exact Ht | ]. split.
      * intros K. apply elem_of_list_In, in_map_iff in K. destruct K as (n & K1 & K2). apply elem_of_list_In in K2. apply (Hn n K2). congruence.
      * unfold ips. cbn. rewrite map_app. cbn. unfold ip_of at 2. cbn. rewrite lookup_insert. cbn. rewrite Hip. f_equal. apply map_ext_in. intros n Hn2. apply elem_of_list_In in Hn2. destruct (inv_listed s HI n Hn2) as [cn Hc].
        unfold ip_of. cbn. rewrite lookup_insert_ne; [ reflexivity | ]. pose proof (inv_next s HI n cn Hc). lia.
  - destruct (gcNode_eq s clock HI) as (s1 & k & E1 & C). rewrite E1 in E. cbn in E. injection E as <- <-. destruct (col_order _ _ _ _ _ C) as [keep Hk]. unfold ips. rewrite Hk.
    rewrite (map_ext (ip_of s1) (ip_of s)) by (intros n; unfold ip_of; rewrite (col_heap _ _ _ _ _ C); reflexivity). apply map_sublist, filter_sublist.
  - destruct (SendDMXToAddress s d a) as [[s1 ok]|] eqn:Es; [ | discriminate ]. cbn in E. injection E as <- <-. destruct (send_cases _ _ _ _ _ Es) as [->|(m & cm & cm' & Hcm & -> & C1 & C2)]; [ reflexivity | ].
    apply ips_heap; [ reflexivity | ]. intros n _. unfold ip_of. cbn. destruct (decide (n = m)) as [->|Hne]; [ rewrite lookup_insert, Hcm, C1; reflexivity | rewrite lookup_insert_ne by congruence; reflexivity ].
  - destruct (order_routed s order Ho) as [Hr _]. destruct (tick_loop_inv order now s HI) as (s1 & o1 & E1 & _ & HN & _); [ intros a m; apply Hr | ].
    destruct (tick_exact s order now HI Ho) as (s2 & E2 & K & _). rewrite E1 in E, E2. injection E2 as <- _. injection E as <- <-.
    apply ips_heap; [ exact HN | ]. intros n Hn. destruct (inv_listed s HI n Hn) as [cn Hc]. destruct (K n cn Hc) as (cn' & Hc' & L & C & _). unfold ip_of. rewrite Hc, Hc', C. reflexivity.
  - injection E as <- <-. reflexivity.
Qed.

(** * Histories *)
Lemma Forall2_sublist {A B} (P : A -> B -> Prop) l l' ks : l' `sublist_of` l -> Forall2 P l ks -> exists ks', ks' `sublist_of` ks /\ Forall2 P l' ks'.
Proof.
  intros H. revert ks. induction H as [|x l1 l2 H IH|x l1 l2 H IH]; intros ks F.
  - exists []. inversion F; subst. split; constructor.
  - inversion F as [|? k ? ks0 Hx F']; subst. destruct (IH _ F') as (ks' & S & F2). exists (k :: ks'). split; constructor; assumption.
  - inversion F as [|? k ? ks0 Hx F']; subst. destruct (IH _ F') as (ks' & S & F2). exists ks'. split; [ constructor; exact S | exact F2 ].
Qed.
Lemma sorted_sublist (l k : list nat) : l `sublist_of` k -> StronglySorted lt k -> StronglySorted lt l.
Proof.
  intros H. induction H as [|x l1 l2 H IH|x l1 l2 H IH]; intros S; [ constructor | | ]; apply StronglySorted_inv in S; destruct S as [S F].
  - constructor; [ exact (IH S) | ]. apply Forall_forall. intros y Hy. rewrite Forall_forall in F. apply F. eapply elem_of_submseteq; [ exact Hy | apply sublist_submseteq, H ].
  - exact (IH S).
Qed.
Lemma sorted_snoc (l : list nat) k : StronglySorted lt l -> (forall x, In x l -> (x < k)%nat) -> StronglySorted lt (l ++ [k]).
Proof.
  intros S H. induction S as [|x l S IH F]; cbn; [ repeat constructor | ]. constructor.
  - apply IH. intros y Hy. apply H. right. exact Hy.
  - apply List.Forall_app. split; [ exact F | constructor; [ apply H; left; reflexivity | constructor ] ].
Qed.
Lemma since_snoc h s e out ip k : ip ∈ ips s -> listed_since h ip k -> listed_since (h ++ [(s, e, out)]) ip k.
Proof.
  intros Hi (h1 & s1 & p & t & o & h2 & -> & L & T & I & N & F). exists h1, s1, p, t, o, (h2 ++ [(s, e, out)]). rewrite <- app_assoc. cbn.
  repeat (split; [ first [ reflexivity | assumption ] | ]). apply Forall_app. split; [ exact F | ]. constructor; [ exact Hi | constructor ].
Qed.
Lemma since_lt h ip k : listed_since h ip k -> (k < length h)%nat.
Proof. intros (h1 & s1 & p & t & o & h2 & -> & <- & _). rewrite app_length. cbn. lia. Qed.

(** The list is in order of discovery: each listed address has the moment at which its answer put it there, it has not been off the list
    since, and the moments increase along the list. *)
Theorem C120_order : forall fps h s, reach fps h s -> exists ks, Forall2 (listed_since h) (ips s) ks /\ StronglySorted lt ks.
Proof.
  intros fps h s R. induction R as [|h s e s' out R IH Ho E]; [ exists []; split; constructor | ]. destruct IH as (ks & F & S).
  assert (K : exists ks, Forall2 (listed_since (h ++ [(s, e, out)])) (ips s) ks /\ StronglySorted lt ks /\ Forall (fun k => (k < length h)%nat) ks).
  { exists ks. split; [ | split; [ exact S | ] ].
    - apply Forall2_same_length_lookup. apply Forall2_same_length_lookup in F. destruct F as [L F]. split; [ exact L | ]. intros i ip k Hi Hk. apply since_snoc; [ eapply elem_of_list_lookup_2, Hi | exact (F i ip k Hi Hk) ].
    - clear S. induction F as [|ip k l ks Hk F IH]; constructor; [ eapply since_lt, Hk | exact IH ]. }
  clear ks F S. destruct K as (ks & F & S & B). pose proof (C120_step _ _ _ _ _ _ R Ho E) as C. destruct e as [p now|clock|d a|order now|].
  - destruct C as [[-> _]|(T & N & ->)]; [ exists ks; auto | ]. exists (ks ++ [length h]). split.
    + apply Forall2_app; [ exact F | ]. constructor; [ | constructor ]. exists h, s, p, now, out, []. repeat (split; [ first [ reflexivity | assumption ] | ]). constructor.
    + apply sorted_snoc; [ exact S | ]. intros x Hx. rewrite Forall_forall in B. apply B, elem_of_list_In, Hx.
  - destruct (Forall2_sublist _ _ _ _ C F) as (ks' & S' & F'). exists ks'. split; [ exact F' | eapply sorted_sublist; eassumption ].
  - rewrite C. exists ks. auto.
  - rewrite C. exists ks. auto.
  - rewrite C. exists ks. auto.
Qed.
(** The same for the controller's goroutines, whatever their interleaving. *)
Theorem C120_run : forall E ls y tr, runs E ls y tr -> exists ks, Forall2 (listed_since (hist tr)) (ips (S_tables (Y_sh y))) ks /\ StronglySorted lt ks.
Proof. intros E ls y tr R. exact (C120_order _ _ _ (ok_reach _ _ _ (sys_shared _ _ _ (runs_ok _ _ _ _ R)))). Qed.

(** A node that fell off the list and answers again is listed last. *)
Definition comeback : list cmd := [Start; Reply (one_port 1 7) (sec 1); Reply (one_port 2 8) (sec 8); Gc (sec 9); Reply (one_port 1 7) (sec 10); Reply (one_port 2 8) (sec 10)].
Lemma comeback_ok : Forall cmd_ok comeback.
Proof. unfold comeback. cmds_ok. Qed.
Example C120_ex : exists s h ks, reach 1000 h s /\ map (fun x => ips (fst (fst x))) h = [[]; []; [[10; 0; 0; 1]]; [[10; 0; 0; 1]; [10; 0; 0; 2]]; [[10; 0; 0; 2]]; [[10; 0; 0; 2]; [10; 0; 0; 1]]] /\
  ips s = [[10; 0; 0; 2]; [10; 0; 0; 1]] /\ Forall2 (listed_since h) (ips s) ks /\ StronglySorted lt ks.
Proof.
  destruct (test_reach comeback (fun s h => bool_decide (map (fun x => ips (fst (fst x))) h = [[]; []; [[10; 0; 0; 1]]; [[10; 0; 0; 1]; [10; 0; 0; 2]]; [[10; 0; 0; 2]]; [[10; 0; 0; 2]; [10; 0; 0; 1]]] /\
    ips s = [[10; 0; 0; 2]; [10; 0; 0; 1]])) comeback_ok) as (s & h & Hr & E); [ vm_compute; reflexivity | ]. apply bool_decide_eq_true in E. destruct E as [E1 E2].
  destruct (C120_order _ _ _ Hr) as (ks & F & S). exists s, h, ks. auto.
Qed.

Definition P_Listing_theorems := (C120_step, C120_order, C120_run, C120_ex).
Print Assumptions P_Listing_theorems.
