(** Property C121: which node a universe is sent to. *)
From Verif Require Import SysFacts SysLaws SysRun SysOrder SysScript P_Node ControllerFacts P_Controller P_Wire P_Known P_Listing.
From stdpp Require Import base list gmap.
Open Scope N_scope.

(** * Specification *)
(** The IP of the node that SendDMXToAddress and the ticks use for a universe. *)
Definition owner (s : Controller) (a : Address) : option (list N) := option_map (ip_of s) (K_OutputAddress s !! a).
(** The latest announcement of the listed node with this IP has the universe. *)
Definition has_port (s : Controller) (ip : list N) (a : Address) : Prop :=
  exists n cn, n ∈ K_Nodes s /\ K_heap s !! n = Some cn /\ C_IP (CN_Node cn) = ip /\ a ∈ addresses (C_OutputPorts (CN_Node cn)).
(** The event is an answer that announces the universe. *)
Definition announces (e : event) (a : Address) : Prop := match e with EReply p _ => tracked p /\ a ∈ reply_outputs p | _ => False end.
Definition quiet (h : history) (a : Address) : Prop := Forall (fun x => ~ announces (snd (fst x)) a) h.

(** * Steps *)
Lemma has_inj s n cn a : Inv s -> n ∈ K_Nodes s -> K_heap s !! n = Some cn -> has_port s (C_IP (CN_Node cn)) a <-> a ∈ addresses (C_OutputPorts (CN_Node cn)).
Proof.
  intros HI Hn Hc. split; [ | intros H; exists n, cn; auto ]. intros (m & cm & Hm & Hcm & Hi & Ha).
  assert (m = n) as ->. { apply (inv_ip_inj _ m n HI Hm Hn). unfold ip_of. rewrite Hc, Hcm. exact Hi. } congruence.
Qed.
(** What one event does to the owner of a universe. *)
Theorem C121_step : forall fps h s e s' out a, reach fps h s -> event_ok s e -> step s e = Ret (s', out) ->
  match e with
  | EReply p _ => (~ tracked p -> owner s' a = owner s a) /\
      (tracked p -> (a ∈ reply_outputs p -> owner s' a = Some (PollReply_IPAddress p)) /\
        (a ∉ reply_outputs p -> (has_port s (PollReply_IPAddress p) a -> owner s' a = None) /\ (~ has_port s (PollReply_IPAddress p) a -> owner s' a = owner s a)))
  | EGc _ => ((exists ip, has_port s ip a /\ ip ∉ ips s') -> owner s' a = None) /\ ((forall ip, has_port s ip a -> ip ∈ ips s') -> owner s' a = owner s a)
  | EStart => owner s' a = None
  | _ => owner s' a = owner s a
  end.
Proof.
  intros fps h s e s' out a R Ho E. pose proof (reach_inv _ _ _ R) as HI. destruct e as [p now|clock|d b|order now|]; cbn [step event_ok] in *.
  - destruct (handle_reply_eq s p now Ho) as (cfg & Ec & Hip & Hou & _ & _ & Eh). destruct (decide (tracked p)) as [Ht|Ht]; [ | rewrite Eh in E; injection E as <- <-; split; [ reflexivity | contradiction ] ].
    split; [ contradiction | intros _ ]. rewrite <- Hou, <- Hip.
    destruct (updateNode_eq s cfg now HI) as [(m & cm & Hm & Hcm & Hi & Eu)|(Hn & Eu)]; rewrite Eh, Eu in E; cbn [bind] in E; injection E as <- <-; unfold owner, refreshed, added; cbn.
    + rewrite insert_ports_lookup, delete_ports_lookup. pose proof (has_inj s m cm a HI Hm Hcm) as Hp. rewrite Hi in Hp.
      destruct (decide (a ∈ addresses (C_OutputPorts cfg))) as [Ha|Ha]; (split; [ intros Ha' | intros Ha'; split; intros Hh ]); try contradiction.
      * cbn. unfold ip_of. cbn. rewrite lookup_insert. reflexivity.
      * destruct (decide (a ∈ addresses (C_OutputPorts (CN_Node cm)))) as [_|Hd]; [ reflexivity | destruct (Hd (proj1 Hp Hh)) ].
      * destruct (decide (a ∈ addresses (C_OutputPorts (CN_Node cm)))) as [Hd|_]; [ destruct (Hh (proj2 Hp Hd)) | ].
        destruct (K_OutputAddress s !! a) as [n|]; cbn; [ | reflexivity ]. f_equal. unfold ip_of. cbn. destruct (decide (n = m)) as [->|Hne]; [ rewrite lookup_insert, Hcm; cbn; congruence | rewrite lookup_insert_ne by congruence; reflexivity ].
    + rewrite insert_ports_lookup. destruct (decide (a ∈ addresses (C_OutputPorts cfg))) as [Ha|Ha]; (split; [ intros Ha' | intros Ha'; split; intros Hh ]); try contradiction.
      * cbn. unfold ip_of. cbn. rewrite lookup_insert. reflexivity.
      * destruct Hh as (m & cm & Hm & Hcm & Hi & _). destruct (Hn m Hm). unfold ip_of. rewrite Hcm. exact Hi.
      * destruct (K_OutputAddress s !! a) as [n|] eqn:En; cbn; [ | reflexivity ]. f_equal. destruct (inv_out s HI a n En) as (_ & cn & Hc & _). unfold ip_of. cbn. rewrite lookup_insert_ne; [ reflexivity | ]. pose proof (inv_next s HI n cn Hc). lia.
  - destruct (gcNode_eq s clock HI) as (s1 & k & E1 & C). rewrite E1 in E. cbn in E. injection E as <- <-.
    assert (Hip : forall n, ip_of s1 n = ip_of s n) by (intros n; unfold ip_of; rewrite (col_heap _ _ _ _ _ C); reflexivity). split.
    + intros (ip & (n & cn & Hn & Hc & Hi & Ha) & Hg). unfold owner. rewrite (col_out_gone _ _ _ _ _ C a n cn Hn); [ reflexivity | | exact Hc | exact Ha ].
      intros K. apply Hg. apply elem_of_list_In, in_map_iff. exists n. split; [ rewrite Hip; unfold ip_of; rewrite Hc; exact Hi | apply elem_of_list_In, K ].
    + intros H. unfold owner. rewrite (col_out_kept _ _ _ _ _ C a).
      * destruct (K_OutputAddress s !! a) as [n|]; cbn; [ rewrite Hip | ]; reflexivity.
      * intros n cn Hn Hg Hc Ha. assert (K : C_IP (CN_Node cn) ∈ ips s1) by (apply H; exists n, cn; auto). apply elem_of_list_In, in_map_iff in K. destruct K as (m & K1 & K2). apply elem_of_list_In in K2. apply Hg.
        destruct (col_order _ _ _ _ _ C) as [keep Hk]. assert (m ∈ K_Nodes s) as Hm. { rewrite Hk in K2. apply elem_of_list_In, filter_In in K2. apply elem_of_list_In, K2. }
        rewrite Hip in K1. assert (m = n) as <-; [ | exact K2 ]. apply (inv_ip_inj _ m n HI Hm Hn). rewrite K1. unfold ip_of. rewrite Hc. reflexivity.
  - destruct (SendDMXToAddress s d b) as [[s1 ok]|] eqn:Es; [ | discriminate ]. cbn in E. injection E as <- <-. destruct (send_cases _ _ _ _ _ Es) as [->|(m & cm & cm' & Hcm & -> & C1 & C2)]; [ reflexivity | ].
    unfold owner. cbn. destruct (K_OutputAddress s !! a) as [n|]; cbn; [ | reflexivity ]. f_equal. unfold ip_of. cbn. destruct (decide (n = m)) as [->|Hne]; [ rewrite lookup_insert, Hcm, C1; reflexivity | rewrite lookup_insert_ne by congruence; reflexivity ].
  - destruct (order_routed s order Ho) as [Hr _]. destruct (tick_loop_inv order now s HI) as (s1 & o1 & E1 & _ & HN & HO & _); [ intros b m; apply Hr | ].
    destruct (tick_exact s order now HI Ho) as (s2 & E2 & K & _). rewrite E1 in E, E2. injection E2 as <- _. injection E as <- <-.
    unfold owner. rewrite HO. destruct (K_OutputAddress s !! a) as [n|] eqn:En; cbn; [ | reflexivity ]. f_equal.
    destruct (inv_out s HI a n En) as (_ & cn & Hc & _). destruct (K n cn Hc) as (cn' & Hc' & L & C & _). unfold ip_of. rewrite Hc, Hc', C. reflexivity.
  - injection E as <- <-. unfold owner. cbn. rewrite lookup_empty. reflexivity.
Qed.

(** * Histories *)
Lemma has_dec s ip a : has_port s ip a \/ ~ has_port s ip a.
Proof.
  unfold has_port. induction (K_Nodes s) as [|n l IH]; [ right; intros (n & cn & Hn & _); apply elem_of_nil in Hn; exact Hn | ].
  destruct IH as [(m & cm & Hm & K)|IH]; [ left; exists m, cm; split; [ right; exact Hm | exact K ] | ].
  destruct (K_heap s !! n) as [cn|] eqn:Hc; [ destruct (decide (C_IP (CN_Node cn) = ip /\ a ∈ addresses (C_OutputPorts (CN_Node cn)))) as [D|D]; [ left; exists n, cn; split; [ left | split; [ exact Hc | exact D ] ] | ] | ];
    right; intros (m & cm & Hm & Hcm & K); apply elem_of_cons in Hm; destruct Hm as [->|Hm]; try (apply IH; exists m, cm; auto); rewrite Hc in Hcm; try discriminate.
  injection Hcm as ->. exact (D K).
Qed.
(** An event that is no announcement of the universe leaves its owner or takes it away. *)
Lemma owner_step fps h s e s' out a : reach fps h s -> event_ok s e -> step s e = Ret (s', out) -> ~ announces e a -> owner s' a = owner s a \/ owner s' a = None.
Proof.
  intros R Ho E N. pose proof (C121_step _ _ _ _ _ _ a R Ho E) as C. destruct e as [p now|clock|d b|order now|]; auto.
  - destruct C as [C1 C2]. destruct (decide (tracked p)) as [T|T]; [ | auto ]. destruct (C2 T) as [_ C3]. destruct (decide (a ∈ reply_outputs p)) as [Ha|Ha]; [ destruct N; split; assumption | ]. destruct (C3 Ha) as [C4 C5].
    destruct (has_dec s (PollReply_IPAddress p) a) as [K|K]; auto.
  - clear C. pose proof (reach_inv _ _ _ R) as HI. cbn [step] in E. destruct (gcNode_eq s clock HI) as (s1 & k & E1 & C). rewrite E1 in E. cbn in E. injection E as <- <-. unfold owner.
    destruct (K_OutputAddress s1 !! a) as [n|] eqn:En; [ left | right; reflexivity ]. rewrite (col_out_sub _ _ _ _ _ C a n En). cbn. unfold ip_of. rewrite (col_heap _ _ _ _ _ C). reflexivity.
Qed.
Lemma announces_dec e a : announces e a \/ ~ announces e a.
Proof. destruct e as [p now|clock|d b|order now|]; cbn; auto. destruct (decide (tracked p)), (decide (a ∈ reply_outputs p)); tauto. Qed.
(** A universe belongs to the node that announced it last, or to none: it belongs to none if nobody announced it; if ip owns it, the last
    announcement was made by ip, and ip has owned it ever since. *)
Theorem C121_owner : forall fps h s a, reach fps h s ->
  (forall ip, owner s a = Some ip -> exists h1 s1 p t o h2, h = h1 ++ (s1, EReply p t, o) :: h2 /\ announces (EReply p t) a /\ PollReply_IPAddress p = ip /\ quiet h2 a /\ Forall (fun x => owner (fst (fst x)) a = Some ip) h2) /\
  (quiet h a -> owner s a = None) /\
  (forall h1 s1 p t o h2, h = h1 ++ (s1, EReply p t, o) :: h2 -> announces (EReply p t) a -> quiet h2 a -> owner s a = Some (PollReply_IPAddress p) \/ owner s a = None).
Proof.
  intros fps h s a R.
  assert (K : forall ip, owner s a = Some ip -> exists h1 s1 p t o h2, h = h1 ++ (s1, EReply p t, o) :: h2 /\ announces (EReply p t) a /\ PollReply_IPAddress p = ip /\ quiet h2 a /\ Forall (fun x => owner (fst (fst x)) a = Some ip) h2).
  { induction R as [|h s e s' out R IH Ho E]; intros ip Hw; [ unfold owner in Hw; cbn in Hw; rewrite lookup_empty in Hw; discriminate | ].
    destruct (announces_dec e a) as [A|A].
    - pose proof (C121_step _ _ _ _ _ _ a R Ho E) as C. destruct e as [p now|clock|d b|order now|]; try destruct A. exists h, s, p, now, out, []. split; [ reflexivity | ]. split; [ split; assumption | ].
      split; [ | split; constructor ]. destruct C as [_ C]. destruct (C H) as [C1 _]. rewrite (C1 H0) in Hw. congruence.
    - destruct (owner_step _ _ _ _ _ _ a R Ho E A) as [K|K]; [ | congruence ]. rewrite K in Hw. destruct (IH ip Hw) as (h1 & s1 & p & t & o & h2 & -> & B1 & B2 & B3 & B4).
      exists h1, s1, p, t, o, (h2 ++ [(s, e, out)]). rewrite <- app_assoc. split; [ reflexivity | ]. split; [ exact B1 | ]. split; [ exact B2 | ]. split; apply Forall_app; split; try assumption; constructor; try exact A; try exact Hw; constructor. }
  split; [ exact K | ]. split.
  - intros Q. destruct (owner s a) as [ip|] eqn:Hw; [ | reflexivity ]. destruct (K ip eq_refl) as (h1 & s1 & p & t & o & h2 & -> & B1 & _). apply Forall_app in Q. destruct Q as [_ Q]. inversion Q as [|? ? Q1 _]; subst. destruct (Q1 B1).
  - intros h1 s1 p t o h2 -> A Q. destruct (owner s a) as [ip|] eqn:Hw; [ left | right; reflexivity ]. destruct (K ip eq_refl) as (h1' & s1' & p' & t' & o' & h2' & X & B1 & B2 & B3 & _).
    rewrite <- B2. f_equal. destruct (app_eq_inv _ _ _ _ X) as [(l & X1 & X2)|(l & X1 & X2)]; destruct l as [|y l]; cbn in X2; try (injection X2; congruence).
    + exfalso. injection X2 as <- X2. rewrite X2 in B3. apply Forall_app in B3. destruct B3 as [_ B3]. inversion B3 as [|? ? Q1 _]; subst. exact (Q1 A).
    + exfalso. injection X2 as <- X2. rewrite X2 in Q. apply Forall_app in Q. destruct Q as [_ Q]. inversion Q as [|? ? Q1 _]; subst. exact (Q1 B1).
Qed.
(** The same for the controller's goroutines, whatever their interleaving. *)
Theorem C121_run : forall E ls y tr a ip, runs E ls y tr -> owner (S_tables (Y_sh y)) a = Some ip ->
  exists h1 s1 p t o h2, hist tr = h1 ++ (s1, EReply p t, o) :: h2 /\ announces (EReply p t) a /\ PollReply_IPAddress p = ip /\ quiet h2 a /\ Forall (fun x => owner (fst (fst x)) a = Some ip) h2.
Proof. intros E ls y tr a ip R. exact (proj1 (C121_owner _ _ _ a (ok_reach _ _ _ (sys_shared _ _ _ (runs_ok _ _ _ _ R)))) ip). Qed.
(** Every frame made for a universe goes to the node that announced the universe last. *)
Theorem C121_frames : forall fps h s s0 order now out h0 h3 f, reach fps h s -> h = h0 ++ (s0, ETick order now, out) :: h3 -> In f out ->
  exists h1 s1 p t o h2 q, h0 = h1 ++ (s1, EReply p t, o) :: h2 /\ fst f = (PollReply_IPAddress p, 6454) /\ Unmarshal (snd f) = Ret (Some (PktDMX q), None) /\
    announces (EReply p t) (DMX_Net q, DMX_SubUni q) /\ quiet h2 (DMX_Net q, DMX_SubUni q).
Proof.
  intros fps h s s0 order now out h0 h3 f R -> Hf. apply reach_split in R. destruct R as (R & Ho & s2 & E). cbn [event_ok] in Ho.
  assert (Hf' : f ∈ out) by (apply elem_of_list_In; exact Hf). destruct (C45_frames_are_right _ _ _ _ _ _ _ _ R Ho E Hf') as (a & n & cn & q & Ha & Hc & Hdst & _ & Hq & Q1 & Q2 & _).
  assert (Hw : owner s0 a = Some (C_IP (CN_Node cn))) by (refine (eq_trans (f_equal (option_map (ip_of s0)) Ha) _); cbn; unfold ip_of; rewrite Hc; reflexivity).
  destruct (proj1 (C121_owner _ _ _ a R) _ Hw) as (h1 & s1 & p & t & o & h2 & -> & A & Hip & Q & _). exists h1, s1, p, t, o, h2, q.
  destruct a as [an au]. cbn in Q1, Q2. rewrite Q1, Q2, Hip. auto.
Qed.
Theorem C121_wire : forall E ls y tr1 x tr2, wf_config (E_config E) -> runs E ls y (tr1 ++ OTx x :: tr2) -> is_dmx x = true ->
  exists tra s order now out trb h1 s1 p t o h2 q, tr1 = tra ++ OTable s (ETick order now) out :: trb /\ In (snd x) out /\ hist tra = h1 ++ (s1, EReply p t, o) :: h2 /\
    fst (snd x) = (PollReply_IPAddress p, 6454) /\ Unmarshal (snd (snd x)) = Ret (Some (PktDMX q), None) /\ announces (EReply p t) (DMX_Net q, DMX_SubUni q) /\ quiet h2 (DMX_Net q, DMX_SubUni q).
Proof.
  intros E ls y tr1 x tr2 Hc R Hx. destruct (C73_wire_data _ _ _ _ _ _ Hc R Hx) as (tra & s & order & now & out & trb & _ & _ & _ & _ & -> & Hin & _).
  pose proof (ok_reach _ _ _ (sys_shared _ _ _ (runs_ok _ _ _ _ R))) as Hr. rewrite <- app_assoc in Hr. rewrite hist_app in Hr.
  change (hist ((OTable s (ETick order now) out :: trb) ++ OTx x :: tr2)) with ((s, ETick order now, out) :: hist (trb ++ OTx x :: tr2)) in Hr.
  destruct (C121_frames _ _ _ _ _ _ _ _ _ (snd x) Hr eq_refl Hin) as (h1 & s1 & p & t & o & h2 & q & H). exists tra, s, order, now, out, trb, h1, s1, p, t, o, h2, q. split; [ reflexivity | ]. split; [ exact Hin | exact H ].
Qed.

(** Two nodes announce universe 7; it goes to the one that announced last; when the other one answers without it, it goes to nobody. *)
Definition moving : list cmd := [Start; Reply (one_port 1 7) (sec 1); Reply (one_port 2 7) (sec 1); Reply (one_port 1 9) (sec 2); Reply (one_port 2 7) (sec 2)].
Lemma moving_ok : Forall cmd_ok moving.
Proof. unfold moving. cmds_ok. Qed.
Example C121_ex : exists s h, reach 1000 h s /\ map (fun x => owner (fst (fst x)) (0, 7)) h = [None; None; Some [10; 0; 0; 1]; Some [10; 0; 0; 2]; None] /\
  owner s (0, 7) = Some [10; 0; 0; 2] /\ owner s (0, 9) = Some [10; 0; 0; 1] /\
  exists h1 s1 p t o h2, h = h1 ++ (s1, EReply p t, o) :: h2 /\ announces (EReply p t) (0, 9) /\ PollReply_IPAddress p = [10; 0; 0; 1] /\ quiet h2 (0, 9).
Proof.
  destruct (test_reach moving (fun s h => bool_decide (map (fun x => owner (fst (fst x)) (0, 7)) h = [None; None; Some [10; 0; 0; 1]; Some [10; 0; 0; 2]; None] /\
    owner s (0, 7) = Some [10; 0; 0; 2] /\ owner s (0, 9) = Some [10; 0; 0; 1])) moving_ok) as (s & h & Hr & E); [ vm_compute; reflexivity | ]. apply bool_decide_eq_true in E. destruct E as (E1 & E2 & E3).
  exists s, h. conj; try assumption. destruct (proj1 (C121_owner _ _ _ (0, 9) Hr) _ E3) as (h1 & s1 & p & t & o & h2 & A & B & C & D & _). exists h1, s1, p, t, o, h2. auto.
Qed.

Definition P_Owner_theorems := (C121_step, C121_owner, C121_run, C121_frames, C121_wire, C121_ex).
Print Assumptions P_Owner_theorems.
