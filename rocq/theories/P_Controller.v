(** Properties C40-C55 (without C54): the controller's tables, sends, ticks and garbage collection, over
    every history of events. *)
From Verif Require Export ControllerFacts P_Encode.
From stdpp Require Import base list gmap.
Open Scope list_scope.
Open Scope N_scope.

#[local] Arguments zeros : simpl never.

(** * Sample data *)
(** A reply from 10.0.0.ip with output universes 0/swout for the first num ports of the given types. *)
Definition reply (ip style num : N) (types swout : list N) : ArtPollReplyPacket :=
  mkPollReply (zeros 8) 0x2100 [10; 0; 0; ip] 6454 0 0 0 0 0 0 [0; 0] (zeros 18) (zeros 64) (zeros 64) num
    types (zeros 4) (zeros 4) (zeros 4) swout 0 0 0 style (zeros 6) (zeros 4) 0 0.
Lemma reply_wf ip style num types swout : byte_ok ip -> byte_ok style -> word_ok num -> array_ok 4 types ->
  array_ok 4 swout -> wf_PollReply (reply ip style num types swout).
Proof.
  intros H1 H2 H3 H4 H5. unfold wf_PollReply, reply. cbn -[zeros].
  repeat match goal with |- _ /\ _ => split end; try assumption; try apply array_ok_zeros;
    try (unfold byte_ok, word_ok; lia).
  split; [ reflexivity | ]. repeat constructor; try (unfold byte_ok; lia). exact H1.
Qed.
Definition sec (t : Z) : Z := (t * 1000000000)%Z.
Definition one_port (ip u : N) : ArtPollReplyPacket := reply ip 0 1 [0x80; 0; 0; 0] [u; 0; 0; 0].
Definition two_ports (ip u v : N) : ArtPollReplyPacket := reply ip 0 2 [0x80; 0x80; 0; 0] [u; v; 0; 0].
Lemma one_port_wf ip u : byte_ok ip -> byte_ok u -> wf_PollReply (one_port ip u).
Proof. intros. apply reply_wf; try assumption; try (unfold byte_ok, word_ok; lia); (split; [ reflexivity | ]); repeat constructor; try assumption; unfold byte_ok; lia. Qed.
Lemma two_ports_wf ip u v : byte_ok ip -> byte_ok u -> byte_ok v -> wf_PollReply (two_ports ip u v).
Proof. intros. apply reply_wf; try assumption; try (unfold byte_ok, word_ok; lia); (split; [ reflexivity | ]); repeat constructor; try assumption; unfold byte_ok; lia. Qed.
Lemma full_ok : array_ok 512 (repeat 255 512).
Proof. split; [ reflexivity | ]. apply List.Forall_forall. intros x Hx. apply repeat_spec in Hx. subst. unfold byte_ok. lia. Qed.
Ltac cmd_ok_tac := cbn [cmd_ok];
  match goal with
  | |- True => exact I
  | |- wf_PollReply (one_port _ _) => apply one_port_wf; unfold byte_ok; lia
  | |- wf_PollReply (two_ports _ _ _) => apply two_ports_wf; unfold byte_ok; lia
  | |- array_ok 512 (repeat 255 512) => exact full_ok
  end.
Ltac cmds_ok := repeat (apply Forall_cons_2; [ cmd_ok_tac | ]); apply Forall_nil_2.

Definition run (cs : list cmd) : go (Controller * history) := drive (NewController 1000) cs.
Lemma run_reach cs s h : Forall cmd_ok cs -> run cs = Ret (s, h) -> reach 1000 h s.
Proof. intros Hc E. exact (drive_reach 1000 cs [] _ s h (reach_init 1000) Hc E). Qed.

(** Evaluate a boolean test on the outcome of a run. *)
Definition test (cs : list cmd) (f : Controller -> history -> bool) : bool :=
  match run cs with Ret (s, h) => f s h | Panic => false end.
Lemma test_run cs f : test cs f = true -> exists s h, run cs = Ret (s, h) /\ f s h = true.
Proof. unfold test. destruct (run cs) as [[s h]|]; [ eauto | discriminate ]. Qed.
Lemma test_reach cs f : Forall cmd_ok cs -> test cs f = true -> exists s h, reach 1000 h s /\ f s h = true.
Proof. intros Hc H. destruct (test_run cs f H) as (s & h & E & Hf). exists s, h. split; [ exact (run_reach cs s h Hc E) | exact Hf ]. Qed.

(** * Reachable states never crash *)
Theorem C40_events_never_panic : forall fps h s e, reach fps h s -> event_ok s e ->
  exists s' out, step s e = Ret (s', out).
Proof. intros fps h s e Hr Ho. destruct (step_ok s e (reach_inv _ _ _ Hr) Ho) as (s' & out & E & _). eauto. Qed.

(** * C40 *)
Theorem C40_each_ip_once : forall fps h s, reach fps h s ->
  forall i j n m cn cm, nth_error (K_Nodes s) i = Some n -> nth_error (K_Nodes s) j = Some m ->
    K_heap s !! n = Some cn -> K_heap s !! m = Some cm ->
    C_IP (CN_Node cn) = C_IP (CN_Node cm) -> i = j.
Proof.
  intros fps h s Hr i j n m cn cm Hi Hj Hn Hm E. pose proof (inv_ip s (reach_inv _ _ _ Hr)) as ND.
  apply NoDup_ListNoDup in ND. rewrite List.NoDup_nth_error in ND. apply ND.
  - rewrite map_length. apply nth_error_Some. congruence.
  - rewrite !nth_error_map, Hi, Hj. cbn. unfold ip_of. rewrite Hn, Hm. congruence.
Qed.
Theorem C40_listed_nodes_exist : forall fps h s, reach fps h s -> forall n, n ∈ K_Nodes s -> is_Some (K_heap s !! n).
Proof. intros fps h s Hr. apply (inv_listed s (reach_inv _ _ _ Hr)). Qed.

Definition demo : list cmd := [Start; Reply (one_port 1 7) (sec 1); Reply (two_ports 2 8 9) (sec 1);
  Send (repeat 255 512) (0, 7); Tick (sec 2); Reply (one_port 1 7) (sec 2)].
Lemma demo_ok : Forall cmd_ok demo.
Proof. unfold demo. cmds_ok. Qed.
Example C40_ex : exists s h, reach 1000 h s /\ map (ip_of s) (K_Nodes s) = [[10; 0; 0; 1]; [10; 0; 0; 2]].
Proof.
  destruct (test_reach demo (fun s h => bool_decide (map (ip_of s) (K_Nodes s) = [[10; 0; 0; 1]; [10; 0; 0; 2]])) demo_ok)
    as (s & h & Hr & E); [ vm_compute; reflexivity | ].
  exists s, h. split; [ exact Hr | ]. apply bool_decide_eq_true in E. exact E.
Qed.

(** * C41 *)
Theorem C41_routing_never_dangles : forall fps h s, reach fps h s ->
  (forall a n, K_OutputAddress s !! a = Some n -> n ∈ K_Nodes s /\
     exists cn p, K_heap s !! n = Some cn /\ In p (C_OutputPorts (CN_Node cn)) /\ P_Address p = a) /\
  (forall a n, K_InputAddress s !! a = Some n -> n ∈ K_Nodes s /\
     exists cn p, K_heap s !! n = Some cn /\ In p (C_InputPorts (CN_Node cn)) /\ P_Address p = a).
Proof.
  intros fps h s Hr. pose proof (reach_inv _ _ _ Hr) as H.
  assert (G : forall ports a n, backed s ports a n -> n ∈ K_Nodes s /\
     exists cn p, K_heap s !! n = Some cn /\ In p (ports (CN_Node cn)) /\ P_Address p = a).
  { intros ports a n [Hl (cn & Hc & Ha)]. split; [ exact Hl | ].
    apply elem_of_list_fmap in Ha. destruct Ha as (p & -> & Hp). exists cn, p. split; [ exact Hc | ].
    split; [ apply elem_of_list_In; exact Hp | reflexivity ]. }
  split; intros a n Hn; apply G; [ apply (inv_out s H) | apply (inv_in s H) ]; exact Hn.
Qed.
Example C41_ex : exists s h, reach 1000 h s /\ K_OutputAddress s !! (0, 7) = Some 0 /\
  K_OutputAddress s !! (0, 8) = Some 1 /\ K_OutputAddress s !! (0, 9) = Some 1 /\ K_OutputAddress s !! (0, 10) = None.
Proof.
  destruct (test_reach demo (fun s h => bool_decide (K_OutputAddress s !! (0, 7) = Some 0 /\
    K_OutputAddress s !! (0, 8) = Some 1 /\ K_OutputAddress s !! (0, 9) = Some 1 /\ K_OutputAddress s !! (0, 10) = None)) demo_ok)
    as (s & h & Hr & E); [ vm_compute; reflexivity | ].
  exists s, h. split; [ exact Hr | ]. apply bool_decide_eq_true in E. exact E.
Qed.

(** * C42 *)
(** Listed node n announces a as an output but a is not routed at all. *)
Definition unreachable (s : Controller) (n : nid) (a : Address) : Prop :=
  n ∈ K_Nodes s /\ (exists cn, K_heap s !! n = Some cn /\ a ∈ addresses (C_OutputPorts (CN_Node cn))) /\
  K_OutputAddress s !! a = None.

(** Two nodes announce universe 0/7; the first one falls silent and is collected: the other one is
    still listed but no longer routed. *)
Definition unreachable_bool (n : nid) (a : Address) (s : Controller) (_ : history) : bool :=
  bool_decide (n ∈ K_Nodes s) && bool_decide (K_OutputAddress s !! a = None) &&
  match K_heap s !! n with Some cn => bool_decide (a ∈ addresses (C_OutputPorts (CN_Node cn))) | None => false end.
Lemma unreachable_bool_ok n a s h : unreachable_bool n a s h = true -> unreachable s n a.
Proof.
  unfold unreachable_bool, unreachable. rewrite !andb_true_iff. intros [[H1 H2] H3].
  apply bool_decide_eq_true in H1. apply bool_decide_eq_true in H2.
  destruct (K_heap s !! n) as [cn|] eqn:E; [ | discriminate ]. apply bool_decide_eq_true in H3. eauto.
Qed.

Definition collision : list cmd := [Start; Reply (one_port 1 7) (sec 1); Reply (one_port 2 7) (sec 8); Gc (sec 9)].
Theorem C42_routable_refuted : exists h s n a, reach 1000 h s /\ unreachable s n a.
Proof.
  destruct (test_reach collision (unreachable_bool 1 (0, 7))) as (s & h & Hr & E);
    [ unfold collision; cmds_ok | vm_compute; reflexivity | ].
  exists h, s, 1, (0, 7). split; [ exact Hr | exact (unreachable_bool_ok _ _ _ _ E) ].
Qed.
(** It also happens without any expiry, when a node moves off a shared universe. *)
Definition collision_move : list cmd :=
  [Start; Reply (one_port 1 7) (sec 1); Reply (one_port 2 7) (sec 1); Reply (one_port 1 8) (sec 2)].
Theorem C42_routable_move_refuted : exists h s n a, reach 1000 h s /\ unreachable s n a.
Proof.
  destruct (test_reach collision_move (unreachable_bool 1 (0, 7))) as (s & h & Hr & E);
    [ unfold collision_move; cmds_ok | vm_compute; reflexivity | ].
  exists h, s, 1, (0, 7). split; [ exact Hr | exact (unreachable_bool_ok _ _ _ _ E) ].
Qed.

(** Histories without collisions and restarts. Missing: everything else. *)
Definition calm (s : Controller) (e : event) : Prop :=
  match e with
  | EReply p _ => tracked p -> forall n cn a, n ∈ K_Nodes s -> K_heap s !! n = Some cn ->
      C_IP (CN_Node cn) <> PollReply_IPAddress p -> a ∈ reply_outputs p ->
      a ∉ addresses (C_OutputPorts (CN_Node cn))
  | EStart => K_Nodes s = []
  | _ => True
  end.
Theorem C42_routable_partial : forall fps h s, reach fps h s ->
  (forall s0 e out, In (s0, e, out) h -> calm s0 e) ->
  forall n cn a, n ∈ K_Nodes s -> K_heap s !! n = Some cn -> a ∈ addresses (C_OutputPorts (CN_Node cn)) ->
    K_OutputAddress s !! a = Some n.
Proof.
  intros fps h s Hr. induction Hr as [|h s e s' out Hr IH Ho E]; intros Hcalm.
  - intros n cn a Hn. cbn in Hn. apply elem_of_nil in Hn. destruct Hn.
  - assert (IH' := IH (fun s0 e0 o0 Hi => Hcalm s0 e0 o0 (in_or_app _ _ _ (or_introl Hi)))). clear IH.
    assert (Hc : calm s e) by (apply (Hcalm s e out); apply in_or_app; right; left; reflexivity). clear Hcalm.
    pose proof (reach_inv _ _ _ Hr) as H. destruct e as [p now|clock|dmx b|order now|]; cbn [step event_ok calm] in *.
    + destruct (handle_reply_eq s p now Ho) as (cfg & _ & Hip & Eo & _ & Hok & Eh). rewrite Eh in E.
      destruct (decide (tracked p)) as [Ht|Ht]; cbn in E; [ | injection E as <- <-; exact IH' ].
      specialize (Hc Ht).
      destruct (updateNode_eq s cfg now H) as [(m & cm & Hm & Hcm & Hi & Eu)|(Hn & Eu)]; rewrite Eu in E; cbn in E; injection E as <- <-.
      * intros n cn a Hn Hcn Ha. cbn in Hn, Hcn |- *. rewrite insert_ports_lookup.
        destruct (decide (n = m)) as [->|Hne].
        -- rewrite lookup_insert in Hcn. injection Hcn as <-. cbn in Ha. rewrite decide_True by exact Ha. reflexivity.
        -- rewrite lookup_insert_ne in Hcn by congruence. rewrite decide_False.
           ++ rewrite delete_ports_lookup. rewrite decide_False; [ apply (IH' n cn a Hn Hcn Ha) | ].
              intros Ha'. pose proof (IH' n cn a Hn Hcn Ha). pose proof (IH' m cm a Hm Hcm Ha'). congruence.
           ++ rewrite Eo. intros Ha'. refine (Hc n cn a Hn Hcn _ Ha' Ha). intros Ei. apply Hne.
              apply (inv_ip_inj s n m H Hn Hm). unfold ip_of. rewrite Hcn, Hcm. congruence.
      * intros n cn a Hl Hcn Ha. cbn in Hl, Hcn |- *. rewrite insert_ports_lookup.
        destruct (decide (n = K_next s)) as [->|Hne].
        -- rewrite lookup_insert in Hcn. injection Hcn as <-. cbn in Ha. rewrite decide_True by exact Ha. reflexivity.
        -- rewrite lookup_insert_ne in Hcn by congruence. apply elem_of_app in Hl. destruct Hl as [Hl|Hl].
           2:{ apply elem_of_list_singleton in Hl. contradiction. }
           rewrite decide_False; [ apply (IH' n cn a Hl Hcn Ha) | ].
           rewrite Eo. intros Ha'. refine (Hc n cn a Hl Hcn _ Ha' Ha). intros Ei. apply (Hn n Hl).
           unfold ip_of. rewrite Hcn. congruence.
    + destruct (gcNode_eq s clock H) as (s1 & k & Eg & C). rewrite Eg in E. cbn in E. injection E as <- <-.
      intros n cn a Hn Hcn Ha. rewrite (col_heap _ _ _ _ _ C) in Hcn.
      destruct (col_order _ _ _ _ _ C) as [keep Ek].
      assert (Hn0 : n ∈ K_Nodes s).
      { rewrite Ek in Hn. apply elem_of_list_In in Hn. apply filter_In in Hn. apply elem_of_list_In. apply Hn. }
      rewrite (col_out_kept _ _ _ _ _ C); [ apply (IH' n cn a Hn0 Hcn Ha) | ].
      intros m cm Hm Hm' Hcm Ha'. pose proof (IH' n cn a Hn0 Hcn Ha). pose proof (IH' m cm a Hm Hcm Ha').
      assert (m = n) by congruence. subst m. contradiction.
    + unfold SendDMXToAddress in E. destruct (K_OutputAddress s !! b) as [m|] eqn:Eb.
      2:{ cbn in E. injection E as <- <-. exact IH'. }
      unfold deref in E. destruct (K_heap s !! m) as [cm|] eqn:Em; cbn in E; [ | discriminate E ].
      pose proof (setDMX_node cm dmx b) as En. destruct (setDMXBuffer cm dmx b) as [cm' ok]. cbn in E, En. injection E as <- <-.
      intros n cn a Hn Hcn Ha. cbn in *. destruct (decide (n = m)) as [->|Hne].
      * rewrite lookup_insert in Hcn. injection Hcn as <-. apply (IH' m cm a Hn Em). congruence.
      * rewrite lookup_insert_ne in Hcn by congruence. apply (IH' n cn a Hn Hcn Ha).
    + destruct (order_routed s order Ho) as [Hro _].
      destruct (tick_loop_inv order now s H) as (s1 & o1 & Et & Hi & E1 & E2 & _); [ intros a n; apply Hro | ].
      destruct (tick_exact s order now H Ho) as (s2 & Et2 & Hh & Hh'). rewrite Et2 in Et. injection Et as <- <-.
      rewrite Et2 in E. injection E as <- <-.
      intros n cn a Hn Hcn Ha. rewrite E1 in Hn. rewrite E2. destruct (inv_listed s H n Hn) as [cn0 Hcn0].
      destruct (Hh n cn0 Hcn0) as (cn' & Hcn' & _ & Ecn & _). apply (IH' n cn0 a Hn Hcn0). congruence.
    + injection E as <- <-. intros n cn a Hn. cbn in Hn. rewrite Hc in Hn. apply elem_of_nil in Hn. destruct Hn.
Qed.
Definition calm_bool (s : Controller) (e : event) : bool :=
  match e with
  | EReply p _ => forallb (fun n => match K_heap s !! n with
      | Some cn => bool_decide (C_IP (CN_Node cn) = PollReply_IPAddress p) ||
          forallb (fun a => bool_decide (a ∉ addresses (C_OutputPorts (CN_Node cn)))) (reply_outputs p)
      | None => true end) (K_Nodes s)
  | EStart => bool_decide (K_Nodes s = [])
  | _ => true
  end.
Lemma calm_bool_ok s e : calm_bool s e = true -> calm s e.
Proof.
  destruct e; cbn [calm_bool calm]; auto.
  - intros H _ n cn a Hn Hc Hi Ha. rewrite forallb_forall in H. specialize (H n (proj1 (elem_of_list_In _ _) Hn)).
    rewrite Hc in H. apply orb_true_iff in H. destruct H as [H|H].
    + apply bool_decide_eq_true in H. contradiction.
    + rewrite forallb_forall in H. specialize (H a (proj1 (elem_of_list_In _ _) Ha)). apply bool_decide_eq_true in H. exact H.
  - apply bool_decide_eq_true.
Qed.
Example C42_ex : exists s h, reach 1000 h s /\ length (K_Nodes s) = 2%nat /\
  forall s0 e out, In (s0, e, out) h -> calm s0 e.
Proof.
  destruct (test_reach demo (fun s h => bool_decide (length (K_Nodes s) = 2%nat) &&
    forallb (fun x => calm_bool (fst (fst x)) (snd (fst x))) h) demo_ok) as (s & h & Hr & E); [ vm_compute; reflexivity | ].
  exists s, h. split; [ exact Hr | ]. apply andb_true_iff in E. destruct E as [E F]. apply bool_decide_eq_true in E.
  split; [ exact E | ]. rewrite forallb_forall in F. intros s0 e out Hi. apply calm_bool_ok. exact (F (s0, e, out) Hi).
Qed.

(** * C43 *)
(** The buffer of universe a on node n, and the rest of the node. *)
Definition stored (s : Controller) (n : nid) (a : Address) : option dmxBuffer :=
  match K_heap s !! n with Some cn => CN_DMXBuffer cn !! a | None => None end.
Definition rest (s : Controller) (n : nid) : option (Z * NodeConfig * UDPAddr * N) :=
  match K_heap s !! n with
  | Some cn => Some (CN_LastSeen cn, CN_Node cn, CN_UDPAddress cn, CN_Sequence cn) | None => None end.
(** The tables and everything outside the DMX buffers agree. *)
Definition same_tables (s s' : Controller) : Prop :=
  K_Nodes s' = K_Nodes s /\ K_OutputAddress s' = K_OutputAddress s /\ K_InputAddress s' = K_InputAddress s /\
  K_maxFPS s' = K_maxFPS s /\ forall n, rest s' n = rest s n.

Theorem C43_send_unrouted : forall s d a, K_OutputAddress s !! a = None -> SendDMXToAddress s d a = Ret (s, false).
Proof. intros s d a E. unfold SendDMXToAddress. rewrite E. reflexivity. Qed.
Theorem C43_send_routed : forall s d a n b, K_OutputAddress s !! a = Some n -> stored s n a = Some b ->
  exists s', SendDMXToAddress s d a = Ret (s', true) /\ same_tables s s' /\
    stored s' n a = Some (mkBuf d (B_LastUpdate b) true) /\
    forall m c, (m, c) <> (n, a) -> stored s' m c = stored s m c.
Proof.
  intros s d a n b E Es. unfold SendDMXToAddress, stored, deref in *. rewrite E.
  destruct (K_heap s !! n) as [cn|] eqn:Ec; [ | discriminate ]. cbn [bind]. unfold setDMXBuffer. rewrite Es.
  eexists. split; [ reflexivity | ]. split.
  - split; [ reflexivity | ]. split; [ reflexivity | ]. split; [ reflexivity | ]. split; [ reflexivity | ].
    intros m. unfold rest. cbn. destruct (decide (m = n)) as [->|Hne].
    + rewrite lookup_insert, Ec. reflexivity.
    + rewrite lookup_insert_ne by congruence. reflexivity.
  - cbn. rewrite lookup_insert. cbn. rewrite lookup_insert. split; [ reflexivity | ].
    intros m c Hmc. destruct (decide (m = n)) as [->|Hne].
    + rewrite lookup_insert, Ec. cbn. apply lookup_insert_ne. congruence.
    + rewrite lookup_insert_ne by congruence. reflexivity.
Qed.
(** A routed universe without a buffer (see C55): nothing changes. *)
Theorem C43_send_without_buffer : forall fps h s d a n, reach fps h s -> K_OutputAddress s !! a = Some n ->
  stored s n a = None -> exists s', SendDMXToAddress s d a = Ret (s', false) /\ same_tables s s' /\
    forall m c, stored s' m c = stored s m c.
Proof.
  intros fps h s d a n Hr E Es. destruct (inv_out s (reach_inv _ _ _ Hr) a n E) as [_ (cn & Hc & _)].
  unfold SendDMXToAddress, stored, deref in *. rewrite E. rewrite Hc in *. cbn [bind]. unfold setDMXBuffer. rewrite Es.
  eexists. split; [ reflexivity | ]. unfold same_tables, rest. cbn. rewrite (insert_id _ _ _ Hc).
  split; [ | reflexivity ]. split; [ reflexivity | ]. split; [ reflexivity | ]. split; [ reflexivity | ]. split; reflexivity.
Qed.
Theorem C43_send_never_panics : forall fps h s d a, reach fps h s -> SendDMXToAddress s d a <> Panic.
Proof. intros fps h s d a Hr. destruct (send_total s d a (reach_inv _ _ _ Hr)) as (s' & ok & ->). discriminate. Qed.
Example C43_ex : exists s h b, reach 1000 h s /\ K_OutputAddress s !! (0, 7) = Some 0 /\ stored s 0 (0, 7) = Some b /\
  K_OutputAddress s !! (0, 77) = None.
Proof.
  destruct (test_reach demo (fun s h => bool_decide (K_OutputAddress s !! (0, 7) = Some 0 /\ K_OutputAddress s !! (0, 77) = None) &&
    bool_decide (is_Some (stored s 0 (0, 7)))) demo_ok) as (s & h & Hr & E); [ vm_compute; reflexivity | ].
  apply andb_true_iff in E. destruct E as [E F]. apply bool_decide_eq_true in E. apply bool_decide_eq_true in F.
  destruct F as [b F]. exists s, h, b. tauto.
Qed.

(** * C44 *)
(** The data of universe a on node n: what is buffered, or the blackout frame. *)
Definition pending (s : Controller) (n : nid) (a : Address) : dmxBuffer := default empty_buf (stored s n a).
(** Due: unsent data older than the guard interval, or 250 ms without transmission. *)
Definition is_due (s : Controller) (now : Z) (x : Address * nid) : bool :=
  let b := pending s (snd x) (fst x) in
  (B_Stale b && (B_LastUpdate b <? now - K_maxFPS s)%Z) || (B_LastUpdate b <? now - 250000000)%Z.
(** An ArtDmx frame for a universe on a node, with sequence number q. *)
Definition dmx_frame (s : Controller) (x : Address * nid) (q : N) : payload :=
  ((ip_of s (snd x), 6454),
   [65; 114; 116; 45; 78; 101; 116; 0; 0x00; 0x50; 0; 14; q; 0; snd (fst x); fst (fst x); 0x02; 0x00]
   ++ B_Data (pending s (snd x) (fst x))).

Lemma due_is s n cn a now : K_heap s !! n = Some cn -> due (K_maxFPS s) (buffer cn a) now = is_due s now (a, n).
Proof. intros H. unfold due, is_due, pending, stored, buffer. cbn. rewrite H. reflexivity. Qed.
Lemma frame_is s n cn a q : K_heap s !! n = Some cn -> frame cn a q (B_Data (buffer cn a)) = dmx_frame s (a, n) q.
Proof. intros H. unfold frame, dmx_frame, pending, stored, ip_of, buffer. cbn. rewrite H. reflexivity. Qed.

(** The sequence numbers of the frames of a tick: one more per frame to the same node. *)
Fixpoint seqs (s : Controller) (sent : list nid) (l : list (Address * nid)) : list N :=
  match l with
  | [] => []
  | (a, n) :: l => ((match K_heap s !! n with Some cn => CN_Sequence cn | None => 0 end + count n sent + 1) mod 256)
                   :: seqs s (sent ++ [n]) l
  end.
Lemma tick_frames_is s now order : (forall a n, (a, n) ∈ order -> is_Some (K_heap s !! n)) -> forall sent,
  tick_frames s now sent order =
    zip_with (fun x q => (snd x, dmx_frame s x q)) (List.filter (is_due s now) order)
      (seqs s sent (List.filter (is_due s now) order)).
Proof.
  induction order as [|[a n] order IH]; intros Hs sent; [ reflexivity | ]. cbn [tick_frames List.filter].
  destruct (Hs a n) as [cn Hc]; [ left | ]. rewrite Hc, (due_is s n cn a now Hc), (frame_is s n cn a _ Hc).
  assert (IH' := IH (fun b m Hb => Hs b m (elem_of_list_further _ _ _ Hb))).
  destruct (is_due s now (a, n)); [ | apply IH' ]. cbn [seqs zip_with]. rewrite Hc, IH'. reflexivity.
Qed.
Lemma seqs_length s l : forall sent, length (seqs s sent l) = length l.
Proof. induction l as [|[a n] l IH]; intros sent; cbn; [ reflexivity | rewrite IH; reflexivity ]. Qed.

Lemma routed_heap s order : Inv s -> order ≡ₚ map_to_list (K_OutputAddress s) ->
  forall a n, (a, n) ∈ order -> is_Some (K_heap s !! n).
Proof.
  intros H Ho a n Hin. apply (order_routed s order Ho) in Hin. destruct (inv_out s H a n Hin) as [_ (cn & Hc & _)]. eauto.
Qed.

(** One frame per due universe, in iteration order, and nothing else. *)
Theorem C44_tick_sends_exactly_the_due : forall fps h s order now, reach fps h s ->
  order ≡ₚ map_to_list (K_OutputAddress s) ->
  exists s' qs, step s (ETick order now) =
      Ret (s', zip_with (dmx_frame s) (List.filter (is_due s now) order) qs) /\
    length qs = length (List.filter (is_due s now) order).
Proof.
  intros fps h s order now Hr Ho. pose proof (reach_inv _ _ _ Hr) as H.
  destruct (tick_exact s order now H Ho) as (s' & E & _). exists s', (seqs s [] (List.filter (is_due s now) order)).
  split; [ | apply seqs_length ]. cbn [step]. rewrite E. f_equal. f_equal.
  rewrite (tick_frames_is s now order (routed_heap s order H Ho)).
  generalize (seqs s [] (List.filter (is_due s now) order)). generalize (List.filter (is_due s now) order).
  induction l as [|x l IH]; intros [|q l0]; cbn; try reflexivity. rewrite IH. reflexivity.
Qed.
(** No universe twice. *)
Theorem C44_at_most_once : forall s order now, order ≡ₚ map_to_list (K_OutputAddress s) ->
  NoDup (map fst (List.filter (is_due s now) order)).
Proof.
  intros s order now Ho. destruct (order_routed s order Ho) as [_ ND]. revert ND. generalize order.
  induction order0 as [|x l IH]; intros ND; cbn; [ constructor | ]. cbn in ND. apply NoDup_cons in ND. destruct ND as [Hx ND].
  destruct (is_due s now x); [ | apply IH; exact ND ]. cbn. apply NoDup_cons. split; [ | apply IH; exact ND ].
  intros Hi. apply Hx. apply elem_of_list_In in Hi. apply in_map_iff in Hi. destruct Hi as (y & E & Hy).
  apply filter_In in Hy. rewrite <- E. apply elem_of_list_fmap_1. apply elem_of_list_In. apply Hy.
Qed.
(** What a tick leaves behind: transmitted universes are clean and stamped, the others unchanged. *)
Theorem C44_tick_effect : forall fps h s order now s' out, reach fps h s ->
  order ≡ₚ map_to_list (K_OutputAddress s) -> step s (ETick order now) = Ret (s', out) ->
  K_Nodes s' = K_Nodes s /\ K_OutputAddress s' = K_OutputAddress s /\ K_InputAddress s' = K_InputAddress s /\
  (forall n, option_map fst (rest s' n) = option_map fst (rest s n)) /\
  forall n a, stored s' n a =
    if decide (K_OutputAddress s !! a = Some n)
    then Some (if is_due s now (a, n) then mkBuf (B_Data (pending s n a)) now false else pending s n a)
    else stored s n a.
Proof.
  intros fps h s order now s' out Hr Ho E. pose proof (reach_inv _ _ _ Hr) as H.
  destruct (order_routed s order Ho) as [Hro _].
  destruct (tick_loop_inv order now s H) as (s1 & o1 & Et & Hi & E1 & E2 & E3 & _); [ intros a n; apply Hro | ].
  destruct (tick_exact s order now H Ho) as (s2 & Et2 & Hh & Hh'). cbn [step] in E.
  assert (s1 = s') by congruence. assert (s2 = s') by congruence. subst s1 s2.
  split; [ exact E1 | ]. split; [ exact E2 | ]. split; [ exact E3 | ]. split.
  - intros n. unfold rest. destruct (K_heap s !! n) as [cn|] eqn:Hc.
    + destruct (Hh n cn Hc) as (cn' & -> & L1 & L2 & L3 & _). cbn. congruence.
    + rewrite (Hh' n Hc). reflexivity.
  - intros n a. unfold stored at 1. destruct (K_heap s !! n) as [cn|] eqn:Hc.
    + destruct (Hh n cn Hc) as (cn' & -> & _ & _ & _ & _ & L5). rewrite L5. unfold buffer_after.
      rewrite (due_is s n cn a now Hc).
      assert (Eb : buffer cn a = pending s n a) by (unfold buffer, pending, stored; rewrite Hc; reflexivity).
      assert (Es : CN_DMXBuffer cn !! a = stored s n a) by (unfold stored; rewrite Hc; reflexivity).
      rewrite Eb, Es. destruct (decide ((a, n) ∈ order)) as [D|D].
      * rewrite decide_True by (apply Hro; exact D). reflexivity.
      * rewrite decide_False by (intros D'; apply D, Hro; exact D'). reflexivity.
    + rewrite (Hh' n Hc). rewrite decide_False.
      * unfold stored. rewrite Hc. reflexivity.
      * intros D. destruct (inv_out s H a n D) as [_ (cn & Hc' & _)]. congruence.
Qed.

Definition before_tick : list cmd := [Start; Reply (one_port 1 7) (sec 1); Reply (two_ports 2 8 9) (sec 1);
  Tick (sec 2); Send (repeat 255 512) (0, 7)].
Lemma before_tick_ok : Forall cmd_ok before_tick.
Proof. unfold before_tick. cmds_ok. Qed.
(** 1 ms after the last tick only the written universe is due; 300 ms after it all three are. *)
Example C44_ex : exists s h, reach 1000 h s /\
  List.filter (is_due s (sec 2 + 1000000)) (map_to_list (K_OutputAddress s)) = [((0, 7), 0)] /\
  length (List.filter (is_due s (sec 2 + 300000000)) (map_to_list (K_OutputAddress s))) = 3%nat.
Proof.
  destruct (test_reach before_tick (fun s h => bool_decide (
    List.filter (is_due s (sec 2 + 1000000)) (map_to_list (K_OutputAddress s)) = [((0, 7), 0)] /\
    length (List.filter (is_due s (sec 2 + 300000000)) (map_to_list (K_OutputAddress s))) = 3%nat)) before_tick_ok)
    as (s & h & Hr & E); [ vm_compute; reflexivity | ].
  exists s, h. split; [ exact Hr | ]. apply bool_decide_eq_true in E. exact E.
Qed.

(** * C45 *)
Lemma zip_with_elem {A B C} (f : A -> B -> C) l : forall k y, y ∈ zip_with f l k -> exists a b, a ∈ l /\ b ∈ k /\ y = f a b.
Proof.
  induction l as [|a l IH]; intros [|b k] y Hy; cbn in Hy; try (apply elem_of_nil in Hy; destruct Hy).
  apply elem_of_cons in Hy. destruct Hy as [->|Hy].
  - exists a, b. split; [ left | split; [ left | reflexivity ] ].
  - destruct (IH k y Hy) as (a' & b' & Ha & Hb & ->). exists a', b'. split; [ right; exact Ha | split; [ right; exact Hb | reflexivity ] ].
Qed.
Lemma seqs_byte s l : forall sent q, q ∈ seqs s sent l -> byte_ok q.
Proof.
  induction l as [|[a n] l IH]; intros sent q Hq; cbn [seqs] in Hq; [ apply elem_of_nil in Hq; destruct Hq | ].
  apply elem_of_cons in Hq. destruct Hq as [->|Hq]; [ apply N.mod_lt; discriminate | exact (IH _ _ Hq) ].
Qed.
Theorem C45_frames_are_right : forall fps h s order now s' out f, reach fps h s ->
  order ≡ₚ map_to_list (K_OutputAddress s) -> step s (ETick order now) = Ret (s', out) -> f ∈ out ->
  exists a n cn q, K_OutputAddress s !! a = Some n /\ K_heap s !! n = Some cn /\
    fst f = (C_IP (CN_Node cn), 6454) /\ bytes_ok (snd f) /\
    Unmarshal (snd f) = Ret (Some (PktDMX q), None) /\
    DMX_Net q = fst a /\ DMX_SubUni q = snd a /\ DMX_Length q = 512 /\
    DMX_Data q = B_Data (pending s n a) /\ length (snd f) = 530%nat.
Proof.
  intros fps h s order now s' out f Hr Ho E Hf. pose proof (reach_inv _ _ _ Hr) as H.
  destruct (tick_exact s order now H Ho) as (s2 & Et2 & _). cbn [step] in E.
  assert (Eo : out = map snd (tick_frames s now [] order)) by congruence.
  rewrite (tick_frames_is s now order (routed_heap s order H Ho)) in Eo. rewrite Eo in Hf.
  apply elem_of_list_fmap in Hf. destruct Hf as (y & -> & Hy).
  apply zip_with_elem in Hy. destruct Hy as ([a n] & q & Ha & Hq & ->). cbn [fst snd] in *.
  apply elem_of_list_In in Ha. apply filter_In in Ha. destruct Ha as [Ha _]. apply elem_of_list_In in Ha.
  apply (order_routed s order Ho) in Ha. apply seqs_byte in Hq.
  destruct (inv_out s H a n Ha) as [_ (cn & Hc & Hann)].
  pose proof (inv_cn s H n cn Hc) as (_ & _ & Hadr & _ & Hbufs).
  rewrite Forall_forall in Hadr. specialize (Hadr a Hann). destruct Hadr as [Ha1 Ha2].
  set (p := mkDMX (mkHeader (zeros 8) 0 (zeros 2)) q 0 (snd a) (fst a) 0 (B_Data (pending s n a))).
  assert (Hp : wf_DMX p).
  { unfold wf_DMX, p, wf_Header. cbn -[zeros].
    assert (Hb : buf_ok (pending s n a)).
    { unfold pending, stored. rewrite Hc. destruct (CN_DMXBuffer cn !! a) as [b|] eqn:Eb; cbn.
      - exact (Hbufs a b Eb).
      - apply array_ok_zeros. }
    repeat match goal with |- _ /\ _ => split end; try assumption; try apply array_ok_zeros; try apply Hb; unfold byte_ok, word_ok; lia. }
  destruct (C02_dmx_round_trip p Hp) as (b & p' & Eb & Eu & _ & _ & E1 & E2 & E3 & E4 & _).
  rewrite (proj1 (C01_dmx_encoding_exact p Hp)) in Eb. injection Eb as <-.
  exists a, n, cn, p'. split; [ exact Ha | ]. split; [ exact Hc | ]. unfold dmx_frame. cbn [fst snd].
  split; [ unfold ip_of; rewrite Hc; reflexivity | ]. split; [ exact (packet_bytes_ok (PktDMX p) Hp) | ]. split; [ exact Eu | ].
  split; [ exact E2 | ]. split; [ exact E1 | ]. split; [ exact E4 | ]. split; [ exact E3 | ]. destruct Hp as (_ & _ & _ & _ & _ & _ & L & _).
  unfold dmx_bytes. rewrite !app_length. cbn [length magic]. unfold len, p in L. cbn [DMX_Data] in *. unfold p. cbn [DMX_Data]. lia.
Qed.
Example C45_ex : exists s h s' out, reach 1000 h s /\
  step s (ETick (map_to_list (K_OutputAddress s)) (sec 2 + 1000000)) = Ret (s', out) /\
  map (fun f => (fst f, firstn 19 (snd f))) out =
    [(([10; 0; 0; 1], 6454), [65; 114; 116; 45; 78; 101; 116; 0; 0x00; 0x50; 0; 14; 2; 0; 7; 0; 2; 0; 255])].
Proof.
  destruct (test_reach before_tick (fun s h =>
    match step s (ETick (map_to_list (K_OutputAddress s)) (sec 2 + 1000000)) with
    | Ret (s', out) => bool_decide (map (fun f => (fst f, firstn 19 (snd f))) out =
        [(([10; 0; 0; 1], 6454), [65; 114; 116; 45; 78; 101; 116; 0; 0x00; 0x50; 0; 14; 2; 0; 7; 0; 2; 0; 255])])
    | Panic => false end) before_tick_ok) as (s & h & Hr & E); [ vm_compute; reflexivity | ].
  destruct (step s _) as [[s' out]|] eqn:Es; [ | discriminate E ]. exists s, h, s', out.
  split; [ exact Hr | ]. split; [ exact Es | ]. apply bool_decide_eq_true in E. exact E.
Qed.

(** * C46 *)
Lemma reach_prefix fps h2 : forall h1 s e out s', reach fps (h1 ++ (s, e, out) :: h2) s' ->
  reach fps h1 s /\ event_ok s e /\ exists s1, step s e = Ret (s1, out).
Proof.
  induction h2 as [|y h2 IH] using rev_ind; intros h1 s e out s' Hr.
  - inversion Hr as [E|h s0 e0 s1 o0 Hr0 Ho Es E].
    + destruct h1; discriminate.
    + apply app_inj_tail in E. destruct E as [-> [= -> -> ->]]. eauto.
  - inversion Hr as [E|h s0 e0 s1 o0 Hr0 Ho Es E].
    + destruct h1; discriminate.
    + change ((s, e, out) :: h2 ++ [y]) with (((s, e, out) :: h2) ++ [y]) in E. rewrite app_assoc in E.
      apply app_inj_tail in E. destruct E as [-> _]. eapply IH. exact Hr0.
Qed.

(** The call was accepted (no error was logged). *)
Definition accepted (s : Controller) (d : list N) (a : Address) : bool :=
  match SendDMXToAddress s d a with Ret (_, ok) => ok | Panic => false end.
(** The data of the most recent accepted write for universe a while it was routed to node n. *)
Definition last_write (h : history) (n : nid) (a : Address) : list N :=
  fold_left (fun acc x => match x with
    | (s, ESend d b, _) =>
        if bool_decide (b = a /\ K_OutputAddress s !! a = Some n) && accepted s d b then d else acc
    | _ => acc end) h (zeros 512).

Lemma pending_insert_other s n cn m a : m <> n -> pending (set_heap s (<[n := cn]> (K_heap s))) m a = pending s m a.
Proof. intros Hne. unfold pending, stored. cbn. rewrite lookup_insert_ne by congruence. reflexivity. Qed.

Lemma data_inv fps h s : reach fps h s -> forall n a, B_Data (pending s n a) = last_write h n a.
Proof.
  induction 1 as [|h s e s' out Hr IH Ho E]; intros n a.
  - unfold pending, stored. cbn. rewrite lookup_empty. reflexivity.
  - pose proof (reach_inv _ _ _ Hr) as H. unfold last_write. rewrite fold_left_app. fold (last_write h n a). cbn [fold_left].
    destruct e as [p now|clock|dmx b|order now|]; cbn [event_ok] in Ho.
    + rewrite <- IH. cbn [step] in E.
      destruct (handle_reply_eq s p now Ho) as (cfg & _ & _ & _ & _ & Hok & Eh). rewrite Eh in E.
      destruct (decide (tracked p)); cbn in E; [ | injection E as <- <-; reflexivity ].
      destruct (updateNode_eq s cfg now H) as [(m & cm & Hm & Hcm & Hi & Eu)|(Hn & Eu)]; rewrite Eu in E; cbn in E; injection E as <- <-;
        unfold pending, stored; cbn.
      * destruct (decide (n = m)) as [->|Hne]; [ rewrite lookup_insert, Hcm; reflexivity | rewrite lookup_insert_ne by congruence; reflexivity ].
      * destruct (decide (n = K_next s)) as [->|Hne].
        -- rewrite lookup_insert. cbn. rewrite blackout_lookup.
           replace (K_heap s !! K_next s) with (@None ControlledNode).
           ++ destruct (decide _); reflexivity.
           ++ destruct (K_heap s !! K_next s) eqn:Ex; [ | reflexivity ]. apply (inv_next s H) in Ex. lia.
        -- rewrite lookup_insert_ne by congruence. reflexivity.
    + rewrite <- IH. cbn [step] in E. destruct (gcNode_eq s clock H) as (s1 & k & Eg & C). rewrite Eg in E. cbn in E. injection E as <- <-.
      unfold pending, stored. rewrite (col_heap _ _ _ _ _ C). reflexivity.
    + unfold accepted. cbn [step] in E. destruct (K_OutputAddress s !! b) as [m|] eqn:Eb.
      2:{ rewrite (C43_send_unrouted s dmx b Eb) in *. cbn in E. injection E as <- <-. rewrite andb_false_r. apply IH. }
      destruct (stored s m b) as [bf|] eqn:Est.
      * destruct (C43_send_routed s dmx b m bf Eb Est) as (s1 & E1 & _ & S1 & S2). rewrite E1 in *. cbn in E. injection E as <- <-.
        rewrite andb_true_r. destruct (bool_decide_reflect (b = a /\ K_OutputAddress s !! a = Some n)) as [[-> Ea]|Hd].
        -- assert (m = n) by congruence. subst m. unfold pending. rewrite S1. reflexivity.
        -- rewrite <- IH. unfold pending. rewrite S2; [ reflexivity | ]. intros [= -> ->]. apply Hd. split; [ reflexivity | exact Eb ].
      * destruct (C43_send_without_buffer fps h s dmx b m Hr Eb Est) as (s1 & E1 & _ & S2). rewrite E1 in *. cbn in E. injection E as <- <-.
        rewrite andb_false_r, <- IH. unfold pending. rewrite S2. reflexivity.
    + rewrite <- IH. destruct (C44_tick_effect fps h s order now s' out Hr Ho E) as (_ & _ & _ & _ & Hs).
      unfold pending at 1. rewrite Hs. destruct (decide _); cbn; [ | reflexivity ].
      destruct (is_due s now (a, n)); reflexivity.
    + rewrite <- IH. cbn in E. injection E as <- <-. reflexivity.
Qed.

Theorem C46_last_write_wins : forall fps h1 s order now out h2 s' f,
  reach fps (h1 ++ (s, ETick order now, out) :: h2) s' -> f ∈ out ->
  exists a n cn q, K_OutputAddress s !! a = Some n /\ K_heap s !! n = Some cn /\
    fst f = (C_IP (CN_Node cn), 6454) /\
    Unmarshal (snd f) = Ret (Some (PktDMX q), None) /\ DMX_Net q = fst a /\ DMX_SubUni q = snd a /\
    DMX_Data q = last_write h1 n a.
Proof.
  intros fps h1 s order now out h2 s' f Hr Hf. destruct (reach_prefix _ _ _ _ _ _ _ Hr) as (Hr1 & Ho & s1 & E).
  destruct (C45_frames_are_right fps h1 s order now s1 out f Hr1 Ho E Hf) as (a & n & cn & q & H1 & H2 & H3 & _ & H4 & H5 & H6 & _ & H7).
  exists a, n, cn, q. rewrite <- (data_inv fps h1 s Hr1 n a). tauto.
Qed.
Example C46_ex : exists s h, reach 1000 h s /\ last_write h 0 (0, 7) = repeat 255 512 /\ last_write h 1 (0, 8) = zeros 512.
Proof.
  destruct (test_reach before_tick (fun s h => bool_decide (last_write h 0 (0, 7) = repeat 255 512 /\ last_write h 1 (0, 8) = zeros 512)) before_tick_ok)
    as (s & h & Hr & E); [ vm_compute; reflexivity | ].
  exists s, h. split; [ exact Hr | ]. apply bool_decide_eq_true in E. exact E.
Qed.

(** * C47 *)
(** The frames sent to node n over a history, in order. *)
Definition served (n : nid) (x : Controller * event * list payload) : list payload :=
  match x with
  | (s, ETick order now, _) => map snd (List.filter (fun y => fst y =? n) (tick_frames s now [] order))
  | _ => []
  end.
Definition sent_to (n : nid) (h : history) : list payload := concat (map (served n) h).
Definition sequence_byte (f : payload) : N := nth 12 (snd f) 0.

Lemma tick_seq s now (n : nid) order : forall sent j f, (forall a n, (a, n) ∈ order -> is_Some (K_heap s !! n)) ->
  nth_error (map snd (List.filter (fun y => fst y =? n) (tick_frames s now sent order))) j = Some f ->
  exists cn, K_heap s !! n = Some cn /\ sequence_byte f = (CN_Sequence cn + count n sent + N.of_nat j + 1) mod 256.
Proof.
  induction order as [|[a m] order IH]; intros sent j f Hs; cbn [tick_frames].
  - destruct j; discriminate.
  - destruct (Hs a m) as [cm Hcm]; [ left | ]. rewrite Hcm.
    assert (Hs' : forall b k, (b, k) ∈ order -> is_Some (K_heap s !! k)) by (intros b k Hb; apply (Hs b k); right; exact Hb).
    destruct (due _ _ _); [ | apply IH; exact Hs' ]. cbn [List.filter fst]. destruct (N.eqb_spec m n) as [->|Hne].
    + cbn [map snd]. destruct j as [|j]; cbn [nth_error].
      * intros [= <-]. exists cm. split; [ exact Hcm | ]. unfold sequence_byte, frame. cbn. f_equal. lia.
      * intros Hj. destruct (IH _ j f Hs' Hj) as (cn & Hcn & E). exists cn. split; [ exact Hcn | ].
        rewrite E, count_app. cbn [count]. rewrite decide_True by reflexivity. f_equal. lia.
    + intros Hj. destruct (IH _ j f Hs' Hj) as (cn & Hcn & E). exists cn. split; [ exact Hcn | ].
      rewrite E, count_app. cbn [count]. rewrite decide_False by exact Hne. f_equal. lia.
Qed.
Lemma count_filter n l : N.of_nat (length (map snd (List.filter (fun y : nid * payload => fst y =? n) l))) = count n (map fst l).
Proof.
  induction l as [|[m f] l IH]; [ reflexivity | ]. cbn [List.filter fst map count].
  destruct (N.eqb_spec m n) as [->|Hne].
  - cbn [map length]. rewrite decide_True by reflexivity. rewrite <- IH. lia.
  - rewrite decide_False by exact Hne. rewrite <- IH. lia.
Qed.

Lemma seq_inv fps h s : reach fps h s -> forall n,
  match K_heap s !! n with
  | Some cn => CN_Sequence cn = N.of_nat (length (sent_to n h)) mod 256
  | None => sent_to n h = []
  end.
Proof.
  induction 1 as [|h s e s' out Hr IH Ho E]; intros n.
  - cbn. rewrite lookup_empty. reflexivity.
  - pose proof (reach_inv _ _ _ Hr) as H. unfold sent_to. rewrite map_app, concat_app. fold (sent_to n h). cbn [map concat].
    rewrite app_nil_r. specialize (IH n).
    destruct e as [p now|clock|dmx b|order now|]; cbn [event_ok served] in *; rewrite ?app_nil_r.
    + cbn [step] in E.
      destruct (handle_reply_eq s p now Ho) as (cfg & _ & _ & _ & _ & Hok & Eh). rewrite Eh in E.
      destruct (decide (tracked p)); cbn in E; [ | injection E as <- <-; exact IH ].
      destruct (updateNode_eq s cfg now H) as [(m & cm & Hm & Hcm & Hi & Eu)|(Hn & Eu)]; rewrite Eu in E; cbn in E; injection E as <- <-; cbn.
      * destruct (decide (n = m)) as [->|Hne]; [ rewrite lookup_insert; rewrite Hcm in IH; exact IH | rewrite lookup_insert_ne by congruence; exact IH ].
      * destruct (decide (n = K_next s)) as [->|Hne].
        -- rewrite lookup_insert. cbn. destruct (K_heap s !! K_next s) eqn:Ex.
           ++ apply (inv_next s H) in Ex. lia.
           ++ rewrite IH. reflexivity.
        -- rewrite lookup_insert_ne by congruence. exact IH.
    + cbn [step] in E. destruct (gcNode_eq s clock H) as (s1 & k & Eg & C). rewrite Eg in E. cbn in E. injection E as <- <-.
      rewrite (col_heap _ _ _ _ _ C). exact IH.
    + cbn [step] in E. unfold SendDMXToAddress in E. destruct (K_OutputAddress s !! b) as [m|]; [ | cbn in E; injection E as <- <-; exact IH ].
      unfold deref in E. destruct (K_heap s !! m) as [cm|] eqn:Em; cbn in E; [ | discriminate E ].
      assert (Eq : CN_Sequence (fst (setDMXBuffer cm dmx b)) = CN_Sequence cm) by (unfold setDMXBuffer; destruct (CN_DMXBuffer cm !! b); reflexivity).
      destruct (setDMXBuffer cm dmx b) as [cm' ok]. cbn in E, Eq. injection E as <- <-. cbn.
      destruct (decide (n = m)) as [->|Hne]; [ rewrite lookup_insert; rewrite Em in IH; congruence | rewrite lookup_insert_ne by congruence; exact IH ].
    + cbn [step] in E. destruct (tick_exact s order now H Ho) as (s2 & Et2 & Hh & Hh'). rewrite Et2 in E. injection E as <- <-.
      destruct (K_heap s !! n) as [cn|] eqn:Hc.
      * destruct (Hh n cn Hc) as (cn' & -> & _ & _ & _ & L4 & _). rewrite L4, IH, app_length, Nat2N.inj_add, count_filter.
        rewrite N.add_mod_idemp_l by discriminate. reflexivity.
      * rewrite (Hh' n Hc), IH. cbn [app].
        destruct (map snd (List.filter (fun y => fst y =? n) (tick_frames s now [] order))) as [|f l] eqn:Ef; [ reflexivity | ].
        destruct (tick_seq s now n order [] 0 f (routed_heap s order H Ho)) as (cn & Hcn & _); [ rewrite Ef; reflexivity | rewrite Hc in Hcn; discriminate Hcn ].
    + cbn in E. injection E as <- <-. exact IH.
Qed.

(** Refuted: the 256th frame to a node carries sequence number 0, which tells the receiver that sequence
    numbers are not in use. *)
Definition many_ticks : list cmd :=
  [Start; Reply (one_port 1 7) (sec 1)] ++ map (fun i => Tick (sec (2 + Z.of_nat i))) (seq 0 256).
Lemma many_ticks_ok : Forall cmd_ok many_ticks.
Proof.
  unfold many_ticks. apply Forall_app_2; [ cmds_ok | ]. apply Forall_forall. intros c Hc.
  apply elem_of_list_fmap in Hc. destruct Hc as (i & -> & _). exact I.
Qed.
Theorem C47_sequence_zero_refuted : exists h s x f, reach 1000 h s /\ In x h /\ In f (snd x) /\
  fst f = ([10; 0; 0; 1], 6454) /\ sequence_byte f = 0 /\ len (snd f) = 530.
Proof.
  destruct (test_reach many_ticks (fun s h => existsb (fun x => existsb (fun f =>
      bool_decide (fst f = ([10; 0; 0; 1], 6454)) && (sequence_byte f =? 0) && (len (snd f) =? 530)) (snd x)) h) many_ticks_ok)
    as (s & h & Hr & E); [ vm_compute; reflexivity | ].
  apply existsb_exists in E. destruct E as (x & Hx & E). apply existsb_exists in E. destruct E as (f & Hf & E).
  rewrite !andb_true_iff in E. destruct E as [[E1 E2] E3]. apply bool_decide_eq_true in E1. apply N.eqb_eq in E2. apply N.eqb_eq in E3.
  exists h, s, x, f. tauto.
Qed.
(** Successive numbers: the k-th frame (from 0) to a node carries k+1 modulo 256. Missing: skipping 0. *)
Theorem C47_sequence_partial : forall fps h s, reach fps h s -> forall n k f,
  nth_error (sent_to n h) k = Some f -> sequence_byte f = (N.of_nat k + 1) mod 256.
Proof.
  intros fps h s Hr n. induction Hr as [|h s e s' out Hr IH Ho E]; intros k f.
  - destruct k; discriminate.
  - unfold sent_to. rewrite map_app, concat_app. fold (sent_to n h). cbn [map concat]. rewrite app_nil_r.
    destruct (Nat.lt_ge_cases k (length (sent_to n h))) as [Hk|Hk].
    + rewrite nth_error_app1 by exact Hk. apply IH.
    + rewrite nth_error_app2 by exact Hk.
      destruct e as [p now|clock|dmx b|order now|]; cbn [event_ok served] in *; try (destruct (k - length (sent_to n h))%nat; discriminate).
      intros Hj. destruct (tick_seq s now n order [] _ f (routed_heap s order (reach_inv _ _ _ Hr) Ho) Hj) as (cn & Hcn & ->).
      pose proof (seq_inv fps h s Hr n) as Hq. rewrite Hcn in Hq. rewrite Hq. cbn [count].
      rewrite N.add_0_r, <- N.add_assoc, N.add_mod_idemp_l by discriminate. f_equal. lia.
Qed.
(** These are the frames that really go out. *)
Theorem C47_served_are_sent_partial : forall fps h s order now s' out, reach fps h s ->
  order ≡ₚ map_to_list (K_OutputAddress s) -> step s (ETick order now) = Ret (s', out) ->
  forall f, (exists n, f ∈ served n (s, ETick order now, out)) <-> f ∈ out.
Proof.
  intros fps h s order now s' out Hr Ho E f. destruct (tick_exact s order now (reach_inv _ _ _ Hr) Ho) as (s2 & Et2 & _).
  cbn [step] in E. rewrite Et2 in E. injection E as _ <-. cbn [served]. split.
  - intros [n Hf]. apply elem_of_list_fmap in Hf. destruct Hf as (y & -> & Hy). apply elem_of_list_In in Hy. apply filter_In in Hy.
    apply elem_of_list_fmap_1. apply elem_of_list_In. apply Hy.
  - intros Hf. apply elem_of_list_fmap in Hf. destruct Hf as (y & -> & Hy). exists (fst y). apply elem_of_list_fmap_1.
    apply elem_of_list_In, filter_In. split; [ apply elem_of_list_In; exact Hy | apply N.eqb_refl ].
Qed.
Example C47_ex : exists s h, reach 1000 h s /\ length (sent_to 0 h) = 256%nat /\
  option_map sequence_byte (nth_error (sent_to 0 h) 254) = Some 255.
Proof.
  destruct (test_reach many_ticks (fun s h => bool_decide (length (sent_to 0 h) = 256%nat /\
    option_map sequence_byte (nth_error (sent_to 0 h) 254) = Some 255)) many_ticks_ok) as (s & h & Hr & E); [ vm_compute; reflexivity | ].
  exists s, h. split; [ exact Hr | ]. apply bool_decide_eq_true in E. exact E.
Qed.

(** * C48 *)
Definition carries (a : Address) (f : payload) : bool := (nth 14 (snd f) 256 =? snd a) && (nth 15 (snd f) 256 =? fst a).
(** Event x transmitted universe a to node n. *)
Definition transmits (n : nid) (a : Address) (x : Controller * event * list payload) : bool := existsb (carries a) (served n x).
(** Time of the most recent transmission of universe a to node n. *)
Definition last_sent (h : history) (n : nid) (a : Address) : option Z :=
  fold_left (fun acc x => match x with
    | (_, ETick _ now, _) => if transmits n a x then Some now else acc
    | _ => acc end) h None.

Lemma zip_with_elem_l {A B C} (f : A -> B -> C) l : forall k a, length k = length l -> a ∈ l -> exists b, f a b ∈ zip_with f l k.
Proof.
  induction l as [|x l IH]; intros [|b k] a HL Ha; try discriminate HL; [ apply elem_of_nil in Ha; destruct Ha | ].
  apply elem_of_cons in Ha. destruct Ha as [->|Ha]; [ exists b; left | ].
  destruct (IH k a) as [b' Hb']; [ cbn in HL; lia | exact Ha | ]. exists b'. right. exact Hb'.
Qed.
Lemma transmits_iff s order now out n a : Inv s -> order ≡ₚ map_to_list (K_OutputAddress s) ->
  transmits n a (s, ETick order now, out) = true <-> K_OutputAddress s !! a = Some n /\ is_due s now (a, n) = true.
Proof.
  intros H Ho. unfold transmits. cbn [served]. rewrite existsb_exists.
  rewrite (tick_frames_is s now order (routed_heap s order H Ho)). destruct (order_routed s order Ho) as [Hro _]. split.
  - intros (f & Hf & Hc). apply in_map_iff in Hf. destruct Hf as (y & <- & Hy). apply filter_In in Hy. destruct Hy as [Hy Hn].
    apply elem_of_list_In in Hy. apply zip_with_elem in Hy. destruct Hy as ([b m] & q & Hb & _ & ->). cbn [fst snd] in *.
    apply N.eqb_eq in Hn. subst m. apply elem_of_list_In, filter_In in Hb. destruct Hb as [Hb Hd].
    unfold carries, dmx_frame in Hc. cbn in Hc. apply andb_true_iff in Hc. destruct Hc as [H1 H2].
    apply N.eqb_eq in H1. apply N.eqb_eq in H2. destruct a as [a1 a2], b as [b1 b2]. cbn in H1, H2. subst.
    split; [ apply Hro, elem_of_list_In; exact Hb | exact Hd ].
  - intros [Ha Hd].
    destruct (zip_with_elem_l (fun x q => (snd x, dmx_frame s x q)) (List.filter (is_due s now) order)
      (seqs s [] (List.filter (is_due s now) order)) (a, n)) as [q Hq].
    + apply seqs_length.
    + apply elem_of_list_In, filter_In. split; [ apply elem_of_list_In, Hro; exact Ha | exact Hd ].
    + exists (dmx_frame s (a, n) q). split.
      * apply in_map_iff. exists (n, dmx_frame s (a, n) q). split; [ reflexivity | ]. apply filter_In. split; [ | apply N.eqb_refl ].
        apply elem_of_list_In in Hq. exact Hq.
      * unfold carries, dmx_frame. cbn. rewrite !N.eqb_refl. reflexivity.
Qed.

Lemma lastupdate_inv fps h s : reach fps h s -> forall n a, B_LastUpdate (pending s n a) = default 0%Z (last_sent h n a).
Proof.
  induction 1 as [|h s e s' out Hr IH Ho E]; intros n a.
  - unfold pending, stored. cbn. rewrite lookup_empty. reflexivity.
  - pose proof (reach_inv _ _ _ Hr) as H. unfold last_sent. rewrite fold_left_app. fold (last_sent h n a). cbn [fold_left].
    destruct e as [p now|clock|dmx b|order now|]; cbn [event_ok] in Ho.
    + rewrite <- IH. cbn [step] in E.
      destruct (handle_reply_eq s p now Ho) as (cfg & _ & _ & _ & _ & Hok & Eh). rewrite Eh in E.
      destruct (decide (tracked p)); cbn in E; [ | injection E as <- <-; reflexivity ].
      destruct (updateNode_eq s cfg now H) as [(m & cm & Hm & Hcm & Hi & Eu)|(Hn & Eu)]; rewrite Eu in E; cbn in E; injection E as <- <-;
        unfold pending, stored; cbn.
      * destruct (decide (n = m)) as [->|Hne]; [ rewrite lookup_insert, Hcm; reflexivity | rewrite lookup_insert_ne by congruence; reflexivity ].
      * destruct (decide (n = K_next s)) as [->|Hne].
        -- rewrite lookup_insert. cbn. rewrite blackout_lookup.
           replace (K_heap s !! K_next s) with (@None ControlledNode).
           ++ destruct (decide _); reflexivity.
           ++ destruct (K_heap s !! K_next s) eqn:Ex; [ | reflexivity ]. apply (inv_next s H) in Ex. lia.
        -- rewrite lookup_insert_ne by congruence. reflexivity.
    + rewrite <- IH. cbn [step] in E. destruct (gcNode_eq s clock H) as (s1 & k & Eg & C). rewrite Eg in E. cbn in E. injection E as <- <-.
      unfold pending, stored. rewrite (col_heap _ _ _ _ _ C). reflexivity.
    + rewrite <- IH. cbn [step] in E. destruct (K_OutputAddress s !! b) as [m|] eqn:Eb.
      2:{ rewrite (C43_send_unrouted s dmx b Eb) in *. cbn in E. injection E as <- <-. reflexivity. }
      destruct (stored s m b) as [bf|] eqn:Est.
      * destruct (C43_send_routed s dmx b m bf Eb Est) as (s1 & E1 & _ & S1 & S2). rewrite E1 in *. cbn in E. injection E as <- <-.
        destruct (decide ((n, a) = (m, b))) as [[= -> ->]|Hd].
        -- unfold pending. rewrite S1, Est. reflexivity.
        -- unfold pending. rewrite S2; [ reflexivity | exact Hd ].
      * destruct (C43_send_without_buffer fps h s dmx b m Hr Eb Est) as (s1 & E1 & _ & S2). rewrite E1 in *. cbn in E. injection E as <- <-.
        unfold pending. rewrite S2. reflexivity.
    + destruct (C44_tick_effect fps h s order now s' out Hr Ho E) as (_ & _ & _ & _ & Hs).
      pose proof (transmits_iff s order now out n a H Ho) as Ht.
      unfold pending. rewrite Hs. destruct (transmits n a (s, ETick order now, out)).
      * destruct (proj1 Ht eq_refl) as [H1 H2]. rewrite decide_True by exact H1. rewrite H2. reflexivity.
      * rewrite <- IH. destruct (decide _) as [D|D]; [ | reflexivity ].
        destruct (is_due s now (a, n)); [ | reflexivity ]. discriminate (proj2 Ht (conj D eq_refl)).
    + rewrite <- IH. cbn in E. injection E as <- <-. reflexivity.
Qed.

(** Times are counted from Go's zero time, so every real clock reading is far beyond 250 ms. *)
Theorem C48_keep_alive : forall fps h s order now s' out, reach fps h s ->
  order ≡ₚ map_to_list (K_OutputAddress s) -> step s (ETick order now) = Ret (s', out) -> (250000000 < now)%Z ->
  forall a n, K_OutputAddress s !! a = Some n ->
    (exists t, last_sent (h ++ [(s, ETick order now, out)]) n a = Some t /\ (now - 250000000 <= t)%Z) /\
    (last_sent h n a = None -> transmits n a (s, ETick order now, out) = true).
Proof.
  intros fps h s order now s' out Hr Ho E Hnow a n Ha. pose proof (reach_inv _ _ _ Hr) as H.
  pose proof (transmits_iff s order now out n a H Ho) as Ht.
  pose proof (lastupdate_inv fps h s Hr n a) as Hl.
  unfold last_sent. rewrite fold_left_app. fold (last_sent h n a). cbn [fold_left].
  destruct (transmits n a (s, ETick order now, out)) eqn:Et.
  - split; [ exists now; split; [ reflexivity | lia ] | reflexivity ].
  - assert (D : is_due s now (a, n) <> true) by (intros D; discriminate (proj2 Ht (conj Ha D))).
    unfold is_due in D. cbn [fst snd] in D. rewrite orb_true_iff, Z.ltb_lt, Hl in D.
    destruct (last_sent h n a) as [t|]; cbn in D.
    + split; [ exists t; split; [ reflexivity | lia ] | discriminate ].
    + exfalso. apply D. right. lia.
Qed.
(** Unsent data goes out at the first tick that is more than the guard interval after the last one. *)
Theorem C48_new_data_goes_out : forall fps h s order now s' out, reach fps h s ->
  order ≡ₚ map_to_list (K_OutputAddress s) -> step s (ETick order now) = Ret (s', out) ->
  forall a n, K_OutputAddress s !! a = Some n -> B_Stale (pending s n a) = true ->
    (default 0 (last_sent h n a) < now - fps)%Z ->
    transmits n a (s, ETick order now, out) = true /\ B_Stale (pending s' n a) = false.
Proof.
  intros fps h s order now s' out Hr Ho E a n Ha Hst Hg. pose proof (reach_inv _ _ _ Hr) as H.
  assert (D : is_due s now (a, n) = true).
  { unfold is_due. cbn [fst snd]. rewrite Hst, (lastupdate_inv fps h s Hr n a), (reach_fps fps h s Hr).
    apply orb_true_iff. left. apply andb_true_iff. split; [ reflexivity | ]. apply Z.ltb_lt. exact Hg. }
  split; [ apply (transmits_iff s order now out n a H Ho); auto | ].
  destruct (C44_tick_effect fps h s order now s' out Hr Ho E) as (_ & _ & _ & _ & Hs).
  unfold pending. rewrite Hs, decide_True by exact Ha. rewrite D. reflexivity.
Qed.
Example C48_ex : exists s h, reach 1000 h s /\ last_sent h 0 (0, 7) = Some (sec 2) /\
  B_Stale (pending s 0 (0, 7)) = true /\ K_OutputAddress s !! (0, 7) = Some 0.
Proof.
  destruct (test_reach before_tick (fun s h => bool_decide (last_sent h 0 (0, 7) = Some (sec 2) /\
    B_Stale (pending s 0 (0, 7)) = true /\ K_OutputAddress s !! (0, 7) = Some 0)) before_tick_ok) as (s & h & Hr & E); [ vm_compute; reflexivity | ].
  exists s, h. split; [ exact Hr | ]. apply bool_decide_eq_true in E. exact E.
Qed.

(** * C49 *)
(** Node n was last seen more than 7 s before t. *)
Definition silent (s : Controller) (t : Z) (n : nid) : Prop :=
  exists cn, K_heap s !! n = Some cn /\ (CN_LastSeen cn + 7000000000 < t)%Z.
#[global] Instance silent_dec s t n : Decision (silent s t n).
Proof.
  unfold silent. destruct (K_heap s !! n) as [cn|] eqn:E.
  - destruct (decide (CN_LastSeen cn + 7000000000 < t)%Z) as [D|D]; [ left; eauto | right; intros (c & [= <-] & Hc); contradiction ].
  - right. intros (c & [=] & _).
Defined.
Theorem C49_gc : forall fps h s clock, reach fps h s -> (forall i j, (i <= j)%nat -> (clock i <= clock j)%Z) ->
  exists s' k, gcNode s clock = Ret (s', k) /\
    (* node data untouched, order kept *)
    K_heap s' = K_heap s /\ (exists keep, K_Nodes s' = List.filter keep (K_Nodes s)) /\
    (* silent at the first reading: gone; gone: silent at the last reading *)
    (forall n, n ∈ K_Nodes s -> silent s (clock 0%nat) n -> n ∉ K_Nodes s') /\
    (forall n, n ∈ K_Nodes s -> n ∉ K_Nodes s' -> silent s (clock (k - 1)%nat) n) /\
    (* exactly the addresses announced by removed nodes disappear *)
    (forall a, (exists n cn, n ∈ K_Nodes s /\ n ∉ K_Nodes s' /\ K_heap s !! n = Some cn /\ a ∈ addresses (C_OutputPorts (CN_Node cn))) ->
       K_OutputAddress s' !! a = None) /\
    (forall a, ~ (exists n cn, n ∈ K_Nodes s /\ n ∉ K_Nodes s' /\ K_heap s !! n = Some cn /\ a ∈ addresses (C_OutputPorts (CN_Node cn))) ->
       K_OutputAddress s' !! a = K_OutputAddress s !! a) /\
    (forall a, (exists n cn, n ∈ K_Nodes s /\ n ∉ K_Nodes s' /\ K_heap s !! n = Some cn /\ a ∈ addresses (C_InputPorts (CN_Node cn))) ->
       K_InputAddress s' !! a = None) /\
    (forall a, ~ (exists n cn, n ∈ K_Nodes s /\ n ∉ K_Nodes s' /\ K_heap s !! n = Some cn /\ a ∈ addresses (C_InputPorts (CN_Node cn))) ->
       K_InputAddress s' !! a = K_InputAddress s !! a).
Proof.
  intros fps h s clock Hr Hm. destruct (gcNode_eq s clock (reach_inv _ _ _ Hr)) as (s' & k & E & C).
  exists s', k. split; [ exact E | ]. split; [ apply C | ]. split; [ apply C | ].
  split; [ | split; [ | split; [ | split; [ | split ] ] ] ].
  - intros n Hn (cn & Hc & Hs) Hk. destruct (col_kept _ _ _ _ _ C n Hk) as (j & Hj & Hns). apply Hns. exists cn.
    split; [ exact Hc | ]. specialize (Hm 0%nat j ltac:(lia)). lia.
  - intros n Hn Hk. destruct (col_removed _ _ _ _ _ C n Hn Hk) as (j & Hj & cn & Hc & Hs). exists cn. split; [ exact Hc | ].
    specialize (Hm j (k - 1)%nat ltac:(lia)). lia.
  - intros a (n & cn & H1 & H2 & H3 & H4). exact (col_out_gone _ _ _ _ _ C a n cn H1 H2 H3 H4).
  - intros a Hn. apply (col_out_kept _ _ _ _ _ C). intros n cn H1 H2 H3 H4. apply Hn. exists n, cn. tauto.
  - intros a (n & cn & H1 & H2 & H3 & H4). exact (col_in_gone _ _ _ _ _ C a n cn H1 H2 H3 H4).
  - intros a Hn. apply (col_in_kept _ _ _ _ _ C). intros n cn H1 H2 H3 H4. apply Hn. exists n, cn. tauto.
Qed.
(** When the clock does not advance during the call, exactly the silent nodes go. *)
Theorem C49_gc_instant : forall fps h s now, reach fps h s ->
  exists s', step s (EGc (fun _ => now)) = Ret (s', []) /\
    K_heap s' = K_heap s /\ K_Nodes s' = filter (fun n => ~ silent s now n) (K_Nodes s).
Proof.
  intros fps h s now Hr. destruct (C49_gc fps h s (fun _ => now) Hr (fun _ _ _ => Z.le_refl now)) as (s' & k & E & Hh & [keep Hk] & H1 & H2 & _).
  exists s'. cbn [step]. rewrite E. split; [ reflexivity | ]. split; [ exact Hh | ]. rewrite Hk.
  rewrite filter_List. apply filter_ext_in. intros n Hn. apply elem_of_list_In in Hn.
  specialize (H1 n Hn). specialize (H2 n Hn). rewrite Hk in H1, H2.
  destruct (keep n) eqn:Ek.
  - symmetry. apply bool_decide_eq_true. intros Hs. apply (H1 Hs). apply elem_of_list_In, filter_In.
    split; [ apply elem_of_list_In; exact Hn | exact Ek ].
  - symmetry. apply bool_decide_eq_false. intros Hs. apply Hs. apply H2. intros Hi. apply elem_of_list_In, filter_In in Hi.
    destruct Hi as [_ Hi]. congruence.
Qed.
Definition before_gc : list cmd := [Start; Reply (one_port 1 7) (sec 1); Reply (one_port 2 8) (sec 5); Reply (one_port 3 9) (sec 1)].
Lemma before_gc_ok : Forall cmd_ok before_gc.
Proof. unfold before_gc. cmds_ok. Qed.
Example C49_ex : exists s h s', reach 1000 h s /\ K_Nodes s = [0; 1; 2] /\
  step s (EGc (fun _ => (sec 8 + 1)%Z)) = Ret (s', []) /\ K_Nodes s' = [1] /\
  K_OutputAddress s' !! (0, 7) = None /\ K_OutputAddress s' !! (0, 8) = Some 1.
Proof.
  destruct (test_reach before_gc (fun s h => bool_decide (K_Nodes s = [0; 1; 2]) &&
    match step s (EGc (fun _ => (sec 8 + 1)%Z)) with
    | Ret (s', []) => bool_decide (K_Nodes s' = [1] /\ K_OutputAddress s' !! (0, 7) = None /\ K_OutputAddress s' !! (0, 8) = Some 1)
    | _ => false end) before_gc_ok) as (s & h & Hr & E); [ vm_compute; reflexivity | ].
  apply andb_true_iff in E. destruct E as [E F]. apply bool_decide_eq_true in E.
  destruct (step s _) as [[s' [|]]|] eqn:Es; try discriminate F. apply bool_decide_eq_true in F.
  exists s, h, s'. split; [ exact Hr | ]. split; [ exact E | ]. split; [ exact Es | exact F ].
Qed.

(** * C50 *)
Lemma delete_loop_absent s ip is : Inv s -> (forall n, n ∈ K_Nodes s -> ip_of s n <> ip) ->
  (forall i, In i is -> (i < length (K_Nodes s))%nat) -> delete_loop s ip is = Ret s.
Proof.
  intros H Hn. induction is as [|i is IH]; intros Hi; cbn [delete_loop]; [ reflexivity | ].
  unfold node_at. destruct (nth_error (K_Nodes s) i) as [n|] eqn:En.
  2:{ apply nth_error_None in En. specialize (Hi i (or_introl eq_refl)). lia. }
  assert (Hl : n ∈ K_Nodes s) by (apply elem_of_list_In; eapply nth_error_In; exact En).
  destruct (inv_listed s H n Hl) as [cn Hc]. cbn [bind]. unfold deref. rewrite Hc. cbn [bind].
  destruct (eqbytes ip (C_IP (CN_Node cn))) eqn:E.
  - apply eqbytes_eq in E. exfalso. apply (Hn n Hl). unfold ip_of. rewrite Hc. congruence.
  - apply IH. intros j Hj. apply Hi. right. exact Hj.
Qed.
Lemma delete_loop_present s ip i n cn : Inv s -> nth_error (K_Nodes s) i = Some n -> K_heap s !! n = Some cn ->
  C_IP (CN_Node cn) = ip -> forall j k, (j <= i)%nat -> (i < j + k)%nat -> (j + k = length (K_Nodes s))%nat ->
  delete_loop s ip (seq j k) = if (S i =? length (K_Nodes s))%nat then Ret (without s n cn) else Panic.
Proof.
  intros H Hi Hc Hip j k. revert j. induction k as [|k IH]; intros j Hj Hk HL; [ lia | ]. cbn [seq delete_loop]. unfold node_at.
  destruct (Nat.eq_dec j i) as [->|Hne].
  - rewrite Hi. cbn [bind]. unfold deref at 1. rewrite Hc. cbn [bind].
    replace (eqbytes ip (C_IP (CN_Node cn))) with true by (symmetry; apply eqbytes_eq; congruence).
    cbn [unroute set_in set_out K_Nodes]. rewrite (remove_at_filter _ _ n) by (auto using inv_nodup).
    change (set_nodes (unroute s cn) (filter (fun m => m <> n) (K_Nodes s))) with (without s n cn).
    assert (HI : Inv (without s n cn)) by (apply Inv_without; assumption).
    assert (Hn : n ∈ K_Nodes s) by (apply elem_of_list_In; eapply nth_error_In; exact Hi).
    assert (Hl : length (K_Nodes (without s n cn)) = (length (K_Nodes s) - 1)%nat).
    { cbn. rewrite <- (remove_at_filter _ i n) by (auto using inv_nodup). unfold remove_at.
      assert (i < length (K_Nodes s))%nat by (apply nth_error_Some; congruence).
      rewrite app_length, firstn_length, skipn_length. lia. }
    assert (Hab : forall m, m ∈ K_Nodes (without s n cn) -> ip_of (without s n cn) m <> ip).
    { intros m Hm Hip'. cbn in Hm. apply elem_of_list_filter in Hm. destruct Hm as [Hmn Hm]. apply Hmn.
      apply (inv_ip_inj s m n H Hm Hn). unfold ip_of at 2. rewrite Hc, Hip. exact Hip'. }
    destruct (Nat.eqb_spec (S i) (length (K_Nodes s))) as [Eq|Nq].
    + assert (k = 0)%nat by lia. subst k. reflexivity.
    + (* the remaining indices run past the shortened list *)
      assert (G : forall k j, (j <= length (K_Nodes (without s n cn)))%nat -> (0 < k)%nat -> (j + k = S (length (K_Nodes (without s n cn))))%nat ->
        delete_loop (without s n cn) ip (seq j k) = Panic).
      { clear IH HL Hj Hk. induction k0 as [|k0 IH0]; intros j0 H1 H2 H3; [ lia | ]. cbn [seq delete_loop]. unfold node_at.
        destruct (nth_error (K_Nodes (without s n cn)) j0) as [m|] eqn:Em; [ | reflexivity ].
        assert (Hj0 : (j0 < length (K_Nodes (without s n cn)))%nat) by (apply nth_error_Some; congruence).
        assert (Hm : m ∈ K_Nodes (without s n cn)) by (apply elem_of_list_In; eapply nth_error_In; exact Em).
        destruct (inv_listed _ HI m Hm) as [cm Hcm]. cbn [bind]. unfold deref. rewrite Hcm. cbn [bind].
        destruct (eqbytes ip (C_IP (CN_Node cm))) eqn:E.
        - apply eqbytes_eq in E. exfalso. apply (Hab m Hm). unfold ip_of. rewrite Hcm. congruence.
        - apply IH0; lia. }
      apply G; lia.
  - assert (Hjl : (j < length (K_Nodes s))%nat) by lia.
    destruct (nth_error (K_Nodes s) j) as [m|] eqn:Em; [ | apply nth_error_None in Em; lia ].
    assert (Hm : m ∈ K_Nodes s) by (apply elem_of_list_In; eapply nth_error_In; exact Em).
    destruct (inv_listed s H m Hm) as [cm Hcm]. cbn [bind]. unfold deref at 1. rewrite Hcm. cbn [bind].
    destruct (eqbytes ip (C_IP (CN_Node cm))) eqn:E.
    + exfalso. apply eqbytes_eq in E. apply Hne.
      assert (m = n).
      { apply (inv_ip_inj s m n H Hm); [ apply elem_of_list_In; eapply nth_error_In; exact Hi | ]. unfold ip_of. rewrite Hcm, Hc. congruence. }
      subst m. pose proof (inv_nodup s H) as ND. apply NoDup_ListNoDup in ND. rewrite List.NoDup_nth_error in ND.
      apply ND; [ exact Hjl | congruence ].
    + apply IH; lia.
Qed.

(** Refuted: deleting a known node crashes unless it is the last one listed, and the function always
    reports failure. *)
Theorem C50_delete_panics_refuted : exists h s, reach 1000 h s /\ deleteNode s [10; 0; 0; 1] = Panic.
Proof.
  destruct (test_reach before_gc (fun s h => match deleteNode s [10; 0; 0; 1] with Panic => true | _ => false end) before_gc_ok)
    as (s & h & Hr & E); [ vm_compute; reflexivity | ].
  exists h, s. split; [ exact Hr | ]. destruct (deleteNode s _); [ discriminate E | reflexivity ].
Qed.
Theorem C50_delete_always_fails_refuted : forall s ip s' ok, deleteNode s ip = Ret (s', ok) -> ok = false.
Proof. intros s ip s' ok. unfold deleteNode. destruct (delete_loop _ _ _); cbn; [ | discriminate ]. intros [= _ <-]. reflexivity. Qed.
(** Exact behaviour. Missing: crash freedom and success for known nodes. *)
Theorem C50_delete_partial : forall fps h s ip, reach fps h s ->
  ((forall n, n ∈ K_Nodes s -> ip_of s n <> ip) -> deleteNode s ip = Ret (s, false)) /\
  (forall i n cn, nth_error (K_Nodes s) i = Some n -> K_heap s !! n = Some cn -> C_IP (CN_Node cn) = ip ->
     ((S i < length (K_Nodes s))%nat -> deleteNode s ip = Panic) /\
     (S i = length (K_Nodes s) -> exists s', deleteNode s ip = Ret (s', false) /\ K_heap s' = K_heap s /\
        K_Nodes s' = removelast (K_Nodes s) /\
        (forall a, K_OutputAddress s' !! a = if decide (a ∈ addresses (C_OutputPorts (CN_Node cn))) then None else K_OutputAddress s !! a) /\
        (forall a, K_InputAddress s' !! a = if decide (a ∈ addresses (C_InputPorts (CN_Node cn))) then None else K_InputAddress s !! a))).
Proof.
  intros fps h s ip Hr. pose proof (reach_inv _ _ _ Hr) as H. split.
  - intros Hn. unfold deleteNode. rewrite (delete_loop_absent s ip _ H Hn); [ reflexivity | ]. intros i Hi. apply in_seq in Hi. lia.
  - intros i n cn Hi Hc Hip.
    assert (Hil : (i < length (K_Nodes s))%nat) by (apply nth_error_Some; congruence).
    pose proof (delete_loop_present s ip i n cn H Hi Hc Hip 0 (length (K_Nodes s)) ltac:(lia) ltac:(lia) eq_refl) as E.
    unfold deleteNode. rewrite E. split.
    + intros Hlt. destruct (Nat.eqb_spec (S i) (length (K_Nodes s))); [ lia | reflexivity ].
    + intros Heq. rewrite (proj2 (Nat.eqb_eq _ _) Heq). eexists. split; [ reflexivity | ]. split; [ reflexivity | ].
      split; [ | split; intros a; apply delete_ports_lookup ].
      cbn. rewrite <- (remove_at_filter _ i n) by (auto using inv_nodup). unfold remove_at.
      rewrite skipn_all2 by lia. rewrite app_nil_r. rewrite removelast_firstn_len. f_equal. lia.
Qed.
Example C50_ex : exists s h, reach 1000 h s /\ K_Nodes s = [0; 1; 2] /\ ip_of s 2 = [10; 0; 0; 3].
Proof.
  destruct (test_reach before_gc (fun s h => bool_decide (K_Nodes s = [0; 1; 2] /\ ip_of s 2 = [10; 0; 0; 3])) before_gc_ok)
    as (s & h & Hr & E); [ vm_compute; reflexivity | ].
  exists s, h. split; [ exact Hr | ]. apply bool_decide_eq_true in E. exact E.
Qed.

(** * C51 *)
Theorem C51_ignored_reply : forall s p now, wf_PollReply p -> ~ tracked p -> handle_reply s p now = Ret s.
Proof.
  intros s p now Hp Ht. destruct (handle_reply_eq s p now Hp) as (cfg & _ & _ & _ & _ & _ & ->).
  rewrite decide_False by exact Ht. reflexivity.
Qed.
Theorem C51_tracked_reply : forall fps h s p now, reach fps h s -> wf_PollReply p -> tracked p ->
  exists s' n cn cfg, handle_reply s p now = Ret s' /\ ConfigFromArtPollReply p = Ret cfg /\
    K_heap s' !! n = Some cn /\ CN_Node cn = cfg /\ CN_LastSeen cn = now /\ C_IP cfg = PollReply_IPAddress p /\
    (forall m, m <> n -> K_heap s' !! m = K_heap s !! m) /\
    ((* refreshed *)
     (n ∈ K_Nodes s /\ ip_of s n = PollReply_IPAddress p /\ K_Nodes s' = K_Nodes s /\
      exists old, K_heap s !! n = Some old /\ CN_DMXBuffer cn = CN_DMXBuffer old /\ CN_Sequence cn = CN_Sequence old /\
        CN_UDPAddress cn = CN_UDPAddress old) \/
     (* added *)
     ((forall m, m ∈ K_Nodes s -> ip_of s m <> PollReply_IPAddress p) /\ K_heap s !! n = None /\
      K_Nodes s' = K_Nodes s ++ [n] /\ CN_Sequence cn = 0 /\ CN_UDPAddress cn = (PollReply_IPAddress p, 6454) /\
      forall a, CN_DMXBuffer cn !! a = if decide (a ∈ reply_outputs p) then Some (mkBuf (zeros 512) 0 false) else None)).
Proof.
  intros fps h s p now Hr Hp Ht. pose proof (reach_inv _ _ _ Hr) as H.
  destruct (handle_reply_eq s p now Hp) as (cfg & Ec & Hip & Eo & _ & Hok & Eh). rewrite decide_True in Eh by exact Ht.
  destruct (updateNode_eq s cfg now H) as [(m & cm & Hm & Hcm & Hi & Eu)|(Hn & Eu)]; rewrite Eh, Eu.
  - eexists. exists m. eexists. exists cfg. split; [ reflexivity | ]. split; [ exact Ec | ]. cbn.
    split; [ apply lookup_insert | ]. cbn. split; [ reflexivity | ]. split; [ reflexivity | ]. split; [ exact Hip | ].
    split; [ intros x Hx; apply lookup_insert_ne; congruence | ]. left. split; [ exact Hm | ].
    split; [ unfold ip_of; rewrite Hcm; congruence | ]. split; [ reflexivity | ]. exists cm.
    split; [ exact Hcm | ]. split; [ reflexivity | ]. split; reflexivity.
  - eexists. exists (K_next s). eexists. exists cfg. split; [ reflexivity | ]. split; [ exact Ec | ]. cbn.
    split; [ apply lookup_insert | ]. cbn. split; [ reflexivity | ]. split; [ reflexivity | ]. split; [ exact Hip | ].
    split; [ intros x Hx; apply lookup_insert_ne; congruence | ]. right. rewrite <- Hip. split; [ exact Hn | ].
    split; [ | split; [ reflexivity | split; [ reflexivity | split; [ reflexivity | ] ] ] ].
    + destruct (K_heap s !! K_next s) eqn:Ex; [ | reflexivity ]. apply (inv_next s H) in Ex. lia.
    + intros a. rewrite blackout_lookup, Eo. reflexivity.
Qed.
(** Its universes are routed to it; other universes keep their route unless they were this node's. *)
Theorem C51_tracked_reply_routes : forall fps h s p now s', reach fps h s -> wf_PollReply p -> tracked p ->
  handle_reply s p now = Ret s' -> exists n, n ∈ K_Nodes s' /\ ip_of s' n = PollReply_IPAddress p /\
    (forall a, a ∈ reply_outputs p -> K_OutputAddress s' !! a = Some n) /\
    (forall a, a ∈ reply_inputs p -> K_InputAddress s' !! a = Some n) /\
    (forall a, a ∉ reply_outputs p -> (forall cn, K_heap s !! n = Some cn -> a ∉ addresses (C_OutputPorts (CN_Node cn))) ->
       K_OutputAddress s' !! a = K_OutputAddress s !! a) /\
    (forall a cn, a ∉ reply_outputs p -> K_heap s !! n = Some cn -> a ∈ addresses (C_OutputPorts (CN_Node cn)) ->
       K_OutputAddress s' !! a = None) /\
    (forall a, a ∉ reply_inputs p -> (forall cn, K_heap s !! n = Some cn -> a ∉ addresses (C_InputPorts (CN_Node cn))) ->
       K_InputAddress s' !! a = K_InputAddress s !! a) /\
    (forall a cn, a ∉ reply_inputs p -> K_heap s !! n = Some cn -> a ∈ addresses (C_InputPorts (CN_Node cn)) ->
       K_InputAddress s' !! a = None).
Proof.
  intros fps h s p now s' Hr Hp Ht E. pose proof (reach_inv _ _ _ Hr) as H.
  destruct (handle_reply_eq s p now Hp) as (cfg & Ec & Hip & Eo & Ei & Hok & Eh). rewrite decide_True in Eh by exact Ht.
  destruct (updateNode_eq s cfg now H) as [(m & cm & Hm & Hcm & Hi & Eu)|(Hn & Eu)]; rewrite Eh, Eu in E; injection E as <-.
  - exists m. split; [ exact Hm | ]. cbn. split; [ unfold ip_of; cbn; rewrite lookup_insert; exact Hip | ].
    repeat match goal with |- _ /\ _ => split end.
    + intros a Ha. rewrite insert_ports_lookup, Eo, decide_True by exact Ha. reflexivity.
    + intros a Ha. rewrite insert_ports_lookup, Ei, decide_True by exact Ha. reflexivity.
    + intros a Ha Hd. rewrite insert_ports_lookup, Eo, decide_False by exact Ha.
      rewrite delete_ports_lookup, decide_False by exact (Hd cm Hcm). reflexivity.
    + intros a cn Ha Hcn Hd. rewrite insert_ports_lookup, Eo, decide_False by exact Ha.
      rewrite delete_ports_lookup, decide_True by congruence. reflexivity.
    + intros a Ha Hd. rewrite insert_ports_lookup, Ei, decide_False by exact Ha.
      rewrite delete_ports_lookup, decide_False by exact (Hd cm Hcm). reflexivity.
    + intros a cn Ha Hcn Hd. rewrite insert_ports_lookup, Ei, decide_False by exact Ha.
      rewrite delete_ports_lookup, decide_True by congruence. reflexivity.
  - exists (K_next s). cbn. split; [ apply elem_of_app; right; left | ]. split; [ unfold ip_of; cbn; rewrite lookup_insert; exact Hip | ].
    assert (Fr : K_heap s !! K_next s = None).
    { destruct (K_heap s !! K_next s) eqn:Ex; [ | reflexivity ]. apply (inv_next s H) in Ex. lia. }
    repeat match goal with |- _ /\ _ => split end.
    + intros a Ha. rewrite insert_ports_lookup, Eo, decide_True by exact Ha. reflexivity.
    + intros a Ha. rewrite insert_ports_lookup, Ei, decide_True by exact Ha. reflexivity.
    + intros a Ha _. rewrite insert_ports_lookup, Eo, decide_False by exact Ha. reflexivity.
    + intros a cn _ Hcn. congruence.
    + intros a Ha _. rewrite insert_ports_lookup, Ei, decide_False by exact Ha. reflexivity.
    + intros a cn _ Hcn. congruence.
Qed.
Example C51_ex : tracked (one_port 1 7) /\ ~ tracked (reply 1 1 0 [0x80; 0; 0; 0] [7; 0; 0; 0]) /\
  tracked (reply 1 1 1 [0x80; 0; 0; 0] [7; 0; 0; 0]) /\ ~ tracked (reply 1 2 1 [0x80; 0; 0; 0] [7; 0; 0; 0]).
Proof.
  unfold tracked. split; [ left; reflexivity | ]. split; [ | split ].
  - intros [E|[_ E]]; [ discriminate E | apply E; reflexivity ].
  - right. split; [ reflexivity | discriminate ].
  - intros [E|[E _]]; discriminate E.
Qed.

(** * C52 *)
(** Refuted: option MaxFPS(0), a negative value or one above 10^9 crashes the update loop. *)
Theorem C52_crash_refuted : forall fps, (fps <= 0 \/ 1000000000 < fps)%Z -> ticker_period (NewController fps) = Panic.
Proof.
  intros fps H. unfold ticker_period. cbn [NewController K_maxFPS]. destruct (Z.eqb_spec fps 0); [ reflexivity | ].
  cbv zeta. destruct (Z.leb_spec (Z.quot 1000000000 fps) 0) as [Hl|Hl]; [ reflexivity | ]. exfalso. destruct H as [H|H].
  - assert (Z.quot 1000000000 (- (- fps)) = - Z.quot 1000000000 (- fps))%Z by (apply Z.quot_opp_r; lia).
    rewrite Z.opp_involutive in H0. pose proof (Z.quot_pos 1000000000 (- fps) ltac:(lia) ltac:(lia)). lia.
  - rewrite Z.quot_small in Hl by lia. lia.
Qed.
(** Refuted: with MaxFPS(1) two frames for one universe can be 100 ms apart (the guard of
    controller.go:269 compares with MaxFPS nanoseconds, so only the ticker limits the rate, and its
    ticks can be late: the ticks here belong to the periods starting at 1 s and 2 s). *)
Definition late_tick : list cmd := [Start; Reply (one_port 1 7) (sec 1); Tick 1900000000%Z; Send (repeat 255 512) (0, 7)].
Theorem C52_rate_refuted : exists h s order t now s' out, reach 1 h s /\ order ≡ₚ map_to_list (K_OutputAddress s) /\
  step s (ETick order now) = Ret (s', out) /\ last_sent h 0 (0, 7) = Some t /\
  transmits 0 (0, 7) (s, ETick order now, out) = true /\
  ticker_period s = Ret (sec 1) /\ (sec 1 <= t < sec 2)%Z /\ now = sec 2 /\ (now - t = 100000000)%Z.
Proof.
  assert (Hok : Forall cmd_ok late_tick) by (unfold late_tick; cmds_ok).
  assert (T : match drive (NewController 1) late_tick with
    | Ret (s, h) => match step s (ETick (map_to_list (K_OutputAddress s)) (sec 2)) with
        | Ret (s', out) => bool_decide (last_sent h 0 (0, 7) = Some 1900000000%Z /\
            transmits 0 (0, 7) (s, ETick (map_to_list (K_OutputAddress s)) (sec 2), out) = true) &&
            match ticker_period s with Ret d => (d =? sec 1)%Z | Panic => false end
        | Panic => false end
    | Panic => false end = true) by (vm_compute; reflexivity).
  destruct (drive (NewController 1) late_tick) as [[s h]|] eqn:E; [ | discriminate T ].
  pose proof (drive_reach 1 late_tick [] _ s h (reach_init 1) Hok E) as Hr. cbn [app] in Hr.
  destruct (step s (ETick (map_to_list (K_OutputAddress s)) (sec 2))) as [[s' out]|] eqn:Es; [ | discriminate T ].
  apply andb_true_iff in T. destruct T as [T1 T2]. apply bool_decide_eq_true in T1. destruct T1 as [T1 T3].
  destruct (ticker_period s) as [d|] eqn:Ed; [ | discriminate T2 ]. apply Z.eqb_eq in T2. subst d.
  exists h, s, (map_to_list (K_OutputAddress s)), 1900000000%Z, (sec 2), s', out.
  split; [ exact Hr | ]. split; [ reflexivity | ]. split; [ exact Es | ]. split; [ exact T1 | ]. split; [ exact T3 | ].
  unfold sec. split; [ exact Ed | ]. split; [ lia | ]. split; [ reflexivity | lia ].
Qed.
(** What holds: no crash for 1..10^9, and the spacing of two transmissions of a universe exceeds the
    guard of min(MaxFPS ns, 250 ms). Missing: the 1/MaxFPS spacing. *)
Theorem C52_no_crash_partial : forall fps, (1 <= fps <= 1000000000)%Z ->
  exists d, ticker_period (NewController fps) = Ret d /\ (0 < d)%Z /\ (d * fps <= 1000000000 < (d + 1) * fps)%Z.
Proof.
  intros fps H. unfold ticker_period. cbn [NewController K_maxFPS]. destruct (Z.eqb_spec fps 0); [ lia | ]. cbv zeta.
  rewrite Z.quot_div_nonneg by lia. pose proof (Z.div_mod 1000000000 fps ltac:(lia)) as D.
  pose proof (Z.mod_pos_bound 1000000000 fps ltac:(lia)) as B.
  assert (P : (0 < 1000000000 / fps)%Z) by (apply Z.div_str_pos; lia).
  destruct (Z.leb_spec (1000000000 / fps) 0); [ lia | ]. eexists. split; [ reflexivity | ]. split; [ exact P | ]. nia.
Qed.
Theorem C52_spacing_partial : forall fps h s order now s' out n a t, reach fps h s ->
  order ≡ₚ map_to_list (K_OutputAddress s) -> step s (ETick order now) = Ret (s', out) ->
  transmits n a (s, ETick order now, out) = true -> last_sent h n a = Some t ->
  (Z.min fps 250000000 < now - t)%Z.
Proof.
  intros fps h s order now s' out n a t Hr Ho E Ht Hl.
  apply (transmits_iff s order now out n a (reach_inv _ _ _ Hr) Ho) in Ht. destruct Ht as [_ Hd].
  unfold is_due in Hd. cbn [fst snd] in Hd. rewrite (lastupdate_inv fps h s Hr n a), Hl, (reach_fps fps h s Hr) in Hd. cbn in Hd.
  apply orb_true_iff in Hd. rewrite andb_true_iff, !Z.ltb_lt in Hd. lia.
Qed.
(** So with ticks at least d apart, transmissions are at least d apart. *)
Lemma last_sent_tick h n a t : last_sent h n a = Some t -> exists s order out, In (s, ETick order t, out) h.
Proof.
  induction h as [|x h IH] using rev_ind; [ discriminate | ]. unfold last_sent. rewrite fold_left_app.
  fold (last_sent h n a). cbn [fold_left]. destruct x as [[s e] out]. intros H.
  assert (G : last_sent h n a = Some t -> exists s0 order0 out0, In (s0, ETick order0 t, out0) (h ++ [(s, e, out)])).
  { intros G. destruct (IH G) as (s0 & o0 & out0 & Hi). exists s0, o0, out0. apply in_or_app. left. exact Hi. }
  destruct e; try (apply G; exact H). destruct (transmits n a (s, ETick order now, out)); [ | apply G; exact H ].
  injection H as ->. exists s, order, out. apply in_or_app. right. left. reflexivity.
Qed.
Theorem C52_punctual_partial : forall h n a t now d,
  (forall s0 o0 t0 out0, In (s0, ETick o0 t0, out0) h -> d <= now - t0)%Z ->
  last_sent h n a = Some t -> (d <= now - t)%Z.
Proof.
  intros h n a t now d Hp Hl. destruct (last_sent_tick h n a t Hl) as (s0 & o0 & out0 & Hi). exact (Hp s0 o0 t out0 Hi).
Qed.
Example C52_ex : exists h s, reach 1000 h s /\ last_sent h 0 (0, 7) = Some (sec 2) /\ is_due s (sec 2 + 1001) ((0, 7), 0) = true /\
  is_due s (sec 2 + 1000) ((0, 7), 0) = false.
Proof.
  destruct (test_reach before_tick (fun s h => bool_decide (last_sent h 0 (0, 7) = Some (sec 2) /\
    is_due s (sec 2 + 1001) ((0, 7), 0) = true /\ is_due s (sec 2 + 1000) ((0, 7), 0) = false)) before_tick_ok)
    as (s & h & Hr & E); [ vm_compute; reflexivity | ].
  exists h, s. split; [ exact Hr | ]. apply bool_decide_eq_true in E. exact E.
Qed.

(** * C53 *)
Theorem C53_restart_refuted : exists h s s0 out, reach 1000 (h ++ [(s0, EStart, out)]) s /\ unreachable s 0 (0, 7).
Proof.
  destruct (test_reach [Start; Reply (one_port 1 7) (sec 1)] (fun s h => unreachable_bool 0 (0, 7) (start_tables s) h)) as (s & h & Hr & E);
    [ cmds_ok | vm_compute; reflexivity | ].
  exists h, (start_tables s), s, []. split; [ apply reach_step; [ exact Hr | exact I | reflexivity ] | exact (unreachable_bool_ok _ _ _ _ E) ].
Qed.
(** Every restart with a listed output node is affected. *)
Theorem C53_restart_unroutes_refuted : forall s n cn a, n ∈ K_Nodes s -> K_heap s !! n = Some cn ->
  a ∈ addresses (C_OutputPorts (CN_Node cn)) -> unreachable (start_tables s) n a.
Proof. intros s n cn a H1 H2 H3. split; [ exact H1 | ]. split; [ exists cn; auto | apply lookup_empty ]. Qed.
(** What holds: the next reply of a node makes it addressable again (whatever happened before).
    Missing: addressability between the restart and that reply. *)
Theorem C53_reply_restores_partial : forall fps h s p now s' out, reach fps h s -> wf_PollReply p -> tracked p ->
  step s (EReply p now) = Ret (s', out) ->
  exists n, n ∈ K_Nodes s' /\ ip_of s' n = PollReply_IPAddress p /\ forall a, a ∈ reply_outputs p -> K_OutputAddress s' !! a = Some n.
Proof.
  intros fps h s p now s' out Hr Hp Ht E. cbn [step] in E. destruct (handle_reply s p now) as [s1|] eqn:Eh; cbn in E; [ | discriminate E ].
  injection E as <- <-. destruct (C51_tracked_reply_routes fps h s p now s1 Hr Hp Ht Eh) as (n & H1 & H2 & H3 & _). eauto.
Qed.
(** A node is unroutable after the restart; its next answer routes it again. *)
Example C53_ex : exists h s s' out, reach 1000 h s /\ unreachable s 0 (0, 7) /\ wf_PollReply (one_port 1 7) /\ tracked (one_port 1 7) /\
  step s (EReply (one_port 1 7) (sec 2)) = Ret (s', out) /\ (0, 7) ∈ reply_outputs (one_port 1 7) /\ K_OutputAddress s' !! (0, 7) = Some 0.
Proof.
  destruct (test_reach [Start; Reply (one_port 1 7) (sec 1); Start] (fun s h => unreachable_bool 0 (0, 7) s h && match step s (EReply (one_port 1 7) (sec 2)) with
      Ret (s', _) => bool_decide (K_OutputAddress s' !! (0, 7) = Some 0) | Panic => false end)) as (s & h & Hr & E); [ cmds_ok | vm_compute; reflexivity | ].
  apply andb_prop in E. destruct E as [E1 E2]. destruct (step s (EReply (one_port 1 7) (sec 2))) as [[s' out]|] eqn:Es; [ | discriminate E2 ]. apply bool_decide_eq_true in E2.
  exists h, s, s', out. split; [ exact Hr | ]. split; [ exact (unreachable_bool_ok _ _ _ _ E1) | ]. split; [ repeat (split; [ repeat constructor | ]); repeat constructor | ].
  split; [ exact (proj1 C51_ex) | ]. split; [ exact Es | ]. split; [ vm_compute; left | exact E2 ].
Qed.

(** * C55 *)
(** A known node announces an additional port: until the next tick writes to it are dropped. *)
Definition new_port : list cmd := [Start; Reply (one_port 1 7) (sec 1); Reply (two_ports 1 7 8) (sec 2)].
Theorem C55_write_lost_refuted : exists h s n d, reach 1000 h s /\ K_OutputAddress s !! (0, 8) = Some n /\
  array_ok 512 d /\ accepted s d (0, 8) = false /\
  forall s' ok, SendDMXToAddress s d (0, 8) = Ret (s', ok) -> forall m a, stored s' m a = stored s m a.
Proof.
  destruct (test_reach new_port (fun s h => bool_decide (K_OutputAddress s !! (0, 8) = Some 0 /\ stored s 0 (0, 8) = None)))
    as (s & h & Hr & E); [ unfold new_port; cmds_ok | vm_compute; reflexivity | ].
  apply bool_decide_eq_true in E. destruct E as [E1 E2]. exists h, s, 0, (repeat 255 512).
  destruct (C43_send_without_buffer _ _ s (repeat 255 512) _ _ Hr E1 E2) as (s1 & Es & _ & Hs).
  split; [ exact Hr | ]. split; [ exact E1 | ]. split; [ exact full_ok | ]. unfold accepted. rewrite Es.
  split; [ reflexivity | ]. intros s' ok [= <- _]. exact Hs.
Qed.
Lemma ready_kept fps h2 : forall h1 x s, reach fps (h1 ++ x :: h2) s ->
  (exists order now, snd (fst x) = ETick order now) ->
  (forall s0 e out, In (s0, e, out) h2 -> match e with EReply _ _ => False | _ => True end) ->
  forall a n, K_OutputAddress s !! a = Some n -> is_Some (stored s n a).
Proof.
  induction h2 as [|y h2 IH] using rev_ind; intros h1 x s Hr Hx Hnr a n Ha.
  - inversion Hr as [E|h s0 e0 s1 o0 Hr0 Ho Es E]; [ destruct h1; discriminate | ].
    apply app_inj_tail in E. destruct E as [-> <-]. destruct Hx as (order & now & Ex). cbn in Ex. subst e0.
    destruct (C44_tick_effect fps h1 s0 order now s o0 Hr0 Ho Es) as (_ & E2 & _ & _ & Hs).
    rewrite E2 in Ha. rewrite Hs, decide_True by exact Ha. eauto.
  - inversion Hr as [E|h s0 e0 s1 o0 Hr0 Ho Es E]; [ destruct h1; discriminate | ].
    change (x :: h2 ++ [y]) with ((x :: h2) ++ [y]) in E. rewrite app_assoc in E. apply app_inj_tail in E. destruct E as [-> <-].
    assert (R : forall a n, K_OutputAddress s0 !! a = Some n -> is_Some (stored s0 n a)).
    { apply (IH h1 x s0 Hr0 Hx). intros s2 e2 o2 Hi. apply (Hnr s2 e2 o2). apply in_or_app. left. exact Hi. }
    specialize (Hnr s0 e0 o0 ltac:(apply in_or_app; right; left; reflexivity)).
    pose proof (reach_inv _ _ _ Hr0) as HI0.
    destruct e0 as [p now|clock|dmx b|order now|]; [ destruct Hnr | | | | ].
    + cbn [step] in Es. destruct (gcNode_eq s0 clock HI0) as (s2 & k & Eg & C). rewrite Eg in Es. cbn in Es. injection Es as <- <-.
      unfold stored. rewrite (col_heap _ _ _ _ _ C). apply R. apply (col_out_sub _ _ _ _ _ C). exact Ha.
    + cbn [step] in Es. destruct (K_OutputAddress s0 !! b) as [m|] eqn:Eb.
      2:{ rewrite (C43_send_unrouted s0 dmx b Eb) in Es. cbn in Es. injection Es as <- <-. apply R. exact Ha. }
      destruct (R b m Eb) as [bf Hb].
      destruct (C43_send_routed s0 dmx b m bf Eb Hb) as (s2 & E1 & (_ & T & _) & S1 & S2). rewrite E1 in Es. cbn in Es. injection Es as <- <-.
      rewrite T in Ha. destruct (decide ((n, a) = (m, b))) as [[= -> ->]|Hd]; [ rewrite S1; eauto | rewrite S2 by exact Hd; apply R; exact Ha ].
    + destruct (C44_tick_effect fps _ s0 order now s o0 Hr0 Ho Es) as (_ & E2 & _ & _ & Hs).
      rewrite E2 in Ha. rewrite Hs, decide_True by exact Ha. eauto.
    + cbn in Es. injection Es as <- <-. cbn in Ha. rewrite lookup_empty in Ha. discriminate.
Qed.
(** What holds: after a tick and until the next reply every write to a routed universe is stored.
    Missing: writes between a reply that adds a port to a known node and the next tick. *)
Theorem C55_write_stored_partial : forall fps h1 s0 order now out h2 s a n d,
  reach fps (h1 ++ (s0, ETick order now, out) :: h2) s ->
  (forall s0 e out, In (s0, e, out) h2 -> match e with EReply _ _ => False | _ => True end) ->
  K_OutputAddress s !! a = Some n ->
  exists s', SendDMXToAddress s d a = Ret (s', true) /\ B_Data (pending s' n a) = d /\ B_Stale (pending s' n a) = true.
Proof.
  intros fps h1 s0 order now out h2 s a n d Hr Hnr Ha.
  destruct (ready_kept fps h2 h1 _ s Hr ltac:(cbn; eauto) Hnr a n Ha) as [b Hb].
  destruct (C43_send_routed s d a n b Ha Hb) as (s' & E & _ & S1 & _). exists s'. split; [ exact E | ].
  unfold pending. rewrite S1. split; reflexivity.
Qed.
(** Also right after the discovery of a node. *)
Theorem C55_new_node_partial : forall fps h s p now s' out a n d, reach fps h s -> wf_PollReply p -> tracked p ->
  (forall m, m ∈ K_Nodes s -> ip_of s m <> PollReply_IPAddress p) ->
  step s (EReply p now) = Ret (s', out) -> a ∈ reply_outputs p -> K_OutputAddress s' !! a = Some n ->
  exists s'', SendDMXToAddress s' d a = Ret (s'', true) /\ B_Data (pending s'' n a) = d.
Proof.
  intros fps h s p now s' out a n d Hr Hp Ht Hnew E Ha Hn. cbn [step] in E. pose proof (reach_inv _ _ _ Hr) as H.
  destruct (handle_reply_eq s p now Hp) as (cfg & Ec & Hip & Eo & _ & Hok & Eh). rewrite decide_True in Eh by exact Ht.
  destruct (updateNode_eq s cfg now H) as [(m & cm & Hm & Hcm & Hi & Eu)|(_ & Eu)].
  { exfalso. apply (Hnew m Hm). unfold ip_of. rewrite Hcm. congruence. }
  rewrite Eh, Eu in E. cbn [bind] in E. injection E as <- <-.
  cbn in Hn. rewrite insert_ports_lookup, Eo, decide_True in Hn by exact Ha. injection Hn as <-.
  destruct (C43_send_routed (added s cfg now) d a (K_next s) empty_buf) as (s'' & E & _ & S1 & _).
  - cbn. rewrite insert_ports_lookup, Eo, decide_True by exact Ha. reflexivity.
  - unfold stored. cbn. rewrite lookup_insert. cbn. rewrite blackout_lookup, Eo, decide_True by exact Ha. reflexivity.
  - exists s''. split; [ exact E | ]. unfold pending. rewrite S1. reflexivity.
Qed.
Example C55_ex : exists s h, reach 1000 h s /\ K_OutputAddress s !! (0, 7) = Some 0 /\
  map (fun x => match snd (fst x) with ETick _ _ => 1 | EReply _ _ => 2 | _ => 0 end) h = [0; 2; 2; 1; 0].
Proof.
  destruct (test_reach before_tick (fun s h => bool_decide (K_OutputAddress s !! (0, 7) = Some 0 /\
    map (fun x => match snd (fst x) with ETick _ _ => 1 | EReply _ _ => 2 | _ => 0 end) h = [0; 2; 2; 1; 0])) before_tick_ok)
    as (s & h & Hr & E); [ vm_compute; reflexivity | ].
  exists s, h. split; [ exact Hr | ]. apply bool_decide_eq_true in E. exact E.
Qed.

Definition P_Controller_theorems :=
  (C40_events_never_panic,
   C40_each_ip_once,
   C40_listed_nodes_exist,
   C41_routing_never_dangles,
   C42_routable_refuted,
   C42_routable_move_refuted,
   C42_routable_partial,
   C43_send_unrouted,
   C43_send_routed,
   C43_send_without_buffer,
   C43_send_never_panics,
   C44_tick_sends_exactly_the_due,
   C44_at_most_once,
   C44_tick_effect,
   C45_frames_are_right,
   C46_last_write_wins,
   C47_sequence_zero_refuted,
   C47_sequence_partial,
   C47_served_are_sent_partial,
   C48_keep_alive,
   C48_new_data_goes_out,
   C49_gc,
   C49_gc_instant,
   C50_delete_panics_refuted,
   C50_delete_always_fails_refuted,
   C50_delete_partial,
   C51_ignored_reply,
   C51_tracked_reply,
   C51_tracked_reply_routes,
   C52_crash_refuted,
   C52_rate_refuted,
   C52_no_crash_partial,
   C52_spacing_partial,
   C52_punctual_partial,
   C53_restart_refuted,
   C53_restart_unroutes_refuted,
   C53_reply_restores_partial,
   C55_write_lost_refuted,
   C55_write_stored_partial,
   C55_new_node_partial).
Print Assumptions P_Controller_theorems.
