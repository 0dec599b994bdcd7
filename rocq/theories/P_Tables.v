(** C108: what a program sees that reads the exported tables of a running controller (c.Nodes, c.OutputAddress, c.InputAddress: /repo/controller.go:87-89) without the lock, which it cannot take (nodeLock is
    not exported, controller.go:90). *)
From Verif Require Import WireSpec P_Config ControllerFacts P_Controller SysFacts SysLaws SysRun SysOrder SysScript P_Node P_Life P_Live P_Race P_Access Fine P_Atomic.
From stdpp Require Import base list gmap.
Open Scope N_scope.

(** * Executions of the finer model in which every section runs the program's code *)
(** Fine.v allows any body that does what the operation does when run on its own; here a section that is entered is that of an operation, access by access as in the source. *)
Definition own_code (z z' : fsys) : Prop := F_in z = None -> forall x, F_in z' = Some x -> exists e, rest x = code e.
Inductive csteps (E : env) : fsys -> list label -> fsys -> list obs -> Prop :=
| csteps_nil z : csteps E z [] z []
| csteps_snoc z ls z1 tr l z2 o : csteps E z ls z1 tr -> fstep E z1 l z2 o -> own_code z1 z2 -> csteps E z (ls ++ l) z2 (tr ++ o).
Definition cruns (E : env) (ls : list label) (z : fsys) (tr : list obs) : Prop := csteps E (mkF (init E) None) ls z tr.
Lemma csteps_fsteps E z ls z' tr : csteps E z ls z' tr -> fsteps E z ls z' tr.
Proof. induction 1; econstructor; eassumption. Qed.

(** * What holds at every instant *)
(** The tables are sound: what they refer to is there. (The entries of the maps are backed by the configuration of a node of the list; no two nodes of the list have the same IP.) *)
Record sound (k : Controller) : Prop := mkSound {
  snd_next : forall n cn, K_heap k !! n = Some cn -> n < K_next k;
  snd_listed : forall n, n ∈ K_Nodes k -> is_Some (K_heap k !! n);
  snd_ip : NoDup (map (ip_of k) (K_Nodes k));
  snd_out : forall a n, K_OutputAddress k !! a = Some n -> backed k C_OutputPorts a n;
  snd_in : forall a n, K_InputAddress k !! a = Some n -> backed k C_InputPorts a n }.
Lemma Inv_sound k : Inv k -> sound k.
Proof. intros H. constructor; apply H. Qed.

(** Q holds of the tables before, between and after all the accesses of the body p, started on the tables k and not interfered with. *)
Fixpoint through (Q : Controller -> Prop) (p : prog) (k : Controller) : Prop :=
  match p with
  | Done | Fail => Q k
  | Act f p => Q k /\ through Q (p k) (f k)
  | Push f p => Q k /\ through Q p k
  end.
Lemma through_now (Q : Controller -> Prop) p k : through Q p k -> Q k.
Proof. destruct p; cbn; tauto. Qed.
Lemma through_Read (Q : Controller -> Prop) p k : Q k -> through Q (p k) k -> through Q (Read p) k.
Proof. intros H1 H2. split; assumption. Qed.
Lemma through_Deref (Q : Controller -> Prop) n p k : Q k -> (forall cn, K_heap k !! n = Some cn -> through Q (p cn) k) -> through Q (Deref n p) k.
Proof. intros H1 H2. split; [ exact H1 | ]. destruct (K_heap k !! n) as [cn|] eqn:Hn; [ exact (H2 cn eq_refl) | exact H1 ]. Qed.

(** Assigning to a node without changing its configuration. *)
Lemma backed_at k n g ports a m : (forall cn, CN_Node (g cn) = CN_Node cn) -> backed k ports a m -> backed (at_node n g k) ports a m.
Proof.
  intros Hg [H1 (c & Hc & Ha)]. split; [ exact H1 | ]. cbn. destruct (decide (m = n)) as [->|Hne].
  - exists (g c). rewrite lookup_alter, Hc. cbn. rewrite Hg. auto.
  - exists c. rewrite lookup_alter_ne by congruence. auto.
Qed.
Lemma ip_of_at k n g m : (forall cn, K_heap k !! n = Some cn -> C_IP (CN_Node (g cn)) = C_IP (CN_Node cn)) -> ip_of (at_node n g k) m = ip_of k m.
Proof.
  intros Hg. unfold ip_of. cbn. destruct (decide (m = n)) as [->|Hne].
  - rewrite lookup_alter. destruct (K_heap k !! n) as [cn|]; cbn; [ exact (Hg _ eq_refl) | reflexivity ].
  - rewrite lookup_alter_ne by congruence. reflexivity.
Qed.
Lemma next_at k n g : sound k -> forall m cn, K_heap (at_node n g k) !! m = Some cn -> m < K_next (at_node n g k).
Proof.
  intros H m cn. cbn. destruct (decide (m = n)) as [->|Hne].
  - rewrite lookup_alter. intros X. apply fmap_Some in X. destruct X as (c & Hc & _). exact (snd_next k H _ _ Hc).
  - rewrite lookup_alter_ne by congruence. apply (snd_next k H).
Qed.
Lemma listed_at k n g : sound k -> forall m, m ∈ K_Nodes (at_node n g k) -> is_Some (K_heap (at_node n g k) !! m).
Proof.
  intros H m Hm. cbn in *. destruct (decide (m = n)) as [->|Hne].
  - rewrite lookup_alter. destruct (snd_listed k H n Hm) as [c Hc]. rewrite Hc. cbn. eauto.
  - rewrite lookup_alter_ne by congruence. apply (snd_listed k H). exact Hm.
Qed.
Lemma sound_at k n g : (forall cn, CN_Node (g cn) = CN_Node cn) -> sound k -> sound (at_node n g k).
Proof.
  intros Hg H. constructor; [ exact (next_at _ _ _ H) | exact (listed_at _ _ _ H) | | | ].
  - erewrite map_ext; [ exact (snd_ip k H) | ]. intros m. apply ip_of_at. intros cn _. rewrite Hg. reflexivity.
  - intros a m Hm. apply backed_at; [ exact Hg | ]. exact (snd_out k H a m Hm).
  - intros a m Hm. apply backed_at; [ exact Hg | ]. exact (snd_in k H a m Hm).
Qed.
Lemma sound_buf k n a g : sound k -> sound (at_buf n a g k).
Proof. apply sound_at. reflexivity. Qed.

Lemma sound_out k m : sound k -> (forall a n, m !! a = Some n -> backed k C_OutputPorts a n) -> sound (set_out k m).
Proof. intros H Hm. constructor; [ apply H | apply H | exact (snd_ip k H) | exact Hm | exact (snd_in k H) ]. Qed.
Lemma sound_in k m : sound k -> (forall a n, m !! a = Some n -> backed k C_InputPorts a n) -> sound (set_in k m).
Proof. intros H Hm. constructor; [ apply H | apply H | exact (snd_ip k H) | exact (snd_out k H) | exact Hm ]. Qed.

Lemma set_out_same k : set_out k (K_OutputAddress k) = k.
Proof. destruct k. reflexivity. Qed.
Lemma set_in_same k : set_in k (K_InputAddress k) = k.
Proof. destruct k. reflexivity. Qed.
Lemma through_del_out ports next : forall k, sound k -> (sound (set_out k (delete_ports (K_OutputAddress k) ports)) -> through sound next (set_out k (delete_ports (K_OutputAddress k) ports))) ->
  through sound (del_out ports next) k.
Proof.
  induction ports as [|q ports IH]; intros k H Hn; cbn [del_out through].
  - cbn in Hn. rewrite set_out_same in Hn. exact (Hn H).
  - split; [ exact H | ]. apply IH; [ | exact Hn ]. apply sound_out; [ exact H | ]. intros a n Ha. apply lookup_delete_Some in Ha. exact (snd_out k H _ _ (proj2 Ha)).
Qed.
Lemma through_del_in ports next : forall k, sound k -> (sound (set_in k (delete_ports (K_InputAddress k) ports)) -> through sound next (set_in k (delete_ports (K_InputAddress k) ports))) ->
  through sound (del_in ports next) k.
Proof.
  induction ports as [|q ports IH]; intros k H Hn; cbn [del_in through].
  - cbn in Hn. rewrite set_in_same in Hn. exact (Hn H).
  - split; [ exact H | ]. apply IH; [ | exact Hn ]. apply sound_in; [ exact H | ]. intros a n Ha. apply lookup_delete_Some in Ha. exact (snd_in k H _ _ (proj2 Ha)).
Qed.
Lemma through_ins_out n ports next : forall k, sound k -> Forall (fun q => backed k C_OutputPorts (P_Address q) n) ports ->
  (sound (set_out k (insert_ports (K_OutputAddress k) ports n)) -> through sound next (set_out k (insert_ports (K_OutputAddress k) ports n))) -> through sound (ins_out ports n next) k.
Proof.
  induction ports as [|q ports IH]; intros k H Hb Hn; cbn [ins_out through].
  - cbn in Hn. rewrite set_out_same in Hn. exact (Hn H).
  - apply Forall_cons in Hb. destruct Hb as [Hq Hb]. split; [ exact H | ]. apply IH; [ | exact Hb | exact Hn ]. apply sound_out; [ exact H | ]. intros a m Ha. apply lookup_insert_Some in Ha.
    destruct Ha as [[<- <-]|[_ Ha]]; [ exact Hq | exact (snd_out k H _ _ Ha) ].
Qed.
Lemma through_ins_in n ports next : forall k, sound k -> Forall (fun q => backed k C_InputPorts (P_Address q) n) ports ->
  (sound (set_in k (insert_ports (K_InputAddress k) ports n)) -> through sound next (set_in k (insert_ports (K_InputAddress k) ports n))) -> through sound (ins_in ports n next) k.
Proof.
  induction ports as [|q ports IH]; intros k H Hb Hn; cbn [ins_in through].
  - cbn in Hn. rewrite set_in_same in Hn. exact (Hn H).
  - apply Forall_cons in Hb. destruct Hb as [Hq Hb]. split; [ exact H | ]. apply IH; [ | exact Hb | exact Hn ]. apply sound_in; [ exact H | ]. intros a m Ha. apply lookup_insert_Some in Ha.
    destruct Ha as [[<- <-]|[_ Ha]]; [ exact Hq | exact (snd_in k H _ _ Ha) ].
Qed.
Lemma through_ins k n cn : sound k -> n ∈ K_Nodes k -> K_heap k !! n = Some cn ->
  through sound (ins_out (C_OutputPorts (CN_Node cn)) n (ins_in (C_InputPorts (CN_Node cn)) n Done)) k.
Proof.
  intros H Hn Hc.
  assert (B : forall (ports : NodeConfig -> list Port) k', K_Nodes k' = K_Nodes k -> K_heap k' = K_heap k -> Forall (fun q => backed k' ports (P_Address q) n) (ports (CN_Node cn))).
  { intros ports k' E1 E2. apply Forall_forall. intros q Hq. split; [ rewrite E1; exact Hn | ]. exists cn. rewrite E2. split; [ exact Hc | ]. unfold addresses. apply elem_of_list_fmap. eauto. }
  apply through_ins_out; [ exact H | apply B; reflexivity | ]. intros H'. apply through_ins_in; [ exact H' | apply B; reflexivity | ]. intros H''. exact H''.
Qed.

(** * The sections *)
Lemma through_send dmx a k : sound k -> through sound (code (ESend dmx a)) k.
Proof.
  intros H. apply through_Read; [ exact H | ]. destruct (K_OutputAddress k !! a) as [n|]; [ | exact H ]. apply through_Deref; [ exact H | ]. intros cn _. destruct (CN_DMXBuffer cn !! a); [ | exact H ].
  repeat (split; [ first [ exact H | apply sound_buf; exact H ] | ]). apply sound_buf, sound_buf. exact H.
Qed.
Lemma through_update n a now err next k : (forall k, sound k -> through sound err k) -> (forall k, sound k -> through sound next k) -> sound k -> through sound (update_prog n a now err next) k.
Proof.
  intros He Hn H. apply through_Deref; [ exact H | ]. intros cn _. destruct (CN_DMXBuffer cn !! a); [ | exact (He _ H) ]. split; [ exact H | ].
  apply (sound_at k n (fun cn => mkCN (CN_LastSeen cn) (CN_Node cn) (CN_UDPAddress cn) (u8 (CN_Sequence cn + 1)) (CN_DMXBuffer cn))) in H; [ | reflexivity ]. revert H. generalize (at_node n (fun cn => mkCN (CN_LastSeen cn) (CN_Node cn) (CN_UDPAddress cn) (u8 (CN_Sequence cn + 1)) (CN_DMXBuffer cn)) k). clear k. intros k H.
  apply through_Deref; [ exact H | ]. intros cn' _. destruct (CN_DMXBuffer cn' !! a); [ | exact H ]. destruct (snd _); [ | exact (He _ H) ].
  split; [ exact H | ]. split; [ apply sound_buf; exact H | ]. apply through_Deref; [ apply sound_buf, sound_buf; exact H | ]. intros cn'' _. split; [ apply sound_buf, sound_buf; exact H | ].
  apply Hn. apply sound_buf, sound_buf. exact H.
Qed.
Lemma through_force n a now next k : (forall k, sound k -> through sound next k) -> sound k -> through sound (force_prog n a now next) k.
Proof. intros Hn H. apply through_Deref; [ exact H | ]. intros cn _. destruct (CN_DMXBuffer cn !! a); [ | exact H ]. destruct (_ <? _)%Z; [ apply through_update; assumption | exact (Hn _ H) ]. Qed.
Lemma through_stale fps n a now next k : (forall k, sound k -> through sound next k) -> sound k -> through sound (stale_prog fps n a now next) k.
Proof.
  intros Hn H. assert (F : forall k, sound k -> through sound (force_prog n a now next) k) by (intros k' H'; apply through_force; assumption).
  apply through_Deref; [ exact H | ]. intros cn _. destruct (CN_DMXBuffer cn !! a); [ | exact H ]. destruct (_ && _); [ apply through_update; assumption | exact (F _ H) ].
Qed.
Lemma through_entries fps now order : forall k, sound k -> through sound (entries_prog fps order now) k.
Proof.
  induction order as [|[a n] order IH]; intros k H; cbn [entries_prog]; [ exact H | ]. apply through_Deref; [ exact H | ]. intros cn _. destruct (CN_DMXBuffer cn !! a); [ apply through_stale; [ exact IH | exact H ] | ].
  split; [ exact H | ]. apply through_stale; [ exact IH | ]. apply sound_at; [ reflexivity | exact H ].
Qed.
Lemma through_find ip found none k : sound k -> forall nodes,
  (forall n cn, n ∈ nodes -> K_heap k !! n = Some cn -> C_IP (CN_Node cn) = ip -> through sound (found n) k) ->
  ((forall n, n ∈ nodes -> ip_of k n <> ip) -> through sound none k) -> through sound (find_prog ip nodes found none) k.
Proof.
  intros H nodes. induction nodes as [|n nodes IH]; intros Hf Hn; cbn [find_prog].
  - apply Hn. intros n Hx. inversion Hx.
  - apply through_Deref; [ exact H | ]. intros cn Hc. destruct (eqbytes ip (C_IP (CN_Node cn))) eqn:He.
    + apply eqbytes_eq in He. eapply Hf; [ left | exact Hc | symmetry; exact He ].
    + apply IH; [ intros m c Hm; apply Hf; right; exact Hm | ]. intros Hx. apply Hn. intros m Hm. apply elem_of_cons in Hm. destruct Hm as [->|Hm]; [ | exact (Hx m Hm) ].
      unfold ip_of. rewrite Hc. intros E. assert (eqbytes ip (C_IP (CN_Node cn)) = true) by (apply eqbytes_eq; congruence). congruence.
Qed.
(** No entry of the maps leads to n any more. *)
Lemma unlinked k n cn : sound k -> K_heap k !! n = Some cn ->
  (forall a, delete_ports (K_OutputAddress k) (C_OutputPorts (CN_Node cn)) !! a <> Some n) /\ (forall a, delete_ports (K_InputAddress k) (C_InputPorts (CN_Node cn)) !! a <> Some n).
Proof.
  intros H Hc. split; intros a; rewrite delete_ports_lookup; destruct (decide _) as [_|Hd]; try discriminate; intros Ha; apply Hd.
  - destruct (snd_out k H _ _ Ha) as [_ (c & Hc' & Hin)]. congruence.
  - destruct (snd_in k H _ _ Ha) as [_ (c & Hc' & Hin)]. congruence.
Qed.
Lemma sound_replace k n cfg cn : sound k -> K_heap k !! n = Some cn -> C_IP cfg = C_IP (CN_Node cn) -> (forall a, K_OutputAddress k !! a <> Some n) -> (forall a, K_InputAddress k !! a <> Some n) ->
  sound (at_node n (fun cn => mkCN (CN_LastSeen cn) cfg (CN_UDPAddress cn) (CN_Sequence cn) (CN_DMXBuffer cn)) k).
Proof.
  intros H Hc Hip Ho Hi. constructor; [ exact (next_at _ _ _ H) | exact (listed_at _ _ _ H) | | | ].
  - erewrite map_ext; [ exact (snd_ip k H) | ]. intros m. apply ip_of_at. intros c Hc'. cbn. congruence.
  - intros a m Hm. cbn in Hm. assert (m <> n) by (intros ->; exact (Ho _ Hm)). destruct (snd_out k H _ _ Hm) as [H1 (c & Hc' & Hin)]. split; [ exact H1 | ]. exists c. cbn. rewrite lookup_alter_ne by congruence. auto.
  - intros a m Hm. cbn in Hm. assert (m <> n) by (intros ->; exact (Hi _ Hm)). destruct (snd_in k H _ _ Hm) as [H1 (c & Hc' & Hin)]. split; [ exact H1 | ]. exists c. cbn. rewrite lookup_alter_ne by congruence. auto.
Qed.
Lemma through_known cfg now n k cn : sound k -> n ∈ K_Nodes k -> K_heap k !! n = Some cn -> C_IP (CN_Node cn) = C_IP cfg -> through sound (known_prog cfg now n) k.
Proof.
  intros H Hn Hc Hip. apply through_Deref; [ exact H | ]. intros cn' Hc'. rewrite Hc in Hc'. injection Hc' as <-. destruct (unlinked k n cn H Hc) as [U1 U2].
  apply through_del_out; [ exact H | ]. intros H1. apply through_del_in; [ exact H1 | ]. intros H2. split; [ exact H2 | ].
  match type of H2 with sound ?x => set (k2 := x) in * end. assert (Hc2 : K_heap k2 !! n = Some cn) by exact Hc. assert (Hn2 : n ∈ K_Nodes k2) by exact Hn.
  assert (H3 := sound_replace k2 n cfg cn H2 Hc2 (eq_sym Hip) U1 U2). split; [ exact H3 | ].
  set (k3 := at_node n _ k2) in *. apply (sound_at k3 n (fun cn => mkCN now (CN_Node cn) (CN_UDPAddress cn) (CN_Sequence cn) (CN_DMXBuffer cn))) in H3; [ | reflexivity ].
  match type of H3 with sound ?x => set (k4 := x) in * end.
  assert (Hc4 : K_heap k4 !! n = Some (mkCN now cfg (CN_UDPAddress cn) (CN_Sequence cn) (CN_DMXBuffer cn))). { unfold k4, k3. cbn. rewrite !lookup_alter. cbn in Hc. rewrite Hc. reflexivity. }
  exact (through_ins k4 n _ H3 Hn2 Hc4).
Qed.
Lemma through_new cfg now k : sound k -> (forall n, n ∈ K_Nodes k -> ip_of k n <> C_IP cfg) -> through sound (new_prog cfg now) k.
Proof.
  intros H Hnew. set (n := K_next k). set (cn := mkCN now cfg (C_IP cfg, ArtNetPort) 0 (blackout (C_OutputPorts cfg))).
  set (k1 := mkController (<[n := cn]> (K_heap k)) (n + 1) (K_Nodes k) (K_OutputAddress k) (K_InputAddress k) (K_maxFPS k)).
  assert (Fr : forall m c, K_heap k !! m = Some c -> n <> m). { intros m c Hm E. pose proof (snd_next k H m c Hm). unfold n in E. lia. }
  assert (Ip : forall m, m ∈ K_Nodes k -> ip_of k1 m = ip_of k m). { intros m Hm. destruct (snd_listed k H m Hm) as [c Hc]. unfold ip_of. cbn. rewrite lookup_insert_ne by exact (Fr m c Hc). reflexivity. }
  assert (Im : map (ip_of k1) (K_Nodes k) = map (ip_of k) (K_Nodes k)).
  { revert Ip. generalize (K_Nodes k). induction l as [|x l IH]; intros Ip; [ reflexivity | ]. cbn. rewrite (Ip x) by left. f_equal. apply IH. intros m Hm. apply Ip. right. exact Hm. }
  assert (Bk : forall nodes ports a m, (forall x, x ∈ K_Nodes k -> x ∈ nodes) -> backed k ports a m -> backed (set_nodes k1 nodes) ports a m).
  { intros nodes ports a m Hs [H1 (c & Hc & Ha)]. split; [ apply Hs; exact H1 | ]. exists c. cbn. rewrite lookup_insert_ne by exact (Fr m c Hc). auto. }
  assert (S1 : sound k1).
  { constructor.
    - intros m c. cbn. destruct (decide (n = m)) as [<-|Hne]; [ intros _; lia | ]. rewrite lookup_insert_ne by exact Hne. intros Hm. pose proof (snd_next k H m c Hm). unfold n. lia.
    - intros m Hm. cbn. destruct (decide (n = m)) as [<-|Hne]; [ rewrite lookup_insert; eauto | ]. rewrite lookup_insert_ne by exact Hne. exact (snd_listed k H m Hm).
    - cbn [k1 K_Nodes]. fold k1. rewrite Im. exact (snd_ip k H).
    - intros a m Hm. exact (Bk (K_Nodes k) C_OutputPorts a m (fun x Hx => Hx) (snd_out k H a m Hm)).
    - intros a m Hm. exact (Bk (K_Nodes k) C_InputPorts a m (fun x Hx => Hx) (snd_in k H a m Hm)). }
  split; [ exact H | ]. split; [ exact S1 | ]. fold n. fold cn. change (mkController _ _ _ _ _ _) with k1. set (k2 := set_nodes k1 (K_Nodes k1 ++ [n])).
  assert (S2 : sound k2).
  { assert (Sub : forall x, x ∈ K_Nodes k -> x ∈ K_Nodes k ++ [n]) by (intros x Hx; apply elem_of_app; left; exact Hx). constructor.
    - exact (snd_next k1 S1).
    - intros m Hm. cbn in *. destruct (decide (n = m)) as [<-|Hne]; [ rewrite lookup_insert; eauto | ]. apply elem_of_app in Hm. destruct Hm as [Hm|Hm]; [ exact (snd_listed k1 S1 m Hm) | ].
      apply elem_of_list_singleton in Hm. congruence.
    - change (ip_of k2) with (ip_of k1). cbn [k2 set_nodes K_Nodes k1]. fold k1. rewrite map_app, Im. apply NoDup_app. split; [ exact (snd_ip k H) | ]. split; [ | apply NoDup_singleton ].
      intros x Hx Hs. apply elem_of_list_singleton in Hs. apply elem_of_list_fmap in Hx. destruct Hx as (m & -> & Hm). apply (Hnew m Hm). rewrite Hs. unfold ip_of. cbn. rewrite lookup_insert. reflexivity.
    - intros a m Hm. exact (Bk _ C_OutputPorts a m Sub (snd_out k H a m Hm)).
    - intros a m Hm. exact (Bk _ C_InputPorts a m Sub (snd_in k H a m Hm)). }
  change (C_OutputPorts cfg) with (C_OutputPorts (CN_Node cn)). change (C_InputPorts cfg) with (C_InputPorts (CN_Node cn)).
  apply through_ins; [ exact S2 | cbn; apply elem_of_app; right; left | cbn; apply lookup_insert ].
Qed.
Lemma through_reply q now k : sound k -> through sound (code (EReply q now)) k.
Proof.
  intros H. cbn [code]. unfold reply_prog. destruct (ConfigFromArtPollReply q) as [cfg|]; [ | exact H ]. destruct (_ && _); [ exact H | ]. destruct (_ && _); [ exact H | ]. apply through_Read; [ exact H | ].
  apply through_find; [ exact H | | ].
  - intros n cn Hn Hc Hip. exact (through_known _ _ _ _ _ H Hn Hc Hip).
  - intros Hn. apply through_new; assumption.
Qed.
Lemma sound_remove k i n cn : sound k -> nth_error (K_Nodes k) i = Some n -> K_heap k !! n = Some cn -> (forall a, K_OutputAddress k !! a <> Some n) -> (forall a, K_InputAddress k !! a <> Some n) ->
  sound (set_nodes k (remove_at i (K_Nodes k))).
Proof.
  intros H Hi Hc Ho Hin. assert (ND : NoDup (K_Nodes k)) by (eapply NoDup_fmap_1; exact (snd_ip k H)).
  rewrite (remove_at_filter _ _ _ ND Hi).
  assert (B : forall ports a m, m <> n -> backed k ports a m -> backed (set_nodes k (filter (fun m => m <> n) (K_Nodes k))) ports a m).
  { intros ports a m Hne [H1 H2]. split; [ | exact H2 ]. cbn. apply elem_of_list_filter. auto. }
  constructor.
  - exact (snd_next k H).
  - intros m Hm. cbn in *. apply elem_of_list_filter in Hm. exact (snd_listed k H m (proj2 Hm)).
  - change (ip_of (set_nodes _ _)) with (ip_of k). cbn. pose proof (snd_ip k H) as D. revert D. generalize (K_Nodes k). induction l as [|x l IH]; intros D; [ constructor | ].
    cbn in D. apply NoDup_cons in D. destruct D as [Hx D]. rewrite filter_cons. destruct (decide (x <> n)); [ | apply IH; exact D ]. cbn. apply NoDup_cons. split; [ | apply IH; exact D ].
    intros Hm. apply Hx. apply elem_of_list_fmap in Hm. destruct Hm as (m & E & Hm). apply elem_of_list_filter in Hm. rewrite E. apply elem_of_list_fmap_1 with (f := ip_of k). apply Hm.
  - intros a m Hm. apply B; [ intros ->; exact (Ho _ Hm) | exact (snd_out k H a m Hm) ].
  - intros a m Hm. apply B; [ intros ->; exact (Hin _ Hm) | exact (snd_in k H a m Hm) ].
Qed.
Lemma through_scan clock again is : (forall j k, sound k -> through sound (again j) k) -> forall j k, sound k -> through sound (scan_prog clock j is again) k.
Proof.
  intros Ha. induction is as [|i is IH]; intros j k H; cbn [scan_prog]; [ exact H | ]. apply through_Read; [ exact H | ]. destruct (nth_error (K_Nodes k) i) as [n|] eqn:Hi; [ | exact H ].
  apply through_Deref; [ exact H | ]. intros cn Hc. destruct (_ <? _)%Z; [ | apply IH; exact H ]. destruct (unlinked k n cn H Hc) as [U1 U2].
  apply through_del_out; [ exact H | ]. intros H1. apply through_del_in; [ exact H1 | ]. intros H2. split; [ exact H2 | ]. apply Ha. exact (sound_remove _ i n cn H2 Hi Hc U1 U2).
Qed.
Lemma through_start clock fuel : forall j k, sound k -> through sound (start_prog fuel clock j) k.
Proof. induction fuel as [|fuel IH]; intros j k H; cbn [start_prog]; [ exact H | ]. apply through_Read; [ exact H | ]. apply through_scan; assumption. Qed.
Lemma through_code e k : sound k -> through sound (code e) k.
Proof.
  intros H. destruct e as [q now|clock|dmx a|order now|].
  - exact (through_reply q now k H).
  - apply through_Read; [ exact H | ]. apply through_start. exact H.
  - exact (through_send dmx a k H).
  - apply through_Read; [ exact H | ]. apply through_entries. exact H.
  - exact H.
Qed.

(** * Executions *)
(** At every instant: also between two accesses of a section, with goroutines outside running in between. *)
Definition kept (z : fsys) : Prop := match F_in z with Some x => through sound (rest x) (S_tables (Y_sh (F_sys z))) | None => sound (S_tables (Y_sh (F_sys z))) end.
Lemma outside_tables E z l y' o ls tr x : fruns E ls z tr -> F_in z = Some x -> outside z l -> exec E (F_sys z) l = RNext y' o -> S_tables (Y_sh y') = S_tables (Y_sh (F_sys z)).
Proof.
  intros R Hx Ho He. destruct (fruns_sim _ _ _ _ R) as (y & Ry & K). unfold like in K. rewrite Hx in K. destruct z as [sy xx]. cbn [F_sys F_in] in *. subst xx. pose proof (proj1 (frames_in_order _ _ _ _ Ry)) as L.
  destruct sy as [s ts]. cbn [Y_sh Y_threads] in *. destruct l as [j c| | |dmx a|op f|op]; cbn [exec Y_threads Y_sh] in He.
  - destruct (ts !! j) as [t|] eqn:Et; [ | discriminate He ]. cbn in Ho. rewrite Et in Ho. destruct Ho as (O1 & O2 & O3).
    destruct (tstep E s t c) as [| |s' t' sp o'] eqn:Es; try discriminate He. injection He as <- <-. cbn [Y_sh].
    refine (proj1 (tables_kept E s t c s' t' sp o' _ Es)). unfold involved. rewrite O1. destruct t; try reflexivity; [ exfalso | contradiction ].
    destruct x as [i c0 k0 p|i p]; cbn [in_thread] in O2.
    + destruct K as (t1 & e & t2 & o1 & K1 & K2 & K3 & K4 & K5 & K6 & K7 & K8 & K9). rewrite K5 in Et. unfold lock_inv in L. rewrite K2 in L. pose proof (sum_ge delivering _ _ _ Et) as G. cbn in G. lia.
    + destruct K as (t1 & t2 & out & K1 & K2 & K3 & K4 & K5 & K6 & K7 & K8 & K9). rewrite <- (list_lookup_insert_ne ts i j t1) in Et by congruence. rewrite <- K4 in Et.
      apply O2. assert (D1 : delivering t1 = 1%nat) by (destruct K9 as [[_ ->]|(f & g & _ & ->)]; reflexivity). exact (eq_sym (delivering_alone y i t1 j _ L K3 D1 Et eq_refl)).
  - injection He as <- <-. reflexivity.
  - injection He as <- <-. reflexivity.
  - destruct (E_ctl E); [ | discriminate He ]. injection He as <- <-. reflexivity.
  - destruct (E_ctl E); [ discriminate He | ]. injection He as <- <-. cbn. unfold RegisterCallback. destruct (S_shutdown s); reflexivity.
  - destruct (E_ctl E); [ discriminate He | ]. injection He as <- <-. cbn. unfold DeregisterCallback. destruct (S_shutdown s); reflexivity.
Qed.
Lemma idle_sound E ls z tr : fruns E ls z tr -> F_in z = None -> sound (S_tables (Y_sh (F_sys z))).
Proof.
  intros R Hn. destruct (C94_atomic _ _ _ _ R) as (y & Ry & Hy). rewrite <- (Hy Hn). apply Inv_sound. exact (reach_inv _ _ _ (ok_reach _ _ _ (sys_shared _ _ _ (runs_ok _ _ _ _ Ry)))).
Qed.
Lemma cruns_kept E ls z tr : cruns E ls z tr -> kept z.
Proof.
  intros R. pose proof (csteps_fsteps _ _ _ _ _ R) as RF. change (fruns E ls z tr) in RF. destruct (F_in z) as [x|] eqn:Hx; [ | unfold kept; rewrite Hx; exact (idle_sound _ _ _ _ RF Hx) ].
  clear x Hx. revert R RF. unfold cruns. remember (mkF (init E) None) as z0 eqn:E0. intros R. induction R as [z|z ls z1 tr l z2 o R IH Hs Hc]; intros RF; subst.
  - unfold kept. cbn. exact (idle_sound _ _ _ _ RF eq_refl).
  - pose proof (csteps_fsteps _ _ _ _ _ R) as R1. change (fruns E ls z1 tr) in R1. specialize (IH eq_refl R1). destruct (F_in z2) as [x2|] eqn:Hx2; [ | unfold kept; rewrite Hx2; exact (idle_sound _ _ _ _ RF Hx2) ].
    destruct (F_in z1) as [x1|] eqn:Hx1.
    + unfold kept in *. rewrite Hx1 in IH. rewrite Hx2. destruct Hs; cbn [F_in F_sys locked Y_sh S_tables with_tables upd_gen rest] in *; try congruence.
      * assert (x1 = x2) by congruence. subst x2. rewrite (outside_tables _ _ _ _ _ _ _ _ R1 Hx1 H H1). exact IH.
      * injection Hx1 as <-. injection Hx2 as <-. exact (proj2 IH).
      * injection Hx1 as <-. injection Hx2 as <-. exact (proj2 IH).
      * injection Hx1 as <-. injection Hx2 as <-. exact (proj2 IH).
      * injection Hx1 as <-. injection Hx2 as <-. exact IH.
    + destruct (Hc Hx1 x2 Hx2) as (e & He). unfold kept. rewrite Hx2, He. apply through_code. pose proof (idle_sound _ _ _ _ R1 Hx1) as S1. destruct Hs; cbn [F_in F_sys locked Y_sh S_tables with_tables] in *; try congruence; exact S1.
Qed.
(** Whoever reads the tables at any instant, without the lock, finds that they are sound: the nodes of the list exist and have different IPs, and each entry of the maps leads to a node of the list which has a
    port of that direction with that address. *)
Theorem C108_sound : forall E ls z tr, cruns E ls z tr -> let k := S_tables (Y_sh (F_sys z)) in
  (forall n, n ∈ K_Nodes k -> exists cn, K_heap k !! n = Some cn) /\
  (forall i j n m cn cm, K_Nodes k !! i = Some n -> K_Nodes k !! j = Some m -> K_heap k !! n = Some cn -> K_heap k !! m = Some cm -> C_IP (CN_Node cn) = C_IP (CN_Node cm) -> i = j) /\
  (forall a n, K_OutputAddress k !! a = Some n -> n ∈ K_Nodes k /\ exists cn q, K_heap k !! n = Some cn /\ In q (C_OutputPorts (CN_Node cn)) /\ P_Address q = a) /\
  (forall a n, K_InputAddress k !! a = Some n -> n ∈ K_Nodes k /\ exists cn q, K_heap k !! n = Some cn /\ In q (C_InputPorts (CN_Node cn)) /\ P_Address q = a).
Proof.
  intros E ls z tr R k. assert (H : sound k). { pose proof (cruns_kept _ _ _ _ R) as K. unfold kept in K. destruct (F_in z) as [x|]; [ exact (through_now _ _ _ K) | exact K ]. }
  assert (B : forall ports a n, backed k ports a n -> n ∈ K_Nodes k /\ exists cn q, K_heap k !! n = Some cn /\ In q (ports (CN_Node cn)) /\ P_Address q = a).
  { intros ports a n [H1 (cn & Hc & Ha)]. split; [ exact H1 | ]. unfold addresses in Ha. apply elem_of_list_fmap in Ha. destruct Ha as (q & -> & Hq). exists cn, q. split; [ exact Hc | ]. split; [ apply elem_of_list_In; exact Hq | reflexivity ]. }
  split; [ intros n Hn; exact (snd_listed k H n Hn) | ]. split; [ | split; [ intros a n Ha; exact (B _ _ _ (snd_out k H a n Ha)) | intros a n Ha; exact (B _ _ _ (snd_in k H a n Ha)) ] ].
  intros i j n m cn cm Hi Hj Hn Hm Hip. apply (NoDup_lookup _ _ _ (ip_of k n) (snd_ip k H)).
  - change (map (ip_of k) (K_Nodes k)) with (ip_of k <$> K_Nodes k). rewrite list_lookup_fmap, Hi. reflexivity.
  - change (map (ip_of k) (K_Nodes k)) with (ip_of k <$> K_Nodes k). rewrite list_lookup_fmap, Hj. cbn. unfold ip_of. rewrite Hn, Hm. congruence.
Qed.

(** When no section is open (nobody holds the lock) the tables are those of a run of Sys.v, for which C40 to C44 and what follows them hold. *)
Theorem C108_idle : forall E ls z tr, cruns E ls z tr -> F_in z = None -> exists y, runs E ls y tr /\ S_tables (Y_sh (F_sys z)) = S_tables (Y_sh y).
Proof. intros E ls z tr R Hn. destruct (C94_atomic _ _ _ _ (csteps_fsteps _ _ _ _ _ R)) as (y & Ry & Hy). exists y. split; [ exact Ry | ]. rewrite (Hy Hn). reflexivity. Qed.

(** * Playing such executions *)
Lemma fexec_own E z m ls z' o : fexec E z m = Some (ls, z', o) -> own_code z z'.
Proof.
  intros H Hz x Hx. destruct z as [y xx]. cbn [F_in] in Hz. subst xx. destruct m as [l|j c|]; cbn [fexec F_in F_sys] in H; try discriminate H.
  - destruct (outsideb _ _ && _); [ | discriminate H ]. destruct (exec E y l); try discriminate H. injection H as <- <- <-. discriminate Hx.
  - destruct (S_lock (Y_sh y)); [ discriminate H | ]. destruct (Y_threads y !! j) as [t|]; [ | discriminate H ].
    destruct t; try discriminate H; destruct c; try discriminate H; cbn [op_of] in H; try (match type of H with context [code ?e] => exists e end; injection H as <- <- <-; injection Hx as <-; reflexivity).
    destruct (bool_decide (order ≡ₚ _)); [ | discriminate H ]. destruct (step _ _) as [[k out]|]; [ | discriminate H ]. exists (ETick order now). injection H as <- <- <-. injection Hx as <-. reflexivity.
Qed.
Lemma csteps_app E z ls z1 tr ls' z2 tr' : csteps E z ls z1 tr -> csteps E z1 ls' z2 tr' -> csteps E z (ls ++ ls') z2 (tr ++ tr').
Proof. intros H1 H2. induction H2 as [z1|z1 ls' z2 tr' l z3 o H2 IH Hs Hc]; [ rewrite !app_nil_r; exact H1 | ]. rewrite !app_assoc. econstructor; [ apply IH; exact H1 | exact Hs | exact Hc ]. Qed.
Lemma fplay_csteps E ms : forall z ls z' tr, fplay E z ms = Some (ls, z', tr) -> csteps E z ls z' tr.
Proof.
  induction ms as [|m ms IH]; intros z ls z' tr H; cbn [fplay] in H; [ injection H as <- <- <-; constructor | ].
  destruct (fexec E z (m z)) as [[[l1 z1] o1]|] eqn:H1; [ | discriminate H ]. destruct (fplay E z1 ms) as [[[l2 z2] o2]|] eqn:H2; [ | discriminate H ]. injection H as <- <- <-.
  apply (csteps_app E z l1 z1 o1); [ | exact (IH _ _ _ _ H2) ]. change l1 with ([] ++ l1). change o1 with ([] ++ o1). econstructor; [ constructor | exact (fexec_fstep _ _ _ _ _ _ H1) | exact (fexec_own _ _ _ _ _ _ H1) ].
Qed.
(** The state a script leads to. *)
Definition played (E : env) (z : fsys) (ms : list (fsys -> move)) : fsys := match fplay E z ms with Some (_, z', _) => z' | None => z end.

(** * What does not hold *)
Definition tables (z : fsys) : Controller := S_tables (Y_sh (F_sys z)).
(** A controller has discovered a node with an output; the same node announces itself again, unchanged. *)
Definition known_once : list (fsys -> move) := coarse (up_ctl ++ firstn (length discover - 1) discover) ++ [fun _ => MEnter 4 (CTime 5%Z)] ++ inside 5.
Definition announced : list (fsys -> move) := coarse (arrive 6 host2 one_output ++ parse 2 ++ go_n 8 3 ++ go_n 4 2).
Definition before_it : list (fsys -> move) := known_once ++ announced.
(** updateNode has removed the old entry of the node and not yet made the new one. *)
Definition halfway : list (fsys -> move) := [fun _ => MEnter 4 (CTime 6%Z)] ++ inside 4.
Definition z_before : fsys := played ctl1 (mkF (init ctl1) None) before_it.
Definition z_halfway : fsys := played ctl1 z_before halfway.
Definition z_after : fsys := played ctl1 z_halfway (inside 4).
(** Refuted: "the table of outputs has an entry for an output that was announced, is announced again and never disappeared". A reader without the lock can find none: the entry of a node that is
    announced again is removed and made anew. (SendDMXToAddress takes the lock and always finds it: C94, C41.) *)
Theorem C108_flicker_refuted : exists ls0 z0 tr0 ls1 z1 tr1 ls2 z2 tr2 a n cfg, wf_config (E_config ctl1) /\ calls (ls0 ++ ls1 ++ ls2) = [true] /\ no_errors (ls0 ++ ls1 ++ ls2) = true /\
  cruns ctl1 ls0 z0 tr0 /\ csteps ctl1 z0 ls1 z1 tr1 /\ csteps ctl1 z1 ls2 z2 tr2 /\ F_in z0 = None /\ F_in z2 = None /\
  Forall (fun z => n ∈ K_Nodes (tables z) /\ fmap CN_Node (K_heap (tables z) !! n) = Some cfg) [z0; z1; z2] /\
  K_OutputAddress (tables z0) !! a = Some n /\ K_OutputAddress (tables z1) !! a = None /\ K_OutputAddress (tables z2) !! a = Some n.
Proof.
  destruct (fplay ctl1 (mkF (init ctl1) None) before_it) as [[[ls0 z0] tr0]|] eqn:H0; [ | vm_compute in H0; discriminate H0 ].
  assert (E0 : z0 = z_before) by (unfold z_before, played; rewrite H0; reflexivity).
  destruct (fplay ctl1 z_before halfway) as [[[ls1 z1] tr1]|] eqn:H1; [ | vm_compute in H1; discriminate H1 ].
  assert (E1 : z1 = z_halfway) by (unfold z_halfway, played; rewrite H1; reflexivity).
  destruct (fplay ctl1 z_halfway (inside 4)) as [[[ls2 z2] tr2]|] eqn:H2; [ | vm_compute in H2; discriminate H2 ].
  assert (E2 : z2 = z_after) by (unfold z_after, played; rewrite H2; reflexivity). subst.
  assert (W : match fplay ctl1 (mkF (init ctl1) None) before_it, fplay ctl1 z_before halfway, fplay ctl1 z_halfway (inside 4) with
    | Some (a, _, _), Some (b, _, _), Some (c, _, _) => bool_decide (calls (a ++ b ++ c) = [true]) && no_errors (a ++ b ++ c) | _, _, _ => false end = true) by (vm_compute; reflexivity).
  rewrite H0, H1, H2 in W. apply andb_prop in W. destruct W as [W1 W2]. apply bool_decide_eq_true in W1.
  exists ls0, z_before, tr0, ls1, z_halfway, tr1, ls2, z_after, tr2, (0, 0), 0.
  assert (C : exists cfg, fmap CN_Node (K_heap (tables z_before) !! 0) = Some cfg /\ fmap CN_Node (K_heap (tables z_halfway) !! 0) = Some cfg /\ fmap CN_Node (K_heap (tables z_after) !! 0) = Some cfg).
  { eexists. split; [ vm_compute; reflexivity | ]. split; vm_compute; reflexivity. }
  destruct C as (cfg & C0 & C1 & C2). exists cfg. split; [ repeat (split; [ repeat constructor | ]); repeat constructor | ]. split; [ exact W1 | ]. split; [ exact W2 | ].
  split; [ exact (fplay_csteps _ _ _ _ _ _ H0) | ]. split; [ exact (fplay_csteps _ _ _ _ _ _ H1) | ]. split; [ exact (fplay_csteps _ _ _ _ _ _ H2) | ].
  assert (N : forall z, K_Nodes (tables z) = [0] -> 0 ∈ K_Nodes (tables z)) by (intros z ->; left).
  split; [ vm_compute; reflexivity | ]. split; [ vm_compute; reflexivity | ]. split; [ | split; [ vm_compute; reflexivity | split; vm_compute; reflexivity ] ].
  assert (N0 : K_Nodes (tables z_before) = [0]) by (vm_compute; reflexivity). assert (N1 : K_Nodes (tables z_halfway) = [0]) by (vm_compute; reflexivity). assert (N2 : K_Nodes (tables z_after) = [0]) by (vm_compute; reflexivity).
  exact (List.Forall_cons _ _ _ (conj (N _ N0) C0) (List.Forall_cons _ _ _ (conj (N _ N1) C1) (List.Forall_cons _ _ _ (conj (N _ N2) C2) (List.Forall_nil _)))).
Qed.

(** Such a reading is a data race (P_Race.v): when a controller that is used properly runs, there are states in which a goroutine is about to write the tables, and the reader does not have the lock. *)
Theorem C108_race_refuted : exists ls y tr i b, wf_config (E_config ctl1) /\ life ctl1 orderly ls y tr Up /\ calls ls = [true] /\ no_errors ls = true /\
  about_to ctl1 y i b /\ conflict (rd VTables) b.
Proof.
  destruct (tested_life_ok ctl1 orderlyb orderly (up_ctl ++ firstn (length discover - 1) discover) (fun ls y tr ph => bool_decide (calls ls = [true]) && no_errors ls && match ph with Up => true | _ => false end &&
     match thread_at y 4 with CP_reply pb q => match tstep ctl1 (Y_sh y) (CP_reply pb q) (CTime 5) with Blocked => false | _ => true end | _ => false end))
    as (ls & y & tr & ph & L & H); [ exact orderlyb_ok | vm_compute; reflexivity | ].
  apply andb_prop in H. destruct H as [H H4]. apply andb_prop in H. destruct H as [H H3]. apply andb_prop in H. destruct H as [H1 H2]. apply bool_decide_eq_true in H1. destruct ph; try discriminate H3.
  unfold thread_at in H4. destruct (Y_threads y !! 4%nat) as [t|] eqn:Ht; [ | discriminate H4 ]. destruct t; try discriminate H4.
  exists ls, y, tr, 4%nat, (wr_locked VTables). split; [ repeat (split; [ repeat constructor | ]); repeat constructor | ]. split; [ exact L | ]. split; [ exact H1 | ]. split; [ exact H2 | ]. split; [ | repeat split ].
  eexists _, (CTime 5%Z). split; [ exact Ht | ]. split; [ | left; reflexivity ]. intros X. rewrite X in H4. discriminate H4.
Qed.
(** There is none when all goroutines of the controller have ended (before Start; after Stop once they are done: C70), and only a goroutine of the controller or a call of Start or SendDMXToAddress can
    be the other one. *)
Theorem C108_stopped : forall E y i b, quiescent y -> about_to E y i b -> ~ conflict (rd VTables) b.
Proof. intros E y i b Q (t & c & Ht & _ & Ha). pose proof (Forall_lookup_1 _ _ _ _ Q Ht) as D. cbv beta in D. subst t. contradiction. Qed.
Theorem C108_who : forall E y i b, about_to E y i b -> conflict (rd VTables) b ->
  exists t, Y_threads y !! i = Some t /\ match t with CP_gc _ | CP_reply _ _ | DL_lock _ | DL_push _ | U_send _ _ | U_start_ctl => True | _ => False end.
Proof.
  intros E y i b (t & c & Ht & _ & Ha) (C1 & C2 & C3). exists t. split; [ exact Ht | ]. destruct t; try exact I; cbn [accesses In] in Ha;
    repeat match type of Ha with _ \/ _ => destruct Ha as [Ha|Ha] end; try contradiction; subst b; try discriminate C1; try discriminate C2.
Qed.

(** * Examples *)
(** C108_sound between two accesses: the node is in the list, its entry is gone, and another goroutine has received a datagram since the lock was taken. *)
Lemma cplayed E ms P : match fplay E (mkF (init E) None) ms with Some (_, z, _) => P z | None => false end = true -> exists ls z tr, cruns E ls z tr /\ P z = true.
Proof. destruct (fplay E (mkF (init E) None) ms) as [[[ls z] tr]|] eqn:H; [ | discriminate ]. intros HP. exists ls, z, tr. split; [ exact (fplay_csteps _ _ _ _ _ _ H) | exact HP ]. Qed.
Definition openb (z : fsys) : bool := match F_in z with Some _ => true | None => false end.
Lemma openb_ok z : openb z = true -> exists x, F_in z = Some x.
Proof. unfold openb. destruct (F_in z) as [x|]; [ eauto | discriminate ]. Qed.
Example C108_ex : exists ls z tr x, cruns ctl1 ls z tr /\ F_in z = Some x /\ K_Nodes (tables z) = [0] /\ K_OutputAddress (tables z) = ∅.
Proof.
  destruct (cplayed ctl1 (before_it ++ halfway ++ coarse (arrive 6 host2 SysScript.poll_bytes)) (fun z => openb z && bool_decide (K_Nodes (tables z) = [0]) && bool_decide (K_OutputAddress (tables z) = ∅)))
    as (ls & z & tr & R & H); [ vm_compute; reflexivity | ].
  apply andb_prop in H. destruct H as [H H3]. apply andb_prop in H. destruct H as [H1 H2]. apply bool_decide_eq_true in H2, H3. destruct (openb_ok _ H1) as [x Hx]. exists ls, z, tr, x. auto.
Qed.
(** And with an entry, in the middle of the next tick. *)
Example C108_tick_ex : exists ls z tr x, cruns ctl1 ls z tr /\ F_in z = Some x /\ K_OutputAddress (tables z) !! (0, 0) = Some 0 /\ fmap CN_Sequence (K_heap (tables z) !! 0) = Some 1.
Proof.
  destruct (cplayed ctl1 half_ticked (fun z => openb z && bool_decide (K_OutputAddress (tables z) !! (0, 0) = Some 0) && bool_decide (fmap CN_Sequence (K_heap (tables z) !! 0) = Some 1)))
    as (ls & z & tr & R & H); [ vm_compute; reflexivity | ].
  apply andb_prop in H. destruct H as [H H3]. apply andb_prop in H. destruct H as [H1 H2]. apply bool_decide_eq_true in H2, H3. destruct (openb_ok _ H1) as [x Hx]. exists ls, z, tr, x. auto.
Qed.
Example C108_stopped_ex : quiescent (init ctl1).
Proof. constructor. Qed.

Definition P_Tables_theorems := (C108_sound, C108_idle, C108_flicker_refuted, C108_race_refuted, C108_stopped, C108_who, C108_ex, C108_tick_ex, C108_stopped_ex).
Print Assumptions P_Tables_theorems.
