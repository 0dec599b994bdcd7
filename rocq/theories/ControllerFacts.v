(** Invariants of the controller tables. *)
From Verif Require Export Controller P_Config.
From stdpp Require Import base list gmap.
Open Scope list_scope.
Open Scope N_scope.

#[local] Arguments zeros : simpl never.

Ltac conj := repeat match goal with |- _ /\ _ => split | |- ?f _ => progress unfold f; match goal with |- _ /\ _ => idtac end end.

(** * Map helpers *)
Definition addresses (l : list Port) : list Address := map P_Address l.

Lemma delete_ports_lookup l : forall m a,
  delete_ports m l !! a = if decide (a ∈ addresses l) then None else m !! a.
Proof.
  unfold delete_ports, addresses. induction l as [|p l IH]; intros m a; cbn [fold_left map].
  - rewrite decide_False by apply not_elem_of_nil. reflexivity.
  - rewrite IH. destruct (decide (a ∈ map P_Address l)) as [H|H].
    + rewrite decide_True by (right; assumption). reflexivity.
    + destruct (decide (a = P_Address p)) as [->|Hne].
      * rewrite decide_True by left. apply lookup_delete.
      * rewrite decide_False by (rewrite elem_of_cons; tauto). apply lookup_delete_ne. congruence.
Qed.
Lemma insert_ports_lookup n l : forall m a,
  insert_ports m l n !! a = if decide (a ∈ addresses l) then Some n else m !! a.
Proof.
  unfold insert_ports, addresses. induction l as [|p l IH]; intros m a; cbn [fold_left map].
  - rewrite decide_False by apply not_elem_of_nil. reflexivity.
  - rewrite IH. destruct (decide (a ∈ map P_Address l)) as [H|H].
    + rewrite decide_True by (right; assumption). reflexivity.
    + destruct (decide (a = P_Address p)) as [->|Hne].
      * rewrite decide_True by left. apply lookup_insert.
      * rewrite decide_False by (rewrite elem_of_cons; tauto). apply lookup_insert_ne. congruence.
Qed.
Lemma blackout_lookup_gen l : forall (m : gmap Address dmxBuffer) a,
  fold_left (fun m port => <[P_Address port := empty_buf]> m) l m !! a =
  if decide (a ∈ addresses l) then Some empty_buf else m !! a.
Proof.
  unfold addresses. induction l as [|p l IH]; intros m a; cbn [fold_left map].
  - rewrite decide_False by apply not_elem_of_nil. reflexivity.
  - rewrite IH. destruct (decide (a ∈ map P_Address l)) as [H|H].
    + rewrite decide_True by (right; assumption). reflexivity.
    + destruct (decide (a = P_Address p)) as [->|Hne].
      * rewrite decide_True by left. apply lookup_insert.
      * rewrite decide_False by (rewrite elem_of_cons; tauto). apply lookup_insert_ne. congruence.
Qed.
Lemma blackout_lookup l a :
  blackout l !! a = if decide (a ∈ addresses l) then Some empty_buf else None.
Proof. unfold blackout. rewrite blackout_lookup_gen, lookup_empty. reflexivity. Qed.

Lemma eqbytes_eq a : forall b, eqbytes a b = true <-> a = b.
Proof.
  induction a as [|x a IH]; intros [|y b]; cbn; try (split; [ discriminate | discriminate ]).
  - split; reflexivity.
  - rewrite andb_true_iff, N.eqb_eq, IH. split; [ intros [-> ->]; reflexivity | intros [= -> ->]; auto ].
Qed.

(** * The invariant *)
Definition buf_ok (b : dmxBuffer) : Prop := array_ok 512 (B_Data b).
Definition cn_ok (cn : ControlledNode) : Prop :=
  CN_UDPAddress cn = (C_IP (CN_Node cn), 6454) /\ CN_Sequence cn < 256 /\
  Forall addr_ok (addresses (C_OutputPorts (CN_Node cn))) /\
  Forall addr_ok (addresses (C_InputPorts (CN_Node cn))) /\
  map_Forall (fun _ b => buf_ok b) (CN_DMXBuffer cn).

Definition ip_of (s : Controller) (n : nid) : list N :=
  match K_heap s !! n with Some cn => C_IP (CN_Node cn) | None => [] end.

(** Entry a -> n is backed by a listed node that announces a. *)
Definition backed (s : Controller) (ports : NodeConfig -> list Port) (a : Address) (n : nid) : Prop :=
  n ∈ K_Nodes s /\ exists cn, K_heap s !! n = Some cn /\ a ∈ addresses (ports (CN_Node cn)).

Record Inv (s : Controller) : Prop := {
  inv_next : forall n cn, K_heap s !! n = Some cn -> n < K_next s;
  inv_listed : forall n, n ∈ K_Nodes s -> is_Some (K_heap s !! n);
  inv_cn : forall n cn, K_heap s !! n = Some cn -> cn_ok cn;
  inv_ip : NoDup (map (ip_of s) (K_Nodes s));
  inv_out : forall a n, K_OutputAddress s !! a = Some n -> backed s C_OutputPorts a n;
  inv_in : forall a n, K_InputAddress s !! a = Some n -> backed s C_InputPorts a n
}.

Lemma Inv_init fps : Inv (NewController fps).
Proof.
  constructor; cbn; intros *; try (rewrite lookup_empty; discriminate).
  - intros H. apply elem_of_nil in H. destruct H.
  - constructor.
Qed.
Lemma Inv_start s : Inv s -> Inv (start_tables s).
Proof.
  intros H. constructor; cbn; try apply H; intros *; rewrite lookup_empty; discriminate.
Qed.

Lemma inv_nodup s : Inv s -> NoDup (K_Nodes s).
Proof. intros H. apply NoDup_fmap_1 with (f := ip_of s). apply H. Qed.
Lemma inv_ip_inj s n n' : Inv s -> n ∈ K_Nodes s -> n' ∈ K_Nodes s -> ip_of s n = ip_of s n' -> n = n'.
Proof.
  intros H Hn Hn' E. pose proof (inv_ip s H) as ND.
  revert Hn Hn' ND. generalize (K_Nodes s). induction l as [|x l IH]; intros Hn Hn' ND.
  - inversion Hn.
  - cbn in ND. apply NoDup_cons in ND. destruct ND as [Hx ND].
    apply elem_of_cons in Hn. apply elem_of_cons in Hn'.
    destruct Hn as [->|Hn]; destruct Hn' as [->|Hn']; auto.
    + exfalso. apply Hx. rewrite E. apply elem_of_list_fmap_1 with (f := ip_of s). assumption.
    + exfalso. apply Hx. rewrite <- E. apply elem_of_list_fmap_1 with (f := ip_of s). assumption.
Qed.

(** Changing a node without touching its configuration. *)
Lemma Inv_touch s n cn cn' : Inv s -> K_heap s !! n = Some cn -> CN_Node cn' = CN_Node cn -> cn_ok cn' ->
  Inv (set_heap s (<[n := cn']> (K_heap s))).
Proof.
  intros H Hn E Ho.
  assert (B : forall ports a m, backed s ports a m -> backed (set_heap s (<[n := cn']> (K_heap s))) ports a m).
  { intros ports a m [H1 (c & Hc & Ha)]. split; [ exact H1 | ]. cbn.
    destruct (decide (m = n)) as [->|Hne].
    - exists cn'. rewrite lookup_insert. split; [ reflexivity | ]. rewrite E. congruence.
    - exists c. rewrite lookup_insert_ne by congruence. auto. }
  constructor; cbn.
  - intros m c. destruct (decide (m = n)) as [->|Hne].
    + intros _. eapply inv_next; eassumption.
    + rewrite lookup_insert_ne by congruence. apply (inv_next s H).
  - intros m Hm. destruct (decide (m = n)) as [->|Hne].
    + rewrite lookup_insert. eauto.
    + rewrite lookup_insert_ne by congruence. apply (inv_listed s H). exact Hm.
  - intros m c. destruct (decide (m = n)) as [->|Hne].
    + rewrite lookup_insert. intros [= <-]. exact Ho.
    + rewrite lookup_insert_ne by congruence. apply (inv_cn s H).
  - pose proof (inv_ip s H) as ND. erewrite map_ext; [ exact ND | ]. intros m. unfold ip_of. cbn.
    destruct (decide (m = n)) as [->|Hne].
    + rewrite lookup_insert, Hn, E. reflexivity.
    + rewrite lookup_insert_ne by congruence. reflexivity.
  - intros a m Hm. apply B. apply (inv_out s H). exact Hm.
  - intros a m Hm. apply B. apply (inv_in s H). exact Hm.
Qed.

(** * SendDMXToAddress *)
Lemma send_total s d a : Inv s -> exists s' ok, SendDMXToAddress s d a = Ret (s', ok).
Proof.
  intros H. unfold SendDMXToAddress. destruct (K_OutputAddress s !! a) as [n|] eqn:E; [ | eauto ].
  destruct (inv_out s H a n E) as [_ (cn & Hc & _)]. unfold deref. rewrite Hc. cbn.
  destruct (setDMXBuffer cn d a). eauto.
Qed.
Lemma setDMX_ok cn d a : cn_ok cn -> array_ok 512 d -> cn_ok (fst (setDMXBuffer cn d a)).
Proof.
  intros (H1 & H2 & H3 & H4 & H5) Hd. unfold setDMXBuffer. destruct (CN_DMXBuffer cn !! a) as [buf|] eqn:E; cbn.
  - split; [ exact H1 | ]. split; [ exact H2 | ]. split; [ exact H3 | ]. split; [ exact H4 | ]. cbn.
    apply map_Forall_insert_2; [ exact Hd | exact H5 ].
  - conj; assumption.
Qed.
Lemma setDMX_node cn d a : CN_Node (fst (setDMXBuffer cn d a)) = CN_Node cn.
Proof. unfold setDMXBuffer. destruct (CN_DMXBuffer cn !! a); reflexivity. Qed.
Lemma Inv_send s d a s' ok : Inv s -> array_ok 512 d -> SendDMXToAddress s d a = Ret (s', ok) -> Inv s'.
Proof.
  intros H Hd. unfold SendDMXToAddress. destruct (K_OutputAddress s !! a) as [n|] eqn:E.
  - unfold deref. destruct (K_heap s !! n) as [cn|] eqn:Hc; cbn; [ | discriminate ].
    pose proof (setDMX_ok cn d a (inv_cn s H _ _ Hc) Hd) as Ho. pose proof (setDMX_node cn d a) as En.
    destruct (setDMXBuffer cn d a) as [cn' ok']. cbn in *. intros [= <- <-].
    eapply Inv_touch; eassumption.
  - intros [= <- <-]. exact H.
Qed.

(** * Ticks *)

(** The frame for universe a of node cn with sequence number q. *)
Definition frame (cn : ControlledNode) (a : Address) (q : N) (data : list N) : payload :=
  ((C_IP (CN_Node cn), 6454),
   [65; 114; 116; 45; 78; 101; 116; 0; 0x00; 0x50; 0; 14; q; 0; snd a; fst a; 0x02; 0x00] ++ data).

(** The buffer of a universe, created empty if missing. *)
Definition buffer (cn : ControlledNode) (a : Address) : dmxBuffer := default empty_buf (CN_DMXBuffer cn !! a).
Definition due (fps : Z) (b : dmxBuffer) (now : Z) : bool :=
  (B_Stale b && (B_LastUpdate b <? now - fps)%Z) || (B_LastUpdate b <? now - 250000000)%Z.

(** Effect of one tick on one universe. *)
Definition ticked (fps : Z) (cn : ControlledNode) (a : Address) (now : Z) : ControlledNode :=
  if due fps (buffer cn a) now
  then mkCN (CN_LastSeen cn) (CN_Node cn) (CN_UDPAddress cn) ((CN_Sequence cn + 1) mod 256)
         (<[a := mkBuf (B_Data (buffer cn a)) now false]> (CN_DMXBuffer cn))
  else mkCN (CN_LastSeen cn) (CN_Node cn) (CN_UDPAddress cn) (CN_Sequence cn)
         (<[a := buffer cn a]> (CN_DMXBuffer cn)).
Definition emitted (fps : Z) (cn : ControlledNode) (a : Address) (now : Z) : list payload :=
  if due fps (buffer cn a) now
  then [frame cn a ((CN_Sequence cn + 1) mod 256) (B_Data (buffer cn a))] else [].

Lemma update_eq cn a now b : cn_ok cn -> addr_ok a -> CN_DMXBuffer cn !! a = Some b ->
  update cn a now = Ret (mkCN (CN_LastSeen cn) (CN_Node cn) (CN_UDPAddress cn) ((CN_Sequence cn + 1) mod 256)
      (<[a := mkBuf (B_Data b) now false]> (CN_DMXBuffer cn)),
    Some (frame cn a ((CN_Sequence cn + 1) mod 256) (B_Data b))).
Proof.
  intros (Hu & Hs & _ & _ & Hb) [Ha1 Ha2] E. unfold update, dmxUpdate. rewrite E.
  match goal with |- context [DMX_MarshalBinary ?q] => set (p := q) end.
  assert (Hw : wf_DMX p).
  { unfold wf_DMX, p, wf_Header. cbn -[zeros].
    specialize (Hb a b E). unfold buf_ok in Hb.
    conj; try apply Hb; try assumption; try apply bytes_ok_zeros; try (repeat constructor; fail).
    - apply N.mod_lt. discriminate.
    - apply N.mod_lt. discriminate. }
  pose proof (marshal_bytes (PktDMX p) Hw) as Hm.
  change (snd (MarshalBinary (PktDMX p))) with (snd (DMX_MarshalBinary p)) in Hm. rewrite Hm.
  cbn [CN_DMXBuffer]. rewrite E. unfold p, frame. cbn. rewrite Hu. reflexivity.
Qed.

Lemma tick_body_eq fps cn a now : cn_ok cn -> addr_ok a ->
  tick_body fps cn a now = Ret (ticked fps cn a now, emitted fps cn a now).
Proof.
  intros Ho Ha. unfold tick_body, ticked, emitted, buffer. cbv zeta.
  set (cn1 := match CN_DMXBuffer cn !! a with None => _ | Some _ => cn end).
  assert (H1 : cn_ok cn1 /\ CN_DMXBuffer cn1 !! a = Some (default empty_buf (CN_DMXBuffer cn !! a)) /\
    CN_LastSeen cn1 = CN_LastSeen cn /\ CN_Node cn1 = CN_Node cn /\ CN_UDPAddress cn1 = CN_UDPAddress cn /\
    CN_Sequence cn1 = CN_Sequence cn /\
    CN_DMXBuffer cn1 = <[a := default empty_buf (CN_DMXBuffer cn !! a)]> (CN_DMXBuffer cn)).
  { unfold cn1. destruct (CN_DMXBuffer cn !! a) as [b|] eqn:E; cbn.
    - conj; auto; try apply Ho. symmetry. apply insert_id. exact E.
    - destruct Ho as (? & ? & ? & ? & ?). rewrite lookup_insert. conj; auto.
      cbn. apply map_Forall_insert_2; [ | assumption ].
      split; [ reflexivity | apply bytes_ok_zeros ]. }
  clearbody cn1. destruct H1 as (Ho1 & E1 & F1 & F2 & F3 & F4 & F5).
  set (b := default empty_buf (CN_DMXBuffer cn !! a)) in *. rewrite E1. unfold due.
  assert (Z250 : forceUpdate = 250000000%Z) by reflexivity.
  destruct (B_Stale b && (B_LastUpdate b <? now - fps)%Z) eqn:D1; cbn [orb].
  - rewrite (update_eq cn1 a now b Ho1 Ha E1). cbn [bind CN_DMXBuffer]. rewrite lookup_insert. cbn [B_LastUpdate].
    rewrite Z250. destruct (Z.ltb_spec now (now - 250000000)); [ lia | ].
    rewrite F1, F3, F4, F5, insert_insert. unfold frame. rewrite F2. reflexivity.
  - cbn [bind]. rewrite E1, Z250. destruct (B_LastUpdate b <? now - 250000000)%Z eqn:D2.
    + rewrite (update_eq cn1 a now b Ho1 Ha E1). cbn [bind app].
      rewrite F1, F3, F4, F5, insert_insert. unfold frame. rewrite F2. reflexivity.
    + destruct cn1; cbn in *. subst. reflexivity.
Qed.

Lemma ticked_ok fps cn a now : cn_ok cn -> cn_ok (ticked fps cn a now).
Proof.
  intros (H1 & H2 & H3 & H4 & H5).
  assert (Hb : buf_ok (buffer cn a)).
  { unfold buffer. destruct (CN_DMXBuffer cn !! a) as [b|] eqn:E; cbn; [ exact (H5 a b E) | ].
    split; [ reflexivity | apply bytes_ok_zeros ]. }
  unfold ticked. destruct (due fps (buffer cn a) now); conj; cbn; auto.
  - apply N.mod_lt. discriminate.
  - apply map_Forall_insert_2; assumption.
  - apply map_Forall_insert_2; assumption.
Qed.
Lemma ticked_node fps cn a now : CN_Node (ticked fps cn a now) = CN_Node cn.
Proof. unfold ticked. destruct (due _ _ _); reflexivity. Qed.

Lemma tick_loop_inv order now : forall s, Inv s ->
  (forall a n, (a, n) ∈ order -> K_OutputAddress s !! a = Some n) ->
  exists s' out, tick_loop s order now = Ret (s', out) /\ Inv s' /\
    K_Nodes s' = K_Nodes s /\ K_OutputAddress s' = K_OutputAddress s /\ K_InputAddress s' = K_InputAddress s /\
    K_next s' = K_next s /\ K_maxFPS s' = K_maxFPS s.
Proof.
  induction order as [|[a n] order IH]; intros s H Ho; cbn [tick_loop].
  - exists s, []. conj; auto; try apply H.
  - assert (Hn : K_OutputAddress s !! a = Some n) by (apply Ho; left).
    destruct (inv_out s H a n Hn) as [_ (cn & Hc & Ha)].
    assert (Hok : cn_ok cn) by (eapply inv_cn; eassumption).
    assert (Hao : addr_ok a).
    { destruct Hok as (_ & _ & Hf & _). rewrite Forall_forall in Hf. apply Hf. exact Ha. }
    unfold deref. rewrite Hc. cbn [bind]. rewrite (tick_body_eq _ cn a now Hok Hao). cbn [bind].
    destruct (IH (set_heap s (<[n := ticked (K_maxFPS s) cn a now]> (K_heap s)))) as (s' & out & E & HI & E1 & E2 & E3 & E4 & E5).
    + eapply Inv_touch; [ exact H | exact Hc | apply ticked_node | apply ticked_ok; exact Hok ].
    + cbn. intros b m Hm. apply Ho. right. exact Hm.
    + rewrite E. cbn [bind]. eexists. eexists. split; [ reflexivity | ]. conj; try assumption; apply HI.
Qed.

(** * Node updates *)
Lemma find_ip_eq s ip l : (forall n, n ∈ l -> is_Some (K_heap s !! n)) ->
  (exists n, find_ip s ip l = Ret (Some n) /\ n ∈ l /\ ip_of s n = ip) \/
  (find_ip s ip l = Ret None /\ forall n, n ∈ l -> ip_of s n <> ip).
Proof.
  induction l as [|n l IH]; intros Hs; cbn [find_ip].
  - right. split; [ reflexivity | ]. intros n Hn. apply elem_of_nil in Hn. destruct Hn.
  - destruct (Hs n) as [cn Hc]; [ left | ]. unfold deref. rewrite Hc. cbn [bind].
    destruct (eqbytes ip (C_IP (CN_Node cn))) eqn:E.
    + apply eqbytes_eq in E. left. exists n. split; [ reflexivity | ]. split; [ left | ].
      unfold ip_of. rewrite Hc. congruence.
    + assert (Hne : ip_of s n <> ip).
      { unfold ip_of. rewrite Hc. intros E'. rewrite E' in E.
        assert (eqbytes ip ip = true) by (apply eqbytes_eq; reflexivity). congruence. }
      destruct IH as [(m & Em & Hm & Hi)|(Em & Hi)].
      * intros m Hm. apply Hs. right. exact Hm.
      * left. exists m. split; [ exact Em | ]. split; [ right; exact Hm | exact Hi ].
      * right. split; [ exact Em | ]. intros m Hm. apply elem_of_cons in Hm. destruct Hm as [->|Hm]; auto.
Qed.

(** The new state of updateNode for a known / unknown IP. *)
Definition refreshed (s : Controller) (n : nid) (cn : ControlledNode) (cfg : NodeConfig) (now : Z) : Controller :=
  let s1 := unroute s cn in
  route (set_heap s1 (<[n := mkCN now cfg (CN_UDPAddress cn) (CN_Sequence cn) (CN_DMXBuffer cn)]> (K_heap s))) n cfg.
Definition added (s : Controller) (cfg : NodeConfig) (now : Z) : Controller :=
  route (mkController (<[K_next s := mkCN now cfg (C_IP cfg, 6454) 0 (blackout (C_OutputPorts cfg))]> (K_heap s))
           (K_next s + 1) (K_Nodes s ++ [K_next s]) (K_OutputAddress s) (K_InputAddress s) (K_maxFPS s)) (K_next s) cfg.

Lemma updateNode_eq s cfg now : Inv s ->
  (exists n cn, n ∈ K_Nodes s /\ K_heap s !! n = Some cn /\ C_IP (CN_Node cn) = C_IP cfg /\
     updateNode s cfg now = Ret (refreshed s n cn cfg now)) \/
  ((forall n, n ∈ K_Nodes s -> ip_of s n <> C_IP cfg) /\ updateNode s cfg now = Ret (added s cfg now)).
Proof.
  intros H. unfold updateNode.
  destruct (find_ip_eq s (C_IP cfg) (K_Nodes s) (inv_listed s H)) as [(n & E & Hn & Hi)|(E & Hi)]; rewrite E; cbn [bind].
  - left. destruct (inv_listed s H n Hn) as [cn Hc]. exists n, cn.
    split; [ exact Hn | ]. split; [ exact Hc | ]. unfold ip_of in Hi. rewrite Hc in Hi. split; [ exact Hi | ].
    unfold deref. rewrite Hc. reflexivity.
  - right. split; [ exact Hi | ]. reflexivity.
Qed.

Definition cfg_ok (cfg : NodeConfig) : Prop :=
  Forall addr_ok (addresses (C_OutputPorts cfg)) /\ Forall addr_ok (addresses (C_InputPorts cfg)).

Lemma Inv_refreshed s n cn cfg now : Inv s -> cfg_ok cfg -> n ∈ K_Nodes s -> K_heap s !! n = Some cn ->
  C_IP (CN_Node cn) = C_IP cfg -> Inv (refreshed s n cn cfg now).
Proof.
  intros H [Hc1 Hc2] Hn Hc Hip.
  set (cn' := mkCN now cfg (CN_UDPAddress cn) (CN_Sequence cn) (CN_DMXBuffer cn)).
  assert (B : forall (ports : NodeConfig -> list Port) (m : gmap Address nid),
     (forall a k, m !! a = Some k -> backed s ports a k) ->
     forall a k, insert_ports (delete_ports m (ports (CN_Node cn))) (ports cfg) n !! a = Some k ->
     backed (refreshed s n cn cfg now) ports a k).
  { intros ports m Hm a k. rewrite insert_ports_lookup.
    destruct (decide (a ∈ addresses (ports cfg))) as [Ha|Ha].
    - intros [= <-]. split; [ exact Hn | ]. exists cn'. cbn. rewrite lookup_insert. auto.
    - rewrite delete_ports_lookup. destruct (decide (a ∈ addresses (ports (CN_Node cn)))) as [Hd|Hd]; [ discriminate | ].
      intros Hk. destruct (Hm a k Hk) as [Hl (c & Hck & Hac)]. split; [ exact Hl | ]. exists c. cbn.
      rewrite lookup_insert_ne; [ auto | ]. intros ->. apply Hd. congruence. }
  constructor; cbn [refreshed route set_in set_out K_heap K_next K_Nodes K_OutputAddress K_InputAddress unroute set_heap].
  - intros k c. destruct (decide (k = n)) as [->|Hne].
    + intros _. eapply inv_next; eassumption.
    + rewrite lookup_insert_ne by congruence. apply (inv_next s H).
  - intros k Hk. destruct (decide (k = n)) as [->|Hne].
    + rewrite lookup_insert. eauto.
    + rewrite lookup_insert_ne by congruence. apply (inv_listed s H). exact Hk.
  - intros k c. destruct (decide (k = n)) as [->|Hne].
    + rewrite lookup_insert. intros [= <-]. destruct (inv_cn s H n cn Hc) as (? & ? & _ & _ & ?).
      conj; cbn; auto. congruence.
    + rewrite lookup_insert_ne by congruence. apply (inv_cn s H).
  - pose proof (inv_ip s H) as ND. erewrite map_ext; [ exact ND | ]. intros k. unfold ip_of. cbn.
    destruct (decide (k = n)) as [->|Hne].
    + rewrite lookup_insert, Hc. cbn. congruence.
    + rewrite lookup_insert_ne by congruence. reflexivity.
  - exact (B C_OutputPorts _ (inv_out s H)).
  - exact (B C_InputPorts _ (inv_in s H)).
Qed.

Lemma Inv_added s cfg now : Inv s -> cfg_ok cfg -> (forall n, n ∈ K_Nodes s -> ip_of s n <> C_IP cfg) ->
  Inv (added s cfg now).
Proof.
  intros H [Hc1 Hc2] Hnew.
  assert (Fresh : K_heap s !! K_next s = None).
  { destruct (K_heap s !! K_next s) eqn:E; [ | reflexivity ]. apply (inv_next s H) in E. lia. }
  assert (Fn : K_next s ∉ K_Nodes s).
  { intros Hn. apply (inv_listed s H) in Hn. rewrite Fresh in Hn. destruct Hn. discriminate. }
  set (cn' := mkCN now cfg (C_IP cfg, 6454) 0 (blackout (C_OutputPorts cfg))).
  assert (B : forall (ports : NodeConfig -> list Port) (m : gmap Address nid),
     (forall a k, m !! a = Some k -> backed s ports a k) ->
     forall a k, insert_ports m (ports cfg) (K_next s) !! a = Some k -> backed (added s cfg now) ports a k).
  { intros ports m Hm a k. rewrite insert_ports_lookup.
    destruct (decide (a ∈ addresses (ports cfg))) as [Ha|Ha].
    - intros [= <-]. split; [ cbn; apply elem_of_app; right; left | ]. exists cn'. cbn. rewrite lookup_insert. auto.
    - intros Hk. destruct (Hm a k Hk) as [Hl (c & Hck & Hac)]. split; [ cbn; apply elem_of_app; left; exact Hl | ].
      exists c. cbn. rewrite lookup_insert_ne; [ auto | ]. congruence. }
  constructor; cbn [added route set_in set_out K_heap K_next K_Nodes K_OutputAddress K_InputAddress].
  - intros k c. destruct (decide (k = K_next s)) as [->|Hne]; [ lia | ].
    rewrite lookup_insert_ne by congruence. intros Hk. apply (inv_next s H) in Hk. lia.
  - intros k Hk. apply elem_of_app in Hk. destruct (decide (k = K_next s)) as [->|Hne].
    + rewrite lookup_insert. eauto.
    + rewrite lookup_insert_ne by congruence. apply (inv_listed s H).
      destruct Hk as [Hk|Hk]; [ exact Hk | ]. apply elem_of_list_singleton in Hk. contradiction.
  - intros k c. destruct (decide (k = K_next s)) as [->|Hne].
    + rewrite lookup_insert. intros [= <-]. conj; cbn; auto; [ lia | ].
      intros a b. rewrite blackout_lookup. destruct (decide _); [ | discriminate ]. intros [= <-].
      split; [ reflexivity | apply bytes_ok_zeros ].
    + rewrite lookup_insert_ne by congruence. apply (inv_cn s H).
  - change (NoDup (map (ip_of (added s cfg now)) (K_Nodes s ++ [K_next s]))).
    rewrite map_app. cbn [map]. apply NoDup_app. pose proof (inv_ip s H) as ND.
    assert (E : map (ip_of (added s cfg now)) (K_Nodes s) = map (ip_of s) (K_Nodes s)).
    { apply map_ext_in. intros k Hk. apply elem_of_list_In in Hk. unfold ip_of. cbn.
      rewrite lookup_insert_ne; [ reflexivity | ]. congruence. }
    rewrite E. split; [ exact ND | ]. split.
    + intros x Hx. apply elem_of_list_fmap in Hx. destruct Hx as (k & -> & Hk).
      intros Hs. apply elem_of_list_singleton in Hs. unfold ip_of at 2 in Hs. cbn in Hs.
      rewrite lookup_insert in Hs. cbn in Hs. apply (Hnew k Hk). exact Hs.
    + apply NoDup_singleton.
  - exact (B C_OutputPorts _ (inv_out s H)).
  - exact (B C_InputPorts _ (inv_in s H)).
Qed.

(** * Removal and garbage collection *)
(** Removing node n (at whatever position). *)
Definition without (s : Controller) (n : nid) (cn : ControlledNode) : Controller :=
  set_nodes (unroute s cn) (filter (fun m => m <> n) (K_Nodes s)).

Lemma Inv_without s n cn : Inv s -> K_heap s !! n = Some cn -> Inv (without s n cn).
Proof.
  intros H Hc.
  assert (B : forall (ports : NodeConfig -> list Port) (m : gmap Address nid),
     (forall a k, m !! a = Some k -> backed s ports a k) ->
     forall a k, delete_ports m (ports (CN_Node cn)) !! a = Some k -> backed (without s n cn) ports a k).
  { intros ports m Hm a k. rewrite delete_ports_lookup.
    destruct (decide (a ∈ addresses (ports (CN_Node cn)))) as [Ha|Ha]; [ discriminate | ].
    intros Hk. destruct (Hm a k Hk) as [Hl (c & Hck & Hac)].
    split; [ | exists c; auto ]. cbn. apply elem_of_list_filter. split; [ | exact Hl ].
    intros ->. apply Ha. congruence. }
  constructor; cbn [without set_nodes unroute set_in set_out K_heap K_next K_Nodes K_OutputAddress K_InputAddress].
  - apply (inv_next s H).
  - intros k Hk. apply elem_of_list_filter in Hk. apply (inv_listed s H). apply Hk.
  - apply (inv_cn s H).
  - pose proof (inv_ip s H) as ND. change (ip_of _) with (ip_of s).
    revert ND. generalize (K_Nodes s). induction l as [|x l IH]; intros ND; [ constructor | ].
    cbn in ND. apply NoDup_cons in ND. destruct ND as [Hx ND]. rewrite filter_cons.
    destruct (decide (x <> n)); [ | apply IH; exact ND ]. cbn. apply NoDup_cons. split; [ | apply IH; exact ND ].
    intros Hi. apply Hx. apply elem_of_list_fmap in Hi. destruct Hi as (k & E & Hk).
    apply elem_of_list_filter in Hk. rewrite E. apply elem_of_list_fmap_1 with (f := ip_of s). apply Hk.
  - exact (B C_OutputPorts _ (inv_out s H)).
  - exact (B C_InputPorts _ (inv_in s H)).
Qed.

Lemma remove_at_filter l : forall i n, NoDup l -> nth_error l i = Some n ->
  remove_at i l = filter (fun m => m <> n) l.
Proof.
  unfold remove_at. induction l as [|x l IH]; intros [|i] n ND E; try discriminate E.
  - cbn in E. injection E as ->. cbn [firstn skipn app]. rewrite filter_cons, decide_False by auto.
    apply NoDup_cons in ND. destruct ND as [Hx ND]. symmetry.
    clear -Hx. induction l as [|y l IH]; [ reflexivity | ]. rewrite filter_cons.
    rewrite decide_True by (intros ->; apply Hx; left). cbn [drop] in *. f_equal. apply IH. intros H. apply Hx. right. exact H.
  - cbn [nth_error] in E. apply NoDup_cons in ND. destruct ND as [Hx ND].
    rewrite filter_cons, decide_True.
    + cbn [firstn skipn app]. f_equal. apply (IH i n ND E).
    + intros ->. apply Hx. apply elem_of_list_In. eapply nth_error_In. exact E.
Qed.

Definition stale_at (s : Controller) (t : Z) (n : nid) : Prop :=
  exists cn, K_heap s !! n = Some cn /\ (CN_LastSeen cn + 7000000000 < t)%Z.

Lemma gc_scan_eq s clock : Inv s -> forall is k, (forall i, In i is -> (i < length (K_Nodes s))%nat) ->
  (exists k', gc_scan s clock k is = Ret (inl (s, k')) /\ k' = (k + length is)%nat /\
     forall j i n, nth_error is j = Some i -> nth_error (K_Nodes s) i = Some n -> ~ stale_at s (clock (k + j)%nat) n) \/
  (exists i n cn j, gc_scan s clock k is = Ret (inr (without s n cn, S (k + j))) /\
     nth_error is j = Some i /\ nth_error (K_Nodes s) i = Some n /\ K_heap s !! n = Some cn /\ stale_at s (clock (k + j)%nat) n).
Proof.
  intros H. induction is as [|i is IH]; intros k Hi.
  - left. exists k. cbn. split; [ reflexivity | ]. split; [ lia | ]. intros [|j]; discriminate.
  - cbn [gc_scan]. unfold node_at.
    destruct (nth_error (K_Nodes s) i) as [n|] eqn:En.
    2:{ apply nth_error_None in En. specialize (Hi i (or_introl eq_refl)). lia. }
    destruct (inv_listed s H n) as [cn Hc]; [ apply elem_of_list_In; eapply nth_error_In; exact En | ].
    cbn [bind]. unfold deref. rewrite Hc. cbn [bind]. change staleAfter with 7000000000%Z.
    destruct (Z.ltb_spec (CN_LastSeen cn + 7000000000) (clock k)) as [Hs|Hs].
    + right. exists i, n, cn, 0%nat. cbn. rewrite Nat.add_0_r. conj; auto.
      * do 2 f_equal. unfold without. cbn. rewrite (remove_at_filter _ _ n) by (auto using inv_nodup). reflexivity.
      * exists cn. auto.
    + destruct (IH (S k)) as [(k' & E & -> & HN)|(i' & n' & cn' & j & E & Ej & Ei & Eh & Hst)].
      * intros j Hj. apply Hi. right. exact Hj.
      * left. eexists. split; [ exact E | ]. split; [ cbn; lia | ].
        intros [|j] i' n' Ej Ei.
        -- cbn in Ej. injection Ej as <-. rewrite Nat.add_0_r. intros (c & Hc' & Hlt).
           assert (n' = n) by congruence. subst. assert (c = cn) by congruence. subst. lia.
        -- cbn in Ej. specialize (HN j i' n' Ej Ei). rewrite Nat.add_succ_r. exact HN.
      * right. exists i', n', cn', (S j). rewrite Nat.add_succ_r. cbn. conj; auto.
Qed.

(** Outcome of a garbage collection that used the clock readings k .. k'-1. *)
Record collected (s : Controller) (clock : nat -> Z) (k : nat) (s' : Controller) (k' : nat) : Prop := {
  col_heap : K_heap s' = K_heap s;
  col_next : K_next s' = K_next s;
  col_fps : K_maxFPS s' = K_maxFPS s;
  col_order : exists keep : nid -> bool, K_Nodes s' = List.filter keep (K_Nodes s);
  col_removed : forall n, n ∈ K_Nodes s -> n ∉ K_Nodes s' -> exists j, (k <= j < k')%nat /\ stale_at s (clock j) n;
  col_kept : forall n, n ∈ K_Nodes s' -> exists j, (k <= j < k')%nat /\ ~ stale_at s (clock j) n;
  col_out_gone : forall a n cn, n ∈ K_Nodes s -> n ∉ K_Nodes s' -> K_heap s !! n = Some cn ->
     a ∈ addresses (C_OutputPorts (CN_Node cn)) -> K_OutputAddress s' !! a = None;
  col_out_kept : forall a, (forall n cn, n ∈ K_Nodes s -> n ∉ K_Nodes s' -> K_heap s !! n = Some cn ->
     a ∉ addresses (C_OutputPorts (CN_Node cn))) -> K_OutputAddress s' !! a = K_OutputAddress s !! a;
  col_in_gone : forall a n cn, n ∈ K_Nodes s -> n ∉ K_Nodes s' -> K_heap s !! n = Some cn ->
     a ∈ addresses (C_InputPorts (CN_Node cn)) -> K_InputAddress s' !! a = None;
  col_in_kept : forall a, (forall n cn, n ∈ K_Nodes s -> n ∉ K_Nodes s' -> K_heap s !! n = Some cn ->
     a ∉ addresses (C_InputPorts (CN_Node cn))) -> K_InputAddress s' !! a = K_InputAddress s !! a;
  col_out_sub : forall a n, K_OutputAddress s' !! a = Some n -> K_OutputAddress s !! a = Some n;
  col_in_sub : forall a n, K_InputAddress s' !! a = Some n -> K_InputAddress s !! a = Some n;
  col_inv : Inv s'
}.

Lemma filter_List {A} (P : A -> Prop) `{forall x, Decision (P x)} (l : list A) :
  filter P l = List.filter (fun x => bool_decide (P x)) l.
Proof.
  induction l as [|x l IH]; [ reflexivity | ]. rewrite filter_cons. cbn. rewrite IH.
  destruct (decide (P x)); [ rewrite bool_decide_true by assumption | rewrite bool_decide_false by assumption ]; reflexivity.
Qed.
Lemma List_filter_filter {A} (f g : A -> bool) l :
  List.filter f (List.filter g l) = List.filter (fun x => g x && f x) l.
Proof.
  induction l as [|x l IH]; [ reflexivity | ]. cbn. destruct (g x); cbn; [ | exact IH ].
  destruct (f x); rewrite IH; reflexivity.
Qed.

Lemma gc_loop_eq clock fuel : forall s k, Inv s -> (length (K_Nodes s) < fuel)%nat ->
  exists s' k', gc_loop fuel s clock k = Ret (s', k') /\ (k <= k')%nat /\ collected s clock k s' k'.
Proof.
  induction fuel as [|fuel IH]; intros s k H Hf; [ lia | ]. cbn [gc_loop].
  destruct (gc_scan_eq s clock H (seq 0 (length (K_Nodes s))) k) as
    [(k' & E & -> & HN)|(i & n & cn & j & E & Ej & Ei & Eh & Hst)].
  - intros i Hi. apply in_seq in Hi. lia.
  - rewrite E. cbn [bind]. rewrite seq_length. eexists. eexists. split; [ reflexivity | ]. split; [ lia | ].
    constructor; auto.
    + exists (fun _ => true). clear. induction (K_Nodes s) as [|x l IH]; [ reflexivity | ]. cbn. congruence.
    + intros n Hn Hn'. contradiction.
    + intros n Hn. apply elem_of_list_In in Hn. apply In_nth_error in Hn. destruct Hn as [j Ej].
      assert (Hj : (j < length (K_Nodes s))%nat) by (apply nth_error_Some; congruence).
      exists (k + j)%nat. split; [ lia | ]. apply (HN j j n); [ | exact Ej ].
      clear -Hj. rewrite (nth_error_nth' _ 0%nat) by (rewrite seq_length; exact Hj).
      f_equal. rewrite seq_nth by exact Hj. reflexivity.
    + intros a n cn Hn Hn'. contradiction.
    + intros a n cn Hn Hn'. contradiction.
  - rewrite E. cbn [bind].
    assert (Hn : n ∈ K_Nodes s) by (apply elem_of_list_In; eapply nth_error_In; exact Ei).
    assert (Hf' : (length (K_Nodes (without s n cn)) < fuel)%nat).
    { cbn. assert (length (filter (fun m => m <> n) (K_Nodes s)) < length (K_Nodes s))%nat; [ | lia ].
      apply (filter_length_lt _ _ n Hn). auto. }
    destruct (IH (without s n cn) (S (k + j)) (Inv_without s n cn H Eh) Hf') as (s' & k' & E' & Hk & C).
    exists s', k'. split; [ exact E' | ]. split; [ lia | ].
    pose proof (col_order _ _ _ _ _ C) as [keep Ek]. cbn in Ek. rewrite filter_List, List_filter_filter in Ek.
    assert (Sub : forall m, m ∈ K_Nodes s' -> m <> n).
    { intros m Hm. rewrite Ek in Hm. apply elem_of_list_In in Hm. apply filter_In in Hm.
      destruct Hm as [_ Hm]. apply andb_true_iff in Hm. destruct Hm as [Hm _]. apply bool_decide_eq_true in Hm. exact Hm. }
    assert (D : forall (ports : NodeConfig -> list Port) (m m' : gmap Address nid),
      (forall a x c, x ∈ K_Nodes (without s n cn) -> x ∉ K_Nodes s' -> K_heap s !! x = Some c ->
         a ∈ addresses (ports (CN_Node c)) -> m' !! a = None) ->
      (forall a, (forall x c, x ∈ K_Nodes (without s n cn) -> x ∉ K_Nodes s' -> K_heap s !! x = Some c ->
         a ∉ addresses (ports (CN_Node c))) -> m' !! a = delete_ports m (ports (CN_Node cn)) !! a) ->
      (forall a x, m' !! a = Some x -> delete_ports m (ports (CN_Node cn)) !! a = Some x) ->
      (forall a x c, x ∈ K_Nodes s -> x ∉ K_Nodes s' -> K_heap s !! x = Some c ->
         a ∈ addresses (ports (CN_Node c)) -> m' !! a = None) /\
      (forall a, (forall x c, x ∈ K_Nodes s -> x ∉ K_Nodes s' -> K_heap s !! x = Some c ->
         a ∉ addresses (ports (CN_Node c))) -> m' !! a = m !! a) /\
      (forall a x, m' !! a = Some x -> m !! a = Some x)).
    { intros ports m m' D1 D2 D3. split; [ | split ].
      - intros a x c Hx Hx' Hc Ha. destruct (decide (x = n)) as [->|Hne].
        + destruct (m' !! a) as [y|] eqn:Ey; [ | reflexivity ]. apply D3 in Ey.
          rewrite delete_ports_lookup, decide_True in Ey by congruence. discriminate.
        + apply (D1 a x c); auto. cbn. apply elem_of_list_filter. auto.
      - intros a Ha. rewrite D2, delete_ports_lookup, decide_False; auto.
        + apply (Ha n cn Hn); [ | exact Eh ]. intros Hx. exact (Sub n Hx eq_refl).
        + intros x c Hx Hx' Hc. apply (Ha x c); auto. cbn in Hx. apply elem_of_list_filter in Hx. apply Hx.
      - intros a x Hx. apply D3 in Hx. rewrite delete_ports_lookup in Hx.
        destruct (decide _) in Hx; [ discriminate | exact Hx ]. }
    constructor.
    + rewrite (col_heap _ _ _ _ _ C). reflexivity.
    + rewrite (col_next _ _ _ _ _ C). reflexivity.
    + rewrite (col_fps _ _ _ _ _ C). reflexivity.
    + eauto.
    + intros m Hm Hm'. destruct (decide (m = n)) as [->|Hne].
      * exists (k + j)%nat. split; [ lia | exact Hst ].
      * destruct (col_removed _ _ _ _ _ C m) as (j' & Hj' & Hs').
        -- cbn. apply elem_of_list_filter. auto.
        -- exact Hm'.
        -- exists j'. split; [ lia | exact Hs' ].
    + intros m Hm. destruct (col_kept _ _ _ _ _ C m Hm) as (j' & Hj' & Hs'). exists j'. split; [ lia | exact Hs' ].
    + exact (proj1 (D C_OutputPorts _ _ (col_out_gone _ _ _ _ _ C) (col_out_kept _ _ _ _ _ C) (col_out_sub _ _ _ _ _ C))).
    + exact (proj1 (proj2 (D C_OutputPorts _ _ (col_out_gone _ _ _ _ _ C) (col_out_kept _ _ _ _ _ C) (col_out_sub _ _ _ _ _ C)))).
    + exact (proj1 (D C_InputPorts _ _ (col_in_gone _ _ _ _ _ C) (col_in_kept _ _ _ _ _ C) (col_in_sub _ _ _ _ _ C))).
    + exact (proj1 (proj2 (D C_InputPorts _ _ (col_in_gone _ _ _ _ _ C) (col_in_kept _ _ _ _ _ C) (col_in_sub _ _ _ _ _ C)))).
    + exact (proj2 (proj2 (D C_OutputPorts _ _ (col_out_gone _ _ _ _ _ C) (col_out_kept _ _ _ _ _ C) (col_out_sub _ _ _ _ _ C)))).
    + exact (proj2 (proj2 (D C_InputPorts _ _ (col_in_gone _ _ _ _ _ C) (col_in_kept _ _ _ _ _ C) (col_in_sub _ _ _ _ _ C)))).
    + apply C.
Qed.

Lemma gcNode_eq s clock : Inv s ->
  exists s' k, gcNode s clock = Ret (s', k) /\ collected s clock 0 s' k.
Proof.
  intros H. unfold gcNode. destruct (gc_loop_eq clock (S (length (K_Nodes s))) s 0 H) as (s' & k & E & _ & C); eauto.
Qed.

(** * Replies *)
(** Universes announced by a reply, read off the packet (see C37). *)
Definition reply_outputs (p : ArtPollReplyPacket) : list Address :=
  map (fun i => (PollReply_NetSwitch p, N.lor (PollReply_SubSwitch p) (nth i (PollReply_SwOut p) 0))) (flagged p 7).
Definition reply_inputs (p : ArtPollReplyPacket) : list Address :=
  map (fun i => (PollReply_NetSwitch p, N.lor (PollReply_SubSwitch p) (nth i (PollReply_SwIn p) 0))) (flagged p 6).
(** Style 0 is a node, style 1 a controller. *)
Definition tracked (p : ArtPollReplyPacket) : Prop :=
  PollReply_Style p = 0 \/ (PollReply_Style p = 1 /\ reply_outputs p <> []).
#[global] Instance tracked_dec p : Decision (tracked p).
Proof. apply _. Defined.

Lemma nth_byte_ok l i : bytes_ok l -> byte_ok (nth i l 0).
Proof.
  intros H. destruct (nth_in_or_default i l 0) as [Hi| ->].
  - unfold bytes_ok in H. rewrite List.Forall_forall in H. apply H. exact Hi.
  - unfold byte_ok. lia.
Qed.
Lemma lor_byte_ok a b : byte_ok a -> byte_ok b -> byte_ok (N.lor a b).
Proof.
  unfold byte_ok. intros Ha Hb. destruct (N.eq_dec (N.lor a b) 0) as [->|Hz]; [ lia | ].
  change 256 with (2 ^ 8). apply N.log2_lt_pow2; [ lia | ]. rewrite N.log2_lor. apply N.max_lub_lt.
  - destruct (N.eq_dec a 0) as [->|]; [ cbn; lia | ]. apply N.log2_lt_pow2; [ lia | exact Ha ].
  - destruct (N.eq_dec b 0) as [->|]; [ cbn; lia | ]. apply N.log2_lt_pow2; [ lia | exact Hb ].
Qed.

Lemma reply_config p : wf_PollReply p -> exists cfg, ConfigFromArtPollReply p = Ret cfg /\
  C_Type cfg = PollReply_Style p /\ C_IP cfg = PollReply_IPAddress p /\
  addresses (C_OutputPorts cfg) = reply_outputs p /\ addresses (C_InputPorts cfg) = reply_inputs p /\ cfg_ok cfg.
Proof.
  intros Hp. destruct (config_from_reply p Hp) as (cfg & E & Hcfg). exists cfg. split; [ exact E | ].
  assert (E1 : addresses (C_OutputPorts cfg) = reply_outputs p).
  { subst cfg. cbn [C_OutputPorts]. unfold addresses, reply_outputs. rewrite map_map. reflexivity. }
  assert (E2 : addresses (C_InputPorts cfg) = reply_inputs p).
  { subst cfg. cbn [C_InputPorts]. unfold addresses, reply_inputs. rewrite map_map. reflexivity. }
  split; [ subst cfg; reflexivity | ]. split; [ subst cfg; reflexivity | ].
  split; [ exact E1 | ]. split; [ exact E2 | ].
  assert (A : forall sw l, bytes_ok sw -> Forall addr_ok (map (fun i => (PollReply_NetSwitch p, N.lor (PollReply_SubSwitch p) (nth i sw 0))) l)).
  { intros sw l Hs. apply Forall_forall. intros a Ha. apply elem_of_list_fmap in Ha. destruct Ha as (i & -> & _).
    unfold wf_PollReply in Hp. decompose [and] Hp. unfold array_ok in *. decompose [and] Hp.
    split; cbn; [ assumption | apply lor_byte_ok; [ assumption | apply nth_byte_ok; assumption ] ]. }
  unfold wf_PollReply, array_ok in Hp.
  split; [ rewrite E1 | rewrite E2 ]; apply A; apply Hp.
Qed.

Lemma handle_reply_eq s p now : wf_PollReply p -> exists cfg, ConfigFromArtPollReply p = Ret cfg /\
  C_IP cfg = PollReply_IPAddress p /\
  addresses (C_OutputPorts cfg) = reply_outputs p /\ addresses (C_InputPorts cfg) = reply_inputs p /\ cfg_ok cfg /\
  handle_reply s p now = if decide (tracked p) then updateNode s cfg now else Ret s.
Proof.
  intros Hp. destruct (reply_config p Hp) as (cfg & E & Et & Ei & Eo & Eni & Hok). exists cfg.
  conj; try assumption; try apply Hok. unfold handle_reply. rewrite E. cbn [bind]. rewrite Et.
  assert (L : plen (C_OutputPorts cfg) = N.of_nat (length (reply_outputs p))).
  { rewrite <- Eo. unfold addresses, plen. rewrite map_length. reflexivity. }
  rewrite L. unfold StNode, StController.
  destruct (decide (tracked p)) as [[H|[H1 H2]]|H].
  - rewrite H. reflexivity.
  - rewrite H1. destruct (reply_outputs p); [ contradiction | reflexivity ].
  - unfold tracked in H. destruct (N.eqb_spec (PollReply_Style p) 0) as [E0|E0]; [ tauto | ].
    destruct (N.eqb_spec (PollReply_Style p) 1) as [E1|E1]; [ | reflexivity ].
    destruct (reply_outputs p) eqn:Er; [ reflexivity | ]. exfalso. apply H. right. split; [ exact E1 | discriminate ].
Qed.

Lemma handle_reply_ok s p now : Inv s -> wf_PollReply p ->
  exists s', handle_reply s p now = Ret s' /\ Inv s'.
Proof.
  intros H Hp. destruct (handle_reply_eq s p now Hp) as (cfg & _ & _ & _ & _ & Hok & ->).
  destruct (decide (tracked p)); [ | eauto ].
  destruct (updateNode_eq s cfg now H) as [(n & cn & Hn & Hc & Hi & ->)|(Hn & ->)]; eexists; split; try reflexivity.
  - apply Inv_refreshed; assumption.
  - apply Inv_added; assumption.
Qed.

(** * Histories *)
(** Replies are decoded packets, frames are [512]byte, a tick visits every routing entry once. *)
Definition event_ok (s : Controller) (e : event) : Prop :=
  match e with
  | EReply p _ => wf_PollReply p
  | EGc _ => True
  | ESend dmx a => array_ok 512 dmx
  | ETick order _ => order ≡ₚ map_to_list (K_OutputAddress s)
  | EStart => True
  end.
(** A history: for each event the state before it and the payloads it queued. *)
Definition history : Type := list (Controller * event * list payload).
Inductive reach (fps : Z) : history -> Controller -> Prop :=
| reach_init : reach fps [] (NewController fps)
| reach_step h s e s' out : reach fps h s -> event_ok s e -> step s e = Ret (s', out) ->
    reach fps (h ++ [(s, e, out)]) s'.

Lemma order_routed s order : order ≡ₚ map_to_list (K_OutputAddress s) ->
  (forall a n, (a, n) ∈ order <-> K_OutputAddress s !! a = Some n) /\ NoDup order.*1.
Proof.
  intros H. split.
  - intros a n. rewrite H. apply elem_of_map_to_list.
  - rewrite H. apply NoDup_fst_map_to_list.
Qed.

Lemma step_ok s e : Inv s -> event_ok s e -> exists s' out, step s e = Ret (s', out) /\ Inv s'.
Proof.
  intros H Ho. destruct e as [p now|clock|dmx a|order now|]; cbn [step event_ok] in *.
  - destruct (handle_reply_ok s p now H Ho) as (s' & -> & Hi). cbn. eauto.
  - destruct (gcNode_eq s clock H) as (s' & k & -> & C). cbn. eexists. eexists. split; [ reflexivity | apply C ].
  - destruct (send_total s dmx a H) as (s' & ok & E). rewrite E. cbn. eexists. eexists. split; [ reflexivity | ].
    eapply Inv_send; eassumption.
  - destruct (order_routed s order Ho) as [Hr _].
    destruct (tick_loop_inv order now s H) as (s' & out & E & Hi & _).
    + intros a n. apply Hr.
    + eauto.
  - eexists. eexists. split; [ reflexivity | ]. apply Inv_start. exact H.
Qed.
Lemma reach_inv fps h s : reach fps h s -> Inv s.
Proof.
  induction 1 as [|h s e s' out Hr IH Ho E]; [ apply Inv_init | ].
  destruct (step_ok s e IH Ho) as (s1 & o1 & E1 & Hi). congruence.
Qed.
Lemma step_fps s e s' out : Inv s -> event_ok s e -> step s e = Ret (s', out) -> K_maxFPS s' = K_maxFPS s.
Proof.
  intros H Ho. destruct e as [p now|clock|dmx a|order now|]; cbn [step event_ok] in *.
  - destruct (handle_reply_eq s p now Ho) as (cfg & _ & _ & _ & _ & Hok & ->).
    destruct (decide (tracked p)); [ | intros [= <- <-]; reflexivity ].
    destruct (updateNode_eq s cfg now H) as [(n & cn & Hn & Hc & Hi & ->)|(Hn & ->)]; intros [= <- <-]; reflexivity.
  - destruct (gcNode_eq s clock H) as (s1 & k & -> & C). cbn. intros [= <- <-]. apply C.
  - unfold SendDMXToAddress. destruct (K_OutputAddress s !! a); [ | intros [= <- <-]; reflexivity ].
    unfold deref. destruct (K_heap s !! n); cbn; [ | discriminate ].
    destruct (setDMXBuffer c dmx a). cbn. intros [= <- <-]. reflexivity.
  - destruct (order_routed s order Ho) as [Hr _].
    destruct (tick_loop_inv order now s H) as (s1 & o1 & -> & Hi & _ & _ & _ & _ & E); [ intros a n; apply Hr | ].
    intros [= <- <-]. exact E.
  - intros [= <- <-]. reflexivity.
Qed.
Lemma reach_fps fps h s : reach fps h s -> K_maxFPS s = fps.
Proof.
  induction 1 as [|h s e s' out Hr IH Ho E]; [ reflexivity | ].
  rewrite (step_fps s e s' out (reach_inv _ _ _ Hr) Ho E). exact IH.
Qed.

(** * Exact effect of a tick *)
Fixpoint count (n : nid) (l : list nid) : N :=
  match l with [] => 0 | m :: l => (if decide (m = n) then 1 else 0) + count n l end.
Lemma count_app n l l' : count n (l ++ l') = count n l + count n l'.
Proof. induction l as [|m l IH]; cbn; [ reflexivity | rewrite IH; lia ]. Qed.

(** The frames of a tick over the entries [order], tagged with the receiving node, in terms of the state s
    before the tick; [sent] are the nodes served so far in this tick (once per frame). *)
Fixpoint tick_frames (s : Controller) (now : Z) (sent : list nid) (order : list (Address * nid)) : list (nid * payload) :=
  match order with
  | [] => []
  | (a, n) :: order =>
      match K_heap s !! n with
      | None => []
      | Some cn =>
          if due (K_maxFPS s) (buffer cn a) now
          then (n, frame cn a ((CN_Sequence cn + count n sent + 1) mod 256) (B_Data (buffer cn a)))
               :: tick_frames s now (sent ++ [n]) order
          else tick_frames s now sent order
      end
  end.

(** The buffer of universe a on node n after the tick. *)
Definition buffer_after (s : Controller) (now : Z) (order : list (Address * nid)) (n : nid) (cn : ControlledNode) (a : Address)
    : option dmxBuffer :=
  if decide ((a, n) ∈ order)
  then Some (if due (K_maxFPS s) (buffer cn a) now then mkBuf (B_Data (buffer cn a)) now false else buffer cn a)
  else CN_DMXBuffer cn !! a.

Lemma tick_loop_exact s0 now order : forall s sent, Inv s -> K_maxFPS s = K_maxFPS s0 ->
  (forall a n, (a, n) ∈ order -> K_OutputAddress s !! a = Some n) -> NoDup order.*1 ->
  (forall n cn, K_heap s !! n = Some cn -> exists cn0, K_heap s0 !! n = Some cn0 /\
     CN_Node cn = CN_Node cn0 /\ CN_Sequence cn = (CN_Sequence cn0 + count n sent) mod 256 /\
     forall a, a ∈ order.*1 -> CN_DMXBuffer cn !! a = CN_DMXBuffer cn0 !! a) ->
  exists s' , tick_loop s order now = Ret (s', map snd (tick_frames s0 now sent order)) /\
    (forall n cn, K_heap s !! n = Some cn -> exists cn', K_heap s' !! n = Some cn' /\
       CN_LastSeen cn' = CN_LastSeen cn /\ CN_Node cn' = CN_Node cn /\ CN_UDPAddress cn' = CN_UDPAddress cn /\
       CN_Sequence cn' = (CN_Sequence cn + count n (map fst (tick_frames s0 now sent order))) mod 256 /\
       forall a, CN_DMXBuffer cn' !! a = buffer_after s0 now order n cn a) /\
    (forall n, K_heap s !! n = None -> K_heap s' !! n = None).
Proof.
  induction order as [|[a n] order IH]; intros s sent H Hf Ho ND R; cbn [tick_loop tick_frames].
  - exists s. split; [ reflexivity | ]. split; [ | auto ]. intros n cn Hc. exists cn.
    cbn. rewrite N.add_0_r. conj; auto.
    symmetry. apply N.mod_small. apply (inv_cn s H n cn Hc).
  - assert (Hn : K_OutputAddress s !! a = Some n) by (apply Ho; left).
    destruct (inv_out s H a n Hn) as [_ (cn & Hc & Ha)].
    assert (Hok : cn_ok cn) by (eapply inv_cn; eassumption).
    assert (Hao : addr_ok a).
    { destruct Hok as (_ & _ & Hf' & _). rewrite Forall_forall in Hf'. apply Hf'. exact Ha. }
    cbn [fmap list_fmap fst] in ND. apply NoDup_cons in ND. destruct ND as [Hna ND].
    unfold deref. rewrite Hc. cbn [bind]. rewrite (tick_body_eq _ cn a now Hok Hao). cbn [bind].
    destruct (R n cn Hc) as (cn0 & Hc0 & En & Es & Eb).
    assert (Ebuf : buffer cn a = buffer cn0 a) by (unfold buffer; rewrite Eb by left; reflexivity).
    rewrite Hc0, Hf.
    set (s1 := set_heap s (<[n := ticked (K_maxFPS s0) cn a now]> (K_heap s))).
    assert (H1 : Inv s1) by (eapply Inv_touch; [ exact H | exact Hc | apply ticked_node | apply ticked_ok; exact Hok ]).
    set (sent1 := if due (K_maxFPS s0) (buffer cn0 a) now then sent ++ [n] else sent).
    destruct (IH s1 sent1 H1) as (s' & E & Hs' & Hn').
    + exact Hf.
    + cbn. intros b m Hm. apply Ho. right. exact Hm.
    + exact ND.
    + intros m c Hm. unfold s1 in Hm. cbn in Hm. destruct (decide (m = n)) as [->|Hne].
      * rewrite lookup_insert in Hm. injection Hm as <-. exists cn0. split; [ exact Hc0 | ].
        rewrite ticked_node. split; [ exact En | ]. unfold ticked, sent1. rewrite Ebuf.
        destruct (due _ _ _); cbn; (split; [ | intros b Hb ]).
        -- rewrite count_app, Es. cbn. rewrite decide_True by reflexivity.
           rewrite N.add_mod_idemp_l by discriminate. f_equal. lia.
        -- rewrite lookup_insert_ne by congruence. apply Eb. right. exact Hb.
        -- exact Es.
        -- rewrite lookup_insert_ne by congruence. apply Eb. right. exact Hb.
      * rewrite lookup_insert_ne in Hm by congruence. destruct (R m c Hm) as (c0 & Hc0' & En' & Es' & Eb').
        exists c0. conj; auto.
        -- unfold sent1. destruct (due _ _ _); [ | exact Es' ]. rewrite count_app. cbn.
           rewrite decide_False by congruence. rewrite !N.add_0_r. exact Es'.
        -- intros b Hb. apply Eb'. right. exact Hb.
    + exists s'. rewrite E. cbn [bind]. split; [ | split ].
      * f_equal. f_equal. unfold emitted, sent1. rewrite Ebuf. destruct (due _ _ _); [ | reflexivity ].
        cbn [map snd app]. f_equal. unfold frame. rewrite En, Es. rewrite N.add_mod_idemp_l by discriminate. reflexivity.
      * intros m c Hm. destruct (decide (m = n)) as [->|Hne].
        -- assert (c = cn) by congruence. subst c.
           destruct (Hs' n (ticked (K_maxFPS s0) cn a now)) as (c' & Hc' & L1 & L2 & L3 & L4 & L5).
           { unfold s1. cbn. apply lookup_insert. }
           exists c'. split; [ exact Hc' | ]. rewrite L1, L2, L3, L4.
           unfold sent1, ticked. rewrite <- Ebuf. destruct (due (K_maxFPS s0) (buffer cn a) now) eqn:Ed; cbn; conj; auto.
           ++ rewrite decide_True by reflexivity. rewrite N.add_mod_idemp_l by discriminate. f_equal. lia.
           ++ intros b. rewrite L5. unfold buffer_after, ticked. rewrite Ed. cbn.
              destruct (decide (b = a)) as [->|Hb].
              ** rewrite lookup_insert. rewrite decide_False.
                 { rewrite decide_True by left. rewrite Ed. reflexivity. }
                 intros Hin. apply Hna. apply elem_of_list_fmap_1 with (f := fst) in Hin. exact Hin.
              ** rewrite lookup_insert_ne by congruence. unfold buffer. cbn. rewrite lookup_insert_ne by congruence.
                 destruct (decide ((b, n) ∈ order)); [ rewrite decide_True by (right; assumption) | rewrite decide_False by (rewrite elem_of_cons; intros [[= ]|]; contradiction) ]; reflexivity.
           ++ intros b. rewrite L5. unfold buffer_after, ticked. rewrite Ed. cbn.
              destruct (decide (b = a)) as [->|Hb].
              ** rewrite lookup_insert. rewrite decide_False.
                 { rewrite decide_True by left. rewrite Ed. reflexivity. }
                 intros Hin. apply Hna. apply elem_of_list_fmap_1 with (f := fst) in Hin. exact Hin.
              ** rewrite lookup_insert_ne by congruence. unfold buffer. cbn. rewrite lookup_insert_ne by congruence.
                 destruct (decide ((b, n) ∈ order)); [ rewrite decide_True by (right; assumption) | rewrite decide_False by (rewrite elem_of_cons; intros [[= ]|]; contradiction) ]; reflexivity.
        -- destruct (Hs' m c) as (c' & Hc' & L1 & L2 & L3 & L4 & L5).
           { unfold s1. cbn. rewrite lookup_insert_ne by congruence. exact Hm. }
           exists c'. split; [ exact Hc' | ]. rewrite L1, L2, L3, L4. conj; auto.
           ++ unfold sent1. destruct (due _ _ _); [ | reflexivity ]. cbn. rewrite decide_False by congruence. reflexivity.
           ++ intros b. rewrite L5. unfold buffer_after.
              destruct (decide ((b, m) ∈ order)); [ rewrite decide_True by (right; assumption) | rewrite decide_False by (rewrite elem_of_cons; intros [[= ]|]; contradiction) ]; reflexivity.
      * intros m Hm. apply Hn'. unfold s1. cbn. rewrite lookup_insert_ne; [ exact Hm | congruence ].
Qed.

Lemma tick_exact s order now : Inv s -> order ≡ₚ map_to_list (K_OutputAddress s) ->
  exists s', tick_loop s order now = Ret (s', map snd (tick_frames s now [] order)) /\
    (forall n cn, K_heap s !! n = Some cn -> exists cn', K_heap s' !! n = Some cn' /\
       CN_LastSeen cn' = CN_LastSeen cn /\ CN_Node cn' = CN_Node cn /\ CN_UDPAddress cn' = CN_UDPAddress cn /\
       CN_Sequence cn' = (CN_Sequence cn + count n (map fst (tick_frames s now [] order))) mod 256 /\
       forall a, CN_DMXBuffer cn' !! a = buffer_after s now order n cn a) /\
    (forall n, K_heap s !! n = None -> K_heap s' !! n = None).
Proof.
  intros H Ho. destruct (order_routed s order Ho) as [Hr ND].
  apply (tick_loop_exact s now order s [] H eq_refl); [ intros a n; apply Hr | exact ND | ].
  intros n cn Hc. exists cn. conj; auto. cbn. rewrite N.add_0_r. symmetry. apply N.mod_small. apply (inv_cn s H n cn Hc).
Qed.

(** * Running commands *)
(** A deterministic driver: ticks visit the map in its internal order. *)
Inductive cmd := Reply (p : ArtPollReplyPacket) (now : Z) | Gc (now : Z) | Send (dmx : list N) (a : Address) | Tick (now : Z) | Start.
Definition ev (s : Controller) (c : cmd) : event :=
  match c with
  | Reply p now => EReply p now
  | Gc now => EGc (fun _ => now)
  | Send d a => ESend d a
  | Tick now => ETick (map_to_list (K_OutputAddress s)) now
  | Start => EStart
  end.
Definition cmd_ok (c : cmd) : Prop :=
  match c with Reply p _ => wf_PollReply p | Send d _ => array_ok 512 d | _ => True end.
Fixpoint drive (s : Controller) (cs : list cmd) : go (Controller * history) :=
  match cs with
  | [] => Ret (s, [])
  | c :: cs => do r <- step s (ev s c); let '(s', out) := r in
               do r <- drive s' cs; let '(s'', h) := r in Ret (s'', (s, ev s c, out) :: h)
  end.
Lemma drive_reach fps cs : forall h s s' h', reach fps h s -> Forall cmd_ok cs -> drive s cs = Ret (s', h') ->
  reach fps (h ++ h') s'.
Proof.
  induction cs as [|c cs IH]; intros h s s' h' Hr Hok; cbn [drive].
  - intros [= <- <-]. rewrite app_nil_r. exact Hr.
  - apply Forall_cons in Hok. destruct Hok as [Hc Hok].
    destruct (step s (ev s c)) as [[s1 o1]|] eqn:E; cbn [bind]; [ | discriminate ].
    destruct (drive s1 cs) as [[s2 h2]|] eqn:E2; cbn [bind]; [ | discriminate ]. intros [= <- <-].
    replace (h ++ (s, ev s c, o1) :: h2) with ((h ++ [(s, ev s c, o1)]) ++ h2) by (rewrite <- app_assoc; reflexivity).
    apply (IH _ s1); [ | exact Hok | exact E2 ].
    apply reach_step; [ exact Hr | | exact E ].
    destruct c; cbn in *; auto.
Qed.
