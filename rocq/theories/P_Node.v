(** C54, C56-C60, C64, C65, C67, C71: what the goroutines of a node or controller do with packets, in every
    run of the interleaving semantics of Sys.v. *)
From Verif Require Import WireSpec BinaryFacts DispatchFacts EncodeFacts P_Encode P_Decode ControllerFacts P_Config P_Controller.
From Verif Require Import SysFacts SysLaws SysRun SysOrder SysScript.
From stdpp Require Import base list gmap.
Open Scope N_scope.

(** * What is transmitted *)
Lemma reply_wire E me : wf_config (E_config E) -> reply_datagram E me -> bytes_ok me /\ wire_opcode me = 0x2100.
Proof.
  intros Hc H. unfold reply_datagram in H. pose proof (announcement_wf _ Hc) as Hw.
  assert (Hm : snd (PollReply_MarshalBinary (ArtPollReplyFromConfig (E_config E))) = Ok (pollreply_bytes (ArtPollReplyFromConfig (E_config E))))
    by exact (marshal_bytes (PktPollReply _) Hw).
  rewrite Hm in H. injection H as <-. split; [ exact (packet_bytes_ok (PktPollReply _) Hw) | ]. apply reply_bytes_at. exact Hw.
Qed.
Lemma accepts_opcode d p : wire_accepts d p -> wire_opcode d = GetOpCode p.
Proof. intros H. destruct H; reflexivity. Qed.
Lemma frame_wire fps f : tick_frame fps f ->
  bytes_ok (snd f) /\ wire_opcode (snd f) = 0x5000 /\ exists q, Unmarshal (snd f) = Ret (Some (PktDMX q), None).
Proof.
  intros (h & s & order & now & s' & out & Hr & Ho & Hs & Hf).
  destruct (C45_frames_are_right fps h s order now s' out f Hr Ho Hs Hf) as (a & n & cn & q & _ & _ & _ & Hb & Hu & _).
  split; [ exact Hb | ]. split; [ | exists q; exact Hu ]. apply Unmarshal_accepts in Hu; [ | exact Hb ].
  pose proof (accepts_opcode _ _ Hu) as K. inversion Hu; subst; exact K.
Qed.
Definition kind_opcode (k : tag) : N := match k with KReply => 0x2100 | KPoll => 0x2000 | KDmx => 0x5000 end.
Lemma item_opcode E k a d : wf_config (E_config E) -> item_ok E (k, (a, d)) -> bytes_ok d /\ wire_opcode d = kind_opcode k.
Proof.
  intros Hc H. destruct k; cbn [item_ok kind_opcode] in *.
  - apply (reply_wire E d Hc). apply H.
  - destruct H as [_ ->]. split; [ apply bytes_okb; reflexivity | reflexivity ].
  - destruct (frame_wire _ _ H) as (H1 & H2 & _). auto.
Qed.
Lemma tx_item E ls y tr x : runs E ls y tr -> In (OTx x) tr -> item_ok E x.
Proof. intros R H. pose proof (sys_obs _ _ _ (runs_ok _ _ _ _ R)) as F. rewrite Forall_forall in F. apply elem_of_list_In in H. exact (F _ H). Qed.
Lemma obs_in E ls y tr o : runs E ls y tr -> In o tr -> obs_ok E o.
Proof. intros R H. pose proof (sys_obs _ _ _ (runs_ok _ _ _ _ R)) as F. rewrite Forall_forall in F. apply elem_of_list_In in H. exact (F _ H). Qed.

(** * C54 *)
Lemma new_config_wf name style ip : bytes_ok name -> byte_ok style -> bytes_ok ip -> wf_config (NewNode_config name style ip).
Proof.
  intros H1 H2 H3. unfold wf_config, NewNode_config. cbn. unfold word_ok, byte_ok, addr_ok, bytes_ok in *. cbn.
  repeat match goal with |- _ /\ _ => split end; try assumption; try (constructor; fail); try lia; unfold byte_ok; lia.
Qed.
(** The address given by the last BroadcastAddr option, if any. *)
Fixpoint last_broadcast (opts : list Option) : option UDPAddr :=
  match opts with
  | [] => None
  | o :: opts => match last_broadcast opts, o with
                 | Some a, _ => Some a
                 | None, BroadcastAddr a => Some a
                 | None, _ => None
                 end
  end.
Lemma ctl_options opts : forall E, let E' := fold_left ctl_option opts E in
  E_ctl E' = E_ctl E /\ E_config E' = E_config E /\ E_localIP E' = E_localIP E /\ E_nodeBroadcast E' = E_nodeBroadcast E /\
  E_ctlBroadcast E' = default (E_ctlBroadcast E) (last_broadcast opts).
Proof.
  induction opts as [|o opts IH]; intros E; cbn [fold_left last_broadcast]; [ auto | ].
  destruct (IH (ctl_option E o)) as (-> & -> & -> & -> & ->). destruct (last_broadcast opts); destruct o; cbn; auto.
Qed.
(** The default broadcast address 2.255.255.255:6454. *)
Definition default_broadcast : UDPAddr := ([2; 255; 255; 255], 6454).

(** The ArtPollReply of a controller does not go to the address chosen with BroadcastAddr. *)
Definition bcast1 : UDPAddr := ([192; 168; 1; 255], 6454).
Definition poll_script : script := up_ctl ++ go_n 4 4 ++ go_n 1 3 ++ transmit 3 ++ transmit 3.
Theorem C54_broadcast_refuted : exists name ip a ls y tr k dst d,
  runs (NewController_env name ip [BroadcastAddr a]) ls y tr /\ In (OTx (k, (dst, d))) tr /\ wire_opcode d = 0x2100 /\ dst <> a.
Proof.
  destruct (tested_runs (NewController_env [99] [10; 0; 0; 9] [BroadcastAddr bcast1]) poll_script
    (fun _ _ tr => existsb (fun o => match o with OTx (k, (dst, d)) => (wire_opcode d =? 0x2100) && negb (bool_decide (dst = bcast1)) | _ => false end) tr))
    as (ls & y & tr & R & H); [ vm_compute; reflexivity | ].
  apply existsb_exists in H. destruct H as (o & Ho & H). destruct o as [| | | | | | | | |[k [dst d]]| | | | | | | | |]; try discriminate.
  apply andb_prop in H. destruct H as [H1 H2]. apply N.eqb_eq in H1. apply negb_true_iff in H2. apply bool_decide_eq_false in H2.
  exists [99], [10; 0; 0; 9], bcast1, ls, y, tr, k, dst, d. auto.
Qed.
(** Missing for the full claim: ArtPollReply goes to the default address whatever the options. *)
Theorem C54_broadcast_partial : forall name ip opts ls y tr k dst d, bytes_ok name -> bytes_ok ip ->
  runs (NewController_env name ip opts) ls y tr -> In (OTx (k, (dst, d))) tr ->
  (wire_opcode d = 0x2000 -> dst = default default_broadcast (last_broadcast opts)) /\
  (wire_opcode d = 0x2100 -> dst = default_broadcast) /\
  (wire_opcode d <> 0x2000 -> wire_opcode d <> 0x2100 -> wire_opcode d = 0x5000).
Proof.
  intros name ip opts ls y tr k dst d Hn Hip R H. pose proof (tx_item _ _ _ _ _ R H) as Hi.
  unfold NewController_env in Hi. cbv zeta in Hi.
  match type of Hi with item_ok (fold_left _ _ ?E0) _ => destruct (ctl_options opts E0) as (_ & O2 & _ & O4 & O5) end.
  assert (Hc : wf_config (E_config (NewController_env name ip opts))).
  { unfold NewController_env. rewrite O2. apply new_config_wf; [ exact Hn | reflexivity | exact Hip ]. }
  destruct (item_opcode _ k dst d Hc Hi) as [_ Ho]. rewrite Ho. destruct k; cbn [kind_opcode item_ok] in *.
  - rewrite O4 in Hi. repeat split; intros; try discriminate; try congruence. destruct Hi as [-> _]. reflexivity.
  - rewrite O5 in Hi. repeat split; intros; try discriminate; try congruence. destruct Hi as [-> _]. reflexivity.
  - repeat split; intros; try discriminate; congruence.
Qed.
Fixpoint last_node_broadcast (opts : list NodeOption) : option UDPAddr :=
  match opts with
  | [] => None
  | o :: opts => match last_node_broadcast opts, o with
                 | Some a, _ => Some a
                 | None, NodeBroadcastAddress a => Some a
                 | None, _ => None
                 end
  end.
Lemma node_options opts : forall E, let E' := fold_left node_option opts E in
  E_ctl E' = E_ctl E /\ E_config E' = E_config E /\ E_localIP E' = E_localIP E /\
  E_nodeBroadcast E' = default (E_nodeBroadcast E) (last_node_broadcast opts).
Proof.
  induction opts as [|o opts IH]; intros E; cbn [fold_left last_node_broadcast]; [ auto | ].
  destruct (IH (node_option E o)) as (-> & -> & -> & ->). destruct (last_node_broadcast opts); destruct o; cbn; auto.
Qed.
Lemma node_queues E ls y tr x : E_ctl E = false -> runs E ls y tr -> In (OQueued x) tr -> fst x = KReply.
Proof.
  intros Hc R. unfold runs in R. remember (init E) as y0 eqn:E0. revert E0.
  induction R as [|y0 ls y1 tr1 l y2 o Hs IH Hl He]; intros E0 H; [ contradiction | ].
  apply in_app_or in H. destruct H as [H|H]; [ auto | ]. subst y0. pose proof (runs_ok E _ _ _ Hs) as OK. apply exec_cases in He.
  destruct He as [(i & c & t & s & t' & sp & -> & Et & Es & ->)|[(t & -> & -> & Hk)|(mm & op & f & -> & -> & _)]]; [ | contradiction | destruct H as [H|[]]; discriminate ].
  destruct (Forall_lookup_1 _ _ _ _ (sys_threads _ _ _ OK) Et) as [_ T2]. pose proof (ok_cgens _ _ _ (sys_shared _ _ _ OK)) as K.
  tcases Es; cbn [In] in H; repeat (destruct H as [H|H]); try contradiction; try discriminate; injection H as <-; try reflexivity; cbn [t_refs] in T2;
    exfalso; destruct T2 as [_ T2]; specialize (K T2); congruence.
Qed.
Lemma tx_queued E ls y tr x : runs E ls y tr -> In (OTx x) tr -> In (OQueued x) tr.
Proof.
  intros R H. pose proof (law_runs E law_payloads _ _ _ (payloads_respected E) R) as P.
  assert (K : x ∈ collect (v_in law_payloads) tr).
  { rewrite P. apply elem_of_app. left. unfold collect. apply elem_of_list_In. apply in_concat. exists [x]. split; [ | left; reflexivity ].
    apply in_map_iff. exists (OTx x). auto. }
  apply elem_of_list_In in K. unfold collect in K. apply in_concat in K. destruct K as (l & K1 & K2). apply in_map_iff in K1.
  destruct K1 as (o & <- & Ho). destruct o; cbn in K2; try contradiction. destruct K2 as [->|[]]. exact Ho.
Qed.
Lemma node_kind E ls y tr x : E_ctl E = false -> runs E ls y tr -> In (OTx x) tr -> fst x = KReply.
Proof. intros Hc R H. eapply node_queues; [ exact Hc | exact R | ]. eapply tx_queued; eassumption. Qed.
(** A plain node transmits ArtPollReply packets only, to the address chosen with NodeBroadcastAddress. *)
Theorem C54_node_broadcast_partial : forall name style ip opts ls y tr k dst d, bytes_ok name -> byte_ok style -> bytes_ok ip ->
  runs (NewNode name style ip opts) ls y tr -> In (OTx (k, (dst, d))) tr ->
  dst = default default_broadcast (last_node_broadcast opts) /\ wire_opcode d = 0x2100.
Proof.
  intros name style ip opts ls y tr k dst d Hn Hst Hip R H. pose proof (tx_item _ _ _ _ _ R H) as Hi.
  set (E := NewNode name style ip opts) in *.
  assert (O : E_ctl E = false /\ E_config E = NewNode_config name style ip /\ E_nodeBroadcast E = default default_broadcast (last_node_broadcast opts)).
  { unfold E, NewNode. match goal with |- context [fold_left _ _ ?E0] => destruct (node_options opts E0) as (-> & -> & _ & ->) end. auto. }
  destruct O as (O1 & O2 & O3). assert (Hc : wf_config (E_config E)) by (rewrite O2; apply new_config_wf; assumption).
  assert (Hk : k = KReply).
  { exact (node_kind E _ _ _ (k, (dst, d)) O1 R H). }
  destruct (item_opcode E k dst d Hc Hi) as [_ Ho]. subst k. rewrite Ho. destruct Hi as [-> _]. auto.
Qed.
Definition serve_poll (i : nat) : script := arrive 4 host2 poll_bytes ++ parse 2 ++ go_n i 3 ++ go_n 1 4 ++ transmit 3.
Example C54_ex : exists ls y tr k d, runs (NewNode [110] StNode [10; 0; 0; 1] [NodeBroadcastAddress bcast1]) ls y tr /\ In (OTx (k, (bcast1, d))) tr.
Proof.
  destruct (tested_runs (NewNode [110] StNode [10; 0; 0; 1] [NodeBroadcastAddress bcast1]) (up_node ++ serve_poll 5)
    (fun _ _ tr => existsb (fun o => match o with OTx (k, (dst, d)) => bool_decide (dst = bcast1) | _ => false end) tr))
    as (ls & y & tr & R & H); [ vm_compute; reflexivity | ].
  apply existsb_exists in H. destruct H as (o & Ho & H). destruct o as [| | | | | | | | |[k [dst d]]| | | | | | | | |]; try discriminate.
  apply bool_decide_eq_true in H. subst dst. exists ls, y, tr, k, d. auto.
Qed.
Example C54_ex2 : exists ls y tr k d, runs (NewController_env [99] [10; 0; 0; 9] [BroadcastAddr bcast1; MaxFPS 40]) ls y tr /\
  In (OTx (k, (bcast1, d))) tr /\ wire_opcode d = 0x2000.
Proof.
  destruct (tested_runs (NewController_env [99] [10; 0; 0; 9] [BroadcastAddr bcast1; MaxFPS 40]) poll_script
    (fun _ _ tr => existsb (fun o => match o with OTx (k, (dst, d)) => bool_decide (dst = bcast1 /\ wire_opcode d = 0x2000) | _ => false end) tr))
    as (ls & y & tr & R & H); [ vm_compute; reflexivity | ].
  apply existsb_exists in H. destruct H as (o & Ho & H). destruct o as [| | | | | | | | |[k [dst d]]| | | | | | | | |]; try discriminate.
  apply bool_decide_eq_true in H. destruct H as [-> H]. exists ls, y, tr, k, d. auto.
Qed.

(** * C56 *)
(** After the observations [tr] the node is stopped: it has not been started, or stopped since. *)
Definition stopped (tr : list obs) : Prop := forall a b, tr = a ++ OUp :: b -> In ODown b.
(** The registration [f] for [op] is the last one made while the node was stopped. *)
Definition in_force (tr : list obs) (op : N) (f : option N) : Prop :=
  exists a b, tr = a ++ ORegister op f :: b /\ stopped a /\
    forall b1 f' b2, b = b1 ++ ORegister op f' :: b2 -> ~ stopped (a ++ ORegister op f :: b1).
(** No registration for [op] was made while the node was stopped. *)
Definition never_registered (tr : list obs) (op : N) : Prop := forall a f b, tr = a ++ ORegister op f :: b -> ~ stopped a.
(** The callbacks of a new node: ArtPoll and ArtPollReply. *)
Definition builtin (op : N) : option handler := if op =? 0x2000 then Some HPoll else if op =? 0x2100 then Some HPollReply else None.
(** [registry tr op h]: the callback for op after tr, by the rule of the documentation. *)
Definition registry (tr : list obs) (op : N) (h : option handler) : Prop :=
  never_registered tr op /\ h = builtin op \/ exists f, in_force tr op f /\ h = option_map HUser f.

(** The same by recursion. *)
Definition down_step (d : bool) (o : obs) : bool := match o with OUp => false | ODown => true | _ => d end.
Definition down (tr : list obs) : bool := fold_left down_step tr true.
Definition reg_step (x : bool * gmap N handler) (o : obs) : bool * gmap N handler :=
  (down_step (fst x) o,
   match o with
   | ORegister op f => if fst x then match f with Some f => <[op := HUser f]> (snd x) | None => delete op (snd x) end else snd x
   | _ => snd x
   end).
Definition regs (tr : list obs) : bool * gmap N handler := fold_left reg_step tr (true, {[ OpPoll := HPoll; OpPollReply := HPollReply ]}).
Lemma regs_down tr : fst (regs tr) = down tr.
Proof.
  unfold regs, down. generalize ({[OpPoll := HPoll; OpPollReply := HPollReply]} : gmap N handler). generalize true.
  induction tr as [|o tr IH]; intros b m; cbn [fold_left]; [ reflexivity | ]. exact (IH (down_step b o) (snd (reg_step (b, m) o))).
Qed.
Lemma snoc_split {A} (tr : list A) x a y b : tr ++ [x] = a ++ y :: b ->
  b = [] /\ x = y /\ tr = a \/ exists b', b = b' ++ [x] /\ tr = a ++ y :: b'.
Proof.
  destruct b as [|z b _] using rev_ind; intros H.
  - left. apply app_inj_tail in H. destruct H as [-> ->]. auto.
  - right. exists b. rewrite app_comm_cons, app_assoc in H. apply app_inj_tail in H. destruct H as [-> ->]. auto.
Qed.
Lemma stopped_down tr : down tr = true <-> stopped tr.
Proof.
  induction tr as [|o tr IH] using rev_ind.
  - split; [ | reflexivity ]. intros _ a b H. destruct a; discriminate.
  - unfold down in *. rewrite fold_left_app. cbn [fold_left]. destruct o; cbn [down_step]; try rewrite IH.
    all: try (split; [ intros H a b Hab; apply snoc_split in Hab; destruct Hab as [(-> & Hx & ->)|(b' & -> & ->)];
                [ discriminate Hx | apply in_or_app; left; eapply H; reflexivity ]
              | intros H a b ->; assert (K : In ODown (b ++ [_])) by (eapply H; rewrite <- app_assoc; reflexivity);
                apply in_app_or in K; destruct K as [K|[K|[]]]; [ exact K | discriminate K ] ]).
    + split; [ discriminate | ]. intros H. destruct (H tr [] eq_refl).
    + split; [ | reflexivity ]. intros _ a b Hab. apply snoc_split in Hab. destruct Hab as [(-> & Hx & ->)|(b' & -> & ->)]; [ discriminate Hx | ].
      apply in_or_app. right. left. reflexivity.
Qed.
Lemma down_snoc tr o : down (tr ++ [o]) = down_step (down tr) o.
Proof. unfold down. rewrite fold_left_app. reflexivity. Qed.
Lemma not_register_keeps tr o op : (forall f, o <> ORegister op f) \/ ~ stopped tr ->
  (never_registered tr op -> never_registered (tr ++ [o]) op) /\ (forall f, in_force tr op f -> in_force (tr ++ [o]) op f).
Proof.
  intros Ho. split.
  - intros H a f b Hab. apply snoc_split in Hab. destruct Hab as [(-> & -> & ->)|(b' & -> & ->)].
    + destruct Ho as [Ho|Ho]; [ destruct (Ho f eq_refl) | exact Ho ].
    + eapply H. reflexivity.
  - intros f (a & b & -> & Hs & Hl). exists a, (b ++ [o]). split; [ rewrite <- app_assoc; reflexivity | ]. split; [ exact Hs | ].
    intros b1 f' b2 Hb. apply snoc_split in Hb. destruct Hb as [(-> & -> & ->)|(b' & -> & ->)].
    + destruct Ho as [Ho|Ho]; [ destruct (Ho f' eq_refl) | exact Ho ].
    + eapply Hl. reflexivity.
Qed.
Lemma registry_regs tr op : registry tr op (snd (regs tr) !! op).
Proof.
  induction tr as [|o tr IH] using rev_ind.
  - left. split.
    + intros a f b H. destruct a; discriminate.
    + cbn [regs fold_left snd]. unfold builtin. destruct (N.eqb_spec op 0x2000) as [->|H1]; [ reflexivity | ].
      destruct (N.eqb_spec op 0x2100) as [->|H2]; [ reflexivity | ].
      rewrite lookup_insert_ne by (intros K; apply H1; symmetry; exact K). rewrite lookup_singleton_ne by (intros K; apply H2; symmetry; exact K). reflexivity.
  - assert (Hk : (forall f, o <> ORegister op f) \/ ~ stopped tr -> snd (regs (tr ++ [o])) !! op = snd (regs tr) !! op -> registry (tr ++ [o]) op (snd (regs (tr ++ [o])) !! op)).
    { intros Ho ->. destruct (not_register_keeps tr o op Ho) as [K1 K2].
      destruct IH as [[I1 I2]|(f & I1 & I2)]; [ left; auto | right; exists f; auto ]. }
    assert (Hr : snd (regs (tr ++ [o])) = snd (reg_step (regs tr) o)) by (unfold regs; rewrite fold_left_app; reflexivity).
    destruct o; try (apply Hk; [ left; intros; discriminate | rewrite Hr; reflexivity ]).
    rewrite Hr in Hk |- *. unfold reg_step in *. cbn [snd fst] in *. rewrite regs_down in *. destruct (down tr) eqn:Ed.
    + destruct (N.eq_dec op0 op) as [->|Hn].
      * right. exists f. split.
        -- exists tr, []. split; [ reflexivity | ]. split; [ apply stopped_down; exact Ed | ]. intros b1 f' b2 Hb. destruct b1; discriminate.
        -- destruct f as [f|]; cbn [option_map]; [ apply lookup_insert | apply lookup_delete ].
      * apply Hk; [ left; intros; congruence | ]. destruct f as [f|]; [ apply lookup_insert_ne; exact Hn | apply lookup_delete_ne; exact Hn ].
    + apply Hk; [ right; intros Hs; apply stopped_down in Hs; congruence | reflexivity ].
Qed.
(** The rule determines the callback. *)
Lemma registry_unique tr op h h' : registry tr op h -> registry tr op h' -> h = h'.
Proof.
  assert (L : forall a f b a' f' b', a ++ ORegister op f :: b = a' ++ ORegister op f' :: b' ->
     (a = a' /\ f = f' /\ b = b') \/ (exists c, b = c ++ ORegister op f' :: b' /\ a' = a ++ ORegister op f :: c) \/
     (exists c, b' = c ++ ORegister op f :: b /\ a = a' ++ ORegister op f' :: c)).
  { intros a. induction a as [|x a IH]; intros f b [|x' a'] f' b' H; cbn in H.
    - injection H as -> ->. auto.
    - injection H as <- ->. right. left. exists a'. auto.
    - injection H as -> <-. right. right. exists a. auto.
    - injection H as -> H. destruct (IH f b a' f' b' H) as [(-> & -> & ->)|[(c & -> & ->)|(c & -> & ->)]]; [ auto | right; left; exists c; auto | right; right; exists c; auto ]. }
  assert (N1 : forall f, in_force tr op f -> never_registered tr op -> False).
  { intros f (a & b & -> & Hs & _) Hn. exact (Hn a f b eq_refl Hs). }
  intros [[H1 ->]|(f & H1 & ->)] [[H2 ->]|(f' & H2 & ->)]; try reflexivity; try (exfalso; eauto; fail).
  destruct H1 as (a & b & -> & Hs & Hl), H2 as (a' & b' & Ht & Hs' & Hl').
  destruct (L _ _ _ _ _ _ Ht) as [(-> & -> & ->)|[(c & -> & ->)|(c & -> & ->)]]; [ reflexivity | exfalso | exfalso ].
  - exact (Hl _ _ _ eq_refl Hs').
  - exact (Hl' _ _ _ eq_refl Hs).
Qed.

Lemma regs_app a b : regs (a ++ b) = fold_left reg_step b (regs a).
Proof. unfold regs. apply fold_left_app. Qed.
Lemma tstep_regs E s t c s' t' sp o : tstep E s t c = Next s' t' sp o ->
  fold_left reg_step o (S_shutdown s, S_callbacks s) = (S_shutdown s', S_callbacks s').
Proof. intros H. tcases H; reflexivity. Qed.
Lemma regs_state E ls y tr : runs E ls y tr -> regs tr = (S_shutdown (Y_sh y), S_callbacks (Y_sh y)).
Proof.
  intros R. unfold runs in R. remember (init E) as y0 eqn:E0. revert E0.
  induction R as [|y0 ls y1 tr1 l y2 o Hs IH Hl He]; intros E0; [ subst; reflexivity | ].
  rewrite regs_app, (IH E0). apply exec_cases in He.
  destruct He as [(i & c & t & s & t' & sp & -> & Et & Es & ->)|[(t & -> & -> & Hk)|(mm & op & f & -> & -> & _ & -> & _)]]; cbn [Y_sh].
  - eapply tstep_regs. exact Es.
  - reflexivity.
  - cbn. unfold reg_step. cbn. destruct (S_shutdown (Y_sh y1)); reflexivity.
Qed.
(** In every run the callback table is the one prescribed by the registrations made while stopped. *)
Theorem C56_registry : forall E ls y tr op, runs E ls y tr ->
  registry tr op (S_callbacks (Y_sh y) !! op) /\ (forall h, registry tr op h -> h = S_callbacks (Y_sh y) !! op) /\
  (S_shutdown (Y_sh y) = true <-> stopped tr).
Proof.
  intros E ls y tr op R. pose proof (regs_state E ls y tr R) as H. assert (K : registry tr op (S_callbacks (Y_sh y) !! op)).
  { pose proof (registry_regs tr op) as K. rewrite H in K. exact K. }
  split; [ exact K | ]. split; [ intros h Hh; eapply registry_unique; eassumption | ].
  rewrite <- stopped_down, <- regs_down, H. reflexivity.
Qed.
(** What was registered counts, not what is registered while running. *)
Definition reg_script : script := act (LRegister 0x5000 1) ++ act (LRegister 0x5000 2) ++ act (LDeregister 0x2000) ++ up_node ++ act (LRegister 0x5000 3).
Example C56_ex : exists ls y tr, runs node1 ls y tr /\ registry tr 0x5000 (Some (HUser 2)) /\ registry tr 0x2000 None /\
  registry tr 0x2100 (Some HPollReply) /\ In (ORegister 0x5000 (Some 3)) tr.
Proof.
  destruct (tested_runs node1 reg_script (fun _ y tr => bool_decide (S_callbacks (Y_sh y) !! 0x5000 = Some (HUser 2) /\
    S_callbacks (Y_sh y) !! 0x2000 = None /\ S_callbacks (Y_sh y) !! 0x2100 = Some HPollReply) &&
    existsb (fun o => match o with ORegister op (Some 3) => op =? 0x5000 | _ => false end) tr)) as (ls & y & tr & R & H); [ vm_compute; reflexivity | ].
  apply andb_prop in H. destruct H as [H H']. apply bool_decide_eq_true in H. destruct H as (H1 & H2 & H3). exists ls, y, tr.
  split; [ exact R | ]. rewrite <- H1, <- H2, <- H3. repeat (split; [ apply (C56_registry _ _ _ _ _ R) | ]).
  apply existsb_exists in H'. destruct H' as (o & Ho & H'). destruct o; try discriminate. destruct f as [[|f]|]; try discriminate.
  repeat (destruct f as [f|f|]; try discriminate). apply N.eqb_eq in H'. subst op. exact Ho.
Qed.

(** * Positions in a trace *)
Lemma app_cons_split {A} (tr o : list A) a x b : tr ++ o = a ++ x :: b ->
  (exists b', b = b' ++ o /\ tr = a ++ x :: b') \/ (exists a', a = tr ++ a' /\ o = a' ++ x :: b).
Proof.
  revert a. induction tr as [|z tr IH]; intros [|w a] H; cbn in H.
  - right. exists []. auto.
  - right. exists (w :: a). auto.
  - injection H as -> H. left. exists tr. auto.
  - injection H as -> H. destruct (IH a H) as [(b' & -> & ->)|(a' & -> & ->)]; [ left; exists b'; auto | right; exists a'; auto ].
Qed.
(** The step that made an observation. *)
Lemma steps_at E y ls y' tr a x b : steps E y ls y' tr -> tr = a ++ x :: b ->
  exists ls1 y1 tr1 l ls2 y2 o1 o2 tr2, steps E y ls1 y1 tr1 /\ label_ok l /\ exec E y1 l = RNext y2 (o1 ++ x :: o2) /\ steps E y2 ls2 y' tr2 /\
    a = tr1 ++ o1 /\ b = o2 ++ tr2 /\ ls = ls1 ++ l :: ls2.
Proof.
  intros H. revert a b. induction H as [|y ls y1 tr1 l y2 o Hs IH Hl He]; intros a b Ht; [ destruct a; discriminate | ].
  apply app_cons_split in Ht. destruct Ht as [(b' & -> & Ht)|(a' & -> & ->)].
  - destruct (IH a b' Ht) as (ls1 & ya & tra & l1 & ls2 & yb & o1 & o2 & tr2 & S1 & L1 & X1 & S2 & -> & -> & ->).
    exists ls1, ya, tra, l1, (ls2 ++ [l]), yb, o1, o2, (tr2 ++ o). repeat (split; [ first [ assumption | econstructor; eassumption ] | ]).
    rewrite <- !app_assoc. auto.
  - exists ls, y1, tr1, l, [], y2, a', b, []. rewrite app_nil_r. repeat (split; [ first [ assumption | constructor ] | ]). auto.
Qed.

(** * C57 *)
Definition called (tr : list obs) : list packet := collect (fun o => match o with OCall _ p => [p] | _ => [] end) tr.
Definition ignored (tr : list obs) : list packet := collect (fun o => match o with OIgnore p => [p] | _ => [] end) tr.
(** Packets whose handler goroutine has not run yet. *)
Definition waiting (y : sys) : list packet := collect (fun t => match t with H_start p => [p] | _ => [] end) (Y_threads y).
(** Datagrams between the socket and the parser. *)
Definition in_transit (E : env) (y : sys) : list (list N) :=
  collect (fun t => match t with RL_parse d => [d] | _ => rd_view E t end) (Y_threads y) ++ collect Q_recv (S_gens (Y_sh y)).
Lemma collect_ext {A B} (f g : A -> list B) l : (forall x, f x = g x) -> collect f l = collect g l.
Proof. intros H. unfold collect. f_equal. apply map_ext. exact H. Qed.
Lemma collect_union {A B} (f g : A -> list B) l : collect (fun x => f x ++ g x) l ≡ₚ collect f l ++ collect g l.
Proof.
  induction l as [|x l IH]; [ reflexivity | ]. rewrite !collect_cons, IH. rewrite <- !app_assoc. apply Permutation_app_head.
  rewrite !app_assoc. apply Permutation_app_tail. apply Permutation_app_comm.
Qed.
Definition accept (d : list N) : option packet := match Unmarshal d with Ret (Some p, None) => Some p | _ => None end.
Lemma accept_wire d p : bytes_ok d -> accept d = Some p <-> wire_accepts d p.
Proof.
  intros H. rewrite <- (Unmarshal_accepts d p H). unfold accept. destruct (Unmarshal d) as [[[q|] [e|]]|]; split; intros K; try discriminate; congruence.
Qed.
Definition spawned (tr : list obs) : list packet := collect (fun o => match o with OSpawn p => [p] | _ => [] end) tr.
Lemma spawned_step E s t c s' t' sp o : tstep E s t c = Next s' t' sp o -> spawned o = omap accept (parsed o).
Proof. intros H. tcases H; try reflexivity; unfold spawned, parsed, accept; cbn; rewrite H; try destruct o; reflexivity. Qed.
Lemma spawned_parsed E ls y tr : runs E ls y tr -> spawned tr = omap accept (parsed tr).
Proof.
  intros R. unfold runs in R. induction R as [|y0 ls y1 tr1 l y2 o Hs IH Hl He]; [ reflexivity | ].
  unfold spawned, parsed in *. rewrite !collect_app, omap_app, IH. f_equal. apply exec_cases in He.
  destruct He as [(i & c & t & s & t' & sp & -> & Et & Es & ->)|[(t & -> & -> & Hk)|(mm & op & f & -> & -> & _)]]; try reflexivity.
  eapply spawned_step. exact Es.
Qed.
Lemma runs_steps E ls y tr ls' y' tr' : runs E ls y tr -> steps E y ls' y' tr' -> runs E (ls ++ ls') y' (tr ++ tr').
Proof. apply steps_app. Qed.
Lemma call_registered E y l y' o1 h p o2 : exec E y l = RNext y' (o1 ++ OCall h p :: o2) -> o1 = [] /\ S_callbacks (Y_sh y) !! GetOpCode p = Some h.
Proof.
  intros He. apply exec_cases in He.
  destruct He as [(i & c & t & s & t' & sp & -> & Et & Es & ->)|[(t & Ho & -> & Hk)|(mm & op & f & Ho & -> & _)]].
  - remember (o1 ++ OCall h p :: o2) as o eqn:Eo. tcases Es; destruct o1 as [|ob1 [|ob2 o1]]; try discriminate Eo; try (cbn in Eo; destruct o1; discriminate Eo);
      injection Eo as <- <- _; auto.
  - destruct o1; discriminate.
  - destruct o1 as [|x [|z o1]]; discriminate.
Qed.
Lemma ignore_unregistered E y l y' o1 p o2 : exec E y l = RNext y' (o1 ++ OIgnore p :: o2) -> o1 = [] /\ S_callbacks (Y_sh y) !! GetOpCode p = None.
Proof.
  intros He. apply exec_cases in He.
  destruct He as [(i & c & t & s & t' & sp & -> & Et & Es & ->)|[(t & Ho & -> & Hk)|(mm & op & f & Ho & -> & _)]].
  - remember (o1 ++ OIgnore p :: o2) as o eqn:Eo. tcases Es; destruct o1 as [|ob1 [|ob2 o1]]; try discriminate Eo; try (cbn in Eo; destruct o1; discriminate Eo);
      injection Eo as <- _; auto.
  - destruct o1; discriminate.
  - destruct o1 as [|x [|z o1]]; discriminate.
Qed.
Theorem C57_callbacks : forall E ls y tr, runs E ls y tr ->
  (* the datagrams of other hosts are each parsed once, discarded after Stop, or on their way *)
  received E tr ≡ₚ parsed tr ++ discarded E tr ++ in_transit E y /\
  (* the accepted ones each lead to one invocation, or none if no callback is registered, or wait for it *)
  (exists ps, Forall2 (fun d o => forall p, o = Some p <-> wire_accepts d p) (parsed tr) ps /\
     omap id ps ≡ₚ called tr ++ ignored tr ++ waiting y) /\
  (* by the callback registered for the opcode *)
  (forall a h p b, tr = a ++ OCall h p :: b -> registry a (GetOpCode p) (Some h)) /\
  (forall a p b, tr = a ++ OIgnore p :: b -> registry a (GetOpCode p) None) /\
  (* a waiting handler can run at once *)
  (forall i p, Y_threads y !! i = Some (H_start p) -> exists y' o, exec E y (LRun i CGo) = RNext y' o /\
     (o = [OIgnore p] \/ exists h, o = [OCall h p])).
Proof.
  intros E ls y tr R. split; [ | split; [ | split; [ | split ] ] ].
  - pose proof (law_runs E (law_datagrams E) _ _ _ (datagrams_respected E) R) as P. unfold law_datagrams, held in P. cbn [v_in v_out v_t v_g] in P.
    unfold received. rewrite P. clear P. rewrite (app_assoc (parsed tr)). apply Permutation_app.
    + unfold parsed, discarded. rewrite <- collect_union. erewrite collect_ext; [ reflexivity | ]. intros o. destruct o; reflexivity.
    + unfold in_transit. apply Permutation_app_tail. erewrite collect_ext; [ reflexivity | ]. intros t. destruct t; reflexivity.
  - exists (map accept (parsed tr)). split.
    + assert (F : Forall bytes_ok (parsed tr)).
      { apply Forall_forall. intros d Hd. apply elem_of_list_In in Hd. unfold parsed, collect in Hd. apply in_concat in Hd. destruct Hd as (l & H1 & H2).
        apply in_map_iff in H1. destruct H1 as (o & <- & Ho). destruct o; cbn in H2; try contradiction. destruct H2 as [->|[]]. exact (obs_in _ _ _ _ _ R Ho). }
      induction F as [|d l Hd F IH]; cbn [map]; constructor; [ | exact IH ]. intros p. apply accept_wire. exact Hd.
    + pose proof (law_runs E law_packets _ _ _ (packets_respected E) R) as P. unfold law_packets, held in P. cbn [v_in v_out v_t v_g] in P.
      fold (spawned tr) in P. rewrite (spawned_parsed _ _ _ _ R) in P.
      replace (omap id (map accept (parsed tr))) with (omap accept (parsed tr)).
      2:{ generalize (parsed tr). intros l. induction l as [|d l IH]; [ reflexivity | ]. cbn. destruct (accept d); rewrite IH; reflexivity. }
      rewrite P. rewrite (app_assoc (called tr)). apply Permutation_app.
      * unfold called, ignored. rewrite <- collect_union. erewrite collect_ext; [ reflexivity | ]. intros o. destruct o; reflexivity.
      * assert (Z : collect (fun _ : chans => @nil packet) (S_gens (Y_sh y)) = []) by (generalize (S_gens (Y_sh y)); intros l; induction l; auto).
        rewrite Z, app_nil_r. reflexivity.
  - intros a h p b Ht. destruct (steps_at E _ _ _ _ _ _ _ R Ht) as (ls1 & y1 & tr1 & l & ls2 & y2 & o1 & o2 & tr2 & S1 & _ & X & _ & -> & _).
    apply call_registered in X. destruct X as [-> X]. rewrite app_nil_r, <- X. apply (C56_registry _ _ _ _ _ S1).
  - intros a p b Ht. destruct (steps_at E _ _ _ _ _ _ _ R Ht) as (ls1 & y1 & tr1 & l & ls2 & y2 & o1 & o2 & tr2 & S1 & _ & X & _ & -> & _).
    apply ignore_unregistered in X. destruct X as [-> X]. rewrite app_nil_r, <- X. apply (C56_registry _ _ _ _ _ S1).
  - intros i p Hi. cbn [exec]. rewrite Hi. cbn [tstep]. destruct (S_callbacks (Y_sh y) !! GetOpCode p) as [h|]; eauto 8.
Qed.
Definition dmx_bytes (seq : N) : list N := magic ++ [0x00; 0x50; 0; 14; seq; 0; 1; 0; 2; 0] ++ repeat 7 512.
Definition two_packets : script := up_node ++ arrive 4 host2 poll_bytes ++ parse 2 ++ arrive 4 host2 (dmx_bytes 1) ++ parse 2 ++ arrive 4 host2 [1; 2; 3] ++ parse 2 ++
  go_n 5 1 ++ go_n 6 1.
(** A poll, a DMX packet nobody has registered for, and garbage. *)
Example C57_ex : exists ls y tr, runs node1 ls y tr /\ length (parsed tr) = 3%nat /\ length (called tr) = 1%nat /\ length (ignored tr) = 1%nat /\ waiting y = [].
Proof.
  destruct (tested_runs node1 two_packets (fun _ y tr => bool_decide (length (parsed tr) = 3%nat /\ length (called tr) = 1%nat /\ length (ignored tr) = 1%nat /\ waiting y = [])))
    as (ls & y & tr & R & H); [ vm_compute; reflexivity | ]. apply bool_decide_eq_true in H. eauto.
Qed.

(** * C58 *)
(** The 16-byte form of an IP address. *)
Definition to16 (ip : list N) : list N := if len ip =? 4 then [0; 0; 0; 0; 0; 0; 0; 0; 0; 0; 0xff; 0xff] ++ ip else ip.
Lemma len16 ip : len ip = 4 -> len (to16 ip) = 16.
Proof. intros H. unfold to16. rewrite H. cbn [N.eqb Pos.eqb]. rewrite len_app, H. reflexivity. Qed.
Lemma IP_Equal_iff a b : IP_Equal a b = true <-> to16 a = to16 b.
Proof.
  unfold IP_Equal. destruct (N.eqb_spec (len a) (len b)) as [E1|E1].
  - rewrite eqbytes_eq. unfold to16. rewrite E1. destruct (len b =? 4); split; intros H; try congruence. eapply app_inv_head. exact H.
  - destruct (N.eqb_spec (len a) 4) as [E2|E2]; cbn [andb].
    + destruct (N.eqb_spec (len b) 16) as [E3|E3].
      * rewrite andb_true_iff, !eqbytes_eq. unfold to16. rewrite E2, E3. cbn [N.eqb Pos.eqb]. split.
        -- intros [H1 H2]. rewrite <- (firstn_skipn 12 b), H1, <- H2. reflexivity.
        -- intros <-. split; reflexivity.
      * cbn [andb]. destruct (N.eqb_spec (len a) 16) as [E4|E4]; [ congruence | ]. cbn [andb]. split; [ discriminate | ]. intros H.
        pose proof (len16 a E2) as L. rewrite H in L. unfold to16 in L. destruct (N.eqb_spec (len b) 4); congruence.
    + destruct (N.eqb_spec (len a) 16) as [E3|E3]; cbn [andb].
      * destruct (N.eqb_spec (len b) 4) as [E4|E4]; cbn [andb].
        -- rewrite andb_true_iff, !eqbytes_eq. unfold to16. rewrite E3, E4. cbn [N.eqb Pos.eqb]. split.
           ++ intros [H1 H2]. rewrite <- (firstn_skipn 12 a), H1, H2. reflexivity.
           ++ intros ->. split; reflexivity.
        -- split; [ discriminate | ]. unfold to16. destruct (N.eqb_spec (len a) 4), (N.eqb_spec (len b) 4); congruence.
      * split; [ discriminate | ]. intros H. unfold to16 in H. destruct (N.eqb_spec (len a) 4); [ contradiction | ].
        destruct (N.eqb_spec (len b) 4); [ | congruence ]. pose proof (f_equal len H) as L. rewrite len_app, e in L. exfalso. apply E3. rewrite L. reflexivity.
Qed.
(** The datagrams that came from other hosts, as far as they fit the 4096-byte buffer. *)
Definition others (ip : list N) (tr : list obs) : list (list N) :=
  collect (fun o => match o with ORecv (src, _) d => if decide (to16 src = to16 ip) then [] else [firstn 4096 d] | _ => [] end) tr.
Lemma others_received E tr : others (E_localIP E) tr = received E tr.
Proof.
  unfold others, received. apply collect_ext. intros o. destruct o; try reflexivity. destruct from as [src port]. unfold foreign. cbn [fst].
  destruct (decide (to16 src = to16 (E_localIP E))) as [H|H].
  - symmetry in H. apply IP_Equal_iff in H. rewrite H. reflexivity.
  - destruct (IP_Equal (E_localIP E) src) eqn:K; [ | reflexivity ]. apply IP_Equal_iff in K. congruence.
Qed.
(** Everything parsed and every packet given to a callback comes from the datagrams of other hosts. *)
Theorem C58_own_ignored : forall E ls y tr, runs E ls y tr ->
  (exists rest, others (E_localIP E) tr ≡ₚ parsed tr ++ rest) /\
  (forall p, In p (called tr) -> exists d, In d (others (E_localIP E) tr) /\ wire_accepts d p) /\
  (others (E_localIP E) tr = [] -> parsed tr = [] /\ called tr = [] /\ ignored tr = []).
Proof.
  intros E ls y tr R. rewrite others_received. destruct (C57_callbacks E ls y tr R) as (P & (ps & F & Q) & _).
  split; [ eauto | ]. split.
  - intros p Hp. assert (H : In p (omap id ps)).
    { apply elem_of_list_In. rewrite Q. apply elem_of_app. left. apply elem_of_list_In. exact Hp. }
    assert (H' : exists d, In d (parsed tr) /\ wire_accepts d p).
    { clear - H F. induction F as [|d o l k Hd F IH]; [ contradiction | ]. cbn in H. destruct o as [q|]; cbn in H.
      - destruct H as [->|H]; [ exists d; split; [ left; reflexivity | apply Hd; reflexivity ] | ].
        destruct (IH H) as (d' & D1 & D2). exists d'. split; [ right; exact D1 | exact D2 ].
      - destruct (IH H) as (d' & D1 & D2). exists d'. split; [ right; exact D1 | exact D2 ]. }
    destruct H' as (d & D1 & D2). exists d. split; [ | exact D2 ]. apply elem_of_list_In. rewrite P. apply elem_of_app. left. apply elem_of_list_In. exact D1.
  - intros Z. rewrite Z in P. apply Permutation_nil in P. apply app_eq_nil in P. destruct P as [P1 _]. rewrite P1 in F. inversion F; subst. cbn in Q.
    apply Permutation_nil in Q. apply app_eq_nil in Q. destruct Q as [Q1 Q2]. apply app_eq_nil in Q2. tauto.
Qed.
(** A datagram from the node itself, in the 16-byte form of its address, and one from another host. *)
Example C58_ex : exists ls y tr d, runs node1 ls y tr /\ In (ORecv ([0; 0; 0; 0; 0; 0; 0; 0; 0; 0; 0xff; 0xff; 10; 0; 0; 1], 6454) d) tr /\
  parsed tr = [poll_bytes] /\ length (called tr) = 1%nat.
Proof.
  destruct (tested_runs node1 (up_node ++ act (LRun 4 (CDatagram ([0; 0; 0; 0; 0; 0; 0; 0; 0; 0; 0xff; 0xff; 10; 0; 0; 1], 6454) (dmx_bytes 9))) ++ go_n 4 2 ++
      arrive 4 host2 poll_bytes ++ parse 2 ++ go_n 5 1)
    (fun _ y tr => bool_decide (parsed tr = [poll_bytes] /\ length (called tr) = 1%nat) &&
      match tr !! 3%nat with Some (ORecv from d) => bool_decide (from = ([0; 0; 0; 0; 0; 0; 0; 0; 0; 0; 0xff; 0xff; 10; 0; 0; 1], 6454)) | _ => false end))
    as (ls & y & tr & R & H); [ vm_compute; reflexivity | ].
  apply andb_prop in H. destruct H as [H H']. apply bool_decide_eq_true in H. destruct (tr !! 3%nat) as [o|] eqn:El; [ | discriminate ]. destruct o; try discriminate.
  apply bool_decide_eq_true in H'. subst from. exists ls, y, tr, data. split; [ exact R | ]. split; [ | exact H ].
  apply elem_of_list_In. eapply elem_of_list_lookup_2. exact El.
Qed.

(** * C59 *)
Definition is_reply (x : tag * payload) : bool := wire_opcode (snd (snd x)) =? 0x2100.
Definition is_poll (x : tag * payload) : bool := wire_opcode (snd (snd x)) =? 0x2000.
(** The ArtPoll packets given to the built-in callback. *)
Definition polls_handled (tr : list obs) : list ArtPollPacket := collect (fun o => match o with OCall HPoll (PktPoll q) => [q] | _ => [] end) tr.
Definition dropped (tr : list obs) : list (tag * payload) := collect (fun o => match o with ODrop x => [x] | _ => [] end) tr.
(** Polls and replies on their way from the callback to the socket. *)
Definition unanswered (y : sys) : nat :=
  (sum_list_with (fun t => match t with
      | H_poll _ | H_polling _ _ | CP_poll _ | CP_polling _ _ | PR_send _ | PR_sending _ _ => 1
      | SL_check x | SL_write x => if is_reply x then 1 else 0
      | _ => 0 end)%nat (Y_threads y) +
   sum_list_with (fun ch => (length (Q_poll ch) + cnt is_reply (Q_send ch))%nat) (S_gens (Y_sh y)))%nat.
Lemma cnt_all {A} (l : list A) : cnt (fun _ => true) l = length l.
Proof. unfold cnt. induction l as [|x l IH]; [ reflexivity | ]. cbn. f_equal. exact IH. Qed.
Lemma cnt_collect {A B} (P : B -> bool) (f : A -> list B) l : cnt P (collect f l) = sum_list_with (fun x => cnt P (f x)) l.
Proof. induction l as [|x l IH]; [ reflexivity | ]. rewrite collect_cons, cnt_app, IH. reflexivity. Qed.
Lemma sum_add {A} (f g : A -> nat) l : sum_list_with (fun x => (f x + g x)%nat) l = (sum_list_with f l + sum_list_with g l)%nat.
Proof. induction l as [|x l IH]; simpl; [ reflexivity | ]. lia. Qed.
Lemma sum_ext {A} (f g : A -> nat) l : Forall (fun x => f x = g x) l -> sum_list_with f l = sum_list_with g l.
Proof. induction 1 as [|x l H _ IH]; simpl; [ reflexivity | ]. lia. Qed.
Lemma item_is_reply E x : wf_config (E_config E) -> item_ok E x -> is_reply x = match fst x with KReply => true | _ => false end.
Proof. destruct x as [k [a d]]. intros Hc H. destruct (item_opcode E k a d Hc H) as [_ K]. unfold is_reply. cbn [snd fst]. rewrite K. destruct k; reflexivity. Qed.
Lemma item_is_poll E x : wf_config (E_config E) -> item_ok E x -> is_poll x = match fst x with KPoll => true | _ => false end.
Proof. destruct x as [k [a d]]. intros Hc H. destruct (item_opcode E k a d Hc H) as [_ K]. unfold is_poll. cbn [snd fst]. rewrite K. destruct k; reflexivity. Qed.
(** Every poll handled (and every poll the controller broadcasts itself) is answered by one ArtPollReply, which is
    transmitted, given up when the socket fails or the node stops, or still on its way; and every ArtPollReply
    transmitted is the encoding of the node's configuration, sent to its broadcast address. *)
Theorem C59_replies : forall E ls y tr, wf_config (E_config E) -> runs E ls y tr ->
  (length (polls_handled tr) + cnt is_poll (queued tr) = cnt is_reply (transmitted tr) + cnt is_reply (dropped tr) + unanswered y)%nat /\
  (forall x, In x (transmitted tr) -> is_reply x = true ->
     snd x = (E_nodeBroadcast E, pollreply_bytes (ArtPollReplyFromConfig (E_config E)))) /\
  (E_ctl E = false -> cnt is_poll (queued tr) = 0%nat).
Proof.
  intros E ls y tr Hc R. split; [ | split ].
  - pose proof (law_steps E law_polls _ _ _ _ [] (fun _ => true) (polls_respected E) (init_ok E) R) as L1.
    pose proof (law_steps E law_replies _ _ _ _ [] (fun _ => true) (replies_respected E) (init_ok E) R) as L2.
    pose proof (law_steps E law_payloads _ _ _ _ [] is_reply (payloads_respected E) (init_ok E) R) as L3.
    pose proof (runs_ok _ _ _ _ R) as OK. pose proof (sys_obs _ _ _ OK) as HO.
    unfold held in *. cbn [init Y_threads Y_sh S_gens] in *. rewrite !cnt_app, !cnt_collect in *. cbn [sum_list_with] in L1, L2, L3.
    unfold unanswered, polls_handled, transmitted, dropped, queued. rewrite <- cnt_all, !cnt_collect.
    assert (X1 : sum_list_with (fun x => cnt (fun _ => true) (v_in law_polls x)) tr =
      (sum_list_with (fun x => cnt (fun _ => true) match x with OCall HPoll (PktPoll q) => [q] | _ => [] end) tr +
       sum_list_with (fun x => cnt is_poll match x with OQueued x => [x] | _ => [] end) tr)%nat).
    { rewrite <- sum_add. apply sum_ext. eapply Forall_impl; [ exact HO | ]. intros o Ho. destruct o; try reflexivity.
      - cbn. destruct h; try reflexivity. destruct p; reflexivity.
      - cbn [obs_ok] in Ho. pose proof (item_is_poll E x Hc Ho) as K. destruct x as [k f]. cbn. rewrite K. destruct k; reflexivity. }
    assert (X2 : sum_list_with (fun x => cnt (fun _ => true) (v_out law_replies x)) tr =
       sum_list_with (fun x => cnt is_reply (v_in law_payloads x)) tr).
    { apply sum_ext. eapply Forall_impl; [ exact HO | ]. intros o Ho. destruct o; try reflexivity.
      cbn [obs_ok] in Ho. pose proof (item_is_reply E x Hc Ho) as K. destruct x as [k f]. cbn. rewrite K. destruct k; reflexivity. }
    assert (X3 : sum_list_with (fun x => cnt (fun _ => true) (v_out law_polls x)) tr = sum_list_with (fun x => cnt (fun _ => true) (v_in law_replies x)) tr).
    { apply sum_ext. apply Forall_forall. intros o _. destruct o; reflexivity. }
    assert (X4 : sum_list_with (fun x => cnt is_reply (v_out law_payloads x)) tr =
      (sum_list_with (fun x => cnt is_reply match x with OTx x => [x] | _ => [] end) tr + sum_list_with (fun x => cnt is_reply match x with ODrop x => [x] | _ => [] end) tr)%nat).
    { rewrite <- sum_add. apply sum_ext. apply Forall_forall. intros o _. destruct o; cbn; lia. }
    assert (X5 : (sum_list_with (fun x => cnt (fun _ => true) (v_t law_polls x)) (Y_threads y) + sum_list_with (fun x => cnt (fun _ => true) (v_t law_replies x)) (Y_threads y) +
       sum_list_with (fun x => cnt is_reply (v_t law_payloads x)) (Y_threads y) =
       sum_list_with (fun t => match t with H_poll _ | H_polling _ _ | CP_poll _ | CP_polling _ _ | PR_send _ | PR_sending _ _ => 1
         | SL_check x | SL_write x => if is_reply x then 1 else 0 | _ => 0 end)%nat (Y_threads y))%nat).
    { rewrite <- !sum_add. apply sum_ext. apply Forall_forall. intros t _. destruct t; try reflexivity; cbn; destruct (is_reply x); reflexivity. }
    assert (X6 : (sum_list_with (fun x => cnt (fun _ => true) (v_g law_polls x)) (S_gens (Y_sh y)) + sum_list_with (fun x => cnt (fun _ => true) (v_g law_replies x)) (S_gens (Y_sh y)) +
       sum_list_with (fun x => cnt is_reply (v_g law_payloads x)) (S_gens (Y_sh y)) =
       sum_list_with (fun ch => (length (Q_poll ch) + cnt is_reply (Q_send ch))%nat) (S_gens (Y_sh y)))%nat).
    { rewrite <- !sum_add. apply sum_ext. apply Forall_forall. intros ch _. unfold law_polls, law_replies, law_payloads. cbn [v_g]. rewrite cnt_nil, cnt_all, map_length. reflexivity. }
    lia.
  - intros x Hx Hr. assert (Hi : item_ok E x).
    { unfold transmitted, collect in Hx. apply in_concat in Hx. destruct Hx as (l & H1 & H2). apply in_map_iff in H1. destruct H1 as (o & <- & Ho).
      destruct o; cbn in H2; try contradiction. destruct H2 as [->|[]]. exact (tx_item _ _ _ _ _ R Ho). }
    rewrite (item_is_reply E x Hc Hi) in Hr. destruct x as [k [a d]]. destruct k; try discriminate. destruct Hi as [-> Hd]. cbn [snd]. f_equal.
    unfold reply_datagram in Hd. pose proof (marshal_bytes (PktPollReply _) (announcement_wf _ Hc)) as Hm. cbn in Hm.
    assert (K : Ok d = Ok (pollreply_bytes (ArtPollReplyFromConfig (E_config E))) :> res (list N)) by (rewrite <- Hd; exact Hm). congruence.
  - intros Hn. unfold queued. rewrite cnt_collect. apply sum_0. apply Forall_forall. intros o Ho. destruct o; try reflexivity.
    apply elem_of_list_In in Ho. pose proof (node_queues E _ _ _ x Hn R Ho) as K. pose proof (obs_in _ _ _ _ _ R Ho) as Hi. cbn in Hi.
    pose proof (item_is_poll E x Hc Hi) as K2. rewrite K in K2. unfold cnt. cbn. rewrite K2. reflexivity.
Qed.
Example C59_ex : exists ls y tr, wf_config (E_config node1) /\ runs node1 ls y tr /\ length (polls_handled tr) = 1%nat /\ cnt is_reply (transmitted tr) = 1%nat.
Proof.
  destruct (tested_runs node1 (up_node ++ serve_poll 5) (fun _ y tr => bool_decide (length (polls_handled tr) = 1%nat /\ cnt is_reply (transmitted tr) = 1%nat)))
    as (ls & y & tr & R & H); [ vm_compute; reflexivity | ]. apply bool_decide_eq_true in H. exists ls, y, tr. split; [ | auto ].
  apply new_config_wf; [ repeat constructor | reflexivity | repeat constructor ].
Qed.

(** * C60 *)
Definition replies_called (tr : list obs) : list ArtPollReplyPacket := collect (fun o => match o with OCall HPollReply (PktPollReply q) => [q] | _ => [] end) tr.
Definition replies_queued (tr : list obs) : list ArtPollReplyPacket := collect (fun o => match o with OQueuedReply q => [q] | _ => [] end) tr.
(** Handlers that have not queued their reply yet. *)
Definition replies_pending (y : sys) : list ArtPollReplyPacket := collect (fun t => match t with H_reply q | H_replying q _ => [q] | _ => [] end) (Y_threads y).
Definition replies_applied (tr : list obs) : list ArtPollReplyPacket := collect (fun o => match o with OTable _ (EReply q _) _ => [q] | _ => [] end) tr.
Definition replies_stored (y : sys) : list ArtPollReplyPacket :=
  collect (fun t => match t with CP_reply _ q => [q] | _ => [] end) (Y_threads y) ++ collect Q_reply (S_gens (Y_sh y)).
Lemma collect_none {A B} (l : list A) : collect (fun _ => @nil B) l = [].
Proof. induction l; auto. Qed.
Theorem C60_poll_replies : forall E ls y tr, runs E ls y tr ->
  (* another style than Controller (1): never *)
  (C_Type (E_config E) <> 1 -> replies_queued tr = [] /\ replies_pending y = [] /\ Forall (fun ch => Q_reply ch = []) (S_gens (Y_sh y))) /\
  (* a controller: exactly once, and each queued reply updates the tables exactly once *)
  (C_Type (E_config E) = 1 -> replies_called tr ≡ₚ replies_queued tr ++ replies_pending y) /\
  replies_queued tr ≡ₚ replies_applied tr ++ replies_stored y.
Proof.
  intros E ls y tr R. pose proof (law_runs E (law_reply_calls E) _ _ _ (reply_calls_respected E) R) as P. unfold law_reply_calls, held in P.
  cbn [v_in v_out v_t v_g] in P. rewrite collect_none, app_nil_r in P. fold (replies_queued tr) (replies_pending y) in P.
  split; [ | split ].
  - intros Hn. assert (Z : collect (fun o => match o with OCall HPollReply (PktPollReply q) => if C_Type (E_config E) =? StController then [q] else [] | _ => [] end) tr = []).
    { erewrite collect_ext; [ apply (collect_none (B := ArtPollReplyPacket) tr) | ]. intros o. destruct o; try reflexivity. destruct h; try reflexivity. destruct p; try reflexivity.
      destruct (N.eqb_spec (C_Type (E_config E)) StController); [ contradiction | reflexivity ]. }
    rewrite Z in P. apply Permutation_nil in P. apply app_eq_nil in P. destruct P as [P1 P2]. split; [ exact P1 | ]. split; [ exact P2 | ].
    eapply Forall_impl; [ apply (ok_gens _ _ _ (sys_shared _ _ _ (runs_ok _ _ _ _ R))) | ]. intros ch (_ & _ & _ & K & _). apply K. exact Hn.
  - intros Hy. rewrite <- P. unfold replies_called. erewrite collect_ext; [ reflexivity | ]. intros o. destruct o; try reflexivity. destruct h; try reflexivity.
    destruct p; try reflexivity. rewrite Hy. reflexivity.
  - exact (law_runs E law_reply_events _ _ _ (reply_events_respected E) R).
Qed.
(** An ArtPollReply (of a node with one output port) arrives at a node and at a controller. *)
Definition reply_bytes1 : list N := pollreply_bytes (ArtPollReplyFromConfig (E_config node1)).
Example C60_ex : (exists ls y tr, runs node1 ls y tr /\ length (replies_called tr) = 1%nat) /\
  (exists ls y tr, runs ctl1 ls y tr /\ length (replies_applied tr) = 1%nat).
Proof.
  split.
  - destruct (tested_runs node1 (up_node ++ arrive 4 host2 reply_bytes1 ++ parse 2 ++ go_n 5 1) (fun _ y tr => bool_decide (length (replies_called tr) = 1%nat)))
      as (ls & y & tr & R & H); [ vm_compute; reflexivity | ]. apply bool_decide_eq_true in H. eauto.
  - destruct (tested_runs ctl1 (up_ctl ++ arrive 6 host2 reply_bytes1 ++ parse 2 ++ go_n 7 3 ++ go_n 4 6 ++ act (LRun 4 (CTime 5%Z))) (fun _ y tr => bool_decide (length (replies_applied tr) = 1%nat)))
      as (ls & y & tr & R & H); [ vm_compute; reflexivity | ]. apply bool_decide_eq_true in H. eauto.
Qed.

(** * C64 *)
(** A recvLoop that has taken a datagram when Stop is called may parse it after the recvLoop of the next Start
    has parsed later ones. Threads of the second run: 5 Stop, 6 Start, 7 pollReplyLoop, 8 recvLoop, 9 sendLoop, 10 reader. *)
Definition stop_node (i : nat) : script := act LStop ++ go_n i 3.
Definition overtake : script := up_node ++ arrive 4 host2 (dmx_bytes 1) ++ go_n 2 1 ++ stop_node 5 ++
  act LStart ++ go_n 6 2 ++ go_n 8 2 ++ go_n 10 1 ++ arrive 10 host2 (dmx_bytes 2) ++ go_n 8 2 ++ go_n 2 1.
Theorem C64_order_refuted : exists ls y tr, runs node1 ls y tr /\ others (E_localIP node1) tr = [dmx_bytes 1; dmx_bytes 2] /\
  parsed tr = [dmx_bytes 2; dmx_bytes 1] /\ dmx_bytes 1 <> dmx_bytes 2.
Proof.
  destruct (tested_runs node1 overtake (fun _ y tr => bool_decide (others (E_localIP node1) tr = [dmx_bytes 1; dmx_bytes 2] /\
    parsed tr = [dmx_bytes 2; dmx_bytes 1] /\ dmx_bytes 1 <> dmx_bytes 2))) as (ls & y & tr & R & H); [ vm_compute; reflexivity | ].
  apply bool_decide_eq_true in H. eauto.
Qed.
(** Intact, each at most once, in every run. *)
Theorem C64_intact_partial : forall E ls y tr, runs E ls y tr -> exists rest, others (E_localIP E) tr ≡ₚ parsed tr ++ rest.
Proof. intros E ls y tr R. apply (C58_own_ignored E ls y tr R). Qed.
(** And in order, from any state without goroutines, as long as the node is not started twice. *)
Theorem C64_order_partial : forall E ls0 y0 tr0 ls y tr, runs E ls0 y0 tr0 -> Forall (eq TDone) (Y_threads y0) ->
  steps E y0 ls y tr -> (length (List.filter (fun l => match l with LStart => true | _ => false end) ls) <= 1)%nat ->
  exists rest, others (E_localIP E) tr = parsed tr ++ rest.
Proof.
  intros E ls0 y0 tr0 ls y tr R Q S Hn. rewrite others_received. eexists. eapply recv_order; [ exact R | | exact S | ].
  - eapply Forall_impl; [ exact Q | ]. intros t <-. reflexivity.
  - etransitivity; [ | exact Hn ]. clear. unfold starts. induction ls as [|l ls IH]; simpl; [ lia | ]. destruct l; simpl; lia.
Qed.
Example C64_ex : exists ls y tr, runs node1 ls y tr /\ (length (List.filter (fun l => match l with LStart => true | _ => false end) ls) <= 1)%nat /\
  parsed tr = [dmx_bytes 1; dmx_bytes 2].
Proof.
  destruct (tested_runs node1 (up_node ++ arrive 4 host2 (dmx_bytes 1) ++ arrive 4 host2 (dmx_bytes 2) ++ parse 2 ++ parse 2)
    (fun ls y tr => bool_decide ((length (List.filter (fun l => match l with LStart => true | _ => false end) ls) <= 1)%nat /\
    parsed tr = [dmx_bytes 1; dmx_bytes 2]))) as (ls & y & tr & R & H); [ vm_compute; reflexivity | ].
  apply bool_decide_eq_true in H. eauto.
Qed.

(** * C65 *)
Definition dmx_packet (seq : N) : packet := PktDMX (mkDMX (mkHeader magic 0x5000 [0; 14]) seq 0 1 0 512 (repeat 7 512)).
Theorem C65_callback_order_refuted : exists ls y tr p1 p2, runs node1 ls y tr /\ parsed tr = [dmx_bytes 1; dmx_bytes 2] /\
  wire_accepts (dmx_bytes 1) p1 /\ wire_accepts (dmx_bytes 2) p2 /\ called tr = [p2; p1] /\ p1 <> p2.
Proof.
  destruct (accept (dmx_bytes 1)) as [p1|] eqn:E1; [ | vm_compute in E1; discriminate ].
  destruct (accept (dmx_bytes 2)) as [p2|] eqn:E2; [ | vm_compute in E2; discriminate ].
  destruct (tested_runs node1 (act (LRegister 0x5000 1) ++ up_node ++ arrive 4 host2 (dmx_bytes 1) ++ parse 2 ++ arrive 4 host2 (dmx_bytes 2) ++ parse 2 ++ go_n 6 1 ++ go_n 5 1)
    (fun ls y tr => bool_decide (parsed tr = [dmx_bytes 1; dmx_bytes 2] /\ Some <$> called tr = [accept (dmx_bytes 2); accept (dmx_bytes 1)] /\
       accept (dmx_bytes 1) <> accept (dmx_bytes 2)))) as (ls & y & tr & R & H); [ vm_compute; reflexivity | ].
  apply bool_decide_eq_true in H. destruct H as (H1 & H2 & H3). exists ls, y, tr, p1, p2. rewrite E1, E2 in *.
  split; [ exact R | ]. split; [ exact H1 | ]. split; [ apply accept_wire; [ apply bytes_okb; reflexivity | exact E1 ] | ].
  split; [ apply accept_wire; [ apply bytes_okb; reflexivity | exact E2 ] | ]. split; [ | congruence ].
  destruct (called tr) as [|a [|b [|c l]]]; cbn in H2; congruence.
Qed.
(** The handler goroutines are at least created in the order of arrival. *)
Theorem C65_handlers_created_in_order_partial : forall E ls0 y0 tr0 ls y tr, runs E ls0 y0 tr0 -> Forall (eq TDone) (Y_threads y0) ->
  steps E y0 ls y tr -> (length (List.filter (fun l => match l with LStart => true | _ => false end) ls) <= 1)%nat ->
  exists arrived rest ps, others (E_localIP E) tr = arrived ++ rest /\
    Forall2 (fun d o => forall p, o = Some p <-> wire_accepts d p) arrived ps /\
    collect (fun o => match o with OSpawn p => [p] | _ => [] end) tr = omap id ps.
Proof.
  intros E ls0 y0 tr0 ls y tr R Q S Hn. destruct (C64_order_partial E ls0 y0 tr0 ls y tr R Q S Hn) as (rest & ->).
  exists (parsed tr), rest, (map accept (parsed tr)). split; [ reflexivity | ].
  pose proof (runs_steps _ _ _ _ _ _ _ R S) as R'. split.
  - assert (F : Forall bytes_ok (parsed tr)).
    { apply Forall_forall. intros d Hd. apply elem_of_list_In in Hd. unfold parsed, collect in Hd. apply in_concat in Hd. destruct Hd as (l & H1 & H2).
      apply in_map_iff in H1. destruct H1 as (o & <- & Ho). destruct o; cbn in H2; try contradiction. destruct H2 as [->|[]].
      exact (obs_in _ _ _ _ (OParse d) R' ltac:(apply in_or_app; right; exact Ho)). }
    induction F as [|d l Hd F IH]; cbn [map]; constructor; [ | exact IH ]. intros p. apply accept_wire. exact Hd.
  - fold (spawned tr). pose proof (spawned_parsed _ _ _ _ R') as K1. pose proof (spawned_parsed _ _ _ _ R) as K2.
    unfold spawned, parsed in *. rewrite !collect_app, omap_app, K2 in K1. apply app_inv_head in K1. rewrite K1.
    generalize (collect (λ o : obs, match o with OParse d => [d] | _ => [] end) tr). intros l. induction l as [|d l IH]; [ reflexivity | ]. cbn. destruct (accept d); rewrite IH; reflexivity.
Qed.
Example C65_ex : exists ls y tr, runs node1 ls y tr /\ (length (List.filter (fun l => match l with LStart => true | _ => false end) ls) <= 1)%nat /\
  length (collect (fun o => match o with OSpawn p => [p] | _ => [] end) tr) = 2%nat.
Proof.
  destruct (tested_runs node1 two_packets
    (fun ls y tr => bool_decide ((length (List.filter (fun l => match l with LStart => true | _ => false end) ls) <= 1)%nat /\
    length (collect (fun o => match o with OSpawn p => [p] | _ => [] end) tr) = 2%nat))) as (ls & y & tr & R & H); [ vm_compute; reflexivity | ].
  apply bool_decide_eq_true in H. eauto.
Qed.

(** * C67 *)
(** The queue a thread is about to append to, and how many elements it holds. *)
Definition appends_to (s : shared) (t : thread) : option nat :=
  let at_gen g (f : chans -> nat) := match S_gens s !! g with Some ch => Some (f ch) | None => None end in
  match t with
  | PR_sending _ g | CP_sending _ g | DL_pushing _ _ g => at_gen g (fun ch => length (Q_send ch))
  | RD_pushing _ _ g => at_gen g (fun ch => length (Q_recv ch))
  | H_polling _ g | CP_polling _ g => at_gen g (fun ch => length (Q_poll ch))
  | H_replying _ g => at_gen g (fun ch => length (Q_reply ch))
  | _ => None
  end.
Theorem C67_bounded : forall E ls y tr, runs E ls y tr ->
  Forall (fun ch => length (Q_send ch) <= 10 /\ length (Q_recv ch) <= 10 /\ length (Q_poll ch) <= 10 /\ length (Q_reply ch) <= 10)%nat (S_gens (Y_sh y)) /\
  (forall i t n, Y_threads y !! i = Some t -> appends_to (Y_sh y) t = Some n ->
     (n = 10%nat -> forall c, exec E y (LRun i c) = RBlocked) /\
     (n < 10 -> exists y' o, exec E y (LRun i CGo) = RNext y' o)%nat).
Proof.
  intros E ls y tr R. split.
  - eapply Forall_impl; [ apply (ok_gens _ _ _ (sys_shared _ _ _ (runs_ok _ _ _ _ R))) | ]. intros ch (_ & _ & _ & _ & K). exact K.
  - intros i t n Hi Ha. cbn [exec]. rewrite Hi. destruct t; try discriminate Ha; cbn [appends_to] in Ha; destruct (S_gens (Y_sh y) !! g) as [ch|] eqn:Eg; try discriminate Ha;
      injection Ha as <-; (split; [ intros Hn c; destruct c; cbn [tstep]; try reflexivity; rewrite Eg; cbv zeta; unfold push; rewrite Hn; reflexivity
        | intros Hn; cbn [tstep]; rewrite Eg; cbv zeta; rewrite push_room by exact Hn; eauto ]).
Qed.
Fixpoint times (n : nat) (s : script) : script := match n with O => [] | S n => s ++ times n s end.
(** Ten datagrams fill the queue; the reader waits with the eleventh. *)
Example C67_ex : exists ls y tr, runs node1 ls y tr /\ Forall (fun ch => length (Q_recv ch) = 10%nat) (S_gens (Y_sh y)) /\ S_gens (Y_sh y) <> [] /\
  option_map (appends_to (Y_sh y)) (Y_threads y !! 4%nat) = Some (Some 10%nat).
Proof.
  destruct (tested_runs node1 (up_node ++ times 10 (arrive 4 host2 poll_bytes) ++ act (LRun 4 (CDatagram host2 poll_bytes)) ++ go_n 4 2)
    (fun ls y tr => bool_decide (Forall (fun ch => length (Q_recv ch) = 10%nat) (S_gens (Y_sh y)) /\ length (S_gens (Y_sh y)) = 1%nat /\
      option_map (appends_to (Y_sh y)) (Y_threads y !! 4%nat) = Some (Some 10%nat)))) as (ls & y & tr & R & H); [ vm_compute; reflexivity | ].
  apply bool_decide_eq_true in H. destruct H as (H1 & H2 & H3). exists ls, y, tr. split; [ exact R | ]. split; [ exact H1 | ]. split; [ | exact H3 ].
  intros K. rewrite K in H2. discriminate.
Qed.

(** * C71 *)
Theorem C71_transmits_artnet : forall E ls y tr k dst d, wf_config (E_config E) -> C_Type (E_config E) <= 6 -> runs E ls y tr ->
  In (OTx (k, (dst, d))) tr -> exists p, wire_accepts d p /\ Unmarshal d = Ret (Some p, None) /\
    (GetOpCode p = 0x2000 \/ GetOpCode p = 0x2100 \/ GetOpCode p = 0x5000).
Proof.
  intros E ls y tr k dst d Hc Ht R H. pose proof (tx_item _ _ _ _ _ R H) as Hi. destruct (item_opcode E k dst d Hc Hi) as [Hb Ho].
  assert (U : exists p, Unmarshal d = Ret (Some p, None)).
  { destruct k; cbn in Hi.
    - destruct (C39_announcement_decodable_partial _ Hc) as (b & Hm & [_ K] & _). destruct Hi as [_ Hd]. unfold reply_datagram in Hd. rewrite Hm in Hd. injection Hd as <-. auto.
    - destruct Hi as [_ ->]. eexists. vm_compute. reflexivity.
    - destruct (frame_wire _ _ Hi) as (_ & _ & q & K). eauto. }
  destruct U as [p U]. exists p. pose proof U as W. apply Unmarshal_accepts in W; [ | exact Hb ]. split; [ exact W | ]. split; [ exact U | ].
  rewrite <- (accepts_opcode _ _ W), Ho. destruct k; auto.
Qed.
(** Controllers have style 1, and so do all nodes made with a documented style. *)
Theorem C71_controller : forall name ip opts ls y tr k dst d, bytes_ok name -> bytes_ok ip ->
  runs (NewController_env name ip opts) ls y tr -> In (OTx (k, (dst, d))) tr -> exists p, wire_accepts d p /\ Unmarshal d = Ret (Some p, None).
Proof.
  intros name ip opts ls y tr k dst d Hn Hip R H. set (E := NewController_env name ip opts) in *.
  assert (Ec : E_config E = NewNode_config name StController ip).
  { unfold E, NewController_env. cbv zeta. match goal with |- context [fold_left _ _ ?E0] => destruct (ctl_options opts E0) as (_ & -> & _) end. reflexivity. }
  destruct (C71_transmits_artnet E ls y tr k dst d) as (p & P1 & P2 & _); try assumption.
  - rewrite Ec. apply new_config_wf; [ assumption | reflexivity | assumption ].
  - rewrite Ec. discriminate.
  - eauto.
Qed.
Example C71_ex : exists ls y tr k dst d, runs ctl1 ls y tr /\ In (OTx (k, (dst, d))) tr.
Proof.
  destruct (tested_runs ctl1 (up_ctl ++ go_n 4 2 ++ transmit 3) (fun _ _ tr => existsb (fun o => match o with OTx _ => true | _ => false end) tr))
    as (ls & y & tr & R & H); [ vm_compute; reflexivity | ].
  apply existsb_exists in H. destruct H as (o & Ho & H). destruct o as [| | | | | | | | |[k [dst d]]| | | | | | | | |]; try discriminate. eauto 10.
Qed.

Definition P_Node_theorems :=
  (C54_broadcast_refuted, C54_broadcast_partial, C54_node_broadcast_partial, C56_registry, C57_callbacks, C58_own_ignored, C59_replies, C60_poll_replies,
   C64_order_refuted, C64_intact_partial, C64_order_partial, C65_callback_order_refuted, C65_handlers_created_in_order_partial, C67_bounded,
   C71_transmits_artnet, C71_controller).
Print Assumptions P_Node_theorems.
