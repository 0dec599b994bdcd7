(** Generic facts about executions of Sys.v: invariants of every reachable state (any schedule, any
    number of Starts and Stops) and conservation laws. *)
From Verif Require Export Sys SysTrans.
From Verif Require Import WireSpec DispatchFacts EncodeFacts P_Decode ControllerFacts P_Config P_Controller.
From Coq Require Import Sorting.Permutation.
From stdpp Require Import base list gmap.
Open Scope N_scope.

(** * Executions *)
Lemma steps_app E y1 l1 y2 t1 l2 y3 t2 : steps E y1 l1 y2 t1 -> steps E y2 l2 y3 t2 ->
  steps E y1 (l1 ++ l2) y3 (t1 ++ t2).
Proof.
  intros H1 H2. induction H2 as [|y ls y' tr l y'' o H2 IH Hl He]; [ rewrite !app_nil_r; exact H1 | ].
  rewrite !app_assoc. econstructor; [ apply IH; exact H1 | exact Hl | exact He ].
Qed.
Lemma steps_one E y l y' o : label_ok l -> exec E y l = RNext y' o -> steps E y [l] y' o.
Proof. intros Hl He. exact (steps_snoc E y [] y [] l y' o (steps_nil E y) Hl He). Qed.
Lemma steps_cons E y l y1 o ls y2 tr : label_ok l -> exec E y l = RNext y1 o -> steps E y1 ls y2 tr ->
  steps E y (l :: ls) y2 (o ++ tr).
Proof. intros Hl He Hs. exact (steps_app E y [l] y1 o ls y2 tr (steps_one E y l y1 o Hl He) Hs). Qed.
Lemma steps_inv E y ls y' tr : steps E y ls y' tr ->
  ls = [] /\ y' = y /\ tr = [] \/
  exists ls0 l y1 tr0 o, ls = ls0 ++ [l] /\ tr = tr0 ++ o /\ steps E y ls0 y1 tr0 /\ label_ok l /\ exec E y1 l = RNext y' o.
Proof. intros H. destruct H as [|y ls y1 tr l y2 o Hs Hl He]; [ auto | ]. right. eauto 12. Qed.
Lemma steps_inv_nil E y y' tr : steps E y [] y' tr -> y' = y /\ tr = [].
Proof. intros H. destruct (steps_inv _ _ _ _ _ H) as [(_ & -> & ->)|(ls0 & l & _ & _ & _ & EQ & _)]; [ auto | ]. destruct ls0; discriminate. Qed.
Lemma steps_split E l2 : forall y l1 y' tr, steps E y (l1 ++ l2) y' tr ->
  exists y1 t1 t2, steps E y l1 y1 t1 /\ steps E y1 l2 y' t2 /\ tr = t1 ++ t2.
Proof.
  induction l2 as [|l l2 IH] using rev_ind; intros y l1 y' tr H.
  - rewrite app_nil_r in H. exists y', tr, []. rewrite app_nil_r. split; [ exact H | split; [ constructor | reflexivity ] ].
  - rewrite app_assoc in H. destruct (steps_inv _ _ _ _ _ H) as [(EQ & _)|(ls0 & l0 & y1 & tr0 & o & EQ & -> & Hs & Hl & He)].
    + destruct (l1 ++ l2); discriminate.
    + apply app_inj_tail in EQ. destruct EQ as [<- <-].
      destruct (IH y l1 y1 tr0 Hs) as (ya & ta & tb & Ha & Hb & ->). exists ya, ta, (tb ++ o).
      split; [ exact Ha | ]. split; [ econstructor; eassumption | apply app_assoc_reverse ].
Qed.

Lemma RNext_inj y o y' o' : RNext y o = RNext y' o' -> y = y' /\ o = o'.
Proof. intros H. injection H as -> ->. auto. Qed.

(** Case analysis on a step of a thread: one goal per enabled transition. *)
Ltac tcases H := apply tstep_trans in H; destruct H.

Lemma with_callbacks_id s : with_callbacks s (S_callbacks s) = s.
Proof. destruct s. reflexivity. Qed.
(** The user's calls only add a thread, or change the callback table of a plain node. *)
Lemma exec_cases E y l y' o : exec E y l = RNext y' o ->
  (exists i c t s t' sp, l = LRun i c /\ Y_threads y !! i = Some t /\ tstep E (Y_sh y) t c = Next s t' sp o /\
     y' = mkSys s (<[i := t']> (Y_threads y) ++ sp)) \/
  (exists t, o = [] /\ y' = mkSys (Y_sh y) (Y_threads y ++ [t]) /\
     (l = LStart /\ t = (if E_ctl E then U_start_ctl else U_start_node) \/
      l = LStop /\ t = (if E_ctl E then U_stop_ctl else U_flag) \/
      exists dmx a, l = LSend dmx a /\ E_ctl E = true /\ t = U_send dmx a)) \/
  (exists m op f, o = [ORegister op f] /\ y' = mkSys (with_callbacks (Y_sh y) m) (Y_threads y) /\ E_ctl E = false /\
     m = (if S_shutdown (Y_sh y)
          then match f with Some f => <[op := HUser f]> (S_callbacks (Y_sh y)) | None => delete op (S_callbacks (Y_sh y)) end
          else S_callbacks (Y_sh y)) /\
     l = match f with Some f => LRegister op f | None => LDeregister op end).
Proof.
  destruct l as [i c| | |dmx a|op f|op]; cbn [exec]; unfold spawn; intros H.
  - left. destruct (Y_threads y !! i) as [t|] eqn:Et; [ | discriminate ].
    destruct (tstep E (Y_sh y) t c) as [| |s t' sp o'] eqn:Es; try discriminate.
    apply RNext_inj in H. destruct H as [<- <-]. eauto 12.
  - right. left. apply RNext_inj in H. destruct H as [<- <-]. eauto 8.
  - right. left. apply RNext_inj in H. destruct H as [<- <-]. eauto 8.
  - right. left. destruct (E_ctl E) eqn:Ec; [ | discriminate ]. apply RNext_inj in H. destruct H as [<- <-]. eauto 10.
  - right. right. destruct (E_ctl E) eqn:Ec; [ discriminate | ]. apply RNext_inj in H. destruct H as [<- <-].
    unfold RegisterCallback. destruct (S_shutdown (Y_sh y)) eqn:Es; cbn [negb].
    + eexists. exists op, (Some f). eauto 8.
    + exists (S_callbacks (Y_sh y)), op, (Some f). rewrite with_callbacks_id. eauto 8.
  - right. right. destruct (E_ctl E) eqn:Ec; [ discriminate | ]. apply RNext_inj in H. destruct H as [<- <-].
    unfold DeregisterCallback. destruct (S_shutdown (Y_sh y)) eqn:Es; cbn [negb].
    + eexists. exists op, None. eauto 8.
    + exists (S_callbacks (Y_sh y)), op, None. rewrite with_callbacks_id. eauto 8.
Qed.

Lemma push_Some {A} (q : list A) x q' : push q x = Some q' -> q' = q ++ [x] /\ (length q < chan_cap)%nat.
Proof.
  unfold push. destruct (length q <? chan_cap)%nat eqn:E; [ | discriminate ]. intros H. injection H as <-.
  apply Nat.ltb_lt in E. auto.
Qed.
Lemma push_None {A} (q : list A) x : push q x = None -> (chan_cap <= length q)%nat.
Proof. unfold push. destruct (length q <? chan_cap)%nat eqn:E; [ discriminate | ]. intros _. apply Nat.ltb_ge in E. exact E. Qed.
Lemma push_room {A} (q : list A) x : (length q < chan_cap)%nat -> push q x = Some (q ++ [x]).
Proof. intros H. unfold push. apply Nat.ltb_lt in H. rewrite H. reflexivity. Qed.
Lemma last_index_Some {A} (l : list A) g : last_index l = Some g -> length l = S g.
Proof. unfold last_index. destruct (length l); [ discriminate | ]. intros H. injection H as ->. reflexivity. Qed.
Lemma last_index_None {A} (l : list A) : last_index l = None -> l = [].
Proof. unfold last_index. destruct l; [ reflexivity | discriminate ]. Qed.
Lemma last_index_pos {A} (l : list A) : (0 < length l)%nat -> last_index l = Some (length l - 1)%nat.
Proof. unfold last_index. destruct (length l); [ lia | ]. intros _. f_equal. lia. Qed.

(** * The invariant of every reachable state *)
(** The ArtPoll and ArtPollReply datagrams of the node. *)
Definition poll_datagram : list N := magic ++ [0x00; 0x20; 0; 14; 2; 0].
Definition reply_datagram (E : env) (me : list N) : Prop :=
  snd (PollReply_MarshalBinary (ArtPollReplyFromConfig (E_config E))) = Ok me.
(** A frame made by some tick of the controller. *)
Definition tick_frame (fps : Z) (f : payload) : Prop :=
  exists h s order now s' out, reach fps h s /\ order ≡ₚ map_to_list (K_OutputAddress s) /\
    step s (ETick order now) = Ret (s', out) /\ f ∈ out.
Definition item_ok (E : env) (x : tag * payload) : Prop :=
  match x with
  | (KReply, (a, d)) => a = E_nodeBroadcast E /\ reply_datagram E d
  | (KPoll, (a, d)) => a = E_ctlBroadcast E /\ d = poll_datagram
  | (KDmx, f) => tick_frame (E_maxFPS E) f
  end.
(** A packet that Unmarshal returned. *)
Definition decoded (p : packet) : Prop := exists d, bytes_ok d /\ Unmarshal d = Ret (Some p, None).
Lemma decoded_wf p : decoded p -> wf_packet p.
Proof. intros (d & Hd & H). apply (accepted_wf d p Hd). apply Unmarshal_accepts; assumption. Qed.

(** What the locals of a thread satisfy. *)
Definition t_ok (E : env) (t : thread) : Prop :=
  match t with
  | PR_loop me | PR_wait me _ | PR_send me | PR_sending me _ => reply_datagram E me
  | SL_check x | SL_write x => item_ok E x
  | RL_parse d => bytes_ok d
  | RD_read b | RD_reading b _ => array_ok read_buffer b
  | RD_got b r => array_ok read_buffer b /\ match r with Some (_, num) => (num <= length b)%nat | None => True end
  | RD_push b d | RD_pushing b d _ => array_ok read_buffer b /\ bytes_ok d
  | H_start p => decoded p
  | H_reply q | H_replying q _ => C_Type (E_config E) = StController /\ wf_PollReply q
  | CP_send pb | CP_sending pb _ | CP_poll pb | CP_polling pb _ | CP_loop pb | CP_wait pb _ _ | CP_gc pb => pb = poll_datagram
  | CP_reply pb q => pb = poll_datagram /\ wf_PollReply q
  | DL_push fs => Forall (tick_frame (E_maxFPS E)) fs
  | DL_pushing f fs _ => tick_frame (E_maxFPS E) f /\ Forall (tick_frame (E_maxFPS E)) fs
  | U_send dmx _ => array_ok 512 dmx
  | _ => True
  end.

(** The channels and sockets a thread refers to exist. *)
Definition has {A} (l : list A) : Prop := (0 < length l)%nat.
Definition t_refs (E : env) (s : shared) (t : thread) : Prop :=
  match t with
  | TDone | U_send _ _ | U_stop_ctl => True
  | U_flag | U_close => E_ctl E = true -> has (S_cgens s)
  | U_start_ctl => E_ctl E = true
  | U_start_node => E_ctl E = true -> has (S_cgens s)
  | U_listen => has (S_gens s) /\ (E_ctl E = true -> has (S_cgens s))
  | U_start_loops => has (S_gens s) /\ has (S_conns s) /\ has (S_cgens s)
  | U_closeconn => has (S_gens s) /\ (E_ctl E = true -> has (S_cgens s))
  | U_waitclosed | U_closectl => has (S_gens s) /\ has (S_cgens s)
  | PR_start | PR_loop _ | PR_send _ | H_start _ | H_poll _ | H_reply _ => has (S_gens s)
  | PR_wait _ g | PR_sending _ g | H_polling _ g | H_replying _ g => (g < length (S_gens s))%nat
  | SL_loop | SL_check _ | SL_write _ => has (S_gens s) /\ has (S_conns s)
  | SL_wait g => (g < length (S_gens s))%nat /\ has (S_conns s)
  | RL_start | RL_loop | RL_parse _ => has (S_gens s) /\ has (S_conns s)
  | RL_wait g => (g < length (S_gens s))%nat /\ has (S_conns s)
  | RD_read _ | RD_got _ _ | RD_push _ _ => has (S_gens s) /\ has (S_conns s)
  | RD_reading _ c => has (S_gens s) /\ (c < length (S_conns s))%nat
  | RD_pushing _ _ g => (g < length (S_gens s))%nat /\ has (S_conns s)
  | CP_start | CP_send _ | CP_poll _ | CP_loop _ | CP_gc _ | CP_reply _ _ => has (S_gens s) /\ has (S_cgens s)
  | CP_sending _ g | CP_polling _ g => (g < length (S_gens s))%nat /\ has (S_cgens s)
  | CP_wait _ g cg => (g < length (S_gens s))%nat /\ (cg < length (S_cgens s))%nat
  | DL_start | DL_loop | DL_lock _ | DL_push _ => has (S_gens s) /\ has (S_cgens s)
  | DL_wait cg => has (S_gens s) /\ (cg < length (S_cgens s))%nat
  | DL_pushing _ _ g => (g < length (S_gens s))%nat /\ has (S_cgens s)
  end.

Definition g_ok (E : env) (ch : chans) : Prop :=
  Forall (item_ok E) (Q_send ch) /\ Forall bytes_ok (Q_recv ch) /\ Forall wf_PollReply (Q_reply ch) /\
  (C_Type (E_config E) <> StController -> Q_reply ch = []) /\
  (length (Q_send ch) <= 10)%nat /\ (length (Q_recv ch) <= 10)%nat /\ (length (Q_poll ch) <= 10)%nat /\ (length (Q_reply ch) <= 10)%nat.

Definition hist (tr : list obs) : history :=
  omap (fun o => match o with OTable s e out => Some (s, e, out) | _ => None end) tr.
Lemma hist_app a b : hist (a ++ b) = hist a ++ hist b.
Proof. unfold hist. apply omap_app. Qed.

Record s_ok (E : env) (s : shared) (h : history) : Prop := {
  ok_reach : reach (E_maxFPS E) h (S_tables s);
  ok_gens : Forall (g_ok E) (S_gens s);
  ok_tickers : S_tickers s = true -> has (S_gens s) /\ has (S_conns s) /\ has (S_cgens s);
  ok_conns : has (S_conns s) -> has (S_gens s);
  ok_cgens : has (S_cgens s) -> E_ctl E = true;
}.

Definition later (s s' : shared) : Prop :=
  (length (S_gens s) <= length (S_gens s'))%nat /\ (length (S_conns s) <= length (S_conns s'))%nat /\
  (length (S_cgens s) <= length (S_cgens s'))%nat.
Lemma t_refs_later E s s' t : later s s' -> t_refs E s t -> t_refs E s' t.
Proof. intros (H1 & H2 & H3). destruct t; cbn [t_refs]; unfold has; intuition lia. Qed.

Definition obs_ok (E : env) (o : obs) : Prop :=
  match o with
  | ORecv _ d | ODiscard _ d => bytes_ok d
  | OParse d => bytes_ok d
  | OSpawn p | OCall _ p | OIgnore p => decoded p
  | OQueued x | OTx x | ODrop x => item_ok E x
  | OQueuedReply q => C_Type (E_config E) = StController /\ wf_PollReply q
  | _ => True
  end.

Lemma poll_datagram_eq : snd (Poll_MarshalBinary (mkPoll Header_zero (TalkToMe_WithReplyOnChange 0 true) DpAll)) = Ok poll_datagram.
Proof. reflexivity. Qed.
Lemma go_copy_firstn num b : (num <= length b)%nat -> go_copy (zeros (N.of_nat num)) b = firstn num b.
Proof.
  intros H. rewrite go_copy_zeros. rewrite Nat2N.id. unfold len, zeros. replace (N.to_nat _) with 0%nat by lia.
  cbn [repeat]. apply app_nil_r.
Qed.

Lemma s_ok_upd E s h g ch : s_ok E s h -> g_ok E ch -> s_ok E (upd_gen s g ch) h.
Proof.
  intros [H1 H2 H3 H4 H5] Hg. unfold upd_gen.
  constructor; cbn [S_tables S_gens S_conns S_cgens S_tickers with_gens]; unfold has in *; rewrite ?insert_length; auto.
  apply Forall_insert; assumption.
Qed.
Lemma later_refl s : later s s.
Proof. unfold later. lia. Qed.
Lemma later_upd s g ch : later s (upd_gen s g ch).
Proof. unfold later, upd_gen. cbn. rewrite insert_length. lia. Qed.
Lemma gens_upd s g ch : length (S_gens (upd_gen s g ch)) = length (S_gens s).
Proof. unfold upd_gen. cbn. apply insert_length. Qed.
Lemma gen_ok E s h g ch : s_ok E s h -> S_gens s !! g = Some ch -> g_ok E ch.
Proof. intros H. apply Forall_lookup_1. apply (ok_gens E s h H). Qed.
Lemma s_ok_tables E s h e s' out b : s_ok E s h -> event_ok (S_tables s) e -> step (S_tables s) e = Ret (s', out) ->
  s_ok E (with_tables s s' b) (h ++ [(S_tables s, e, out)]).
Proof. intros [H1 H2 H3 H4 H5] He Hs. constructor; cbn; auto. econstructor; eassumption. Qed.
Lemma s_ok_same E s s' h : s_ok E s h -> S_tables s' = S_tables s -> S_gens s' = S_gens s -> S_conns s' = S_conns s ->
  S_cgens s' = S_cgens s -> S_tickers s' = S_tickers s -> s_ok E s' h.
Proof. intros [H1 H2 H3 H4 H5] E1 E2 E3 E4 E5. constructor; rewrite ?E1, ?E2, ?E3, ?E4, ?E5; auto. Qed.
Lemma g_ok_new E : g_ok E new_chans.
Proof. unfold g_ok, new_chans. cbn. repeat split; auto; lia. Qed.
Lemma Unmarshal_None d : Unmarshal d <> Ret (None, None).
Proof.
  intros H. unfold Unmarshal in H. destruct (Header_unmarshal Header_zero d) as [[h [e|]]|]; cbn [bind] in H; try discriminate H.
  cbv zeta in H.
  repeat match goal with H : context [if ?x =? ?y then _ else _] |- _ => destruct (x =? y) end;
    try (match type of H with bind ?x _ = _ => destruct x; discriminate H end); try discriminate H.
  destruct (existsb _ _); discriminate H.
Qed.

Definition choice_ok (c : Sys.choice) : Prop := match c with CDatagram _ d => bytes_ok d | _ => True end.

Ltac qfacts :=
  repeat match goal with
  | H : push _ _ = Some _ |- _ => apply push_Some in H; destruct H as [-> ?]
  | H : last_index _ = Some _ |- _ => apply last_index_Some in H
  end.

Lemma Forall_cons_inv {A} (P : A -> Prop) x l : Forall P (x :: l) -> P x /\ Forall P l.
Proof. intros H. inversion H; auto. Qed.
Lemma Forall_snoc {A} (P : A -> Prop) x l : Forall P l -> P x -> Forall P (l ++ [x]).
Proof. intros H1 H2. apply Forall_app. auto. Qed.

Ltac refs_tac :=
  cbn [t_refs]; unfold has in *; rewrite ?gens_upd; cbn [S_gens S_conns S_cgens with_shutdown with_err with_gens with_conns with_tables with_cgens with_tickers upd_gen];
  rewrite ?app_length, ?insert_length; cbn [length]; intuition lia.

Lemma tstep_ok E s h t c s' t' sp o : s_ok E s h -> t_ok E t -> t_refs E s t -> choice_ok c ->
  tstep E s t c = Next s' t' sp o ->
  s_ok E s' (h ++ hist o) /\ later s s' /\ t_ok E t' /\ t_refs E s' t' /\
  Forall (fun u => t_ok E u /\ t_refs E s' u) sp /\ Forall (obs_ok E) o.
Proof.
  intros Hs Ht Hr Hc H.
  tcases H; qfacts; cbn [t_ok t_refs choice_ok] in *; cbn [hist omap list_omap]; rewrite ?app_nil_r.
  all: try match goal with G : S_gens _ !! _ = Some ?ch |- _ => pose proof (gen_ok _ _ _ _ _ Hs G) as (G1 & G2 & G3 & G4 & G5 & G6 & G7 & G8) end.
  all: pose proof (ok_tickers E s h Hs) as KT.
  all: repeat match goal with G : ?q = _ :: _, G1 : context [?q] |- _ => rewrite G in G1 end.
  all: repeat match goal with G : Forall _ (_ :: _) |- _ => apply Forall_cons_inv in G; destruct G end.
  all: split; [ try exact Hs | split; [ try (first [ apply later_refl | apply later_upd | unfold later; refs_tac ]) |
         split; [ try exact I; try tauto | split; [ try (refs_tac; fail) | split; [ try (apply Forall_nil; exact I) |
           try (repeat (apply Forall_cons; split); try (apply Forall_nil; exact I); cbn [obs_ok item_ok]; tauto) ] ] ] ] ].
  all: try (apply s_ok_upd; [ exact Hs | ]).
  all: try (unfold g_ok; cbn [Q_send Q_recv Q_poll Q_reply set_send set_recv set_poll set_reply set_closed]; unfold chan_cap in *; cbn [length] in *;
            rewrite ?app_length; cbn [length];
            split; [ try apply Forall_snoc; cbn [item_ok]; tauto | ]; split; [ try apply Forall_snoc; tauto | ];
            split; [ try apply Forall_snoc; tauto | ]; split; [ intuition (try congruence; try discriminate) | lia ]; fail).
  all: try (eapply s_ok_tables; [ exact Hs | cbn [event_ok]; tauto | assumption ]).
  all: try (eapply s_ok_same; [ exact Hs | reflexivity.. ]).
  - (* RL_start *) constructor; [ | constructor ]. split; [ | refs_tac ]. split; [ reflexivity | apply bytes_ok_zeros ].
  - (* RL_parse *) constructor; [ | constructor ]. split; [ | refs_tac ]. exists data. auto.
  - constructor; [ exact Ht | ]. constructor; [ exists data; auto | constructor ].
  - (* RD_reading *) destruct Ht as [Hl Hb]. split.
    + split.
      * unfold len in *. rewrite app_length, take_length, drop_length. rewrite <- Hl. f_equal. lia.
      * apply Forall_app. split; [ apply bytes_ok_firstn; exact Hc | apply bytes_ok_skipn; exact Hb ].
    + rewrite app_length, take_length, drop_length. lia.
  - (* RD_got *) constructor; [ | constructor ]. apply bytes_ok_firstn. apply Ht.
  - split; [ tauto | ]. rewrite go_copy_firstn by tauto. apply bytes_ok_firstn. apply Ht.
  - (* H_start *) split; [ assumption | ]. apply (decoded_wf (PktPollReply _) Ht).
  - (* CP_start *) match goal with G : _ = Ok pb |- _ => rewrite poll_datagram_eq in G; injection G as <- end. reflexivity.
  - (* DL_lock *) apply Forall_forall. intros f Hf. exists h, (S_tables s), order, now, k, out.
    split; [ apply (ok_reach E s h Hs) | ]. auto.
  - (* U_start_ctl *) assert (K : s_ok E (with_tables s k (S_lock s)) (h ++ [(S_tables s, EStart, out)])) by (eapply s_ok_tables; [ exact Hs | exact I | assumption ]).
    destruct K as [K1 K2 K3 K4 K5]. constructor; cbn in *; unfold has in *; rewrite ?app_length; cbn [length]; auto. intuition lia.
  - (* U_start_node *) destruct Hs as [K1 K2 K3 K4 K5]. constructor; cbn; unfold has in *; rewrite ?app_length; cbn [length]; auto; try (intuition lia).
    apply Forall_snoc; [ exact K2 | apply g_ok_new ].
  - (* U_listen *) destruct Hs as [K1 K2 K3 K4 K5]. constructor; cbn; unfold has in *; rewrite ?app_length; cbn [length]; auto; intuition lia.
  - repeat (constructor; [ split; [ exact I | refs_tac ] | ]). constructor.
  - destruct Hs as [K1 K2 K3 K4 K5]. constructor; cbn; unfold has in *; rewrite ?app_length; cbn [length]; auto; intuition lia.
  - repeat (constructor; [ split; [ exact I | refs_tac ] | ]). constructor.
  - (* U_start_loops *) destruct Hs as [K1 K2 K3 K4 K5]. constructor; cbn; auto.
  - repeat (constructor; [ split; [ exact I | refs_tac ] | ]). constructor.
  - (* U_closeconn *) destruct Hs as [K1 K2 K3 K4 K5]. constructor; cbn; unfold has in *; rewrite ?insert_length; auto.
  - destruct Hs as [K1 K2 K3 K4 K5]. constructor; cbn; unfold has in *; rewrite ?insert_length; auto.
  - (* U_closectl *) destruct Hs as [K1 K2 K3 K4 K5]. constructor; cbn; unfold has in *; rewrite ?insert_length; auto.
Qed.

(** A reachable state: any sequence of steps and calls from the state after NewNode/NewController. *)
Definition t_inv (E : env) (s : shared) (t : thread) : Prop := t_ok E t /\ t_refs E s t.
Record sys_ok (E : env) (y : sys) (tr : list obs) : Prop := {
  sys_shared : s_ok E (Y_sh y) (hist tr);
  sys_threads : Forall (t_inv E (Y_sh y)) (Y_threads y);
  sys_obs : Forall (obs_ok E) tr;
}.

Lemma init_ok E : sys_ok E (init E) [].
Proof.
  constructor; cbn; try constructor; cbn; unfold has; cbn; auto; try discriminate; try lia; constructor.
Qed.
Lemma exec_ok E y tr l y' o : sys_ok E y tr -> label_ok l -> exec E y l = RNext y' o -> sys_ok E y' (tr ++ o).
Proof.
  intros [Hs Ht Ho] Hl H. apply exec_cases in H.
  destruct H as [(i & c & t & s & t' & sp & -> & Et & Es & ->)|[(t & -> & -> & Hk)|(m & op & f & -> & -> & Ec & _)]].
  - destruct (Forall_lookup_1 _ _ _ _ Ht Et) as [T1 T2].
    assert (Hc : choice_ok c) by (destruct c; try exact I; exact Hl).
    destruct (tstep_ok E _ _ t c s t' sp o Hs T1 T2 Hc Es) as (S1 & S2 & S3 & S4 & S5 & S6).
    constructor; cbn [Y_sh Y_threads].
    + rewrite hist_app. exact S1.
    + apply Forall_app. split; [ | exact S5 ]. apply Forall_insert; [ | split; assumption ].
      eapply Forall_impl; [ exact Ht | ]. intros u [U1 U2]. split; [ exact U1 | eapply t_refs_later; eassumption ].
    + apply Forall_app. auto.
  - rewrite app_nil_r. constructor; cbn [Y_sh Y_threads]; auto. apply Forall_snoc; [ exact Ht | ].
    destruct Hk as [[-> ->]|[[-> ->]|(dmx & a & -> & Ec & ->)]].
    + destruct (E_ctl E) eqn:Ec; split; cbn; auto. rewrite Ec. discriminate.
    + destruct (E_ctl E) eqn:Ec; split; cbn; auto. rewrite Ec. discriminate.
    + split; cbn; auto.
  - constructor; cbn [Y_sh Y_threads].
    + rewrite hist_app. cbn [hist omap list_omap]. rewrite app_nil_r. eapply s_ok_same; [ exact Hs | reflexivity.. ].
    + eapply Forall_impl; [ exact Ht | ]. intros u [U1 U2]. split; [ exact U1 | ]. eapply t_refs_later; [ | exact U2 ]. unfold later. cbn. lia.
    + apply Forall_app. split; [ exact Ho | ]. repeat constructor.
Qed.
Lemma steps_ok E y ls y' tr' : steps E y ls y' tr' -> forall tr, sys_ok E y tr -> sys_ok E y' (tr ++ tr').
Proof.
  induction 1 as [|y ls y1 tr1 l y2 o Hs IH Hl He]; intros tr H; [ rewrite app_nil_r; exact H | ].
  rewrite app_assoc. eapply exec_ok; [ apply IH; exact H | exact Hl | exact He ].
Qed.
(** [runs E ls y tr]: a run of the system from its creation. *)
Definition runs (E : env) (ls : list label) (y : sys) (tr : list obs) : Prop := steps E (init E) ls y tr.
Theorem runs_ok E ls y tr : runs E ls y tr -> sys_ok E y tr.
Proof. intros H. exact (steps_ok E _ _ _ _ H [] (init_ok E)). Qed.

(** * Where the program can crash *)
(** The complete list of transitions that panic in a reachable state. *)
Definition last_closed (s : shared) : Prop :=
  match last_index (S_gens s) with Some g => gen_closed s g = true | None => True end.
Definition last_ctl_closed (s : shared) : Prop :=
  match last_index (S_cgens s) with Some g => flag_at (S_cgens s) g = true | None => True end.
Definition crashing (E : env) (s : shared) (t : thread) : Prop :=
  match t with
  | RD_got _ None => S_shutdown s = false
  | U_stop_ctl => S_tickers s = false
  | U_close => last_closed s
  | U_closectl => last_ctl_closed s
  | DL_start => (E_maxFPS E <= 0 \/ 1000000000 < E_maxFPS E)%Z
  | _ => False
  end.
Lemma tstep_crash E s h t c : s_ok E s h -> t_ok E t -> t_refs E s t -> tstep E s t c = Crash -> crashing E s t /\ c = CGo.
Proof.
  intros Hs Ht Hr H. pose proof (reach_inv _ _ _ (ok_reach E s h Hs)) as Hi.
  destruct t; destruct c; try discriminate H; cbn [tstep] in H; unfold eval_gen, on_closed in H; cbv zeta in H.
  all: repeat match type of H with context [match ?x with _ => _ end] => destruct x eqn:?; try discriminate H end.
  all: cbn [crashing t_refs t_ok] in *; unfold has in *.
  all: repeat match goal with G : last_index _ = None |- _ => apply last_index_None in G; rewrite G in *; cbn in * end.
  all: try (exfalso; lia). all: try (split; [ | reflexivity ]).
  all: try match goal with G : step ?k0 ?e = Panic, Hi : Inv ?k0 |- _ =>
         exfalso; destruct (step_ok k0 e Hi) as (k & out & K & _); [ | congruence ]; cbn [event_ok]; try tauto end.
  all: try (unfold last_closed, last_ctl_closed, gen_closed;
            repeat match goal with G : last_index _ = Some _ |- _ => rewrite G | G : S_gens _ !! _ = _ |- _ => rewrite G | G : S_gens _ = [] |- _ => rewrite G end; cbn; auto; fail).
  all: try assumption.
  - (* RL_parse *) destruct (Unmarshal_None data). assumption.
  - destruct (C13_unmarshal_total data) as (o & e & K). congruence.
  - (* DL_start *) unfold ticker_period in *. rewrite (reach_fps _ _ _ (ok_reach E s h Hs)) in *.
    destruct (Z.eqb_spec (E_maxFPS E) 0); [ lia | ]. cbv zeta in *.
    destruct (Z.le_gt_cases (E_maxFPS E) 0); [ auto | ]. destruct (Z.lt_ge_cases 1000000000 (E_maxFPS E)); [ auto | ]. exfalso.
    rewrite Z.quot_div_nonneg in * by lia. assert (P : (0 < 1000000000 / E_maxFPS E)%Z) by (apply Z.div_str_pos; lia).
    destruct (Z.leb_spec (1000000000 / E_maxFPS E) 0); [ lia | discriminate ].
  - (* DL_lock *) eapply bool_decide_eq_true_1. eassumption.
  - exfalso. qfacts. match goal with G : _ !! _ = None |- _ => apply lookup_ge_None_1 in G end. lia.
  - unfold last_closed. match goal with G : last_index _ = None |- _ => rewrite G end. exact I.
Qed.
Lemma crashing_crash E s h t : s_ok E s h -> crashing E s t -> tstep E s t CGo = Crash.
Proof.
  intros Hs H. destruct t; cbn [crashing tstep] in *; try contradiction.
  - destruct r as [[from num]|]; [ contradiction | ]. rewrite H. reflexivity.
  - unfold ticker_period. rewrite (reach_fps _ _ _ (ok_reach E s h Hs)).
    destruct (Z.eqb_spec (E_maxFPS E) 0); [ reflexivity | ]. cbv zeta.
    destruct H as [H|H].
    + destruct (Z.leb_spec (Z.quot 1000000000 (E_maxFPS E)) 0); [ reflexivity | ].
      pose proof (Z.quot_opp_r 1000000000 (- E_maxFPS E) ltac:(lia)) as Q. rewrite Z.opp_involutive in Q.
      pose proof (Z.quot_pos 1000000000 (- E_maxFPS E) ltac:(lia) ltac:(lia)). lia.
    + rewrite Z.quot_small by lia. reflexivity.
  - rewrite H. reflexivity.
  - unfold last_closed, gen_closed in H. destruct (last_index (S_gens s)) as [g|]; [ | reflexivity ].
    destruct (S_gens s !! g) as [ch|]; [ | reflexivity ]. rewrite H. reflexivity.
  - unfold last_ctl_closed in H. destruct (last_index (S_cgens s)) as [g|]; [ | reflexivity ]. rewrite H. reflexivity.
Qed.
Theorem exec_crash E y tr l : sys_ok E y tr ->
  (exec E y l = RCrash <-> exists i t, l = LRun i CGo /\ Y_threads y !! i = Some t /\ crashing E (Y_sh y) t).
Proof.
  intros [Hs Ht _]. split.
  - destruct l as [i c| | |dmx a|op f|op]; cbn [exec]; unfold spawn; try (destruct (E_ctl E)); try discriminate.
    all: destruct (Y_threads y !! i) as [t|] eqn:Et; [ | discriminate ].
    all: destruct (tstep E (Y_sh y) t c) eqn:Es; try discriminate; intros _.
    all: destruct (Forall_lookup_1 _ _ _ _ Ht Et) as [T1 T2]; destruct (tstep_crash E _ _ _ _ Hs T1 T2 Es) as [Hc ->]; eauto.
  - intros (i & t & -> & Et & Hc). cbn [exec]. rewrite Et, (crashing_crash E _ _ _ Hs Hc). reflexivity.
Qed.

(** * Conservation laws *)
Definition collect {A B} (f : A -> list B) (l : list A) : list B := concat (map f l).
Lemma collect_app {A B} (f : A -> list B) l k : collect f (l ++ k) = collect f l ++ collect f k.
Proof. unfold collect. rewrite map_app, concat_app. reflexivity. Qed.
Lemma collect_cons {A B} (f : A -> list B) x l : collect f (x :: l) = f x ++ collect f l.
Proof. reflexivity. Qed.
Lemma collect_nil {A B} (f : A -> list B) : collect f [] = [].
Proof. reflexivity. Qed.
Definition cnt {A} (P : A -> bool) (l : list A) : nat := length (List.filter P l).
Lemma cnt_app {A} (P : A -> bool) l k : cnt P (l ++ k) = (cnt P l + cnt P k)%nat.
Proof. unfold cnt. rewrite List.filter_app, app_length. reflexivity. Qed.
Lemma cnt_nil {A} (P : A -> bool) : cnt P [] = 0%nat.
Proof. reflexivity. Qed.
Lemma cnt_cons {A} (P : A -> bool) x l : cnt P (x :: l) = (cnt P [x] + cnt P l)%nat.
Proof. exact (cnt_app P [x] l). Qed.
Lemma collect_insert {A B} (P : B -> bool) (f : A -> list B) l : forall i x y, l !! i = Some x ->
  (cnt P (collect f (<[i := y]> l)) + cnt P (f x) = cnt P (collect f l) + cnt P (f y))%nat.
Proof.
  induction l as [|z l IH]; intros [|i] x y H; simpl in *; try discriminate; rewrite !collect_cons, !cnt_app.
  - injection H as ->. lia.
  - specialize (IH i x y H). lia.
Qed.
Lemma cnt_count {A} `{EqDecision A} (x : A) l : cnt (fun y => bool_decide (x = y)) l = count_occ (decide_rel (=)) l x.
Proof.
  induction l as [|y l IH]; [ reflexivity | ]. rewrite cnt_cons, IH. cbn [count_occ]. unfold cnt. cbn [List.filter].
  destruct (decide_rel (=) y x) as [->|n]; [ rewrite bool_decide_eq_true_2 by reflexivity; reflexivity | ].
  rewrite bool_decide_eq_false_2 by congruence. reflexivity.
Qed.
Lemma cnt_perm {A} `{EqDecision A} (l k : list A) : (forall P, cnt P l = cnt P k) -> l ≡ₚ k.
Proof. intros H. apply (Permutation_count_occ (decide_rel (=))). intros x. rewrite <- !cnt_count. apply H. Qed.

(** A law: what threads and channels hold, and what observations bring in and take out. *)
Record law (A : Type) := mkLaw { v_t : thread -> list A; v_g : chans -> list A; v_in : obs -> list A; v_out : obs -> list A }.
Arguments mkLaw {A} _ _ _ _.
Arguments v_t {A} _ _. Arguments v_g {A} _ _. Arguments v_in {A} _ _. Arguments v_out {A} _ _.
Definition held {A} (w : law A) (y : sys) : list A := collect (v_t w) (Y_threads y) ++ collect (v_g w) (S_gens (Y_sh y)).
Definition respects {A} (E : env) (w : law A) : Prop :=
  (forall P s h t c s' t' sp o, s_ok E s h -> t_ok E t -> t_refs E s t -> choice_ok c -> tstep E s t c = Next s' t' sp o ->
    (cnt P (collect (v_in w) o) + cnt P (v_t w t) + cnt P (collect (v_g w) (S_gens s)) =
     cnt P (collect (v_out w) o) + cnt P (v_t w t') + cnt P (collect (v_t w) sp) + cnt P (collect (v_g w) (S_gens s')))%nat) /\
  (v_t w U_start_ctl = [] /\ v_t w U_start_node = [] /\ v_t w U_stop_ctl = [] /\ v_t w U_flag = [] /\
   forall dmx a, v_t w (U_send dmx a) = []) /\
  (forall op f, v_in w (ORegister op f) = [] /\ v_out w (ORegister op f) = []).

Lemma law_exec {A} E (w : law A) y tr l y' o P : respects E w -> sys_ok E y tr -> label_ok l -> exec E y l = RNext y' o ->
  (cnt P (collect (v_in w) o) + cnt P (held w y) = cnt P (collect (v_out w) o) + cnt P (held w y'))%nat.
Proof.
  intros (Hw & (W1 & W2 & W3 & W4 & W5) & W6) [Hs Ht _] Hl H. unfold held. apply exec_cases in H. rewrite !cnt_app.
  destruct H as [(i & c & t & s & t' & sp & -> & Et & Es & ->)|[(t & -> & -> & Hk)|(m & op & f & -> & -> & _)]]; cbn [Y_sh Y_threads].
  - destruct (Forall_lookup_1 _ _ _ _ Ht Et) as [T1 T2].
    assert (Hc : choice_ok c) by (destruct c; try exact I; exact Hl).
    pose proof (Hw P _ _ _ _ _ _ _ _ Hs T1 T2 Hc Es). pose proof (collect_insert P (v_t w) _ i t t' Et).
    rewrite collect_app, cnt_app. lia.
  - assert (Z : v_t w t = []).
    { destruct Hk as [[-> ->]|[[-> ->]|(dmx & a & -> & _ & ->)]]; try destruct (E_ctl E); auto. }
    rewrite collect_app, cnt_app, collect_cons, Z, !collect_nil. cbn [app]. rewrite !cnt_nil. lia.
  - destruct (W6 op f) as [Z1 Z2]. rewrite !collect_cons, Z1, Z2, !collect_nil. cbn [app S_gens with_callbacks]. rewrite !cnt_nil. lia.
Qed.
Theorem law_steps {A} E (w : law A) y ls y' tr' tr P : respects E w -> sys_ok E y tr -> steps E y ls y' tr' ->
  (cnt P (collect (v_in w) tr') + cnt P (held w y) = cnt P (collect (v_out w) tr') + cnt P (held w y'))%nat.
Proof.
  intros Hw Hy H. induction H as [|y ls y1 tr1 l y2 o Hs IH Hl He]; [ rewrite !collect_nil, !cnt_nil; lia | ].
  pose proof (steps_ok E _ _ _ _ Hs tr Hy) as Hy1. pose proof (law_exec E w _ _ _ _ _ P Hw Hy1 Hl He).
  specialize (IH Hy). rewrite !collect_app, !cnt_app. lia.
Qed.
Theorem law_runs {A} `{EqDecision A} E (w : law A) ls y tr : respects E w -> runs E ls y tr ->
  collect (v_in w) tr ≡ₚ collect (v_out w) tr ++ held w y.
Proof.
  intros Hw H. apply cnt_perm. intros P. pose proof (law_steps E w _ _ _ _ [] P Hw (init_ok E) H) as K.
  rewrite cnt_app. change (held w (init E)) with (@nil A) in K. rewrite cnt_nil in K. lia.
Qed.
