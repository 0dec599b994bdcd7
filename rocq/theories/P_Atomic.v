(** C94: the critical sections of c.nodeLock behave as if they were executed in one step (Fine.v against Sys.v). *)
From Verif Require Import WireSpec P_Config ControllerFacts P_Controller SysFacts SysLaws SysRun SysOrder SysScript P_Node P_Life P_Live P_Race P_Access Fine.
From stdpp Require Import base list gmap.
Open Scope N_scope.

(** * The bodies of the sections do what the atomic operations do *)
Lemma alter_at {K A} `{Countable K} (m : gmap K A) i x g : m !! i = Some x -> alter g i m = <[i := g x]> m.
Proof. intros Hx. rewrite <- (insert_id m i x Hx) at 1. apply alter_insert. Qed.
Lemma at_node_eq n g k cn : K_heap k !! n = Some cn -> at_node n g k = set_heap k (<[n := g cn]> (K_heap k)).
Proof. intros H. unfold at_node. rewrite (alter_at _ _ _ _ H). reflexivity. Qed.
Lemma at_node_put n g k cn : at_node n g (set_heap k (<[n := cn]> (K_heap k))) = set_heap k (<[n := g cn]> (K_heap k)).
Proof. rewrite (at_node_eq _ _ _ cn) by apply lookup_insert. cbn. rewrite insert_insert. reflexivity. Qed.
Lemma put_same n k cn : K_heap k !! n = Some cn -> set_heap k (<[n := cn]> (K_heap k)) = k.
Proof. intros H. rewrite insert_id by exact H. destruct k. reflexivity. Qed.

Lemma prun_Deref n p k : prun (Deref n p) k = do cn <- deref k n; prun (p cn) k.
Proof. unfold Deref, deref. cbn. destruct (K_heap k !! n); reflexivity. Qed.
Lemma prun_Deref_at n p k cn : K_heap k !! n = Some cn -> prun (Deref n p) k = prun (p cn) k.
Proof. intros H. rewrite prun_Deref. unfold deref. rewrite H. reflexivity. Qed.
Lemma prun_Deref_put n p k cn : prun (Deref n p) (set_heap k (<[n := cn]> (K_heap k))) = prun (p cn) (set_heap k (<[n := cn]> (K_heap k))).
Proof. apply prun_Deref_at. apply lookup_insert. Qed.
Lemma prun_del_out ports : forall next k, prun (del_out ports next) k = prun next (set_out k (delete_ports (K_OutputAddress k) ports)).
Proof. induction ports as [|q ports IH]; intros next k; cbn; [ destruct k; reflexivity | ]. rewrite IH. reflexivity. Qed.
Lemma prun_del_in ports : forall next k, prun (del_in ports next) k = prun next (set_in k (delete_ports (K_InputAddress k) ports)).
Proof. induction ports as [|q ports IH]; intros next k; cbn; [ destruct k; reflexivity | ]. rewrite IH. reflexivity. Qed.
Lemma prun_ins_out ports n : forall next k, prun (ins_out ports n next) k = prun next (set_out k (insert_ports (K_OutputAddress k) ports n)).
Proof. induction ports as [|q ports IH]; intros next k; cbn; [ destruct k; reflexivity | ]. rewrite IH. reflexivity. Qed.
Lemma prun_ins_in ports n : forall next k, prun (ins_in ports n next) k = prun next (set_in k (insert_ports (K_InputAddress k) ports n)).
Proof. induction ports as [|q ports IH]; intros next k; cbn; [ destruct k; reflexivity | ]. rewrite IH. reflexivity. Qed.

Lemma send_code dmx a k : prun (send_prog dmx a) k = step k (ESend dmx a).
Proof.
  unfold send_prog. cbn [Read prun step]. unfold SendDMXToAddress. destruct (K_OutputAddress k !! a) as [n|]; [ | reflexivity ]. rewrite prun_Deref. unfold deref.
  destruct (K_heap k !! n) as [cn|] eqn:Hn; [ | reflexivity ]. cbn [bind]. unfold setDMXBuffer. destruct (CN_DMXBuffer cn !! a) as [b|] eqn:Hb.
  - cbn [prun bind]. unfold at_buf. rewrite (at_node_eq _ _ _ _ Hn), at_node_put. cbn [CN_LastSeen CN_Node CN_UDPAddress CN_Sequence CN_DMXBuffer].
    rewrite (alter_at _ _ _ _ Hb), alter_insert. reflexivity.
  - cbn [prun bind]. rewrite put_same by exact Hn. reflexivity.
Qed.
Definition after_update (n : nid) (k : Controller) (err next : prog) (r : go (ControlledNode * option payload)) : go (Controller * list payload) :=
  do r <- r;
  match r with
  | (cn, None) => prun err (set_heap k (<[n := cn]> (K_heap k)))
  | (cn, Some f) => emit f (prun next (set_heap k (<[n := cn]> (K_heap k))))
  end.
Lemma update_code n a now err next k cn : prun (update_prog n a now err next) (set_heap k (<[n := cn]> (K_heap k))) = after_update n k err next (update cn a now).
Proof.
  unfold update_prog, update, dmxUpdate. rewrite prun_Deref_put. destruct (CN_DMXBuffer cn !! a) as [b|] eqn:Hb; [ | cbn; reflexivity ].
  cbn [prun]. rewrite at_node_put, prun_Deref_put. cbn [CN_LastSeen CN_Node CN_UDPAddress CN_Sequence CN_DMXBuffer]. rewrite Hb.
  destruct (snd (DMX_MarshalBinary _)) as [bs|]; [ | reflexivity ]. cbn [prun]. unfold at_buf. rewrite !at_node_put, prun_Deref_put. cbn [CN_LastSeen CN_Node CN_UDPAddress CN_Sequence CN_DMXBuffer].
  rewrite (alter_at _ _ _ _ Hb), alter_insert. cbn. rewrite Hb. reflexivity.
Qed.
Definition emits (out : list payload) (r : go (Controller * list payload)) : go (Controller * list payload) := do r <- r; let '(k, o) := r in Ret (k, out ++ o).
Lemma emits_nil r : emits [] r = r.
Proof. destruct r as [[k o]|]; reflexivity. Qed.
Lemma emit_emits f out r : emit f (emits out r) = emits (f :: out) r.
Proof. destruct r as [[k o]|]; reflexivity. Qed.
Lemma emit_one f r : emit f r = emits [f] r.
Proof. destruct r as [[k o]|]; reflexivity. Qed.
Lemma force_code n a now next k cn : prun (force_prog n a now next) (set_heap k (<[n := cn]> (K_heap k))) =
  match CN_DMXBuffer cn !! a with
  | None => Panic
  | Some buf => if (B_LastUpdate buf <? now - forceUpdate)%Z then after_update n k next next (update cn a now) else prun next (set_heap k (<[n := cn]> (K_heap k)))
  end.
Proof.
  unfold force_prog. rewrite prun_Deref_put. destruct (CN_DMXBuffer cn !! a) as [b|]; [ | reflexivity ]. destruct (_ <? _)%Z; [ apply update_code | reflexivity ].
Qed.
Lemma stale_code fps n a now next k cn : prun (stale_prog fps n a now next) (set_heap k (<[n := cn]> (K_heap k))) =
  match CN_DMXBuffer cn !! a with
  | None => Panic
  | Some buf => if B_Stale buf && (B_LastUpdate buf <? now - fps)%Z then after_update n k next (force_prog n a now next) (update cn a now)
                else prun (force_prog n a now next) (set_heap k (<[n := cn]> (K_heap k)))
  end.
Proof.
  unfold stale_prog. rewrite prun_Deref_put. destruct (CN_DMXBuffer cn !! a) as [b|]; [ | reflexivity ]. destruct (_ && _); [ apply update_code | reflexivity ].
Qed.
Lemma entry_code fps n a now next k cn : prun (entry_prog fps n a now next) (set_heap k (<[n := cn]> (K_heap k))) =
  do r <- tick_body fps cn a now; let '(cn', out) := r in emits out (prun next (set_heap k (<[n := cn']> (K_heap k)))).
Proof.
  assert (M : forall cn buf, CN_DMXBuffer cn !! a = Some buf -> prun (stale_prog fps n a now next) (set_heap k (<[n := cn]> (K_heap k))) =
    do r <- tick_body fps cn a now; let '(cn', out) := r in emits out (prun next (set_heap k (<[n := cn']> (K_heap k))))).
  { clear cn. intros cn buf Hb. rewrite stale_code, Hb. unfold tick_body. rewrite Hb. rewrite Hb.
    destruct (B_Stale buf && _); cbn [bind].
    - unfold after_update. destruct (update cn a now) as [[cn1 [f|]]|] eqn:Hu; cbn [bind]; [ | rewrite emits_nil; reflexivity | reflexivity ].
      rewrite force_code. destruct (CN_DMXBuffer cn1 !! a) as [b1|]; [ | reflexivity ]. destruct (_ <? _)%Z; cbn [bind].
      + unfold after_update. destruct (update cn1 a now) as [[cn2 [f2|]]|]; cbn [bind]; [ | rewrite emit_one; reflexivity | reflexivity ]. rewrite (emit_one f2), emit_emits. reflexivity.
      + rewrite emit_one. reflexivity.
    - rewrite force_code, Hb. destruct (_ <? _)%Z; cbn [bind].
      + unfold after_update. destruct (update cn a now) as [[cn2 [f2|]]|]; cbn [bind]; [ | rewrite emits_nil; reflexivity | reflexivity ]. rewrite emit_one. reflexivity.
      + rewrite emits_nil. reflexivity. }
  unfold entry_prog. rewrite prun_Deref_put. destruct (CN_DMXBuffer cn !! a) as [b|] eqn:Hb; [ apply (M _ b Hb) | ].
  cbn [prun]. rewrite at_node_put. rewrite (M _ empty_buf) by apply lookup_insert. f_equal. unfold tick_body. rewrite Hb. cbn [CN_DMXBuffer]. rewrite !lookup_insert. cbn [CN_DMXBuffer]. rewrite ?lookup_insert. reflexivity.
Qed.
Lemma entries_code fps now order : forall k, K_maxFPS k = fps -> prun (entries_prog fps order now) k = tick_loop k order now.
Proof.
  induction order as [|[a n] order IH]; intros k Hk; [ reflexivity | ]. cbn [entries_prog tick_loop]. rewrite Hk. unfold deref. destruct (K_heap k !! n) as [cn|] eqn:Hn.
  - cbn [bind]. rewrite <- (put_same n k cn Hn) at 1. rewrite entry_code. destruct (tick_body fps cn a now) as [[cn' out]|]; [ | reflexivity ]. cbn [bind].
    rewrite IH by exact Hk. unfold emits. reflexivity.
  - unfold entry_prog. rewrite prun_Deref. unfold deref. rewrite Hn. reflexivity.
Qed.
Lemma tick_code order now k : prun (tick_prog order now) k = step k (ETick order now).
Proof. unfold tick_prog. cbn [Read prun step]. apply entries_code. reflexivity. Qed.

Definition after_scan (again : nat -> prog) (r : go (Controller * nat + Controller * nat)) : go (Controller * list payload) :=
  do r <- r; match r with inl (k, _) => Ret (k, []) | inr (k, j) => prun (again j) k end.
Lemma scan_code clock again is : forall j k, prun (scan_prog clock j is again) k = after_scan again (gc_scan k clock j is).
Proof.
  induction is as [|i is IH]; intros j k; [ reflexivity | ]. cbn [scan_prog gc_scan]. unfold node_at. cbn [Read prun]. destruct (nth_error (K_Nodes k) i) as [n|]; [ | reflexivity ].
  rewrite prun_Deref. cbn [bind]. destruct (deref k n) as [cn|]; [ | reflexivity ]. cbn [bind]. destruct (_ <? _)%Z; [ | apply IH ].
  rewrite prun_del_out, prun_del_in. reflexivity.
Qed.
Lemma start_code clock fuel : forall j k, prun (start_prog fuel clock j) k = do r <- gc_loop fuel k clock j; let '(k, _) := r in Ret (k, []).
Proof.
  induction fuel as [|fuel IH]; intros j k; [ reflexivity | ]. cbn [start_prog gc_loop Read prun]. rewrite scan_code. unfold after_scan.
  destruct (gc_scan k clock j (seq 0 (length (K_Nodes k)))) as [[[k' j']|[k' j']]|]; cbn [bind]; [ reflexivity | apply IH | reflexivity ].
Qed.
Lemma gc_code clock k : prun (gc_prog clock) k = step k (EGc clock).
Proof. unfold gc_prog. cbn [Read prun step]. apply start_code. Qed.
Lemma find_code ip found none k nodes : prun (find_prog ip nodes found none) k = do r <- find_ip k ip nodes; match r with Some n => prun (found n) k | None => prun none k end.
Proof.
  induction nodes as [|n nodes IH]; [ reflexivity | ]. cbn [find_prog find_ip]. rewrite prun_Deref. destruct (deref k n) as [cn|]; [ | reflexivity ]. cbn [bind].
  destruct (eqbytes ip _); [ reflexivity | apply IH ].
Qed.
Lemma reply_code q now k : prun (reply_prog q now) k = step k (EReply q now).
Proof.
  unfold reply_prog. cbn [step]. unfold handle_reply. destruct (ConfigFromArtPollReply q) as [cfg|]; [ | reflexivity ]. cbn [bind]. destruct (_ && _); [ reflexivity | ]. destruct (_ && _); [ reflexivity | ].
  unfold node_prog, updateNode. cbn [Read prun]. rewrite find_code. destruct (find_ip k (C_IP cfg) (K_Nodes k)) as [[n|]|]; [ | | reflexivity ]; cbn [bind].
  - unfold known_prog. rewrite prun_Deref. unfold deref. destruct (K_heap k !! n) as [cn|] eqn:Hn; [ | reflexivity ]. cbn [bind].
    rewrite prun_del_out, prun_del_in. cbn [prun]. match goal with |- context [ at_node n ?g (set_in ?a ?b) ] => rewrite (at_node_eq n g (set_in a b) cn Hn) end. rewrite at_node_put, prun_ins_out, prun_ins_in. reflexivity.
  - unfold new_prog. cbn [prun]. rewrite prun_ins_out, prun_ins_in. reflexivity.
Qed.
Lemma code_step e k : e <> EStart -> prun (code e) k = step k e.
Proof. intros H. destruct e; [ apply reply_code | apply gc_code | apply send_code | apply tick_code | contradiction ]. Qed.

Lemma keeps_Read p : (forall k, keeps (p k)) -> keeps (Read p).
Proof. intros H. split; [ reflexivity | exact H ]. Qed.
Lemma keeps_Deref n p : (forall cn, keeps (p cn)) -> keeps (Deref n p).
Proof. intros H. apply keeps_Read. intros k. destruct (K_heap k !! n); [ apply H | exact I ]. Qed.
Lemma keeps_del_out ports next : keeps next -> keeps (del_out ports next).
Proof. intros H. induction ports; [ exact H | split; [ reflexivity | intros _; assumption ] ]. Qed.
Lemma keeps_del_in ports next : keeps next -> keeps (del_in ports next).
Proof. intros H. induction ports; [ exact H | split; [ reflexivity | intros _; assumption ] ]. Qed.
Lemma keeps_ins_out ports n next : keeps next -> keeps (ins_out ports n next).
Proof. intros H. induction ports; [ exact H | split; [ reflexivity | intros _; assumption ] ]. Qed.
Lemma keeps_ins_in ports n next : keeps next -> keeps (ins_in ports n next).
Proof. intros H. induction ports; [ exact H | split; [ reflexivity | intros _; assumption ] ]. Qed.
Lemma keeps_update n a now err next : keeps err -> keeps next -> keeps (update_prog n a now err next).
Proof.
  intros He Hn. apply keeps_Deref. intros cn. destruct (CN_DMXBuffer cn !! a); [ | exact He ]. split; [ reflexivity | ]. intros _. apply keeps_Deref. intros cn'.
  destruct (CN_DMXBuffer cn' !! a); [ | exact I ]. destruct (snd _); [ | exact He ]. split; [ reflexivity | ]. intros _. split; [ reflexivity | ]. intros _. apply keeps_Deref. intros ?. exact Hn.
Qed.
Lemma keeps_force n a now next : keeps next -> keeps (force_prog n a now next).
Proof. intros H. apply keeps_Deref. intros cn. destruct (CN_DMXBuffer cn !! a); [ | exact I ]. destruct (_ <? _)%Z; [ apply keeps_update; exact H | exact H ]. Qed.
Lemma keeps_stale fps n a now next : keeps next -> keeps (stale_prog fps n a now next).
Proof.
  intros H. apply keeps_Deref. intros cn. destruct (CN_DMXBuffer cn !! a); [ | exact I ]. destruct (_ && _); [ apply keeps_update; [ exact H | ] | ]; apply keeps_force; exact H.
Qed.
Lemma keeps_entries fps now order : keeps (entries_prog fps order now).
Proof.
  induction order as [|[a n] order IH]; [ exact I | ]. cbn [entries_prog]. apply keeps_Deref. intros cn. destruct (CN_DMXBuffer cn !! a); [ | split; [ reflexivity | intros _ ] ]; apply keeps_stale; exact IH.
Qed.
Lemma keeps_scan clock again is : (forall j, keeps (again j)) -> forall j, keeps (scan_prog clock j is again).
Proof.
  intros H. induction is as [|i is IH]; intros j; [ exact I | ]. cbn [scan_prog]. apply keeps_Read. intros k. destruct (nth_error (K_Nodes k) i); [ | exact I ]. apply keeps_Deref. intros cn.
  destruct (_ <? _)%Z; [ | apply IH ]. apply keeps_del_out, keeps_del_in. split; [ reflexivity | ]. intros _. apply H.
Qed.
Lemma keeps_start clock fuel : forall j, keeps (start_prog fuel clock j).
Proof. induction fuel as [|fuel IH]; intros j; [ exact I | ]. cbn [start_prog]. apply keeps_Read. intros k. apply keeps_scan. exact IH. Qed.
Lemma code_keeps e : keeps (code e).
Proof.
  destruct e as [q now|clock|dmx a|order now|]; cbn [code].
  - unfold reply_prog. destruct (ConfigFromArtPollReply q) as [cfg|]; [ | exact I ]. destruct (_ && _); [ exact I | ]. destruct (_ && _); [ exact I | ]. apply keeps_Read. intros k.
    assert (K : forall nodes, keeps (find_prog (C_IP cfg) nodes (known_prog cfg now) (new_prog cfg now))).
    { intros nodes. induction nodes as [|n nodes IH]; cbn [find_prog].
      - split; [ reflexivity | ]. intros k'. split; [ reflexivity | ]. intros _. apply keeps_ins_out, keeps_ins_in. exact I.
      - apply keeps_Deref. intros cn. destruct (eqbytes _ _); [ | exact IH ]. apply keeps_Deref. intros cn'. apply keeps_del_out, keeps_del_in. split; [ reflexivity | ]. intros _. split; [ reflexivity | ].
        intros _. apply keeps_ins_out, keeps_ins_in. exact I. }
    apply K.
  - apply keeps_Read. intros k. apply keeps_start.
  - apply keeps_Read. intros k. destruct (K_OutputAddress k !! a); [ | exact I ]. apply keeps_Deref. intros cn. destruct (CN_DMXBuffer cn !! a); [ | exact I ]. repeat split.
  - apply keeps_Read. intros k. apply keeps_entries.
  - exact I.
Qed.
(** The accesses of each operation, one after the other and without interruption, make the operation of the model; so the hypotheses about the body of a section are met by the program's code. *)
Theorem C94_code : forall e k, e <> EStart -> prun (code e) k = step k e /\ keeps (code e).
Proof. intros e k H. split; [ apply code_step; exact H | apply code_keeps ]. Qed.

(** * Steps of other goroutines do not depend on the tables *)
(** Program counters whose step involves the tables or the lock. *)
Definition involved (t : thread) : bool := locks t || match t with DL_push _ | U_start_ctl => true | _ => false end.
Lemma tables_irrelevant E s t c k b : involved t = false -> K_maxFPS k = K_maxFPS (S_tables s) ->
  tstep E (with_tables s k b) t c = after (fun s => with_tables s k b) (tstep E s t c).
Proof.
  intros Hi Hk. destruct t; try discriminate Hi; clear Hi; destruct c; try reflexivity;
    try solve [ assert (X : ticker_period k = ticker_period (S_tables s)) by (unfold ticker_period; rewrite Hk; reflexivity);
        cbn [tstep]; cbn [with_tables S_tables]; rewrite X; destruct (ticker_period (S_tables s)); reflexivity ]; frame_step.
Qed.
Lemma tables_kept E s t c s' t' sp o : involved t = false -> tstep E s t c = Next s' t' sp o -> S_tables s' = S_tables s /\ S_lock s' = S_lock s.
Proof. intros Hi H. tcases H; try discriminate Hi; split; reflexivity. Qed.
Lemma with_tables_twice s k b k' b' : with_tables (with_tables s k b) k' b' = with_tables s k' b'.
Proof. reflexivity. Qed.
Lemma with_tables_same s : with_tables s (S_tables s) (S_lock s) = s.
Proof. destruct s. reflexivity. Qed.
Lemma step_quiet_op t c e t' o k k' out : op_of t c = Some (e, t', o) -> step k e = Ret (k', out) -> out = [].
Proof.
  intros H Hs. apply step_quiet in Hs. destruct t; try discriminate H; destruct c; try discriminate H; injection H as <- <- <-; exact Hs.
Qed.
Lemma op_tstep E s t c e t' o k : op_of t c = Some (e, t', o) -> S_lock s = false -> step (S_tables s) e = Ret (k, []) ->
  tstep E s t c = Next (with_tables s k false) t' [] (OTable (S_tables s) e [] :: o).
Proof.
  intros H Hl Hs. destruct t; try discriminate H; destruct c; try discriminate H; injection H as <- <- <-; cbn [tstep]; rewrite Hl, Hs; reflexivity.
Qed.
Lemma op_locks t c r : op_of t c = Some r -> locks t = true.
Proof. destruct t; try discriminate; reflexivity. Qed.

(** * The simulation *)
(** What the finer state z says about the state y of the model. Inside an operation the model has not performed it yet; inside a tick the model has already changed the tables and is sending the
    frames. *)
Definition like (z : fsys) (y : sys) : Prop :=
  match F_in z with
  | None => F_sys z = y
  | Some (InOp i c k0 p) => exists t e t' o, S_tables (Y_sh y) = k0 /\ S_lock (Y_sh y) = false /\ Y_threads y !! i = Some t /\ op_of t c = Some (e, t', o) /\
      Y_threads (F_sys z) = Y_threads y /\ Y_sh (F_sys z) = with_tables (Y_sh y) (S_tables (Y_sh (F_sys z))) true /\
      keeps p /\ prun p (S_tables (Y_sh (F_sys z))) = step k0 e /\ K_maxFPS (S_tables (Y_sh (F_sys z))) = K_maxFPS k0
  | Some (InTick i p) => exists t t' out, S_lock (Y_sh y) = true /\ Y_threads (F_sys z) !! i = Some t' /\ Y_threads y !! i = Some t /\ Y_threads y = <[i := t]> (Y_threads (F_sys z)) /\
      Y_sh (F_sys z) = with_tables (Y_sh y) (S_tables (Y_sh (F_sys z))) true /\
      keeps p /\ prun p (S_tables (Y_sh (F_sys z))) = Ret (S_tables (Y_sh y), out) /\ K_maxFPS (S_tables (Y_sh (F_sys z))) = K_maxFPS (S_tables (Y_sh y)) /\
      ((t' = DL_push [] /\ t = DL_push out) \/ exists f g, t' = DL_pushing f [] g /\ t = DL_pushing f out g)
  end.
Lemma delivering_alone y i t j t' : lock_inv y -> Y_threads y !! i = Some t -> delivering t = 1%nat -> Y_threads y !! j = Some t' -> delivering t' = 1%nat -> i = j.
Proof.
  intros L Hi Di Hj Dj. destruct (decide (i = j)) as [ |Hne]; [ assumption | ]. exfalso. unfold lock_inv in L.
  pose proof (sum_insert delivering _ i t TDone Hi) as K. cbn in K. assert (Hj' : <[i := TDone]> (Y_threads y) !! j = Some t') by (rewrite list_lookup_insert_ne by exact Hne; exact Hj).
  pose proof (sum_ge delivering _ j t' Hj') as M. destruct (S_lock (Y_sh y)); lia.
Qed.
(** A step of another goroutine, or a call, while goroutine i is in a section. *)
Lemma other_exec E s ts i tf tc k l y' o : ts !! i = Some tc -> K_maxFPS k = K_maxFPS (S_tables s) ->
  (forall j t, j <> i -> ts !! j = Some t -> delivering t = 0%nat) ->
  match l with LRun j _ => j <> i /\ forall t, ts !! j = Some t -> locks t = false /\ t <> U_start_ctl | _ => True end ->
  exec E (mkSys (with_tables s k true) (<[i := tf]> ts)) l = RNext y' o ->
  exists s' ts', exec E (mkSys s ts) l = RNext (mkSys s' ts') o /\ y' = mkSys (with_tables s' k true) (<[i := tf]> ts') /\ S_tables s' = S_tables s /\ S_lock s' = S_lock s /\ ts' !! i = Some tc.
Proof.
  intros Hi Hk Hd Hl H. pose proof (lookup_lt_Some _ _ _ Hi) as Hlt.
  assert (X : forall t, <[i := tf]> ts ++ [t] = <[i := tf]> (ts ++ [t])) by (intros t; rewrite insert_app_l by exact Hlt; reflexivity).
  assert (Y : forall t, (ts ++ [t]) !! i = Some tc) by (intros t; rewrite lookup_app_l by exact Hlt; exact Hi).
  destruct l as [j c| | |dmx a|op f|op]; cbn [exec spawn Y_threads Y_sh] in *.
  - destruct Hl as [Hj Hl]. rewrite list_lookup_insert_ne in H by congruence. destruct (ts !! j) as [t|] eqn:Et; [ | discriminate H ]. destruct (Hl t eq_refl) as [L1 L2].
    assert (Hv : involved t = false). { unfold involved. rewrite L1. specialize (Hd j t Hj Et). destruct t; try reflexivity; [ discriminate Hd | contradiction ]. }
    rewrite (tables_irrelevant _ _ _ _ _ _ Hv Hk) in H. destruct (tstep E s t c) as [| |s' t' sp o'] eqn:Es; try discriminate H. cbn [after] in H. injection H as <- <-.
    destruct (tables_kept _ _ _ _ _ _ _ _ Hv Es) as [T1 T2]. eexists s', _. split; [ reflexivity | ]. split; [ | split; [ exact T1 | split; [ exact T2 | ] ] ].
    + rewrite list_insert_commute by exact Hj. rewrite insert_app_l by (rewrite insert_length; exact Hlt). reflexivity.
    + rewrite lookup_app_l by (rewrite insert_length; exact Hlt). rewrite list_lookup_insert_ne by exact Hj. exact Hi.
  - unfold spawn in *. cbn in H. injection H as <- <-. eexists s, _. split; [ reflexivity | ]. cbn. rewrite X. repeat split. apply Y.
  - unfold spawn in *. cbn in H. injection H as <- <-. eexists s, _. split; [ reflexivity | ]. cbn. rewrite X. repeat split. apply Y.
  - destruct (E_ctl E); [ | discriminate H ]. unfold spawn in *. cbn in H. injection H as <- <-. eexists s, _. split; [ reflexivity | ]. cbn. rewrite X. repeat split. apply Y.
  - destruct (E_ctl E); [ discriminate H | ]. injection H as <- <-. eexists _, _. split; [ reflexivity | ]. unfold RegisterCallback. cbn. destruct (S_shutdown s); repeat split; exact Hi.
  - destruct (E_ctl E); [ discriminate H | ]. injection H as <- <-. eexists _, _. split; [ reflexivity | ]. unfold DeregisterCallback. cbn. destruct (S_shutdown s); repeat split; exact Hi.
Qed.
Lemma insert_self {A} (l : list A) i x : l !! i = Some x -> <[i := x]> l = l.
Proof. apply list_insert_id. Qed.
Lemma label_op_ok i t c r : op_of t c = Some r -> label_ok (LRun i c).
Proof. destruct t; try discriminate; destruct c; try discriminate; intros _; exact I. Qed.
Lemma prun_keeps p : forall k k' out, keeps p -> prun p k = Ret (k', out) -> K_maxFPS k' = K_maxFPS k.
Proof.
  induction p as [| |f p IH|f p IH]; intros k k' out Hk H; cbn in *; [ congruence | discriminate | | ].
  - destruct Hk as [H1 H2]. rewrite <- (H1 k). exact (IH k _ _ _ (H2 k) H).
  - destruct (prun p k) as [[k1 o1]|] eqn:Ep; [ | discriminate H ]. injection H as <- <-. exact (IH _ _ _ Hk Ep).
Qed.
(** Every step of the finer model is a step of the model or none. *)
Lemma fstep_sim E z l z' o y : lock_inv y -> like z y -> fstep E z l z' o ->
  exists y', like z' y' /\ (l = [] /\ y' = y /\ o = [] \/ exists b, l = [b] /\ label_ok b /\ exec E y b = RNext y' o).
Proof.
  intros L K H. destruct H as
    [z l y' o Ho Hl He|sy i t c e t' o p Hi Hop Hlk Hk Hp|sy i now order p k out Hi Hord Hlk Hk Hp Hr|sy i t c k0 f p Hi|sy i f p Hi|sy i f p g Hi Hg|sy i f p g ch q Hi Hch Hq|sy i t c k0 e t' o Hi Hop|sy i Hi].
  - destruct z as [sy [[i c k0 p|i p]|]]; cbn [like F_in F_sys] in *.
    + destruct K as (t & e & t' & oo & K1 & K2 & K3 & K4 & K5 & K6 & K7 & K8 & K9).
      destruct sy as [s ts]. cbn [Y_sh Y_threads] in *. destruct y as [sc tc]. cbn [Y_sh Y_threads] in *. subst ts.
      rewrite K6 in He. rewrite <- (insert_self tc i t K3) in He at 1.
      destruct (other_exec E sc tc i t t (S_tables s) l y' o K3) as (s' & ts' & X1 & X2 & X3 & X4 & X5); [ congruence | | | exact He | ].
      { intros j tj Hj Ej. unfold lock_inv in L. cbn in L. rewrite K2 in L. pose proof (sum_ge delivering _ _ _ Ej). lia. }
      { destruct l; try exact I. cbn in Ho. destruct (tc !! i0) as [tj|] eqn:Ej; [ | split; [ | intros ? X; discriminate X ] ].
        - destruct Ho as (O1 & O2 & O3). split; [ exact O2 | ]. intros tj' X. injection X as <-. split; assumption.
        - intros ->. congruence. }
      exists (mkSys s' ts'). split; [ | right; exists l; split; [ reflexivity | split; [ exact Hl | exact X1 ] ] ].
      subst y'. cbn [Y_sh Y_threads]. exists t, e, t', oo. cbn. rewrite (insert_self ts' i t X5). repeat split; try assumption; congruence.
    + destruct K as (tc & tf & out & K1 & K2 & K3 & K4 & K5 & K6 & K7 & K8 & K9).
      destruct sy as [s ts]. cbn [Y_sh Y_threads] in *. destruct y as [sc cs]. cbn [Y_sh Y_threads] in *.
      assert (Hts : ts = <[i := tf]> cs) by (rewrite K4, list_insert_insert, insert_self by exact K2; reflexivity).
      rewrite K5, Hts in He. assert (Dt : delivering tc = 1%nat) by (destruct K9 as [[_ ->]|(f & g & _ & ->)]; reflexivity).
      destruct (other_exec E sc cs i tf tc (S_tables s) l y' o K3) as (s' & ts' & X1 & X2 & X3 & X4 & X5); [ exact K8 | | | exact He | ].
      { intros j tj Hj Ej. destruct (delivering tj) as [|[|n]] eqn:Dj; [ reflexivity | | destruct tj; discriminate Dj ]. exfalso. apply Hj. symmetry. exact (delivering_alone _ _ _ _ _ L K3 Dt Ej Dj). }
      { destruct l; try exact I. cbn in Ho. rewrite Hts in Ho. destruct (decide (i0 = i)) as [->|Hne].
        - rewrite list_lookup_insert in Ho by exact (lookup_lt_Some _ _ _ K3). destruct Ho as (_ & O2 & _). contradiction.
        - rewrite list_lookup_insert_ne in Ho by congruence. split; [ exact Hne | ]. intros tj Ej. rewrite Ej in Ho. tauto. }
      exists (mkSys s' ts'). split; [ | right; exists l; split; [ reflexivity | split; [ exact Hl | exact X1 ] ] ].
      subst y'. exists tc, tf, out. cbn. repeat split; try assumption; try congruence.
      * rewrite list_lookup_insert; [ reflexivity | exact (lookup_lt_Some _ _ _ X5) ].
      * rewrite list_insert_insert, insert_self by exact X5. reflexivity.
    + subst y. exists y'. split; [ reflexivity | ]. right. exists l. repeat split; assumption.
  - cbn in K. subst y. exists sy. split; [ | left; repeat split ]. exists t, e, t', o. cbn. rewrite (insert_self _ _ _ Hi). repeat split; assumption.
  - cbn in K. subst y. rewrite Hp in Hr. exists (mkSys (with_tables (Y_sh sy) k true) (<[i := DL_push out]> (Y_threads sy))). split.
    + exists (DL_push out), (DL_push []), out. cbn. pose proof (lookup_lt_Some _ _ _ Hi) as Hlt. rewrite !list_lookup_insert by exact Hlt. rewrite list_insert_insert.
      repeat split; try assumption; [ congruence | symmetry; apply (prun_keeps p _ _ out Hk); congruence | left; split; reflexivity ].
    + right. eexists. split; [ reflexivity | ]. split; [ exact I | ]. cbn [exec]. rewrite Hi. cbn [tstep]. rewrite Hlk. rewrite bool_decide_eq_true_2 by exact Hord. rewrite Hr. rewrite app_nil_r. reflexivity.
  - cbn in K. destruct K as (t1 & e & t' & o & K1 & K2 & K3 & K4 & K5 & K6 & K7 & K8 & K9). exists y. split; [ | left; repeat split ]. exists t1, e, t', o. cbn in *. destruct K7 as [F1 F2].
    rewrite (insert_self _ _ _ Hi). repeat split; try assumption; [ | apply F2 | rewrite F1; exact K9 ]. rewrite K6. reflexivity.
  - cbn in K. destruct K as (t1 & t' & out & K1 & K2 & K3 & K4 & K5 & K6 & K7 & K8 & K9). exists y. split; [ | left; repeat split ]. exists t1, t', out. cbn in *. destruct K6 as [F1 F2].
    rewrite Hi in K2. injection K2 as <-. rewrite (insert_self _ _ _ Hi). repeat split; try assumption; [ | apply F2 | rewrite F1; exact K8 ]. rewrite K5. reflexivity.
  - cbn in K. destruct K as (t1 & t' & out & K1 & K2 & K3 & K4 & K5 & K6 & K7 & K8 & K9). cbn in K6, K7. rewrite Hi in K2. injection K2 as <-.
    destruct K9 as [[_ ->]|(f' & g' & X & _)]; [ | discriminate X ]. destruct (prun p (S_tables (Y_sh sy))) as [[k' out']|] eqn:Ep; [ | discriminate K7 ]. cbn in K7. injection K7 as -> <-.
    exists (mkSys (Y_sh y) (<[i := DL_pushing f out' g]> (Y_threads y))). split.
    + exists (DL_pushing f out' g), (DL_pushing f [] g), out'. cbn. rewrite !list_lookup_insert by (first [ exact (lookup_lt_Some _ _ _ Hi) | exact (lookup_lt_Some _ _ _ K3) ]).
      rewrite list_insert_insert. repeat split; try assumption; [ rewrite K4, list_insert_insert; reflexivity | right; eauto ].
    + right. eexists. split; [ reflexivity | ]. split; [ exact I | ]. cbn [exec]. rewrite K3. cbn [tstep]. unfold eval_gen. rewrite K5 in Hg. cbn in Hg. rewrite Hg, app_nil_r. reflexivity.
  - cbn in K. destruct K as (t1 & t' & out & K1 & K2 & K3 & K4 & K5 & K6 & K7 & K8 & K9). rewrite Hi in K2. injection K2 as <-.
    destruct K9 as [[X _]|(f' & g' & X & ->)]; [ discriminate X | ]. injection X as <- <-.
    exists (mkSys (upd_gen (Y_sh y) g (set_send ch q)) (<[i := DL_push out]> (Y_threads y))). split.
    + exists (DL_push out), (DL_push []), out. cbn. rewrite !list_lookup_insert by (first [ exact (lookup_lt_Some _ _ _ Hi) | exact (lookup_lt_Some _ _ _ K3) ]).
      rewrite list_insert_insert. repeat split; try assumption; [ rewrite K4, list_insert_insert; reflexivity | rewrite K5; reflexivity | left; split; reflexivity ].
    + right. eexists. split; [ reflexivity | ]. split; [ exact I | ]. cbn [exec]. rewrite K3. cbn [tstep]. rewrite K5 in Hch. cbn in Hch. rewrite Hch, Hq, app_nil_r. reflexivity.
  - cbn in K. destruct K as (t1 & e1 & t1' & o1 & K1 & K2 & K3 & K4 & K5 & K6 & K7 & K8 & K9). rewrite K5 in Hi. rewrite Hi in K3. injection K3 as <-. rewrite Hop in K4. injection K4 as <- <- <-.
    exists (mkSys (with_tables (Y_sh y) (S_tables (Y_sh sy)) false) (<[i := t']> (Y_threads y))). split.
    + cbn. unfold locked. rewrite K5. f_equal. rewrite K6. reflexivity.
    + right. exists (LRun i c). split; [ reflexivity | ]. split; [ exact (label_op_ok _ _ _ _ Hop) | ]. cbn [exec]. rewrite Hi. cbn in K8. rewrite <- K1 in K8.
      rewrite (op_tstep _ _ _ _ _ _ _ _ Hop K2 (eq_sym K8)). rewrite app_nil_r, K1. reflexivity.
  - cbn in K. destruct K as (t1 & t' & out & K1 & K2 & K3 & K4 & K5 & K6 & K7 & K8 & K9). rewrite Hi in K2. injection K2 as <-. injection K7 as K7 <-.
    destruct K9 as [[_ ->]|(f' & g' & X & _)]; [ | discriminate X ]. eexists. split; [ reflexivity | ]. right. eexists. split; [ reflexivity | ]. split; [ exact I | ]. cbn [exec]. rewrite K3. cbn [tstep].
    rewrite app_nil_r. unfold locked. rewrite K4, list_insert_insert. rewrite K5, K7. reflexivity.
Qed.
(** * The theorems *)
Lemma fruns_sim E ls z tr : fruns E ls z tr -> exists y, runs E ls y tr /\ like z y.
Proof.
  unfold fruns. remember (mkF (init E) None) as z0 eqn:E0. intros H. induction H as [z|z ls z1 tr l z2 o H IH Hs]; subst.
  - exists (init E). split; [ constructor | reflexivity ].
  - destruct (IH eq_refl) as (y & R & K). destruct (fstep_sim _ _ _ _ _ _ (proj1 (frames_in_order _ _ _ _ R)) K Hs) as (y' & K' & [(-> & -> & ->)|(b & -> & Hb & He)]).
    + exists y. rewrite !app_nil_r. split; assumption.
    + exists y'. split; [ | exact K' ]. eapply steps_snoc; eassumption.
Qed.
(** Every execution of the finer model is, as far as can be observed, one of the model: same calls, same datagrams and clock readings, same events in the same order. Whenever no section is open, the
    state is that of the model. *)
Theorem C94_atomic : forall E ls z tr, fruns E ls z tr -> exists y, runs E ls y tr /\ (F_in z = None -> y = F_sys z).
Proof.
  intros E ls z tr H. destruct (fruns_sim _ _ _ _ H) as (y & R & K). exists y. split; [ exact R | ]. intros Hn. unfold like in K. rewrite Hn in K. symmetry. exact K.
Qed.
(** So whatever is true of the labels and events of all runs of the model is true of the finer model. *)
Theorem C94_transfer : forall E (P : list label -> list obs -> Prop), (forall ls y tr, runs E ls y tr -> P ls tr) -> forall ls z tr, fruns E ls z tr -> P ls tr.
Proof. intros E P H ls z tr R. destruct (C94_atomic _ _ _ _ R) as (y & R' & _). exact (H _ _ _ R'). Qed.

Definition rest (x : section) : prog := match x with InOp _ _ _ p | InTick _ p => p end.
Lemma op_panics E s t c e t' o : op_of t c = Some (e, t', o) -> S_lock s = false -> step (S_tables s) e = Panic -> tstep E s t c = Crash.
Proof. intros H Hl Hs. destruct t; try discriminate H; destruct c; try discriminate H; injection H as <- <- <-; cbn [tstep]; rewrite Hl, Hs; reflexivity. Qed.
Lemma section_returns E ls z tr x : fruns E ls z tr -> F_in z = Some x -> exists k out, prun (rest x) (S_tables (Y_sh (F_sys z))) = Ret (k, out) /\ match x with InOp _ _ _ _ => out = [] | _ => True end.
Proof.
  intros H Hx. destruct (fruns_sim _ _ _ _ H) as (y & R & K). unfold like in K. rewrite Hx in K. destruct x as [i c k0 p|i p]; cbn [rest].
  - destruct K as (t & e & t' & o & K1 & K2 & K3 & K4 & K5 & K6 & K7 & K8 & K9). rewrite K8. destruct (step k0 e) as [[k out]|] eqn:Es.
    + exists k, out. split; [ reflexivity | ]. exact (step_quiet_op _ _ _ _ _ _ _ _ K4 Es).
    + exfalso. subst k0. pose proof (runs_ok _ _ _ _ R) as OK. destruct (Forall_lookup_1 _ _ _ _ (sys_threads _ _ _ OK) K3) as [T1 T2].
      destruct (tstep_crash _ _ _ _ _ (sys_shared _ _ _ OK) T1 T2 (op_panics E _ _ _ _ _ _ K4 K2 Es)) as [C _]. destruct t; try discriminate K4; exact C.
  - destruct K as (t & t' & out & K1 & K2 & K3 & K4 & K5 & K6 & K7 & K8 & K9). rewrite K7. eauto.
Qed.
(** The goroutine in a section never panics there, whatever the others do meanwhile. *)
Theorem C94_no_panic : forall E ls z tr x, fruns E ls z tr -> F_in z = Some x -> rest x <> Fail.
Proof. intros E ls z tr x H Hx Hf. destruct (section_returns _ _ _ _ _ H Hx) as (k & out & Hp & _). rewrite Hf in Hp. discriminate Hp. Qed.

Lemma fsteps_app E z ls z1 tr ls' z2 tr' : fsteps E z ls z1 tr -> fsteps E z1 ls' z2 tr' -> fsteps E z (ls ++ ls') z2 (tr ++ tr').
Proof.
  intros H1 H2. induction H2 as [z1|z1 ls' z2 tr' l z3 o H2 IH Hs]; [ rewrite !app_nil_r; exact H1 | ]. rewrite !app_assoc. econstructor; [ apply IH; exact H1 | exact Hs ].
Qed.
Lemma fsteps_one E z l z' o : fstep E z l z' o -> fsteps E z l z' o.
Proof. intros H. change l with ([] ++ l). change o with ([] ++ o). econstructor; [ constructor | exact H ]. Qed.
Lemma fsteps_cons E z l z1 o ls z2 tr : fstep E z l z1 o -> fsteps E z1 ls z2 tr -> fsteps E z (l ++ ls) z2 (o ++ tr).
Proof. intros H1 H2. exact (fsteps_app _ _ _ _ _ _ _ _ (fsteps_one _ _ _ _ _ H1) H2). Qed.
(** The steps of the goroutine in an operation, alone. *)
Lemma op_alone E i t c k0 e t' o p : op_of t c = Some (e, t', o) -> forall y k, Y_threads y !! i = Some t -> prun p (S_tables (Y_sh y)) = Ret (k, []) ->
  fsteps E (mkF y (Some (InOp i c k0 p))) [LRun i c] (mkF (locked y k false i t') None) (OTable k0 e [] :: o).
Proof.
  intros Hop. induction p as [| |f p IH|f p IH]; intros y k Hi Hp; cbn in Hp.
  - injection Hp as <-. apply fsteps_one. apply f_leave_op with (t := t); assumption.
  - discriminate Hp.
  - change [LRun i c] with ([] ++ [LRun i c]). change (OTable k0 e [] :: o) with ([] ++ OTable k0 e [] :: o). eapply fsteps_cons; [ exact (f_act_op _ _ _ _ _ _ _ _ Hi) | ].
    assert (Hi' : Y_threads (locked y (f (S_tables (Y_sh y))) true i t) !! i = Some t) by (cbn; apply list_lookup_insert; exact (lookup_lt_Some _ _ _ Hi)).
    specialize (IH (S_tables (Y_sh y)) (locked y (f (S_tables (Y_sh y))) true i t) k Hi' Hp). unfold locked in IH at 2. cbn in IH. rewrite (insert_self _ _ _ Hi) in IH. exact IH.
  - exfalso. destruct (prun p _) as [[k1 o1]|]; [ discriminate Hp | discriminate Hp ].
Qed.
(** Steps of the goroutine in a tick up to its next send or the end of the section. *)
Definition at_send (p : prog) : Prop := match p with Act _ _ => False | _ => True end.
Lemma tick_alone E i p : forall y k out, Y_threads y !! i = Some (DL_push []) -> prun p (S_tables (Y_sh y)) = Ret (k, out) -> S_lock (Y_sh y) = true -> keeps p -> exists p' k',
  fsteps E (mkF y (Some (InTick i p))) [] (mkF (locked y k' true i (DL_push [])) (Some (InTick i p'))) [] /\ at_send p' /\ keeps p' /\ prun p' k' = Ret (k, out).
Proof.
  induction p as [| |f p IH|f p IH]; intros y k out Hi Hp Hl Hk.
  - exists Done, (S_tables (Y_sh y)). unfold locked. rewrite <- Hl, with_tables_same, (insert_self _ _ _ Hi). destruct y. split; [ constructor | repeat split; exact Hp ].
  - discriminate Hp.
  - cbn in Hp. destruct Hk as [Hk1 Hk2].
    assert (Hi' : Y_threads (locked y (f (S_tables (Y_sh y))) true i (DL_push [])) !! i = Some (DL_push [])) by (cbn; apply list_lookup_insert; exact (lookup_lt_Some _ _ _ Hi)).
    destruct (IH (S_tables (Y_sh y)) _ k out Hi' Hp eq_refl (Hk2 _)) as (p' & k' & P1 & P2 & P3 & P4). exists p', k'. split; [ | repeat split; assumption ].
    change (@nil label) with (@nil label ++ []). change (@nil obs) with (@nil obs ++ []). eapply fsteps_cons; [ exact (f_act_tick _ _ _ _ _ Hi) | ].
    unfold locked in P1 at 2. cbn in P1. rewrite (insert_self _ _ _ Hi) in P1. exact P1.
  - exists (Push f p), (S_tables (Y_sh y)). unfold locked. rewrite <- Hl, with_tables_same, (insert_self _ _ _ Hi). destruct y. split; [ constructor | repeat split; assumption ].
Qed.
(** A goroutine in an operation can finish it by its own steps: it waits for nobody. *)
Theorem C94_closes : forall E ls z tr i c k0 p, fruns E ls z tr -> F_in z = Some (InOp i c k0 p) -> exists z' tr', fsteps E z [LRun i c] z' tr' /\ F_in z' = None.
Proof.
  intros E ls z tr i c k0 p H Hx. destruct (section_returns _ _ _ _ _ H Hx) as (k & out & Hp & ->). destruct (fruns_sim _ _ _ _ H) as (y & R & K). unfold like in K. rewrite Hx in K.
  destruct K as (t & e & t' & o & K1 & K2 & K3 & K4 & K5 & K6 & K7 & K8 & K9). destruct z as [sy x]. cbn in *. subst x. rewrite <- K5 in K3.
  eexists _, _. split; [ exact (op_alone E i t c k0 e t' o p K4 sy k K3 Hp) | reflexivity ].
Qed.
(** A goroutine in a tick waits for nothing but room in sendCh: by its own steps it finishes the section or gets to a send on a full channel. *)
Definition at_full (z : fsys) (i : nat) : Prop := exists f g ch, Y_threads (F_sys z) !! i = Some (DL_pushing f [] g) /\ S_gens (Y_sh (F_sys z)) !! g = Some ch /\ (10 <= length (Q_send ch))%nat.
Definition stays (E : env) (i : nat) (z : fsys) : Prop := exists ls z' tr, fsteps E z ls z' tr /\ Forall (eq (LRun i CGo)) ls /\ (F_in z' = None \/ at_full z' i).
Lemma stays_step E i z l z1 o : fsteps E z l z1 o -> Forall (eq (LRun i CGo)) l -> stays E i z1 -> stays E i z.
Proof. intros H Hl (ls & z' & tr & H1 & H2 & H3). exists (l ++ ls), z', (o ++ tr). split; [ eapply fsteps_app; eassumption | ]. split; [ apply Forall_app_2; assumption | exact H3 ]. Qed.
Lemma tick_stays E i : forall out y p k, Y_threads y !! i = Some (DL_push []) -> prun p (S_tables (Y_sh y)) = Ret (k, out) -> S_lock (Y_sh y) = true -> keeps p -> has (S_gens (Y_sh y)) ->
  stays E i (mkF y (Some (InTick i p))).
Proof.
  induction out as [|f out IH]; intros y p k Hi Hp Hl Hk Hg; destruct (tick_alone E i p y k _ Hi Hp Hl Hk) as (p' & k' & P1 & P2 & P3 & P4);
    apply (stays_step _ _ _ _ _ _ P1 (List.Forall_nil _)); clear P1; pose proof (lookup_lt_Some _ _ _ Hi) as Hlt;
    assert (Hi' : Y_threads (locked y k' true i (DL_push [])) !! i = Some (DL_push [])) by (cbn; apply list_lookup_insert; exact Hlt).
  - destruct p' as [| |g p'|f p']; try contradiction; try discriminate P4; [ | cbn in P4; destruct (prun p' k') as [[? ?]|]; discriminate P4 ].
    eexists _, _, _. split; [ apply fsteps_one; apply f_leave_tick; exact Hi' | ]. split; [ repeat constructor | left; reflexivity ].
  - destruct p' as [| |g p'|f' p']; try contradiction; try discriminate P4. cbn in P4. destruct (prun p' k') as [[k1 o1]|] eqn:Ep; [ | discriminate P4 ]. injection P4 as -> -> ->.
    destruct (last_index_has _ Hg) as (g & ch & G1 & G2).
    eapply stays_step; [ apply fsteps_one; eapply f_chan; [ exact Hi' | exact G1 ] | repeat constructor | ].
    destruct (push (Q_send ch) (KDmx, f)) as [q|] eqn:Hq.
    + eapply stays_step; [ apply fsteps_one; eapply f_push; [ cbn; apply list_lookup_insert; rewrite insert_length; exact Hlt | exact G2 | exact Hq ] | repeat constructor | ].
      eapply (IH _ p' k); [ cbn; apply list_lookup_insert; rewrite !insert_length; exact Hlt | exact Ep | reflexivity | exact P3 | unfold has in *; cbn; rewrite insert_length; exact Hg ].
    + eexists _, _, _. split; [ constructor | ]. split; [ constructor | ]. right. exists f, g, ch. cbn. split; [ apply list_lookup_insert; rewrite insert_length; exact Hlt | ]. split; [ exact G2 | ].
      unfold push, chan_cap in Hq. destruct (Nat.ltb_spec (length (Q_send ch)) 10); [ discriminate Hq | assumption ].
Qed.
Theorem C94_tick_waits : forall E ls z tr i p, fruns E ls z tr -> F_in z = Some (InTick i p) -> exists ls' z' tr', fsteps E z ls' z' tr' /\ Forall (eq (LRun i CGo)) ls' /\ (F_in z' = None \/ at_full z' i).
Proof.
  intros E ls z tr i p H Hx. destruct (fruns_sim _ _ _ _ H) as (y & R & K). unfold like in K. rewrite Hx in K. destruct K as (t & t' & out & K1 & K2 & K3 & K4 & K5 & K6 & K7 & K8 & K9).
  pose proof (runs_ok _ _ _ _ R) as OK. destruct (Forall_lookup_1 _ _ _ _ (sys_threads _ _ _ OK) K3) as [_ T2]. destruct z as [sy x]. cbn in *. subst x.
  assert (L : S_lock (Y_sh sy) = true) by (rewrite K5; reflexivity). assert (G : S_gens (Y_sh sy) = S_gens (Y_sh y)) by (rewrite K5; reflexivity).
  destruct K9 as [[-> ->]|(f & g & -> & ->)].
  - apply (tick_stays E i out sy p _ K2 K7 L K6). rewrite G. exact (proj1 T2).
  - destruct T2 as [T2 _]. rewrite <- G in T2. destruct (lookup_lt_is_Some_2 _ _ T2) as [ch Hch]. destruct (push (Q_send ch) (KDmx, f)) as [q|] eqn:Hq.
    + eapply stays_step; [ apply fsteps_one; eapply f_push; eassumption | repeat constructor | ]. pose proof (lookup_lt_Some _ _ _ K2) as Hlt.
      apply (tick_stays E i out _ p (S_tables (Y_sh y))); [ cbn; apply list_lookup_insert; exact Hlt | exact K7 | exact L | exact K6 | unfold has; cbn; rewrite insert_length; lia ].
    + eexists _, _, _. split; [ constructor | ]. split; [ constructor | ]. right. exists f, g, ch. cbn. split; [ exact K2 | ]. split; [ exact Hch | ].
      unfold push, chan_cap in Hq. destruct (Nat.ltb_spec (length (Q_send ch)) 10); [ discriminate Hq | assumption ].
Qed.

(** * The other direction *)
Lemma other_exec_rev E s ts i tf tc k l s' ts' o : ts !! i = Some tc -> K_maxFPS k = K_maxFPS (S_tables s) ->
  (forall j t, j <> i -> ts !! j = Some t -> delivering t = 0%nat) ->
  match l with LRun j _ => j <> i /\ forall t, ts !! j = Some t -> locks t = false /\ t <> U_start_ctl | _ => True end ->
  exec E (mkSys s ts) l = RNext (mkSys s' ts') o ->
  exec E (mkSys (with_tables s k true) (<[i := tf]> ts)) l = RNext (mkSys (with_tables s' k true) (<[i := tf]> ts')) o /\ S_tables s' = S_tables s /\ S_lock s' = S_lock s /\ ts' !! i = Some tc.
Proof.
  intros Hi Hk Hd Hl H. assert (X : exists y' o', exec E (mkSys (with_tables s k true) (<[i := tf]> ts)) l = RNext y' o').
  { destruct l as [j c| | |dmx a|op f|op]; cbn [exec Y_threads Y_sh] in *.
    - destruct Hl as [Hj Hl]. rewrite list_lookup_insert_ne by congruence. destruct (ts !! j) as [t|] eqn:Et; [ | discriminate H ]. destruct (Hl t eq_refl) as [L1 L2].
      assert (Hv : involved t = false). { unfold involved. rewrite L1. specialize (Hd j t Hj Et). destruct t; try reflexivity; [ discriminate Hd | contradiction ]. }
      rewrite (tables_irrelevant _ _ _ _ _ _ Hv Hk). destruct (tstep E s t c); try discriminate H. cbn. eauto.
    - unfold spawn. eauto.
    - unfold spawn. eauto.
    - destruct (E_ctl E); [ unfold spawn; eauto | discriminate H ].
    - destruct (E_ctl E); [ discriminate H | eauto ].
    - destruct (E_ctl E); [ discriminate H | eauto ]. }
  destruct X as (y1 & o1 & X). destruct (other_exec _ _ _ _ _ _ _ _ _ _ Hi Hk Hd Hl X) as (s2 & ts2 & X1 & X2 & X3 & X4 & X5). rewrite H in X1. injection X1 as -> -> ->. subst y1. auto.
Qed.
(** In the run with these labels no step of Start of a controller (controller.go:121-123) is made while c.nodeLock is held. *)
Definition starts_unlocked (E : env) (ls : list label) : Prop :=
  forall ls1 i c ls2 y tr, ls = ls1 ++ LRun i c :: ls2 -> runs E ls1 y tr -> Y_threads y !! i = Some U_start_ctl -> S_lock (Y_sh y) = false.
Definition settled (z : fsys) (y : sys) : Prop :=
  like z y /\ match F_in z with
              | None => S_lock (Y_sh y) = false
              | Some (InOp _ _ _ _) => False
              | Some (InTick i p) => Y_threads (F_sys z) !! i = Some (DL_push []) -> at_send p
              end.
Lemma locks_blocked E s t c : locks t = true -> S_lock s = true -> tstep E s t c = Blocked.
Proof. intros H Hl. destruct t; try discriminate H; destruct c; cbn; rewrite ?Hl; reflexivity. Qed.
Lemma op_step E s t c s' t' sp o : locks t = true -> (forall now, t <> DL_lock now) -> tstep E s t c = Next s' t' sp o ->
  exists e oo k, op_of t c = Some (e, t', oo) /\ S_lock s = false /\ step (S_tables s) e = Ret (k, []) /\ s' = with_tables s k false /\ sp = [] /\ o = OTable (S_tables s) e [] :: oo /\ e <> EStart.
Proof.
  intros Hl Hn H. destruct t; try discriminate Hl; try (exfalso; eapply Hn; reflexivity); destruct c; try discriminate H; cbn [tstep] in H; destruct (S_lock s); try discriminate H;
    match type of H with context [ step (S_tables s) ?e ] => destruct (step (S_tables s) e) as [[k out]|] eqn:Es; [ | discriminate H ]; pose proof (step_quiet _ _ _ _ Es) as Q; cbn in Q; subst out end;
    injection H as <- <- <- <-; eexists _, _, _; (split; [ reflexivity | ]); repeat split; try assumption; discriminate.
Qed.
Lemma settle_tick E i y kc out tt tc p : Y_threads tt !! i = Some (DL_push []) -> Y_sh tt = with_tables (Y_sh y) (S_tables (Y_sh tt)) true -> S_lock (Y_sh y) = true -> Y_threads y !! i = Some tc ->
  Y_threads y = <[i := tc]> (Y_threads tt) -> tc = DL_push out -> keeps p -> prun p (S_tables (Y_sh tt)) = Ret (kc, out) -> kc = S_tables (Y_sh y) ->
  exists z', fsteps E (mkF tt (Some (InTick i p))) [] z' [] /\ settled z' y.
Proof.
  intros Hi Hs Hl Hc Ht -> Hk Hp ->. assert (L : S_lock (Y_sh tt) = true) by (rewrite Hs; reflexivity).
  destruct (tick_alone E i p tt _ _ Hi Hp L Hk) as (p' & k' & P1 & P2 & P3 & P4). eexists. split; [ exact P1 | ]. split; [ | intros _; exact P2 ].
  exists (DL_push out), (DL_push []), out. cbn. rewrite list_lookup_insert by exact (lookup_lt_Some _ _ _ Hi). rewrite list_insert_insert. repeat split; try assumption; [ rewrite Hs; reflexivity | | left; split; reflexivity ].
  rewrite <- (prun_keeps p' _ _ _ P3 P4). reflexivity.
Qed.
Lemma exec_settled E y z l y' o : lock_inv y -> settled z y -> label_ok l -> exec E y l = RNext y' o ->
  (forall i c, l = LRun i c -> Y_threads y !! i = Some U_start_ctl -> S_lock (Y_sh y) = false) ->
  exists z', fsteps E z [l] z' o /\ settled z' y'.
Proof.
  intros L [K N] Hl He Hst. destruct z as [sy [[i c k0 p|i p]|]]; cbn [F_in F_sys] in *; [ contradiction | | ].
  - (* a tick is open *)
    destruct K as (tc & tf & out & K1 & K2 & K3 & K4 & K5 & K6 & K7 & K8 & K9). cbn [F_sys] in *. pose proof (lookup_lt_Some _ _ _ K2) as Hlt. pose proof (lookup_lt_Some _ _ _ K3) as Hlt'.
    assert (Lf : S_lock (Y_sh sy) = true) by (rewrite K5; reflexivity). assert (Gf : S_gens (Y_sh sy) = S_gens (Y_sh y)) by (rewrite K5; reflexivity).
    assert (Dt : delivering tc = 1%nat) by (destruct K9 as [[_ ->]|(f & g & _ & ->)]; reflexivity).
    assert (Hc : (exists c, l = LRun i c) \/ forall c, l <> LRun i c).
    { destruct l as [j c| | | | | ]; try (right; discriminate). destruct (decide (j = i)) as [->|Hj]; [ left; eauto | right; intros c'; congruence ]. }
    destruct Hc as [[c ->]|Hj].
    + cbn [exec] in He. rewrite K3 in He. destruct K9 as [[-> ->]|(f & g & -> & ->)].
      * destruct out as [|f out].
        -- destruct c; try discriminate He. cbn [tstep] in He. injection He as <- <-. rewrite app_nil_r.
           specialize (N K2). destruct p as [| |g p|f p]; try contradiction; try discriminate K7; [ | cbn in K7; destruct (prun p _) as [[? ?]|]; discriminate K7 ]. injection K7 as K7.
           eexists. split; [ apply fsteps_one; apply f_leave_tick; exact K2 | ]. split; [ | reflexivity ]. cbn. unfold locked. rewrite K4, list_insert_insert, K5, K7. reflexivity.
        -- destruct c; try discriminate He. cbn [tstep] in He. unfold eval_gen in He. destruct (last_index (S_gens (Y_sh y))) as [g|] eqn:Hg; [ | discriminate He ]. injection He as <- <-. rewrite app_nil_r.
           specialize (N K2). destruct p as [| |g' p|f' p]; try contradiction; try discriminate K7. cbn in K7. destruct (prun p _) as [[k1 o1]|] eqn:Ep; [ | discriminate K7 ]. injection K7 as -> -> ->.
           eexists. split; [ apply fsteps_one; eapply f_chan; [ exact K2 | rewrite Gf; exact Hg ] | ]. split; [ | cbn; rewrite list_lookup_insert by exact Hlt; intros X; discriminate X ].
           exists (DL_pushing f out g), (DL_pushing f [] g), out. cbn. rewrite !list_lookup_insert by (first [ exact Hlt | exact Hlt' ]). rewrite list_insert_insert.
           repeat split; try assumption; [ rewrite K4, list_insert_insert; reflexivity | right; eauto ].
      * destruct c; try discriminate He. cbn [tstep] in He. destruct (S_gens (Y_sh y) !! g) as [ch|] eqn:Hch; [ | discriminate He ]. destruct (push (Q_send ch) (KDmx, f)) as [q|] eqn:Hq; [ | discriminate He ].
        injection He as <- <-. rewrite app_nil_r.
        destruct (settle_tick E i (mkSys (upd_gen (Y_sh y) g (set_send ch q)) (<[i := DL_push out]> (Y_threads y))) (S_tables (Y_sh y)) out
          (mkSys (upd_gen (Y_sh sy) g (set_send ch q)) (<[i := DL_push []]> (Y_threads sy))) (DL_push out) p) as (z' & Z1 & Z2); try reflexivity; try assumption.
        -- cbn. apply list_lookup_insert. exact Hlt.
        -- cbn. rewrite K5. reflexivity.
        -- cbn. apply list_lookup_insert. exact Hlt'.
        -- cbn. rewrite list_insert_insert, K4, list_insert_insert. reflexivity.
        -- exists z'. split; [ | exact Z2 ]. change [LRun i CGo] with ([LRun i CGo] ++ []). change [OQueued (KDmx, f)] with ([OQueued (KDmx, f)] ++ []). eapply fsteps_cons; [ | exact Z1 ].
           eapply f_push; [ exact K2 | rewrite Gf; exact Hch | exact Hq ].
    + destruct y as [s ts]. destruct y' as [s' ts']. cbn [Y_sh Y_threads] in *.
      assert (Ets : Y_threads sy = <[i := tf]> ts) by (rewrite K4, list_insert_insert, insert_self by exact K2; reflexivity).
      assert (Ho : match l with LRun j _ => j <> i /\ forall t, ts !! j = Some t -> locks t = false /\ t <> U_start_ctl | _ => True end).
      { destruct l as [j c| | | | | ]; try exact I. assert (Hne : j <> i) by (intros ->; exact (Hj c eq_refl)). split; [ exact Hne | ]. intros t Et. split.
        - destruct (locks t) eqn:Elk; [ | reflexivity ]. exfalso. cbn [exec Y_threads Y_sh] in He. rewrite Et, (locks_blocked _ _ _ _ Elk K1) in He. discriminate He.
        - intros ->. specialize (Hst _ _ eq_refl Et). congruence. }
      destruct (other_exec_rev E s ts i tf tc (S_tables (Y_sh sy)) l s' ts' o K3 K8) as (X1 & X2 & X3 & X4); [ | exact Ho | exact He | ].
      { intros j tj Hne Ej. destruct (delivering tj) as [|[|n]] eqn:Dj; [ reflexivity | | destruct tj; discriminate Dj ]. exfalso. apply Hne. symmetry. exact (delivering_alone _ _ _ _ _ L K3 Dt Ej Dj). }
      rewrite <- K5, <- Ets in X1. replace (mkSys (Y_sh sy) (Y_threads sy)) with sy in X1 by (destruct sy; reflexivity).
      eexists. split; [ apply fsteps_one; apply f_other; [ | exact Hl | exact X1 ] | ].
      * unfold outside. destruct l as [j c| | | | | ]; try exact I. cbn [F_sys F_in in_thread]. destruct Ho as [Hne Ho]. rewrite Ets, list_lookup_insert_ne by congruence. destruct (ts !! j) as [t|]; [ | exact I ].
        destruct (Ho t eq_refl). auto.
      * split.
        -- exists tc, tf, out. cbn. rewrite list_lookup_insert by exact (lookup_lt_Some _ _ _ X4). rewrite list_insert_insert, (insert_self _ _ _ X4). repeat split; try assumption; congruence.
        -- cbn. rewrite list_lookup_insert by exact (lookup_lt_Some _ _ _ X4). intros Y. apply N. rewrite K2. exact Y.
  - (* no section is open *)
    cbn in K. subst sy. destruct (match l with LRun j _ => match Y_threads y !! j with Some t => locks t | None => false end | _ => false end) eqn:Hk.
    + destruct l as [j c| | | | | ]; try discriminate Hk. cbn [exec] in He. destruct (Y_threads y !! j) as [t|] eqn:Et; [ | discriminate Hk ].
      destruct (tstep E (Y_sh y) t c) as [| |s' t' sp o'] eqn:Es; try discriminate He. injection He as <- <-. pose proof (lookup_lt_Some _ _ _ Et) as Hlt.
      assert (D : (exists now, t = DL_lock now) \/ forall now, t <> DL_lock now) by (destruct t; try (right; discriminate); left; eauto).
      destruct D as [[now ->]|D].
      * destruct c; try discriminate Es. cbn [tstep] in Es. rewrite N in Es. destruct (bool_decide _) eqn:Hb; [ | discriminate Es ]. apply bool_decide_eq_true in Hb.
        destruct (step (S_tables (Y_sh y)) (ETick order now)) as [[k out]|] eqn:Est; [ | discriminate Es ]. injection Es as <- <- <- <-. rewrite app_nil_r.
        pose proof (code_step (ETick order now) (S_tables (Y_sh y)) ltac:(discriminate)) as C.
        destruct (settle_tick E j (mkSys (with_tables (Y_sh y) k true) (<[j := DL_push out]> (Y_threads y))) k out (locked y (S_tables (Y_sh y)) true j (DL_push [])) (DL_push out) (code (ETick order now)))
          as (z' & Z1 & Z2); try reflexivity.
        -- cbn. apply list_lookup_insert. exact Hlt.
        -- cbn. apply list_lookup_insert. exact Hlt.
        -- cbn. rewrite list_insert_insert. reflexivity.
        -- apply code_keeps.
        -- change (S_tables (Y_sh (locked y (S_tables (Y_sh y)) true j (DL_push [])))) with (S_tables (Y_sh y)). rewrite C. exact Est.
        -- exists z'. split; [ | exact Z2 ]. change [LRun j (COrder order)] with ([LRun j (COrder order)] ++ []).
           change [OTable (S_tables (Y_sh y)) (ETick order now) out] with ([OTable (S_tables (Y_sh y)) (ETick order now) out] ++ []). eapply fsteps_cons; [ | exact Z1 ].
           eapply f_enter_tick with (k := k); [ exact Et | exact Hb | exact N | apply code_keeps | exact C | rewrite C; exact Est ].
      * destruct (op_step _ _ _ _ _ _ _ _ Hk D Es) as (e & oo & k & O1 & O2 & O3 & -> & -> & -> & O4). rewrite app_nil_r.
        pose proof (code_step e (S_tables (Y_sh y)) O4) as C. eexists. split.
        -- change [LRun j c] with ([] ++ [LRun j c]). change (OTable (S_tables (Y_sh y)) e [] :: oo) with ([] ++ OTable (S_tables (Y_sh y)) e [] :: oo). eapply fsteps_cons.
           ++ eapply f_enter_op with (p := code e); [ exact Et | exact O1 | exact O2 | apply code_keeps | exact C ].
           ++ apply (op_alone E j t c _ e t' oo (code e) O1) with (k := k); [ cbn; apply list_lookup_insert; exact Hlt | ].
              change (S_tables (Y_sh (locked y (S_tables (Y_sh y)) true j t))) with (S_tables (Y_sh y)). rewrite C. exact O3.
        -- split; [ | reflexivity ]. cbn. unfold locked. cbn. rewrite list_insert_insert. reflexivity.
    + exists (mkF y' None). split.
      * apply fsteps_one. apply (f_other E (mkF y None)); [ | exact Hl | exact He ]. unfold outside. destruct l as [j c| | | | | ]; try exact I. cbn. destruct (Y_threads y !! j) as [t|]; [ auto | exact I ].
      * split; [ reflexivity | ]. cbn. destruct l as [j c| | |dmx a|op f|op]; cbn [exec] in He.
        -- destruct (Y_threads y !! j) as [t|] eqn:Et; [ | discriminate He ]. destruct (tstep E (Y_sh y) t c) as [| |s' t' sp o'] eqn:Es; try discriminate He. injection He as <- <-. cbn.
           destruct (involved t) eqn:Hv; [ | rewrite (proj2 (tables_kept _ _ _ _ _ _ _ _ Hv Es)); exact N ].
           unfold involved in Hv. rewrite Hk in Hv. destruct t; try discriminate Hv.
           ++ exfalso. pose proof (sum_ge delivering _ _ _ Et) as X. unfold lock_inv in L. rewrite N in L. cbn in X. lia.
           ++ destruct c; try discriminate Es. cbn in Es. injection Es as <- <- <- <-. exact N.
        -- unfold spawn in He. injection He as <- <-. exact N.
        -- unfold spawn in He. injection He as <- <-. exact N.
        -- destruct (E_ctl E); [ | discriminate He ]. unfold spawn in He. injection He as <- <-. exact N.
        -- destruct (E_ctl E); [ discriminate He | ]. injection He as <- <-. unfold RegisterCallback. cbn. destruct (S_shutdown (Y_sh y)); exact N.
        -- destruct (E_ctl E); [ discriminate He | ]. injection He as <- <-. unfold DeregisterCallback. cbn. destruct (S_shutdown (Y_sh y)); exact N.
Qed.
(** And every run of the model, if Start of a controller does not run while the lock is held, is one of the finer model with the program's sections: the finer model has lost nothing. *)
Theorem C94_complete : forall E ls y tr, runs E ls y tr -> starts_unlocked E ls -> exists z, fruns E ls z tr /\ (S_lock (Y_sh y) = false -> z = mkF y None).
Proof.
  intros E ls y tr R Hs. assert (M : exists z, fruns E ls z tr /\ settled z y).
  { unfold runs in R. remember (init E) as y0 eqn:E0. revert Hs. induction R as [y0|y0 ls y1 tr l y2 o R IH Hl He]; intros Hs; subst.
    - exists (mkF (init E) None). split; [ constructor | split; reflexivity ].
    - destruct (IH eq_refl) as (z & Z1 & Z2). { intros ls1 i c ls2 y tr1 -> R1 Hi. apply (Hs ls1 i c (ls2 ++ [l]) y tr1); [ rewrite <- app_assoc; reflexivity | exact R1 | exact Hi ]. }
      destruct (exec_settled E y1 z l y2 o (proj1 (frames_in_order _ _ _ _ R)) Z2 Hl He) as (z' & Z3 & Z4).
      + intros i c -> Hi. exact (Hs ls i c [] y1 tr eq_refl R Hi).
      + exists z'. split; [ | exact Z4 ]. unfold fruns in *. eapply fsteps_app; eassumption. }
  destruct M as (z & Z1 & Z2 & Z3). exists z. split; [ exact Z1 | ]. intros Hl. destruct z as [sy [[i c k0 p|i p]|]]; cbn in *; [ contradiction | | rewrite Z2; reflexivity ].
  destruct Z2 as (tc & tf & out & K1 & _). congruence.
Qed.

(** * Examples *)
(** Playing the finer model: a step of the model outside the sections, entering a section of the program, a step of the goroutine inside. *)
Inductive move := MOther (l : label) | MEnter (i : nat) (c : Sys.choice) | MIn.
Definition outsideb (z : fsys) (l : label) : bool :=
  match l with
  | LRun j _ => match Y_threads (F_sys z) !! j with
                | Some t => negb (locks t) && match F_in z with Some x => negb (j =? in_thread x)%nat && match t with U_start_ctl => false | _ => true end | None => true end
                | None => true
                end
  | _ => true
  end.
Definition fexec (E : env) (z : fsys) (m : move) : option (list label * fsys * list obs) :=
  let y := F_sys z in
  match m, F_in z with
  | MOther l, _ => if outsideb z l && label_okb l then match exec E y l with RNext y' o => Some ([l], mkF y' (F_in z), o) | _ => None end else None
  | MEnter i c, None =>
      if S_lock (Y_sh y) then None else
      match Y_threads y !! i with
      | Some t =>
          match t, c with
          | DL_lock now, COrder order =>
              if bool_decide (order ≡ₚ map_to_list (K_OutputAddress (S_tables (Y_sh y)))) then
                match step (S_tables (Y_sh y)) (ETick order now) with
                | Ret (k, out) => Some ([LRun i c], mkF (locked y (S_tables (Y_sh y)) true i (DL_push [])) (Some (InTick i (code (ETick order now)))), [OTable (S_tables (Y_sh y)) (ETick order now) out])
                | Panic => None
                end
              else None
          | _, _ => match op_of t c with
                    | Some (e, t', o) => Some ([], mkF (locked y (S_tables (Y_sh y)) true i t) (Some (InOp i c (S_tables (Y_sh y)) (code e))), [])
                    | None => None
                    end
          end
      | None => None
      end
  | MIn, Some (InOp i c k0 p) =>
      match Y_threads y !! i with
      | Some t => match p with
                  | Act f p => Some ([], mkF (locked y (f (S_tables (Y_sh y))) true i t) (Some (InOp i c k0 (p (S_tables (Y_sh y))))), [])
                  | Done => match op_of t c with Some (e, t', o) => Some ([LRun i c], mkF (locked y (S_tables (Y_sh y)) false i t') None, OTable k0 e [] :: o) | None => None end
                  | _ => None
                  end
      | None => None
      end
  | MIn, Some (InTick i p) =>
      match Y_threads y !! i with
      | Some (DL_push []) =>
          match p with
          | Act f p => Some ([], mkF (locked y (f (S_tables (Y_sh y))) true i (DL_push [])) (Some (InTick i (p (S_tables (Y_sh y))))), [])
          | Push f p => match last_index (S_gens (Y_sh y)) with Some g => Some ([LRun i CGo], mkF (mkSys (Y_sh y) (<[i := DL_pushing f [] g]> (Y_threads y))) (Some (InTick i p)), []) | None => None end
          | Done => Some ([LRun i CGo], mkF (locked y (S_tables (Y_sh y)) false i DL_loop) None, [])
          | Fail => None
          end
      | Some (DL_pushing f [] g) =>
          match S_gens (Y_sh y) !! g with
          | Some ch => match push (Q_send ch) (KDmx, f) with
                       | Some q => Some ([LRun i CGo], mkF (mkSys (upd_gen (Y_sh y) g (set_send ch q)) (<[i := DL_push []]> (Y_threads y))) (Some (InTick i p)), [OQueued (KDmx, f)])
                       | None => None
                       end
          | None => None
          end
      | _ => None
      end
  | _, _ => None
  end.
Lemma outsideb_ok z l : outsideb z l = true -> outside z l.
Proof.
  unfold outsideb, outside. destruct l; try exact (fun _ => I). destruct (Y_threads (F_sys z) !! i) as [t|]; [ | exact (fun _ => I) ]. intros H. apply andb_prop in H. destruct H as [H1 H2].
  split; [ destruct (locks t); [ discriminate H1 | reflexivity ] | ]. destruct (F_in z) as [x|]; [ | exact I ]. apply andb_prop in H2. destruct H2 as [H2 H3]. split; [ | intros ->; discriminate H3 ].
  intros ->. rewrite Nat.eqb_refl in H2. discriminate H2.
Qed.
Lemma fexec_fstep E z m ls z' o : fexec E z m = Some (ls, z', o) -> fstep E z ls z' o.
Proof.
  destruct z as [y [[i c k0 p|i p]|]]; destruct m as [l|j c'|]; cbn [fexec F_in F_sys]; intros H; try discriminate H.
  1,3,5: destruct (outsideb _ l && label_okb l) eqn:Ho; [ | discriminate H ]; apply andb_prop in Ho; destruct Ho as [Ho Hl]; destruct (exec E y l) as [| |y' o'] eqn:He; try discriminate H; injection H as <- <- <-;
    refine (f_other E (mkF y _) l y' o' (outsideb_ok _ _ Ho) (label_okb_ok _ Hl) He).
  - destruct (Y_threads y !! i) as [t|] eqn:Et; [ | discriminate H ]. destruct p as [| |f p|f p]; try discriminate H.
    + destruct (op_of t c) as [[[e t'] oo]|] eqn:Eo; [ | discriminate H ]. injection H as <- <- <-. eapply f_leave_op; eassumption.
    + injection H as <- <- <-. apply f_act_op. exact Et.
  - destruct (Y_threads y !! i) as [t|] eqn:Et; [ | discriminate H ]. destruct t; try discriminate H; destruct fs; try discriminate H.
    + destruct p as [| |f p|f p]; try discriminate H.
      * injection H as <- <- <-. apply f_leave_tick. exact Et.
      * injection H as <- <- <-. apply f_act_tick. exact Et.
      * destruct (last_index _) as [g|] eqn:Eg; [ | discriminate H ]. injection H as <- <- <-. apply f_chan; assumption.
    + destruct (S_gens (Y_sh y) !! g) as [ch|] eqn:Hch; [ | discriminate H ]. destruct (push _ _) as [q|] eqn:Hq; [ | discriminate H ]. injection H as <- <- <-. eapply f_push; eassumption.
  - destruct (S_lock (Y_sh y)) eqn:Hlk; [ discriminate H | ]. destruct (Y_threads y !! j) as [t|] eqn:Et; [ | discriminate H ].
    assert (D : (exists now order, t = DL_lock now /\ c' = COrder order) \/ exists e t' oo, op_of t c' = Some (e, t', oo) /\
      (ls, z', o) = ([], mkF (locked y (S_tables (Y_sh y)) true j t) (Some (InOp j c' (S_tables (Y_sh y)) (code e))), [])).
    { destruct t; try (right; destruct c'; try discriminate H; cbn in H; injection H as <- <- <-; eexists _, _, _; split; reflexivity). left. destruct c'; try discriminate H. eauto. }
    destruct D as [(now & order & -> & ->)|(e & t' & oo & Eo & X)].
    + destruct (bool_decide _) eqn:Hb; [ | discriminate H ]. apply bool_decide_eq_true in Hb. destruct (step _ _) as [[k out]|] eqn:Es; [ | discriminate H ]. injection H as <- <- <-.
      pose proof (code_step (ETick order now) (S_tables (Y_sh y)) ltac:(discriminate)) as C. eapply f_enter_tick with (k := k); [ exact Et | exact Hb | exact Hlk | apply (code_keeps (ETick order now)) | exact C | exact (eq_trans C Es) ].
    + injection X as -> -> ->. eapply f_enter_op with (p := code e); [ exact Et | exact Eo | exact Hlk | apply code_keeps | ]. apply code_step. intros ->. destruct t; try discriminate Eo; destruct c'; discriminate Eo.
Qed.
Fixpoint fplay (E : env) (z : fsys) (ms : list (fsys -> move)) : option (list label * fsys * list obs) :=
  match ms with
  | [] => Some ([], z, [])
  | m :: ms => match fexec E z (m z) with
               | Some (ls, z1, o) => match fplay E z1 ms with Some (ls', z2, o') => Some (ls ++ ls', z2, o ++ o') | None => None end
               | None => None
               end
  end.
Lemma fplay_fsteps E ms : forall z ls z' tr, fplay E z ms = Some (ls, z', tr) -> fsteps E z ls z' tr.
Proof.
  induction ms as [|m ms IH]; intros z ls z' tr H; cbn [fplay] in H; [ injection H as <- <- <-; constructor | ].
  destruct (fexec E z (m z)) as [[[l1 z1] o1]|] eqn:H1; [ | discriminate H ]. destruct (fplay E z1 ms) as [[[l2 z2] o2]|] eqn:H2; [ | discriminate H ]. injection H as <- <- <-.
  eapply fsteps_cons; [ exact (fexec_fstep _ _ _ _ _ _ H1) | exact (IH _ _ _ _ H2) ].
Qed.
Lemma fplayed E ms P : match fplay E (mkF (init E) None) ms with Some (ls, z, tr) => P ls z tr | None => false end = true -> exists ls z tr, fruns E ls z tr /\ P ls z tr = true.
Proof. destruct (fplay E (mkF (init E) None) ms) as [[[ls z] tr]|] eqn:H; [ | discriminate ]. intros HP. exists ls, z, tr. split; [ exact (fplay_fsteps _ _ _ _ _ _ H) | exact HP ]. Qed.
Definition coarse (fs : script) : list (fsys -> move) := map (fun f z => MOther (f (F_sys z))) fs.
Definition inside (n : nat) : list (fsys -> move) := repeat (fun _ => MIn) n.
Definition tick_order (i : nat) : list (fsys -> move) := [fun z => MEnter i (COrder (map_to_list (K_OutputAddress (S_tables (Y_sh (F_sys z))))))].
(** A controller is told of a node; updateNode has allocated it and appended it to c.Nodes, the map is still empty. Meanwhile a SendDMXToAddress is called and a datagram arrives. *)
Definition half_known : list (fsys -> move) :=
  coarse (up_ctl ++ firstn (length discover - 1) discover) ++ [fun _ => MEnter 4 (CTime 5%Z)] ++ inside 3 ++ coarse (act (LSend (repeat 7 512) (0, 0)) ++ arrive 6 host2 SysScript.poll_bytes).
(** Then updateNode goes on, the call is served, and a tick finds the address due; it has raised the sequence number and not yet sent the frame, while another datagram arrives. *)
Definition half_ticked : list (fsys -> move) :=
  half_known ++ inside 2 ++ [fun _ => MEnter 8 CGo] ++ inside 5 ++ coarse (act (LRun 5 (CTime 2000000000%Z))) ++ tick_order 5 ++ inside 5 ++ coarse (parse 2 ++ arrive 6 host2 SysScript.poll_bytes).
Definition received (tr : list obs) : nat := length (List.filter (fun o => match o with ORecv _ _ => true | _ => false end) tr).
Definition queued (tr : list obs) : nat := length (List.filter (fun o => match o with OQueued (KDmx, _) => true | _ => false end) tr).
Example C94_ex : exists ls z tr i c k0 p, fruns ctl1 ls z tr /\ F_in z = Some (InOp i c k0 p) /\ K_Nodes k0 = [] /\ K_Nodes (S_tables (Y_sh (F_sys z))) = [0] /\ K_OutputAddress (S_tables (Y_sh (F_sys z))) = ∅ /\
  (* the call waits, the second datagram was read *)
  Y_threads (F_sys z) !! 8%nat = Some (U_send (repeat 7 512) (0, 0)) /\ received tr = 2%nat.
Proof.
  destruct (fplayed ctl1 half_known (fun ls z tr => match F_in z with Some (InOp i c k0 p) => bool_decide (K_Nodes k0 = []) && bool_decide (K_Nodes (S_tables (Y_sh (F_sys z))) = [0]) &&
    bool_decide (K_OutputAddress (S_tables (Y_sh (F_sys z))) = ∅) && match Y_threads (F_sys z) !! 8%nat with Some (U_send d a) => bool_decide (d = repeat 7 512) && bool_decide (a = (0, 0)) | _ => false end &&
    (received tr =? 2)%nat | _ => false end)) as (ls & z & tr & R & H); [ vm_compute; reflexivity | ].
  destruct (F_in z) as [[i c k0 p|i p]|] eqn:Hx; try discriminate H. repeat (apply andb_prop in H; destruct H as [H ?]). destruct (Y_threads (F_sys z) !! 8%nat) as [t|] eqn:Et; [ | discriminate ].
  destruct t; try discriminate. repeat match goal with K : _ && _ = true |- _ => apply andb_prop in K; destruct K end. repeat match goal with K : bool_decide _ = true |- _ => apply bool_decide_eq_true in K end.
  eexists ls, z, tr, i, c, k0, p. repeat split; try assumption; [ congruence | apply Nat.eqb_eq; assumption ].
Qed.
Lemma fplayed2 E ms1 ms2 P : match fplay E (mkF (init E) None) ms1 with Some (_, z, tr) => match fplay E z ms2 with Some (_, z', tr') => P z tr z' tr' | None => false end | None => false end = true ->
  exists ls z tr ls' z' tr', fruns E ls z tr /\ fsteps E z ls' z' tr' /\ P z tr z' tr' = true.
Proof.
  destruct (fplay E (mkF (init E) None) ms1) as [[[ls z] tr]|] eqn:H1; [ | discriminate ]. destruct (fplay E z ms2) as [[[ls' z'] tr']|] eqn:H2; [ | discriminate ]. intros HP.
  exists ls, z, tr, ls', z', tr'. split; [ exact (fplay_fsteps _ _ _ _ _ _ H1) | split; [ exact (fplay_fsteps _ _ _ _ _ _ H2) | exact HP ] ].
Qed.
Definition in_tick (z : fsys) : bool := match F_in z with Some (InTick _ _) => true | _ => false end.
Definition in_none (z : fsys) : bool := match F_in z with None => true | _ => false end.
Example C94_tick_ex : exists ls z tr i p ls' z' tr', fruns ctl1 ls z tr /\ F_in z = Some (InTick i p) /\ fmap CN_Sequence (K_heap (S_tables (Y_sh (F_sys z))) !! 0) = Some 1 /\ queued tr = 0%nat /\ received tr = 3%nat /\
  fsteps ctl1 z ls' z' tr' /\ F_in z' = None /\ queued tr' = 1%nat.
Proof.
  destruct (fplayed2 ctl1 half_ticked (inside 8) (fun z tr z' tr' => in_tick z && bool_decide (fmap CN_Sequence (K_heap (S_tables (Y_sh (F_sys z))) !! 0) = Some 1) && (queued tr =? 0)%nat && (received tr =? 3)%nat &&
    in_none z' && (queued tr' =? 1)%nat)) as (ls & z & tr & ls' & z' & tr' & R & K & H); [ vm_compute; reflexivity | ].
  apply andb_prop in H. destruct H as [H H6]. apply andb_prop in H. destruct H as [H H5]. apply andb_prop in H. destruct H as [H H4]. apply andb_prop in H. destruct H as [H H3]. apply andb_prop in H. destruct H as [H1 H2].
  unfold in_tick in H1. unfold in_none in H5. destruct (F_in z) as [[|i p]|] eqn:Hx; try discriminate H1. destruct (F_in z') eqn:Hx'; [ discriminate H5 | ].
  exists ls, z, tr, i, p, ls', z', tr'. split; [ exact R | ]. split; [ exact Hx | ]. split; [ apply bool_decide_eq_true in H2; exact H2 | ]. split; [ apply Nat.eqb_eq; exact H3 | ]. split; [ apply Nat.eqb_eq; exact H4 | ].
  split; [ exact K | ]. split; [ exact Hx' | apply Nat.eqb_eq; exact H6 ].
Qed.
(** The hypothesis of C94_complete, on a run that stops in the middle of a tick. *)
Fixpoint unlockedb (E : env) (y : sys) (ls : list label) : bool :=
  match ls with
  | [] => true
  | l :: ls => match l with LRun i _ => match Y_threads y !! i with Some U_start_ctl => negb (S_lock (Y_sh y)) | _ => true end | _ => true end &&
               match exec E y l with RNext y' _ => unlockedb E y' ls | _ => true end
  end.
Lemma unlockedb_after E y ls y1 tr : steps E y ls y1 tr -> forall ls2, unlockedb E y (ls ++ ls2) = true -> unlockedb E y1 ls2 = true.
Proof.
  intros H. induction H as [y|y ls y1 tr l y2 o H IH Hl He]; intros ls2 Hu; [ exact Hu | ]. rewrite <- app_assoc in Hu. apply IH in Hu. cbn [app unlockedb] in Hu. apply andb_prop in Hu.
  rewrite He in Hu. exact (proj2 Hu).
Qed.
Lemma unlockedb_ok E ls : unlockedb E (init E) ls = true -> starts_unlocked E ls.
Proof.
  intros H ls1 i c ls2 y tr -> R Hi. apply (unlockedb_after _ _ _ _ _ R) in H. cbn [unlockedb] in H. apply andb_prop in H. destruct H as [H _]. rewrite Hi in H. destruct (S_lock (Y_sh y)); [ discriminate H | reflexivity ].
Qed.
Example C94_complete_ex : exists ls y tr, runs ctl1 ls y tr /\ starts_unlocked ctl1 ls /\ S_lock (Y_sh y) = true.
Proof.
  destruct (tested_runs ctl1 busy (fun ls y tr => unlockedb ctl1 (init ctl1) ls && S_lock (Y_sh y))) as (ls & y & tr & R & H); [ vm_compute; reflexivity | ]. apply andb_prop in H. destruct H as [H1 H2].
  exists ls, y, tr. split; [ exact R | ]. split; [ exact (unlockedb_ok _ _ H1) | exact H2 ].
Qed.

Definition P_Atomic_theorems := (C94_code, C94_atomic, C94_transfer, C94_no_panic, C94_closes, C94_tick_waits, C94_complete, C94_ex, C94_tick_ex, C94_complete_ex).
Print Assumptions P_Atomic_theorems.
