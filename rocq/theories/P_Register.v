(** RegisterCallback and DeregisterCallback (node.go:311-330) look at n.shutdown and change the map in two separate steps, without a lock around both. Sys.v treats a call as one step. Here the two steps
    are separate, so that other goroutines and calls can run between them. *)
From Verif Require Import SysFacts SysLaws SysRun SysOrder SysScript P_Node.
From stdpp Require Import base list gmap.
Open Scope N_scope.

(** The state of Sys.v and the calls that have passed the test in node.go:312 or 324 but not yet changed the map (opcode; Some f: register f, None: deregister). *)
Record xsys := mkX { X_sys : sys; X_pending : list (N * option N) }.
(** A step or another call as in Sys.v; a call of RegisterCallback or DeregisterCallback up to and including the test; the rest of the i-th pending call. *)
Inductive xlabel := XDo (l : label) | XCall (op : N) (f : option N) | XWrite (i : nat).
Inductive xobs :=
| XO (o : obs)
| XIgnored (op : N) (f : option N)     (* the call returned without effect *)
| XPassed (op : N) (f : option N)      (* the test was passed *)
| XStored (op : N) (f : option N).     (* the map was changed *)
Definition is_register (l : label) : bool := match l with LRegister _ _ | LDeregister _ => true | _ => false end.
(** node.go:317, 329 *)
Definition store (m : gmap N handler) (op : N) (f : option N) : gmap N handler := match f with Some f => <[op := HUser f]> m | None => delete op m end.
(** node.go:311-318, 323-330 in two steps; a Controller's node is private. *)
Definition xexec (E : env) (x : xsys) (l : xlabel) : option (xsys * list xobs) :=
  match l with
  | XDo l => if is_register l then None else match exec E (X_sys x) l with RNext y o => Some (mkX y (X_pending x), map XO o) | _ => None end
  | XCall op f =>
      if E_ctl E then None
      else if negb (S_shutdown (Y_sh (X_sys x))) then Some (x, [XIgnored op f])
      else Some (mkX (X_sys x) (X_pending x ++ [(op, f)]), [XPassed op f])
  | XWrite i =>
      match X_pending x !! i with
      | Some (op, f) => Some (mkX (mkSys (with_callbacks (Y_sh (X_sys x)) (store (S_callbacks (Y_sh (X_sys x))) op f)) (Y_threads (X_sys x))) (delete i (X_pending x)), [XStored op f])
      | None => None
      end
  end.
Definition xlabel_ok (l : xlabel) : Prop := match l with XDo l => label_ok l | _ => True end.
Inductive xruns (E : env) : list xlabel -> xsys -> list xobs -> Prop :=
| xruns_init : xruns E [] (mkX (init E) []) []
| xruns_step ls x T l x' o : xruns E ls x T -> xlabel_ok l -> xexec E x l = Some (x', o) -> xruns E (ls ++ [l]) x' (T ++ o).

(** The trace in terms of Sys.v: a call happens when it changes the map or gives up. *)
Definition atomic_view (T : list xobs) : list obs :=
  collect (fun b => match b with XO o => [o] | XIgnored op f | XStored op f => [ORegister op f] | XPassed _ _ => [] end) T.
Definition passed (T : list xobs) : nat := length (collect (fun b => match b with XPassed _ _ => [tt] | _ => [] end) T).
Definition stored (T : list xobs) : nat := length (collect (fun b => match b with XStored _ _ => [tt] | _ => [] end) T).
(** No call was between its two steps whenever the node went up. *)
Definition undisturbed (T : list xobs) : Prop := forall a b, T = a ++ XO OUp :: b -> passed a = stored a.

Lemma atomic_view_app a b : atomic_view (a ++ b) = atomic_view a ++ atomic_view b. Proof. apply collect_app. Qed.
Lemma atomic_view_XO o : atomic_view (map XO o) = o.
Proof. induction o as [|b o IH]; [ reflexivity | ]. unfold atomic_view in *. cbn. f_equal. exact IH. Qed.
Lemma passed_app a b : passed (a ++ b) = (passed a + passed b)%nat. Proof. unfold passed. rewrite collect_app, app_length. reflexivity. Qed.
Lemma stored_app a b : stored (a ++ b) = (stored a + stored b)%nat. Proof. unfold stored. rewrite collect_app, app_length. reflexivity. Qed.
Lemma passed_XO o : passed (map XO o) = 0%nat. Proof. induction o as [|b o IH]; [ reflexivity | exact IH ]. Qed.
Lemma stored_XO o : stored (map XO o) = 0%nat. Proof. induction o as [|b o IH]; [ reflexivity | exact IH ]. Qed.

Lemma xexec_pending E x l x' o : xexec E x l = Some (x', o) -> (length (X_pending x') + stored o = length (X_pending x) + passed o)%nat.
Proof.
  destruct l as [l|op f|i]; cbn [xexec]; intros H.
  - destruct (is_register l); [ discriminate | ]. destruct (exec E (X_sys x) l) as [| |y o']; try discriminate. injection H as <- <-. rewrite stored_XO, passed_XO. reflexivity.
  - destruct (E_ctl E); [ discriminate | ]. destruct (negb _); injection H as <- <-; cbn; [ lia | rewrite app_length; cbn; lia ].
  - destruct (X_pending x !! i) as [[op f]|] eqn:Hi; [ | discriminate ]. injection H as <- <-. cbn [X_pending stored passed]. pose proof (length_delete (X_pending x) i) as K.
    cbn. rewrite K; [ | rewrite Hi; eauto ]. apply lookup_lt_Some in Hi. lia.
Qed.
Lemma xruns_pending E ls x T : xruns E ls x T -> (length (X_pending x) + stored T = passed T)%nat.
Proof. intros H. induction H as [|ls x T l x' o R IH Hl He]; [ reflexivity | ]. apply xexec_pending in He. rewrite stored_app, passed_app. lia. Qed.

(** The map changes only by calls. *)
Lemma exec_callbacks E y l y' o : is_register l = false -> exec E y l = RNext y' o -> S_callbacks (Y_sh y') = S_callbacks (Y_sh y).
Proof.
  intros Hl H. apply exec_cases in H. destruct H as [(i & c & t & s & t' & sp & -> & Et & Es & ->)|[(t & -> & -> & Hk)|(mm & op & f & -> & -> & K)]].
  - apply tstep_trans in Es. destruct Es; reflexivity.
  - reflexivity.
  - destruct K as (_ & _ & ->). destruct f; discriminate Hl.
Qed.
(** The flag is cleared only by Start. *)
Lemma exec_flag E y l y' o : exec E y l = RNext y' o -> S_shutdown (Y_sh y) = true -> ~ In OUp o -> S_shutdown (Y_sh y') = true.
Proof.
  intros H Hs Hn. apply exec_cases in H. destruct H as [(i & c & t & s & t' & sp & -> & Et & Es & ->)|[(t & -> & -> & Hk)|(mm & op & f & -> & -> & K)]].
  - apply tstep_trans in Es. destruct Es; try exact Hs; try reflexivity. exfalso. apply Hn. left. reflexivity.
  - exact Hs.
  - exact Hs.
Qed.

(** While no call is caught between its steps by a Start, the two-step system does exactly what Sys.v describes; so all theorems about runs apply. *)
Theorem C89_atomic_partial : forall E ls x T, xruns E ls x T -> undisturbed T -> exists ls', runs E ls' (X_sys x) (atomic_view T).
Proof.
  intros E ls x T R U.
  assert (K : (exists ls', runs E ls' (X_sys x) (atomic_view T)) /\ (X_pending x <> [] -> S_shutdown (Y_sh (X_sys x)) = true)); [ | exact (proj1 K) ].
  induction R as [|ls x T l x' o R IH Hl He].
  - split; [ exists []; constructor | intros H; contradiction H; reflexivity ].
  - assert (U' : undisturbed T). { intros a b Ha. apply (U a (b ++ o)). rewrite Ha, <- app_assoc. reflexivity. }
    destruct (IH U') as ((ls' & R') & P). clear IH. rewrite atomic_view_app. destruct l as [l|op f|i]; cbn [xexec] in He.
    + destruct (is_register l); [ discriminate | ]. destruct (exec E (X_sys x) l) as [| |y o'] eqn:Ex; try discriminate. injection He as <- <-. rewrite atomic_view_XO. split.
      * exists (ls' ++ [l]). eapply steps_snoc; [ exact R' | exact Hl | exact Ex ].
      * cbn [X_pending X_sys]. intros Hp. refine (exec_flag _ _ _ _ _ Ex (P Hp) _). intros Hin. apply in_split in Hin. destruct Hin as (o1 & o2 & ->).
        assert (Q : passed (T ++ map XO o1) = stored (T ++ map XO o1)). { apply (U _ (map XO o2)). rewrite map_app, <- app_assoc. reflexivity. }
        rewrite passed_app, stored_app, passed_XO, stored_XO in Q. pose proof (xruns_pending _ _ _ _ R) as C. destruct (X_pending x); [ contradiction Hp; reflexivity | cbn in C; lia ].
    + destruct (E_ctl E) eqn:Ec; [ discriminate | ]. destruct (S_shutdown (Y_sh (X_sys x))) eqn:Es; cbn [negb] in He; injection He as <- <-.
      * cbn. rewrite app_nil_r. split; [ exists ls'; exact R' | intros _; exact Es ].
      * cbn [atomic_view collect]. split; [ | intros Hp; discriminate (P Hp) ]. exists (ls' ++ [match f with Some f => LRegister op f | None => LDeregister op end]). eapply steps_snoc; [ exact R' | destruct f; exact I | ].
        destruct (X_sys x) as [s ths]. cbn in Es. destruct f; cbn [exec]; rewrite Ec; unfold RegisterCallback, DeregisterCallback; cbn [Y_sh]; rewrite Es; reflexivity.
    + destruct (X_pending x !! i) as [[op f]|] eqn:Hi; [ | discriminate ]. injection He as <- <-. assert (Es : S_shutdown (Y_sh (X_sys x)) = true). { apply P. intros Z. rewrite Z in Hi. discriminate. }
      cbn [atomic_view collect]. split; [ | intros _; exact Es ]. assert (Ec : E_ctl E = false).
      { clear -R Hi. revert i op f Hi. induction R as [|ls x T l x' o R IH Hl He]; intros i op f Hi; [ discriminate Hi | ]. destruct (E_ctl E) eqn:Ec; [ | reflexivity ]. exfalso.
        destruct l as [l|op' f'|j]; cbn [xexec] in He.
        - destruct (is_register l); [ discriminate | ]. destruct (exec E (X_sys x) l); try discriminate. injection He as <- <-. discriminate (IH _ _ _ Hi).
        - rewrite Ec in He. discriminate.
        - destruct (X_pending x !! j) as [[op' f']|] eqn:Hj; [ | discriminate ]. discriminate (IH _ _ _ Hj). }
      exists (ls' ++ [match f with Some f => LRegister op f | None => LDeregister op end]). eapply steps_snoc; [ exact R' | destruct f; exact I | ].
      destruct (X_sys x) as [s ths]. cbn in Es. destruct f; cbn [exec]; rewrite Ec; unfold RegisterCallback, DeregisterCallback; cbn [Y_sh]; rewrite Es; reflexivity.
Qed.

(** The last change of the entry for an opcode: [last_stored T op r], r = None: never changed. *)
Definition last_stored (T : list xobs) (op : N) (r : option (option N)) : Prop :=
  match r with
  | Some f => exists a b, T = a ++ XStored op f :: b /\ forall f', ~ In (XStored op f') b
  | None => forall f, ~ In (XStored op f) T
  end.
Lemma last_stored_keep T o op r : (forall f, ~ In (XStored op f) o) -> last_stored (T ++ o) op r -> last_stored T op r.
Proof.
  intros Hn H. destruct r as [f|]; cbn in *.
  - destruct H as (a & b & H & Hb). apply app_cons_split in H. destruct H as [(b' & -> & ->)|(a' & -> & ->)].
    + exists a, b'. split; [ reflexivity | ]. intros f' K. apply (Hb f'). apply in_or_app. left. exact K.
    + exfalso. apply (Hn f). apply in_or_app. right. left. reflexivity.
  - intros f K. apply (H f). apply in_or_app. left. exact K.
Qed.
Lemma last_stored_new T op f r : last_stored (T ++ [XStored op f]) op r -> r = Some f.
Proof.
  destruct r as [f'|]; cbn; intros H.
  - destruct H as (a & b & H & Hb). apply app_cons_split in H. destruct H as [(b' & -> & ->)|(a' & -> & H)].
    + exfalso. apply (Hb f). apply in_or_app. right. left. reflexivity.
    + destruct a' as [|z a']; [ injection H as -> _; reflexivity | destruct a'; discriminate H ].
  - exfalso. apply (H f). apply in_or_app. right. left. reflexivity.
Qed.
Lemma exec_down E y l y' o : exec E y l = RNext y' o -> S_shutdown (Y_sh y') = true -> S_shutdown (Y_sh y) = true /\ ~ In OUp o \/ o = [ODown].
Proof.
  intros H Hs. apply exec_cases in H. destruct H as [(i & c & t & s & t' & sp & -> & Et & Es & ->)|[(t & -> & -> & Hk)|(mm & op & f & -> & -> & K)]].
  - apply tstep_trans in Es. cbn [Y_sh] in Hs. destruct Es; cbn in Hs; try discriminate Hs; try (left; split; [ exact Hs | cbn; intuition discriminate ]). right. reflexivity.
  - left. split; [ exact Hs | intros []; auto ].
  - left. split; [ exact Hs | cbn; intuition discriminate ].
Qed.
Lemma not_in_XO P o : (forall b, P <> XO b) -> ~ In P (map XO o).
Proof. intros H K. apply in_map_iff in K. destruct K as (b & Hb & _). exact (H b (eq_sym Hb)). Qed.
(** Every execution, however the calls are disturbed: the table is given by the changes made, the last one wins; and each change was preceded by its test, which found the node stopped. *)
Theorem C89_table_partial : forall E ls x T, xruns E ls x T ->
  (forall op r, last_stored T op r -> S_callbacks (Y_sh (X_sys x)) !! op = match r with Some f => option_map HUser f | None => builtin op end) /\
  (forall a op f b, T = a ++ XStored op f :: b -> exists a1 a2, a = a1 ++ XPassed op f :: a2) /\
  (forall a op f b, T = a ++ XPassed op f :: b -> forall c d, a = c ++ XO OUp :: d -> In (XO ODown) d).
Proof.
  intros E ls x T R.
  cut ((forall op r, last_stored T op r -> S_callbacks (Y_sh (X_sys x)) !! op = match r with Some f => option_map HUser f | None => builtin op end) /\
    (forall a op f b, T = a ++ XStored op f :: b -> exists a1 a2, a = a1 ++ XPassed op f :: a2) /\
    (forall a op f b, T = a ++ XPassed op f :: b -> forall c d, a = c ++ XO OUp :: d -> In (XO ODown) d) /\
    (forall op f, In (op, f) (X_pending x) -> In (XPassed op f) T) /\
    (S_shutdown (Y_sh (X_sys x)) = true -> forall c d, T = c ++ XO OUp :: d -> In (XO ODown) d)); [ tauto | ].
  induction R as [|ls x T l x' o R (I1 & I2 & I3 & I4 & I5) Hl He].
  - split; [ | split; [ | split; [ | split ] ] ].
    + intros op r H. destruct r as [f|]; cbn in H; [ destruct H as (a & b & H & _); destruct a; discriminate H | ]. cbn [X_sys init Y_sh S_callbacks]. unfold builtin.
      destruct (N.eqb_spec op 0x2000) as [->|H1]; [ reflexivity | ]. destruct (N.eqb_spec op 0x2100) as [->|H2]; [ reflexivity | ].
      rewrite lookup_insert_ne by (intros K; apply H1; rewrite <- K; reflexivity). apply lookup_singleton_ne. intros K. apply H2. rewrite <- K. reflexivity.
    + intros a op f b H. destruct a; discriminate H.
    + intros a op f b H. destruct a; discriminate H.
    + intros op f [].
    + intros _ c d H. destruct c; discriminate H.
  - destruct l as [l|op f|i]; cbn [xexec] in He.
    + destruct (is_register l) eqn:Hr; [ discriminate | ]. destruct (exec E (X_sys x) l) as [| |y o'] eqn:Ex; try discriminate. injection He as <- <-. cbn [X_sys X_pending].
      split; [ | split; [ | split; [ | split ] ] ].
      * intros op r H. rewrite (exec_callbacks _ _ _ _ _ Hr Ex). apply I1. eapply last_stored_keep; [ | exact H ]. intros f. apply not_in_XO. discriminate.
      * intros a op f b H. apply app_cons_split in H. destruct H as [(b' & -> & H)|(a' & -> & H)]; [ exact (I2 _ _ _ _ H) | ].
        exfalso. refine (not_in_XO (XStored op f) o' _ _); [ discriminate | ]. rewrite H. apply in_or_app. right. left. reflexivity.
      * intros a op f b H. apply app_cons_split in H. destruct H as [(b' & -> & H)|(a' & -> & H)]; [ exact (I3 _ _ _ _ H) | ].
        exfalso. refine (not_in_XO (XPassed op f) o' _ _); [ discriminate | ]. rewrite H. apply in_or_app. right. left. reflexivity.
      * intros op f H. apply in_or_app. left. exact (I4 _ _ H).
      * intros Hs c d H. destruct (exec_down _ _ _ _ _ Ex Hs) as [[Hs' Hn]| ->].
        -- apply app_cons_split in H. destruct H as [(d' & -> & H)|(a' & -> & H)]; [ apply in_or_app; left; exact (I5 Hs' _ _ H) | ].
           exfalso. apply Hn. assert (K : In (XO OUp) (map XO o')) by (rewrite H; apply in_or_app; right; left; reflexivity). apply in_map_iff in K. destruct K as (b & Hb & K). injection Hb as ->. exact K.
        -- apply app_cons_split in H. destruct H as [(d' & -> & H)|(a' & -> & H)]; [ apply in_or_app; right; left; reflexivity | ]. destruct a' as [|z a']; [ discriminate H | destruct a'; discriminate H ].
    + destruct (E_ctl E); [ discriminate | ]. destruct (S_shutdown (Y_sh (X_sys x))) eqn:Es; cbn [negb] in He; injection He as <- <-; cbn [X_sys X_pending].
      * split; [ | split; [ | split; [ | split ] ] ].
        -- intros op' r H. apply I1. eapply last_stored_keep; [ | exact H ]. intros f' [K|[]]. discriminate K.
        -- intros a op' f' b H. apply app_cons_split in H. destruct H as [(b' & -> & H)|(a' & -> & H)]; [ exact (I2 _ _ _ _ H) | ]. destruct a' as [|z a']; [ discriminate H | destruct a'; discriminate H ].
        -- intros a op' f' b H. apply app_cons_split in H. destruct H as [(b' & -> & H)|(a' & -> & H)]; [ exact (I3 _ _ _ _ H) | ].
           destruct a' as [|z a']; [ rewrite app_nil_r; exact (I5 eq_refl) | destruct a'; discriminate H ].
        -- intros op' f' H. apply in_app_or in H. apply in_or_app. destruct H as [H|[H|[]]]; [ left; exact (I4 _ _ H) | right; left; congruence ].
        -- intros _ c d H. apply app_cons_split in H. destruct H as [(d' & -> & H)|(a' & -> & H)]; [ apply in_or_app; left; exact (I5 eq_refl _ _ H) | ]. destruct a' as [|z a']; [ discriminate H | destruct a'; discriminate H ].
      * split; [ | split; [ | split; [ | split ] ] ].
        -- intros op' r H. apply I1. eapply last_stored_keep; [ | exact H ]. intros f' [K|[]]. discriminate K.
        -- intros a op' f' b H. apply app_cons_split in H. destruct H as [(b' & -> & H)|(a' & -> & H)]; [ exact (I2 _ _ _ _ H) | ]. destruct a' as [|z a']; [ discriminate H | destruct a'; discriminate H ].
        -- intros a op' f' b H. apply app_cons_split in H. destruct H as [(b' & -> & H)|(a' & -> & H)]; [ exact (I3 _ _ _ _ H) | ]. destruct a' as [|z a']; [ discriminate H | destruct a'; discriminate H ].
        -- intros op' f' H. apply in_or_app. left. exact (I4 _ _ H).
        -- rewrite Es. discriminate.
    + destruct (X_pending x !! i) as [[op f]|] eqn:Hi; [ | discriminate ]. injection He as <- <-. cbn [X_sys X_pending Y_sh S_callbacks S_shutdown with_callbacks].
      assert (Hin : In (XPassed op f) T). { apply I4. apply elem_of_list_In. eapply elem_of_list_lookup_2. exact Hi. }
      split; [ | split; [ | split; [ | split ] ] ].
      * intros op' r H. destruct (N.eq_dec op' op) as [->|Hne].
        -- apply last_stored_new in H. subst r. destruct f as [f|]; cbn [store option_map]; [ apply lookup_insert | apply lookup_delete ].
        -- assert (K : S_callbacks (Y_sh (X_sys x)) !! op' = match r with Some f => option_map HUser f | None => builtin op' end).
           { apply I1. eapply last_stored_keep; [ | exact H ]. intros f' [K|[]]. injection K as <- _. contradiction. }
           rewrite <- K. destruct f as [f|]; cbn [store]; [ apply lookup_insert_ne | apply lookup_delete_ne ]; congruence.
      * intros a op' f' b H. apply app_cons_split in H. destruct H as [(b' & -> & H)|(a' & -> & H)]; [ exact (I2 _ _ _ _ H) | ].
        destruct a' as [|z a']; [ | destruct a'; discriminate H ]. injection H as -> -> _. rewrite app_nil_r. apply in_split. exact Hin.
      * intros a op' f' b H. apply app_cons_split in H. destruct H as [(b' & -> & H)|(a' & -> & H)]; [ exact (I3 _ _ _ _ H) | ]. destruct a' as [|z a']; [ discriminate H | destruct a'; discriminate H ].
      * intros op' f' H. apply in_or_app. left. apply I4. apply elem_of_list_In. apply elem_of_list_In in H. eapply elem_of_submseteq; [ exact H | ]. apply sublist_submseteq, sublist_delete.
      * intros Hs c d H. apply app_cons_split in H. destruct H as [(d' & -> & H)|(a' & -> & H)]; [ apply in_or_app; left; exact (I5 Hs _ _ H) | ]. destruct a' as [|z a']; [ discriminate H | destruct a'; discriminate H ].
Qed.

(** * Concrete executions *)
Fixpoint xplay (E : env) (x : xsys) (fs : list (xsys -> xlabel)) : option (list xlabel * xsys * list xobs) :=
  match fs with
  | [] => Some ([], x, [])
  | f :: fs =>
      let l := f x in
      if match l with XDo l => label_okb l | _ => true end then
        match xexec E x l with
        | Some (x', o) => match xplay E x' fs with Some (ls, x'', T) => Some (l :: ls, x'', o ++ T) | None => None end
        | None => None
        end
      else None
  end.
Lemma xplay_runs E fs : forall ls0 x T0 ls x' T, xruns E ls0 x T0 -> xplay E x fs = Some (ls, x', T) -> xruns E (ls0 ++ ls) x' (T0 ++ T).
Proof.
  induction fs as [|f fs IH]; intros ls0 x T0 ls x' T R H; cbn [xplay] in H.
  - injection H as <- <- <-. rewrite !app_nil_r. exact R.
  - cbv zeta in H. destruct (match f x with XDo l => label_okb l | _ => true end) eqn:Hl; [ | discriminate ]. destruct (xexec E x (f x)) as [[x1 o]|] eqn:He; [ | discriminate ].
    destruct (xplay E x1 fs) as [[[ls1 x2] T1]|] eqn:Hp; [ | discriminate ]. injection H as <- <- <-. change (f x :: ls1) with ([f x] ++ ls1). rewrite !app_assoc. eapply IH; [ | exact Hp ].
    eapply xruns_step; [ exact R | | exact He ]. destruct (f x); [ apply label_okb_ok; exact Hl | exact I | exact I ].
Qed.
Definition lift (s : script) : list (xsys -> xlabel) := map (fun f x => XDo (f (X_sys x))) s.
Definition xtested (E : env) (fs1 fs2 : list (xsys -> xlabel)) (P : xsys -> list xobs -> xsys -> list xobs -> bool) : bool :=
  match xplay E (mkX (init E) []) fs1 with
  | Some (ls, x, T) => match xplay E x fs2 with Some (ls', x', T') => P x T x' T' | None => false end
  | None => false
  end.
Lemma xtested_runs E fs1 fs2 P : xtested E fs1 fs2 P = true ->
  exists ls x T ls' x' T', xruns E ls x T /\ xruns E (ls ++ ls') x' (T ++ T') /\ P x T x' T' = true.
Proof.
  unfold xtested. destruct (xplay E _ fs1) as [[[ls x] T]|] eqn:H1; [ | discriminate ]. destruct (xplay E x fs2) as [[[ls' x'] T']|] eqn:H2; [ | discriminate ]. intros H.
  pose proof (xplay_runs _ _ _ _ _ _ _ _ (xruns_init E) H1) as R1. pose proof (xplay_runs _ _ _ _ _ _ _ _ R1 H2) as R2. exists ls, x, T, ls', x', T'. auto.
Qed.
(** The node is running: Start has returned and Stop has not been called since. *)
Definition running (T : list xobs) : Prop := exists a b, T = a ++ XO (OStart true) :: b /\ In (XO OUp) a /\ ~ In (XO ODown) T.
(** A call that races with Start changes the callbacks of a running node: nothing is registered for ArtDmx when Start has returned; the frame arriving later is handed to the callback. *)
Theorem C89_race_refuted : exists ls x T ls' x' T', xruns node1 ls x T /\ running T /\ S_callbacks (Y_sh (X_sys x)) !! 0x5000 = None /\
  xruns node1 (ls ++ ls') x' (T ++ T') /\ ~ In (XO ODown) (T ++ T') /\ S_callbacks (Y_sh (X_sys x')) !! 0x5000 = Some (HUser 1) /\ exists q, In (XO (OCall (HUser 1) (PktDMX q))) T'.
Proof.
  destruct (xtested_runs node1 ([fun _ => XCall 0x5000 (Some 1)] ++ lift up_node) ([fun _ => XWrite 0] ++ lift (arrive 4 host2 (dmx_bytes 1) ++ parse 2 ++ go_n 5 1))
    (fun x T x' T' => match T with _ :: XO OUp :: XO OListen :: XO (OStart true) :: _ => true | _ => false end &&
       bool_decide (S_callbacks (Y_sh (X_sys x)) !! 0x5000 = None) && forallb (fun o => match o with XO ODown => false | _ => true end) (T ++ T') &&
       bool_decide (S_callbacks (Y_sh (X_sys x')) !! 0x5000 = Some (HUser 1)) && existsb (fun o => match o with XO (OCall (HUser 1) (PktDMX _)) => true | _ => false end) T'))
    as (ls & x & T & ls' & x' & T' & R & R' & H); [ vm_compute; reflexivity | ].
  apply andb_prop in H. destruct H as [H H5]. apply andb_prop in H. destruct H as [H H4]. apply andb_prop in H. destruct H as [H H3]. apply andb_prop in H. destruct H as [H1 H2].
  apply bool_decide_eq_true in H2, H4. rewrite forallb_forall in H3. assert (N : ~ In (XO ODown) (T ++ T')). { intros K. discriminate (H3 _ K). }
  exists ls, x, T, ls', x', T'. split; [ exact R | ]. split.
  - destruct T as [|t1 [|[o2| | |] [|[o3| | |] [|[o4| | |] T]]]]; try discriminate H1; try (destruct o2; discriminate H1); try (destruct o2, o3; discriminate H1).
    destruct o2; try discriminate H1. destruct o3; try discriminate H1. destruct o4; try discriminate H1. destruct ok; [ | discriminate H1 ].
    exists [t1; XO OUp; XO OListen], T. split; [ reflexivity | ]. split; [ cbn; auto | ]. intros K. apply N. apply in_or_app. left. exact K.
  - split; [ exact H2 | ]. split; [ exact R' | ]. split; [ exact N | ]. split; [ exact H4 | ].
    apply existsb_exists in H5. destruct H5 as (o & Ho & H5). destruct o as [o| | |]; try discriminate H5. destruct o; try discriminate H5. destruct h; try discriminate H5.
    destruct f as [|[f|f|]]; try discriminate H5. destruct p; try discriminate H5. eauto.
Qed.
(** The hypotheses of C89_atomic_partial: a registration in two steps before Start, one attempted after it. *)
Example C89_ex : exists ls x T, xruns node1 ls x T /\ undisturbed T /\ passed T = 1%nat /\ stored T = 1%nat /\ running T.
Proof.
  destruct (xtested_runs node1 ([fun _ => XCall 0x5000 (Some 1); fun _ => XWrite 0] ++ lift up_node ++ [fun _ => XCall 0x2000 None]) []
    (fun x T x' T' => match T with [XPassed _ _; XStored _ _; XO OUp; XO OListen; XO (OStart true); XIgnored _ _] => true | _ => false end))
    as (ls & x & T & ls' & x' & T' & R & _ & H); [ vm_compute; reflexivity | ].
  exists ls, x, T. split; [ exact R | ].
  destruct T as [|[| |o p|] [|[| | |o1 p1] [|[o2| | |] [|[o3| | |] [|[o4| | |] [|[|o5 p5| |] [|]]]]]]]; try discriminate H; try (destruct o2; discriminate H); try (destruct o2, o3; discriminate H);
    try (destruct o2, o3, o4; try discriminate H; match goal with H : context [if ?b then _ else _] |- _ => destruct b; discriminate H end).
  destruct o2; try discriminate H. destruct o3; try discriminate H. destruct o4; try discriminate H. destruct ok; [ | discriminate H ]. split.
  - intros a b K. destruct a as [|a1 [|a2 [|a3 [|a4 [|a5 [|a6 [|]]]]]]]; try discriminate K. injection K as <- <- _. reflexivity.
  - split; [ reflexivity | ]. split; [ reflexivity | ]. exists [XPassed o p; XStored o1 p1; XO OUp; XO OListen], [XIgnored o5 p5]. split; [ reflexivity | ]. split; [ cbn; auto | cbn; intuition discriminate ].
Qed.

Definition P_Register_theorems := (C89_race_refuted, C89_atomic_partial, C89_table_partial, C89_ex).
Print Assumptions P_Register_theorems.
