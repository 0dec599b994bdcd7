(** Property C100: the example programs example/node and example/controller as whole programs: what they can transmit,
    in which order their calls take effect, and that they keep running. *)
From Verif Require Import WireSpec BinaryFacts DispatchFacts EncodeFacts P_Config ControllerFacts P_Controller SysFacts SysLaws SysRun SysOrder SysScript P_Node P_Life P_Live P_Wire P_Address.
From stdpp Require Import base list gmap.
Open Scope N_scope.

(** * The programs *)
(** example/controller/main.go:34-47: c.Start(), its error ignored, and then the calls of one goroutine. The pauses between
    the calls (time.Sleep) are left out: any time may pass between two calls, or none. *)
Definition colour (r g b d : N) : list N := [r; g; b; d] ++ repeat 0 508.
Definition colours : list (list N) := [colour 0 0xff 0 0xff; colour 0xff 0 0 0xff; colour 0 0 0xff 0xff; colour 0 0 0 0].
Definition controller_main : list label := LStart :: map (fun d => LSend d (0, 0)) colours.
(** example/node/main.go:34 *)
Definition node_main : list label := [LStart].

(** A call has returned. *)
Definition returns (o : list obs) : bool := existsb (fun x => match x with OStart _ | OStop | OSend => true | _ => false end) o.
(** Executions of a program that makes the calls [todo] one after the other; [rest] are those still to be made, [busy] says
    that one of them has not returned yet. *)
Inductive plays (E : env) (todo : list label) : list label -> bool -> list label -> sys -> list obs -> Prop :=
| plays_nil : plays E todo todo false [] (init E) []
| plays_run rest busy ls y tr i c y' o : plays E todo rest busy ls y tr -> label_ok (LRun i c) -> exec E y (LRun i c) = RNext y' o ->
    plays E todo rest (busy && negb (returns o)) (ls ++ [LRun i c]) y' (tr ++ o)
| plays_call l rest ls y tr y' o : plays E todo (l :: rest) false ls y tr -> label_ok l -> exec E y l = RNext y' o ->
    plays E todo rest true (ls ++ [l]) y' (tr ++ o).

(** * Specification *)
(** The values the calls of a program write, and those written so far. *)
Definition values (ls : list label) : list (list N * Address) := omap (fun l => match l with LSend d a => Some (d, a) | _ => None end) ls.
Definition written (tr : list obs) : list (list N * Address) := omap (fun o => match o with OTable _ (ESend d a) _ => Some (d, a) | _ => None end) tr.
(** The stages of the show on universe 0/0: dark, green, red, blue, dark; the fourth channel is the brightness. *)
Definition stages : list (list N) := map (fun h => h ++ repeat 0 508) [[0; 0; 0; 0]; [0; 255; 0; 255]; [255; 0; 0; 255]; [0; 0; 255; 255]; [0; 0; 0; 0]].
(** Start once and then only SendDMXToAddress. *)
Definition start_then_send (todo : list label) : Prop := exists vs, todo = LStart :: map (fun x => LSend (fst x) (snd x)) vs.

(** * Facts *)
Lemma plays_runs E todo rest busy ls y tr : plays E todo rest busy ls y tr -> runs E ls y tr.
Proof. induction 1; [ constructor | econstructor; eassumption | econstructor; eassumption ]. Qed.
Definition is_user (t : thread) : bool :=
  match t with
  | U_send _ _ | U_start_ctl | U_start_node | U_listen | U_start_loops | U_stop_ctl | U_flag | U_close | U_closeconn | U_waitclosed | U_closectl => true
  | _ => false
  end.
Definition users (ts : list thread) : nat := length (List.filter is_user ts).
Definition sending (t : thread) : list (list N * Address) := match t with U_send d a => [(d, a)] | _ => [] end.
Lemma written_app a b : written (a ++ b) = written a ++ written b.
Proof. apply omap_app. Qed.
Lemma values_app a b : values (a ++ b) = values a ++ values b.
Proof. apply omap_app. Qed.
Lemma user_step E s t c s' t' sp o : tstep E s t c = Next s' t' sp o ->
  List.filter is_user sp = [] /\ collect sending sp = [] /\ written o = sending t /\ sending t' = [] /\
  (if is_user t then is_user t' = negb (returns o) else is_user t' = false /\ returns o = false).
Proof.
  intros H. tcases H; subst; cbn; auto 10.
  all: try (repeat case_match; subst; cbn; auto 10; fail).
Qed.
Lemma users_app a b : users (a ++ b) = (users a + users b)%nat.
Proof. unfold users. rewrite List.filter_app, app_length. reflexivity. Qed.
Lemma users_0 ts t : users ts = 0%nat -> In t ts -> is_user t = false.
Proof.
  intros H Hin. destruct (is_user t) eqn:Ht; [ exfalso | reflexivity ]. unfold users in H. apply length_zero_iff_nil in H.
  assert (In t (List.filter is_user ts)) as K by (apply filter_In; auto). rewrite H in K. exact K.
Qed.
Lemma sending_0 ts : users ts = 0%nat -> collect sending ts = [].
Proof.
  induction ts as [|t ts IH]; [ reflexivity | ]. intros H. pose proof (users_0 _ t H (or_introl eq_refl)) as K.
  unfold users in H. cbn [List.filter] in H. rewrite K in H. rewrite collect_cons, (IH H). destruct t; try reflexivity. discriminate.
Qed.
(** The thread of a step among the others. *)
Lemma split_at (ts : list thread) i t t' : ts !! i = Some t -> exists a b, ts = a ++ t :: b /\ <[i := t']> ts = a ++ t' :: b.
Proof.
  intros H. exists (take i ts), (drop (S i) ts). split; [ symmetry; apply take_drop_middle; exact H | ].
  rewrite insert_take_drop by (eapply lookup_lt_Some; exact H). reflexivity.
Qed.
Definition call_like (l : label) : Prop := match l with LStart | LStop | LSend _ _ => True | _ => False end.
Lemma plays_inv E todo rest busy ls y tr : Forall call_like todo -> plays E todo rest busy ls y tr ->
  users (Y_threads y) = (if busy then 1 else 0)%nat /\ values todo = written tr ++ collect sending (Y_threads y) ++ values rest /\ Forall call_like rest.
Proof.
  intros Hc. induction 1 as [|rest busy ls y tr i c y' o P IH Hl He|l rest ls y tr y' o P IH Hl He].
  - auto.
  - destruct IH as (I1 & I2 & I3). apply exec_cases in He. destruct He as [(i' & c' & t & s & t' & sp & El & Et & Es & ->)|[(t & _ & _ & [[El _]|[[El _]|(? & ? & El & _)]])|(? & ? & [?|] & _ & _ & _ & _ & El)]]; try discriminate El.
    injection El as <- <-. destruct (user_step _ _ _ _ _ _ _ _ Es) as (U1 & U2 & U3 & U4 & U5). destruct (split_at _ _ _ t' Et) as (a & b & Ea & Eb). cbn [Y_threads]. rewrite Eb. rewrite Ea in I1, I2.
    rewrite users_app in I1 |- *. rewrite collect_app, collect_cons in I2.
    assert (Eu : forall x, users (a ++ x :: b) = (users a + (if is_user x then 1 else 0) + users b)%nat).
    { intros x. rewrite users_app. unfold users. cbn [List.filter]. destruct (is_user x); cbn [length]; lia. }
    assert (Esp : users sp = 0%nat) by (unfold users; rewrite U1; reflexivity). rewrite Esp, Eu. rewrite <- users_app, Eu in I1.
    split.
    { destruct (is_user t).
      - rewrite U5. destruct busy; [ | lia ]. destruct (returns o); cbn [andb negb]; lia.
      - destruct U5 as [-> ->]. cbn [negb]. rewrite andb_true_r. lia. }
    split; [ | exact I3 ]. rewrite I2, written_app, U3, !collect_app, collect_cons, U2, U4, app_nil_r.
    destruct (sending t) as [|p q] eqn:Est; [ rewrite app_nil_r; reflexivity | ].
    assert (is_user t = true) as Ht by (destruct t; try discriminate; reflexivity). rewrite Ht in I1.
    assert (users a = 0%nat /\ users b = 0%nat) as [Ha Hb] by (destruct busy; lia). rewrite (sending_0 _ Ha), (sending_0 _ Hb). cbn. rewrite !app_nil_r, <- app_assoc. reflexivity.
  - destruct IH as (I1 & I2 & I3). inversion I3 as [|? ? C1 C2]; subst. apply exec_cases in He.
    destruct He as [(i' & c' & t & s & t' & sp & El & Et & Es & ->)|[(t & -> & -> & K)|(? & ? & [?|] & _ & _ & _ & _ & El)]]; try (rewrite El in C1; contradiction).
    cbn [Y_threads]. rewrite users_app, I1, app_nil_r, collect_app, (sending_0 _ I1). rewrite (sending_0 _ I1) in I2. cbn [app] in *. split; [ | split; [ | exact C2 ] ].
    + destruct K as [[_ ->]|[[_ ->]|(? & ? & _ & _ & ->)]]; destruct (E_ctl E); reflexivity.
    + rewrite I2. destruct K as [[-> ->]|[[-> ->]|(? & ? & -> & _ & ->)]]; destruct (E_ctl E); reflexivity.
Qed.
(** The calls of a program take effect once each and in the order of the program: what has been written is what the calls
    made so far write, except that the last call may not have got that far. *)
Theorem C100_in_order : forall E todo rest busy ls y tr, Forall call_like todo -> plays E todo rest busy ls y tr ->
  (exists w, values todo = written tr ++ w ++ values rest /\ (length w <= 1)%nat) /\ (busy = false -> values todo = written tr ++ values rest).
Proof.
  intros E todo rest busy ls y tr Hc P. destruct (plays_inv _ _ _ _ _ _ _ Hc P) as (I1 & I2 & _). split.
  - exists (collect sending (Y_threads y)). split; [ exact I2 | ]. assert (K : forall ts, (length (collect sending ts) <= users ts)%nat).
    { induction ts as [|t ts IH]; [ apply Nat.le_refl | ]. rewrite collect_cons, app_length. unfold users in *. cbn [List.filter]. destruct t; cbn [is_user sending length Nat.add]; lia. }
    specialize (K (Y_threads y)). destruct busy; lia.
  - intros ->. rewrite (sending_0 _ I1) in I2. exact I2.
Qed.
(** * No crash *)
Lemma plays_first E l todo rest busy ls y tr : plays E (l :: todo) rest busy ls y tr ->
  (rest = l :: todo /\ ls = [] /\ y = init E /\ tr = [] /\ busy = false) \/ exists pre, todo = pre ++ rest.
Proof.
  induction 1 as [|rest busy ls y tr i c y' o P IH Hl He|l' rest ls y tr y' o P IH Hl He].
  - left. auto.
  - destruct IH as [(-> & -> & -> & -> & ->)|IH]; [ | right; exact IH ]. cbn [exec init Y_threads] in He. rewrite lookup_nil in He. discriminate.
  - right. destruct IH as [(E1 & _)|(pre & ->)]; [ injection E1 as <- ->; exists []; reflexivity | ]. exists (pre ++ [l']). rewrite <- app_assoc. reflexivity.
Qed.
Lemma plays_life E todo rest busy ls y tr : start_then_send todo -> plays E todo rest busy ls y tr -> exists ph, life E any ls y tr ph.
Proof.
  intros (vs & ->). induction 1 as [|rest busy ls y tr i c y' o P IH Hl He|l rest ls y tr y' o P IH Hl He].
  - eexists. constructor.
  - destruct IH as (ph & L). eexists. eapply life_snoc; [ exact L | exact I | exact Hl | reflexivity | exact He ].
  - destruct IH as (ph & L). destruct (plays_first _ _ _ _ _ _ _ _ P) as [(E1 & -> & -> & -> & _)|(pre & E1)].
    + injection E1 as -> _. eexists. eapply life_snoc; [ apply life_nil | exact I | exact Hl | reflexivity | exact He ].
    + assert (exists d a, l = LSend d a) as (d & a & ->).
      { assert (K : In l (map (fun x => LSend (fst x) (snd x)) vs)) by (rewrite E1; apply in_or_app; right; left; reflexivity). apply in_map_iff in K. destruct K as (x & <- & _). eauto. }
      eexists. eapply life_snoc; [ exact L | exact I | exact Hl | destruct ph; reflexivity | exact He ].
Qed.
Lemma example_mains : start_then_send controller_main /\ start_then_send node_main /\ Forall call_like controller_main /\ Forall call_like node_main.
Proof. split; [ exists (map (fun d => (d, (0, 0))) colours); reflexivity | ]. split; [ exists []; reflexivity | ]. split; repeat constructor. Qed.
(** Neither program ever crashes unless reading from the socket fails; also not when Start fails, which they ignore. *)
Theorem C100_no_crash : forall addrs E todo rest busy ls y tr,
  E = example_node addrs /\ todo = node_main \/ E = example_controller addrs /\ todo = controller_main ->
  plays E todo rest busy ls y tr -> forall l, exec E y l = RCrash -> exists i b, l = LRun i CGo /\ Y_threads y !! i = Some (RD_got b None).
Proof.
  intros addrs E todo rest busy ls y tr HE P l Hl. destruct example_mains as (M1 & M2 & _).
  assert (start_then_send todo) as Hs by (destruct HE as [[_ ->]|[_ ->]]; assumption). destruct (plays_life _ _ _ _ _ _ _ Hs P) as (ph & L).
  destruct (proj1 (C61_calls_in_turn_partial _ _ _ _ _ L) l Hl) as (i & t & -> & Ht & [(b & -> & _)|[-> K]]); [ eauto | exfalso ].
  destruct HE as [[-> _]|[-> _]]; [ | cbn in K; lia ].
  pose proof (runs_ok _ _ _ _ (plays_runs _ _ _ _ _ _ _ P)) as OK. pose proof (Forall_lookup_1 _ _ _ _ (sys_threads _ _ _ OK) Ht) as [_ [_ Rf]].
  pose proof (ok_cgens _ _ _ (sys_shared _ _ _ OK) Rf) as Ec. discriminate Ec.
Qed.

(** * What the controller program transmits *)
Fixpoint hwritten (h : history) : list (list N * Address) :=
  match h with [] => [] | (_, ESend d a, _) :: h => (d, a) :: hwritten h | _ :: h => hwritten h end.
Lemma hwritten_app h k : hwritten (h ++ k) = hwritten h ++ hwritten k.
Proof. induction h as [|[[s e] o] h IH]; [ reflexivity | ]. destruct e; cbn [hwritten app]; rewrite ?IH; reflexivity. Qed.
Lemma hist_cons o tr : hist (o :: tr) = match o with OTable s e out => (s, e, out) :: hist tr | _ => hist tr end.
Proof. destruct o; reflexivity. Qed.
Lemma written_hist tr : written tr = hwritten (hist tr).
Proof.
  induction tr as [|o tr IH]; [ reflexivity | ]. rewrite hist_cons. change (o :: tr) with ([o] ++ tr). rewrite written_app, IH.
  destruct o; try reflexivity. destruct e; reflexivity.
Qed.
Definition sent_to (a : Address) (l : list (list N * Address)) : list (list N) := omap (fun x => if bool_decide (snd x = a) then Some (fst x) else None) l.
Lemma sent_to_app a l k : sent_to a (l ++ k) = sent_to a l ++ sent_to a k.
Proof. apply omap_app. Qed.
(** The data of a universe is the initial zeros or one of the values written for it, and later it is not an earlier one. *)
Lemma last_write_index n a h1 h2 :
  exists i j, (i <= j)%nat /\ (zeros 512 :: sent_to a (hwritten h1)) !! i = Some (last_write h1 n a) /\ (zeros 512 :: sent_to a (hwritten (h1 ++ h2))) !! j = Some (last_write (h1 ++ h2) n a).
Proof.
  assert (S1 : forall h pre i v, (pre ++ sent_to a (hwritten [])) !! i = Some v -> exists j, (i <= j)%nat /\ (pre ++ sent_to a (hwritten h)) !! j = Some (fold_left (fun acc x => match x with
    | (s, ESend d b, _) => if bool_decide (b = a /\ K_OutputAddress s !! a = Some n) && accepted s d b then d else acc | _ => acc end) h v)).
  { induction h as [|[[s e] o] h IH]; intros pre i v Hi; [ exists i; auto | ]. cbn [fold_left].
    assert (Skip : forall pre', (forall k w, pre !! k = Some w -> pre' !! k = Some w) -> exists j, (i <= j)%nat /\ (pre' ++ sent_to a (hwritten h)) !! j = Some (fold_left (fun acc x => match x with
      | (s, ESend d b, _) => if bool_decide (b = a /\ K_OutputAddress s !! a = Some n) && accepted s d b then d else acc | _ => acc end) h v)).
    { intros pre' Hp. apply IH. cbn. rewrite app_nil_r. apply Hp. cbn in Hi. rewrite app_nil_r in Hi. exact Hi. }
    destruct e; try (apply (Skip pre); auto; fail).
    cbn [hwritten]. change ((dmx, address) :: hwritten h) with ([(dmx, address)] ++ hwritten h). rewrite sent_to_app. unfold sent_to at 1. cbn [omap list_omap snd fst].
    destruct (decide (address = a)) as [->|Hn].
    - rewrite (bool_decide_true (a = a)) by reflexivity. rewrite app_assoc.
      destruct (bool_decide (a = a /\ K_OutputAddress s !! a = Some n) && accepted s dmx a).
      + cbn in Hi. rewrite app_nil_r in Hi. apply lookup_lt_Some in Hi. destruct (IH (pre ++ [dmx]) (length pre) dmx) as (j & J1 & J2).
        { cbn. rewrite app_nil_r, lookup_app_r, Nat.sub_diag by lia. reflexivity. }
        exists j. split; [ lia | exact J2 ].
      + apply Skip. intros k w Hk. apply lookup_app_l_Some. exact Hk.
    - rewrite (bool_decide_false (address = a)) by exact Hn. rewrite bool_decide_false by (intros [? _]; contradiction). cbn [andb]. apply Skip. auto. }
  destruct (S1 h1 [zeros 512] 0%nat (zeros 512) eq_refl) as (i & _ & Hi). change ([zeros 512] ++ ?l) with (zeros 512 :: l) in Hi.
  destruct (S1 h2 (zeros 512 :: sent_to a (hwritten h1)) i (last_write h1 n a)) as (j & J1 & J2); [ cbn; rewrite app_nil_r; exact Hi | ].
  exists i, j. split; [ exact J1 | ]. split; [ exact Hi | ]. unfold last_write at 1. rewrite fold_left_app. change (fold_left _ h1 _) with (last_write h1 n a).
  rewrite hwritten_app, sent_to_app. exact J2.
Qed.
Lemma example_config addrs : Forall bytes_ok addrs -> wf_config (E_config (example_controller addrs)) /\ wf_config (E_config (example_node addrs)).
Proof.
  intros Hb. assert (K : bytes_ok (chosen addrs)).
  { unfold chosen. assert (G : bytes_ok []) by constructor. revert G. generalize (@nil N). induction Hb as [|a l Ha Hl IH]; intros ip G; [ exact G | ]. cbn [P_Address.choose]. destruct (Contains a); [ exact Ha | apply IH; exact Ha ]. }
  split; apply new_config_wf; try exact K; try (unfold byte_ok, bytes_ok; cbn; lia); repeat constructor; unfold byte_ok; lia.
Qed.
Lemma controller_values : values controller_main = map (fun d => (d, (0, 0))) colours.
Proof. reflexivity. Qed.
Lemma stages_colours : stages = repeat 0 512 :: colours.
Proof. reflexivity. Qed.
(** Every ArtDmx frame the controller program transmits goes to port 6454; for universe 0/0 it carries a stage
    whose call has been made; for every other universe it carries zeros. *)
Theorem C100_frames : forall addrs rest busy ls y tr1 x tr2, Forall bytes_ok addrs ->
  plays (example_controller addrs) controller_main rest busy ls y (tr1 ++ OTx x :: tr2) -> wire_opcode (snd (snd x)) = 0x5000 ->
  exists q, Unmarshal (snd (snd x)) = Ret (Some (PktDMX q), None) /\ snd (fst (snd x)) = 6454 /\
    (DMX_Data q = repeat 0 512 \/
     DMX_Net q = 0 /\ DMX_SubUni q = 0 /\ exists k, stages !! k = Some (DMX_Data q) /\ (k <= length (written tr1))%nat).
Proof.
  intros addrs rest busy ls y tr1 x tr2 Hb P Hx. destruct (example_config _ Hb) as [W _]. pose proof (plays_runs _ _ _ _ _ _ _ P) as R.
  destruct (C73_wire_data _ _ _ _ _ _ W R) as (tra & s & order & now & out & trb & a & n & cn & q & E1 & _ & _ & _ & E2 & E3 & E4 & E5); [ apply N.eqb_eq; exact Hx | ].
  exists q. split; [ exact E3 | ]. split; [ rewrite E2; reflexivity | ].
  destruct (C100_in_order _ _ _ _ _ _ _ (proj1 (proj2 (proj2 example_mains))) P) as [(w & Hw & _) _].
  assert (Hp : exists u, map (fun d => (d, (0, 0))) colours = written tra ++ u).
  { rewrite controller_values in Hw. rewrite Hw, E1, !written_app, <- !app_assoc. eexists. reflexivity. }
  assert (Hlen : (length (written tra) <= length (written tr1))%nat) by (rewrite E1, written_app, app_length; lia).
  destruct Hp as (u & Hu). destruct (last_write_index n a (hist tra) []) as (i & _ & _ & Hi & _). rewrite <- written_hist, <- E5 in Hi.
  destruct i as [|k]; [ left; injection Hi as <-; reflexivity | right ]. cbn [lookup list_lookup] in Hi.
  assert (G : forall (l : list (list N * Address)) c u, map (fun d => (d, (0, 0))) c = l ++ u ->
    sent_to (0, 0) l = firstn (length l) c /\ (forall b, b <> (0, 0) -> sent_to b l = [])).
  { clear. induction l as [|[d b] l IH]; intros c u H; [ split; reflexivity | ]. destruct c as [|d' c]; [ discriminate H | ]. cbn in H. injection H as -> <- H. destruct (IH c u H) as [I1 I2].
    split; [ cbn; rewrite <- I1; reflexivity | ]. intros b Hb. change ((d, (0, 0)) :: l) with ([(d, (0, 0))] ++ l). rewrite sent_to_app, I2 by exact Hb. unfold sent_to. cbn. rewrite bool_decide_false by (intros K; apply Hb; symmetry; exact K). reflexivity. }
  destruct (G _ _ _ Hu) as [G1 G2]. destruct (decide (a = (0, 0))) as [->|Ha]; [ | rewrite (G2 a Ha) in Hi; discriminate Hi ]. injection E4 as -> ->.
  rewrite G1 in Hi. change (take (length (written tra)) colours !! k = Some (DMX_Data q)) in Hi. split; [ reflexivity | ]. split; [ reflexivity | ]. exists (S k). assert (k < length (written tra))%nat as Hk.
  { apply lookup_lt_Some in Hi. rewrite firstn_length in Hi. lia. }
  split; [ | lia ]. rewrite lookup_take in Hi by exact Hk. rewrite stages_colours. exact Hi.
Qed.
(** The values are shown in the order of the calls: of two ticks that send universe 0/0 to the same node, the later one sends the
    same stage or a later one. *)
Theorem C100_shown_in_order : forall addrs rest busy ls y t1 s1 o1 now1 out1 t2 s2 o2 now2 out2 t3 n f1 f2 q1 q2,
  plays (example_controller addrs) controller_main rest busy ls y (t1 ++ OTable s1 (ETick o1 now1) out1 :: t2 ++ OTable s2 (ETick o2 now2) out2 :: t3) ->
  In f1 out1 -> In f2 out2 -> Unmarshal (snd f1) = Ret (Some (PktDMX q1), None) -> Unmarshal (snd f2) = Ret (Some (PktDMX q2), None) ->
  (DMX_Net q1, DMX_SubUni q1) = (0, 0) -> (DMX_Net q2, DMX_SubUni q2) = (0, 0) ->
  K_OutputAddress s1 !! (0, 0) = Some n -> K_OutputAddress s2 !! (0, 0) = Some n ->
  exists i j, (i <= j)%nat /\ stages !! i = Some (DMX_Data q1) /\ stages !! j = Some (DMX_Data q2).
Proof.
  intros addrs rest busy ls y t1 s1 o1 now1 out1 t2 s2 o2 now2 out2 t3 n f1 f2 q1 q2 P F1 F2 U1 U2 A1 A2 N1 N2.
  pose proof (ok_reach _ _ _ (sys_shared _ _ _ (runs_ok _ _ _ _ (plays_runs _ _ _ _ _ _ _ P)))) as Hr.
  assert (D : forall h s o now out h' f q, hist (t1 ++ OTable s1 (ETick o1 now1) out1 :: t2 ++ OTable s2 (ETick o2 now2) out2 :: t3) = h ++ (s, ETick o now, out) :: h' ->
    In f out -> Unmarshal (snd f) = Ret (Some (PktDMX q), None) -> (DMX_Net q, DMX_SubUni q) = (0, 0) -> K_OutputAddress s !! (0, 0) = Some n -> DMX_Data q = last_write h n (0, 0)).
  { intros h s o now out h' f q Eh Hf Hu Ha Hn. rewrite Eh in Hr.
    destruct (C46_last_write_wins _ _ _ _ _ _ _ _ f Hr) as (a & n' & cn & q' & H1 & H2 & H3 & H4 & H5 & H6 & H7); [ apply elem_of_list_In; exact Hf | ].
    pose proof (eq_trans (eq_sym Hu) H4) as K. injection K as <-. assert (a = (0, 0)) as -> by (rewrite <- Ha, H5, H6; destruct a; reflexivity). assert (Some n' = Some n) as K by (rewrite <- H1; exact Hn). injection K as ->. exact H7. }
  assert (Eh : hist (t1 ++ OTable s1 (ETick o1 now1) out1 :: t2 ++ OTable s2 (ETick o2 now2) out2 :: t3) = hist t1 ++ (s1, ETick o1 now1, out1) :: hist t2 ++ (s2, ETick o2 now2, out2) :: hist t3).
  { rewrite hist_app, hist_cons, hist_app, hist_cons. reflexivity. }
  pose proof (D _ _ _ _ _ _ _ _ Eh F1 U1 A1 N1) as D1.
  assert (Eh2 : hist t1 ++ (s1, ETick o1 now1, out1) :: hist t2 ++ (s2, ETick o2 now2, out2) :: hist t3 = (hist t1 ++ (s1, ETick o1 now1, out1) :: hist t2) ++ (s2, ETick o2 now2, out2) :: hist t3)
    by (rewrite <- app_assoc; reflexivity).
  rewrite Eh2 in Eh. pose proof (D _ _ _ _ _ _ _ _ Eh F2 U2 A2 N2) as D2.
  destruct (last_write_index n (0, 0) (hist t1) ((s1, ETick o1 now1, out1) :: hist t2)) as (i & j & Hij & Hi & Hj).
  destruct (C100_in_order _ _ _ _ _ _ _ (proj1 (proj2 (proj2 example_mains))) P) as [(w & Hw & _) _]. rewrite controller_values, written_hist, Eh, hwritten_app in Hw.
  rewrite <- app_assoc in Hw.
  assert (G : forall (l : list (list N * Address)) u c, map (fun d => (d, (0, 0))) c = l ++ u -> sent_to (0, 0) l `prefix_of` c).
  { clear. induction l as [|[d b] l IH]; intros u c H; [ apply prefix_nil | ]. destruct c as [|d' c]; [ discriminate H | ]. cbn in H. injection H as -> <- H. apply (prefix_cons d), (IH u), H. }
  assert (Pre : forall h u k v, map (fun d => (d, (0, 0))) colours = hwritten h ++ u -> (zeros 512 :: sent_to (0, 0) (hwritten h)) !! k = Some v -> stages !! k = Some v).
  { intros h u k v Hu Hk. destruct (G _ _ _ Hu) as (r & Er). rewrite stages_colours, Er. change (repeat 0 512) with (zeros 512). rewrite app_comm_cons. apply lookup_app_l_Some. exact Hk. }
  exists i, j. split; [ exact Hij | ]. rewrite D1, D2. split.
  - rewrite hwritten_app, <- app_assoc in Hw. eapply Pre; [ exact Hw | exact Hi ].
  - eapply Pre; [ exact Hw | exact Hj ].
Qed.

(** * What the node program transmits *)
Definition plain (t : thread) : bool :=
  match t with
  | CP_start | CP_send _ | CP_sending _ _ | CP_poll _ | CP_polling _ _ | CP_loop _ | CP_wait _ _ _ | CP_gc _ | CP_reply _ _
  | DL_start | DL_loop | DL_wait _ | DL_lock _ | DL_push _ | DL_pushing _ _ _ | U_send _ _ | U_start_ctl | U_start_loops => false
  | _ => true
  end.
Definition made_by_ctl (o : obs) : bool := match o with OTable _ _ _ | OQueued (KPoll, _) | OQueued (KDmx, _) => true | _ => false end.
Lemma plain_step E s t c s' t' sp o : E_ctl E = false -> tstep E s t c = Next s' t' sp o -> plain t = true ->
  plain t' = true /\ forallb plain sp = true /\ forallb (fun x => negb (made_by_ctl x)) o = true.
Proof. intros Hc H. tcases H; subst; cbn; try discriminate; auto; rewrite ?Hc in *; try discriminate; repeat case_match; subst; cbn; auto; discriminate. Qed.
Lemma node_plain E ls y tr : E_ctl E = false -> runs E ls y tr -> forallb plain (Y_threads y) = true /\ forallb (fun x => negb (made_by_ctl x)) tr = true.
Proof.
  intros Hc R. unfold runs in R. remember (init E) as y0 eqn:E0. revert E0. induction R as [|y0 ls y1 tr1 l y2 o Hs IH Hl He]; intros ->; [ split; reflexivity | ].
  destruct (IH eq_refl) as [I1 I2]. rewrite forallb_app, I2. apply exec_cases in He.
  destruct He as [(j & c & t & s & t' & sp & -> & Et & Es & ->)|[(t & -> & -> & Hk)|(mm & op & f & -> & -> & _)]]; cbn [Y_threads].
  - assert (Ht : plain t = true). { rewrite forallb_forall in I1. apply I1. apply elem_of_list_In, elem_of_list_lookup. eauto. }
    destruct (plain_step _ _ _ _ _ _ _ _ Hc Es Ht) as (P1 & P2 & P3). destruct (split_at _ _ _ t' Et) as (a & b & Ea & Eb). rewrite Eb. rewrite Ea in I1. rewrite !forallb_app in *. cbn [forallb] in *.
    rewrite P1, P2, P3. apply andb_prop in I1. destruct I1 as [I1 I3]. apply andb_prop in I3. destruct I3 as [_ I3]. rewrite I1, I3. auto.
  - rewrite forallb_app, I1. destruct Hk as [[_ ->]|[[_ ->]|(? & ? & _ & Hk & _)]]; rewrite ?Hc; [ auto | auto | congruence ].
  - auto.
Qed.
(** The node program transmits nothing but its own ArtPollReply, always the same one, to 2.255.255.255:6454. *)
Theorem C100_node : forall addrs rest busy ls y tr x, Forall bytes_ok addrs -> plays (example_node addrs) node_main rest busy ls y tr -> In x (transmitted tr) ->
  snd x = (([2; 255; 255; 255], 6454), pollreply_bytes (ArtPollReplyFromConfig (E_config (example_node addrs)))).
Proof.
  intros addrs rest busy ls y tr x Hb P Hx. destruct (example_config _ Hb) as [_ W]. pose proof (plays_runs _ _ _ _ _ _ _ P) as R.
  destruct (node_plain (example_node addrs) _ _ _ eq_refl R) as [_ Hp].
  assert (Hq : In x (queued tr)).
  { destruct (sent_once _ _ _ _ R) as (r & Hr). apply elem_of_list_In. rewrite Hr. apply elem_of_app. left. apply elem_of_list_In. exact Hx. }
  assert (Ho : In (OQueued x) tr).
  { unfold queued, collect in Hq. apply in_concat in Hq. destruct Hq as (l & H1 & H2). apply in_map_iff in H1. destruct H1 as (o & <- & Ho). destruct o; cbn in H2; try contradiction. destruct H2 as [<-|[]]. exact Ho. }
  rewrite forallb_forall in Hp. specialize (Hp _ Ho). destruct x as [k f]. destruct k; cbn in Hp; try discriminate.
  apply (proj1 (proj2 (C59_replies _ _ _ _ W R)) _ Hx). destruct f as [ad d]. pose proof (queued_ok _ _ _ _ _ R Hq) as K.
  destruct (item_opcode _ _ _ _ W K) as [_ K2]. unfold is_reply. cbn [fst snd]. first [ reflexivity | rewrite K2; reflexivity ].
Qed.

(** * When Start fails *)
(** Only threads of calls, none of them past the opening of the socket. *)
Definition idle (t : thread) : bool := match t with TDone | U_send _ _ | U_start_ctl | U_start_node | U_listen => true | _ => false end.
Definition opening (t : thread) : bool := match t with U_start_ctl | U_start_node | U_listen => true | _ => false end.
Definition silent (o : obs) : bool := match o with OTx _ | ORecv _ _ => false | _ => true end.
Definition failed (o : obs) : bool := match o with OStart false => true | _ => false end.
Lemma opening_step E s t c s' t' sp o : tstep E s t c = Next s' t' sp o ->
  (S_shutdownErr s' = S_shutdownErr s \/ (existsb failed o = true /\ t = U_listen)) /\ (opening t = false -> opening t' = false) /\ forallb (fun x => negb (opening x)) sp = true /\
  (existsb failed o = true -> (opening t = true /\ t' = TDone /\ sp = [] /\ forallb silent o = true) \/ (t = U_start_loops /\ S_shutdownErr s = true)) /\
  (idle t = true -> existsb failed o = false -> (idle t' = true /\ sp = [] /\ forallb silent o = true) \/ (t = U_listen /\ opening t' = false)) /\
  (idle t = true -> opening t = false -> t' = TDone /\ sp = [] /\ forallb silent o = true /\ existsb failed o = false).
Proof.
  intros H. tcases H; subst; cbn; repeat match goal with |- _ /\ _ => split end; auto 10; intros; try discriminate; auto 10.
  all: try (repeat case_match; cbn in *; auto 10; try discriminate; fail).
  destruct (S_shutdownErr s); [ auto | discriminate ].
Qed.
Lemma users_1 a t b : (users (a ++ t :: b) <= 1)%nat -> is_user t = true -> users (a ++ b) = 0%nat.
Proof. intros H Ht. rewrite users_app in H |- *. unfold users in *. cbn [List.filter] in H. rewrite Ht in H. cbn [length] in H. lia. Qed.
Lemma idle_rest ts : users ts = 0%nat -> forallb idle ts = true -> forallb (fun t => idle t && negb (opening t)) ts = true.
Proof.
  intros Hu Hi. apply forallb_forall. intros t Ht. rewrite forallb_forall in Hi. rewrite (Hi _ Ht). pose proof (users_0 _ _ Hu Ht) as K. destruct t; try reflexivity; discriminate K.
Qed.
Lemma not_opening_rest ts : users ts = 0%nat -> forallb (fun t => negb (opening t)) ts = true.
Proof. intros Hu. apply forallb_forall. intros t Ht. pose proof (users_0 _ _ Hu Ht) as K. destruct t; try reflexivity; discriminate K. Qed.
Definition deaf_inv (y : sys) (tr : list obs) : Prop :=
  (existsb failed tr = false /\ S_shutdownErr (Y_sh y) = false /\ forallb idle (Y_threads y) = true /\ forallb silent tr = true) \/
  (existsb failed tr = true /\ forallb (fun t => idle t && negb (opening t)) (Y_threads y) = true /\ forallb silent tr = true) \/
  (existsb failed tr = false /\ S_shutdownErr (Y_sh y) = false /\ forallb (fun t => negb (opening t)) (Y_threads y) = true).
Lemma forallb_mid {A} (f : A -> bool) a x b : forallb f (a ++ x :: b) = true <-> f x = true /\ forallb f (a ++ b) = true.
Proof. rewrite !forallb_app. cbn [forallb]. destruct (forallb f a), (f x), (forallb f b); cbn; intuition discriminate. Qed.
Lemma plays_deaf E todo rest busy ls y tr : start_then_send todo -> plays E todo rest busy ls y tr -> deaf_inv y tr.
Proof.
  intros (vs & ->) P. assert (Hc : Forall call_like (LStart :: map (fun x => LSend (fst x) (snd x)) vs)).
  { constructor; [ exact I | ]. apply Forall_forall. intros l Hl. apply elem_of_list_In, in_map_iff in Hl. destruct Hl as (x & <- & _). exact I. }
  revert P. induction 1 as [|rest busy ls y tr i c y' o P IH Hl He|l rest ls y tr y' o P IH Hl He].
  - left. auto.
  - destruct (plays_inv _ _ _ _ _ _ _ Hc P) as (Hu & _ & _). apply exec_cases in He.
    destruct He as [(i' & c' & t & s & t' & sp & El & Et & Es & ->)|[(t & _ & _ & [[El _]|[[El _]|(? & ? & El & _)]])|(? & ? & [?|] & _ & _ & _ & _ & El)]]; try discriminate El.
    injection El as <- <-. destruct (opening_step _ _ _ _ _ _ _ _ Es) as (O1 & O2 & O3 & O4 & O5 & O6). destruct (split_at _ _ _ t' Et) as (a & b & Ea & Eb).
    assert (Hu1 : (users (a ++ t :: b) <= 1)%nat) by (rewrite <- Ea; destruct busy; lia). unfold deaf_inv. cbn [Y_sh Y_threads]. rewrite Eb, existsb_app, (forallb_app silent tr o).
    assert (W : forall f, forallb f ((a ++ t' :: b) ++ sp) = true <-> f t' = true /\ forallb f (a ++ b) = true /\ forallb f sp = true).
    { intros f. rewrite forallb_app, andb_true_iff, forallb_mid. tauto. }
    rewrite !W. clear W.
    destruct IH as [(A1 & A2 & A3 & A4)|[(A1 & A2 & A3)|(A1 & A2 & A3)]]; rewrite Ea in *; try rewrite forallb_mid in A3; try rewrite forallb_mid in A2.
    + destruct A3 as [A3 A5]. destruct (existsb failed o) eqn:Hf.
      * destruct (O4 eq_refl) as [(K1 & -> & -> & K2)|[-> _]]; [ | discriminate A3 ]. right. left. rewrite orb_true_r, A4, K2. split; [ reflexivity | ]. split; [ | reflexivity ].
        split; [ reflexivity | ]. split; [ | reflexivity ]. apply idle_rest; [ | exact A5 ]. eapply users_1; [ exact Hu1 | ]. destruct t; try reflexivity; discriminate K1.
      * destruct O1 as [O1|[O1 _]]; [ | discriminate O1 ]. rewrite A1, O1, A2. destruct (O5 A3 eq_refl) as [(K1 & -> & K2)|(-> & K1)].
        -- left. rewrite K1, A5, A4, K2. auto 10.
        -- right. right. rewrite K1, O3. repeat (split; [ reflexivity | ]). split; [ | reflexivity ]. apply not_opening_rest. eapply users_1; [ exact Hu1 | reflexivity ].
    + destruct A2 as [A2 A5]. apply andb_prop in A2. destruct A2 as [A2 A6]. apply negb_true_iff in A6. destruct (O6 A2 A6) as (-> & -> & K1 & K2). right. left.
      rewrite A1, A3, K1, A5. auto.
    + destruct A3 as [A3 A5]. apply negb_true_iff in A3. destruct (existsb failed o) eqn:Hf.
      * destruct (O4 eq_refl) as [(K1 & _)|[-> K1]]; [ congruence | congruence ].
      * destruct O1 as [O1|[O1 _]]; [ | discriminate O1 ]. right. right. rewrite A1, O1, A2, A5, O3, (O2 A3). auto.
  - destruct (plays_first _ _ _ _ _ _ _ _ P) as [(E1 & -> & -> & -> & _)|(pre & E1)].
    + injection E1 as -> _. cbn [exec] in He. unfold spawn in He. injection He as <- <-. left. cbn. destruct (E_ctl E); auto.
    + assert (exists d a, l = LSend d a) as (d & a & ->).
      { assert (K : In l (map (fun x => LSend (fst x) (snd x)) vs)) by (rewrite E1; apply in_or_app; right; left; reflexivity). apply in_map_iff in K. destruct K as (x & <- & _). eauto. }
      cbn [exec] in He. destruct (E_ctl E); [ | discriminate He ]. unfold spawn in He. injection He as <- <-. unfold deaf_inv in *. cbn [Y_sh Y_threads]. rewrite app_nil_r, !forallb_app. cbn [forallb idle opening].
      destruct IH as [(A1 & A2 & A3 & A4)|[(A1 & A2 & A3)|(A1 & A2 & A3)]]; [ left; rewrite A3 | right; left; rewrite A2 | right; right; rewrite A3 ]; auto.
Qed.
(** If Start fails, the program goes on but neither receives nor transmits anything, ever, and its calls do return. *)
Theorem C100_deaf : forall E todo rest busy ls y tr, start_then_send todo -> plays E todo rest busy ls y tr -> In (OStart false) tr ->
  (forall x, ~ In (OTx x) tr) /\ (forall from d, ~ In (ORecv from d) tr) /\ Forall (fun t => t = TDone \/ exists d a, t = U_send d a) (Y_threads y).
Proof.
  intros E todo rest busy ls y tr Ht P Hf. assert (F : existsb failed tr = true) by (apply existsb_exists; exists (OStart false); auto).
  destruct (plays_deaf _ _ _ _ _ _ _ Ht P) as [(A1 & _)|[(A1 & A2 & A3)|(A1 & _)]]; try congruence. rewrite forallb_forall in A3.
  split; [ intros x K; specialize (A3 _ K); discriminate | ]. split; [ intros from d K; specialize (A3 _ K); discriminate | ].
  apply Forall_forall. intros t Hin. rewrite forallb_forall in A2. apply elem_of_list_In in Hin. specialize (A2 _ Hin). destruct t; try discriminate; eauto.
Qed.

(** * Concrete executions *)
(** A script is played; any call in it stands for the next call of the program. *)
Fixpoint play_prog (E : env) (y : sys) (rest : list label) (busy : bool) (fs : script) : option (list label * bool * list label * sys * list obs) :=
  match fs with
  | [] => Some (rest, busy, [], y, [])
  | f :: fs =>
      match f y, rest, busy with
      | LRun i c, _, _ =>
          if label_okb (LRun i c) then
            match exec E y (LRun i c) with
            | RNext y1 o => match play_prog E y1 rest (busy && negb (returns o)) fs with Some (r, b, ls, y2, tr) => Some (r, b, LRun i c :: ls, y2, o ++ tr) | None => None end
            | _ => None
            end
          else None
      | _, l :: rest, false =>
          if label_okb l then
            match exec E y l with
            | RNext y1 o => match play_prog E y1 rest true fs with Some (r, b, ls, y2, tr) => Some (r, b, l :: ls, y2, o ++ tr) | None => None end
            | _ => None
            end
          else None
      | _, _, _ => None
      end
  end.
Lemma play_prog_ok E todo fs : forall rest busy y ls tr r b ls' y' tr', plays E todo rest busy ls y tr -> play_prog E y rest busy fs = Some (r, b, ls', y', tr') ->
  plays E todo r b (ls ++ ls') y' (tr ++ tr').
Proof.
  induction fs as [|f fs IH]; intros rest busy y ls tr r b ls' y' tr' P H; cbn [play_prog] in H.
  - injection H as <- <- <- <- <-. rewrite !app_nil_r. exact P.
  - assert (Call : forall l rest1, rest = l :: rest1 -> busy = false ->
      (if label_okb l then match exec E y l with RNext y1 o => match play_prog E y1 rest1 true fs with Some (r, b, ls, y2, tr) => Some (r, b, l :: ls, y2, o ++ tr) | None => None end | _ => None end else None)
        = Some (r, b, ls', y', tr') -> plays E todo r b (ls ++ ls') y' (tr ++ tr')).
    { intros l rest1 -> -> K. destruct (label_okb l) eqn:Hl; [ | discriminate K ]. destruct (exec E y l) as [| |y1 o] eqn:He; try discriminate K.
      destruct (play_prog E y1 rest1 true fs) as [[[[[r1 b1] ls1] y2] tr1]|] eqn:Hp; [ | discriminate K ]. injection K as <- <- <- <- <-.
      change (l :: ls1) with ([l] ++ ls1). rewrite (app_assoc tr), (app_assoc ls [l] ls1). eapply IH; [ | exact Hp ]. eapply plays_call; [ exact P | apply label_okb_ok; exact Hl | exact He ]. }
    destruct (f y) as [i c| | |dmx a|op g|op]; try (destruct rest as [|l rest1]; [ discriminate H | ]; destruct busy; [ discriminate H | ]; apply (Call l rest1 eq_refl eq_refl); exact H).
    destruct (label_okb (LRun i c)) eqn:Hl; [ | discriminate H ]. destruct (exec E y (LRun i c)) as [| |y1 o] eqn:He; try discriminate H.
    destruct (play_prog E y1 rest (busy && negb (returns o)) fs) as [[[[[r1 b1] ls1] y2] tr1]|] eqn:Hp; [ | discriminate H ]. injection H as <- <- <- <- <-.
    change (LRun i c :: ls1) with ([LRun i c] ++ ls1). rewrite (app_assoc tr), (app_assoc ls [LRun i c] ls1). eapply IH; [ | exact Hp ]. eapply plays_run; [ exact P | apply label_okb_ok; exact Hl | exact He ].
Qed.
Definition tested_prog (E : env) (todo : list label) (fs : script) (Q : list label -> bool -> list label -> sys -> list obs -> bool) : bool :=
  match play_prog E (init E) todo false fs with Some (r, b, ls, y, tr) => Q r b ls y tr | None => false end.
Lemma tested_prog_ok E todo fs Q : tested_prog E todo fs Q = true -> exists r b ls y tr, plays E todo r b ls y tr /\ Q r b ls y tr = true.
Proof.
  unfold tested_prog. destruct (play_prog E (init E) todo false fs) as [[[[[r b] ls] y] tr]|] eqn:Hp; [ | discriminate ]. intros H. exists r, b, ls, y, tr. split; [ | exact H ].
  exact (play_prog_ok E todo fs _ _ _ _ _ _ _ _ _ _ (plays_nil E todo) Hp).
Qed.
Definition next_call : script := act LStop.
Definition example_host : env := example_controller [[2; 0; 0; 7]].
(** The data of the ArtDmx frames transmitted, in order. *)
Definition shown (tr : list obs) : list (list N) :=
  omap (fun x => match Unmarshal (snd (snd x)) with Ret (Some (PktDMX q), None) => Some (DMX_Data q) | _ => None end) (transmitted tr).
Definition show (now : Z) : script := tick 5 now ++ go_n 5 4 ++ transmit 3.
(** The node is discovered, then the four calls, with a tick after each. *)
Definition good_show : script :=
  up_ctl ++ discover ++ show 2000000000 ++ next_call ++ go_n 8 1 ++ show 4000000000 ++ next_call ++ go_n 9 1 ++ show 6000000000 ++ next_call ++ go_n 10 1 ++ show 8000000000 ++
  next_call ++ go_n 11 1 ++ show 10000000000 ++ transmit 3.
Example C100_ex : exists ls y tr, plays example_host controller_main [] false ls y tr /\ shown tr = stages /\ no_errors ls = true.
Proof.
  destruct (tested_prog_ok example_host controller_main good_show (fun r b ls _ tr => match r, b with [], false => bool_decide (shown tr = stages) && no_errors ls | _, _ => false end)) as (r & b & ls & y & tr & P & H);
    [ vm_compute; reflexivity | ]. destruct r, b; try discriminate. apply andb_prop in H. destruct H as [H1 H2]. apply bool_decide_eq_true in H1. eauto 10.
Qed.
(** The values are not always shown: a node on universe 0/0 that is discovered after the calls gets zeros, and the calls are not repeated. *)
Definition late_show : script :=
  up_ctl ++ next_call ++ go_n 7 1 ++ next_call ++ go_n 8 1 ++ next_call ++ go_n 9 1 ++ arrive 6 host2 one_output ++ parse 2 ++ go_n 10 3 ++ go_n 4 6 ++ act (LRun 4 (CTime 5%Z)) ++ show 2000000000 ++ transmit 3 ++ next_call ++ go_n 11 1 ++ show 4000000000.
Theorem C100_all_shown_refuted : exists ls y tr, plays example_host controller_main [] false ls y tr /\ no_errors ls = true /\ shown tr = [repeat 0 512; repeat 0 512].
Proof.
  destruct (tested_prog_ok example_host controller_main late_show (fun r b ls _ tr => match r, b with [], false => bool_decide (shown tr = [repeat 0 512; repeat 0 512]) && no_errors ls | _, _ => false end)) as (r & b & ls & y & tr & P & H);
    [ vm_compute; reflexivity | ]. destruct r, b; try discriminate. apply andb_prop in H. destruct H as [H1 H2]. apply bool_decide_eq_true in H1. eauto 10.
Qed.
(** A second program on the same machine: the port is taken, Start fails, all four calls are made all the same. *)
Example C100_deaf_ex : exists ls y tr, plays example_host controller_main [] false ls y tr /\ In (OStart false) tr /\ length (written tr) = 4%nat.
Proof.
  destruct (tested_prog_ok example_host controller_main (act LStart ++ go_n 0 2 ++ act (LRun 0 CErr) ++ next_call ++ go_n 1 1 ++ next_call ++ go_n 2 1 ++ next_call ++ go_n 3 1 ++ next_call ++ go_n 4 1)
    (fun r b _ _ tr => match r, b with [], false => existsb failed tr && (length (written tr) =? 4)%nat | _, _ => false end)) as (r & b & ls & y & tr & P & H); [ vm_compute; reflexivity | ].
  destruct r, b; try discriminate. apply andb_prop in H. destruct H as [H1 H2]. apply Nat.eqb_eq in H2. apply existsb_exists in H1. destruct H1 as (o & Ho & H1). destruct o; try discriminate. destruct ok; [ discriminate | ]. eauto 10.
Qed.
(** The node program answers a poll. *)
Example C100_node_ex : exists ls y tr x, plays (example_node studio) node_main [] false ls y tr /\ In x (transmitted tr) /\ Forall bytes_ok studio.
Proof.
  destruct (tested_prog_ok (example_node studio) node_main (up_node ++ serve_poll 5) (fun r b _ _ tr => match r, b, transmitted tr with [], false, _ :: _ => true | _, _, _ => false end)) as (r & b & ls & y & tr & P & H);
    [ vm_compute; reflexivity | ]. destruct r, b; try discriminate. destruct (transmitted tr) as [|x l] eqn:Et; [ discriminate | ]. exists ls, y, tr, x. rewrite Et. split; [ exact P | ].
  split; [ left; reflexivity | repeat constructor ].
Qed.
(** Two ticks, the first before the first call, the second after it. *)
Definition ticks (tr : list obs) : list (list (list N)) := omap (fun o => match o with OTable s (ETick _ _) out => match K_OutputAddress s !! (0, 0) with Some 0 => Some (omap (fun f => match Unmarshal (snd f) with Ret (Some (PktDMX q), None) => Some (DMX_Data q) | _ => None end) out) | _ => None end | _ => None end) tr.
Example C100_ticks_ex : exists rest busy ls y tr, plays example_host controller_main rest busy ls y tr /\ ticks tr = [[repeat 0 512]; [colour 0 0xff 0 0xff]].
Proof.
  destruct (tested_prog_ok example_host controller_main (up_ctl ++ discover ++ show 2000000000 ++ next_call ++ go_n 8 1 ++ show 4000000000) (fun _ _ _ _ tr => bool_decide (ticks tr = [[repeat 0 512]; [colour 0 0xff 0 0xff]])))
    as (r & b & ls & y & tr & P & H); [ vm_compute; reflexivity | ]. apply bool_decide_eq_true in H. eauto 10.
Qed.

Definition P_Programs_theorems := (C100_in_order, C100_no_crash, C100_frames, C100_shown_in_order, C100_node, C100_deaf, C100_all_shown_refuted, C100_ex, C100_deaf_ex, C100_node_ex, C100_ticks_ex).
Print Assumptions P_Programs_theorems.
