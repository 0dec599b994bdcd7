(** C109: what the log of a node or controller says about what it does (/repo/logger.go and every use of the log). *)
From Coq Require Import String.
From Verif Require Import WireSpec P_Config ControllerFacts P_Controller SysFacts SysLaws SysScript P_Node P_Life P_Live P_Errors Log.
From stdpp Require Import base list gmap strings.
Open Scope list_scope.
Open Scope N_scope.

(** * Reading a log *)
Definition about (m : string) (lg : list entry) : list entry := List.filter (fun e => String.eqb (G_msg e) m) lg.
Definition at_level (v : level) (lg : list entry) : list entry := List.filter (fun e => bool_decide (G_level e = v)) lg.
Definition get (k : string) (e : entry) : option value := field k (G_fields e).
(** Parts of a trace. *)
Definition sent (tr : list obs) : list payload := flat_map (fun o => match o with OTx x => [snd x] | _ => [] end) tr.
Definition ignored (tr : list obs) : list packet := flat_map (fun o => match o with OIgnore p => [p] | _ => [] end) tr.
Definition parsed (tr : list obs) : list (list N) := flat_map (fun o => match o with OParse d => [d] | _ => [] end) tr.
Definition sends (tr : list obs) : list Address := flat_map (fun o => match o with OTable _ (ESend _ a) _ => [a] | _ => [] end) tr.
(** A datagram that is not decoded to a packet. *)
Definition refused (d : list N) : bool := match Unmarshal d with Ret (_, Some _) => true | _ => false end.

(** The nodes a reader of the log knows of, IP and name, from the three messages about them. *)
Definition replay (r : list (list N * list N)) (e : entry) : list (list N * list N) :=
  match get "ip" e, get "node" e with
  | Some (VIP ip), Some (VBytes name) =>
      if String.eqb (G_msg e) "added node" then r ++ [(ip, name)]
      else if String.eqb (G_msg e) "updated node" then map (fun x => if bool_decide (fst x = ip) then (ip, name) else x) r
      else if String.eqb (G_msg e) "remove stale node" then List.filter (fun x => negb (bool_decide (x = (ip, name)))) r
      else r
  | _, _ => r
  end.
(** The nodes of the controller, IP and name, in the order of c.Nodes. *)
Definition view (k : Controller) (n : nid) : list N * list N :=
  match K_heap k !! n with Some cn => (C_IP (CN_Node cn), C_Name (CN_Node cn)) | None => ([], []) end.
Definition views (k : Controller) : list (list N * list N) := map (view k) (K_Nodes k).

(** * Runs *)
Lemma lsteps_steps E y ls y' tr lg : lsteps E y ls y' tr lg -> steps E y ls y' tr.
Proof. induction 1; econstructor; eassumption. Qed.
Lemma lruns_runs E ls y tr lg : lruns E ls y tr lg -> runs E ls y tr.
Proof. apply lsteps_steps. Qed.
(** Every execution writes exactly one log. *)
Theorem C109_log : forall E ls y tr, runs E ls y tr -> exists lg, lruns E ls y tr lg /\ forall y' tr' lg', lruns E ls y' tr' lg' -> y' = y /\ tr' = tr /\ lg' = lg.
Proof.
  intros E ls y tr R. unfold runs, lruns in *. induction R as [y|y ls y1 tr l y2 o R IH Hl Hx].
  - exists []. split; [ constructor | ]. intros y' tr' lg' H. inversion H as [|? ls0]; subst; [ auto | ]. destruct ls0; discriminate.
  - destruct IH as (lg & L & U). exists (lg ++ logged E y1 l). split; [ econstructor; eassumption | ].
    intros y' tr' lg' H. remember (ls ++ [l]) as ll eqn:e. destruct H as [y0|y0 ls0 y3 tr0 lg0 l0 y4 o0 H0 H1 H2]; [ destruct ls; discriminate | ].
    apply app_inj_tail in e. destruct e as [-> ->]. destruct (U _ _ _ H0) as (-> & -> & ->). rewrite H2 in Hx. injection Hx as -> ->. auto.
Qed.
Lemma about_app m a b : about m (a ++ b) = about m a ++ about m b.
Proof. apply List.filter_app. Qed.
Lemma at_level_app v a b : at_level v (a ++ b) = at_level v a ++ at_level v b.
Proof. apply List.filter_app. Qed.

(** What a step writes, by kind of step. *)
Lemma lsteps_ind2 (E : env) (P : sys -> list obs -> list entry -> Prop) :
  P (init E) [] [] ->
  (forall y1 tr lg l y2 o, (exists ls, runs E ls y1 tr) -> P y1 tr lg -> label_ok l -> exec E y1 l = RNext y2 o -> P y2 (tr ++ o) (lg ++ logged E y1 l)) ->
  forall ls y tr lg, lruns E ls y tr lg -> P y tr lg.
Proof.
  intros H0 HS ls y tr lg R. unfold lruns in R. remember (init E) as y0 eqn:Ey. induction R as [y|y ls y1 tr lg l y2 o R IH Hl Hx]; subst; [ exact H0 | ].
  apply HS; auto. exists ls. exact (lsteps_steps _ _ _ _ _ _ R).
Qed.
Lemma logged_run E y i c t : Y_threads y !! i = Some t -> logged E y (LRun i c) = tlog E (Y_sh y) t c.
Proof. intros H. cbn. rewrite H. reflexivity. Qed.

(** The messages of the operations on the tables. *)
Definition table_msgs : list string := ["updated node"; "added node"; "remove stale node"; "received update channels"; "could not find node for address";
  "error setting buffer on address"; "error getting buffer for address"]%string.
Definition says_one (ms : list string) (v : level) (e : entry) : Prop := In (G_msg e) ms /\ (G_level e = Debug \/ G_level e = v).
Ltac one := solve [ constructor | constructor; [ split; cbn; auto 8 | constructor ] ].
Lemma reply_log_says b k q : Forall (says_one ["updated node"; "added node"]%string Debug) (reply_log b k q).
Proof.
  unfold reply_log, updateNode_log. destruct (ConfigFromArtPollReply q) as [cfg|]; [ | constructor ].
  destruct (_ && _); [ constructor | ]. destruct (_ && _); [ constructor | ].
  destruct (find_ip _ _ _) as [[n|]|]; one.
Qed.
Lemma gc_scan_log_says b s clock is : forall k, Forall (says_one ["remove stale node"]%string Debug) (gc_scan_log b s clock k is).
Proof.
  induction is as [|i is IH]; intros k; cbn [gc_scan_log]; [ constructor | ].
  destruct (node_at s i) as [n|]; [ | constructor ]. destruct (deref s n) as [cn|]; [ | constructor ].
  destruct (_ <? _)%Z; [ one | apply IH ].
Qed.
Lemma gc_loop_log_says b clock fuel : forall s k, Forall (says_one ["remove stale node"]%string Debug) (gc_loop_log b fuel s clock k).
Proof.
  induction fuel as [|fuel IH]; intros s k; cbn [gc_loop_log]; [ constructor | ]. apply Forall_app. split; [ apply gc_scan_log_says | ].
  destruct (gc_scan _ _ _ _) as [[[s' k']|[s' k']]|]; try constructor. apply IH.
Qed.
Lemma send_log_says b k d a : Forall (says_one ["received update channels"; "could not find node for address"; "error setting buffer on address"]%string Error) (send_log b k d a).
Proof.
  unfold send_log. constructor; [ split; cbn; auto | ]. destruct (K_OutputAddress k !! a) as [n|]; [ | one ].
  destruct (deref k n) as [cn|]; [ | constructor ]. destruct (snd _); one.
Qed.
Lemma tick_body_log_says b f cn a now : Forall (says_one ["error getting buffer for address"]%string Error) (tick_body_log b f cn a now).
Proof.
  unfold tick_body_log. cbv zeta. repeat case_match; one.
Qed.
Lemma tick_loop_log_says b order now : forall s, Forall (says_one ["error getting buffer for address"]%string Error) (tick_loop_log b s order now).
Proof.
  induction order as [|[a n] order IH]; intros s; cbn [tick_loop_log]; [ constructor | ]. destruct (deref s n) as [cn|]; [ | constructor ].
  apply Forall_app. split; [ apply tick_body_log_says | ]. destruct (tick_body _ _ _ _) as [[cn' out]|]; [ apply IH | constructor ].
Qed.
Lemma about_none m ms v l : Forall (says_one ms v) l -> ~ In m ms -> about m l = [].
Proof.
  intros H N. induction H as [|e l [He _] _ IH]; [ reflexivity | ]. cbn [about List.filter]. destruct (String.eqb_spec (G_msg e) m) as [<-|D]; [ contradiction | exact IH ].
Qed.
Lemma level_none v w ms l : Forall (says_one ms w) l -> v <> Debug -> v <> w -> at_level v l = [].
Proof.
  intros H D W. induction H as [|e l [_ He] _ IH]; [ reflexivity | ]. cbn [at_level List.filter]. rewrite bool_decide_false by (intros K; destruct He; congruence). exact IH.
Qed.
Ltac by_msg := (eapply about_none; [ first [ apply reply_log_says | apply gc_loop_log_says | apply send_log_says | apply tick_loop_log_says ] | cbn; intuition discriminate ]).
Ltac by_level := (eapply level_none; [ first [ apply reply_log_says | apply gc_loop_log_says | apply send_log_says | apply tick_loop_log_says ] | discriminate | discriminate ]).

(** * Transmissions *)
Lemma sent_app a b : sent (a ++ b) = sent a ++ sent b. Proof. apply flat_map_app. Qed.
Lemma ignored_app a b : ignored (a ++ b) = ignored a ++ ignored b. Proof. apply flat_map_app. Qed.
Lemma parsed_app a b : parsed (a ++ b) = parsed a ++ parsed b. Proof. apply flat_map_app. Qed.
Lemma sends_app a b : sends (a ++ b) = sends a ++ sends b. Proof. apply flat_map_app. Qed.
(** "packet sent" is written once for each datagram given to the network, in this order, with its destination and size. *)
Theorem C109_sent : forall E ls y tr lg, lruns E ls y tr lg ->
  map (fun e => (get "dst" e, get "bytes" e)) (about "packet sent" lg) = map (fun f : payload => (Some (VAddr (fst f)), Some (VNum (len (snd f))))) (sent tr).
Proof.
  intros E. apply lsteps_ind2; [ reflexivity | ]. intros y1 tr lg l y2 o _ IH _ Hx. rewrite about_app, sent_app, !map_app, IH. f_equal.
  apply exec_cases in Hx. destruct Hx as [(i & c & t & s & t' & sp & -> & Et & Es & _)|[(t & -> & _ & K)|(mm & op & f & -> & _ & _ & _ & K)]].
  - rewrite (logged_run _ _ _ _ _ Et). tcases Es; try reflexivity; cbn [tlog]; repeat case_match; try reflexivity; try (change (sent _) with (@nil payload); erewrite (about_none "packet sent"); [ reflexivity | first [ apply reply_log_says | apply gc_loop_log_says | apply send_log_says | apply tick_loop_log_says ] | cbn; intuition discriminate ]).
  - destruct K as [[-> _]|[[-> _]|(d & a & -> & _)]]; reflexivity.
  - destruct f; subst l; cbn; destruct (S_shutdown (Y_sh y1)); reflexivity.
Qed.
Ltac step_log Hx :=
  apply exec_cases in Hx; destruct Hx as [(i & c & t & s & t' & sp & -> & Et & Es & _)|[(t & -> & _ & K)|(mm & op & f & -> & _ & _ & _ & K)]];
  [ rewrite (logged_run _ _ _ _ _ Et) | destruct K as [[-> _]|[[-> _]|(d & a & -> & _)]]; reflexivity | destruct f; subst; cbn; destruct (S_shutdown _); reflexivity ].
Ltac no_msg m := (erewrite (about_none m); [ reflexivity | first [ apply reply_log_says | apply gc_loop_log_says | apply send_log_says | apply tick_loop_log_says ] | cbn; intuition discriminate ]).
Ltac no_level v := (erewrite (level_none v); [ reflexivity | first [ apply reply_log_says | apply gc_loop_log_says | apply send_log_says | apply tick_loop_log_says ] | discriminate | discriminate ]).

(** "ignoring unhandled packet" is written once for each packet without a callback, in this order, with the packet. *)
Theorem C109_ignored : forall E ls y tr lg, lruns E ls y tr lg ->
  map (get "packet") (about "ignoring unhandled packet" lg) = map (fun p => Some (VPacket p)) (ignored tr).
Proof.
  intros E. apply lsteps_ind2; [ reflexivity | ]. intros y1 tr lg l y2 o _ IH _ Hx. rewrite about_app, ignored_app, !map_app, IH. f_equal.
  step_log Hx. tcases Es; try reflexivity; cbn [tlog]; repeat case_match; try reflexivity; try (exfalso; congruence);
    try (change (ignored _) with (@nil packet); no_msg "ignoring unhandled packet"%string).
Qed.

(** * Datagrams that are refused *)
(** What the message of a refusal says about the datagram (C101, with the two cases in which it does not say what is wrong). *)
Definition told (d : list N) (text : string) : Prop :=
  says d text \/ (wire_opcode d = 0x0021 /\ text = "incompatible version. want: =>14, got: 0"%string) \/
  (wire_opcode d = 0x2100 /\ nth 14 d 0 + 256 * nth 15 d 0 <> 6454 /\
   exists n, numeral 10 (256 * nth 14 d 0 + nth 15 d 0) n /\ text = ("invalid port: want: 6454, got: " ++ n)%string).
(** A warning is written once for each datagram that is refused, in this order, with the bytes of the datagram, and says what is wrong with it; nothing else is a warning. *)
Theorem C109_refused : forall E ls y tr lg, lruns E ls y tr lg ->
  Forall2 (fun d e => get "data" e = Some (VBytes d) /\ exists text, G_msg e = ("failed to parse packet: " ++ text)%string /\ told d text)
    (List.filter refused (parsed tr)) (at_level Warn lg).
Proof.
  intros E. apply lsteps_ind2; [ constructor | ]. intros y1 tr lg l y2 o [ls0 R] IH _ Hx. rewrite at_level_app, parsed_app, List.filter_app. apply Forall2_app; [ exact IH | ].
  assert (Z : forall a b, a = [] -> b = [] -> Forall2 (fun d e => get "data" e = Some (VBytes d) /\ exists text, G_msg e = ("failed to parse packet: " ++ text)%string /\ told d text) a b) by (intros ? ? -> ->; constructor).
  pose proof (sys_threads _ _ _ (runs_ok _ _ _ _ R)) as Ht.
  apply exec_cases in Hx. destruct Hx as [(i & c & t & s & t' & sp & -> & Et & Es & _)|[(t & -> & _ & K)|(mm & op & f & -> & _ & _ & _ & K)]].
  - rewrite (logged_run _ _ _ _ _ Et). rewrite Forall_forall in Ht. apply elem_of_list_lookup_2 in Et. specialize (Ht _ Et).
    tcases Es; try (apply Z; reflexivity); cbn [tlog]; repeat case_match; try (apply Z; reflexivity); try (exfalso; congruence);
      try (apply Z; [ reflexivity | ]; no_level Warn).
    + match goal with U : Unmarshal data = Ret (?x, Some ?e) |- _ => cbn [parsed flat_map app List.filter]; unfold refused; rewrite U; constructor; [ | constructor ]; split; [ reflexivity | ]; exists (goerr_Error e); split; [ reflexivity | ];
        exact (C101_says_partial data x e (proj1 Ht) U) end.
    + apply Z; [ | reflexivity ]. cbn. unfold refused. match goal with U : Unmarshal data = _ |- _ => rewrite U end. reflexivity.
  - destruct K as [[-> _]|[[-> _]|(d & a & -> & _)]]; apply Z; reflexivity.
  - destruct f; subst; cbn; destruct (S_shutdown _); apply Z; reflexivity.
Qed.

(** * SendDMXToAddress *)
(** "received update channels" is written once for each call, in the order in which the calls take effect, with the universe. *)
Theorem C109_calls : forall E ls y tr lg, lruns E ls y tr lg ->
  map (get "address") (about "received update channels" lg) = map (fun a => Some (VText (Address_String a))) (sends tr).
Proof.
  intros E. apply lsteps_ind2; [ reflexivity | ]. intros y1 tr lg l y2 o _ IH _ Hx. rewrite about_app, sends_app, !map_app, IH. f_equal.
  step_log Hx. tcases Es; try reflexivity; cbn [tlog]; repeat case_match; try reflexivity; try (exfalso; congruence);
    try (change (sends _) with (@nil Address); no_msg "received update channels"%string).
  unfold send_log. destruct (K_OutputAddress _ !! a) as [n|]; [ | reflexivity ]. destruct (deref _ _) as [cn|]; [ destruct (snd _) | ]; reflexivity.
Qed.
(** The call returns nothing. Whether the channels were taken is in the log and nowhere else: no error is written exactly when the buffer of the universe now holds them; otherwise one error is
    written, with the universe, and no table has changed. *)
Theorem C109_send : forall E ls y tr lg i dmx a y' o, lruns E ls y tr lg -> Y_threads y !! i = Some (U_send dmx a) -> exec E y (LRun i CGo) = RNext y' o ->
  (at_level Error (logged E y (LRun i CGo)) = [] /\
   exists n cn b, K_OutputAddress (S_tables (Y_sh y')) !! a = Some n /\ K_heap (S_tables (Y_sh y')) !! n = Some cn /\ CN_DMXBuffer cn !! a = Some b /\ B_Data b = dmx /\ B_Stale b = true) \/
  (exists e, at_level Error (logged E y (LRun i CGo)) = [e] /\ get "address" e = Some (VText (Address_String a)) /\ S_tables (Y_sh y') = S_tables (Y_sh y) /\
   (K_OutputAddress (S_tables (Y_sh y)) !! a = None /\ G_msg e = "could not find node for address"%string \/
    exists n cn, K_OutputAddress (S_tables (Y_sh y)) !! a = Some n /\ K_heap (S_tables (Y_sh y)) !! n = Some cn /\ CN_DMXBuffer cn !! a = None /\ G_msg e = "error setting buffer on address"%string)).
Proof.
  intros E ls y tr lg i dmx a y' o R Ht Hx. rewrite (logged_run _ _ _ _ _ Ht). cbn [exec] in Hx. rewrite Ht in Hx. cbn [tstep tlog] in *.
  destruct (S_lock (Y_sh y)); [ discriminate | ]. unfold send_log. cbn [step] in Hx. unfold SendDMXToAddress, deref in *. set (k := S_tables (Y_sh y)) in *.
  destruct (K_OutputAddress k !! a) as [n|] eqn:Eo.
  - destruct (K_heap k !! n) as [cn|] eqn:Ec; [ | discriminate ]. unfold setDMXBuffer in *. destruct (CN_DMXBuffer cn !! a) as [b|] eqn:Eb; rewrite ?Eo, ?Ec, ?Eb in Hx; cbn [bind] in Hx; rewrite ?Eb in Hx; cbn [bind] in Hx; cbn [snd]; injection Hx as <- <-; cbn [Y_sh S_tables with_tables].
    + left. split; [ reflexivity | ]. exists n. eexists. eexists. split; [ exact Eo | ]. split; [ cbn; apply lookup_insert | ]. split; [ cbn; apply lookup_insert | ]. split; reflexivity.
    + right. eexists. split; [ reflexivity | ]. split; [ reflexivity | ]. split; [ unfold set_heap; rewrite (insert_id _ _ _ Ec); destruct k; reflexivity | ]. right. exists n, cn. auto.
  - cbn [bind] in Hx. injection Hx as <- <-. right. eexists. split; [ reflexivity | ]. split; [ reflexivity | ]. split; [ reflexivity | ]. left. auto.
Qed.

(** * The nodes *)
Lemma replay_none m ms v l r : Forall (says_one ms v) l -> ~ In "added node"%string ms -> ~ In "updated node"%string ms -> ~ In "remove stale node"%string ms -> m = ms -> fold_left replay l r = r.
Proof.
  intros H N1 N2 N3 _. induction H as [|e l [He _] _ IH]; [ reflexivity | ]. cbn [fold_left]. assert (K : replay r e = r); [ | rewrite K; exact IH ].
  unfold replay. destruct (get "ip" e) as [[]|]; try reflexivity. destruct (get "node" e) as [[]|]; try reflexivity.
  destruct (String.eqb_spec (G_msg e) "added node") as [K|_]; [ rewrite K in He; contradiction | ].
  destruct (String.eqb_spec (G_msg e) "updated node") as [K|_]; [ rewrite K in He; contradiction | ].
  destruct (String.eqb_spec (G_msg e) "remove stale node") as [K|_]; [ rewrite K in He; contradiction | ]. reflexivity.
Qed.
Lemma view_ip k n : is_Some (K_heap k !! n) -> fst (view k n) = ip_of k n.
Proof. intros [cn H]. unfold view, ip_of. rewrite H. reflexivity. Qed.
Lemma reply_replay b k q now k' : Inv k -> handle_reply k q now = Ret k' -> fold_left replay (reply_log b k q) (views k) = views k'.
Proof.
  intros I H. unfold handle_reply, reply_log in *. destruct (ConfigFromArtPollReply q) as [cfg|]; [ | discriminate ]. cbn [bind] in H.
  destruct (_ && _); [ injection H as <-; reflexivity | ]. destruct (_ && _); [ injection H as <-; reflexivity | ].
  unfold updateNode_log, updateNode in *. destruct (find_ip_eq k (C_IP cfg) (K_Nodes k) (inv_listed k I)) as [(n & F & Hn & Hi)|(F & Hi)]; rewrite F in *; cbn [bind] in H.
  - destruct (inv_listed k I n Hn) as [cn Hc]. unfold deref in H. rewrite Hc in H. cbn [bind] in H. injection H as <-. cbn [fold_left replay get field G_fields G_msg String.eqb Ascii.eqb Bool.eqb].
    unfold views. cbn [route set_in set_out K_Nodes set_heap unroute K_heap]. rewrite map_map. apply map_ext_in. intros m Hm. apply elem_of_list_In in Hm.
    destruct (decide (m = n)) as [->|D].
    + rewrite bool_decide_true. { unfold view. cbn [K_heap route set_in set_out set_heap unroute]. rewrite lookup_insert. reflexivity. }
      rewrite view_ip by eauto. exact Hi.
    + rewrite bool_decide_false. { unfold view. cbn [K_heap route set_in set_out set_heap unroute]. rewrite lookup_insert_ne by congruence. reflexivity. }
      rewrite view_ip by (apply (inv_listed k I); exact Hm). intros K. apply D. apply (inv_ip_inj k m n I Hm Hn). congruence.
  - injection H as <-. cbn [fold_left replay get field G_fields G_msg String.eqb Ascii.eqb Bool.eqb].
    unfold views. cbn [route set_in set_out K_Nodes K_heap]. rewrite map_app. f_equal.
    + apply map_ext_in. intros m Hm. apply elem_of_list_In in Hm. unfold view. cbn [K_heap route set_in set_out set_heap unroute]. destruct (inv_listed k I m Hm) as [cm Hc]. pose proof (inv_next k I m cm Hc). rewrite lookup_insert_ne by lia. reflexivity.
    + cbn [map]. unfold view. cbn [K_heap route set_in set_out set_heap unroute]. rewrite lookup_insert. reflexivity.
Qed.
Lemma gc_scan_replay b s clock : Inv s -> forall is k, (forall i, In i is -> (i < length (K_Nodes s))%nat) ->
  fold_left replay (gc_scan_log b s clock k is) (views s) = match gc_scan s clock k is with Ret (inl (s', _)) | Ret (inr (s', _)) => views s' | Panic => views s end.
Proof.
  intros I. induction is as [|i is IH]; intros k Hi; cbn [gc_scan gc_scan_log]; [ reflexivity | ].
  unfold node_at. destruct (nth_error (K_Nodes s) i) as [n|] eqn:En; [ | reflexivity ]. cbn [bind].
  assert (Hn : n ∈ K_Nodes s) by (apply elem_of_list_In; eapply nth_error_In; exact En).
  destruct (inv_listed s I n Hn) as [cn Hc]. unfold deref. rewrite Hc. cbn [bind].
  destruct (_ <? _)%Z; [ | apply IH; intros j Hj; apply Hi; right; exact Hj ].
  cbn [fold_left replay get field G_fields G_msg String.eqb Ascii.eqb Bool.eqb]. unfold views. cbn [set_nodes unroute set_in set_out K_Nodes].
  rewrite (remove_at_filter _ _ n (inv_nodup s I) En), filter_List.
  assert (G : forall l, (forall m, m ∈ l -> m ∈ K_Nodes s) -> List.filter (fun x => negb (bool_decide (x = (C_IP (CN_Node cn), C_Name (CN_Node cn))))) (map (view s) l) = map (view s) (List.filter (fun x => bool_decide (x <> n)) l)).
  { induction l as [|m l IHl]; intros Hl; [ reflexivity | ]. cbn [map List.filter]. rewrite IHl by (intros x Hx; apply Hl; right; exact Hx).
    assert (Hm : m ∈ K_Nodes s) by (apply Hl; left).
    destruct (decide (m = n)) as [->|D].
    - rewrite bool_decide_true by (unfold view; rewrite Hc; reflexivity). rewrite bool_decide_false by tauto. reflexivity.
    - rewrite bool_decide_false, bool_decide_true; [ reflexivity | exact D | ]. intros K. apply D. apply (inv_ip_inj s m n I Hm Hn). unfold ip_of at 2. rewrite Hc.
      apply (f_equal fst) in K. rewrite view_ip in K by (apply (inv_listed s I); exact Hm). exact K. }
  apply G. auto.
Qed.
Lemma gc_loop_replay b clock fuel : forall s k s' k', Inv s -> gc_loop fuel s clock k = Ret (s', k') -> fold_left replay (gc_loop_log b fuel s clock k) (views s) = views s'.
Proof.
  induction fuel as [|fuel IH]; intros s k s' k' I H; [ discriminate | ]. cbn [gc_loop gc_loop_log] in *. rewrite fold_left_app.
  assert (Hs : forall i, In i (seq 0 (length (K_Nodes s))) -> (i < length (K_Nodes s))%nat) by (intros i Hi; apply in_seq in Hi; lia).
  rewrite (gc_scan_replay b s clock I _ _ Hs).
  destruct (gc_scan_eq s clock I _ k Hs) as [(k1 & F & _)|(i & n & cn & j & F & _ & _ & Hc & _)]; rewrite F in *; cbn [bind] in H.
  - injection H as <- <-. reflexivity.
  - apply (IH _ _ _ _ (Inv_without s n cn I Hc) H).
Qed.
Lemma views_touch k k' : K_Nodes k' = K_Nodes k -> (forall n, n ∈ K_Nodes k -> CN_Node <$> K_heap k' !! n = CN_Node <$> K_heap k !! n) -> views k' = views k.
Proof.
  intros H1 H2. unfold views. rewrite H1. apply map_ext_in. intros n Hn. apply elem_of_list_In in Hn. specialize (H2 n Hn). unfold view.
  destruct (K_heap k' !! n), (K_heap k !! n); cbn in H2; try discriminate; [ injection H2 as -> | ]; reflexivity.
Qed.
Lemma send_nodes k d a k' ok : SendDMXToAddress k d a = Ret (k', ok) -> K_Nodes k' = K_Nodes k /\ forall n, CN_Node <$> K_heap k' !! n = CN_Node <$> K_heap k !! n.
Proof.
  unfold SendDMXToAddress, deref. destruct (K_OutputAddress k !! a) as [m|]; [ | intros [= <- _]; auto ].
  destruct (K_heap k !! m) as [cn|] eqn:Ec; [ | discriminate ]. cbn [bind]. destruct (setDMXBuffer cn d a) as [cn' ok'] eqn:Es. intros [= <- _]. split; [ reflexivity | ].
  intros n. cbn. destruct (decide (n = m)) as [->|D]; [ | rewrite lookup_insert_ne by congruence; reflexivity ]. rewrite lookup_insert, Ec. cbn. f_equal.
  pose proof (setDMX_node cn d a) as K. rewrite Es in K. exact K.
Qed.
Lemma tick_nodes order now : forall k k' out, Inv k -> (forall a n, (a, n) ∈ order -> K_OutputAddress k !! a = Some n) -> tick_loop k order now = Ret (k', out) ->
  K_Nodes k' = K_Nodes k /\ forall n, CN_Node <$> K_heap k' !! n = CN_Node <$> K_heap k !! n.
Proof.
  induction order as [|[a m] order IH]; intros k k' out I Ho H; cbn [tick_loop] in H; [ injection H as <- _; auto | ].
  assert (Hm : K_OutputAddress k !! a = Some m) by (apply Ho; left). destruct (inv_out k I a m Hm) as [_ (cn & Hc & Ha)].
  assert (Hok : cn_ok cn) by (eapply inv_cn; eassumption). assert (Hao : addr_ok a) by (destruct Hok as (_ & _ & Hf & _); rewrite Forall_forall in Hf; apply Hf; exact Ha).
  unfold deref in H. rewrite Hc in H. cbn [bind] in H. rewrite (tick_body_eq _ cn a now Hok Hao) in H. cbn [bind] in H.
  destruct (tick_loop _ order now) as [[k1 out1]|] eqn:F; [ | discriminate ]. cbn [bind] in H. injection H as <- _.
  apply IH in F. 2:{ eapply Inv_touch; [ exact I | exact Hc | apply ticked_node | apply ticked_ok; exact Hok ]. } 2:{ intros b n Hn. apply Ho. right. exact Hn. }
  destruct F as [F1 F2]. split; [ exact F1 | ]. intros n. rewrite F2. cbn. destruct (decide (n = m)) as [->|D]; [ | rewrite lookup_insert_ne by congruence; reflexivity ].
  rewrite lookup_insert, Hc. cbn. f_equal. apply ticked_node.
Qed.

(** At any time, replaying the messages about nodes gives the nodes of the controller with their names, in the order of c.Nodes. *)
Theorem C109_nodes : forall E ls y tr lg, lruns E ls y tr lg -> fold_left replay lg [] = views (S_tables (Y_sh y)).
Proof.
  intros E. apply lsteps_ind2; [ reflexivity | ]. intros y1 tr lg l y2 o [ls0 R] IH _ Hx. rewrite fold_left_app, IH. clear IH lg.
  pose proof (runs_ok _ _ _ _ R) as K0. assert (I : Inv (S_tables (Y_sh y1))) by (eapply reach_inv; apply (sys_shared _ _ _ K0)).
  apply exec_cases in Hx. destruct Hx as [(i & c & t & s & t' & sp & -> & Et & Es & ->)|[(t & -> & -> & K)|(mm & op & f & -> & -> & _ & _ & K)]]; cbn [Y_sh].
  - rewrite (logged_run _ _ _ _ _ Et). clear Et.
    tcases Es; cbn [S_tables with_tables with_shutdown with_err with_gens with_conns with_cgens with_tickers upd_gen]; unfold upd_gen; cbn [S_tables with_gens]; try reflexivity; cbn [tlog]; repeat case_match; try reflexivity.
    + cbn [step] in *. unfold gcNode, gcNode_log in *. match goal with H : _ = Ret (k, out) |- _ => destruct (gc_loop _ _ _ _) as [[k1 n1]|] eqn:F; [ | discriminate H ]; cbn [bind] in H; injection H as <- _ end.
      exact (gc_loop_replay _ _ _ _ _ _ _ I F).
    + cbn [step] in *. match goal with H : _ = Ret (k, out) |- _ => destruct (handle_reply _ _ _) as [k1|] eqn:F; [ | discriminate H ]; cbn [bind] in H; injection H as <- _ end.
      exact (reply_replay _ _ _ _ _ I F).
    + erewrite replay_none; [ | apply tick_loop_log_says | cbn; intuition discriminate .. | reflexivity ]. symmetry.
      match goal with H : step _ (ETick _ _) = _ |- _ => cbn [step] in H; eapply tick_nodes in H; [ | exact I | ] end; [ apply views_touch; intuition | ].
      apply order_routed. assumption.
    + erewrite replay_none; [ | apply send_log_says | cbn; intuition discriminate .. | reflexivity ]. symmetry.
      cbn [step] in *. match goal with H : _ = Ret (k, out) |- _ => destruct (SendDMXToAddress _ _ _) as [[k1 ok]|] eqn:F; [ | discriminate H ]; cbn [bind] in H; injection H as <- _ end.
      apply send_nodes in F. apply views_touch; intuition.
    + cbn [step] in *. match goal with H : _ = Ret (k, out) |- _ => injection H as <- _ end. reflexivity.
  - destruct K as [[-> _]|[[-> _]|(d & a & -> & _)]]; reflexivity.
  - destruct f; subst; cbn; destruct (S_shutdown _); reflexivity.
Qed.

(** * What is alarming *)
Lemma tick_body_quiet b f cn a now : cn_ok cn -> addr_ok a -> tick_body_log b f cn a now = [].
Proof.
  intros Ho Ha. unfold tick_body_log. cbv zeta. set (cn1 := match CN_DMXBuffer cn !! a with None => _ | Some _ => cn end).
  assert (H1 : cn_ok cn1 /\ exists b1, CN_DMXBuffer cn1 !! a = Some b1).
  { unfold cn1. destruct (CN_DMXBuffer cn !! a) as [b1|] eqn:E; [ eauto | ]. cbn. rewrite lookup_insert. split; [ | eauto ].
    destruct Ho as (? & ? & ? & ? & ?). split; [ assumption | ]. split; [ assumption | ]. split; [ assumption | ]. split; [ assumption | ]. cbn. apply map_Forall_insert_2; [ | assumption ].
    split; [ reflexivity | apply bytes_ok_zeros ]. }
  clearbody cn1. destruct H1 as (Ho1 & b1 & E1). rewrite E1. destruct (_ && _).
  - rewrite (update_eq cn1 a now b1 Ho1 Ha E1). cbn [CN_DMXBuffer]. rewrite lookup_insert. cbn [B_LastUpdate].
    change forceUpdate with 250000000%Z. destruct (Z.ltb_spec now (now - 250000000)); [ lia | reflexivity ].
  - rewrite E1. destruct (_ <? _)%Z; [ | reflexivity ]. rewrite (update_eq cn1 a now b1 Ho1 Ha E1). reflexivity.
Qed.
Lemma tick_loop_quiet b order now : forall k, Inv k -> (forall a n, (a, n) ∈ order -> K_OutputAddress k !! a = Some n) -> tick_loop_log b k order now = [].
Proof.
  induction order as [|[a m] order IH]; intros k I Ho; cbn [tick_loop_log]; [ reflexivity | ].
  assert (Hm : K_OutputAddress k !! a = Some m) by (apply Ho; left). destruct (inv_out k I a m Hm) as [_ (cn & Hc & Ha)].
  assert (Hok : cn_ok cn) by (eapply inv_cn; eassumption). assert (Hao : addr_ok a) by (destruct Hok as (_ & _ & Hf & _); rewrite Forall_forall in Hf; apply Hf; exact Ha).
  unfold deref. rewrite Hc. rewrite (tick_body_eq _ cn a now Hok Hao), (tick_body_quiet _ _ _ _ _ Hok Hao). cbn [app]. apply IH.
  - eapply Inv_touch; [ exact I | exact Hc | apply ticked_node | apply ticked_ok; exact Hok ].
  - intros x n Hn. apply Ho. right. exact Hn.
Qed.
(** The entries above Debug: a datagram that is refused, a call of SendDMXToAddress that has no effect, a socket that cannot be opened, a socket that is closed twice. The errors
    "error creating ArtPollReply packet for self", "error creating ArtPoll packet", "error updating node" and "error getting buffer for address" are never written. *)
Theorem C109_alarms : forall E ls y tr lg, wf_config (E_config E) -> lruns E ls y tr lg ->
  Forall (fun e => match G_level e with
    | Debug => True
    | Info => G_msg e = "failed to close read socket: %!v(MISSING)"%string
    | Warn => exists d, get "data" e = Some (VBytes d) /\ In (OParse d) tr /\ refused d = true
    | Error => (exists k dmx a, In (OTable k (ESend dmx a) []) tr /\ get "address" e = Some (VText (Address_String a)) /\ (G_msg e = "could not find node for address" \/ G_msg e = "error setting buffer on address")%string) \/
        (In (OStart false) tr /\ G_msg e = "error net.ListenPacket"%string)
    end) lg.
Proof.
  intros E ls y tr lg W. revert ls y tr lg. apply lsteps_ind2; [ constructor | ]. intros y1 tr lg l y2 o [ls0 R] IH _ Hx. apply Forall_app. split.
  { eapply Forall_impl; [ exact IH | ]. intros e. cbn beta. destruct (G_level e); auto.
    - intros (d & H1 & H2 & H3). exists d. split; [ exact H1 | ]. split; [ apply in_or_app; auto | exact H3 ].
    - intros [(k & dmx & a & H1 & H2)|[H1 H2]]; [ left; exists k, dmx, a | right ]; (split; [ apply in_or_app; auto | assumption ]). }
  clear IH. pose proof (runs_ok _ _ _ _ R) as K0. assert (I : Inv (S_tables (Y_sh y1))) by (eapply reach_inv; apply (sys_shared _ _ _ K0)).
  assert (D : forall x, In x o -> In x (tr ++ o)) by (intros; apply in_or_app; auto).
  apply exec_cases in Hx. destruct Hx as [(i & c & t & s & t' & sp & -> & Et & Es & _)|[(t & -> & _ & K)|(mm & op & f & -> & _ & _ & _ & K)]].
  - rewrite (logged_run _ _ _ _ _ Et). tcases Es; cbn [tlog]; try apply Forall_nil_2; repeat case_match; try apply Forall_nil_2; try (exfalso; eapply announce_ok; eassumption); try (exfalso; eapply poll_ok; eassumption); try (exfalso; congruence);
      try (apply Forall_cons; split; [ exact Logic.I | apply Forall_nil_2 ]); try (apply Forall_cons; split; [ reflexivity | apply Forall_nil_2 ]).
    all: try (eapply Forall_impl; [ first [ apply reply_log_says | apply gc_loop_log_says ] | intros x [_ [Hd|Hd]]; cbn beta; rewrite Hd; exact Logic.I ]).
    + apply Forall_cons. split; [ | apply Forall_nil_2 ]. cbn [G_level]. exists data. split; [ reflexivity | ]. split; [ apply D; left; reflexivity | ]. unfold refused. match goal with U : Unmarshal data = _ |- _ => rewrite U end. reflexivity.
    + rewrite tick_loop_quiet; [ apply Forall_nil_2 | exact I | apply order_routed; assumption ].
    + match goal with H : step _ (ESend _ _) = Ret (_, ?out) |- _ => assert (out = []) as -> by (cbn [step] in H; destruct (SendDMXToAddress _ _ _) as [[? ?]|]; cbn [bind] in H; congruence) end.
      eapply Forall_impl with (P := fun e => G_level e = Debug \/ (G_level e = Error /\ get "address" e = Some (VText (Address_String a)) /\ (G_msg e = "could not find node for address" \/ G_msg e = "error setting buffer on address")%string)).
      * unfold send_log. apply Forall_cons. split; [ left; reflexivity | ]. destruct (K_OutputAddress _ !! a) as [n|]; [ destruct (deref _ _) as [cn|]; [ destruct (snd _) | ] | ]; try apply Forall_nil_2;
          (apply Forall_cons; split; [ right; split; [ reflexivity | ]; split; [ reflexivity | auto ] | apply Forall_nil_2 ]).
      * intros x [Hd|(Hd & H1 & H2)]; cbn beta; rewrite Hd; [ exact Logic.I | ]. left. eexists. exists dmx, a. split; [ apply D; left; reflexivity | auto ].
    + apply Forall_cons. split; [ | apply Forall_nil_2 ]. cbn [G_level]. right. split; [ apply D; left; reflexivity | reflexivity ].
  - destruct K as [[-> _]|[[-> _]|(d & a & -> & _)]]; apply Forall_nil_2.
  - destruct f; subst; cbn; destruct (S_shutdown _); try apply Forall_nil_2; (apply Forall_cons; split; [ exact Logic.I | apply Forall_nil_2 ]).
Qed.

(** * Datagrams received *)
(** "received packet" is only written for a datagram that came from another address than the node's own, with the address of the sender and the number of bytes kept (at most 4096). *)
Theorem C109_received : forall E ls y tr lg, lruns E ls y tr lg ->
  Forall (fun e => exists src data, In (ORecv src data) tr /\ to16 (fst src) <> to16 (E_localIP E) /\ get "src" e = Some (VAddr src) /\ get "bytes" e = Some (VNum (N.min (len data) 4096)))
    (about "received packet" lg).
Proof.
  intros E. set (P := fun e tr => exists src data, In (ORecv src data) tr /\ to16 (fst src) <> to16 (E_localIP E) /\ get "src" e = Some (VAddr src) /\ get "bytes" e = Some (VNum (N.min (len data) 4096))).
  assert (G : forall ls y tr lg, lruns E ls y tr lg -> (forall i b src num, Y_threads y !! i = Some (RD_got b (Some (src, num))) -> exists data, In (ORecv src data) tr /\ N.of_nat num = N.min (len data) 4096) /\
    Forall (fun e => P e tr) (about "received packet" lg)); [ | intros ls y tr lg R; apply (G ls y tr lg R) ].
  apply lsteps_ind2; [ split; [ intros i b src num H; destruct i; discriminate H | constructor ] | ].
  intros y1 tr lg l y2 o [ls0 R] [IH1 IH2] _ Hx. rewrite about_app.
  assert (A : Forall (fun e => P e (tr ++ o)) (about "received packet" lg)).
  { eapply Forall_impl; [ exact IH2 | ]. intros e (src & data & H1 & H2). exists src, data. split; [ apply in_or_app; auto | exact H2 ]. }
  assert (B : forall i b src num, Y_threads y1 !! i = Some (RD_got b (Some (src, num))) -> exists data, In (ORecv src data) (tr ++ o) /\ N.of_nat num = N.min (len data) 4096).
  { intros i b src num H. destruct (IH1 _ _ _ _ H) as (data & H1 & H2). exists data. split; [ apply in_or_app; auto | exact H2 ]. }
  pose proof (sys_threads _ _ _ (runs_ok _ _ _ _ R)) as Ht.
  apply exec_cases in Hx. destruct Hx as [(i & c & t & s & t' & sp & -> & Et & Es & ->)|[(t & -> & -> & K)|(mm & op & f & -> & -> & _ & _ & K)]]; cbn [Y_threads].
  - rewrite (logged_run _ _ _ _ _ Et). rewrite Forall_forall in Ht. pose proof (Ht _ (elem_of_list_lookup_2 _ _ _ Et)) as [Hi _].
    assert (T : (forall b src num, t' = RD_got b (Some (src, num)) -> exists data, In (ORecv src data) (tr ++ o) /\ N.of_nat num = N.min (len data) 4096) /\ (forall u b src num, u ∈ sp -> u <> RD_got b (Some (src, num)))).
    { clear A B IH1 IH2 Et. tcases Es; (split; [ | intros u bb ss nn Hu; repeat (apply elem_of_cons in Hu; destruct Hu as [->|Hu]; [ discriminate | ]); apply elem_of_nil in Hu; contradiction ]); try (intros; discriminate);
        try (intros; match goal with H : (if ?x then _ else _) = _ |- _ => destruct x; discriminate end).
      - intros b0 src num [= <- <- <-]. exists data. split; [ apply in_or_app; right; left; reflexivity | ]. destruct Hi as [Hl _]. unfold len in *. unfold read_buffer in Hl. lia.
      }
    split.
    + intros j b src num Hj. destruct T as [T1 T2]. apply lookup_app_Some in Hj. destruct Hj as [Hj|[_ Hj]].
      * destruct (decide (i = j)) as [->|Dj]; [ rewrite list_lookup_insert in Hj by (eapply lookup_lt_Some; exact Et); injection Hj as Hj; apply (T1 b); exact Hj | ].
        rewrite list_lookup_insert_ne in Hj by exact Dj. apply (B _ _ _ _ Hj).
      * exfalso. apply elem_of_list_lookup_2 in Hj. exact (T2 _ b src num Hj eq_refl).
    + apply Forall_app. split; [ exact A | ]. clear A T Ht.
      tcases Es; cbn [tlog]; try apply Forall_nil_2; repeat case_match; try apply Forall_nil_2; try (exfalso; congruence);
        try (erewrite (about_none "received packet"%string); [ apply Forall_nil_2 | first [ apply reply_log_says | apply gc_loop_log_says | apply send_log_says | apply tick_loop_log_says ] | cbn; intuition discriminate ]).
      apply Forall_cons. split; [ | apply Forall_nil_2 ]. destruct (B _ _ _ _ Et) as (data & X1 & X2). eexists. exists data. split; [ exact X1 | ]. split; [ | split; [ reflexivity | cbn; rewrite X2; reflexivity ] ].
      intros K. symmetry in K. apply IP_Equal_iff in K. cbn [fst] in *. congruence.
  - split; [ | destruct K as [[-> _]|[[-> _]|(d & a & -> & _)]]; apply Forall_app; (split; [ exact A | apply Forall_nil_2 ]) ].
    intros j b src num Hj. apply lookup_app_Some in Hj. destruct Hj as [Hj|[_ Hj]]; [ apply (B _ _ _ _ Hj) | ]. exfalso. apply elem_of_list_lookup_2 in Hj. apply elem_of_list_singleton in Hj. subst t.
    destruct K as [[_ K]|[[_ K]|(d & a & _ & _ & K)]]; [ destruct (E_ctl E); discriminate K .. | discriminate K ].
  - split; [ exact B | ]. apply Forall_app. split; [ exact A | ]. destruct f; subst; cbn; destruct (S_shutdown _); apply Forall_nil_2.
Qed.

(** * Texts *)
(** Two addresses of four bytes with the same text are the same: the log tells the nodes apart. (Universes: C31_address_string_injective.) *)
Theorem C109_ip_text : forall ip ip' t, bytes_ok ip -> bytes_ok ip' -> ip_text ip = Some t -> ip_text ip' = Some t -> ip = ip'.
Proof.
  intros ip ip' t H H'. destruct ip as [|a [|b [|c [|d [|]]]]]; try discriminate. destruct ip' as [|a' [|b' [|c' [|d' [|]]]]]; try discriminate.
  unfold ip_text. intros [= <-] [= K]. symmetry in K.
  unfold bytes_ok in H, H'. repeat match goal with X : Forall _ (_ :: _) |- _ => apply Forall_cons in X; destruct X end.
  change ("." ++ ?x)%string with (String "." x) in K.
  do 3 (apply split_char in K; [ | apply digits_no; [ right; reflexivity | assumption ] .. ]; let X := fresh in destruct K as [X K]; apply sprint_d_inj in X). apply sprint_d_inj in K. congruence.
Qed.

(** * Examples *)
Fixpoint lplay (E : env) (y : sys) (fs : script) : option (list label * sys * list obs * list entry) :=
  match fs with
  | [] => Some ([], y, [], [])
  | f :: fs =>
      if label_okb (f y) then
        match exec E y (f y) with
        | RNext y' o => match lplay E y' fs with Some (ls, y'', tr, lg) => Some (f y :: ls, y'', o ++ tr, logged E y (f y) ++ lg) | None => None end
        | _ => None
        end
      else None
  end.
Lemma lsteps_cons E y l y1 o ls y' tr lg : label_ok l -> exec E y l = RNext y1 o -> lsteps E y1 ls y' tr lg -> lsteps E y (l :: ls) y' (o ++ tr) (logged E y l ++ lg).
Proof.
  intros Hl Hx H. induction H as [y1|y1 ls y2 tr lg l' y3 o' H IH Hl' Hx'].
  - rewrite !app_nil_r. exact (lsteps_snoc E y [] y [] [] l y1 o (lsteps_nil E y) Hl Hx).
  - rewrite !app_assoc. exact (lsteps_snoc E y (l :: ls) y2 _ _ l' y3 o' (IH Hx) Hl' Hx').
Qed.
Lemma lplay_lsteps E fs : forall y ls y' tr lg, lplay E y fs = Some (ls, y', tr, lg) -> lsteps E y ls y' tr lg.
Proof.
  induction fs as [|f fs IH]; intros y ls y' tr lg H; cbn [lplay] in H.
  - injection H as <- <- <- <-. constructor.
  - destruct (label_okb (f y)) eqn:Hl; [ | discriminate ]. destruct (exec E y (f y)) as [| |y1 o] eqn:He; try discriminate.
    destruct (lplay E y1 fs) as [[[[ls1 y2] tr1] lg1]|] eqn:Hp; [ | discriminate ]. injection H as <- <- <- <-.
    eapply lsteps_cons; [ apply label_okb_ok; exact Hl | exact He | exact (IH _ _ _ _ _ Hp) ].
Qed.
Definition ltested (E : env) (fs : script) (P : list label -> list obs -> list entry -> bool) : bool :=
  match lplay E (init E) fs with Some (ls, _, tr, lg) => P ls tr lg | None => false end.
Lemma ltested_lruns E fs P : ltested E fs P = true -> exists ls y tr lg, lruns E ls y tr lg /\ P ls tr lg = true.
Proof.
  unfold ltested. destruct (lplay E (init E) fs) as [[[[ls y] tr] lg]|] eqn:Hp; [ | discriminate ]. intros H. exists ls, y, tr, lg. split; [ exact (lplay_lsteps _ _ _ _ _ _ _ Hp) | exact H ].
Qed.
(** The messages of a log with their levels. *)
Definition texts (lg : list entry) : list (level * string) := map (fun e => (G_level e, G_msg e)) lg.
(** A controller starts, discovers a node, is given channels for its universe and for one that nobody has, gets a datagram that is too short, and forgets the node. *)
Definition story : script :=
  up_ctl ++ discover ++ act (LSend (zeros 512) (0, 0)) ++ go_n 8 1 ++ act (LSend (zeros 512) (0, 2)) ++ go_n 9 1 ++
  arrive 6 host2 [1; 2; 3] ++ parse 2 ++ go_n 4 1 ++ act (LRun 4 CGcTick) ++ act (LRun 4 (CClock (fun _ => 8000000000%Z))).
Example C109_ex : exists ls y tr lg, lruns ctl1 ls y tr lg /\
  texts lg = [(Debug, "node started"); (Debug, "received packet"); (Debug, "added node"); (Debug, "received update channels"); (Debug, "received update channels"); (Error, "could not find node for address");
    (Debug, "received packet"); (Warn, "failed to parse packet: header length incorrect"); (Debug, "remove stale node")]%string /\
  map (get "address") (at_level Error lg) = [Some (VText "0:0.2")] /\ map (fun d => Some (VBytes d)) (List.filter refused (parsed tr)) = [Some (VBytes [1; 2; 3])] /\ fold_left replay lg [] = [].
Proof.
  destruct (ltested_lruns ctl1 story (fun y tr lg => bool_decide (texts lg = [(Debug, "node started"); (Debug, "received packet"); (Debug, "added node"); (Debug, "received update channels"); (Debug, "received update channels"); (Error, "could not find node for address");
    (Debug, "received packet"); (Warn, "failed to parse packet: header length incorrect"); (Debug, "remove stale node")]%string) &&
    bool_decide (map (get "address") (at_level Error lg) = [Some (VText "0:0.2")]) && bool_decide (map (fun d => Some (VBytes d)) (List.filter refused (parsed tr)) = [Some (VBytes [1; 2; 3])]) && bool_decide (fold_left replay lg [] = [])))
    as (ls & y & tr & lg & R & H); [ vm_compute; reflexivity | ].
  repeat (apply andb_prop in H; let X := fresh in destruct H as [H X]; apply bool_decide_eq_true in X). apply bool_decide_eq_true in H. exists ls, y, tr, lg. auto.
Qed.
(** The node is known after its reply; the first thing transmitted is in the log with its size. *)
Example C109_nodes_ex : exists ls y tr lg, lruns ctl1 ls y tr lg /\ fold_left replay lg [] = [([2; 0; 0; 1], [])] /\ map (get "bytes") (about "packet sent" lg) = [Some (VNum 14)] /\ length (sent tr) = 1%nat.
Proof.
  destruct (ltested_lruns ctl1 (up_ctl ++ discover ++ transmit 3) (fun y tr lg => bool_decide (fold_left replay lg [] = [([2; 0; 0; 1], [])]) && bool_decide (map (get "bytes") (about "packet sent" lg) = [Some (VNum 14)]) && bool_decide (length (sent tr) = 1%nat)))
    as (ls & y & tr & lg & R & H); [ vm_compute; reflexivity | ].
  repeat (apply andb_prop in H; let X := fresh in destruct H as [H X]; apply bool_decide_eq_true in X). apply bool_decide_eq_true in H. exists ls, y, tr, lg. auto.
Qed.
(** A call of DeregisterCallback that is ignored is logged as a registration. *)
Definition dereg : script := up_node ++ act (LDeregister OpPoll).
Theorem C109_deregistration_refuted : exists ls y tr lg, lruns node1 ls y tr lg /\ In (ORegister OpPoll None) tr /\
  map (fun e => (G_msg e, get "opcode" e)) (about "ignoring callback registration: node has already been started" lg) = [("ignoring callback registration: node has already been started"%string, Some (VOp OpPoll))] /\
  (forall op f, ~ In (ORegister op (Some f)) tr).
Proof.
  destruct (ltested_lruns node1 dereg (fun y tr lg => bool_decide (map (fun e => (G_msg e, get "opcode" e)) (about "ignoring callback registration: node has already been started" lg) = [("ignoring callback registration: node has already been started"%string, Some (VOp OpPoll))]) &&
    existsb (fun o => match o with ORegister op None => op =? OpPoll | _ => false end) tr && forallb (fun o => match o with ORegister _ (Some _) => false | _ => true end) tr))
    as (ls & y & tr & lg & R & H); [ vm_compute; reflexivity | ].
  apply andb_prop in H. destruct H as [H H3]. apply andb_prop in H. destruct H as [H1 H2]. apply bool_decide_eq_true in H1. exists ls, y, tr, lg. split; [ exact R | ]. split.
  - apply existsb_exists in H2. destruct H2 as (o & Ho & H2). destruct o; try discriminate. destruct f; [ discriminate | ]. apply N.eqb_eq in H2. subst op. exact Ho.
  - split; [ exact H1 | ]. intros op f Hf. rewrite forallb_forall in H3. specialize (H3 _ Hf). discriminate.
Qed.
(** Start, Stop, Start that cannot open the socket, Stop: the socket is closed a second time, and the message about it has no error in it, only the complaint of fmt. *)
Definition restart_fails : script := up_node ++ act LStop ++ go_n 5 3 ++ act LStart ++ go_n 6 1 ++ act (LRun 6 CErr) ++ act LStop ++ go_n 7 3.
Theorem C109_close_refuted : exists ls y tr lg, lruns node1 ls y tr lg /\ calls ls = [true; false; true; false] /\
  map (fun e => (G_msg e, G_fields e)) (at_level Info lg) = [("failed to close read socket: %!v(MISSING)", [("type", VText "Node")])]%string.
Proof.
  destruct (ltested_lruns node1 restart_fails (fun ls tr lg => bool_decide (calls ls = [true; false; true; false]) &&
    bool_decide (map (fun e => (G_msg e, G_fields e)) (at_level Info lg) = [("failed to close read socket: %!v(MISSING)", [("type", VText "Node")])]%string))) as (ls & y & tr & lg & R & H); [ vm_compute; reflexivity | ].
  apply andb_prop in H. destruct H as [H1 H2]. apply bool_decide_eq_true in H1, H2. exists ls, y, tr, lg. auto.
Qed.
(** The field "type" tells the entries of a controller's node (node.go:65, controller.go:124: "Node") from its own (controller.go:125: "Controller"), but not in the first entry: "node started", an
    entry of the node, has the style of the device there. And a call of SendDMXToAddress before Start leaves entries without that field. *)
Theorem C109_type_refuted : exists ls y tr lg, lruns ctl1 ls y tr lg /\
  map (get "type") (about "node started" lg) = [Some (VText "Controller")] /\ map (get "type") (about "could not find node for address" lg) = [None].
Proof.
  destruct (ltested_lruns ctl1 (act (LSend (zeros 512) (0, 0)) ++ go_n 0 1 ++ act LStart ++ go_n 1 3) (fun _ tr lg => bool_decide (map (get "type") (about "node started" lg) = [Some (VText "Controller")]) &&
    bool_decide (map (get "type") (about "could not find node for address" lg) = [None]))) as (ls & y & tr & lg & R & H); [ vm_compute; reflexivity | ].
  apply andb_prop in H. destruct H as [H1 H2]. apply bool_decide_eq_true in H1, H2. exists ls, y, tr, lg. auto.
Qed.
Definition P_Log_theorems := (C109_log, C109_sent, C109_ignored, C109_refused, C109_calls, C109_send, C109_nodes, C109_alarms, C109_received, C109_ip_text, C109_deregistration_refuted, C109_close_refuted, C109_type_refuted, C109_ex, C109_nodes_ex).
Print Assumptions P_Log_theorems.
