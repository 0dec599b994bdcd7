(** C109, continued: the messages of the log that P_Log.v does not speak about, and the table of everything that is ever written. *)
From Coq Require Import String.
From Verif Require Import WireSpec DispatchFacts P_Config ControllerFacts P_Controller SysFacts SysLaws SysScript P_Node P_Life P_Live P_Errors.
From stdpp Require Import base list gmap strings.
From Verif Require Import Log P_Log.
Open Scope list_scope.
Open Scope N_scope.

(** The messages that the steps of the controller on its tables write. *)
Ltac table_log m := (erewrite (about_none m); [ try reflexivity | first [ apply reply_log_says | apply gc_loop_log_says | apply send_log_says | apply tick_loop_log_says ] | cbn; intuition discriminate ]).

(** * Starting *)
Definition ups (tr : list obs) : nat := length (List.filter (fun o => match o with OUp => true | _ => false end) tr).
Lemma ups_app a b : ups (a ++ b) = (ups a + ups b)%nat.
Proof. unfold ups. rewrite List.filter_app, app_length. reflexivity. Qed.
(** "node started" is written once for each Start that gets past the check of the configuration, with the IP and the style of the device; not by a Start that is refused. *)
Theorem C109_started : forall E ls y tr lg ty, StyleCode_String (C_Type (E_config E)) = Ret ty -> lruns E ls y tr lg ->
  map (fun e => (G_level e, get "ip" e, get "type" e)) (about "node started" lg) = repeat (Debug, Some (VIP (C_IP (E_config E))), Some (VText ty)) (ups tr).
Proof.
  intros E ls y tr lg ty T R. revert ls y tr lg R. apply lsteps_ind2; [ reflexivity | ]. intros y1 tr lg l y2 o _ IH _ Hx. rewrite about_app, map_app, ups_app, repeat_app, IH. f_equal.
  step_log Hx. tcases Es; try reflexivity; cbn [tlog]; repeat case_match; try reflexivity; try (exfalso; congruence); try (table_log "node started"%string).
  injection T as <-. reflexivity.
Qed.
Example C109_styles : StyleCode_String StNode = Ret "Node"%string /\ StyleCode_String StController = Ret "Controller"%string.
Proof. split; vm_compute; reflexivity. Qed.
(** A node whose socket cannot be opened says so, once for each such Start: of a node whose configuration is accepted, these are the calls of Start that return an error. *)
Definition failures (tr : list obs) : nat := length (List.filter (fun o => match o with OStart false => true | _ => false end) tr).
Lemma failures_app a b : failures (a ++ b) = (failures a + failures b)%nat.
Proof. unfold failures. rewrite List.filter_app, app_length. reflexivity. Qed.
Theorem C109_listen : forall E ls y tr lg, E_ctl E = false -> validate (E_config E) = None -> lruns E ls y tr lg ->
  map G_level (about "error net.ListenPacket" lg) = repeat Error (failures tr).
Proof.
  intros E ls y tr lg C V R. revert ls y tr lg R. apply (lsteps_ind2 E (fun y tr lg => map G_level (about "error net.ListenPacket" lg) = repeat Error (failures tr))); [ reflexivity | ].
  intros y1 tr lg l y2 o [ls0 R] IH _ Hx. rewrite about_app, map_app, failures_app, repeat_app, IH. f_equal.
  pose proof (sys_threads _ _ _ (runs_ok _ _ _ _ R)) as Ht.
  apply exec_cases in Hx; destruct Hx as [(i & c & t & s & t' & sp & -> & Et & Es & _)|[(t & -> & _ & K)|(mm & op & f & -> & _ & _ & _ & K)]];
  [ rewrite (logged_run _ _ _ _ _ Et) | destruct K as [[-> _]|[[-> _]|(d & a & -> & _)]]; reflexivity | destruct f; subst; cbn; destruct (S_shutdown _); reflexivity ].
  destruct (Forall_lookup_1 _ _ _ _ Ht Et) as [_ T2]. pose proof (ok_cgens _ _ _ (sys_shared _ _ _ (runs_ok _ _ _ _ R))) as KC.
  tcases Es; try reflexivity; cbn [tlog]; repeat case_match; try reflexivity; try (exfalso; congruence); try (table_log "error net.ListenPacket"%string).
  exfalso. destruct T2 as (_ & _ & T2). rewrite (KC T2) in C. discriminate.
Qed.

(** * Registrations *)
(** The registrations made while the node runs. *)
Fixpoint late (d : bool) (tr : list obs) : list N :=
  match tr with
  | [] => []
  | o :: tr => (match o with ORegister op _ => if d then [] else [op] | _ => [] end) ++ late (down_step d o) tr
  end.
Lemma late_app a b : forall d, late d (a ++ b) = late d a ++ late (fold_left down_step a d) b.
Proof. induction a as [|o a IH]; intros d; [ reflexivity | ]. cbn [app late fold_left]. rewrite IH, app_assoc. reflexivity. Qed.
(** Each call of RegisterCallback or DeregisterCallback that is ignored is in the log, in this order, with its opcode, and no other call is. *)
Theorem C109_registrations : forall E ls y tr lg, lruns E ls y tr lg ->
  map (fun e => (G_level e, get "opcode" e)) (about "ignoring callback registration: node has already been started" lg) = map (fun op => (Debug, Some (VOp op))) (late true tr).
Proof.
  intros E. apply lsteps_ind2; [ reflexivity | ]. intros y1 tr lg l y2 o [ls0 R] IH _ Hx. rewrite about_app, map_app, late_app, map_app, IH. f_equal.
  fold (down tr). rewrite <- regs_down, (regs_state _ _ _ _ R). cbn [fst].
  apply exec_cases in Hx; destruct Hx as [(i & c & t & s & t' & sp & -> & Et & Es & _)|[(t & -> & _ & K)|(mm & op & f & -> & _ & _ & _ & K)]];
  [ rewrite (logged_run _ _ _ _ _ Et) | destruct K as [[-> _]|[[-> _]|(d & a & -> & _)]]; reflexivity | destruct f; subst; cbn; destruct (S_shutdown _); reflexivity ].
  tcases Es; try reflexivity; cbn [tlog]; repeat case_match; try reflexivity; try (exfalso; congruence); try (table_log "ignoring callback registration: node has already been started"%string).
Qed.

(** * Counting over the goroutines *)
Lemma about_says m ms v l : Forall (says_one ms v) l -> ~ In m ms -> about m l = []. Proof. apply about_none. Qed.
(** What comes in is what went out and what the goroutines hold, if this is so for each step. *)
Lemma log_law {A} (E : env) (v : thread -> list A) (vin vout : obs -> list A) (win wout : entry -> list A) :
  (forall s h t c s' t' sp o P, s_ok E s h -> t_ok E t -> tstep E s t c = Next s' t' sp o ->
     (cnt P (collect vin o) + cnt P (collect win (tlog E s t c)) + cnt P (v t) = cnt P (collect vout o) + cnt P (collect wout (tlog E s t c)) + cnt P (v t') + cnt P (collect v sp))%nat) ->
  (v U_start_ctl = [] /\ v U_start_node = [] /\ v U_stop_ctl = [] /\ v U_flag = [] /\ forall dmx a, v (U_send dmx a) = []) ->
  (forall op f, vin (ORegister op f) = [] /\ vout (ORegister op f) = []) ->
  (forall op d, Forall (fun e => win e = [] /\ wout e = []) (if negb d then [mkEntry Debug "ignoring callback registration: node has already been started" (("opcode", VOp op) :: node_fields)%string] else [])) ->
  forall ls y tr lg, lruns E ls y tr lg -> forall P,
    (cnt P (collect vin tr) + cnt P (collect win lg) = cnt P (collect vout tr) + cnt P (collect wout lg) + cnt P (collect v (Y_threads y)))%nat.
Proof.
  intros H (U1 & U2 & U3 & U4 & U5) HR HL. apply (lsteps_ind2 E (fun y tr lg => forall P, (cnt P (collect vin tr) + cnt P (collect win lg) = cnt P (collect vout tr) + cnt P (collect wout lg) + cnt P (collect v (Y_threads y)))%nat)); [ reflexivity | ].
  intros y1 tr lg l y2 o [ls0 R] IH Hl Hx P. specialize (IH P). rewrite !collect_app, !cnt_app.
  pose proof (runs_ok _ _ _ _ R) as OK. pose proof (sys_threads _ _ _ OK) as Ht.
  apply exec_cases in Hx; destruct Hx as [(i & c & t & s & t' & sp & -> & Et & Es & ->)|[(t & -> & -> & K)|(mm & op & f & -> & -> & _ & _ & K)]]; cbn [Y_threads].
  - rewrite (logged_run _ _ _ _ _ Et). pose proof (H _ _ _ _ _ _ _ _ P (sys_shared _ _ _ OK) (proj1 (Forall_lookup_1 _ _ _ _ Ht Et)) Es) as HH.
    rewrite collect_app, cnt_app. pose proof (collect_insert P v _ i t t' Et). lia.
  - assert (logged E y1 l = []) as -> by (destruct K as [[-> _]|[[-> _]|(d & a & -> & _)]]; reflexivity).
    assert (Z : v t = []) by (destruct K as [[_ ->]|[[_ ->]|(d & a & _ & _ & ->)]]; [ destruct (E_ctl E); assumption .. | apply U5 ]).
    rewrite !collect_app, !cnt_app, !collect_cons, Z, !collect_nil. cbn. lia.
  - assert (Z : Forall (fun e => win e = [] /\ wout e = []) (logged E y1 l)) by (destruct f; subst l; cbn [logged]; apply HL).
    assert (Z2 : forall l, Forall (fun e => win e = [] /\ wout e = []) l -> collect win l = [] /\ collect wout l = []).
    { clear. induction 1 as [|e l [H1 H2] _ [I1 I2]]; [ auto | ]. rewrite !collect_cons, H1, H2, I1, I2. auto. }
    destruct (Z2 _ Z) as [-> ->]. destruct (HR op f) as [X1 X2]. rewrite !collect_cons, X1, X2, !collect_nil. cbn. lia.
Qed.
(** Entries with this message, projected. *)
Definition those {A} (m : string) (g : entry -> A) (e : entry) : list A := if String.eqb (G_msg e) m then [g e] else [].
Lemma collect_those {A} m (g : entry -> A) l : collect (those m g) l = map g (about m l).
Proof. induction l as [|e l IH]; [ reflexivity | ]. rewrite collect_cons, IH. unfold those, about. cbn [List.filter]. destruct (String.eqb _ m); reflexivity. Qed.

(** * Replies *)
Definition queued_replies (tr : list obs) : list unit := collect (fun o => match o with OQueued (KReply, _) => [tt] | _ => [] end) tr.
(** Goroutines that are about to put an ArtPollReply on the send queue (node.go:168). *)
Definition replying (t : thread) : list unit := match t with PR_send _ | PR_sending _ _ => [tt] | _ => [] end.
(** "sending ArtPollReply" is written once for each ArtPollReply that is put on the send queue, just before that. *)
Theorem C109_replying : forall E ls y tr lg, lruns E ls y tr lg ->
  length (about "sending ArtPollReply" lg) = (length (queued_replies tr) + length (collect replying (Y_threads y)))%nat.
Proof.
  intros E ls y tr lg R.
  pose proof (log_law E replying (fun _ => []) (fun o => match o with OQueued (KReply, _) => [tt] | _ => [] end) (those "sending ArtPollReply" (fun _ => tt)) (fun _ => [])) as L.
  specialize (fun a b c d => L a b c d _ _ _ _ R (fun _ => true)). rewrite !collect_none, collect_those in L. rewrite !cnt_all, map_length in L. cbn in L. unfold queued_replies. rewrite L; [ lia | .. ].
  - clear. intros s h t c s' t' sp o P _ _ Es. rewrite !collect_none, !collect_those.
    tcases Es; try reflexivity; cbn [tlog]; repeat case_match; try reflexivity; try (exfalso; congruence); try (table_log "sending ArtPollReply"%string).
    all: unfold cnt; cbn; destruct (P tt); reflexivity.
  - repeat split.
  - repeat split.
  - intros op []; cbn; repeat constructor.
Qed.

(** * Datagrams received *)
Definition own (E : env) (from : UDPAddr) : bool := bool_decide (to16 (fst from) = to16 (E_localIP E)).
Definition fact (from : UDPAddr) (n : N) : option value * option value := (Some (VAddr from), Some (VNum n)).
(** Datagrams of other hosts: read from the socket; read, but thrown away because the node is stopped; read, and not looked at yet. With the address of the sender and the number of bytes kept. *)
Definition heard (E : env) (tr : list obs) := collect (fun o => match o with ORecv from data => if own E from then [] else [fact from (N.min (len data) 4096)] | _ => [] end) tr.
Definition discarded (E : env) (tr : list obs) := collect (fun o => match o with ODiscard from data => if own E from then [] else [fact from (len data)] | _ => [] end) tr.
Definition pending (E : env) (t : thread) := match t with RD_got _ (Some (from, num)) => if own E from then [] else [fact from (N.of_nat num)] | _ => [] end.
Lemma own_equal E from : IP_Equal (E_localIP E) (fst from) = own E from.
Proof.
  unfold own. destruct (IP_Equal (E_localIP E) (fst from)) eqn:e; symmetry.
  - apply IP_Equal_iff in e. apply bool_decide_eq_true_2. congruence.
  - apply bool_decide_eq_false_2. intros K. symmetry in K. apply IP_Equal_iff in K. congruence.
Qed.
(** "received packet" is written once for each datagram of another host that is read while the node runs. *)
Theorem C109_received_all : forall E ls y tr lg, lruns E ls y tr lg ->
  heard E tr ≡ₚ map (fun e => (get "src" e, get "bytes" e)) (about "received packet" lg) ++ discarded E tr ++ collect (pending E) (Y_threads y).
Proof.
  intros E ls y tr lg R. apply cnt_perm. intros P.
  pose proof (log_law E (pending E) (fun o => match o with ORecv from data => if own E from then [] else [fact from (N.min (len data) 4096)] | _ => [] end)
    (fun o => match o with ODiscard from data => if own E from then [] else [fact from (len data)] | _ => [] end) (fun _ => []) (those "received packet" (fun e => (get "src" e, get "bytes" e)))) as L.
  specialize (fun a b c d => L a b c d _ _ _ _ R P). rewrite !collect_none, collect_those in L. rewrite !cnt_app. fold (heard E tr) in L. fold (discarded E tr) in L. rewrite cnt_nil in L. rewrite Nat.add_0_r in L. rewrite L; [ lia | .. ].
  - clear. intros s h t c s' t' sp o P _ T Es. rewrite !collect_none, !collect_those.
    tcases Es; try reflexivity; cbn [tlog]; try (repeat case_match; try reflexivity; try (exfalso; congruence); try (table_log "received packet"%string); fail).
    + unfold pending. cbn [collect map concat app]. rewrite !app_nil_r, !cnt_nil. destruct (own E from); [ reflexivity | ].
      assert (len data `min` 4096 = N.of_nat (length data `min` length b)) as -> by (destruct T as [Hl _]; unfold len in *; unfold read_buffer in Hl; lia). cbn [about List.filter map]. rewrite cnt_nil. lia.
    + rewrite own_equal. destruct (S_shutdown s) eqn:Ed; [ | congruence ]. unfold pending. cbn [collect map concat app about List.filter]. rewrite !app_nil_r, !cnt_nil. destruct (own E from); [ reflexivity | ].
      assert (len (take n b) = N.of_nat n) as -> by (destruct T as [_ Hn]; unfold len; rewrite take_length; lia). lia.
    + rewrite own_equal in *. match goal with X : own E from = _ |- _ => unfold pending; rewrite X end. destruct (S_shutdown s); reflexivity.
    + rewrite own_equal in *. match goal with X : own E from = _ |- _ => unfold pending; rewrite X end. match goal with X : S_shutdown s = _ |- _ => rewrite X end. cbn. unfold fact. lia.
  - repeat split.
  - repeat split.
  - intros op []; cbn; repeat constructor.
Qed.

(** * Writes that fail *)
(** Datagrams given up while the node runs. *)
Fixpoint lost (d : bool) (tr : list obs) : list (tag * payload) :=
  match tr with
  | [] => []
  | o :: tr => (match o with ODrop x => if d then [] else [x] | _ => [] end) ++ lost (down_step d o) tr
  end.
Lemma lost_app a b : forall d, lost d (a ++ b) = lost d a ++ lost (fold_left down_step a d) b.
Proof. induction a as [|o a IH]; intros d; [ reflexivity | ]. cbn [app lost fold_left]. rewrite IH, app_assoc. reflexivity. Qed.
(** A datagram that a running node gives up is in the log ("error writing packet", without its destination), and this message is not written for anything else. *)
Theorem C109_write_errors : forall E ls y tr lg, lruns E ls y tr lg ->
  (length (lost true tr) <= length (about "error writing packet" lg) <= length (dropped tr))%nat.
Proof.
  intros E. apply (lsteps_ind2 E (fun y tr lg => (length (lost true tr) <= length (about "error writing packet" lg) <= length (dropped tr))%nat)); [ cbn; lia | ].
  intros y1 tr lg l y2 o [ls0 R] IH _ Hx. unfold dropped in *. rewrite about_app, lost_app, collect_app, !app_length.
  enough (K : (length (lost (down tr) o) <= length (about "error writing packet" (logged E y1 l)) <= length (collect (fun o => match o with ODrop x => [x] | _ => [] end) o))%nat) by (unfold down in K; lia).
  rewrite <- regs_down, (regs_state _ _ _ _ R). cbn [fst]. clear IH.
  apply exec_cases in Hx; destruct Hx as [(i & c & t & s & t' & sp & -> & Et & Es & _)|[(t & -> & _ & K)|(mm & op & f & -> & _ & _ & _ & K)]];
  [ rewrite (logged_run _ _ _ _ _ Et) | destruct K as [[-> _]|[[-> _]|(d & a & -> & _)]]; cbn; lia | destruct f; subst; cbn; destruct (S_shutdown _); cbn; lia ].
  tcases Es; try (cbn; lia); cbn [tlog]; repeat case_match; try (cbn; lia); try (exfalso; congruence); try (table_log "error writing packet"%string; cbn; lia).
  - rewrite H. cbn. lia.
  - destruct (S_shutdown (Y_sh y1)); cbn; lia.
  - change (0 <= 0 <= 0)%nat. lia.
Qed.

(** * Everything that is ever written *)
(** A decoded packet with the opcode of an ArtPoll is one, and so for ArtPollReply. *)
Lemma decoded_poll p : decoded p -> GetOpCode p = 0x2000 -> exists q, p = PktPoll q.
Proof.
  intros (d & Hd & H) K. apply Unmarshal_accepts in H; [ | exact Hd ]. pose proof (accepts_opcode _ _ H) as W. rewrite K in W.
  destruct H; try discriminate K; eauto.
Qed.
Lemma decoded_reply p : decoded p -> GetOpCode p = 0x2100 -> exists q, p = PktPollReply q.
Proof.
  intros (d & Hd & H) K. apply Unmarshal_accepts in H; [ | exact Hd ]. pose proof (accepts_opcode _ _ H) as W. rewrite K in W.
  destruct H; try discriminate K; eauto.
Qed.
Lemma builtin_at E ls y tr op h : runs E ls y tr -> S_callbacks (Y_sh y) !! op = Some h -> (h = HPoll -> op = 0x2000) /\ (h = HPollReply -> op = 0x2100).
Proof.
  intros R H. destruct (C56_registry E ls y tr op R) as [[[_ K]|(f & _ & K)] _]; rewrite H in K.
  - unfold builtin in K. destruct (N.eqb_spec op 0x2000); [ injection K as ->; split; [ auto | discriminate ] | ]. destruct (N.eqb_spec op 0x2100); [ injection K as ->; split; [ discriminate | auto ] | discriminate ].
  - destruct f; [ | discriminate ]. injection K as ->. split; discriminate.
Qed.
Definition node_table : list (level * string) :=
  [(Debug, "sending ArtPollReply"); (Debug, "error writing packet"); (Debug, "packet sent"); (Debug, "received packet"); (Debug, "ignoring unhandled packet");
   (Debug, "ignoring callback registration: node has already been started"); (Error, "error net.ListenPacket"); (Info, "failed to close read socket: %!v(MISSING)")]%string.
Definition ctl_table : list (level * string) :=
  [(Debug, "updated node"); (Debug, "added node"); (Debug, "remove stale node"); (Debug, "received update channels"); (Error, "could not find node for address"); (Error, "error setting buffer on address")]%string.
Definition call_table : list (level * string) :=
  [(Debug, "received update channels"); (Error, "could not find node for address"); (Error, "error setting buffer on address")]%string.
(** The entries of a node or controller whose configuration is well formed: level, message and field "type". *)
Definition kind (E : env) (e : entry) : Prop :=
  In (G_level e, G_msg e) node_table /\ get "type" e = Some (VText "Node") \/
  G_level e = Warn /\ (exists text, G_msg e = ("failed to parse packet: " ++ text)%string) /\ get "type" e = Some (VText "Node") \/
  (G_level e, G_msg e) = (Debug, "node started"%string) /\ (exists ty, StyleCode_String (C_Type (E_config E)) = Ret ty /\ get "type" e = Some (VText ty)) \/
  In (G_level e, G_msg e) ctl_table /\ get "type" e = Some (VText "Controller") \/
  In (G_level e, G_msg e) call_table /\ get "type" e = None.
Definition typed (tbl : list (level * string)) (b : list (string * value)) (e : entry) : Prop := In (G_level e, G_msg e) tbl /\ get "type" e = field "type" b.
Lemma reply_log_typed b k q : Forall (typed ctl_table b) (reply_log b k q).
Proof.
  unfold reply_log. destruct (ConfigFromArtPollReply q) as [cfg|]; [ | constructor ]. destruct (_ && _); [ constructor | ]. destruct (_ && _); [ constructor | ].
  unfold updateNode_log. destruct (find_ip _ _ _) as [[n|]|]; [ .. | constructor ]; (constructor; [ split; [ cbn; auto 12 | reflexivity ] | constructor ]).
Qed.
Lemma gc_log_typed b clock fuel : forall s k, Forall (typed ctl_table b) (gc_loop_log b fuel s clock k).
Proof.
  assert (S : forall s is k, Forall (typed ctl_table b) (gc_scan_log b s clock k is)).
  { intros s is. induction is as [|i is IH]; intros k; cbn [gc_scan_log]; [ constructor | ]. destruct (node_at s i); [ | constructor ]. destruct (deref s _); [ | constructor ].
    destruct (_ <? _)%Z; [ | apply IH ]. constructor; [ split; [ cbn; auto 12 | reflexivity ] | constructor ]. }
  induction fuel as [|fuel IH]; intros s k; cbn [gc_loop_log]; [ constructor | ]. apply Forall_app. split; [ apply S | ]. destruct (gc_scan _ _ _ _) as [[|[s1 k1]]|]; [ constructor | apply IH | constructor ].
Qed.
Lemma send_log_typed b k d a : Forall (typed call_table b) (send_log b k d a).
Proof.
  unfold send_log. constructor; [ split; [ cbn; auto 12 | reflexivity ] | ]. destruct (_ !! a) as [n|]; [ | constructor; [ split; [ cbn; auto 12 | reflexivity ] | constructor ] ].
  destruct (deref k n); [ | constructor ]. destruct (snd _); [ constructor | ]. constructor; [ split; [ cbn; auto 12 | reflexivity ] | constructor ].
Qed.
(** Nothing else is ever written: "unknown packet type", "error creating ArtPollReply packet for self", "error creating ArtPoll packet" and "error getting buffer for address" are unreachable. *)
Theorem C109_kinds : forall E ls y tr lg, wf_config (E_config E) -> lruns E ls y tr lg -> Forall (kind E) lg.
Proof.
  intros E ls y tr lg W R. revert ls y tr lg R. apply (lsteps_ind2 E (fun _ _ lg => Forall (kind E) lg)); [ constructor | ].
  intros y1 tr lg l y2 o [ls0 R] IH _ Hx. apply Forall_app. split; [ exact IH | ]. clear IH.
  pose proof (runs_ok _ _ _ _ R) as OK. pose proof (sys_threads _ _ _ OK) as Ht. assert (I : Inv (S_tables (Y_sh y1))) by (eapply reach_inv; apply (sys_shared _ _ _ OK)).
  assert (N1 : forall v m fs, In (v, m) node_table -> field "type" fs = None -> Forall (kind E) [mkEntry v m (fs ++ node_fields)]).
  { intros v m fs H1 H2. constructor; [ | constructor ]. left. split; [ exact H1 | ]. unfold get. cbn [G_fields]. clear -H2. induction fs as [|[k x] fs IHf]; [ reflexivity | ]. cbn [field app] in *. destruct (String.eqb "type" k); [ discriminate | auto ]. }
  apply exec_cases in Hx; destruct Hx as [(i & c & t & s & t' & sp & -> & Et & Es & _)|[(t & -> & _ & K)|(mm & op & f & -> & _ & _ & _ & K)]];
  [ rewrite (logged_run _ _ _ _ _ Et) | destruct K as [[-> _]|[[-> _]|(d & a & -> & _)]]; constructor | destruct f; subst; cbn [logged]; destruct (S_shutdown _); cbn [negb]; [ constructor | | constructor | ]; apply (N1 _ _ [("opcode", VOp op)]%string); cbn; auto 12 ].
  destruct (Forall_lookup_1 _ _ _ _ Ht Et) as [T1 T2].
  tcases Es; try (constructor; fail); cbn [tlog]; repeat case_match; try (constructor; fail); try (exfalso; congruence); try (exfalso; eapply announce_ok; eassumption); try (exfalso; eapply poll_ok; eassumption).
  all: try (first [ apply (N1 _ _ []) | apply (N1 _ _ [_]) | apply (N1 _ _ [_; _]) ]; [ solve [ cbn; auto 12 ] | reflexivity ]).
  all: try (exfalso; match goal with HC : S_callbacks _ !! _ = Some ?h |- _ => destruct (builtin_at _ _ _ _ _ _ R HC) as [B1 B2];
    first [ destruct (decoded_poll _ T1 (B1 eq_refl)) as [? ?]; discriminate | destruct (decoded_reply _ T1 (B2 eq_refl)) as [? ?]; discriminate ] end).
  - constructor; [ | constructor ]. right. left. split; [ reflexivity | ]. split; [ eexists; reflexivity | reflexivity ].
  - unfold gcNode_log. eapply List.Forall_impl; [ | apply gc_log_typed ]. intros e [E1 E2]. right. right. right. left. split; [ exact E1 | ]. rewrite E2. unfold ctl_fields. destruct T2 as [_ T2]. destruct (S_cgens (Y_sh y1)); [ unfold has in T2; cbn in T2; lia | reflexivity ].
  - eapply List.Forall_impl; [ | apply reply_log_typed ]. intros e [E1 E2]. right. right. right. left. split; [ exact E1 | ]. rewrite E2. unfold ctl_fields. destruct T2 as [_ T2]. destruct (S_cgens (Y_sh y1)); [ unfold has in T2; cbn in T2; lia | reflexivity ].
  - rewrite tick_loop_quiet; [ constructor | exact I | apply order_routed; assumption ].
  - eapply List.Forall_impl; [ | apply send_log_typed ]. intros e [E1 E2]. unfold kind. rewrite E2. unfold ctl_fields. destruct (S_cgens (Y_sh y1)).
    + right. right. right. right. split; [ exact E1 | reflexivity ].
    + right. right. right. left. split; [ | reflexivity ]. unfold call_table, ctl_table in *. cbn in *. intuition.
  - constructor; [ | constructor ]. right. right. left. split; [ reflexivity | ]. eexists. split; [ eassumption | reflexivity ].
Qed.

(** * Examples *)
(** A node starts, gets a poll, one datagram of its own address, and a late registration; the answer is transmitted. *)
Definition chat : script := up_node ++ act (LRegister 0x5000 3) ++ serve_poll 5.
Example C109_chat_ex : exists ls y tr lg, lruns node1 ls y tr lg /\
  texts lg = [(Debug, "node started"); (Debug, "ignoring callback registration: node has already been started"); (Debug, "received packet"); (Debug, "sending ArtPollReply"); (Debug, "packet sent")]%string /\
  late true tr = [0x5000] /\ ups tr = 1%nat /\ length (queued_replies tr) = 1%nat /\ length (heard node1 tr) = 1%nat /\ map (get "type") lg = repeat (Some (VText "Node")) 5.
Proof.
  destruct (ltested_lruns node1 chat (fun ls tr lg =>
    bool_decide (texts lg = [(Debug, "node started"); (Debug, "ignoring callback registration: node has already been started"); (Debug, "received packet"); (Debug, "sending ArtPollReply"); (Debug, "packet sent")]%string) &&
    bool_decide (late true tr = [0x5000]) && bool_decide (ups tr = 1%nat) && bool_decide (length (queued_replies tr) = 1%nat) && bool_decide (length (heard node1 tr) = 1%nat) &&
    bool_decide (map (get "type") lg = repeat (Some (VText "Node")) 5))) as (ls & y & tr & lg & R & H); [ vm_compute; reflexivity | ].
  repeat (apply andb_prop in H; let X := fresh in destruct H as [H X]; apply bool_decide_eq_true in X). apply bool_decide_eq_true in H. exists ls, y, tr, lg. auto 12.
Qed.
(** A socket that fails while the node runs: the answer is lost, and the log says so. *)
Example C109_lost_ex : exists ls y tr lg, lruns node1 ls y tr lg /\ length (lost true tr) = 1%nat /\ length (about "error writing packet" lg) = 1%nat /\ sent tr = [].
Proof.
  destruct (ltested_lruns node1 (removelast (removelast chat) ++ act (LRun 3 CErr)) (fun ls tr lg => bool_decide (length (lost true tr) = 1%nat) && bool_decide (length (about "error writing packet" lg) = 1%nat) && bool_decide (sent tr = [])))
    as (ls & y & tr & lg & R & H); [ vm_compute; reflexivity | ].
  repeat (apply andb_prop in H; let X := fresh in destruct H as [H X]; apply bool_decide_eq_true in X). apply bool_decide_eq_true in H. exists ls, y, tr, lg. auto 12.
Qed.
(** Stop writes "failed to close read socket" exactly when it finds a socket that is closed already; then it has closed nothing. *)
Theorem C109_close : forall E ls y tr lg i y' o, lruns E ls y tr lg -> Y_threads y !! i = Some U_closeconn -> exec E y (LRun i CGo) = RNext y' o ->
  logged E y (LRun i CGo) = [] /\ (S_conns (Y_sh y) = [] \/ exists cs, S_conns (Y_sh y) = cs ++ [true] /\ S_conns (Y_sh y') = cs ++ [false]) \/
  map G_level (logged E y (LRun i CGo)) = [Info] /\ S_conns (Y_sh y') = S_conns (Y_sh y) /\ exists cs, S_conns (Y_sh y) = cs ++ [false].
Proof.
  intros E ls y tr lg i y' o _ Ht Hx. rewrite (logged_run _ _ _ _ _ Ht). cbn [exec] in Hx. rewrite Ht in Hx. cbn [tstep tlog] in *.
  assert (Hs : S_conns (Y_sh y') = match last_index (S_conns (Y_sh y)) with Some c => <[c := false]> (S_conns (Y_sh y)) | None => S_conns (Y_sh y) end).
  { destruct (last_index _); destruct (E_ctl E); injection Hx as <- _; reflexivity. }
  clear Hx. destruct (S_conns (Y_sh y)) as [|b cs _] using rev_ind; [ left; auto | ].
  unfold last_index in *. rewrite app_length in *. rewrite Nat.add_1_r in *. rewrite insert_app_r_alt, Nat.sub_diag in Hs by lia. cbn in Hs.
  unfold flag_at. rewrite list_lookup_middle by reflexivity. destruct b; [ left | right ]; (split; [ reflexivity | ]); [ right | split; [ exact Hs | ] ]; eauto.
Qed.
Definition P_LogMore_theorems := (C109_close, C109_started, C109_styles, C109_listen, C109_registrations, C109_replying, C109_received_all, C109_write_errors, C109_kinds, C109_chat_ex, C109_lost_ex).
Print Assumptions P_LogMore_theorems.
