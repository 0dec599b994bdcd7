(** The conservation laws of the system (every run, any schedule, any number of Starts and Stops). *)
From Verif Require Import SysFacts.
From Verif Require Export Sys.
From stdpp Require Import base list gmap.
Open Scope N_scope.

Global Instance tag_eq_dec : EqDecision tag.
Proof. solve_decision. Defined.
Global Instance Header_eq_dec : EqDecision Header.
Proof. solve_decision. Defined.
Global Instance Poll_eq_dec : EqDecision ArtPollPacket.
Proof. solve_decision. Defined.
Global Instance PollReply_eq_dec : EqDecision ArtPollReplyPacket.
Proof. solve_decision. Defined.
Global Instance packet_eq_dec : EqDecision packet.
Proof. intros a b. unfold Decision. repeat decide equality. Defined.

(** * Datagrams: received -> parsed (or discarded after Stop) *)
(** A datagram is foreign if it does not come from the node's own IP address. *)
Definition foreign (E : env) (from : UDPAddr) : bool := negb (IP_Equal (E_localIP E) (fst from)).
(** What fits into the read buffer. *)
Definition truncated (d : list N) : list N := firstn 4096 d.
Definition law_datagrams (E : env) : law (list N) := mkLaw
  (fun t => match t with
            | RD_got b (Some (from, num)) => if foreign E from then [firstn num b] else []
            | RD_push _ d | RD_pushing _ d _ | RL_parse d => [d]
            | _ => []
            end)
  Q_recv
  (fun o => match o with ORecv from d => if foreign E from then [truncated d] else [] | _ => [] end)
  (fun o => match o with OParse d => [d] | ODiscard from d => if foreign E from then [d] else [] | _ => [] end).

Ltac law_tac H :=
  tcases H; try reflexivity; qfacts; cbn [v_t v_g v_in v_out];
  rewrite ?collect_cons, ?collect_nil; cbn [app upd_gen S_gens with_shutdown with_err with_gens with_conns with_tables with_cgens with_tickers];
  unfold upd_gen; cbn [S_gens with_gens];
  try match goal with G : S_gens _ !! ?g = Some ?ch |- context [cnt ?P (collect ?f (<[?g := ?ch']> _))] =>
    pose proof (collect_insert P f _ g ch ch' G) end;
  cbn [Q_send Q_recv Q_poll Q_reply set_send set_recv set_poll set_reply set_closed v_g v_t] in *;
  repeat match goal with G : ?q = _ :: _, K : context [?q] |- _ => lazymatch q with Q_send _ => rewrite G in K | Q_recv _ => rewrite G in K | Q_poll _ => rewrite G in K | Q_reply _ => rewrite G in K end end;
  rewrite ?collect_app, ?collect_cons, ?collect_nil in *; cbn [app v_g new_chans Q_send Q_recv Q_poll Q_reply] in *;
  repeat match goal with K : context [cnt _ (_ :: ?l)] |- _ => lazymatch l with [] => fail | _ => rewrite (cnt_cons _ _ l) in K end end;
  rewrite ?cnt_app, ?cnt_nil in *; try lia.

Lemma datagrams_respected E : respects E (law_datagrams E).
Proof.
  split; [ | split; [ repeat split | repeat split ] ].
  intros P s h t c s' t' sp o Hs Ht Hr Hc H.
  clear Hs Hr Hc. unfold law_datagrams. law_tac H.
  - (* a read *) cbn in Ht. destruct Ht as [Hb _]. replace (take _ (take _ data ++ _)) with (truncated data).
    + lia.
    + unfold truncated. unfold len, read_buffer in Hb. assert (Hb' : length b = 4096%nat) by lia. rewrite Hb'.
      rewrite firstn_app, firstn_firstn, Nat.min_id, firstn_length.
      destruct (Nat.le_gt_cases (length data) 4096).
      * rewrite Nat.min_l by lia. rewrite Nat.min_id, Nat.sub_diag. cbn [firstn]. rewrite app_nil_r. rewrite !firstn_all2 by lia. reflexivity.
      * rewrite Nat.min_r by lia. rewrite Nat.min_l by lia. rewrite Nat.sub_diag. cbn [firstn]. rewrite app_nil_r. reflexivity.
  - (* sent by the node itself *) unfold foreign. match goal with G : IP_Equal _ _ = _ |- _ => rewrite G end. cbn [negb]. rewrite cnt_nil. lia.
  - unfold foreign. match goal with G : IP_Equal _ _ = _ |- _ => rewrite G end. cbn [negb].
    cbn in Ht. rewrite go_copy_firstn by tauto. lia.
Qed.

(** * Packets: handed to a handler -> callback invoked or ignored *)
Definition law_packets : law packet := mkLaw
  (fun t => match t with H_start p => [p] | _ => [] end)
  (fun _ => [])
  (fun o => match o with OSpawn p => [p] | _ => [] end)
  (fun o => match o with OCall _ p | OIgnore p => [p] | _ => [] end).
Lemma packets_respected E : respects E law_packets.
Proof.
  split; [ | split; [ repeat split | repeat split ] ].
  intros P s h t c s' t' sp o Hs Ht Hr Hc H.
  clear Hs Ht Hr Hc. unfold law_packets. law_tac H.
Qed.

(** * Polls: the callback invoked (or the controller's own poll sent) -> put on pollCh *)
Definition law_polls : law ArtPollPacket := mkLaw
  (fun t => match t with
            | H_poll q | H_polling q _ => [q]
            | CP_poll _ | CP_polling _ _ => [NewArtPollPacket]
            | _ => []
            end)
  (fun _ => [])
  (fun o => match o with OCall HPoll (PktPoll q) => [q] | OQueued (KPoll, _) => [NewArtPollPacket] | _ => [] end)
  (fun o => match o with OPolled q => [q] | _ => [] end).
Lemma polls_respected E : respects E law_polls.
Proof.
  split; [ | split; [ repeat split | repeat split ] ].
  intros P s h t c s' t' sp o Hs Ht Hr Hc H.
  clear Hs Ht Hr Hc. unfold law_polls. law_tac H.
  destruct p; try (rewrite cnt_nil; lia). exfalso. eapply H0. reflexivity.
Qed.

(** * Replies: each poll taken from pollCh puts one reply on sendCh *)
Definition law_replies : law unit := mkLaw
  (fun t => match t with PR_send _ | PR_sending _ _ => [tt] | _ => [] end)
  (fun ch => map (fun _ => tt) (Q_poll ch))
  (fun o => match o with OPolled _ => [tt] | _ => [] end)
  (fun o => match o with OQueued (KReply, _) => [tt] | _ => [] end).
Lemma replies_respected E : respects E law_replies.
Proof.
  split; [ | split; [ repeat split | repeat split ] ].
  intros P s h t c s' t' sp o Hs Ht Hr Hc H.
  clear Hs Ht Hr Hc. unfold law_replies. law_tac H.
  all: repeat match goal with K : context [map _ _] |- _ => rewrite ?map_app in K; cbn [map] in K; rewrite ?cnt_app in K;
         try match type of K with context [cnt _ (tt :: ?l)] => lazymatch l with [] => fail | _ => rewrite (cnt_cons _ tt l) in K end end; revert K end; intros.
  all: cbn [map]; rewrite ?cnt_nil in *; lia.
Qed.

(** * Payloads: put on sendCh -> transmitted or dropped *)
Definition law_payloads : law (tag * payload) := mkLaw
  (fun t => match t with SL_check x | SL_write x => [x] | _ => [] end)
  Q_send
  (fun o => match o with OQueued x => [x] | _ => [] end)
  (fun o => match o with OTx x | ODrop x => [x] | _ => [] end).
Lemma payloads_respected E : respects E law_payloads.
Proof.
  split; [ | split; [ repeat split | repeat split ] ].
  intros P s h t c s' t' sp o Hs Ht Hr Hc H.
  clear Hs Ht Hr Hc. unfold law_payloads. law_tac H.
Qed.

(** * Poll replies: callback of a controller -> pollReplyCh -> tables *)
Definition law_reply_calls (E : env) : law ArtPollReplyPacket := mkLaw
  (fun t => match t with H_reply q | H_replying q _ => [q] | _ => [] end)
  (fun _ => [])
  (fun o => match o with OCall HPollReply (PktPollReply q) => if C_Type (E_config E) =? StController then [q] else [] | _ => [] end)
  (fun o => match o with OQueuedReply q => [q] | _ => [] end).
Lemma reply_calls_respected E : respects E (law_reply_calls E).
Proof.
  split; [ | split; [ repeat split | repeat split ] ].
  intros P s h t c s' t' sp o Hs Ht Hr Hc H.
  clear Hs Ht Hr Hc. unfold law_reply_calls. law_tac H.
  - match goal with G : C_Type _ = _ |- _ => rewrite G end. rewrite N.eqb_refl. lia.
  - destruct (N.eqb_spec (C_Type (E_config E)) StController) as [K|K]; destruct p; try (rewrite cnt_nil; lia). exfalso. eapply H0; [ exact K | reflexivity ].
Qed.
Definition law_reply_events : law ArtPollReplyPacket := mkLaw
  (fun t => match t with CP_reply _ q => [q] | _ => [] end)
  Q_reply
  (fun o => match o with OQueuedReply q => [q] | _ => [] end)
  (fun o => match o with OTable _ (EReply q _) _ => [q] | _ => [] end).
Lemma reply_events_respected E : respects E law_reply_events.
Proof.
  split; [ | split; [ repeat split | repeat split ] ].
  intros P s h t c s' t' sp o Hs Ht Hr Hc H.
  clear Hs Ht Hr Hc. unfold law_reply_events. law_tac H.
Qed.

Lemma step_quiet s e s' out : step s e = Ret (s', out) -> match e with ETick _ _ => True | _ => out = [] end.
Proof.
  destruct e as [q now|clock|dmx a|order now|]; cbn [step]; intros H; try exact I.
  - destruct (handle_reply s q now); cbn [bind] in H; [ congruence | discriminate ].
  - destruct (gcNode s clock) as [[k n]|]; cbn [bind] in H; [ congruence | discriminate ].
  - destruct (SendDMXToAddress s dmx a) as [[k n]|]; cbn [bind] in H; [ congruence | discriminate ].
  - congruence.
Qed.
(** * DMX frames: made by a tick -> put on sendCh *)
Definition law_frames : law payload := mkLaw
  (fun t => match t with DL_push fs => fs | DL_pushing f fs _ => f :: fs | _ => [] end)
  (fun _ => [])
  (fun o => match o with OTable _ _ out => out | _ => [] end)
  (fun o => match o with OQueued (KDmx, f) => [f] | _ => [] end).
Lemma frames_respected E : respects E law_frames.
Proof.
  split; [ | split; [ repeat split | repeat split ] ].
  intros P s h t c s' t' sp o Hs Ht Hr Hc H.
  clear Hs Ht Hr Hc. unfold law_frames. law_tac H.
  all: repeat match goal with G : step _ _ = Ret _ |- _ => apply step_quiet in G; cbn in G; subst end; rewrite ?cnt_nil; try lia.
  rewrite (cnt_cons P f fs). lia.
Qed.

(** * Frames are queued in the order of the ticks *)
(** c.nodeLock is held iff exactly one dmxUpdateLoop is delivering the frames of a tick. *)
Definition delivering (t : thread) : nat := match t with DL_push _ | DL_pushing _ _ _ => 1 | _ => 0 end.
Definition undelivered (t : thread) : list payload := match t with DL_push fs => fs | DL_pushing f fs _ => f :: fs | _ => [] end.
Definition lock_inv (y : sys) : Prop :=
  sum_list_with delivering (Y_threads y) = if S_lock (Y_sh y) then 1%nat else 0%nat.
Lemma sum_insert {A} (f : A -> nat) l : forall i x y, l !! i = Some x ->
  (sum_list_with f (<[i := y]> l) + f x = sum_list_with f l + f y)%nat.
Proof.
  induction l as [|z l IH]; intros [|i] x y H; simpl in *; try discriminate.
  - injection H as ->. lia.
  - specialize (IH i x y H). lia.
Qed.
Lemma sum_ge {A} (f : A -> nat) l : forall i x, l !! i = Some x -> (f x <= sum_list_with f l)%nat.
Proof.
  induction l as [|z l IH]; intros [|i] x H; simpl in *; try discriminate.
  - injection H as ->. lia.
  - specialize (IH i x H). lia.
Qed.
Lemma sum_0 {A} (f : A -> nat) l : sum_list_with f l = 0%nat <-> Forall (fun x => f x = 0%nat) l.
Proof.
  induction l as [|x l IH]; simpl; [ split; [ constructor | reflexivity ] | ]. rewrite Forall_cons. rewrite <- IH. lia.
Qed.
(** When at most one element has a role, a view that is empty for the others is that of the one. *)
Lemma collect_0 {A B} (r : A -> nat) (f : A -> list B) l : (forall x, r x = 0%nat -> f x = []) ->
  sum_list_with r l = 0%nat -> collect f l = [].
Proof.
  intros Hr. induction l as [|x l IH]; simpl; intros H; [ reflexivity | ].
  rewrite collect_cons, IH by lia. rewrite Hr by lia. reflexivity.
Qed.
Lemma collect_one {A B} (r : A -> nat) (f : A -> list B) l : (forall x, r x = 0%nat -> f x = []) ->
  forall i x, l !! i = Some x -> (sum_list_with r l <= 1)%nat -> r x = 1%nat ->
  collect f l = f x /\ forall y, collect f (<[i := y]> l) = f y.
Proof.
  intros Hr. induction l as [|z l IH]; intros [|i] x H Hs Hx; simpl in *; try discriminate.
  - injection H as ->. rewrite collect_cons, (collect_0 r f l Hr) by lia. split; [ apply app_nil_r | ].
    intros y. rewrite collect_cons, (collect_0 r f l Hr) by lia. apply app_nil_r.
  - pose proof (sum_ge r l i x H). rewrite collect_cons, (Hr z) by lia.
    destruct (IH i x H ltac:(lia) Hx) as [I1 I2]. split; [ exact I1 | ]. intros y. rewrite collect_cons, (Hr z) by lia. apply I2.
Qed.
Lemma collect_same {A B} (f : A -> list B) l : forall i x y, l !! i = Some x -> f y = f x -> collect f (<[i := y]> l) = collect f l.
Proof.
  induction l as [|z l IH]; intros [|i] x y H Hf; simpl in *; try discriminate; rewrite !collect_cons.
  - injection H as ->. rewrite Hf. reflexivity.
  - f_equal. eapply IH; eassumption.
Qed.

Lemma lock_step E s t c s' t' sp o : tstep E s t c = Next s' t' sp o -> (delivering t <= if S_lock s then 1 else 0)%nat ->
  (delivering t' + (if S_lock s then 1 else 0) = delivering t + (if S_lock s' then 1 else 0) /\ sum_list_with delivering sp = 0)%nat.
Proof.
  intros H Hd. tcases H; cbn -[N.add N.sub] in *; repeat match goal with G : S_lock _ = _ |- _ => rewrite G in * end; auto; try lia.
  destruct (S_lock s); cbn; lia.
Qed.
Lemma lock_exec E y l y' o : lock_inv y -> exec E y l = RNext y' o -> lock_inv y'.
Proof.
  unfold lock_inv. intros Hy H. apply exec_cases in H.
  destruct H as [(i & c & t & s & t' & sp & -> & Et & Es & ->)|[(t & -> & -> & Hk)|(m & op & f & -> & -> & _)]]; cbn [Y_sh Y_threads].
  - pose proof (sum_ge delivering _ _ _ Et). destruct (lock_step E _ _ _ _ _ _ _ Es ltac:(lia)) as [L1 L2].
    pose proof (sum_insert delivering _ i t t' Et). rewrite sum_list_with_app. lia.
  - rewrite sum_list_with_app, Hy. destruct Hk as [[-> ->]|[[-> ->]|(dmx & a & -> & _ & ->)]]; try destruct (E_ctl E); simpl; lia.
  - exact Hy.
Qed.

Definition frames_made (tr : list obs) : list payload := collect (fun o => match o with OTable _ _ out => out | _ => [] end) tr.
Definition frames_queued (tr : list obs) : list payload := collect (fun o => match o with OQueued (KDmx, f) => [f] | _ => [] end) tr.
Lemma frames_step E s t c s' t' sp o : tstep E s t c = Next s' t' sp o ->
  (delivering t = 1%nat \/ delivering t' = 1%nat -> frames_queued o ++ undelivered t' = undelivered t ++ frames_made o) /\
  (delivering t = 0%nat -> delivering t' = 0%nat -> frames_queued o = [] /\ frames_made o = []) /\
  (delivering t = 1%nat -> frames_made o = []) /\ collect undelivered sp = [].
Proof.
  intros H. tcases H; repeat match goal with G : step _ _ = Ret _ |- _ => apply step_quiet in G; cbn in G; subst end;
    unfold frames_queued, frames_made; cbn; rewrite ?app_nil_r; repeat split; intros; try reflexivity; try lia; try discriminate.
Qed.
Lemma undelivered_0 t : delivering t = 0%nat -> undelivered t = [].
Proof. destruct t; cbn; intros; try reflexivity; discriminate. Qed.
Lemma delivering_01 t : delivering t = 0%nat \/ delivering t = 1%nat.
Proof. destruct t; cbn; auto. Qed.
Lemma frames_exec E y tr l y' o : lock_inv y -> exec E y l = RNext y' o ->
  frames_made tr = frames_queued tr ++ collect undelivered (Y_threads y) ->
  frames_made (tr ++ o) = frames_queued (tr ++ o) ++ collect undelivered (Y_threads y').
Proof.
  intros Hy H HF. pose proof (lock_exec E y l y' o Hy H) as Hy'. unfold lock_inv in *.
  unfold frames_made, frames_queued in *. rewrite !collect_app. rewrite HF. clear HF. rewrite <- !app_assoc. f_equal.
  fold (frames_made o) (frames_queued o). apply exec_cases in H.
  destruct H as [(i & c & t & s & t' & sp & -> & Et & Es & ->)|[(t & -> & -> & Hk)|(m & op & f & -> & -> & _)]]; cbn [Y_sh Y_threads] in *.
  - destruct (frames_step E _ _ _ _ _ _ _ Es) as (F1 & F2 & F3 & F4). rewrite collect_app, F4, app_nil_r.
    rewrite sum_list_with_app in Hy'. pose proof (sum_insert delivering _ i t t' Et) as Hi.
    assert (Hil : (i < length (Y_threads y))%nat) by (eapply lookup_lt_Some; exact Et).
    destruct (delivering_01 t) as [D|D].
    + destruct (delivering_01 t') as [D'|D'].
      * destruct (F2 D D') as [-> ->]. cbn [app]. rewrite app_nil_r. symmetry. eapply collect_same; [ exact Et | ].
        rewrite !undelivered_0 by assumption. reflexivity.
      * assert (Z : sum_list_with delivering (Y_threads y) = 0%nat) by (destruct (S_lock s), (S_lock (Y_sh y)); lia).
        rewrite (collect_0 delivering undelivered _ undelivered_0 Z). rewrite (undelivered_0 t D) in F1. cbn [app] in *.
        destruct (collect_one delivering undelivered (<[i := t']> (Y_threads y)) undelivered_0 i t' ltac:(apply list_lookup_insert; exact Hil) ltac:(lia) D') as [-> _].
        symmetry. apply F1. auto.
    + destruct (collect_one delivering undelivered (Y_threads y) undelivered_0 i t Et ltac:(destruct (S_lock (Y_sh y)); lia) D) as [-> C].
      rewrite C. symmetry. apply F1. auto.
  - rewrite collect_app. destruct Hk as [[-> ->]|[[-> ->]|(dmx & a & -> & _ & ->)]]; try destruct (E_ctl E); cbn; rewrite ?app_nil_r; reflexivity.
  - cbn. rewrite app_nil_r. reflexivity.
Qed.
Theorem frames_in_order E ls y tr : runs E ls y tr ->
  lock_inv y /\ frames_made tr = frames_queued tr ++ collect undelivered (Y_threads y).
Proof.
  unfold runs. intros H. remember (init E) as y0 eqn:E0. revert E0.
  induction H as [|y0 ls y1 tr1 l y2 o Hs IH Hl He]; intros ->; [ split; reflexivity | ].
  destruct (IH eq_refl) as [I1 I2]. split; [ eapply lock_exec; eassumption | eapply frames_exec; eassumption ].
Qed.
