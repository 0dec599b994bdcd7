(** The transitions of Sys.tstep as a relation, one constructor per transition: only a convenience for case
    analysis, equivalent to [tstep] by [tstep_trans] and [trans_tstep]. *)
From Verif Require Export Sys.
From stdpp Require Import base list gmap.
Open Scope N_scope.

Inductive trans (E : env) (s : shared) : thread -> Sys.choice -> shared -> thread -> list thread -> list obs -> Prop :=
(* pollReplyLoop *)
| T_PR_start me : snd (PollReply_MarshalBinary (ArtPollReplyFromConfig (E_config E))) = Ok me -> trans E s PR_start CGo s (PR_loop me) [] []
| T_PR_fail e : snd (PollReply_MarshalBinary (ArtPollReplyFromConfig (E_config E))) = Err e -> trans E s PR_start CGo s TDone [] []
| T_PR_loop me g : last_index (S_gens s) = Some g -> trans E s (PR_loop me) CGo s (PR_wait me g) [] []
| T_PR_take me g ch q qs : S_gens s !! g = Some ch -> Q_poll ch = q :: qs -> trans E s (PR_wait me g) CGo (upd_gen s g (set_poll ch qs)) (PR_send me) [] []
| T_PR_down me g : gen_closed s g = true -> trans E s (PR_wait me g) CDown s TDone [] []
| T_PR_send me g : last_index (S_gens s) = Some g -> trans E s (PR_send me) CGo s (PR_sending me g) [] []
| T_PR_push me g ch qs : S_gens s !! g = Some ch -> push (Q_send ch) (KReply, (E_nodeBroadcast E, me)) = Some qs ->
    trans E s (PR_sending me g) CGo (upd_gen s g (set_send ch qs)) (PR_loop me) [] [OQueued (KReply, (E_nodeBroadcast E, me))]
(* sendLoop *)
| T_SL_loop g : last_index (S_gens s) = Some g -> trans E s SL_loop CGo s (SL_wait g) [] []
| T_SL_take g ch x qs : S_gens s !! g = Some ch -> Q_send ch = x :: qs -> trans E s (SL_wait g) CGo (upd_gen s g (set_send ch qs)) (SL_check x) [] []
| T_SL_down g : gen_closed s g = true -> trans E s (SL_wait g) CDown s TDone [] []
| T_SL_quit x : S_shutdown s = true -> trans E s (SL_check x) CGo s TDone [] [ODrop x]
| T_SL_check x : S_shutdown s = false -> trans E s (SL_check x) CGo s (SL_write x) [] []
| T_SL_write x c : last_index (S_conns s) = Some c -> flag_at (S_conns s) c = true -> trans E s (SL_write x) CGo s SL_loop [] [OTx x]
| T_SL_err x c : last_index (S_conns s) = Some c -> trans E s (SL_write x) CErr s SL_loop [] [ODrop x]
(* recvLoop *)
| T_RL_start : trans E s RL_start CGo s RL_loop [RD_read (zeros read_buffer)] []
| T_RL_loop g : last_index (S_gens s) = Some g -> trans E s RL_loop CGo s (RL_wait g) [] []
| T_RL_take g ch d qs : S_gens s !! g = Some ch -> Q_recv ch = d :: qs -> trans E s (RL_wait g) CGo (upd_gen s g (set_recv ch qs)) (RL_parse d) [] []
| T_RL_down g : gen_closed s g = true -> trans E s (RL_wait g) CDown s TDone [] []
| T_RL_reject data o e : Unmarshal data = Ret (o, Some e) -> trans E s (RL_parse data) CGo s RL_loop [] [OParse data]
| T_RL_accept data p : Unmarshal data = Ret (Some p, None) -> trans E s (RL_parse data) CGo s RL_loop [H_start p] [OParse data; OSpawn p]
(* reader *)
| T_RD_read b c : last_index (S_conns s) = Some c -> trans E s (RD_read b) CGo s (RD_reading b c) [] []
| T_RD_datagram b c from data : flag_at (S_conns s) c = true ->
    trans E s (RD_reading b c) (CDatagram from data) s
      (RD_got (firstn (Nat.min (length data) (length b)) data ++ skipn (Nat.min (length data) (length b)) b) (Some (from, Nat.min (length data) (length b))))
      [] [ORecv from data]
| T_RD_err b c : trans E s (RD_reading b c) CErr s (RD_got b None) [] []
| T_RD_discard b from n : S_shutdown s = true -> trans E s (RD_got b (Some (from, n))) CGo s TDone [] [ODiscard from (firstn n b)]
| T_RD_quit b : S_shutdown s = true -> trans E s (RD_got b None) CGo s TDone [] []
| T_RD_own b from n : S_shutdown s = false -> IP_Equal (E_localIP E) (fst from) = true -> trans E s (RD_got b (Some (from, n))) CGo s (RD_read b) [] []
| T_RD_got b from n : S_shutdown s = false -> IP_Equal (E_localIP E) (fst from) = false ->
    trans E s (RD_got b (Some (from, n))) CGo s (RD_push b (go_copy (zeros (N.of_nat n)) b)) [] []
| T_RD_push b d g : last_index (S_gens s) = Some g -> trans E s (RD_push b d) CGo s (RD_pushing b d g) [] []
| T_RD_pushed b d g ch qs : S_gens s !! g = Some ch -> push (Q_recv ch) d = Some qs ->
    trans E s (RD_pushing b d g) CGo (upd_gen s g (set_recv ch qs)) (RD_read b) [] []
(* handlers *)
| T_H_poll q : S_callbacks s !! GetOpCode (PktPoll q) = Some HPoll -> trans E s (H_start (PktPoll q)) CGo s (H_poll q) [] [OCall HPoll (PktPoll q)]
| T_H_poll_other p : S_callbacks s !! GetOpCode p = Some HPoll -> (forall q, p <> PktPoll q) -> trans E s (H_start p) CGo s TDone [] [OCall HPoll p]
| T_H_reply q : S_callbacks s !! GetOpCode (PktPollReply q) = Some HPollReply -> C_Type (E_config E) = StController ->
    trans E s (H_start (PktPollReply q)) CGo s (H_reply q) [] [OCall HPollReply (PktPollReply q)]
| T_H_reply_other p : S_callbacks s !! GetOpCode p = Some HPollReply -> (C_Type (E_config E) = StController -> forall q, p <> PktPollReply q) ->
    trans E s (H_start p) CGo s TDone [] [OCall HPollReply p]
| T_H_user p f : S_callbacks s !! GetOpCode p = Some (HUser f) -> trans E s (H_start p) CGo s TDone [] [OCall (HUser f) p]
| T_H_ignore p : S_callbacks s !! GetOpCode p = None -> trans E s (H_start p) CGo s TDone [] [OIgnore p]
| T_H_polling q g : last_index (S_gens s) = Some g -> trans E s (H_poll q) CGo s (H_polling q g) [] []
| T_H_polled q g ch qs : S_gens s !! g = Some ch -> push (Q_poll ch) q = Some qs ->
    trans E s (H_polling q g) CGo (upd_gen s g (set_poll ch qs)) TDone [] [OPolled q]
| T_H_replying q g : last_index (S_gens s) = Some g -> trans E s (H_reply q) CGo s (H_replying q g) [] []
| T_H_replied q g ch qs : S_gens s !! g = Some ch -> push (Q_reply ch) q = Some qs ->
    trans E s (H_replying q g) CGo (upd_gen s g (set_reply ch qs)) TDone [] [OQueuedReply q]
(* pollLoop *)
| T_CP_start pb : snd (Poll_MarshalBinary (mkPoll Header_zero (TalkToMe_WithReplyOnChange 0 true) DpAll)) = Ok pb -> trans E s CP_start CGo s (CP_send pb) [] []
| T_CP_fail e : snd (Poll_MarshalBinary (mkPoll Header_zero (TalkToMe_WithReplyOnChange 0 true) DpAll)) = Err e -> trans E s CP_start CGo s TDone [] []
| T_CP_send pb g : last_index (S_gens s) = Some g -> trans E s (CP_send pb) CGo s (CP_sending pb g) [] []
| T_CP_sent pb g ch qs : S_gens s !! g = Some ch -> push (Q_send ch) (KPoll, (E_ctlBroadcast E, pb)) = Some qs ->
    trans E s (CP_sending pb g) CGo (upd_gen s g (set_send ch qs)) (CP_poll pb) [] [OQueued (KPoll, (E_ctlBroadcast E, pb))]
| T_CP_poll pb g : last_index (S_gens s) = Some g -> trans E s (CP_poll pb) CGo s (CP_polling pb g) [] []
| T_CP_polled pb g ch qs : S_gens s !! g = Some ch -> push (Q_poll ch) NewArtPollPacket = Some qs ->
    trans E s (CP_polling pb g) CGo (upd_gen s g (set_poll ch qs)) (CP_loop pb) [] [OPolled NewArtPollPacket]
| T_CP_loop pb cg g : last_index (S_cgens s) = Some cg -> last_index (S_gens s) = Some g -> trans E s (CP_loop pb) CGo s (CP_wait pb g cg) [] []
| T_CP_take pb g cg ch q qs : S_gens s !! g = Some ch -> Q_reply ch = q :: qs ->
    trans E s (CP_wait pb g cg) CGo (upd_gen s g (set_reply ch qs)) (CP_reply pb q) [] []
| T_CP_down pb g cg : flag_at (S_cgens s) cg = true -> trans E s (CP_wait pb g cg) CDown s TDone [] []
| T_CP_tick pb g cg : trans E s (CP_wait pb g cg) CPollTick s (CP_send pb) [] []
| T_CP_gctick pb g cg : trans E s (CP_wait pb g cg) CGcTick s (CP_gc pb) [] []
| T_CP_gc pb clock k out : S_lock s = false -> step (S_tables s) (EGc clock) = Ret (k, out) ->
    trans E s (CP_gc pb) (CClock clock) (with_tables s k false) (CP_loop pb) [] [OTable (S_tables s) (EGc clock) out]
| T_CP_reply pb q now k out : S_lock s = false -> step (S_tables s) (EReply q now) = Ret (k, out) ->
    trans E s (CP_reply pb q) (CTime now) (with_tables s k false) (CP_loop pb) [] [OTable (S_tables s) (EReply q now) out]
(* dmxUpdateLoop *)
| T_DL_start a : ticker_period (S_tables s) = Ret a -> trans E s DL_start CGo s DL_loop [] []
| T_DL_loop cg : last_index (S_cgens s) = Some cg -> trans E s DL_loop CGo s (DL_wait cg) [] []
| T_DL_down cg : flag_at (S_cgens s) cg = true -> trans E s (DL_wait cg) CDown s TDone [] []
| T_DL_tick cg now : trans E s (DL_wait cg) (CTime now) s (DL_lock now) [] []
| T_DL_lock now order k out : S_lock s = false -> order ≡ₚ map_to_list (K_OutputAddress (S_tables s)) ->
    step (S_tables s) (ETick order now) = Ret (k, out) ->
    trans E s (DL_lock now) (COrder order) (with_tables s k true) (DL_push out) [] [OTable (S_tables s) (ETick order now) out]
| T_DL_unlock : trans E s (DL_push []) CGo (with_tables s (S_tables s) false) DL_loop [] []
| T_DL_push f fs g : last_index (S_gens s) = Some g -> trans E s (DL_push (f :: fs)) CGo s (DL_pushing f fs g) [] []
| T_DL_pushed f fs g ch qs : S_gens s !! g = Some ch -> push (Q_send ch) (KDmx, f) = Some qs ->
    trans E s (DL_pushing f fs g) CGo (upd_gen s g (set_send ch qs)) (DL_push fs) [] [OQueued (KDmx, f)]
(* SendDMXToAddress *)
| T_U_send dmx a k out : S_lock s = false -> step (S_tables s) (ESend dmx a) = Ret (k, out) ->
    trans E s (U_send dmx a) CGo (with_tables s k false) TDone [] [OTable (S_tables s) (ESend dmx a) out; OSend]
(* Start *)
| T_U_start_ctl k out : step (S_tables s) EStart = Ret (k, out) ->
    trans E s U_start_ctl CGo (with_cgens (with_tables s k (S_lock s)) (S_cgens s ++ [false])) U_start_node [] [OTable (S_tables s) EStart out]
| T_U_invalid e : validate (E_config E) = Some e -> trans E s U_start_node CGo s TDone [] [OStart false]
| T_U_start_node : validate (E_config E) = None ->
    trans E s U_start_node CGo (with_shutdown (with_gens s (S_gens s ++ [new_chans])) false) U_listen [] [OUp]
| T_U_listen_ctl : E_ctl E = true ->
    trans E s U_listen CGo (with_conns s (S_conns s ++ [true])) U_start_loops [PR_start; RL_start; SL_loop] [OListen]
| T_U_listen_node : E_ctl E = false ->
    trans E s U_listen CGo (with_conns s (S_conns s ++ [true])) TDone [PR_start; RL_start; SL_loop] [OListen; OStart true]
| T_U_listen_err : trans E s U_listen CErr (with_err s true) TDone [] [OStart false]
| T_U_start_loops : trans E s U_start_loops CGo (with_tickers s) TDone [CP_start; DL_start] [OStart (negb (S_shutdownErr s))]
(* Stop *)
| T_U_stop_ctl : S_tickers s = true -> trans E s U_stop_ctl CGo s U_flag [] []
| T_U_flag : trans E s U_flag CGo (with_shutdown s true) U_close [] [ODown]
| T_U_close g ch : last_index (S_gens s) = Some g -> S_gens s !! g = Some ch -> Q_closed ch = false ->
    trans E s U_close CGo (upd_gen s g (set_closed ch)) U_closeconn [] []
| T_U_closeconn_ctl c : E_ctl E = true -> last_index (S_conns s) = Some c ->
    trans E s U_closeconn CGo (with_conns s (<[c := false]> (S_conns s))) U_waitclosed [] []
| T_U_noconn_ctl : E_ctl E = true -> last_index (S_conns s) = None -> trans E s U_closeconn CGo s U_waitclosed [] []
| T_U_closeconn_node c : E_ctl E = false -> last_index (S_conns s) = Some c ->
    trans E s U_closeconn CGo (with_conns s (<[c := false]> (S_conns s))) TDone [] [OStop]
| T_U_noconn_node : E_ctl E = false -> last_index (S_conns s) = None -> trans E s U_closeconn CGo s TDone [] [OStop]
| T_U_waitclosed g : last_index (S_gens s) = Some g -> gen_closed s g = true -> trans E s U_waitclosed CGo s U_closectl [] []
| T_U_closectl cg : last_index (S_cgens s) = Some cg -> flag_at (S_cgens s) cg = false ->
    trans E s U_closectl CGo (with_cgens s (<[cg := true]> (S_cgens s))) TDone [] [OStop].

Lemma Next_inj s t sp o s' t' sp' o' : Next s t sp o = Next s' t' sp' o' -> s = s' /\ t = t' /\ sp = sp' /\ o = o'.
Proof. intros H. injection H as -> -> -> ->. auto. Qed.
Theorem tstep_trans E s t c s' t' sp o : tstep E s t c = Next s' t' sp o -> trans E s t c s' t' sp o.
Proof.
  intros H. destruct t; destruct c; try discriminate H; cbn [tstep] in H; unfold eval_gen, on_closed in H; cbv zeta in H;
    repeat match type of H with
           | context [match ?x with _ => _ end] => destruct x eqn:?; try discriminate H
           end;
    apply Next_inj in H; destruct H as (<- & <- & <- & <-); subst; try (econstructor; eassumption);
    try (apply T_H_poll_other; [ assumption | intros; discriminate ]);
    try (apply T_H_reply; [ assumption | apply N.eqb_eq; assumption ]);
    try (apply T_H_reply_other; [ assumption | intros; discriminate ]).
  - apply T_H_reply_other; [ assumption | ]. intros K. exfalso. apply N.eqb_neq in Heqb. contradiction.
  - apply bool_decide_eq_true in Heqb0. econstructor; eassumption.
Qed.
Theorem trans_tstep E s t c s' t' sp o : trans E s t c s' t' sp o -> tstep E s t c = Next s' t' sp o.
Proof.
  intros H. destruct H; cbn [tstep]; unfold eval_gen, on_closed; cbv zeta;
    repeat match goal with
           | H : ?x = true |- context [?x] => rewrite H
           | H : ?x = false |- context [?x] => rewrite H
           | H : ?x = Some _ |- context [?x] => rewrite H
           | H : ?x = None |- context [?x] => rewrite H
           | H : ?x = Ok _ |- context [?x] => rewrite H
           | H : ?x = Err _ |- context [?x] => rewrite H
           | H : ?x = Ret _ |- context [?x] => rewrite H
           | H : ?x = _ :: _ |- context [?x] => rewrite H
           end; try reflexivity.
  - destruct o; reflexivity.
  - destruct p; try reflexivity. exfalso. eapply H0. reflexivity.
  - rewrite H0. reflexivity.
  - destruct (N.eqb_spec (C_Type (E_config E)) StController) as [K|K]; [ | reflexivity ].
    destruct p; try reflexivity. exfalso. eapply H0; [ exact K | reflexivity ].
  - rewrite bool_decide_eq_true_2 by assumption. reflexivity.
Qed.
