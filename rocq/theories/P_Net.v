(** C82-C84: what several nodes and controllers of this library on one network see of each other, in every run of Net.v. *)
From Verif Require Import WireSpec P_Encode P_Decode P_Config P_Controller ControllerFacts SysFacts SysLaws SysRun SysOrder SysScript P_Node P_Life P_Wire Net.
From stdpp Require Import base list gmap.
Open Scope N_scope.

(** * Observations *)
Lemma call_alone E y l y' o1 h p o2 : exec E y l = RNext y' (o1 ++ OCall h p :: o2) -> o1 = [] /\ o2 = [].
Proof.
  intros He. apply exec_cases in He.
  destruct He as [(i & c & t & s & t' & sp & -> & Et & Es & ->)|[(t & Ho & -> & Hk)|(mm & op & f & Ho & -> & _)]].
  - remember (o1 ++ OCall h p :: o2) as o eqn:Eo. tcases Es; destruct o1 as [|ob1 [|ob2 o1]]; try discriminate Eo; try (cbn in Eo; destruct o1; discriminate Eo);
      injection Eo; intros; subst; auto.
  - destruct o1; discriminate.
  - destruct o1 as [|z [|w o1]]; discriminate.
Qed.
(** The wire formats fit into the reader's buffer of 4096 bytes. *)
Lemma item_short E x : wf_config (E_config E) -> item_ok E x -> firstn 4096 (snd (snd x)) = snd (snd x).
Proof.
  intros Hc H. apply firstn_all2. destruct x as [k [a d]]. cbn [snd]. destruct k; cbn in H.
  - destruct H as [_ H]. unfold reply_datagram in H. pose proof (announcement_wf _ Hc) as Hw. rewrite (marshal_bytes (PktPollReply _) Hw : snd (PollReply_MarshalBinary (ArtPollReplyFromConfig (E_config E))) = Ok (pollreply_bytes (ArtPollReplyFromConfig (E_config E)))) in H. injection H as <-.
    destruct (reply_bytes_at _ Hw) as (_ & _ & _ & L & _). unfold len in L. lia.
  - destruct H as [_ ->]. vm_compute. lia.
  - destruct H as (h & s & order & now & s' & out & Hr & Ho & Hs & Hf). destruct (C45_frames_are_right _ _ _ _ _ _ _ _ Hr Ho Hs Hf) as (? & ? & ? & ? & _ & _ & _ & _ & _ & _ & _ & _ & _ & L). cbn [snd] in L. lia.
Qed.

(** A site where all configurations have their Go types. *)
Definition wf_site (Z : site) : Prop := Forall (fun E => wf_config (E_config E)) (Z_envs Z).
(** Packets of the kind P come only from hosts running this library. *)
Definition only_hosts (Z : site) (P : packet -> Prop) : Prop := forall i from d p, Z_outside Z i from d -> wire_accepts (firstn 4096 d) p -> ~ P p.
(** Every packet given to a callback was transmitted before, by another host that has another address. *)
Lemma called_was_sent Z w G i h p (P : packet -> Prop) : nruns Z w G -> wf_site Z -> only_hosts Z P -> P p -> In (i, OCall h p) G ->
  exists j E x F, Z_envs Z !! i = Some F /\ Z_envs Z !! j = Some E /\ j <> i /\ to16 (E_localIP E) <> to16 (E_localIP F) /\ In (j, OTx x) G /\ Z_hears Z i (fst (snd x)) /\ wire_accepts (snd (snd x)) p /\ item_ok E x.
Proof.
  intros R Hz Ho Hp H. destruct (nruns_host _ _ _ R) as [_ N].
  assert (HF : exists F, Z_envs Z !! i = Some F).
  { apply in_split in H. destruct H as (G1 & G2 & HG). destruct (nruns_before _ _ _ R _ _ _ _ HG) as (? & ? & F & ? & ? & ? & ? & ? & _ & HF & _). eauto. }
  destruct HF as [F HF]. destruct (N i F HF) as (ls & y & _ & RF).
  assert (Hc : In p (called (proj i G))).
  { apply proj_in in H. unfold called, collect. apply in_concat. exists [p]. split; [ | left; reflexivity ]. apply in_map_iff. exists (OCall h p). auto. }
  destruct (proj1 (proj2 (C58_own_ignored _ _ _ _ RF)) p Hc) as (d & Hd & Ha).
  unfold others, collect in Hd. apply in_concat in Hd. destruct Hd as (l & Hl & Hd). apply in_map_iff in Hl. destruct Hl as (o & <- & Hl). destruct o; try contradiction. destruct from as [src port].
  destruct (decide (to16 src = to16 (E_localIP F))) as [|Hsrc]; [ contradiction | ]. destruct Hd as [<-|[]]. apply proj_in in Hl.
  destruct (received_was_sent _ _ _ _ _ _ R Hl) as [(j & E & k & dst & H1 & H2 & H3 & H4)|Hout]; [ | exfalso; exact (Ho _ _ _ _ Hout Ha Hp) ]. cbn [fst] in H2. subst src.
  destruct (N j E H1) as (ls' & y' & _ & RE). pose proof (tx_item _ _ _ _ _ RE (proj2 (proj_in _ _ _) H3)) as Hi.
  assert (Hw : wf_config (E_config E)) by exact (Forall_lookup_1 _ _ _ _ Hz H1). pose proof (item_short E _ Hw Hi) as Hs. cbn [snd] in Hs. rewrite Hs in Ha.
  exists j, E, (k, (dst, data)), F. repeat (split; [ first [ assumption | intros ->; congruence ] | ]). exact Hi.
Qed.

(** * C82 *)
(** Where all ArtDmx comes from hosts of this library: every ArtDmx packet that a callback gets carries the data that the user of another host had written last for this universe and node
    when an earlier tick of that host found the universe routed to an address the receiver hears. *)
Theorem C82_delivered_data : forall Z w G1 i h q G2, nruns Z w (G1 ++ (i, OCall h (PktDMX q)) :: G2) -> wf_site Z -> only_hosts Z (fun p => exists q, p = PktDMX q) ->
  exists j E tra s order now out trb n cn, Z_envs Z !! j = Some E /\ j <> i /\ proj j G1 = tra ++ OTable s (ETick order now) out :: trb /\
    K_OutputAddress s !! (DMX_Net q, DMX_SubUni q) = Some n /\ K_heap s !! n = Some cn /\ Z_hears Z i (C_IP (CN_Node cn), 6454) /\
    DMX_Data q = last_write (hist tra) n (DMX_Net q, DMX_SubUni q).
Proof.
  intros Z w G1 i h q G2 R Hz Ho. destruct (nruns_before _ _ _ R G1 i _ G2 eq_refl) as (w0 & G0 & F & y & l & y' & o1 & o2 & _ & _ & _ & _ & _ & He & _ & (w1 & R1) & _).
  destruct (call_alone _ _ _ _ _ _ _ _ He) as [-> ->]. cbn in R1. clear He. assert (Hin : In (i, OCall h (PktDMX q)) (G1 ++ [(i, OCall h (PktDMX q))])) by (apply in_or_app; right; left; reflexivity).
  destruct (called_was_sent Z w1 _ i h (PktDMX q) _ R1 Hz Ho (ex_intro _ q eq_refl) Hin) as (j & E & x & F' & HF & HE & Hn & _ & Htx & Hh & Ha & Hi).
  assert (Hw : wf_config (E_config E)) by exact (Forall_lookup_1 _ _ _ _ Hz HE).
  destruct (proj2 (nruns_host _ _ _ R1) j E HE) as (ls & z & _ & RE). assert (Hp : proj j (G1 ++ [(i, OCall h (PktDMX q))]) = proj j G1).
  { rewrite proj_app. change [(i, OCall h (PktDMX q))] with (map (pair i) [OCall h (PktDMX q)]). rewrite proj_other by exact Hn. apply app_nil_r. }
  apply proj_in in Htx. rewrite Hp in *. apply in_split in Htx. destruct Htx as (t1 & t2 & Ht). rewrite Ht in RE.
  assert (Hx : is_dmx x = true). { unfold is_dmx. rewrite (accepts_opcode _ _ Ha). inversion Ha; reflexivity. }
  destruct (C73_wire_data _ _ _ _ _ _ Hw RE Hx) as (tra & s & order & now & out & trb & a & n & cn & q' & -> & Hf & H1 & H2 & H3 & H4 & H5 & H6).
  assert (q' = q) as ->. { apply Unmarshal_accepts in Ha; [ congruence | ]. destruct x as [k [dst d]]. exact (proj1 (item_opcode E k dst d Hw Hi)). }
  subst a. rewrite H3 in Hh. exists j, E, tra, s, order, now, out, (trb ++ OTx x :: t2), n, cn. repeat (split; [ assumption | ]). split; [ rewrite Ht, <- app_assoc; reflexivity | ]. auto.
Qed.

(** * C83 *)
Lemma heap_step fps h s e s' out : reach fps h s -> event_ok s e -> step s e = Ret (s', out) -> forall n cn, K_heap s' !! n = Some cn ->
  (exists c0, K_heap s !! n = Some c0 /\ CN_Node c0 = CN_Node cn) \/ exists p now, e = EReply p now /\ tracked p /\ wf_PollReply p /\ ConfigFromArtPollReply p = Ret (CN_Node cn).
Proof.
  intros Hr Ho E n cn Hn. pose proof (reach_inv _ _ _ Hr) as H. destruct e as [p now|clock|dmx b|order now|]; cbn [event_ok step] in Ho, E.
  - destruct (handle_reply_eq s p now Ho) as (cfg & Ec & _ & _ & _ & _ & Eh). rewrite Eh in E.
    destruct (decide (tracked p)) as [Ht|Ht]; cbn in E; [ | injection E as <- <-; left; eauto ].
    assert (Sel : exists m c, K_heap s' = <[m := c]> (K_heap s) /\ CN_Node c = cfg).
    { destruct (updateNode_eq s cfg now H) as [(m & cm & Hm & Hcm & Hi & Eu)|(Hn0 & Eu)]; rewrite Eu in E; cbn in E; injection E as <- <-; cbn; eauto. }
    destruct Sel as (m & c & Es & Ecn). rewrite Es in Hn. destruct (decide (m = n)) as [->|Hne].
    + rewrite lookup_insert in Hn. injection Hn as ->. right. exists p, now. rewrite Ecn. auto.
    + rewrite lookup_insert_ne in Hn by exact Hne. left. eauto.
  - left. destruct (gcNode_eq s clock H) as (s1 & k & Eg & C). rewrite Eg in E. cbn in E. injection E as <- <-. rewrite (col_heap _ _ _ _ _ C) in Hn. eauto.
  - left. unfold SendDMXToAddress in E. destruct (K_OutputAddress s !! b) as [m|]; [ | cbn in E; injection E as <- <-; eauto ].
    unfold deref in E. destruct (K_heap s !! m) as [cm|] eqn:Em; [ | discriminate E ]. cbn in E. pose proof (setDMX_node cm dmx b) as K. destruct (setDMXBuffer cm dmx b) as [c1 ok]. cbn in E, K. injection E as <- <-. cbn in Hn.
    destruct (decide (m = n)) as [->|Hne]; [ rewrite lookup_insert in Hn; injection Hn as <-; eauto | rewrite lookup_insert_ne in Hn by exact Hne; eauto ].
  - left. destruct (tick_exact s order now H Ho) as (s1 & Et & K1 & K2). rewrite Et in E. injection E as <- <-.
    destruct (K_heap s !! n) as [c0|] eqn:E0; [ | rewrite (K2 n E0) in Hn; discriminate Hn ]. destruct (K1 n c0 E0) as (c1 & Hc1 & _ & Hc2 & _). exists c0. split; [ reflexivity | congruence ].
  - left. injection E as <- <-. eauto.
Qed.
(** Every node a controller ever listed comes from an ArtPollReply it handled. *)
Lemma heap_from_reply fps h s : reach fps h s -> forall n cn, K_heap s !! n = Some cn ->
  exists s0 p now out, In (s0, EReply p now, out) h /\ tracked p /\ wf_PollReply p /\ ConfigFromArtPollReply p = Ret (CN_Node cn).
Proof.
  induction 1 as [|h s e s' out Hr IH Ho E]; intros n cn Hn; [ cbn in Hn; rewrite lookup_empty in Hn; discriminate | ].
  destruct (heap_step _ _ _ _ _ _ Hr Ho E n cn Hn) as [(c0 & H0 & Hc)|(p & now & -> & H1 & H2 & H3)].
  - destruct (IH n c0 H0) as (s0 & p & now & out0 & I1 & I2 & I3 & I4). exists s0, p, now, out0. rewrite Hc in I4. split; [ apply in_or_app; left; exact I1 | auto ].
  - exists s, p, now, out. split; [ apply in_or_app; right; left; reflexivity | auto ].
Qed.
(** The replies a host handled were given to its callback. *)
Lemma applied_called E ls y tr s p now out : runs E ls y tr -> In (OTable s (EReply p now) out) tr -> exists h, In (OCall h (PktPollReply p)) tr.
Proof.
  intros R H. destruct (C60_poll_replies _ _ _ _ R) as (K1 & K2 & K3).
  assert (Q : In p (replies_queued tr)).
  { apply elem_of_list_In. rewrite K3. apply elem_of_app. left. apply elem_of_list_In. unfold replies_applied, collect. apply in_concat. exists [p]. split; [ | left; reflexivity ].
    apply in_map_iff. exists (OTable s (EReply p now) out). auto. }
  destruct (N.eq_dec (C_Type (E_config E)) 1) as [Ht|Ht]; [ | destruct (K1 Ht) as [Z _]; rewrite Z in Q; contradiction ].
  assert (C : In p (replies_called tr)). { apply elem_of_list_In. rewrite (K2 Ht). apply elem_of_app. left. apply elem_of_list_In. exact Q. }
  unfold replies_called, collect in C. apply in_concat in C. destruct C as (l & Hl & C). apply in_map_iff in Hl. destruct Hl as (o & <- & Ho).
  destruct o; try contradiction. destruct h; try contradiction. destruct p0; try contradiction. destruct C as [->|[]]. eauto.
Qed.
Lemma in_hist s e out tr : In (s, e, out) (hist tr) -> In (OTable s e out) tr.
Proof. unfold hist. intros H. apply elem_of_list_In, elem_of_list_omap in H. destruct H as (o & Ho & K). apply elem_of_list_In in Ho. destruct o; try discriminate K. injection K as -> -> ->. exact Ho. Qed.

(** A configuration as another host learns it from the announcement of a host with configuration c. *)
Definition announces (E : env) (cfg : NodeConfig) : Prop := valid_config (E_config E) /\ C_Type (E_config E) <= 6 /\ discovered (E_config E) cfg.
Definition no_replies (Z : site) : Prop := only_hosts Z (fun p => exists q, p = PktPollReply q).
Lemma learnt Z w G i E tr1 tr2 h s n cn : nruns Z w G -> wf_site Z -> no_replies Z -> Z_envs Z !! i = Some E -> proj i G = tr1 ++ tr2 -> h = hist tr1 -> reach (E_maxFPS E) h s -> K_heap s !! n = Some cn ->
  exists j F x, Z_envs Z !! j = Some F /\ j <> i /\ In (j, OTx x) G /\ is_reply x = true /\ Z_hears Z i (fst (snd x)) /\ announces F (CN_Node cn).
Proof.
  intros R Hz Ho HE Hp -> Hr Hn. destruct (heap_from_reply _ _ _ Hr n cn Hn) as (s0 & p & now & out & H1 & _ & _ & H4).
  apply in_hist in H1. assert (Hin : In (OTable s0 (EReply p now) out) (proj i G)) by (rewrite Hp; apply in_or_app; left; exact H1).
  destruct (proj2 (nruns_host _ _ _ R) i E HE) as (ls & y & _ & RE). destruct (applied_called _ _ _ _ _ _ _ _ RE Hin) as (hd & Hc). apply proj_in in Hc.
  destruct (called_was_sent Z w G i hd (PktPollReply p) _ R Hz Ho (ex_intro _ p eq_refl) Hc) as (j & F & x & E' & _ & HF & Hne & _ & Htx & Hh & Ha & Hi).
  assert (Hw : wf_config (E_config F)) by exact (Forall_lookup_1 _ _ _ _ Hz HF).
  destruct (proj2 (nruns_host _ _ _ R) j F HF) as (lsF & yF & _ & RF). exists j, F, x. repeat (split; [ assumption | ]).
  assert (Hx : is_reply x = true). { unfold is_reply. rewrite (accepts_opcode _ _ Ha). inversion Ha; reflexivity. }
  split; [ exact Hx | ]. split; [ exact Hh | ]. destruct x as [k [dst d]]. cbn [fst snd] in *. destruct (item_opcode F k dst d Hw Hi) as [Hb Hk].
  unfold is_reply in Hx. cbn [snd] in Hx. rewrite Hk in Hx. destruct k; try discriminate Hx. destruct Hi as [_ Hd]. unfold reply_datagram in Hd.
  destruct (C39_announcement_decodable_partial _ Hw) as (b & Hm & [K1 K2] & _). assert (b = d) as -> by congruence. apply Unmarshal_accepts in Ha; [ | exact Hb ].
  split; [ | split ].
  - destruct (validate (E_config F)) as [e|] eqn:Hv; [ | apply C32_validate_exact; assumption ]. exfalso.
    assert (V : ~ valid_config (E_config F)) by (intros V; apply C32_validate_exact in V; [ congruence | exact Hw ]).
    destruct (C62_invalid_partial _ _ _ _ Hw V RF) as (_ & _ & K & _). apply proj_in in Htx. destruct (K _ Htx) as (_ & _ & _ & K'). exact (K' _ eq_refl).
  - apply K1. eauto.
  - exists d, p. auto.
Qed.
(** Where all ArtPollReply packets come from hosts of this library: every node in the tables of a host is another host that transmitted its announcement to an address heard here before; the entry is the
    configuration learnt from it. *)
Theorem C83_discovered : forall Z w G i E y n cn, nruns Z w G -> wf_site Z -> no_replies Z -> Z_envs Z !! i = Some E -> W_hosts w !! i = Some y -> K_heap (S_tables (Y_sh y)) !! n = Some cn ->
  exists j F x, Z_envs Z !! j = Some F /\ j <> i /\ In (j, OTx x) G /\ is_reply x = true /\ Z_hears Z i (fst (snd x)) /\ announces F (CN_Node cn).
Proof.
  intros Z w G i E y n cn R Hz Ho HE Hy Hn. destruct (proj2 (nruns_host _ _ _ R) i E HE) as (ls & y0 & H0 & RE). assert (y0 = y) as -> by congruence.
  eapply (learnt Z w G i E (proj i G) []); try eassumption; [ symmetry; apply app_nil_r | reflexivity | ]. exact (ok_reach _ _ _ (sys_shared _ _ _ (runs_ok _ _ _ _ RE))).
Qed.
(** Universes are routed to such a host only if it has outputs, and only its base address. *)
Lemma announced_outputs E cfg a : wf_config (E_config E) -> announces E cfg -> a ∈ addresses (C_OutputPorts cfg) -> a = C_BaseAddress (E_config E) /\ C_OutputPorts (E_config E) <> [].
Proof.
  intros Hw (Hv & Ht & Hd) Ha. apply C32_validate_exact in Hv; [ | exact Hw ]. destruct (C36_ports_seen_partial _ Hw Hv Ht) as (cfg' & Hd' & _ & Eo). assert (cfg' = cfg) as -> by exact (discovered_fun _ _ _ Hd' Hd).
  rewrite Eo in Ha. unfold seen_ports, addresses in Ha. rewrite map_map in Ha. apply elem_of_list_In, in_map_iff in Ha. destruct Ha as (k & <- & Hk). split; [ reflexivity | ].
  intros Z. rewrite Z in Hk. contradiction.
Qed.
Theorem C83_routes : forall Z w G i E y a n, nruns Z w G -> wf_site Z -> no_replies Z -> Z_envs Z !! i = Some E -> W_hosts w !! i = Some y -> K_OutputAddress (S_tables (Y_sh y)) !! a = Some n ->
  exists j F x cn, Z_envs Z !! j = Some F /\ j <> i /\ In (j, OTx x) G /\ is_reply x = true /\ K_heap (S_tables (Y_sh y)) !! n = Some cn /\ announces F (CN_Node cn) /\
    a = C_BaseAddress (E_config F) /\ C_OutputPorts (E_config F) <> [].
Proof.
  intros Z w G i E y a n R Hz Ho HE Hy Hn. destruct (proj2 (nruns_host _ _ _ R) i E HE) as (ls & y0 & H0 & RE). assert (y0 = y) as -> by congruence.
  destruct (proj1 (C41_routing_never_dangles _ _ _ (ok_reach _ _ _ (sys_shared _ _ _ (runs_ok _ _ _ _ RE)))) a n Hn) as (_ & cn & pt & Hc & Hp & Ha).
  destruct (C83_discovered Z w G i E y n cn R Hz Ho HE Hy Hc) as (j & F & x & H1 & H2 & H3 & H4 & _ & H6). exists j, F, x, cn. repeat (split; [ assumption | ]).
  apply (announced_outputs F (CN_Node cn)); [ exact (Forall_lookup_1 _ _ _ _ Hz H1) | exact H6 | ]. subst a. unfold addresses. apply elem_of_list_In, in_map. exact Hp.
Qed.

(** * C84 *)
(** The unicast address of a host is heard by that host only. *)
Definition unicast (Z : site) : Prop := forall i j F, Z_envs Z !! j = Some F -> Z_hears Z i (To4 (C_IP (E_config F)), 6454) -> i = j.
Definition proper_ips (Z : site) : Prop := Forall (fun E => len (To4 (C_IP (E_config E))) = 4) (Z_envs Z).
Lemma announced_ip E cfg : wf_config (E_config E) -> len (To4 (C_IP (E_config E))) = 4 -> announces E cfg -> C_IP cfg = To4 (C_IP (E_config E)).
Proof.
  intros Hw Hl (_ & Ht & Hd). destruct (discovery _ Hw Ht) as (cfg' & Hd' & Ec & Hp). assert (cfg' = cfg) as -> by exact (discovered_fun _ _ _ Hd' Hd).
  destruct (config_from_reply _ Hp) as (cfg2 & Ec' & E'). assert (cfg2 = cfg) as -> by congruence. subst cfg. unfold PollReply_set, ArtPollReplyFromConfig. cbn [C_IP PollReply_IPAddress]. apply go_copy_full. exact Hl.
Qed.
(** In a closed network a node is given only the universe it announced itself, and only if it has outputs. *)
Theorem C84_own_universe : forall Z w G1 i h q G2, nruns Z w (G1 ++ (i, OCall h (PktDMX q)) :: G2) -> wf_site Z -> only_hosts Z (fun p => exists q, p = PktDMX q) -> no_replies Z -> unicast Z -> proper_ips Z ->
  exists E, Z_envs Z !! i = Some E /\ (DMX_Net q, DMX_SubUni q) = C_BaseAddress (E_config E) /\ C_OutputPorts (E_config E) <> [].
Proof.
  intros Z w G1 i h q G2 R Hz Ho Hr Hu Hip. destruct (C82_delivered_data _ _ _ _ _ _ _ R Hz Ho) as (j & E & tra & s & order & now & out & trb & n & cn & HE & Hn & Hp & H1 & H2 & H3 & _).
  destruct (proj2 (nruns_host _ _ _ R) j E HE) as (ls & y & _ & RE). rewrite proj_app, Hp, <- app_assoc in RE. cbn [app] in RE.
  pose proof (ok_reach _ _ _ (sys_shared _ _ _ (runs_ok _ _ _ _ RE))) as Hre. rewrite hist_app in Hre. cbn [hist omap list_omap] in Hre. change (omap _ ?l) with (hist l) in Hre.
  destruct (reach_prefix _ _ _ _ _ _ _ Hre) as (Hre1 & _).
  destruct (learnt Z w _ j E tra (OTable s (ETick order now) out :: trb ++ proj j ((i, OCall h (PktDMX q)) :: G2)) (hist tra) s n cn R Hz Hr HE) as (k & F & x & HF & _ & _ & _ & _ & Hann); [ | reflexivity | exact Hre1 | exact H2 | ].
  { rewrite proj_app, Hp, <- app_assoc. reflexivity. }
  assert (Hw : wf_config (E_config F)) by exact (Forall_lookup_1 _ _ _ _ Hz HF). assert (Hl : len (To4 (C_IP (E_config F))) = 4) by exact (Forall_lookup_1 _ _ _ _ Hip HF).
  rewrite (announced_ip F (CN_Node cn) Hw Hl Hann) in H3. assert (i = k) as -> by exact (Hu _ _ _ HF H3). exists F. split; [ exact HF | ].
  apply (announced_outputs F (CN_Node cn) _ Hw Hann). destruct (proj1 (C41_routing_never_dangles _ _ _ Hre1) _ _ H1) as (_ & cn' & pt & Hc & Hpt & <-). assert (cn' = cn) as -> by congruence.
  unfold addresses. apply elem_of_list_In, in_map. exact Hpt.
Qed.

(** * A network *)
(** A controller and a node with one output on universe 0/7, which the user configured; broadcasts reach everybody. *)
Definition lamp_config : NodeConfig := mkConfig 0 0 0 [] StNode [0x6c] [] [] [10; 0; 0; 1] [] 0 0 [] 0 0 (0, 7) [] [mkPort (0, 7) 0x80 0].
Definition lamp : env := mkEnv false lamp_config [10; 0; 0; 1] ([], 6454) defaultBroadcastAddr defaultBroadcastAddr 0%Z.
Definition lan : list env := [ctl1; lamp].
Definition lan_hears (i : nat) (a : UDPAddr) : bool :=
  bool_decide (a = defaultBroadcastAddr) || match lan !! i with Some E => bool_decide (a = (E_localIP E, 6454)) | None => false end.
(** The poll reaches the node, its answer the controller; the user writes universe 0/7; the frame reaches the node. *)
Definition lan_script : nscript :=
  on 1 (act (LRegister 0x5000 1) ++ up_node) ++ on 0 (up_ctl ++ go_n 4 2 ++ transmit 3) ++
  deliver lan 1 4 0 ++ on 1 (parse 2 ++ go_n 5 3 ++ go_n 1 4 ++ transmit 3) ++
  deliver lan 0 6 1 ++ on 0 (parse 2 ++ go_n 7 3 ++ go_n 4 4 ++ act (LRun 4 (CTime 5%Z)) ++ act (LSend sevens (0, 7)) ++ go_n 8 1 ++ tick 5 2000000000 ++ go_n 5 3 ++ transmit 3) ++
  deliver lan 1 4 2 ++ on 1 (parse 2 ++ go_n 6 1).
Definition lan_site : site := closed_site lan lan_hears.
Definition got_sevens (o : nat * obs) : bool :=
  match o with (1%nat, OCall (HUser 1) (PktDMX q)) => bool_decide (DMX_Data q = sevens /\ DMX_Net q = 0 /\ DMX_SubUni q = 7) | _ => false end.
Example C82_ex : exists w G1 q G2 y n cn, nruns lan_site w (G1 ++ (1%nat, OCall (HUser 1) (PktDMX q)) :: G2) /\ wf_site lan_site /\ (forall P, only_hosts lan_site P) /\ unicast lan_site /\ proper_ips lan_site /\
  DMX_Data q = sevens /\ (DMX_Net q, DMX_SubUni q) = (0, 7) /\
  (* what the controller knows of the node *)
  W_hosts w !! 0%nat = Some y /\ K_OutputAddress (S_tables (Y_sh y)) !! (0, 7) = Some n /\ K_heap (S_tables (Y_sh y)) !! n = Some cn /\ C_IP (CN_Node cn) = [10; 0; 0; 1].
Proof.
  destruct (ntested_runs lan lan_hears lan_script (fun w G => existsb got_sevens G &&
    match W_hosts w !! 0%nat with Some y => match K_OutputAddress (S_tables (Y_sh y)) !! (0, 7) with Some n => match K_heap (S_tables (Y_sh y)) !! n with Some cn => bool_decide (C_IP (CN_Node cn) = [10; 0; 0; 1]) | None => false end | None => false end | None => false end))
    as (w & G & R & H); [ vm_compute; reflexivity | ].
  apply andb_prop in H. destruct H as [H K]. apply existsb_exists in H. destruct H as ([i o] & Ho & H). destruct i as [|[|i]]; try discriminate H. destruct o; try discriminate H. destruct h as [| |f]; try discriminate H.
  destruct f as [|f]; try discriminate H. destruct f; try discriminate H. destruct p; try discriminate H. cbn [got_sevens] in H. apply bool_decide_eq_true in H. destruct H as (D1 & D2 & D3).
  destruct (W_hosts w !! 0%nat) as [y|] eqn:Hy; [ | discriminate K ]. destruct (K_OutputAddress (S_tables (Y_sh y)) !! (0, 7)) as [n|] eqn:Hn; [ | discriminate K ]. destruct (K_heap (S_tables (Y_sh y)) !! n) as [cn|] eqn:Hc; [ | discriminate K ].
  apply bool_decide_eq_true in K. apply in_split in Ho. destruct Ho as (G1 & G2 & ->). eexists w, G1, _, G2, y, n, cn. split; [ exact R | ].
  split; [ repeat (constructor; [ repeat (split; [ repeat constructor | ]); repeat constructor | ]); constructor | ]. split; [ intros P0 i0 from0 d0 p0 [] | ]. split.
  - intros i j F HF Hh. destruct j as [|[|j]]; [ | | destruct j; discriminate HF ]; injection HF as <-; destruct i as [|[|i]]; try reflexivity; vm_compute in Hh; discriminate Hh.
  - split; [ repeat constructor | ]. rewrite D2, D3. repeat (split; [ first [ assumption | reflexivity ] | ]). exact K.
Qed.

Definition P_Net_theorems := (C82_delivered_data, C83_discovered, C83_routes, C84_own_universe, C82_ex).
Print Assumptions P_Net_theorems.
