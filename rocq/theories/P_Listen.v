(** C110: what a node or controller hears depends on the listen address. *)
From Verif Require Import WireSpec P_Encode P_Decode P_Config P_Controller ControllerFacts SysFacts SysLaws SysRun SysOrder SysScript P_Node P_Life P_Wire Net P_Net P_Flow P_Traffic Listen.
From stdpp Require Import base list gmap.
Open Scope N_scope.

(** * What the options mean *)
Definition says_listen (o : NodeOption) : bool := match o with NodeBroadcastAddress _ => false | _ => true end.
Definition ctl_says_listen (o : Option) : bool := match o with ListenAddress _ | ListenIP _ => true | _ => false end.
Lemma node_listen_kept opts : forall E, forallb (fun o => negb (says_listen o)) opts = true -> E_listen (fold_left node_option opts E) = E_listen E.
Proof. induction opts as [|o opts IH]; intros E H; [ reflexivity | ]. cbn [forallb] in H. apply andb_prop in H. destruct H as [H1 H2]. cbn [fold_left]. rewrite (IH _ H2). destruct o; [ reflexivity | discriminate H1 | discriminate H1 ]. Qed.
Lemma ctl_listen_kept opts : forall E, forallb (fun o => negb (ctl_says_listen o)) opts = true -> E_listen (fold_left ctl_option opts E) = E_listen E.
Proof. induction opts as [|o opts IH]; intros E H; [ reflexivity | ]. cbn [forallb] in H. apply andb_prop in H. destruct H as [H1 H2]. cbn [fold_left]. rewrite (IH _ H2). destruct o; try reflexivity; discriminate H1. Qed.
(** The last of the options about listening counts. *)
Lemma node_listen_last opts1 o opts2 name style ip : forallb (fun o => negb (says_listen o)) opts2 = true ->
  E_listen (NewNode name style ip (opts1 ++ o :: opts2)) = match o with NodeBroadcastAddress _ => E_listen (NewNode name style ip opts1) | NodeListenAddress a => a | NodeListenIP i => (i, 6454) end.
Proof. intros H. unfold NewNode. rewrite fold_left_app. cbn [fold_left]. rewrite (node_listen_kept _ _ H). destruct o; reflexivity. Qed.
Lemma ctl_listen_last opts1 o opts2 name ip : forallb (fun o => negb (ctl_says_listen o)) opts2 = true ->
  E_listen (NewController_env name ip (opts1 ++ o :: opts2)) = match o with ListenAddress a => a | ListenIP i => (i, 6454) | _ => E_listen (NewController_env name ip opts1) end.
Proof. intros H. unfold NewController_env. rewrite fold_left_app. cbn [fold_left]. rewrite (ctl_listen_kept _ _ H). destruct o; reflexivity. Qed.

Lemma binds_port ip p b : p <> 0 -> p < 65536 -> binds (ip, p) b <-> bound_ip ip = Some (fst b) /\ snd b = p.
Proof. intros H1 H2. unfold binds. cbn [fst snd]. split; [ intros (K1 & _ & _ & K2); auto | intros [K1 K2]; repeat split; try assumption; try lia; intros; congruence ]. Qed.
Lemma hears_port ip p dst : p <> 0 -> p < 65536 -> hears (ip, p) dst <-> snd dst = p /\ exists i, bound_ip ip = Some i /\ (i = IPv4zero \/ To4 (fst dst) = i).
Proof.
  intros H1 H2. unfold hears, accepts. split.
  - intros (b & K & K1 & K2). apply binds_port in K; [ | assumption | assumption ]. destruct K as [K3 K4]. split; [ congruence | ]. eauto.
  - intros (K1 & i & K2 & K3). exists (i, p). split; [ apply binds_port; auto | ]. auto.
Qed.
(** An address that names one host (or one broadcast address). *)
Definition single (ip : list N) : Prop := len (To4 ip) = 4 /\ To4 ip <> IPv4zero /\ ~ 224 <= nth 0 (To4 ip) 0 < 240.
Lemma multicast4 ip : byte_ok (nth 0 ip 0) -> IsMulticast4 ip = true <-> 224 <= nth 0 ip 0 < 240.
Proof.
  unfold IsMulticast4. generalize (nth 0 ip 0). intros x H. assert (K : forallb (fun x => eqb (N.land x 0xf0 =? 0xe0) ((224 <=? x) && (x <? 240))) (map N.of_nat (seq 0 256)) = true) by (vm_compute; reflexivity).
  rewrite forallb_forall in K. specialize (K x). unfold byte_ok in H. rewrite eqb_true_iff in K. rewrite K; [ | apply in_map_iff; exists (N.to_nat x); split; [ lia | apply in_seq; lia ] ].
  rewrite andb_true_iff, N.leb_le, N.ltb_lt. reflexivity.
Qed.
Lemma To4_bytes ip : bytes_ok ip -> bytes_ok (To4 ip).
Proof. intros H. unfold To4. destruct (len ip =? 4); [ exact H | ]. destruct (_ && _ && _ && _); [ | constructor ]. apply Forall_drop. exact H. Qed.
Lemma nth_byte ip i : bytes_ok ip -> byte_ok (nth i ip 0).
Proof. intros H. revert i. induction H as [|x l Hx Hl IH]; intros [|i]; cbn; try assumption; try (unfold byte_ok; lia). apply IH. Qed.
Lemma single_bound ip : bytes_ok ip -> single ip -> bound_ip ip = Some (To4 ip).
Proof.
  intros B (H1 & H2 & H3). unfold bound_ip. destruct (len ip =? 0) eqn:E0.
  { exfalso. apply N.eqb_eq in E0. unfold len in E0. destruct ip; [ | cbn in E0; lia ]. discriminate H1. }
  rewrite H1. cbn. destruct (IsMulticast4 (To4 ip)) eqn:Em; [ | reflexivity ]. apply multicast4 in Em; [ contradiction | ]. apply nth_byte, To4_bytes, B.
Qed.
(** A node made without options about listening hears every address of its host on port 6454, and so does a controller. The IP given to NewNode plays no part in it. *)
Theorem C110_default : forall dst, 
  (forall name style ip opts, forallb (fun o => negb (says_listen o)) opts = true -> hears (E_listen (NewNode name style ip opts)) dst <-> snd dst = 6454) /\
  (forall name ip opts, forallb (fun o => negb (ctl_says_listen o)) opts = true -> hears (E_listen (NewController_env name ip opts)) dst <-> snd dst = 6454).
Proof.
  intros dst. split.
  - intros name style ip opts H. unfold NewNode. rewrite (node_listen_kept _ _ H). cbn [E_listen]. rewrite hears_port by (vm_compute; congruence). split; [ tauto | ]. intros ->. split; [ reflexivity | ]. exists IPv4zero. auto.
  - intros name ip opts H. unfold NewController_env. rewrite (ctl_listen_kept _ _ H). cbn [E_listen NewNode fold_left]. rewrite hears_port by (vm_compute; congruence). split; [ tauto | ]. intros ->. split; [ reflexivity | ]. exists IPv4zero. auto.
Qed.
(** With NodeListenIP or ListenIP (the last option about listening) and an IPv4 address of a host, it hears that address only; without an IP, with 0.0.0.0 or ::, every address; with another IPv6
    address Start cannot open a socket. *)
Definition listens_ip (E : env) (ip : list N) : Prop :=
  (exists name style i opts1 opts2, E = NewNode name style i (opts1 ++ NodeListenIP ip :: opts2) /\ forallb (fun o => negb (says_listen o)) opts2 = true) \/
  (exists name i opts1 opts2, E = NewController_env name i (opts1 ++ ListenIP ip :: opts2) /\ forallb (fun o => negb (ctl_says_listen o)) opts2 = true).
Lemma listens_ip_listen E ip : listens_ip E ip -> E_listen E = (ip, 6454).
Proof. intros [(? & ? & ? & ? & ? & -> & H)|(? & ? & ? & ? & -> & H)]; [ rewrite (node_listen_last _ _ _ _ _ _ H) | rewrite (ctl_listen_last _ _ _ _ _ H) ]; reflexivity. Qed.
Theorem C110_ip : forall E ip, bytes_ok ip -> listens_ip E ip ->
  (single ip -> forall dst, hears (E_listen E) dst <-> dst = (fst dst, 6454) /\ To4 (fst dst) = To4 ip) /\
  (ip = [] \/ To4 ip = [0; 0; 0; 0] \/ ip = zeros 16 -> forall dst, hears (E_listen E) dst <-> snd dst = 6454) /\
  (len ip = 16 -> To4 ip = [] -> ip <> zeros 16 -> forall b, ~ binds (E_listen E) b).
Proof.
  intros E ip B H. rewrite (listens_ip_listen _ _ H). split; [ | split ].
  - intros S dst. rewrite hears_port by lia. rewrite (single_bound _ B S). split.
    + intros (K & i & [= <-] & [K1|K1]); [ destruct S as (_ & S & _); contradiction | ]. destruct dst; cbn in *. subst. auto.
    + intros [K1 K2]. split; [ rewrite K1; reflexivity | ]. eauto.
  - intros K dst. rewrite hears_port by lia. assert (bound_ip ip = Some IPv4zero) as ->; [ | split; [ tauto | intros ->; split; [ reflexivity | eauto ] ] ].
    unfold bound_ip. destruct (len ip =? 0) eqn:E0; [ reflexivity | ]. destruct K as [->|[K| ->]]; [ discriminate E0 | rewrite K; reflexivity | reflexivity ].
  - intros K1 K2 K3 b (K & _). cbn [fst] in K. unfold bound_ip in K. rewrite K1, K2 in K. cbn in K. destruct (eqbytes ip (zeros 16)) eqn:Ee; [ apply eqbytes_eq in Ee; contradiction | ]. cbn in Ee, K. try rewrite Ee in K. discriminate K.
Qed.
(** With NodeListenAddress or ListenAddress the port is another one: no socket above 65535, any port for 0. A multicast address is as good as no IP; an IP that has neither 4 nor 16 bytes is no address. *)
Definition listens_address (E : env) (a : UDPAddr) : Prop :=
  (exists name style i opts1 opts2, E = NewNode name style i (opts1 ++ NodeListenAddress a :: opts2) /\ forallb (fun o => negb (says_listen o)) opts2 = true) \/
  (exists name i opts1 opts2, E = NewController_env name i (opts1 ++ ListenAddress a :: opts2) /\ forallb (fun o => negb (ctl_says_listen o)) opts2 = true).
Definition anywhere (ip : list N) : Prop := ip = [] \/ To4 ip = [0; 0; 0; 0] \/ ip = zeros 16 \/ (len (To4 ip) = 4 /\ 224 <= nth 0 (To4 ip) 0 < 240).
Lemma anywhere_bound ip : bytes_ok ip -> anywhere ip -> bound_ip ip = Some IPv4zero.
Proof.
  intros B K. unfold bound_ip. destruct (len ip =? 0) eqn:E0; [ reflexivity | ]. destruct K as [->|[K|[->|[K1 K2]]]]; [ discriminate E0 | rewrite K; reflexivity | reflexivity | ].
  rewrite K1. cbn [N.eqb]. assert (IsMulticast4 (To4 ip) = true) as ->; [ | reflexivity ]. apply multicast4; [ apply nth_byte, To4_bytes, B | exact K2 ].
Qed.
Lemma To4_len ip : len (To4 ip) = 4 \/ To4 ip = [].
Proof.
  unfold To4. destruct (len ip =? 4) eqn:E4; [ left; apply N.eqb_eq; exact E4 | ]. destruct (len ip =? 16) eqn:E16; [ | right; reflexivity ]. apply N.eqb_eq in E16. cbn [andb].
  destruct (_ && _ && _); [ left | right; reflexivity ]. unfold len in *. rewrite skipn_length. lia.
Qed.
Theorem C110_address : forall E ip p, bytes_ok ip -> listens_ip E ip /\ p = 6454 \/ listens_address E (ip, p) ->
  (65536 <= p -> forall b, ~ binds (E_listen E) b) /\
  (~ single ip -> ~ anywhere ip -> forall b, ~ binds (E_listen E) b) /\
  (0 < p < 65536 -> single ip -> forall dst, hears (E_listen E) dst <-> snd dst = p /\ To4 (fst dst) = To4 ip) /\
  (0 < p < 65536 -> anywhere ip -> forall dst, hears (E_listen E) dst <-> snd dst = p) /\
  (p = 0 -> single ip \/ anywhere ip -> exists i, forall b, binds (E_listen E) b <-> fst b = i /\ 0 < snd b < 65536).
Proof.
  intros E ip p B H. assert (L : E_listen E = (ip, p)).
  { destruct H as [[H ->]|[(? & ? & ? & ? & ? & -> & H)|(? & ? & ? & ? & -> & H)]]; [ exact (listens_ip_listen _ _ H) | rewrite (node_listen_last _ _ _ _ _ _ H); reflexivity | rewrite (ctl_listen_last _ _ _ _ _ H); reflexivity ]. }
  rewrite L. clear L H E. split; [ | split; [ | split; [ | split ] ] ].
  - intros Hp b (_ & K & _). cbn in K. lia.
  - intros Hs Ha b (K & _). cbn [fst] in K. unfold bound_ip in K. destruct (len ip =? 0) eqn:E0; [ apply Ha; left; apply N.eqb_eq in E0; unfold len in E0; destruct ip; [ reflexivity | cbn in E0; lia ] | ].
    destruct (To4_len ip) as [T|T].
    + rewrite T in K. cbn [N.eqb] in K. apply Hs. split; [ exact T | ]. split; [ intros X; apply Ha; right; left; exact X | ]. intros X. apply Ha. right. right. right. auto.
    + rewrite T in K. cbn in K. destruct (eqbytes ip _) eqn:Ee; [ | discriminate K ]. apply Ha. right. right. left. apply eqbytes_eq. exact Ee.
  - intros Hp S dst. rewrite hears_port by lia. rewrite (single_bound _ B S). split.
    + intros (K & i & [= <-] & [K1|K1]); [ destruct S as (_ & S & _); contradiction | ]. auto.
    + intros [K1 K2]. eauto.
  - intros Hp A dst. rewrite hears_port by lia. rewrite (anywhere_bound _ B A). split; [ tauto | intros ->; split; [ reflexivity | eauto ] ].
  - intros -> K. assert (exists i, bound_ip ip = Some i) as [i Hi] by (destruct K as [K|K]; [ rewrite (single_bound _ B K) | rewrite (anywhere_bound _ B K) ]; eauto). exists i. intros b. unfold binds. cbn [fst snd]. rewrite Hi.
    split; [ intros (K1 & _ & K2 & _); split; [ congruence | auto ] | intros [-> K2]; repeat split; try lia; intros; try apply K2; lia ].
Qed.
Example C110_address_ex : anywhere [239; 1; 2; 3] /\ ~ anywhere [1; 2; 3] /\ ~ single [1; 2; 3] /\
  listens_address (NewNode [0x6e] StNode [10; 0; 0; 1] [NodeListenIP [1; 2; 3; 4]; NodeListenAddress ([239; 1; 2; 3], 7000); NodeBroadcastAddress defaultBroadcastAddr]) ([239; 1; 2; 3], 7000).
Proof.
  split; [ right; right; right; split; [ reflexivity | split; cbn; lia ] | ]. split; [ intros [H|[H|[H|[H _]]]]; discriminate H | ]. split; [ intros [H _]; discriminate H | ].
  left. exists [0x6e], StNode, [10; 0; 0; 1], [NodeListenIP [1; 2; 3; 4]], [NodeBroadcastAddress defaultBroadcastAddr]. split; reflexivity.
Qed.
(** NodeListenIP(net.ParseIP("10.0.0.1")), whose IP has 16 bytes. *)
Example C110_ip_ex : single (zeros 10 ++ [0xff; 0xff; 10; 0; 0; 1]) /\ ~ single [] /\ ~ single [224; 0; 0; 1] /\ single [2; 255; 255; 255] /\
  listens_ip (NewController_env [0x63] [10; 0; 0; 9] [MaxFPS 10; ListenIP [10; 0; 0; 9]; BroadcastAddr defaultBroadcastAddr]) [10; 0; 0; 9].
Proof.
  split; [ | split; [ | split; [ | split ] ] ].
  - split; [ reflexivity | ]. split; [ vm_compute; discriminate | ]. intros [H _]. vm_compute in H. apply H. reflexivity.
  - intros (H & _). discriminate H.
  - intros (_ & _ & H). apply H. split; [ vm_compute; discriminate | reflexivity ].
  - split; [ reflexivity | ]. split; [ vm_compute; discriminate | ]. intros [H _]. vm_compute in H. apply H. reflexivity.
  - right. exists [0x63], [10; 0; 0; 9], [MaxFPS 10], [BroadcastAddr defaultBroadcastAddr]. auto.
Qed.

(** * On the network *)
(** Every host hears through its socket. *)
Definition sockets (Z : site) : Prop := forall i E dst, Z_envs Z !! i = Some E -> Z_hears Z i dst -> hears (E_listen E) dst.
(** Where all ArtPollReply packets come from hosts of this library: a controller that does not listen on the address to which the others broadcast their answers never knows any node, and sends no data to
    anybody, whatever its user writes. *)
Theorem C110_blind : forall Z w G i E y, nruns Z w G -> wf_site Z -> no_replies Z -> sockets Z -> Z_envs Z !! i = Some E -> W_hosts w !! i = Some y ->
  (forall j F, Z_envs Z !! j = Some F -> j <> i -> ~ hears (E_listen E) (E_nodeBroadcast F)) ->
  K_Nodes (S_tables (Y_sh y)) = [] /\ K_OutputAddress (S_tables (Y_sh y)) = ∅ /\ forall x, In (i, OTx x) G -> is_dmx x = false.
Proof.
  intros Z w G i E y R Hz Ho Hs HE Hy Hd.
  assert (D : forall j F x, Z_envs Z !! j = Some F -> j <> i -> In (j, OTx x) G -> is_reply x = true -> Z_hears Z i (fst (snd x)) -> False).
  { intros j F x HF Hne Htx Hr Hh. apply (Hd j F HF Hne). pose proof (Hs _ _ _ HE Hh) as K. assert (fst (snd x) = E_nodeBroadcast F) as <-; [ | exact K ].
    destruct (proj2 (nruns_host _ _ _ R) j F HF) as (lsF & yF & _ & RF). assert (Hi : item_ok F x) by (eapply tx_item; [ exact RF | apply proj_in; exact Htx ]).
    rewrite (item_is_reply F x (Forall_lookup_1 _ _ _ _ Hz HF) Hi) in Hr. destruct x as [[] [a d]]; try discriminate Hr. exact (proj1 Hi). }
  destruct (proj2 (nruns_host _ _ _ R) i E HE) as (ls & y0 & H0 & RE). assert (y0 = y) as -> by congruence.
  assert (H : forall n, K_heap (S_tables (Y_sh y)) !! n = None).
  { intros n. destruct (_ !! n) as [cn|] eqn:En; [ exfalso | reflexivity ]. destruct (C83_discovered Z w G i E y n cn R Hz Ho HE Hy En) as (j & F & x & HF & Hne & Htx & Hr & Hh & _). exact (D j F x HF Hne Htx Hr Hh). }
  assert (I : Inv (S_tables (Y_sh y))) by (eapply reach_inv; apply (ok_reach _ _ _ (sys_shared _ _ _ (runs_ok _ _ _ _ RE)))).
  split; [ | split ].
  - destruct (K_Nodes (S_tables (Y_sh y))) as [|n l] eqn:En; [ reflexivity | exfalso ]. destruct (inv_listed _ I n) as [cn Hn]; [ rewrite En; left | ]. rewrite (H n) in Hn. discriminate Hn.
  - apply map_eq. intros a. rewrite lookup_empty. destruct (K_OutputAddress _ !! a) as [n|] eqn:En; [ exfalso | reflexivity ].
    destruct (inv_out _ I a n En) as (Hl & _). destruct (inv_listed _ I n Hl) as [cn Hn]. rewrite (H n) in Hn. discriminate Hn.
  - intros x Hx. destruct (is_dmx x) eqn:Ed; [ exfalso | reflexivity ]. apply proj_in in Hx. apply in_split in Hx. destruct Hx as (t1 & t2 & Ht). rewrite Ht in RE.
    destruct (C73_wire_data _ _ _ _ _ _ (Forall_lookup_1 _ _ _ _ Hz HE) RE Ed) as (tra & s & order & now & out & trb & a & n & cn & q' & -> & _ & H1 & H2 & _).
    pose proof (ok_reach _ _ _ (sys_shared _ _ _ (runs_ok _ _ _ _ RE))) as Hre. rewrite <- app_assoc, hist_app in Hre. cbn [app hist omap list_omap] in Hre. change (omap _ ?l) with (hist l) in Hre.
    destruct (reach_prefix _ _ _ _ _ _ _ Hre) as (Hre1 & _). rewrite <- app_assoc in Ht. cbn [app] in Ht.
    destruct (learnt Z w G i E tra _ (hist tra) s n cn R Hz Ho HE Ht eq_refl Hre1 H2) as (j & F & x' & HF & Hne & Htx & Hr & Hh & _). exact (D j F x' HF Hne Htx Hr Hh).
Qed.
(** A node that does not listen on the addresses to which controllers broadcast their polls never transmits anything. *)
Theorem C110_mute : forall Z w G i E, nruns Z w G -> wf_site Z -> only_hosts Z (fun p => exists q, p = PktPoll q) -> sockets Z -> Z_envs Z !! i = Some E -> E_ctl E = false ->
  (forall j F, Z_envs Z !! j = Some F -> E_ctl F = true -> ~ hears (E_listen E) (E_ctlBroadcast F)) -> forall x, ~ In (i, OTx x) G.
Proof.
  intros Z w G i E R Hz Ho Hs HE Hc Hd x Hx. destruct (proj2 (nruns_host _ _ _ R) i E HE) as (ls & y & _ & RE).
  destruct (C93_host _ _ _ _ (Forall_lookup_1 _ _ _ _ Hz HE) RE) as (_ & _ & K). destruct (K Hc) as [K1 _]. clear K.
  assert (Hp : (0 < polls_in E (proj i G))%nat).
  { enough (0 < length (transmitted (proj i G)))%nat by lia. apply proj_in in Hx. apply in_split in Hx. destruct Hx as (t1 & t2 & ->). unfold transmitted. rewrite collect_app, app_length. cbn. lia. }
  unfold polls_in in Hp. apply cnt_pos_in in Hp. destruct Hp as (d & Hd1 & Hd2). unfold received in Hd1. apply in_collect in Hd1. destruct Hd1 as (o & Ho1 & Ho2).
  destruct o as [from data| | | | | | | | | | | | | | | | | |]; try contradiction. destruct (foreign E from); [ | contradiction ]. destruct Ho2 as [<-|[]].
  assert (B : bytes_ok data) by exact (obs_in _ _ _ _ _ RE Ho1).
  apply is_artpoll_wire in Hd2; [ | apply Forall_take; exact B ]. destruct Hd2 as (q & Hq). apply proj_in in Ho1.
  destruct (received_was_sent _ _ _ _ _ _ R Ho1) as [(j & F & k & dst & HF & _ & Htx & Hh)|Hout].
  - destruct (proj2 (nruns_host _ _ _ R) j F HF) as (lsF & yF & _ & RF). apply proj_in in Htx. pose proof (tx_item _ _ _ _ _ RF Htx) as Hi. pose proof (Forall_lookup_1 _ _ _ _ Hz HF) as Wf.
    assert (firstn 4096 data = data) as Hf by exact (item_short F _ Wf Hi). unfold truncated in Hq. rewrite Hf in Hq.
    destruct (item_opcode F k dst data Wf Hi) as [_ Ko]. rewrite (accepts_opcode _ _ Hq) in Ko. assert (k = KPoll) as -> by (inversion Hq; subst; destruct k; try discriminate; reflexivity).
    assert (CF : E_ctl F = true). { destruct (E_ctl F) eqn:CF; [ reflexivity | ]. pose proof (node_kind _ _ _ _ _ CF RF Htx) as C. discriminate C. }
    apply (Hd j F HF CF). rewrite <- (proj1 Hi). exact (Hs _ _ _ HE Hh).
  - exact (Ho _ _ _ _ Hout Hq (ex_intro _ q eq_refl)).
Qed.
(** So the options ListenIP and NodeListenIP with the own address of the host, which look harmless, cut it off: with the default broadcast address (of the others) a controller discovers nothing and a node is
    never discovered. *)
Theorem C110_listen_ip_refuted : forall Z w G i E y ip, nruns Z w G -> wf_site Z -> (forall P, only_hosts Z P) -> sockets Z -> Z_envs Z !! i = Some E -> W_hosts w !! i = Some y ->
  bytes_ok ip -> listens_ip E ip -> single ip -> To4 ip <> [2; 255; 255; 255] ->
  (forall j F, Z_envs Z !! j = Some F -> j <> i -> E_nodeBroadcast F = defaultBroadcastAddr /\ E_ctlBroadcast F = defaultBroadcastAddr) ->
  K_Nodes (S_tables (Y_sh y)) = [] /\ (forall x, In (i, OTx x) G -> is_dmx x = false) /\ (E_ctl E = false -> forall x, ~ In (i, OTx x) G).
Proof.
  intros Z w G i E y ip R Hz Ho Hs HE Hy B L S N D. destruct (C110_ip E ip B L) as (H & _ & _). specialize (H S).
  assert (NH : ~ hears (E_listen E) defaultBroadcastAddr) by (rewrite H; intros [_ K]; apply N; symmetry; exact K).
  destruct (C110_blind Z w G i E y R Hz (Ho _) Hs HE Hy) as (K1 & _ & K2). { intros j F HF Hj. destruct (D j F HF Hj) as [-> _]. exact NH. }
  split; [ exact K1 | ]. split; [ exact K2 | ]. intros C. apply (C110_mute Z w G i E R Hz (Ho _) Hs HE C). intros j F HF CF. assert (j <> i) by (intros ->; congruence). destruct (D j F HF ltac:(assumption)) as [_ ->]. exact NH.
Qed.

(** * Examples *)
(** The network of P_Net.v, whose hosts have no option about listening: the controller finds the node and the data arrives (C82_ex). *)
Example C110_default_ex : sockets lan_site /\ exists w G y, nruns lan_site w G /\ W_hosts w !! 0%nat = Some y /\ K_Nodes (S_tables (Y_sh y)) = [0].
Proof.
  split.
  - intros i E dst HE Hh. assert (K : E_listen E = ([], 6454)) by (destruct i as [|[|i]]; [ | | discriminate HE ]; injection HE as <-; reflexivity). rewrite K. apply hears_port; [ lia | lia | ].
    split; [ | exists IPv4zero; auto ]. cbn in Hh. unfold lan_hears in Hh. cbn in HE. rewrite HE in Hh. apply orb_prop in Hh. destruct Hh as [Hh|Hh]; apply bool_decide_eq_true in Hh; subst; reflexivity.
  - destruct (ntested_runs lan lan_hears lan_script (fun w G => match W_hosts w !! 0%nat with Some y => bool_decide (K_Nodes (S_tables (Y_sh y)) = [0]) | None => false end)) as (w & G & R & H); [ vm_compute; reflexivity | ].
    destruct (W_hosts w !! 0%nat) as [y|] eqn:Hy; [ | discriminate H ]. apply bool_decide_eq_true in H. exists w, G, y. auto.
Qed.
(** The same network, but the controller is told to listen on its own address: it polls, the node answers, the user writes, and it still knows nobody. *)
Definition ctl_own : env := NewController_env [0x63] [10; 0; 0; 9] [ListenIP [10; 0; 0; 9]].
Definition lan_own : list env := [ctl_own; lamp].
Definition own_hears (i : nat) (a : UDPAddr) : bool :=
  match i with O => bool_decide (a = ([10; 0; 0; 9], 6454)) | 1%nat => bool_decide (a = defaultBroadcastAddr) || bool_decide (a = ([10; 0; 0; 1], 6454)) | _ => false end.
Definition own_script : nscript :=
  on 1 (act (LRegister 0x5000 1) ++ up_node) ++ on 0 (up_ctl ++ go_n 4 2 ++ transmit 3) ++
  deliver lan_own 1 4 0 ++ on 1 (parse 2 ++ go_n 5 3 ++ go_n 1 4 ++ transmit 3) ++ on 0 (act (LSend sevens (0, 7)) ++ go_n 7 1 ++ tick 5 2000000000).
Example C110_own_ex : exists w G y, let Z := closed_site lan_own own_hears in nruns Z w G /\ wf_site Z /\ (forall P, only_hosts Z P) /\ sockets Z /\ W_hosts w !! 0%nat = Some y /\
  listens_ip ctl_own [10; 0; 0; 9] /\ single [10; 0; 0; 9] /\
  existsb (fun o => match o with (1%nat, OTx x) => is_reply x | _ => false end) G = true /\ existsb (fun o => match o with (0%nat, OSend) => true | _ => false end) G = true /\
  existsb (fun o => match o with (0%nat, OTable _ (ETick _ _) _) => true | _ => false end) G = true /\ K_Nodes (S_tables (Y_sh y)) = [].
Proof.
  destruct (ntested_runs lan_own own_hears own_script (fun w G => existsb (fun o => match o with (1%nat, OTx x) => is_reply x | _ => false end) G && existsb (fun o => match o with (0%nat, OSend) => true | _ => false end) G &&
    existsb (fun o => match o with (0%nat, OTable _ (ETick _ _) _) => true | _ => false end) G)) as (w & G & R & H); [ vm_compute; reflexivity | ].
  apply andb_prop in H. destruct H as [H H3]. apply andb_prop in H. destruct H as [H1 H2]. destruct (proj2 (nruns_host _ _ _ R) 0%nat ctl_own eq_refl) as (ls & y & Hy & _).
  assert (L : listens_ip ctl_own [10; 0; 0; 9]) by (right; exists [0x63], [10; 0; 0; 9], [], []; auto).
  assert (S : single [10; 0; 0; 9]). { split; [ reflexivity | ]. split; [ vm_compute; discriminate | ]. intros [K _]. vm_compute in K. apply K. reflexivity. }
  assert (W : wf_site (closed_site lan_own own_hears)) by (repeat (constructor; [ repeat (split; [ repeat constructor | ]); repeat constructor | ]); constructor).
  assert (O : forall P, only_hosts (closed_site lan_own own_hears) P) by (intros P0 i0 from0 d0 p0 []).
  assert (K : sockets (closed_site lan_own own_hears)).
  { intros i E dst HE Hh. cbn in Hh. destruct i as [|[|i]]; [ | | discriminate HE ]; injection HE as <-; apply hears_port; try (vm_compute; congruence).
    - apply bool_decide_eq_true in Hh. subst. split; [ reflexivity | ]. exists [10; 0; 0; 9]. auto.
    - apply orb_prop in Hh. destruct Hh as [Hh|Hh]; apply bool_decide_eq_true in Hh; subst; (split; [ reflexivity | exists IPv4zero; auto ]). }
  exists w, G, y. cbv zeta. repeat (split; [ assumption | ]).
  eapply (C110_listen_ip_refuted (closed_site lan_own own_hears) w G 0%nat ctl_own y [10; 0; 0; 9]); try eassumption; try reflexivity; [ repeat constructor | vm_compute; discriminate | ].
  intros j F HF Hj. destruct j as [|[|j]]; [ contradiction | | discriminate HF ]. injection HF as <-. split; reflexivity.
Qed.

Definition P_Listen_theorems := (C110_default, C110_ip, C110_address, C110_address_ex, C110_blind, C110_mute, C110_listen_ip_refuted, C110_ip_ex, C110_default_ex, C110_own_ex).
Print Assumptions P_Listen_theorems.
