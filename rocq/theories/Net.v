(** Several hosts on one network, each running a node or a controller of this library (Sys.v). The library has no counterpart of this file: it says what the sockets of different hosts have to do with each other.
    UDP: a datagram that was transmitted can arrive at every host that hears its destination address, any number of times (also never), in any order, unchanged. Its source address is the local address of
    the sender (node.go:256 compares it with the own one). Devices that do not run this library can send whatever they like ([outside]). *)
From Verif Require Import SysFacts SysLaws SysRun SysOrder SysScript P_Node.
From stdpp Require Import base list gmap.
Open Scope N_scope.

(** The state of every host and everything transmitted so far, with the sender. *)
Record net := mkNet { W_hosts : list sys; W_air : list (nat * payload) }.
(** What does not change: the configuration of every host, which host hears which destination address (broadcast or unicast), and what outside devices may send to a host. *)
Record site := mkSite { Z_envs : list env; Z_hears : nat -> UDPAddr -> Prop; Z_outside : nat -> UDPAddr -> list N -> Prop }.
(** A datagram from [from] containing [d] can arrive at host i. *)
Definition can_arrive (Z : site) (air : list (nat * payload)) (i : nat) (from : UDPAddr) (d : list N) : Prop :=
  (exists j E dst, Z_envs Z !! j = Some E /\ fst from = E_localIP E /\ In (j, (dst, d)) air /\ Z_hears Z i dst) \/ Z_outside Z i from d.
Definition possible (Z : site) (air : list (nat * payload)) (i : nat) (l : label) : Prop :=
  match l with LRun _ (CDatagram from d) => can_arrive Z air i from d | _ => True end.
Definition aired (i : nat) (o : list obs) : list (nat * payload) := collect (fun b => match b with OTx x => [(i, snd x)] | _ => [] end) o.
(** Executions of the network: the observations of all hosts in order. *)
Inductive nruns (Z : site) : net -> list (nat * obs) -> Prop :=
| nruns_init : nruns Z (mkNet (map init (Z_envs Z)) []) []
| nruns_step w G i E y l y' o : nruns Z w G -> Z_envs Z !! i = Some E -> W_hosts w !! i = Some y -> label_ok l -> possible Z (W_air w) i l -> exec E y l = RNext y' o ->
    nruns Z (mkNet (<[i := y']> (W_hosts w)) (W_air w ++ aired i o)) (G ++ map (pair i) o).

(** Continuing an execution; L has the steps taken. *)
Inductive nmoves (Z : site) : net -> list (nat * label) -> net -> list (nat * obs) -> Prop :=
| nmoves_nil w : nmoves Z w [] w []
| nmoves_snoc w L w1 G i E y l y' o : nmoves Z w L w1 G -> Z_envs Z !! i = Some E -> W_hosts w1 !! i = Some y -> label_ok l -> possible Z (W_air w1) i l -> exec E y l = RNext y' o ->
    nmoves Z w (L ++ [(i, l)]) (mkNet (<[i := y']> (W_hosts w1)) (W_air w1 ++ aired i o)) (G ++ map (pair i) o).
Lemma nruns_nmoves Z w G L w' G' : nruns Z w G -> nmoves Z w L w' G' -> nruns Z w' (G ++ G').
Proof. intros R H. induction H as [|w L w1 G' i E y l y' o H IH HE Hy Hl Hp He]; [ rewrite app_nil_r; exact R | ]. rewrite app_assoc. eapply nruns_step; try eassumption. exact (IH R). Qed.
Lemma nmoves_app Z w L w1 G L' w' G' : nmoves Z w L w1 G -> nmoves Z w1 L' w' G' -> nmoves Z w (L ++ L') w' (G ++ G').
Proof. intros R H. induction H as [|w1 L' w2 G' i E y l y' o H IH HE Hy Hl Hp He]; [ rewrite !app_nil_r; exact R | ]. rewrite !app_assoc. eapply nmoves_snoc; try eassumption. exact (IH R). Qed.
(** The steps of host i. *)
Definition acts (i : nat) (L : list (nat * label)) : list label := collect (fun x => if decide (fst x = i) then [snd x] else []) L.

(** What host i observed. *)
Definition proj (i : nat) (G : list (nat * obs)) : list obs := collect (fun x => if decide (fst x = i) then [snd x] else []) G.
Lemma proj_app i a b : proj i (a ++ b) = proj i a ++ proj i b. Proof. apply collect_app. Qed.
Lemma proj_same i o : proj i (map (pair i) o) = o.
Proof. induction o as [|b o IH]; [ reflexivity | ]. unfold proj in *. cbn. rewrite decide_True by reflexivity. cbn. f_equal. exact IH. Qed.
Lemma proj_other i j o : i <> j -> proj i (map (pair j) o) = [].
Proof. intros H. induction o as [|b o IH]; [ reflexivity | ]. unfold proj in *. cbn. rewrite decide_False by congruence. exact IH. Qed.
Lemma proj_in i b G : In b (proj i G) <-> In (i, b) G.
Proof.
  induction G as [|[j c] G IH]; [ reflexivity | ]. change ((j, c) :: G) with (map (pair j) [c] ++ G). rewrite proj_app, !in_app_iff, IH.
  destruct (Nat.eq_dec i j) as [->|H]; [ rewrite proj_same | rewrite proj_other by exact H ]; cbn; split; intros [K|K]; auto; try contradiction; left;
    destruct K as [K|[]]; [ left; congruence | left; congruence | congruence ].
Qed.
Lemma proj_split i G : forall a b c, proj i G = a ++ b :: c -> exists G1 G2, G = G1 ++ (i, b) :: G2 /\ proj i G1 = a /\ proj i G2 = c.
Proof.
  induction G as [|[j x] G IH]; intros a b c H; [ destruct a; discriminate H | ]. change ((j, x) :: G) with ([(j, x)] ++ G) in H. rewrite proj_app in H. unfold proj in H at 1. cbn in H.
  destruct (decide (j = i)) as [->|Hn]; cbn in H.
  - destruct a as [|a0 a]; injection H as -> H.
    + exists [], G. auto.
    + destruct (IH _ _ _ H) as (G1 & G2 & -> & H1 & H2). exists ((i, a0) :: G1), G2. split; [ reflexivity | ]. split; [ | exact H2 ].
      change ((i, a0) :: G1) with (map (pair i) [a0] ++ G1). rewrite proj_app, proj_same, H1. reflexivity.
  - destruct (IH _ _ _ H) as (G1 & G2 & -> & H1 & H2). exists ((j, x) :: G1), G2. split; [ reflexivity | ]. split; [ | exact H2 ].
    change ((j, x) :: G1) with (map (pair j) [x] ++ G1). rewrite proj_app, (proj_other i j) by congruence. exact H1.
Qed.

(** Every host behaves as in Sys.v: whatever is proved there for every run holds for every host. *)
Lemma nruns_host Z w G : nruns Z w G -> length (W_hosts w) = length (Z_envs Z) /\ forall i E, Z_envs Z !! i = Some E -> exists ls y, W_hosts w !! i = Some y /\ runs E ls y (proj i G).
Proof.
  induction 1 as [|w G i E y l y' o R [IL IH] HE Hy Hl Hp He]; cbn [W_hosts].
  - split; [ apply map_length | ]. intros i E HE. exists [], (init E). split; [ | constructor ]. pose proof (list_lookup_fmap init (Z_envs Z) i) as K. rewrite HE in K. exact K.
  - split; [ rewrite insert_length; exact IL | ]. intros j F HF. rewrite proj_app. destruct (Nat.eq_dec j i) as [->|Hn].
    + assert (F = E) as -> by congruence. destruct (IH _ _ HE) as (ls & y0 & H0 & H1). assert (y0 = y) as -> by congruence. rewrite proj_same.
      exists (ls ++ [l]), y'. split; [ apply list_lookup_insert; eapply lookup_lt_Some; exact Hy | ]. eapply steps_snoc; eassumption.
    + rewrite proj_other, app_nil_r by exact Hn. rewrite list_lookup_insert_ne by congruence. exact (IH _ _ HF).
Qed.
Lemma nruns_air Z w G : nruns Z w G -> forall i f, In (i, f) (W_air w) <-> exists k, In (i, OTx (k, f)) G.
Proof.
  induction 1 as [|w G i E y l y' o R IH HE Hy Hl Hp He]; cbn [W_air]; intros j f; [ split; [ intros [] | intros (k & []) ] | ].
  rewrite in_app_iff, IH. setoid_rewrite in_app_iff.
  assert (K : In (j, f) (aired i o) <-> exists k, In (j, OTx (k, f)) (map (pair i) o)).
  { unfold aired, collect. rewrite in_concat. setoid_rewrite in_map_iff. split.
    - intros (x & (b & <- & Hb) & Hx). destruct b; try contradiction. destruct x as [k g]. destruct Hx as [[= <- <-]|[]]. eauto.
    - intros (k & b & [= <- ->] & Hb). eexists. split; [ exists (OTx (k, f)); split; [ reflexivity | exact Hb ] | left; reflexivity ]. }
  rewrite K. split; [ intros [(k & H)|(k & H)]; eauto | intros (k & [H|H]); eauto ].
Qed.
(** The execution up to an observation. *)
Lemma nruns_before Z w G : nruns Z w G -> forall G1 i b G2, G = G1 ++ (i, b) :: G2 ->
  exists w0 G0 E y l y' o1 o2, nruns Z w0 G0 /\ Z_envs Z !! i = Some E /\ W_hosts w0 !! i = Some y /\ label_ok l /\ possible Z (W_air w0) i l /\ exec E y l = RNext y' (o1 ++ b :: o2) /\
    G1 = G0 ++ map (pair i) o1 /\ (exists w1, nruns Z w1 (G1 ++ (i, b) :: map (pair i) o2)) /\ exists G3, G2 = map (pair i) o2 ++ G3.
Proof.
  induction 1 as [|w G i E y l y' o R IH HE Hy Hl Hp He]; intros G1 j b G2 HG; [ destruct G1; discriminate HG | ].
  apply app_eq_app in HG. destruct HG as [K [[-> HG]|[HG1 HG2]]].
  - destruct K as [|[j' b'] K].
    + symmetry in HG. cbn in HG. destruct o as [|b0 o]; [ discriminate HG | ]. injection HG as Hi Hb HG2. subst j b0 G2. exists w, G1, E, y, l, y', [], o. rewrite app_nil_r in *. cbn [app map].
      repeat (split; [ first [ assumption | reflexivity ] | ]). split; [ | exists []; rewrite app_nil_r; reflexivity ]. eexists. change ((i, b) :: map (pair i) o) with (map (pair i) (b :: o)). eapply nruns_step; eassumption.
    + injection HG as -> -> ->. destruct (IH G1 j' b' K eq_refl) as (w0 & G0 & F & z & l0 & z' & o1 & o2 & H1 & H2 & H3 & H4 & H5 & H6 & H7 & H8 & G3 & H9).
      exists w0, G0, F, z, l0, z', o1, o2. repeat (split; [ assumption | ]). exists (G3 ++ map (pair i) o). rewrite H9, app_assoc. reflexivity.
  - subst G1. symmetry in HG2. assert (X : exists o1 o2, o = o1 ++ b :: o2 /\ K = map (pair i) o1 /\ G2 = map (pair i) o2 /\ j = i).
    { clear - HG2. revert o HG2. induction K as [|[j' b'] K IH]; intros o H; destruct o as [|b0 o]; try discriminate H; injection H as H0 H1 H.
      - subst. exists [], o. auto.
      - destruct (IH _ H) as (o1 & o2 & -> & -> & -> & ->). subst. exists (b0 :: o1), o2. auto. }
    destruct X as (o1 & o2 & -> & -> & -> & ->). exists w, G, E, y, l, y', o1, o2. repeat (split; [ first [ assumption | reflexivity ] | ]).
    split; [ | exists []; rewrite app_nil_r; reflexivity ]. eexists. rewrite <- app_assoc. change (map (pair i) o1 ++ (i, b) :: map (pair i) o2) with (map (pair i) o1 ++ map (pair i) (b :: o2)).
    rewrite <- map_app. eapply nruns_step; eassumption.
Qed.

Lemma acts_app i a b : acts i (a ++ b) = acts i a ++ acts i b. Proof. apply collect_app. Qed.
Lemma acts_in i l L : In l (acts i L) <-> In (i, l) L.
Proof.
  unfold acts, collect. rewrite in_concat. setoid_rewrite in_map_iff. split.
  - intros (x & ([j m] & <- & H) & Hx). cbn in Hx. destruct (decide (j = i)) as [->|]; [ destruct Hx as [->|[]]; exact H | contradiction ].
  - intros H. exists [l]. split; [ exists (i, l); split; [ cbn; rewrite decide_True by reflexivity; reflexivity | exact H ] | left; reflexivity ].
Qed.
Lemma nmoves_host Z w L w' G : nmoves Z w L w' G -> forall i E y, Z_envs Z !! i = Some E -> W_hosts w !! i = Some y -> exists y', W_hosts w' !! i = Some y' /\ steps E y (acts i L) y' (proj i G).
Proof.
  induction 1 as [|w L w1 G i E y l y' o H IH HE Hy Hl Hp He]; cbn [W_hosts]; intros j F z HF Hz; [ exists z; split; [ exact Hz | constructor ] | ].
  destruct (IH j F z HF Hz) as (z1 & H1 & H2). rewrite acts_app, proj_app. destruct (Nat.eq_dec j i) as [->|Hn].
  - assert (F = E) as -> by congruence. assert (z1 = y) as -> by congruence. exists y'. split; [ apply list_lookup_insert; eapply lookup_lt_Some; exact Hy | ].
    rewrite proj_same. unfold acts at 2. cbn. rewrite decide_True by reflexivity. eapply steps_snoc; eassumption.
  - exists z1. rewrite list_lookup_insert_ne by congruence. split; [ exact H1 | ]. rewrite proj_other, app_nil_r by exact Hn. unfold acts at 2. cbn. rewrite decide_False by congruence. rewrite app_nil_r. exact H2.
Qed.

(** Whatever a host received was transmitted before by a host, whose address it carries, or came from outside. *)
Lemma received_was_sent Z w G i from d : nruns Z w G -> In (i, ORecv from d) G ->
  (exists j E k dst, Z_envs Z !! j = Some E /\ fst from = E_localIP E /\ In (j, OTx (k, (dst, d))) G /\ Z_hears Z i dst) \/ Z_outside Z i from d.
Proof.
  intros R H. apply in_split in H. destruct H as (G1 & G2 & ->). destruct (nruns_before _ _ _ R G1 i _ G2 eq_refl) as (w0 & G0 & E & y & l & y' & o1 & o2 & H1 & H2 & H3 & H4 & H5 & H6 & H7 & _).
  assert (X : exists r, l = LRun r (CDatagram from d)).
  { apply exec_cases in H6. destruct H6 as [(r & c & t & s & t' & sp & -> & Et & Es & _)|[(t & Ho & _)|(mm & op & f & Ho & _)]].
    - remember (o1 ++ ORecv from d :: o2) as o eqn:Eo. assert (Hb : In (ORecv from d) o) by (subst o; apply in_elt). exists r. clear Eo. tcases Es; cbn in Hb; repeat (destruct Hb as [Hb|Hb]); try discriminate Hb; try contradiction.
      injection Hb as -> ->. reflexivity.
    - destruct o1; discriminate Ho.
    - destruct o1 as [|z [|z2 o1]]; discriminate Ho. }
  destruct X as [r ->]. destruct H5 as [(j & F & dst & J1 & J2 & J3 & J4)|J]; [ left | right; exact J ]. apply (nruns_air _ _ _ H1) in J3. destruct J3 as [k J3].
  exists j, F, k, dst. repeat (split; [ assumption | ]). split; [ | exact J4 ]. subst G1. rewrite !in_app_iff. auto.
Qed.

(** * Scripts *)
(** Playing a script with the labels of several hosts; [hears] as a function. *)
Definition possibleb (envs : list env) (hears : nat -> UDPAddr -> bool) (air : list (nat * payload)) (i : nat) (l : label) : bool :=
  match l with
  | LRun _ (CDatagram from d) =>
      existsb (fun x => match envs !! fst x with Some E => bool_decide (fst from = E_localIP E) | None => false end && bool_decide (snd (snd x) = d) && hears i (fst (snd x))) air
  | _ => true
  end.
Lemma possibleb_ok envs hears air i l : possibleb envs hears air i l = true -> possible (mkSite envs (fun i a => hears i a = true) (fun _ _ _ => False)) air i l.
Proof.
  destruct l as [r c| | | | |]; try (intros _; exact I). destruct c; try (intros _; exact I). cbn. intros H. apply existsb_exists in H. destruct H as ([j [dst d]] & Hx & H). cbn in H.
  apply andb_prop in H. destruct H as [H H3]. apply andb_prop in H. destruct H as [H1 H2]. destruct (envs !! j) as [E|] eqn:HE; [ | discriminate ].
  apply bool_decide_eq_true in H1. apply bool_decide_eq_true in H2. subst d. left. exists j, E, dst. auto.
Qed.
Definition nscript := list (nat * (net -> sys -> label)).
Fixpoint nplay (envs : list env) (hears : nat -> UDPAddr -> bool) (w : net) (fs : nscript) : option (net * list (nat * obs)) :=
  match fs with
  | [] => Some (w, [])
  | (i, f) :: fs =>
      match envs !! i, W_hosts w !! i with
      | Some E, Some y =>
          let l := f w y in
          if label_okb l && possibleb envs hears (W_air w) i l then
            match exec E y l with
            | RNext y' o => match nplay envs hears (mkNet (<[i := y']> (W_hosts w)) (W_air w ++ aired i o)) fs with Some (w', G) => Some (w', map (pair i) o ++ G) | None => None end
            | _ => None
            end
          else None
      | _, _ => None
      end
  end.
Definition closed_site (envs : list env) (hears : nat -> UDPAddr -> bool) : site := mkSite envs (fun i a => hears i a = true) (fun _ _ _ => False).
Lemma nplay_ok envs hears fs : forall w G0 w' G, nruns (closed_site envs hears) w G0 -> nplay envs hears w fs = Some (w', G) -> nruns (closed_site envs hears) w' (G0 ++ G).
Proof.
  induction fs as [|[i f] fs IH]; intros w G0 w' G R H; cbn [nplay] in H.
  - injection H as <- <-. rewrite app_nil_r. exact R.
  - cbv zeta in H. destruct (envs !! i) as [E|] eqn:HE; [ | discriminate ]. destruct (W_hosts w !! i) as [y|] eqn:Hy; [ | discriminate ].
    destruct (label_okb (f w y) && possibleb envs hears (W_air w) i (f w y)) eqn:Hl; [ | discriminate ]. apply andb_prop in Hl. destruct Hl as [Hl Hp].
    destruct (exec E y (f w y)) as [| |y1 o] eqn:He; try discriminate. destruct (nplay _ _ _ fs) as [[w2 G2]|] eqn:HP; [ | discriminate ]. injection H as <- <-.
    rewrite app_assoc. eapply IH; [ | exact HP ]. eapply nruns_step; [ exact R | exact HE | exact Hy | apply label_okb_ok; exact Hl | apply possibleb_ok; exact Hp | exact He ].
Qed.
Definition ntested (envs : list env) (hears : nat -> UDPAddr -> bool) (fs : nscript) (P : net -> list (nat * obs) -> bool) : bool :=
  match nplay envs hears (mkNet (map init envs) []) fs with Some (w, G) => P w G | None => false end.
Lemma ntested_runs envs hears fs P : ntested envs hears fs P = true -> exists w G, nruns (closed_site envs hears) w G /\ P w G = true.
Proof.
  unfold ntested. destruct (nplay _ _ _ _) as [[w G]|] eqn:Hp; [ | discriminate ]. intros H. exists w, G. split; [ | exact H ]. apply (nplay_ok envs hears fs _ [] _ _ (nruns_init (closed_site envs hears)) Hp).
Qed.
(** Host i plays a script of its own. *)
Definition on (i : nat) (fs : script) : nscript := map (fun f => (i, fun _ y => f y)) fs.
(** The k-th datagram transmitted arrives at host i and is queued by its reader r. *)
Definition deliver (envs : list env) (i r k : nat) : nscript :=
  (i, fun w _ => match W_air w !! k with
                 | Some (j, (_, d)) => match envs !! j with Some E => LRun r (CDatagram (E_localIP E, 6454) d) | None => LStop end
                 | None => LStop
                 end) :: on i (go_n r 4).
