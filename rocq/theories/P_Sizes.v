(** Properties C102 and C103: sizes of the datagrams that are sent, and datagrams longer than the receive buffer. *)
From Verif Require Import WireSpec DispatchFacts EncodeFacts P_Encode P_Decode ControllerFacts P_Config P_Controller.
From Verif Require Import WireSpec P_Encode P_Decode P_Config P_Controller ControllerFacts SysFacts SysLaws SysRun SysOrder SysScript P_Node P_Life P_Live P_Wire P_Settle Net P_Net.
From Verif Require Import P_Net P_Flow.
From stdpp Require Import base list gmap.
Open Scope N_scope.

(** * C102 *)
(** Everything that a node or controller transmits is an ArtPoll of 14 bytes, an ArtPollReply of 239 bytes or an ArtDmx of 530 bytes;
    none is fragmented, Ethernet carries 1472 bytes of UDP payload in a frame. *)
Theorem C102_sizes : forall E ls y tr k dst d, wf_config (E_config E) -> runs E ls y tr -> In (OTx (k, (dst, d))) tr ->
  (wire_opcode d = 0x2000 /\ len d = 14) \/ (wire_opcode d = 0x2100 /\ len d = 239) \/ (wire_opcode d = 0x5000 /\ len d = 530).
Proof.
  intros E ls y tr k dst d Hc R H. pose proof (tx_item _ _ _ _ _ R H) as Hi. destruct (item_opcode E k dst d Hc Hi) as [_ Ho]. destruct k; cbn in Hi, Ho.
  - right. left. split; [ exact Ho | ]. destruct Hi as [_ Hi]. unfold reply_datagram in Hi. pose proof (announcement_wf _ Hc) as Hw.
    rewrite (marshal_bytes (PktPollReply _) Hw : snd (PollReply_MarshalBinary (ArtPollReplyFromConfig (E_config E))) = Ok (pollreply_bytes (ArtPollReplyFromConfig (E_config E)))) in Hi. injection Hi as <-.
    destruct (reply_bytes_at _ Hw) as (_ & _ & _ & L & _). exact L.
  - left. split; [ exact Ho | ]. destruct Hi as [_ ->]. vm_compute. reflexivity.
  - right. right. split; [ exact Ho | ]. destruct Hi as (h & s & order & now & s' & out & Hr & Hp & Hs & Hf).
    destruct (C45_frames_are_right _ _ _ _ _ _ _ _ Hr Hp Hs Hf) as (? & ? & ? & ? & _ & _ & _ & _ & _ & _ & _ & _ & _ & L). cbn [snd] in L. unfold len. lia.
Qed.
Theorem C102_unfragmented : forall E ls y tr k dst d, wf_config (E_config E) -> runs E ls y tr -> In (OTx (k, (dst, d))) tr -> len d <= 1472.
Proof. intros E ls y tr k dst d Hc R H. destruct (C102_sizes _ _ _ _ _ _ _ Hc R H) as [[_ ->]|[[_ ->]|[_ ->]]]; lia. Qed.
Example C102_ex : exists ls y tr k dst d, runs ctl1 ls y tr /\ In (OTx (k, (dst, d))) tr /\ len d = 14.
Proof.
  destruct (tested_runs ctl1 (up_ctl ++ go_n 4 2 ++ transmit 3) (fun _ _ tr => existsb (fun o => match o with OTx (_, (_, d)) => len d =? 14 | _ => false end) tr))
    as (ls & y & tr & R & H); [ vm_compute; reflexivity | ].
  apply existsb_exists in H. destruct H as (o & Ho & H). destruct o as [| | | | | | | | |[k [dst d]]| | | | | | | | |]; try discriminate. apply N.eqb_eq in H. eauto 10.
Qed.

(** * C103 *)
(** The decision about a datagram of at least 530 bytes depends on its first 530 bytes only. *)
Definition same_start (b b' : list N) : Prop := 530 <= len b /\ 530 <= len b' /\ firstn 530 b = firstn 530 b'.
Lemma same_nth b b' i : same_start b b' -> (i < 530)%nat -> nth i b' 0 = nth i b 0.
Proof.
  intros (_ & _ & H) Hi. rewrite <- (firstn_skipn 530 b), <- (firstn_skipn 530 b'), H.
  destruct (Nat.lt_ge_cases i (length (firstn 530 b'))) as [L|L]; [ rewrite !app_nth1 by exact L; reflexivity | ].
  rewrite firstn_length in L. pose proof (f_equal (@length N) H) as K. rewrite !firstn_length in K.
  rewrite !app_nth2 by (rewrite firstn_length; lia). rewrite !nth_overflow; [ reflexivity | rewrite skipn_length, firstn_length; lia .. ].
Qed.
Lemma same_firstn b b' i : same_start b b' -> (i <= 530)%nat -> firstn i b' = firstn i b.
Proof. intros (_ & _ & H) Hi. rewrite <- (Nat.min_l i 530) by lia. rewrite <- !firstn_firstn, H. reflexivity. Qed.
Lemma same_sym b b' : same_start b b' -> same_start b' b.
Proof. intros (H1 & H2 & H3). split; [ exact H2 | ]. split; [ exact H1 | symmetry; exact H3 ]. Qed.
Lemma same_opcode b b' : same_start b b' -> wire_opcode b' = wire_opcode b.
Proof. intros H. unfold wire_opcode. rewrite !(same_nth b b') by (first [ exact H | lia ]). reflexivity. Qed.
Lemma same_version b b' : same_start b b' -> wire_version b' = wire_version b.
Proof. intros H. unfold wire_version. rewrite !(same_nth b b') by (first [ exact H | lia ]). reflexivity. Qed.
Lemma same_header b b' : same_start b b' -> header_ok b -> header_ok b'.
Proof.
  intros H (H1 & H2 & H3). unfold header_ok. rewrite (same_opcode b b' H), (same_version b b' H), (same_firstn b b' 8 H) by lia. destruct H as (_ & L & _). split; [ lia | auto ].
Qed.
Lemma accepts_prefix b p : wire_accepts b p -> exists pre rest, b = pre ++ rest /\ len pre <= 530 /\ wire_accepts pre p.
Proof.
  intros H. destruct H; eexists _, rest;
    (split; [ rewrite ?app_assoc; reflexivity | ]); (split; [ rewrite ?len_app; repeat match goal with H : len _ = _ |- _ => rewrite H end; try (vm_compute; discriminate) | ]).
  all: try (match goal with |- wire_accepts ?l _ => rewrite <- (app_nil_r l) end; rewrite <- ?app_assoc; econstructor; eassumption).
  - assert (P2 : len port = 2) by (match goal with H : _ \/ _ |- _ => destruct H as [-> | ->]; reflexivity end). rewrite P2. vm_compute. discriminate.
  - match goal with H : len data <= 512 |- _ => revert H end. match goal with H : len data = _ |- _ => rewrite <- H end. change (len magic) with 8. generalize (len data). intros n Hn.
    match goal with |- context [len (?x :: ?l)] => change (len (x :: l)) with 10 end. lia.
Qed.
Lemma same_accepts b b' p : same_start b b' -> wire_accepts b p -> wire_accepts b' p.
Proof.
  intros H W. destruct (accepts_prefix b p W) as (pre & rest & -> & L & W'). assert (Hp : firstn (length pre) b' = pre).
  { rewrite (same_firstn _ _ _ H) by (unfold len in L; lia). rewrite firstn_app, Nat.sub_diag, firstn_all, firstn_O, app_nil_r. reflexivity. }
  rewrite <- (firstn_skipn (length pre) b'), Hp. apply accepts_app. exact W'.
Qed.
Lemma same_error b b' e : same_start b b' -> wire_error b e -> wire_error b' e.
Proof.
  intros H W. pose proof H as (L & L' & _).
  assert (F8 : firstn 8 b' = firstn 8 b) by (apply same_firstn; [ exact H | lia ]).
  assert (Ho : wire_opcode b' = wire_opcode b) by (apply same_opcode; exact H). assert (Hv : wire_version b' = wire_version b) by (apply same_version; exact H).
  pose proof (same_header _ _ H) as Hh.
  assert (Nt : forall i, (i < 530)%nat -> nth i b' 0 = nth i b 0) by (intros i; apply same_nth; exact H).
  destruct W as [W|W1 W2|W1 W2 W3 W4 W5|W1 W2 W3|W1 W2|W1 W2|W1 W2|n W1 W2 W3|W1 W2 W3|l W1 W2 W3 W4 W5|W1 W2 W3 W4|port W1 W2 W3 W4 W5 W6|W1 W2 W3 W4 W5].
  - lia.
  - apply WE_magic; [ lia | rewrite F8; exact W2 ].
  - rewrite <- Hv. apply WE_version; rewrite ?Ho, ?Hv, ?F8; try assumption. lia.
  - apply WE_swapped; rewrite ?Ho, ?F8; try assumption. lia.
  - apply WE_input; [ auto | rewrite Ho; exact W2 ].
  - rewrite <- Ho. apply WE_unsupported; [ auto | rewrite Ho; exact W2 ].
  - rewrite <- Ho. apply WE_unknown; [ auto | rewrite Ho; exact W2 ].
  - exfalso. inversion W2; lia.
  - lia.
  - apply (WE_dmx_length b' l); [ auto | rewrite Ho; exact W2 | lia | rewrite !Nt by lia; exact W4 | ]. destruct W5 as [W5|W5]; [ right; right; left; lia | right; exact W5 ].
  - apply WE_esta; [ auto | rewrite Ho; exact W2 | lia | rewrite !Nt by lia; exact W4 ].
  - apply (WE_port b' port); [ auto | rewrite Ho; exact W2 | lia | rewrite !Nt by lia; exact W4 | exact W5 | exact W6 ].
  - apply WE_style; [ auto | rewrite Ho; exact W2 | lia | rewrite !Nt by lia; exact W4 | rewrite !Nt by lia; exact W5 ].
Qed.
Lemma cut_same b n : (530 <= n)%nat -> firstn n b = b \/ same_start b (firstn n b).
Proof.
  intros Hn. destruct (Nat.le_gt_cases (length b) n) as [L|L]; [ left; apply firstn_all2; exact L | right ].
  unfold same_start, len. rewrite firstn_length, firstn_firstn, (Nat.min_l 530 n) by lia. split; [ lia | split; [ lia | reflexivity ] ].
Qed.
(** The buffer of 4096 bytes is large enough: whatever the length of a datagram, its first 4096 bytes are accepted or rejected
    like the whole. (Any buffer of at least 530 bytes would do.) *)
Theorem C103_cut : forall b n, (530 <= n)%nat ->
  (forall p, wire_accepts (firstn n b) p <-> wire_accepts b p) /\ (forall e, wire_error (firstn n b) e <-> wire_error b e).
Proof.
  intros b n Hn. destruct (cut_same b n Hn) as [->|H]; [ tauto | ]. pose proof (same_sym _ _ H) as H'.
  split; [ intros p; split; eapply same_accepts; eassumption | intros e; split; eapply same_error; eassumption ].
Qed.
Theorem C103_unmarshal : forall b, bytes_ok b ->
  (forall p, Unmarshal (firstn 4096 b) = Ret (Some p, None) <-> Unmarshal b = Ret (Some p, None)) /\
  (forall e, (exists o, Unmarshal (firstn 4096 b) = Ret (o, Some e)) <-> (exists o, Unmarshal b = Ret (o, Some e))).
Proof.
  intros b Hb. assert (Hb' : bytes_ok (firstn 4096 b)) by (apply bytes_ok_firstn; exact Hb).
  destruct (C103_cut b 4096) as [A B]; [ lia | ]. split.
  - intros p. rewrite !Unmarshal_accepts by assumption. apply A.
  - intros e. rewrite !Unmarshal_rejects by assumption. apply B.
Qed.
(** 529 bytes are not enough. *)
Theorem C103_bound_tight : exists b p, length b = 530%nat /\ wire_accepts b p /\ ~ wire_accepts (firstn 529 b) p.
Proof.
  set (b := magic ++ [0; 0x50; 0; 14; 0; 0; 0; 0; 2; 0] ++ repeat 7 512). assert (Hb : bytes_ok b) by (apply bytes_okb; vm_compute; reflexivity).
  exists b. eexists. split; [ reflexivity | ]. split; [ apply Unmarshal_accepts; [ exact Hb | vm_compute; reflexivity ] | ].
  intros K. apply Unmarshal_accepts in K; [ | apply bytes_ok_firstn; exact Hb ]. vm_compute in K. discriminate.
Qed.
(** For the node: every packet given to a callback is the packet of a whole datagram received from another host, ... *)
Theorem C103_called_whole : forall E ls y tr h p, runs E ls y tr -> In (OCall h p) tr ->
  exists src port d, In (ORecv (src, port) d) tr /\ to16 src <> to16 (E_localIP E) /\ wire_accepts d p.
Proof.
  intros E ls y tr h p R H. destruct (C58_own_ignored _ _ _ _ R) as (_ & K & _).
  destruct (K p) as (d & Hd & Ha). { unfold called. apply in_collect. exists (OCall h p). split; [ exact H | left; reflexivity ]. }
  unfold others in Hd. apply in_collect in Hd. destruct Hd as (o & Ho & Hd). destruct o as [[src port] data| | | | | | | | | | | | | | | | | |]; try contradiction.
  destruct (decide (to16 src = to16 (E_localIP E))) as [D|D]; [ contradiction | ]. destruct Hd as [<-|[]]. exists src, port, data. split; [ exact Ho | ]. split; [ exact D | ].
  apply (C103_cut data 4096); [ lia | exact Ha ].
Qed.
(** ... and the callback registered for a packet whose datagram arrives from another host is invoked with it, however long the datagram is. *)
Theorem C103_long_handled : forall E y ls y' tr src port d p h, live E y -> steps E y ls y' tr -> calls ls = [] -> no_errors ls = true -> at_rest y' ->
  In (ORecv (src, port) d) tr -> to16 src <> to16 (E_localIP E) -> wire_accepts d p -> S_callbacks (Y_sh y) !! GetOpCode p = Some h -> In (OCall h p) tr.
Proof.
  intros E y ls y' tr src port d p h V S Hc Hn Hr Hi Hs Ha Hh. eapply C85_called; try eassumption. apply (C103_cut d 4096); [ lia | exact Ha ].
Qed.
(** An ArtPoll with 5000 further bytes is handled. *)
Example C103_ex : exists ls y tr d, runs node1 ls y tr /\ In (ORecv host2 d) tr /\ length d = N.to_nat 5014 /\ length (called tr) = 1%nat.
Proof.
  set (d := poll_bytes ++ repeat 9 5000).
  destruct (tested_runs node1 (up_node ++ arrive 4 host2 d ++ parse 2 ++ go_n 5 1)
    (fun _ y tr => bool_decide (length (called tr) = 1%nat) && existsb (fun o => match o with ORecv from x => bool_decide (from = host2) && bool_decide (x = d) | _ => false end) tr))
    as (ls & y & tr & R & H); [ vm_compute; reflexivity | ].
  apply andb_prop in H. destruct H as [H H']. apply bool_decide_eq_true in H. apply existsb_exists in H'. destruct H' as (o & Ho & H'). destruct o; try discriminate.
  apply andb_prop in H'. destruct H' as [H1 H2]. apply bool_decide_eq_true in H1. apply bool_decide_eq_true in H2. subst from data.
  exists ls, y, tr, d. split; [ exact R | ]. split; [ exact Ho | ]. split; [ vm_compute; reflexivity | exact H ].
Qed.

Definition P_Sizes_theorems := (C102_sizes, C102_unfragmented, C102_ex, C103_cut, C103_unmarshal, C103_bound_tight, C103_called_whole, C103_long_handled, C103_ex).
Print Assumptions P_Sizes_theorems.
