(** Property C95: the address the example programs example/node and example/controller give themselves. *)
From Verif Require Import WireSpec BinaryFacts DispatchFacts EncodeFacts P_Config ControllerFacts P_Controller SysFacts SysLaws SysRun SysOrder SysScript P_Node.
From stdpp Require Import base list gmap.
Open Scope N_scope.

(** * The programs *)
(** Go standard library, net.IPNet.Contains for the network 2.0.0.0/8 that net.ParseCIDR returns (four byte number and mask). *)
Definition net_number : list N := [2; 0; 0; 0].
Definition net_mask : list N := [0xff; 0; 0; 0].
Definition Contains (ip : list N) : bool :=
  let ip := match To4 ip with [] => ip | x => x end in
  (len ip =? 4) && forallb (fun '((n, m), b) => N.land n m =? N.land b m) (combine (combine net_number net_mask) ip).
(** example/node/main.go:23-30, example/controller/main.go:21-28: the loop over the addresses of all interfaces *)
Fixpoint choose (ip : list N) (addrs : list (list N)) : list N :=
  match addrs with
  | [] => ip
  | a :: addrs => if Contains a then a else choose a addrs
  end.
(** ip starts as nil *)
Definition chosen (addrs : list (list N)) : list N := choose [] addrs.
(** example/node/main.go:32-34, example/controller/main.go:30-32 *)
Definition example_node (addrs : list (list N)) : env := NewNode [110; 111; 100; 101; 45; 49] StNode (chosen addrs) [].
Definition example_controller (addrs : list (list N)) : env := NewController_env [99; 111; 110; 116; 114; 111; 108; 108; 101; 114; 45; 49] (chosen addrs) [].

(** * Specification *)
(** The IPv4 address 2.x.y.z, in its four byte form or mapped into IPv6, as the operating system reports it. *)
Definition art_address (ip : list N) (q : list N) : Prop :=
  exists x y z, q = [2; x; y; z] /\ (ip = q \/ ip = [0; 0; 0; 0; 0; 0; 0; 0; 0; 0; 0xff; 0xff] ++ q).
(** Replies on the wire carry the address in bytes 10 to 13. *)
Definition wire_ip (d : list N) : list N := firstn 4 (skipn 10 d).

Lemma four {A} (l : list A) : length l = 4%nat -> exists a b c d, l = [a; b; c; d].
Proof. destruct l as [|a [|b [|c [|d [|e l]]]]]; try discriminate. intros _. exists a, b, c, d. reflexivity. Qed.
Lemma Contains_art b : bytes_ok b -> Contains b = true -> exists q, art_address b q.
Proof.
  intros Hb H. assert (F : forall q, bytes_ok q -> len q = 4 -> forallb (fun '((n, m), b) => N.land n m =? N.land b m) (combine (combine net_number net_mask) q) = true -> exists x y z, q = [2; x; y; z]).
  { intros q Hq Hl Hf. assert (length q = 4%nat) by (unfold len in Hl; lia). destruct (four q H0) as (b0 & x & y & z & ->). exists x, y, z. unfold net_number, net_mask in Hf. cbn [combine forallb] in Hf. apply andb_prop in Hf. destruct Hf as [Hf _]. apply N.eqb_eq in Hf.
    inversion Hq as [|? ? Hb0 _]; subst. change 0xff with (N.ones 8) in Hf. rewrite !N.land_ones in Hf. rewrite (N.mod_small b0) in Hf by exact Hb0. change (2 mod 2 ^ 8) with 2 in Hf. rewrite <- Hf. reflexivity. }
  unfold Contains in H. unfold To4 in H. destruct (N.eqb_spec (len b) 4) as [Hl|Hl].
  - destruct b as [|b0 b']; [ discriminate H | ]. apply andb_prop in H. destruct H as [H1 H2]. destruct (F _ Hb Hl H2) as (x & y & z & E). eexists. exists x, y, z. split; [ reflexivity | left; exact E ].
  - match type of H with context [ if ?c then drop 12 b else [] ] => destruct c eqn:M end.
    + apply andb_prop in M. destruct M as [M M4]. apply andb_prop in M. destruct M as [M M3]. apply andb_prop in M. destruct M as [M1 M2]. apply N.eqb_eq in M1, M3, M4.
      assert (L : length b = 16%nat) by (unfold len in M1; lia). assert (L' : len (skipn 12 b) = 4) by (unfold len; rewrite skipn_length, L; reflexivity).
      assert (Hs : bytes_ok (skipn 12 b)) by (apply Forall_drop; exact Hb).
      destruct (skipn 12 b) as [|s0 s'] eqn:Es; [ discriminate L' | ]. apply andb_prop in H. destruct H as [_ H2]. destruct (F _ Hs L' H2) as (x & y & z & E).
      eexists. exists x, y, z. split; [ reflexivity | ]. right. rewrite <- (firstn_skipn 12 b), Es, E. f_equal. apply eqbytes_eq in M2.
      do 16 (destruct b as [|? b]; [ discriminate L | ]). destruct b; [ | discriminate L ]. cbn in M2, M3, M4 |- *. subst. injection M2. intros. subst. reflexivity.
    + exfalso. apply andb_prop in H. destruct H as [H _]. apply N.eqb_eq in H. contradiction.
Qed.
Lemma art_Contains b q : art_address b q -> Contains b = true /\ To4 b = q.
Proof.
  intros (x & y & z & -> & H). assert (T : To4 b = [2; x; y; z]) by (destruct H as [-> | ->]; reflexivity). split; [ | exact T ]. unfold Contains, net_number, net_mask. rewrite T. cbn [combine forallb].
  rewrite !N.land_0_r. reflexivity.
Qed.
Lemma choose_first : forall pre ip a q post, Forall bytes_ok pre -> Forall (fun b => forall r, ~ art_address b r) pre -> art_address a q -> choose ip (pre ++ a :: post) = a.
Proof.
  induction pre as [|b pre IH]; intros ip a q post Hb Hn Ha; cbn [app choose].
  - rewrite (proj1 (art_Contains _ _ Ha)). reflexivity.
  - inversion Hb; subst. inversion Hn as [|? ? N1 N2]; subst. destruct (Contains b) eqn:C; [ | apply (IH _ _ q); assumption ]. exfalso. destruct (Contains_art b H1 C) as [r Hr]. exact (N1 r Hr).
Qed.

(** * The theorems *)
(** If the machine has an address in 2.0.0.0/8, both programs announce the first one in every reply they ever transmit. *)
Theorem C95_announces_partial : forall addrs pre a q post ls y tr x E, addrs = pre ++ a :: post -> Forall bytes_ok addrs ->
  Forall (fun b => forall r, ~ art_address b r) pre -> art_address a q ->
  E = example_node addrs \/ E = example_controller addrs -> runs E ls y tr -> In x (transmitted tr) -> is_reply x = true -> wire_ip (snd (snd x)) = q.
Proof.
  intros addrs pre a q post ls y tr x E -> Hb Hn Ha HE R Hx Hr. apply Forall_app in Hb. destruct Hb as [Hb Hb']. inversion Hb' as [|? ? Hba _]; subst.
  assert (C : chosen (pre ++ a :: post) = a) by (apply (choose_first _ _ _ q); assumption). destruct (art_Contains _ _ Ha) as [_ T].
  assert (W : wf_config (E_config E) /\ C_IP (E_config E) = a).
  { destruct HE as [-> | ->]; unfold example_node, example_controller; rewrite C; (split; [ | reflexivity ]); unfold wf_config, word_ok, byte_ok, bytes_ok, addr_ok; cbn; repeat split; try lia; try exact Hba; repeat constructor; lia. }
  destruct W as [W1 W2]. destruct (C59_replies _ _ _ _ W1 R) as (_ & K & _). specialize (K x Hx Hr). rewrite K. cbn [snd]. unfold wire_ip, pollreply_bytes. cbn [ArtPollReplyFromConfig PollReply_IPAddress].
  rewrite W2, T. destruct Ha as (u & v & w & -> & _). reflexivity.
Qed.
(** Otherwise the last address of the machine is taken, whatever it is: an IPv4 address in its four bytes, any other as 0.0.0.0. *)
Lemma choose_last : forall pre ip a, Forall bytes_ok (pre ++ [a]) -> Forall (fun b => forall r, ~ art_address b r) (pre ++ [a]) -> choose ip (pre ++ [a]) = a.
Proof.
  induction pre as [|b pre IH]; intros ip a Hb Hn; cbn [app choose]; inversion Hb as [|? ? B1 B2]; subst; inversion Hn as [|? ? N1 N2]; subst.
  - destruct (Contains a); reflexivity.
  - destruct (Contains b) eqn:C; [ | apply IH; assumption ]. exfalso. destruct (Contains_art b B1 C) as [r Hr]. exact (N1 r Hr).
Qed.
Theorem C95_last : forall pre a ls y tr x E, Forall bytes_ok (pre ++ [a]) -> Forall (fun b => forall r, ~ art_address b r) (pre ++ [a]) ->
  E = example_node (pre ++ [a]) \/ E = example_controller (pre ++ [a]) -> runs E ls y tr -> In x (transmitted tr) -> is_reply x = true ->
  (forall q, length q = 4%nat -> a = q \/ a = [0; 0; 0; 0; 0; 0; 0; 0; 0; 0; 0xff; 0xff] ++ q -> wire_ip (snd (snd x)) = q) /\
  ((forall q, length q = 4%nat -> a <> q /\ a <> [0; 0; 0; 0; 0; 0; 0; 0; 0; 0; 0xff; 0xff] ++ q) -> wire_ip (snd (snd x)) = [0; 0; 0; 0]).
Proof.
  intros pre a ls y tr x E Hb Hn HE R Hx Hr. assert (C : chosen (pre ++ [a]) = a) by (apply choose_last; assumption). pose proof Hb as Hb0. apply Forall_app in Hb. destruct Hb as [_ Hb]. inversion Hb as [|? ? Hba _]; subst.
  assert (W : wf_config (E_config E) /\ C_IP (E_config E) = a).
  { destruct HE as [-> | ->]; unfold example_node, example_controller; rewrite C; (split; [ | reflexivity ]); unfold wf_config, word_ok, byte_ok, bytes_ok, addr_ok; cbn; repeat split; try lia; try exact Hba; repeat constructor; lia. }
  destruct W as [W1 W2]. destruct (C59_replies _ _ _ _ W1 R) as (_ & K & _). specialize (K x Hx Hr). rewrite K. cbn [snd]. unfold wire_ip, pollreply_bytes. cbn [ArtPollReplyFromConfig PollReply_IPAddress].
  rewrite W2. split.
  - intros q Hq Ha. destruct q as [|q1 [|q2 [|q3 [|q4 [|q5 q]]]]]; try discriminate Hq. destruct Ha as [-> | ->]; reflexivity.
  - intros Hno. assert (T : To4 a = []).
    { unfold To4. destruct (len a =? 4) eqn:E4; [ exfalso; apply N.eqb_eq in E4; apply (proj1 (Hno a ltac:(unfold len in E4; lia))); reflexivity | ].
      destruct ((len a =? 16) && eqbytes (firstn 10 a) (zeros 10) && (nth 10 a 0 =? 0xff) && (nth 11 a 0 =? 0xff)) eqn:E16; [ exfalso | reflexivity ].
      repeat (apply andb_prop in E16; let X := fresh "X" in destruct E16 as [E16 X]). apply N.eqb_eq in E16, X, X0. apply eqbytes_eq in X1. unfold len in E16.
      do 17 (destruct a as [|? a]; try (cbn in E16; lia)). cbn in X, X0, X1. injection X1 as -> -> -> -> -> -> -> -> -> ->. subst. eapply (proj2 (Hno [_; _; _; _] eq_refl)). reflexivity. }
    rewrite T. reflexivity.
Qed.
(** A machine with the IPv4 address 10.0.0.5 announces 0.0.0.0 when its last address is ::1. *)
Definition v6_loopback : list N := [0; 0; 0; 0; 0; 0; 0; 0; 0; 0; 0; 0; 0; 0; 0; 1].
Definition machine (n : N) : list (list N) := [[127; 0; 0; 1]; [10; 0; 0; n]; v6_loopback].
Theorem C95_announces_refuted : exists addrs ls y tr x, In [10; 0; 0; 5] addrs /\ Forall bytes_ok addrs /\ runs (example_node addrs) ls y tr /\ In x (transmitted tr) /\ is_reply x = true /\ wire_ip (snd (snd x)) = [0; 0; 0; 0].
Proof.
  destruct (tested_runs (example_node (machine 5)) (up_node ++ serve_poll 5) (fun _ _ tr => existsb (fun x => is_reply x && eqbytes (wire_ip (snd (snd x))) [0; 0; 0; 0]) (transmitted tr))) as (ls & y & tr & R & H);
    [ vm_compute; reflexivity | ].
  apply existsb_exists in H. destruct H as (x & Hx & H). apply andb_prop in H. destruct H as [H1 H2]. exists (machine 5), ls, y, tr, x. split; [ right; left; reflexivity | ].
  split; [ repeat constructor | ]. split; [ exact R | ]. split; [ exact Hx | ]. split; [ exact H1 | apply eqbytes_eq; exact H2 ].
Qed.
(** So a controller that hears two such machines lists one node, and sends its frames to 0.0.0.0. *)
Theorem C95_merged_refuted : exists k1 k2 cn, handle_reply (NewController 1000) (ArtPollReplyFromConfig (E_config (example_node (machine 5)))) 1 = Ret k1 /\
  handle_reply k1 (ArtPollReplyFromConfig (E_config (example_node (machine 6)))) 2 = Ret k2 /\ K_Nodes k2 = [0] /\ K_heap k2 !! 0 = Some cn /\ CN_UDPAddress cn = ([0; 0; 0; 0], 6454).
Proof. eexists _, _, _. split; [ vm_compute; reflexivity | ]. split; [ vm_compute; reflexivity | ]. split; [ vm_compute; reflexivity | ]. split; [ vm_compute; reflexivity | reflexivity ]. Qed.

(** Hypotheses met: the second of four addresses is chosen, in the mapped form, and answers a poll. *)
Definition studio : list (list N) := [[127; 0; 0; 1]; [0; 0; 0; 0; 0; 0; 0; 0; 0; 0; 0xff; 0xff; 2; 1; 2; 3]; [2; 9; 9; 9]; v6_loopback].
Example C95_ex : exists ls y tr x, runs (example_node studio) ls y tr /\ In x (transmitted tr) /\ is_reply x = true /\ wire_ip (snd (snd x)) = [2; 1; 2; 3] /\
  Forall bytes_ok studio /\ studio = [[127; 0; 0; 1]] ++ [0; 0; 0; 0; 0; 0; 0; 0; 0; 0; 0xff; 0xff; 2; 1; 2; 3] :: [[2; 9; 9; 9]; v6_loopback] /\
  art_address [0; 0; 0; 0; 0; 0; 0; 0; 0; 0; 0xff; 0xff; 2; 1; 2; 3] [2; 1; 2; 3] /\ Forall (fun b => forall r, ~ art_address b r) [[127; 0; 0; 1]].
Proof.
  destruct (tested_runs (example_node studio) (up_node ++ serve_poll 5) (fun _ _ tr => existsb (fun x => is_reply x && eqbytes (wire_ip (snd (snd x))) [2; 1; 2; 3]) (transmitted tr))) as (ls & y & tr & R & H);
    [ vm_compute; reflexivity | ].
  apply existsb_exists in H. destruct H as (x & Hx & H). apply andb_prop in H. destruct H as [H1 H2]. exists ls, y, tr, x. split; [ exact R | ]. split; [ exact Hx | ]. split; [ exact H1 | ].
  split; [ apply eqbytes_eq; exact H2 | ]. split; [ repeat constructor | ]. split; [ reflexivity | ]. split; [ exists 1, 2, 3; split; [ reflexivity | right; reflexivity ] | ].
  constructor; [ | constructor ]. intros r (u & v & w & -> & [H|H]); discriminate H.
Qed.
(** The last of three addresses, none of them in 2.0.0.0/8. *)
Example C95_last_ex : exists ls y tr x, runs (example_node [[127; 0; 0; 1]; v6_loopback; [10; 0; 0; 5]]) ls y tr /\ In x (transmitted tr) /\ is_reply x = true /\ wire_ip (snd (snd x)) = [10; 0; 0; 5].
Proof.
  destruct (tested_runs (example_node [[127; 0; 0; 1]; v6_loopback; [10; 0; 0; 5]]) (up_node ++ serve_poll 5) (fun _ _ tr => existsb (fun x => is_reply x && eqbytes (wire_ip (snd (snd x))) [10; 0; 0; 5]) (transmitted tr))) as (ls & y & tr & R & H);
    [ vm_compute; reflexivity | ].
  apply existsb_exists in H. destruct H as (x & Hx & H). apply andb_prop in H. destruct H as [H1 H2]. exists ls, y, tr, x. split; [ exact R | ]. split; [ exact Hx | ]. split; [ exact H1 | apply eqbytes_eq; exact H2 ].
Qed.

Definition P_Address_theorems := (C95_announces_partial, C95_last, C95_announces_refuted, C95_merged_refuted, C95_ex, C95_last_ex).
Print Assumptions P_Address_theorems.
