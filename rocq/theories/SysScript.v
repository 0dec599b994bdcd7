(** Concrete runs of the system for examples and refutations: a script gives the next label as a function
    of the current state; it is played by computation. *)
From Verif Require Import WireSpec SysFacts.
From Verif Require Export Sys.
From stdpp Require Import base list gmap.
Open Scope N_scope.

Definition label_okb (l : label) : bool :=
  match l with
  | LRun _ (CDatagram _ d) => forallb (fun b => b <? 256) d
  | LSend dmx _ => (len dmx =? 512) && forallb (fun b => b <? 256) dmx
  | _ => true
  end.
Lemma bytes_okb d : forallb (fun b => b <? 256) d = true -> bytes_ok d.
Proof. intros H. apply Forall_forall. intros x Hx. apply elem_of_list_In in Hx. rewrite forallb_forall in H. apply N.ltb_lt. exact (H x Hx). Qed.
Lemma label_okb_ok l : label_okb l = true -> label_ok l.
Proof.
  destruct l as [i c| | |dmx a|op f|op]; try (intros; exact I).
  - destruct c; try (intros; exact I). apply bytes_okb.
  - cbn [label_okb label_ok]. intros H. apply andb_prop in H. destruct H as [H1 H2]. split; [ apply N.eqb_eq; exact H1 | apply bytes_okb; exact H2 ].
Qed.

Fixpoint play (E : env) (y : sys) (fs : list (sys -> label)) : option (list label * sys * list obs) :=
  match fs with
  | [] => Some ([], y, [])
  | f :: fs =>
      let l := f y in
      if label_okb l then
        match exec E y l with
        | RNext y' o => match play E y' fs with Some (ls, y'', tr) => Some (l :: ls, y'', o ++ tr) | None => None end
        | _ => None
        end
      else None
  end.
Lemma play_steps E fs : forall y ls y' tr, play E y fs = Some (ls, y', tr) -> steps E y ls y' tr.
Proof.
  induction fs as [|f fs IH]; intros y ls y' tr H; cbn [play] in H.
  - injection H as <- <- <-. constructor.
  - cbv zeta in H. destruct (label_okb (f y)) eqn:Hl; [ | discriminate ]. destruct (exec E y (f y)) as [| |y1 o] eqn:He; try discriminate.
    destruct (play E y1 fs) as [[[ls1 y2] tr1]|] eqn:Hp; [ | discriminate ]. injection H as <- <- <-.
    eapply steps_cons; [ apply label_okb_ok; exact Hl | exact He | apply IH; exact Hp ].
Qed.
Definition tested (E : env) (fs : list (sys -> label)) (P : list label -> sys -> list obs -> bool) : bool :=
  match play E (init E) fs with Some (ls, y, tr) => P ls y tr | None => false end.
Lemma tested_runs E fs P : tested E fs P = true -> exists ls y tr, runs E ls y tr /\ P ls y tr = true.
Proof.
  unfold tested. destruct (play E (init E) fs) as [[[ls y] tr]|] eqn:Hp; [ | discriminate ]. intros H.
  exists ls, y, tr. split; [ apply (play_steps E fs _ _ _ _ Hp) | exact H ].
Qed.
(** Two consecutive scripts. *)
Definition tested2 (E : env) (fs1 fs2 : list (sys -> label)) (P : list label -> sys -> list obs -> list label -> sys -> list obs -> bool) : bool :=
  match play E (init E) fs1 with
  | Some (ls1, y1, tr1) => match play E y1 fs2 with Some (ls2, y2, tr2) => P ls1 y1 tr1 ls2 y2 tr2 | None => false end
  | None => false
  end.
Lemma tested2_runs E fs1 fs2 P : tested2 E fs1 fs2 P = true ->
  exists ls1 y1 tr1 ls2 y2 tr2, runs E ls1 y1 tr1 /\ steps E y1 ls2 y2 tr2 /\ P ls1 y1 tr1 ls2 y2 tr2 = true.
Proof.
  unfold tested2. destruct (play E (init E) fs1) as [[[ls1 y1] tr1]|] eqn:Hp; [ | discriminate ].
  destruct (play E y1 fs2) as [[[ls2 y2] tr2]|] eqn:Hq; [ | discriminate ]. intros H.
  exists ls1, y1, tr1, ls2, y2, tr2. split; [ apply (play_steps E fs1 _ _ _ _ Hp) | ]. split; [ apply (play_steps E fs2 _ _ _ _ Hq) | exact H ].
Qed.

(** Scripts. *)
Definition script := list (sys -> label).
(** Thread i runs n normal steps. *)
Definition go_n (i n : nat) : script := repeat (fun _ => LRun i CGo) n.
Definition act (l : label) : script := [fun _ => l].
Definition thread_at (y : sys) (i : nat) : thread := match Y_threads y !! i with Some t => t | None => TDone end.
(** A tick of dmxUpdateLoop in thread i at time now, iterating the map in some order. *)
Definition tick (i : nat) (now : Z) : script :=
  [fun _ => LRun i (CTime now); fun y => LRun i (COrder (map_to_list (K_OutputAddress (S_tables (Y_sh y)))))].

(** A plain node: 0 is Start, 1 pollReplyLoop, 2 recvLoop, 3 sendLoop, 4 the reader. *)
Definition up_node : script := act LStart ++ go_n 0 2 ++ go_n 1 2 ++ go_n 2 2 ++ go_n 3 1 ++ go_n 4 1.
(** A controller: 0 is Start, 1 pollReplyLoop, 2 recvLoop, 3 sendLoop, 4 pollLoop, 5 dmxUpdateLoop, 6 the reader. *)
Definition up_ctl : script := act LStart ++ go_n 0 4 ++ go_n 1 2 ++ go_n 2 2 ++ go_n 3 1 ++ go_n 4 1 ++ go_n 5 2 ++ go_n 6 1.
(** sendLoop in thread i transmits the next payload and waits again. *)
Definition transmit (i : nat) : script := go_n i 4.
(** The reader in thread r gets a datagram and queues it; recvLoop in thread i parses it. *)
Definition arrive (r : nat) (from : UDPAddr) (d : list N) : script := act (LRun r (CDatagram from d)) ++ go_n r 4.
Definition parse (i : nat) : script := go_n i 3.

Definition node1 : env := NewNode [0x6e] StNode [10; 0; 0; 1] [].
Definition ctl1 : env := NewController_env [0x63] [10; 0; 0; 9] [].
Definition host2 : UDPAddr := ([10; 0; 0; 2], 6454).
Definition poll_bytes : list N := poll_datagram.

Example up_node_ex : exists ls y tr, runs node1 ls y tr /\ In (OStart true) tr.
Proof.
  destruct (tested_runs node1 up_node (fun _ _ tr => existsb (fun o => match o with OStart true => true | _ => false end) tr)) as (ls & y & tr & R & H);
    [ vm_compute; reflexivity | ].
  exists ls, y, tr. split; [ exact R | ]. apply existsb_exists in H. destruct H as (o & Ho & H). destruct o; try discriminate. destruct ok; [ exact Ho | discriminate ].
Qed.
Example up_ctl_ex : exists ls y tr, runs ctl1 ls y tr /\ In (OStart true) tr.
Proof.
  destruct (tested_runs ctl1 up_ctl (fun _ _ tr => existsb (fun o => match o with OStart true => true | _ => false end) tr)) as (ls & y & tr & R & H);
    [ vm_compute; reflexivity | ].
  exists ls, y, tr. split; [ exact R | ]. apply existsb_exists in H. destruct H as (o & Ho & H). destruct o; try discriminate. destruct ok; [ exact Ho | discriminate ].
Qed.
