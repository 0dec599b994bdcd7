(** Property C117: example/simpledmx/main.go as a whole, and what a node of this library makes of it. *)
From Verif Require Import WireSpec BinaryFacts DispatchFacts P_Config ControllerFacts P_Controller SysFacts SysLaws SysRun SysOrder SysScript P_Node P_Life P_Live P_Wire P_Settle Net P_Net P_Flow P_Example.
From stdpp Require Import base list gmap.
Open Scope N_scope.

(** * The program *)
(** What it does that can be seen: a socket is asked for, a datagram is handed to the network, a line is printed. *)
Inductive line := LnOpening | LnWriting | LnSent (n : N).
Inductive act := AListen (local : UDPAddr) | AWrite (to : UDPAddr) (d : list N) | APrint (l : line).
(** example/simpledmx/main.go:12-15. Simplification: fmt.Sprintf and net.ResolveUDPAddr of a literal address are not modelled, the addresses are written out. *)
Definition fixture : UDPAddr := ([2; 231; 20; 36], ArtNetPort).
Definition desk : UDPAddr := ([2; 12; 12; 12], ArtNetPort).
(** example/simpledmx/main.go:17-42; [listen]: net.ListenUDP succeeds; [write]: conn.WriteTo returns Some n, or an error. The error of MarshalBinary (35) is overwritten by that of WriteTo (37); a failed MarshalBinary would yield no
    bytes. *)
Definition simpledmx (listen : bool) (write : option N) : list act :=
  AListen desk ::
  if listen
  then AWrite fixture (match example_dmx with Ok b => b | Err _ => [] end) :: [APrint (match write with Some n => LnSent n | None => LnWriting end)]
  else [APrint LnOpening].

(** * Specification *)
Definition sent (l : list act) : list (UDPAddr * list N) := omap (fun a => match a with AWrite to d => Some (to, d) | _ => None end) l.
Definition printed (l : list act) : list line := omap (fun a => match a with APrint x => Some x | _ => None end) l.
(** Channels 1 and 4 at full level, all others off. *)
Definition red (data : list N) : Prop := length data = 512%nat /\ forall i, (i < 512)%nat -> nth i data 0 = if decide (i = 0%nat \/ i = 3%nat) then 255 else 0.

(** * C117 *)
Lemma frame_is : exists b q, example_dmx = Ok b /\ bytes_ok b /\ length b = 530%nat /\ Unmarshal b = Ret (Some (PktDMX q), None) /\ DMX_Sequence q = 1 /\ DMX_SubUni q = 0 /\ DMX_Net q = 0 /\ DMX_Length q = 512 /\
  DMX_Data q = [0xff; 0; 0; 0xff; 0] ++ repeat 0 507 /\ GetOpCode (PktDMX q) = 0x5000.
Proof. eexists _, _. split; [ vm_compute; reflexivity | ]. split; [ apply bytes_okb; vm_compute; reflexivity | ]. split; [ reflexivity | ]. split; [ vm_compute; reflexivity | ]. repeat split. Qed.
Lemma red_is : red ([0xff; 0; 0; 0xff; 0] ++ repeat 0 507).
Proof.
  split; [ reflexivity | ]. intros i Hi. destruct i as [|[|[|[|[|i]]]]]; try reflexivity. rewrite app_nth2 by (cbn; lia). rewrite decide_False by lia. apply nth_repeat.
Qed.
(** One datagram of 530 bytes, for universe 0 with all 512 channels, if the socket can be opened; none otherwise. *)
Theorem C117_sends : forall listen write, match sent (simpledmx listen write) with
  | [(to, b)] => listen = true /\ to = ([2; 231; 20; 36], 6454) /\ length b = 530%nat /\ exists q, wire_accepts b (PktDMX q) /\ DMX_Sequence q = 1 /\ DMX_SubUni q = 0 /\ DMX_Net q = 0 /\ DMX_Length q = 512 /\ red (DMX_Data q)
  | [] => listen = false
  | _ => False end.
Proof.
  intros [] write; [ | reflexivity ]. destruct frame_is as (b & q & E & Hb & Hl & Hu & H1 & H2 & H3 & H4 & H5 & H6). unfold simpledmx. rewrite E. cbn. split; [ reflexivity | ]. split; [ reflexivity | ]. split; [ exact Hl | ].
  exists q. split; [ apply Unmarshal_accepts; assumption | ]. rewrite H5. repeat (split; [ assumption | ]). exact red_is.
Qed.
(** It always prints one line, at the end, which says what happened. *)
Theorem C117_prints : forall listen write, exists before l, simpledmx listen write = before ++ [APrint l] /\ printed before = [] /\
  (l = LnOpening <-> listen = false) /\ (l = LnWriting <-> listen = true /\ write = None) /\ (forall n, l = LnSent n <-> listen = true /\ write = Some n).
Proof.
  intros [] write; unfold simpledmx; [ eexists [_; _], _ | eexists [_], _ ]; (split; [ reflexivity | ]); (split; [ reflexivity | ]); destruct write; repeat split; intros; try discriminate; try congruence; destruct H; congruence.
Qed.
(** A node that gets the datagram calls the callback registered for ArtDmx with this packet, whatever else it has to do. *)
Theorem C117_received : forall E y ls y' tr write b f, live E y -> steps E y ls y' tr -> calls ls = [] -> no_errors ls = true -> at_rest y' -> S_callbacks (Y_sh y) !! 0x5000 = Some (HUser f) -> to16 (E_localIP E) <> to16 [2; 12; 12; 12] ->
  In (fixture, b) (sent (simpledmx true write)) -> In (ORecv desk b) tr -> exists q, In (OCall (HUser f) (PktDMX q)) tr /\ DMX_Sequence q = 1 /\ DMX_SubUni q = 0 /\ DMX_Net q = 0 /\ DMX_Length q = 512 /\ red (DMX_Data q).
Proof.
  intros E y ls y' tr write b f V S C N R Hf Hip Hb Hin. destruct frame_is as (b' & q & Eb & Hbb & Hl & Hu & H1 & H2 & H3 & H4 & H5 & H6). unfold simpledmx in Hb. rewrite Eb in Hb. cbn in Hb. destruct Hb as [Hb|[]]. injection Hb as <-.
  exists q. rewrite H5. split; [ | repeat (split; [ assumption | ]); exact red_is ].
  refine (C85_called E y ls y' tr [2; 12; 12; 12] ArtNetPort b' (PktDMX q) (HUser f) V S C N R Hin _ _ _); [ intros K; apply Hip; symmetry; exact K | rewrite firstn_all2 by lia; apply Unmarshal_accepts; assumption | rewrite H6; exact Hf ].
Qed.
(** And it can get it at any time. *)
Theorem C117_can_receive : forall E y write b, live E y -> In (fixture, b) (sent (simpledmx true write)) -> exists ls y' tr, works E y ls y' tr /\ In (ORecv desk b) tr.
Proof.
  intros E y write b V Hb. destruct frame_is as (b' & q & Eb & Hbb & _). unfold simpledmx in Hb. rewrite Eb in Hb. cbn in Hb. destruct Hb as [Hb|[]]. injection Hb as <-.
  destruct (receive_round E y desk b' V Hbb) as (ls & y' & tr & W & _ & K). eauto.
Qed.
(** Without such a callback, as in a node on which nothing was registered, nothing is called for it or for any other ArtDmx packet. *)
Theorem C117_unregistered : forall E y ls y' tr h p, live E y -> steps E y ls y' tr -> calls ls = [] -> no_errors ls = true -> S_callbacks (Y_sh y) !! 0x5000 = None -> In (OCall h p) tr -> GetOpCode p <> 0x5000.
Proof.
  intros E y ls y' tr h p V S. induction S as [|y ls y1 tr l y2 o S IH Hl He]; intros C N Hn Hin; [ contradiction | ]. rewrite calls_app in C. apply app_eq_nil in C. destruct C as [C _].
  rewrite no_errors_app in N. apply andb_prop in N. destruct N as [N _]. apply in_app_or in Hin. destruct Hin as [Hin|Hin]; [ exact (IH V C N Hn Hin) | ].
  apply in_split in Hin. destruct Hin as (o1 & o2 & ->). destruct (call_registered _ _ _ _ _ _ _ _ He) as [_ K]. rewrite (callbacks_kept _ _ _ _ _ S V C N) in K. intros X. congruence.
Qed.

(** The program run with a network that takes the datagram. *)
Example C117_ex : exists b, sent (simpledmx true (Some 530)) = [(fixture, b)] /\ printed (simpledmx true (Some 530)) = [LnSent 530] /\ firstn 22 b = magic ++ [0; 0x50; 0; 14; 1; 0; 0; 0; 2; 0; 0xff; 0; 0; 0xff].
Proof. eexists. split; [ vm_compute; reflexivity | ]. split; reflexivity. Qed.
(** A node in an execution of two hosts, with the callback the theorems ask for, that is sent the frame. *)
Example C117_node_ex : exists (y : sys) (ls : list label) (y' : sys) (tr : list obs) (b : list N) (q : ArtDMXPacket), live lamp y /\ S_callbacks (Y_sh y) !! 0x5000 = Some (HUser 1) /\ sent (simpledmx true (Some 530)) = [(fixture, b)] /\ works lamp y ls y' tr /\ In (ORecv desk b) tr /\
  In (OCall (HUser 1) (PktDMX q)) tr /\ red (DMX_Data q).
Proof.
  destruct C88_ex as (w & G & yi & y & cn & b0 & _ & _ & _ & _ & V & _ & _ & Hc & _). assert (X : exists b, sent (simpledmx true (Some 530)) = [(fixture, b)]) by (eexists; reflexivity). destruct X as [b X].
  assert (I : In (fixture, b) (sent (simpledmx true (Some 530)))) by (rewrite X; left; reflexivity). destruct (C117_can_receive lamp y (Some 530) b V I) as (ls & y' & tr & W & R). pose proof W as [_ S C N Z].
  destruct (C117_received lamp y ls y' tr (Some 530) b 1 V S C N Z Hc) as (q & K1 & _ & _ & _ & _ & K2); [ intros K; vm_compute in K; discriminate K | exact I | exact R | ]. exists y, ls, y', tr, b, q. auto 10.
Qed.

Definition P_Simple_theorems := (C117_sends, C117_prints, C117_received, C117_can_receive, C117_unregistered, C117_ex, C117_node_ex).
Print Assumptions P_Simple_theorems.
