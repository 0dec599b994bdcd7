(** Properties C91 and C92: the programs in example/. *)
From Verif Require Import SysFacts SysScript P_Node P_Decode P_Encode P_Controller.
From stdpp Require Import base list gmap.
Open Scope N_scope.

(** * The polling program, example/poll/main.go *)
(** The goroutine of lines 43-59: in ReadFromUDP; at line 57, offering buf[:n] on the unbuffered channel. *)
Inductive reader := RRead | ROffer (n : nat).
(** The loop of lines 61-77: in select; got the slice buf[:n], not decoded yet; returned at line 75; died of a panic. *)
Inductive looper := LWait | LGot (n : nat) | LReturned | LCrashed.
(** buf of line 44 is one array for the whole run; a slice of it shares its bytes. *)
Record poller := mkPoller { B_buf : list N; B_reader : reader; B_main : looper }.
Definition buf_size : nat := N.to_nat 4096.
(** line 44, lines 41-63: the state when main enters its loop *)
Definition poller_init : poller := mkPoller (repeat 0 buf_size) RRead LWait.
(** lines 17-18: src; net.ResolveUDPAddr yields a 4 byte IP *)
Definition poll_localIP : list N := [2; 12; 12; 12].
Inductive pmove :=
| PRead (from d : list N)   (* ReadFromUDP returns; line 46 *)
| PReadErr                  (* lines 47-51 *)
| PHandOver                 (* lines 57 and 63 *)
| PDecode                   (* lines 64-71 *)
| PTimeout.                 (* lines 73-75 *)
Inductive pobs :=
| PSaw (from d : list N)    (* line 52 *)
| PBadRead | PBadPacket     (* lines 48, 66 *)
| PGot (cfg : NodeConfig)   (* line 70 *)
| PCrash                    (* panic in line 69 *)
| PEnd.
(** ReadFromUDP fills the beginning of the buffer; a longer datagram is cut off. *)
Definition into (buf d : list N) : list N := firstn (length buf) d ++ skipn (length d) buf.
(** Decoding (lines 64-71) is one step here: it reads the buffer as it is at one moment. The type assertion in line 69 panics for every other packet type. *)
Definition decode_print (b : list N) : looper * pobs :=
  match Unmarshal b with
  | Ret (_, Some _) => (LWait, PBadPacket)
  | Ret (Some (PktPollReply p), None) => match ConfigFromArtPollReply p with Ret cfg => (LWait, PGot cfg) | Panic => (LCrashed, PCrash) end
  | _ => (LCrashed, PCrash)
  end.
Definition pstep (s : poller) (m : pmove) : option (poller * list pobs) :=
  match B_main s with
  | LReturned | LCrashed => None     (* the process has ended *)
  | _ =>
    match m, B_reader s, B_main s with
    | PRead from d, RRead, _ =>
        Some (mkPoller (into (B_buf s) d) (if IP_Equal from poll_localIP then RRead else ROffer (Nat.min (length (B_buf s)) (length d))) (B_main s), [PSaw from d])
    | PReadErr, RRead, _ => Some (s, [PBadRead])
    | PHandOver, ROffer n, LWait => Some (mkPoller (B_buf s) RRead (LGot n), [])
    | PDecode, _, LGot n => let (l, o) := decode_print (firstn n (B_buf s)) in Some (mkPoller (B_buf s) (B_reader s) l, [o])
    | PTimeout, _, LWait => Some (mkPoller (B_buf s) (B_reader s) LReturned, [PEnd])
    | _, _, _ => None
    end
  end.
Definition pmove_ok (m : pmove) : Prop := match m with PRead _ d => bytes_ok d | _ => True end.
Inductive pruns : poller -> list pobs -> Prop :=
| pruns_init : pruns poller_init []
| pruns_step s T m s' o : pruns s T -> pmove_ok m -> pstep s m = Some (s', o) -> pruns s' (T ++ o).

Lemma pstep_cases s m s' o : pstep s m = Some (s', o) ->
  (exists from d, m = PRead from d /\ B_reader s = RRead /\ s' = mkPoller (into (B_buf s) d) (if IP_Equal from poll_localIP then RRead else ROffer (Nat.min (length (B_buf s)) (length d))) (B_main s) /\
     o = [PSaw from d] /\ (B_main s = LWait \/ exists n, B_main s = LGot n)) \/
  (s' = s /\ o = [PBadRead]) \/
  (exists n, B_reader s = ROffer n /\ B_main s = LWait /\ s' = mkPoller (B_buf s) RRead (LGot n) /\ o = []) \/
  (exists n, B_main s = LGot n /\ s' = mkPoller (B_buf s) (B_reader s) (fst (decode_print (firstn n (B_buf s)))) /\ o = [snd (decode_print (firstn n (B_buf s)))]) \/
  (B_main s = LWait /\ s' = mkPoller (B_buf s) (B_reader s) LReturned /\ o = [PEnd]).
Proof.
  intros H. unfold pstep in H. destruct (B_main s) as [|n| |] eqn:Em; try discriminate H; destruct m as [from d| | | |]; try discriminate H; destruct (B_reader s) as [|k] eqn:Er; try discriminate H;
    try (destruct (decode_print (firstn n (B_buf s))) as [l ob] eqn:Ed); injection H as <- <-; eauto 12.
  - right. right. right. left. exists n. rewrite Ed. auto.
  - right. right. right. left. exists n. rewrite Ed. auto.
Qed.
Lemma into_length buf d : length (into buf d) = length buf.
Proof. unfold into. rewrite app_length, firstn_length, skipn_length. lia. Qed.
Lemma pruns_size s T : pruns s T -> length (B_buf s) = buf_size.
Proof.
  induction 1 as [|s T m s' o R IH _ E]; [ apply repeat_length | ]. apply pstep_cases in E.
  destruct E as [(from & d & _ & _ & -> & _)|[(-> & _)|[(n & _ & _ & -> & _)|[(n & _ & -> & _)|(_ & -> & _)]]]]; cbn [B_buf]; try exact IH. rewrite into_length. exact IH.
Qed.
Lemma pruns_bytes s T : pruns s T -> bytes_ok (B_buf s).
Proof.
  induction 1 as [|s T m s' o R IH Hm E]; [ apply List.Forall_forall; intros x Hx; apply repeat_spec in Hx; subst x; unfold byte_ok; lia | ]. apply pstep_cases in E.
  destruct E as [(from & d & -> & _ & -> & _)|[(-> & _)|[(n & _ & _ & -> & _)|[(n & _ & -> & _)|(_ & -> & _)]]]]; cbn [B_buf]; try exact IH.
  unfold into. apply Forall_app_2; [ apply Forall_take; exact Hm | apply Forall_drop; exact IH ].
Qed.

(** * C91 *)
(** Someone else polls while the program waits: it dies. *)
Definition prun (ms : list pmove) : option (poller * list pobs) := fold_left (fun r m => match r with Some (s, T) => match pstep s m with Some (s', o) => Some (s', T ++ o) | None => None end | None => None end) ms (Some (poller_init, [])).
Lemma prun_runs ms s T : Forall pmove_ok ms -> prun ms = Some (s, T) -> pruns s T.
Proof.
  revert s T. induction ms as [|m ms IH] using rev_ind; intros s T Hm H; [ injection H as <- <-; constructor | ].
  apply Forall_app in Hm. destruct Hm as [H1 H2]. unfold prun in H. rewrite fold_left_app in H. cbn [fold_left] in H. fold (prun ms) in H. destruct (prun ms) as [[s0 T0]|]; [ | discriminate H ].
  destruct (pstep s0 m) as [[s1 o]|] eqn:E; [ | discriminate H ]. injection H as <- <-. apply (pruns_step s0 T0 m); [ apply IH; [ exact H1 | reflexivity ] | apply Forall_inv in H2; exact H2 | exact E ].
Qed.
Definition other_host : list N := [2; 0; 0; 7].
Theorem C91_poll_kills_refuted : exists s, pruns s [PSaw other_host SysScript.poll_bytes; PCrash].
Proof.
  destruct (prun [PRead other_host SysScript.poll_bytes; PHandOver; PDecode]) as [[s T]|] eqn:E; [ | vm_compute in E; discriminate E ]. exists s.
  replace [PSaw other_host SysScript.poll_bytes; PCrash] with T; [ eapply prun_runs; [ | exact E ] | ].
  - repeat (constructor; [ first [ exact I | apply bytes_okb; vm_compute; reflexivity ] | ]). constructor.
  - assert (K : option_map snd (prun [PRead other_host SysScript.poll_bytes; PHandOver; PDecode]) = Some [PSaw other_host SysScript.poll_bytes; PCrash]) by (vm_compute; reflexivity). rewrite E in K. injection K as ->. reflexivity.
Qed.

(** Even if all other hosts only send ArtPollReply packets: the program's own poll, which it receives too, can overwrite a reply before it is decoded. *)
Definition a_reply : list N := packet_bytes (PktPollReply (one_port 1 7)).
Definition kill_by_own : list pmove := [PRead other_host a_reply; PHandOver; PRead poll_localIP SysScript.poll_bytes; PDecode].
Theorem C91_own_poll_kills_refuted : exists s, pruns s [PSaw other_host a_reply; PSaw poll_localIP SysScript.poll_bytes; PCrash] /\ exists p, Unmarshal a_reply = Ret (Some (PktPollReply p), None).
Proof.
  destruct (prun kill_by_own) as [[s T]|] eqn:E; [ | vm_compute in E; discriminate E ]. exists s. split.
  - replace [PSaw other_host a_reply; PSaw poll_localIP SysScript.poll_bytes; PCrash] with T; [ eapply prun_runs; [ | exact E ] | ].
    + repeat (constructor; [ first [ exact I | apply bytes_okb; vm_compute; reflexivity ] | ]). constructor.
    + assert (K : option_map snd (prun kill_by_own) = Some [PSaw other_host a_reply; PSaw poll_localIP SysScript.poll_bytes; PCrash]) by (vm_compute; reflexivity). rewrite E in K. injection K as ->. reflexivity.
  - eexists. vm_compute. reflexivity.
Qed.
(** As long as everything received, own datagrams included, starts like an ArtPollReply, the program survives. Missing: any other traffic. *)
Definition reply_start : list N := [65; 114; 116; 45; 78; 101; 116; 0; 0; 0x21].
Lemma into_start buf d : (10 <= length buf)%nat -> firstn 10 d = reply_start -> firstn 10 (into buf d) = reply_start.
Proof.
  intros Hb Hd. unfold into. assert (Hl : (10 <= length d)%nat). { apply (f_equal length) in Hd. rewrite firstn_length in Hd. change (length reply_start) with 10%nat in Hd. lia. }
  rewrite firstn_app, firstn_firstn, firstn_length. replace (10 - Nat.min (length buf) (length d))%nat with 0%nat by lia. cbn [firstn]. rewrite app_nil_r.
  replace (Nat.min 10 (length buf)) with 10%nat by lia. exact Hd.
Qed.
Lemma start_opcode b n : firstn 10 b = reply_start -> (10 <= n)%nat -> wire_opcode (firstn n b) = 0x2100.
Proof.
  intros H Hn. unfold wire_opcode. assert (K : firstn 10 (firstn n b) = reply_start) by (rewrite firstn_firstn, Nat.min_l by exact Hn; exact H).
  generalize dependent (firstn n b). intros c K. do 10 (destruct c as [|? c]; [ discriminate K | ]). cbn in K. injection K as _ _ _ _ _ _ _ _ -> ->. reflexivity.
Qed.
Lemma decode_reply b : bytes_ok b -> wire_opcode b = 0x2100 -> fst (decode_print b) = LWait /\ snd (decode_print b) <> PCrash.
Proof.
  intros Hb Ho. unfold decode_print. destruct (C13_unmarshal_total b) as (r & e & E). rewrite E. destruct e as [e|].
  - destruct r as [[]|]; cbn; split; try reflexivity; discriminate.
  - destruct r as [r|].
    + apply Unmarshal_accepts in E; [ | exact Hb ]. pose proof (accepts_opcode _ _ E) as Hop. rewrite Ho in Hop. destruct (accepted_wf _ _ Hb E) as [Hwf _].
      destruct r as [q|q|q|q|q|q|q|q|q|q|q|q]; try (exfalso; inversion E; subst; vm_compute in Hop; discriminate Hop).
      destruct (reply_config q Hwf) as (cfg & -> & _). cbn. split; [ reflexivity | discriminate ].
    + exfalso. assert (X : exists o e, Unmarshal b = Ret (o, e)) by eauto. clear X. destruct (C14_spec_is_a_partition b Hb) as [[(p & Hp & _) _]|[(e & He & _) _]].
      * apply Unmarshal_accepts in Hp; [ congruence | exact Hb ].
      * apply Unmarshal_rejects in He; [ destruct He as [o Ho']; congruence | exact Hb ].
Qed.
Theorem C91_survives_partial : forall s T, pruns s T -> (forall from d, In (PSaw from d) T -> firstn 10 d = reply_start) -> ~ In PCrash T.
Proof.
  intros s T R.
  cut ((forall from d, In (PSaw from d) T -> firstn 10 d = reply_start) -> ~ In PCrash T /\ B_main s <> LCrashed /\
    (forall n, B_reader s = ROffer n \/ B_main s = LGot n -> (10 <= n)%nat /\ firstn 10 (B_buf s) = reply_start)); [ intros H K; exact (proj1 (H K)) | ].
  induction R as [|s T m s' o R IH Hm E]; intros Hall.
  - split; [ intros [] | ]. split; [ discriminate | ]. intros n [K|K]; discriminate K.
  - destruct IH as (I1 & I2 & I3); [ intros from d K; apply (Hall from d); apply in_or_app; left; exact K | ].
    pose proof (pruns_size _ _ R) as Hs. pose proof (pruns_bytes _ _ R) as Hb. apply pstep_cases in E.
    destruct E as [(from & d & -> & Er & -> & -> & Hmain)|[(-> & ->)|[(n & Er & Em & -> & ->)|[(n & Em & -> & ->)|(Em & -> & ->)]]]].
    + assert (Hd : firstn 10 d = reply_start) by (apply (Hall from d); apply in_or_app; right; left; reflexivity).
      assert (Hi : firstn 10 (into (B_buf s) d) = reply_start) by (apply into_start; [ rewrite Hs; apply Nat.leb_le; vm_compute; reflexivity | exact Hd ]).
      split; [ intros K; apply in_app_or in K; destruct K as [K|[K|[]]]; [ exact (I1 K) | discriminate K ] | ]. cbn [B_main B_reader B_buf]. split; [ exact I2 | ]. intros n K. split; [ | exact Hi ].
      destruct K as [K|K]; [ | exact (proj1 (I3 n (or_intror K))) ]. destruct (IP_Equal from poll_localIP); [ discriminate K | ]. injection K as <-.
      assert ((10 <= length d)%nat) by (apply (f_equal length) in Hd; rewrite firstn_length in Hd; change (length reply_start) with 10%nat in Hd; lia). assert ((10 <= buf_size)%nat) by (apply Nat.leb_le; vm_compute; reflexivity). lia.
    + split; [ intros K; apply in_app_or in K; destruct K as [K|[K|[]]]; [ exact (I1 K) | discriminate K ] | ]. split; [ exact I2 | exact I3 ].
    + rewrite app_nil_r. split; [ exact I1 | ]. cbn [B_main B_reader B_buf]. split; [ discriminate | ]. intros k [K|K]; [ discriminate K | ]. injection K as <-. exact (I3 n (or_introl Er)).
    + destruct (I3 n (or_intror Em)) as [Hn Hbuf]. destruct (decode_reply (firstn n (B_buf s))) as [D1 D2]; [ apply Forall_take; exact Hb | apply start_opcode; assumption | ].
      split; [ intros K; apply in_app_or in K; destruct K as [K|[K|[]]]; [ exact (I1 K) | exact (D2 K) ] | ]. cbn [B_main B_reader B_buf]. rewrite D1. split; [ discriminate | ].
      intros k [K|K]; [ exact (I3 k (or_introl K)) | discriminate K ].
    + split; [ intros K; apply in_app_or in K; destruct K as [K|[K|[]]]; [ exact (I1 K) | discriminate K ] | ]. cbn [B_main B_reader B_buf]. split; [ discriminate | ].
      intros k [K|K]; [ exact (I3 k (or_introl K)) | discriminate K ].
Qed.
Definition good_poll : list pmove := [PRead other_host a_reply; PHandOver; PDecode; PTimeout].
Example C91_ex : exists s cfg, pruns s [PSaw other_host a_reply; PGot cfg; PEnd] /\ firstn 10 a_reply = reply_start.
Proof.
  destruct (prun good_poll) as [[s T]|] eqn:E; [ | vm_compute in E; discriminate E ].
  assert (K : exists cfg, option_map snd (prun good_poll) = Some [PSaw other_host a_reply; PGot cfg; PEnd]) by (eexists; vm_compute; reflexivity). destruct K as (cfg & K). rewrite E in K. injection K as ->.
  exists s, cfg. split; [ eapply prun_runs; [ | exact E ] | vm_compute; reflexivity ]. repeat (constructor; [ first [ exact I | apply bytes_okb; vm_compute; reflexivity ] | ]). constructor.
Qed.

(** * C92 *)
(** The datagram d (its first 4096 bytes) is an ArtPollReply from which this configuration is read. *)
Definition announced (d : list N) (cfg : NodeConfig) : Prop := exists p, Unmarshal (firstn buf_size d) = Ret (Some (PktPollReply p), None) /\ ConfigFromArtPollReply p = Ret cfg.
(** Two hosts answer, the second datagram is cut short: the program shows a node that does not exist, with the address of the second and the ports of the first. *)
Definition b_reply : list N := packet_bytes (PktPollReply (two_ports 2 8 9)).
Definition mixing : list pmove := [PRead other_host a_reply; PHandOver; PRead [2; 0; 0; 8] (firstn 14 b_reply); PDecode].
Theorem C92_mixture_refuted : exists s T cfg, pruns s (T ++ [PGot cfg]) /\ C_IP cfg = [10; 0; 0; 2] /\ addresses (C_OutputPorts cfg) = [(0, 7)] /\ forall from d, In (PSaw from d) T -> ~ announced d cfg.
Proof.
  destruct (prun mixing) as [[s T]|] eqn:E; [ | vm_compute in E; discriminate E ].
  assert (K : exists cfg, option_map snd (prun mixing) = Some [PSaw other_host a_reply; PSaw [2; 0; 0; 8] (firstn 14 b_reply); PGot cfg] /\ C_IP cfg = [10; 0; 0; 2] /\ addresses (C_OutputPorts cfg) = [(0, 7)]) by (eexists; vm_compute; auto).
  destruct K as (cfg & K & K1 & K2). rewrite E in K. injection K as ->. exists s, [PSaw other_host a_reply; PSaw [2; 0; 0; 8] (firstn 14 b_reply)], cfg. split; [ | split; [ exact K1 | split; [ exact K2 | ] ] ].
  - eapply prun_runs; [ | exact E ]. repeat (constructor; [ first [ exact I | apply bytes_okb; vm_compute; reflexivity ] | ]). constructor.
  - intros from d [H|[H|[]]] (p & Hp & Hc); injection H as <- <-.
    + vm_compute in Hp. injection Hp as <-. vm_compute in Hc. injection Hc as <-. vm_compute in K1. discriminate K1.
    + vm_compute in Hp. discriminate Hp.
Qed.
(** What is shown in general: byte k of the decoded slice is byte k of the latest datagram that has one. *)
Definition seen (T : list pobs) : list (list N) := omap (fun o => match o with PSaw _ d => Some d | _ => None end) T.
Definition byte_at (ds : list (list N)) (k : nat) : N := fold_left (fun b d => if (k <? length d)%nat then nth k d 0 else b) ds 0.
Lemma byte_at_snoc ds d k : byte_at (ds ++ [d]) k = if (k <? length d)%nat then nth k d 0 else byte_at ds k.
Proof. unfold byte_at. rewrite fold_left_app. reflexivity. Qed.
Lemma seen_app a b : seen (a ++ b) = seen a ++ seen b. Proof. apply omap_app. Qed.
Lemma pruns_buf s T : pruns s T -> forall k, (k < buf_size)%nat -> nth k (B_buf s) 0 = byte_at (seen T) k.
Proof.
  induction 1 as [|s T m s' o R IH Hm E]; intros k Hk.
  - unfold poller_init. cbn [B_buf]. rewrite nth_repeat. reflexivity.
  - pose proof (pruns_size _ _ R) as Hs. rewrite seen_app. apply pstep_cases in E.
    destruct E as [(from & d & -> & Er & -> & -> & Hmain)|[(-> & ->)|[(n & Er & Em & -> & ->)|[(n & Em & -> & ->)|(Em & -> & ->)]]]]; cbn [B_buf].
    + cbn [seen omap list_omap]. rewrite byte_at_snoc, <- IH by exact Hk. unfold into. destruct (Nat.ltb_spec k (length d)) as [L|L].
      * rewrite app_nth1 by (rewrite firstn_length, Hs; lia). clear -Hk Hs L. rewrite <- Hs in Hk. revert d L Hk. generalize (length (B_buf s)). revert k.
        induction k as [|k IH]; intros n d L Hk; destruct d as [|x d]; cbn in L; try lia; (destruct n as [|n]; [ lia | ]); cbn; [ reflexivity | apply IH; lia ].
      * rewrite app_nth2 by (rewrite firstn_length; lia). rewrite firstn_length, Hs, Nat.min_r by lia. rewrite <- (firstn_skipn (length d) (B_buf s)) at 2.
        rewrite app_nth2 by (rewrite firstn_length; lia). rewrite firstn_length, Hs, Nat.min_l by lia. reflexivity.
    + change (seen [PBadRead]) with (@nil (list N)). rewrite app_nil_r. exact (IH k Hk).
    + change (seen []) with (@nil (list N)). rewrite app_nil_r. exact (IH k Hk).
    + assert (Z : seen [snd (decode_print (firstn n (B_buf s)))] = []).
      { unfold decode_print. destruct (Unmarshal _) as [[[[]|] [|]]|]; try reflexivity. destruct (ConfigFromArtPollReply _); reflexivity. }
      rewrite Z, app_nil_r. exact (IH k Hk).
    + change (seen [PEnd]) with (@nil (list N)). rewrite app_nil_r. exact (IH k Hk).
Qed.
Lemma nth_list (l : list N) (f : nat -> N) : (forall k, (k < length l)%nat -> nth k l 0 = f k) -> l = map f (seq 0 (length l)).
Proof.
  intros H. apply (nth_ext _ _ 0 0); [ rewrite map_length, seq_length; reflexivity | ]. intros k Hk. rewrite (H k Hk).
  rewrite nth_indep with (d' := f 0%nat) by (rewrite map_length, seq_length; exact Hk). rewrite map_nth, seq_nth by exact Hk. reflexivity.
Qed.
Lemma firstn_map_seq s T n : pruns s T -> (n <= buf_size)%nat -> firstn n (B_buf s) = map (byte_at (seen T)) (seq 0 n).
Proof.
  intros R Hn. pose proof (pruns_size _ _ R) as Hs. assert (L : length (firstn n (B_buf s)) = n) by (rewrite firstn_length; lia).
  rewrite (nth_list (firstn n (B_buf s)) (byte_at (seen T))); [ rewrite L; reflexivity | ]. rewrite L. intros k Hk. rewrite <- (pruns_buf _ _ R k) by lia.
  rewrite <- (firstn_skipn n (B_buf s)) at 2. rewrite app_nth1 by lia. reflexivity.
Qed.
Lemma print_got b l cfg : decode_print b = (l, PGot cfg) -> exists p, Unmarshal b = Ret (Some (PktPollReply p), None) /\ ConfigFromArtPollReply p = Ret cfg.
Proof.
  unfold decode_print. destruct (Unmarshal b) as [[[[]|] [|]]|]; try discriminate. destruct (ConfigFromArtPollReply p) as [c|] eqn:E; [ | discriminate ]. intros [= <- <-]. eauto.
Qed.
Definition pending_slice (s : poller) (n : nat) : Prop := B_reader s = ROffer n \/ B_main s = LGot n.
Lemma pending_seen s T n : pruns s T -> pending_slice s n -> exists from d, In (PSaw from d) T /\ IP_Equal from poll_localIP = false /\ n = Nat.min buf_size (length d).
Proof.
  intros R. revert n. induction R as [|s T m s' o R IH Hm E]; intros n Hp.
  - destruct Hp as [H|H]; discriminate H.
  - pose proof (pruns_size _ _ R) as Hs. assert (K : forall k, pending_slice s k -> exists from d, In (PSaw from d) (T ++ o) /\ IP_Equal from poll_localIP = false /\ k = Nat.min buf_size (length d)).
    { intros k Hk. destruct (IH k Hk) as (from & d & H & H'). exists from, d. split; [ apply in_or_app; left; exact H | exact H' ]. }
    unfold pending_slice in *. apply pstep_cases in E. destruct E as [(from & d & -> & Er & -> & -> & Hmain)|[(-> & ->)|[(k & Er & Em & -> & ->)|[(k & Em & -> & ->)|(Em & -> & ->)]]]]; cbn [B_reader B_main] in Hp.
    + destruct Hp as [H|H]; [ | exact (K n (or_intror H)) ]. destruct (IP_Equal from poll_localIP) eqn:Eq; [ discriminate H | ]. injection H as <-. rewrite Hs.
      exists from, d. split; [ apply in_or_app; right; left; reflexivity | auto ].
    + exact (K n Hp).
    + destruct Hp as [H|H]; [ discriminate H | ]. injection H as <-. exact (K k (or_introl Er)).
    + destruct Hp as [H|H]; [ exact (K n (or_introl H)) | ]. exfalso. revert H. unfold decode_print. destruct (Unmarshal _) as [[[[]|] [|]]|]; cbn; try discriminate. destruct (ConfigFromArtPollReply _); cbn; discriminate.
    + destruct Hp as [H|H]; [ exact (K n (or_introl H)) | discriminate H ].
Qed.
Lemma got_step s T m s' o cfg : pruns s T -> pstep s m = Some (s', o) -> In (PGot cfg) o -> o = [PGot cfg] /\ exists n, B_main s = LGot n /\ exists p, Unmarshal (firstn n (B_buf s)) = Ret (Some (PktPollReply p), None) /\ ConfigFromArtPollReply p = Ret cfg.
Proof.
  intros R E H. apply pstep_cases in E. destruct E as [(from & d & -> & Er & -> & -> & Hmain)|[(-> & ->)|[(k & Er & Em & -> & ->)|[(k & Em & -> & ->)|(Em & -> & ->)]]]];
    cbn in H; try (destruct H as [H|H]; [ try discriminate H | contradiction ]); try contradiction.
  split; [ rewrite H; reflexivity | ]. exists k. split; [ exact Em | ]. eapply print_got. rewrite <- H. apply surjective_pairing.
Qed.
Lemma got_at s T cfg : pruns s T -> forall T1 T2, T = T1 ++ PGot cfg :: T2 -> exists s0 n p, pruns s0 T1 /\ B_main s0 = LGot n /\ Unmarshal (firstn n (B_buf s0)) = Ret (Some (PktPollReply p), None) /\ ConfigFromArtPollReply p = Ret cfg.
Proof.
  induction 1 as [|s T m s' o R IH Hm E]; intros T1 T2 H; [ destruct T1; discriminate H | ]. apply app_cons_split in H. destruct H as [(T2' & -> & ->)|(T1' & -> & ->)]; [ eapply IH; reflexivity | ].
  destruct (got_step _ _ _ _ _ cfg R E) as (Ho & n & Hn & p & Hp); [ apply in_or_app; right; left; reflexivity | ].
  destruct T1' as [|z T1']; [ | destruct T1'; discriminate Ho ]. rewrite app_nil_r. exists s, n, p. auto.
Qed.
Theorem C92_shown_partial : forall s T1 cfg T2, pruns s (T1 ++ PGot cfg :: T2) ->
  exists from d p, In (PSaw from d) T1 /\ IP_Equal from poll_localIP = false /\
    Unmarshal (map (byte_at (seen T1)) (seq 0 (Nat.min buf_size (length d)))) = Ret (Some (PktPollReply p), None) /\ ConfigFromArtPollReply p = Ret cfg.
Proof.
  intros s T1 cfg T2 R. destruct (got_at _ _ _ R T1 T2 eq_refl) as (s0 & n & p & R0 & Hn & Hu & Hc). destruct (pending_seen _ _ n R0 (or_intror Hn)) as (from & d & H1 & H2 & ->).
  exists from, d, p. split; [ exact H1 | ]. split; [ exact H2 | ]. split; [ | exact Hc ]. rewrite <- (firstn_map_seq s0 T1) by (try exact R0; lia). exact Hu.
Qed.
(** If nothing arrives between an answer and its decoding, what is shown is what was received last. *)
Definition is_decoding (o : pobs) : Prop := match o with PGot _ | PBadPacket | PCrash => True | _ => False end.
Definition spaced (T : list pobs) : Prop := forall a from d b from' d' c, T = a ++ PSaw from d :: b ++ PSaw from' d' :: c -> IP_Equal from poll_localIP = false -> exists o, In o b /\ is_decoding o.
Definition waiting (s : poller) (T : list pobs) (n : nat) : Prop := exists T0 from d b, T = T0 ++ PSaw from d :: b /\ (forall o, In o b -> ~ is_decoding o /\ forall f e, o <> PSaw f e) /\
  IP_Equal from poll_localIP = false /\ n = Nat.min buf_size (length d) /\ firstn n (B_buf s) = firstn buf_size d.
Lemma waiting_more s T n s' o : waiting s T n -> B_buf s' = B_buf s -> (forall b, In b o -> ~ is_decoding b /\ forall f e, b <> PSaw f e) -> waiting s' (T ++ o) n.
Proof.
  intros (T0 & from & d & b & -> & Hb & H1 & H2 & H3) Es Ho. exists T0, from, d, (b ++ o). rewrite Es, <- app_assoc. split; [ reflexivity | ]. split; [ | auto ].
  intros x Hx. apply in_app_or in Hx. destruct Hx as [Hx|Hx]; [ exact (Hb x Hx) | exact (Ho x Hx) ].
Qed.
Lemma spaced_prefix T o : spaced (T ++ o) -> spaced T.
Proof. intros H a from d b from' d' c -> Hf. eapply (H a from d b from' d' (c ++ o)); [ | exact Hf ]. rewrite <- app_assoc. cbn. rewrite <- app_assoc. reflexivity. Qed.
Lemma spaced_waiting s T : pruns s T -> spaced T -> (forall n, pending_slice s n -> waiting s T n) /\ forall n k, B_reader s = ROffer n -> B_main s = LGot k -> False.
Proof.
  unfold pending_slice. induction 1 as [|s T m s' o R IH Hm E]; intros Hsp; [ split; [ intros n [K|K]; discriminate K | discriminate ] | ].
  destruct (IH (spaced_prefix _ _ Hsp)) as [I1 I2]. pose proof (pruns_size _ _ R) as Hs. apply pstep_cases in E.
  destruct E as [(from & d & -> & Er & -> & -> & Hmain)|[(-> & ->)|[(k & Er & Em & -> & ->)|[(k & Em & -> & ->)|(Em & -> & ->)]]]]; cbn [B_reader B_main].
  - assert (Hw : B_main s = LWait).
    { destruct Hmain as [H|[n H]]; [ exact H | ]. exfalso. destruct (I1 n (or_intror H)) as (T0 & f & e & b & -> & Hb & Hf & _).
      destruct (Hsp T0 f e b from d []) as (x & Hx & Hd); [ rewrite <- app_assoc; reflexivity | exact Hf | ]. exact (proj1 (Hb x Hx) Hd). }
    rewrite Hw. split; [ | discriminate ]. intros n [K|K]; [ | discriminate K ]. destruct (IP_Equal from poll_localIP) eqn:Eq; [ discriminate K | ]. injection K as <-.
    exists T, from, d, []. split; [ reflexivity | ]. split; [ intros x [] | ]. split; [ exact Eq | ]. rewrite Hs. split; [ reflexivity | ]. cbn [B_buf]. unfold into. rewrite Hs.
    rewrite firstn_app, firstn_firstn, firstn_length. replace (Nat.min buf_size (length d) - Nat.min buf_size (length d))%nat with 0%nat by lia. cbn [firstn]. rewrite app_nil_r.
    destruct (Nat.le_ge_cases buf_size (length d)); [ f_equal; lia | ]. rewrite !firstn_all2 by lia. reflexivity.
  - split; [ | exact I2 ]. intros n K. eapply waiting_more; [ exact (I1 n K) | reflexivity | ]. intros b [<-|[]]. split; [ intros [] | discriminate ].
  - split; [ | discriminate ]. intros n [K|K]; [ discriminate K | ]. injection K as <-. eapply waiting_more; [ exact (I1 k (or_introl Er)) | reflexivity | intros b [] ].
  - assert (Hr : forall n, B_reader s <> ROffer n) by (intros n K; exact (I2 n k K Em)).
    assert (Hd : forall n, fst (decode_print (firstn k (B_buf s))) <> LGot n).
    { intros n. unfold decode_print. destruct (Unmarshal _) as [[[[]|] [|]]|]; cbn; try discriminate. destruct (ConfigFromArtPollReply _); cbn; discriminate. }
    split; [ intros n [K|K]; exfalso; [ exact (Hr n K) | exact (Hd n K) ] | intros n j K _; exact (Hr n K) ].
  - split; [ | discriminate ]. intros n [K|K]; [ | discriminate K ]. eapply waiting_more; [ exact (I1 n (or_introl K)) | reflexivity | ]. intros b [<-|[]]. split; [ intros [] | discriminate ].
Qed.
Theorem C92_spaced_partial : forall s T1 cfg T2, pruns s (T1 ++ PGot cfg :: T2) -> spaced (T1 ++ PGot cfg :: T2) ->
  exists T0 from d b, T1 = T0 ++ PSaw from d :: b /\ IP_Equal from poll_localIP = false /\ announced d cfg /\ seen b = [].
Proof.
  intros s T1 cfg T2 R Hsp. destruct (got_at _ _ _ R T1 T2 eq_refl) as (s0 & n & p & R0 & Hn & Hu & Hc).
  destruct (proj1 (spaced_waiting _ _ R0 (spaced_prefix _ _ Hsp)) n (or_intror Hn)) as (T0 & from & d & b & -> & Hb & Hf & -> & Hbuf). exists T0, from, d, b. split; [ reflexivity | ]. split; [ exact Hf | ].
  split; [ exists p; rewrite <- Hbuf; auto | ]. clear -Hb. induction b as [|o b IH]; [ reflexivity | ]. destruct o as [f e| | | | |]; try (apply IH; intros x Hx; apply Hb; right; exact Hx). exfalso. exact (proj2 (Hb _ (or_introl eq_refl)) f e eq_refl).
Qed.
Example C92_ex : exists s cfg, pruns s ([PSaw other_host a_reply] ++ PGot cfg :: [PEnd]) /\ spaced ([PSaw other_host a_reply] ++ PGot cfg :: [PEnd]).
Proof.
  destruct C91_ex as (s & cfg & R & _). exists s, cfg. split; [ exact R | ]. intros a from d b from' d' c H. exfalso. assert (K : length (seen ([PSaw other_host a_reply] ++ PGot cfg :: [PEnd])) = 1%nat) by reflexivity.
  rewrite H in K. rewrite seen_app in K. change (PSaw from d :: b ++ PSaw from' d' :: c) with ([PSaw from d] ++ b ++ [PSaw from' d'] ++ c) in K. rewrite !seen_app, !app_length in K. cbn in K. lia.
Qed.

(** * What the programs send *)
(** example/poll/main.go:26-27: &packet.ArtPollPacket\{\} *)
Definition example_poll : res (list N) := snd (Poll_MarshalBinary NewArtPollPacket).
(** example/simpledmx/main.go:26-33 *)
Definition example_dmx : res (list N) := snd (DMX_MarshalBinary (mkDMX Header_zero 1 0 0 0 0 ([0xff; 0; 0; 0xff; 0] ++ zeros 507))).
(** A test, not a proof: ArtPoll without flags; universe 0 with channels 1 and 4 at full level, all 512 channels sent. *)
Example datagrams_ex : example_poll = Ok ([65; 114; 116; 45; 78; 101; 116; 0; 0; 0x20; 0; 14; 0; 0]) /\
  example_dmx = Ok ([65; 114; 116; 45; 78; 101; 116; 0; 0; 0x50; 0; 14; 1; 0; 0; 0; 2; 0; 0xff; 0; 0; 0xff] ++ repeat 0 508).
Proof. split; vm_compute; reflexivity. Qed.

Definition P_Example_theorems := (C91_poll_kills_refuted, C91_own_poll_kills_refuted, C91_survives_partial, C91_ex, C92_mixture_refuted, C92_shown_partial, C92_spaced_partial, C92_ex).
Print Assumptions P_Example_theorems.
