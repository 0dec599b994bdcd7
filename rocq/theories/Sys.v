(** Model of the goroutines of /repo/node.go and /repo/controller.go as an executable interleaving
    semantics: Node.Start/Stop, pollReplyLoop, sendLoop, recvLoop and its reader, handlePacket and the
    callback registry; Controller.Start/Stop, pollLoop, dmxUpdateLoop, SendDMXToAddress; options.go.

    A state is the shared memory plus a list of threads (goroutines and pending API calls), each with a
    program counter. [tstep] performs one atomic step of one thread; the argument [choice] resolves what
    the Go program does not determine (which ready select case, what arrives on the socket, clock
    readings, map iteration order, ticks). [exec] runs a step of the whole system.

    Simplifications:
    - Memory is sequentially consistent; one step is one access to a channel, to a lock, to
      n.shutdown or to the socket, together with the local computation around it. Evaluating the channel
      operands of a select or send statement (n.sendCh etc. are fields that a later Start replaces) is a
      step of its own.
    - The five channels made by one Node.Start are one record, identified by the index of the Start
      ("generation"); n.sendCh etc. always refer to the last one. Likewise n.conn is the last socket
      opened. The buffered channels are FIFO lists of capacity 10.
    - Operations of the controller on its tables run under c.nodeLock without blocking and are one
      step each (Controller.v). dmxUpdateLoop blocks on sendCh while holding the lock: its effect on the
      tables is applied when it takes the lock (nobody else can look at them until it releases it) and
      the frames are then queued one by one. P_Atomic.v proves that doing the accesses of these
      sections one by one (Fine.v) makes no observable difference.
    - A ticker may fire at any time. Errors of the socket operations may occur at any time.
    - The node's Config is not changed after NewNode/NewController. A callback registered by the user is
      an observation; what it does is not modelled. Logging is dropped.
    - Queued payloads carry a ghost tag telling who queued them; observations ([obs]) are ghost too. *)
From Verif Require Export Controller.
From stdpp Require Import base list gmap.
Open Scope N_scope.

(** Go standard library, net.IP.Equal. *)
Definition v4InV6Prefix : list N := zeros 10 ++ [0xff; 0xff].
Definition IP_Equal (ip x : list N) : bool :=
  if len ip =? len x then eqbytes ip x
  else if (len ip =? 4) && (len x =? 16) then eqbytes (firstn 12 x) v4InV6Prefix && eqbytes ip (skipn 12 x)
  else if (len ip =? 16) && (len x =? 4) then eqbytes (firstn 12 ip) v4InV6Prefix && eqbytes (skipn 12 ip) x
  else false.

(** What does not change during the life of a node or controller: node.go:18-46, controller.go:82-101. *)
Record env := mkEnv {
  E_ctl : bool;               (* a Controller (with its private cNode) or a plain Node *)
  E_config : NodeConfig;      (* n.Config *)
  E_localIP : list N;         (* n.localAddr.IP *)
  E_listen : UDPAddr;         (* n.listenAddr *)
  E_nodeBroadcast : UDPAddr;  (* n.broadcastAddr *)
  E_ctlBroadcast : UDPAddr;   (* c.broadcastAddr *)
  E_maxFPS : Z                (* c.maxFPS *)
}.

(** controller.go:14-17 *)
Definition defaultBroadcastAddr : UDPAddr := ([0x02; 0xff; 0xff; 0xff], ArtNetPort).

(** node.go:57-60, 82: the Config of a new node, everything else zero. *)
Definition NewNode_config (name : list N) (style : N) (ip : list N) : NodeConfig :=
  mkConfig 0 0 0 [] style name [] [] ip [] 0 0 [] 0 0 (0, 0) [] [].
(** options.go:57-62, 65-70, 73-78 *)
Inductive NodeOption := NodeBroadcastAddress (a : UDPAddr) | NodeListenAddress (a : UDPAddr) | NodeListenIP (ip : list N).
Definition node_option (E : env) (o : NodeOption) : env :=
  match o with
  | NodeBroadcastAddress a => mkEnv (E_ctl E) (E_config E) (E_localIP E) (E_listen E) a (E_ctlBroadcast E) (E_maxFPS E)
  | NodeListenAddress a => mkEnv (E_ctl E) (E_config E) (E_localIP E) a (E_nodeBroadcast E) (E_ctlBroadcast E) (E_maxFPS E)
  | NodeListenIP ip => mkEnv (E_ctl E) (E_config E) (E_localIP E) (ip, ArtNetPort) (E_nodeBroadcast E) (E_ctlBroadcast E) (E_maxFPS E)
  end.
(** node.go:55-89. *)
Definition NewNode (name : list N) (style : N) (ip : list N) (opts : list NodeOption) : env :=
  fold_left node_option opts
    (mkEnv false (NewNode_config name style ip) ip ([], ArtNetPort) defaultBroadcastAddr defaultBroadcastAddr 0%Z).
(** options.go:18-23, 26-31, 35-39, 42-46 *)
Inductive Option := MaxFPS (fps : Z) | BroadcastAddr (a : UDPAddr) | ListenAddress (a : UDPAddr) | ListenIP (ip : list N).
Definition ctl_option (E : env) (o : Option) : env :=
  match o with
  | MaxFPS fps => mkEnv (E_ctl E) (E_config E) (E_localIP E) (E_listen E) (E_nodeBroadcast E) (E_ctlBroadcast E) fps
  | BroadcastAddr a => mkEnv (E_ctl E) (E_config E) (E_localIP E) (E_listen E) (E_nodeBroadcast E) a (E_maxFPS E)
  | ListenAddress a => node_option E (NodeListenAddress a)
  | ListenIP ip => node_option E (NodeListenIP ip)
  end.
(** controller.go:104-117: cNode is created without options. *)
Definition NewController_env (name ip : list N) (opts : list Option) : env :=
  let n := NewNode name StController ip [] in
  fold_left ctl_option opts
    (mkEnv true (E_config n) (E_localIP n) (E_listen n) (E_nodeBroadcast n) defaultBroadcastAddr 1000%Z).

(** Ghost: who queued a payload (pollReplyLoop, pollLoop, dmxUpdateLoop). *)
Inductive tag := KReply | KPoll | KDmx.

(** The channels made by one Node.Start, node.go:122-126: sendCh, recvCh (the data only; the address is
    used for logging), pollCh, pollReplyCh, and whether shutdownCh is closed. *)
Record chans := mkChans {
  Q_send : list (tag * payload);
  Q_recv : list (list N);
  Q_poll : list ArtPollPacket;
  Q_reply : list ArtPollReplyPacket;
  Q_closed : bool
}.
Definition new_chans : chans := mkChans [] [] [] [] false.
Definition set_send (c : chans) q := mkChans q (Q_recv c) (Q_poll c) (Q_reply c) (Q_closed c).
Definition set_recv (c : chans) q := mkChans (Q_send c) q (Q_poll c) (Q_reply c) (Q_closed c).
Definition set_poll (c : chans) q := mkChans (Q_send c) (Q_recv c) q (Q_reply c) (Q_closed c).
Definition set_reply (c : chans) q := mkChans (Q_send c) (Q_recv c) (Q_poll c) q (Q_closed c).
Definition set_closed (c : chans) := mkChans (Q_send c) (Q_recv c) (Q_poll c) (Q_reply c) true.

(** Capacity of the buffered channels, node.go:122-125. *)
Definition chan_cap : nat := 10.
(** ch <- x: blocks (None) when the buffer is full. *)
Definition push {A} (q : list A) (x : A) : option (list A) :=
  if (length q <? chan_cap)%nat then Some (q ++ [x]) else None.

(** A registered callback: one of the two built-in ones or the user's. *)
Inductive handler := HPoll | HPollReply | HUser (f : N).
Global Instance handler_eq_dec : EqDecision handler.
Proof. solve_decision. Defined.

(** Shared memory. *)
Record shared := mkShared {
  S_shutdown : bool;              (* n.shutdown *)
  S_shutdownErr : bool;           (* n.shutdownErr != nil *)
  S_gens : list chans;            (* channels of each Start; the last one is current *)
  S_conns : list bool;            (* sockets opened so far, true = open; n.conn is the last one *)
  S_callbacks : gmap N handler;   (* n.callbacks *)
  S_tables : Controller;
  S_lock : bool;                  (* c.nodeLock is held (by dmxUpdateLoop) *)
  S_cgens : list bool;            (* c.shutdownCh of each Controller.Start, true = closed *)
  S_tickers : bool                (* c.pollTicker, c.gcTicker != nil *)
}.
Definition with_shutdown (s : shared) b := mkShared b (S_shutdownErr s) (S_gens s) (S_conns s) (S_callbacks s) (S_tables s) (S_lock s) (S_cgens s) (S_tickers s).
Definition with_err (s : shared) b := mkShared (S_shutdown s) b (S_gens s) (S_conns s) (S_callbacks s) (S_tables s) (S_lock s) (S_cgens s) (S_tickers s).
Definition with_gens (s : shared) x := mkShared (S_shutdown s) (S_shutdownErr s) x (S_conns s) (S_callbacks s) (S_tables s) (S_lock s) (S_cgens s) (S_tickers s).
Definition with_conns (s : shared) x := mkShared (S_shutdown s) (S_shutdownErr s) (S_gens s) x (S_callbacks s) (S_tables s) (S_lock s) (S_cgens s) (S_tickers s).
Definition with_callbacks (s : shared) x := mkShared (S_shutdown s) (S_shutdownErr s) (S_gens s) (S_conns s) x (S_tables s) (S_lock s) (S_cgens s) (S_tickers s).
Definition with_tables (s : shared) x b := mkShared (S_shutdown s) (S_shutdownErr s) (S_gens s) (S_conns s) (S_callbacks s) x b (S_cgens s) (S_tickers s).
Definition with_cgens (s : shared) x := mkShared (S_shutdown s) (S_shutdownErr s) (S_gens s) (S_conns s) (S_callbacks s) (S_tables s) (S_lock s) x (S_tickers s).
Definition with_tickers (s : shared) := mkShared (S_shutdown s) (S_shutdownErr s) (S_gens s) (S_conns s) (S_callbacks s) (S_tables s) (S_lock s) (S_cgens s) true.

(** Index of the last element, None for the empty list (nil field). *)
Definition last_index {A} (l : list A) : option nat := match length l with O => None | S g => Some g end.
Definition upd_gen (s : shared) (g : nat) (c : chans) : shared := with_gens s (<[g := c]> (S_gens s)).
(** A flag in S_conns (socket c is open) or S_cgens (shutdown channel cg is closed). *)
Definition flag_at (l : list bool) (i : nat) : bool := match l !! i with Some b => b | None => false end.
Definition gen_closed (s : shared) (g : nat) : bool := match S_gens s !! g with Some c => Q_closed c | None => false end.

(** Program counters. [g] is the generation of a channel operand already evaluated, [b] the reader's
    buffer, [me] and [pb] the encoded ArtPollReply and ArtPoll packets. *)
Inductive thread :=
| TDone
(* node.go:146-179 pollReplyLoop *)
| PR_start                                             (* 149 *)
| PR_loop (me : list N)                                (* 158, evaluates n.pollCh, n.shutdownCh *)
| PR_wait (me : list N) (g : nat)                      (* 159 select *)
| PR_send (me : list N)                                (* 168, evaluates n.sendCh *)
| PR_sending (me : list N) (g : nat)                   (* 168 *)
(* node.go:182-203 sendLoop *)
| SL_loop | SL_wait (g : nat)                          (* 185 *)
| SL_check (x : tag * payload)                         (* 190 *)
| SL_write (x : tag * payload)                         (* 194 *)
(* node.go:247-270 recvLoop *)
| RL_start                                             (* 213 spawns the reader *)
| RL_loop | RL_wait (g : nat)                          (* 248 *)
| RL_parse (data : list N)                             (* 250 *)
(* node.go:213-244 reader *)
| RD_read (b : list N)                                 (* 216, evaluates n.conn *)
| RD_reading (b : list N) (c : nat)                    (* 216 *)
| RD_got (b : list N) (r : option (UDPAddr * nat))     (* 217; None: an error, from is nil *)
| RD_push (b data : list N)                            (* 242, evaluates n.recvCh *)
| RD_pushing (b data : list N) (g : nat)               (* 242 *)
(* node.go:274-305 handlers *)
| H_start (p : packet)                                 (* 275 *)
| H_poll (q : ArtPollPacket) | H_polling (q : ArtPollPacket) (g : nat)            (* 291 *)
| H_reply (q : ArtPollReplyPacket) | H_replying (q : ArtPollReplyPacket) (g : nat)  (* 303 *)
(* controller.go:152-210 pollLoop *)
| CP_start                                             (* 153 *)
| CP_send (pb : list N) | CP_sending (pb : list N) (g : nat)    (* 166, 177 *)
| CP_poll (pb : list N) | CP_polling (pb : list N) (g : nat)    (* 170, 181 *)
| CP_loop (pb : list N)                                (* 173 *)
| CP_wait (pb : list N) (g cg : nat)                   (* 174 *)
| CP_gc (pb : list N)                                  (* 185 *)
| CP_reply (pb : list N) (q : ArtPollReplyPacket)      (* 188-204 *)
(* controller.go:235-290 dmxUpdateLoop *)
| DL_start                                             (* 236 *)
| DL_loop | DL_wait (cg : nat)                         (* 259 *)
| DL_lock (now : Z)                                    (* 263 *)
| DL_push (fs : list payload)                          (* 264-283, 250 evaluates c.cNode.sendCh *)
| DL_pushing (f : payload) (fs : list payload) (g : nat)   (* 250 *)
(* API calls: controller.go:214-232 SendDMXToAddress *)
| U_send (dmx : list N) (a : Address)
(* controller.go:120-136, node.go:116-142 Start *)
| U_start_ctl | U_start_node | U_listen | U_start_loops
(* controller.go:139-149, node.go:97-107 Stop *)
| U_stop_ctl | U_flag | U_close | U_closeconn | U_waitclosed | U_closectl.

(** Observations. *)
Inductive obs :=
| ORecv (from : UDPAddr) (data : list N)       (* a datagram was read from the socket *)
| ODiscard (from : UDPAddr) (data : list N)    (* ... and discarded, because the node is stopped *)
| OParse (data : list N)                       (* packet.Unmarshal is called *)
| OSpawn (p : packet)                          (* go n.handlePacket(p) *)
| OCall (h : handler) (p : packet)             (* a callback is invoked *)
| OIgnore (p : packet)                         (* no callback is registered *)
| OPolled (q : ArtPollPacket)                  (* an ArtPoll is put on pollCh *)
| OQueuedReply (q : ArtPollReplyPacket)        (* an ArtPollReply is put on pollReplyCh *)
| OQueued (x : tag * payload)                  (* a payload is put on sendCh *)
| OTx (x : tag * payload)                      (* a datagram is transmitted *)
| ODrop (x : tag * payload)                    (* taken from sendCh but not transmitted *)
| OTable (s : Controller) (e : event) (out : list payload)   (* controller tables: state before, event *)
| OListen                                      (* a socket was opened *)
| OUp                                          (* Start set n.shutdown = false *)
| ODown                                        (* Stop set n.shutdown = true *)
| ORegister (op : N) (f : option N)            (* RegisterCallback (Some f) or DeregisterCallback (None) was called *)
| OStart (ok : bool)                           (* Start returned, ok = (err == nil) *)
| OStop                                        (* Stop returned *)
| OSend.                                       (* SendDMXToAddress returned *)

Inductive choice :=
| CGo                                          (* the normal continuation; a value was received *)
| CDown                                        (* select case of a shutdown channel *)
| CPollTick | CGcTick                          (* tickers of pollLoop *)
| CTime (now : Z)                              (* the dmx ticker fires at now; time.Now() = now *)
| CClock (clock : nat -> Z)
| COrder (order : list (Address * nid))
| CDatagram (from : UDPAddr) (data : list N)
| CErr.                                        (* a socket operation fails *)

Inductive outcome :=
| Blocked
| Crash
| Next (s : shared) (t : thread) (spawned : list thread) (o : list obs).

(** Evaluate a channel field and continue at [t g]; a nil channel blocks forever. *)
Definition eval_gen (s : shared) (t : nat -> thread) : outcome :=
  match last_index (S_gens s) with Some g => Next s (t g) [] [] | None => Blocked end.
(** Receive on a shutdown channel. *)
Definition on_closed (closed : bool) (s : shared) (o : list obs) : outcome :=
  if closed then Next s TDone [] o else Blocked.

(** node.go:213-244: the reader's buffer has 4096 bytes. *)
Definition read_buffer : N := 4096.

Definition tstep (E : env) (s : shared) (t : thread) (c : choice) : outcome :=
  match t, c with
  (* node.go:146-179. The timer's channel is nil, its case is never ready. *)
  | PR_start, CGo =>
      match snd (PollReply_MarshalBinary (ArtPollReplyFromConfig (E_config E))) with
      | Ok me => Next s (PR_loop me) [] []
      | Err _ => Next s TDone [] []
      end
  | PR_loop me, CGo => eval_gen s (PR_wait me)
  | PR_wait me g, CGo =>
      match S_gens s !! g with
      | Some ch => match Q_poll ch with
                   | _ :: q => Next (upd_gen s g (set_poll ch q)) (PR_send me) [] []
                   | [] => Blocked
                   end
      | None => Blocked
      end
  | PR_wait me g, CDown => on_closed (gen_closed s g) s []
  | PR_send me, CGo => eval_gen s (PR_sending me)
  | PR_sending me g, CGo =>
      match S_gens s !! g with
      | Some ch => let x := (KReply, (E_nodeBroadcast E, me)) in
                   match push (Q_send ch) x with
                   | Some q => Next (upd_gen s g (set_send ch q)) (PR_loop me) [] [OQueued x]
                   | None => Blocked
                   end
      | None => Blocked
      end
  (* node.go:182-203 *)
  | SL_loop, CGo => eval_gen s SL_wait
  | SL_wait g, CDown => on_closed (gen_closed s g) s []
  | SL_wait g, CGo =>
      match S_gens s !! g with
      | Some ch => match Q_send ch with
                   | x :: q => Next (upd_gen s g (set_send ch q)) (SL_check x) [] []
                   | [] => Blocked
                   end
      | None => Blocked
      end
  | SL_check x, CGo => if S_shutdown s then Next s TDone [] [ODrop x] else Next s (SL_write x) [] []
  | SL_write x, CGo =>
      match last_index (S_conns s) with
      | Some c => if flag_at (S_conns s) c then Next s SL_loop [] [OTx x] else Blocked
      | None => Crash
      end
  | SL_write x, CErr =>
      match last_index (S_conns s) with
      | Some c => Next s SL_loop [] [ODrop x]
      | None => Crash
      end
  (* node.go:210-271 *)
  | RL_start, CGo => Next s RL_loop [RD_read (zeros read_buffer)] []
  | RL_loop, CGo => eval_gen s RL_wait
  | RL_wait g, CDown => on_closed (gen_closed s g) s []
  | RL_wait g, CGo =>
      match S_gens s !! g with
      | Some ch => match Q_recv ch with
                   | d :: q => Next (upd_gen s g (set_recv ch q)) (RL_parse d) [] []
                   | [] => Blocked
                   end
      | None => Blocked
      end
  | RL_parse d, CGo =>
      match Unmarshal d with
      | Panic => Crash
      | Ret (_, Some _) => Next s RL_loop [] [OParse d]
      | Ret (None, None) => Crash
      | Ret (Some p, None) => Next s RL_loop [H_start p] [OParse d; OSpawn p]
      end
  (* node.go:213-244 *)
  | RD_read b, CGo =>
      match last_index (S_conns s) with Some c => Next s (RD_reading b c) [] [] | None => Crash end
  | RD_reading b c, CDatagram from data =>
      if flag_at (S_conns s) c
      then let num := Nat.min (length data) (length b) in
           Next s (RD_got (firstn num data ++ skipn num b) (Some (from, num))) [] [ORecv from data]
      else Blocked
  | RD_reading b c, CErr => Next s (RD_got b None) [] []
  | RD_got b r, CGo =>
      if S_shutdown s
      then Next s TDone [] match r with Some (from, num) => [ODiscard from (firstn num b)] | None => [] end
      else match r with
           | None => Crash                       (* from.IP with from == nil *)
           | Some (from, num) =>
               if IP_Equal (E_localIP E) (fst from) then Next s (RD_read b) [] []
               else Next s (RD_push b (go_copy (zeros (N.of_nat num)) b)) [] []
           end
  | RD_push b d, CGo => eval_gen s (RD_pushing b d)
  | RD_pushing b d g, CGo =>
      match S_gens s !! g with
      | Some ch => match push (Q_recv ch) d with
                   | Some q => Next (upd_gen s g (set_recv ch q)) (RD_read b) [] []
                   | None => Blocked
                   end
      | None => Blocked
      end
  (* node.go:274-282 *)
  | H_start p, CGo =>
      match S_callbacks s !! GetOpCode p with
      | None => Next s TDone [] [OIgnore p]
      | Some h =>
          let t := match h with
                   | HPoll => match p with PktPoll q => H_poll q | _ => TDone end
                   | HPollReply => if C_Type (E_config E) =? StController
                                   then match p with PktPollReply q => H_reply q | _ => TDone end
                                   else TDone
                   | HUser _ => TDone
                   end in
          Next s t [] [OCall h p]
      end
  (* node.go:284-292 *)
  | H_poll q, CGo => eval_gen s (H_polling q)
  | H_polling q g, CGo =>
      match S_gens s !! g with
      | Some ch => match push (Q_poll ch) q with
                   | Some q' => Next (upd_gen s g (set_poll ch q')) TDone [] [OPolled q]
                   | None => Blocked
                   end
      | None => Blocked
      end
  (* node.go:294-305 *)
  | H_reply q, CGo => eval_gen s (H_replying q)
  | H_replying q g, CGo =>
      match S_gens s !! g with
      | Some ch => match push (Q_reply ch) q with
                   | Some q' => Next (upd_gen s g (set_reply ch q')) TDone [] [OQueuedReply q]
                   | None => Blocked
                   end
      | None => Blocked
      end
  (* controller.go:152-210 *)
  | CP_start, CGo =>
      match snd (Poll_MarshalBinary (mkPoll Header_zero (TalkToMe_WithReplyOnChange 0 true) DpAll)) with
      | Ok pb => Next s (CP_send pb) [] []
      | Err _ => Next s TDone [] []
      end
  | CP_send pb, CGo => eval_gen s (CP_sending pb)
  | CP_sending pb g, CGo =>
      match S_gens s !! g with
      | Some ch => let x := (KPoll, (E_ctlBroadcast E, pb)) in
                   match push (Q_send ch) x with
                   | Some q => Next (upd_gen s g (set_send ch q)) (CP_poll pb) [] [OQueued x]
                   | None => Blocked
                   end
      | None => Blocked
      end
  | CP_poll pb, CGo => eval_gen s (CP_polling pb)
  | CP_polling pb g, CGo =>
      match S_gens s !! g with
      | Some ch => match push (Q_poll ch) NewArtPollPacket with
                   | Some q => Next (upd_gen s g (set_poll ch q)) (CP_loop pb) [] [OPolled NewArtPollPacket]
                   | None => Blocked
                   end
      | None => Blocked
      end
  | CP_loop pb, CGo =>
      match last_index (S_cgens s) with
      | Some cg => eval_gen s (fun g => CP_wait pb g cg)
      | None => Blocked
      end
  | CP_wait pb g cg, CPollTick => Next s (CP_send pb) [] []
  | CP_wait pb g cg, CGcTick => Next s (CP_gc pb) [] []
  | CP_wait pb g cg, CDown => on_closed (flag_at (S_cgens s) cg) s []
  | CP_wait pb g cg, CGo =>
      match S_gens s !! g with
      | Some ch => match Q_reply ch with
                   | q :: r => Next (upd_gen s g (set_reply ch r)) (CP_reply pb q) [] []
                   | [] => Blocked
                   end
      | None => Blocked
      end
  | CP_gc pb, CClock clock =>
      if S_lock s then Blocked else
      match step (S_tables s) (EGc clock) with
      | Ret (k, out) => Next (with_tables s k false) (CP_loop pb) [] [OTable (S_tables s) (EGc clock) out]
      | Panic => Crash
      end
  | CP_reply pb q, CTime now =>
      if S_lock s then Blocked else
      match step (S_tables s) (EReply q now) with
      | Ret (k, out) => Next (with_tables s k false) (CP_loop pb) [] [OTable (S_tables s) (EReply q now) out]
      | Panic => Crash
      end
  (* controller.go:235-290 *)
  | DL_start, CGo =>
      match ticker_period (S_tables s) with Ret _ => Next s DL_loop [] [] | Panic => Crash end
  | DL_loop, CGo =>
      match last_index (S_cgens s) with Some cg => Next s (DL_wait cg) [] [] | None => Blocked end
  | DL_wait cg, CDown => on_closed (flag_at (S_cgens s) cg) s []
  | DL_wait cg, CTime now => Next s (DL_lock now) [] []
  | DL_lock now, COrder order =>
      if S_lock s then Blocked else
      if bool_decide (order ≡ₚ map_to_list (K_OutputAddress (S_tables s))) then
        match step (S_tables s) (ETick order now) with
        | Ret (k, out) => Next (with_tables s k true) (DL_push out) [] [OTable (S_tables s) (ETick order now) out]
        | Panic => Crash
        end
      else Blocked
  | DL_push [], CGo => Next (with_tables s (S_tables s) false) DL_loop [] []
  | DL_push (f :: fs), CGo => eval_gen s (DL_pushing f fs)
  | DL_pushing f fs g, CGo =>
      match S_gens s !! g with
      | Some ch => match push (Q_send ch) (KDmx, f) with
                   | Some q => Next (upd_gen s g (set_send ch q)) (DL_push fs) [] [OQueued (KDmx, f)]
                   | None => Blocked
                   end
      | None => Blocked
      end
  (* controller.go:214-232 *)
  | U_send dmx a, CGo =>
      if S_lock s then Blocked else
      match step (S_tables s) (ESend dmx a) with
      | Ret (k, out) => Next (with_tables s k false) TDone [] [OTable (S_tables s) (ESend dmx a) out; OSend]
      | Panic => Crash
      end
  (* controller.go:121-123 *)
  | U_start_ctl, CGo =>
      match step (S_tables s) EStart with
      | Ret (k, out) => Next (with_cgens (with_tables s k (S_lock s)) (S_cgens s ++ [false])) U_start_node []
                          [OTable (S_tables s) EStart out]
      | Panic => Crash
      end
  (* node.go:117-127 *)
  | U_start_node, CGo =>
      match validate (E_config E) with
      | Some _ => Next s TDone [] [OStart false]
      | None => Next (with_shutdown (with_gens s (S_gens s ++ [new_chans])) false) U_listen [] [OUp]
      end
  (* node.go:129-141 *)
  | U_listen, CErr => Next (with_err s true) TDone [] [OStart false]
  | U_listen, CGo =>
      let s := with_conns s (S_conns s ++ [true]) in
      if E_ctl E then Next s U_start_loops [PR_start; RL_start; SL_loop] [OListen]
      else Next s TDone [PR_start; RL_start; SL_loop] [OListen; OStart true]
  (* controller.go:130-135: returns c.cNode.shutdownErr *)
  | U_start_loops, CGo =>
      Next (with_tickers s) TDone [CP_start; DL_start] [OStart (negb (S_shutdownErr s))]
  (* controller.go:140-142 *)
  | U_stop_ctl, CGo => if S_tickers s then Next s U_flag [] [] else Crash
  (* node.go:98-100 *)
  | U_flag, CGo => Next (with_shutdown s true) U_close [] [ODown]
  (* node.go:101: close of a nil or closed channel panics *)
  | U_close, CGo =>
      match last_index (S_gens s) with
      | Some g => match S_gens s !! g with
                  | Some ch => if Q_closed ch then Crash else Next (upd_gen s g (set_closed ch)) U_closeconn [] []
                  | None => Crash
                  end
      | None => Crash
      end
  (* node.go:102-106 *)
  | U_closeconn, CGo =>
      let s := match last_index (S_conns s) with
               | Some c => with_conns s (<[c := false]> (S_conns s))
               | None => s
               end in
      if E_ctl E then Next s U_waitclosed [] [] else Next s TDone [] [OStop]
  (* controller.go:144-146 *)
  | U_waitclosed, CGo =>
      match last_index (S_gens s) with
      | Some g => if gen_closed s g then Next s U_closectl [] [] else Blocked
      | None => Blocked
      end
  (* controller.go:148 *)
  | U_closectl, CGo =>
      match last_index (S_cgens s) with
      | Some cg => if flag_at (S_cgens s) cg then Crash
                   else Next (with_cgens s (<[cg := true]> (S_cgens s))) TDone [] [OStop]
      | None => Crash
      end
  | _, _ => Blocked
  end.

(** A state of the system. *)
Record sys := mkSys { Y_sh : shared; Y_threads : list thread }.

(** node.go:61-75, controller.go:104-117: after NewNode/NewController. *)
Definition init (E : env) : sys :=
  mkSys (mkShared true false [] [] {[ OpPoll := HPoll; OpPollReply := HPollReply ]}
           (NewController (E_maxFPS E)) false [] false) [].

(** One step of the system: a step of thread i, or a call made by the user. Callbacks can only be
    registered on a plain Node (a Controller's cNode is private), SendDMXToAddress exists only on a
    Controller. *)
Inductive label :=
| LRun (i : nat) (c : choice)
| LStart
| LStop
| LSend (dmx : list N) (a : Address)
| LRegister (op : N) (f : N)
| LDeregister (op : N).

Inductive result := RBlocked | RCrash | RNext (y : sys) (o : list obs).

(** node.go:311-318, 323-330 *)
Definition RegisterCallback (s : shared) (op f : N) : shared :=
  if negb (S_shutdown s) then s else with_callbacks s (<[op := HUser f]> (S_callbacks s)).
Definition DeregisterCallback (s : shared) (op : N) : shared :=
  if negb (S_shutdown s) then s else with_callbacks s (delete op (S_callbacks s)).

Definition spawn (y : sys) (t : thread) : result := RNext (mkSys (Y_sh y) (Y_threads y ++ [t])) [].

Definition exec (E : env) (y : sys) (l : label) : result :=
  match l with
  | LRun i c =>
      match Y_threads y !! i with
      | Some t => match tstep E (Y_sh y) t c with
                  | Next s t' sp o => RNext (mkSys s (<[i := t']> (Y_threads y) ++ sp)) o
                  | Blocked => RBlocked
                  | Crash => RCrash
                  end
      | None => RBlocked
      end
  | LStart => spawn y (if E_ctl E then U_start_ctl else U_start_node)
  | LStop => spawn y (if E_ctl E then U_stop_ctl else U_flag)
  | LSend dmx a => if E_ctl E then spawn y (U_send dmx a) else RBlocked
  | LRegister op f => if E_ctl E then RBlocked else RNext (mkSys (RegisterCallback (Y_sh y) op f) (Y_threads y)) [ORegister op (Some f)]
  | LDeregister op => if E_ctl E then RBlocked else RNext (mkSys (DeregisterCallback (Y_sh y) op) (Y_threads y)) [ORegister op None]
  end.

(** The values entering from outside have their Go types: [512]byte, bytes, uint8 opcodes etc. *)
Definition label_ok (l : label) : Prop :=
  match l with
  | LRun _ (CDatagram from data) => bytes_ok data
  | LSend dmx a => array_ok 512 dmx
  | _ => True
  end.

(** Executions from a state: the labels taken and the observations made, in order. *)
Inductive steps (E : env) : sys -> list label -> sys -> list obs -> Prop :=
| steps_nil y : steps E y [] y []
| steps_snoc y ls y1 tr l y2 o :
    steps E y ls y1 tr -> label_ok l -> exec E y1 l = RNext y2 o -> steps E y (ls ++ [l]) y2 (tr ++ o).
