(** Model of /repo/controller.go: the data managed by a Controller and every operation on it, as
    atomic functions (each one runs under c.nodeLock in Go; the interleaving of the goroutines that
    call them and the blocking of the send queue are modelled in Sys.v).

    Simplifications:
    - *ControlledNode pointers are identifiers into a heap [K_heap]; dmxBuffer pointers are never
      shared, so a map[Address]*dmxBuffer is a map to values.
    - time.Time is a number of nanoseconds (Z) since the zero time.Time; every call of time.Now() is
      an explicit argument. Go's monotonic and wall clock readings are not distinguished.
    - The iteration order of a Go map is an argument (a list of its entries in any order).
    - Logging is dropped. Mutexes do not appear here. *)
From stdpp Require Export gmap.
From Verif Require Export Config.
Open Scope N_scope.

(** Pointer identity of a ControlledNode. *)
Definition nid : Type := N.

(** controller.go:33-37 *)
Record dmxBuffer := mkBuf { B_Data : list N; B_LastUpdate : Z; B_Stale : bool }.
(** &dmxBuffer{} *)
Definition empty_buf : dmxBuffer := mkBuf (zeros 512) 0%Z false.

(** net.UDPAddr: IP and Port (Zone is never set). *)
Definition UDPAddr : Type := list N * N.
(** node.go:48-52 netPayload, for sending: address and data. *)
Definition payload : Type := UDPAddr * list N.

(** controller.go:23-31 *)
Record ControlledNode := mkCN {
  CN_LastSeen : Z;
  CN_Node : NodeConfig;
  CN_UDPAddress : UDPAddr;
  CN_Sequence : N;
  CN_DMXBuffer : gmap Address dmxBuffer
}.

(** controller.go:82-101, the fields used by the operations below, and the heap. *)
Record Controller := mkController {
  K_heap : gmap nid ControlledNode;
  K_next : nid;                       (* next fresh identifier *)
  K_Nodes : list nid;
  K_OutputAddress : gmap Address nid;
  K_InputAddress : gmap Address nid;
  K_maxFPS : Z
}.

Definition set_heap (s : Controller) (h : gmap nid ControlledNode) : Controller :=
  mkController h (K_next s) (K_Nodes s) (K_OutputAddress s) (K_InputAddress s) (K_maxFPS s).
Definition set_out (s : Controller) (m : gmap Address nid) : Controller :=
  mkController (K_heap s) (K_next s) (K_Nodes s) m (K_InputAddress s) (K_maxFPS s).
Definition set_in (s : Controller) (m : gmap Address nid) : Controller :=
  mkController (K_heap s) (K_next s) (K_Nodes s) (K_OutputAddress s) m (K_maxFPS s).
Definition set_nodes (s : Controller) (l : list nid) : Controller :=
  mkController (K_heap s) (K_next s) l (K_OutputAddress s) (K_InputAddress s) (K_maxFPS s).

(** Dereferencing a *ControlledNode. *)
Definition deref (s : Controller) (n : nid) : go ControlledNode :=
  match K_heap s !! n with Some cn => Ret cn | None => Panic end.

(** controller.go:40-55; the boolean is "err == nil". *)
Definition setDMXBuffer (cn : ControlledNode) (dmx : list N) (address : Address) : ControlledNode * bool :=
  match CN_DMXBuffer cn !! address with
  | None => (cn, false)
  | Some buf => (mkCN (CN_LastSeen cn) (CN_Node cn) (CN_UDPAddress cn) (CN_Sequence cn)
                   (<[address := mkBuf dmx (B_LastUpdate buf) true]> (CN_DMXBuffer cn)), true)
  end.

(** controller.go:58-79; None is a non-nil error. *)
Definition dmxUpdate (cn : ControlledNode) (address : Address) : ControlledNode * option (list N) :=
  match CN_DMXBuffer cn !! address with
  | None => (cn, None)
  | Some buf =>
      let cn := mkCN (CN_LastSeen cn) (CN_Node cn) (CN_UDPAddress cn) (u8 (CN_Sequence cn + 1)) (CN_DMXBuffer cn) in
      let p := mkDMX Header_zero (CN_Sequence cn) 0 (A_SubUni address) (A_Net address)
                 (u16 (N.of_nat (size (CN_DMXBuffer cn)))) (B_Data buf) in
      match snd (DMX_MarshalBinary p) with
      | Ok b => (cn, Some b)
      | Err _ => (cn, None)
      end
  end.

(** controller.go:104-117 NewController (Nodes and the maps are nil); maxFPS is 1000 unless option
    MaxFPS (options.go:18-23) was given. *)
Definition NewController (maxFPS : Z) : Controller := mkController ∅ 0 [] ∅ ∅ maxFPS.

(** controller.go:121-122, the part of Start that touches the tables: new empty maps, Nodes kept. *)
Definition start_tables (s : Controller) : Controller := set_in (set_out s ∅) ∅.

(** controller.go:214-232; the boolean is false when an error was logged. *)
Definition SendDMXToAddress (s : Controller) (dmx : list N) (address : Address) : go (Controller * bool) :=
  match K_OutputAddress s !! address with
  | None => Ret (s, false)
  | Some n =>
      do cn <- deref s n;
      let '(cn, ok) := setDMXBuffer cn dmx address in
      Ret (set_heap s (<[n := cn]> (K_heap s)), ok)
  end.

(** controller.go:239 *)
Definition forceUpdate : Z := 250000000%Z.

(** controller.go:236-237: the ticker period, time.Second / time.Duration(maxFPS); the integer division
    panics for 0 and time.NewTicker panics for a non-positive period. Z.quot truncates like Go. *)
Definition ticker_period (s : Controller) : go Z :=
  if (K_maxFPS s =? 0)%Z then Panic
  else let d := Z.quot 1000000000 (K_maxFPS s) in
       if (d <=? 0)%Z then Panic else Ret d.

(** controller.go:241-255 *)
Definition update (cn : ControlledNode) (address : Address) (now : Z) : go (ControlledNode * option payload) :=
  match dmxUpdate cn address with
  | (cn, None) => Ret (cn, None)
  | (cn, Some b) =>
      match CN_DMXBuffer cn !! address with
      | None => Panic
      | Some buf =>
          let cn := mkCN (CN_LastSeen cn) (CN_Node cn) (CN_UDPAddress cn) (CN_Sequence cn)
                      (<[address := mkBuf (B_Data buf) now false]> (CN_DMXBuffer cn)) in
          Ret (cn, Some (CN_UDPAddress cn, b))
      end
  end.

(** controller.go:265-282: the body of the loop for one entry (address, node) of OutputAddress. The
    result lists the payloads put on sendCh. *)
Definition tick_body (fpsInterval : Z) (cn : ControlledNode) (address : Address) (now : Z)
    : go (ControlledNode * list payload) :=
  let cn := match CN_DMXBuffer cn !! address with
            | None => mkCN (CN_LastSeen cn) (CN_Node cn) (CN_UDPAddress cn) (CN_Sequence cn)
                        (<[address := empty_buf]> (CN_DMXBuffer cn))
            | Some _ => cn
            end in
  match CN_DMXBuffer cn !! address with
  | None => Panic
  | Some buf =>
      do r <- (if B_Stale buf && (B_LastUpdate buf <? now - fpsInterval)%Z
               then do r <- update cn address now;
                    let '(cn, sent) := r in
                    match sent with
                    | None => Ret (cn, [], true)               (* continue *)
                    | Some f => Ret (cn, [f], false)
                    end
               else Ret (cn, [], false));
      let '(cn, out, continue) := r in
      if continue : bool then Ret (cn, out) else
      match CN_DMXBuffer cn !! address with
      | None => Panic
      | Some buf =>
          if (B_LastUpdate buf <? now - forceUpdate)%Z
          then do r <- update cn address now;
               let '(cn, sent) := r in
               match sent with
               | None => Ret (cn, out)                         (* continue *)
               | Some f => Ret (cn, out ++ [f])
               end
          else Ret (cn, out)
      end
  end.

(** controller.go:264-283: the loop, in iteration order [order]. *)
Fixpoint tick_loop (s : Controller) (order : list (Address * nid)) (now : Z) : go (Controller * list payload) :=
  match order with
  | [] => Ret (s, [])
  | (address, n) :: order =>
      do cn <- deref s n;
      do r <- tick_body (K_maxFPS s) cn address now;
      let '(cn, out) := r in
      do r <- tick_loop (set_heap s (<[n := cn]> (K_heap s))) order now;
      let '(s, out') := r in
      Ret (s, out ++ out')
  end.

(** delete(c.OutputAddress, port.Address) for every output port, and the same for inputs. *)
Definition delete_ports (m : gmap Address nid) (ports : list Port) : gmap Address nid :=
  fold_left (fun m port => delete (P_Address port) m) ports m.
(** c.OutputAddress[port.Address] = node for every port. *)
Definition insert_ports (m : gmap Address nid) (ports : list Port) (n : nid) : gmap Address nid :=
  fold_left (fun m port => <[P_Address port := n]> m) ports m.

(** controller.go:304-309, 360-365, 390-395: remove references to a node from the maps. *)
Definition unroute (s : Controller) (cn : ControlledNode) : Controller :=
  set_in (set_out s (delete_ports (K_OutputAddress s) (C_OutputPorts (CN_Node cn))))
    (delete_ports (K_InputAddress s) (C_InputPorts (CN_Node cn))).
(** controller.go:313-318, 341-346: add references to a node to the maps. *)
Definition route (s : Controller) (n : nid) (cfg : NodeConfig) : Controller :=
  set_in (set_out s (insert_ports (K_OutputAddress s) (C_OutputPorts cfg) n))
    (insert_ports (K_InputAddress s) (C_InputPorts cfg) n).

(** controller.go:299-321: find the first listed node with this IP. *)
Fixpoint find_ip (s : Controller) (ip : list N) (nodes : list nid) : go (option nid) :=
  match nodes with
  | [] => Ret None
  | n :: nodes => do cn <- deref s n;
                  if eqbytes ip (C_IP (CN_Node cn)) then Ret (Some n) else find_ip s ip nodes
  end.

(** controller.go:324-327 *)
Definition blackout (ports : list Port) : gmap Address dmxBuffer :=
  fold_left (fun m port => <[P_Address port := empty_buf]> m) ports ∅.

(** controller.go:295-349 *)
Definition updateNode (s : Controller) (cfg : NodeConfig) (now : Z) : go Controller :=
  do found <- find_ip s (C_IP cfg) (K_Nodes s);
  match found with
  | Some n =>
      do cn <- deref s n;
      let s := unroute s cn in
      let cn := mkCN now cfg (CN_UDPAddress cn) (CN_Sequence cn) (CN_DMXBuffer cn) in
      let s := set_heap s (<[n := cn]> (K_heap s)) in
      Ret (route s n cfg)
  | None =>
      let n := K_next s in
      let cn := mkCN now cfg (C_IP cfg, ArtNetPort) 0 (blackout (C_OutputPorts cfg)) in
      let s := mkController (<[n := cn]> (K_heap s)) (n + 1) (K_Nodes s ++ [n])
                 (K_OutputAddress s) (K_InputAddress s) (K_maxFPS s) in
      Ret (route s n cfg)
  end.

(** controller.go:187-204: what pollLoop does with a received ArtPollReply. *)
Definition handle_reply (s : Controller) (p : ArtPollReplyPacket) (now : Z) : go Controller :=
  do cfg <- ConfigFromArtPollReply p;
  if negb (C_Type cfg =? StNode) && negb (C_Type cfg =? StController) then Ret s
  else if (C_Type cfg =? StController) && (plen (C_OutputPorts cfg) =? 0) then Ret s
  else updateNode s cfg now.

(** append(l[:i], l[i+1:]...) *)
Definition remove_at (i : nat) (l : list nid) : list nid := firstn i l ++ skipn (S i) l.
(** c.Nodes[i] *)
Definition node_at (s : Controller) (i : nat) : go nid :=
  match nth_error (K_Nodes s) i with Some n => Ret n | None => Panic end.

(** controller.go:352-371. The range expression fixes the indices 0..len-1 before the loop. The error
    returned is always non-nil and therefore not part of the result. *)
Fixpoint delete_loop (s : Controller) (ip : list N) (is : list nat) : go Controller :=
  match is with
  | [] => Ret s
  | i :: is =>
      do n <- node_at s i;
      do cn <- deref s n;
      let s := if eqbytes ip (C_IP (CN_Node cn))
               then let s := unroute s cn in set_nodes s (remove_at i (K_Nodes s))
               else s in
      delete_loop s ip is
  end.
Definition deleteNode (s : Controller) (ip : list N) : go (Controller * bool) :=
  do s <- delete_loop s ip (seq 0 (length (K_Nodes s)));
  Ret (s, false).

(** controller.go:381 *)
Definition staleAfter : Z := 7000000000%Z.

(** controller.go:384-400: one pass over c.Nodes from index i with [k] clock readings already made;
    a pass ends without removal (inl) or removes one node and jumps back to start (inr). *)
Fixpoint gc_scan (s : Controller) (clock : nat -> Z) (k : nat) (is : list nat)
    : go (Controller * nat + Controller * nat) :=
  match is with
  | [] => Ret (inl (s, k))
  | i :: is =>
      do n <- node_at s i;
      do cn <- deref s n;
      if (CN_LastSeen cn + staleAfter <? clock k)%Z
      then let s := unroute s cn in Ret (inr (set_nodes s (remove_at i (K_Nodes s)), S k))
      else gc_scan s clock (S k) is
  end.
(** controller.go:383-401: the goto loop; [fuel] bounds the number of jumps, running out is Panic. *)
Fixpoint gc_loop (fuel : nat) (s : Controller) (clock : nat -> Z) (k : nat) : go (Controller * nat) :=
  match fuel with
  | O => Panic
  | S fuel =>
      do r <- gc_scan s clock k (seq 0 (length (K_Nodes s)));
      match r with
      | inl (s, k) => Ret (s, k)
      | inr (s, k) => gc_loop fuel s clock k
      end
  end.
(** controller.go:375-401. The j-th call of time.Now() returns clock j. *)
Definition gcNode (s : Controller) (clock : nat -> Z) : go (Controller * nat) :=
  gc_loop (S (length (K_Nodes s))) s clock 0.

(** The events of a controller's life that change its tables. *)
Inductive event : Type :=
| EReply (p : ArtPollReplyPacket) (now : Z)   (* pollLoop received an ArtPollReply *)
| EGc (clock : nat -> Z)                      (* pollLoop: gcTicker *)
| ESend (dmx : list N) (address : Address)    (* user call *)
| ETick (order : list (Address * nid)) (now : Z)  (* dmxUpdateLoop: ticker *)
| EStart.                                     (* user call (first start or restart) *)

(** One event: new tables, payloads queued for sending. *)
Definition step (s : Controller) (e : event) : go (Controller * list payload) :=
  match e with
  | EReply p now => do s <- handle_reply s p now; Ret (s, [])
  | EGc clock => do r <- gcNode s clock; let '(s, _) := r in Ret (s, [])
  | ESend dmx address => do r <- SendDMXToAddress s dmx address; let '(s, _) := r in Ret (s, [])
  | ETick order now => tick_loop s order now
  | EStart => Ret (start_tables s, [])
  end.
