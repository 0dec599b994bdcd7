(** A finer model of the critical sections of c.nodeLock (/repo/controller.go). Sys.v performs gcNode, updateNode, SendDMXToAddress and the table updates of a tick of dmxUpdateLoop in one step each. Here
    taking the lock, every single access to the tables, every send on sendCh and releasing the lock are separate steps, and the other goroutines may run between any two of them. P_Atomic.v shows
    that nobody can tell the difference.

    Simplifications: as in Sys.v and Controller.v. Calls of Start of a controller that run while a goroutine is inside a critical section are left out: Start replaces the maps without taking the lock
    (controller.go:121-122), which is the data race of C81. *)
From Verif Require Import SysLaws.
From stdpp Require Import base list gmap.
Open Scope N_scope.

(** * Bodies of critical sections *)
(** What a goroutine does between Lock and Unlock: nothing more; a panic; an access to the tables (it sees the tables k, leaves f k, and goes on as p k); a send on c.cNode.sendCh. *)
Inductive prog :=
| Done
| Fail
| Act (f : Controller -> Controller) (p : Controller -> prog)
| Push (f : payload) (p : prog).
(** An access that only reads. *)
Definition Read (p : Controller -> prog) : prog := Act (fun k => k) p.
(** The frame rate is a field of the model's tables, but no section changes it (it is set before the loops start). *)
Fixpoint keeps (p : prog) : Prop :=
  match p with
  | Done | Fail => True
  | Act f p => (forall k, K_maxFPS (f k) = K_maxFPS k) /\ forall k, keeps (p k)
  | Push f p => keeps p
  end.
Definition emit (f : payload) (r : go (Controller * list payload)) : go (Controller * list payload) :=
  do r <- r; let '(k, out) := r in Ret (k, f :: out).
(** The body run on its own, without interruption: the tables it leaves and the frames it sends. *)
Fixpoint prun (p : prog) (k : Controller) : go (Controller * list payload) :=
  match p with
  | Done => Ret (k, [])
  | Fail => Panic
  | Act f p => prun (p k) (f k)
  | Push f p => emit f (prun p k)
  end.

(** * The sections of the program *)
(** Assigning to fields of the ControlledNode n, or of its buffer for an address. *)
Definition at_node (n : nid) (g : ControlledNode -> ControlledNode) (k : Controller) : Controller := set_heap k (alter g n (K_heap k)).
Definition at_buf (n : nid) (a : Address) (g : dmxBuffer -> dmxBuffer) : Controller -> Controller :=
  at_node n (fun cn => mkCN (CN_LastSeen cn) (CN_Node cn) (CN_UDPAddress cn) (CN_Sequence cn) (alter g a (CN_DMXBuffer cn))).
(** Reading through the pointer n. *)
Definition Deref (n : nid) (p : ControlledNode -> prog) : prog :=
  Read (fun k => match K_heap k !! n with Some cn => p cn | None => Fail end).

(** controller.go:214-232 and 40-55 (the data and the mark are two assignments) *)
Definition send_prog (dmx : list N) (a : Address) : prog :=
  Read (fun k => match K_OutputAddress k !! a with
  | None => Done
  | Some n => Deref n (fun cn =>
      match CN_DMXBuffer cn !! a with
      | None => Done
      | Some _ => Act (at_buf n a (fun b => mkBuf dmx (B_LastUpdate b) (B_Stale b))) (fun _ =>
                  Act (at_buf n a (fun b => mkBuf (B_Data b) (B_LastUpdate b) true)) (fun _ => Done))
      end)
  end).

(** controller.go:241-255 and 58-79: cn.Sequence++, reading what goes into the packet, node.DMXBuffer[address].LastUpdate = now, .Stale = false, reading the destination, the send. *)
Definition update_prog (n : nid) (a : Address) (now : Z) (err next : prog) : prog :=
  Deref n (fun cn =>
  match CN_DMXBuffer cn !! a with
  | None => err
  | Some _ =>
      Act (at_node n (fun cn => mkCN (CN_LastSeen cn) (CN_Node cn) (CN_UDPAddress cn) (u8 (CN_Sequence cn + 1)) (CN_DMXBuffer cn))) (fun _ =>
      Deref n (fun cn =>
      match CN_DMXBuffer cn !! a with
      | None => Fail
      | Some buf =>
          match snd (DMX_MarshalBinary (mkDMX Header_zero (CN_Sequence cn) 0 (A_SubUni a) (A_Net a) (u16 (N.of_nat (size (CN_DMXBuffer cn)))) (B_Data buf))) with
          | Err _ => err
          | Ok b =>
              Act (at_buf n a (fun buf => mkBuf (B_Data buf) now (B_Stale buf))) (fun _ =>
              Act (at_buf n a (fun buf => mkBuf (B_Data buf) (B_LastUpdate buf) false)) (fun _ =>
              Deref n (fun cn => Push (CN_UDPAddress cn, b) next)))
          end
      end))
  end).
(** controller.go:276-282 *)
Definition force_prog (n : nid) (a : Address) (now : Z) (next : prog) : prog :=
  Deref n (fun cn => match CN_DMXBuffer cn !! a with
                     | None => Fail
                     | Some buf => if (B_LastUpdate buf <? now - forceUpdate)%Z then update_prog n a now next next else next
                     end).
(** controller.go:268-275 *)
Definition stale_prog (fpsInterval : Z) (n : nid) (a : Address) (now : Z) (next : prog) : prog :=
  Deref n (fun cn => match CN_DMXBuffer cn !! a with
                     | None => Fail
                     | Some buf => if B_Stale buf && (B_LastUpdate buf <? now - fpsInterval)%Z then update_prog n a now next (force_prog n a now next) else force_prog n a now next
                     end).
(** controller.go:265-267 and the rest of the body of the loop *)
Definition entry_prog (fpsInterval : Z) (n : nid) (a : Address) (now : Z) (next : prog) : prog :=
  Deref n (fun cn => match CN_DMXBuffer cn !! a with
                     | None => Act (at_node n (fun cn => mkCN (CN_LastSeen cn) (CN_Node cn) (CN_UDPAddress cn) (CN_Sequence cn) (<[a := empty_buf]> (CN_DMXBuffer cn)))) (fun _ => stale_prog fpsInterval n a now next)
                     | Some _ => stale_prog fpsInterval n a now next
                     end).
(** controller.go:264-283; the entries of the map are read one at a time, and the loop does not change the map. *)
Fixpoint entries_prog (fpsInterval : Z) (order : list (Address * nid)) (now : Z) : prog :=
  match order with
  | [] => Done
  | (a, n) :: order => entry_prog fpsInterval n a now (entries_prog fpsInterval order now)
  end.
(** fpsInterval is a local variable of dmxUpdateLoop set to c.maxFPS (236). *)
Definition tick_prog (order : list (Address * nid)) (now : Z) : prog := Read (fun k => entries_prog (K_maxFPS k) order now).

(** delete(c.OutputAddress, port.Address), delete(c.InputAddress, port.Address), c.OutputAddress[port.Address] = n, c.InputAddress[port.Address] = n, for every port, one at a time *)
Fixpoint del_out (ports : list Port) (next : prog) : prog :=
  match ports with
  | [] => next
  | q :: ports => Act (fun k => set_out k (delete (P_Address q) (K_OutputAddress k))) (fun _ => del_out ports next)
  end.
Fixpoint del_in (ports : list Port) (next : prog) : prog :=
  match ports with
  | [] => next
  | q :: ports => Act (fun k => set_in k (delete (P_Address q) (K_InputAddress k))) (fun _ => del_in ports next)
  end.
Fixpoint ins_out (ports : list Port) (n : nid) (next : prog) : prog :=
  match ports with
  | [] => next
  | q :: ports => Act (fun k => set_out k (<[P_Address q := n]> (K_OutputAddress k))) (fun _ => ins_out ports n next)
  end.
Fixpoint ins_in (ports : list Port) (n : nid) (next : prog) : prog :=
  match ports with
  | [] => next
  | q :: ports => Act (fun k => set_in k (<[P_Address q := n]> (K_InputAddress k))) (fun _ => ins_in ports n next)
  end.

(** controller.go:383-401 *)
Fixpoint scan_prog (clock : nat -> Z) (j : nat) (is : list nat) (again : nat -> prog) : prog :=
  match is with
  | [] => Done
  | i :: is => Read (fun k => match nth_error (K_Nodes k) i with
      | None => Fail
      | Some n => Deref n (fun cn =>
          if (CN_LastSeen cn + staleAfter <? clock j)%Z
          then del_out (C_OutputPorts (CN_Node cn)) (del_in (C_InputPorts (CN_Node cn))
                 (Act (fun k => set_nodes k (remove_at i (K_Nodes k))) (fun _ => again (S j))))
          else scan_prog clock (S j) is again)
      end)
  end.
Fixpoint start_prog (fuel : nat) (clock : nat -> Z) (j : nat) : prog :=
  match fuel with
  | O => Fail
  | S fuel => Read (fun k => scan_prog clock j (seq 0 (length (K_Nodes k))) (start_prog fuel clock))
  end.
Definition gc_prog (clock : nat -> Z) : prog := Read (fun k => start_prog (S (length (K_Nodes k))) clock 0).

(** controller.go:299-300 *)
Fixpoint find_prog (ip : list N) (nodes : list nid) (found : nid -> prog) (none : prog) : prog :=
  match nodes with
  | [] => none
  | n :: nodes => Deref n (fun cn => if eqbytes ip (C_IP (CN_Node cn)) then found n else find_prog ip nodes found none)
  end.
(** controller.go:304-319 *)
Definition known_prog (cfg : NodeConfig) (now : Z) (n : nid) : prog :=
  Deref n (fun cn =>
    del_out (C_OutputPorts (CN_Node cn)) (del_in (C_InputPorts (CN_Node cn))
    (Act (at_node n (fun cn => mkCN (CN_LastSeen cn) cfg (CN_UDPAddress cn) (CN_Sequence cn) (CN_DMXBuffer cn))) (fun _ =>
     Act (at_node n (fun cn => mkCN now (CN_Node cn) (CN_UDPAddress cn) (CN_Sequence cn) (CN_DMXBuffer cn))) (fun _ =>
     ins_out (C_OutputPorts cfg) n (ins_in (C_InputPorts cfg) n Done)))))).
(** controller.go:323-348: the new object, c.Nodes = append(c.Nodes, node), the maps *)
Definition new_prog (cfg : NodeConfig) (now : Z) : prog :=
  Act (fun k => mkController (<[K_next k := mkCN now cfg (C_IP cfg, ArtNetPort) 0 (blackout (C_OutputPorts cfg))]> (K_heap k)) (K_next k + 1) (K_Nodes k) (K_OutputAddress k) (K_InputAddress k) (K_maxFPS k))
    (fun k => Act (fun k' => set_nodes k' (K_Nodes k' ++ [K_next k])) (fun _ =>
     ins_out (C_OutputPorts cfg) (K_next k) (ins_in (C_InputPorts cfg) (K_next k) Done))).
(** controller.go:295-349 *)
Definition node_prog (cfg : NodeConfig) (now : Z) : prog :=
  Read (fun k => find_prog (C_IP cfg) (K_Nodes k) (known_prog cfg now) (new_prog cfg now)).
(** controller.go:188-204; what happens before updateNode takes the lock does not access the tables. *)
Definition reply_prog (q : ArtPollReplyPacket) (now : Z) : prog :=
  match ConfigFromArtPollReply q with
  | Panic => Fail
  | Ret cfg => if negb (C_Type cfg =? StNode) && negb (C_Type cfg =? StController) then Done
               else if (C_Type cfg =? StController) && (plen (C_OutputPorts cfg) =? 0) then Done
               else node_prog cfg now
  end.
(** The section of each operation on the tables (Start, which takes no lock, has none). *)
Definition code (e : event) : prog :=
  match e with
  | EReply q now => reply_prog q now
  | EGc clock => gc_prog clock
  | ESend dmx a => send_prog dmx a
  | ETick order now => tick_prog order now
  | EStart => Fail
  end.

(** * Executions *)
(** A section that is open: an operation of goroutine i (c resolves its clock readings, k0 are the tables it found), or a tick of the dmxUpdateLoop i; with what is left of its body. *)
Inductive section :=
| InOp (i : nat) (c : Sys.choice) (k0 : Controller) (p : prog)
| InTick (i : nat) (p : prog).
Record fsys := mkF { F_sys : sys; F_in : option section }.
Definition in_thread (x : section) : nat := match x with InOp i _ _ _ | InTick i _ => i end.
(** The operations that take the lock and release it before anything else, where the goroutine continues, and what the world sees of it (SendDMXToAddress returns). *)
Definition op_of (t : thread) (c : Sys.choice) : option (event * thread * list obs) :=
  match t, c with
  | CP_gc pb, CClock clock => Some (EGc clock, CP_loop pb, [])
  | CP_reply pb q, CTime now => Some (EReply q now, CP_loop pb, [])
  | U_send dmx a, CGo => Some (ESend dmx a, TDone, [OSend])
  | _, _ => None
  end.
(** Program counters at a Lock of c.nodeLock. *)
Definition locks (t : thread) : bool := match t with CP_gc _ | CP_reply _ _ | U_send _ _ | DL_lock _ => true | _ => false end.
(** The steps of Sys.v that are kept: those of goroutines that are not inside a section or about to enter one, except Start of a controller while a section is open. *)
Definition outside (z : fsys) (l : label) : Prop :=
  match l with
  | LRun j _ => match Y_threads (F_sys z) !! j with
                | Some t => locks t = false /\ match F_in z with Some x => j <> in_thread x /\ t <> U_start_ctl | None => True end
                | None => True
                end
  | _ => True
  end.
Definition locked (y : sys) (k : Controller) (b : bool) (i : nat) (t : thread) : sys := mkSys (with_tables (Y_sh y) k b) (<[i := t]> (Y_threads y)).

(** One step, the labels of Sys.v it stands for (none for most steps inside a section) and what is observed. The event of an operation is recorded when it releases the lock, that of a tick when it takes
    the lock. *)
Inductive fstep (E : env) : fsys -> list label -> fsys -> list obs -> Prop :=
| f_other z l y' o : outside z l -> label_ok l -> exec E (F_sys z) l = RNext y' o -> fstep E z [l] (mkF y' (F_in z)) o
(* Lock, with any body that does what the operation does when it runs on its own *)
| f_enter_op y i t c e t' o p : Y_threads y !! i = Some t -> op_of t c = Some (e, t', o) -> S_lock (Y_sh y) = false ->
    keeps p -> prun p (S_tables (Y_sh y)) = step (S_tables (Y_sh y)) e ->
    fstep E (mkF y None) [] (mkF (locked y (S_tables (Y_sh y)) true i t) (Some (InOp i c (S_tables (Y_sh y)) p))) []
| f_enter_tick y i now order p k out : Y_threads y !! i = Some (DL_lock now) -> order ≡ₚ map_to_list (K_OutputAddress (S_tables (Y_sh y))) -> S_lock (Y_sh y) = false ->
    keeps p -> prun p (S_tables (Y_sh y)) = step (S_tables (Y_sh y)) (ETick order now) -> prun p (S_tables (Y_sh y)) = Ret (k, out) ->
    fstep E (mkF y None) [LRun i (COrder order)] (mkF (locked y (S_tables (Y_sh y)) true i (DL_push [])) (Some (InTick i p))) [OTable (S_tables (Y_sh y)) (ETick order now) out]
(* an access to the tables *)
| f_act_op y i t c k0 f p : Y_threads y !! i = Some t ->
    fstep E (mkF y (Some (InOp i c k0 (Act f p)))) [] (mkF (locked y (f (S_tables (Y_sh y))) true i t) (Some (InOp i c k0 (p (S_tables (Y_sh y)))))) []
| f_act_tick y i f p : Y_threads y !! i = Some (DL_push []) ->
    fstep E (mkF y (Some (InTick i (Act f p)))) [] (mkF (locked y (f (S_tables (Y_sh y))) true i (DL_push [])) (Some (InTick i (p (S_tables (Y_sh y)))))) []
(* c.cNode.sendCh is evaluated (node.go's Start may replace it), then the frame is put there when there is room *)
| f_chan y i f p g : Y_threads y !! i = Some (DL_push []) -> last_index (S_gens (Y_sh y)) = Some g ->
    fstep E (mkF y (Some (InTick i (Push f p)))) [LRun i CGo] (mkF (mkSys (Y_sh y) (<[i := DL_pushing f [] g]> (Y_threads y))) (Some (InTick i p))) []
| f_push y i f p g ch q : Y_threads y !! i = Some (DL_pushing f [] g) -> S_gens (Y_sh y) !! g = Some ch -> push (Q_send ch) (KDmx, f) = Some q ->
    fstep E (mkF y (Some (InTick i p))) [LRun i CGo] (mkF (mkSys (upd_gen (Y_sh y) g (set_send ch q)) (<[i := DL_push []]> (Y_threads y))) (Some (InTick i p))) [OQueued (KDmx, f)]
(* Unlock *)
| f_leave_op y i t c k0 e t' o : Y_threads y !! i = Some t -> op_of t c = Some (e, t', o) ->
    fstep E (mkF y (Some (InOp i c k0 Done))) [LRun i c] (mkF (locked y (S_tables (Y_sh y)) false i t') None) (OTable k0 e [] :: o)
| f_leave_tick y i : Y_threads y !! i = Some (DL_push []) ->
    fstep E (mkF y (Some (InTick i Done))) [LRun i CGo] (mkF (locked y (S_tables (Y_sh y)) false i DL_loop) None) [].
Inductive fsteps (E : env) : fsys -> list label -> fsys -> list obs -> Prop :=
| fsteps_nil z : fsteps E z [] z []
| fsteps_snoc z ls z1 tr l z2 o : fsteps E z ls z1 tr -> fstep E z1 l z2 o -> fsteps E z (ls ++ l) z2 (tr ++ o).
Definition fruns (E : env) (ls : list label) (z : fsys) (tr : list obs) : Prop := fsteps E (mkF (init E) None) ls z tr.
