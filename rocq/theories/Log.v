(** The log of a node or controller (C109): every call of the log of /repo/node.go and /repo/controller.go, with /repo/logger.go.
    Logging changes nothing else: a step of Sys.v is taken as before, and [logged] gives the entries it writes.

    Simplifications:
    - An entry is attributed to the step of Sys.v that contains the call; entries of a step are in the order of the calls. ("received update channels" is written before SendDMXToAddress waits for the lock,
      controller.go:215-217, here with the step that has the lock.)
    - What is printed is not laid out: an entry has its level, message and fields. A field is the value whose text (String method or %v) is logged; [ip_text] and Address_String give the text of the
      usual addresses. Errors of the operating system are not described (VError).
    - The level filter and formatter of logrus (logger.go:28-46) are not modelled: with NewDefaultLogger every level that is used here is printed. The locking of the output is switched off
      (logger.go:45), so the bytes of entries written at the same time may be mixed; that is not modelled.
    - The logger given to NewNode and NewController has no field "type" of its own; a nil Logger is excluded. *)
From Coq Require Import String.
From Verif Require Import P_Errors.
From Verif Require Export Sys SysFacts.
Open Scope list_scope.
Open Scope N_scope.

Inductive level := Debug | Info | Warn | Error.
#[global] Instance level_eq_dec : EqDecision level. Proof. solve_decision. Defined.

Inductive value :=
| VText (s : string)                (* a string *)
| VBytes (b : list N)               (* a string made of these bytes, or the bytes themselves *)
| VNum (n : N)                      (* an int *)
| VIP (ip : list N)                 (* ip.String() *)
| VAddr (a : UDPAddr)               (* address.String(): IP and port *)
| VOp (op : N)                      (* a code.OpCode *)
| VPacket (p : packet)              (* a decoded packet *)
| VError.                           (* an error *)
#[global] Instance value_eq_dec : EqDecision value.
Proof. intros x y. unfold Decision. repeat decide equality. Defined.

(** One entry. Later fields hide earlier ones of the same key (logger.go:53-55: WithFields), hence they come first. *)
Record entry := mkEntry { G_level : level; G_msg : string; G_fields : list (string * value) }.
(** The value of a field. *)
Fixpoint field (k : string) (l : list (string * value)) : option value :=
  match l with [] => None | (k', v) :: l => if String.eqb k k' then Some v else field k l end.

(** net.IP.String of an address of four bytes (Go standard library). *)
Definition ip_text (ip : list N) : option string :=
  match ip with
  | [a; b; c; d] => Some (sprint_d a ++ "." ++ sprint_d b ++ "." ++ sprint_d c ++ "." ++ sprint_d d)%string
  | _ => None
  end.

(** node.go:65 and controller.go:124: the fields every entry of the node has. *)
Definition node_fields : list (string * value) := [("type", VText "Node")]%string.
(** controller.go:107 and 125: the fields every entry of the controller has, from its first Start on. *)
Definition ctl_fields (s : shared) : list (string * value) :=
  match S_cgens s with [] => [] | _ => [("type", VText "Controller")]%string end.

(** controller.go:302, 330: what updateNode writes. *)
Definition updateNode_log (base : list (string * value)) (k : Controller) (cfg : NodeConfig) : list entry :=
  let fs := (("node", VBytes (C_Name cfg)) :: ("ip", VIP (C_IP cfg)) :: base)%string in
  match find_ip k (C_IP cfg) (K_Nodes k) with
  | Ret (Some _) => [mkEntry Debug "updated node" fs]
  | Ret None => [mkEntry Debug "added node" fs]
  | Panic => []
  end.
(** controller.go:187-204; updateNode always returns nil, line 203 is never reached. *)
Definition reply_log (base : list (string * value)) (k : Controller) (p : ArtPollReplyPacket) : list entry :=
  match ConfigFromArtPollReply p with
  | Ret cfg =>
      if negb (C_Type cfg =? StNode) && negb (C_Type cfg =? StController) then []
      else if (C_Type cfg =? StController) && (plen (C_OutputPorts cfg) =? 0) then []
      else updateNode_log base k cfg
  | Panic => []
  end.

(** controller.go:384-400 *)
Fixpoint gc_scan_log (base : list (string * value)) (s : Controller) (clock : nat -> Z) (k : nat) (is : list nat) : list entry :=
  match is with
  | [] => []
  | i :: is =>
      match node_at s i with
      | Ret n =>
          match deref s n with
          | Ret cn =>
              if (CN_LastSeen cn + staleAfter <? clock k)%Z
              then [mkEntry Debug "remove stale node" (("node", VBytes (C_Name (CN_Node cn))) :: ("ip", VIP (C_IP (CN_Node cn))) :: base)%string]
              else gc_scan_log base s clock (S k) is
          | Panic => []
          end
      | Panic => []
      end
  end.
(** controller.go:383-401 *)
Fixpoint gc_loop_log (base : list (string * value)) (fuel : nat) (s : Controller) (clock : nat -> Z) (k : nat) : list entry :=
  match fuel with
  | O => []
  | S fuel =>
      gc_scan_log base s clock k (seq 0 (length (K_Nodes s))) ++
      match gc_scan s clock k (seq 0 (length (K_Nodes s))) with
      | Ret (inr (s, k)) => gc_loop_log base fuel s clock k
      | _ => []
      end
  end.
Definition gcNode_log (base : list (string * value)) (s : Controller) (clock : nat -> Z) : list entry :=
  gc_loop_log base (S (length (K_Nodes s))) s clock 0.

(** controller.go:215-231 *)
Definition send_log (base : list (string * value)) (k : Controller) (dmx : list N) (a : Address) : list entry :=
  mkEntry Debug "received update channels" (("address", VText (Address_String a)) :: base)%string ::
  match K_OutputAddress k !! a with
  | None => [mkEntry Error "could not find node for address" (("address", VText (Address_String a)) :: base)%string]
  | Some n =>
      match deref k n with
      | Ret cn => if snd (setDMXBuffer cn dmx a) then []
                  else [mkEntry Error "error setting buffer on address"
                          (("err", VText "unknown address for controlled node") :: ("address", VText (Address_String a)) :: base)%string]
      | Panic => []
      end
  end.

(** controller.go:264-283: an update that fails (lines 271-274, 278-281). [tick_body] stops at the first update that fails, which is the one written. *)
Definition tick_body_log (base : list (string * value)) (fpsInterval : Z) (cn : ControlledNode) (address : Address) (now : Z) : list entry :=
  let e := [mkEntry Error "error getting buffer for address" (("err", VError) :: ("address", VText (Address_String address)) :: base)%string] in
  let cn := match CN_DMXBuffer cn !! address with
            | None => mkCN (CN_LastSeen cn) (CN_Node cn) (CN_UDPAddress cn) (CN_Sequence cn)
                        (<[address := empty_buf]> (CN_DMXBuffer cn))
            | Some _ => cn
            end in
  match CN_DMXBuffer cn !! address with
  | None => []
  | Some buf =>
      match (if B_Stale buf && (B_LastUpdate buf <? now - fpsInterval)%Z then update cn address now
             else Ret (cn, Some (CN_UDPAddress cn, []))) with
      | Panic => []
      | Ret (_, None) => e
      | Ret (cn, Some _) =>
          match CN_DMXBuffer cn !! address with
          | None => []
          | Some buf =>
              if (B_LastUpdate buf <? now - forceUpdate)%Z
              then match update cn address now with Ret (_, None) => e | _ => [] end
              else []
          end
      end
  end.
Fixpoint tick_loop_log (base : list (string * value)) (s : Controller) (order : list (Address * nid)) (now : Z) : list entry :=
  match order with
  | [] => []
  | (address, n) :: order =>
      match deref s n with
      | Ret cn =>
          tick_body_log base (K_maxFPS s) cn address now ++
          match tick_body (K_maxFPS s) cn address now with
          | Ret (cn, _) => tick_loop_log base (set_heap s (<[n := cn]> (K_heap s))) order now
          | Panic => []
          end
      | Panic => []
      end
  end.

(** The entries written by a step of a goroutine (if it takes that step: see [logged]). *)
Definition tlog (E : env) (s : shared) (t : thread) (c : choice) : list entry :=
  match t, c with
  (* node.go:153 *)
  | PR_start, CGo =>
      match snd (PollReply_MarshalBinary (ArtPollReplyFromConfig (E_config E))) with
      | Ok _ => []
      | Err _ => [mkEntry Error "error creating ArtPollReply packet for self" (("err", VError) :: node_fields)%string]
      end
  (* node.go:166 *)
  | PR_wait _ _, CGo => [mkEntry Debug "sending ArtPollReply" node_fields]
  (* node.go:196, 199; WriteToUDP returns the number of bytes sent, all of them *)
  | SL_write _, CErr => [mkEntry Debug "error writing packet" (("error", VError) :: node_fields)%string]
  | SL_write x, CGo => [mkEntry Debug "packet sent" (("dst", VAddr (fst (snd x))) :: ("bytes", VNum (len (snd (snd x)))) :: node_fields)%string]
  (* node.go:236; line 232 is not reached, from is nil after an error *)
  | RD_got _ (Some (from, num)), CGo =>
      if S_shutdown s then [] else if IP_Equal (E_localIP E) (fst from) then []
      else [mkEntry Debug "received packet" (("src", VAddr from) :: ("bytes", VNum (N.of_nat num)) :: node_fields)%string]
  (* node.go:253-256; the field src, the address of the sender, is left out: the queue of Sys.v does not carry it *)
  | RL_parse d, CGo =>
      match Unmarshal d with
      | Ret (_, Some e) => [mkEntry Warn ("failed to parse packet: " ++ goerr_Error e) (("data", VBytes d) :: node_fields)%string]
      | _ => []
      end
  (* node.go:277, 287, 299 *)
  | H_start p, CGo =>
      let unknown := [mkEntry Debug "unknown packet type" (("packet", VPacket p) :: node_fields)%string] in
      match S_callbacks s !! GetOpCode p with
      | None => [mkEntry Debug "ignoring unhandled packet" (("packet", VPacket p) :: node_fields)%string]
      | Some HPoll => match p with PktPoll _ => [] | _ => unknown end
      | Some HPollReply => if C_Type (E_config E) =? StController then match p with PktPollReply _ => [] | _ => unknown end else []
      | Some (HUser _) => []
      end
  (* controller.go:161 *)
  | CP_start, CGo =>
      match snd (Poll_MarshalBinary (mkPoll Header_zero (TalkToMe_WithReplyOnChange 0 true) DpAll)) with
      | Ok _ => []
      | Err _ => [mkEntry Error "error creating ArtPoll packet" (("err", VError) :: ctl_fields s)%string]
      end
  | CP_gc _, CClock clock => gcNode_log (ctl_fields s) (S_tables s) clock
  | CP_reply _ q, CTime _ => reply_log (ctl_fields s) (S_tables s) q
  | DL_lock now, COrder order => tick_loop_log (ctl_fields s) (S_tables s) order now
  | U_send dmx a, CGo => send_log (ctl_fields s) (S_tables s) dmx a
  (* node.go:120 *)
  | U_start_node, CGo =>
      match validate (E_config E), StyleCode_String (C_Type (E_config E)) with
      | None, Ret ty => [mkEntry Debug "node started" (("ip", VIP (C_IP (E_config E))) :: ("type", VText ty) :: node_fields)%string]
      | _, _ => []
      end
  (* node.go:132 *)
  | U_listen, CErr => [mkEntry Error "error net.ListenPacket" (("error", VError) :: node_fields)%string]
  (* node.go:103-104: closing a socket fails when it is closed already (Go standard library; other errors of Close are not considered). Printf of logrus is at level Info; an operand is
     missing for the verb, which fmt reports in the text. *)
  | U_closeconn, CGo =>
      match last_index (S_conns s) with
      | Some c => if flag_at (S_conns s) c then [] else [mkEntry Info "failed to close read socket: %!v(MISSING)" node_fields]
      | None => []
      end
  | _, _ => []
  end.

(** The entries written by a step of the system. *)
Definition logged (E : env) (y : sys) (l : label) : list entry :=
  match l with
  | LRun i c => match Y_threads y !! i with Some t => tlog E (Y_sh y) t c | None => [] end
  (* node.go:312-315, 324-327: the same text in both *)
  | LRegister op _ | LDeregister op =>
      if negb (S_shutdown (Y_sh y))
      then [mkEntry Debug "ignoring callback registration: node has already been started" (("opcode", VOp op) :: node_fields)%string]
      else []
  | _ => []
  end.

(** An execution with the log it writes. *)
Inductive lsteps (E : env) : sys -> list label -> sys -> list obs -> list entry -> Prop :=
| lsteps_nil y : lsteps E y [] y [] []
| lsteps_snoc y ls y1 tr lg l y2 o :
    lsteps E y ls y1 tr lg -> label_ok l -> exec E y1 l = RNext y2 o -> lsteps E y (ls ++ [l]) y2 (tr ++ o) (lg ++ logged E y1 l).
Definition lruns (E : env) (ls : list label) (y : sys) (tr : list obs) (lg : list entry) : Prop := lsteps E (init E) ls y tr lg.
