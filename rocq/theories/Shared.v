(** Memory that a node or controller shares with the program that made it. net.IP is a slice: NewNode (node.go:82-84) stores the slice it is given both in Config.IP and in localAddr.IP, and the options store the slice inside
    the net.UDPAddr (options.go:26-31, 57-62); nothing copies the bytes. Sys.v takes them from an [env] that never changes; here they are read from a memory that the program may write at any time, one byte at a time.
    - Config.IP is read by pollReplyLoop when it begins (node.go:150, config.go:85), localAddr.IP by the reader for every datagram (node.go:221).
    - A payload in sendCh is a struct that holds the broadcast address with the same slice (node.go:168-171, controller.go:166-169, 177-180); its bytes are read when the datagram is written (node.go:194).
    - A frame is addressed to the IP of a discovered node, a slice of the callee's own copy of the reply (config.go:165), which the program cannot reach before updateNode lists the node; not modelled as shared.
    - The data of SendDMXToAddress is an array, passed by value (controller.go:212); the name is an immutable string.
    Simplifications: the listen address is not shared (it is read by Start only); a write is one step although no lock is held. *)
From Verif Require Export Sys.
From stdpp Require Import base list gmap.
Open Scope N_scope.

(** Backing arrays by location. *)
Definition mem := nat -> list N.
Definition poke (h : mem) (x i : nat) (v : N) : mem := fun z => if (z =? x)%nat then <[i := v]> (h z) else h z.
(** Where the slices of a node are: Config.IP and localAddr.IP, n.broadcastAddr.IP, c.broadcastAddr.IP. *)
Record refs := mkRefs { R_ip : nat; R_node : nat; R_ctl : nat }.
Definition set_ip (c : NodeConfig) (ip : list N) : NodeConfig :=
  mkConfig (C_OEM c) (C_Version c) (C_BiosVersion c) (C_Manufacturer c) (C_Type c) (C_Name c) (C_Description c) (C_Ethernet c) ip (C_BindIP c) (C_BindIndex c) (C_Port c) (C_Report c) (C_Status1 c) (C_Status2 c)
    (C_BaseAddress c) (C_InputPorts c) (C_OutputPorts c).
(** The node as it is now. *)
Definition seen (h : mem) (r : refs) (E : env) : env :=
  mkEnv (E_ctl E) (set_ip (E_config E) (h (R_ip r))) (h (R_ip r)) (E_listen E) (h (R_node r), snd (E_nodeBroadcast E)) (h (R_ctl r), snd (E_ctlBroadcast E)) (E_maxFPS E).
(** Where a payload goes when it is written. *)
Definition dest_now (h : mem) (r : refs) (o : obs) : obs :=
  match o with
  | OTx (KReply, ((_, port), d)) => OTx (KReply, ((h (R_node r), port), d))
  | OTx (KPoll, ((_, port), d)) => OTx (KPoll, ((h (R_ctl r), port), d))
  | _ => o
  end.
Record msys := mkMsys { M_mem : mem; M_sys : sys }.
(** The program writes byte [i] of the array at [x], or what Sys.exec does. *)
Inductive mlabel := MWrite (x i : nat) (v : N) | MDo (l : label).
Inductive mresult := MBlocked | MCrash | MNext (z : msys) (o : list obs).
Definition mexec (E : env) (r : refs) (z : msys) (l : mlabel) : mresult :=
  match l with
  | MWrite x i v => MNext (mkMsys (poke (M_mem z) x i v) (M_sys z)) []
  | MDo l => match exec (seen (M_mem z) r E) (M_sys z) l with
             | RNext y o => MNext (mkMsys (M_mem z) y) (map (dest_now (M_mem z) r) o)
             | RBlocked => MBlocked
             | RCrash => MCrash
             end
  end.
(** At first the memory holds what the constructor was given. *)
Definition holds (h : mem) (r : refs) (E : env) : Prop :=
  h (R_ip r) = E_localIP E /\ h (R_ip r) = C_IP (E_config E) /\ h (R_node r) = fst (E_nodeBroadcast E) /\ h (R_ctl r) = fst (E_ctlBroadcast E).
Definition minit (h : mem) (E : env) : msys := mkMsys h (init E).
Definition mlabel_ok (l : mlabel) : Prop := match l with MWrite _ _ v => v < 256 | MDo l => label_ok l end.
(** Executions in which the program writes only to the allowed places. *)
Inductive msteps (own : nat -> Prop) (E : env) (r : refs) : msys -> list mlabel -> msys -> list obs -> Prop :=
| msteps_nil z : msteps own E r z [] z []
| msteps_snoc z ls z1 tr l z2 o : msteps own E r z ls z1 tr -> match l with MWrite x _ _ => own x | MDo _ => True end -> mlabel_ok l -> mexec E r z1 l = MNext z2 o -> msteps own E r z (ls ++ [l]) z2 (tr ++ o).
