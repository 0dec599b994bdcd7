(** node.go:18-20: Config is an exported field of Node, so the program may assign it at any time: before Start, between the steps of the goroutines, or while the node is stopped.
    Sys.v takes it from an [env] that never changes; here it is a variable. It is read by Start (node.go:117 validate), by pollReplyLoop when it begins (150) and by handlePacketPollReply (296). What was read
    is not kept, apart from the encoded ArtPollReply, which is part of the state of pollReplyLoop (151).
    A Controller's node is private (controller.go:83-84), its Config cannot be assigned.
    Simplifications: an assignment is one step, also of the whole struct (Go does not promise this: no lock is held, see C106_race_refuted); the slices of a configuration are not changed in place. *)
From Verif Require Export Sys.
From stdpp Require Import base list gmap.
Open Scope N_scope.

Definition with_config (E : env) (cfg : NodeConfig) : env :=
  mkEnv (E_ctl E) cfg (E_localIP E) (E_listen E) (E_nodeBroadcast E) (E_ctlBroadcast E) (E_maxFPS E).
(** n.Config and everything else. *)
Record csys := mkCsys { G_cfg : NodeConfig; G_sys : sys }.
(** n.Config = cfg, or what Sys.exec does. *)
Inductive clabel := CAssign (cfg : NodeConfig) | CDo (l : label).
Inductive cresult := CBlocked | CCrash | CNext (z : csys) (o : list obs).
Definition cexec (E : env) (z : csys) (l : clabel) : cresult :=
  match l with
  | CAssign cfg => if E_ctl E then CBlocked else CNext (mkCsys cfg (G_sys z)) []
  | CDo l => match exec (with_config E (G_cfg z)) (G_sys z) l with
             | RNext y o => CNext (mkCsys (G_cfg z) y) o
             | RBlocked => CBlocked
             | RCrash => CCrash
             end
  end.
(** node.go:55-89 *)
Definition cinit (E : env) : csys := mkCsys (E_config E) (init E).
Definition clabel_ok (l : clabel) : Prop := match l with CAssign _ => True | CDo l => label_ok l end.
(** Executions in which every step is allowed. *)
Inductive csteps (allow : csys -> clabel -> Prop) (E : env) : csys -> list clabel -> csys -> list obs -> Prop :=
| csteps_nil z : csteps allow E z [] z []
| csteps_snoc z ls z1 tr l z2 o : csteps allow E z ls z1 tr -> allow z1 l -> clabel_ok l -> cexec E z1 l = CNext z2 o -> csteps allow E z (ls ++ [l]) z2 (tr ++ o).
Definition cruns (allow : csys -> clabel -> Prop) (E : env) := csteps allow E (cinit E).
