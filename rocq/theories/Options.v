(** options.go:12-15, 51-54: SetOption called on a node or controller that already exists, running or not, between any two steps of its goroutines.
    Sys.v takes the fields that options set from an [env] that never changes; here they are variables, so what a goroutine has already read from them is kept per goroutine.
    Simplifications: the write to the field is one step (for the address, a struct of several words, Go does not promise this: no lock is held, see C99_race_refuted); a goroutine about to send reads the
    address in the same step as the channel. *)
From Verif Require Export Sys.
From stdpp Require Import base list gmap.
Open Scope N_scope.

(** options.go:51-54 (a plain Node) and 12-15 (a Controller; its cNode is private, options 35-46 reach it through the controller). *)
Inductive setting := SetN (o : NodeOption) | SetC (o : Option).
Definition set_option (E : env) (o : setting) : option env :=
  match o with
  | SetN o => if E_ctl E then None else Some (node_option E o)
  | SetC o => if E_ctl E then Some (ctl_option E o) else None
  end.

(** O_env: the current values of the fields. O_loc i: the values they had when goroutine i last read those it uses. *)
Record osys := mkOsys { O_env : env; O_sys : sys; O_loc : nat -> env }.
(** The steps that read a field: node.go:169 n.broadcastAddr, controller.go:167 and 178 c.broadcastAddr (part of the payload, so read before the send can block), controller.go:236 c.maxFPS
    (into the local variable fpsInterval). n.listenAddr is read by Start only (node.go:129), which address is listened on is not part of the model. *)
Definition reads (t : thread) : bool := match t with PR_send _ | CP_send _ | DL_start => true | _ => false end.
(** The steps that use what was read before: the sends themselves, and dmxUpdateLoop from 237 on. *)
Definition uses (t : thread) : bool :=
  match t with PR_sending _ _ | CP_sending _ _ | DL_loop | DL_wait _ | DL_lock _ | DL_push _ | DL_pushing _ _ _ => true | _ => false end.
Definition is_dmx (t : thread) : bool :=
  match t with DL_start | DL_loop | DL_wait _ | DL_lock _ | DL_push _ | DL_pushing _ _ _ => true | _ => false end.
(** Sys.v has maxFPS among the tables, where only dmxUpdateLoop reads it: put there the value this goroutine has (controller.go:236). *)
Definition with_fps (s : shared) (fps : Z) : shared :=
  with_tables s (mkController (K_heap (S_tables s)) (K_next (S_tables s)) (K_Nodes (S_tables s)) (K_OutputAddress (S_tables s)) (K_InputAddress (S_tables s)) fps) (S_lock s).
Definition seen (z : osys) (l : label) : env * sys :=
  match l with
  | LRun i _ =>
      match Y_threads (O_sys z) !! i with
      | Some t => let E := if uses t then O_loc z i else O_env z in
                  (E, if is_dmx t then mkSys (with_fps (Y_sh (O_sys z)) (E_maxFPS E)) (Y_threads (O_sys z)) else O_sys z)
      | None => (O_env z, O_sys z)
      end
  | _ => (O_env z, O_sys z)
  end.
Definition remember (z : osys) (l : label) : nat -> env :=
  match l with
  | LRun i _ =>
      match Y_threads (O_sys z) !! i with
      | Some t => if reads t then fun j => if decide (j = i) then O_env z else O_loc z j else O_loc z
      | None => O_loc z
      end
  | _ => O_loc z
  end.

(** A step: SetOption, or what Sys.exec does. *)
Inductive olabel := OSet (o : setting) | ODo (l : label).
Inductive oresult := OBlocked | OCrash | ONext (z : osys) (o : list obs).
Definition oexec (z : osys) (l : olabel) : oresult :=
  match l with
  | OSet o => match set_option (O_env z) o with Some E => ONext (mkOsys E (O_sys z) (O_loc z)) [] | None => OBlocked end
  | ODo l => match exec (fst (seen z l)) (snd (seen z l)) l with
             | RNext y o => ONext (mkOsys (O_env z) y (remember z l)) o
             | RBlocked => OBlocked
             | RCrash => OCrash
             end
  end.
(** node.go:55-89, controller.go:104-117 *)
Definition oinit (E : env) : osys := mkOsys E (init E) (fun _ => E).
Definition olabel_ok (l : olabel) : Prop := match l with OSet _ => True | ODo l => label_ok l end.
(** Executions in which every step is allowed. *)
Inductive osteps (allow : osys -> olabel -> Prop) : osys -> list olabel -> osys -> list obs -> Prop :=
| osteps_nil z : osteps allow z [] z []
| osteps_snoc z ls z1 tr l z2 o : osteps allow z ls z1 tr -> allow z1 l -> olabel_ok l -> oexec z1 l = ONext z2 o -> osteps allow z (ls ++ [l]) z2 (tr ++ o).
Definition oruns (allow : osys -> olabel -> Prop) (E : env) := osteps allow (oinit E).
