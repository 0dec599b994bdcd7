(** node.go:274-282: the callbacks of the user. Sys.v has the invocation of a callback as an observation and lets the goroutine end at once; here an invocation lasts until the callback returns, at any later
    time or never. It runs in the goroutine of handlePacket that recvLoop started for the packet (264), after which this goroutine does nothing but end.
    What callbacks call (Start, Stop, RegisterCallback, DeregisterCallback) is among the calls of Sys.v, which can be made at any time.
    Simplifications: what callbacks compute is not modelled, nor a panic of a callback (nothing recovers it: the process ends). *)
From Verif Require Export Sys.
From stdpp Require Import base list gmap.
Open Scope N_scope.

(** callback(p), node.go:281 *)
Definition invocation : Type := N * packet.
Definition invoked (o : list obs) : list invocation := omap (fun x => match x with OCall (HUser f) p => Some (f, p) | _ => None end) o.
(** The invocations that have not returned, in the order they began. *)
Record isys := mkI { I_sys : sys; I_running : list invocation }.
Inductive ilabel := IDo (l : label) | IReturn (k : nat).
Inductive istep (E : env) : isys -> ilabel -> isys -> list obs -> Prop :=
| i_do z l y o : label_ok l -> exec E (I_sys z) l = RNext y o -> istep E z (IDo l) (mkI y (I_running z ++ invoked o)) o
| i_return z k x : I_running z !! k = Some x -> istep E z (IReturn k) (mkI (I_sys z) (delete k (I_running z))) [].
Inductive isteps (E : env) : isys -> list ilabel -> isys -> list obs -> Prop :=
| isteps_nil z : isteps E z [] z []
| isteps_snoc z ls z1 tr l z2 o : isteps E z ls z1 tr -> istep E z1 l z2 o -> isteps E z (ls ++ [l]) z2 (tr ++ o).
Definition iruns (E : env) := isteps E (mkI (init E) []).
(** The steps other than the returns. *)
Definition done (ls : list ilabel) : list label := omap (fun l => match l with IDo l => Some l | IReturn _ => None end) ls.
