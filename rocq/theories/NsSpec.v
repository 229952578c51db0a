(** Which tables of connections must be read when the collector starts. *)
From Verif Require Import Base NsModel.
Open Scope list_scope. Open Scope Z_scope.

(** Each namespace once, at its first process. *)
Fixpoint firsts (l : list Z) : list Z := match l with [] => [] | x :: r => x :: filter (fun y => negb (y =? x)) (firsts r) end.
(** The root namespace, and with all namespaces configured those of the processes that the root namespace knows as peers. *)
Definition wanted (all : bool) (root : Z) (peer : Z -> bool) (procs : list Z) : list Z :=
  root :: if all then filter (fun x => negb (x =? root) && peer x) (firsts procs) else [].
(** The handles of a process are different numbers below the next one. *)
Definition clean (w : world) : Prop := Forall (fun p => fst p < nxt w) (fds w) /\ NoDup (keys (fds w)).
