(* What "no deadlock" and "no concurrent access" mean for goroutines that call functions of the metadata cache. *)
From Verif Require Import Base LockModel.
Open Scope list_scope.
Open Scope Z_scope.

(* Any number of goroutines, each with any list of calls, under any schedule: the states that can come up. *)
Inductive reach (net : nat -> bool) (calls : list (list op)) : list thread -> Prop :=
| reach0 : reach net calls (map goroutine calls)
| reach1 : forall s s' i, reach net calls s -> step net i s = Some s' -> reach net calls s'.

(* the same, counting the steps *)
Inductive steps (net : nat -> bool) : nat -> list thread -> list thread -> Prop :=
| steps0 : forall s, steps net O s s
| steps1 : forall n s s' s'' i, steps net n s s' -> step net i s' = Some s'' -> steps net (S n) s s''.

Definition ended (t : thread) : Prop := t_rest t = [].
Definition allEnded (s : list thread) : Prop := forall t, In t s -> ended t.
(* somebody can go on *)
Definition alive (net : nat -> bool) (s : list thread) : Prop := exists i s', step net i s = Some s'.

(* goroutine i is about to read, or to write, the table v *)
Definition aboutToRead (s : list thread) (i : nat) (v : var) : Prop := exists t r, nth_error s i = Some t /\ t_rest t = ARead v :: r.
Definition aboutToWrite (s : list thread) (i : nat) (v : var) : Prop := exists t r, nth_error s i = Some t /\ t_rest t = AWrite v :: r.
(* two goroutines are at the same table at once and one of them writes: "fatal error: concurrent map read and map
   write" for a map, a data race in any case *)
Definition clash (s : list thread) (v : var) : Prop :=
  exists i j, i <> j /\ aboutToWrite s i v /\ (aboutToRead s j v \/ aboutToWrite s j v).

Definition every (net : nat -> bool) : Prop := forall i, net i = true.
Definition isSnapshot (o : op) : Prop := exists cs, o = OSnapshot cs.
Definition isSetup (o : op) : Prop := exists u, o = OSetup u.
Definition nobody (calls : list (list op)) (bad : op -> Prop) : Prop := forall ops o, In ops calls -> In o ops -> ~ bad o.
