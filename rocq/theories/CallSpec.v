(** What happens to the slow outgoing calls of a profiling session, in words of what is reported and what the rings get. *)
From Verif Require Import Base CallModel.
Open Scope list_scope.

Definition call_dec (a b : call) : {a = b} + {a <> b}.
Proof. repeat decide equality. Defined.

(** the calls reported in a history *)
Definition arrived1 (o : cop) : list call := match o with KRecv i id => [(i, id)] | _ => [] end.
Definition arrived (h : list cop) : list call := flat_map arrived1 h.
(** those that goroutine i reports *)
Definition isBy (i : nat) (c : call) : bool := Nat.eqb (fst c) i.
Definition reports (i : nat) (l : list call) : list call := filter (isBy i) l.
(** what follows the moment a profiling session is on *)
Fixpoint sinceOn (h : list cop) : list cop :=
  match h with [] => [] | KStart3 :: h' => h' | _ :: h' => sinceOn h' end.

(** the call is on its way to the rings of the session that is on *)
Definition onItsWay (s : cst) (c : call) : Prop :=
  (exists i, nth_error (c_send s) i = Some (SChecked c)) \/ (exists i, nth_error (c_send s) i = Some (SSending c (cur s))) \/
  (exists q, nth_error (c_chans s) (cur s) = Some q /\ In c q) \/ (exists j, nth_error (c_rd s) j = Some (RGot c)).

(** a step of the goroutines alone: nobody starts, stops or reports anything *)
Definition ofGoroutines (o : cop) : Prop :=
  match o with KStart | KStart2 | KStart3 | KStop | KStop2 | KRecv _ _ => False | _ => True end.
