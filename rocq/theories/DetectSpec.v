(** What protocol detection should do, from the history alone. *)
From Verif Require Import Base DetectModel.
Open Scope string_scope. Open Scope list_scope. Open Scope Z_scope.

(** Additions to and removals from the cache. *)
Inductive cop : Type := CAdd (port : Z) (p : pname) | CRemove (port : Z) (p : pname).
Definition copStep (c : pcache) (o : cop) : res pcache :=
  match o with CAdd port p => Ok (addCached c port p) | CRemove port p => removeCached c port p end.
Fixpoint copRun (c : pcache) (l : list cop) : res pcache :=
  match l with [] => Ok c | o :: l' => bind (copStep c o) (fun c' => copRun c' l') end.
(** The parsers a port should have: those whose latest operation is an addition, oldest surviving addition first,
    the generic parser after all others. *)
Definition without (p : pname) (l : list pname) : list pname := filter (fun q => negb (eqb q p)) l.
Fixpoint added (port : Z) (l : list cop) (acc : list pname) : list pname :=
  match l with
  | [] => acc
  | CAdd q p :: l' => added port l' (if eqb q port then (if in_dec string_dec p acc then acc else acc ++ [p]) else acc)
  | CRemove q p :: l' => added port l' (if eqb q port then without p acc else acc)
  end.
Definition expectedParsers (port : Z) (l : list cop) : list pname :=
  let a := added port l [] in
  without NOSUPPORT a ++ (if in_dec string_dec NOSUPPORT a then [NOSUPPORT] else []).

(** How often a protocol was the verdict on a port that has no static protocol. *)
Section Count.
  Context {X R : Type} (port : X -> Z) (hasRequest : X -> bool).
  Definition chosenBy (p : pname) (v : verdict (R:=R)) : bool := match v with Parsed q _ => eqb q p | _ => false end.
  Fixpoint timesChosen (k : dconf) (pt : Z) (p : pname) (l : list X) (vs : list (verdict (R:=R))) : Z :=
    match l, vs with
    | x :: l', v :: vs' =>
        (if (port x =? pt) && negb (ahas (static k) pt) && chosenBy p v then 1 else 0) + timesChosen k pt p l' vs'
    | _, _ => 0
    end.
End Count.
(** A protocol is remembered for a port from its 50th detection on; "no protocol" from its 50th of every 5000. *)
Definition remembered (p : pname) (n : Z) : Prop :=
  if eqb p NOSUPPORT then 50 <= n mod 5000 else 50 <= n.
