(** What the tracker's own metrics should say, from the calls made to it alone. *)
From Verif Require Import Base ConntrackModel CtStatModel.
Open Scope string_scope. Open Scope list_scope. Open Scope Z_scope.

(** Translated connections (C35 says when the test answers yes) *)
Definition translated (x : con) : bool := match IsNAT x with Some b => b | None => false end.
Definition count (f : call -> bool) (h : list call) : Z := zlen (filter f h).
Definition isAsk (o : call) : bool := match o with Ask _ => true | _ => false end.
(** a translated connection was read or announced *)
Definition isKept (o : call) : bool := match o with Load x _ _ | Announce x _ _ => translated x | _ => false end.
(** an untranslated connection was announced *)
Definition isRefused (o : call) : bool := match o with Announce x _ _ => negb (translated x) | _ => false end.

(** The one or two tuples under which a translated connection is stored (none if neither TCP nor UDP) *)
Definition tupleKey (t : option ipTuple) : list connKey :=
  match t with Some t => match formatKey t with Some (Some k) => [k] | _ => [] end | None => [] end.
Definition tuplesOf (o : call) : list connKey :=
  match o with Load x _ _ | Announce x _ _ => if translated x then tupleKey (origin x) ++ tupleKey (reply x) else [] | _ => [] end.
Definition tuples (h : list call) : list connKey := flat_map tuplesOf h.

(** A tuple is waiting when it was last announced, and not asked for or read from the dump since *)
Definition waitStep (w : connKey -> bool) (o : call) (k : connKey) : bool :=
  match o with
  | Announce _ _ _ => if existsb (eqb k) (tuplesOf o) then true else w k
  | Load _ _ _ => if existsb (eqb k) (tuplesOf o) then false else w k
  | Ask s => if eqb k (keyOfStats s) then false else w k
  | _ => w k
  end.
Definition waiting (h : list call) : connKey -> bool := fold_left waitStep h (fun _ => false).

(** The operations on the cache that the calls make, in the terms of C34: a connection is stored once per direction *)
Definition dirOp (kt tr : option ipTuple) (b : bool) (now : Z) : list op :=
  match kt, tr with
  | Some kt, Some tr =>
      match formatKey kt, formatIPTranslation tr with Some (Some k), Some t => [Reg k t b now] | _, _ => [] end
  | _, _ => []
  end.
Definition opsOf (o : call) : list op :=
  match o with
  | Load x n1 n2 => if translated x then dirOp (origin x) (reply x) false n1 ++ dirOp (reply x) (origin x) false n2 else []
  | Announce x n1 n2 => if translated x then dirOp (origin x) (reply x) true n1 ++ dirOp (reply x) (origin x) true n2 else []
  | Ask s => [Get (keyOfStats s)]
  | Delete s => [Rem (keyOfStats s)]
  | Tick now => [Compact now]
  end.

(** The number a metric shows for a label *)
Fixpoint shown (l : list (string * string * Z)) (metric label : string) : option Z :=
  match l with
  | [] => None
  | (m, x, v) :: l => if eqb m metric && eqb x label then Some v else shown l metric label
  end.
