(** Model of collector/pkg/aggregator/label_key.go: aggregation keys. *)
From Verif Require Import Base Decimal AttrModel.

(** A label set, read through its typed getters: name |-> typed value (attribute_map.go:16-18). *)
Definition labelset := list (string * aval).

(** label_key.go:10-16: the selector types are the Go strings below; an unused key has the empty type. *)
Definition BooleanType : string := "boolean".
Definition StringType : string := "string".
Definition IntType : string := "int".

(** label_key.go:22-25 LabelSelector: (Name, VType) *)
Definition selector := (string * string)%type.
(** label_key.go:73-78 LabelKey: (Name, Value, VType) (the embedded nil interface is the same in all keys) *)
Definition lkey := ((string * bytes) * string)%type.
Definition kname (k : lkey) : string := fst (fst k).
Definition kvalue (k : lkey) : bytes := snd (fst k).
Definition ktype (k : lkey) : string := snd k.
Definition blank : lkey := ((""%string, []), ""%string).

(** label_key.go:53 *)
Definition maxLabelKeySize : nat := 37.

(** label_key.go:34-44: one entry of GetLabelKeys *)
Definition selectKey (l : labelset) (s : selector) : lkey :=
  let v := if eqb (snd s) BooleanType then formatBool (asBool (aget l (fst s)))
           else if eqb (snd s) StringType then asString (aget l (fst s))
           else if eqb (snd s) IntType then formatInt (asInt (aget l (fst s)))
           else [] in
  ((fst s, v), snd s).

(** Fill the fixed-size array: the rest stays blank. *)
Definition pad (l : list lkey) : list lkey := l ++ repeat blank (maxLabelKeySize - List.length l).

(** label_key.go:31-47 LabelSelectors.GetLabelKeys *)
Definition getLabelKeys (sels : list selector) (l : labelset) : list lkey :=
  pad (map (selectKey l) (firstn maxLabelKeySize sels)).

(** label_key.go:90-105 LabelKeys.GetLabels *)
Definition keyLabel (acc : labelset) (k : lkey) : labelset :=
  if eqb (ktype k) BooleanType then aset acc (kname k) (BV (fst (parseBool (kvalue k))))
  else if eqb (ktype k) StringType then aset acc (kname k) (SV (kvalue k))
  else if eqb (ktype k) IntType then aset acc (kname k) (IV (fst (parseInt 64 (kvalue k))))
  else acc.
Definition getLabels (ks : list lkey) : labelset := fold_left keyLabel ks [].

(** label_key.go:113-122: the key of one label of a map *)
Definition labelToKey (p : string * aval) : lkey :=
  ((fst p, toString (snd p)),
   match snd p with SV _ => StringType | IV _ => IntType | BV _ => BooleanType end).

(** sort.Sort(keys) with Less comparing names (label_key.go:69-71, 125).  Go's sort is not stable; any sorted
    permutation is the same list when names are distinct (KeyProofs.v, sorted_unique), so insertion sort stands for it. *)
Fixpoint insertKey (k : lkey) (l : list lkey) : list lkey :=
  match l with
  | [] => [k]
  | x :: l' => if String.leb (kname k) (kname x) then k :: l else x :: insertKey k l'
  end.
Definition sortKeys (l : list lkey) : list lkey := fold_right insertKey [] l.

(** label_key.go:108-127 GetLabelsKeys; the list is the iteration order Go happens to use.
    The 38th label writes outside the array: a run-time panic. *)
Definition getLabelsKeys (l : labelset) : res (list lkey) :=
  if (List.length l <=? maxLabelKeySize)%nat then Ok (sortKeys (pad (map labelToKey l))) else Panic.
