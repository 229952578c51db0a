(** Statements whose table the content key names. *)
From Verif Require Import Base.
Open Scope string_scope. Open Scope list_scope. Open Scope Z_scope.

(** operation and the words that introduce its table *)
Definition operations : list (string * list string) :=
  [("select", ["from"]); ("insert", ["into"]); ("update", ["update"]); ("delete", ["from"]); ("drop", ["index"; "table"; "database"]);
   ("create", ["index"; "table"; "database"]); ("alter", ["table"]); ("set", ["set"]); ("commit", ["commit"])].
Definition space (c : Z) : Prop := In c [9; 10; 12; 13; 32].
Definition spaces (s : bytes) : Prop := Forall space s.
Definition unspaced (s : bytes) : Prop := Forall (fun c => ~ space c) s.
(** equal up to ASCII case *)
Definition lowerCase (s : bytes) : bytes := map (fun c => if (65 <=? c) && (c <=? 90) then c + 32 else c) s.
Definition spells (s : bytes) (w : string) : Prop := lowerCase s = bs w.
(** letters, underscore and minus *)
Definition nameChar (c : Z) : Prop := 65 <= c <= 90 \/ 97 <= c <= 122 \/ c = 95 \/ c = 45.
Definition name (t : bytes) : Prop := t <> [] /\ Forall nameChar t.
(** the statement begins with the operation, after white space *)
Definition opens (s : bytes) (op : string) : Prop := exists sp w r, s = sp ++ w ++ r /\ spaces sp /\ spells w op.
(** [pre] is followed by an introducing word and white space *)
Definition introduces (ks : list string) (s pre w sp rest : bytes) : Prop :=
  s = pre ++ w ++ sp ++ rest /\ (exists k, In k ks /\ spells w k) /\ sp <> [] /\ spaces sp.
(** what stands behind a word *)
Definition wordEnd (rest : bytes) : Prop := rest = [] \/ exists c r, rest = c :: r /\ space c.
(** [pre] is the first place of the statement where an introducing word stands *)
Definition firstIn (ks : list string) (s pre : bytes) : Prop :=
  forall pre' w sp rest, introduces ks s pre' w sp rest -> (List.length pre <= List.length pre')%nat.
