(** Model of collector/pkg/model/attribute_map.go: label maps.
    Values are Go pointers (to a stringValue, an intValue or a boolValue), so the model has a heap:
    a map sends a label name to a location, and a location holds a typed value.
    A world holds the heap and every map a program has created, so that several maps may share
    locations exactly as the code lets them. *)
From Verif Require Import Base Decimal.

(** attribute_map.go:8-14, 193-269: the three value types. *)
Inductive aval : Type :=
| SV (s : bytes)
| IV (z : Z)
| BV (b : bool).

Definition aval_eqb (a b : aval) : bool :=
  match a, b with
  | SV s, SV t => eqb s t
  | IV x, IV y => Z.eqb x y
  | BV x, BV y => Bool.eqb x y
  | _, _ => false
  end.
Lemma aval_eqb_eq a b : aval_eqb a b = true <-> a = b.
Proof.
  destruct a, b; cbn [aval_eqb]; try (split; congruence).
  - rewrite eqb_eq. split; congruence.
  - rewrite Z.eqb_eq. split; congruence.
  - rewrite Bool.eqb_true_iff. split; congruence.
Qed.
#[export] Instance Eqb_aval : Eqb aval := {| eqb := aval_eqb; eqb_eq := aval_eqb_eq |}.

(** attribute_map.go:203-205, 227-229, 251-253 Type(): same type? *)
Definition same_type (a b : aval) : bool :=
  match a, b with SV _, SV _ => true | IV _, IV _ => true | BV _, BV _ => true | _, _ => false end.

(** attribute_map.go:219-221, 243-245, 267-269 Reset() *)
Definition zero_of (a : aval) : aval :=
  match a with SV _ => SV [] | IV _ => IV 0 | BV _ => BV false end.

(** attribute_map.go:215-217, 231-233, 255-257 ToString() *)
Definition toString (a : aval) : bytes :=
  match a with SV s => s | IV z => formatInt z | BV b => formatBool b end.

Definition heap := list aval.
(** attribute_map.go:16-18: map[string]AttributeValue, an AttributeValue being a pointer. *)
Definition amap := list (string * nat).

Record world := { hp : heap; maps : list amap }.

(** Replace the [n]th element (no effect out of range). *)
Fixpoint set_nth {A} (l : list A) (n : nat) (x : A) : list A :=
  match l, n with
  | [], _ => []
  | _ :: t, O => x :: t
  | a :: t, S n' => a :: set_nth t n' x
  end.

(** [a.values[key]] followed through the pointer. *)
Definition deref (h : heap) (m : amap) (k : string) : option aval :=
  match aget m k with Some l => nth_error h l | None => None end.

(** attribute_map.go:79-83, 101-105, 123-127 Add*Value: a new value under the key. *)
Definition addValue (h : heap) (m : amap) (k : string) (v : aval) : heap * amap :=
  (h ++ [v], aset m k (List.length h)).

(** attribute_map.go:85-91, 107-113, 129-135 UpdateAdd*Value: writes through the existing pointer,
    panicking when the existing value has another type. *)
Definition updateAddValue (h : heap) (m : amap) (k : string) (v : aval) : res (heap * amap) :=
  match aget m k with
  | Some l => match nth_error h l with
              | Some old => if same_type old v then Ok (set_nth h l v, m) else Panic
              | None => Panic
              end
  | None => Ok (addValue h m k v)
  end.

(** attribute_map.go:49-56 Merge: copies the pointers. *)
Definition mergeMaps (m other : amap) : amap :=
  fold_left (fun m p => aset m (fst p) (snd p)) other m.

(** attribute_map.go:164-168 ResetValues *)
Definition resetValues (h : heap) (m : amap) : heap :=
  fold_left (fun h p => match nth_error h (snd p) with
                        | Some v => set_nth h (snd p) (zero_of v)
                        | None => h
                        end) m h.

(** attribute_map.go:175-191 Clone *)
Definition cloneMap (h : heap) (m : amap) : heap * amap :=
  fold_left (fun (st : heap * amap) p =>
               match nth_error (fst st) (snd p) with
               | Some v => addValue (fst st) (snd st) (fst p) v
               | None => st
               end) m (h, []).

(** attribute_map.go:145-154 ToStringMap *)
Definition toStringMap (h : heap) (m : amap) : list (string * bytes) :=
  fold_left (fun acc p => match nth_error h (snd p) with
                          | Some v => aset acc (fst p) (toString v)
                          | None => acc
                          end) m [].

(** attribute_map.go:58-60 Size *)
Definition size (m : amap) : Z := zlen m.
(** attribute_map.go:66-69 HasAttribute *)
Definition hasAttribute (m : amap) (k : string) : bool := ahas m k.

(** The typed getters, as functions of the value found (or not).
    attribute_map.go:71-77 GetStringValue *)
Definition asString (v : option aval) : bytes := match v with Some (SV s) => s | _ => [] end.
(** attribute_map.go:93-99 GetIntValue *)
Definition asInt (v : option aval) : Z := match v with Some (IV z) => z | _ => 0 end.
(** attribute_map.go:115-121 GetBoolValue *)
Definition asBool (v : option aval) : bool := match v with Some (BV b) => b | _ => false end.

(** The operations a program can perform on the maps it holds (maps are named by index). *)
Inductive aop : Type :=
| ANew                                (* NewAttributeMap, :28-31 *)
| AAdd (i : nat) (k : string) (v : aval)
| AUpd (i : nat) (k : string) (v : aval)
| ARemove (i : nat) (k : string)      (* RemoveAttribute, :137-139 *)
| AClear (i : nat)                    (* ClearAttributes, :141-143 *)
| AMerge (i j : nat)                  (* maps[i].Merge(maps[j]) *)
| AReset (i : nat)
| AClone (i : nat).                   (* the clone becomes a new map *)

Definition astep (w : world) (o : aop) : res world :=
  match o with
  | ANew => Ok {| hp := hp w; maps := maps w ++ [[]] |}
  | AAdd i k v =>
      match nth_error (maps w) i with
      | Some m => let '(h, m') := addValue (hp w) m k v in Ok {| hp := h; maps := set_nth (maps w) i m' |}
      | None => Panic
      end
  | AUpd i k v =>
      match nth_error (maps w) i with
      | Some m => match updateAddValue (hp w) m k v with
                  | Ok (h, m') => Ok {| hp := h; maps := set_nth (maps w) i m' |}
                  | Err => Err
                  | Panic => Panic
                  end
      | None => Panic
      end
  | ARemove i k =>
      match nth_error (maps w) i with
      | Some m => Ok {| hp := hp w; maps := set_nth (maps w) i (adel m k) |}
      | None => Panic
      end
  | AClear i =>
      match nth_error (maps w) i with
      | Some m => Ok {| hp := hp w; maps := set_nth (maps w) i [] |}
      | None => Panic
      end
  | AMerge i j =>
      match nth_error (maps w) i, nth_error (maps w) j with
      | Some m, Some o => Ok {| hp := hp w; maps := set_nth (maps w) i (mergeMaps m o) |}
      | _, _ => Panic
      end
  | AReset i =>
      match nth_error (maps w) i with
      | Some m => Ok {| hp := resetValues (hp w) m; maps := maps w |}
      | None => Panic
      end
  | AClone i =>
      match nth_error (maps w) i with
      | Some m => let '(h, c) := cloneMap (hp w) m in Ok {| hp := h; maps := maps w ++ [c] |}
      | None => Panic
      end
  end.

Fixpoint arun (w : world) (os : list aop) : res world :=
  match os with
  | [] => Ok w
  | o :: os' => bind (astep w o) (fun w' => arun w' os')
  end.

Definition empty_world : world := {| hp := []; maps := [] |}.

(** What map [i] shows under [k]. *)
Definition look (w : world) (i : nat) (k : string) : option aval :=
  match nth_error (maps w) i with Some m => deref (hp w) m k | None => None end.
