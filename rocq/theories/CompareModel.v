(** collector/pkg/compare and TruncateContainerId of metadata/kubernetes/pod_watch.go. *)
From Verif Require Import Base.

(** The two comparators (int32_slice.go, string_slice.go) are the same code at two element types;
    the model is generic in the element type. *)
Section Compare.
  Context {A : Type} `{Eqb A}.

  (** int32_slice.go:3-8, string_slice.go:3-8 *)
  Record comparer := {
    oldElements : list A; oldFlags : list bool;
    newElements : list A; newFlags : list bool }.

  (** int32_slice.go:10-17 NewInt32Slice, string_slice.go:10-17 NewStringSlice *)
  Definition NewSlice (olds news : list A) : comparer :=
    {| oldElements := olds; oldFlags := repeat false (List.length olds);
       newElements := news; newFlags := repeat false (List.length news) |}.

  (** [flags[i] = true] *)
  Fixpoint setFlag (flags : list bool) (i : nat) : list bool :=
    match flags, i with
    | [], _ => []
    | _ :: f, O => true :: f
    | b :: f, S i' => b :: setFlag f i'
    end.

  (** int32_slice.go:22-27: inner loop over the old elements, [j] is the index of the head of [olds] *)
  Fixpoint innerLoop (olds : list A) (j i : nat) (newE : A) (c : comparer) : comparer :=
    match olds with
    | [] => c
    | o :: olds' =>
        let c' := if eqb o newE
                  then {| oldElements := oldElements c; oldFlags := setFlag (oldFlags c) j;
                          newElements := newElements c; newFlags := setFlag (newFlags c) i |}
                  else c in
        innerLoop olds' (S j) i newE c'
    end.

  (** int32_slice.go:21-28: outer loop over the new elements *)
  Fixpoint outerLoop (news : list A) (i : nat) (c : comparer) : comparer :=
    match news with
    | [] => c
    | n :: news' => outerLoop news' (S i) (innerLoop (oldElements c) O i n c)
    end.

  (** int32_slice.go:19-29 Compare *)
  Definition Compare (c : comparer) : comparer := outerLoop (newElements c) O c.

  (** int32_slice.go:31-39 and 41-49: the elements whose flag is not set, in order *)
  Fixpoint unflagged (flags : list bool) (els : list A) : list A :=
    match flags, els with
    | f :: flags', e :: els' => if f then unflagged flags' els' else e :: unflagged flags' els'
    | _, _ => []
    end.
  (** int32_slice.go:31-39, string_slice.go:31-39 *)
  Definition GetRemovedElements (c : comparer) : list A := unflagged (oldFlags c) (oldElements c).
  (** int32_slice.go:41-49, string_slice.go:41-49 *)
  Definition GetAddedElements (c : comparer) : list A := unflagged (newFlags c) (newElements c).
End Compare.
Arguments comparer A : clear implicits.

(** Go strings.SplitN(s, "://", 2) (pod_watch.go:491): the text after the first separator, if any. *)
Definition SEP : bytes := [58; 47; 47].
Fixpoint afterSep (l : bytes) : option bytes :=
  match l with
  | [] => None
  | _ :: l' => if starts_with SEP l then Some (skipn 3 l) else afterSep l'
  end.

(** pod_watch.go:489-501 TruncateContainerId *)
Definition TruncateContainerId (containerId : bytes) : bytes :=
  match afterSep containerId with
  | None => []
  | Some second =>
      let l := zlen second in
      let l := if 12 <? l then 12 else l in
      slice second 0 l
  end.
