(** What label maps should do: each map is an independent partial function from names to values. *)
From Verif Require Import Base AttrModel.

Definition vmap := string -> option aval.
Definition vput (m : vmap) (k : string) (v : option aval) : vmap := fun x => if eqb x k then v else m x.

(** What one operation does to the map it targets, the other maps being read only.
    [None]: the operation panics. *)
Definition vtarget (ms : nat -> vmap) (o : aop) : option vmap :=
  match o with
  | ANew => Some (fun _ => None)
  | AAdd i k v => Some (vput (ms i) k (Some v))
  | AUpd i k v => match ms i k with
                  | Some old => if same_type old v then Some (vput (ms i) k (Some v)) else None
                  | None => Some (vput (ms i) k (Some v))
                  end
  | ARemove i k => Some (vput (ms i) k None)
  | AClear i => Some (fun _ => None)
  | AMerge i j => Some (fun x => match ms j x with Some v => Some v | None => ms i x end)
  | AReset i => Some (fun x => option_map zero_of (ms i x))
  | AClone i => Some (ms i)
  end.

(** Which map an operation writes, in a program that has created [n] maps so far. *)
Definition target (n : nat) (o : aop) : nat :=
  match o with
  | ANew => n | AClone _ => n
  | AAdd i _ _ => i | AUpd i _ _ => i | ARemove i _ => i | AClear i => i | AMerge i _ => i | AReset i => i
  end.

(** The maps an operation names. *)
Definition mentions (o : aop) : list nat :=
  match o with
  | ANew => []
  | AClone i => [i]
  | AAdd i _ _ => [i] | AUpd i _ _ => [i] | ARemove i _ => [i] | AClear i => [i] | AMerge i j => [i; j] | AReset i => [i]
  end.

Definition is_merge (o : aop) : bool := match o with AMerge _ _ => true | _ => false end.

(** Independent maps: the whole program over partial functions.  [n] maps exist; names out of range panic. *)
Record vworld := { vn : nat; vms : nat -> vmap }.
Definition vstep (w : vworld) (o : aop) : option vworld :=
  if forallb (fun i => (i <? vn w)%nat) (mentions o) then
    match vtarget (vms w) o with
    | Some m => Some {| vn := Nat.max (vn w) (S (target (vn w) o));
                        vms := fun i => if Nat.eqb i (target (vn w) o) then m else vms w i |}
    | None => None
    end
  else None.
Fixpoint vrun (w : vworld) (os : list aop) : option vworld :=
  match os with
  | [] => Some w
  | o :: os' => match vstep w o with Some w' => vrun w' os' | None => None end
  end.
Definition vempty : vworld := {| vn := 0; vms := fun _ _ => None |}.
