(** The locking of MetaDataCache.IpContainerInfo (k8scache.go:131-146, 201-214; IpServiceInfo, :228-243, :259-272, is the same).  The pods' watch and the loop
    of deletions run in different goroutines.  Each operation takes the lock twice: it reads the map of its address under the read lock, and works on what it
    found under the write lock.  The maps of the addresses are shared by reference: they live in a heap. *)
From Verif Require Import Base CompareModel K8sModel.
Open Scope string_scope. Open Scope list_scope. Open Scope Z_scope.

Section Conc.
  Context {V : Type}.
  Inductive aop : Type := AAdd (ip : bytes) (p : Z) (v : V) | ADelete (ip : bytes) (p : Z).
  Definition ipOf (o : aop) : bytes := match o with AAdd ip _ _ => ip | ADelete ip _ => ip end.
  Record cstate := { c_outer : list (bytes * nat); c_heap : list (list (Z * V)); c_flights : list (Z * (aop * option nat)) }.
  Definition c0 : cstate := {| c_outer := []; c_heap := []; c_flights := [] |}.
  Inductive cact : Type := CRead (id : Z) (o : aop) | CWrite (id : Z).
  (** k8scache.go:137-146: AddContainerByIpPort behind the read; the new map is made outside the lock, where nobody sees it *)
  Definition writeAdd (ip : bytes) (p : Z) (v : V) (r : option nat) (st : cstate) (fl : list (Z * (aop * option nat))) : cstate :=
    match r with
    | Some i => {| c_outer := c_outer st; c_heap := upd (c_heap st) i (fun m => aset m p v); c_flights := fl |}
    | None => {| c_outer := aset (c_outer st) ip (List.length (c_heap st)); c_heap := c_heap st ++ [[(p, v)]]; c_flights := fl |}
    end.
  (** k8scache.go:205-213: DeleteContainerByIpPort behind the read *)
  Definition writeDelete (ip : bytes) (p : Z) (r : option nat) (st : cstate) (fl : list (Z * (aop * option nat))) : cstate :=
    match r with
    | None => {| c_outer := c_outer st; c_heap := c_heap st; c_flights := fl |}
    | Some i => let h := upd (c_heap st) i (fun m => adel m p) in
        {| c_outer := match nth i h [] with [] => adel (c_outer st) ip | _ => c_outer st end; c_heap := h; c_flights := fl |}
    end.
  (** one section under the lock; [None] when the action is not enabled *)
  Definition cstep (a : cact) (st : cstate) : option cstate :=
    match a with
    | CRead id o => match aget (c_flights st) id with
        | Some _ => None
        | None => Some {| c_outer := c_outer st; c_heap := c_heap st; c_flights := aset (c_flights st) id (o, aget (c_outer st) (ipOf o)) |}
        end
    | CWrite id => match aget (c_flights st) id with
        | None => None
        | Some (AAdd ip p v, r) => Some (writeAdd ip p v r st (adel (c_flights st) id))
        | Some (ADelete ip p, r) => Some (writeDelete ip p r st (adel (c_flights st) id))
        end
    end.
  (** k8scache.go:148-158: what is found under an address and a port *)
  Definition view (st : cstate) (ip : bytes) (p : Z) : option V :=
    match aget (c_outer st) ip with None => None | Some i => aget (nth i (c_heap st) []) p end.
End Conc.
Arguments aop V : clear implicits. Arguments cact V : clear implicits. Arguments cstate V : clear implicits.
