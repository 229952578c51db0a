(** What the inventory of workloads should be, in terms of the watched objects. *)
From Verif Require Import Base CompareModel K8sModel K8sSpec.
Open Scope string_scope. Open Scope list_scope. Open Scope Z_scope.

Section Spec.
  Context (builtIn : bytes -> bool) (lower : bytes -> bytes) (myNode : bytes) (it : forall A : Type, nat -> list A -> list A) (grace : Z).
  (** The kind and the name of the workload a pod belongs to, with the replica sets known in [st]; the theorems C56 say what they are. *)
  Definition workloadOf (st : kstate) (v : pod) : bytes * bytes := controllerOf builtIn lower (k_rs st) (pd_ns v) (pd_owners v).
  Definition entryOf (st : kstate) (v : pod) : winfo := {| wi_ns := pd_ns v; wi_name := snd (workloadOf st v); wi_kind := fst (workloadOf st v) |}.
  (** A pod keeps its owners and its node, its name is not taken again while its deletion is waiting, and no event about replica sets changes the workload of a live pod. *)
  Definition steady (w : world) (st : kstate) (o : kop) : Prop :=
    match o with
    | OAddPod p => ~ pendingName st (podKey p)
    | OUpdatePod old new => pd_owners new = pd_owners old /\ pd_node new = pd_node old
    | OAddRs _ | OUpdateRs _ _ | ODeleteRs _ => forall n now key v, aget (w_live w) key = Some v -> workloadOf (kstep builtIn lower myNode it grace n now o st) v = workloadOf st v
    | _ => True
    end.
  (** Moreover a pod is only added while no other pod of its namespace in the cache (alive, or deleted and waiting) belongs to a workload of that name. *)
  Definition alone (w : world) (st : kstate) (o : kop) : Prop :=
    steady w st o /\
    match o with
    | OAddPod p => forall name id, get2 (k_gpods st) (pd_ns p) name = Some id -> name <> pd_name p -> pi_wname (podAt (k_pods st) id) <> snd (workloadOf st p)
    | _ => True
    end.
End Spec.
