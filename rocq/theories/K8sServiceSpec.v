(** What attributing pods to services should give, in terms of the watched objects. *)
From Verif Require Import Base CompareModel K8sModel K8sSpec.
Open Scope string_scope. Open Scope list_scope. Open Scope Z_scope.

(** The service selects the pod: same namespace, a selector that is not empty, every label of it on the pod with the same value. *)
Definition selects (s : service) (p : pod) : Prop :=
  sv_ns s = pd_ns p /\ sv_selector s <> [] /\ forall k v, In (k, v) (sv_selector s) -> aget (pd_labels p) k = Some v.
Definition svcKey (s : service) : bytes * bytes := (sv_ns s, sv_name s).
(** The cached service describes the service, and it is not the cleared record of a deleted one. *)
Definition isService (i : svcInfo) (s : service) : Prop :=
  si_ip i = sv_ip s /\ si_name i = sv_name s /\ si_ns i = sv_ns s /\ si_nodeport i = sv_nodeport s /\ si_selector i = sv_selector s.

(** The services that exist, as their watch shows them. *)
Inductive sstep (l : list ((bytes * bytes) * service)) : kop -> list ((bytes * bytes) * service) -> Prop :=
| S_add s : aget l (svcKey s) = None -> sstep l (OAddService s) (aset l (svcKey s) s)
| S_resync s : aget l (svcKey s) = Some s -> sstep l (OUpdateService s s) l
| S_update old new : aget l (svcKey old) = Some old -> svcKey new = svcKey old -> sv_rv old <> sv_rv new -> sstep l (OUpdateService old new) (aset l (svcKey old) new)
| S_delete s : aget l (svcKey s) = Some s -> sstep l (ODeleteService (Some s)) (adel l (svcKey s))
| S_garbage : sstep l (ODeleteService None) l
| S_other o : match o with OAddService _ | OUpdateService _ _ | ODeleteService _ => False | _ => True end -> sstep l o l.
Section Reach.
  Context (builtIn : bytes -> bool) (lower : bytes -> bytes) (myNode : bytes) (it : forall A : Type, nat -> list A -> list A) (grace : Z).
  (** every history of the pods and the services; [ok] restricts the events *)
  Inductive sreach (ok : world -> kstate -> kop -> Prop) : world -> list ((bytes * bytes) * service) -> kstate -> Prop :=
  | SR_start : sreach ok w0 [] k0
  | SR_step w l st n now o w' l' : sreach ok w l st -> wstep st now w o w' -> sstep l o l' -> ok w st o -> sreach ok w' l' (kstep builtIn lower myNode it grace n now o st).
End Reach.
(** Services are only added, and only while no deletion of a pod is waiting. *)
Definition onlyAdded (w : world) (st : kstate) (o : kop) : Prop :=
  match o with OAddService _ => k_queue st = [] /\ (forall k, ~ w_spoiled w k) /\ (forall u, ~ w_reused w u) | OUpdateService _ _ | ODeleteService _ => False | _ => True end.

(** The record of the pod refers to an existing service that selects the pod; if it refers to none, no existing service selects it. *)
Definition attributed (l : list ((bytes * bytes) * service)) (st : kstate) (i : podInfo) (p : pod) : Prop :=
  match pi_svc i with
  | Some j => exists s, aget l (svcKey s) = Some s /\ selects s p /\ isService (svcAt (k_svcs st) j) s
  | None => forall key s, aget l key = Some s -> ~ selects s p
  end.
