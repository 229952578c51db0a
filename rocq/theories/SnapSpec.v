(** What a client of the metadata provider should answer after it has loaded a snapshot. *)
From Verif Require Import Base K8sModel K8sSpec SnapModel.
Open Scope list_scope. Open Scope Z_scope.

(** What is known of a container, without following pointers: its id, name and host ports, its pod and the pod's service.
    Whether the pod is on the network of its node, and whether the service is a NodePort service, is left out. *)
Definition known (st : kstate) (c : cinfo) : jcinfo := jsonC (k_pods st) (k_svcs st) c.
(** The service of an address and port, in the same way. *)
Definition knownSvc (st : kstate) (i : nat) : svcInfo := jsonSvc (svcAt (k_svcs st) i).

(** The answer describes the pod, but for the network it is on. *)
Definition describesBut (i : podInfo) (p : pod) : Prop :=
  pi_uid i = pd_uid p /\ pi_ns i = pd_ns p /\ pi_name i = pd_name p /\ pi_ip i = pd_ip p /\ pi_labels i = pd_labels p /\
  pi_node i = pd_node p /\ pi_nodeaddr i = pd_hostip p.

(** A moment at which a cluster can be handed over: nothing is waiting to be deleted, no two pods claimed the same, no name
    was taken again within the grace period, every pod has a container id. *)
Definition settled (w : world) (st : kstate) : Prop :=
  k_queue st = [] /\ (forall u, ~ w_reused w u) /\ (forall k, ~ w_spoiled w k) /\
  forall key v, aget (w_live w) key = Some v -> exists c, claims v (CId c).
(** the same cluster by the clock of the client *)
Definition atTime (t : Z) (w : world) : world :=
  {| w_live := w_live w; w_used := w_used w; w_retired := w_retired w; w_spoiled := w_spoiled w; w_reused := w_reused w; w_dead := w_dead w; w_now := t; w_round := t |}.

Section Follows.
  Context (builtIn : bytes -> bool) (lower : bytes -> bytes) (provider client : bytes) (it it' : forall A : Type, nat -> list A -> list A) (grace grace' : Z).
  (** A client, and the cluster as it knows it: the provider had watched the cluster from the start, was settled when it sent
      the snapshot, and the client has handled the events since then; it runs its own rounds of deletions, by its own clock.
      The provider and the client run on different nodes with different grace periods, and range over their maps in
      different orders. *)
  Inductive follows : world -> kstate -> Prop :=
  | F_load w st m t : reach builtIn lower provider it grace anyEvent w st -> settled w st -> follows (atTime t w) (load client it' m (marshal st))
  | F_step w cl n now o w' : follows w cl -> wstep cl now w o w' -> follows w' (kstep builtIn lower client it' grace' n now o cl).
End Follows.
