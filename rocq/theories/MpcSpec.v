(** What a collector should make of the stream of the metadata provider. *)
From Verif Require Import Base K8sModel SnapModel MpcModel.
Open Scope string_scope. Open Scope list_scope. Open Scope Z_scope.

(** An object of which only the key is known: all its fields are empty. *)
Definition noPod : pod := {| pd_uid := []; pd_rv := []; pd_ns := []; pd_name := []; pd_labels := []; pd_owners := []; pd_node := []; pd_hostnet := false; pd_ip := []; pd_hostip := [];
  pd_statuses := []; pd_containers := [] |}.
Definition noSvc : service := {| sv_rv := []; sv_ns := []; sv_name := []; sv_ip := []; sv_nodeport := false; sv_selector := []; sv_ports := [] |}.
Definition noRs : replicaset := {| rs_rv := []; rs_ns := []; rs_name := []; rs_owners := [] |}.
Definition noNode : node := {| nd_name := []; nd_addresses := [] |}.
(** The event of the caches that a change stands for. *)
Definition eventOf (e : pevent) : kop :=
  match e with
  | EPod (CAdd p) => OAddPod p | EPod (CUpdate a b) => OUpdatePod a b | EPod (CDelete p) => ODeletePod (Some p) | EPod (CLate _) => ODeletePod (Some noPod)
  | ESvc (CAdd p) => OAddService p | ESvc (CUpdate a b) => OUpdateService a b | ESvc (CDelete p) => ODeleteService (Some p) | ESvc (CLate _) => ODeleteService (Some noSvc)
  | ERs (CAdd p) => OAddRs p | ERs (CUpdate a b) => OUpdateRs a b | ERs (CDelete p) => ODeleteRs (Some p) | ERs (CLate _) => ODeleteRs (Some noRs)
  | ENode (CAdd p) => OAddNode p | ENode (CUpdate a b) => OUpdateNode a b | ENode (CDelete p) => ODeleteNode (Some p) | ENode (CLate _) => ODeleteNode (Some noNode)
  end.
(** What JSON is needed to do for an object that occurs in a change: it can be read back; the record of a lost deletion, which has other
    fields, is read as an object without any. *)
Definition objectOk {O} (enc late : O -> bytes) (dec : bytes -> option O) (none : O) (c : change O) : Prop :=
  match c with
  | CAdd o | CDelete o => dec (enc o) = Some o
  | CUpdate a b => dec (enc a) = Some a /\ dec (enc b) = Some b
  | CLate o => dec (late o) = Some none
  end.
(** A line of JSON: it has no line feed, it can be read back. *)
Definition lineOk {A} (enc : A -> bytes) (dec : bytes -> option A) (a : A) : Prop := ~ In 10 (enc a) /\ dec (enc a) = Some a.
(** The text of an object is not complete before its last byte. *)
Definition wholeOnly {A} (enc : A -> bytes) (dec : bytes -> option A) (a : A) : Prop := forall p q, enc a = p ++ q -> q <> [] -> dec p = None.

(** The history of the attempts, from the left: the failures since the last pause (or the start, or the last connection). *)
Definition tries (l : list ract) : nat := List.length (filter (fun a => match a with Try => true | _ => false end) l).
Definition pauses (l : list ract) : nat := List.length (filter (fun a => match a with Pause => true | _ => false end) l).
