(** What the metadata caches should answer, in terms of the watched objects. *)
From Coq Require Import Permutation.
From Verif Require Import Base CompareModel K8sModel.
Open Scope string_scope. Open Scope list_scope. Open Scope Z_scope.

(** What a pod can be looked up by: a container id (shortened to twelve characters), its address with a port of one of its containers (0 for a
    container that declares no port), the address of its node with a host port. *)
Inductive claim : Type := CId (c : bytes) | CAddr (ip : bytes) (p : Z) | CHost (ip : bytes) (p : Z).
Definition claims (p : pod) (k : claim) : Prop :=
  match k with
  | CId c => c <> [] /\ exists name full, In (name, full) (pd_statuses p) /\ TruncateContainerId full = c
  | CAddr ip port => pd_ip p <> [] /\ pd_ip p = ip /\ exists c, In c (pd_containers p) /\
      ((ct_ports c = [] /\ port = 0) \/ exists q, In q (ct_ports c) /\ port = pt_container q)
  | CHost ip port => pd_ip p <> [] /\ pd_hostip p = ip /\ exists c q, In c (pd_containers p) /\ In q (ct_ports c) /\ pt_host q <> 0 /\ port = pt_host q
  end.
(** The lookups. *)
Definition lookup (st : kstate) (k : claim) : option cinfo :=
  match k with
  | CId c => aget (k_cids st) c
  | CAddr ip p => get2 (k_ips st) ip p
  | CHost ip p => getContainerByHostIpPort st ip p
  end.
(** The answer describes the pod ... *)
Definition describes (i : podInfo) (p : pod) : Prop :=
  pi_uid i = pd_uid p /\ pi_ns i = pd_ns p /\ pi_name i = pd_name p /\ pi_ip i = pd_ip p /\ pi_labels i = pd_labels p /\
  pi_node i = pd_node p /\ pi_nodeaddr i = pd_hostip p /\ pi_hostnet i = pd_hostnet p.
(** ... and the container. *)
Definition rightContainer (p : pod) (k : claim) (c : cinfo) : Prop :=
  match k with
  | CId id => ci_id c = id /\ exists full, In (ci_name c, full) (pd_statuses p) /\ TruncateContainerId full = id
  | CAddr _ port =>
      (port = 0 /\ exists t, In t (pd_containers p) /\ ct_ports t = [] /\ (pd_containers p = [t] -> ci_name c = ct_name t) /\ ((1 < List.length (pd_containers p))%nat -> ci_name c = [])) \/
      (exists t q, In t (pd_containers p) /\ In q (ct_ports t) /\ pt_container q = port /\ ci_name c = ct_name t)
  | CHost _ port => exists t q, In t (pd_containers p) /\ In q (ct_ports t) /\ pt_host q = port /\ ci_name c = ct_name t /\ aget (ci_hostports c) port = Some (pt_container q)
  end.
Definition portsOk (p : pod) : Prop :=
  (forall c q, In c (pd_containers p) -> In q (ct_ports c) -> 0 <= pt_container q < 65536 /\ 0 <= pt_host q < 65536) /\
  (pd_ip p <> [] -> pd_hostip p <> []) /\ pd_name p <> [].

(** The cluster, as the watch of the pods shows it.
    live: the current version of every pod; used: the uids so far; retired: what a uid gave up; spoiled: claims that two pods had at the same time,
    or that were given up and taken back (an id by any pod, an address by the same pod); reused: uids of pods created while the deletion of a pod
    of the same name was in its grace period; dead: uids and when they ended; the time, and the time of the last round of deletions. *)
Record world := {
  w_live : list ((bytes * bytes) * pod); w_used : bytes -> Prop; w_retired : bytes -> claim -> Prop; w_spoiled : claim -> Prop;
  w_reused : bytes -> Prop; w_dead : bytes -> Z -> Prop; w_now : Z; w_round : Z }.
Definition podKey (p : pod) : bytes * bytes := (pd_ns p, pd_name p).
Definition isId (k : claim) : Prop := match k with CId _ => True | _ => False end.
(** the deletion of a pod of this name is waiting for the end of its grace period *)
Definition pendingName (st : kstate) (key : bytes * bytes) : Prop := exists d ts, In (d, ts) (k_queue st) /\ (di_ns d, di_name d) = key.
(** [p] becomes the version of its pod *)
Definition spoils (w : world) (p : pod) (k : claim) : Prop :=
  claims p k /\ ((exists key q, key <> podKey p /\ aget (w_live w) key = Some q /\ claims q k) \/ (exists u, w_retired w u k /\ (u = pd_uid p \/ isId k))).
Definition w0 : world := {| w_live := []; w_used := fun _ => False; w_retired := fun _ _ => False; w_spoiled := fun _ => False; w_reused := fun _ => False;
  w_dead := fun _ _ => False; w_now := 0; w_round := 0 |}.

(** What the api server sends: a pod is created once, with a new uid; an update tells the version last sent; a version is not sent again unchanged
    unless with the same resource version; a pod that loses its address loses the address of its node too (C37_lost_address_refuted is about the
    other case); a deletion tells the last version. *)
Inductive wstep (st : kstate) (now : Z) (w : world) : kop -> world -> Prop :=
| W_add p : w_now w <= now -> portsOk p -> aget (w_live w) (podKey p) = None -> ~ w_used w (pd_uid p) ->
    wstep st now w (OAddPod p)
      {| w_live := aset (w_live w) (podKey p) p; w_used := fun u => u = pd_uid p \/ w_used w u; w_retired := w_retired w;
         w_spoiled := fun k => w_spoiled w k \/ spoils w p k; w_reused := fun u => w_reused w u \/ (u = pd_uid p /\ pendingName st (podKey p));
         w_dead := w_dead w; w_now := now; w_round := w_round w |}
| W_resync p : w_now w <= now -> aget (w_live w) (podKey p) = Some p -> wstep st now w (OUpdatePod p p)
      {| w_live := w_live w; w_used := w_used w; w_retired := w_retired w; w_spoiled := w_spoiled w; w_reused := w_reused w; w_dead := w_dead w; w_now := now; w_round := w_round w |}
| W_update old new : w_now w <= now -> portsOk new -> aget (w_live w) (podKey old) = Some old -> podKey new = podKey old -> pd_rv old <> pd_rv new ->
    pd_uid new = pd_uid old \/ ~ w_used w (pd_uid new) -> (pd_ip old <> [] -> pd_ip new = [] -> pd_hostip new <> pd_hostip old) ->
    wstep st now w (OUpdatePod old new)
      {| w_live := aset (w_live w) (podKey old) new; w_used := fun u => u = pd_uid new \/ w_used w u;
         w_retired := fun u k => w_retired w u k \/ (u = pd_uid old /\ claims old k /\ (claims new k -> pd_uid new <> u));
         w_spoiled := fun k => w_spoiled w k \/ spoils w new k;
         w_reused := fun u => w_reused w u \/ (u = pd_uid new /\ pd_uid new <> pd_uid old /\ pendingName st (podKey old));
         w_dead := fun u t => w_dead w u t \/ (u = pd_uid old /\ pd_uid new <> u /\ t = now); w_now := now; w_round := w_round w |}
| W_delete p : w_now w <= now -> aget (w_live w) (podKey p) = Some p ->
    wstep st now w (ODeletePod (Some p))
      {| w_live := adel (w_live w) (podKey p); w_used := w_used w; w_retired := fun u k => w_retired w u k \/ (u = pd_uid p /\ claims p k);
         w_spoiled := w_spoiled w; w_reused := w_reused w; w_dead := fun u t => w_dead w u t \/ (u = pd_uid p /\ t = now); w_now := now; w_round := w_round w |}
| W_garbage : w_now w <= now -> wstep st now w (ODeletePod None)
      {| w_live := w_live w; w_used := w_used w; w_retired := w_retired w; w_spoiled := w_spoiled w; w_reused := w_reused w; w_dead := w_dead w; w_now := now; w_round := w_round w |}
| W_deletions : w_now w <= now -> wstep st now w ODeleteRound
      {| w_live := w_live w; w_used := w_used w; w_retired := w_retired w; w_spoiled := w_spoiled w; w_reused := w_reused w; w_dead := w_dead w; w_now := now; w_round := now |}
| W_other o : w_now w <= now ->
    match o with OAddPod _ | OUpdatePod _ _ | ODeletePod _ | ODeleteRound => False | _ => True end ->
    wstep st now w o
      {| w_live := w_live w; w_used := w_used w; w_retired := w_retired w; w_spoiled := w_spoiled w; w_reused := w_reused w; w_dead := w_dead w; w_now := now; w_round := w_round w |}.

Section Reach.
  Context (builtIn : bytes -> bool) (lower : bytes -> bytes) (myNode : bytes) (it : forall A : Type, nat -> list A -> list A) (grace : Z).
  (** every history of the watches, from empty caches, and the state of the caches after it; [ok] restricts the events *)
  Inductive reach (ok : world -> kstate -> kop -> Prop) : world -> kstate -> Prop :=
  | R_start : reach ok w0 k0
  | R_step w st n now o w' : reach ok w st -> wstep st now w o w' -> ok w st o -> reach ok w' (kstep builtIn lower myNode it grace n now o st).
End Reach.
Definition anyEvent (w : world) (st : kstate) (o : kop) : Prop := True.

(** Go ranges over each entry of a map once, in any order. *)
Definition ranges (it : forall A : Type, nat -> list A -> list A) : Prop := forall A n (l : list A), Permutation (it A n l) l.

(** The questions the collector asks the caches: the container of an id, of an address and port, of a host port. *)
Definition answer (it : forall A : Type, nat -> list A -> list A) (n : nat) (st : kstate) (k : claim) : option cinfo :=
  match k with
  | CId c => aget (k_cids st) c
  | CAddr ip p => getContainerByIpPort it n st ip p
  | CHost ip p => getContainerByHostIpPort st ip p
  end.
