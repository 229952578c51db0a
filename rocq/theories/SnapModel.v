(** Model of the snapshot a client of the metadata provider starts with: metaprovider/service/service.go:158-166 (list),
    metaprovider/client/client.go:32-59, kubernetes/k8scache.go:300-344 (SetupCache).
    JSON carries the exported fields only and writes every pointer out as a value of its own; the fields isHostNetwork
    (k8scache.go:32) and isNodePort (k8scache.go:40) are not exported.  Simplified: the text itself is left out (names and
    labels are taken to be UTF-8, which JSON keeps), a nil map or slice is the same as an empty one, and the order of the
    entries of a map, which JSON sorts, is kept (SetupCache ranges over it in any order). *)
From Verif Require Import Base K8sModel.
Open Scope list_scope. Open Scope Z_scope.

(** a service as JSON carries it *)
Definition jsonSvc (s : svcInfo) : svcInfo :=
  {| si_ip := si_ip s; si_name := si_name s; si_ns := si_ns s; si_nodeport := false; si_selector := si_selector s; si_wkind := si_wkind s; si_wname := si_wname s |}.
(** a pod as JSON carries it, without its service (k8scache.go:18-34) *)
Definition jsonPod (p : podInfo) : podInfo :=
  {| pi_uid := pi_uid p; pi_ip := pi_ip p; pi_name := pi_name p; pi_ports := pi_ports p; pi_hostports := pi_hostports p; pi_cids := pi_cids p; pi_labels := pi_labels p;
     pi_wkind := pi_wkind p; pi_wname := pi_wname p; pi_ns := pi_ns p; pi_node := pi_node p; pi_nodeaddr := pi_nodeaddr p; pi_hostnet := false; pi_svc := None |}.
(** a container: the pod and the pod's service are written out inside it *)
Record jcinfo := { jc_id : bytes; jc_name : bytes; jc_hostports : list (Z * Z); jc_pod : podInfo; jc_svc : option svcInfo }.

(** api.go ListVO; the pods by name, the local workloads and the waiting deletions are not part of it *)
Record snapshot := {
  j_cids : list (bytes * jcinfo); j_ips : list (bytes * list (Z * jcinfo)); j_hosts : list (bytes * jcinfo);
  j_ipsvcs : list (bytes * list (Z * svcInfo)); j_gsvcs : list (bytes * list (bytes * svcInfo));
  j_rs : list (bytes * controller); j_nodes : list (bytes * nodeInfo) }.

Definition mapv {K A B} (f : A -> B) (m : list (K * A)) : list (K * B) := map (fun e => (fst e, f (snd e))) m.

Definition jsonC (ps : list podInfo) (ss : list svcInfo) (c : cinfo) : jcinfo :=
  let p := podAt ps (ci_pod c) in
  {| jc_id := ci_id c; jc_name := ci_name c; jc_hostports := ci_hostports c; jc_pod := jsonPod p; jc_svc := option_map (fun i => jsonSvc (svcAt ss i)) (pi_svc p) |}.
(** service.go:158-166: json.Marshal *)
Definition marshal (st : kstate) : snapshot :=
  let f := jsonC (k_pods st) (k_svcs st) in
  let g i := jsonSvc (svcAt (k_svcs st) i) in
  {| j_cids := mapv f (k_cids st); j_ips := mapv (mapv f) (k_ips st); j_hosts := mapv f (k_hosts st);
     j_ipsvcs := mapv (mapv g) (k_ipsvcs st); j_gsvcs := mapv (mapv g) (k_gsvcs st); j_rs := k_rs st; j_nodes := k_nodes st |}.

(** client.go:50: json.Unmarshal allocates every pod and every service it meets *)
Definition heaps : Type := (list podInfo * list svcInfo)%type.
Definition allocSvc (s : svcInfo) (h : heaps) : nat * heaps := (List.length (snd h), (fst h, snd h ++ [s])).
Definition setSvc (o : option nat) (p : podInfo) : podInfo :=
  {| pi_uid := pi_uid p; pi_ip := pi_ip p; pi_name := pi_name p; pi_ports := pi_ports p; pi_hostports := pi_hostports p; pi_cids := pi_cids p; pi_labels := pi_labels p;
     pi_wkind := pi_wkind p; pi_wname := pi_wname p; pi_ns := pi_ns p; pi_node := pi_node p; pi_nodeaddr := pi_nodeaddr p; pi_hostnet := pi_hostnet p; pi_svc := o |}.
Definition allocC (c : jcinfo) (h : heaps) : cinfo * heaps :=
  let r := match jc_svc c with
           | None => (None, h)
           | Some s => let a := allocSvc s h in (Some (fst a), snd a)
           end in
  ({| ci_id := jc_id c; ci_name := jc_name c; ci_hostports := jc_hostports c; ci_pod := List.length (fst (snd r)) |},
   (fst (snd r) ++ [setSvc (fst r) (jc_pod c)], snd (snd r))).
Fixpoint alloc {K A B} (f : A -> heaps -> B * heaps) (m : list (K * A)) (h : heaps) : list (K * B) * heaps :=
  match m with
  | [] => ([], h)
  | (k, a) :: m' => let r := f a h in let r' := alloc f m' (snd r) in ((k, fst r) :: fst r', snd r')
  end.

Section Load.
  Context (myNode : bytes) (it : forall A : Type, nat -> list A -> list A).

  (** k8scache.go:306-319: the pods by name, from the containers in the order they are ranged over *)
  Definition podsOf (ps : list podInfo) (cs : list (bytes * cinfo)) : list (bytes * list (bytes * nat)) :=
    fold_left (fun g e => let p := podAt ps (ci_pod (snd e)) in put2 g (pi_ns p) (pi_name p) (ci_pod (snd e))) cs [].
  (** k8scache.go:311-318: the workloads of this node *)
  Definition workOf (ps : list podInfo) (cs : list (bytes * cinfo)) : list (bytes * list (bytes * winfo)) :=
    fold_left (fun g e => let p := podAt ps (ci_pod (snd e)) in
                          if eqb (pi_node p) myNode then put2 g (pi_ns p) (pi_wname p) {| wi_ns := pi_ns p; wi_name := pi_wname p; wi_kind := pi_wkind p |} else g) cs [].
  (** client.go:50-58, k8scache.go:300-344: every table is replaced (the provider sends them all), the waiting deletions
      are dropped *)
  Definition load (n : nat) (s : snapshot) : kstate :=
    let r1 := alloc allocC (j_cids s) ([], []) in
    let r2 := alloc (alloc allocC) (j_ips s) (snd r1) in
    let r3 := alloc allocC (j_hosts s) (snd r2) in
    let r4 := alloc (alloc allocSvc) (j_ipsvcs s) (snd r3) in
    let r5 := alloc (alloc allocSvc) (j_gsvcs s) (snd r4) in
    let ps := fst (snd r5) in
    {| k_pods := ps; k_svcs := snd (snd r5); k_cids := fst r1; k_ips := fst r2; k_hosts := fst r3; k_ipsvcs := fst r4;
       k_gpods := podsOf ps (it _ n (fst r1)); k_gsvcs := fst r5; k_rs := j_rs s; k_nodes := j_nodes s;
       k_work := workOf ps (it _ n (fst r1)); k_queue := [] |}.
End Load.
