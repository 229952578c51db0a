(** What the Kubernetes enrichment should add, label by label. *)
From Verif Require Import Base Decimal AttrModel CompareModel K8sModel EnrichModel.
Open Scope string_scope. Open Scope list_scope. Open Scope Z_scope.

(** What an end of a connection is found to be. *)
Inductive party : Type :=
| FContainer (c : cinfo)                 (* a container of the caches, with its pod *)
| FPod (r : podInfo)                     (* a pod of the caches *)
| FLocal                                 (* a container of this node that the caches do not know *)
| FNode (ip name : bytes)                (* a node *)
| FUnknown.

Section Spec.
  Context (it : forall A : Type, nat -> list A -> list A) (localIp localName : bytes) (st : kstate).
  Definition podOf (c : cinfo) : podInfo := podAt (k_pods st) (ci_pod c).
  Definition svcName (r : podInfo) : list bytes := match pi_svc r with Some i => [si_name (svcAt (k_svcs st) i)] | None => [] end.

  (** *** The source *)
  Definition byAddress (n : nat) (ip : bytes) : party :=
    match getPodByIp it n st ip with
    | Some i => FPod (podAt (k_pods st) i)
    | None => match getNodeName st ip with Some name => FNode ip name | None => FUnknown end
    end.
  Definition clientSource (n : nat) (cid ip : bytes) : party :=
    if eqb cid [] then byAddress n ip else match aget (k_cids st) cid with Some c => FContainer c | None => FLocal end.
  Definition podSrcT (r : podInfo) : labels :=
    [("src_pod", SV (pi_name r)); ("src_namespace", SV (pi_ns r)); ("src_workload_kind", SV (pi_wkind r)); ("src_workload_name", SV (pi_wname r));
     ("src_node", SV (pi_node r)); ("src_node_ip", SV (pi_nodeaddr r)); ("src_ip", SV (pi_ip r))] ++ map (fun s => ("src_service", SV s)) (svcName r).
  (** The labels added for the source: of the pod it is; of this node for a container not known and for the loopback address; of the node it is. *)
  Definition srcT (cid ip : bytes) (p : party) : labels :=
    match p with
    | FContainer c => podSrcT (podOf c) ++ [("src_container", SV (ci_name c)); ("src_container_id", SV (ci_id c))]
    | FPod r => podSrcT r
    | FLocal => [("src_container_id", SV cid); ("src_node", SV localName); ("src_node_ip", SV localIp); ("src_namespace", SV (bs "NOT_FOUND_INTERNAL"))]
    | FNode a name => [("src_node", SV name); ("src_node_ip", SV a); ("src_namespace", SV (bs "NOT_FOUND_INTERNAL"))]
    | FUnknown => ("src_namespace", SV (bs "NOT_FOUND_EXTERNAL")) :: if eqb ip (bs "127.0.0.1") then [("src_node", SV localName); ("src_node_ip", SV localIp)] else []
    end.
  (** the address of the source after the enrichment *)
  Definition srcIpAfter (ip : bytes) (p : party) : bytes := match p with FContainer c => pi_ip (podOf c) | FPod r => pi_ip r | _ => ip end.

  (** *** The destination *)
  Definition podDstT (ip : bytes) (r : podInfo) : labels :=
    [("dst_pod", SV (pi_name r)); ("dst_namespace", SV (pi_ns r)); ("dst_workload_kind", SV (pi_wkind r)); ("dst_workload_name", SV (pi_wname r));
     ("dst_node", SV (pi_node r)); ("dst_node_ip", SV (pi_nodeaddr r))] ++ if eqb ip [] then [("dst_ip", SV (pi_ip r))] else [].
  Definition containerDstT (ip : bytes) (c : cinfo) : labels :=
    podDstT ip (podOf c) ++ [("dst_container", SV (ci_name c)); ("dst_container_id", SV (ci_id c))].
  Definition serviceT (i : nat) : labels :=
    let s := svcAt (k_svcs st) i in
    [("dst_namespace", SV (si_ns s)); ("dst_service", SV (si_name s)); ("dst_workload_kind", SV (si_wkind s)); ("dst_workload_name", SV (si_wname s))].
  Definition hostPortT (ip : bytes) (port : Z) (c : cinfo) : labels :=
    [("dst_ip", SV (pi_ip (podOf c))); ("dst_port", IV (match aget (ci_hostports c) (s32 port) with Some q => q | None => 0 end));
     ("dst_service", SV (ip ++ bs ":" ++ formatInt port))].
  (** A request made by this node: the labels of the service whose address was called, and of the container behind the translation; of the container;
      of the node.  [a]: the address that is looked up (of the source for the loopback address), [ip]: the address label. *)
  Definition clientDstT (n : nat) (a ip : bytes) (port : Z) (nip : bytes) (nport : Z) : labels :=
    match getServiceByIpPort st a (w32 port) with
    | Some i =>
        (if eqb nip [] then [] else if nport =? -1 then []
         else match getContainerByIpPort it n st nip (w32 nport) with
              | Some c => containerDstT ip c
              | None => match getNodeName st nip with Some name => [("dst_node", SV name); ("dst_node_ip", SV nip)] | None => [] end
              end) ++ serviceT i
    | None =>
        match getContainerByIpPort it n st a (w32 port) with
        | Some c => containerDstT ip c
        | None =>
            match getContainerByHostIpPort st a (w32 port) with
            | Some c => hostPortT a port c ++ containerDstT ip c
            | None => match getNodeName st a with
                      | Some name => [("dst_node", SV name); ("dst_node_ip", SV a); ("dst_namespace", SV (bs "NOT_FOUND_INTERNAL"))]
                      | None => [("dst_namespace", SV (bs "NOT_FOUND_EXTERNAL"))]
                      end
            end
        end
    end.
  Definition loopT (ip : bytes) : labels := if eqb ip (bs "127.0.0.1") then [("dst_node", SV localName); ("dst_node_ip", SV localIp)] else [].
  (** A request served by this node: the labels of the container that served it, with the service of its pod; of this node when the container is not known. *)
  Definition serverDstT (cid ip : bytes) : labels :=
    match aget (k_cids st) cid with
    | Some c => map (fun s => ("dst_service", SV s)) (svcName (podOf c)) ++ containerDstT ip c
    | None => [("dst_node", SV localName); ("dst_node_ip", SV localIp); ("dst_namespace", SV (bs "NOT_FOUND_INTERNAL")); ("dst_container_id", SV cid)]
    end.

  (** *** Tcp metrics *)
  Definition tcpSource (n : nat) (ip : bytes) (port : Z) : party :=
    match getContainerByIpPort it n st ip (w32 port) with Some c => FContainer c | None => byAddress (S n) ip end.
  Definition tcpSrcT (p : party) : labels :=
    match p with
    | FContainer c => podSrcT (podOf c) ++ [("src_container", SV (ci_name c)); ("src_container_id", SV (ci_id c))]
    | FPod r => podSrcT r
    | FUnknown => [("src_namespace", SV (bs "NOT_FOUND_EXTERNAL"))]
    | _ => [("src_namespace", SV (bs "NOT_FOUND_INTERNAL"))]
    end.
  Definition tcpDstT (n : nat) (ip : bytes) (port : Z) (nip : bytes) (nport : Z) : labels :=
    match getServiceByIpPort st ip (w32 port) with
    | Some i =>
        (if eqb nip [] then [] else if nport =? -1 then []
         else match getContainerByIpPort it n st nip (w32 nport) with Some c => containerDstT ip c | None => [] end) ++ serviceT i
    | None =>
        match getContainerByIpPort it n st ip (w32 port) with
        | Some c => containerDstT ip c
        | None =>
            let behind := match getContainerByHostIpPort st ip (w32 port) with Some c => hostPortT ip port c ++ containerDstT ip c | None => [] end in
            match byAddress (S n) ip with
            | FPod r => podDstT (match getContainerByHostIpPort st ip (w32 port) with Some c => pi_ip (podOf c) | None => ip end) r
            | FUnknown => [("dst_namespace", SV (bs "NOT_FOUND_EXTERNAL"))]
            | _ => [("dst_namespace", SV (bs "NOT_FOUND_INTERNAL"))]
            end ++ behind
        end
    end.
End Spec.

(** String labels hold strings and port labels numbers, as every producer of groups writes them. *)
Definition stringLabels : list string :=
  ["src_node"; "src_node_ip"; "src_namespace"; "src_pod"; "src_workload_name"; "src_workload_kind"; "src_service"; "src_ip"; "src_container_id"; "src_container";
   "dst_node"; "dst_node_ip"; "dst_namespace"; "dst_pod"; "dst_workload_name"; "dst_workload_kind"; "dst_service"; "dst_ip"; "dst_container_id"; "dst_container"].
Definition wellTyped (m : labels) : Prop :=
  (forall k v, In k stringLabels -> aget m k = Some v -> exists s, v = SV s) /\ (forall v, aget m "dst_port" = Some v -> exists z, v = IV z).
(** the labels [m] with those of [t] added or replaced *)
Definition with_ (t m m' : labels) : Prop := forall k, aget m' k = match aget t k with Some v => Some v | None => aget m k end.
