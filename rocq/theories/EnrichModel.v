(** Model of collector/pkg/component/consumer/processor/k8sprocessor/kubernetes_processor.go (81-390), on the caches of K8sModel.v.
    Simplifications: the labels of a group are a finite map (C07 proves that the label maps of the collector act as one while values are
    not shared between maps); one Consume sees one state of the caches; the constructor (33-79) and the next consumer are left out. *)
From Verif Require Import Base Decimal AttrModel CompareModel K8sModel.
Open Scope string_scope. Open Scope list_scope. Open Scope Z_scope.

(** constlabels/const.go:20-49 *)
Definition LbIsServer := "is_server".
Definition LbContainerId := "container_id".
Definition LbSrcNode := "src_node".
Definition LbSrcNodeIp := "src_node_ip".
Definition LbSrcNamespace := "src_namespace".
Definition LbSrcPod := "src_pod".
Definition LbSrcWorkloadName := "src_workload_name".
Definition LbSrcWorkloadKind := "src_workload_kind".
Definition LbSrcService := "src_service".
Definition LbSrcIp := "src_ip".
Definition LbSrcPort := "src_port".
Definition LbSrcContainerId := "src_container_id".
Definition LbSrcContainer := "src_container".
Definition LbDstNode := "dst_node".
Definition LbDstNodeIp := "dst_node_ip".
Definition LbDstNamespace := "dst_namespace".
Definition LbDstPod := "dst_pod".
Definition LbDstWorkloadName := "dst_workload_name".
Definition LbDstWorkloadKind := "dst_workload_kind".
Definition LbDstService := "dst_service".
Definition LbDstIp := "dst_ip".
Definition LbDstPort := "dst_port".
Definition LbDnatIp := "dnat_ip".
Definition LbDnatPort := "dnat_port".
Definition LbDstContainerId := "dst_container_id".
Definition LbDstContainer := "dst_container".
(** constlabels/const.go:77-78 *)
Definition ExternalNs : bytes := bs "NOT_FOUND_EXTERNAL".
Definition InternalNs : bytes := bs "NOT_FOUND_INTERNAL".
(** kubernetes_processor.go:21 *)
Definition loopbackIp : bytes := bs "127.0.0.1".

Definition labels := list (string * aval).
(** attribute_map.go:71-77, 93-99, 115-121 *)
Definition strOf (m : labels) (k : string) : bytes := asString (aget m k).
Definition intOf (m : labels) (k : string) : Z := asInt (aget m k).
Definition boolOf (m : labels) (k : string) : bool := asBool (aget m k).
(** attribute_map.go:85-91, 107-113 UpdateAddStringValue, UpdateAddIntValue: a value of another type panics *)
Definition upd1 (m : labels) (k : string) (v : aval) : res labels :=
  match aget m k with Some old => if same_type old v then Ok (aset m k v) else Panic | None => Ok (aset m k v) end.
Fixpoint upds (l : list (string * aval)) (m : labels) : res labels :=
  match l with [] => Ok m | (k, v) :: l' => bind (upd1 m k v) (upds l') end.

Section Enrich.
  Context (it : forall A : Type, nat -> list A -> list A) (localNodeIp localNodeName : bytes).

  (** kubernetes_processor.go:361-372 addPodMetaInfoLabelSRC *)
  Definition addPodSrc (st : kstate) (r : podInfo) (m : labels) : res labels :=
    upds ([(LbSrcNode, SV (pi_node r)); (LbSrcNodeIp, SV (pi_nodeaddr r)); (LbSrcNamespace, SV (pi_ns r)); (LbSrcWorkloadKind, SV (pi_wkind r));
           (LbSrcWorkloadName, SV (pi_wname r)); (LbSrcPod, SV (pi_name r)); (LbSrcIp, SV (pi_ip r))] ++
          match pi_svc r with Some i => [(LbSrcService, SV (si_name (svcAt (k_svcs st) i)))] | None => [] end) m.
  (** :355-359 addContainerMetaInfoLabelSRC *)
  Definition addContainerSrc (st : kstate) (c : cinfo) (m : labels) : res labels :=
    bind (upds [(LbSrcContainer, SV (ci_name c)); (LbSrcContainerId, SV (ci_id c))] m) (addPodSrc st (podAt (k_pods st) (ci_pod c))).
  (** :380-390 addPodMetaInfoLabelDST *)
  Definition addPodDst (r : podInfo) (m : labels) : res labels :=
    bind (upds [(LbDstNode, SV (pi_node r)); (LbDstNodeIp, SV (pi_nodeaddr r)); (LbDstNamespace, SV (pi_ns r)); (LbDstWorkloadKind, SV (pi_wkind r));
                (LbDstWorkloadName, SV (pi_wname r)); (LbDstPod, SV (pi_name r))] m)
      (fun m => if eqb (strOf m LbDstIp) [] then upds [(LbDstIp, SV (pi_ip r))] m else Ok m).
  (** :374-378 addContainerMetaInfoLabelDST *)
  Definition addContainerDst (st : kstate) (c : cinfo) (m : labels) : res labels :=
    bind (upds [(LbDstContainer, SV (ci_name c)); (LbDstContainerId, SV (ci_id c))] m) (addPodDst (podAt (k_pods st) (ci_pod c))).
  (** :128-144, 198-214: the source, by its address *)
  Definition srcByIp (n : nat) (st : kstate) (m : labels) : res labels :=
    let ip := strOf m LbSrcIp in
    bind (if eqb ip loopbackIp then upds [(LbSrcNodeIp, SV localNodeIp); (LbSrcNode, SV localNodeName)] m else Ok m)
      (match getPodByIp it n st ip with
       | Some i => addPodSrc st (podAt (k_pods st) i)
       | None => match getNodeName st ip with
                 | Some name => upds [(LbSrcNodeIp, SV ip); (LbSrcNode, SV name); (LbSrcNamespace, SV InternalNs)]
                 | None => upds [(LbSrcNamespace, SV ExternalNs)]
                 end
       end).
  (** :114-145: the source of a request made by this node *)
  Definition clientSrc (n : nat) (st : kstate) (m : labels) : res labels :=
    let id := strOf m LbContainerId in
    if eqb id [] then srcByIp n st m
    else bind (upds [(LbSrcContainerId, SV id)] m)
           (match aget (k_cids st) id with
            | Some c => addContainerSrc st c
            | None => upds [(LbSrcNodeIp, SV localNodeIp); (LbSrcNode, SV localNodeName); (LbSrcNamespace, SV InternalNs)]
            end).
  (** :158-161, 313-316: the labels of a service *)
  Definition addService (st : kstate) (i : nat) (m : labels) : res labels :=
    let s := svcAt (k_svcs st) i in
    upds [(LbDstNamespace, SV (si_ns s)); (LbDstService, SV (si_name s)); (LbDstWorkloadKind, SV (si_wkind s)); (LbDstWorkloadName, SV (si_wname s))] m.
  (** :181-184, 337-340: a container found by a port of its node *)
  Definition addHostPort (st : kstate) (ip : bytes) (port : Z) (c : cinfo) (m : labels) : res labels :=
    bind (addContainerDst st c m)
      (upds [(LbDstIp, SV (pi_ip (podAt (k_pods st) (ci_pod c)))); (LbDstPort, IV (match aget (ci_hostports c) (s32 port) with Some q => q | None => 0 end));
             (LbDstService, SV (ip ++ bs ":" ++ formatInt port))]).
  (** :147-194: the destination of a request made by this node *)
  Definition clientDst (n : nat) (st : kstate) (m : labels) : res labels :=
    let loop := eqb (strOf m LbDstIp) loopbackIp in
    bind (if loop then upds [(LbDstNodeIp, SV localNodeIp); (LbDstNode, SV localNodeName)] m else Ok m)
      (fun m =>
         let ip := strOf m (if loop then LbSrcIp else LbDstIp) in
         let port := intOf m LbDstPort in
         match getServiceByIpPort st ip (w32 port) with
         | Some i =>
             bind (addService st i m)
               (fun m =>
                  let nip := strOf m LbDnatIp in
                  let nport := intOf m LbDnatPort in
                  if negb (eqb nip []) && negb (nport =? -1) then
                    match getContainerByIpPort it n st nip (w32 nport) with
                    | Some c => addContainerDst st c m
                    | None => match getNodeName st nip with
                              | Some name => upds [(LbDstNodeIp, SV nip); (LbDstNode, SV name)] m
                              | None => Ok m
                              end
                    end
                  else Ok m)
         | None =>
             match getContainerByIpPort it n st ip (w32 port) with
             | Some c => addContainerDst st c m
             | None =>
                 match getContainerByHostIpPort st ip (w32 port) with
                 | Some c => addHostPort st ip port c m
                 | None => match getNodeName st ip with
                           | Some name => upds [(LbDstNodeIp, SV ip); (LbDstNode, SV name); (LbDstNamespace, SV InternalNs)] m
                           | None => upds [(LbDstNamespace, SV ExternalNs)] m
                           end
                 end
             end
         end).
  (** :114-195 addK8sMetaDataForClientLabel *)
  Definition forClient (n : nat) (st : kstate) (m : labels) : res labels := bind (clientSrc n st m) (clientDst (S n) st).
  (** :215-227: the destination of a request served by this node *)
  Definition serverDst (st : kstate) (m : labels) : res labels :=
    let id := strOf m LbContainerId in
    bind (upds [(LbDstContainerId, SV id)] m)
      (fun m => match aget (k_cids st) id with
                | Some c => bind (addContainerDst st c m)
                              (match pi_svc (podAt (k_pods st) (ci_pod c)) with Some i => upds [(LbDstService, SV (si_name (svcAt (k_svcs st) i)))] | None => fun m => Ok m end)
                | None => upds [(LbDstNodeIp, SV localNodeIp); (LbDstNode, SV localNodeName); (LbDstNamespace, SV InternalNs)] m
                end).
  (** :197-228 addK8sMetaDataForServerLabel *)
  Definition forServer (n : nat) (st : kstate) (m : labels) : res labels := bind (srcByIp n st m) (serverDst st).

  (** :282-303 addK8sMetaDataViaIpSRC *)
  Definition tcpSrc (n : nat) (st : kstate) (m : labels) : res labels :=
    let ip := strOf m LbSrcIp in
    match getContainerByIpPort it n st ip (w32 (intOf m LbSrcPort)) with
    | Some c => addContainerSrc st c m
    | None => match getPodByIp it (S n) st ip with
              | Some i => addPodSrc st (podAt (k_pods st) i) m
              | None => upds [(LbSrcNamespace, SV (match getNodeName st ip with Some _ => InternalNs | None => ExternalNs end))] m
              end
    end.
  (** :305-353 addK8sMetaDataViaIpDST; a container found by a port of its node does not end it *)
  Definition tcpDst (n : nat) (st : kstate) (m : labels) : res labels :=
    let ip := strOf m LbDstIp in
    let port := intOf m LbDstPort in
    match getServiceByIpPort st ip (w32 port) with
    | Some i =>
        bind (addService st i m)
          (fun m =>
             let nip := strOf m LbDnatIp in
             let nport := intOf m LbDnatPort in
             if negb (eqb nip []) && negb (nport =? -1)
             then match getContainerByIpPort it n st nip (w32 nport) with Some c => addContainerDst st c m | None => Ok m end
             else Ok m)
    | None =>
        match getContainerByIpPort it n st ip (w32 port) with
        | Some c => addContainerDst st c m
        | None =>
            bind (match getContainerByHostIpPort st ip (w32 port) with Some c => addHostPort st ip port c m | None => Ok m end)
              (match getPodByIp it (S n) st ip with
               | Some i => addPodDst (podAt (k_pods st) i)
               | None => upds [(LbDstNamespace, SV (match getNodeName st ip with Some _ => InternalNs | None => ExternalNs end))]
               end)
        end
    end.
  (** :244-252: the translated destination; AddStringValue and AddIntValue replace whatever is there *)
  Definition tcpDnat (m : labels) : labels :=
    let m := if eqb (strOf m LbDnatIp) [] then m else aset m LbDstIp (SV (strOf m LbDnatIp)) in
    let m := if 0 <? intOf m LbDnatPort then aset m LbDstPort (IV (intOf m LbDnatPort)) else m in
    adel (adel m LbDnatIp) LbDnatPort.
  (** :253-279: the dynamic port *)
  Definition tcpPorts (m : labels) : labels :=
    let src := intOf m LbSrcPort in
    let dst := intOf m LbDstPort in
    if (src <? 32768) && (dst <? 32768) then (if dst <? src then adel m LbSrcPort else adel m LbDstPort)
    else let m := if 32768 <=? src then adel m LbSrcPort else m in
         if 32768 <=? dst then adel m LbDstPort else m.
  (** :233-280 addK8sMetaDataViaIp *)
  Definition forTcp (n : nat) (st : kstate) (m : labels) : res labels :=
    bind (tcpSrc n st m) (fun m => bind (tcpDst (S (S n)) st m) (fun m => Ok (tcpPorts (tcpDnat m)))).

  (** :81-110 Consume: the labels handed to the next consumer; group names of constnames/const.go:35, 43-45 *)
  Definition enrich (enable : bool) (n : nat) (st : kstate) (name : bytes) (m : labels) : res labels :=
    if negb enable then Ok m
    else if eqb name (bs "tcp_rtt_metric_group") || eqb name (bs "tcp_retransmit_metric_group") || eqb name (bs "tcp_drop_metric_group") then forTcp n st m
    else if boolOf m LbIsServer then forServer n st m
    else forClient n st m.
End Enrich.
