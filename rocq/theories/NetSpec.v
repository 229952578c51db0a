(** What the request counters of a pod should say about the socket events of its processes, from plain lists of events: a conversation
    ([PairSpec.conv]) is at most one connect, the requests and the responses that follow them on one descriptor of one process. *)
From Verif Require Import Base Decimal AttrModel PoolModel KeyModel KeyProps AggModel AggSpec SampleModel K8sModel EnrichModel EnrichSpec EventModel TcpModel PipeModel
  AdapterModel AdapterSpec OtelModel OtelSpec FlowModel FlowSpec PairModel PairSpec MsgModel DetectModel RecordModel RecordSpec NetModel.
Open Scope string_scope. Open Scope list_scope. Open Scope Z_scope.

(** ** The history of a connection *)
(** The events of a history, as connects, requests and responses. *)
Definition tokensOf (o : nop) : list tok := match o with NEvent _ e => match classify e with Ok l => l | _ => [] end | NScan _ _ => [] end.
(** What happens to the connection [k]: its events, and the scans. *)
Definition happens (k : key) (o : nop) : list item :=
  match o with
  | NEvent _ _ => flat_map (fun t => if eqb k (evKey (tokEv t)) then [IEv false t] else []) (tokensOf o)
  | NScan _ now => [ITick false now]
  end.
Fixpoint distinctKeys (l : list key) : list key :=
  match l with [] => [] | k :: l' => if existsb (eqb k) l' then distinctKeys l' else k :: distinctKeys l' end.
Definition connections (os : list nop) : list key := distinctKeys (map (fun t => evKey (tokEv t)) (flat_map tokensOf os)).
(** The conversations that ended. *)
Definition ended (c : PairModel.config) (os : list nop) : list conv :=
  flat_map (fun k => snd (talk c None (flat_map (happens k) os))) (connections os).

(** ** What a conversation counts for *)
(** The event that shows the parties: the first request, or the connect when there is none. *)
Definition opener (g : conv) : option event := match g_req g with e :: _ => Some e | [] => g_con g end.
(** It is served by a container of the set [C]. *)
Definition servedIn (C : bytes -> bool) (g : conv) : bool :=
  match opener g with Some e => e_role e && C (bs (e_cid e)) | None => false end.
(** One request; its time from the start of the connect, if there is one, and of the first request to the last response (nothing without one);
    the sizes as the system calls returned them. *)
Definition convTime (g : conv) : Z :=
  match g_con g with Some e => e_lat e | None => 0 end +
  match g_req g, g_resp g with
  | q :: _, r :: rs => e_ts (last rs r) - (e_ts q - e_lat q)
  | _, _ => 0
  end.
Definition convQuantity (q : string) (g : conv) : Z :=
  if eqb q "request_count" then 1
  else if eqb q "request_total_time" then convTime g
  else if eqb q "request_io" then zsum (map resVal (g_req g))
  else zsum (map resVal (g_resp g)).

(** ** Hypotheses *)
(** Go's types: uint32 thread and process numbers and ports, and bytes. *)
Definition goodEvent (e : event) : Prop :=
  0 <= e_pid e < 2 ^ 32 /\ 0 <= e_tid e < 2 ^ 32 /\ 0 <= e_sport e < 2 ^ 32 /\ 0 <= e_dport e < 2 ^ 32 /\ Forall is_byte (EventModel.getData e).
(** A label of a group: integers are int64; the labels of the Kubernetes metadata are text, the port a number. *)
Definition goodLabel (k : string) (v : aval) : Prop :=
  (forall z, v = IV z -> - 2 ^ 63 <= z < 2 ^ 63) /\ (In k stringLabels -> exists s, v = SV s) /\ (k = "dst_port" -> exists z, v = IV z).
Definition goodLabels (m : list (string * aval)) : Prop := NoDup (keys m) /\ forall k v, aget m k = Some v -> goodLabel k v.
(** A group of the pool: all metrics zero (C08). *)
Definition clearGroup (g : group) : Prop :=
  gname g = "net_request_metric_group" /\ gmetrics g = map (fun n => (n, MInt 0)) groupMetricNames /\ goodLabels (glabels g).
Definition goodEnv (m : menv) : Prop :=
  (forall n, clearGroup (me_pool m n)) /\ (forall ip port, me_nat m = Some (ip, port) -> 0 <= port < 2 ^ 16).
Definition goodNop (o : nop) : Prop :=
  match o with
  | NEvent ms e => goodEvent e /\ forall n, goodEnv (ms n)
  | NScan ms _ => forall k, goodEnv (ms k)
  end.
(** A parser: it sets labels of its own only (C55_parser_labels), integers are int64. *)
Definition goodAttrs (a : list (string * aval)) : Prop := parserMaySet a /\ goodLabels a.
Definition goodParser (p : parser) : Prop :=
  (forall d ok m, Forall is_byte d -> pr_request p d = Ok (ok, m) -> goodAttrs (m_attrs m)) /\
  (forall d a ok m, Forall is_byte d -> goodAttrs a -> pr_response p d a = Ok (ok, m) -> goodAttrs (m_attrs m)).
Definition goodAnalyzer (an : analyzer) : Prop := forall n p, an_parser an n = Some p -> goodParser p /\ (pr_multi p = true -> pr_name p = "dns").

(** Every pair handed over gave one record, and was not DNS over TCP: it was not an unanswered MySQL quit or a "100 Continue"
    (C70_one_record). *)
Definition oneRecord (e : entry) : Prop := exists r, en_records e = [r] /\ protocolIs (glabels r) "dns" = false.

(** The groups of the network analyzer in a history of the pipeline. *)
Definition networkGroups (os : list flow_op) : list group :=
  flat_map (fun o => match o with FGroup g _ _ _ _ => if eqb (gname g) "net_request_metric_group" then [g] else [] | _ => [] end) os.
(** The pod of a container, by the caches of the moment. *)
Definition inPod (v : view) (ns p : bytes) (cid : bytes) : bool :=
  match aget (k_cids (v_k8s v)) cid with
  | Some c => eqb (pi_ns (podAt (k_pods (v_k8s v)) (ci_pod c))) ns && eqb (pi_name (podAt (k_pods (v_k8s v)) (ci_pod c))) p
  | None => false
  end.
(** Whenever a group is handed over the caches give the containers of [C], and no others, to the pod. *)
Definition containersAre (ns p : bytes) (C : bytes -> bool) (o : flow_op) : Prop :=
  match o with FGroup _ v _ _ _ => forall cid, inPod v ns p cid = C cid | _ => True end.
(** The surroundings of a step: like goodFlowOp, but nothing is assumed of the groups of the network analyzer. *)
Definition goodAround (cfg : AdapterModel.config) (o : flow_op) : Prop :=
  match o with
  | FGroup g v _ _ it => (gname g <> "net_request_metric_group" -> goodInput cfg g) /\ portsFit (v_k8s v) /\ forall m, Permutation.Permutation (it m) m
  | FDeliver _ it | FScrape it => forall m, Permutation.Permutation (it m) m
  | FTick => True
  end.

(** ** Requests *)
Definition requestEvents (os : list nop) : list event := flat_map (fun o => flat_map (fun t => match t with KReq e => [e] | _ => [] end) (tokensOf o)) os.
Definition servedEvent (C : bytes -> bool) (e : event) : bool := e_role e && C (bs (e_cid e)).
(** Events of the same process, descriptor and source port are of the same container and side. *)
Definition sameParty (l : list event) : Prop :=
  forall a b, In a l -> In b l -> evKey a = evKey b -> e_sport a = e_sport b -> e_cid a = e_cid b /\ e_role a = e_role b.
(** On every connection a request follows a response (or is the first). *)
Fixpoint turns (waiting : bool) (l : list item) : Prop :=
  match l with
  | [] => True
  | IEv _ (KReq _) :: l' => waiting = false /\ turns true l'
  | IEv _ (KResp _) :: l' => turns false l'
  | IEv _ (KConn _) :: l' => turns false l'
  | ITick _ _ :: l' => turns waiting l'
  end.
(** A connect event is not of a server. *)
Definition clientsConnect (os : list nop) : Prop := forall e, In (KConn e) (flat_map tokensOf os) -> e_role e = false.
