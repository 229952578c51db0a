(** What the exported inventory of workloads should say, from the plain history. *)
From Coq Require Import Sorting.Permutation.
From Verif Require Import Base Decimal AttrModel PoolModel KeyModel AggModel LabelNames K8sModel EnrichModel AdapterModel AdapterSpec OtelModel OtelSpec WorkFlowModel.
Open Scope string_scope. Open Scope list_scope. Open Scope Z_scope.

(** The workloads handed over since the last scrape (or restart of the meter), with what is left of the round under way. *)
Definition sentStep (x : list winfo * list winfo) (o : iop) : list winfo * list winfo :=
  let '(left_, sent) := x in
  match o with
  | IFire st order => (order (workloads st), sent)
  | ISend _ _ => match left_ with w :: l => (l, sent ++ [w]) | [] => ([], sent) end
  | IOther (XScrape _) | IOther XRestart => (left_, [])
  | _ => (left_, sent)
  end.
Definition sentSince (os : list iop) : list winfo := snd (fold_left sentStep os ([], [])).
(** An observation of the inventory says: this workload, with the value 1 and the custom labels of the configuration. *)
Definition listsWorkload (cl : list (string * aval)) (w : winfo) (c : sdk) : Prop :=
  exists at_, c = SObserve "kindling_k8s_workload_info" 1 at_ /\
    saysLabels cl [("namespace", Some (SV (wi_ns w))); ("workload_kind", Some (SV (wi_kind w))); ("workload_name", Some (SV (wi_name w)))] at_.
Definition ofInventory (c : sdk) : bool := match c with SObserve n _ _ => eqb n "kindling_k8s_workload_info" | _ => false end.
(** The orders are orders; the other groups are groups the exporter may receive, and do not carry the metric of the inventory. *)
Definition goodInfoOp (cl : list (string * aval)) (cfg : config) (o : iop) : Prop :=
  match o with
  | IFire _ order => forall l, Permutation (order l) l
  | ISend _ it => forall m, Permutation (it m) m
  | IOther o' => goodOp cl cfg o' /\ match o' with XConsume g _ _ => ~ In "kindling_k8s_workload_info" (map fst (gmetrics g)) | _ => True end
  | _ => True
  end.
Definition collects (o : iop) : bool := match o with IOther (XScrape _) | IOther XRestart => true | _ => false end.
