(** C44: the labels of every exported metric and span. C45: the status colours. *)
From Verif Require Import Base Decimal AttrModel AttrProofs PoolModel LabelNames EnrichModel AdapterModel AdapterProofs AdapterSpec AdapterWorld AdapterTables.
From Coq Require Import Permutation Sorting.Sorted.
Open Scope string_scope. Open Scope list_scope. Open Scope Z_scope.

Lemma dictTable_app m a b : dictTable m (a ++ b) = dictTable m a ++ dictTable m b.
Proof. apply map_app. Qed.
Definition shapeAt (x : nat) : shape := nth x shapes {| s_base := []; s_extra := []; s_val := VNone; s_adj := [] |}.

Lemma coarse_server m e : aget entityProtocol (found (shapeAt 0) m) = Some e -> forall q, In q (builtIn (shapeAt 0) e m []) <-> In q (coarseServerT m).
Proof.
  intros H q. unfold builtIn, coarseServerT. cbn [shapeAt nth shapes s_adj s_base s_val vkeys combine]. rewrite app_nil_r, dictTable_app.
  rewrite (content_table (shapeAt 0) m e eq_refl H). reflexivity.
Qed.
Lemma coarse_server_slow m e : aget entityProtocol (found (shapeAt 1) m) = Some e -> forall q, In q (builtIn (shapeAt 1) e m []) <-> In q (coarseServerT m ++ slowT m).
Proof.
  intros H q. unfold builtIn, coarseServerT. cbn [shapeAt nth shapes s_adj s_base s_val vkeys combine]. rewrite app_nil_r, !dictTable_app.
  rewrite (content_table (shapeAt 1) m e eq_refl H). change (dictTable m entityMetricDicList) with (entityT m). change (dictTable m isSlowDicList) with (slowT m).
  unfold adjusted. cbn [fold_left]. rewrite !in_app_iff. tauto.
Qed.
Lemma fine_server m e : aget entityProtocol (found (shapeAt 2) m) = Some e -> forall q, In q (builtIn (shapeAt 2) e m []) <-> In q (fineServerT m).
Proof.
  intros H q. unfold builtIn, fineServerT. cbn [shapeAt nth shapes s_adj s_base s_val vkeys combine]. rewrite app_nil_r, !dictTable_app.
  rewrite (content_table (shapeAt 2) m e eq_refl H). change (dictTable m entityMetricDicList) with (entityT m).
  unfold adjusted. cbn [fold_left]. change (podT m) with (dictTable m entityInstanceMetricDicList ++ dictTable m entityDetailMetricDicList).
  rewrite !in_app_iff. tauto.
Qed.
Lemma fine_server_slow m e : aget entityProtocol (found (shapeAt 3) m) = Some e -> forall q, In q (builtIn (shapeAt 3) e m []) <-> In q (fineServerT m ++ slowT m).
Proof.
  intros H q. unfold builtIn, fineServerT. cbn [shapeAt nth shapes s_adj s_base s_val vkeys combine]. rewrite app_nil_r, !dictTable_app.
  rewrite (content_table (shapeAt 3) m e eq_refl H). change (dictTable m entityMetricDicList) with (entityT m). change (dictTable m isSlowDicList) with (slowT m).
  unfold adjusted. cbn [fold_left]. change (podT m) with (dictTable m entityInstanceMetricDicList ++ dictTable m entityDetailMetricDicList).
  rewrite !in_app_iff. tauto.
Qed.

(** Labels the adjusters leave alone. *)
Definition edgeEnds := ["src_namespace"; "src_workload_kind"; "src_workload_name"; "src_service"; "dst_namespace"; "dst_workload_kind"; "dst_workload_name"; "dst_service"].
Lemma topology_split m : dictTable m topologyMetricDicList = map (keepS m) edgeEnds ++ map (keepS m) ["dst_node"; "dst_pod"] ++ map (keepS m) ["protocol"].
Proof. reflexivity. Qed.
Lemma edge_split m : edgeT m = map (keepS m) edgeEnds ++ map (keepS m) ["protocol"].
Proof. reflexivity. Qed.
Lemma adj_keep adj m t : (forall k, In k (map fst t) -> ~ In k (flat_map adjKeys adj)) -> adjusted adj m t = t.
Proof. intros H. apply adjusted_noop. intros p I. apply H. apply in_map. exact I. Qed.
Ltac kept := apply adj_keep; cbn [map fst keepS keepI S_ I_ B_ edgeEnds slowT edgeStatusT containersT]; cbn [flat_map adjKeys app];
  intros k I J; cbn [In] in I, J; repeat (destruct I as [<-|I]; [repeat (destruct J as [J|J]; [discriminate|]); destruct J|]); destruct I.
Lemma coarse_pair m : adjusted [ARemoveDstPod] m (map (keepS m) ["dst_node"; "dst_pod"]) = coarseDstT m.
Proof.
  unfold adjusted. cbn [fold_left]. rewrite adjust_eq. unfold coarseDstT, notFound. cbn [adjOff]. unfold namespaceNotFound.
  change LbDstNamespace with "dst_namespace". change ExternalNs with (bs "NOT_FOUND_EXTERNAL"). change InternalNs with (bs "NOT_FOUND_INTERNAL").
  destruct (_ || _); reflexivity.
Qed.
Lemma fine_triple m : adjusted [AReplaceByDnat] m (dictTable m topologyInstanceMetricDicList) =
  keepS m "src_ip" :: (if translated m then [S_ "dst_ip" (strOf m "dnat_ip"); I_ "dst_port" (intOf m "dnat_port")] else [keepS m "dst_ip"; keepI m "dst_port"]).
Proof.
  unfold adjusted. cbn [fold_left]. rewrite adjust_eq. unfold translated. cbn [adjOff]. change LbDnatIp with "dnat_ip". change LbDnatPort with "dnat_port".
  destruct (eqb (strOf m "dnat_ip") []) eqn:A; cbn [orb negb andb]; [reflexivity|].
  destruct (intOf m "dnat_port" <? 1) eqn:B; destruct (1 <=? intOf m "dnat_port") eqn:C; try (exfalso; lia); [reflexivity|].
  unfold dictTable, topologyInstanceMetricDicList. cbn [map adjFun newKey].
  change LbDnatIp with "dnat_ip". change LbDnatPort with "dnat_port". rewrite A.
  assert (D : (0 <? intOf m "dnat_port") = true) by lia. rewrite D. reflexivity.
Qed.
Section Topology.
  Context (m : labels) (e : list dict).
  Lemma coarse_edge : aget topologyProtocol (found (shapeAt 4) m) = Some e -> forall q, In q (builtIn (shapeAt 4) e m []) <-> In q (coarseEdgeT m).
  Proof.
    intros H q. unfold builtIn, coarseEdgeT. cbn [shapeAt nth shapes s_adj s_base s_val vkeys combine]. rewrite app_nil_r, !dictTable_app.
    rewrite (status_table (shapeAt 4) m e eq_refl H), topology_split, edge_split, !adjusted_app, coarse_pair.
    replace (adjusted [ARemoveDstPod] m (map (keepS m) edgeEnds)) with (map (keepS m) edgeEnds) by (symmetry; kept).
    replace (adjusted [ARemoveDstPod] m (map (keepS m) ["protocol"])) with (map (keepS m) ["protocol"]) by (symmetry; kept).
    replace (adjusted [ARemoveDstPod] m (edgeStatusT m)) with (edgeStatusT m) by (symmetry; kept).
    rewrite !in_app_iff. tauto.
  Qed.
  Lemma coarse_edge_slow : aget topologyProtocol (found (shapeAt 5) m) = Some e -> forall q, In q (builtIn (shapeAt 5) e m []) <-> In q (coarseEdgeT m ++ slowT m).
  Proof.
    intros H q. unfold builtIn, coarseEdgeT. cbn [shapeAt nth shapes s_adj s_base s_val vkeys combine]. rewrite app_nil_r, !dictTable_app.
    rewrite (status_table (shapeAt 5) m e eq_refl H), topology_split, edge_split, !adjusted_app, coarse_pair.
    change (dictTable m isSlowDicList) with (slowT m).
    replace (adjusted [ARemoveDstPod] m (map (keepS m) edgeEnds)) with (map (keepS m) edgeEnds) by (symmetry; kept).
    replace (adjusted [ARemoveDstPod] m (map (keepS m) ["protocol"])) with (map (keepS m) ["protocol"]) by (symmetry; kept).
    replace (adjusted [ARemoveDstPod] m (edgeStatusT m)) with (edgeStatusT m) by (symmetry; kept).
    replace (adjusted [ARemoveDstPod] m (slowT m)) with (slowT m) by (symmetry; kept).
    rewrite !in_app_iff. tauto.
  Qed.
  Lemma fineDst_split : forall q, In q (fineDstT m) <-> In q (map (keepS m) ["dst_node"; "dst_pod"]) \/ In q (adjusted [AReplaceByDnat] m (dictTable m topologyInstanceMetricDicList)).
  Proof. intros q. rewrite fine_triple. unfold fineDstT. change ["dst_node"; "dst_pod"; "src_ip"] with (["dst_node"; "dst_pod"] ++ ["src_ip"]). rewrite map_app, !in_app_iff. cbn [map In]. tauto. Qed.
  Lemma fine_edge : aget topologyProtocol (found (shapeAt 6) m) = Some e -> forall q, In q (builtIn (shapeAt 6) e m []) <-> In q (fineEdgeT m).
  Proof.
    intros H q. unfold builtIn, fineEdgeT. cbn [shapeAt nth shapes s_adj s_base s_val vkeys combine]. rewrite app_nil_r, !dictTable_app.
    rewrite (status_table (shapeAt 6) m e eq_refl H), topology_split, edge_split, !adjusted_app.
    change (dictTable m topologyDetailMetricDicList) with (containersT m).
    replace (adjusted [AReplaceByDnat] m (map (keepS m) edgeEnds)) with (map (keepS m) edgeEnds) by (symmetry; kept).
    replace (adjusted [AReplaceByDnat] m (map (keepS m) ["protocol"])) with (map (keepS m) ["protocol"]) by (symmetry; kept).
    replace (adjusted [AReplaceByDnat] m (map (keepS m) ["dst_node"; "dst_pod"])) with (map (keepS m) ["dst_node"; "dst_pod"]) by (symmetry; kept).
    replace (adjusted [AReplaceByDnat] m (containersT m)) with (containersT m) by (symmetry; kept).
    replace (adjusted [AReplaceByDnat] m (edgeStatusT m)) with (edgeStatusT m) by (symmetry; kept).
    rewrite !in_app_iff, fineDst_split. tauto.
  Qed.
  Lemma fine_edge_slow : aget topologyProtocol (found (shapeAt 7) m) = Some e -> forall q, In q (builtIn (shapeAt 7) e m []) <-> In q (fineEdgeT m ++ slowT m).
  Proof.
    intros H q. unfold builtIn, fineEdgeT. cbn [shapeAt nth shapes s_adj s_base s_val vkeys combine]. rewrite app_nil_r, !dictTable_app.
    rewrite (status_table (shapeAt 7) m e eq_refl H), topology_split, edge_split, !adjusted_app.
    change (dictTable m topologyDetailMetricDicList) with (containersT m). change (dictTable m isSlowDicList) with (slowT m).
    replace (adjusted [AReplaceByDnat] m (map (keepS m) edgeEnds)) with (map (keepS m) edgeEnds) by (symmetry; kept).
    replace (adjusted [AReplaceByDnat] m (map (keepS m) ["protocol"])) with (map (keepS m) ["protocol"]) by (symmetry; kept).
    replace (adjusted [AReplaceByDnat] m (map (keepS m) ["dst_node"; "dst_pod"])) with (map (keepS m) ["dst_node"; "dst_pod"]) by (symmetry; kept).
    replace (adjusted [AReplaceByDnat] m (containersT m)) with (containersT m) by (symmetry; kept).
    replace (adjusted [AReplaceByDnat] m (edgeStatusT m)) with (edgeStatusT m) by (symmetry; kept).
    replace (adjusted [AReplaceByDnat] m (slowT m)) with (slowT m) by (symmetry; kept).
    rewrite !in_app_iff, fineDst_split. tauto.
  Qed.
End Topology.
Lemma plainDst_split m q : In q (plainDstT m) <->
  In q (map (keepS m) ["dst_node"; "dst_pod"]) \/ In q (dictTable m topologyInstanceMetricDicList) \/ In q (dictTable m dNatDicList).
Proof.
  unfold plainDstT. change (dictTable m topologyInstanceMetricDicList) with [keepS m "src_ip"; keepS m "dst_ip"; keepI m "dst_port"].
  change (dictTable m dNatDicList) with [keepS m "dnat_ip"; keepI m "dnat_port"]. cbn [map app In]. tauto.
Qed.
Lemma trace_metric g e : aget entityProtocol (found (shapeAt 9) (glabels g)) = Some e -> forall q, In q (builtIn (shapeAt 9) e (glabels g) (coloursT g)) <-> In q (traceMetricT g).
Proof.
  intros H q. unfold builtIn, traceMetricT. cbn [shapeAt nth shapes s_adj s_base s_val]. rewrite !dictTable_app.
  rewrite (content_table (shapeAt 9) (glabels g) e eq_refl H), topology_split, edge_split.
  change (combine (vkeys VStatus) (map snd (coloursT g))) with (coloursT g).
  change (dictTable (glabels g) topologyDetailMetricDicList) with (containersT (glabels g)).
  unfold adjusted. cbn [fold_left]. rewrite !in_app_iff, plainDst_split. tauto.
Qed.
Lemma span_labels_table g e vl : protocolIs (glabels g) "redis" = false -> combine (vkeys VSpan) (map snd vl) = spanValuesT g ->
  aget spanProtocol (found (shapeAt 8) (glabels g)) = Some e -> forall q, In q (builtIn (shapeAt 8) e (glabels g) vl) <-> In q (spanT g).
Proof.
  intros R E H q. unfold builtIn, spanT. cbn [shapeAt nth shapes s_adj s_base s_val]. rewrite E, !dictTable_app.
  rewrite (span_table (shapeAt 8) (glabels g) e eq_refl R H), topology_split, edge_split.
  change (dictTable (glabels g) SpanDicList) with (spanBaseT (glabels g)).
  unfold adjusted. cbn [fold_left]. rewrite !in_app_iff, plainDst_split. tauto.
Qed.

Lemma entity_name n : toKindlingNetMetricName n true = entityName n.
Proof.
  unfold toKindlingNetMetricName, entityName, metricNameDictionary, MRequestIo, MResponseIo, MRequestTotalTime, MRequestCount, MRequestTimeHistogram. cbn [aget].
  destruct (eqb n "request_io"); [reflexivity|]. destruct (eqb n "response_io"); [reflexivity|]. destruct (eqb n "request_total_time"); [reflexivity|].
  destruct (eqb n "request_count"); [reflexivity|]. destruct (eqb n "request_total_time_avg"); [reflexivity|]. destruct (eqb n "request_time_histogram"); reflexivity.
Qed.
Lemma topology_name n : toKindlingNetMetricName n false = topologyName n.
Proof.
  unfold toKindlingNetMetricName, topologyName, metricNameDictionary, MRequestIo, MResponseIo, MRequestTotalTime, MRequestCount, MRequestTimeHistogram. cbn [aget].
  destruct (eqb n "request_io"); [reflexivity|]. destruct (eqb n "response_io"); [reflexivity|]. destruct (eqb n "request_total_time"); [reflexivity|].
  destruct (eqb n "request_count"); [reflexivity|]. destruct (eqb n "request_total_time_avg"); [reflexivity|]. destruct (eqb n "request_time_histogram"); reflexivity.
Qed.

Section Adapt.
  Context (cl : list (string * aval)) (good : goodCustom cl) (cfg : config).

  (** A part of the adapter yields these results from every state of the pools. *)
  Definition yields (g : group) (ty : attrType) (ws : list want) (f : pools -> res (pools * list result)) : Prop :=
    forall p, poolsOK cl p -> exists p' rs, f p = Ok (p', rs) /\ poolsOK cl p' /\ Forall2 (shows cl g) ws rs /\ Forall (fun r => formOf (res_attrs r) = ty) rs.
  Lemma yields_none g ty : yields g ty [] (fun p => Ok (p, [])).
  Proof. intros p P. exists p, []. auto. Qed.
  Lemma yields_both g ty w1 w2 f1 f2 : yields g ty w1 f1 -> yields g ty w2 f2 -> yields g ty (w1 ++ w2) (both f1 f2).
  Proof.
    intros Y1 Y2 p P. destruct (Y1 p P) as (p1 & r1 & E1 & P1 & F1 & A1). destruct (Y2 p1 P1) as (p2 & r2 & E2 & P2 & F2 & A2).
    exists p2, (r1 ++ r2). unfold both. rewrite E1. cbn [bind fst snd]. rewrite E2. cbn [bind fst snd].
    split; [reflexivity|]. split; [exact P2|]. split; [apply Forall2_app; assumption|apply Forall_app; auto].
  Qed.
  Lemma yields_if (b : bool) t ms g x ty s tab vl : nth_error shapes x = Some s -> vlabels (s_val s) g = Ok vl ->
    (s_val s = VSpan -> found s (glabels g) <> pREDIS) ->
    (ty = AttributeMap -> map fst vl = vkeys (s_val s) /\ forall p, In p vl -> snd p <> None) ->
    (forall e, aget (s_extra s) (found s (glabels g)) = Some e -> forall p, In p (builtIn s e (glabels g) vl) <-> In p tab) ->
    yields g ty (if b then [{| wn_type := t; wn_metrics := ms; wn_labels := tab |}] else []) (createIf cl b t ms g x ty).
  Proof.
    intros Hs V R FV Tab p P. unfold createIf. destruct b; [|exists p, []; auto].
    destruct (create_shows cl good t ms g x ty p s vl tab P Hs V R FV Tab) as (p' & r & C & P' & F & S). rewrite C. cbn [bind fst snd].
    exists p', [r]. auto.
  Qed.
  Lemma yields_counted g ty x0 x1 s0 s1 tab name (toT : bool) :
    nth_error shapes x0 = Some s0 -> nth_error shapes x1 = Some s1 -> s_val s0 = VNone -> s_val s1 = VNone ->
    (forall e, aget (s_extra s0) (found s0 (glabels g)) = Some e -> forall p, In p (builtIn s0 e (glabels g) []) <-> In p tab) ->
    (forall e, aget (s_extra s1) (found s1 (glabels g)) = Some e -> forall p, In p (builtIn s1 e (glabels g) []) <-> In p (tab ++ slowT (glabels g))) ->
    (forall n, toKindlingNetMetricName n (boolOf (glabels g) LIsServer && negb toT) = name n) ->
    yields g ty (counted g name tab) (createNetMetricResults cl g x0 x1 ty toT).
  Proof.
    intros H0 H1 V0 V1 T0 T1 N. unfold createNetMetricResults, counted.
    assert (E : forall l, map (fun m : string * mdata => (toKindlingNetMetricName (fst m) (boolOf (glabels g) LIsServer && negb toT), snd m)) l =
                          map (fun m => (name (fst m), snd m)) l) by (intros l; apply map_ext; intros q; rewrite N; reflexivity).
    rewrite !E. change MRequestCount with "request_count".
    assert (Z : forall l, zlen (map (fun m : string * mdata => (name (fst m), snd m)) l) = zlen l) by (intros l; unfold zlen; rewrite map_length; reflexivity).
    rewrite !Z. intros p P. refine (yields_both g ty _ _ _ _ _ _ p P).
    - apply (yields_if _ _ _ _ _ _ s0 tab [] H0); [rewrite V0; reflexivity|congruence| |exact T0].
      intros _. rewrite V0. split; [reflexivity|intros q []].
    - apply (yields_if _ _ _ _ _ _ s1 (tab ++ slowT (glabels g)) [] H1); [rewrite V1; reflexivity|congruence| |exact T1].
      intros _. rewrite V1. split; [reflexivity|intros q []].
  Qed.
  Lemma yields_agg g ty : yields g ty (wantAggregated cfg g) (dealWithPreAgg cl cfg g ty).
  Proof.
    unfold wantAggregated, dealWithPreAgg. change LIsServer with "is_server". change LbSrcNamespace with "src_namespace". change ExternalNs with (bs "NOT_FOUND_EXTERNAL").
    intros p P. refine (yields_both g ty _ _ _ _ _ _ p P); clear p P.
    - destruct (StoreExternalSrcIP cfg), (boolOf (glabels g) "is_server") eqn:S, (eqb (strOf (glabels g) "src_namespace") (bs "NOT_FOUND_EXTERNAL")); cbn [andb]; try apply yields_none.
      apply (yields_counted g ty 6 7 (shapeAt 6) (shapeAt 7)); try reflexivity.
      + apply fine_edge.
      + apply fine_edge_slow.
      + intros n. change LIsServer with "is_server". rewrite S. apply topology_name.
    - destruct (StorePodDetail cfg), (boolOf (glabels g) "is_server") eqn:S.
      + apply (yields_counted g ty 2 3 (shapeAt 2) (shapeAt 3)); try reflexivity; [apply fine_server|apply fine_server_slow|].
        intros n. change LIsServer with "is_server". rewrite S. apply entity_name.
      + apply (yields_counted g ty 6 7 (shapeAt 6) (shapeAt 7)); try reflexivity; [apply fine_edge|apply fine_edge_slow|].
        intros n. change LIsServer with "is_server". rewrite S. apply topology_name.
      + apply (yields_counted g ty 0 1 (shapeAt 0) (shapeAt 1)); try reflexivity; [apply coarse_server|apply coarse_server_slow|].
        intros n. change LIsServer with "is_server". rewrite S. apply entity_name.
      + apply (yields_counted g ty 4 5 (shapeAt 4) (shapeAt 5)); try reflexivity; [apply coarse_edge|apply coarse_edge_slow|].
        intros n. change LIsServer with "is_server". rewrite S. apply topology_name.
  Qed.

  Lemma yields_trace_metric g d : intsOf timed (gmetrics g) ->
    yields g AttributeMap (if StoreTraceAsMetric cfg then [{| wn_type := RMetric; wn_metrics := [("kindling_trace_request_duration_nanoseconds", d)]; wn_labels := traceMetricT g |}] else [])
      (createIf cl (StoreTraceAsMetric cfg) RMetric [(TraceAsMetric, d)] g xTraceMetric AttributeMap).
  Proof.
    intros I. apply (yields_if _ _ _ _ _ _ (shapeAt 9) (traceMetricT g) (coloursT g)); [reflexivity|exact (status_labels g I)|discriminate| |].
    - intros _. split; [reflexivity|]. unfold coloursT. cbn [In]. intros p H. repeat (destruct H as [<-|H]; [discriminate|]). destruct H.
    - apply trace_metric.
  Qed.
  Lemma yields_span g d ty : intsOf measured (gmetrics g) -> 0 <= gts g < 2 ^ 64 -> protocolIs (glabels g) "redis" = false ->
    (ty = AttributeMap -> forall n, In n measured -> lastInt (gmetrics g) n <> None) ->
    yields g ty (if StoreTraceAsSpan cfg then [{| wn_type := RTrace; wn_metrics := [("request_total_time", d)]; wn_labels := spanT g |}] else [])
      (createIf cl (StoreTraceAsSpan cfg) RTrace [(MRequestTotalTime, d)] g xSpan ty).
  Proof.
    intros I T R F. destruct (span_labels g I T) as (vl & V & C & FV).
    apply (yields_if _ _ _ _ _ _ (shapeAt 8) (spanT g) vl); [reflexivity|exact V| | |].
    - intros _. apply not_redis; [reflexivity|exact R].
    - intros E. exact (FV (F E)).
    - intros e He. exact (span_labels_table g e vl R C He).
  Qed.
End Adapt.

(** ** Pre-aggregated groups: in every configuration, after every history of the adapter and whatever the pools give back, the results are
    the ones wanted, with exactly the labels of their tables. *)
Theorem C44_aggregated : forall cl cfg h choices g ty,
  goodCustom cl -> gname g = "aggregated_net_request_metric_group" ->
  exists p rs, adapt cl cfg g ty (withChoices (w_pools (hrun cl cfg h)) choices) = Ok (p, rs) /\
    Forall2 (shows cl g) (wantAggregated cfg g) rs /\ Forall (fun r => formOf (res_attrs r) = ty) rs.
Proof.
  intros cl cfg h choices g ty G N. unfold adapt. change AggregatedNetRequestMetricGroup with "aggregated_net_request_metric_group". rewrite N, eqb_refl.
  destruct (yields_agg cl G cfg g ty _ (hrun_pools cl cfg h choices)) as (p & rs & E & _ & S & F). exists p, rs. auto.
Qed.
Print Assumptions C44_aggregated.

(** ** Single requests. The span of a Redis request is the subject of C44_redis_span. *)
Theorem C44_single : forall cl cfg h choices g ty,
  goodCustom cl -> gname g = "single_net_request_metric_group" ->
  (StoreTraceAsMetric cfg = true -> intsOf timed (gmetrics g)) ->
  (StoreTraceAsSpan cfg = true -> intsOf measured (gmetrics g) /\ 0 <= gts g < 2 ^ 64 /\ protocolIs (glabels g) "redis" = false /\
     (ty = AttributeMap -> forall n, In n measured -> lastInt (gmetrics g) n <> None)) ->
  exists p rs, adapt cl cfg g ty (withChoices (w_pools (hrun cl cfg h)) choices) = Ok (p, rs) /\
    Forall2 (shows cl g) (wantSingle cfg g) rs /\
    Forall (fun r => formOf (res_attrs r) = match res_type r with RMetric => AttributeMap | RTrace => ty end) rs.
Proof.
  intros cl cfg h choices g ty G N HM HS. assert (P := hrun_pools cl cfg h choices). revert P. generalize (withChoices (w_pools (hrun cl cfg h)) choices). intros p0 P.
  unfold adapt. rewrite N. cbn [eqb]. change (eqb "single_net_request_metric_group" AggregatedNetRequestMetricGroup) with false.
  change (eqb "single_net_request_metric_group" SingleNetRequestMetricGroup) with true. cbv iota.
  unfold dealWithSingle, wantSingle, getMetric. change MRequestTotalTime with "request_total_time".
  destruct (aget (gmetrics g) "request_total_time") as [d|]; [|exists p0, []; auto].
  assert (Y1 : exists p1 r1, createIf cl (StoreTraceAsMetric cfg) RMetric [(TraceAsMetric, d)] g xTraceMetric AttributeMap p0 = Ok (p1, r1) /\ poolsOK cl p1 /\
    Forall2 (shows cl g) (if StoreTraceAsMetric cfg then [{| wn_type := RMetric; wn_metrics := [("kindling_trace_request_duration_nanoseconds", d)]; wn_labels := traceMetricT g |}] else []) r1 /\
    Forall (fun r => formOf (res_attrs r) = AttributeMap) r1).
  { destruct (StoreTraceAsMetric cfg) eqn:E; [|exists p0, []; cbn; auto].
    assert (Y := yields_trace_metric cl G cfg g d (HM eq_refl) p0 P). rewrite E in Y. exact Y. }
  destruct Y1 as (p1 & r1 & E1 & P1 & S1 & F1).
  assert (Y2 : exists p2 r2, createIf cl (StoreTraceAsSpan cfg) RTrace [(MRequestTotalTime, d)] g xSpan ty p1 = Ok (p2, r2) /\ poolsOK cl p2 /\
    Forall2 (shows cl g) (if StoreTraceAsSpan cfg then [{| wn_type := RTrace; wn_metrics := [("request_total_time", d)]; wn_labels := spanT g |}] else []) r2 /\
    Forall (fun r => formOf (res_attrs r) = ty) r2).
  { destruct (StoreTraceAsSpan cfg) eqn:E; [|exists p1, []; cbn; auto]. destruct (HS eq_refl) as (I & T & R & F).
    assert (Y := yields_span cl G cfg g d ty I T R F p1 P1). rewrite E in Y. exact Y. }
  destruct Y2 as (p2 & r2 & E2 & P2 & S2 & F2).
  exists p2, (r1 ++ r2). unfold both. rewrite E1. cbn [bind fst snd]. change [("request_total_time", d)] with [(MRequestTotalTime, d)] at 1. rewrite E2. cbn [bind fst snd].
  split; [reflexivity|]. split; [apply Forall2_app; assumption|]. apply Forall_app. split.
  - rewrite Forall_forall in *. intros r I. rewrite (F1 r I). destruct (StoreTraceAsMetric cfg); [|inversion S1; subst; destruct I].
    inversion S1 as [|? ? ? ? X Y]; subst. inversion Y; subst. destruct I as [<-|[]]. destruct X as [X _]. cbn [wn_type] in X. rewrite X. reflexivity.
  - rewrite Forall_forall in *. intros r I. rewrite (F2 r I). destruct (StoreTraceAsSpan cfg); [|inversion S2; subst; destruct I].
    inversion S2 as [|? ? ? ? X Y]; subst. inversion Y; subst. destruct I as [<-|[]]. destruct X as [X _]. cbn [wn_type] in X. rewrite X. reflexivity.
Qed.
Print Assumptions C44_single.

Theorem C44_other_groups : forall cl cfg p g ty,
  gname g <> "aggregated_net_request_metric_group" -> gname g <> "single_net_request_metric_group" -> adapt cl cfg g ty p = Ok (p, []).
Proof.
  intros cl cfg p g ty N1 N2. unfold adapt. rewrite (proj2 (eqb_neq _ _)) by exact N1. rewrite (proj2 (eqb_neq _ _)) by exact N2. reflexivity.
Qed.
Print Assumptions C44_other_groups.

(** ** Results do not depend on what the adapter handled before *)
Lemma before_asym a b : before a b -> before b a -> False.
Proof.
  unfold before, String.ltb. intros H. rewrite (String.compare_antisym a b) in H. destruct (String.compare b a); cbn in *; discriminate.
Qed.
Lemma sorted_ext : forall l l' : list kv, StronglySorted before (map fst l) -> StronglySorted before (map fst l') ->
  (forall k v, In (k, v) l <-> In (k, v) l') -> l = l'.
Proof.
  induction l as [|[a x] l IH]; intros [|[b y] l'] S S' H.
  - reflexivity.
  - exfalso. apply (H b y). left. reflexivity.
  - exfalso. apply (H a x). left. reflexivity.
  - cbn [map fst] in *. inversion S as [|? ? S1 F1]; subst. inversion S' as [|? ? S2 F2]; subst. rewrite Forall_forall in F1, F2.
    assert (E : (a, x) = (b, y)).
    { destruct (proj1 (H a x) (or_introl eq_refl)) as [E|E]; [symmetry; exact E|].
      destruct (proj2 (H b y) (or_introl eq_refl)) as [E'|E']; [exact E'|]. exfalso.
      apply (before_asym a b); [apply F1; apply (in_map fst) in E'; exact E'|apply F2; apply (in_map fst) in E; exact E]. }
    inversion E; subst. f_equal. apply IH; [exact S1|exact S2|]. intros k v. split; intros I.
    + destruct (proj1 (H k v) (or_intror I)) as [X|X]; [|exact X]. exfalso. inversion X; subst. apply (in_map fst) in I. cbn [fst] in I.
      apply (before_asym k k); apply F1; exact I.
    + destruct (proj2 (H k v) (or_intror I)) as [X|X]; [|exact X]. exfalso. inversion X; subst. apply (in_map fst) in I. cbn [fst] in I.
      apply (before_asym k k); apply F2; exact I.
Qed.
Lemma shows_same cl g w a b : shows cl g w a -> shows cl g w b -> formOf (res_attrs a) = formOf (res_attrs b) -> sameResult a b.
Proof.
  intros (A1 & A2 & A3 & A4) (B1 & B2 & B3 & B4) F. split; [congruence|]. split; [congruence|]. split; [congruence|]. unfold sameAttrs.
  destruct (res_attrs a) as [l|m], (res_attrs b) as [l'|m']; cbn [formOf labelsAre] in *; try discriminate.
  - apply sorted_ext; [exact (proj1 A4)|exact (proj1 B4)|]. intros k v. rewrite (proj2 A4), (proj2 B4). reflexivity.
  - intros k. destruct (aget m k) as [v|] eqn:E.
    + symmetry. apply B4, A4. exact E.
    + destruct (aget m' k) as [v|] eqn:E'; [|reflexivity]. apply B4, A4 in E'. congruence.
Qed.
Lemma all_same cl g ws : forall rs rs' (ft : rtype -> attrType), Forall2 (shows cl g) ws rs -> Forall2 (shows cl g) ws rs' ->
  Forall (fun r => formOf (res_attrs r) = ft (res_type r)) rs -> Forall (fun r => formOf (res_attrs r) = ft (res_type r)) rs' -> Forall2 sameResult rs rs'.
Proof.
  induction ws as [|w ws IH]; intros rs rs' ft S S' F F'; inversion S; inversion S'; subst; [constructor|]. inversion F; inversion F'; subst.
  constructor; [|eapply IH; eassumption]. eapply shows_same; [eassumption|eassumption|].
  match goal with H1 : shows _ _ _ ?a, H2 : shows _ _ _ ?b |- formOf (res_attrs ?a) = formOf (res_attrs ?b) => destruct H1 as [T1 _], H2 as [T2 _] end. congruence.
Qed.
Theorem C44_history_free : forall cl cfg h h' c c' g ty p rs p' rs',
  goodCustom cl -> gname g = "aggregated_net_request_metric_group" ->
  adapt cl cfg g ty (withChoices (w_pools (hrun cl cfg h)) c) = Ok (p, rs) ->
  adapt cl cfg g ty (withChoices (w_pools (hrun cl cfg h')) c') = Ok (p', rs') -> Forall2 sameResult rs rs'.
Proof.
  intros cl cfg h h' c c' g ty p rs p' rs' G N H H'.
  destruct (C44_aggregated cl cfg h c g ty G N) as (q & s & E & S & F). rewrite E in H. inversion H; subst.
  destruct (C44_aggregated cl cfg h' c' g ty G N) as (q' & s' & E' & S' & F'). rewrite E' in H'. inversion H'; subst.
  exact (all_same cl g _ _ _ (fun _ => ty) S S' F F').
Qed.
Print Assumptions C44_history_free.
Theorem C44_history_free_single : forall cl cfg h h' c c' g ty p rs p' rs',
  goodCustom cl -> gname g = "single_net_request_metric_group" -> intsOf measured (gmetrics g) -> 0 <= gts g < 2 ^ 64 ->
  (StoreTraceAsSpan cfg = true -> protocolIs (glabels g) "redis" = false /\ (ty = AttributeMap -> forall n, In n measured -> lastInt (gmetrics g) n <> None)) ->
  adapt cl cfg g ty (withChoices (w_pools (hrun cl cfg h)) c) = Ok (p, rs) ->
  adapt cl cfg g ty (withChoices (w_pools (hrun cl cfg h')) c') = Ok (p', rs') -> Forall2 sameResult rs rs'.
Proof.
  intros cl cfg h h' c c' g ty p rs p' rs' G N I T HS H H'.
  assert (IT : intsOf timed (gmetrics g)) by (intros n d J K; apply (I n d J); apply in_or_app; left; exact K).
  assert (HS' : StoreTraceAsSpan cfg = true -> intsOf measured (gmetrics g) /\ 0 <= gts g < 2 ^ 64 /\ protocolIs (glabels g) "redis" = false /\
     (ty = AttributeMap -> forall n, In n measured -> lastInt (gmetrics g) n <> None)) by (intros E; destruct (HS E); auto).
  destruct (C44_single cl cfg h c g ty G N (fun _ => IT) HS') as (q & s & E & S & F). rewrite E in H. inversion H; subst.
  destruct (C44_single cl cfg h' c' g ty G N (fun _ => IT) HS') as (q' & s' & E' & S' & F'). rewrite E' in H'. inversion H'; subst.
  exact (all_same cl g _ _ _ (fun t => match t with RMetric => AttributeMap | RTrace => ty end) S S' F F').
Qed.
Print Assumptions C44_history_free_single.

(** ** Spans of Redis requests: the two payloads share one name, so one of them is lost and, in the list form, the first label by name is
    overwritten. Every other label is right. *)
Definition redisDicts : list dict := match aget spanProtocol pREDIS with Some e => e | None => [] end.
Lemma redis_once : forall k, In k (wkeys (s_base (shapeAt 8) ++ redisDicts) (vkeys VSpan)) -> k <> "redis.request_payload" ->
  once k (wkeys (s_base (shapeAt 8) ++ redisDicts) (vkeys VSpan)).
Proof.
  assert (C : forallb (fun k => eqb k "redis.request_payload" || Nat.eqb (count_occ string_dec (wkeys (s_base (shapeAt 8) ++ redisDicts) (vkeys VSpan)) k) 1)
                (wkeys (s_base (shapeAt 8) ++ redisDicts) (vkeys VSpan)) = true) by (vm_compute; reflexivity).
  rewrite forallb_forall in C. intros k I N. specialize (C k I). rewrite (proj2 (eqb_neq k "redis.request_payload")) in C by exact N. cbn [orb] in C.
  apply Nat.eqb_eq. exact C.
Qed.
Theorem C44_redis_span : forall cl cfg h choices g ty,
  goodCustom cl -> gname g = "single_net_request_metric_group" -> StoreTraceAsMetric cfg = false -> StoreTraceAsSpan cfg = true ->
  intsOf measured (gmetrics g) -> 0 <= gts g < 2 ^ 64 -> protocolIs (glabels g) "redis" = true ->
  aget (gmetrics g) "request_total_time" <> None ->
  (ty = AttributeMap -> forall n, In n measured -> lastInt (gmetrics g) n <> None) ->
  exists p r, adapt cl cfg g ty (withChoices (w_pools (hrun cl cfg h)) choices) = Ok (p, [r]) /\ res_type r = RTrace /\ res_ts r = gts g /\ formOf (res_attrs r) = ty /\
    match res_attrs r with
    | AList l => forall k v, k <> "redis.request_payload" -> (exists k' v', In (k', v') (withCustom (redisSpanT g) cl) /\ before k' k) ->
        (In (k, v) l <-> In (k, v) (withCustom (redisSpanT g) cl))
    | AMap m => forall k v, k <> "redis.request_payload" -> (aget m k = Some v <-> In (k, Some v) (withCustom (redisSpanT g) cl))
    end.
Proof.
  intros cl cfg h choices g ty G N SM SS I T R RT F. assert (P := hrun_pools cl cfg h choices). revert P. generalize (withChoices (w_pools (hrun cl cfg h)) choices). intros p0 P.
  unfold adapt. rewrite N. change (eqb "single_net_request_metric_group" AggregatedNetRequestMetricGroup) with false.
  change (eqb "single_net_request_metric_group" SingleNetRequestMetricGroup) with true. cbv iota.
  unfold dealWithSingle, getMetric. change MRequestTotalTime with "request_total_time".
  destruct (aget (gmetrics g) "request_total_time") as [d|]; [|contradiction]. rewrite SM, SS.
  destruct (span_labels g I T) as (vl & V & C & FV).
  destruct (create_ok cl RTrace [("request_total_time", d)] g xSpan ty p0 (shapeAt 8) vl P eq_refl V) as (e & p' & r & He & Cr & _ & _ & T1 & _ & T3 & _ & T4 & A).
  destruct (redis_table (shapeAt 8) (glabels g) e eq_refl R He) as [Ek DT].
  assert (Ee : e = redisDicts) by (rewrite Ek in He; vm_compute in He; inversion He; reflexivity). clear DT.
  exists p', r. unfold both, createIf. cbn [bind fst snd]. change (MRequestTotalTime) with "request_total_time". rewrite Cr. cbn [bind fst snd app].
  split; [reflexivity|]. split; [exact T1|]. split; [exact T3|]. split; [exact T4|].
  assert (Is : In (shapeAt 8) shapes) by (apply nth_error_In with 8%nat; reflexivity).
  assert (TE := tableOf_eq cl (shapeAt 8) _ e (glabels g) vl Is He G).
  assert (KT : map fst (tableOf cl (shapeAt 8) e (glabels g) vl) = allKeys (s_base (shapeAt 8) ++ e) (vkeys VSpan) cl).
  { unfold tableOf. rewrite adjusted_keys. apply raw_keys. rewrite map_length. exact (vlabels_len VSpan g vl V). }
  assert (BI : forall q, In q (builtIn (shapeAt 8) e (glabels g) vl) <-> In q (redisSpanT g) \/ In q [S_ "redis.request_payload" (strOf (glabels g) "request_payload"); S_ "redis.request_payload" (strOf (glabels g) "response_payload")]).
  { intros q. unfold builtIn, redisSpanT. cbn [shapeAt nth shapes s_adj s_base s_val]. rewrite C, !dictTable_app, topology_split, edge_split.
    change (dictTable (glabels g) SpanDicList) with (spanBaseT (glabels g)). subst e.
    change (dictTable (glabels g) redisDicts) with ([S_ "redis.command" (strOf (glabels g) "redis_command"); S_ "redis.error_msg" (strOf (glabels g) "redis_error_msg")] ++
      [S_ "redis.request_payload" (strOf (glabels g) "request_payload"); S_ "redis.request_payload" (strOf (glabels g) "response_payload")]).
    unfold adjusted. cbn [fold_left]. rewrite !in_app_iff, plainDst_split. tauto. }
  assert (IT : forall k v, k <> "redis.request_payload" -> (In (k, v) (tableOf cl (shapeAt 8) e (glabels g) vl) <-> In (k, v) (withCustom (redisSpanT g) cl))).
  { intros k v NK. rewrite TE. unfold withCustom. rewrite !in_app_iff, BI. split; [|tauto]. intros [[X|X]|X]; [left; exact X| |right; exact X].
    exfalso. cbn [In] in X. destruct X as [X|[X|[]]]; inversion X; congruence. }
  assert (ON : forall k, In k (allKeys (s_base (shapeAt 8) ++ e) (vkeys VSpan) cl) -> k <> "redis.request_payload" -> once k (allKeys (s_base (shapeAt 8) ++ e) (vkeys VSpan) cl)).
  { intros k J NK. unfold once, allKeys. rewrite count_occ_app. destruct G as [GN GR]. apply in_app_iff in J. destruct J as [J|J].
    - assert (O := J). rewrite Ee in O. apply redis_once in O; [|exact NK]. unfold once in O. rewrite <- Ee in O. rewrite O.
      rewrite (proj1 (count_occ_not_In string_dec (map fst cl) k)); [reflexivity|]. intros X. apply (GR k X). exact (keys_reserved (shapeAt 8) Is _ e k He J).
    - assert (O := NoDup_once k _ GN J). unfold once in O. rewrite O.
      rewrite (proj1 (count_occ_not_In string_dec _ k)); [reflexivity|]. intros X. apply (GR k J). exact (keys_reserved (shapeAt 8) Is _ e k He X). }
  assert (AG : forall k v, k <> "redis.request_payload" -> (In (k, v) (tableOf cl (shapeAt 8) e (glabels g) vl) <-> aget (tableOf cl (shapeAt 8) e (glabels g) vl) k = Some v)).
  { intros k v NK. split; [|apply aget_in]. intros J. apply In_nth_error in J. destruct J as [j J]. apply (aget_nth_once _ k j v); [|exact J].
    rewrite KT. apply ON; [|exact NK]. rewrite <- KT. apply nth_error_In in J. apply (in_map fst) in J. exact J. }
  assert (NO : forall k, ~ In k (allKeys (s_base (shapeAt 8) ++ e) (vkeys VSpan) cl) -> aget (tableOf cl (shapeAt 8) e (glabels g) vl) k = None).
  { intros k NI. apply aget_none_notin. unfold keys. rewrite KT. exact NI. }
  destruct (res_attrs r) as [l|m].
  - destruct A as [K Q]. intros k v NK (k' & v' & Ik' & B). rewrite <- (IT k v NK), (AG k v NK).
    destruct (in_dec string_dec k (allKeys (s_base (shapeAt 8) ++ e) (vkeys VSpan) cl)) as [J|NI].
    + assert (O := ON k J NK).
      assert (CK : clean (s_base (shapeAt 8) ++ e) (vkeys VSpan) cl k).
      { split; [exact O|]. right. intros X.
        assert (J' : In k' (sorted (s_base (shapeAt 8) ++ e) (vkeys VSpan) cl)).
        { apply sort_in. rewrite <- KT. assert (Y : In (k', v') (tableOf cl (shapeAt 8) e (glabels g) vl)); [|apply (in_map fst) in Y; exact Y].
          rewrite TE. unfold withCustom in Ik'. rewrite in_app_iff in *. rewrite BI. tauto. }
        assert (SS' := sort_sorted (allKeys (s_base (shapeAt 8) ++ e) (vkeys VSpan) cl)). fold (sorted (s_base (shapeAt 8) ++ e) (vkeys VSpan) cl) in SS'.
        destruct (sorted (s_base (shapeAt 8) ++ e) (vkeys VSpan) cl) as [|z zs]; [destruct J'|]. cbn [nth_error] in X. inversion X; subst z.
        inversion SS' as [|? ? _ FF]; subst. rewrite Forall_forall in FF. destruct J' as [<-|J'].
        - apply (before_asym k k); exact B.
        - specialize (FF k' J'). unfold before, String.ltb in B. unfold sle, String.leb in FF. rewrite (String.compare_antisym k k') in FF.
          destruct (String.compare k' k); cbn in *; discriminate. }
      assert (QK : aget l k = aget (tableOf cl (shapeAt 8) e (glabels g) vl) k) by exact (Q k CK). rewrite <- QK. split; [|apply aget_in]. intros Y. apply In_nth_error in Y. destruct Y as [j Y]. apply (aget_nth_once l k j v); [|exact Y].
      rewrite K. refine (once_perm _ _ _ (Permutation_sym (sort_perm _)) O).
    + rewrite (NO k NI). split; [|discriminate]. intros X. exfalso. apply NI. apply (in_map fst) in X. cbn [fst] in X. rewrite K in X.
      exact (proj1 (sort_in _ _) X).
  - destruct A as [MO Q]. cbn [formOf] in T4. subst ty. destruct (FV (F eq_refl)) as [F1 F2]. specialize (Q F1 F2). intros k v NK. rewrite <- (IT k (Some v) NK), (AG k (Some v) NK).
    destruct (in_dec string_dec k (allKeys (s_base (shapeAt 8) ++ e) (vkeys VSpan) cl)) as [J|NI].
    + assert (QK : aget m k = join (aget (tableOf cl (shapeAt 8) e (glabels g) vl) k)) by exact (Q k (ON k J NK)). rewrite QK. destruct (aget (tableOf cl (shapeAt 8) e (glabels g) vl) k) as [[w|]|]; cbn [join]; split; congruence.
    + rewrite (NO k NI). split; [|discriminate]. intros X. exfalso. apply NI. apply (proj2 MO). congruence.
Qed.
Print Assumptions C44_redis_span.

(** ** Status colours of a single request exported as a metric *)
Theorem C45_colours : forall cl cfg h choices g ty p rs,
  goodCustom cl -> gname g = "single_net_request_metric_group" -> StoreTraceAsMetric cfg = true -> intsOf timed (gmetrics g) ->
  aget (gmetrics g) "request_total_time" <> None ->
  adapt cl cfg g ty (withChoices (w_pools (hrun cl cfg h)) choices) = Ok (p, rs) ->
  exists r m rest, rs = r :: rest /\ res_type r = RMetric /\ res_attrs r = AMap m /\
    forall label name green red, In (label, name, green, red) stages ->
      (timeOf g name <= green * 1000000 -> aget m label = Some (SV (bs "1"))) /\
      (green * 1000000 < timeOf g name < red * 1000000 -> aget m label = Some (SV (bs "2"))) /\
      (red * 1000000 <= timeOf g name -> aget m label = Some (SV (bs "3"))).
Proof.
  intros cl cfg h choices g ty p rs G N SM I RT H. assert (P := hrun_pools cl cfg h choices). revert P H. generalize (withChoices (w_pools (hrun cl cfg h)) choices). intros p0 P H.
  unfold adapt in H. rewrite N in H. change (eqb "single_net_request_metric_group" AggregatedNetRequestMetricGroup) with false in H.
  change (eqb "single_net_request_metric_group" SingleNetRequestMetricGroup) with true in H. cbv iota in H.
  unfold dealWithSingle, getMetric in H. change MRequestTotalTime with "request_total_time" in H.
  destruct (aget (gmetrics g) "request_total_time") as [d|]; [|contradiction].
  destruct (yields_trace_metric cl G cfg g d I p0 P) as (p1 & r1 & E1 & _ & S1 & F1). rewrite SM in *.
  unfold both in H. rewrite E1 in H. cbn [bind fst snd] in H.
  destruct (createIf cl (StoreTraceAsSpan cfg) RTrace [("request_total_time", d)] g xSpan ty p1) as [[p2 r2]| |]; cbn [bind fst snd] in H; try discriminate. inversion H; subst p rs. clear H.
  inversion S1 as [|? r ? ? X Y]; subst. inversion Y; subst. clear Y S1. inversion F1; subst. destruct X as (X1 & _ & _ & X4).
  destruct (res_attrs r) as [l|m] eqn:A; [discriminate|]. exists r, m, r2.
  split; [reflexivity|]. split; [exact X1|]. split; [exact A|]. cbn [wn_labels labelsAre] in X4.
  assert (L : forall k v, In (S_ k v) (coloursT g) -> aget m k = Some (SV v)).
  { intros k v J. apply X4. unfold withCustom, traceMetricT. rewrite !in_app_iff. left. right. right. right. right. exact J. }
  intros label name green red J.
  assert (X : aget m label = Some (SV (colour green red (timeOf g name))) /\ green < red).
  { unfold stages in J. cbn [In] in J. repeat (destruct J as [J|J]; [inversion J; subst; split; [apply L; cbn [coloursT In]; tauto|lia]|]). destruct J. }
  destruct X as [-> GR]. unfold colour, ms. repeat split; intros T.
  - rewrite (proj2 (Z.leb_le _ _)) by exact T. reflexivity.
  - rewrite (proj2 (Z.leb_gt _ _)), (proj2 (Z.ltb_lt _ _)) by lia. reflexivity.
  - rewrite (proj2 (Z.leb_gt _ _)), (proj2 (Z.ltb_ge _ _)) by lia. reflexivity.
Qed.
Print Assumptions C45_colours.

(** ** Examples and refutations *)
Definition exLabels (proto : string) : labels :=
  [("protocol", SV (bs proto)); ("is_server", BV true); ("src_namespace", SV (bs "NOT_FOUND_EXTERNAL")); ("src_ip", SV (bs "9.9.9.9"));
   ("dst_namespace", SV (bs "shop")); ("dst_pod", SV (bs "cart-1")); ("dst_ip", SV (bs "10.0.0.7")); ("dst_port", IV 6379); ("content_key", SV (bs "get"));
   ("comm", SV (bs "server")); ("request_payload", SV (bs "GET a")); ("response_payload", SV (bs "$1")); ("error_type", IV 3); ("is_slow", BV true)].
Definition exMetrics : list (string * mdata) :=
  [("request_total_time", MInt 900000000); ("request_sent_time", MInt 1000); ("waiting_ttfb_time", MInt 1000000000); ("content_download_time", MInt 300000000);
   ("request_io", MInt 12); ("response_io", MInt 34)].
Definition exSingle (proto : string) : group :=
  {| gname := "single_net_request_metric_group"; gmetrics := exMetrics; glabels := exLabels proto; gts := 1700000000000000000 |}.
Definition exAgg : group :=
  {| gname := "aggregated_net_request_metric_group"; gmetrics := [("request_total_time", MInt 5); ("request_count", MInt 2)]; glabels := exLabels "redis"; gts := 7 |}.
Definition exCfg : config := {| StoreTraceAsMetric := true; StoreTraceAsSpan := true; StorePodDetail := true; StoreExternalSrcIP := true |}.
Definition exCl : list (string * aval) := [("job", SV (bs "kindling")); ("a", SV (bs "b"))].
Example exCl_good : goodCustom exCl.
Proof. split; [apply nodupb_ok; vm_compute; reflexivity|]. intros k I. cbn in I. destruct I as [<-|[<-|[]]]; intros X; apply existsb_in in X; vm_compute in X; discriminate. Qed.
Example exSingle_ok : intsOf measured (gmetrics (exSingle "http")) /\ protocolIs (glabels (exSingle "http")) "redis" = false /\
  (forall n, In n measured -> lastInt (gmetrics (exSingle "http")) n <> None).
Proof.
  split; [|split; [reflexivity|]].
  - intros n d I _. cbn in I. repeat (destruct I as [I|I]; [inversion I; exact Logic.I|]). destruct I.
  - intros n I. cbn in I. repeat (destruct I as [<-|I]; [discriminate|]). destruct I.
Qed.
(** Four results: the edge from the external address, and the server, each with its request count apart. *)
Example exAgg_run : map (fun w => (map fst (wn_metrics w), List.length (wn_labels w))) (wantAggregated exCfg exAgg) =
  [(["kindling_topology_request_duration_nanoseconds_total"], 21%nat); (["kindling_topology_request_total"], 22%nat);
   (["kindling_entity_request_duration_nanoseconds_total"], 13%nat); (["kindling_entity_request_total"], 14%nat)].
Proof. reflexivity. Qed.
(** A recycled list is reused for the second request and carries the same labels as a fresh one. *)
Example exReuse :
  let h := [HAdapt exAgg AttributeList []; HFree 0%nat; HFree 0%nat] in
  match adapt exCl exCfg exAgg AttributeList (withChoices (w_pools (hrun exCl exCfg h)) [0%nat; 0%nat]), adapt exCl exCfg exAgg AttributeList (w_pools w0) with
  | Ok (p, rs), Ok (_, rs') => eqb (map (fun r => match res_attrs r with AList l => map fst l | AMap _ => [] end) rs) (map (fun r => match res_attrs r with AList l => map fst l | AMap _ => [] end) rs') = true /\ p_lists (w_pools (hrun exCl exCfg h)) <> []
  | _, _ => False end.
Proof. vm_compute. split; [reflexivity|discriminate]. Qed.

(** The response payload of a Redis request replaces the label [comm] of its span, and the request payload is under neither name. *)
Definition spanOnly : config := {| StoreTraceAsMetric := false; StoreTraceAsSpan := true; StorePodDetail := false; StoreExternalSrcIP := false |}.
Theorem C44_redis_span_refuted : exists g p r l, protocolIs (glabels g) "redis" = true /\ strOf (glabels g) "comm" = bs "server" /\
  adapt [] spanOnly g AttributeList (w_pools w0) = Ok (p, [r]) /\ res_attrs r = AList l /\ aget l "comm" = Some (Some (SV (strOf (glabels g) "response_payload"))) /\
  ~ In (S_ "comm" (bs "server")) l.
Proof.
  exists (exSingle "redis").
  destruct (adapt [] spanOnly (exSingle "redis") AttributeList (w_pools w0)) as [[p [|r [|? ?]]]| |] eqn:E; try (vm_compute in E; discriminate).
  exists p, r. destruct (res_attrs r) as [l|] eqn:A; [|exfalso; vm_compute in E; inversion E; subst; discriminate]. exists l.
  split; [reflexivity|]. split; [reflexivity|]. split; [reflexivity|]. split; [reflexivity|].
  vm_compute in E. inversion E; subst. cbn [res_attrs] in A. inversion A; subst. split; [vm_compute; reflexivity|].
  intros X. vm_compute in X. repeat (destruct X as [X|X]; [discriminate|]). destruct X.
Qed.
Print Assumptions C44_redis_span_refuted.
(** A custom label with the name of an exported one appears beside it: the list carries the name twice and the custom value is lost. *)
Theorem C44_custom_collision_refuted : exists cl g p r r' l, NoDup (map fst cl) /\
  adapt cl spanOnly g AttributeList (w_pools w0) = Ok (p, [r; r']) /\ res_attrs r = AList l /\
  ~ NoDup (map fst l) /\ In ("service", SV (bs "mine")) cl /\ ~ In (S_ "service" (bs "mine")) l.
Proof.
  exists [("service", SV (bs "mine"))], exAgg.
  destruct (adapt [("service", SV (bs "mine"))] spanOnly exAgg AttributeList (w_pools w0)) as [[p [|r [|r' [|? ?]]]]| |] eqn:E; try (vm_compute in E; discriminate).
  exists p, r, r'. destruct (res_attrs r) as [l|] eqn:A; [|exfalso; vm_compute in E; inversion E; subst; discriminate]. exists l.
  vm_compute in E. inversion E; subst. cbn [res_attrs] in A. inversion A; subst.
  split; [repeat constructor; auto|]. split; [reflexivity|]. split; [reflexivity|]. split; [|split; [left; reflexivity|]].
  - intros X. cbn [map fst] in X. repeat match goal with H : NoDup (_ :: _) |- _ => let A := fresh in inversion H as [|? ? A]; clear H; subst; try (apply A; cbn; tauto) end.
  - intros X. vm_compute in X. repeat (destruct X as [X|X]; [discriminate|]). destruct X.
Qed.
Print Assumptions C44_custom_collision_refuted.
(** In the map form, a span without one of its metrics shows the value of an earlier span. *)
Definition noIo (g : group) : group := {| gname := gname g; gmetrics := filter (fun m => negb (eqb (fst m) "request_io")) (gmetrics g); glabels := glabels g; gts := gts g |}.
Theorem C44_stale_span_refuted : exists h g p r m, lastInt (gmetrics g) "request_io" = None /\
  adapt [] spanOnly g AttributeMap (withChoices (w_pools (hrun [] spanOnly h)) [0%nat]) = Ok (p, [r]) /\ res_attrs r = AMap m /\ aget m "requestio_bytes" = Some (IV 12).
Proof.
  exists [HAdapt (exSingle "http") AttributeMap []; HFree 0%nat], (noIo (exSingle "http")).
  destruct (adapt [] spanOnly (noIo (exSingle "http")) AttributeMap (withChoices (w_pools (hrun [] spanOnly [HAdapt (exSingle "http") AttributeMap []; HFree 0%nat])) [0%nat])) as [[p [|r [|? ?]]]| |] eqn:E; try (vm_compute in E; discriminate).
  exists p, r. destruct (res_attrs r) as [|m] eqn:A; [exfalso; vm_compute in E; inversion E; subst; discriminate|]. exists m.
  vm_compute in E. inversion E; subst. cbn [res_attrs] in A. inversion A; subst. repeat split.
Qed.
Print Assumptions C44_stale_span_refuted.
(** A histogram in the place of a time makes the adapter panic. *)
Theorem C44_histogram_panics_refuted : exists g p, gname g = "single_net_request_metric_group" /\ adapt [] exCfg g AttributeList p = Panic.
Proof.
  exists {| gname := "single_net_request_metric_group"; gmetrics := [("request_total_time", MHist 1 1 [1] [1])]; glabels := []; gts := 0 |}, (w_pools w0).
  split; reflexivity.
Qed.
Print Assumptions C44_histogram_panics_refuted.

(** ** Groups exported as they are (the simple adapter): every label as text and the custom labels, in one result, for the accepted names. *)
Theorem C44_simple : forall it accept cl g, (forall m, Permutation (it m) m) ->
  if existsb (eqb (gname g)) accept
  then exists l, simpleAdapt it accept cl g = [(l, glabels g, gmetrics g, gts g)] /\
    forall k v, In (k, v) l <-> (exists w, In (k, w) (glabels g) /\ v = Some (SV (toString w))) \/ (exists w, In (k, w) cl /\ v = Some w)
  else simpleAdapt it accept cl g = [].
Proof.
  intros it accept cl g Hit. unfold simpleAdapt. destruct (existsb (eqb (gname g)) accept); [|reflexivity]. eexists. split; [reflexivity|].
  intros k v. rewrite in_app_iff, !in_map_iff. split.
  - intros [((k', w) & E & I)|((k', w) & E & I)]; cbn [fst snd] in E; inversion E; subst; [left|right]; exists w; split; try reflexivity; [|exact I].
    eapply Permutation_in; [apply Hit|exact I].
  - intros [(w & I & ->)|(w & I & ->)]; [left|right]; exists (k, w); (split; [reflexivity|]); [|exact I].
    eapply Permutation_in; [apply Permutation_sym, Hit|exact I].
Qed.
Print Assumptions C44_simple.
Example exSimple : map (fun r => fst (fst (fst r))) (simpleAdapt (fun m => m) ["tcp"] exCl {| gname := "tcp"; gmetrics := []; glabels := [("port", IV 80)]; gts := 1 |}) =
  [[("port", Some (SV (bs "80"))); ("job", Some (SV (bs "kindling"))); ("a", Some (SV (bs "b")))]].
Proof. vm_compute. reflexivity. Qed.
