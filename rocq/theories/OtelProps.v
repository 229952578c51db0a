(** C68: what the OpenTelemetry exporter hands to the SDK, for every history of groups, collections and restarts. *)
From Coq Require Import Sorting.Permutation.
From Verif Require Import Base Decimal AttrModel PoolModel KeyModel KeyProps AggModel AggSpec AggProofs LabelNames EnrichModel EnrichSpec AdapterModel AdapterSpec AdapterWorld AdapterProps OtelModel OtelSpec OtelProofs OtelProofs2.
Open Scope string_scope. Open Scope list_scope. Open Scope Z_scope.

(** ** A group, whatever happened before *)
(** The exporter never fails, and hands over exactly the batches and spans the group asks for, in order: every configured number with its
    instrument, under the labels of C44, and nothing else. *)
Theorem C68_group : forall cl cfg kinds tracer os g choices it,
  textCustom cl -> traceIsGauge kinds -> Forall (goodOp cl cfg) (os ++ [XConsume g choices it]) ->
  exists outs s out s', orun cl cfg kinds tracer o0 os = Ok (outs, s) /\ ostep cl cfg kinds tracer s (XConsume g choices it) = Ok (out, s') /\
    Forall2 (answers cl) (flat_map (callsFor kinds tracer) (wanted cfg g)) out.
Proof.
  intros cl cfg kinds tracer os g choices it TC TG G. apply Forall_app in G. destruct G as [G1 G2]. inversion G2 as [|? ? G3 _]; subst.
  destruct (run_ok cl cfg kinds tracer TC TG os [] o0 G1 (start_ok cl cfg kinds)) as (outs & s & E & S & _).
  destruct (step_ok cl cfg kinds tracer _ _ s TC TG G3 S) as (out & s' & E' & _ & X). exists outs, s, out, s'. auto.
Qed.
Print Assumptions C68_group.

(** ** A collection *)
(** It observes, for every gauge and every set of shown labels read since the last collection or restart, the last value read, once. *)
Theorem C68_collection : forall cl cfg kinds tracer os it,
  textCustom cl -> traceIsGauge kinds -> Forall (goodOp cl cfg) (os ++ [XScrape it]) ->
  let l := pending cl kinds cfg os in
  exists outs s out s' series, orun cl cfg kinds tracer o0 os = Ok (outs, s) /\ ostep cl cfg kinds tracer s (XScrape it) = Ok (out, s') /\
    NoDup series /\ (forall n L, In (n, L) series <-> exists m v, In (n, m, v) l /\ shownOf n m = L) /\ Forall2 (observes cl l) series out.
Proof.
  intros cl cfg kinds tracer os it TC TG G l. apply Forall_app in G. destruct G as [G1 G2]. inversion G2 as [|? ? G3 _]; subst.
  destruct (run_ok cl cfg kinds tracer TC TG os [] o0 G1 (start_ok cl cfg kinds)) as (outs & s & E & S & _).
  destruct (step_ok cl cfg kinds tracer _ _ s TC TG G3 S) as (out & s' & E' & _ & (series & X)). exists outs, s, out, s', series. auto.
Qed.
Print Assumptions C68_collection.

(** ** Counters are conserved up to the SDK *)
(** For a metric measured by a counter or a histogram and any label selector, the amounts handed over with those labels add up to what the
    received groups hold under those labels. *)
Theorem C68_totals : forall cl cfg kinds tracer os n k sel,
  textCustom cl -> traceIsGauge kinds -> Forall (goodOp cl cfg) os -> kindOf kinds n = Some k -> k <> "gauge" ->
  exists outs s, orun cl cfg kinds tracer o0 os = Ok (outs, s) /\
    sumCalls n sel outs = zsum (map (fun o => match o with XConsume g _ _ => wantedSum cl cfg n sel g | _ => 0 end) os).
Proof.
  intros cl cfg kinds tracer os n k sel TC TG G K KG. destruct (run_ok cl cfg kinds tracer TC TG os [] o0 G (start_ok cl cfg kinds)) as (outs & s & E & _ & F).
  exists outs, s. split; [exact E|]. clear E s. unfold sumCalls. apply (proj2 (eqb_neq k "gauge")) in KG.
  induction F as [|o out os outs X F IH]; [reflexivity|]. inversion G as [|? ? G1 G2]; subst. cbn [List.concat map]. rewrite map_app, zsum_app, zsum_cons, (IH G2). f_equal.
  destruct o as [g c it|it|].
  - unfold wantedSum. apply (calls_sum cl kinds tracer n k sel (wanted cfg g) K KG); [|exact X].
    intros w J T. exact (wanted_nodup cl cfg g w (proj1 TC) (proj2 G1) J T).
  - clear -X. induction X as [|c out (x & v & a & ->) X IH]; [reflexivity|]. cbn [map]. rewrite zsum_cons, IH. reflexivity.
  - subst out. reflexivity.
Qed.
Print Assumptions C68_totals.

(** ** Examples: the kinds of the shipped configuration *)
Definition shipped : list (string * string) :=
  [("kindling_entity_request_total", "counter"); ("kindling_entity_request_duration_nanoseconds_total", "counter");
   ("kindling_entity_request_send_bytes_total", "counter"); ("kindling_entity_request_receive_bytes_total", "counter");
   ("kindling_topology_request_total", "counter"); ("kindling_topology_request_duration_nanoseconds_total", "counter");
   ("kindling_topology_request_request_bytes_total", "counter"); ("kindling_topology_request_response_bytes_total", "counter");
   ("kindling_trace_request_duration_nanoseconds", "gauge"); ("kindling_tcp_srtt_microseconds", "gauge"); ("kindling_tcp_retransmit_total", "counter");
   ("kindling_tcp_packet_loss_total", "counter"); ("kindling_tcp_connect_total", "counter"); ("kindling_tcp_connect_duration_nanoseconds_total", "counter");
   ("kindling_k8s_workload_info", "gauge")].
Example shipped_trace : traceIsGauge shipped.
Proof. right. reflexivity. Qed.
Example exCl_text : textCustom exCl.
Proof. split; [exact exCl_good|]. intros k v J. cbn [exCl In] in J. destruct J as [J|[J|[]]]; injection J as _ <-; eauto. Qed.

Definition rtt (srcIp dnatIp : string) (v : Z) : group :=
  {| gname := "tcp_rtt_metric_group"; gmetrics := [("kindling_tcp_srtt_microseconds", MInt v)];
     glabels := [("src_ip", SV (bs srcIp)); ("src_port", IV 4000); ("dst_ip", SV (bs "10.0.0.9")); ("dst_port", IV 80); ("dnat_ip", SV (bs dnatIp)); ("dnat_port", IV 8080)]; gts := 1 |}.
Definition retr (v : Z) : group :=
  {| gname := "tcp_retransmit_metric_group"; gmetrics := [("kindling_tcp_retransmit_total", MInt v)];
     glabels := [("src_ip", SV (bs "10.0.0.1")); ("dst_port", IV 80)]; gts := 1 |}.
Definition idl (m : labels) : labels := m.
Definition exHistory : list oop :=
  [XConsume exAgg [] idl; XConsume (retr 3) [1]%nat idl; XConsume (rtt "10.0.0.1" "10.1.1.1" 70) [] idl; XConsume (rtt "10.0.0.2" "10.1.1.1" 80) [] idl;
   XConsume (rtt "10.0.0.1" "10.1.1.1" 75) [] idl; XConsume exAgg [1; 1; 1; 1]%nat idl; XConsume (exSingle "http") [] idl; XConsume (retr 4) [] idl].
Lemma int64b l : forallb (fun p : string * aval => match snd p with IV z => (- 2 ^ 63 <=? z) && (z <? 2 ^ 63) | _ => true end) l = true -> int64_labels l.
Proof.
  intros F k z E. rewrite forallb_forall in F. specialize (F _ (aget_in _ _ _ E)). cbn [snd] in F. apply andb_prop in F. destruct F as [F1 F2].
  apply Z.leb_le in F1. apply Z.ltb_lt in F2. auto.
Qed.
Lemma goodb cl cfg g : nodupb (keys (glabels g)) = true ->
  forallb (fun p : string * aval => match snd p with IV z => (- 2 ^ 63 <=? z) && (z <? 2 ^ 63) | _ => true end) (glabels g) = true ->
  forallb (fun p : string * mdata => match snd p with MInt _ => true | _ => false end) (gmetrics g) = true -> 0 <= gts g < 2 ^ 64 ->
  protocolIs (glabels g) "redis" = false \/ gname g <> "single_net_request_metric_group" ->
  forallb (fun k => negb (existsb (eqb k) (keys (glabels g)))) (map fst cl) = true -> goodGroup cl cfg g.
Proof.
  intros N I M T P D. split; [apply nodupb_ok; exact N|]. split; [apply int64b; exact I|].
  assert (A : forall names, intsOf names (gmetrics g)).
  { intros names n d J _. rewrite forallb_forall in M. specialize (M _ J). cbn [snd] in M. destruct d; [exact Logic.I|discriminate]. }
  split.
  - intros E. split; [intros _; apply A|]. intros _. split; [apply A|]. split; [exact T|]. destruct P; [assumption|contradiction].
  - intros _ k J K. rewrite forallb_forall in D. specialize (D k J). apply existsb_in in K. rewrite K in D. discriminate.
Qed.
Example exHistory_good : Forall (goodOp exCl exCfg) (exHistory ++ [XScrape idl]).
Proof.
  assert (O : forall m, Permutation (idl m) m) by (intros m; apply Permutation_refl).
  unfold exHistory. cbn [app]. repeat (apply Forall_cons; [split; [exact O|]|]); try (apply Forall_nil || exact Logic.I);
    (apply goodb; [vm_compute; reflexivity|vm_compute; reflexivity|vm_compute; reflexivity|vm_compute; split; congruence| |vm_compute; reflexivity]);
    first [left; vm_compute; reflexivity | right; vm_compute; discriminate].
Qed.
(** Two aggregated groups of two requests; retransmissions 3 and 4; the last round-trip times 75 and 80; one trace. *)
Example exHistory_run : exists outs s out s', orun exCl exCfg shipped false o0 exHistory = Ok (outs, s) /\ ostep exCl exCfg shipped false s (XScrape idl) = Ok (out, s') /\
  sumCalls "kindling_entity_request_total" [] outs = 4 /\
  sumCalls "kindling_entity_request_total" [("job", SV (bs "kindling"))] outs = 4 /\
  sumCalls "kindling_tcp_retransmit_total" [("dst_port", SV (bs "80"))] outs = 7 /\
  map (fun c => match c with SObserve n v a => (n, v, aget a "src_ip") | _ => ("", 0, None) end) out =
    [("kindling_tcp_srtt_microseconds", 75, Some (Some (SV (bs "10.0.0.1")))); ("kindling_tcp_srtt_microseconds", 80, Some (Some (SV (bs "10.0.0.2"))));
     ("kindling_trace_request_duration_nanoseconds", timeOf (exSingle "http") "request_total_time", Some (Some (SV (strOf (glabels (exSingle "http")) "src_ip"))))].
Proof.
  destruct (orun exCl exCfg shipped false o0 exHistory) as [[outs s]| |] eqn:E; [|vm_compute in E; discriminate|vm_compute in E; discriminate].
  destruct (ostep exCl exCfg shipped false s (XScrape idl)) as [[out s']| |] eqn:E';
    [|vm_compute in E; injection E as _ <-; vm_compute in E'; discriminate|vm_compute in E; injection E as _ <-; vm_compute in E'; discriminate].
  exists outs, s, out, s'. vm_compute in E. injection E as <- <-. vm_compute in E'. injection E' as <- <-. repeat split.
Qed.

(** ** What does not hold *)
(** Collections do not see the same values: whatever was read before, a second collection observes nothing, so with two Prometheus servers each
    gauge value reaches one of them, and a gauge disappears from a server between readings. *)
Theorem C68_gauges_stay_refuted : forall cl cfg kinds tracer os it it',
  textCustom cl -> traceIsGauge kinds -> Forall (goodOp cl cfg) (os ++ [XScrape it; XScrape it']) ->
  exists outs s out s' s'', orun cl cfg kinds tracer o0 os = Ok (outs, s) /\ ostep cl cfg kinds tracer s (XScrape it) = Ok (out, s') /\
    ostep cl cfg kinds tracer s' (XScrape it') = Ok ([], s'').
Proof.
  intros cl cfg kinds tracer os it it' TC TG G. apply Forall_app in G. destruct G as [G1 G2]. inversion G2 as [|? ? G3 G4]; subst. inversion G4 as [|? ? G5 _]; subst.
  destruct (run_ok cl cfg kinds tracer TC TG os [] o0 G1 (start_ok cl cfg kinds)) as (outs & s & E & S & _).
  destruct (step_ok cl cfg kinds tracer _ _ s TC TG G3 S) as (out & s' & E' & S' & _).
  destruct (step_ok cl cfg kinds tracer _ _ s' TC TG G5 S') as (out' & s'' & E'' & _ & (series & _ & IN & F)).
  exists outs, s, out, s', s''. split; [exact E|]. split; [exact E'|]. replace out' with (@nil sdk) in E''; [exact E''|].
  destruct series as [|[n L] series]; [inversion F; reflexivity|]. exfalso. destruct (proj1 (IN n L) (or_introl eq_refl)) as (m & v & [] & _).
Qed.
Print Assumptions C68_gauges_stay_refuted.
(** The values read since the last collection are lost when the meter is replaced. *)
Theorem C68_restart_keeps_gauges_refuted : exists os outs s, orun exCl exCfg shipped false o0 (os ++ [XRestart; XScrape idl]) = Ok (outs, s) /\
  pending exCl shipped exCfg os <> [] /\ last outs [] = [].
Proof.
  exists [XConsume (rtt "10.0.0.1" "10.1.1.1" 70) [] idl].
  destruct (orun exCl exCfg shipped false o0 ([XConsume (rtt "10.0.0.1" "10.1.1.1" 70) [] idl] ++ [XRestart; XScrape idl])) as [[outs s]| |] eqn:E;
    [|vm_compute in E; discriminate|vm_compute in E; discriminate].
  exists outs, s. split; [reflexivity|]. split; [vm_compute; discriminate|]. vm_compute in E. injection E as <- _. reflexivity.
Qed.
Print Assumptions C68_restart_keeps_gauges_refuted.
(** Round-trip times of two connections that differ only in the translated address are one series: the aggregator keeps dnat_ip and dnat_port apart
    (C63), the gauge does not show them, and the first value is lost. *)
Theorem C68_rtt_apart_refuted : exists g1 g2 outs s, glabels g1 <> glabels g2 /\ aget (glabels g1) "dnat_ip" <> aget (glabels g2) "dnat_ip" /\
  orun exCl exCfg shipped false o0 [XConsume g1 [] idl; XConsume g2 [] idl; XScrape idl] = Ok (outs, s) /\
  map (fun c => match c with SObserve n v _ => (n, v) | _ => ("", 0) end) (last outs []) = [("kindling_tcp_srtt_microseconds", 90)].
Proof.
  exists (rtt "10.0.0.1" "10.1.1.1" 70), (rtt "10.0.0.1" "10.1.1.2" 90).
  destruct (orun exCl exCfg shipped false o0 [XConsume (rtt "10.0.0.1" "10.1.1.1" 70) [] idl; XConsume (rtt "10.0.0.1" "10.1.1.2" 90) [] idl; XScrape idl]) as [[outs s]| |] eqn:E;
    [|vm_compute in E; discriminate|vm_compute in E; discriminate].
  exists outs, s. split; [vm_compute; discriminate|]. split; [vm_compute; discriminate|]. split; [reflexivity|]. vm_compute in E. injection E as <- _. reflexivity.
Qed.
Print Assumptions C68_rtt_apart_refuted.
(** A trace metric configured as a counter is measured without a single label: every trace adds to one number. *)
Theorem C68_trace_counter_refuted : exists kinds outs s v, kinds = [("kindling_trace_request_duration_nanoseconds", "counter")] /\
  orun exCl exCfg kinds false o0 [XConsume (exSingle "http") [] idl] = Ok (outs, s) /\
  outs = [[SBatch [] [("kindling_trace_request_duration_nanoseconds", ICounter, v)]]].
Proof.
  eexists.
  destruct (orun exCl exCfg [("kindling_trace_request_duration_nanoseconds", "counter")] false o0 [XConsume (exSingle "http") [] idl]) as [[outs s]| |] eqn:E;
    [|vm_compute in E; discriminate|vm_compute in E; discriminate].
  exists outs, s. eexists. split; [reflexivity|]. split; [exact E|]. vm_compute in E. injection E as <- _. reflexivity.
Qed.
Print Assumptions C68_trace_counter_refuted.
(** The kind "gauge" for any metric but three exports nothing. *)
Theorem C68_any_gauge_refuted : forall cl cfg tracer n v t c it it', n <> "kindling_trace_request_duration_nanoseconds" -> n <> "kindling_tcp_srtt_microseconds" ->
  n <> "kindling_k8s_workload_info" ->
  exists s s', ostep cl cfg [(n, "gauge")] tracer o0 (XConsume {| gname := "tcp_retransmit_metric_group"; gmetrics := [(n, MInt v)]; glabels := []; gts := t |} c it) = Ok ([], s) /\
    ostep cl cfg [(n, "gauge")] tracer s (XScrape it') = Ok ([], s').
Proof.
  intros cl cfg tracer n v t c it it' N1 N2 N3.
  assert (S : getSelector n = None).
  { unfold getSelector. rewrite (proj2 (eqb_neq n TraceAsMetric)) by exact N1. rewrite (proj2 (eqb_neq n TcpRttMetricName)) by exact N2.
    rewrite (proj2 (eqb_neq n K8sWorkLoadMetricName)) by exact N3. reflexivity. }
  cbn [ostep]. unfold consumeGroup. rewrite (C44_other_groups cl cfg _ {| gname := "tcp_retransmit_metric_group"; gmetrics := [(n, MInt v)]; glabels := []; gts := t |}) by discriminate.
  cbn [bind fst snd map export fold_left app]. unfold simpleAdapt. cbn [gname]. change (existsb (eqb "tcp_retransmit_metric_group") simpleGroups) with true.
  cbn [map ofSimple export exportOne x_type metricLoop gmetrics x_metrics aget]. rewrite eqb_refl. change (eqb "gauge" "gauge") with true. cbv iota. unfold recordLastValue. rewrite S.
  cbn [bind fst snd metricLoop app]. eexists _, _. split; [reflexivity|]. cbn [o_gauges o_agg]. cbn [setPools o0 o_agg o_gauges ahas aget existsb orb app collectGauges dumpSingle bind fst snd mapM List.concat]. reflexivity.
Qed.
Print Assumptions C68_any_gauge_refuted.
Lemma trace_reading cl cfg kinds g n m v : gname g = "single_net_request_metric_group" -> In (n, m, v) (gaugeReadings cl kinds cfg g) ->
  n = "kindling_trace_request_duration_nanoseconds" /\ m = tableMap (withCustom (traceMetricT g) cl).
Proof.
  intros N J.
unfold gaugeReadings in J. apply in_flat_map in J. destruct J as (w & Jw & J). unfold wanted in Jw. rewrite N in Jw.
    change (eqb "single_net_request_metric_group" "aggregated_net_request_metric_group") with false in Jw. rewrite eqb_refl in Jw. cbv iota in Jw.
    unfold wantSingle in Jw. destruct (aget (gmetrics g) "request_total_time") as [d|]; [|destruct Jw]. apply in_app_or in Jw. destruct Jw as [Jw|Jw].
    - destruct (StoreTraceAsMetric cfg); [|destruct Jw]. destruct Jw as [<-|[]]. cbn [wn_type wn_metrics flat_map fst snd app] in J. destruct d as [x|]; [|destruct J].
      destruct (isGauge kinds _); [|destruct J]. destruct J as [J|[]]. unfold labelsOf in J. rewrite N in J. change (existsb (eqb "single_net_request_metric_group") simpleGroups) with false in J.
      cbn [wn_labels] in J. injection J as <- <- _. auto.
    - destruct (StoreTraceAsSpan cfg); [|destruct Jw]. destruct Jw as [<-|[]]. destruct J.
Qed.
(** The gauge of a trace shows every label of the trace ([traceMetricT], C44) as text. *)
Theorem C68_trace_gauge_labels : forall cl cfg kinds g n m v k x, textCustom cl -> gname g = "single_net_request_metric_group" ->
  In (n, m, v) (gaugeReadings cl kinds cfg g) -> In (k, Some x) (traceMetricT g) -> In (k, toString x) (shownOf n m).
Proof.
  intros cl cfg kinds g n m v k x TC N J K. destruct (trace_reading cl cfg kinds g n m v N J) as [-> ->].
  assert (E : aget (tableMap (withCustom (traceMetricT g) cl)) k = Some x).
  { apply tableMap_get; [apply table_nodup; [exact (proj1 TC)|apply trace_table]|]. apply in_or_app. left. exact K. }
  unfold shownOf. change (gaugeLabels "kindling_trace_request_duration_nanoseconds") with (Some traceAsMetricSelector). cbv iota. apply in_map_iff.
  assert (T : In (k, match x with SV _ => StringType | IV _ => IntType | BV _ => BooleanType end) traceAsMetricSelector).
  { clear E. unfold traceMetricT in K. repeat (apply in_app_or in K; destruct K as [K|K]).
    all: cbn [In edgeT plainDstT containersT contentT coloursT] in K; unfold keepS, keepI, S_, I_, B_ in K.
    all: repeat (destruct K as [K|K]; [injection K as <- <-; unfold traceAsMetricSelector; cbn [In]; tauto|]); destruct K. }
  eexists. split; [|exact T]. cbn [fst]. f_equal. unfold selected. cbn [fst snd]. rewrite E. destruct x; reflexivity.
Qed.
Print Assumptions C68_trace_gauge_labels.
(** The gauge of the round-trip times shows both addresses and ports and the Kubernetes labels of both ends. *)
Theorem C68_rtt_gauge_labels : forall cl cfg kinds g n m v k x, gname g = "tcp_rtt_metric_group" -> In ("kindling_tcp_srtt_microseconds", m, v) (gaugeReadings cl kinds cfg g) ->
  n = "kindling_tcp_srtt_microseconds" -> aget (glabels g) k = Some x ->
  (In k ["src_port"; "dst_port"] /\ (exists z, x = IV z) \/ In k stringLabels /\ exists t, x = SV t) -> In (k, toString x) (shownOf n m).
Proof.
  intros cl cfg kinds g n m v k x N J -> E K.
  assert (M : m = glabels g).
  { unfold gaugeReadings in J. apply in_flat_map in J. destruct J as (w & _ & J). destruct (wn_type w); [|destruct J]. apply in_flat_map in J. destruct J as ([a d] & _ & J). cbn [fst snd] in J. destruct d; [|destruct J].
    destruct (isGauge kinds a); [|destruct J]. destruct J as [J|[]]. injection J as _ J _. rewrite <- J. unfold labelsOf. rewrite N. reflexivity. }
  subst m. unfold shownOf. change (gaugeLabels "kindling_tcp_srtt_microseconds") with (Some tcpRttSelector). cbv iota. apply in_map_iff.
  assert (T : In (k, match x with SV _ => StringType | IV _ => IntType | BV _ => BooleanType end) tcpRttSelector).
  { destruct K as [[K (z & ->)]|[K (z & ->)]]; unfold stringLabels in K; cbn [In] in K; repeat (destruct K as [<-|K]; [unfold tcpRttSelector; cbn [In]; tauto|]); destruct K. }
  eexists. split; [|exact T]. cbn [fst]. f_equal. unfold selected. cbn [fst snd]. rewrite E. destruct x; reflexivity.
Qed.
Print Assumptions C68_rtt_gauge_labels.
(** Three labels of the trace gauge are always empty: the adapter never writes them. *)
Theorem C68_trace_node_ip_refuted : forall cl cfg kinds g n m v k, textCustom cl -> gname g = "single_net_request_metric_group" ->
  In (n, m, v) (gaugeReadings cl kinds cfg g) -> In k ["src_node_ip"; "dst_node_ip"; "container_id"] -> ~ In k (map fst cl) ->
  In (k, []) (shownOf n m).
Proof.
  intros cl cfg kinds g n m v k TC N J K NC.
  destruct (trace_reading cl cfg kinds g n m v N J) as [-> ->].
  assert (E : aget (tableMap (withCustom (traceMetricT g) cl)) k = None).
  { destruct (aget (tableMap (withCustom (traceMetricT g) cl)) k) as [u|] eqn:E; [|reflexivity]. exfalso.
    apply tableMap_get in E; [|apply table_nodup; [exact (proj1 TC)|apply trace_table]]. apply in_app_or in E. destruct E as [E|E].
    - apply (in_map fst) in E. cbn [fst] in E. apply existsb_in in E. cbn [In] in K. destruct K as [<-|[<-|[<-|[]]]]; vm_compute in E; discriminate.
    - apply in_map_iff in E. destruct E as (q & Q & E). apply NC. apply in_map_iff. exists q. split; [congruence|exact E]. }
  unfold shownOf. change (gaugeLabels "kindling_trace_request_duration_nanoseconds") with (Some traceAsMetricSelector). cbv iota.
  apply in_map_iff. exists (k, StringType). cbn [fst]. split.
  - unfold selected. cbn [fst snd]. change (eqb StringType "boolean") with false. change (eqb StringType "string") with true. cbv iota. rewrite E. reflexivity.
  - cbn [In] in K. destruct K as [<-|[<-|[<-|[]]]]; unfold traceAsMetricSelector; cbn [In]; tauto.
Qed.
Print Assumptions C68_trace_node_ip_refuted.
(** Histograms are dropped, whatever their kind: the exporter can only measure numbers. *)
Theorem C68_histograms_refuted : forall cl cfg kinds tracer n a b c e t ch it, exists s,
  ostep cl cfg kinds tracer o0 (XConsume {| gname := "tcp_connect_metric_group"; gmetrics := [(n, MHist a b c e)]; glabels := []; gts := t |} ch it) = Ok ([], s).
Proof.
  intros cl cfg kinds tracer n a b c e t ch it. cbn [ostep]. unfold consumeGroup.
  rewrite (C44_other_groups cl cfg _ {| gname := "tcp_connect_metric_group"; gmetrics := [(n, MHist a b c e)]; glabels := []; gts := t |}) by discriminate.
  cbn [bind fst snd map export fold_left app]. unfold simpleAdapt. cbn [gname]. change (existsb (eqb "tcp_connect_metric_group") simpleGroups) with true.
  cbn [map ofSimple export exportOne x_type metricLoop gmetrics x_metrics]. destruct (aget kinds n); eexists; reflexivity.
Qed.
Print Assumptions C68_histograms_refuted.
