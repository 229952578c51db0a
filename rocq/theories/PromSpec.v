(** What a scrape should show, stated without the exporter's own steps. *)
From Verif Require Import Base AttrModel PoolModel KeyModel AggModel AggSpec PromModel.
Open Scope string_scope. Open Scope list_scope. Open Scope Z_scope.

(** Prometheus' rule for metric names, on characters. *)
Definition letterOrUnderscore (r : Z) : Prop := 65 <= r <= 90 \/ 97 <= r <= 122 \/ r = 95.
Definition nameChar (r : Z) : Prop := letterOrUnderscore r \/ 48 <= r <= 57.
Definition goodName (s : list Z) : Prop :=
  exists r l, s = r :: l /\ letterOrUnderscore r /\ Forall nameChar l.
Definition doubleUnderscore (s : list Z) : Prop := exists l, s = 95 :: 95 :: l.

(** A letter or a digit, in Unicode's sense. *)
Definition letterOrDigit (uLetter uDigit : Z -> bool) (r : Z) : bool :=
  if r <? 128 then (65 <=? r) && (r <=? 90) || (97 <=? r) && (r <=? 122) || (48 <=? r) && (r <=? 57) else uLetter r || uDigit r.

(** The sample for a metric [n] with value [d]. *)
Definition shownValue (d : mdata) (v : pvalue) : Prop :=
  match d with
  | MInt x => v = PCounter (f64 x)
  | MHist sum count bounds counts => exists bk, v = PHistogram count (f64 sum) bk /\
      (forall i b c, nth_error bounds i = Some b -> nth_error counts i = Some c ->
         (forall j b', nth_error bounds j = Some b' -> f64 b' = f64 b -> j = i) -> aget bk (f64 b) = Some c) /\
      (forall x, aget bk x <> None -> exists b, In b bounds /\ f64 b = x)
  end.

(** The results recorded for the label set of [key] since the series was created; a series idle for five minutes ends. *)
Definition fiveMinutes : Z := 300000000000.
Definition recorded (h : list cum_op) (key : list lkey) : list group := cgroups fiveMinutes (map promOp h) "" key.
Lemma recorded_is h key : recorded h key = cgroups promExpiry (map promOp h) "" key.
Proof. reflexivity. Qed.
(** How the readings of a metric are put together: the last round-trip time, histograms of the two durations with the documented bounds, and sums of all others. *)
Definition documentedBounds : list Z := [10000000; 20000000; 50000000; 80000000; 130000000; 200000000; 300000000; 400000000; 500000000; 700000000;
  1000000000; 2000000000; 5000000000; 30000000000].
Definition kindOf (n : string) : option (list kcfg) :=
  let kind := if eqb n "kindling_tcp_srtt_microseconds" then LastKind
              else if eqb n "kindling_topology_request_request_time_histogram" || eqb n "kindling_entity_request_request_time_histogram" then HistogramKind
              else SumKind in
  Some [{| c_out := n; c_kind := kind; c_bounds := match kind with HistogramKind => documentedBounds | _ => [] end |}].
Lemma kindOf_is n : kindsCumulative promKinds n = kindOf n.
Proof.
  unfold kindsCumulative, promKinds, kindOf, RttName, TopologyHistogram, EntityHistogram, aget.
  case_eqb n "kindling_tcp_srtt_microseconds"; [subst; reflexivity|]. case_eqb n "kindling_topology_request_request_time_histogram"; [subst; reflexivity|].
  case_eqb n "kindling_entity_request_request_time_histogram"; [subst; reflexivity|]. reflexivity.
Qed.
(** Results with the same labels carry the same metrics. *)
Definition sameMetrics (h : list cum_op) : Prop :=
  (forall g now, In (CRec g now) h -> gmetrics g <> []) /\
  (forall g1 n1 g2 n2, In (CRec g1 n1) h -> In (CRec g2 n2) h -> getLabelsKeys (glabels g1) = getLabelsKeys (glabels g2) ->
     forall m, In m (mnames g1) <-> In m (mnames g2)).
Definition promReadings (h : list cum_op) : Prop := forall g now, In (CRec g now) h -> creadings_ok promKinds g.

(** The label sets of results: every name once, none empty, integers 64-bit. *)
Definition goodLabels (h : list cum_op) : Prop := forall g now, In (CRec g now) h ->
  NoDup (keys (glabels g)) /\ ~ In "" (keys (glabels g)) /\ (forall k z, aget (glabels g) k = Some (IV z) -> - 2 ^ 63 <= z < 2 ^ 63).
(** The text of a label. *)
Definition labelText (l : labelset) (n : string) : option bytes := option_map toString (aget l n).
Definition sameKind (a b : aval) : Prop :=
  match a, b with SV _, SV _ => True | IV _, IV _ => True | BV _, BV _ => True | _, _ => False end.

Section Shown.
Variables uLetter uDigit : Z -> bool.
Variable runes : string -> list Z.
Variable validText : bytes -> bool.
(** The samples for the metrics [ms] of a series with labels [L] at [t] milliseconds: one each, under the metric's Prometheus name and
    with its value, and none for a metric whose name or labels Prometheus does not take. *)
Definition shownMetric (L : list (string * bytes)) (t : Z) (m : string * mdata) (piece : list sample) : Prop :=
  exists n, sanitize uLetter uDigit true (runes (fst m)) = Ok n /\
    (if validMetricName n && forallb (fun p => validLabelName (runes (fst p)) && validText (snd p)) L
     then exists v, piece = [{| s_name := n; s_labels := L; s_time := t; s_value := v |}] /\ shownValue (snd m) v
     else piece = []).
Definition shownSeries (L : list (string * bytes)) (t : Z) (ms : list (string * mdata)) (part : list sample) : Prop :=
  exists pieces, part = List.concat pieces /\ Forall2 (shownMetric L t) ms pieces.
End Shown.
