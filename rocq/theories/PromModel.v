(** Model of collector/pkg/component/consumer/exporter/prometheusexporter: metric names and what a scrape collects.
    Names are lists of runes (Unicode code points): [runes] is the UTF-8 decoding of a Go string.  unicode.IsLetter and IsDigit beyond
    ASCII, and utf8.ValidString, are parameters.  Simplifications: the Prometheus registry and its HTTP handler, which run Collect and
    write the samples out, are not modelled. *)
From Verif Require Import Base Decimal AttrModel PoolModel KeyModel AggModel.
Open Scope string_scope. Open Scope list_scope. Open Scope Z_scope.

Definition asciiLetter (r : Z) : bool := (65 <=? r) && (r <=? 90) || (97 <=? r) && (r <=? 122).
Definition asciiDigit (r : Z) : bool := (48 <=? r) && (r <=? 57).

Section Unicode.
Variables uLetter uDigit : Z -> bool.
(** unicode.IsLetter, unicode.IsDigit *)
Definition isLetter (r : Z) : bool := if r <? 128 then asciiLetter r else uLetter r.
Definition isDigitRune (r : Z) : bool := if r <? 128 then asciiDigit r else uDigit r.

(** sanitize.go:50-56 sanitizeRune *)
Definition sanitizeRune (r : Z) : Z := if isLetter r || isDigitRune r then r else 95.

(** [s[0]] is the first byte; when it belongs to a rune beyond ASCII it is between 0xC2 and 0xF4, neither a digit nor '_'. *)
Definition firstIs (f : Z -> bool) (s : list Z) : bool := match s with r :: _ => f r | [] => false end.

(** sanitize.go:25-47 sanitize *)
Definition sanitize (skip : bool) (s : list Z) : res (list Z) :=
  match s with
  | [] => Ok []
  | _ =>
      let s1 := map sanitizeRune s in
      let s2 := if firstIs asciiDigit s1 then bs "key_" ++ s1 else s1 in
      let s3 := if negb skip && firstIs (Z.eqb 95) s2 then bs "key" ++ s2 else s2 in
      if firstIs (Z.eqb 95) s3 then
        match s3 with
        | _ :: c :: _ => Ok (if c =? 95 then bs "key" ++ s3 else s3)
        | _ => Panic
        end
      else Ok s3
  end.

(** ** The collector *)
(** The checks of the client library (prometheus.NewDesc and NewConstMetric, client_golang v1.11.1): a metric name matches
    [a-zA-Z_:][a-zA-Z0-9_:]*, a label name [a-zA-Z_][a-zA-Z0-9_]* and does not start with "__", and label values are valid UTF-8.
    A metric that fails them is not sent (collector.go:42-45, 59-62). *)
Definition nameRune (colon : bool) (r : Z) : bool := asciiLetter r || (r =? 95) || (colon && (r =? 58)).
Definition validMetricName (s : list Z) : bool :=
  match s with r :: l => nameRune true r && forallb (fun c => nameRune true c || asciiDigit c) l | [] => false end.
Definition validLabelName (s : list Z) : bool :=
  match s with r :: l => nameRune false r && forallb (fun c => nameRune false c || asciiDigit c) l | [] => false end
  && negb match s with a :: b :: _ => (a =? 95) && (b =? 95) | _ => false end.

Variable runes : string -> list Z.
Variable validText : bytes -> bool.

(** float64 of an integer: the nearest multiple of 2^e that fits 53 bits, ties to even. *)
Definition f64 (v : Z) : Z :=
  let e := Z.max 0 (Z.log2 (Z.abs v) - 52) in
  let u := 2 ^ e in
  let q := v / u in
  let r := v mod u in
  (if 2 * r <? u then q else if u <? 2 * r then q + 1 else if Z.even q then q else q + 1) * u.

Inductive pvalue := PCounter (v : Z) | PHistogram (count sum : Z) (buckets : list (Z * Z)).
Record sample := { s_name : list Z; s_labels : list (string * bytes); s_time : Z; s_value : pvalue }.

(** collector.go:48-52: the buckets, a Go map from bound to count *)
Fixpoint bucketMap (bounds counts : list Z) (acc : list (Z * Z)) : res (list (Z * Z)) :=
  match bounds, counts with
  | [], _ => Ok acc
  | b :: bounds', c :: counts' => bucketMap bounds' counts' (aset acc (f64 b) c)
  | _ :: _, [] => Panic
  end.

(** collector.go:93-95 getTimestamp; the text format has milliseconds (prometheus.NewMetricWithTimestamp) *)
Definition sampleTime (ts : Z) : Z := ts / 1000 / 1000.

(** collector.go:25-30: the label names and values of a group *)
Definition texts (l : labelset) : list (string * bytes) := map (fun p => (fst p, toString (snd p))) l.
Definition accepted (name : list Z) (l : list (string * bytes)) : bool :=
  validMetricName name && forallb (fun p => validLabelName (runes (fst p)) && validText (snd p)) l.

(** collector.go:31-64: one metric *)
Definition collectMetric (l : list (string * bytes)) (t : Z) (m : string * mdata) : res (list sample) :=
  match snd m with
  | MInt v =>
      bind (sanitize true (runes (fst m))) (fun n =>
      Ok (if accepted n l then [{| s_name := n; s_labels := l; s_time := t; s_value := PCounter (f64 v) |}] else []))
  | MHist sum count bounds counts =>
      bind (bucketMap bounds counts []) (fun bk =>
      bind (sanitize true (runes (fst m))) (fun n =>
      Ok (if accepted n l then [{| s_name := n; s_labels := l; s_time := t; s_value := PHistogram count (f64 sum) bk |}] else [])))
  end.
(** collector.go:20-30: one group *)
Definition collectGroup (g : group) : res (list sample) :=
  bind (mapM (collectMetric (texts (glabels g)) (sampleTime (gts g))) (gmetrics g)) (fun ls => Ok (List.concat ls)).
Definition collect (gs : list group) : res (list sample) :=
  bind (mapM collectGroup gs) (fun ls => Ok (List.concat ls)).

(** collector.go:72-91 newCollector: the kinds, and the five minutes a series may stay idle (nanoseconds);
    constnames/relabel_metric_const.go:6-13, 34-36 *)
Definition RttName := "kindling_tcp_srtt_microseconds".
Definition RetransmitName := "kindling_tcp_retransmit_total".
Definition DropName := "kindling_tcp_packet_loss_total".
Definition TopologyHistogram := "kindling_topology_request_request_time_histogram".
Definition EntityHistogram := "kindling_entity_request_request_time_histogram".
Definition promBounds : list Z :=
  map (fun m => m * 1000000) [10; 20; 50; 80; 130; 200; 300; 400; 500; 700; 1000; 2000; 5000; 30000].
Definition promKinds : kindMap :=
  [(RttName, [{| c_out := RttName; c_kind := LastKind; c_bounds := [] |}]);
   (TopologyHistogram, [{| c_out := TopologyHistogram; c_kind := HistogramKind; c_bounds := promBounds |}]);
   (EntityHistogram, [{| c_out := EntityHistogram; c_kind := HistogramKind; c_bounds := promBounds |}])].
Definition promExpiry : Z := 5 * 60 * 1000000000.

(** consume.go:53-55 exportMetric: a recorded result loses its group name; collector.go:68-70 *)
Definition unnamed (g : group) : group := {| gname := ""; gmetrics := gmetrics g; glabels := glabels g; gts := gts g |}.
Definition promOp (o : cum_op) : cum_op := match o with CRec g now => CRec (unnamed g) now | CDump now => CDump now end.

(** A history of recorded results ([CRec]) and scrapes ([CDump]); the samples sent by each. *)
Fixpoint prom_run (s : agg_state) (h : list cum_op) : res (list (list sample) * agg_state) :=
  match h with
  | [] => Ok ([], s)
  | o :: h' =>
      bind (cum_step promKinds promExpiry s (promOp o)) (fun r =>
      bind (collect (fst r)) (fun ss =>
      bind (prom_run (snd r) h') (fun r' => Ok (ss :: fst r', snd r'))))
  end.
End Unicode.
