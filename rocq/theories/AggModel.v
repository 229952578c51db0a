(** Model of collector/pkg/aggregator/defaultaggregator: aggregated values, recorders, the default (windowed)
    aggregator and the cumulative aggregator used by the Prometheus exporter.
    Simplifications: sync.Map is an association list (its iteration order is not modelled);
    time.Time and time.Duration are integers (nanoseconds). Calls are atomic here;
    AggConcModel.v breaks Aggregate into its atomic steps. *)
From Verif Require Import Base Decimal AttrModel PoolModel KeyModel.

(** agg_values.go:11-20 *)
Inductive akind : Type := SumKind | MaxKind | AvgKind | LastKind | CountKind | HistogramKind.
(** agg_values.go:65-70 *)
Record kcfg := { c_out : string; c_kind : akind; c_bounds : list Z }.
Definition kindMap := list (string * list kcfg).

(** agg_values.go:172-176, 200-203, 219-224, 252-255, 270-273, 293-300: the running values *)
Inductive core : Type :=
| CSum (v : Z)
| CMax (v : Z)
| CAvg (v n : Z)
| CLast (v : Z)
| CCount (v : Z)
| CHist (s n : Z) (bounds buckets : list Z).
Record aggv := { a_name : string; a_core : core }.

(** agg_values.go:143-161 newAggValue *)
Definition newCore (c : kcfg) : core :=
  match c_kind c with
  | SumKind => CSum 0
  | MaxKind => CMax 0
  | AvgKind => CAvg 0 0
  | LastKind => CLast 0
  | CountKind => CCount 0
  | HistogramKind => CHist 0 0 (c_bounds c) (map (fun _ => 0) (c_bounds c))
  end.
Definition newAgg (c : kcfg) : aggv := {| a_name := c_out c; a_core := newCore c |}.

(** agg_values.go:307-311: one value counted in the buckets *)
Fixpoint addBuckets (x : Z) (bounds buckets : list Z) : list Z :=
  match bounds, buckets with
  | b :: bs', k :: ks => (if x <=? b then w64 (k + 1) else k) :: addBuckets x bs' ks
  | _, _ => buckets
  end.
(** agg_values.go:338-340: [for i < len(metric.BucketCounts) { v.bucketCounts[i] += ... }] *)
Fixpoint mergeBuckets (ks add : list Z) : res (list Z) :=
  match ks, add with
  | _, [] => Ok ks
  | k :: ks', a :: add' => bind (mergeBuckets ks' add') (fun r => Ok (w64 (k + a) :: r))
  | [], _ :: _ => Panic
  end.

(** calculate / merge of each kind.
    max :178-185, :196-198; sum :205-207, :214-217; avg :228-234, :244-250; last :257-259, :266-268;
    count :276-278, :281-284; histogram :302-313, :330-342.  An error result is ignored by the callers (:104-117). *)
Definition feedCore (c : core) (d : mdata) : res core :=
  match c, d with
  | CSum v, MInt x => Ok (CSum (s64 (v + x)))
  | CSum v, MHist s _ _ _ => Ok (CSum (s64 (v + s)))
  | CMax v, MInt x => Ok (CMax (if v <? x then x else v))
  | CMax v, MHist _ _ _ _ => Ok (CMax v)
  | CAvg v n, MInt x => Ok (CAvg (s64 (v + x)) (s64 (n + 1)))
  | CAvg v n, MHist s k _ _ => Ok (CAvg (s64 (v + s)) (s64 (n + s64 k)))
  | CLast _, MInt x => Ok (CLast x)
  | CLast v, MHist _ _ _ _ => Ok (CLast v)
  | CCount v, MInt _ => Ok (CCount (s64 (v + 1)))
  | CCount v, MHist _ k _ _ => Ok (CCount (s64 (v + s64 k)))
  | CHist s n b k, MInt x => Ok (CHist (s64 (s + x)) (w64 (n + 1)) b (addBuckets x b k))
  | CHist s n b k, MHist s' n' b' k' =>
      if (List.length b =? List.length b')%nat then
        bind (mergeBuckets k k') (fun r => Ok (CHist (s64 (s + s')) (w64 (n + n')) b r))
      else Ok c
  end.
Definition feed (a : aggv) (d : mdata) : res aggv :=
  bind (feedCore (a_core a) d) (fun c => Ok {| a_name := a_name a; a_core := c |}).

(** get: max :186-190, sum :208-210, avg :235-239 (integer division), last :260-262, count :286-288, histogram :315-324 *)
Definition getCore (c : core) : res mdata :=
  match c with
  | CSum v => Ok (MInt v)
  | CMax v => Ok (MInt v)
  | CAvg v n => if n =? 0 then Panic else Ok (MInt (s64 (Z.quot v n)))
  | CLast v => Ok (MInt v)
  | CCount v => Ok (MInt v)
  | CHist s n b k => Ok (MHist s n b k)
  end.

Fixpoint mapM {A B} (f : A -> res B) (l : list A) : res (list B) :=
  match l with
  | [] => Ok []
  | a :: l' => bind (f a) (fun b => bind (mapM f l') (fun bs' => Ok (b :: bs')))
  end.
Fixpoint foldM {A S} (f : S -> A -> res S) (l : list A) (s : S) : res S :=
  match l with
  | [] => Ok s
  | a :: l' => bind (f s a) (fun s' => foldM f l' s')
  end.

(** agg_values.go:81-84 defaultValuesMap; cumulative_aggregator.go:97-100 adds the update time *)
Record vmap := { vals : list (string * list aggv); vts : Z; vupd : Z }.

(** Which aggregations a metric gets: agg_values.go:89-91 (none unless configured), and
    cumulative_aggregator.go:121-134 (a sum under its own name unless configured). *)
Definition kindsDefault (km : kindMap) (n : string) : option (list kcfg) := aget km n.
Definition kindsCumulative (km : kindMap) (n : string) : option (list kcfg) :=
  match aget km n with
  | Some l => Some l
  | None => Some [{| c_out := n; c_kind := SumKind; c_bounds := [] |}]
  end.

(** agg_values.go:86-101 newAggValuesMap; cumulative_aggregator.go:118-138 *)
Definition newValues (kf : string -> option (list kcfg)) (ms : list (string * mdata)) : vmap :=
  {| vals := fold_left (fun acc p => match kf (fst p) with
                                     | Some cs => aset acc (fst p) (map newAgg cs)
                                     | None => acc
                                     end) ms [];
     vts := 0; vupd := 0 |}.

(** agg_values.go:104-117 calculate; cumulative_aggregator.go:102-116 calculateWithExpired at time [now] *)
Definition calculate (ts now : Z) (m : vmap) (p : string * mdata) : res vmap :=
  match aget (vals m) (fst p) with
  | None => Ok m
  | Some sl => bind (mapM (fun a => feed a (snd p)) sl)
                 (fun sl' => Ok {| vals := aset (vals m) (fst p) sl'; vts := ts; vupd := now |})
  end.

(** value_recorder.go:10-15; keys are whole label keys *)
Definition recorder := list (list lkey * vmap).

(** value_recorder.go:28-40 Record; cumulative_aggregator.go:25-37 *)
Definition record (kf : string -> option (list kcfg)) (r : recorder) (key : list lkey)
                  (ms : list (string * mdata)) (ts now : Z) : res recorder :=
  let m := match aget r key with Some m => m | None => newValues kf ms end in
  bind (foldM (calculate ts now) ms m) (fun m' => Ok (aset r key m')).

(** agg_values.go:131-137 getAll, 119-129 get *)
Definition getAll (m : vmap) : res (list (string * mdata)) :=
  bind (mapM (fun p => mapM (fun a => bind (getCore (a_core a)) (fun d => Ok (a_name a, d))) (snd p)) (vals m))
       (fun ls => Ok (List.concat ls)).

(** value_recorder.go:44-54 dump *)
Definition dumpRecorder (name : string) (r : recorder) : res (list group) :=
  mapM (fun p => bind (getAll (snd p))
                   (fun ms => Ok {| gname := name; gmetrics := ms; glabels := getLabels (fst p); gts := vts (snd p) |})) r.

(** default_aggregator.go:15-21 *)
Definition agg_state := list (string * recorder).
Definition recOf (s : agg_state) (n : string) : recorder := match aget s n with Some r => r | None => [] end.

(** default_aggregator.go:31-44 Aggregate *)
Definition aggregate (km : kindMap) (s : agg_state) (g : group) (sels : list selector) : res agg_state :=
  bind (record (kindsDefault km) (recOf s (gname g)) (getLabelKeys sels (glabels g)) (gmetrics g) (gts g) 0)
       (fun r => Ok (aset s (gname g) r)).

(** default_aggregator.go:46-58 Dump *)
Definition dump (s : agg_state) : res (list group * agg_state) :=
  bind (mapM (fun p => dumpRecorder (fst p) (snd p)) s)
       (fun ls => Ok (List.concat ls, map (fun p => (fst p, [])) s)).

(** default_aggregator.go:60-70 DumpSingle *)
Definition dumpSingle (s : agg_state) (n : string) : res (list group * agg_state) :=
  match aget s n with
  | Some r => bind (dumpRecorder n r) (fun gs => Ok (gs, aset s n []))
  | None => Ok ([], s)
  end.

Inductive agg_op : Type :=
| OAgg (g : group) (sels : list selector)
| ODump
| ODumpSingle (n : string).

Definition agg_step (km : kindMap) (s : agg_state) (o : agg_op) : res (list group * agg_state) :=
  match o with
  | OAgg g sels => bind (aggregate km s g sels) (fun s' => Ok ([], s'))
  | ODump => dump s
  | ODumpSingle n => dumpSingle s n
  end.

(** A history; the groups exported by each operation, in order. *)
Fixpoint agg_run (km : kindMap) (s : agg_state) (os : list agg_op) : res (list (list group) * agg_state) :=
  match os with
  | [] => Ok ([], s)
  | o :: os' => bind (agg_step km s o)
      (fun r => bind (agg_run km (snd r) os') (fun r' => Ok (fst r :: fst r', snd r')))
  end.

(** ** Cumulative aggregator *)
(** cumulative_aggregator.go:44-57 removeExpired *)
Definition removeExpired (limit : Z) (r : recorder) : recorder :=
  filter (fun p => negb (vupd (snd p) <? limit)) r.

(** cumulative_aggregator.go:59-72 AggregatorWithAllLabelsAndMetric *)
Definition cum_aggregate (km : kindMap) (s : agg_state) (g : group) (now : Z) : res agg_state :=
  bind (getLabelsKeys (glabels g)) (fun key =>
  bind (record (kindsCumulative km) (recOf s (gname g)) key (gmetrics g) (gts g) now)
       (fun r => Ok (aset s (gname g) r))).

(** cumulative_aggregator.go:74-87 DumpAndRemoveExpired *)
Definition cum_dump (expiration : Z) (s : agg_state) (now : Z) : res (list group * agg_state) :=
  bind (mapM (fun p => dumpRecorder (fst p) (snd p)) s)
       (fun ls => Ok (List.concat ls, map (fun p => (fst p, removeExpired (now - expiration) (snd p))) s)).

Inductive cum_op : Type :=
| CRec (g : group) (now : Z)
| CDump (now : Z).

Definition cum_step (km : kindMap) (e : Z) (s : agg_state) (o : cum_op) : res (list group * agg_state) :=
  match o with
  | CRec g now => bind (cum_aggregate km s g now) (fun s' => Ok ([], s'))
  | CDump now => cum_dump e s now
  end.
Fixpoint cum_run (km : kindMap) (e : Z) (s : agg_state) (os : list cum_op) : res (list (list group) * agg_state) :=
  match os with
  | [] => Ok ([], s)
  | o :: os' => bind (cum_step km e s o)
      (fun r => bind (cum_run km e (snd r) os') (fun r' => Ok (fst r :: fst r', snd r')))
  end.
