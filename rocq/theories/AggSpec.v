(** What the aggregators should do, stated without their data structures. *)
From Verif Require Import Base AttrModel PoolModel KeyModel AggModel.

Definition zsum (l : list Z) : Z := fold_right Z.add 0 l.

(** ** Readings: an integer, or a histogram that already summarises several values *)
Definition sumOf (ds : list mdata) : Z :=
  zsum (map (fun d => match d with MInt x => x | MHist s _ _ _ => s end) ds).
Definition countOf (ds : list mdata) : Z :=
  zsum (map (fun d => match d with MInt _ => 1 | MHist _ k _ _ => k end) ds).
Definition ints (ds : list mdata) : list Z :=
  flat_map (fun d => match d with MInt x => [x] | MHist _ _ _ _ => [] end) ds.
(** how many of the values described by [d] are at or below the [i]-th bound [b] *)
Definition belowOf (i : nat) (b : Z) (d : mdata) : Z :=
  match d with MInt x => if x <=? b then 1 else 0 | MHist _ _ _ k => nth i k 0 end.

(** The value to export for configuration [c] after the readings [ds] (64-bit arithmetic). *)
Definition expected (c : kcfg) (ds : list mdata) : mdata :=
  match c_kind c with
  | SumKind => MInt (s64 (sumOf ds))
  | CountKind => MInt (s64 (countOf ds))
  | MaxKind => MInt (fold_left Z.max (ints ds) 0)
  | LastKind => MInt (last (ints ds) 0)
  | AvgKind => MInt (s64 (Z.quot (s64 (sumOf ds)) (s64 (countOf ds))))
  | HistogramKind => MHist (s64 (sumOf ds)) (w64 (countOf ds)) (c_bounds c)
      (map (fun p => w64 (zsum (map (belowOf (fst p) (snd p)) ds)))
           (combine (seq 0 (List.length (c_bounds c))) (c_bounds c)))
  end.

(** Histogram readings given to a histogram configuration have as many bounds and buckets as it has. *)
Definition hist_ok (c : kcfg) (d : mdata) : Prop :=
  match d with
  | MInt _ => True
  | MHist _ _ b k => c_kind c = HistogramKind ->
      List.length b = List.length (c_bounds c) /\ List.length k = List.length (c_bounds c)
  end.

(** The readings of metric [m] in a list of groups, in order. *)
Definition readings (ws : list group) (m : string) : list mdata :=
  flat_map (fun g => map snd (filter (fun p => eqb (fst p) m) (gmetrics g))) ws.
Definition mnames (g : group) : list string := map fst (gmetrics g).

(** ** Windows: the groups of one series since the last dump of its name *)
Definition window_step (nm : string) (key : list lkey) (w : list group) (o : agg_op) : list group :=
  match o with
  | OAgg g sels => if eqb (gname g) nm && eqb (getLabelKeys sels (glabels g)) key then w ++ [g] else w
  | ODump => []
  | ODumpSingle n => if eqb n nm then [] else w
  end.
Definition window (nm : string) (key : list lkey) (h : list agg_op) : list group :=
  fold_left (window_step nm key) h [].

(** ** Conservation *)
(** What one group adds to output [out]: per metric and per configuration with that output name. *)
Definition contribution (km : kindMap) (out : string) (g : group) : Z :=
  zsum (map (fun p => zsum (map (fun c =>
        if eqb (c_out c) out then
          match c_kind c, snd p with
          | SumKind, MInt x => x
          | SumKind, MHist s _ _ _ => s
          | CountKind, MInt _ => 1
          | CountKind, MHist _ k _ _ => k
          | _, _ => 0
          end
        else 0) (match aget km (fst p) with Some cs => cs | None => [] end))) (gmetrics g)).

(** All groups fed to the series exported with name [nm] and labels [L]. *)
Definition fed (km : kindMap) (nm : string) (L : labelset) (out : string) (h : list agg_op) : Z :=
  zsum (map (fun o => match o with
                      | OAgg g sels => if eqb (gname g) nm && eqb (getLabels (getLabelKeys sels (glabels g))) L
                                       then contribution km out g else 0
                      | _ => 0
                      end) h).
(** Everything exported under that name, labels and output name. *)
Definition exportedIn (nm : string) (L : labelset) (out : string) (gs : list group) : Z :=
  zsum (map (fun g => if eqb (gname g) nm && eqb (glabels g) L
                      then zsum (map (fun p => if eqb (fst p) out then match snd p with MInt v => v | _ => 0 end else 0) (gmetrics g))
                      else 0) gs).
Definition exported (nm : string) (L : labelset) (out : string) (es : list (list group)) : Z :=
  zsum (map (exportedIn nm L out) es).

(** Groups of one series carry the same metrics. *)
Definition uniform (h : list agg_op) : Prop :=
  forall g1 s1 g2 s2, In (OAgg g1 s1) h -> In (OAgg g2 s2) h ->
    gname g1 = gname g2 -> getLabelKeys s1 (glabels g1) = getLabelKeys s2 (glabels g2) ->
    forall m, In m (mnames g1) <-> In m (mnames g2).

(** [out] is only ever produced by sums and counts. *)
Definition counter_output (km : kindMap) (out : string) : Prop :=
  forall m cs c, aget km m = Some cs -> In c cs -> c_out c = out -> c_kind c = SumKind \/ c_kind c = CountKind.

(** Well-formed readings. *)
Definition readings_ok (km : kindMap) (g : group) : Prop :=
  forall m d cs c, In (m, d) (gmetrics g) -> aget km m = Some cs -> In c cs -> hist_ok c d.

(** ** What the export of one series looks like *)
(** The metrics exported for a series that received the groups [ws]: for each metric of the first group that is
    configured, one value per configuration, computed from all the readings of that metric. *)
Definition exports (kf : string -> option (list kcfg)) (ws : list group) (ms : list (string * mdata)) : Prop :=
  exists g0 r names, ws = g0 :: r /\ NoDup names /\
    (forall m, In m names <-> In m (mnames g0) /\ kf m <> None) /\
    ms = flat_map (fun m => map (fun c => (c_out c, expected c (readings ws m)))
                                (match kf m with Some cs => cs | None => [] end)) names.

(** The group exported for the series [p] = (group name, label key). *)
Definition describes (kf : string -> option (list kcfg)) (win : string -> list lkey -> list group)
                     (p : string * list lkey) (e : group) : Prop :=
  gname e = fst p /\ glabels e = getLabels (snd p) /\ exports kf (win (fst p) (snd p)) (gmetrics e).

(** ** Cumulative series: the groups since the series was created and the time of the last one *)
Definition cwindow_step (e : Z) (nm : string) (key : list lkey) (w : option (list group * Z)) (o : cum_op)
  : option (list group * Z) :=
  match o with
  | CRec g now =>
      if eqb (gname g) nm && match getLabelsKeys (glabels g) with Ok k => eqb k key | _ => false end
      then match w with None => Some ([g], now) | Some (ws, _) => Some (ws ++ [g], now) end
      else w
  | CDump now => match w with Some (ws, last) => if last <? now - e then None else w | None => None end
  end.
Definition cwindow (e : Z) (nm : string) (key : list lkey) (h : list cum_op) : option (list group * Z) :=
  fold_left (cwindow_step e nm key) h None.
Definition cgroups (e : Z) (h : list cum_op) (nm : string) (key : list lkey) : list group :=
  match cwindow e nm key h with Some (ws, _) => ws | None => [] end.

(** Every group carries a metric, and groups of one series (same name, same labels) carry the same metrics. *)
Definition cuniform (h : list cum_op) : Prop :=
  (forall g now, In (CRec g now) h -> gmetrics g <> []) /\
  (forall g1 n1 g2 n2, In (CRec g1 n1) h -> In (CRec g2 n2) h ->
     gname g1 = gname g2 -> getLabelsKeys (glabels g1) = getLabelsKeys (glabels g2) ->
     forall m, In m (mnames g1) <-> In m (mnames g2)).
Definition creadings_ok (km : kindMap) (g : group) : Prop :=
  forall m d cs c, In (m, d) (gmetrics g) -> kindsCumulative km m = Some cs -> In c cs -> hist_ok c d.

(** The groups ever recorded for a series, and the time of the last. *)
Definition is_series (nm : string) (key : list lkey) (g : group) : bool :=
  eqb (gname g) nm && match getLabelsKeys (glabels g) with Ok k => eqb k key | _ => false end.
Definition allGroups (nm : string) (key : list lkey) (h : list cum_op) : list group :=
  flat_map (fun o => match o with CRec g _ => if is_series nm key g then [g] else [] | CDump _ => [] end) h.
Definition lastTime (nm : string) (key : list lkey) (h : list cum_op) : option Z :=
  fold_left (fun t o => match o with CRec g now => if is_series nm key g then Some now else t | CDump _ => t end) h None.

(** ** Integer readings *)
Definition int_group (g : group) : Prop := forall m d, In (m, d) (gmetrics g) -> exists x, d = MInt x.
Definition volume (h : list agg_op) : Z :=
  zsum (map (fun o => match o with OAgg g _ => Z.of_nat (List.length (gmetrics g)) | _ => 0 end) h).
