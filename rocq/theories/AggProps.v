(** C02-C05: what the aggregators export. *)
From Verif Require Import Base Decimal AttrModel PoolModel KeyModel AggModel AggSpec AggProofs AggProofs2.

(** ** C02: counters are conserved *)
(** Everything fed to a series comes out exactly once: over any history of Aggregate, Dump and DumpSingle calls that
    ends with a Dump, the values exported for a name, a label set and a counter output add up (in 64-bit arithmetic)
    to what was fed. *)
Theorem C02_counters_conserved : forall km out nm L h es s,
  counter_output km out -> uniform h ->
  (forall g sels, In (OAgg g sels) h -> readings_ok km g) ->
  agg_run km [] (h ++ [ODump]) = Ok (es, s) ->
  s64 (exported nm L out es) = s64 (fed km nm L out h).
Proof.
  intros km out nm L h es s CO U RO R.
  assert (IN : forall g sels, In (OAgg g sels) (h ++ [ODump]) -> In (OAgg g sels) h).
  { intros g sels I. apply in_app_or in I. destruct I as [I|[I|[]]]; [exact I|discriminate]. }
  assert (U' : uniform (h ++ [ODump])).
  { intros g1 s1 g2 s2 I1 I2. exact (U g1 s1 g2 s2 (IN _ _ I1) (IN _ _ I2)). }
  pose proof (run_conserves km out nm L (h ++ [ODump]) (h ++ [ODump]) [] [] es s CO U'
                (fun x I => I) (fun g sels I => RO g sels (IN g sels I)) (state_is_nil km) R) as C.
  assert (P : pend L out (recOf s nm) = 0).
  { rewrite agg_run_app in R. destruct (agg_run km [] h) as [[e1 s1]| |]; cbn [bind fst snd] in R; try discriminate.
    cbn [agg_run agg_step] in R. unfold dump in R. destruct (mapM _ s1) as [ls| |]; cbn [bind fst snd] in R; try discriminate.
    inversion R; subst. rewrite recOf_reset. reflexivity. }
  cbn [app] in C. rewrite fed_snoc, P in C. change (fed km nm L out []) with 0 in C. cbn [pend map zsum fold_right] in C.
  apply s64_eqm. destruct (eqm_ex _ _ C) as (k & D). apply (eqm_of k).
  change (pend L out (recOf [] nm)) with 0 in D. lia.
Qed.
Print Assumptions C02_counters_conserved.

(** Calls never panic on integer readings (fewer than 2^63 of them), so the hypothesis above is met. *)
Theorem C02_no_panic_on_integers : forall km h,
  (forall g sels, In (OAgg g sels) h -> int_group g) -> volume h < 2 ^ 63 ->
  exists es s, agg_run km [] h = Ok (es, s).
Proof. intros km h I V. exact (agg_run_total km h [] [] (state_is_nil km) I V). Qed.
Print Assumptions C02_no_panic_on_integers.

(** Without uniformity it fails: a metric that the first group of a window did not carry is dropped. *)
Theorem C02_conserved_for_any_metrics_refuted : exists km out nm L h es s,
  counter_output km out /\ (forall g sels, In (OAgg g sels) h -> readings_ok km g) /\
  agg_run km [] (h ++ [ODump]) = Ok (es, s) /\
  s64 (exported nm L out es) <> s64 (fed km nm L out h).
Proof.
  set (g1 := {| gname := "net"%string; gmetrics := [("a"%string, MInt 1)]; glabels := []; gts := 0 |}).
  set (g2 := {| gname := "net"%string; gmetrics := [("b"%string, MInt 5)]; glabels := []; gts := 0 |}).
  exists [("a"%string, [{| c_out := "a"%string; c_kind := SumKind; c_bounds := [] |}]);
          ("b"%string, [{| c_out := "b"%string; c_kind := SumKind; c_bounds := [] |}])],
         "b"%string, "net"%string, [], [OAgg g1 []; OAgg g2 []].
  eexists. eexists. split; [|split; [|split; [vm_compute; reflexivity|vm_compute; discriminate]]].
  - intros m cs c G I E. left. cbn in G. destruct (m =? "a")%string; [|destruct (m =? "b")%string]; inversion G; subst cs;
      destruct I as [<-|[]]; reflexivity.
  - intros g sels I m d cs c J _ _. destruct I as [E|[E|[]]]; inversion E; subst g; destruct J as [J|[]]; inversion J; exact Logic.I.
Qed.
Print Assumptions C02_conserved_for_any_metrics_refuted.

(** ** C03: each export describes exactly the readings of its window *)
Theorem C03_dump_exports_windows : forall km h es s,
  (forall g sels, In (OAgg g sels) h -> readings_ok km g) ->
  agg_run km [] (h ++ [ODump]) = Ok (es, s) ->
  exists before gs series, es = before ++ [gs] /\ NoDup series /\
    (forall nm key, In (nm, key) series <-> window nm key h <> []) /\
    Forall2 (describes (kindsDefault km) (fun nm key => window nm key h)) series gs.
Proof.
  intros km h es s RO R. rewrite agg_run_app in R.
  destruct (agg_run km [] h) as [[e1 s1]| |] eqn:R1; cbn [bind fst snd] in R; try discriminate.
  cbn [agg_run agg_step] in R. unfold dump in R. destruct (mapM _ s1) as [ls| |] eqn:M; cbn [bind fst snd] in R; try discriminate.
  inversion R; subst es s; clear R.
  pose proof (agg_run_state km h [] [] e1 s1 (state_is_nil km) RO R1) as SI. cbn [app] in SI.
  destruct SI as (NDs & NDr & W).
  exists e1, (List.concat ls), (all_series s1). split; [reflexivity|]. split; [|split].
  - apply all_series_nodup; [exact NDs|]. intros [n r] I. cbn [snd]. specialize (NDr n). unfold recOf in NDr.
    rewrite (in_aget _ _ _ NDs I) in NDr. exact NDr.
  - intros nm key. rewrite all_series_in by exact NDs. specialize (W nm key).
    destruct (aget (recOf s1 nm) key) as [m|].
    + apply series_nonempty in W. split; [intros _; exact W|discriminate].
    + split; congruence.
  - apply dump_ok; [exact NDs| |exact NDr|exact M]. intros nm key m G. specialize (W nm key). rewrite G in W. exact W.
Qed.
Print Assumptions C03_dump_exports_windows.

Theorem C03_dump_single_exports_windows : forall km h n es s,
  (forall g sels, In (OAgg g sels) h -> readings_ok km g) ->
  agg_run km [] (h ++ [ODumpSingle n]) = Ok (es, s) ->
  exists before gs series, es = before ++ [gs] /\ NoDup series /\
    (forall nm key, In (nm, key) series <-> nm = n /\ window nm key h <> []) /\
    Forall2 (describes (kindsDefault km) (fun nm key => window nm key h)) series gs.
Proof.
  intros km h n es s RO R. rewrite agg_run_app in R.
  destruct (agg_run km [] h) as [[e1 s1]| |] eqn:R1; cbn [bind fst snd] in R; try discriminate.
  pose proof (agg_run_state km h [] [] e1 s1 (state_is_nil km) RO R1) as SI. cbn [app] in SI.
  destruct SI as (NDs & NDr & W).
  cbn [agg_run agg_step] in R. unfold dumpSingle in R. pose proof (W n) as Wn. specialize (NDr n). unfold recOf in Wn, NDr.
  destruct (aget s1 n) as [r|] eqn:G.
  - destruct (dumpRecorder n r) as [gs| |] eqn:D; cbn [bind fst snd] in R; try discriminate. inversion R; subst es s; clear R.
    exists e1, gs, (map (fun p => (n, fst p)) r). split; [reflexivity|]. split; [|split].
    + unfold keys in NDr. clear -NDr. induction r as [|[k m] r IH]; cbn [map fst] in *; [constructor|].
      inversion NDr as [|? ? NI ND]; subst. constructor; [|apply IH; assumption]. intros I. apply NI.
      apply in_map_iff in I. destruct I as (q & E & I). apply in_map_iff. exists q. split; [congruence|assumption].
    + intros nm key. rewrite in_map_iff. specialize (Wn key). split.
      * intros ([k m] & E & I). cbn [fst] in E. inversion E; subst. split; [reflexivity|].
        rewrite (in_aget _ _ _ NDr I) in Wn. apply series_nonempty in Wn. exact Wn.
      * intros [-> NE]. destruct (aget r key) as [m|] eqn:G2; [|congruence]. exists (key, m). split; [reflexivity|apply aget_in; exact G2].
    + apply dumpRecorder_ok; [|exact D]. intros key m I. specialize (Wn key). rewrite (in_aget _ _ _ NDr I) in Wn. exact Wn.
  - cbn [bind fst snd] in R. inversion R; subst es s; clear R. exists e1, [], []. split; [reflexivity|]. split; [constructor|]. split; [|constructor].
    intros nm key. split; [intros []|]. intros [-> NE]. apply NE. specialize (Wn key). cbn in Wn. exact Wn.
Qed.
Print Assumptions C03_dump_single_exports_windows.

(** The maximum is the largest reading when some reading is not negative. *)
Theorem C03_max_is_largest : forall c xs x,
  c_kind c = MaxKind -> In x xs -> (forall y, In y xs -> y <= x) -> 0 <= x ->
  expected c (map MInt xs) = MInt x.
Proof.
  intros c xs x K I LE NN. unfold expected. rewrite K. f_equal.
  replace (ints (map MInt xs)) with xs.
  - assert (A : forall l a, (forall y, In y l -> y <= x) -> a <= x -> (In x l \/ a = x) -> fold_left Z.max l a = x).
    { induction l as [|z l IH]; intros a B C D; cbn [fold_left].
      - destruct D as [[]|D]; exact D.
      - apply IH; [intros y J; apply B; right; exact J| |].
        + specialize (B z (or_introl eq_refl)). lia.
        + destruct D as [[D|D]|D]; [right|left; exact D|right]; specialize (B z (or_introl eq_refl)); lia. }
    apply A; [exact LE|exact NN|left; exact I].
  - unfold ints. induction xs as [|y xs IH]; [reflexivity|]. cbn [map flat_map app]. f_equal. clear -xs. induction xs as [|y xs IH]; [reflexivity|]. cbn [map flat_map app]. f_equal. exact IH.
Qed.
Print Assumptions C03_max_is_largest.

(** When all readings are negative the exported maximum is 0, which is none of them. *)
Theorem C03_max_of_negatives_refuted : exists c xs v,
  c_kind c = MaxKind /\ xs <> [] /\ expected c (map MInt xs) = MInt v /\ ~ In v xs.
Proof.
  exists {| c_out := ""; c_kind := MaxKind; c_bounds := [] |}, [-3], 0. split; [reflexivity|]. split; [discriminate|].
  split; [reflexivity|]. intros [E|[]]; discriminate.
Qed.
Print Assumptions C03_max_of_negatives_refuted.

Theorem C03_last_is_last : forall c xs x, c_kind c = LastKind -> expected c (map MInt (xs ++ [x])) = MInt x.
Proof.
  intros c xs x K. unfold expected. rewrite K. f_equal. rewrite map_app. unfold ints. rewrite flat_map_app. cbn [map flat_map app].
  apply last_last.
Qed.
Print Assumptions C03_last_is_last.

(** The average lies between the smallest and the largest reading. *)
Theorem C03_average_between : forall c xs lo hi v,
  c_kind c = AvgKind -> xs <> [] -> (forall x, In x xs -> lo <= x <= hi) ->
  - 2 ^ 63 <= zsum xs < 2 ^ 63 -> Z.of_nat (List.length xs) < 2 ^ 63 ->
  expected c (map MInt xs) = MInt v -> Z.min lo 0 <= v <= Z.max hi 0 /\ v = Z.quot (zsum xs) (Z.of_nat (List.length xs)).
Proof.
  intros c xs lo hi v K NE B S N E. unfold expected in E. rewrite K in E. inversion E as [E']; clear E.
  assert (SU : sumOf (map MInt xs) = zsum xs) by (unfold sumOf; rewrite map_map, map_id; reflexivity).
  assert (CO : countOf (map MInt xs) = Z.of_nat (List.length xs)).
  { unfold countOf. rewrite map_map. clear. induction xs as [|x xs IH]; [reflexivity|]. cbn [map List.length]. rewrite zsum_cons, IH. lia. }
  rewrite SU, CO in *.
  assert (P : 0 < Z.of_nat (List.length xs)) by (destruct xs; [congruence|cbn [List.length]; lia]).
  assert (ID : forall z, - 2 ^ 63 <= z < 2 ^ 63 -> s64 z = z) by (intros z Hz; unfold s64; rewrite Z.mod_small by lia; lia).
  rewrite (ID (zsum xs)), (ID (Z.of_nat (List.length xs))) in * by lia.
  set (n := Z.of_nat (List.length xs)) in *. set (t := zsum xs) in *.
  assert (Q : Z.quot t n = if 0 <=? t then t / n else - ((- t) / n)).
  { destruct (Z.leb_spec 0 t); [apply Z.quot_div_nonneg; lia|]. rewrite <- (Z.opp_involutive t) at 1.
    rewrite Z.quot_opp_l by lia. rewrite Z.quot_div_nonneg by lia. reflexivity. }
  assert (SB : n * lo <= t <= n * hi).
  { unfold n, t. clear -B. induction xs as [|x xs IH]; [cbn; lia|]. rewrite zsum_cons. cbn [List.length].
    specialize (IH (fun y J => B y (or_intror J))). specialize (B x (or_introl eq_refl)). nia. }
  assert (R : Z.min lo 0 <= Z.quot t n <= Z.max hi 0).
  { rewrite Q. destruct (Z.leb_spec 0 t).
    - split; [pose proof (Z.div_pos t n); lia|]. destruct (Z.le_gt_cases 0 hi); [|nia].
      rewrite Z.max_l by lia. apply Z.div_le_upper_bound; lia.
    - pose proof (Z.div_pos (- t) n ltac:(lia) ltac:(lia)). split; [|lia].
      destruct (Z.le_gt_cases lo 0); [|nia]. rewrite Z.min_l by lia.
      assert (- t / n <= - lo) by (apply Z.div_le_upper_bound; lia). lia. }
  rewrite ID; [auto|]. rewrite Q. destruct (Z.leb_spec 0 t).
  - pose proof (Z.div_pos t n). pose proof (Z.div_le_upper_bound t n t ltac:(lia) ltac:(nia)). lia.
  - pose proof (Z.div_pos (- t) n). pose proof (Z.div_le_upper_bound (- t) n (- t) ltac:(lia) ltac:(nia)). lia.
Qed.
Print Assumptions C03_average_between.

(** ** C04: histograms *)
(** Integer readings: the exported histogram counts, for each bound, the readings at or below it. *)
Theorem C04_histogram_of_integers : forall c xs,
  c_kind c = HistogramKind -> Z.of_nat (List.length xs) < 2 ^ 64 ->
  expected c (map MInt xs) =
    MHist (s64 (zsum xs)) (Z.of_nat (List.length xs)) (c_bounds c)
          (map (fun b => Z.of_nat (List.length (filter (fun x => x <=? b) xs))) (c_bounds c)).
Proof.
  intros c xs K N. unfold expected. rewrite K.
  assert (SU : sumOf (map MInt xs) = zsum xs) by (unfold sumOf; rewrite map_map, map_id; reflexivity).
  assert (CO : countOf (map MInt xs) = Z.of_nat (List.length xs)).
  { unfold countOf. rewrite map_map. clear. induction xs as [|x xs IH]; [reflexivity|]. cbn [map List.length]. rewrite zsum_cons, IH. lia. }
  rewrite SU, CO. f_equal; [unfold w64; apply Z.mod_small; lia|].
  assert (Z1 : forall i b, zsum (map (belowOf i b) (map MInt xs)) = Z.of_nat (List.length (filter (fun x => x <=? b) xs))).
  { intros i b. clear. induction xs as [|x xs IH]; [reflexivity|]. cbn [map belowOf filter]. rewrite zsum_cons, IH.
    destruct (x <=? b); cbn [List.length]; lia. }
  assert (Z2 : forall b, 0 <= Z.of_nat (List.length (filter (fun x => x <=? b) xs)) < 2 ^ 64).
  { intros b. assert (Nat.le (List.length (filter (fun x => x <=? b) xs)) (List.length xs)); [|lia].
    clear. induction xs as [|x xs IH]; [cbn; lia|]. cbn [filter]. destruct (x <=? b); cbn [List.length]; lia. }
  generalize 0%nat. induction (c_bounds c) as [|b bs' IH]; intros n; [reflexivity|].
  cbn [List.length seq combine map fst snd]. f_equal; [|apply IH].
  rewrite Z1. unfold w64. apply Z.mod_small. apply Z2.
Qed.
Print Assumptions C04_histogram_of_integers.

(** Bucket counts are cumulative: with increasing bounds they never decrease and never exceed the total. *)
Theorem C04_buckets_monotone : forall (xs : list Z) b1 b2, b1 <= b2 ->
  Z.of_nat (List.length (filter (fun x => x <=? b1) xs)) <= Z.of_nat (List.length (filter (fun x => x <=? b2) xs))
  <= Z.of_nat (List.length xs).
Proof.
  intros xs b1 b2 L. induction xs as [|x xs IH]; [cbn; lia|]. cbn [filter].
  destruct (Z.leb_spec x b1), (Z.leb_spec x b2); cbn [List.length]; lia.
Qed.
Print Assumptions C04_buckets_monotone.

(** Feeding a histogram that summarises [ys] is the same as feeding [ys] itself: aggregation can be staged. *)
Theorem C04_merge_is_concatenation : forall c c' ds ys,
  c_kind c = HistogramKind -> c_kind c' = HistogramKind -> c_bounds c' = c_bounds c ->
  expected c (ds ++ [expected c' ys]) = expected c (ds ++ ys).
Proof.
  intros c c' ds ys K K' B. unfold expected. rewrite K, K', B.
  f_equal.
  - rewrite sumOf_snoc. unfold sumOf at 3. rewrite map_app, zsum_app. fold (sumOf ds). fold (sumOf ys).
    apply s64_eqm. apply eqm_add; [apply eqm_refl|apply eqm_s64].
  - rewrite countOf_snoc. unfold countOf at 3. rewrite map_app, zsum_app. fold (countOf ds). fold (countOf ys).
    apply w64_eqm. apply eqm_add; [apply eqm_refl|apply eqm_w64].
  - set (S := s64 (sumOf ys)). set (C := w64 (countOf ys)).
    apply map_ext_in. intros [i b] I. cbn [fst snd].
    rewrite !map_app, !zsum_app. apply w64_eqm. apply eqm_add; [apply eqm_refl|].
    cbn [map belowOf]. rewrite zsum_cons. cbn [zsum fold_right]. rewrite Z.add_0_r.
    assert (N : nth i (map (fun p => w64 (zsum (map (belowOf (fst p) (snd p)) ys)))
                   (combine (seq 0 (List.length (c_bounds c))) (c_bounds c))) 0 = w64 (zsum (map (belowOf i b) ys))).
    { revert I. generalize (c_bounds c). intros l.
      assert (G : forall l n j, In (n + j, b)%nat (combine (seq n (List.length l)) l) ->
         nth j (map (fun p => w64 (zsum (map (belowOf (fst p) (snd p)) ys))) (combine (seq n (List.length l)) l)) 0
         = w64 (zsum (map (belowOf (n + j) b) ys))).
      { clear. induction l as [|x l IH]; intros n j I; cbn [List.length seq combine] in *; [destruct I|].
        destruct j as [|j].
        - cbn [map nth fst snd]. rewrite Nat.add_0_r in *. destruct I as [E|I]; [inversion E; reflexivity|].
          exfalso. apply in_combine_l in I. apply in_seq in I. lia.
        - cbn [map nth]. destruct I as [E|I]; [inversion E; lia|].
          rewrite <- Nat.add_succ_comm in *. apply IH. exact I. }
      intros I. exact (G l 0%nat i I). }
    rewrite N. apply eqm_w64.
Qed.
Print Assumptions C04_merge_is_concatenation.

(** A histogram whose buckets outnumber the configured bounds makes the aggregator panic. *)
Theorem C04_any_histogram_accepted_refuted : exists km g sels s b k total n,
  gmetrics g = [(n, MHist s total b k)] /\ agg_run km [] [OAgg g sels] = Panic.
Proof.
  exists [("m"%string, [{| c_out := "m"%string; c_kind := HistogramKind; c_bounds := [10] |}])],
    {| gname := "net"%string; gmetrics := [("m"%string, MHist 7 1 [10] [1; 1])]; glabels := []; gts := 0 |}, [], 7, [10], [1; 1], 1, "m"%string.
  split; reflexivity.
Qed.
Print Assumptions C04_any_histogram_accepted_refuted.

(** ** C05: cumulative series *)
(** A collection exports one group per live series, holding the totals since the series was created and the time of the
    series' last group. *)
Theorem C05_collection_exports_live_series : forall km e h now es s,
  cuniform h -> (forall g t, In (CRec g t) h -> creadings_ok km g) ->
  cum_run km e [] (h ++ [CDump now]) = Ok (es, s) ->
  exists before gs series, es = before ++ [gs] /\ NoDup series /\
    (forall nm key, In (nm, key) series <-> cwindow e nm key h <> None) /\
    Forall2 (fun p g => describes (kindsCumulative km) (cgroups e h) p g /\
                        exists ws l, cgroups e h (fst p) (snd p) = ws ++ [l] /\ gts g = gts l) series gs.
Proof.
  intros km e h now es s U RO R. rewrite cum_run_app in R.
  destruct (cum_run km e [] h) as [[e1 s1]| |] eqn:R1; cbn [bind fst snd] in R; try discriminate.
  cbn [cum_run cum_step] in R. unfold cum_dump in R. destruct (mapM _ s1) as [ls| |] eqn:M; cbn [bind fst snd] in R; try discriminate.
  inversion R; subst es s; clear R.
  pose proof (cum_run_state km e h U RO h [] [] e1 s1 (fun x I => I) (cstate_is_nil km e) R1) as SI. cbn [app] in SI.
  destruct SI as (NDs & NDr & W).
  exists e1, (List.concat ls), (all_series s1). split; [reflexivity|]. split; [|split].
  - apply all_series_nodup; [exact NDs|]. intros [n r] I. cbn [snd]. specialize (NDr n). unfold recOf in NDr.
    rewrite (in_aget _ _ _ NDs I) in NDr. exact NDr.
  - intros nm key. rewrite all_series_in by exact NDs. specialize (W nm key).
    destruct (aget (recOf s1 nm) key) as [m|].
    + destruct W as (ws & gl & -> & _). split; discriminate.
    + rewrite W. split; congruence.
  - assert (A : Forall2 (describes (kindsCumulative km) (cgroups e h)) (all_series s1) (List.concat ls)).
    { apply dump_ok; [exact NDs| |exact NDr|exact M]. intros nm key m G. specialize (W nm key). rewrite G in W.
      destruct W as (ws & gl & C & SI & _). unfold cgroups. rewrite C. exact SI. }
    pose proof (dump_ts s1 ls NDs NDr M) as B. revert A B. generalize (all_series s1) (List.concat ls). intros l1 l2 A B.
    induction A as [|p g l1 l2 D A IH]; constructor.
    + split; [exact D|]. inversion B as [|? ? ? ? (m & G & T) B']; subst. specialize (W (fst p) (snd p)). rewrite G in W.
      destruct W as (ws & gl & C & _ & V). exists ws, gl. unfold cgroups. rewrite C. split; [reflexivity|congruence].
    + apply IH. inversion B; assumption.
Qed.
Print Assumptions C05_collection_exports_live_series.

Lemma cwindow_match e nm key h g now : cwindow_step e nm key (cwindow e nm key h) (CRec g now) =
  if is_series nm key g then match cwindow e nm key h with None => Some ([g], now) | Some (ws, _) => Some (ws ++ [g], now) end
  else cwindow e nm key h.
Proof. reflexivity. Qed.
Lemma allGroups_snoc nm key h o : allGroups nm key (h ++ [o]) =
  allGroups nm key h ++ match o with CRec g _ => if is_series nm key g then [g] else [] | CDump _ => [] end.
Proof. unfold allGroups. rewrite flat_map_app. cbn [flat_map]. rewrite app_nil_r. reflexivity. Qed.
Lemma lastTime_snoc nm key h o : lastTime nm key (h ++ [o]) =
  match o with CRec g now => if is_series nm key g then Some now else lastTime nm key h | CDump _ => lastTime nm key h end.
Proof. unfold lastTime. rewrite fold_left_app. reflexivity. Qed.

(** A series that is never idle for longer than the expiry when a collection happens keeps every reading it ever got:
    totals do not go back. *)
Theorem C05_busy_series_never_reset : forall e nm key h,
  (forall h1 now h2 t, h = h1 ++ CDump now :: h2 -> lastTime nm key h1 = Some t -> now - e <= t) ->
  cgroups e h nm key = allGroups nm key h.
Proof.
  intros e nm key h B.
  assert (G : cwindow e nm key h = match lastTime nm key h with Some t => Some (allGroups nm key h, t) | None => None end
              /\ (lastTime nm key h = None -> allGroups nm key h = [])).
  { induction h as [|o h IH] using rev_ind; [split; reflexivity|].
    assert (B' : forall h1 now h2 t, h = h1 ++ CDump now :: h2 -> lastTime nm key h1 = Some t -> now - e <= t).
    { intros h1 now h2 t E. apply (B h1 now (h2 ++ [o])). rewrite E, <- app_assoc. reflexivity. }
    destruct (IH B') as [C D]. rewrite cwindow_snoc, allGroups_snoc, lastTime_snoc. destruct o as [g now|now].
    - rewrite cwindow_match, C. destruct (is_series nm key g).
      + split; [|discriminate]. destruct (lastTime nm key h); [reflexivity|]. rewrite D by reflexivity. reflexivity.
      + rewrite app_nil_r. split; [destruct (lastTime nm key h)|]; auto.
    - rewrite app_nil_r. cbn [cwindow_step]. rewrite C. split; [|exact D].
      destruct (lastTime nm key h) as [t|] eqn:L; [|reflexivity].
      specialize (B h now [] t eq_refl L). destruct (Z.ltb_spec t (now - e)); [lia|reflexivity]. }
  destruct G as [C D]. unfold cgroups. rewrite C. destruct (lastTime nm key h); [reflexivity|].
  symmetry. apply D. reflexivity.
Qed.
Print Assumptions C05_busy_series_never_reset.

Lemma cwindow_time e nm key : forall h ws t, cwindow e nm key h = Some (ws, t) -> lastTime nm key h = Some t.
Proof.
  induction h as [|o h IH] using rev_ind; intros ws t E; [discriminate|].
  rewrite cwindow_snoc in E. rewrite lastTime_snoc. destruct o as [g now|now].
  - rewrite cwindow_match in E. destruct (is_series nm key g); [|eauto].
    destruct (cwindow e nm key h) as [[ws' t']|]; inversion E; reflexivity.
  - cbn [cwindow_step] in E. destruct (cwindow e nm key h) as [[ws' t']|]; [|discriminate].
    destruct (t' <? now - e); [discriminate|]. eauto.
Qed.

(** Once a collection finds a series idle for longer than the expiry, no later collection exports it until it is
    recorded again, and then it starts from that recording. *)
Theorem C05_idle_series_forgotten : forall e nm key h t now h2,
  lastTime nm key h = Some t -> t < now - e ->
  (forall g n, In (CRec g n) h2 -> is_series nm key g = false) ->
  cwindow e nm key (h ++ CDump now :: h2) = None /\
  (forall g n, is_series nm key g = true ->
     cwindow e nm key ((h ++ CDump now :: h2) ++ [CRec g n]) = Some ([g], n)).
Proof.
  intros e nm key h t now h2 L LT NR.
  assert (A : cwindow e nm key (h ++ CDump now :: h2) = None).
  { induction h2 as [|o h2 IH] using rev_ind.
    - rewrite cwindow_snoc. cbn [cwindow_step]. destruct (cwindow e nm key h) as [[ws t']|] eqn:C; [|reflexivity].
      apply cwindow_time in C. rewrite L in C. inversion C; subst t'. destruct (Z.ltb_spec t (now - e)); [reflexivity|lia].
    - replace (h ++ CDump now :: h2 ++ [o]) with ((h ++ CDump now :: h2) ++ [o]) by (rewrite <- app_assoc; reflexivity).
      rewrite cwindow_snoc, IH by (intros g n I; apply (NR g n); apply in_or_app; left; exact I).
      destruct o as [g n|n]; [|reflexivity].
      assert (F : is_series nm key g = false) by (apply (NR g n); apply in_or_app; right; left; reflexivity).
      unfold is_series in F. cbn [cwindow_step]. rewrite F. reflexivity. }
  split; [exact A|]. intros g n IS. rewrite cwindow_snoc, A. unfold is_series in IS. cbn [cwindow_step]. rewrite IS. reflexivity.
Qed.
Print Assumptions C05_idle_series_forgotten.

(** The collection that finds the series expired still exports it once: it dumps before it removes. *)
Theorem C05_idle_series_not_exported_refuted : exists km e h now es s g t,
  cuniform h /\ h = [CRec g t] /\ e < now - t /\
  cum_run km e [] (h ++ [CDump now]) = Ok (es, s) /\ last es [] <> [].
Proof.
  exists [], 10, [CRec {| gname := "n"%string; gmetrics := [("m"%string, MInt 1)]; glabels := []; gts := 0 |} 0], 1000.
  eexists. eexists. eexists. eexists. split; [|split; [reflexivity|split; [lia|split; [vm_compute; reflexivity|vm_compute; discriminate]]]].
  split.
  - intros g now [I|[]]. inversion I. discriminate.
  - intros g1 n1 g2 n2 [I|[]] [J|[]] _ _ m. inversion I. inversion J. reflexivity.
Qed.
Print Assumptions C05_idle_series_not_exported_refuted.

(** ** The hypotheses are met by concrete histories *)
Example agg_example :
  let km := [("dur"%string, [{| c_out := "dur_sum"%string; c_kind := SumKind; c_bounds := [] |};
                             {| c_out := "dur_max"%string; c_kind := MaxKind; c_bounds := [] |};
                             {| c_out := "dur_h"%string; c_kind := HistogramKind; c_bounds := [5; 10] |}])] in
  let g x := {| gname := "net"%string; gmetrics := [("dur"%string, MInt x)]; glabels := [("ns"%string, SV (bs "a"))]; gts := x |} in
  let sels := [("ns"%string, "string"%string)] in
  let h := [OAgg (g 4) sels; OAgg (g 7) sels; ODump; OAgg (g 100) sels] in
  counter_output km "dur_sum" /\ uniform h /\
  exists es s, agg_run km [] (h ++ [ODump]) = Ok (es, s) /\
    exported "net" (getLabels (getLabelKeys sels (glabels (g 4)))) "dur_sum" es = 111.
Proof.
  cbn zeta. split; [|split].
  - intros m cs c G I E. cbn in G. destruct (m =? "dur")%string; inversion G; subst cs.
    destruct I as [<-|[<-|[<-|[]]]]; [left; reflexivity|discriminate|discriminate].
  - intros g1 s1 g2 s2 I1 I2 _ _ m.
    destruct I1 as [I1|[I1|[I1|[I1|[]]]]]; try discriminate; inversion I1; subst g1;
    destruct I2 as [I2|[I2|[I2|[I2|[]]]]]; try discriminate; inversion I2; subst g2; reflexivity.
  - eexists. eexists. split; vm_compute; reflexivity.
Qed.

Example cum_example :
  let g x := {| gname := "net"%string; gmetrics := [("dur"%string, MInt x)]; glabels := [("ns"%string, SV (bs "a"))]; gts := x |} in
  let h := [CRec (g 4) 0; CDump 5; CRec (g 7) 8; CDump 15; CDump 30; CDump 31] in
  match cum_run [] 10 [] h with
  | Ok (es, _) => map (map (fun e => gmetrics e)) es = [[]; [[("dur"%string, MInt 4)]]; []; [[("dur"%string, MInt 11)]]; [[("dur"%string, MInt 11)]]; []]
  | _ => False
  end.
Proof. vm_compute. reflexivity. Qed.
