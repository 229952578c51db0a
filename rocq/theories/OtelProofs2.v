(** Every history of the OpenTelemetry exporter. *)
From Coq Require Import Sorting.Permutation.
From Verif Require Import Base Decimal AttrModel PoolModel KeyModel KeyProps AggModel AggSpec AggProofs LabelNames EnrichModel AdapterModel AdapterSpec AdapterWorld AdapterProps OtelModel OtelSpec OtelProofs.
Open Scope string_scope. Open Scope list_scope. Open Scope Z_scope.

Section Export.
  Context (cl : list (string * aval)) (cfg : config) (kinds : list (string * string)) (tracer : bool).

  Definition instrOK (s : ostate) : Prop := forall n i, aget (o_instr s) n = Some i -> exists k, aget kinds n = Some k /\ i = createNewInstrument k.
  Definition inner (l : list reading) (s : ostate) : Prop :=
    NoDup (o_gauges s) /\ (forall x, ahas (o_agg s) x = true -> In x (o_gauges s)) /\ instrOK s /\ aggIs l [] (o_agg s).
  Definition readingsOf (m : labels) (ms : list (string * mdata)) : list reading :=
    flat_map (fun p : string * mdata => match snd p with MInt v => if isGauge kinds (fst p) then [(fst p, m, v)] else [] | _ => [] end) ms.
  Definition gaugeMap (r : ores) (m : labels) (ms : list (string * mdata)) : Prop :=
    forall n v, In (n, MInt v) ms -> isGauge kinds n = true -> int64_labels m /\ exists m', x_map r = Some m' /\ forall k, aget m' k = aget m k.

  Lemma instrument_kind k : eqb k "gauge" = false -> createNewInstrument k = if eqb k "histogram" then IHistogram else ICounter.
  Proof. intros _. unfold createNewInstrument. case_eqb k "counter"; [subst; reflexivity|]. destruct (eqb k "histogram"); reflexivity. Qed.

  Lemma loop_ok r m : forall ms acc s l, inner l s -> gaugeMap r m ms ->
    exists s', metricLoop kinds r ms acc s = Ok (acc ++ measurements kinds ms, s') /\ inner (l ++ readingsOf m ms) s' /\ o_pools s' = o_pools s.
  Proof.
    induction ms as [|[n d] ms IH]; intros acc s l I G.
    - exists s. cbn [metricLoop measurements readingsOf flat_map]. rewrite !app_nil_r. auto.
    - assert (G' : gaugeMap r m ms) by exact (fun x v J => G x v (or_intror J)).
      cbn [metricLoop]. unfold measurements, readingsOf. cbn [flat_map fst snd]. fold (measurements kinds ms) (readingsOf m ms).
      unfold kindOf. destruct (aget kinds n) as [k|] eqn:K.
      2: { unfold isGauge, kindOf. rewrite K. cbn [andb]. destruct (IH acc s l I G') as (s' & E & I' & P). exists s'. split; [exact E|]. split; [|exact P]. destruct d; exact I'. }
      destruct d as [v|a b c e].
      2: { destruct (IH acc s l I G') as (s' & E & I' & P). exists s'. auto. }
      destruct (eqb k "gauge") eqn:KG.
      + unfold recordLastValue. set (gs := if ahas (o_agg s) n || existsb (eqb n) (o_gauges s) then o_gauges s else o_gauges s ++ [n]).
        destruct I as (ND & H & IO & A).
        assert (GS : NoDup gs /\ In n gs /\ forall x, In x (o_gauges s) -> In x gs).
        { unfold gs. destruct (ahas (o_agg s) n || existsb (eqb n) (o_gauges s)) eqn:B.
          - split; [exact ND|]. split; [|auto]. apply orb_true_iff in B. destruct B as [B|B]; [exact (H n B)|apply existsb_in; exact B].
          - apply orb_false_iff in B. destruct B as [_ B]. assert (NI : ~ In n (o_gauges s)) by (intros J; apply existsb_in in J; congruence). split.
            + apply (Permutation_NoDup (l := n :: o_gauges s)); [apply Permutation_cons_append|]. constructor; assumption.
            + split; [apply in_or_app; right; left; reflexivity|intros x J; apply in_or_app; left; exact J]. }
        clearbody gs. destruct GS as (G1 & G2 & G3).
        unfold isGauge, kindOf, gaugeLabels. rewrite K, KG. cbn [andb]. destruct (getSelector n) as [sels|] eqn:SE; cbn [bind].
        * destruct (G n v (or_introl eq_refl)) as (R & m' & XM & EX); [unfold isGauge, kindOf, gaugeLabels; rewrite K, KG, SE; reflexivity|]. rewrite XM.
          destruct (record_last l (o_agg s) n sels m m' v (x_ts r) A SE R EX) as (a' & E & A' & H'). rewrite E. cbn [bind].
          match goal with |- context [metricLoop kinds r ms acc ?q] => destruct (IH acc q (l ++ [(n, m, v)])) as (s' & E' & I' & P') end.
          { split; [exact G1|]. cbn [o_gauges o_agg]. split; [|split; [exact IO|exact A']]. intros x J. destruct (H' x J) as [J'| ->]; [exact (G3 x (H x J'))|exact G2]. }
          { exact G'. }
          exists s'. split; [exact E'|]. rewrite <- app_assoc in I'. split; [exact I'|exact P'].
        * match goal with |- context [metricLoop kinds r ms acc ?q] => destruct (IH acc q l) as (s' & E' & I' & P') end.
          { split; [exact G1|]. cbn [o_gauges o_agg]. split; [|split; [exact IO|exact A]]. intros x J. exact (G3 x (H x J)). }
          { exact G'. }
          exists s'. split; [exact E'|]. split; [exact I'|exact P'].
      + unfold isGauge, kindOf. rewrite K, KG. cbn [andb app].
        assert (GI : exists s1, getInstrument n k s = (if eqb k "histogram" then IHistogram else ICounter, s1) /\ inner l s1 /\ o_pools s1 = o_pools s).
        { destruct I as (ND & H & IO & A). unfold getInstrument. destruct (aget (o_instr s) n) as [i|] eqn:GI.
          - destruct (IO n i GI) as (k' & K' & ->). rewrite K in K'. inversion K'; subst k'. exists s. rewrite instrument_kind by exact KG.
            split; [reflexivity|]. split; [split; [exact ND|auto]|reflexivity].
          - rewrite <- (instrument_kind k KG). eexists. split; [reflexivity|]. split; [|reflexivity]. split; [exact ND|]. split; [exact H|]. split; [|exact A].
            intros x i. cbn [o_instr]. rewrite aget_aset. case_eqb x n; [|apply IO]. subst. intros Q. inversion Q. exists k. auto. }
        destruct GI as (s1 & -> & I1 & P1).
        destruct (IH (acc ++ [(n, if eqb k "histogram" then IHistogram else ICounter, v)]) s1 l I1 G') as (s' & E' & I' & P'). exists s'.
        split; [rewrite E', <- app_assoc; reflexivity|]. split; [exact I'|congruence].
  Qed.

  Definition fits (g : group) (w : want) (r : ores) : Prop :=
    x_type r = wn_type w /\ x_metrics r = wn_metrics w /\
    (wn_type w = RTrace -> saysLabels cl (wn_labels w) (x_list r)) /\
    (wn_type w = RMetric -> measurements kinds (wn_metrics w) <> [] -> saysLabels cl (wn_labels w) (x_list r)) /\
    (wn_type w = RMetric -> gaugeMap r (labelsOf cl g w) (wn_metrics w)).
  Definition readingsFor (g : group) (w : want) : list reading :=
    match wn_type w with RTrace => [] | RMetric => readingsOf (labelsOf cl g w) (wn_metrics w) end.
  Lemma gaugeReadings_eq g : gaugeReadings cl kinds cfg g = flat_map (readingsFor g) (wanted cfg g).
  Proof. reflexivity. Qed.
  Lemma export_ok g : forall ws rs s l, Forall2 (fits g) ws rs -> inner l s ->
    exists out s', export kinds tracer rs s = Ok (out, s') /\ Forall2 (answers cl) (flat_map (callsFor kinds tracer) ws) out /\
      inner (l ++ flat_map (readingsFor g) ws) s' /\ o_pools s' = o_pools s.
  Proof.
    induction ws as [|w ws IH]; intros rs s l F I; inversion F as [|? r ? rs' (T & M & TR & ME & GM) F']; subst.
    - exists [], s. cbn [export flat_map]. rewrite app_nil_r. split; [reflexivity|]. split; [constructor|auto].
    - assert (ONE : exists o1 s1, exportOne kinds tracer r s = Ok (o1, s1) /\ Forall2 (answers cl) (callsFor kinds tracer w) o1 /\
                    inner (l ++ readingsFor g w) s1 /\ o_pools s1 = o_pools s).
      { unfold exportOne, callsFor, readingsFor. rewrite T. destruct (wn_type w).
        - rewrite M. destruct (loop_ok r (labelsOf cl g w) (wn_metrics w) [] s l I (GM eq_refl)) as (s1 & E & I1 & P1). rewrite E. cbn [bind fst snd app].
          eexists _, s1. split; [reflexivity|]. split; [|split; [exact I1|exact P1]]. specialize (ME eq_refl).
          destruct (measurements kinds (wn_metrics w)) as [|q ms]; [constructor|]. constructor; [|constructor]. split; [reflexivity|]. apply ME. discriminate.
        - eexists _, s. split; [reflexivity|]. rewrite app_nil_r. split; [|auto]. destruct tracer; [|constructor]. constructor; [|constructor]. exact (TR eq_refl). }
      destruct ONE as (o1 & s1 & E1 & F1 & I1 & P1). destruct (IH rs' s1 _ F' I1) as (o2 & s2 & E2 & F2 & I2 & P2).
      cbn [export]. rewrite E1. cbn [bind snd fst]. rewrite E2. cbn [bind snd fst]. eexists _, s2. split; [reflexivity|]. cbn [flat_map].
      split; [apply Forall2_app; assumption|]. rewrite app_assoc. split; [exact I2|congruence].
  Qed.

  (** ** The adapters' results *)
  Lemma entity_no_gauge n : getSelector (entityName n) = None.
  Proof. unfold entityName. repeat match goal with |- context [if ?b then _ else _] => destruct b; [vm_compute; reflexivity|] end. vm_compute. reflexivity. Qed.
  Lemma topology_no_gauge n : getSelector (topologyName n) = None.
  Proof. unfold topologyName. repeat match goal with |- context [if ?b then _ else _] => destruct b; [vm_compute; reflexivity|] end. vm_compute. reflexivity. Qed.
  Lemma counted_in g name t w : In w (counted g name t) -> wn_type w = RMetric /\ (wn_labels w = t \/ wn_labels w = t ++ slowT (glabels g)) /\
    forall n d, In (n, d) (wn_metrics w) -> exists x, n = name x.
  Proof.
    unfold counted. intros J. apply in_app_or in J. destruct J as [J|J].
    - destruct (0 <? _); [|destruct J]. destruct J as [<-|[]]. split; [reflexivity|]. split; [left; reflexivity|]. cbn [wn_metrics]. intros n d K.
      apply in_map_iff in K. destruct K as (q & Q & _). inversion Q. eauto.
    - destruct (0 <? _); [|destruct J]. destruct J as [<-|[]]. split; [reflexivity|]. split; [right; reflexivity|]. cbn [wn_metrics]. intros n d K.
      apply in_map_iff in K. destruct K as (q & Q & _). inversion Q. eauto.
  Qed.
  Definition aggTables (m : labels) : list (list kv) := [fineEdgeT m; coarseEdgeT m; fineServerT m; coarseServerT m].
  Lemma aggregated_in g w : In w (wantAggregated cfg g) -> wn_type w = RMetric /\
    (exists t, In t (aggTables (glabels g)) /\ (wn_labels w = t \/ wn_labels w = t ++ slowT (glabels g))) /\
    forall n d, In (n, d) (wn_metrics w) -> getSelector n = None.
  Proof.
    unfold wantAggregated. intros J.
    assert (C : exists t name, In t (aggTables (glabels g)) /\ In w (counted g name t) /\ forall x, getSelector (name x) = None).
    { apply in_app_or in J. destruct J as [J|J].
      - destruct (_ && _ && _); [|destruct J]. exists (fineEdgeT (glabels g)), topologyName. split; [left; reflexivity|]. split; [exact J|exact topology_no_gauge].
      - destruct (boolOf (glabels g) "is_server").
        + exists (if StorePodDetail cfg then fineServerT (glabels g) else coarseServerT (glabels g)), entityName.
          split; [destruct (StorePodDetail cfg); unfold aggTables; cbn [In]; tauto|]. split; [exact J|exact entity_no_gauge].
        + exists (if StorePodDetail cfg then fineEdgeT (glabels g) else coarseEdgeT (glabels g)), topologyName.
          split; [destruct (StorePodDetail cfg); unfold aggTables; cbn [In]; tauto|]. split; [exact J|exact topology_no_gauge]. }
    destruct C as (t & name & Tt & Jw & N). destruct (counted_in g name t w Jw) as (T & L & M). split; [exact T|]. split; [exists t; auto|].
    intros n d K. destruct (M n d K) as (x & ->). apply N.
  Qed.
  Lemma not_gauge n : getSelector n = None -> isGauge kinds n = false.
  Proof. intros E. unfold isGauge, gaugeLabels. rewrite E. apply andb_false_r. Qed.

  (** Names of a table *)
  Definition tableOK (t : list kv) : bool := nodupb (map fst t) && forallb (fun k => existsb (eqb k) reserved) (map fst t).
  Lemma table_nodup t : goodCustom cl -> tableOK t = true -> NoDup (map fst (withCustom t cl)).
  Proof.
    intros [G1 G2] T. apply andb_prop in T. destruct T as [T1 T2]. apply nodupb_ok in T1. rewrite forallb_forall in T2.
    unfold withCustom. rewrite map_app, map_map. cbn [fst].
    assert (D : forall k, In k (map fst t) -> ~ In k (map (fun p : string * aval => fst p) cl)).
    { intros k J1 J2. apply (G2 k J2). apply existsb_in. exact (T2 k J1). }
    revert T1 D G1. clear. generalize (map fst t). intros l. induction l as [|k l IH]; intros T1 D G1; [exact G1|].
    inversion T1 as [|? ? X1 X2]; subst. cbn [app]. constructor.
    - intros J. apply in_app_or in J. destruct J as [J|J]; [exact (X1 J)|exact (D k (or_introl eq_refl) J)].
    - apply IH; [exact X2| |exact G1]. intros x J. apply D. right. exact J.
  Qed.
  Lemma trace_table g : tableOK (traceMetricT g) = true.
  Proof. vm_compute. reflexivity. Qed.
  Lemma agg_tables m t : In t (aggTables m) -> tableOK t = true /\ tableOK (t ++ slowT m) = true.
  Proof.
    intros J. unfold aggTables in J. cbn [In] in J. destruct J as [<-|[<-|[<-|[<-|[]]]]].
    - unfold fineEdgeT, fineDstT. destruct (translated m); split; vm_compute; reflexivity.
    - unfold coarseEdgeT, coarseDstT. destruct (notFound m); split; vm_compute; reflexivity.
    - split; vm_compute; reflexivity.
    - split; vm_compute; reflexivity.
  Qed.
  Lemma tableMap_get (t : list kv) : NoDup (map fst t) -> forall k v, aget (tableMap t) k = Some v <-> In (k, Some v) t.
  Proof.
    induction t as [|[k0 [v0|]] t IH]; intros ND k v; cbn [tableMap flat_map fst snd app].
    - split; [discriminate|intros []].
    - cbn [map fst] in ND. inversion ND as [|? ? N1 N2]; subst. cbn [aget In]. case_eqb k k0.
      + subst k0. split; [intros Q; inversion Q; subst; left; reflexivity|]. intros [Q|Q]; [inversion Q; reflexivity|]. exfalso. apply N1.
        apply in_map_iff. exists (k, Some v). auto.
      + rewrite (IH N2). split; [right; assumption|]. intros [Q|Q]; [inversion Q; subst; congruence|exact Q].
    - cbn [map fst] in ND. inversion ND as [|? ? N1 N2]; subst. cbn [In]. rewrite (IH N2). split; [right; assumption|]. intros [Q|Q]; [discriminate|exact Q].
  Qed.
  Lemma get_opt_ext {V} (m m' : list (string * V)) : (forall k v, aget m k = Some v <-> aget m' k = Some v) -> forall k, aget m k = aget m' k.
  Proof.
    intros H k. destruct (aget m k) as [v|] eqn:E; [symmetry; apply H; exact E|]. destruct (aget m' k) as [v|] eqn:E'; [|reflexivity].
    apply H in E'. congruence.
  Qed.
  Lemma trace_int64 g : textCustom cl -> int64_labels (glabels g) -> int64_labels (tableMap (withCustom (traceMetricT g) cl)).
  Proof.
    intros [G T] R k z E. apply tableMap_get in E; [|apply table_nodup; [exact G|apply trace_table]]. unfold withCustom in E. apply in_app_or in E. destruct E as [E|E].
    - assert (P := asInt_range (glabels g) "dst_port" R). assert (P' := asInt_range (glabels g) "dnat_port" R). change (64 - 1) with 63 in P, P'.
      unfold traceMetricT, edgeT, plainDstT, containersT, contentT, coloursT, keepS, keepI, S_, I_, B_ in E. cbn [map app In] in E.
      unfold intOf in E.
      repeat (destruct E as [E|E]; [first [discriminate | (injection E as _ E; rewrite <- E; first [exact P|exact P'])]|]). destruct E.
    - apply in_map_iff in E. destruct E as ([k' v] & Q & J). cbn [fst snd] in Q. destruct (T k' v J) as (t & ->). congruence.
  Qed.

  Definition netWanted (g : group) : list want :=
    if eqb (gname g) "aggregated_net_request_metric_group" then wantAggregated cfg g
    else if eqb (gname g) "single_net_request_metric_group" then wantSingle cfg g else [].
  Definition simpleWanted (g : group) : list want :=
    if existsb (eqb (gname g)) simpleGroups then [{| wn_type := RMetric; wn_metrics := gmetrics g; wn_labels := textLabels (glabels g) |}] else [].
  Lemma wanted_split g : wanted cfg g = netWanted g ++ simpleWanted g.
  Proof.
    unfold wanted, netWanted, simpleWanted. case_eqb (gname g) "aggregated_net_request_metric_group".
    - rewrite E. change (existsb (eqb "aggregated_net_request_metric_group") simpleGroups) with false. rewrite app_nil_r. reflexivity.
    - case_eqb (gname g) "single_net_request_metric_group"; [|reflexivity].
      match goal with H : gname g = _ |- _ => rewrite H end. change (existsb (eqb "single_net_request_metric_group") simpleGroups) with false. rewrite app_nil_r. reflexivity.
  Qed.

  Lemma net_part h choices g : textCustom cl -> traceIsGauge kinds -> goodGroup cl cfg g ->
    exists p rs, adapt cl cfg g AttributeList (withChoices (w_pools (hrun cl cfg h)) choices) = Ok (p, rs) /\ Forall2 (fits g) (netWanted g) (map ofNet rs).
  Proof.
    intros TC TG (ND & R & SG & DJ). assert (GC := proj1 TC). unfold netWanted. case_eqb (gname g) "aggregated_net_request_metric_group".
    - destruct (C44_aggregated cl cfg h choices g AttributeList GC E) as (p & rs & A & F & FF). exists p, rs. split; [exact A|].
      assert (W := aggregated_in g). revert W. generalize (wantAggregated cfg g) F. intros ws F0. clear -F0 FF.
      induction F0 as [|w r ws rs S F IH]; intros W; cbn [map]; [constructor|]. inversion FF as [|? ? F1 F2]; subst.
      constructor; [|apply IH; [exact F2|intros x J; apply W; right; exact J]]. destruct (W w (or_introl eq_refl)) as (T & _ & NG).
      destruct S as (S1 & S2 & S3 & S4). unfold fits, ofNet. cbn [x_type x_metrics x_list x_map].
      destruct (res_attrs r) as [l|m]; [|discriminate]. destruct S4 as [_ S4]. split; [exact S1|]. split; [exact S2|].
      split; [intros _; exact S4|]. split; [intros _ _; exact S4|]. intros _ n v J Q. exfalso. rewrite (not_gauge n) in Q; [discriminate|]. exact (NG n (MInt v) J).
    - case_eqb (gname g) "single_net_request_metric_group".
      + match goal with H : gname g = "single_net_request_metric_group" |- _ => rename H into NS end.
        destruct (SG NS) as [SM SS].
        destruct (C44_single cl cfg h choices g AttributeList GC NS SM) as (p & rs & A & F & FF).
        { intros Q. destruct (SS Q) as (S1 & S2 & S3). split; [exact S1|]. split; [exact S2|]. split; [exact S3|discriminate]. }
        exists p, rs. split; [exact A|].
        assert (LO : forall w, labelsOf cl g w = tableMap (withCustom (wn_labels w) cl)) by (intros w; unfold labelsOf; rewrite NS; reflexivity).
        assert (W : forall w, In w (wantSingle cfg g) -> wn_type w = RTrace \/ (wn_labels w = traceMetricT g /\ exists d, wn_metrics w = [("kindling_trace_request_duration_nanoseconds", d)])).
        { intros w J. unfold wantSingle in J. destruct (aget (gmetrics g) "request_total_time") as [d|]; [|destruct J]. apply in_app_or in J. destruct J as [J|J].
          - destruct (StoreTraceAsMetric cfg); [|destruct J]. destruct J as [<-|[]]. right. split; [reflexivity|]. exists d. reflexivity.
          - destruct (StoreTraceAsSpan cfg); [|destruct J]. destruct J as [<-|[]]. left. reflexivity. }
        revert W. generalize (wantSingle cfg g) F. intros ws F0. clear -F0 FF LO TC TG GC R.
        induction F0 as [|w r ws rs S F IH]; intros W; cbn [map]; [constructor|]. inversion FF as [|? ? F1 F2]; subst.
        constructor; [|apply IH; [exact F2|intros x J; apply W; right; exact J]].
        destruct S as (S1 & S2 & S3 & S4). unfold fits, ofNet. cbn [x_type x_metrics x_list x_map]. split; [exact S1|]. split; [exact S2|].
        destruct (W w (or_introl eq_refl)) as [T|[TL (d & TM)]].
        * rewrite S1, T in F1. destruct (res_attrs r) as [l|m]; [|discriminate]. destruct S4 as [_ S4]. split; [intros _; exact S4|].
          split; intros Q; rewrite T in Q; discriminate.
        * destruct (wn_type w) eqn:T; [|destruct (res_attrs r) as [l|m]; [|rewrite S1 in F1; discriminate]; destruct S4 as [_ S4]; split; [intros _; exact S4|split; intros Q; discriminate]].
          split; [intros Q; discriminate|]. split.
          -- intros _ Q. exfalso. apply Q. rewrite TM. unfold measurements. cbn [flat_map fst snd app]. unfold traceIsGauge in TG.
             destruct TG as [-> | ->]; [reflexivity|]. change (eqb "gauge" "gauge") with true. destruct d; reflexivity.
          -- intros _ n v J Q. rewrite S1 in F1. destruct (res_attrs r) as [l|m]; [discriminate|]. rewrite LO, TL. rewrite TL in S4. cbn [labelsAre] in S4.
             split; [apply trace_int64; assumption|]. exists m. split; [reflexivity|]. apply get_opt_ext. intros k u. rewrite S4.
             rewrite tableMap_get; [reflexivity|]. apply table_nodup; [exact GC|apply trace_table].
      + match goal with H : gname g <> "single_net_request_metric_group" |- _ => rename H into N2 end.
        exists (withChoices (w_pools (hrun cl cfg h)) choices), []. split; [apply C44_other_groups; assumption|constructor].
  Qed.
  Lemma simple_part it g : (forall x, Permutation (it x) x) -> goodGroup cl cfg g ->
    Forall2 (fits g) (simpleWanted g) (map ofSimple (simpleAdapt it simpleGroups cl g)).
  Proof.
    intros P (ND & R & _ & _). unfold simpleWanted, simpleAdapt. destruct (existsb (eqb (gname g)) simpleGroups) eqn:E; [|constructor].
    constructor; [|constructor]. unfold fits, ofSimple. cbn [x_type x_metrics x_list x_map wn_type wn_metrics wn_labels].
    split; [reflexivity|]. split; [reflexivity|].
    assert (S : saysLabels cl (textLabels (glabels g)) (map (fun p => (fst p, Some (SV (toString (snd p))))) (it (glabels g)) ++ map (fun p => (fst p, Some (snd p))) cl)).
    { intros k v. unfold withCustom, textLabels. rewrite !in_app_iff.
      assert (Q : Permutation (map (fun p : string * aval => (fst p, Some (SV (toString (snd p))))) (it (glabels g))) (map (fun p => S_ (fst p) (toString (snd p))) (glabels g))).
      { rewrite (Permutation_map _ (P (glabels g))). apply Permutation_refl. }
      assert (H : In (k, v) (map (fun p : string * aval => (fst p, Some (SV (toString (snd p))))) (it (glabels g))) <-> In (k, v) (map (fun p => S_ (fst p) (toString (snd p))) (glabels g))).
      { split; apply Permutation_in; [exact Q|apply Permutation_sym; exact Q]. }
      tauto. }
    split; [intros Q; discriminate|]. split; [intros _ _; exact S|]. intros _ n v J Q. unfold labelsOf. rewrite E. split; [exact R|]. exists (glabels g). auto.
  Qed.

  (** ** Pools *)
  Definition poolsReach (p : pools) : Prop := exists h, p = w_pools (hrun cl cfg h) /\ w_out (hrun cl cfg h) = [].
  Lemma free_all : forall rs p, let w := fold_left (hstep cl cfg) (repeat (HFree 0) (List.length rs)) {| w_pools := p; w_out := rs |} in
    w_pools w = fold_left (fun p r => freeResult r p) rs p /\ w_out w = [].
  Proof. induction rs as [|r rs IH]; intros p; cbn [List.length repeat fold_left]; [split; reflexivity|]. cbn [hstep w_out nth_error dropAt w_pools]. apply IH. Qed.
  Lemma pools_step h g c p rs : w_out (hrun cl cfg h) = [] -> adapt cl cfg g AttributeList (withChoices (w_pools (hrun cl cfg h)) c) = Ok (p, rs) ->
    poolsReach (fold_left (fun p r => freeResult r p) rs p).
  Proof.
    intros O A. exists (h ++ HAdapt g AttributeList c :: repeat (HFree 0) (List.length rs)). unfold hrun. rewrite fold_left_app. fold (hrun cl cfg h). cbn [fold_left].
    assert (E : hstep cl cfg (hrun cl cfg h) (HAdapt g AttributeList c) = {| w_pools := p; w_out := rs |}) by (cbn [hstep]; rewrite A, O, app_nil_r; reflexivity).
    rewrite E. destruct (free_all rs p) as [F1 F2]. cbv zeta in F1, F2. rewrite F1, F2. auto.
  Qed.

  (** ** Steps *)
  Definition stateOK (l : list reading) (s : ostate) : Prop := inner l s /\ poolsReach (o_pools s).
  Lemma consume_ok g c it l s : textCustom cl -> traceIsGauge kinds -> goodGroup cl cfg g -> (forall x, Permutation (it x) x) -> stateOK l s ->
    exists out s', consumeGroup cl cfg kinds tracer g c it s = Ok (out, s') /\ Forall2 (answers cl) (flat_map (callsFor kinds tracer) (wanted cfg g)) out /\
      stateOK (l ++ gaugeReadings cl kinds cfg g) s'.
  Proof.
    intros TC TG GG P [I (h & HP & HO)]. destruct (net_part h c g TC TG GG) as (p & rs & A & F). assert (SP := simple_part it g P GG).
    unfold consumeGroup. rewrite HP, A. cbn [bind fst snd].
    destruct (export_ok g _ _ s l F I) as (o1 & s1 & E1 & F1 & I1 & P1). rewrite E1. cbn [bind fst snd].
    set (s2 := setPools _ s1).
    assert (I2 : inner (l ++ flat_map (readingsFor g) (netWanted g)) s2) by exact I1.
    destruct (export_ok g _ _ s2 _ SP I2) as (o3 & s3 & E3 & F3 & I3 & P3). rewrite E3. cbn [bind fst snd].
    eexists _, s3. split; [reflexivity|]. rewrite gaugeReadings_eq, wanted_split, !flat_map_app, app_assoc. split; [apply Forall2_app; assumption|].
    split; [exact I3|]. rewrite P3. exact (pools_step h g c p rs HO A).
  Qed.
  Lemma scrape_ok it l s : (forall x, Permutation (it x) x) -> stateOK l s ->
    exists out s' series, ostep cl cfg kinds tracer s (XScrape it) = Ok (out, s') /\ stateOK [] s' /\ NoDup series /\
      (forall n L, In (n, L) series <-> exists m v, In (n, m, v) l /\ shownOf n m = L) /\ Forall2 (observes cl l) series out.
  Proof.
    intros P [(ND & H & IO & A) PR]. destruct (collect_ok cl it l P (o_gauges s) [] (o_agg s) A) as (out & a' & series & C & A' & H' & NS & IN & F).
    { exact ND. }
    assert (ALL : forall n m v, In (n, m, v) l -> In n (o_gauges s)).
    { intros n m v J. apply H. destruct A as (_ & _ & _ & A). specialize (A n (keyOf n m) (fun x => x)). unfold ahas.
      unfold recOf in A. destruct (aget (o_agg s) n) as [r|]; [reflexivity|]. cbn [aget] in A. exfalso. exact (A m v J eq_refl). }
    cbn [ostep]. rewrite C. cbn [bind fst snd]. eexists out, _, series. split; [reflexivity|]. split.
    - split; [|exact PR]. split; [exact ND|]. cbn [o_gauges o_agg]. split; [intros x J; apply H; rewrite <- H'; exact J|]. split; [exact IO|].
      destruct A' as (_ & N' & D' & A'). split; [constructor|]. split; [exact N'|]. split; [intros n []|]. intros n key _.
      assert (Z : recOf a' n = []).
      { unfold recOf. destruct (aget a' n) as [r|] eqn:G; [|reflexivity]. assert (J : In n (o_gauges s)) by (apply H; rewrite <- H'; unfold ahas; rewrite G; reflexivity).
        specialize (D' n J). unfold recOf in D'. rewrite G in D'. exact D'. }
      rewrite Z. cbn [aget]. intros m v [].
    - split; [exact NS|]. split; [|exact F]. intros n L. rewrite IN. split; [intros [_ X]; exact X|]. intros (m & v & J & Q). split; [exact (ALL n m v J)|eauto].
  Qed.
  Lemma restart_ok l s : stateOK l s -> exists s', ostep cl cfg kinds tracer s XRestart = Ok ([], s') /\ stateOK [] s'.
  Proof.
    intros [I PR]. eexists. split; [reflexivity|]. split; [|exact PR]. split; [constructor|]. split; [intros x J; discriminate|]. split; [intros n i J; discriminate|exact aggIs_nil].
  Qed.
  Lemma start_ok : stateOK [] o0.
  Proof. split; [|exists []; auto]. split; [constructor|]. split; [intros x J; discriminate|]. split; [intros n i J; discriminate|exact aggIs_nil]. Qed.

  Definition explains (l : list reading) (o : oop) (out : list sdk) : Prop :=
    match o with
    | XConsume g _ _ => Forall2 (answers cl) (flat_map (callsFor kinds tracer) (wanted cfg g)) out
    | XScrape _ => exists series, NoDup series /\ (forall n L, In (n, L) series <-> exists m v, In (n, m, v) l /\ shownOf n m = L) /\ Forall2 (observes cl l) series out
    | XRestart => out = []
    end.
  Lemma step_ok o l s : textCustom cl -> traceIsGauge kinds -> goodOp cl cfg o -> stateOK l s ->
    exists out s', ostep cl cfg kinds tracer s o = Ok (out, s') /\ stateOK (pendingStep cl kinds cfg l o) s' /\ explains l o out.
  Proof.
    intros TC TG [OR GO] S. destruct o as [g c it|it|]; cbn [pendingStep explains ostep].
    - destruct (consume_ok g c it l s TC TG GO OR S) as (out & s' & E & F & S'). exists out, s'. auto.
    - destruct (scrape_ok it l s OR S) as (out & s' & series & E & S' & X). exists out, s'. split; [exact E|]. split; [exact S'|]. exists series. exact X.
    - destruct (restart_ok l s S) as (s' & E & S'). exists [], s'. auto.
  Qed.
  Lemma run_ok : textCustom cl -> traceIsGauge kinds -> forall os l s, Forall (goodOp cl cfg) os -> stateOK l s ->
    exists outs s', orun cl cfg kinds tracer s os = Ok (outs, s') /\ stateOK (fold_left (pendingStep cl kinds cfg) os l) s' /\
      Forall2 (fun o out => match o with XConsume g _ _ => Forall2 (answers cl) (flat_map (callsFor kinds tracer) (wanted cfg g)) out
                                       | XScrape _ => Forall (fun c => exists n v a, c = SObserve n v a) out
                                       | XRestart => out = [] end) os outs.
  Proof.
    intros TC TG. induction os as [|o os IH]; intros l s G S.
    - exists [], s. split; [reflexivity|]. split; [exact S|constructor].
    - inversion G as [|? ? G1 G2]; subst. destruct (step_ok o l s TC TG G1 S) as (out & s1 & E & S1 & X).
      destruct (IH _ s1 G2 S1) as (outs & s' & E' & S' & F). cbn [orun]. rewrite E. cbn [bind fst snd]. rewrite E'. cbn [bind fst snd].
      exists (out :: outs), s'. split; [reflexivity|]. split; [exact S'|]. constructor; [|exact F]. destruct o; cbn [explains] in X; try exact X.
      destruct X as (series & _ & _ & O). clear -O. induction O as [|q c ss cs (v & a & -> & _) O IH]; constructor; [eauto|exact IH].
  Qed.

  (** ** Sums *)
  Lemma says_matches t l sel : NoDup (map fst (withCustom t cl)) -> saysLabels cl t l -> matches sel l = matches sel (withCustom t cl).
  Proof.
    intros ND S. assert (E : forall k, aget l k = aget (withCustom t cl) k).
    { apply get_opt_ext. intros k v. split; intros Q.
      - apply aget_in in Q. apply S in Q. apply in_aget; assumption.
      - apply aget_in in Q. assert (J := proj2 (S k v) Q). destruct (aget l k) as [u|] eqn:G.
        + apply aget_in in G. apply S in G. assert (A1 := in_aget _ _ _ ND G). assert (A2 := in_aget _ _ _ ND Q). congruence.
        + exfalso. apply (proj1 (aget_none_notin _ _)) in G. apply G. apply in_map_iff. exists (k, v). auto. }
    unfold matches. induction sel as [|p sel IH]; [reflexivity|]. cbn [forallb]. rewrite E, IH. reflexivity.
  Qed.
  Lemma amount_value n k ms : kindOf kinds n = Some k -> eqb k "gauge" = false -> amount n (measurements kinds ms) = valueIn n ms.
  Proof.
    intros K KG. unfold amount, valueIn, measurements. induction ms as [|[x d] ms IH]; [reflexivity|].
    cbn [flat_map map fst snd]. rewrite map_app, zsum_app, zsum_cons, IH. f_equal. case_eqb x n.
    - subst x. rewrite K. destruct d as [v|]; [|reflexivity]. rewrite KG. cbn [map fst snd]. rewrite eqb_refl. cbn. lia.
    - destruct (kindOf kinds x) as [k'|]; [|reflexivity]. destruct d as [v|]; [|reflexivity]. destruct (eqb k' "gauge"); [reflexivity|].
      cbn [map fst snd]. rewrite (proj2 (eqb_neq x n)) by exact E. reflexivity.
  Qed.
  Lemma wanted_nodup g w : goodCustom cl -> goodGroup cl cfg g -> In w (wanted cfg g) -> wn_type w = RMetric -> NoDup (map fst (withCustom (wn_labels w) cl)).
  Proof.
    intros GC (ND & _ & _ & DJ) J T. rewrite wanted_split in J. apply in_app_or in J. destruct J as [J|J].
    - apply table_nodup; [exact GC|]. unfold netWanted in J. destruct (eqb (gname g) "aggregated_net_request_metric_group").
      + destruct (aggregated_in g w J) as (_ & (t & Jt & L) & _). destruct (agg_tables _ _ Jt) as [T1 T2]. destruct L as [-> | ->]; assumption.
      + destruct (eqb (gname g) "single_net_request_metric_group"); [|destruct J]. unfold wantSingle in J.
        destruct (aget (gmetrics g) "request_total_time") as [d|]; [|destruct J]. apply in_app_or in J. destruct J as [J|J].
        * destruct (StoreTraceAsMetric cfg); [|destruct J]. destruct J as [<-|[]]. apply trace_table.
        * destruct (StoreTraceAsSpan cfg); [|destruct J]. destruct J as [<-|[]]. discriminate.
    - unfold simpleWanted in J. destruct (existsb (eqb (gname g)) simpleGroups); [|destruct J]. destruct J as [<-|[]]. cbn [wn_labels].
      unfold withCustom, textLabels, S_. rewrite map_app, !map_map. cbn [fst]. specialize (DJ eq_refl). destruct GC as [G1 _].
      unfold keys in ND, DJ. assert (D : forall k, In k (map fst (glabels g)) -> ~ In k (map (fun p : string * aval => fst p) cl)) by (intros k J1 J2; exact (DJ k J2 J1)).
      revert ND D G1. clear. change (map (fun x : string * aval => fst x) (glabels g)) with (map fst (glabels g)).
      generalize (map fst (glabels g)). intros l. induction l as [|k l IH]; intros ND D G1; [exact G1|]. inversion ND as [|? ? X1 X2]; subst. cbn [app]. constructor.
      + intros J. apply in_app_or in J. destruct J as [J|J]; [exact (X1 J)|exact (D k (or_introl eq_refl) J)].
      + apply IH; [exact X2| |exact G1]. intros x J. apply D. right. exact J.
  Qed.
  Lemma calls_sum n k sel ws : kindOf kinds n = Some k -> eqb k "gauge" = false -> (forall w, In w ws -> wn_type w = RMetric -> NoDup (map fst (withCustom (wn_labels w) cl))) ->
    forall out, Forall2 (answers cl) (flat_map (callsFor kinds tracer) ws) out ->
    zsum (map (sumCall n sel) out) = zsum (map (fun w => match wn_type w with
                      | RMetric => if matches sel (withCustom (wn_labels w) cl) then valueIn n (wn_metrics w) else 0
                      | RTrace => 0
                      end) ws).
  Proof.
    intros K KG. induction ws as [|w ws IH]; intros N out F; cbn [flat_map] in F.
    - inversion F; subst. reflexivity.
    - apply Forall2_app_inv_l in F. destruct F as (o1 & o2 & F1 & F2 & ->). rewrite map_app, zsum_app. cbn [map]. rewrite zsum_cons.
      rewrite (IH (fun x J => N x (or_intror J)) o2 F2). f_equal. unfold callsFor in F1. specialize (N w (or_introl eq_refl)). destruct (wn_type w).
      + assert (AV := amount_value n k (wn_metrics w) K KG). destruct (measurements kinds (wn_metrics w)) as [|q ms].
        * inversion F1; subst. rewrite <- AV. cbn. destruct (matches sel _); reflexivity.
        * inversion F1 as [|? c ? cs A1 A2]; subst. inversion A2; subst. cbn [answers] in A1. destruct c as [at_ ms'|at_|]; try contradiction. destruct A1 as [-> S].
          cbn [map sumCall]. rewrite zsum_cons. rewrite (says_matches _ _ sel (N eq_refl) S), AV. cbn [zsum fold_right]. destruct (matches sel _); lia.
      + destruct tracer; inversion F1 as [|? c ? cs A1 A2]; subst; [|reflexivity]. inversion A2; subst. destruct c; try contradiction. reflexivity.
  Qed.
End Export.
