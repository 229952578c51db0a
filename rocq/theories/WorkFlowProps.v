(** C75: the inventory of workloads that a scrape shows. *)
From Coq Require Import Sorting.Permutation.
From Verif Require Import Base Decimal AttrModel PoolModel KeyModel AggModel AggSpec LabelNames EnrichModel EnrichSpec K8sModel K8sSpec K8sProofs K8sInv K8sIter K8sProps K8sWorkloadSpec K8sWorkloadProps K8sWorkloadHist AdapterModel AdapterSpec AdapterProps OtelModel OtelSpec OtelProps WorkFlowModel WorkFlowSpec.
Open Scope string_scope. Open Scope list_scope. Open Scope Z_scope.

Section Info.
  Context (cl : list (string * aval)) (cfg : config) (kinds : list (string * string)) (tracer : bool).
  Context (TC : textCustom cl) (TG : traceIsGauge kinds) (KG : kindOf kinds "kindling_k8s_workload_info" = Some "gauge").
  Notation irun := (irun cl cfg kinds tracer).
  Notation istep := (istep cl cfg kinds tracer).
  Notation inv := "kindling_k8s_workload_info".

  Fixpoint project (l : list winfo) (os : list iop) : list oop :=
    match os with
    | [] => []
    | IFire st order :: os' => project (order (workloads st)) os'
    | ISend c it :: os' => match l with w :: l' => XConsume (workGroup w) c it :: project l' os' | [] => project [] os' end
    | IOther o :: os' => o :: project l os'
    | _ :: os' => project l os'
    end.
  Lemma irun_orun os : forall s outs s', irun s os = Some (Ok (outs, s')) ->
    exists outs', orun cl cfg kinds tracer (i_otel s) (project (i_left s) os) = Ok (outs', i_otel s').
  Proof.
    induction os as [|o os IH]; intros s outs s' R; cbn [WorkFlowModel.irun] in R; [injection R as <- <-; exists []; reflexivity|].
    destruct (istep s o) as [[[out s1]| |]|] eqn:E; try discriminate R. destruct (irun s1 os) as [[[r s2]| |]|] eqn:R1; try discriminate R. injection R as <- <-.
    destruct (IH _ _ _ R1) as (outs' & X). destruct o as [st order|c it| | |o]; cbn [WorkFlowModel.istep] in E; cbn [project].
    - destruct (i_live s); [|discriminate E]. destruct (i_left s); [|discriminate E]. injection E as <- <-. eauto.
    - destruct (i_live s); [|discriminate E]. destruct (i_left s) as [|w l]; [discriminate E|].
      assert (E' : bind (consumeGroup cl cfg kinds tracer (workGroup w) c it (i_otel s)) (fun q => Ok (fst q, {| i_left := l; i_live := true; i_closed := i_closed s; i_otel := snd q |})) = Ok (out, s1)) by congruence.
      clear E. cbn [orun ostep]. destruct (consumeGroup cl cfg kinds tracer (workGroup w) c it (i_otel s)) as [[a b]| |]; cbn [bind fst snd] in E'; try discriminate E'. injection E' as <- <-.
      cbn [bind fst snd i_otel i_left] in *. rewrite X. eexists. reflexivity.
    - destruct (i_closed s); [discriminate E|]. injection E as <- <-. eauto.
    - destruct (i_live s && i_closed s); [|discriminate E]. destruct (i_left s); [|discriminate E]. injection E as <- <-. eauto.
    - assert (E' : bind (ostep cl cfg kinds tracer (i_otel s) o) (fun q => Ok (fst q, {| i_left := i_left s; i_live := i_live s; i_closed := i_closed s; i_otel := snd q |})) = Ok (out, s1)) by congruence.
      clear E. cbn [orun]. destruct (ostep cl cfg kinds tracer (i_otel s) o) as [[a b]| |]; cbn [bind fst snd] in E'; try discriminate E'. injection E' as <- <-.
      cbn [bind fst snd i_otel i_left] in *. rewrite X. eexists. reflexivity.
  Qed.
  Lemma work_good w : goodGroup cl cfg (workGroup w).
  Proof.
    split; [|split; [|split]].
    - cbn. repeat constructor; cbn; intuition discriminate.
    - intros k z J. cbn [workGroup glabels] in J. apply aget_in in J. cbn [In] in J. intuition discriminate.
    - cbn. discriminate.
    - intros _ k J. cbn. destruct TC as ((_ & N) & _). specialize (N k J). intros [<-|[<-|[<-|[]]]]; apply N; cbn; tauto.
  Qed.
  Lemma project_good os : Forall (goodInfoOp cl cfg) os -> forall l, Forall (goodOp cl cfg) (project l os).
  Proof.
    induction 1 as [|o os G F IH]; intros l; [constructor|]. destruct o as [st order|c it| | |o]; cbn [project]; auto.
    - destruct l as [|w l]; [auto|]. constructor; [split; [exact G|apply work_good]|auto].
    - constructor; [exact (proj1 G)|auto].
  Qed.
  (** Only the groups of the inventory read its gauge. *)
  Lemma name_not g : ~ In inv (map fst (gmetrics g)) -> forall m v, ~ In (inv, m, v) (gaugeReadings cl kinds cfg g).
  Proof.
    intros N m v J. unfold gaugeReadings in J. apply in_flat_map in J. destruct J as (w & W & J). destruct (wn_type w) eqn:T; [|destruct J].
    apply in_flat_map in J. destruct J as ([n d] & P & J). cbn [fst snd] in J. destruct d as [z|]; [|destruct J]. destruct (isGauge kinds n); [|destruct J]. destruct J as [J|[]].
    assert (X : n = inv) by congruence. subst n. clear J.
    assert (CT : forall name t, (forall q, name q <> inv) -> In w (counted g name t) -> False).
    { intros name t NN K. unfold counted in K. apply in_app_or in K.
      destruct K as [K|K]; (destruct (0 <? _); [|destruct K]); destruct K as [<-|[]]; cbn [wn_metrics] in P; apply in_map_iff in P; destruct P as (q & Q & _); apply (NN (fst q)); congruence. }
    assert (TN : forall q, topologyName q <> inv) by (intros q; unfold topologyName; repeat (destruct (eqb q _); [discriminate|]); discriminate).
    assert (EN : forall q, entityName q <> inv) by (intros q; unfold entityName; repeat (destruct (eqb q _); [discriminate|]); discriminate).
    unfold wanted in W. destruct (eqb (gname g) "aggregated_net_request_metric_group").
    - unfold wantAggregated in W. cbv zeta in W. apply in_app_or in W. destruct W as [W|W]; [destruct (_ && _); [exact (CT _ _ TN W)|destruct W]|].
      destruct (boolOf _ _); [exact (CT _ _ EN W)|exact (CT _ _ TN W)].
    - destruct (eqb (gname g) "single_net_request_metric_group").
      + unfold wantSingle in W. destruct (aget (gmetrics g) "request_total_time") as [d|]; [|destruct W]. apply in_app_or in W.
        destruct W as [W|W]; [destruct (StoreTraceAsMetric cfg)|destruct (StoreTraceAsSpan cfg)]; try destruct W; destruct H; cbn [wn_metrics In] in P; intuition discriminate.
      + destruct (existsb (eqb (gname g)) simpleGroups); [|destruct W]. destruct W as [<-|[]]. cbn [wn_metrics] in P. apply N. apply in_map_iff. exists (inv, MInt z). auto.
  Qed.
  Definition readingOf (w : winfo) : reading := (inv, glabels (workGroup w), 1).
  Definition isInv (r : reading) : bool := eqb (fst (fst r)) inv.
  Lemma work_readings w : gaugeReadings cl kinds cfg (workGroup w) = [readingOf w].
  Proof.
    unfold gaugeReadings. change (wanted cfg (workGroup w)) with [{| wn_type := RMetric; wn_metrics := gmetrics (workGroup w); wn_labels := textLabels (glabels (workGroup w)) |}].
    cbn [flat_map wn_type wn_metrics workGroup gmetrics fst snd]. unfold isGauge. change K8sWorkLoadMetricName with inv. rewrite KG. reflexivity.
  Qed.
  Lemma none_inv l : (forall m v, ~ In (inv, m, v) l) -> filter isInv l = [].
  Proof.
    induction l as [|[[n m] v] l IH]; intros N; [reflexivity|]. cbn [filter]. unfold isInv at 1. cbn [fst]. case_eqb n "kindling_k8s_workload_info"; [destruct (N m v); left; congruence|]. apply IH. intros m' v' J. apply (N m' v'). right. exact J.
  Qed.
  Lemma pending_inv os : Forall (goodInfoOp cl cfg) os -> forall l acc sent, filter isInv acc = map readingOf sent ->
    filter isInv (fold_left (pendingStep cl kinds cfg) (project l os) acc) = map readingOf (snd (fold_left sentStep os (l, sent))).
  Proof.
    induction 1 as [|o os G F IH]; intros l acc sent A; [exact A|]. destruct o as [st order|c it| | |o]; cbn [project fold_left sentStep]; auto.
    - destruct l as [|w l]; [auto|]. cbn [fold_left pendingStep]. apply IH. rewrite filter_app, work_readings, map_app, A. reflexivity.
    - destruct o as [g c it|it|]; cbn [pendingStep]; apply IH; try reflexivity. rewrite filter_app, A, (none_inv (gaugeReadings cl kinds cfg g)); [apply app_nil_r|]. apply name_not. exact (proj2 G).
  Qed.
  Definition workOf (q : string * list (string * bytes)) : winfo :=
    match snd q with [(_, a); (_, b); (_, c)] => {| wi_ns := a; wi_kind := b; wi_name := c |} | _ => {| wi_ns := []; wi_kind := []; wi_name := [] |} end.
  Lemma shown_work w : shownOf inv (glabels (workGroup w)) = [("namespace", wi_ns w); ("workload_kind", wi_kind w); ("workload_name", wi_name w)].
  Proof. reflexivity. Qed.
  (** A scrape shows exactly the workloads handed over since the last scrape or restart of the meter, each once, with the value 1 and no other
      label than namespace, kind, name and the custom labels; whatever else the exporter does. *)
  Theorem C75_scrape os outs s it : Forall (goodInfoOp cl cfg) os -> (forall m, Permutation (it m) m) -> irun i0 os = Some (Ok (outs, s)) ->
    exists out s' ws, istep s (IOther (XScrape it)) = Some (Ok (out, s')) /\ NoDup ws /\ (forall w, In w ws <-> In w (sentSince os)) /\ Forall2 (listsWorkload cl) ws (filter ofInventory out).
  Proof.
    intros G I R. destruct (irun_orun os i0 outs s R) as (outs' & X). change (i_otel i0) with o0 in X. change (i_left i0) with (@nil winfo) in X.
    destruct (C68_collection cl cfg kinds tracer (project [] os) it TC TG) as (o1 & s1 & out & s' & series & R1 & ST & ND & MEM & OB).
    { apply Forall_app. split; [apply project_good; exact G|]. constructor; [split; [exact I|exact Logic.I]|constructor]. }
    assert (S1 : s1 = i_otel s) by congruence. subst s1. cbv zeta in *.
    pose proof (pending_inv os G [] [] [] eq_refl) as P. fold (pending cl kinds cfg (project [] os)) in P. fold (sentSince os) in P.
    assert (MW : forall L, In (inv, L) series <-> exists w, In w (sentSince os) /\ L = shownOf inv (glabels (workGroup w))).
    { intros L. rewrite MEM. split.
      - intros (m & v & J & <-). assert (J' : In (inv, m, v) (filter isInv (pending cl kinds cfg (project [] os)))) by (apply filter_In; split; [exact J|reflexivity]).
        rewrite P in J'. apply in_map_iff in J'. destruct J' as (w & E & J'). unfold readingOf in E. exists w. split; [exact J'|]. f_equal. congruence.
      - intros (w & J & ->). exists (glabels (workGroup w)), 1. split; [|reflexivity]. assert (J' : In (readingOf w) (map readingOf (sentSince os))) by (apply in_map; exact J).
        rewrite <- P in J'. apply filter_In in J'. exact (proj1 J'). }
    set (sel := fun q : string * list (string * bytes) => eqb (fst q) inv).
    exists out. eexists. exists (map workOf (filter sel series)). split; [cbn [WorkFlowModel.istep]; rewrite ST; reflexivity|].
    assert (SEL : forall q, In q (filter sel series) -> exists w, In w (sentSince os) /\ q = (inv, shownOf inv (glabels (workGroup w)))).
    { intros [n L] J. apply filter_In in J. destruct J as (J & E). unfold sel in E. cbn [fst] in E. apply eqb_true in E. subst n. apply MW in J. destruct J as (w & J & ->). eauto. }
    split; [|split].
    - pose proof (NoDup_filter sel ND) as ND'. revert SEL ND'. generalize (filter sel series). induction l as [|q l IH]; intros SEL ND'; [constructor|]. inversion ND' as [|? ? N1 N2]; subst. cbn [map]. constructor; [|apply IH; [intros q' J; apply SEL; right; exact J|exact N2]].
      intros J. apply in_map_iff in J. destruct J as (q' & E & J). apply N1. destruct (SEL q (or_introl eq_refl)) as (w & _ & EQ), (SEL q' (or_intror J)) as (w' & _ & EQ'). subst q q'.
      assert (w' = w); [|subst; exact J]. rewrite !shown_work in E. cbn [workOf snd] in E. destruct w, w'. cbn in E. congruence.
    - intros w. rewrite in_map_iff. split.
      + intros (q & <- & J). destruct (SEL q J) as (w & W & ->). rewrite shown_work. cbn [workOf snd]. destruct w. exact W.
      + intros W. exists (inv, shownOf inv (glabels (workGroup w))). split; [rewrite shown_work; destruct w; reflexivity|]. apply filter_In. split; [apply MW; eauto|reflexivity].
    - clear - OB SEL KG P. assert (X : forall (ser : list (string * list (string * bytes))) o, Forall2 (observes cl (pending cl kinds cfg (project [] os))) ser o -> (forall q, In q (filter sel ser) -> exists w, In w (sentSince os) /\ q = (inv, shownOf inv (glabels (workGroup w)))) ->
        Forall2 (listsWorkload cl) (map workOf (filter sel ser)) (filter ofInventory o)); [|apply X; assumption]. clear SEL OB.
      intros ser o F. induction F as [|[n L] c ser o (v & at_ & -> & LR & SL) F IH]; intros SEL; [constructor|]. cbn [fst snd] in *. unfold sel in *. cbn [filter fst snd ofInventory] in *. case_eqb n "kindling_k8s_workload_info".
      + subst n. cbn [map] in *. constructor; [|apply IH; intros q J; apply SEL; right; exact J]. destruct (SEL _ (or_introl eq_refl)) as (w & W & EQ). assert (L = shownOf inv (glabels (workGroup w))) by congruence. subst L.
        destruct LR as (a & m & b & E & _). assert (J : In (inv, m, v) (filter isInv (pending cl kinds cfg (project [] os)))).
        { apply filter_In. split; [rewrite E; apply in_or_app; right; left; reflexivity|reflexivity]. }
        rewrite P in J. apply in_map_iff in J. destruct J as (w' & J & _). unfold readingOf in J. assert (v = 1) by congruence. subst v.
        exists at_. split; [reflexivity|]. rewrite shown_work. cbn [workOf snd wi_ns wi_kind wi_name]. rewrite shown_work in SL. exact SL.
      + apply IH. exact SEL.
  Qed.
  (** What was handed over was in the inventory when the ticker fired. *)
  Lemma sent_from os : forall l0 s0 w, In w (snd (fold_left sentStep os (l0, s0))) -> In w l0 \/ In w s0 \/ exists a st order b, os = a ++ IFire st order :: b /\ In w (order (workloads st)).
  Proof.
    induction os as [|o os IH]; intros l0 s0 w J; [right; left; exact J|]. cbn [fold_left] in J. destruct (sentStep (l0, s0) o) as [l1 s1] eqn:E. destruct (IH _ _ _ J) as [K|[K|(a & st & order & b & -> & K)]].
    - destruct o as [st order|c it| | |o]; cbn [sentStep] in E; try (injection E as <- <-; auto); [right; right; exists [], st, order, os; auto|destruct l0; injection E as <- <-; [destruct K|left; right; exact K]|destruct o; injection E as <- <-; auto].
    - destruct o as [st order|c it| | |o]; cbn [sentStep] in E; try (injection E as <- <-; auto); [destruct l0 as [|x l0]; injection E as <- <-; [auto|]; apply in_app_or in K; destruct K as [K|[<-|[]]]; [auto|left; left; reflexivity]|
        destruct o; injection E as <- <-; auto; destruct K].
    - right. right. exists (o :: a), st, order, b. auto.
  Qed.
  Theorem C75_sound builtIn lower myNode it grace os w : Forall (goodInfoOp cl cfg) os -> 0 < grace ->
    (forall st order, In (IFire st order) os -> exists wd, reach builtIn lower myNode it grace (steady builtIn lower myNode it grace) wd st) -> In w (sentSince os) ->
    exists a st order b wd, os = a ++ IFire st order :: b /\ reach builtIn lower myNode it grace (steady builtIn lower myNode it grace) wd st /\
      ((exists key v, aget (w_live wd) key = Some v /\ pd_node v = myNode /\ w = entryOf builtIn lower st v) \/
       (exists d ts, In (d, ts) (k_queue st) /\ di_ns d = wi_ns w /\ di_name d <> [] /\ forall v, aget (w_live wd) (di_ns d, di_name d) <> Some v)).
  Proof.
    intros G GP H J. destruct (sent_from os [] [] w J) as [[]|[[]|(a & st & order & b & -> & K)]]. destruct (H st order) as (wd & R); [apply in_or_app; right; left; reflexivity|].
    exists a, st, order, b, wd. split; [reflexivity|]. split; [exact R|]. rewrite Forall_forall in G. specialize (G (IFire st order)). cbn [goodInfoOp] in G.
    apply (C40_sound builtIn lower myNode it grace wd st w GP R). refine (Permutation_in _ (G _ _) K). apply in_or_app. right. left. reflexivity.
  Qed.
  (** A round that ended after the last scrape is complete in the next: every workload of the inventory at its tick. *)
  Lemma left_run os : forall s outs s' sent, irun s os = Some (Ok (outs, s')) -> fst (fold_left sentStep os (i_left s, sent)) = i_left s'.
  Proof.
    induction os as [|o os IH]; intros s outs s' sent R; cbn [WorkFlowModel.irun] in R; [injection R as <- <-; reflexivity|].
    destruct (istep s o) as [[[out s1]| |]|] eqn:E; try discriminate R. destruct (irun s1 os) as [[[r s2]| |]|] eqn:R1; try discriminate R. injection R as <- <-. cbn [fold_left].
    assert (X : exists sent1, sentStep (i_left s, sent) o = (i_left s1, sent1)); [|destruct X as (sent1 & ->); eapply IH; exact R1].
    destruct o as [st order|c it| | |o]; cbn [WorkFlowModel.istep] in E; cbn [sentStep].
    - destruct (i_live s); [|discriminate E]. destruct (i_left s); [|discriminate E]. injection E as <- <-. eauto.
    - destruct (i_live s); [|discriminate E]. destruct (i_left s) as [|w l]; [discriminate E|]. destruct (consumeGroup _ _ _ _ _ _ _ _) as [[a b]| |]; cbn [bind] in E; try discriminate E. injection E as <- <-. eauto.
    - destruct (i_closed s); [discriminate E|]. injection E as <- <-. eauto.
    - destruct (i_live s && i_closed s); [|discriminate E]. destruct (i_left s); [|discriminate E]. injection E as <- <-. eauto.
    - destruct (ostep _ _ _ _ _ _) as [[a b]| |]; cbn [bind] in E; try discriminate E. injection E as <- <-. destruct o; eauto.
  Qed.
  Lemma kept os : forall s outs s' sent w, irun s os = Some (Ok (outs, s')) -> existsb collects os = false -> In w (i_left s) \/ In w sent ->
    In w (i_left s') \/ In w (snd (fold_left sentStep os (i_left s, sent))).
  Proof.
    induction os as [|o os IH]; intros s outs s' sent w R NC J; cbn [WorkFlowModel.irun] in R; [injection R as <- <-; exact J|].
    destruct (istep s o) as [[[out s1]| |]|] eqn:E; try discriminate R. destruct (irun s1 os) as [[[r s2]| |]|] eqn:R1; try discriminate R. injection R as <- <-. cbn [fold_left existsb] in *.
    apply orb_false_iff in NC. destruct NC as [NC1 NC2].
    assert (X : exists sent1, sentStep (i_left s, sent) o = (i_left s1, sent1) /\ (In w (i_left s1) \/ In w sent1)); [|destruct X as (sent1 & -> & K); eapply IH; eassumption].
    destruct o as [st order|c it| | |o]; cbn [WorkFlowModel.istep] in E; cbn [sentStep].
    - destruct (i_live s); [|discriminate E]. destruct (i_left s); [|discriminate E]. injection E as <- <-. destruct J as [[]|J]. eauto.
    - destruct (i_live s); [|discriminate E]. destruct (i_left s) as [|x l]; [discriminate E|]. destruct (consumeGroup _ _ _ _ _ _ _ _) as [[a b]| |]; cbn [bind] in E; try discriminate E. injection E as <- <-.
      eexists. split; [reflexivity|]. cbn [i_left]. rewrite in_app_iff. cbn [In]. destruct J as [[<-|J]|J]; auto.
    - destruct (i_closed s); [discriminate E|]. injection E as <- <-. eauto.
    - destruct (i_live s && i_closed s); [|discriminate E]. destruct (i_left s); [|discriminate E]. injection E as <- <-. eauto.
    - destruct (ostep _ _ _ _ _ _) as [[a b]| |]; cbn [bind] in E; try discriminate E. injection E as <- <-. destruct o; [eauto|discriminate NC1|discriminate NC1].
  Qed.
  Lemma irun_app a : forall s b outs s', irun s (a ++ b) = Some (Ok (outs, s')) -> exists o1 s1 o2, irun s a = Some (Ok (o1, s1)) /\ irun s1 b = Some (Ok (o2, s')).
  Proof.
    induction a as [|o a IH]; intros s b outs s' R; cbn [app WorkFlowModel.irun] in R; [exists [], s, outs; auto|].
    destruct (istep s o) as [[[out s1]| |]|] eqn:E; try discriminate R. destruct (irun s1 (a ++ b)) as [[[r s2]| |]|] eqn:R1; try discriminate R. injection R as <- <-.
    destruct (IH _ _ _ _ R1) as (o1 & s3 & o2 & A & B). exists (out :: o1), s3, o2. split; [|exact B]. cbn [WorkFlowModel.irun]. rewrite E, A. reflexivity.
  Qed.
  Theorem C75_complete a st order b outs s w : (forall l, Permutation (order l) l) -> irun i0 (a ++ IFire st order :: b) = Some (Ok (outs, s)) -> i_left s = [] -> existsb collects b = false ->
    In w (workloads st) -> In w (sentSince (a ++ IFire st order :: b)).
  Proof.
    intros G R L NC J. destruct (irun_app _ _ _ _ _ R) as (o1 & s1 & o2 & R1 & R2). unfold sentSince. rewrite fold_left_app. cbn [fold_left].
    pose proof (left_run a i0 o1 s1 [] R1) as LA. change (i_left i0) with (@nil winfo) in LA. destruct (fold_left sentStep a ([], [])) as [l1 sent1]. cbn [fst] in LA. subst l1. cbn [sentStep].
    cbn [WorkFlowModel.irun WorkFlowModel.istep] in R2. destruct (i_live s1); [|discriminate R2]. destruct (i_left s1); [|discriminate R2].
    match type of R2 with context [irun ?x b] => destruct (irun x b) as [[[r s2]| |]|] eqn:R3; try discriminate R2 end. injection R2 as <- <-.
    destruct (kept b _ _ _ sent1 w R3 NC) as [K|K]; [left; cbn [i_left]; apply (Permutation_in _ (Permutation_sym (G _))); exact J|rewrite L in K; destruct K|exact K].
  Qed.
End Info.
Print Assumptions C75_scrape.
Print Assumptions C75_sound.
Print Assumptions C75_complete.

(** ** Example and refutation *)
Definition idw (l : list winfo) : list winfo := l.
(** Two pods of this node are added; at the next tick both workloads are handed over, with other groups in between, and the scrape shows both. *)
Example C75_example : exists w st, W1 Steady w st /\ List.length (workloads st) = 2%nat /\
  let os := [IFire st idw; ISend [] idl; IOther (XConsume (retr 3) [] idl); ISend [] idl] in
  Forall (goodInfoOp exCl exCfg) os /\ kindOf shipped "kindling_k8s_workload_info" = Some "gauge" /\
  exists outs s out s', irun exCl exCfg shipped false i0 os = Some (Ok (outs, s)) /\ i_left s = [] /\ sentSince os = workloads st /\
    istep exCl exCfg shipped false s (IOther (XScrape idl)) = Some (Ok (out, s')) /\ List.length (filter ofInventory out) = 2%nat.
Proof.
  assert (R : W1 Steady K8sSpec.w0 k0) by apply R_start. wAdd R 5 webA okSteady. wAdd R 6 db0 okSteady.
  eexists _, _. split; [exact R|]. clear R. split; [vm_compute; reflexivity|]. cbv zeta. split; [|split; [reflexivity|]].
  - apply Forall_cons; [intros l; apply Permutation_refl|]. apply Forall_cons; [intros l; apply Permutation_refl|]. apply Forall_cons; [|apply Forall_cons; [intros l; apply Permutation_refl|apply Forall_nil]].
    split; [|vm_compute; intuition discriminate]. pose proof exHistory_good as H. rewrite Forall_forall in H. pose proof (H (XConsume (retr 3) [1]%nat idl)) as X. destruct X as [X1 X2]; [cbn; tauto|]. split; [intros l; apply Permutation_refl|exact X2].
  - eexists _, _, _, _. split; [vm_compute; reflexivity|]. split; [vm_compute; reflexivity|]. split; [vm_compute; reflexivity|]. split; [vm_compute; reflexivity|]. vm_compute. reflexivity.
Qed.
(** "Every scrape shows the inventory" is false: of two scrapes between two ticks the second shows none of it, though the pods are still there. *)
Theorem C75_every_scrape_refuted : exists w st out1 out2 outs s, W1 Steady w st /\ workloads st <> [] /\
  irun exCl exCfg shipped false i0 [IFire st idw; ISend [] idl; ISend [] idl; IOther (XScrape idl); IOther (XScrape idl)] = Some (Ok (outs ++ [out1; out2], s)) /\
  List.length (filter ofInventory out1) = 2%nat /\ filter ofInventory out2 = [].
Proof.
  assert (R : W1 Steady K8sSpec.w0 k0) by apply R_start. wAdd R 5 webA okSteady. wAdd R 6 db0 okSteady.
  eexists _, _, _, _, [[]; []; []], _. split; [exact R|]. clear R. split; [vm_compute; discriminate|]. split; [vm_compute; reflexivity|]. split; vm_compute; reflexivity.
Qed.
Print Assumptions C75_every_scrape_refuted.
