(** Lemmas for C69: the run of the pipeline, reduced to the run of the aggregator and of the exporter. *)
From Coq Require Import Sorting.Permutation.
From Verif Require Import Base Decimal AttrModel PoolModel KeyModel KeyProps AggModel AggSpec AggProofs AggProofs2 AggProps AggTotal SampleModel SampleProps K8sModel EnrichModel EnrichSpec EnrichProofs EnrichProps
  EventModel TcpModel PipeModel LabelNames AdapterModel AdapterSpec OtelModel OtelSpec OtelProofs OtelProofs2 OtelProps FlowModel FlowSpec FlowProofs.
Open Scope string_scope. Open Scope list_scope. Open Scope Z_scope.

(** ** Names and selectors of the aggregated groups *)
Definition outTable : list (string * list selector) :=
  [(aggregatedNetRequestGroup, netSelectors); (tcpRttGroup, tcpSelectors); (tcpRetransmitGroup, tcpSelectors); (tcpDropGroup, tcpSelectors); (tcpConnectGroup, tcpConnectSelectors)].
Definition dumped (nm : string) (key : list lkey) : Prop := exists sels m, In (nm, sels) outTable /\ key = getLabelKeys sels m /\ int64_labels m.
Lemma out_fit nm sels : In (nm, sels) outTable -> (List.length sels <= 37)%nat /\ Forall valid_type sels /\ NoDup (map fst sels).
Proof.
  destruct selectors_fit as (A & B & C). intros J. cbn [outTable In] in J.
  repeat (destruct J as [J|J]; [injection J as _ <-; assumption|]). destruct J.
Qed.
Lemma shown_get nm sels m k : In (nm, sels) outTable -> int64_labels m ->
  aget (getLabels (getLabelKeys sels m)) k = match find (fun s => eqb k (fst s)) sels with Some s => Some (selected m s) | None => None end.
Proof. intros J R. destruct (out_fit nm sels J) as (L & V & N). apply C01_key_to_labels; assumption. Qed.
Lemma shown_nodup ks : NoDup (keys (getLabels ks)).
Proof.
  unfold getLabels. assert (X : forall acc, NoDup (keys acc) -> NoDup (keys (fold_left keyLabel ks acc))); [|apply X; constructor].
  induction ks as [|k ks IH]; intros acc N; [exact N|]. cbn [fold_left]. apply IH. unfold keyLabel.
  destruct (eqb (ktype k) BooleanType); [apply NoDup_keys_aset; exact N|]. destruct (eqb (ktype k) StringType); [apply NoDup_keys_aset; exact N|].
  destruct (eqb (ktype k) IntType); [apply NoDup_keys_aset; exact N|exact N].
Qed.
Lemma shown_int64 nm sels m : In (nm, sels) outTable -> int64_labels m -> int64_labels (getLabels (getLabelKeys sels m)).
Proof.
  intros J R k z G. rewrite (shown_get nm sels m k J R) in G. destruct (find (fun s => eqb k (fst s)) sels) as [s|]; [|discriminate]. injection G as G.
  unfold selected in G. destruct (eqb (snd s) "boolean"); [discriminate|]. destruct (eqb (snd s) "string"); [discriminate|]. injection G as <-.
  pose proof (asInt_range m (fst s) R) as X. exact X.
Qed.
Definition ownNames : list string := ["src_node_ip"; "dst_node_ip"; "src_port"; "errno"; "success"].
Lemma sel_names k : In k (map fst (tcpSelectors ++ tcpConnectSelectors)) -> In k reserved \/ In k ownNames.
Proof.
  assert (X : forallb (fun k => existsb (eqb k) reserved || existsb (eqb k) ownNames) (map fst (tcpSelectors ++ tcpConnectSelectors)) = true) by (vm_compute; reflexivity).
  rewrite forallb_forall in X. intros J. specialize (X k J). apply orb_true_iff in X.
  destruct X as [X|X]; apply existsb_exists in X; destruct X as (y & Y & E); apply eqb_true in E; subst y; auto.
Qed.
Lemma dumped_good cl cfg g key : textCustom cl -> (forall k, In k (map fst cl) -> ~ In k ownNames) -> dumped (gname g) key -> glabels g = getLabels key -> goodGroup cl cfg g.
Proof.
  intros [[_ GC] _] OW (sels & m & J & -> & R) L. unfold goodGroup. rewrite L. split; [apply shown_nodup|]. split; [exact (shown_int64 _ _ m J R)|]. split.
  - intros N. exfalso. rewrite N in J. cbn [outTable In] in J. repeat (destruct J as [J|J]; [discriminate J|]). destruct J.
  - intros S k K I. assert (X : In k (map fst sels)).
    { apply in_map_iff in I. destruct I as ([k' v] & E & I). cbn [fst] in E. subst k'. apply in_aget in I; [|apply shown_nodup].
      rewrite (shown_get _ _ m k J R) in I. destruct (find (fun s => eqb k (fst s)) sels) as [s|] eqn:F; [|discriminate].
      apply find_some in F. destruct F as [F1 F2]. apply eqb_true in F2. subst k. apply in_map. exact F1. }
    assert (Y : In k (map fst (tcpSelectors ++ tcpConnectSelectors))).
    { rewrite map_app. apply in_or_app. cbn [outTable In] in J. destruct J as [J|J].
      - injection J as N _. rewrite <- N in S. discriminate S.
      - repeat (destruct J as [J|J]; [injection J as _ <-; auto|]). destruct J. }
    destruct (sel_names k Y) as [Z|Z]; [exact (GC k K Z)|exact (OW k K Z)].
Qed.

(** ** A consumed group *)
Definition enriched (w : collector) (g : group) (v : view) : group :=
  {| gname := gname g; gmetrics := gmetrics g; glabels := seenAs w g v; gts := gts g |}.
Lemma enrich_is w g v : wellTyped (glabels g) -> enrichGroup (w_it w) (w_nodeIp w) (w_nodeName w) (w_k8s w) v g = Ok (enriched w g v).
Proof.
  intros W. unfold enrichGroup, enriched, seenAs. destruct (enrich_total (w_it w) (w_nodeIp w) (w_nodeName w) (v_k8s v) (w_k8s w) (v_clock v) (bs (gname g)) (glabels g) W) as (m & E).
  rewrite E. reflexivity.
Qed.
Lemma seen_keeps w g v : wellTyped (glabels g) -> int64_labels (glabels g) -> portsFit (v_k8s v) -> keeps (glabels g) (seenAs w g v).
Proof.
  intros W R PF. unfold seenAs. destruct (enrich_total (w_it w) (w_nodeIp w) (w_nodeName w) (v_k8s v) (w_k8s w) (v_clock v) (bs (gname g)) (glabels g) W) as (m & E).
  rewrite E. eapply keep_enrich; eassumption.
Qed.
Definition callOf (w : collector) (g : group) (v : view) : agg_op := agg_call (PConsume 0 (enriched w g v)).
Definition aggOf (w : collector) (o : flow_op) : list agg_op :=
  match o with FGroup g v _ _ _ => [callOf w g v] | FTick => [ODump] | _ => [] end.
Definition sampledOf (w : collector) (o : flow_op) : list group :=
  match o with
  | FGroup g v draw _ _ => if eqb (gname g) netRequestGroup && isSampled (w_sampling w) draw (seenAs w g v) then [rename (enriched w g v) singleNetRequestGroup] else []
  | _ => []
  end.
Lemma consume_call km cfg draw g s s' : agg_step km s (agg_call (PConsume 0 g)) = Ok ([], s') ->
  consume km cfg draw g s = Ok ((if eqb (gname g) netRequestGroup && isSampled cfg draw (glabels g) then [rename g singleNetRequestGroup] else []), s').
Proof.
  unfold consume, agg_call. destruct (eqb (gname g) netRequestGroup); cbn [andb agg_step].
  - destruct (aggregate km s _ netSelectors) as [x| |]; cbn [bind]; intros E; try discriminate. injection E as <-. reflexivity.
  - destruct (_ || _ || _); cbn [agg_step].
    + destruct (aggregate km s g tcpSelectors) as [x| |]; cbn [bind]; intros E; try discriminate. injection E as <-. reflexivity.
    + destruct (eqb (gname g) tcpConnectGroup).
      * destruct (aggregate km s g tcpConnectSelectors) as [x| |]; cbn [bind]; intros E; try discriminate. injection E as <-. reflexivity.
      * destruct (aggregate km s g netSelectors) as [x| |]; cbn [bind]; intros E; try discriminate. injection E as <-. reflexivity.
Qed.
(** name and selectors of its call *)
Definition outName (nm : string) : string := if eqb nm netRequestGroup then aggregatedNetRequestGroup else nm.
Definition outSels (nm : string) : list selector :=
  if eqb nm netRequestGroup then netSelectors
  else if eqb nm tcpRttGroup || eqb nm tcpRetransmitGroup || eqb nm tcpDropGroup then tcpSelectors
  else if eqb nm tcpConnectGroup then tcpConnectSelectors else netSelectors.
Lemma call_is w g v : callOf w g v = OAgg {| gname := outName (gname g); gmetrics := gmetrics g; glabels := seenAs w g v; gts := gts g |} (outSels (gname g)).
Proof. unfold callOf, agg_call, outName, outSels. cbn [gname enriched]. destruct (eqb (gname g) netRequestGroup); reflexivity. Qed.
Lemma shaped_in g : shaped g -> In (outName (gname g), outSels (gname g)) outTable.
Proof. intros S. unfold shaped in S. destruct S as [[-> _]|[[-> _]|[[-> _]|[[-> _]|[-> _]]]]]; cbn; tauto. Qed.

Section Run.
  Context (w : collector) (GC : goodCollector w).
  Notation xrun := (orun (w_cl w) (w_cfg w) (w_kinds w) (w_tracer w)).
  Notation good := (goodFlowOp (w_cfg w)).
  Lemma call_from os : Forall good os -> forall g sels, In (OAgg g sels) (flat_map (aggOf w) os) ->
    exists g0 v draw c it, In (FGroup g0 v draw c it) os /\ g = {| gname := outName (gname g0); gmetrics := gmetrics g0; glabels := seenAs w g0 v; gts := gts g0 |} /\
      sels = outSels (gname g0) /\ goodInput (w_cfg w) g0 /\ portsFit (v_k8s v).
  Proof.
    intros F g sels J. apply in_flat_map in J. destruct J as (o & I & J). destruct o as [g0 v draw c it| | |]; cbn [aggOf In] in J.
    - destruct J as [J|[]]. rewrite call_is in J. injection J as <- <-. exists g0, v, draw, c, it. rewrite Forall_forall in F. destruct (F _ I) as (A & B & _). auto.
    - destruct J as [J|[]]. discriminate J.
    - destruct J.
    - destruct J.
  Qed.
  Lemma calls_int os : Forall good os -> forall g sels, In (OAgg g sels) (flat_map (aggOf w) os) -> int_group g.
  Proof. intros F g sels J. destruct (call_from os F g sels J) as (g0 & v & d & c & it & _ & -> & _ & (_ & IG & _) & _). exact IG. Qed.
  Lemma calls_dumped os : Forall good os -> forall g sels, In (OAgg g sels) (flat_map (aggOf w) os) -> dumped (gname g) (getLabelKeys sels (glabels g)).
  Proof.
    intros F g sels J. destruct (call_from os F g sels J) as (g0 & v & d & c & it & _ & -> & -> & (S & _ & _ & R & W & _) & PF). cbn [gname glabels].
    exists (outSels (gname g0)), (seenAs w g0 v). split; [exact (shaped_in g0 S)|]. split; [reflexivity|]. exact (proj1 (proj2 (seen_keeps w g0 v W R PF)) R).
  Qed.
  Lemma shaped_size g : shaped g -> Z.of_nat (List.length (gmetrics g)) <= 7.
  Proof.
    intros S. rewrite <- (map_length fst). fold (mnames g). unfold shaped in S.
    destruct S as [[_ ->]|[[_ ->]|[[_ ->]|[[_ ->]|[_ ->]]]]]; cbn; try lia. destruct (boolOf (glabels g) "success"); cbn; lia.
  Qed.
  Lemma calls_volume os : Forall good os -> volume (flat_map (aggOf w) os) <= 7 * zlen os.
  Proof.
    intros F. induction F as [|o os G F IH]; [cbn; lia|]. cbn [flat_map]. unfold volume in *. rewrite map_app, zsum_app.
    replace (zlen (o :: os)) with (zlen os + 1) by (unfold zlen; cbn [List.length]; lia).
    enough (zsum (map (fun o0 => match o0 with OAgg g _ => Z.of_nat (List.length (gmetrics g)) | _ => 0 end) (aggOf w o)) <= 7) by lia.
    destruct o as [g v d c it| | |]; cbn [aggOf]; try (cbn; lia). rewrite call_is. cbn [map gmetrics]. rewrite zsum_cons. change (zsum []) with 0.
    destruct G as ((S & _) & _). pose proof (shaped_size g S). lia.
  Qed.
  Lemma agg_total os : Forall good os -> zlen os < 2 ^ 60 -> exists es s, agg_run (w_km w) [] (flat_map (aggOf w) os) = Ok (es, s).
  Proof.
    intros F L. apply C02_no_panic_on_integers; [exact (calls_int os F)|]. pose proof (calls_volume os F). lia.
  Qed.

  Lemma orun_snoc o : forall xs s outs s1 out s2, xrun s xs = Ok (outs, s1) -> exporterStep w s1 o = Ok (out, s2) -> xrun s (xs ++ [o]) = Ok (outs ++ [out], s2).
  Proof.
    induction xs as [|x xs IH]; intros s outs s1 out s2 R E; cbn [orun app] in *.
    - injection R as <- <-. unfold exporterStep in E. rewrite E. reflexivity.
    - destruct (ostep _ _ _ _ s x) as [[a b]| |]; cbn [bind fst snd] in *; try discriminate.
      destruct (xrun b xs) as [[c d]| |] eqn:R1; cbn [bind fst snd] in *; try discriminate. injection R as <- <-.
      rewrite (IH b c d out s2 R1 E). reflexivity.
  Qed.
  Lemma exporter_total xs outs s o : xrun o0 xs = Ok (outs, s) -> Forall (goodOp (w_cl w) (w_cfg w)) (xs ++ [o]) -> exists out s', exporterStep w s o = Ok (out, s').
  Proof.
    intros R G. destruct GC as (_ & TC & TG & _). apply Forall_app in G. destruct G as [G1 G2]. inversion G2 as [|? ? G3 _]; subst.
    destruct (run_ok (w_cl w) (w_cfg w) (w_kinds w) (w_tracer w) TC TG xs [] o0 G1 (start_ok _ _ _)) as (outs' & s' & E & S & _). rewrite R in E. injection E as <- <-.
    destruct (step_ok (w_cl w) (w_cfg w) (w_kinds w) (w_tracer w) o _ s TC TG G3 S) as (out & s'' & E' & _). exists out, s''. exact E'.
  Qed.

  Definition consumed (F : group -> Z) (xs : list oop) : Z := zsum (map (fun o => match o with XConsume g _ _ => F g | _ => 0 end) xs).
  Definition inv (os : list flow_op) (outs : list (list sdk)) (st : fstate) : Prop :=
    exists es xs xouts delivered,
      agg_run (w_km w) [] (flat_map (aggOf w) os) = Ok (es, f_agg st) /\
      xrun o0 xs = Ok (xouts, f_exp st) /\ Forall (goodOp (w_cl w) (w_cfg w)) xs /\ List.concat outs = List.concat xouts /\
      List.concat es = delivered ++ f_queue st /\
      forall F, consumed F xs = zsum (map F delivered) + zsum (map F (flat_map (sampledOf w) os)).
  Lemma inv_start : inv [] [] f0.
  Proof. exists [], [], [], []. repeat split; try reflexivity. constructor. Qed.

  Lemma sampled_good g v : goodInput (w_cfg w) g -> portsFit (v_k8s v) -> goodGroup (w_cl w) (w_cfg w) (rename (enriched w g v) singleNetRequestGroup).
  Proof.
    intros (S & IG & N & R & W & T & RD) PF. destruct (seen_keeps w g v W R PF) as (K1 & K2 & K3). unfold goodGroup, rename, enriched. cbn [gname gmetrics glabels gts].
    assert (II : forall l, intsOf l (gmetrics g)) by (intros l n d J _; destruct (IG n d J) as (x & ->); exact Logic.I).
    split; [exact (K1 N)|]. split; [exact (K2 R)|]. split; [|discriminate].
    intros _. split; [intros _; apply II|]. intros SP. split; [apply II|]. split; [exact T|]. unfold protocolIs, strOf in *. rewrite K3; [exact (RD SP)|]. cbn. intuition discriminate.
  Qed.
  Lemma concat_snoc {A} (a : list (list A)) b : List.concat (a ++ [b]) = List.concat a ++ b.
  Proof. rewrite concat_app. cbn [List.concat]. rewrite app_nil_r. reflexivity. Qed.
  Lemma flat_snoc {A B} (f : A -> list B) l x : flat_map f (l ++ [x]) = flat_map f l ++ f x.
  Proof. rewrite flat_map_app. cbn [flat_map]. rewrite app_nil_r. reflexivity. Qed.
  Lemma consumed_snoc F xs o : consumed F (xs ++ [o]) = consumed F xs + match o with XConsume g _ _ => F g | _ => 0 end.
  Proof. unfold consumed. rewrite map_app, zsum_app. cbn [map]. rewrite zsum_cons. change (zsum []) with 0. lia. Qed.

  Lemma step_inv os outs st o : Forall good (os ++ [o]) -> zlen (os ++ [o]) < 2 ^ 60 -> inv os outs st ->
    exists out st', fstep w st o = Ok (out, st') /\ inv (os ++ [o]) (outs ++ [out]) st'.
  Proof.
    intros G L (es & xs & xouts & dl & A & X & GX & CO & DQ & SU).
    assert (G' := G). apply Forall_app in G'. destruct G' as [G1 G2]. inversion G2 as [|? ? G3 _]; subst. clear G2.
    destruct (agg_total (os ++ [o]) G L) as (es' & s' & R). rewrite flat_snoc in R.
    destruct GC as (KM & TC & TG & OW).
    destruct o as [g v draw c it| |c it|it]; cbn [aggOf] in R.
    - (* a group *)
      destruct G3 as (GI & PF & OR). assert (W := proj1 (proj2 (proj2 (proj2 (proj2 GI))))).
      rewrite agg_run_app, A in R. cbn [bind fst snd] in R. cbn [agg_run] in R.
      destruct (agg_step (w_km w) (f_agg st) (callOf w g v)) as [[e1 s1]| |] eqn:E; cbn [bind fst snd] in R; try discriminate. injection R as <- <-.
      assert (e1 = []) as ->. { rewrite call_is in E. cbn [agg_step] in E. destruct (aggregate _ _ _ _); cbn [bind] in E; try discriminate. injection E as <- _. reflexivity. }
      cbn [fstep]. rewrite (enrich_is w g v W). cbn [bind].
      rewrite (consume_call _ (w_sampling w) draw (enriched w g v) _ _ E). cbn [bind fst snd]. change (gname (enriched w g v)) with (gname g). change (glabels (enriched w g v)) with (seenAs w g v).
      assert (A' : agg_run (w_km w) [] (flat_map (aggOf w) (os ++ [FGroup g v draw c it])) = Ok (es ++ [[]], s1)).
      { rewrite flat_snoc, agg_run_app, A. cbn [bind fst snd aggOf agg_run]. rewrite E. reflexivity. }
      assert (CE : List.concat (es ++ [[]]) = dl ++ f_queue st) by (rewrite concat_snoc, app_nil_r; exact DQ).
      destruct (eqb (gname g) netRequestGroup && isSampled (w_sampling w) draw (seenAs w g v)) eqn:SM; cbn [forward].
      + set (xo := XConsume (rename (enriched w g v) singleNetRequestGroup) c it).
        assert (GO : goodOp (w_cl w) (w_cfg w) xo) by (split; [exact OR|exact (sampled_good g v GI PF)]).
        assert (GX' : Forall (goodOp (w_cl w) (w_cfg w)) (xs ++ [xo])) by (apply Forall_app; split; [exact GX|constructor; [exact GO|constructor]]).
        destruct (exporter_total xs xouts (f_exp st) xo X GX') as (out & x' & EX). rewrite EX. cbn [bind fst snd].
        eexists. eexists. split; [reflexivity|]. exists (es ++ [[]]), (xs ++ [xo]), (xouts ++ [out]), dl. cbn [f_agg f_queue f_exp].
        split; [exact A'|]. split; [exact (orun_snoc xo xs o0 xouts _ out x' X EX)|]. split; [exact GX'|]. split; [rewrite !concat_snoc, CO; reflexivity|]. split; [exact CE|].
        intros F. rewrite consumed_snoc, flat_snoc, map_app, zsum_app, SU. cbn [sampledOf]. rewrite SM. unfold xo. cbn [map]. rewrite zsum_cons. change (zsum []) with 0. lia.
      + eexists. eexists. split; [reflexivity|]. exists (es ++ [[]]), xs, xouts, dl. cbn [f_agg f_queue f_exp].
        split; [exact A'|]. split; [exact X|]. split; [exact GX|]. split; [rewrite concat_snoc, app_nil_r; exact CO|]. split; [exact CE|].
        intros F. rewrite flat_snoc, map_app, zsum_app, SU. cbn [sampledOf]. rewrite SM. cbn [map]. change (zsum []) with 0. lia.
    - (* a tick *)
      rewrite agg_run_app, A in R. cbn [bind fst snd agg_run agg_step] in R.
      destruct (dump (f_agg st)) as [[e1 s1]| |] eqn:E; cbn [bind fst snd] in R; try discriminate. injection R as <- <-.
      cbn [fstep]. rewrite E. cbn [bind fst snd]. eexists. eexists. split; [reflexivity|]. exists (es ++ [e1]), xs, xouts, dl. cbn [f_agg f_queue f_exp].
      split; [rewrite flat_snoc, agg_run_app, A; cbn [bind fst snd aggOf agg_run agg_step]; rewrite E; reflexivity|]. split; [exact X|]. split; [exact GX|].
      split; [rewrite concat_snoc, app_nil_r; exact CO|]. split; [rewrite concat_snoc, DQ, app_assoc; reflexivity|].
      intros F. rewrite flat_snoc. cbn [sampledOf]. rewrite app_nil_r. apply SU.
    - (* a delivery *)
      rewrite app_nil_r in R. cbn [fstep]. destruct (f_queue st) as [|g q] eqn:Q.
      + eexists. eexists. split; [reflexivity|]. exists es, xs, xouts, dl. rewrite Q.
        split; [rewrite flat_snoc; cbn [aggOf]; rewrite app_nil_r; exact A|]. split; [exact X|]. split; [exact GX|]. split; [rewrite concat_snoc, app_nil_r; exact CO|]. split; [exact DQ|].
        intros F. rewrite flat_snoc. cbn [sampledOf]. rewrite app_nil_r. apply SU.
      + assert (J : In g (List.concat es)) by (rewrite DQ; apply in_or_app; right; left; reflexivity).
        destruct (from_run (w_km w) dumped _ [] es _ (calls_dumped os G1) (fun _ _ _ _ (a : In _ []) => match a with end) A g J) as (key & DM & GL).
        set (xo := XConsume g c it).
        assert (GO : goodOp (w_cl w) (w_cfg w) xo) by (split; [exact G3|exact (dumped_good _ _ g key TC OW DM GL)]).
        assert (GX' : Forall (goodOp (w_cl w) (w_cfg w)) (xs ++ [xo])) by (apply Forall_app; split; [exact GX|constructor; [exact GO|constructor]]).
        destruct (exporter_total xs xouts (f_exp st) xo X GX') as (out & x' & EX). rewrite EX. cbn [bind fst snd].
        eexists. eexists. split; [reflexivity|]. exists es, (xs ++ [xo]), (xouts ++ [out]), (dl ++ [g]). cbn [f_agg f_queue f_exp].
        split; [rewrite flat_snoc; cbn [aggOf]; rewrite app_nil_r; exact A|]. split; [exact (orun_snoc xo xs o0 xouts _ out x' X EX)|]. split; [exact GX'|].
        split; [rewrite !concat_snoc, CO; reflexivity|]. split; [rewrite <- app_assoc; exact DQ|].
        intros F. rewrite consumed_snoc, flat_snoc, !map_app, !zsum_app, SU. unfold xo. cbn [sampledOf map]. rewrite zsum_cons. change (zsum []) with 0. lia.
    - (* a collection *)
      rewrite app_nil_r in R. cbn [fstep]. set (xo := XScrape it).
      assert (GO : goodOp (w_cl w) (w_cfg w) xo) by (split; [exact G3|exact Logic.I]).
      assert (GX' : Forall (goodOp (w_cl w) (w_cfg w)) (xs ++ [xo])) by (apply Forall_app; split; [exact GX|constructor; [exact GO|constructor]]).
      destruct (exporter_total xs xouts (f_exp st) xo X GX') as (out & x' & EX). fold xo. rewrite EX. cbn [bind fst snd].
      eexists. eexists. split; [reflexivity|]. exists es, (xs ++ [xo]), (xouts ++ [out]), dl. cbn [f_agg f_queue f_exp].
      split; [rewrite flat_snoc; cbn [aggOf]; rewrite app_nil_r; exact A|]. split; [exact (orun_snoc xo xs o0 xouts _ out x' X EX)|]. split; [exact GX'|].
      split; [rewrite !concat_snoc, CO; reflexivity|]. split; [exact DQ|].
      intros F. rewrite consumed_snoc, flat_snoc, map_app, zsum_app, SU. unfold xo. cbn [sampledOf map]. change (zsum []) with 0. lia.
  Qed.
  Lemma frun_snoc o : forall os s outs s1 out s2, frun w s os = Ok (outs, s1) -> fstep w s1 o = Ok (out, s2) -> frun w s (os ++ [o]) = Ok (outs ++ [out], s2).
  Proof.
    induction os as [|x os IH]; intros s outs s1 out s2 R E; cbn [frun app] in *.
    - injection R as <- <-. rewrite E. reflexivity.
    - destruct (fstep w s x) as [[a b]| |]; cbn [bind fst snd] in *; try discriminate.
      destruct (frun w b os) as [[c d]| |] eqn:R1; cbn [bind fst snd] in *; try discriminate. injection R as <- <-.
      rewrite (IH b c d out s2 R1 E). reflexivity.
  Qed.
  Lemma run_inv os : Forall good os -> zlen os < 2 ^ 60 -> exists outs st, frun w f0 os = Ok (outs, st) /\ inv os outs st.
  Proof.
    induction os as [|o os IH] using rev_ind; intros G L; [exists [], f0; split; [reflexivity|exact inv_start]|].
    assert (G' := G). apply Forall_app in G'. destruct G' as [G1 _].
    destruct (IH G1) as (outs & st & R & I); [unfold zlen in *; rewrite app_length in L; lia|].
    destruct (step_inv os outs st o G L I) as (out & st' & E & I'). exists (outs ++ [out]), st'. split; [exact (frun_snoc o os f0 outs st out st' R E)|exact I'].
  Qed.
End Run.
