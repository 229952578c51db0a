(** C69: the counters of the collector, from the groups of the analyzers to the SDK. *)
From Coq Require Import Sorting.Permutation.
From Verif Require K8sProps.
From Verif Require Import Base Decimal AttrModel PoolModel KeyModel KeyProps AggModel AggSpec AggProofs AggProofs2 AggProps AggTotal SampleModel SampleProps K8sModel EnrichModel EnrichSpec EnrichProofs EnrichProps
  EventModel TcpModel PipeModel LabelNames AdapterModel AdapterSpec AdapterWorld AdapterProps OtelModel OtelSpec OtelProofs OtelProofs2 OtelProps FlowModel FlowSpec FlowProofs FlowProofs2 FlowProofs3.
Open Scope string_scope. Open Scope list_scope. Open Scope Z_scope.

(** ** What a call contributes *)
Lemma counter_outs out : In out (quantities ++ counterNames) -> counter_output shippedKm out.
Proof.
  intros O m cs c G I E. subst out. unfold shippedKm, shippedKindMap, toAggregatedConfig in G. cbn in G.
  repeat (destruct (m =? _)%string in G; [injection G as <-; cbn [In] in I;
    repeat (destruct I as [<-|I]; [first [left; reflexivity | right; reflexivity | exfalso; cbn in O; repeat (destruct O as [O|O]; [discriminate O|]); destruct O]|]); destruct I|]). discriminate.
Qed.
Lemma no_request_output n g : In n (map entityName quantities ++ map topologyName quantities) -> contribution shippedKm n g = 0.
Proof.
  intros J. unfold contribution. apply zsum_zero. intros [m d] _. cbn [fst snd].
  unfold shippedKm, shippedKindMap, toAggregatedConfig. cbn [map app defaultKindMap raw fst snd r_out r_kind r_bounds].
  assert (X : forall cs, (forall c, In c cs -> c_out c <> n) -> zsum (map (fun c => if eqb (c_out c) n then match c_kind c, d with
     | SumKind, MInt x => x | SumKind, MHist s _ _ _ => s | CountKind, MInt _ => 1 | CountKind, MHist _ k _ _ => k | _, _ => 0 end else 0) cs) = 0).
  { intros cs H. apply zsum_zero. intros c I. replace (eqb (c_out c) n) with false; [reflexivity|]. symmetry. apply eqb_neq. exact (H c I). }
  match goal with |- context [aget ?l m] => destruct (aget l m) as [cs|] eqn:G end; [|reflexivity].
  apply X. intros c I Y. cbn in G.
  repeat (destruct (m =? _)%string in G; [injection G as <-; cbn [In] in I; cbn in J;
    repeat (destruct I as [<-|I]; [cbn in Y; subst n; repeat (destruct J as [J|J]; [discriminate J|]); destruct J|]); destruct I|]). discriminate.
Qed.
Ltac metrics g MN IG :=
  let IG' := fresh in assert (IG' : Forall (fun p => exists x, snd p = MInt x) (gmetrics g)) by (apply Forall_forall; intros [? ?] ?; eapply IG; eassumption);
  unfold mnames, groupMetricNames in MN; destruct g as [? ms ? ?]; cbn [gmetrics] in *;
  repeat (destruct ms as [|[? ?] ms]; cbn [map fst] in MN; try discriminate MN; [..]); try discriminate MN; inversion MN; subst;
  repeat match goal with H : Forall _ (_ :: _) |- _ => inversion H; clear H; subst end;
  repeat match goal with H : exists x, snd _ = MInt x |- _ => destruct H as (? & H); cbn [snd] in H; subst end.
Lemma request_contribution q g nm L : In q quantities -> mnames g = groupMetricNames -> int_group g ->
  contribution shippedKm q {| gname := nm; gmetrics := gmetrics g; glabels := L; gts := gts g |} = quantityOf q g.
Proof.
  intros Q MN IG. unfold contribution. cbn [gmetrics].
  assert (IG' : Forall (fun p => exists x, snd p = MInt x) (gmetrics g)) by (apply Forall_forall; intros [m d] I; exact (IG m d I)).
  unfold quantityOf, valueIn. unfold mnames, groupMetricNames in MN. clear IG.
  destruct (gmetrics g) as [|[n1 d1] [|[n2 d2] [|[n3 d3] [|[n4 d4] [|[n5 d5] [|[n6 d6] [|[n7 d7] [|]]]]]]]]; cbn [map fst] in MN; try discriminate.
  inversion MN; subst. repeat match goal with H : Forall _ (_ :: _) |- _ => inversion H; clear H; subst end.
  repeat match goal with H : exists x, snd _ = MInt x |- _ => destruct H as (? & H); cbn [snd] in H; subst end.
  cbn [quantities In] in Q. destruct Q as [<-|[<-|[<-|[<-|[]]]]]; cbn -[Z.add]; lia.
Qed.
Lemma tcp_contribution n g nm L : In n tcpCounters -> shaped g -> gname g <> netRequestGroup -> int_group g ->
  contribution shippedKm n {| gname := nm; gmetrics := gmetrics g; glabels := L; gts := gts g |} = valueIn n (gmetrics g).
Proof.
  intros Q S NR IG. unfold contribution. cbn [gmetrics].
  assert (IG' : Forall (fun p => exists x, snd p = MInt x) (gmetrics g)) by (apply Forall_forall; intros [m d] I; exact (IG m d I)).
  unfold valueIn. unfold shaped, mnames in S. clear IG.
  destruct S as [[N _]|S]; [contradiction|].
  assert (T : exists l, map fst (gmetrics g) = l /\ In l [["kindling_tcp_srtt_microseconds"]; ["kindling_tcp_retransmit_total"]; ["kindling_tcp_packet_loss_total"];
     ["kindling_tcp_connect_total"; "kindling_tcp_connect_duration_nanoseconds_total"]; ["kindling_tcp_connect_total"]]).
  { eexists. split; [reflexivity|]. destruct S as [[_ ->]|[[_ ->]|[[_ ->]|[_ ->]]]]; try (cbn; tauto). destruct (boolOf (glabels g) "success"); cbn; tauto. }
  destruct T as (l & MN & T). clear S NR.
  cbn [In] in T. destruct T as [<-|[<-|[<-|[<-|[<-|[]]]]]];
    (destruct (gmetrics g) as [|[n1 d1] [|[n2 d2] [|]]]; cbn [map fst] in MN; try discriminate MN; inversion MN; subst;
     repeat match goal with H : Forall _ (_ :: _) |- _ => inversion H; clear H; subst end;
     repeat match goal with H : exists x, snd _ = MInt x |- _ => destruct H as (? & H); cbn [snd] in H; subst end;
     cbn [tcpCounters In] in Q; destruct Q as [<-|[<-|[<-|[<-|[]]]]]; cbn -[Z.add]; lia).
Qed.

(** ** What a group is due *)
Section Due.
  Context (w : collector) (g : group) (v : view) (GI : goodInput (w_cfg w) g) (PF : portsFit (v_k8s v)).
  Notation m := (seenAs w g v).
  Notation L := (getLabels (getLabelKeys (outSels (gname g)) m)).
  Notation cg := {| gname := outName (gname g); gmetrics := gmetrics g; glabels := m; gts := gts g |}.
  Lemma m_int64 : int64_labels m.
  Proof. destruct GI as (_ & _ & _ & R & W & _). exact (proj1 (proj2 (seen_keeps w g v W R PF)) R). Qed.
  Definition dueIn (n : string) (sel : list (string * aval)) (ds : list due) : Z :=
    zsum (map (fun d : due => let '(n', t, a) := d in if eqb n' n && matches sel (withCustom t (w_cl w)) then a else 0) ds).
  Lemma is_request_or : (gname g = netRequestGroup /\ mnames g = groupMetricNames) \/ (gname g <> netRequestGroup /\ outName (gname g) = gname g /\ eqb (gname g) aggregatedNetRequestGroup = false /\
     outSels (gname g) = if eqb (gname g) "tcp_connect_metric_group" then tcpConnectSelectors else tcpSelectors).
  Proof.
    destruct GI as (S & _). unfold shaped in S. destruct S as [S|S]; [left; exact S|right].
    destruct S as [[-> _]|[[-> _]|[[-> _]|[-> _]]]]; (split; [discriminate|repeat split]).
  Qed.
  Lemma entity_due q sel : In q quantities ->
    dueIn (entityName q) sel (dues w g v) = if entityP (w_cl w) sel (w_cfg w) q (outName (gname g)) L then contribution shippedKm q cg else 0.
  Proof.
    intros Q. destruct is_request_or as [[N MN]|(N & ON & NA & OS)].
    - rewrite (request_contribution q g _ _ Q MN (proj1 (proj2 GI))). unfold dues, entityP. rewrite N. change (eqb netRequestGroup "net_request_metric_group") with true. cbv iota zeta.
      change (outSels netRequestGroup) with netSelectors. change (eqb (outName netRequestGroup) aggregatedNetRequestGroup) with true. cbn [andb].
      rewrite (same_role m m_int64), (same_labelled m m_int64), (proj1 (same_server m m_int64)), (proj2 (same_server m m_int64)).
      generalize (forget m). intros f. unfold dueIn, requestDues.
      set (t := if StorePodDetail (w_cfg w) then fineServerT f else coarseServerT f). set (te := if StorePodDetail (w_cfg w) then fineEdgeT f else coarseEdgeT f).
      cbn [quantities In] in Q. unfold quantities. cbn [flat_map].
      destruct (boolOf f "is_server"); [destruct (StoreExternalSrcIP (w_cfg w) && fromOutside f)|]; cbn [app map andb];
        rewrite ?zsum_cons; change (zsum []) with 0;
        destruct Q as [<-|[<-|[<-|[<-|[]]]]];
        repeat match goal with |- context [eqb ?a ?b] => match a with entityName _ => idtac | topologyName _ => idtac end;
                 let r := eval vm_compute in (eqb a b) in change (eqb a b) with r end; cbn [andb]; lia.
    - rewrite ON. unfold entityP. rewrite NA. cbn [andb]. unfold dues.
      replace (eqb (gname g) "net_request_metric_group") with false by (symmetry; apply eqb_neq; exact N). cbv zeta.
      unfold dueIn, tcpDues. cbn [quantities In] in Q.
      destruct (eqb (gname g) "tcp_connect_metric_group"); rewrite map_map; apply zsum_zero; intros n J; cbn [tcpCounters In] in J;
        (destruct Q as [<-|[<-|[<-|[<-|[]]]]]; destruct J as [<-|[<-|[<-|[<-|[]]]]]; reflexivity).
  Qed.
  Lemma edge_due q sel : In q quantities ->
    dueIn (topologyName q) sel (dues w g v) = if edgeP (w_cl w) sel (w_cfg w) q (outName (gname g)) L then contribution shippedKm q cg else 0.
  Proof.
    intros Q. destruct is_request_or as [[N MN]|(N & ON & NA & OS)].
    - rewrite (request_contribution q g _ _ Q MN (proj1 (proj2 GI))). unfold dues, edgeP. rewrite N. change (eqb netRequestGroup "net_request_metric_group") with true. cbv iota zeta.
      change (outSels netRequestGroup) with netSelectors. change (eqb (outName netRequestGroup) aggregatedNetRequestGroup) with true. cbn [andb].
      rewrite (same_role m m_int64), (same_outside m m_int64), !(same_labelled m m_int64), (proj1 (same_edge m m_int64)), (proj2 (same_edge m m_int64)).
      generalize (forget m). intros f. unfold dueIn, requestDues.
      set (t := if StorePodDetail (w_cfg w) then fineServerT f else coarseServerT f). set (te := if StorePodDetail (w_cfg w) then fineEdgeT f else coarseEdgeT f).
      cbn [quantities In] in Q. unfold quantities. cbn [flat_map].
      destruct (boolOf f "is_server"); [destruct (StoreExternalSrcIP (w_cfg w) && fromOutside f)|]; cbn [app map andb];
        rewrite ?zsum_cons; change (zsum []) with 0;
        destruct Q as [<-|[<-|[<-|[<-|[]]]]];
        repeat match goal with |- context [eqb ?a ?b] => match a with entityName _ => idtac | topologyName _ => idtac end;
                 let r := eval vm_compute in (eqb a b) in change (eqb a b) with r end; cbn [andb]; lia.
    - rewrite ON. unfold edgeP. rewrite NA. cbn [andb]. unfold dues.
      replace (eqb (gname g) "net_request_metric_group") with false by (symmetry; apply eqb_neq; exact N). cbv zeta.
      unfold dueIn, tcpDues. cbn [quantities In] in Q.
      destruct (eqb (gname g) "tcp_connect_metric_group"); rewrite map_map; apply zsum_zero; intros n J; cbn [tcpCounters In] in J;
        (destruct Q as [<-|[<-|[<-|[<-|[]]]]]; destruct J as [<-|[<-|[<-|[<-|[]]]]]; reflexivity).
  Qed.
  Lemma aget_text sels (k : string) : aget (textOf sels m) k = match find (fun s => eqb k (fst s)) sels with Some s => Some (Some (SV (toString (selected m s)))) | None => None end.
  Proof.
    unfold textOf, S_. induction sels as [|s sels IH]; [reflexivity|]. cbn [map find aget fst]. destruct (eqb k (fst s)); [reflexivity|exact IH].
  Qed.
  Lemma aget_textLabels (l : labels) (k : string) : aget (textLabels l) k = match aget l k with Some x => Some (Some (SV (toString x))) | None => None end.
  Proof. unfold textLabels, S_. induction l as [|[a b] l IH]; [reflexivity|]. cbn [map aget fst snd]. destruct (eqb k a); [reflexivity|exact IH]. Qed.
  Lemma matches_ext sel l1 l2 : (forall k, aget l1 k = aget l2 k) -> matches sel l1 = matches sel l2.
  Proof. intros E. unfold matches. induction sel as [|p sel IH]; [reflexivity|]. cbn [forallb]. rewrite E, IH. reflexivity. Qed.
  Lemma aget_app' {V} (a b : list (string * V)) k : aget (a ++ b) k = match aget a k with Some x => Some x | None => aget b k end.
  Proof. induction a as [|[x y] a IH]; [reflexivity|]. cbn [app aget]. destruct (eqb k x); [reflexivity|exact IH]. Qed.
  Lemma tcp_due n sel : In n tcpCounters ->
    dueIn n sel (dues w g v) = if tcpP (w_cl w) sel (outName (gname g)) L then contribution shippedKm n cg else 0.
  Proof.
    intros Q. destruct is_request_or as [[N MN]|(N & ON & NA & OS)].
    - unfold tcpP. rewrite N. change (eqb (outName netRequestGroup) aggregatedNetRequestGroup) with true. cbn [negb andb]. unfold dues. rewrite N.
      change (eqb netRequestGroup "net_request_metric_group") with true. cbv iota zeta. generalize (forget m). intros f. unfold dueIn, requestDues, quantities. cbn [flat_map].
      set (t := if StorePodDetail (w_cfg w) then fineServerT f else coarseServerT f). set (te := if StorePodDetail (w_cfg w) then fineEdgeT f else coarseEdgeT f).
      cbn [tcpCounters In] in Q.
      destruct (boolOf f "is_server"); [destruct (StoreExternalSrcIP (w_cfg w) && fromOutside f)|]; cbn [app map andb];
        rewrite ?zsum_cons; change (zsum []) with 0;
        destruct Q as [<-|[<-|[<-|[<-|[]]]]]; reflexivity.
    - rewrite (tcp_contribution n g _ _ Q (proj1 GI) N (proj1 (proj2 GI))). rewrite ON. unfold tcpP. rewrite NA. cbn [negb andb].
      assert (JT := shaped_in g (proj1 GI)).
      assert (MS : matches sel (withCustom (textLabels L) (w_cl w)) = matches sel (withCustom (textOf (outSels (gname g)) m) (w_cl w))).
      { apply matches_ext. intros k. unfold withCustom. rewrite !aget_app', aget_textLabels, aget_text, (shown_get _ _ m k JT m_int64).
        destruct (find (fun s : string * string => eqb k (fst s)) (outSels (gname g))); reflexivity. }
      rewrite MS. unfold dues. replace (eqb (gname g) "net_request_metric_group") with false by (symmetry; apply eqb_neq; exact N). cbv zeta.
      replace (if eqb (gname g) "tcp_connect_metric_group" then tcpDues tcpConnectSelectors g m else tcpDues tcpSelectors g m) with (tcpDues (outSels (gname g)) g m)
        by (rewrite OS; destruct (eqb (gname g) "tcp_connect_metric_group"); reflexivity).
      unfold dueIn, tcpDues. set (t := textOf (outSels (gname g)) m). set (b := matches sel (withCustom t (w_cl w))). unfold tcpCounters. cbn [map]. fold b. rewrite !zsum_cons. change (zsum []) with 0.
      cbn [tcpCounters In] in Q. destruct Q as [<-|[<-|[<-|[<-|[]]]]];
        repeat match goal with |- context [eqb ?a ?c] => let r := eval vm_compute in (eqb a c) in change (eqb a c) with r end; cbn [andb]; lia.
  Qed.
End Due.

(** ** The sum over the exported groups *)
Section Sum.
  Context (w : collector) (GC : goodCollector w).
  Notation good := (goodFlowOp (w_cfg w)).
  Lemma calls_uniform os : Forall good os -> uniform (flat_map (aggOf w) os).
  Proof.
    intros F g1 s1 g2 s2 I1 I2 N K m.
    destruct (call_from w os F g1 s1 I1) as (a & v1 & d1 & c1 & i1 & _ & -> & -> & (S1 & _ & _ & R1 & W1 & _) & P1).
    destruct (call_from w os F g2 s2 I2) as (b & v2 & d2 & c2 & i2 & _ & -> & -> & (S2 & _ & _ & R2 & W2 & _) & P2).
    cbn [gname glabels mnames gmetrics] in *. unfold mnames. cbn [gmetrics]. fold (mnames a) (mnames b).
    assert (NE : gname a = gname b).
    { unfold shaped in S1, S2. destruct S1 as [[E1 _]|[[E1 _]|[[E1 _]|[[E1 _]|[E1 _]]]]], S2 as [[E2 _]|[[E2 _]|[[E2 _]|[[E2 _]|[E2 _]]]]]; rewrite E1, E2 in *; first [reflexivity | vm_compute in N; discriminate N]. }
    assert (ME : mnames a = mnames b).
    { unfold shaped in S1, S2. destruct S1 as [[E1 M1]|[[E1 M1]|[[E1 M1]|[[E1 M1]|[E1 M1]]]]], S2 as [[E2 M2]|[[E2 M2]|[[E2 M2]|[[E2 M2]|[E2 M2]]]]]; rewrite E1, E2 in NE; try discriminate NE; try congruence.
      rewrite M1, M2. rewrite E1, E2 in K. change (outSels "tcp_connect_metric_group") with tcpConnectSelectors in K. destruct selectors_fit as (_ & _ & (L & V & _)).
      assert (SS : selected (seenAs w a v1) ("success", BooleanType) = selected (seenAs w b v2) ("success", BooleanType)).
      { apply (proj1 (keys_iff tcpConnectSelectors _ _ L V) K). vm_compute. tauto. }
      assert (B : forall l, selected l ("success", BooleanType) = BV (asBool (aget l "success"))) by reflexivity. rewrite !B in SS.
      assert (U : ~ In "success" touched) by (cbn; intuition discriminate).
      rewrite (proj2 (proj2 (seen_keeps w a v1 W1 R1 P1)) "success" U), (proj2 (proj2 (seen_keeps w b v2 W2 R2 P2)) "success" U) in SS.
      unfold boolOf. injection SS as SS. rewrite SS. reflexivity. }
    rewrite ME. tauto.
  Qed.
  Lemma calls_tick os b : Forall onlyDelivers b -> flat_map (aggOf w) (os ++ FTick :: b) = flat_map (aggOf w) os ++ [ODump].
  Proof.
    intros D. rewrite flat_map_app. f_equal. cbn [flat_map aggOf app]. f_equal. induction D as [|o b X D IH]; [reflexivity|].
    destruct o; try destruct X; exact IH.
  Qed.
  Lemma exported_sum os es s out (P : string -> labelset -> bool) : Forall good os -> In out (quantities ++ counterNames) ->
    agg_run (w_km w) [] (flat_map (aggOf w) os ++ [ODump]) = Ok (es, s) ->
    s64 (zsum (map (fun g => if P (gname g) (glabels g) then valueOf out g else 0) (List.concat es))) =
    s64 (zsum (map (fun o => match o with
                             | FGroup g v _ _ _ => if P (outName (gname g)) (getLabels (getLabelKeys (outSels (gname g)) (seenAs w g v)))
                                 then contribution shippedKm out {| gname := outName (gname g); gmetrics := gmetrics g; glabels := seenAs w g v; gts := gts g |} else 0
                             | _ => 0 end) os)).
  Proof.
    intros F O R. destruct GC as (KM & _). rewrite KM in R.
    assert (NO : NoDup (map fst outTable)) by (apply nodupb_ok; vm_compute; reflexivity).
    assert (DN : forall nm key, dumped nm key -> In nm (map fst outTable)) by (intros nm key (sels & m & J & _); apply in_map_iff; exists (nm, sels); auto).
    rewrite (conserved shippedKm out P (map fst outTable) (flat_map (aggOf w) os) es s (counter_outs out O) (calls_uniform os F)); [|intros g sels J; apply int_ok; exact (calls_int w os F g sels J)|exact NO|..|exact R].
    - f_equal. clear. induction os as [|o os IH]; [reflexivity|]. cbn [flat_map map]. rewrite map_app, zsum_app, zsum_cons, IH. f_equal.
      destruct o as [g v d c it| | |]; try reflexivity. cbn [aggOf]. rewrite call_is. cbn [map gname glabels]. rewrite zsum_cons. change (zsum []) with 0. apply Z.add_0_r.
    - intros g sels J. exact (DN _ _ (calls_dumped w os F g sels J)).
    - intros g J. destruct (from_run shippedKm dumped (flat_map (aggOf w) os ++ [ODump]) [] es s) with (g := g) as (key & DM & _); try assumption; [..|exact (DN _ _ DM)].
      + intros g0 sels J0. apply in_app_or in J0. destruct J0 as [J0|[J0|[]]]; [exact (calls_dumped w os F g0 sels J0)|discriminate J0].
      + intros ? ? ? ? [].
  Qed.
  (** the total of every counter, over the exported groups *)
  Lemma exported_due os es s n sel : Forall good os -> In n counterNames -> agg_run (w_km w) [] (flat_map (aggOf w) os ++ [ODump]) = Ok (es, s) ->
    s64 (zsum (map (wantedSum (w_cl w) (w_cfg w) n sel) (List.concat es))) = s64 (zsum (map (dueFor w n sel) os)).
  Proof.
    intros F N R.
    assert (NM : forall g, In g (List.concat es) -> In (gname g) (map fst outTable)).
    { intros g J. destruct (from_run (w_km w) dumped (flat_map (aggOf w) os ++ [ODump]) [] es s) with (g := g) as (key & (sels & m & DM & _) & _); try assumption; [..|apply in_map_iff; exists (gname g, sels); auto].
      - intros g0 sels J0. apply in_app_or in J0. destruct J0 as [J0|[J0|[]]]; [exact (calls_dumped w os F g0 sels J0)|discriminate J0].
      - intros ? ? ? ? []. }
    assert (FG : forall g v d c it, In (FGroup g v d c it) os -> goodInput (w_cfg w) g /\ portsFit (v_k8s v)).
    { intros g v d c it J. rewrite Forall_forall in F. destruct (F _ J) as (A & B & _). auto. }
    assert (C2 : In n (quantities ++ counterNames)) by (apply in_or_app; right; exact N).
    assert (REQ : forall q (P : string -> string -> labelset -> bool), In q quantities -> In n (map entityName quantities ++ map topologyName quantities) ->
       (forall nm L, P q nm L = true -> eqb nm aggregatedNetRequestGroup = true) ->
       (forall g, eqb (gname g) aggregatedNetRequestGroup = true -> wantedSum (w_cl w) (w_cfg w) n sel g = if P q (gname g) (glabels g) then valueOf q g else 0) ->
       (forall g v, goodInput (w_cfg w) g -> portsFit (v_k8s v) -> dueIn w n sel (dues w g v) = if P q (outName (gname g)) (getLabels (getLabelKeys (outSels (gname g)) (seenAs w g v)))
           then contribution shippedKm q {| gname := outName (gname g); gmetrics := gmetrics g; glabels := seenAs w g v; gts := gts g |} else 0) ->
       s64 (zsum (map (wantedSum (w_cl w) (w_cfg w) n sel) (List.concat es))) = s64 (zsum (map (dueFor w n sel) os))).
    { intros q P Q NR PA WA DU.
      assert (O1 : In q (quantities ++ counterNames)) by (apply in_or_app; left; exact Q).
      pose proof (exported_sum os es s q (P q) F O1 R) as E1. pose proof (exported_sum os es s n (tcpP (w_cl w) sel) F C2 R) as E2.
      rewrite (zsum_ext (wantedSum (w_cl w) (w_cfg w) n sel) (fun g => (if P q (gname g) (glabels g) then valueOf q g else 0) + (if tcpP (w_cl w) sel (gname g) (glabels g) then valueOf n g else 0))).
      - rewrite zsum_plus. apply s64_eqm. rewrite <- (Z.add_0_r (zsum (map (dueFor w n sel) os))). apply eqm_add.
        + apply s64_eqm_inv. rewrite E1. f_equal. apply zsum_ext. intros o J. destruct o as [g v d c it| | |]; try reflexivity.
          destruct (FG g v d c it J) as [A B]. rewrite <- (DU g v A B). reflexivity.
        + apply s64_eqm_inv. rewrite E2. f_equal. apply zsum_zero. intros o J. destruct o as [g v d c it| | |]; try reflexivity.
          rewrite no_request_output by exact NR. destruct (tcpP _ _ _ _); reflexivity.
      - intros g J. destruct (eqb (gname g) aggregatedNetRequestGroup) eqn:A.
        + rewrite (WA g A). unfold tcpP. rewrite A. cbn [negb andb]. lia.
        + rewrite (wanted_simple (w_cl w) sel (w_cfg w) n g (NM g J) A). unfold tcpP. rewrite A. cbn [negb andb].
          destruct (P q (gname g) (glabels g)) eqn:X; [apply PA in X; congruence|lia]. }
    unfold counterNames in N. apply in_app_or in N. destruct N as [N|N]; [|apply in_app_or in N; destruct N as [N|N]].
    - assert (NR : In n (map entityName quantities ++ map topologyName quantities)) by (apply in_or_app; left; exact N).
      apply in_map_iff in N. destruct N as (q & <- & Q). apply (REQ q (entityP (w_cl w) sel (w_cfg w)) Q NR).
      + intros nm L X. unfold entityP in X. apply andb_true_iff in X. destruct X as [X _]. apply andb_true_iff in X. exact (proj1 X).
      + intros g A. apply entity_wanted; assumption.
      + intros g v A B. apply entity_due; assumption.
    - assert (NR : In n (map entityName quantities ++ map topologyName quantities)) by (apply in_or_app; right; exact N).
      apply in_map_iff in N. destruct N as (q & <- & Q). apply (REQ q (edgeP (w_cl w) sel (w_cfg w)) Q NR).
      + intros nm L X. unfold edgeP in X. apply andb_true_iff in X. exact (proj1 X).
      + intros g A. apply edge_wanted; assumption.
      + intros g v A B. apply edge_due; assumption.
    - pose proof (exported_sum os es s n (tcpP (w_cl w) sel) F C2 R) as E2.
      rewrite (zsum_ext (wantedSum (w_cl w) (w_cfg w) n sel) (fun g => if tcpP (w_cl w) sel (gname g) (glabels g) then valueOf n g else 0)).
      + rewrite E2. f_equal. apply zsum_ext. intros o J. destruct o as [g v d c it| | |]; try reflexivity.
        destruct (FG g v d c it J) as [A B]. rewrite <- (tcp_due w g v A B n sel N). reflexivity.
      + intros g J. exact (tcp_wanted (w_cl w) sel (w_cfg w) n g N (NM g J)).
  Qed.
End Sum.

(** ** The theorem *)
(** Whatever groups the analyzers hand over, in whatever order with ticks, deliveries and collections, and whatever the Kubernetes caches hold
    at each of them: the pipeline does not panic, and once a tick has happened and all its groups are delivered, the SDK has been told, for every
    counter and every choice of labels, exactly the sum of what the groups are due under those labels (modulo 2^64, as int64 counters wrap). *)
Theorem C69_counters : forall w os b n sel,
  goodCollector w -> In n counterNames -> isCounter w n ->
  Forall (goodFlowOp (w_cfg w)) (os ++ FTick :: b) -> Forall onlyDelivers b -> zlen (os ++ FTick :: b) < 2 ^ 60 ->
  exists outs st, frun w f0 (os ++ FTick :: b) = Ok (outs, st) /\
    (f_queue st = [] -> s64 (sumCalls n sel outs) = s64 (zsum (map (dueFor w n sel) os))).
Proof.
  intros w os b n sel GC N (k & K & KG) F D L. destruct (run_inv w GC (os ++ FTick :: b) F L) as (outs & st & R & (es & xs & xouts & dl & A & X & GX & CO & DQ & SU)).
  exists outs, st. split; [exact R|]. intros Q. rewrite Q, app_nil_r in DQ. subst dl.
  assert (GC' := GC). destruct GC' as (KM & TC & TG & _).
  destruct (C68_totals (w_cl w) (w_cfg w) (w_kinds w) (w_tracer w) xs n k sel TC TG GX K KG) as (xouts' & s' & X' & T). rewrite X in X'. injection X' as <- <-.
  assert (E : sumCalls n sel outs = sumCalls n sel xouts) by (unfold sumCalls; rewrite CO; reflexivity).
  rewrite E, T. change (zsum (map (fun o => match o with XConsume g _ _ => wantedSum (w_cl w) (w_cfg w) n sel g | _ => 0 end) xs)) with (consumed (wantedSum (w_cl w) (w_cfg w) n sel) xs).
  rewrite SU. rewrite (zsum_zero (wantedSum (w_cl w) (w_cfg w) n sel) (flat_map (sampledOf w) (os ++ FTick :: b))).
  - rewrite Z.add_0_r. rewrite calls_tick in A by exact D. apply Forall_app in F. exact (exported_due w GC os es (f_agg st) n sel (proj1 F) N A).
  - intros g J. apply in_flat_map in J. destruct J as (o & _ & J). destruct o as [g0 v d c it| | |]; cbn [sampledOf] in J; try destruct J.
    destruct (eqb (gname g0) netRequestGroup && isSampled (w_sampling w) d (seenAs w g0 v)); [|destruct J]. destruct J as [<-|[]]. apply single_wanted; [exact N|reflexivity].
Qed.
Print Assumptions C69_counters.

(** Every tick is delivered after as many deliveries as it made groups: the hypothesis [f_queue st = []] is reached from every history. *)
Definition delivers (b : list flow_op) : nat := List.length (filter (fun o => match o with FDeliver _ _ => true | _ => false end) b).
Lemma drain w : forall b st outs st', Forall onlyDelivers b -> frun w st b = Ok (outs, st') -> f_queue st' = skipn (delivers b) (f_queue st).
Proof.
  induction b as [|o b IH]; intros st outs st' D R; [injection R as _ <-; reflexivity|]. inversion D as [|? ? D1 D2]; subst. cbn [frun] in R.
  destruct (fstep w st o) as [[a s1]| |] eqn:E; cbn [bind fst snd] in R; try discriminate. destruct (frun w s1 b) as [[c s2]| |] eqn:R1; cbn [bind fst snd] in R; try discriminate. injection R as <- <-.
  rewrite (IH s1 c s2 D2 R1). unfold delivers. destruct o as [| |ch it|it]; try destruct D1; cbn [filter List.length fstep] in *.
  - destruct (f_queue st) as [|g q] eqn:Q.
    + injection E as _ <-. rewrite Q. cbn [skipn]. apply skipn_nil.
    + destruct (exporterStep w (f_exp st) (XConsume g ch it)) as [[x y]| |]; cbn [bind fst snd] in E; try discriminate. injection E as _ <-. reflexivity.
  - destruct (exporterStep w (f_exp st) (XScrape it)) as [[x y]| |]; cbn [bind fst snd] in E; try discriminate. injection E as _ <-. reflexivity.
Qed.
Theorem C69_all_delivered : forall w os, goodCollector w -> Forall (goodFlowOp (w_cfg w)) os -> zlen os < 2 ^ 59 ->
  exists N, forall b, Forall onlyDelivers b -> Forall (goodFlowOp (w_cfg w)) b -> zlen b < 2 ^ 59 -> (N <= delivers b)%nat ->
  exists outs st, frun w f0 (os ++ FTick :: b) = Ok (outs, st) /\ f_queue st = [].
Proof.
  intros w os GC F L. destruct (run_inv w GC (os ++ [FTick])) as (outs1 & st1 & R1 & _).
  - apply Forall_app. split; [exact F|constructor; [exact Logic.I|constructor]].
  - unfold zlen in *. rewrite app_length. cbn [List.length]. lia.
  - exists (List.length (f_queue st1)). intros b D G Lb N.
    destruct (run_inv w GC (os ++ FTick :: b)) as (outs & st & R & _).
    + apply Forall_app. split; [exact F|constructor; [exact Logic.I|exact G]].
    + unfold zlen in *. rewrite app_length. cbn [List.length]. lia.
    + exists outs, st. split; [exact R|].
      assert (X : forall a s oa sa ob sb c, frun w s a = Ok (oa, sa) -> frun w s (a ++ c) = Ok (ob, sb) -> exists oc, frun w sa c = Ok (oc, sb)).
      { clear. induction a as [|o a IH]; intros s oa sa ob sb c A B; cbn [frun app] in *; [injection A as <- <-; eauto|].
        destruct (fstep w s o) as [[x y]| |]; cbn [bind fst snd] in *; try discriminate.
        destruct (frun w y a) as [[x1 y1]| |] eqn:A1; cbn [bind fst snd] in A; try discriminate. injection A as <- <-.
        destruct (frun w y (a ++ c)) as [[x2 y2]| |] eqn:B1; cbn [bind fst snd] in B; try discriminate. injection B as <- <-. exact (IH y x1 y1 x2 y2 c A1 B1). }
      replace (os ++ FTick :: b) with ((os ++ [FTick]) ++ b) in R by (rewrite <- app_assoc; reflexivity).
      destruct (X _ _ _ _ _ _ _ R1 R) as (oc & RB). rewrite (drain w b st1 oc st D RB). apply skipn_all2. exact N.
Qed.
Print Assumptions C69_all_delivered.

(** ** The requests of a pod *)
(** The group is a request served by a container that the caches of its moment give to the pod. *)
Definition servedBy (ns p : bytes) (o : flow_op) : bool :=
  match o with
  | FGroup g v _ _ _ =>
      eqb (gname g) "net_request_metric_group" && boolOf (glabels g) "is_server" &&
      match aget (k_cids (v_k8s v)) (strOf (glabels g) "container_id") with
      | Some c => eqb (pi_ns (podAt (k_pods (v_k8s v)) (ci_pod c))) ns && eqb (pi_name (podAt (k_pods (v_k8s v)) (ci_pod c))) p
      | None => false
      end
  | _ => false
  end.
Definition inGroup (q : string) (o : flow_op) : Z := match o with FGroup g _ _ _ _ => quantityOf q g | _ => 0 end.
Definition podIs (ns p : bytes) : list (string * aval) := [("namespace", SV ns); ("pod", SV p)].
Lemma pod_due w g v q ns p : goodInput (w_cfg w) g -> portsFit (v_k8s v) -> w_k8s w = true -> StorePodDetail (w_cfg w) = true -> ns <> bs "NOT_FOUND_INTERNAL" -> In q quantities ->
  dueIn w (entityName q) (podIs ns p) (dues w g v) = if servedBy ns p (FGroup g v 0 [] (fun m => m)) then quantityOf q g else 0.
Proof.
  intros GI PF K8 PD NN Q. unfold servedBy. destruct (is_request_or w g GI) as [[N MN]|(N & ON & NA & OS)].
  2:{ change "net_request_metric_group" with netRequestGroup. replace (eqb (gname g) netRequestGroup) with false by (symmetry; apply eqb_neq; exact N). cbn [andb].
      rewrite (entity_due w g v GI PF q _ Q). unfold entityP. rewrite ON, NA. reflexivity. }
  assert (GI' := GI). destruct GI' as (_ & IG & _ & R & W & _). destruct (seen_keeps w g v W R PF) as (_ & _ & KP).
  assert (ROLE : boolOf (seenAs w g v) "is_server" = boolOf (glabels g) "is_server").
  { unfold boolOf. rewrite KP; [reflexivity|]. cbn. intuition discriminate. }
  unfold dues. rewrite N. change (eqb netRequestGroup "net_request_metric_group") with true. cbv iota zeta. cbn [andb].
  unfold dueIn, requestDues.
  assert (FR : boolOf (forget (seenAs w g v)) "is_server" = boolOf (glabels g) "is_server").
  { rewrite <- ROLE. unfold boolOf, forget. rewrite !aget_adel. reflexivity. }
  assert (FD : forall k, In k ["dst_namespace"; "dst_pod"] -> strOf (forget (seenAs w g v)) k = strOf (seenAs w g v) k).
  { intros k J. unfold strOf, forget. rewrite !aget_adel. cbn [In] in J. destruct J as [<-|[<-|[]]]; reflexivity. }
  rewrite FR, PD. destruct (boolOf (glabels g) "is_server") eqn:SV_; cbn [andb].
  - (* served here *)
    assert (M : forall q', matches (podIs ns p) (withCustom (labelled q' (fineServerT (forget (seenAs w g v))) (forget (seenAs w g v))) (w_cl w)) =
       match aget (k_cids (v_k8s v)) (strOf (glabels g) "container_id") with
       | Some c => eqb (pi_ns (podAt (k_pods (v_k8s v)) (ci_pod c))) ns && eqb (pi_name (podAt (k_pods (v_k8s v)) (ci_pod c))) p
       | None => false
       end).
    { intros q'. assert (A : aget (withCustom (labelled q' (fineServerT (forget (seenAs w g v))) (forget (seenAs w g v))) (w_cl w)) "namespace" = Some (Some (SV (strOf (seenAs w g v) "dst_namespace"))) /\
                             aget (withCustom (labelled q' (fineServerT (forget (seenAs w g v))) (forget (seenAs w g v))) (w_cl w)) "pod" = Some (Some (SV (strOf (seenAs w g v) "dst_pod")))).
      { rewrite <- !FD by (cbn; tauto). unfold labelled, withCustom. destruct (eqb q' "request_count"); split; reflexivity. }
      unfold matches, podIs. cbn [forallb fst snd]. rewrite (proj1 A), (proj2 A), andb_true_r.
      destruct (C43_server (w_it w) (w_nodeIp w) (w_nodeName w) (v_clock v) (v_k8s v) (bs (gname g)) (glabels g) W) as (m' & E & T); [rewrite N; vm_compute; reflexivity|exact SV_|].
      cbv zeta in T. assert (SE : seenAs w g v = m') by (unfold seenAs; rewrite K8, E; reflexivity). rewrite SE. clear - T NN.
      assert (EA : forall a b : bytes, eqb (Some (Some (SV a))) (Some (Some (SV b))) = eqb a b).
      { intros a b. case_eqb a b; [subst; apply eqb_refl|]. apply eqb_neq. intros X. apply E. congruence. }
      rewrite !EA. unfold strOf. rewrite !T. unfold serverDstT.
      destruct (aget (k_cids (v_k8s v)) (strOf (glabels g) "container_id")) as [c|] eqn:C.
      - unfold strOf in C. rewrite C. unfold containerDstT, podDstT, svcName, podOf. destruct (pi_svc (podAt (k_pods (v_k8s v)) (ci_pod c))); reflexivity.
      - unfold strOf in C. rewrite C. replace (eqb _ ns) with false; [reflexivity|]. symmetry. apply eqb_neq. intros X. apply NN. rewrite <- X. reflexivity. }
    set (f := forget (seenAs w g v)) in *. unfold quantities. cbn [flat_map].
    match goal with |- _ = ?r => set (rhs := r) end.
    destruct (StoreExternalSrcIP (w_cfg w) && fromOutside f); cbn [app map andb]; rewrite ?zsum_cons; change (zsum []) with 0; unfold rhs; rewrite ?M;
      (destruct (match aget (k_cids (v_k8s v)) (strOf (glabels g) "container_id") with Some c => _ | None => _ end);
       cbn [quantities In] in Q; destruct Q as [<-|[<-|[<-|[<-|[]]]]];
       repeat match goal with |- context [eqb ?a ?b] => match a with entityName _ => idtac | topologyName _ => idtac end;
                 let r := eval vm_compute in (eqb a b) in change (eqb a b) with r end; cbn [andb]; lia).
  - (* made from here *)
    unfold quantities. cbn [flat_map app map]. rewrite !zsum_cons. change (zsum []) with 0.
    cbn [quantities In] in Q. destruct Q as [<-|[<-|[<-|[<-|[]]]]];
       repeat match goal with |- context [eqb ?a ?b] => match a with entityName _ => idtac | topologyName _ => idtac end;
                 let r := eval vm_compute in (eqb a b) in change (eqb a b) with r end; cbn [andb]; lia.
Qed.
(** With metadata and pod detail on, the counters of the server metrics under a namespace and a pod name are the requests served by the containers
    that the caches gave to that pod when the requests were handed over: their number, time and bytes. *)
Theorem C69_requests_of_a_pod : forall w os b q ns p,
  goodCollector w -> w_k8s w = true -> StorePodDetail (w_cfg w) = true -> In q quantities -> isCounter w (entityName q) -> ns <> bs "NOT_FOUND_INTERNAL" ->
  Forall (goodFlowOp (w_cfg w)) (os ++ FTick :: b) -> Forall onlyDelivers b -> zlen (os ++ FTick :: b) < 2 ^ 60 ->
  exists outs st, frun w f0 (os ++ FTick :: b) = Ok (outs, st) /\
    (f_queue st = [] -> s64 (sumCalls (entityName q) (podIs ns p) outs) = s64 (zsum (map (inGroup q) (filter (servedBy ns p) os)))).
Proof.
  intros w os b q ns p GC K8 PD Q IC NN F D L.
  assert (N : In (entityName q) counterNames) by (unfold counterNames; apply in_or_app; left; apply in_map; exact Q).
  destruct (C69_counters w os b (entityName q) (podIs ns p) GC N IC F D L) as (outs & st & R & T). exists outs, st. split; [exact R|]. intros E. rewrite (T E). f_equal.
  apply Forall_app in F. destruct F as [F _]. clear - F K8 PD Q NN. induction F as [|o os G F IH]; [reflexivity|]. cbn [map filter]. rewrite zsum_cons, IH.
  destruct o as [g v d c it| | |]; try reflexivity. cbn [dueFor]. change (zsum (map (fun d0 : due => let '(n', t, a) := d0 in if eqb n' (entityName q) && matches (podIs ns p) (withCustom t (w_cl w)) then a else 0) (dues w g v))) with (dueIn w (entityName q) (podIs ns p) (dues w g v)).
  destruct G as (GI & PF & _). rewrite (pod_due w g v q ns p GI PF K8 PD NN Q).
  change (servedBy ns p (FGroup g v d c it)) with (servedBy ns p (FGroup g v 0 [] (fun m => m))). destruct (servedBy ns p (FGroup g v 0 [] (fun m => m))); [|lia].
  cbn [map]. rewrite zsum_cons. reflexivity.
Qed.
Print Assumptions C69_requests_of_a_pod.
(** In particular the request counter of a pod is the number of its requests. *)
Theorem C69_number_of_requests : forall w os b ns p,
  goodCollector w -> w_k8s w = true -> StorePodDetail (w_cfg w) = true -> isCounter w "kindling_entity_request_total" -> ns <> bs "NOT_FOUND_INTERNAL" ->
  Forall (goodFlowOp (w_cfg w)) (os ++ FTick :: b) -> Forall onlyDelivers b -> zlen (os ++ FTick :: b) < 2 ^ 60 ->
  exists outs st, frun w f0 (os ++ FTick :: b) = Ok (outs, st) /\
    (f_queue st = [] -> s64 (sumCalls "kindling_entity_request_total" (podIs ns p) outs) = zlen (filter (servedBy ns p) os)).
Proof.
  intros w os b ns p GC K8 PD IC NN F D L.
  destruct (C69_requests_of_a_pod w os b "request_count" ns p GC K8 PD (or_introl eq_refl) IC NN F D L) as (outs & st & R & T). exists outs, st. split; [exact R|].
  intros E. change "kindling_entity_request_total" with (entityName "request_count"). rewrite (T E).
  assert (X : zsum (map (inGroup "request_count") (filter (servedBy ns p) os)) = zlen (filter (servedBy ns p) os)).
  { clear. unfold zlen. induction os as [|o os IH]; [reflexivity|]. cbn [filter]. destruct (servedBy ns p o) eqn:S; [|exact IH]. cbn [map List.length]. rewrite zsum_cons, IH.
    destruct o; try discriminate S. cbn [inGroup]. unfold quantityOf. cbn [eqb Eqb_string String.eqb Ascii.eqb Bool.eqb]. lia. }
  rewrite X. assert (B : 0 <= zlen (filter (servedBy ns p) os) < 2 ^ 60).
  { unfold zlen in *. rewrite app_length in L. assert (List.length (filter (servedBy ns p) os) <= List.length os)%nat by (clear; induction os as [|o os IH]; cbn [filter List.length]; [lia|destruct (servedBy ns p o); cbn [List.length]; lia]). lia. }
  unfold s64. rewrite Z.mod_small by lia. lia.
Qed.
Print Assumptions C69_number_of_requests.

(** ** Examples *)
Lemma portsFitb st : forallb (fun e : bytes * cinfo => forallb (fun q : Z * Z => (- 2 ^ 31 <=? snd q) && (snd q <? 2 ^ 31)) (ci_hostports (snd e))) (k_hosts st) = true -> portsFit st.
Proof.
  intros F ip port c E p q A. unfold getContainerByHostIpPort in E. rewrite forallb_forall in F. specialize (F _ (aget_in _ _ _ E)). cbn [snd] in F.
  rewrite forallb_forall in F. specialize (F _ (aget_in _ _ _ A)). cbn [snd] in F. apply andb_prop in F. destruct F as [F1 F2]. apply Z.leb_le in F1. apply Z.ltb_lt in F2. auto.
Qed.
Definition textb (v : aval) : bool := match v with SV _ => true | _ => false end.
Lemma goodInputb cfg g : shaped g -> StoreTraceAsSpan cfg = false -> nodupb (keys (glabels g)) = true ->
  forallb (fun p : string * aval => match snd p with IV z => (- 2 ^ 63 <=? z) && (z <? 2 ^ 63) | _ => true end) (glabels g) = true ->
  forallb (fun p : string * mdata => match snd p with MInt _ => true | _ => false end) (gmetrics g) = true -> 0 <= gts g < 2 ^ 64 ->
  forallb (fun p : string * aval => (negb (existsb (eqb (fst p)) stringLabels) || textb (snd p)) && (negb (eqb (fst p) "dst_port") || match snd p with IV _ => true | _ => false end)) (glabels g) = true ->
  goodInput cfg g.
Proof.
  intros S SP N I M T W. unfold goodInput. split; [exact S|]. split.
  - intros m d J. rewrite forallb_forall in M. specialize (M _ J). cbn [snd] in M. destruct d as [x|]; [eauto|discriminate].
  - split; [apply nodupb_ok; exact N|]. split; [apply int64b; exact I|]. split; [|split; [exact T|congruence]].
    rewrite forallb_forall in W. split.
    + intros k v J A. specialize (W _ (aget_in _ _ _ A)). cbn [fst snd] in W. apply andb_prop in W. destruct W as [W _]. apply orb_prop in W. destruct W as [W|W].
      * apply negb_true_iff in W. exfalso. assert (X : existsb (eqb k) stringLabels = true) by (apply existsb_exists; exists k; split; [exact J|apply eqb_refl]). congruence.
      * destruct v; try discriminate. eauto.
    + intros v A. specialize (W _ (aget_in _ _ _ A)). cbn [fst snd] in W. apply andb_prop in W. destruct W as [_ W]. rewrite eqb_refl in W. cbn [negb orb] in W. destruct v; try discriminate. eauto.
Qed.
Definition exFlowCfg : config := {| StoreTraceAsMetric := true; StoreTraceAsSpan := false; StorePodDetail := true; StoreExternalSrcIP := true |}.
Definition exW : collector := {| w_it := fun _ _ l => l; w_nodeIp := bs "192.168.0.1"; w_nodeName := bs "node-1"; w_k8s := true; w_km := shippedKm; w_sampling := defaultSampling;
  w_cl := exCl; w_cfg := exFlowCfg; w_kinds := shipped; w_tracer := false |}.
Example exW_good : goodCollector exW.
Proof.
  split; [reflexivity|]. split; [exact exCl_text|]. split; [exact shipped_trace|]. intros k J X. cbn in J, X. destruct J as [<-|[<-|[]]]; repeat (destruct X as [X|X]; [discriminate X|]); exact X.
Qed.
(** The caches after a pod was added (K8sModel.v). *)
Definition exCaches : kstate := addPod (fun _ => false) (fun s => s) (bs "node-1") (fun _ _ l => l) 0 K8sProps.p1 k0.
Definition exView : view := {| v_dnat := fun _ _ _ _ => None; v_clock := 0; v_k8s := exCaches |}.
Definition request (proto : string) (more : labels) (server : bool) (time : Z) : group :=
  {| gname := "net_request_metric_group";
     gmetrics := [("connect_time", MInt 0); ("request_sent_time", MInt 1); ("waiting_ttfb_time", MInt 2); ("content_download_time", MInt 3); ("request_total_time", MInt time); ("request_io", MInt 100); ("response_io", MInt 200)];
     glabels := [("pid", IV 7); ("protocol", SV (bs proto)); ("src_ip", SV (bs "172.16.0.9")); ("dst_ip", SV (bs "10.0.0.1")); ("src_port", IV 40000); ("dst_port", IV 80);
       ("is_server", BV server); ("is_error", BV false); ("is_slow", BV false); ("container_id", SV (bs "aaaaaaaaaaaa")); ("content_key", SV (bs "/a"))] ++ more; gts := 1700000000 |}.
Definition connect (ok : bool) : group :=
  {| gname := "tcp_connect_metric_group"; gmetrics := ("kindling_tcp_connect_total", MInt 1) :: if ok then [("kindling_tcp_connect_duration_nanoseconds_total", MInt 50)] else [];
     glabels := [("src_ip", SV (bs "10.0.0.1")); ("dst_ip", SV (bs "10.0.0.9")); ("dst_port", IV 80); ("success", BV ok); ("errno", IV (if ok then 0 else 111))]; gts := 1700000000 |}.
Definition handover (g : group) : flow_op := FGroup g exView 5 [] idl.
Definition exFlow : list flow_op :=
  [handover (request "http" [("http_status_code", IV 200)] true 1000); handover (connect true); handover (request "http" [("http_status_code", IV 500)] true 3000); FTick; FDeliver [] idl;
   handover (request "http" [("http_status_code", IV 200)] false 7); FScrape idl; handover (connect false); handover (request "http" [("http_status_code", IV 200)] true 500); FDeliver [] idl].
Definition exRest : list flow_op := [FDeliver [] idl; FDeliver [1]%nat idl; FScrape idl; FDeliver [] idl; FDeliver [] idl; FDeliver [] idl].
Lemma handover_good g : shaped g -> nodupb (keys (glabels g)) = true ->
  forallb (fun p : string * aval => match snd p with IV z => (- 2 ^ 63 <=? z) && (z <? 2 ^ 63) | _ => true end) (glabels g) = true ->
  forallb (fun p : string * mdata => match snd p with MInt _ => true | _ => false end) (gmetrics g) = true -> 0 <= gts g < 2 ^ 64 ->
  forallb (fun p : string * aval => (negb (existsb (eqb (fst p)) stringLabels) || textb (snd p)) && (negb (eqb (fst p) "dst_port") || match snd p with IV _ => true | _ => false end)) (glabels g) = true ->
  goodFlowOp exFlowCfg (handover g).
Proof.
  intros. split; [apply goodInputb; try assumption; reflexivity|]. split; [apply portsFitb; vm_compute; reflexivity|]. intros m. apply Permutation_refl.
Qed.
Ltac flowgood :=
  repeat (apply Forall_cons; [first [exact Logic.I | intros m; apply Permutation_refl |
    apply handover_good; [first [left; split; vm_compute; reflexivity | right; right; right; right; split; vm_compute; reflexivity] | vm_compute; reflexivity | vm_compute; reflexivity | vm_compute; reflexivity | vm_compute; split; congruence | vm_compute; reflexivity]]|]); try apply Forall_nil.
Example exFlow_good : Forall (goodFlowOp (w_cfg exW)) (exFlow ++ FTick :: exRest).
Proof. unfold exFlow, exRest. cbn [app]. change (w_cfg exW) with exFlowCfg. flowgood. Qed.
(** Three requests served by the pod, 4500 ns in all, over two ticks; one request made; two connections, one of them refused. *)
Example exFlow_run : exists outs st, frun exW f0 (exFlow ++ FTick :: exRest) = Ok (outs, st) /\ f_queue st = [] /\
  sumCalls "kindling_entity_request_total" (podIs (bs "shop") (bs "web-0")) outs = 3 /\
  sumCalls "kindling_entity_request_duration_nanoseconds_total" (podIs (bs "shop") (bs "web-0")) outs = 4500 /\
  sumCalls "kindling_entity_request_total" [("pod", SV (bs "web-0")); ("response_content", SV (bs "500"))] outs = 1 /\
  sumCalls "kindling_topology_request_total" [("protocol", SV (bs "http"))] outs = 4 /\
  sumCalls "kindling_tcp_connect_total" [("success", SV (bs "false"))] outs = 1 /\
  zlen (filter (servedBy (bs "shop") (bs "web-0")) exFlow) = 3.
Proof.
  destruct (frun exW f0 (exFlow ++ FTick :: exRest)) as [[outs st]| |] eqn:E; [|vm_compute in E; discriminate|vm_compute in E; discriminate].
  exists outs, st. vm_compute in E. injection E as <- <-. repeat split.
Qed.
Example exFlow_counter : isCounter exW "kindling_entity_request_total".
Proof. exists "counter". split; [reflexivity|discriminate]. Qed.

(** ** What the aggregation forgets *)
(** Full claim: the request counters of a server tell requests apart by the answer they got, as the tables of the exporter say ([fineServerT], C44).
    It is false for Dubbo: the code of the answer is not among the labels the requests are aggregated by, so a request answered with an error code
    (here 40) is counted under the code 0, and never under its own. *)
Theorem C69_dubbo_code_refuted : exists g outs st,
  goodFlowOp (w_cfg exW) (handover g) /\ matches [("response_content", SV (bs "40"))] (fineServerT (seenAs exW g exView)) = true /\
  frun exW f0 [handover g; FTick; FDeliver [] idl] = Ok (outs, st) /\ f_queue st = [] /\
  sumCalls "kindling_entity_request_total" [("response_content", SV (bs "40"))] outs = 0 /\
  sumCalls "kindling_entity_request_total" [("protocol", SV (bs "dubbo")); ("response_content", SV (bs "0"))] outs = 1.
Proof.
  set (g := request "dubbo" [("dubbo_error_code", IV 40); ("error_type", IV 3)] true 1000).
  destruct (frun exW f0 [handover g; FTick; FDeliver [] idl]) as [[outs st]| |] eqn:E; [|vm_compute in E; discriminate|vm_compute in E; discriminate].
  exists g, outs, st. split.
  - change (w_cfg exW) with exFlowCfg. apply handover_good; [left; split; vm_compute; reflexivity|vm_compute; reflexivity..|vm_compute; split; congruence|vm_compute; reflexivity].
  - split; [vm_compute; reflexivity|]. split; [exact E|]. vm_compute in E. injection E as <- <-. repeat split.
Qed.
Print Assumptions C69_dubbo_code_refuted.
(** It is false for Redis too: whether the answer is an error is decided by the type of the error, which is not among those labels either; a failed
    Redis request is counted as [noerror]. *)
Theorem C69_redis_error_refuted : exists g outs st,
  goodFlowOp (w_cfg exW) (handover g) /\ matches [("response_content", SV (bs "error"))] (fineServerT (seenAs exW g exView)) = true /\
  frun exW f0 [handover g; FTick; FDeliver [] idl] = Ok (outs, st) /\ f_queue st = [] /\
  sumCalls "kindling_entity_request_total" [("response_content", SV (bs "error"))] outs = 0 /\
  sumCalls "kindling_entity_request_total" [("protocol", SV (bs "redis")); ("response_content", SV (bs "noerror"))] outs = 1.
Proof.
  set (g := request "redis" [("error_type", IV 3)] true 1000).
  destruct (frun exW f0 [handover g; FTick; FDeliver [] idl]) as [[outs st]| |] eqn:E; [|vm_compute in E; discriminate|vm_compute in E; discriminate].
  exists g, outs, st. split.
  - change (w_cfg exW) with exFlowCfg. apply handover_good; [left; split; vm_compute; reflexivity|vm_compute; reflexivity..|vm_compute; split; congruence|vm_compute; reflexivity].
  - split; [vm_compute; reflexivity|]. split; [exact E|]. vm_compute in E. injection E as <- <-. repeat split.
Qed.
Print Assumptions C69_redis_error_refuted.
