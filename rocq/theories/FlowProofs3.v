(** Lemmas for C69: what the exported groups hold, and what the consumed ones are due. *)
From Coq Require Import Sorting.Permutation.
From Verif Require Import Base Decimal AttrModel PoolModel KeyModel KeyProps AggModel AggSpec AggProofs AggProofs2 AggProps AggTotal SampleModel SampleProps K8sModel EnrichModel EnrichSpec EnrichProofs EnrichProps
  EventModel TcpModel PipeModel LabelNames AdapterModel AdapterSpec OtelModel OtelSpec OtelProofs OtelProofs2 OtelProps FlowModel FlowSpec FlowProofs FlowProofs2.
Open Scope string_scope. Open Scope list_scope. Open Scope Z_scope.

(** ** Conservation over several names *)
Lemma zsum_swap {A B} (f : A -> B -> Z) la lb : zsum (map (fun a => zsum (map (f a) lb)) la) = zsum (map (fun b => zsum (map (fun a => f a b) la)) lb).
Proof.
  induction la as [|a la IH]; cbn [map].
  - symmetry. apply zsum_zero. reflexivity.
  - rewrite zsum_cons, IH, <- zsum_plus. apply zsum_ext. intros b _. rewrite zsum_cons. reflexivity.
Qed.
Lemma conserved km out (P : string -> labelset -> bool) names h es s :
  counter_output km out -> uniform h -> (forall g sels, In (OAgg g sels) h -> readings_ok km g) -> NoDup names ->
  (forall g sels, In (OAgg g sels) h -> In (gname g) names) -> (forall g, In g (List.concat es) -> In (gname g) names) ->
  agg_run km [] (h ++ [ODump]) = Ok (es, s) ->
  s64 (zsum (map (fun g => if P (gname g) (glabels g) then valueOf out g else 0) (List.concat es))) =
  s64 (zsum (map (fun o => match o with OAgg g sels => if P (gname g) (getLabels (getLabelKeys sels (glabels g))) then contribution km out g else 0 | _ => 0 end) h)).
Proof.
  intros CO U RO ND NH NE R. apply s64_eqm.
  assert (E1 : zsum (map (fun g => if P (gname g) (glabels g) then valueOf out g else 0) (List.concat es)) = zsum (map (fun nm => exportedWhere nm (P nm) out es) names)).
  { unfold exportedWhere. rewrite <- (zsum_swap (fun (g : group) nm => if eqb (gname g) nm && P nm (glabels g) then valueOf out g else 0)).
    apply zsum_ext. intros g J. rewrite (zsum_ext _ (fun nm => if P nm (glabels g) then if eqb (gname g) nm then valueOf out g else 0 else 0)).
    - rewrite zsum_one; [reflexivity|exact ND|exact (NE g J)].
    - intros nm _. destruct (eqb (gname g) nm), (P nm (glabels g)); reflexivity. }
  assert (E2 : zsum (map (fun o => match o with OAgg g sels => if P (gname g) (getLabels (getLabelKeys sels (glabels g))) then contribution km out g else 0 | _ => 0 end) h) =
               zsum (map (fun nm => fedWhere km nm (P nm) out h) names)).
  { unfold fedWhere. rewrite <- (zsum_swap (fun o nm => match o with OAgg g sels => if eqb (gname g) nm && P nm (getLabels (getLabelKeys sels (glabels g))) then contribution km out g else 0 | _ => 0 end)).
    apply zsum_ext. intros [g sels| |n] J; [|symmetry; apply zsum_zero; reflexivity..].
    rewrite (zsum_ext _ (fun nm => if P nm (getLabels (getLabelKeys sels (glabels g))) then if eqb (gname g) nm then contribution km out g else 0 else 0)).
    - rewrite zsum_one; [reflexivity|exact ND|exact (NH g sels J)].
    - intros nm _. destruct (eqb (gname g) nm), (P nm _); reflexivity. }
  rewrite E1, E2. apply eqm_sum. intros nm _. apply s64_eqm_inv. exact (C02_totals_conserved km out nm (P nm) h es s CO U RO R).
Qed.

(** ** What an exported group holds *)
Lemma entity_inj x q : In q quantities -> entityName x = entityName q -> x = q.
Proof.
  intros J E. unfold entityName in E at 1. cbn [quantities In] in J.
  repeat match type of E with (if eqb x ?s then _ else _) = _ => destruct (eqb x s) eqn:?; [match goal with H : eqb x s = true |- _ => apply eqb_true in H; subst x end|] end;
    destruct J as [<-|[<-|[<-|[<-|[]]]]]; first [reflexivity | vm_compute in E; discriminate E].
Qed.
Lemma topology_inj x q : In q quantities -> topologyName x = topologyName q -> x = q.
Proof.
  intros J E. unfold topologyName in E at 1. cbn [quantities In] in J.
  repeat match type of E with (if eqb x ?s then _ else _) = _ => destruct (eqb x s) eqn:?; [match goal with H : eqb x s = true |- _ => apply eqb_true in H; subst x end|] end;
    destruct J as [<-|[<-|[<-|[<-|[]]]]]; first [reflexivity | vm_compute in E; discriminate E].
Qed.
Lemma entity_not x n : In n (map topologyName quantities ++ tcpCounters) -> entityName x <> n.
Proof.
  intros J E. unfold entityName in E.
  repeat match type of E with (if eqb x ?s then _ else _) = _ => destruct (eqb x s) eqn:?; [match goal with H : eqb x s = true |- _ => clear H end|] end;
    cbn in J; repeat (destruct J as [J|J]; [subst n; discriminate E|]); destruct J.
Qed.
Lemma topology_not x n : In n (map entityName quantities ++ tcpCounters) -> topologyName x <> n.
Proof.
  intros J E. unfold topologyName in E.
  repeat match type of E with (if eqb x ?s then _ else _) = _ => destruct (eqb x s) eqn:?; [match goal with H : eqb x s = true |- _ => clear H end|] end;
    cbn in J; repeat (destruct J as [J|J]; [subst n; discriminate E|]); destruct J.
Qed.
Lemma value_named (name : string -> string) q (ms : list (string * mdata)) : (forall x, name x = name q -> x = q) ->
  valueIn (name q) (map (fun m : string * mdata => (name (fst m), snd m)) ms) = valueIn q ms.
Proof.
  intros I. unfold valueIn. rewrite map_map. apply zsum_ext. intros [x d] _. cbn [fst snd].
  case_eqb x q.
  - subst x. rewrite eqb_refl. reflexivity.
  - replace (eqb (name x) (name q)) with false; [reflexivity|]. symmetry. apply eqb_neq. intros Y. apply E. exact (I x Y).
Qed.
Lemma value_none (name : string -> string) n (ms : list (string * mdata)) : (forall x, name x <> n) ->
  valueIn n (map (fun m : string * mdata => (name (fst m), snd m)) ms) = 0.
Proof.
  intros I. unfold valueIn. rewrite map_map. apply zsum_zero. intros [x d] _. cbn [fst snd].
  replace (eqb (name x) n) with false; [reflexivity|]. symmetry. apply eqb_neq. apply I.
Qed.
Lemma value_filter q (p : string -> bool) (ms : list (string * mdata)) : valueIn q (filter (fun m : string * mdata => p (fst m)) ms) = if p q then valueIn q ms else 0.
Proof.
  unfold valueIn. induction ms as [|[x d] ms IH]; cbn [filter fst]; [destruct (p q); reflexivity|]. case_eqb x q.
  - subst x. destruct (p q) eqn:P; cbn [map]; [rewrite !zsum_cons, IH; reflexivity|exact IH].
  - assert (Z : eqb x q = false) by (apply eqb_neq; exact E). destruct (p x); cbn [map]; rewrite ?zsum_cons, IH; cbn [fst]; rewrite Z; destruct (p q); lia.
Qed.
Lemma zlen_zero {A} (l : list A) : (0 <? zlen l) = false -> l = [].
Proof. intros H. destruct l; [reflexivity|]. unfold zlen in H. cbn [List.length] in H. apply Z.ltb_ge in H. lia. Qed.

Section Wanted.
  Context (cl : list (string * aval)) (sel : list (string * aval)).
  Definition sumWants (n : string) (ws : list want) : Z :=
    zsum (map (fun w => match wn_type w with
                        | RMetric => if matches sel (withCustom (wn_labels w) cl) then valueIn n (wn_metrics w) else 0
                        | RTrace => 0
                        end) ws).
  Lemma sumWants_app n a b : sumWants n (a ++ b) = sumWants n a + sumWants n b.
  Proof. unfold sumWants. rewrite map_app, zsum_app. reflexivity. Qed.
  Lemma counted_sum g (name : string -> string) q t : (forall x, name x = name q -> x = q) ->
    sumWants (name q) (counted g name t) = if matches sel (withCustom (labelled q t (glabels g)) cl) then valueOf q g else 0.
  Proof.
    intros I. unfold counted. rewrite sumWants_app.
    set (others := filter (fun m : string * mdata => negb (eqb (fst m) "request_count")) (gmetrics g)).
    set (counts := filter (fun m : string * mdata => eqb (fst m) "request_count") (gmetrics g)).
    assert (VO : valueIn q others = if negb (eqb q "request_count") then valueIn q (gmetrics g) else 0) by exact (value_filter q (fun x => negb (eqb x "request_count")) (gmetrics g)).
    assert (VC : valueIn q counts = if eqb q "request_count" then valueIn q (gmetrics g) else 0) by exact (value_filter q (fun x => eqb x "request_count") (gmetrics g)).
    assert (A : forall ms t, sumWants (name q) (if 0 <? zlen ms then [{| wn_type := RMetric; wn_metrics := map (fun m : string * mdata => (name (fst m), snd m)) ms; wn_labels := t |}] else [])
                = if matches sel (withCustom t cl) then valueIn q ms else 0).
    { intros ms t'. destruct (0 <? zlen ms) eqn:Z.
      - unfold sumWants. cbn [map wn_type wn_labels wn_metrics]. rewrite zsum_cons, (value_named name q ms I). change (zsum []) with 0. rewrite Z.add_0_r. reflexivity.
      - apply zlen_zero in Z. subst ms. cbn. destruct (matches sel (withCustom t' cl)); reflexivity. }
    rewrite !A, VO, VC. change (valueOf q g) with (valueIn q (gmetrics g)). unfold labelled. destruct (eqb q "request_count"); cbn [negb].
    - destruct (matches sel (withCustom t cl)); lia.
    - destruct (matches sel (withCustom (t ++ slowT (glabels g)) cl)); lia.
  Qed.
  Lemma counted_none g (name : string -> string) n t : (forall x, name x <> n) -> sumWants n (counted g name t) = 0.
  Proof.
    intros I. unfold counted. rewrite sumWants_app.
    assert (A : forall ms t, sumWants n (if 0 <? zlen ms then [{| wn_type := RMetric; wn_metrics := map (fun m : string * mdata => (name (fst m), snd m)) ms; wn_labels := t |}] else []) = 0).
    { intros ms t'. destruct (0 <? zlen ms); [|reflexivity]. unfold sumWants. cbn [map wn_type wn_labels wn_metrics]. rewrite zsum_cons, (value_none name n ms I).
      change (zsum []) with 0. destruct (matches sel (withCustom t' cl)); reflexivity. }
    rewrite !A. reflexivity.
  Qed.

  (** which exported groups a counter reads *)
  Definition entityP (cfg : config) (q nm : string) (L : labelset) : bool :=
    eqb nm aggregatedNetRequestGroup && boolOf L "is_server" &&
    matches sel (withCustom (labelled q (if StorePodDetail cfg then fineServerT L else coarseServerT L) L) cl).
  Definition edgeP (cfg : config) (q nm : string) (L : labelset) : bool :=
    eqb nm aggregatedNetRequestGroup &&
    (if boolOf L "is_server" then StoreExternalSrcIP cfg && fromOutside L && matches sel (withCustom (labelled q (fineEdgeT L) L) cl)
     else matches sel (withCustom (labelled q (if StorePodDetail cfg then fineEdgeT L else coarseEdgeT L) L) cl)).
  Definition tcpP (nm : string) (L : labelset) : bool :=
    negb (eqb nm aggregatedNetRequestGroup) && matches sel (withCustom (textLabels L) cl).

  Lemma out_names nm : In nm (map fst outTable) ->
    (eqb nm aggregatedNetRequestGroup = true /\ nm = aggregatedNetRequestGroup) \/
    (eqb nm aggregatedNetRequestGroup = false /\ eqb nm singleNetRequestGroup = false /\ existsb (eqb nm) simpleGroups = true).
  Proof. intros J. cbn [outTable map fst In] in J. destruct J as [<-|[<-|[<-|[<-|[<-|[]]]]]]; [left; split; reflexivity|right..]; repeat split. Qed.
  Lemma wanted_simple cfg n g : In (gname g) (map fst outTable) -> eqb (gname g) aggregatedNetRequestGroup = false ->
    wantedSum cl cfg n sel g = if matches sel (withCustom (textLabels (glabels g)) cl) then valueOf n g else 0.
  Proof.
    intros J N. destruct (out_names _ J) as [[A _]|(A & B & C)]; [congruence|]. unfold wantedSum, wanted.
    change "aggregated_net_request_metric_group" with aggregatedNetRequestGroup. change "single_net_request_metric_group" with singleNetRequestGroup. rewrite A, B, C.
    cbn [map wn_type wn_labels wn_metrics]. rewrite zsum_cons. change (zsum []) with 0. rewrite Z.add_0_r. reflexivity.
  Qed.
  Lemma wanted_agg cfg n g : eqb (gname g) aggregatedNetRequestGroup = true -> wantedSum cl cfg n sel g = sumWants n (wantAggregated cfg g).
  Proof. intros A. unfold wantedSum, wanted. change "aggregated_net_request_metric_group" with aggregatedNetRequestGroup. rewrite A. reflexivity. Qed.
  (** no simple group carries a request metric: what it holds under such a name is nothing *)
  Lemma entity_wanted cfg q g : In q quantities -> eqb (gname g) aggregatedNetRequestGroup = true ->
    wantedSum cl cfg (entityName q) sel g = if entityP cfg q (gname g) (glabels g) then valueOf q g else 0.
  Proof.
    intros Q A. rewrite (wanted_agg cfg _ g A). unfold wantAggregated, entityP. rewrite A, sumWants_app.
    assert (TN : forall x, topologyName x <> entityName q) by (intros x; apply topology_not; apply in_or_app; left; apply in_map; exact Q).
    match goal with |- ?a + _ = _ => replace a with 0 end.
    - rewrite Z.add_0_l. cbn [andb]. destruct (boolOf (glabels g) "is_server"); cbn [andb].
      + destruct (StorePodDetail cfg); apply counted_sum; intros x; apply entity_inj; exact Q.
      + apply counted_none. exact TN.
    - destruct (StoreExternalSrcIP cfg && boolOf (glabels g) "is_server" && eqb (strOf (glabels g) "src_namespace") (bs "NOT_FOUND_EXTERNAL")); [|reflexivity].
      symmetry. apply counted_none. exact TN.
  Qed.
  Lemma edge_wanted cfg q g : In q quantities -> eqb (gname g) aggregatedNetRequestGroup = true ->
    wantedSum cl cfg (topologyName q) sel g = if edgeP cfg q (gname g) (glabels g) then valueOf q g else 0.
  Proof.
    intros Q A. rewrite (wanted_agg cfg _ g A). unfold wantAggregated, edgeP. rewrite A, sumWants_app. cbn [andb]. fold (fromOutside (glabels g)).
    assert (EN : forall x, entityName x <> topologyName q) by (intros x; apply entity_not; apply in_or_app; left; apply in_map; exact Q).
    destruct (boolOf (glabels g) "is_server"); rewrite ?andb_true_r, ?andb_false_r; cbn [andb].
    - rewrite (counted_none g entityName) by exact EN. rewrite Z.add_0_r. destruct (StoreExternalSrcIP cfg && fromOutside (glabels g)); cbn [andb]; [|reflexivity].
      apply counted_sum; intros x; apply topology_inj; exact Q.
    - change (sumWants (topologyName q) []) with 0. rewrite Z.add_0_l. destruct (StorePodDetail cfg); apply counted_sum; intros x; apply topology_inj; exact Q.
  Qed.
  Lemma tcp_wanted cfg n g : In n tcpCounters -> In (gname g) (map fst outTable) ->
    wantedSum cl cfg n sel g = if tcpP (gname g) (glabels g) then valueOf n g else 0.
  Proof.
    intros Q J. unfold tcpP. destruct (eqb (gname g) aggregatedNetRequestGroup) eqn:A; cbn [negb andb]; [|apply wanted_simple; assumption].
    rewrite (wanted_agg cfg _ g A). unfold wantAggregated. rewrite sumWants_app.
    assert (EN : forall x, entityName x <> n) by (intros x; apply entity_not; apply in_or_app; right; exact Q).
    assert (TN : forall x, topologyName x <> n) by (intros x; apply topology_not; apply in_or_app; right; exact Q).
    destruct (StoreExternalSrcIP cfg && boolOf (glabels g) "is_server" && eqb (strOf (glabels g) "src_namespace") (bs "NOT_FOUND_EXTERNAL"));
      destruct (boolOf (glabels g) "is_server"); rewrite ?(counted_none g entityName n) by exact EN; rewrite ?(counted_none g topologyName n) by exact TN; reflexivity.
  Qed.
  (** a sampled request only counts for the trace metric *)
  Lemma single_wanted cfg n g : In n counterNames -> gname g = singleNetRequestGroup -> wantedSum cl cfg n sel g = 0.
  Proof.
    intros Q N. unfold wantedSum, wanted. rewrite N. change (eqb singleNetRequestGroup "aggregated_net_request_metric_group") with false.
    change (eqb singleNetRequestGroup "single_net_request_metric_group") with true. cbn [andb]. unfold wantSingle.
    destruct (aget (gmetrics g) "request_total_time") as [d|]; [|reflexivity]. rewrite map_app, zsum_app.
    assert (NE : eqb "kindling_trace_request_duration_nanoseconds" n = false).
    { cbn in Q. repeat (destruct Q as [<-|Q]; [reflexivity|]). destruct Q. }
    destruct (StoreTraceAsMetric cfg), (StoreTraceAsSpan cfg); cbn [map wn_type wn_labels wn_metrics]; rewrite ?zsum_cons; unfold valueIn; cbn [map fst]; rewrite ?NE;
      try destruct (matches sel _); reflexivity.
  Qed.
End Wanted.

(** ** The labels kept by the aggregation *)
Section Same.
  Context (m : labels) (R : int64_labels m).
  Notation L := (getLabels (getLabelKeys netSelectors m)).
  Notation f := (forget m).
  Lemma net_in : In (aggregatedNetRequestGroup, netSelectors) outTable. Proof. left. reflexivity. Qed.
  Lemma kept_get k : aget L k = match find (fun s => eqb k (fst s)) netSelectors with Some s => Some (selected m s) | None => None end.
  Proof. exact (shown_get _ _ m k net_in R). Qed.
  Lemma forget_get k : In k (map fst netSelectors) -> aget f k = aget m k.
  Proof.
    intros J. unfold forget. rewrite !aget_adel.
    assert (X : forallb (fun k => negb (eqb k "error_type") && negb (eqb k "dubbo_error_code")) (map fst netSelectors) = true) by (vm_compute; reflexivity).
    rewrite forallb_forall in X. specialize (X k J). apply andb_true_iff in X. destruct X as [X1 X2]. apply negb_true_iff in X1, X2. rewrite X1, X2. reflexivity.
  Qed.
  Definition ofType (t k : string) : bool := match find (fun s => eqb k (fst s)) netSelectors with Some s => eqb (snd s) t | None => false end.
  Lemma type_in t k : ofType t k = true -> In k (map fst netSelectors).
  Proof.
    unfold ofType. destruct (find (fun s => eqb k (fst s)) netSelectors) as [s|] eqn:F; [|discriminate]. intros _. apply find_some in F. destruct F as [F1 F2]. apply eqb_true in F2. subst k. apply in_map. exact F1.
  Qed.
  Lemma kept_str k : ofType "string" k = true -> strOf L k = strOf f k.
  Proof.
    intros T. unfold strOf. rewrite (forget_get k (type_in _ k T)), kept_get. unfold ofType in T. destruct (find (fun s => eqb k (fst s)) netSelectors) as [s|] eqn:F; [|discriminate].
    apply find_some in F. destruct F as [_ F]. apply eqb_true in F. apply eqb_true in T. unfold selected. rewrite T. cbn [eqb Eqb_string String.eqb Ascii.eqb Bool.eqb]. rewrite <- F. reflexivity.
  Qed.
  Lemma kept_int k : ofType "int" k = true -> intOf L k = intOf f k.
  Proof.
    intros T. unfold intOf. rewrite (forget_get k (type_in _ k T)), kept_get. unfold ofType in T. destruct (find (fun s => eqb k (fst s)) netSelectors) as [s|] eqn:F; [|discriminate].
    apply find_some in F. destruct F as [_ F]. apply eqb_true in F. apply eqb_true in T. unfold selected. rewrite T. cbn [eqb Eqb_string String.eqb Ascii.eqb Bool.eqb]. rewrite <- F. reflexivity.
  Qed.
  Lemma kept_bool k : ofType "boolean" k = true -> boolOf L k = boolOf f k.
  Proof.
    intros T. unfold boolOf. rewrite (forget_get k (type_in _ k T)), kept_get. unfold ofType in T. destruct (find (fun s => eqb k (fst s)) netSelectors) as [s|] eqn:F; [|discriminate].
    apply find_some in F. destruct F as [_ F]. apply eqb_true in F. apply eqb_true in T. unfold selected. rewrite T. cbn [eqb Eqb_string String.eqb Ascii.eqb Bool.eqb]. rewrite <- F. reflexivity.
  Qed.
  Lemma kept_gone k : k = "dubbo_error_code" \/ k = "error_type" -> intOf L k = intOf f k.
  Proof. intros [-> | ->]; unfold intOf; rewrite kept_get; unfold forget; rewrite !aget_adel; reflexivity. Qed.
  Ltac same := repeat match goal with
    | |- context [strOf (getLabels (getLabelKeys netSelectors m)) ?k] => rewrite (kept_str k) by reflexivity
    | |- context [intOf (getLabels (getLabelKeys netSelectors m)) ?k] => first [rewrite (kept_int k) by reflexivity | rewrite (kept_gone k) by tauto]
    | |- context [boolOf (getLabels (getLabelKeys netSelectors m)) ?k] => rewrite (kept_bool k) by reflexivity
    end.
  Lemma same_code : codeOf L = codeOf f.
  Proof. unfold codeOf, oneOf, protocolIs. cbn [existsb]. same. reflexivity. Qed.
  Lemma same_failed : AdapterSpec.failed L = AdapterSpec.failed f.
  Proof. unfold AdapterSpec.failed. same. reflexivity. Qed.
  Lemma same_content : contentT L = contentT f.
  Proof. unfold contentT, requestContent, responseContent, oneOf, protocolIs. cbn [existsb]. rewrite same_code, same_failed. same. reflexivity. Qed.
  Lemma same_server : fineServerT L = fineServerT f /\ coarseServerT L = coarseServerT f.
  Proof. unfold fineServerT, coarseServerT. rewrite same_content. unfold entityT, podT. same. split; reflexivity. Qed.
  Lemma same_status : edgeStatusT L = edgeStatusT f.
  Proof. unfold edgeStatusT, statusCode, protocolIs. rewrite same_code, same_failed. same. reflexivity. Qed.
  Lemma same_edge : fineEdgeT L = fineEdgeT f /\ coarseEdgeT L = coarseEdgeT f.
  Proof.
    unfold fineEdgeT, coarseEdgeT. rewrite same_status. unfold edgeT, fineDstT, coarseDstT, containersT, notFound, translated, keepS, keepI. cbn [map]. same. split; reflexivity.
  Qed.
  Lemma same_slow : slowT L = slowT f.
  Proof. unfold slowT. same. reflexivity. Qed.
  Lemma same_outside : fromOutside L = fromOutside f.
  Proof. unfold fromOutside. same. reflexivity. Qed.
  Lemma same_role : boolOf L "is_server" = boolOf f "is_server".
  Proof. same. reflexivity. Qed.
  Lemma same_labelled q t : labelled q t L = labelled q t f.
  Proof. unfold labelled. rewrite same_slow. reflexivity. Qed.
End Same.
