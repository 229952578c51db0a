(** C74: the connection counters of a pod and the connection attempts of its processes. *)
From Coq Require Import Sorting.Permutation ZifyBool.
From Verif Require Import Base Decimal AttrModel PoolModel KeyModel KeyProps AggModel AggSpec AggProofs SampleModel K8sModel EnrichModel EnrichSpec EnrichProofs EnrichProps
  EventModel TcpModel PipeModel LabelNames AdapterModel AdapterSpec OtelModel OtelSpec FlowModel FlowSpec FlowProofs FlowProofs2 FlowProofs3 FlowProps RecordModel
  AggTotal NetSpec NetProofs NetProofs4 ConnectModel ConnectSpec ConnectProps ConnFlowModel ConnFlowSpec ConnFlowProofs.
Open Scope string_scope. Open Scope list_scope. Open Scope Z_scope.

(** ** The goroutine *)
(** Events are analysed in the order of the calls, none is skipped and none twice; those still in the channel wait. *)
Theorem C74_taken cf s0 os gss s : lstart cf = Ok s0 -> lrun cf s0 os = Some (Ok (gss, s)) -> offered os = takenEvents (seenOps [] os) ++ l_chan s.
Proof.
  intros S R. unfold lstart in S. destruct (0 <? _); [|discriminate S]. injection S as <-. destruct (lrun_krun _ _ _ _ _ R) as (outs & _ & _ & _ & C). exact C.
Qed.
Print Assumptions C74_taken.
Lemma sane_good x : goodKop x -> saneOp (fst x).
Proof. destruct x as [[e|now look] d]; intros (G & _); cbn [fst saneOp] in *; lia. Qed.
(** Every decided attempt is handed over exactly once, with its process, times, outcome and error number, and nothing else is: what is handed over
    is determined, connection by connection, by the events of that connection and the scans. *)
Theorem C74_every_attempt cf s0 os gss s : lstart cf = Ok s0 -> waitOk (cf_wait cf) -> Forall saneLop os -> lrun cf s0 os = Some (Ok (gss, s)) ->
  Permutation (List.concat gss) (map (groupOf cf) (allAttempts (cf_wait cf) (seenOps [] os))).
Proof.
  intros S W F R. unfold lstart in S. destruct (0 <? _); [|discriminate S]. injection S as <-. destruct (lrun_krun _ _ _ _ _ R) as (outs & K & L & G & _). cbn [l_chan l_map] in *.
  rewrite G. pose proof (seen_good os [] (Forall_nil _) F) as GK.
  rewrite (run_perm cf (named (seenOps [] os)) W (nodup_distinct _) _ [] outs (l_map s)); try assumption.
  - unfold allAttempts. rewrite flat_map_concat_map, (flat_map_concat_map (fun k => attempts _ k None _)), concat_map, map_map. reflexivity.
  - split; [constructor|discriminate].
  - eapply Forall_impl; [|exact GK]. intros x. apply sane_good.
  - intros k X. destruct X. reflexivity.
  - intros e d k wd J SY. apply named_says. eauto 6.
Qed.
Print Assumptions C74_every_attempt.

(** ** What a connection group is due *)
Definition inSeries (C : bytes -> bytes -> bool) (ok : bool) (code : option Z) (g : group) : bool :=
  C (strOf (glabels g) "container_id") (strOf (glabels g) "src_ip") && Bool.eqb (boolOf (glabels g) "success") ok && match code with Some c => intOf (glabels g) "errno" =? c | None => true end.
Lemma other_due cfg w g v n sel : goodInput cfg g -> gname g <> "tcp_connect_metric_group" -> In n connectMetrics -> dueIn w n sel (dues w g v) = 0.
Proof.
  intros (S & _) N Q. unfold dues. destruct S as [[G _]|S].
  - rewrite G. change (eqb "net_request_metric_group" "net_request_metric_group") with true. cbv iota zeta. generalize (forget (seenAs w g v)). intros f. unfold dueIn, requestDues, quantities. cbn [flat_map].
    set (t := if StorePodDetail (w_cfg w) then fineServerT f else coarseServerT f). set (te := if StorePodDetail (w_cfg w) then fineEdgeT f else coarseEdgeT f).
    destruct (boolOf f "is_server"); [destruct (StoreExternalSrcIP (w_cfg w) && fromOutside f)|]; cbn [app map andb]; rewrite ?zsum_cons; change (zsum []) with 0;
      destruct Q as [<-|[<-|[]]]; reflexivity.
  - assert (X : eqb (gname g) "net_request_metric_group" = false /\ forall n, In n connectMetrics -> valueIn n (gmetrics g) = 0).
    { assert (Y : forall m, mnames g = [m] -> ~ In m connectMetrics -> forall n, In n connectMetrics -> valueIn n (gmetrics g) = 0).
      { intros m E NI n' J. unfold mnames in E. destruct (gmetrics g) as [|[a d] [|]]; try discriminate E. cbn [map fst] in E. injection E as ->. unfold valueIn. cbn [map fst snd]. rewrite zsum_cons.
        case_eqb m n'; [subst; contradiction|]. reflexivity. }
      destruct S as [[G M]|[[G M]|[[G M]|[G M]]]]; [..|congruence]; rewrite G; (split; [reflexivity|]); apply (Y _ M); cbn; intuition discriminate. }
    destruct X as [X1 X2]. rewrite X1. cbv zeta. replace (eqb (gname g) "tcp_connect_metric_group") with false by (symmetry; apply eqb_neq; exact N).
    unfold dueIn, tcpDues. rewrite map_map. apply zsum_zero. intros n' _. case_eqb n' n; cbn [andb]; [|reflexivity]. subst n'. rewrite (X2 n Q). destruct (matches _ _); reflexivity.
Qed.
Lemma textOf_get m k t : In (k, t) tcpConnectSelectors -> aget (textOf tcpConnectSelectors m) k = Some (Some (SV (toString (selected m (k, t))))).
Proof.
  intros J. unfold textOf, S_. cbn [tcpConnectSelectors In] in J. repeat (destruct J as [J|J]; [injection J as <- <-; reflexivity|]). destruct J.
Qed.
Lemma connect_due w g v n ns p ok code C : goodInput (w_cfg w) g -> portsFit (v_k8s v) -> w_k8s w = true -> p <> [] -> gname g = "tcp_connect_metric_group" -> boolOf (glabels g) "is_server" = false ->
  aget (glabels g) "src_pod" = None -> In n connectMetrics -> (forall cid ip, fromPod w v ns p cid ip = C cid ip) ->
  dueIn w n (seriesOf ns p ok code) (dues w g v) = if inSeries C ok code g then valueIn n (gmetrics g) else 0.
Proof.
  intros GI PF K8 NP N B NS Q CA. assert (GI' := GI). destruct GI' as (_ & _ & _ & R & W & _).
  destruct (C43_client (w_it w) (w_nodeIp w) (w_nodeName w) (v_clock v) (v_k8s v) (bs (gname g)) (glabels g) W) as (m' & E & T); [rewrite N; vm_compute; reflexivity|exact B|].
  cbv zeta in T. assert (SE : seenAs w g v = m') by (unfold seenAs; rewrite K8, E; reflexivity).
  unfold dues. rewrite N. change (eqb "tcp_connect_metric_group" "net_request_metric_group") with false. change (eqb "tcp_connect_metric_group" "tcp_connect_metric_group") with true. cbv iota zeta. rewrite SE.
  assert (D0 : forall k, In k ["src_pod"; "src_namespace"; "success"; "errno"] -> forall a b c x y z, aget (clientDstT (w_it w) (v_k8s v) a b c x y z) k = None /\ aget (loopT (w_nodeIp w) (w_nodeName w) c) k = None).
  { intros k J a b c x y z. split.
    - unfold clientDstT, containerDstT, podDstT, serviceT, hostPortT. cbn [In] in J.
      destruct (getServiceByIpPort _ _ _); [destruct (eqb y []); [|destruct (z =? -1); [|destruct (getContainerByIpPort _ _ _ _ _); [destruct (eqb c [])|destruct (getNodeName _ _)]]]|
        destruct (getContainerByIpPort _ _ _ _ _); [destruct (eqb c [])|destruct (getContainerByHostIpPort _ _ _); [destruct (eqb c [])|destruct (getNodeName _ _)]]];
      (destruct J as [<-|[<-|[<-|[<-|[]]]]]; reflexivity).
    - unfold loopT. destruct (eqb c _); destruct J as [<-|[<-|[<-|[<-|[]]]]]; reflexivity. }
  set (src := clientSource (w_it w) (v_k8s v) (v_clock v) (strOf (glabels g) "container_id") (strOf (glabels g) "src_ip")) in *.
  assert (TS : forall k, In k ["src_pod"; "src_namespace"; "success"; "errno"] -> aget m' k =
    match aget (srcT (w_nodeIp w) (w_nodeName w) (v_k8s v) (strOf (glabels g) "container_id") (strOf (glabels g) "src_ip") src) k with Some x => Some x | None => aget (glabels g) k end).
  { intros k J. rewrite T, !aget_app, (proj1 (D0 k J _ _ _ _ _ _)), (proj2 (D0 k J 0%nat [] _ 0 [] 0)). reflexivity. }
  assert (OB : aget m' "success" = aget (glabels g) "success").
  { rewrite TS by (cbn; tauto). unfold srcT, podSrcT, svcName. destruct src as [c|r| | |]; [destruct (pi_svc _)|destruct (pi_svc _)| | |destruct (eqb (strOf (glabels g) "src_ip") (bs "127.0.0.1"))]; reflexivity. }
  assert (OE : aget m' "errno" = aget (glabels g) "errno").
  { rewrite TS by (cbn; tauto). unfold srcT, podSrcT, svcName. destruct src as [c|r| | |]; [destruct (pi_svc _)|destruct (pi_svc _)| | |destruct (eqb (strOf (glabels g) "src_ip") (bs "127.0.0.1"))]; reflexivity. }
  assert (OP : eqb (asString (aget m' "src_namespace")) ns && eqb (asString (aget m' "src_pod")) p = C (strOf (glabels g) "container_id") (strOf (glabels g) "src_ip")).
  { rewrite <- CA. unfold fromPod. fold src. rewrite !TS by (cbn; tauto). unfold srcT, podSrcT, svcName, podOf.
    assert (NE : eqb (asString None) p = false) by (apply eqb_neq; cbn [asString]; congruence).
    destruct src as [c|r| | |]; [destruct (pi_svc _); reflexivity|destruct (pi_svc _); reflexivity|..]; cbn [aget eqb Eqb_string String.eqb Ascii.eqb Bool.eqb]; rewrite ?NS.
    - rewrite NE, andb_false_r. reflexivity.
    - rewrite NE, andb_false_r. reflexivity.
    - destruct (eqb (strOf (glabels g) "src_ip") (bs "127.0.0.1")); cbn [aget eqb Eqb_string String.eqb Ascii.eqb Bool.eqb]; rewrite ?NS; rewrite NE, andb_false_r; reflexivity. }
  assert (M : matches (seriesOf ns p ok code) (withCustom (textOf tcpConnectSelectors m') (w_cl w)) = inSeries C ok code g).
  { assert (EA : forall a b : bytes, eqb (Some (Some (SV a))) (Some (Some (SV b))) = eqb a b).
    { intros a b. case_eqb a b; [subst; apply eqb_refl|]. apply eqb_neq. intros X. apply E0. congruence. }
    assert (WC : forall k t, In (k, t) tcpConnectSelectors -> aget (withCustom (textOf tcpConnectSelectors m') (w_cl w)) k = Some (Some (SV (toString (selected m' (k, t)))))).
    { intros k t J. unfold withCustom. rewrite aget_app', (textOf_get m' k t J). reflexivity. }
    unfold matches, seriesOf. rewrite forallb_app. cbn [forallb fst snd].
    rewrite (WC "src_namespace" "string"), (WC "src_pod" "string"), (WC "success" "boolean") by (cbn; tauto). rewrite !EA, andb_true_r, andb_assoc.
    change (toString (selected m' ("src_namespace", "string"))) with (asString (aget m' "src_namespace")). change (toString (selected m' ("src_pod", "string"))) with (asString (aget m' "src_pod")).
    rewrite OP. unfold inSeries. f_equal; [f_equal|].
    - change (toString (selected m' ("success", "boolean"))) with (formatBool (asBool (aget m' "success"))). rewrite OB. unfold boolOf. destruct (asBool (aget (glabels g) "success")), ok; reflexivity.
    - destruct code as [c|]; [|reflexivity]. cbn [forallb fst snd]. rewrite (WC "errno" "int") by (cbn; tauto). rewrite EA, andb_true_r.
      change (toString (selected m' ("errno", "int"))) with (formatInt (asInt (aget m' "errno"))). rewrite OE. unfold intOf. destruct (asInt (aget (glabels g) "errno") =? c) eqn:Z.
      + apply Z.eqb_eq in Z. rewrite Z. apply eqb_refl.
      + apply eqb_neq. intros X. apply formatInt_inj in X. lia. }
  unfold dueIn, tcpDues, tcpCounters. cbn [map]. rewrite M, !zsum_cons. change (zsum []) with 0.
  destruct Q as [<-|[<-|[]]]; destruct (inSeries C ok code g); cbn [eqb Eqb_string String.eqb Ascii.eqb Bool.eqb andb]; lia.
Qed.

(** ** The groups of the analyzer *)
Lemma group_labels cf a : let g := groupOf cf a in
  gname g = "tcp_connect_metric_group" /\ boolOf (glabels g) "is_server" = false /\ aget (glabels g) "src_pod" = None /\
  strOf (glabels g) "container_id" = p_cid (a_pend a) /\ strOf (glabels g) "src_ip" = kSip (a_key a) /\ boolOf (glabels g) "success" = a_ok a /\ intOf (glabels g) "errno" = a_code a.
Proof.
  cbv zeta. unfold groupOf, connectGroup. destruct (a_nat a _ _ _ _) as [[ip port]|]; destruct (cf_proc cf), (a_ok a); repeat split.
Qed.
Lemma group_good cf cfg a : goodAttempt a -> goodKey (a_key a) -> goodInput cfg (groupOf cf a).
Proof.
  intros ((PS & PL & PP) & CO & NA) (KS & KD).
  assert (NAT : forall ip port, a_nat a (kSip (a_key a)) (kSport (a_key a)) (kDip (a_key a)) (kDport (a_key a)) = Some (ip, port) -> - 2 ^ 63 <= port < 2 ^ 63) by (intros ip port X; apply NA in X; lia).
  unfold groupOf, connectGroup.
  assert (X : exists nip nport, match a_nat a (kSip (a_key a)) (kSport (a_key a)) (kDip (a_key a)) (kDport (a_key a)) with Some x => x | None => ([], -1) end = (nip, nport) /\ - 2 ^ 63 <= nport < 2 ^ 63).
  { destruct (a_nat a _ _ _ _) as [[ip port]|]; [exists ip, port; split; [reflexivity|exact (NAT ip port eq_refl)]|exists [], (-1); split; [reflexivity|lia]]. }
  destruct X as (nip & nport & -> & NP). cbn [statsOf c_state c_end c_init c_pid c_comm c_cid c_code].
  split; [|split; [|split; [|split; [|split; [|split]]]]].
  - right. right. right. right. split; [reflexivity|]. unfold mnames. destruct (a_ok a), (cf_proc cf); reflexivity.
  - intros m d J. cbn [gmetrics] in J. destruct (a_ok a); cbn [In] in J; repeat (destruct J as [J|J]; [injection J as _ <-; eexists; reflexivity|]); destruct J.
  - cbn [glabels]. destruct (cf_proc cf); cbn [app keys map fst]; repeat constructor; cbn [In]; intuition discriminate.
  - intros k z. cbn [glabels]. intros J. apply aget_in in J. destruct (cf_proc cf); cbn [app In] in J;
      repeat (destruct J as [J|J]; [first [discriminate J | injection J as _ <-; lia]|]); destruct J.
  - split.
    + intros k x I J. cbn [glabels] in J. apply aget_in in J. destruct (cf_proc cf); cbn [app In] in J;
        repeat (destruct J as [J|J]; [first [injection J as _ <-; eexists; reflexivity | injection J as <- _; exfalso; cbn in I; intuition discriminate]|]); destruct J.
    + intros x J. cbn [glabels] in J. apply aget_in in J. destruct (cf_proc cf); cbn [app In] in J;
        repeat (destruct J as [J|J]; [first [discriminate J | injection J as <-; eexists; reflexivity]|]); destruct J.
  - cbn [gts]. lia.
  - intros _. cbn [glabels]. destruct (cf_proc cf); reflexivity.
Qed.
Lemma group_values cf a : goodAttempt a ->
  valueIn "kindling_tcp_connect_total" (gmetrics (groupOf cf a)) = 1 /\
  valueIn "kindling_tcp_connect_duration_nanoseconds_total" (gmetrics (groupOf cf a)) = if a_ok a then took a else 0.
Proof.
  intros ((PS & PL & PP) & _). assert (D : s64 (w64 (p_last (a_pend a) - p_start (a_pend a))) = p_last (a_pend a) - p_start (a_pend a)).
  { unfold s64, w64. rewrite Z.add_mod_idemp_l by lia. rewrite Z.mod_small by lia. lia. }
  unfold groupOf, connectGroup, took. destruct (a_nat a _ _ _ _) as [[ip port]|]; destruct (a_ok a); cbn [statsOf c_state c_end c_init gmetrics]; rewrite ?D;
    unfold valueIn; cbn [map fst snd]; rewrite !zsum_cons; change (zsum []) with 0; (split; [reflexivity|]);
    change (eqb TcpConnectTotal "kindling_tcp_connect_duration_nanoseconds_total") with false; try change (eqb TcpConnectDuration "kindling_tcp_connect_duration_nanoseconds_total") with true; cbv iota; lia.
Qed.

(** ** From the kernel to the counters *)
Lemma connect_in g os : In g (connectGroups os) <-> exists v d c it, In (FGroup g v d c it) os /\ gname g = "tcp_connect_metric_group".
Proof.
  unfold connectGroups. rewrite in_flat_map. split.
  - intros (o & O & J). destruct o as [g0 v d c it| | |]; try destruct J. case_eqb (gname g0) "tcp_connect_metric_group"; [|destruct J]. destruct J as [<-|[]]. eauto 8.
  - intros (v & d & c & it & O & N). eexists. split; [exact O|]. cbn beta iota. rewrite N, eqb_refl. left. reflexivity.
Qed.
(** The counters of a pod: over any history of the connection analyzer from its start (any calls of ConsumeEvent, scans, answers of the connection
    tracker, and a shutdown), when its groups (in any order, among the groups of the other analyzers) went through the pipeline and the queue of
    the exporter is empty, the number of connections of the pod with an outcome (and an error number, if one is asked for) is the number of the
    attempts decided so whose source the caches give to the pod; and the connection time is the sum of the times of those that succeeded
    (modulo 2^64, as the counters are int64). *)
Theorem C74_of_a_pod : forall w cf s0 cos gss s os b n ns p C ok code,
  goodCollector w -> w_k8s w = true -> In n connectMetrics -> isCounter w n -> p <> [] ->
  lstart cf = Ok s0 -> waitOk (cf_wait cf) -> Forall saneLop cos -> lrun cf s0 cos = Some (Ok (gss, s)) ->
  Permutation (connectGroups os) (List.concat gss) -> Forall (goodBeside (w_cfg w)) (os ++ FTick :: b) -> Forall (sourcesAre w ns p C) os ->
  Forall onlyDelivers b -> zlen (os ++ FTick :: b) < 2 ^ 60 ->
  exists outs st, frun w f0 (os ++ FTick :: b) = Ok (outs, st) /\
    (f_queue st = [] -> s64 (sumCalls n (seriesOf ns p ok code) outs) =
       s64 (zsum (map (perAttempt n) (filter (counted C ok code) (allAttempts (cf_wait cf) (seenOps [] cos)))))).
Proof.
  intros w cf s0 cos gss s os b n ns p C ok code GC K8 Q IC NP ST W F R PM GB CA D L.
  pose proof (C74_every_attempt cf s0 cos gss s ST W F R) as PA. pose proof (Permutation_trans PM PA) as PT.
  pose proof (all_good (cf_wait cf) _ (seen_good cos [] (Forall_nil _) F)) as AG.
  assert (GG : forall g, In g (connectGroups os) -> exists a, g = groupOf cf a /\ goodAttempt a /\ goodKey (a_key a)).
  { intros g J. apply (Permutation_in _ PT) in J. apply in_map_iff in J. destruct J as (a & <- & J). exists a. destruct (AG a J). auto. }
  assert (G : Forall (goodFlowOp (w_cfg w)) (os ++ FTick :: b)).
  { rewrite Forall_forall in *. intros o J. specialize (GB o J). destruct o as [g v d c it| | |]; try exact GB. destruct GB as (G1 & G2 & G3). split; [|auto].
    destruct (string_dec (gname g) "tcp_connect_metric_group") as [N|N]; [|exact (G1 N)].
    apply in_app_or in J. destruct J as [J|[J|J]]; [|discriminate|destruct (D _ J)].
    destruct (GG g) as (a & -> & A1 & A2); [apply connect_in; eauto 8|]. apply group_good; assumption. }
  assert (NC : In n counterNames) by (unfold counterNames; apply in_or_app; right; apply in_or_app; right; unfold connectMetrics in Q; cbn in Q |- *; tauto).
  destruct (C69_counters w os b n (seriesOf ns p ok code) GC NC IC G D L) as (outs & st & RUN & T). exists outs, st. split; [exact RUN|]. intros E. rewrite (T E). f_equal.
  transitivity (zsum (map (fun g => if inSeries C ok code g then valueIn n (gmetrics g) else 0) (connectGroups os))).
  - clear T E RUN PM PT. apply Forall_app in G. destruct G as [G _]. apply Forall_app in GB. destruct GB as [GB _]. clear L.
    induction os as [|o os IH]; [reflexivity|]. inversion G as [|? ? G1 G2]; subst. inversion CA as [|? ? C1 C2]; subst. inversion GB as [|? ? B1 B2]; subst. cbn [map]. rewrite zsum_cons.
    rewrite IH; try assumption; [|intros g J; apply GG; unfold connectGroups in *; cbn [flat_map]; apply in_or_app; right; exact J].
    unfold connectGroups. cbn [flat_map]. rewrite map_app, zsum_app. f_equal. destruct o as [g v d c it| | |]; try reflexivity.
    destruct G1 as (GI & PF & _). cbn [dueFor]. change (zsum (map (fun d0 : due => let '(n', t, a) := d0 in if eqb n' n && matches (seriesOf ns p ok code) (withCustom t (w_cl w)) then a else 0) (dues w g v)))
      with (dueIn w n (seriesOf ns p ok code) (dues w g v)).
    case_eqb (gname g) "tcp_connect_metric_group".
    + cbn [map]. rewrite zsum_cons. change (zsum []) with 0.
      destruct (GG g) as (a & EG & _); [apply connect_in; exists v, d, c, it; split; [left; reflexivity|assumption]|]. destruct (group_labels cf a) as (GN & GS & GP & _). rewrite <- EG in GN, GS, GP.
      rewrite (connect_due w g v n ns p ok code C); try assumption. lia.
    + cbn [map]. change (zsum []) with 0. eapply other_due; eassumption.
  - rewrite (zsum_perm _ _ _ PT). rewrite map_map. clear - AG Q. unfold zlen.
    assert (X : forall l, (forall a, In a l -> goodAttempt a) -> zsum (map (fun x => if inSeries C ok code (groupOf cf x) then valueIn n (gmetrics (groupOf cf x)) else 0) l) = zsum (map (perAttempt n) (filter (counted C ok code) l))).
    { induction l as [|a l IH]; intros GA; [reflexivity|]. cbn [map filter]. rewrite zsum_cons, IH by (intros x J; apply GA; right; exact J).
      destruct (group_labels cf a) as (_ & _ & _ & GC & GI & GO & GE). destruct (group_values cf a (GA a (or_introl eq_refl))) as (V1 & V2).
      assert (IS : inSeries C ok code (groupOf cf a) = counted C ok code a) by (unfold inSeries, counted; rewrite GC, GI, GO, GE; reflexivity). rewrite IS.
      destruct (counted C ok code a); [|lia]. cbn [map]. rewrite zsum_cons. f_equal. unfold perAttempt. destruct Q as [<-|[<-|[]]]; [rewrite V1; reflexivity|rewrite V2; reflexivity]. }
    apply X. intros a J. exact (proj1 (AG a J)).
Qed.
Print Assumptions C74_of_a_pod.

(** ** It runs *)
Lemma le_ok n : forall b, (n <= List.length b)%nat -> exists v, leValue n b = Ok v.
Proof. induction n as [|n IH]; intros b L; [exists 0; reflexivity|]. destruct b as [|x b]; cbn [List.length leValue] in *; [lia|]. destruct (IH b) as (v & ->); [lia|]. eexists. reflexivity. Qed.
Lemma find_in n : forall l k kv, findAttr n l k = Some kv -> In kv l.
Proof. induction n as [|n IH]; intros [|x l] k kv; cbn [findAttr]; try discriminate. destruct (eqb (kv_key x) k); [injection 1 as <-; left; reflexivity|]. right. eapply IH; eassumption. Qed.
Lemma attr_uint e k kv : Forall fullValue (e_attrs e) -> getUserAttribute e k = Some kv -> exists v, getUintValue kv = Ok v.
Proof.
  unfold getUserAttribute. destruct (e_params e =? 0); [discriminate|]. intros F G. apply find_in in G. rewrite Forall_forall in F. specialize (F _ G). unfold fullValue in F. unfold getUintValue.
  destruct (kv_type kv); eauto; apply le_ok; exact F.
Qed.
Lemma attr_int e k kv : Forall fullValue (e_attrs e) -> getUserAttribute e k = Some kv -> exists v, getIntValue kv = Ok v.
Proof.
  unfold getUserAttribute. destruct (e_params e =? 0); [discriminate|]. intros F G. apply find_in in G. rewrite Forall_forall in F. specialize (F _ G). unfold fullValue in F. unfold getIntValue.
  destruct (kv_type kv); eauto; destruct (le_ok _ _ F) as (v & ->); eexists; reflexivity.
Qed.
Lemma attr_key_runs e : Forall fullValue (e_attrs e) -> attrKey e <> Panic.
Proof.
  intros F. unfold attrKey. cbv zeta.
  assert (X : forall k, exists o, match getUserAttribute e k with Some kv => bind (getUintValue kv) (fun v => Ok (Some v)) | None => Ok None end = Ok o).
  { intros k. destruct (getUserAttribute e k) as [kv|] eqn:G; [|eauto]. destruct (attr_uint e k kv F G) as (v & ->). eexists. reflexivity. }
  destruct (X "sip") as (a & ->), (X "sport") as (b & ->), (X "dip") as (c & ->), (X "dport") as (d & ->). cbn [bind]. destruct a, b, c, d; discriminate.
Qed.
Lemma consume_runs e m : carries e -> consumeConnectEvent e m <> Panic.
Proof.
  intros (F & A). unfold consumeConnectEvent. cbv zeta.
  assert (P : forall r, r <> Panic -> (match r with Ok (Some (k, c), m') => Ok (if kSport k =? 0 then None else Some (k, c), m') | Ok (None, m') => Ok (None, m') | Err => Ok (None, m) | Panic => Panic end :
    res (option (ckey * cstats) * cmap)) <> Panic) by (intros [[[[k c]|] m']| |] N; try discriminate; congruence).
  apply P. clear P. assert (RC : forall k c ev m, fst (receive k c ev m) <> Panic) by (intros k c ev m0; unfold receive; destruct (eventsMap (c_state c) ev) as [s|]; [|discriminate]; cbv zeta; destruct (_ && _); discriminate).
  case_eqb (e_name e) "connect".
  - destruct (isTcp e) eqn:T; [|discriminate]. destruct (A E eq_refl) as (s & ss & d & ds & AS & AD). unfold readConnectExit. destruct (getUserAttribute e "res") as [kv|] eqn:G; [|discriminate].
    destruct (attr_int _ _ _ F G) as (r & ->). cbn [bind]. pose proof (sys_key e) as SK. unfold socketKey in SK. rewrite AS, AD in SK. rewrite SK. cbn [bind]. destruct (aget m _) as [c|]; [|discriminate].
    destruct (if r =? 0 then _ else _) as [ev code]. destruct (receive _ _ _ _) as [[o| |] m'] eqn:R; try discriminate.
  - case_eqb (e_name e) "tcp_connect".
    + unfold readTcpConnect. pose proof (attr_key_runs e F) as K. destruct (attrKey e) as [k| |]; [|discriminate|congruence]. cbn [bind]. destruct (getUserAttribute e "retval") as [kv|] eqn:G; [|discriminate].
      destruct (attr_uint _ _ _ F G) as (r & ->). cbn [bind]. cbv zeta. destruct (receive _ _ _ _) as [[o| |] m']; discriminate.
    + case_eqb (e_name e) "tcp_set_state".
      * unfold readSetState. pose proof (attr_key_runs e F) as K. destruct (attrKey e) as [k| |]; [|discriminate|congruence]. cbn [bind]. destruct (getUserAttribute e "old_state") as [kv|] eqn:G; [|discriminate].
        destruct (getUserAttribute e "new_state") as [kv'|] eqn:G'; [|discriminate].
        destruct (attr_int _ _ _ F G) as (r & ->), (attr_int _ _ _ F G') as (r' & ->). cbn [bind]. cbv zeta. destruct (r =? 1), (r' =? 1); try discriminate;
          (destruct (aget m k) as [c|]; [|discriminate]); destruct (receive _ _ _ _) as [[o| |] m']; discriminate.
      * destruct (memS _ _); [|discriminate]. destruct (filterRequestEvent e) eqn:FR; [discriminate|]. unfold readSend. pose proof (sys_key e) as SK. unfold socketKey in SK. unfold filterRequestEvent in FR.
        destruct (e_sip e) as [|s ss]; [rewrite !orb_true_r in FR; discriminate|]. destruct (e_dip e) as [|d ds]; [rewrite !orb_true_r in FR; discriminate|]. rewrite SK. cbn [bind].
        destruct (aget m _) as [c|]; [|discriminate]. destruct (receive _ _ _ _) as [[o| |] m']; discriminate.
Qed.
(** The goroutine never stops by itself: with attributes as long as their types say and with addresses in the TCP connect calls, a step that can be
    taken ends, whatever the events say and whatever a scan finds. *)
Theorem C74_runs cf os : Forall carriesOp os -> forall s, Forall carries (l_chan s) -> lrun cf s os = None \/ exists gss s', lrun cf s os = Some (Ok (gss, s')).
Proof.
  induction os as [|o os IH]; intros F s H; [right; cbn; eauto|]. inversion F as [|? ? F1 F2]; subst. cbn [lrun].
  assert (ST : lstep cf s o = None \/ exists gs s', lstep cf s o = Some (Ok (gs, s')) /\ Forall carries (l_chan s')).
  { destruct o as [e|d|now look d|now look d]; cbn [lstep].
    - destruct (_ <? _); [|auto]. right. eexists _, _. split; [reflexivity|]. cbn [l_chan]. apply Forall_app. split; [exact H|]. constructor; [exact F1|constructor].
    - destruct (l_live s); [|auto]. destruct (l_chan s) as [|e q]; [auto|]. inversion H; subst. right. unfold kstep. pose proof (consume_runs e (l_map s)) as R.
      destruct (consumeConnectEvent e (l_map s)) as [[a b]| |] eqn:C; cbn [bind]; [eexists _, _; split; [reflexivity|assumption]|exfalso|tauto].
      unfold consumeConnectEvent in C. cbv zeta in C. destruct (if eqb (e_name e) "connect" then _ else _) as [[[[? ?]|] ?]| |]; discriminate C.
    - destruct (l_live s); [|auto]. right. cbn [kstep bind]. eexists _, _. split; [reflexivity|exact H].
    - destruct (l_live s); [|auto]. right. cbn [kstep bind]. eexists _, _. split; [reflexivity|exact H]. }
  destruct ST as [->|(gs & s' & -> & H')]; [auto|]. destruct (IH F2 s' H') as [->|(gss & s2 & ->)]; [auto|]. right. eauto.
Qed.
Print Assumptions C74_runs.

(** ** Shutdown *)
(** After Shutdown returned nothing is handed over any more: the only calls that still return are calls of ConsumeEvent, as long as the channel has room. *)
Theorem C74_stopped cf os : forall s gss s', l_live s = false -> lrun cf s os = Some (Ok (gss, s')) ->
  List.concat gss = [] /\ l_live s' = false /\ l_map s' = l_map s /\ l_chan s' = l_chan s ++ offered os /\ (os <> [] -> zlen (l_chan s') <= cf_chan cf) /\ Forall (fun o => exists e, o = LOffer e) os.
Proof.
  induction os as [|o os IH]; intros s gss s' L R; cbn [lrun] in R; [injection R as <- <-; rewrite app_nil_r; repeat split; auto; congruence|].
  destruct o as [e|d|now look d|now look d]; cbn [lstep] in R; rewrite ?L in R; try discriminate R.
  destruct (zlen (l_chan s) <? cf_chan cf) eqn:Z; [|discriminate R]. destruct (lrun cf _ os) as [[[r s2]| |]|] eqn:Q; try discriminate R. injection R as <- <-.
  apply IH in Q; [|reflexivity]. cbn [l_chan l_map] in Q. destruct Q as (A & B & D & E & F & G). repeat split; try assumption; [|intros _|constructor; eauto].
  - rewrite E, <- app_assoc. reflexivity.
  - destruct os; [|apply F; discriminate]. rewrite E. cbn [offered flat_map]. rewrite app_nil_r. apply Z.ltb_lt in Z. unfold zlen in *. rewrite app_length. cbn [List.length]. lia.
Qed.
Print Assumptions C74_stopped.

(** ** Examples and refutations *)
Definition noNat : natFn := fun _ _ _ _ => None.
Definition gone (_ : Z) (_ : ckey) : found := NoSocket.
Definition evOf (o : kop) : event := match o with KEvent e => e | KScan _ _ => kev "" 0 0 [] end.
Definition tcf : cconf := {| cf_chan := 8; cf_wait := 10; cf_proc := true |}.
Definition exRun : list lop :=
  [LOffer (evOf (began 100 5000 0)); LOffer (evOf (exitE 150 5000 (-115))); LTake noNat; LTake noNat; LOffer (evOf (becameE 400 5000)); LTick 450 gone noNat; LTake noNat;
   LOffer (evOf (began 500 5001 0)); LOffer (evOf (exitE 600 5001 (-111))); LTake noNat; LTake noNat; LOffer (evOf (began 700 5002 0)); LOffer (evOf (exitE 800 5002 (-115))); LTake noNat; LTake noNat;
   LTick 10000000700 gone noNat; LOffer (evOf (began 10000000800 5003 0)); LStop 10000000900 gone noNat; LOffer (evOf (began 10000000950 5004 0))].
Example C74_example : Forall saneLop exRun /\ Forall carriesOp exRun /\ waitOk (cf_wait tcf) /\ exists s0 gss s, lstart tcf = Ok s0 /\ lrun tcf s0 exRun = Some (Ok (gss, s)) /\
  map (fun g => (intOf (glabels g) "src_port", boolOf (glabels g) "success", intOf (glabels g) "errno", valueIn "kindling_tcp_connect_duration_nanoseconds_total" (gmetrics g))) (List.concat gss) =
    [(5000, true, 0, 300); (5001, false, -111, 0); (5002, false, 0, 0)] /\
  l_chan s = [evOf (began 10000000800 5003 0); evOf (began 10000000950 5004 0)] /\ List.length (allAttempts 10 (seenOps [] exRun)) = 3%nat.
Proof.
  split; [|split; [|split; [unfold waitOk; cbn; lia|]]].
  - unfold exRun. repeat (apply Forall_cons; [cbn; unfold noNat; first [lia|intros; discriminate|split; [lia|intros; discriminate]]|]). apply Forall_nil.
  - unfold exRun. repeat (apply Forall_cons; [first [exact Logic.I|split; [cbn [evOf began exitE becameE kev e_attrs addr app]; repeat (apply Forall_cons; [cbn; lia|]); apply Forall_nil|
      intros _ _; cbn [evOf began exitE becameE kev e_sip e_dip]; eexists _, _, _, _; split; reflexivity]]|]). apply Forall_nil.
  - eexists _, _, _. split; [vm_compute; reflexivity|]. split; [vm_compute; reflexivity|]. split; [vm_compute; reflexivity|]. split; vm_compute; reflexivity.
Qed.
(** "Every event given to the analyzer is analysed" is false: what waits in the channel when Shutdown is called stays there. *)
Theorem C74_drained_refuted : ~ forall cf s0 os gss s, lstart cf = Ok s0 -> lrun cf s0 os = Some (Ok (gss, s)) -> l_live s = false -> takenEvents (seenOps [] os) = offered os.
Proof.
  intros F. specialize (F tcf {| l_chan := []; l_map := []; l_live := true |} [LOffer (evOf (began 100 5000 0)); LStop 200 gone noNat] [[]; []]
    {| l_chan := [evOf (began 100 5000 0)]; l_map := []; l_live := false |} eq_refl eq_refl eq_refl). discriminate F.
Qed.
Print Assumptions C74_drained_refuted.
(** "The analyzer starts with any positive wait_event_second" is false: the goroutine panics, and the process with it, for 1 and 2 seconds, because the
    period of its scans is a third of it in whole seconds. *)
Theorem C74_short_wait_refuted : ~ forall cf, 0 < cf_wait cf -> waitOk (cf_wait cf) -> lstart cf <> Panic.
Proof. intros F. apply (F {| cf_chan := 8; cf_wait := 2; cf_proc := true |}); [cbn; lia|unfold waitOk; cbn; lia|reflexivity]. Qed.
Print Assumptions C74_short_wait_refuted.
(** Three seconds and more are fine. *)
Theorem C74_starts cf : 3 <= cf_wait cf -> waitOk (cf_wait cf) -> exists s, lstart cf = Ok s.
Proof.
  intros A B. unfold lstart, waitOk in *. assert (Q : 1 <= Z.quot (cf_wait cf) 3 <= cf_wait cf) by (split; [apply Z.quot_le_lower_bound; lia|apply Z.quot_le_upper_bound; lia]).
  assert (X : s64 (Z.quot (cf_wait cf) 3 * 1000000000) = Z.quot (cf_wait cf) 3 * 1000000000) by (unfold s64; rewrite Z.mod_small by lia; lia). rewrite X. replace (0 <? _) with true by lia. eauto.
Qed.
Print Assumptions C74_starts.
(** "A decided attempt is reported, whatever its source port" is false when an event decides it: without a source port it is dropped, with its end forgotten. *)
Theorem C74_no_port_refuted : ~ forall cf s0 os gss s e d k p r, waitOk (cf_wait cf) -> Forall saneLop os -> lstart cf = Ok s0 -> lrun cf s0 os = Some (Ok (gss, s)) ->
  seenOps [] os = [(KEvent e, d)] -> decision (cf_wait cf) k None (KEvent e) = Some r -> hear k None (KEvent e) = Some p -> List.concat gss <> [].
Proof.
  intros F. specialize (F tcf {| l_chan := []; l_map := []; l_live := true |} [LOffer (evOf (began 100 0 111)); LTake noNat] [[]; []] {| l_chan := []; l_map := []; l_live := true |}
    (evOf (began 100 0 111)) noNat (key1 0) {| p_start := 100; p_last := 100; p_pid := 0; p_comm := []; p_cid := [] |} (false, 111)).
  apply F.
  - unfold waitOk. cbn. lia.
  - apply Forall_cons; [cbn; lia|]. apply Forall_cons; [|apply Forall_nil]. cbn. unfold noNat. intros; discriminate.
  - reflexivity.
  - vm_compute. reflexivity.
  - reflexivity.
  - vm_compute. reflexivity.
  - vm_compute. reflexivity.
  - reflexivity.
Qed.
Print Assumptions C74_no_port_refuted.
(** The whole way: two processes, one of them in the pod web-0 of shop; its two attempts (one refused) are counted for the pod, the attempt of the other is not. *)
Definition ofPod (o : kop) : event :=
  let e := evOf o in
  {| e_name := e_name e; e_ts := e_ts e; e_lat := 0; e_net := true; e_params := e_params e; e_attrs := e_attrs e; e_pid := 7; e_tid := 7; e_comm := "web"; e_cid := "aaaaaaaaaaaa";
     e_fd := 3; e_proto := L4Tcp; e_role := false; e_sip := e_sip e; e_dip := e_dip e; e_sport := e_sport e; e_dport := e_dport e |}.
Definition podRun : list lop :=
  [LOffer (ofPod (began 100 5000 0)); LOffer (ofPod (exitE 150 5000 (-115))); LTake noNat; LTake noNat; LOffer (evOf (began 160 5009 0)); LOffer (evOf (exitE 170 5009 (-111)));
   LTake noNat; LTake noNat; LOffer (ofPod (becameE 400 5000)); LTake noNat; LOffer (ofPod (began 500 5001 0)); LOffer (ofPod (exitE 600 5001 (-111))); LTake noNat; LTake noNat].
Definition podRan : option (res (list (list group) * lstate)) := Eval vm_compute in lrun tcf {| l_chan := []; l_map := []; l_live := true |} podRun.
Definition podGroups : list group := match podRan with Some (Ok (gss, _)) => List.concat gss | _ => [] end.
Definition podFlow : list flow_op := map handover podGroups.
Example C74_pod_example : let C := fromPod exW exView (bs "shop") (bs "web-0") in exists gss s, lrun tcf {| l_chan := []; l_map := []; l_live := true |} podRun = Some (Ok (gss, s)) /\
  Forall saneLop podRun /\ In "kindling_tcp_connect_total" connectMetrics /\ isCounter exW "kindling_tcp_connect_total" /\ isCounter exW "kindling_tcp_connect_duration_nanoseconds_total" /\
  Permutation (connectGroups podFlow) (List.concat gss) /\ Forall (goodBeside (w_cfg exW)) (podFlow ++ FTick :: exRest) /\ Forall (sourcesAre exW (bs "shop") (bs "web-0") C) podFlow /\ Forall onlyDelivers exRest /\
  List.length (allAttempts 10 (seenOps [] podRun)) = 3%nat /\ List.length (filter (counted C true None) (allAttempts 10 (seenOps [] podRun))) = 1%nat /\
  List.length (filter (counted C false (Some (-111))) (allAttempts 10 (seenOps [] podRun))) = 1%nat /\
  exists outs st, frun exW f0 (podFlow ++ FTick :: exRest) = Ok (outs, st) /\ f_queue st = [] /\
    sumCalls "kindling_tcp_connect_total" (seriesOf (bs "shop") (bs "web-0") true None) outs = 1 /\
    sumCalls "kindling_tcp_connect_duration_nanoseconds_total" (seriesOf (bs "shop") (bs "web-0") true None) outs = 300 /\
    sumCalls "kindling_tcp_connect_total" (seriesOf (bs "shop") (bs "web-0") false (Some (-111))) outs = 1.
Proof.
  cbv zeta. assert (R : lrun tcf {| l_chan := []; l_map := []; l_live := true |} podRun = podRan) by (vm_compute; reflexivity). unfold podFlow, podGroups.
  destruct podRan as [[[gss s]| |]|] eqn:E; [|discriminate E|discriminate E|discriminate E]. exists gss, s. split; [exact R|]. unfold podRan in E. injection E as <- <-.
  split; [unfold podRun; repeat (apply Forall_cons; [cbn; unfold noNat; first [lia|intros; discriminate]|]); apply Forall_nil|].
  split; [left; reflexivity|]. split; [exists "counter"; split; [reflexivity|discriminate]|]. split; [exists "counter"; split; [reflexivity|discriminate]|]. split; [apply Permutation_refl|].
  split; [unfold exRest; cbn [map app List.concat]; repeat (apply Forall_cons; [first [exact Logic.I | intros m; apply Permutation_refl |
    split; [intros N; exfalso; apply N; reflexivity|]; split; [apply portsFitb; vm_compute; reflexivity|intros m; apply Permutation_refl]]|]); apply Forall_nil|].
  split; [cbn [map List.concat app]; repeat (apply Forall_cons; [intros cid ip; reflexivity|]); apply Forall_nil|].
  split; [repeat (apply Forall_cons; [exact Logic.I|]); apply Forall_nil|]. split; [vm_compute; reflexivity|]. split; [vm_compute; reflexivity|]. split; [vm_compute; reflexivity|].
  match goal with |- context [frun exW f0 ?o] => destruct (frun exW f0 o) as [[outs st]| |] eqn:E; [|vm_compute in E; discriminate|vm_compute in E; discriminate] end.
  exists outs, st. vm_compute in E. injection E as <- <-. repeat split.
Qed.
