(** C70: what the request counters of a pod say about the socket events of its processes. *)
From Coq Require Import Sorting.Permutation.
From Verif Require Import Base Decimal AttrModel PoolModel KeyModel KeyProps AggModel AggSpec AggProofs SampleModel K8sModel EnrichModel EnrichSpec EventModel TcpModel PipeModel
  AdapterModel AdapterSpec OtelModel OtelSpec FlowModel FlowSpec FlowProps PairModel PairSpec PairProofs PairProps MsgModel TextModel LabelNames DetectModel DetectProps RecordModel RecordSpec RecordProofs FactoryModel RecordProps NetModel NetSpec NetProofs NetProofs2 NetProofs3 NetParsers NetProofs4.
Open Scope string_scope. Open Scope list_scope. Open Scope Z_scope.

Lemma counted_groups w ns p C q os : Forall (containersAre ns p C) os -> Forall (goodAround w) os ->
  zsum (map (inGroup q) (filter (servedBy ns p) os)) = zsum (map (counted C q) (networkGroups os)).
Proof.
  induction os as [|o os IH]; intros F G; [reflexivity|]. inversion F as [|? ? F1 F2]; subst. inversion G as [|? ? G1 G2]; subst. specialize (IH F2 G2).
  unfold networkGroups in *. cbn [filter flat_map]. rewrite map_app, zsum_app, <- IH. clear IH.
  destruct o as [g v d c it| | |]; cbn [servedBy]; try reflexivity. destruct (eqb (gname g) "net_request_metric_group"); cbn [andb]; [|reflexivity].
  cbn [map]. rewrite zsum_cons. unfold counted. cbn [containersAre] in F1. specialize (F1 (strOf (glabels g) "container_id")). unfold inPod in F1. rewrite F1.
  destruct (boolOf (glabels g) "is_server" && C (strOf (glabels g) "container_id")); cbn [map]; rewrite ?zsum_cons; cbn [inGroup zsum fold_right]; lia.
Qed.
Lemma net_good g os : In g (networkGroups os) <-> exists v d c it, In (FGroup g v d c it) os /\ gname g = "net_request_metric_group".
Proof.
  unfold networkGroups. rewrite in_flat_map. split.
  - intros (o & O & J). destruct o as [g0 v d c it| | |]; try destruct J. case_eqb (gname g0) "net_request_metric_group"; [|destruct J]. destruct J as [<-|[]]. eauto 8.
  - intros (v & d & c & it & O & N). eexists. split; [exact O|]. cbn beta iota. rewrite N. rewrite eqb_refl. left. reflexivity.
Qed.

(** The counters of a pod: over any history of socket events and scans of the network analyzer, from the start of the collector, when its records
    (in any order, among the groups of the other analyzers) went through the pipeline and the queue of the exporter is empty, the sum of a request
    counter over the series of the pod is the sum, over the conversations that ended and were served by the pod's containers, of the number 1, the
    time, or the bytes of the requests or responses (modulo 2^64, as the counters are int64). *)
Theorem C70_counters_of_a_pod : forall w an nos es n os b q ns p C,
  goodCollector w -> w_k8s w = true -> StorePodDetail (w_cfg w) = true -> In q quantities -> isCounter w (entityName q) -> ns <> bs "NOT_FOUND_INTERNAL" ->
  goodAnalyzer an -> Forall goodNop nos -> netRun an n0 nos = Ok (es, n) -> Forall oneRecord es ->
  Permutation (networkGroups os) (flat_map en_records es) -> (StoreTraceAsSpan (w_cfg w) = true -> forall r, In r (flat_map en_records es) -> protocolIs (glabels r) "redis" = false) ->
  Forall (goodAround (w_cfg w)) (os ++ FTick :: b) -> Forall (containersAre ns p C) os -> Forall onlyDelivers b -> zlen (os ++ FTick :: b) < 2 ^ 60 ->
  exists outs st, frun w f0 (os ++ FTick :: b) = Ok (outs, st) /\
    (f_queue st = [] -> s64 (sumCalls (entityName q) (podIs ns p) outs) = s64 (zsum (map (convQuantity q) (filter (servedIn C) (ended (an_conf an) nos))))).
Proof.
  intros w an nos es n os b q ns p C GC K8 PD Q IC NN GA GN R ONE PM RED GAR CA D L.
  assert (G : Forall (goodFlowOp (w_cfg w)) (os ++ FTick :: b)).
  { rewrite Forall_forall in *. intros o J. specialize (GAR o J). destruct o as [g v d c it| | |]; try exact GAR. destruct GAR as (G1 & G2 & G3). split; [|auto].
    destruct (string_dec (gname g) "net_request_metric_group") as [N|N]; [|exact (G1 N)].
    apply in_app_or in J. destruct J as [J|[J|J]]; [|discriminate|destruct (D _ J)].
    assert (X : In g (flat_map en_records es)) by (eapply Permutation_in; [exact PM|]; apply net_good; eauto 8).
    assert (X' := X). apply in_flat_map in X. destruct X as (en & E & X).
    destruct (record_of an nos es n (proj2 (Forall_forall _ _) GN) R (proj2 (Forall_forall _ _) ONE) en E) as (cv & r & _ & P & OK & RE & ND). rewrite RE in X. destruct X as [<-|[]].
    pose proof (run_reported an nos n0 es n (proj2 (Forall_forall _ _) GN) R) as REP. rewrite Forall_forall in REP.
    destruct (entry_counts an en (an_conf an) cv C q r GA OK P (REP en E) Q RE ND) as (_ & Z & _). apply Z. intros S. exact (RED S r X'). }
  destruct (C69_requests_of_a_pod w os b q ns p GC K8 PD Q IC NN G D L) as (outs & st & RUN & T). exists outs, st. split; [exact RUN|]. intros E. rewrite (T E).
  apply Forall_app in GAR. rewrite (counted_groups (w_cfg w) ns p C q os CA (proj1 GAR)). rewrite (zsum_perm _ _ _ PM). apply eqm_s64. exact (sum_records an nos es n GA GN R ONE C q Q).
Qed.
Print Assumptions C70_counters_of_a_pod.

(** ** Requests *)
Lemma requests_key k os : requestsOf (flat_map (happens k) os) = filter (fun e => eqb k (evKey e)) (requestEvents os).
Proof.
  unfold requestEvents. induction os as [|o os IH]; [reflexivity|]. cbn [flat_map]. unfold requestsOf in *. rewrite flat_map_app, filter_app, IH. f_equal. clear IH.
  destruct o as [ms e|ms now]; [|reflexivity]. cbn [happens]. generalize (tokensOf (NEvent ms e)) as l. induction l as [|t l IH]; [reflexivity|]. cbn [flat_map].
  rewrite flat_map_app, filter_app, IH. f_equal. destruct t as [x|x|x]; cbn [tokEv]; [destruct (eqb k (evKey x)); reflexivity| |destruct (eqb k (evKey x)); reflexivity].
  cbn [filter]. destruct (eqb k (evKey x)); reflexivity.
Qed.
Lemma no_continue k os : noContinue (flat_map (project k) (map plainOp os)).
Proof.
  rewrite <- happens_all. intros i J. apply in_flat_map in J. destruct J as (o & _ & J). destruct o as [ms e|ms now]; cbn [happens] in J.
  - apply in_flat_map in J. destruct J as (t & _ & J). destruct (eqb k (evKey (tokEv t))); [|destruct J]. destruct J as [<-|[]]. reflexivity.
  - destruct J as [<-|[]]. reflexivity.
Qed.
(** summing over the requests of the conversations that ended *)
Definition partyReq (C : bytes -> bool) (f : event -> Z) (g : conv) : Z := zsum (map (fun e => if servedEvent C e then f e else 0) (g_req g)).
Section Requests.
  Context (an : analyzer) (os : list nop) (es : list entry) (n : nstate) (GO : Forall goodNop os)
          (R : netRun an n0 os = Ok (es, n)) (ONE : Forall oneRecord es) (NP : st_map (n_pairs n) = []).
  Lemma all_requests k : flat_map g_req (snd (talk (an_conf an) None (flat_map (happens k) os))) = filter (fun e => eqb k (evKey e)) (requestEvents os).
  Proof.
    pose proof (C14_no_request_lost (an_conf an) k (map plainOp os) (no_continue k os)) as T. rewrite <- happens_all in T. pose proof (pairs_of an os es n GO R ONE k) as P.
    destruct (talk _ None _) as [cur done]. cbn [snd]. destruct P as (_ & P). rewrite NP in P. destruct cur; [discriminate|]. cbn [reqO] in T. rewrite app_nil_r in T. rewrite T. apply requests_key.
  Qed.
  Lemma requests_by_connection f : zsum (map f (requestEvents os)) = zsum (map (fun g => zsum (map f (g_req g))) (ended (an_conf an) os)).
  Proof.
    rewrite (zsum_by_key f evKey (connections os) (distinct_nodup _)).
    - unfold ended. rewrite zsum_flat. f_equal. apply map_ext_in. intros k _. rewrite <- (all_requests k), zsum_flat. reflexivity.
    - intros e J. unfold connections. rewrite distinct_in. unfold requestEvents in J. apply in_flat_map in J. destruct J as (o & O & J). apply in_flat_map in J. destruct J as (t & T & J).
      destruct t as [x|x|x]; try destruct J as [<-|[]]; try destruct J. apply in_map_iff. exists (KReq x). split; [reflexivity|]. apply in_flat_map. exists o. auto.
  Qed.
  Lemma ended_in g : In g (ended (an_conf an) os) -> exists k, okConv (fun e => goodEvent e /\ evKey e = k) g /\ forall e, In e (g_req g) -> In e (requestEvents os).
  Proof.
    intros J. unfold ended in J. apply in_flat_map in J. destruct J as (k & _ & J). exists k. pose proof (done_ok an os GO k) as D. rewrite Forall_forall in D. split; [exact (D g J)|].
    intros e E. assert (X : In e (flat_map g_req (snd (talk (an_conf an) None (flat_map (happens k) os))))) by (apply in_flat_map; eauto). rewrite all_requests in X. apply filter_In in X. apply X.
  Qed.
  Lemma served_requests C g : sameParty (requestEvents os) -> In g (ended (an_conf an) os) -> Forall (fun e => servedEvent C e = servedIn C g) (g_req g).
  Proof.
    intros SP J. destruct (ended_in g J) as (k & OK & INC). destruct OK as (_ & _ & _ & K & _ & S). unfold servedIn, opener.
    destruct (g_req g) as [|a l] eqn:Q; [constructor|]. specialize (S _ _ eq_refl). rewrite Forall_forall in *. intros e E.
    assert (X : e_cid e = e_cid a /\ e_role e = e_role a).
    { destruct E as [<-|E]; [auto|]. apply SP; [apply INC; right; exact E|apply INC; left; reflexivity| |exact (S e E)]. rewrite (proj2 (K e (or_intror E))), (proj2 (K a (or_introl eq_refl))). reflexivity. }
    unfold servedEvent. destruct X as (-> & ->). reflexivity.
  Qed.
  Lemma sum_requests C f : sameParty (requestEvents os) ->
    zsum (map f (filter (servedEvent C) (requestEvents os))) = zsum (map (fun g => zsum (map f (g_req g))) (filter (servedIn C) (ended (an_conf an) os))).
  Proof.
    intros SP. rewrite <- !zsum_filter. rewrite requests_by_connection. f_equal. apply map_ext_in. intros g J. pose proof (served_requests C g SP J) as S. revert S. generalize (g_req g) as l.
    induction l as [|e l IH]; intros F; cbn [map]; [destruct (servedIn C g); reflexivity|]. inversion F as [|? ? F1 F2]; subst. specialize (IH F2). rewrite !zsum_cons, F1, IH.
    destruct (servedIn C g); lia.
  Qed.
End Requests.

(** Once no conversation is pending, the bytes counted for a pod are those of all the requests its containers received. *)
Theorem C70_request_bytes_of_a_pod : forall w an nos es n os b ns p C,
  goodCollector w -> w_k8s w = true -> StorePodDetail (w_cfg w) = true -> isCounter w "kindling_entity_request_receive_bytes_total" -> ns <> bs "NOT_FOUND_INTERNAL" ->
  goodAnalyzer an -> Forall goodNop nos -> netRun an n0 nos = Ok (es, n) -> Forall oneRecord es -> st_map (n_pairs n) = [] -> sameParty (requestEvents nos) ->
  Permutation (networkGroups os) (flat_map en_records es) -> (StoreTraceAsSpan (w_cfg w) = true -> forall r, In r (flat_map en_records es) -> protocolIs (glabels r) "redis" = false) ->
  Forall (goodAround (w_cfg w)) (os ++ FTick :: b) -> Forall (containersAre ns p C) os -> Forall onlyDelivers b -> zlen (os ++ FTick :: b) < 2 ^ 60 ->
  exists outs st, frun w f0 (os ++ FTick :: b) = Ok (outs, st) /\
    (f_queue st = [] -> s64 (sumCalls "kindling_entity_request_receive_bytes_total" (podIs ns p) outs) = s64 (zsum (map resVal (filter (servedEvent C) (requestEvents nos))))).
Proof.
  intros w an nos es n os b ns p C GC K8 PD IC NN GA GN R ONE NP SP PM RED GAR CA D L.
  destruct (C70_counters_of_a_pod w an nos es n os b "request_io" ns p C GC K8 PD) as (outs & st & RUN & T); try assumption; [right; right; left; reflexivity|].
  exists outs, st. split; [exact RUN|]. intros E. change "kindling_entity_request_receive_bytes_total" with (entityName "request_io"). rewrite (T E). f_equal.
  rewrite (sum_requests an nos es n GN R ONE NP C resVal SP). reflexivity.
Qed.
Print Assumptions C70_request_bytes_of_a_pod.

Lemma turns_next c w cur i l : turns w (i :: l) -> itemOk (fun _ => True) i ->
  match cur with Some g => (List.length (g_req g) <= 1)%nat /\ (g_req g <> [] -> g_resp g = [] -> w = true) | None => True end ->
  let '(g, out) := next c cur i in exists w', turns w' l /\ Forall (fun g => (List.length (g_req g) <= 1)%nat) out /\
  match g with Some g => (List.length (g_req g) <= 1)%nat /\ (g_req g <> [] -> g_resp g = [] -> w' = true) | None => True end.
Proof.
  intros T OK I. assert (FC : forall e, (List.length (g_req {| g_con := Some e; g_req := []; g_resp := [] |}) <= 1)%nat) by (intros e; cbn; lia).
  destruct i as [b [e|e|e]|b now]; cbn [turns itemOk] in *; cbn [next].
  - destruct OK as (-> & _). assert (N : (List.length (g_req {| g_con := Some e; g_req := []; g_resp := [] |}) <= 1)%nat /\ (g_req {| g_con := Some e; g_req := []; g_resp := [] |} <> [] -> g_resp {| g_con := Some e; g_req := []; g_resp := [] |} = [] -> false = true)).
    { cbn [g_req]. split; [cbn; lia|congruence]. }
    destruct cur as [g|]; [|exists false; split; [exact T|]; split; [constructor|exact N]]. destruct I as (I & _).
    assert (O : Forall (fun g => (List.length (g_req g) <= 1)%nat) [g]) by (constructor; [exact I|constructor]).
    destruct (g_req g); [destruct (g_con g); [destruct (connectStale _ _ _)|]|]; cbn [hand]; (exists false; split; [exact T|]; split; [first [exact O|constructor]|exact N]).
  - destruct OK as (-> & _). destruct T as (-> & T). destruct cur as [g|]; [|exists true; split; [exact T|]; split; [constructor|]; split; [cbn; lia|reflexivity]]. destruct I as (I1 & I2).
    destruct (g_req g) as [|f l'] eqn:Q; [exists true; split; [exact T|]; split; [constructor|]; split; [cbn; lia|reflexivity]|].
    destruct (g_resp g) as [|r rs]; [exfalso; assert (false = true) by (apply I2; [discriminate|reflexivity]); discriminate|]. cbn [isNil negb orb hand].
    exists true. split; [exact T|]. split; [constructor; [rewrite Q; exact I1|constructor]|]. split; [cbn; lia|reflexivity].
  - destruct OK as (-> & _). destruct cur as [g|]; [|exists false; split; [exact T|]; split; [constructor|exact Logic.I]]. destruct I as (I1 & I2).
    destruct (g_req g) as [|f l'] eqn:Q; (exists false; split; [exact T|]; split; [constructor|]); [rewrite Q; split; [cbn; lia|congruence]|].
    cbn [g_req g_resp]. split; [exact I1|]. intros _ X. destruct (g_resp g); discriminate.
  - destruct cur as [g|]; [|exists w; split; [exact T|]; split; [constructor|exact Logic.I]]. destruct I as (I1 & I2). subst b.
    destruct (overdue c now g); cbn [hand]; exists w; (split; [exact T|]; split; [first [constructor; [exact I1|constructor]|constructor]|]); [exact Logic.I|auto].
Qed.
Lemma turns_talk c : forall l w cur, turns w l -> Forall (itemOk (fun _ => True)) l ->
  match cur with Some g => (List.length (g_req g) <= 1)%nat /\ (g_req g <> [] -> g_resp g = [] -> w = true) | None => True end ->
  Forall (fun g => (List.length (g_req g) <= 1)%nat) (snd (talk c cur l)).
Proof.
  induction l as [|i l IH]; intros w cur T F I; cbn [talk]; [constructor|]. inversion F as [|? ? F1 F2]; subst. pose proof (turns_next c w cur i l T F1 I) as N.
  destruct (next c cur i) as [g1 o1]. destruct N as (w' & T' & O & I'). specialize (IH w' g1 T' F2 I'). destruct (talk c g1 l) as [g2 o2]. cbn [snd] in *. apply Forall_app. auto.
Qed.
(** the connects of conversations are connects of the history *)
Definition connsOk (i : item) : Prop := match i with IEv b t => b = false /\ (forall e, t = KConn e -> e_role e = false) | ITick b _ => b = false end.
Lemma conns_talk c : forall l cur, Forall connsOk l -> match cur with Some g => forall e, g_con g = Some e -> e_role e = false | None => True end ->
  Forall (fun g => forall e, g_con g = Some e -> e_role e = false) (snd (talk c cur l)).
Proof.
  induction l as [|i l IH]; intros cur F I; cbn [talk]; [constructor|]. inversion F as [|? ? F1 F2]; subst.
  assert (N : let '(g, out) := next c cur i in Forall (fun g => forall e, g_con g = Some e -> e_role e = false) out /\ match g with Some g => forall e, g_con g = Some e -> e_role e = false | None => True end).
  { destruct i as [b [e|e|e]|b now]; cbn [connsOk] in F1; cbn [next].
    - destruct F1 as (-> & F1). specialize (F1 e eq_refl). assert (X : forall x, Some e = Some x -> e_role x = false) by (intros x Y; injection Y as <-; exact F1).
      destruct cur as [g|]; [|split; [constructor|exact X]]. destruct (g_req g); [destruct (g_con g) eqn:GC; [destruct (connectStale _ _ _)|]|]; cbn [hand];
        (split; [first [constructor; [first [exact I|rewrite GC; exact I]|constructor]|constructor]|exact X]).
    - destruct F1 as (-> & _). destruct cur as [g|]; [|split; [constructor|discriminate]]. destruct (g_req g); [split; [constructor|exact I]|]. destruct (_ || _); cbn [hand]; (split; [first [constructor; [exact I|constructor]|constructor]|]); [discriminate|exact I].
    - destruct F1 as (-> & _). destruct cur as [g|]; [|split; [constructor|exact I]]. destruct (g_req g); (split; [constructor|exact I]).
    - subst b. destruct cur as [g|]; [|split; [constructor|exact I]]. destruct (overdue c now g); cbn [hand]; (split; [first [constructor; [exact I|constructor]|constructor]|]); [exact Logic.I|exact I]. }
  destruct (next c cur i) as [g1 o1]. destruct N as (O & I'). specialize (IH g1 F2 I'). destruct (talk c g1 l) as [g2 o2]. cbn [snd] in *. apply Forall_app. auto.
Qed.
(** If moreover every request waits for the response to the one before it, and connects are of clients, the requests counted are the requests. *)
Theorem C70_number_of_requests : forall w an nos es n os b ns p C,
  goodCollector w -> w_k8s w = true -> StorePodDetail (w_cfg w) = true -> isCounter w "kindling_entity_request_total" -> ns <> bs "NOT_FOUND_INTERNAL" ->
  goodAnalyzer an -> Forall goodNop nos -> netRun an n0 nos = Ok (es, n) -> Forall oneRecord es -> st_map (n_pairs n) = [] -> sameParty (requestEvents nos) ->
  (forall k, turns false (flat_map (happens k) nos)) -> clientsConnect nos ->
  Permutation (networkGroups os) (flat_map en_records es) -> (StoreTraceAsSpan (w_cfg w) = true -> forall r, In r (flat_map en_records es) -> protocolIs (glabels r) "redis" = false) ->
  Forall (goodAround (w_cfg w)) (os ++ FTick :: b) -> Forall (containersAre ns p C) os -> Forall onlyDelivers b -> zlen (os ++ FTick :: b) < 2 ^ 60 ->
  exists outs st, frun w f0 (os ++ FTick :: b) = Ok (outs, st) /\
    (f_queue st = [] -> s64 (sumCalls "kindling_entity_request_total" (podIs ns p) outs) = s64 (zlen (filter (servedEvent C) (requestEvents nos)))).
Proof.
  intros w an nos es n os b ns p C GC K8 PD IC NN GA GN R ONE NP SP TU CC PM RED GAR CA D L.
  destruct (C70_counters_of_a_pod w an nos es n os b "request_count" ns p C GC K8 PD) as (outs & st & RUN & T); try assumption; [left; reflexivity|].
  exists outs, st. split; [exact RUN|]. intros E. change "kindling_entity_request_total" with (entityName "request_count"). rewrite (T E). f_equal.
  assert (Z1 : forall l : list event, zlen l = zsum (map (fun _ => 1) l)) by (clear; unfold zlen; induction l as [|e l IH]; [reflexivity|]; cbn [map List.length]; rewrite zsum_cons, <- IH; lia).
  rewrite Z1, (sum_requests an nos es n GN R ONE NP C (fun _ => 1) SP). f_equal. apply map_ext_in. intros g J. apply filter_In in J. destruct J as (J & S).
  unfold convQuantity. rewrite eqb_refl. unfold ended in J. apply in_flat_map in J. destruct J as (k & _ & J).
  assert (LE : (List.length (g_req g) <= 1)%nat).
  { pose proof (turns_talk (an_conf an) (flat_map (happens k) nos) false None (TU k) (happens_items (fun _ => True) k nos (fun _ _ => Logic.I)) Logic.I) as X. rewrite Forall_forall in X. exact (X g J). }
  destruct (g_req g) as [|e [|e' l]] eqn:Q; [|reflexivity|cbn [List.length] in LE; lia]. exfalso. unfold servedIn, opener in S. rewrite Q in S. destruct (g_con g) as [e|] eqn:CO; [|discriminate].
  assert (ROLE : e_role e = false).
  { assert (X : Forall (fun g => forall e, g_con g = Some e -> e_role e = false) (snd (talk (an_conf an) None (flat_map (happens k) nos)))).
    { apply conns_talk; [|exact Logic.I]. apply Forall_forall. intros i I. apply in_flat_map in I. destruct I as (o & O & I). destruct o as [ms x|ms now]; cbn [happens] in I.
      - apply in_flat_map in I. destruct I as (t & TT & I). destruct (eqb k (evKey (tokEv t))); [|destruct I]. destruct I as [<-|[]]. split; [reflexivity|].
        intros y ->. apply CC. apply in_flat_map. exists (NEvent ms x). auto.
      - destruct I as [<-|[]]. reflexivity. }
    rewrite Forall_forall in X. exact (X g J e CO). }
  rewrite ROLE in S. discriminate.
Qed.
Print Assumptions C70_number_of_requests.

(** A pair handed over gives one record, unless the protocol is DNS, or nothing: because its request waits for more ("100 Continue", it is put back
    to the next pair), or because it is unanswered and its parser says that no answer is due (a MySQL quit). *)
Theorem C70_one_record : forall an m d x en d', (forall n p, an_parser an n = Some p -> pr_multi p = true -> pr_name p = "dns") ->
  report an m d x = Ok (en, d') ->
  (exists r, en_records en = [r]) \/
  (exists p, an_parser an p <> None /\ (forall q, an_parser an p = Some q -> pr_name q = "dns")) \/
  (en_records en = [] /\ (en_back en = true \/
    p_resp x = None /\ exists p q rq a, an_parser an p = Some q /\ p_req x = Some rq /\ pr_request q (evsData rq) = Ok (true, a) /\ asBool (aget (m_attrs a) "one_way") = true)).
Proof.
  intros an m d x en d' MU E. unfold report in E. destruct (parseProtocols _ _ _ _ _ _) as [[v s]| |] eqn:V; cbn [bind fst snd] in E; try discriminate.
  apply verdict_inv in V. destruct v as [|p q|p].
  - left. unfold getConnectFail in E. destruct (p_con x); [|discriminate]. destruct (baseLabels _ _ _ _ _ _) as [b| |]; cbn [bind] in E; try discriminate.
    destruct (updAll _ _) as [g| |]; cbn [bind] in E; try discriminate. injection E as <- _. eexists. reflexivity.
  - destruct V as (H & V). unfold parseWith in V. destruct (an_parser an p) as [pr|] eqn:AP; [|discriminate].
    destruct (parseProtocol (an_rconf an) (me_pool m) pr x (me_nat m)) as [[l|]| |] eqn:PP; try discriminate.
    2:{ injection V as <-. discriminate E. }
    2:{ injection V as <-. discriminate E. }
    injection V as <-. cbn [bind fst snd] in E. injection E as <- <-. cbn [en_records en_back].
    unfold parseProtocol in PP. unfold putsBack. destruct (pr_multi pr) eqn:M.
    + right. left. exists p. split; [congruence|]. intros q Q. rewrite AP in Q. injection Q as <-. exact (MU _ _ AP M).
    + destruct (p_req x) as [rq|] eqn:RQ; [|discriminate]. destruct (pr_request pr (evsData rq)) as [[ok q]| |] eqn:PQ; cbn [bind fst snd] in PP; try discriminate.
      destruct ok; cbn [negb] in PP; [|discriminate]. destruct (p_resp x) as [rs|] eqn:RSP.
      * destruct (pr_response pr (evsData rs) (m_attrs q)) as [[ok2 q2]| |] eqn:PS; cbn [bind fst snd] in PP; try discriminate. destruct ok2; cbn [negb] in PP; [|discriminate].
        destruct (getRecords _ _ _ _ _ _) as [l'| |] eqn:G; cbn [bind] in PP; try discriminate. injection PP as ->. unfold getRecords in G. rewrite RQ in G.
        destruct (ahas (m_attrs q2) LHttpContinue); [injection G as <-; right; right; auto|].
        destruct (fillLabels _ _ _ _ _ _ _ _ _); cbn [bind] in G; try discriminate. injection G as <-. left. eexists. reflexivity.
      * destruct (asBool (aget (m_attrs q) LOneway)) eqn:OW.
        -- injection PP as <-. right. right. split; [reflexivity|]. right. split; [reflexivity|]. exists p, pr, rq, q. auto.
        -- destruct (getRecords _ _ _ _ _ _) as [l'| |] eqn:G; cbn [bind] in PP; try discriminate. injection PP as ->. unfold getRecords in G. rewrite RQ in G.
           destruct (ahas (m_attrs q) LHttpContinue); [injection G as <-; right; right; auto|].
           destruct (fillLabels _ _ _ _ _ _ _ _ _); cbn [bind] in G; try discriminate. injection G as <-. left. eexists. reflexivity.
  - destruct (getRecords _ _ _ _ _ _) as [l'| |] eqn:G; cbn [bind] in E; try discriminate. injection E as <- <-. cbn [en_records]. unfold getRecords in G. destruct (p_req x); [|discriminate]. cbn beta iota in G.
    destruct (fillLabels _ _ _ _ _ _ _ _ _); cbn [bind] in G; try discriminate. injection G as <-. left. eexists. reflexivity.
Qed.
Print Assumptions C70_one_record.

(** ** Example *)
(** An analyzer with the parsers of the collector. *)
Definition exAnalyzer : analyzer :=
  {| an_conf := {| c_snaplen := 1024; c_connTimeout := 100; c_fdReuse := 15; c_noResp := 120; c_dnsPorts := [53] |}; an_rconf := exConf;
     an_ports := startConf [] ["http"; "mysql"; "redis"] ["http"; "kafka"; "mysql"; "redis"; "dubbo"; "dns"; "rocketmq"; NOSUPPORT] [];
     an_parser := withParsers (factory (fun _ => None) (fun u => u) (fun _ => None) (fun _ => []) false) |}.
Lemma exAnalyzer_good : goodAnalyzer exAnalyzer.
Proof.
  intros n p E. unfold exAnalyzer in E. cbn [an_parser] in E. unfold withParsers in E. apply find_some in E. apply (C70_shipped_parsers (fun u => u) (fun _ => None) (fun _ => None) (fun _ => []) false); [discriminate|apply E].
Qed.
Definition netEvent (name : string) (server : bool) (cid : string) (pid ts : Z) (d : string) : event :=
  {| e_name := name; e_ts := ts; e_lat := 10; e_net := true; e_params := 2;
     e_attrs := [{| kv_key := "res"; kv_type := EventModel.TInt64; kv_val := leBytes 8 (zlen (bs d)) |}; {| kv_key := "data"; kv_type := EventModel.TBytebuf; kv_val := bs d |}];
     e_pid := pid; e_tid := 8; e_comm := "app"; e_cid := cid; e_fd := 4; e_proto := L4Tcp; e_role := server;
     e_sip := [16777226]; e_dip := [33554442]; e_sport := 4000; e_dport := 80 |}.
Definition exMenv : menv := {| me_pool := fun _ => createDataGroup 5; me_nat := None |}.
Definition exGet (ts : Z) : nop := NEvent (fun _ => exMenv) (netEvent "read" true "aaaaaaaaaaaa" 7 ts "GET /a HTTP/1.1").
(** The pod answers two requests, the second with an error; a client elsewhere gets no answer. *)
Definition exNet : list nop :=
  [exGet 1000; NEvent (fun _ => exMenv) (netEvent "write" true "aaaaaaaaaaaa" 7 5000 "HTTP/1.1 200 OK");
   NEvent (fun _ => exMenv) (netEvent "write" false "cccccccccccc" 9 6000 "hello");
   exGet 9000; NEvent (fun _ => exMenv) (netEvent "write" true "aaaaaaaaaaaa" 7 12000 "HTTP/1.1 404 Not Found"); NScan (fun _ => exMenv) (200 * 1000000000)].
Lemma exMenv_good : goodEnv exMenv.
Proof. split; [|discriminate]. intros n. split; [reflexivity|]. split; [reflexivity|]. split; [constructor|]. discriminate. Qed.
Lemma bs_bytes s : Forall is_byte (bs s).
Proof. unfold bs. apply Forall_map, Forall_forall. intros c _. unfold is_byte. pose proof (nat_ascii_bounded c). lia. Qed.
Lemma exEvent_good name server cid pid ts d : 0 <= pid < 2 ^ 32 -> goodEvent (netEvent name server cid pid ts d).
Proof.
  intros P. repeat split; try exact (proj1 P); try exact (proj2 P); try (cbn [netEvent e_tid e_sport e_dport]; lia).
  unfold EventModel.getData, getUserAttribute. cbn [netEvent e_params e_attrs]. cbn -[bs]. apply bs_bytes.
Qed.
Lemma exNet_good : Forall goodNop exNet.
Proof.
  repeat (apply Forall_cons; [first [split; [apply exEvent_good; lia|intros n; exact exMenv_good]|intros k; exact exMenv_good]|]). apply Forall_nil.
Qed.
Definition exRan : res (list entry * nstate) := Eval vm_compute in netRun exAnalyzer n0 exNet.
Definition exRecords : list group := match exRan with Ok (es, _) => flat_map en_records es | _ => [] end.
Definition exHandover : list flow_op := map handover exRecords.
Lemma exPod cid : inPod exView (bs "shop") (bs "web-0") cid = eqb cid (bs "aaaaaaaaaaaa").
Proof.
  assert (X : exists c, k_cids (v_k8s exView) = [(bs "aaaaaaaaaaaa", c)] /\
    eqb (pi_ns (podAt (k_pods (v_k8s exView)) (ci_pod c))) (bs "shop") && eqb (pi_name (podAt (k_pods (v_k8s exView)) (ci_pod c))) (bs "web-0") = true) by (eexists; split; vm_compute; reflexivity).
  destruct X as (c & X & Y). unfold inPod. rewrite X. cbn [aget]. destruct (eqb cid (bs "aaaaaaaaaaaa")); [exact Y|reflexivity].
Qed.
(** The hypotheses of the three theorems hold for it, and the counters say two requests of thirty bytes. *)
Example C70_example : exists es n, netRun exAnalyzer n0 exNet = Ok (es, n) /\ Forall oneRecord es /\ st_map (n_pairs n) = [] /\ sameParty (requestEvents exNet) /\
  (forall k, turns false (flat_map (happens k) exNet)) /\ clientsConnect exNet /\ Permutation (networkGroups exHandover) (flat_map en_records es) /\
  Forall (goodAround exFlowCfg) (exHandover ++ FTick :: exRest) /\ Forall (containersAre (bs "shop") (bs "web-0") (fun cid => eqb cid (bs "aaaaaaaaaaaa"))) exHandover /\ Forall onlyDelivers exRest /\
  List.length es = 3%nat /\ zlen (filter (servedEvent (fun cid => eqb cid (bs "aaaaaaaaaaaa"))) (requestEvents exNet)) = 2 /\
  exists outs st, frun exW f0 (exHandover ++ FTick :: exRest) = Ok (outs, st) /\ f_queue st = [] /\
    sumCalls "kindling_entity_request_total" (podIs (bs "shop") (bs "web-0")) outs = 2 /\
    sumCalls "kindling_entity_request_receive_bytes_total" (podIs (bs "shop") (bs "web-0")) outs = 30 /\
    sumCalls "kindling_entity_request_duration_nanoseconds_total" (podIs (bs "shop") (bs "web-0")) outs = 7020.
Proof.
  assert (R : netRun exAnalyzer n0 exNet = exRan) by (vm_compute; reflexivity). unfold exHandover, exRecords. destruct exRan as [[es n]| |] eqn:E; [|discriminate E|discriminate E]. exists es, n.
  split; [exact R|]. unfold exRan in E. injection E as <- <-.
  split; [repeat (apply Forall_cons; [eexists; split; [reflexivity|vm_compute; reflexivity]|]); apply Forall_nil|]. split; [reflexivity|].
  split.
  { intros a b A B. vm_compute in A, B. destruct A as [<-|[<-|[<-|[]]]], B as [<-|[<-|[<-|[]]]]; intros K _; first [split; reflexivity|vm_compute in K; discriminate K]. }
  split.
  { intros k.
    assert (X1 : tokensOf (NEvent (fun _ => exMenv) (netEvent "read" true "aaaaaaaaaaaa" 7 1000 "GET /a HTTP/1.1")) = [KReq (netEvent "read" true "aaaaaaaaaaaa" 7 1000 "GET /a HTTP/1.1")]) by (vm_compute; reflexivity).
    assert (X2 : tokensOf (NEvent (fun _ => exMenv) (netEvent "write" true "aaaaaaaaaaaa" 7 5000 "HTTP/1.1 200 OK")) = [KResp (netEvent "write" true "aaaaaaaaaaaa" 7 5000 "HTTP/1.1 200 OK")]) by (vm_compute; reflexivity).
    assert (X3 : tokensOf (NEvent (fun _ => exMenv) (netEvent "write" false "cccccccccccc" 9 6000 "hello")) = [KReq (netEvent "write" false "cccccccccccc" 9 6000 "hello")]) by (vm_compute; reflexivity).
    assert (X4 : tokensOf (NEvent (fun _ => exMenv) (netEvent "read" true "aaaaaaaaaaaa" 7 9000 "GET /a HTTP/1.1")) = [KReq (netEvent "read" true "aaaaaaaaaaaa" 7 9000 "GET /a HTTP/1.1")]) by (vm_compute; reflexivity).
    assert (X5 : tokensOf (NEvent (fun _ => exMenv) (netEvent "write" true "aaaaaaaaaaaa" 7 12000 "HTTP/1.1 404 Not Found")) = [KResp (netEvent "write" true "aaaaaaaaaaaa" 7 12000 "HTTP/1.1 404 Not Found")]) by (vm_compute; reflexivity).
    unfold exNet, exGet. cbn [flat_map happens]. rewrite X1, X2, X3, X4, X5. cbn [flat_map tokEv].
    assert (EK : forall n s c p t d, evKey (netEvent n s c p t d) = (p, 4)) by reflexivity. rewrite !EK.
    destruct (eqb k (7, 4)) eqn:K1, (eqb k (9, 4)) eqn:K2; cbn [app turns]; first [apply eqb_true in K1; apply eqb_true in K2; congruence | repeat split]. }
  split; [intros e J; vm_compute in J; repeat (destruct J as [J|J]; [discriminate J|]); destruct J|].
  split; [apply Permutation_refl|].
  split; [unfold exRest; cbn [map app flat_map en_records]; repeat (apply Forall_cons; [first [exact Logic.I | intros m; apply Permutation_refl |
    split; [intros N; exfalso; apply N; reflexivity|]; split; [apply portsFitb; vm_compute; reflexivity|intros m; apply Permutation_refl]]|]); apply Forall_nil|].
  split; [cbn [map flat_map en_records app]; repeat (apply Forall_cons; [intros cid; apply exPod|]); apply Forall_nil|].
  split; [repeat (apply Forall_cons; [exact Logic.I|]); apply Forall_nil|]. split; [reflexivity|]. split; [vm_compute; reflexivity|].
  match goal with |- context [frun exW f0 ?o] => destruct (frun exW f0 o) as [[outs st]| |] eqn:E; [|vm_compute in E; discriminate|vm_compute in E; discriminate] end.
  exists outs, st. vm_compute in E. injection E as <- <-. repeat split.
Qed.
