(** C06: sampling of single-request traces, and aggregation of every request. *)
From Verif Require Import Base Decimal AttrModel PoolModel KeyModel KeyProps AggModel AggSpec AggProofs AggProofs2 AggProps SampleModel.
Open Scope string_scope.

(** ** Specification *)
Definition slow (g : group) : Prop := aget (glabels g) "is_slow" = Some (BV true).
Definition failed (g : group) : Prop := aget (glabels g) "is_error" = Some (BV true).
Definition typed_error (g : group) : Prop := exists n, aget (glabels g) "error_type" = Some (IV n) /\ (0 < n)%Z.
Definition normal (g : group) : Prop := ~ slow g /\ ~ failed g /\ ~ typed_error g.
(** what [Consume] hands to the next consumer *)
Definition forwarded km cfg draw g s (out : list group) : Prop := exists s', consume km cfg draw g s = Ok (out, s').

Lemma lbool_iff l n : lbool l n = true <-> aget l n = Some (BV true).
Proof. unfold lbool, asBool. destruct (aget l n) as [[| |b]|]; try (split; [discriminate|congruence]). destruct b; split; congruence. Qed.
Lemma lint_iff l n : ((0 <? lint l n) = true)%Z <-> exists z, aget l n = Some (IV z) /\ (0 < z)%Z.
Proof.
  unfold lint, asInt. destruct (aget l n) as [[|z|]|]; cbn; try (split; [discriminate|intros (z' & E & _); discriminate]).
  rewrite Z.ltb_lt. split; [eauto|]. intros (z' & E & L). inversion E; subst. exact L.
Qed.

Lemma sampled_iff cfg draw g : isSampled cfg draw (glabels g) = true <->
  (slow g /\ (draw < slowRate cfg)%Z) \/ (failed g /\ (draw < errorRate cfg)%Z) \/ (normal g /\ (draw < normalRate cfg)%Z).
Proof.
  unfold isSampled, isAbnormal, slow, failed, normal, typed_error, slow, failed.
  rewrite <- !lbool_iff. rewrite <- lint_iff.
  destruct (lbool (glabels g) "is_slow"), (lbool (glabels g) "is_error"), (0 <? lint (glabels g) "error_type")%Z;
    cbn [orb]; rewrite ?andb_true_r, ?andb_false_r;
    destruct (Z.ltb_spec draw (slowRate cfg)), (Z.ltb_spec draw (errorRate cfg)), (Z.ltb_spec draw (normalRate cfg));
    intuition (try discriminate; try congruence; try lia).
Qed.

(** The trace of a request is forwarded exactly when its draw falls below the rate of a kind it belongs to; it carries the
    labels, metrics and time of the request. *)
Theorem C06_trace_decision : forall km cfg draw g s out,
  gname g = netRequestGroup -> forwarded km cfg draw g s out ->
  (out = [rename g singleNetRequestGroup] /\
   ((slow g /\ (draw < slowRate cfg)%Z) \/ (failed g /\ (draw < errorRate cfg)%Z) \/ (normal g /\ (draw < normalRate cfg)%Z)))
  \/ (out = [] /\
   ~ ((slow g /\ (draw < slowRate cfg)%Z) \/ (failed g /\ (draw < errorRate cfg)%Z) \/ (normal g /\ (draw < normalRate cfg)%Z))).
Proof.
  intros km cfg draw g s out N (s' & C). unfold consume in C. rewrite N, eqb_refl in C.
  destruct (aggregate km s _ _) as [s1| |]; cbn [bind] in C; try discriminate. inversion C; subst out.
  rewrite <- sampled_iff. destruct (isSampled cfg draw (glabels g)); [left|right]; split; congruence.
Qed.
Print Assumptions C06_trace_decision.

(** Rate 100 always forwards, rate 0 never does. *)
Theorem C06_rates_0_and_100 : forall km cfg draw g s out,
  gname g = netRequestGroup -> (0 <= draw < 100)%Z -> forwarded km cfg draw g s out ->
  (slow g -> slowRate cfg = 100%Z -> out <> []) /\
  (failed g -> errorRate cfg = 100%Z -> out <> []) /\
  (normal g -> normalRate cfg = 100%Z -> out <> []) /\
  (normal g -> normalRate cfg = 0%Z -> out = []) /\
  (slowRate cfg = 0%Z -> errorRate cfg = 0%Z -> normalRate cfg = 0%Z -> out = []).
Proof.
  intros km cfg draw g s out N D F. pose proof (C06_trace_decision km cfg draw g s out N F) as T.
  destruct T as [[-> C]|[-> C]]; repeat split; intros; try discriminate; try reflexivity; exfalso;
    unfold normal in *; intuition lia.
Qed.
Print Assumptions C06_rates_0_and_100.

(** A request whose only sign of failure is its error type (no slow or error flag) is never traced, whatever the rates. *)
Theorem C06_error_type_traced_refuted : exists km cfg g s,
  gname g = netRequestGroup /\ typed_error g /\ slowRate cfg = 100%Z /\ errorRate cfg = 100%Z /\ normalRate cfg = 100%Z /\
  forall draw, (0 <= draw < 100)%Z -> forwarded km cfg draw g s [].
Proof.
  exists [], {| normalRate := 100; slowRate := 100; errorRate := 100 |},
    {| gname := netRequestGroup; gmetrics := []; glabels := [("error_type", IV 2)]; gts := 0 |}, [].
  split; [reflexivity|]. split; [exists 2%Z; split; [reflexivity|lia]|]. split; [reflexivity|]. split; [reflexivity|]. split; [reflexivity|].
  intros draw D. eexists. unfold consume. cbn [gname]. rewrite eqb_refl.
  assert (S : isSampled {| normalRate := 100; slowRate := 100; errorRate := 100 |} draw
     (glabels {| gname := netRequestGroup; gmetrics := []; glabels := [("error_type", IV 2)]; gts := 0 |}) = false).
  { cbn. rewrite !andb_false_r. reflexivity. }
  rewrite S. reflexivity.
Qed.
Print Assumptions C06_error_type_traced_refuted.

(** ** Aggregation does not depend on sampling *)
(** The aggregation calls a history amounts to. *)
Definition agg_call (o : proc_op) : agg_op :=
  match o with
  | PTick => ODump
  | PConsume _ g =>
      if eqb (gname g) netRequestGroup then OAgg (rename g aggregatedNetRequestGroup) netSelectors
      else OAgg g (if eqb (gname g) tcpRttGroup || eqb (gname g) tcpRetransmitGroup || eqb (gname g) tcpDropGroup then tcpSelectors
                   else if eqb (gname g) tcpConnectGroup then tcpConnectSelectors else netSelectors)
  end.
(** Traces only: what is forwarded during Consume. *)
Definition same_group (a b : proc_op) : Prop :=
  match a, b with PConsume _ g, PConsume _ g' => g = g' | PTick, PTick => True | _, _ => False end.
(** The groups exported at ticks. *)
Fixpoint tick_exports (os : list proc_op) (es : list (list group)) : list (list group) :=
  match os, es with
  | PTick :: os', e :: es' => e :: tick_exports os' es'
  | PConsume _ _ :: os', _ :: es' => [] :: tick_exports os' es'
  | _, _ => []
  end.

Lemma proc_agg_step km cfg s o : 
  match proc_step km cfg s o, agg_step km s (agg_call o) with
  | Ok (e, s1), Ok (e', s2) => s1 = s2 /\ e' = match o with PTick => e | PConsume _ _ => [] end
  | Panic, Panic => True
  | Err, Err => True
  | _, _ => False
  end.
Proof.
  destruct o as [draw g|]; cbn [proc_step agg_call].
  - unfold consume. destruct (eqb (gname g) netRequestGroup); cbn [agg_step].
    + destruct (aggregate km s _ _); cbn [bind]; auto.
    + destruct (eqb (gname g) tcpRttGroup || eqb (gname g) tcpRetransmitGroup || eqb (gname g) tcpDropGroup).
      * destruct (aggregate km s _ _); cbn [bind]; auto.
      * destruct (eqb (gname g) tcpConnectGroup); destruct (aggregate km s _ _); cbn [bind]; auto.
  - cbn [agg_step]. destruct (dump s) as [[e s']| |]; auto.
Qed.

Lemma proc_agg km cfg : forall os s es s', proc_run km cfg s os = Ok (es, s') ->
  agg_run km s (map agg_call os) = Ok (tick_exports os es, s').
Proof.
  induction os as [|o os IH]; intros s es s' R; cbn [proc_run map agg_run tick_exports] in *.
  - inversion R. reflexivity.
  - pose proof (proc_agg_step km cfg s o) as P.
    destruct (proc_step km cfg s o) as [[e s1]| |]; cbn [bind fst snd] in R; try discriminate.
    destruct (agg_step km s (agg_call o)) as [[e' s2]| |]; try contradiction. destruct P as [<- ->].
    destruct (proc_run km cfg s1 os) as [[es1 s3]| |] eqn:R1; cbn [bind fst snd] in R; try discriminate.
    inversion R; subst. cbn [bind fst snd]. rewrite (IH _ _ _ R1). cbn [bind fst snd]. destruct o; reflexivity.
Qed.
Lemma agg_proc km cfg : forall os s es s', agg_run km s (map agg_call os) = Ok (es, s') ->
  exists es', proc_run km cfg s os = Ok (es', s') /\ tick_exports os es' = es.
Proof.
  induction os as [|o os IH]; intros s es s' R; cbn [proc_run map agg_run tick_exports] in *.
  - inversion R. exists []. auto.
  - pose proof (proc_agg_step km cfg s o) as P.
    destruct (agg_step km s (agg_call o)) as [[e s1]| |]; cbn [bind fst snd] in R; try discriminate.
    destruct (proc_step km cfg s o) as [[e' s2]| |]; try contradiction. destruct P as [-> ->].
    destruct (agg_run km s1 (map agg_call os)) as [[es1 s3]| |] eqn:R1; cbn [bind fst snd] in R; try discriminate.
    inversion R; subst. destruct (IH _ _ _ R1) as (es' & R2 & T). cbn [bind fst snd]. rewrite R2. cbn [bind fst snd].
    eexists. split; [reflexivity|]. destruct o; cbn [tick_exports]; rewrite T; reflexivity.
Qed.

(** Whatever the sampling rates and the draws, the metrics exported at every tick are the same. *)
Theorem C06_metrics_independent_of_sampling : forall km cfg cfg' os os' es s',
  Forall2 same_group os os' -> proc_run km cfg [] os = Ok (es, s') ->
  exists es', proc_run km cfg' [] os' = Ok (es', s') /\ tick_exports os' es' = tick_exports os es.
Proof.
  intros km cfg cfg' os os' es s' SG R. apply proc_agg in R.
  assert (E : map agg_call os = map agg_call os').
  { clear R. induction SG as [|a b os os' S SG IH]; [reflexivity|]. cbn [map]. f_equal; [|exact IH].
    destruct a, b; cbn [same_group] in S; try contradiction; [subst; reflexivity|reflexivity]. }
  rewrite E in R. exact (agg_proc km cfg' os' [] _ s' R).
Qed.
Print Assumptions C06_metrics_independent_of_sampling.

(** ** Every request is counted *)
Lemma selectors_fit :
  ((List.length netSelectors <= 37)%nat /\ Forall valid_type netSelectors /\ NoDup (map fst netSelectors)) /\
  ((List.length tcpSelectors <= 37)%nat /\ Forall valid_type tcpSelectors /\ NoDup (map fst tcpSelectors)) /\
  ((List.length tcpConnectSelectors <= 37)%nat /\ Forall valid_type tcpConnectSelectors /\ NoDup (map fst tcpConnectSelectors)).
Proof.
  assert (V : forall l, forallb (fun s : selector => eqb (snd s) BooleanType || eqb (snd s) StringType || eqb (snd s) IntType) l = true -> Forall valid_type l).
  { intros l H. apply Forall_forall. intros s I. rewrite forallb_forall in H. specialize (H s I).
    apply orb_true_iff in H. destruct H as [H|H]; [apply orb_true_iff in H; destruct H as [H|H]|]; apply eqb_true in H; unfold valid_type; auto. }
  assert (N : forall l : list string, (fix nd (l : list string) : bool := match l with [] => true | x :: t => negb (existsb (eqb x) t) && nd t end) l = true -> NoDup l).
  { induction l as [|x l IH]; intros H; [constructor|]. apply andb_true_iff in H. destruct H as [H1 H2]. constructor; [|apply IH; exact H2].
    intros I. apply negb_true_iff in H1. assert (existsb (eqb x) l = true); [|congruence]. apply existsb_exists. exists x. split; [exact I|apply eqb_refl]. }
  repeat split; try (apply V; vm_compute; reflexivity); try (apply N; vm_compute; reflexivity); vm_compute; lia.
Qed.

(** No label used to tell request series apart is lost: two requests are aggregated into the same series exactly when
    they agree on all the 37 labels (24 and 27 for TCP and connection metrics). *)
Theorem C06_series_labels_fit : forall l1 l2,
  (getLabelKeys netSelectors l1 = getLabelKeys netSelectors l2 <-> forall s, In s netSelectors -> selected l1 s = selected l2 s) /\
  (getLabelKeys tcpSelectors l1 = getLabelKeys tcpSelectors l2 <-> forall s, In s tcpSelectors -> selected l1 s = selected l2 s) /\
  (getLabelKeys tcpConnectSelectors l1 = getLabelKeys tcpConnectSelectors l2 <-> forall s, In s tcpConnectSelectors -> selected l1 s = selected l2 s).
Proof.
  intros l1 l2. destruct selectors_fit as ((A1 & A2 & _) & (B1 & B2 & _) & (C1 & C2 & _)).
  split; [|split]; apply C01_key_identifies; assumption.
Qed.
Print Assumptions C06_series_labels_fit.

Definition is_request (o : proc_op) : bool := match o with PConsume _ g => eqb (gname g) netRequestGroup | PTick => false end.
(** the requests of the history exported with labels [L] *)
Definition requests_with (L : labelset) (os : list proc_op) : Z :=
  Z.of_nat (List.length (filter (fun o => match o with
     | PConsume _ g => eqb (gname g) netRequestGroup && eqb (getLabels (getLabelKeys netSelectors (glabels g))) L
     | PTick => false end) os)).
(** As the network analyzer makes them: the seven request metrics, once each. *)
Definition request_shaped (g : group) : Prop := mnames g = groupMetricNames /\ int_group g.

(** With the default configuration, the request counts exported at the ticks of a history that ends with a tick add up
    to the number of requests consumed, for every label set. *)
Theorem C06_every_request_counted : forall cfg os L es s,
  (forall draw g, In (PConsume draw g) os -> gname g = netRequestGroup /\ request_shaped g) ->
  proc_run (toAggregatedConfig defaultKindMap) cfg [] (os ++ [PTick]) = Ok (es, s) ->
  s64 (exported aggregatedNetRequestGroup L "request_count" (tick_exports (os ++ [PTick]) es)) = s64 (requests_with L os).
Proof.
  intros cfg os L es s SH R. apply proc_agg in R. rewrite map_app in R. cbn [map agg_call] in R.
  rewrite (C02_counters_conserved (toAggregatedConfig defaultKindMap) "request_count" aggregatedNetRequestGroup L (map agg_call os) _ s); [| | | |exact R].
  - f_equal. unfold fed, requests_with. rewrite map_map. clear R. induction os as [|o os IH]; [reflexivity|].
    cbn [map filter]. rewrite zsum_cons, IH by (intros draw g I; apply (SH draw g); right; exact I).
    destruct o as [draw g|]; cbn [agg_call]; [|lia].
    destruct (SH draw g (or_introl eq_refl)) as [N [MN IG]]. rewrite N, eqb_refl. cbn [rename gname glabels andb].
    destruct (eqb (getLabels (getLabelKeys netSelectors (glabels g))) L); [|rewrite andb_false_r; apply Z.add_0_l].
    replace (eqb aggregatedNetRequestGroup aggregatedNetRequestGroup && true) with true by reflexivity.
    assert (C : contribution (toAggregatedConfig defaultKindMap) "request_count" (rename g aggregatedNetRequestGroup) = 1%Z).
    { unfold contribution. cbn [rename gmetrics]. unfold mnames, groupMetricNames in MN.
      assert (IG' : Forall (fun p => exists x, snd p = MInt x) (gmetrics g)) by (apply Forall_forall; intros [m d] I; exact (IG m d I)).
      clear -MN IG'. destruct (gmetrics g) as [|[n1 d1] [|[n2 d2] [|[n3 d3] [|[n4 d4] [|[n5 d5] [|[n6 d6] [|[n7 d7] [|]]]]]]]]; cbn [map fst] in MN; try discriminate.
      inversion MN; subst. repeat match goal with H : Forall _ (_ :: _) |- _ => inversion H; clear H; subst end.
      repeat match goal with H : exists x, snd _ = MInt x |- _ => destruct H as (? & H); cbn [snd] in H; subst end.
      vm_compute. reflexivity. }
    rewrite C. cbn [List.length]. lia.
  - intros m cs c G I E. cbn in G.
    repeat (destruct (m =? _)%string in G; [inversion G; subst cs; clear G; cbn in I;
      repeat (destruct I as [<-|I]; [try discriminate E; cbn; auto|]); destruct I|]). discriminate.
  - intros g1 s1 g2 s2 I1 I2 _ _ m.
    assert (M : forall g sels, In (OAgg g sels) (map agg_call os) -> mnames g = groupMetricNames).
    { intros g sels I. apply in_map_iff in I. destruct I as ([draw g0|] & E & I); [|discriminate].
      destruct (SH draw g0 I) as [N [MN _]]. cbn [agg_call] in E. rewrite N, eqb_refl in E. inversion E. exact MN. }
    rewrite (M _ _ I1), (M _ _ I2). reflexivity.
  - intros g sels I. apply int_ok. apply in_map_iff in I. destruct I as ([draw g0|] & E & I); [|discriminate].
    destruct (SH draw g0 I) as [N [_ IG]]. cbn [agg_call] in E. rewrite N, eqb_refl in E. inversion E. exact IG.
Qed.
Print Assumptions C06_every_request_counted.

Example sampling_example :
  let g sl := {| gname := netRequestGroup; gmetrics := map (fun n => (n, MInt 3)) groupMetricNames;
              glabels := [("is_slow", BV sl); ("pid", IV 7)]; gts := 1 |} in
  match proc_run (toAggregatedConfig defaultKindMap) defaultSampling [] [PConsume 99 (g true); PConsume 0 (g false); PConsume 1 (g false); PTick] with
  | Ok (es, _) => map (map (fun e => (gname e, aget (gmetrics e) "request_count"))) es =
       [[(singleNetRequestGroup, None)]; []; []; [(aggregatedNetRequestGroup, Some (MInt 1)); (aggregatedNetRequestGroup, Some (MInt 2))]]
  | _ => False
  end.
Proof. vm_compute. reflexivity. Qed.
