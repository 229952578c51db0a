(** Property C92: the connection tracker's own metrics. *)
From Verif Require Import Base ConntrackModel ConntrackSpec ConntrackProofs CtStatModel CtStatSpec CtStatProofs.
Open Scope string_scope. Open Scope list_scope. Open Scope Z_scope.

Definition sizeMetric := "kindling_telemetry_conntracker_cache_size".
Definition maxMetric := "kindling_telemetry_conntracker_cache_max_size".
Definition opsMetric := "kindling_telemetry_conntracker_operation_times_total".
Definition errorsMetric := "kindling_telemetry_conntracker_errors_total".
Definition samplingMetric := "kindling_telemetry_conntracker_sampling_rate".
Definition throttlesMetric := "kindling_telemetry_conntracker_throttles_total".

(** What a scrape shows: the sizes and each counter read at its own moment *)
Definition scrape (maxSize : nat) (sizes gets regs drops unregs evicts : tracker) (x : consumerStats) : list (string * string * Z) :=
  observed (NetlinkGetStats maxSize (GetStats sizes gets regs drops unregs evicts x)).
(** A scrape while nothing else happens *)
Definition quiet (maxSize : nat) (t : tracker) (x : consumerStats) := scrape maxSize t t t t t t x.

(** Every series shows the statistic it is named after; a counter left out because it is zero is shown as zero *)
Lemma scrape_series m s g r d u e x :
  shown (scrape m s g r d u e x) sizeMetric "general" = Some (zlen (lru (tr_cache s))) /\
  shown (scrape m s g r d u e x) sizeMetric "orphan" = Some (zlen (orphans (tr_cache s))) /\
  shown (scrape m s g r d u e x) maxMetric "" = Some (Z.of_nat m) /\
  shown (scrape m s g r d u e x) opsMetric "add" = Some (tr_registers r) /\
  shown (scrape m s g r d u e x) opsMetric "drop" = Some (tr_dropped d) /\
  shown (scrape m s g r d u e x) opsMetric "remove" = Some (tr_unregisters u) /\
  shown (scrape m s g r d u e x) opsMetric "get" = Some (tr_gets g) /\
  shown (scrape m s g r d u e x) opsMetric "evict" = Some (tr_evicts e) /\
  shown (scrape m s g r d u e x) errorsMetric "enobuf" = Some (cs_enobufs x) /\
  shown (scrape m s g r d u e x) errorsMetric "read_errors" = Some (cs_readErrors x) /\
  shown (scrape m s g r d u e x) errorsMetric "msg_errors" = Some (cs_msgErrors x) /\
  shown (scrape m s g r d u e x) samplingMetric "" = Some (cs_sampling x) /\
  shown (scrape m s g r d u e x) throttlesMetric "" = Some (cs_throttles x).
Proof.
  unfold scrape, GetStats, NetlinkGetStats, consumerGetStats.
  generalize (zlen (lru (tr_cache s))), (zlen (orphans (tr_cache s))), (tr_dropped d), (tr_evicts e), (Z.of_nat m). intros a b c f q.
  destruct (Z.eqb_spec (tr_gets g) 0) as [->|G]; destruct (Z.eqb_spec (tr_registers r) 0) as [->|R];
    destruct (Z.eqb_spec (tr_unregisters u) 0) as [->|U]; repeat split; vm_compute; reflexivity.
Qed.

(** C92: the numbers of look-ups, of stored and of refused connections are those of the calls made. *)
Theorem C92_counts :
  forall (maxSize : nat) (timeout : Z) (h : list call) (t : tracker) (x : consumerStats), (0 < maxSize)%nat ->
    callRun maxSize timeout tracker0 h = Some t ->
    shown (quiet maxSize t x) opsMetric "get" = Some (count isAsk h) /\
    shown (quiet maxSize t x) opsMetric "add" = Some (count isKept h) /\
    shown (quiet maxSize t x) opsMetric "drop" = Some (count isRefused h).
Proof.
  intros m to h t x MP E. destruct (call_run m to MP h tracker0 t (empty_inv m to MP) E) as (_ & _ & A & B & C & _). cbn [tracker0 tr_gets tr_registers tr_dropped] in *.
  unfold quiet. destruct (scrape_series m t t t t t t x) as (_ & _ & _ & S1 & S2 & _ & S3 & _).
  rewrite S1, S2, S3, A, B, C. rewrite !Z.add_0_l. auto.
Qed.
Print Assumptions C92_counts.

(** C92: the sizes: as many tuples as a look-up would find, never more than the shown maximum, and of these as waiting the ones that were announced and
    not asked for since. *)
Theorem C92_sizes :
  forall (maxSize : nat) (timeout : Z) (h : list call) (t : tracker) (x : consumerStats), (0 < maxSize)%nat ->
    callRun maxSize timeout tracker0 h = Some t ->
    exists found : list connKey,
      NoDup found /\ (forall k, In k found <-> snd (cGet (tr_cache t) k) <> None) /\
      shown (quiet maxSize t x) sizeMetric "general" = Some (zlen found) /\
      shown (quiet maxSize t x) sizeMetric "orphan" = Some (zlen (filter (waiting h) found)) /\
      shown (quiet maxSize t x) maxMetric "" = Some (Z.of_nat maxSize) /\ zlen found <= Z.of_nat maxSize.
Proof.
  intros m to h t x MP E. destruct (call_run m to MP h tracker0 t (empty_inv m to MP) E) as ([I L] & _).
  assert (M : marks (tr_cache t) (waiting h)).
  { apply (run_marks m to MP h tracker0 t _ (empty_inv m to MP) E). intros k e G. discriminate G. }
  exists (keys (lru (tr_cache t))). unfold quiet. destruct (scrape_series m t t t t t t x) as (S1 & S2 & S3 & _).
  split; [apply I|]. split.
  - intros k. unfold cGet. split.
    + intros J. apply in_keys_aget in J. destruct J as (e & ->). cbn [snd]. discriminate.
    + destruct (aget (lru (tr_cache t)) k) as [e|] eqn:G; cbn [snd]; [|congruence]. intros _. eapply aget_some_in_keys. exact G.
  - rewrite S1, S2, S3. rewrite (orphans_exact m MP _ _ I M). unfold zlen, keys. rewrite map_length. split; [reflexivity|].
    split; [reflexivity|]. split; [reflexivity|]. lia.
Qed.
Print Assumptions C92_sizes.

(** C92: the books balance: what is there, what was evicted and what was removed is at most what was stored, and exactly that as long as no tuple is stored twice. *)
Theorem C92_balance :
  forall (maxSize : nat) (timeout : Z) (h : list call) (t : tracker) (x : consumerStats), (0 < maxSize)%nat ->
    callRun maxSize timeout tracker0 h = Some t ->
    exists there evicted removed : Z,
      shown (quiet maxSize t x) sizeMetric "general" = Some there /\
      shown (quiet maxSize t x) opsMetric "evict" = Some evicted /\ shown (quiet maxSize t x) opsMetric "remove" = Some removed /\
      0 <= there /\ 0 <= evicted /\ 0 <= removed /\
      there + evicted + removed <= zlen (tuples h) /\
      (NoDup (tuples h) -> there + evicted + removed = zlen (tuples h)).
Proof.
  intros m to h t x MP E. destruct (call_run m to MP h tracker0 t (empty_inv m to MP) E) as (_ & _ & _ & _ & _ & U & V & B & R).
  cbn [tracker0 tr_cache tr_unregisters tr_evicts emptyCache lru] in *. unfold quiet. destruct (scrape_series m t t t t t t x) as (S1 & _ & _ & _ & _ & S2 & _ & S3 & _).
  exists (zlen (lru (tr_cache t))), (tr_evicts t), (tr_unregisters t). rewrite S1, S2, S3.
  replace (zlen (@nil (connKey * entry))) with 0 in B by reflexivity. fold emptyCache in B.
  pose proof (fresh_bound m to MP (flat_map opsOf h) emptyCache) as FB. rewrite R in FB.
  split; [reflexivity|]. split; [reflexivity|]. split; [reflexivity|]. split; [unfold zlen; lia|]. split; [lia|]. split; [lia|]. split; [lia|].
  intros ND. rewrite <- R in ND. pose proof (fresh_all m to MP (flat_map opsOf h) emptyCache (empty_inv m to MP) ND (fun k _ J => J)) as F.
  rewrite R in F. lia.
Qed.
Print Assumptions C92_balance.

(** C92: the tracker's counters change nothing: its answers are those of the cache of C34 after the same calls. *)
Theorem C92_answers :
  forall (maxSize : nat) (timeout : Z) (h : list call) (t : tracker) (s : connStats), (0 < maxSize)%nat ->
    callRun maxSize timeout tracker0 h = Some t ->
    GetTranslationForConn (tr_cache t) s = GetTranslationForConn (runOps maxSize timeout (flat_map opsOf h)) s.
Proof.
  intros m to h t s MP E. destruct (call_run m to MP h tracker0 t (empty_inv m to MP) E) as (_ & -> & _). reflexivity.
Qed.
Print Assumptions C92_answers.

Lemma callRun_app m to h1 h2 : forall t, callRun m to t (h1 ++ h2) = match callRun m to t h1 with Some t' => callRun m to t' h2 | None => None end.
Proof. induction h1 as [|o h1 IH]; intros t; cbn [app callRun]; [reflexivity|]. destruct (callStep m to t o); [apply IH|reflexivity]. Qed.

(** C92: the counters never go back, even when a scrape reads each at another moment; and what the netlink consumer counted is passed on as it is. *)
Theorem C92_scrapes :
  forall (maxSize : nat) (timeout : Z) (s s' : tracker) (before after : string -> tracker) (x x' : consumerStats), (0 < maxSize)%nat ->
    (* every counter is read twice, after some history and after a longer one *)
    (forall op, exists h h', callRun maxSize timeout tracker0 h = Some (before op) /\ callRun maxSize timeout tracker0 (h ++ h') = Some (after op)) ->
    let one := scrape maxSize s (before "get") (before "add") (before "drop") (before "remove") (before "evict") x in
    let two := scrape maxSize s' (after "get") (after "add") (after "drop") (after "remove") (after "evict") x' in
    (forall op, In op ["add"; "drop"; "remove"; "get"; "evict"] ->
       exists a b, shown one opsMetric op = Some a /\ shown two opsMetric op = Some b /\ 0 <= a <= b) /\
    shown one errorsMetric "enobuf" = Some (cs_enobufs x) /\ shown one errorsMetric "read_errors" = Some (cs_readErrors x) /\
    shown one errorsMetric "msg_errors" = Some (cs_msgErrors x) /\ shown one samplingMetric "" = Some (cs_sampling x) /\
    shown one throttlesMetric "" = Some (cs_throttles x).
Proof.
  intros m to s s' bf af x x' MP H one two.
  destruct (scrape_series m s (bf "get") (bf "add") (bf "drop") (bf "remove") (bf "evict") x) as (_ & _ & _ & A1 & A2 & A3 & A4 & A5 & A6 & A7 & A8 & A9 & A10).
  destruct (scrape_series m s' (af "get") (af "add") (af "drop") (af "remove") (af "evict") x') as (_ & _ & _ & B1 & B2 & B3 & B4 & B5 & _).
  fold one in A1, A2, A3, A4, A5, A6, A7, A8, A9, A10. fold two in B1, B2, B3, B4, B5.
  assert (C0 : forall f h, 0 <= count f h) by (intros; unfold count, zlen; lia).
  assert (M : forall op, 0 <= tr_gets (bf op) <= tr_gets (af op) /\ 0 <= tr_registers (bf op) <= tr_registers (af op) /\ 0 <= tr_dropped (bf op) <= tr_dropped (af op) /\
                         0 <= tr_unregisters (bf op) <= tr_unregisters (af op) /\ 0 <= tr_evicts (bf op) <= tr_evicts (af op)).
  { intros op. destruct (H op) as (h & h' & E1 & E2). rewrite callRun_app, E1 in E2.
    destruct (call_run m to MP h tracker0 _ (empty_inv m to MP) E1) as (I & _ & P1 & P2 & P3 & P4 & P5 & _).
    destruct (call_run m to MP h' _ _ I E2) as (_ & _ & Q1 & Q2 & Q3 & Q4 & Q5 & _). cbn [tracker0 tr_gets tr_registers tr_dropped tr_unregisters tr_evicts] in *.
    pose proof (C0 isAsk h). pose proof (C0 isAsk h'). pose proof (C0 isKept h). pose proof (C0 isKept h'). pose proof (C0 isRefused h). pose proof (C0 isRefused h'). lia. }
  split; [|repeat split; assumption].
  intros op J. destruct J as [<-|[<-|[<-|[<-|[<-|[]]]]]]; do 2 eexists; (split; [eassumption|split; [eassumption|apply M]]).
Qed.
Print Assumptions C92_scrapes.

(** C92: no call fails when the kernel gives both tuples of a connection in full. *)
Theorem C92_total :
  forall (maxSize : nat) (timeout : Z) (h : list call), (0 < maxSize)%nat ->
    (forall x n1 n2, In (Load x n1 n2) h \/ In (Announce x n1 n2) h ->
       exists os od rs rd p osp odp rsp rdp, x = mkCon (mkTuple os od p osp odp) (mkTuple rs rd p rsp rdp)) ->
    exists t, callRun maxSize timeout tracker0 h = Some t.
Proof.
  intros m to h MP. assert (G : forall t, Inv (tr_cache t) /\ (List.length (lru (tr_cache t)) <= m)%nat ->
    (forall x n1 n2, In (Load x n1 n2) h \/ In (Announce x n1 n2) h ->
       exists os od rs rd p osp odp rsp rdp, x = mkCon (mkTuple os od p osp odp) (mkTuple rs rd p rsp rdp)) ->
    exists t', callRun m to t h = Some t').
  { induction h as [|o h IH]; intros t I F; cbn [callRun]; [eauto|].
    assert (S1 : exists t1, callStep m to t o = Some t1).
    { assert (N : forall x, (exists os od rs rd p osp odp rsp rdp, x = mkCon (mkTuple os od p osp odp) (mkTuple rs rd p rsp rdp)) ->
         exists b, IsNAT x = Some b).
      { intros x (os & od & rs & rd & p & osp & odp & rsp & rdp & ->). unfold IsNAT, mkCon, mkTuple. cbn [origin reply tproto psport pdport tsrc tdst].
        destruct (negb (ipEqual os rd)); eauto. }
      assert (A : forall x b n1 n2, (exists os od rs rd p osp odp rsp rdp, x = mkCon (mkTuple os od p osp odp) (mkTuple rs rd p rsp rdp)) ->
         exists r, cAdd m to (tr_cache t) x b n1 n2 = Some r).
      { intros x b n1 n2 (os & od & rs & rd & p & osp & odp & rsp & rdp & ->). unfold cAdd, mkCon, mkTuple, formatKey, formatIPTranslation.
        cbn [origin reply tproto pnum psport pdport tsrc tdst]. cbv zeta.
        destruct (p =? 6); [|destruct (p =? 17)].
        - destruct (cRegister _ _ _ _ _ _ _) as [c1 e1]. destruct (cRegister _ _ _ _ _ _ _) as [c2 e2]. eauto.
        - destruct (cRegister _ _ _ _ _ _ _) as [c1 e1]. destruct (cRegister _ _ _ _ _ _ _) as [c2 e2]. eauto.
        - eauto. }
      destruct o as [x n1 n2|x n1 n2|s|s|now]; cbn [callStep].
      - pose proof (F x n1 n2 (or_introl (or_introl eq_refl))) as W. destruct (N x W) as ([|] & ->); [|eauto].
        destruct (A x false n1 n2 W) as ([c e] & ->). eauto.
      - pose proof (F x n1 n2 (or_intror (or_introl eq_refl))) as W. destruct (N x W) as ([|] & ->); [|eauto].
        destruct (A x true n1 n2 W) as ([c e] & ->). eauto.
      - eauto.
      - destruct (cRemove _ _) as [c r]. eauto.
      - destruct (compact_ok m MP (tr_cache t) now (proj1 I)) as (c & f & -> & _). eauto. }
    destruct S1 as (t1 & E1). rewrite E1. apply IH; [exact (call_inv m to MP t o t1 I E1)|].
    intros x n1 n2 J. apply (F x n1 n2). destruct J as [J|J]; [left|right]; right; exact J. }
  apply G. exact (empty_inv m to MP).
Qed.
Print Assumptions C92_total.

(** Two connections through a service and one that is not translated; cache of three tuples *)
Definition ex_nat1 := mkCon (mkTuple [10;0;0;1] [10;96;0;1] 6 1000 80) (mkTuple [10;1;0;1] [10;0;0;1] 6 8080 1000).
Definition ex_nat2 := mkCon (mkTuple [10;0;0;2] [10;96;0;1] 6 2000 80) (mkTuple [10;1;0;1] [10;0;0;2] 6 8080 2000).
Definition ex_plain := mkCon (mkTuple [10;0;0;1] [10;0;0;9] 6 1000 80) (mkTuple [10;0;0;9] [10;0;0;1] 6 80 1000).
Definition ex_s1 : connStats := {| csource := [10;0;0;1]; cdest := [10;96;0;1]; csport := 1000; cdport := 80; ctype := TCP |}.
Definition ex_s2 : connStats := {| csource := [10;0;0;2]; cdest := [10;96;0;1]; csport := 2000; cdport := 80; ctype := TCP |}.
Definition ex_x : consumerStats := {| cs_enobufs := 1; cs_throttles := 2; cs_sampling := 100; cs_readErrors := 3; cs_msgErrors := 4 |}.
Definition ex_h := [Load ex_nat1 0 0; Announce ex_plain 1 1; Ask ex_s1; Announce ex_nat2 5 6; Ask ex_s1; Tick 16; Delete ex_s2; Delete ex_s2].
Example C92_example :
  option_map (fun t => map (fun op => shown (quiet 3 t ex_x) opsMetric op) ["add"; "drop"; "remove"; "get"; "evict"]) (callRun 3 10 tracker0 ex_h)
    = Some [Some 2; Some 1; Some 1; Some 2; Some 1] /\
  option_map (fun t => map (fun op => shown (quiet 3 t ex_x) sizeMetric op) ["general"; "orphan"]) (callRun 3 10 tracker0 ex_h) = Some [Some 2; Some 1] /\
  zlen (tuples ex_h) = 4.
Proof. split; [|split]; vm_compute; reflexivity. Qed.

(** False: that the numbers of one scrape always fit together: the sizes are read under a lock and the counters after it, so a tuple removed in
    between is counted both as there and as removed. *)
Theorem C92_balance_refuted :
  ~ (forall (maxSize : nat) (timeout : Z) (h h' : list call) (s t : tracker) (x : consumerStats), (0 < maxSize)%nat ->
       callRun maxSize timeout tracker0 h = Some s -> callRun maxSize timeout tracker0 (h ++ h') = Some t ->
       exists there evicted removed,
         shown (scrape maxSize s t t t t t x) sizeMetric "general" = Some there /\ shown (scrape maxSize s t t t t t x) opsMetric "evict" = Some evicted /\
         shown (scrape maxSize s t t t t t x) opsMetric "remove" = Some removed /\ there + evicted + removed <= zlen (tuples (h ++ h'))).
Proof.
  intros C.
  assert (E1 : exists s, callRun 3 10 tracker0 [Load ex_nat1 0 0] = Some s /\ zlen (lru (tr_cache s)) = 2) by (eexists; split; vm_compute; reflexivity).
  assert (E2 : exists t, callRun 3 10 tracker0 ([Load ex_nat1 0 0] ++ [Delete ex_s1]) = Some t /\ tr_unregisters t = 1 /\ tr_evicts t = 0)
    by (eexists; split; [|split]; vm_compute; reflexivity).
  destruct E1 as (s & E1 & Z1), E2 as (t & E2 & U & V).
  destruct (C 3%nat 10 _ _ s t ex_x ltac:(lia) E1 E2) as (a & b & c & A & B & D & L).
  destruct (scrape_series 3 s t t t t t ex_x) as (S1 & _ & _ & _ & _ & S2 & _ & S3 & _). rewrite S1 in A. rewrite S3 in B. rewrite S2 in D.
  inversion A. inversion B. inversion D. subst. assert (zlen (tuples ([Load ex_nat1 0 0] ++ [Delete ex_s1])) = 2) by (vm_compute; reflexivity). lia.
Qed.
Print Assumptions C92_balance_refuted.
