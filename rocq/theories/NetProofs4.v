(** The sums of C70. *)
From Coq Require Import Sorting.Permutation.
From Verif Require Import Base Decimal AttrModel PoolModel KeyModel KeyProps AggModel AggSpec AggProofs SampleModel K8sModel EnrichModel EnrichSpec EventModel TcpModel PipeModel
  AdapterModel AdapterSpec OtelModel OtelSpec FlowModel FlowSpec PairModel PairSpec PairProofs PairProps MsgModel TextModel LabelNames DetectModel DetectProps RecordModel RecordSpec RecordProofs RecordProps NetModel NetSpec NetProofs NetProofs2 NetProofs3.
Open Scope string_scope. Open Scope list_scope. Open Scope Z_scope.

(** ** The entries *)
Definition reported (an : analyzer) (en : entry) : Prop := exists m d d', goodEnv m /\ report an m d (en_pair en) = Ok (en, d').
Lemma is_reported an m d x en d' : goodEnv m -> report an m d x = Ok (en, d') -> reported an en.
Proof. intros G R. pose proof (report_pair _ _ _ _ _ _ R) as P. exists m, d, d'. rewrite P. auto. Qed.
Lemma tok_reported an n m t es n' : goodEnv m -> netTok an n m t = Ok (es, n') -> Forall (reported an) es.
Proof.
  unfold netTok. destruct (analyse _ _ false t) as [st [|x out]]; intros G E; [injection E as <- <-; constructor|].
  destruct (report an m (n_detect n) x) as [[en d]| |] eqn:R; cbn [bind fst snd] in E; try discriminate. injection E as <- <-. constructor; [eapply is_reported; eassumption|constructor].
Qed.
Lemma toks_reported an ms : (forall n, goodEnv (ms n)) -> forall l n i es n', netToks an n ms i l = Ok (es, n') -> Forall (reported an) es.
Proof.
  intros G. induction l as [|t l IH]; intros n i es n' E; cbn [netToks] in E; [injection E as <- <-; constructor|].
  destruct (netTok an n (ms i) t) as [[e1 n1]| |] eqn:T; cbn [bind fst snd] in E; try discriminate.
  destruct (netToks an n1 ms (Datatypes.S i) l) as [[e2 n2]| |] eqn:T2; cbn [bind fst snd] in E; try discriminate. injection E as <- <-.
  apply Forall_app. split; [eapply tok_reported; [|exact T]; apply G|eapply IH; exact T2].
Qed.
Lemma scan_reported an ms now : (forall k, goodEnv (ms k)) -> forall l n es n', netScan an n ms now l = Ok (es, n') -> Forall (reported an) es.
Proof.
  intros G. induction l as [|[k p] l IH]; intros n es n' E; cbn [netScan] in E; [injection E as <- <-; constructor|].
  destruct (expired _ _ _); [|eapply IH; exact E]. destruct (distribute (n_pairs n) p None false) as [st [|x out]]; [eapply IH; exact E|].
  destruct (report an (ms k) (n_detect n) x) as [[en d]| |] eqn:R; cbn [bind fst snd] in E; try discriminate.
  destruct (netScan an _ ms now l) as [[e2 n2]| |] eqn:T; cbn [bind fst snd] in E; try discriminate. injection E as <- <-.
  constructor; [eapply is_reported; [|exact R]; apply G|eapply IH; exact T].
Qed.
Lemma run_reported an : forall os n es n', Forall goodNop os -> netRun an n os = Ok (es, n') -> Forall (reported an) es.
Proof.
  induction os as [|o os IH]; intros n es n' G E; cbn [netRun] in E; [injection E as <- <-; constructor|]. inversion G as [|? ? G1 G2]; subst.
  destruct (netStep an n o) as [[e1 n1]| |] eqn:T; cbn [bind fst snd] in E; try discriminate.
  destruct (netRun an n1 os) as [[e2 n2]| |] eqn:T2; cbn [bind fst snd] in E; try discriminate. injection E as <- <-.
  apply Forall_app. split; [|eapply IH; eassumption]. destruct o as [ms e|ms now]; cbn [netStep] in T.
  - destruct (classify e) as [l| |]; [|injection T as <- <-; constructor|discriminate]. eapply toks_reported; [|exact T]. apply G1.
  - eapply scan_reported; [|exact T]. exact G1.
Qed.
Lemma build_bytes max l v : Forall goodEvent l -> buildEvs max l = Some v -> byteEvs v.
Proof.
  intros F E. destruct (C13_payload_prefix _ _ _ E) as (D & _). split.
  - rewrite D. rewrite Forall_forall. intros x J. apply In_firstn in J. unfold payloads in J. apply in_concat in J. destruct J as (y & J & X). apply in_map_iff in J. destruct J as (e & <- & J). rewrite Forall_forall in F. destruct (F e J) as (_ & _ & _ & _ & B). rewrite Forall_forall in B. exact (B x X).
  - rewrite (C55_kept _ _ _ E). rewrite Forall_forall in *. intros e J. apply In_firstn in J. apply (F e J).
Qed.
Lemma build_byte max g : okConv goodEvent g -> bytePair (build max 1 g).
Proof. intros (_ & _ & _ & PQ & PS & _). split; intros v E; unfold build in E; cbn [p_req p_resp] in E; [exact (build_bytes _ _ _ PQ E)|exact (build_bytes _ _ _ PS E)]. Qed.
Lemma all_sent an es : Forall (reported an) es -> Forall oneRecord es -> allSent es.
Proof.
  intros R O. unfold allSent. rewrite Forall_forall in *. intros en J. destruct (R en J) as (m & d & d' & G & E). destruct (O en J) as (r & RE & ND). exact (report_back _ _ _ _ _ _ _ E RE).
Qed.

(** ** One entry *)
(** what a record counts for *)
Definition counted (C : bytes -> bool) (q : string) (r : group) : Z :=
  if boolOf (glabels r) "is_server" && C (strOf (glabels r) "container_id") then quantityOf q r else 0.
Definition convCounted (C : bytes -> bool) (q : string) (g : conv) : Z := if servedIn C g then convQuantity q g else 0.
Lemma sumZ_zsum l : sumZ l = zsum l.
Proof. reflexivity. Qed.
Lemma build_first max g e l : g_req g = e :: l -> exists v, p_req (build max 1 g) = Some v /\ v_first v = e.
Proof. intros E. unfold build. cbn [p_req]. rewrite E. eexists. split; [reflexivity|]. rewrite fold_first. reflexivity. Qed.
Lemma build_resp max g v : p_resp (build max 1 g) = Some v -> In (v_first v) (g_resp g).
Proof. unfold build. cbn [p_resp]. intros E. destruct (buildEvs_first _ _ _ E) as (l & ->). left. reflexivity. Qed.
Lemma build_time c g e l : g_req g = e :: l -> eqm (totalTime (build (c_snaplen c) 1 g)) (convTime g).
Proof.
  intros Q. unfold convTime. rewrite Q. destruct (g_resp g) as [|r rs] eqn:R.
  - unfold totalTime, getDuration, build. cbn [p_con p_req p_resp]. rewrite R. cbn [buildEvs]. eapply eqm_trans; [apply s64_eqm|]. eapply eqm_trans; [apply w64_eqm|].
    unfold getConnectDuration. cbn [p_con]. destruct (g_con g); reflexivity.
  - destruct (C12_parts_add_up c g e l r rs Q R) as (A & B & _ & T). cbv zeta in *. unfold eqm. rewrite T, <- !Z.add_assoc. rewrite Z.add_mod, (Z.add_mod _ (e_ts _ - _)) by lia.
    f_equal. f_equal. rewrite !Z.add_assoc, A, B. reflexivity.
Qed.
Lemma entry_counts an en c g C q r : goodAnalyzer an -> okConv goodEvent g -> en_pair en = build (c_snaplen c) 1 g -> reported an en -> In q quantities ->
  en_records en = [r] -> protocolIs (glabels r) "dns" = false ->
  eqm (counted C q r) (convCounted C q g) /\ (forall cfg, (StoreTraceAsSpan cfg = true -> protocolIs (glabels r) "redis" = false) -> goodInput cfg r) /\ gname r = "net_request_metric_group".
Proof.
  intros GA OK EP (m & d & d' & GE & RP) Q RE ND. pose proof (build_byte (c_snaplen c) g OK) as BP. rewrite <- EP in BP. destruct OK as (OP & NR & PC & PQ & PS & _).
  assert (X : exists e io1 io2 t, opener g = Some e /\ recordOf e io1 io2 t r /\ eqm io1 (zsum (map resVal (g_req g))) /\ eqm io2 (zsum (map resVal (g_resp g))) /\ eqm t (convTime g)).
  { destruct (report_record _ _ _ _ _ _ _ GA BP RP RE ND) as (_ & [(NQ & F)|(proto & a & rq & RQ & GO & G)]).
    - rewrite EP in NQ, F. assert (Q0 : g_req g = []) by (unfold build in NQ; cbn [p_req] in NQ; destruct (g_req g); [reflexivity|discriminate]).
      unfold opener in *. rewrite Q0 in *. destruct (g_con g) as [e|] eqn:CO; [|congruence].
      assert (F' := F). eapply fail_record with (v := newEvents e (c_snaplen c)) in F'; [|apply GE|unfold build; cbn [p_con]; rewrite CO; reflexivity|apply (PC e eq_refl)].
      eexists e, 0, 0, _. split; [reflexivity|]. split; [exact F'|]. rewrite (NR eq_refl). split; [reflexivity|]. split; [reflexivity|]. unfold convTime. rewrite CO, Q0. cbn. rewrite Z.add_0_r. apply s64_eqm.
    - rewrite EP in RQ, G. destruct (g_req g) as [|e l] eqn:Q0; [unfold build in RQ; cbn [p_req] in RQ; rewrite Q0 in RQ; discriminate|].
      destruct (build_first (c_snaplen c) _ _ _ Q0) as (v & V & VF). rewrite V in RQ. injection RQ as <-. unfold opener. rewrite Q0.
      eapply records_record with (rq := v) in G; [|apply GE|exact GO|exact V|rewrite VF; inversion PQ; assumption| |apply GE].
      + rewrite VF in G. eexists e, _, _, _. split; [reflexivity|]. split; [exact G|]. destruct (C13_sizes c g) as (S1 & S2). rewrite Q0 in S1. rewrite sumZ_zsum in S1, S2.
        split; [eapply eqm_trans; [apply s64_eqm|]; rewrite S1; apply w64_eqm|]. split; [eapply eqm_trans; [apply s64_eqm|]; rewrite S2; apply w64_eqm|]. exact (build_time c g e l Q0).
      + intros w W. apply build_resp in W. rewrite Forall_forall in PS. exact (PS _ W). }
  destruct X as (e & io1 & io2 & t & OE & (N & MN & IG & GL & TS & SV & CI & V1 & V2 & V3) & E1 & E2 & E3). split.
  - unfold counted, convCounted, servedIn. rewrite OE, SV, CI. destruct (e_role e && C (bs (e_cid e))); [|reflexivity].
    unfold quantityOf, convQuantity. unfold quantities in Q. destruct Q as [<-|[<-|[<-|[<-|[]]]]]; lits; rewrite ?V1, ?V2, ?V3; try reflexivity; assumption.
  - split; [|exact N]. intros cfg RED. destruct GL as (ND' & GL). unfold goodInput. split; [left; auto|]. split; [exact IG|]. split; [exact ND'|]. split; [intros k z K; exact (proj1 (GL _ _ K) z eq_refl)|].
    split; [|auto]. split; [intros k v0 K1 K2; exact (proj1 (proj2 (GL _ _ K2)) K1)|]. intros v0 K2. exact (proj2 (proj2 (GL _ _ K2)) eq_refl).
Qed.

(** ** All of them *)
Lemma zsum_flat {A B} (f : A -> Z) (h : B -> list A) l : zsum (map f (flat_map h l)) = zsum (map (fun b => zsum (map f (h b))) l).
Proof. induction l as [|b l IH]; [reflexivity|]. cbn [flat_map map]. rewrite map_app, zsum_app, zsum_cons, IH. reflexivity. Qed.
Lemma zsum_perm {A} (f : A -> Z) l l' : Permutation l l' -> zsum (map f l) = zsum (map f l').
Proof. induction 1; cbn [map]; rewrite ?zsum_cons; lia. Qed.
Lemma zsum_filter {A} (p : A -> bool) (f : A -> Z) l : zsum (map (fun x => if p x then f x else 0) l) = zsum (map f (filter p l)).
Proof. induction l as [|x l IH]; [reflexivity|]. cbn [map filter]. rewrite zsum_cons, IH. destruct (p x); [cbn [map]; rewrite zsum_cons; reflexivity|lia]. Qed.
Lemma filter_pairs k es : map en_pair (filter (fun x => eqb k (getKey (en_pair x))) es) = filter (ofKey k) (map en_pair es).
Proof. induction es as [|en es IH]; [reflexivity|]. cbn [map filter]. unfold ofKey at 1. destruct (eqb k (getKey (en_pair en))); cbn [map]; rewrite IH; reflexivity. Qed.

Section Sum.
  Context (an : analyzer) (os : list nop) (es : list entry) (n : nstate) (GA : goodAnalyzer an) (GO : Forall goodNop os)
          (R : netRun an n0 os = Ok (es, n)) (ONE : Forall oneRecord es).
  Let REP : Forall (reported an) es := run_reported an os n0 es n GO R.
  Lemma pairs_of k : let '(cur, done) := talk (an_conf an) None (flat_map (happens k) os) in
    filter (ofKey k) (map en_pair es) = map (build (c_snaplen (an_conf an)) 1) done /\
    aget (st_map (n_pairs n)) k = option_map (build (c_snaplen (an_conf an)) 0) cur.
  Proof.
    pose proof (run_pairs an os n0 es n R (all_sent an es REP ONE)) as P. pose proof (C14_each_connection (an_conf an) (map plainOp os) k) as T.
    change (n_pairs n0) with init in P. rewrite P, <- happens_all in T. exact T.
  Qed.
  Lemma done_ok k : Forall (okConv (fun e => goodEvent e /\ evKey e = k)) (snd (talk (an_conf an) None (flat_map (happens k) os))).
  Proof. apply talk_ok; [|exact Logic.I]. apply happens_key. apply tokens_good. exact GO. Qed.
  Lemma ok_weak (P P' : event -> Prop) g : (forall e, P e -> P' e) -> okConv P g -> okConv P' g.
  Proof.
    intros W (A & B & D & E & F & G). split; [exact A|]. split; [exact B|]. split; [intros e X; apply W, D; exact X|]. split; [eapply Forall_impl; [exact W|exact E]|].
    split; [eapply Forall_impl; [exact W|exact F]|exact G].
  Qed.
  Lemma done_good k : Forall (okConv goodEvent) (snd (talk (an_conf an) None (flat_map (happens k) os))).
  Proof. eapply Forall_impl; [|exact (done_ok k)]. intros g. apply ok_weak. intros e H. apply H. Qed.
  Lemma key_connection en : In en es -> In (getKey (en_pair en)) (connections os).
  Proof.
    intros J. set (k := getKey (en_pair en)). destruct (existsb (eqb k) (connections os)) eqn:X.
    { apply existsb_exists in X. destruct X as (y & Y & Q). apply eqb_true in Q. congruence. }
    exfalso. assert (NI : ~ In k (connections os)). { intros Y. rewrite <- not_true_iff_false in X. apply X. apply existsb_exists. exists k. split; [exact Y|apply eqb_refl]. }
    pose proof (pairs_of k) as P. rewrite (talk_ticks _ _ (happens_other k os NI)) in P. destruct P as (P & _). rewrite <- filter_pairs in P. cbn [map] in P. apply map_eq_nil in P.
    assert (Y : In en (filter (fun x => eqb k (getKey (en_pair x))) es)) by (apply filter_In; split; [exact J|unfold k; apply eqb_refl]). rewrite P in Y. destruct Y.
  Qed.
  (** every record *)
  Lemma record_of en : In en es -> exists g r, In g (ended (an_conf an) os) /\ en_pair en = build (c_snaplen (an_conf an)) 1 g /\ okConv goodEvent g /\ en_records en = [r] /\ protocolIs (glabels r) "dns" = false.
  Proof.
    intros J. pose proof (pairs_of (getKey (en_pair en))) as P. pose proof (done_good (getKey (en_pair en))) as G. pose proof (key_connection en J) as K.
    destruct (talk _ None _) as [cur done] eqn:T. destruct P as (P & _). cbn [snd] in G.
    assert (Y : In (en_pair en) (map (build (c_snaplen (an_conf an)) 1) done)). { rewrite <- P. apply filter_In. split; [apply in_map; exact J|unfold ofKey; apply eqb_refl]. }
    apply in_map_iff in Y. destruct Y as (g & E & Y). pose proof ONE as O. rewrite Forall_forall in O. destruct (O en J) as (r & RE & ND). exists g, r.
    split; [unfold ended; apply in_flat_map; exists (getKey (en_pair en)); split; [exact K|rewrite T; exact Y]|]. split; [symmetry; exact E|]. rewrite Forall_forall in G. auto.
  Qed.
  Lemma sum_done C q : In q quantities -> forall done l, map en_pair l = map (build (c_snaplen (an_conf an)) 1) done -> Forall (okConv goodEvent) done -> (forall en, In en l -> In en es) ->
    eqm (zsum (map (fun en => zsum (map (counted C q) (en_records en))) l)) (zsum (map (convCounted C q) done)).
  Proof.
    intros Q. induction done as [|g done IH]; intros l E F J; destruct l as [|en l]; try discriminate; [reflexivity|]. cbn [map] in E. injection E as E1 E2. inversion F as [|? ? F1 F2]; subst.
    cbn [map]. rewrite !zsum_cons. apply eqm_add; [|apply IH; [exact E2|exact F2|intros x X; apply J; right; exact X]].
    pose proof ONE as O. rewrite Forall_forall in O. destruct (O en (J en (or_introl eq_refl))) as (r & RE & ND). rewrite RE. cbn [map]. rewrite zsum_cons.
    replace (counted C q r + zsum []) with (counted C q r) by (cbn; lia). pose proof REP as RP. rewrite Forall_forall in RP.
    exact (proj1 (entry_counts an en _ g C q r GA F1 E1 (RP en (J en (or_introl eq_refl))) Q RE ND)).
  Qed.
  Lemma sum_records C q : In q quantities -> eqm (zsum (map (counted C q) (flat_map en_records es))) (zsum (map (convQuantity q) (filter (servedIn C) (ended (an_conf an) os)))).
  Proof.
    intros Q. rewrite zsum_flat. rewrite (zsum_by_key _ (fun en => getKey (en_pair en)) (connections os) (distinct_nodup _) es key_connection).
    rewrite <- zsum_filter. unfold ended. rewrite zsum_flat. apply eqm_sum. intros k K.
    pose proof (pairs_of k) as P. pose proof (done_good k) as G. destruct (talk _ None _) as [cur done] eqn:T. destruct P as (P & _). cbn [snd] in *.
    change (fun x => if servedIn C x then convQuantity q x else 0) with (convCounted C q). apply sum_done; [exact Q| |exact G|].
    - rewrite filter_pairs. exact P.
    - intros en J. apply filter_In in J. apply J.
  Qed.
End Sum.
