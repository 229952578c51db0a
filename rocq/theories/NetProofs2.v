(** The records of NetModel.v. *)
From Verif Require Import Base Decimal AttrModel PoolModel KeyModel KeyProps AggModel AggSpec AggProofs SampleModel K8sModel EnrichModel EnrichSpec EventModel TcpModel PipeModel
  AdapterModel AdapterSpec OtelModel OtelSpec FlowModel FlowSpec PairModel PairSpec PairProofs PairProps MsgModel TextModel LabelNames DetectModel DetectProps RecordModel RecordSpec RecordProofs RecordProps NetModel NetSpec NetProofs.
Open Scope string_scope. Open Scope list_scope. Open Scope Z_scope.

(** ** Which records *)
Section Verdict.
  Context {X R : Type} (port : X -> Z) (has : X -> bool) (parse : pname -> X -> option R).
  Lemma first_parse : forall l x p r, firstAccepting parse l x = Some (p, r) -> parse p x = Some r.
  Proof.
    induction l as [|q l IH]; intros x p r E; cbn [firstAccepting] in E; [discriminate|]. destruct (parse q x) eqn:Q; [injection E as <- <-; exact Q|exact (IH _ _ _ E)].
  Qed.
  Lemma verdict_inv k s x v s' : parseProtocols port has parse k s x = Ok (v, s') ->
    match v with ConnectFail => has x = false | Parsed p r => has x = true /\ parse p x = Some r | Unparsed _ => has x = true end.
  Proof.
    unfold parseProtocols. destruct (aget (static k) (port x)) as [sp|].
    - destruct (has x); cbn [negb]; [|intros E; injection E as <- <-; reflexivity].
      destruct (if member sp (known k) then parse sp x else None) as [r|] eqn:P; intros E; injection E as <- <-; [split; [reflexivity|]|reflexivity].
      destruct (member sp (known k)); [exact P|discriminate].
    - destruct (has x); cbn [negb]; [|intros E; injection E as <- <-; reflexivity].
      destruct (firstAccepting parse (cachedParsers (d_cache s) (port x)) x) as [[p r]|] eqn:F.
      + apply first_parse in F. destruct (eqb NOSUPPORT p).
        * destruct (addPortCount _ _ _) as [n c]. destruct (c =? CACHE_RESET_THRESHOLD).
          -- destruct (removeCached _ _ _); cbn [bind]; try discriminate. intros E. injection E as <- <-. auto.
          -- intros E. injection E as <- <-. auto.
        * intros E. injection E as <- <-. auto.
      + destruct (firstAccepting parse (tried k) x) as [[p r]|] eqn:F2.
        * apply first_parse in F2. destruct (addPortCount _ _ _) as [n c]. intros E. injection E as <- <-. auto.
        * intros E. injection E as <- <-. reflexivity.
  Qed.
End Verdict.

Definition goodO (a : option attrs) : Prop := forall l, a = Some l -> goodAttrs l.
Lemma goodO_ok a : goodO a -> okAttrs a.
Proof. intros G l E. apply (G l E). Qed.
Lemma single_protocol c g s proto a nt r : parserMaySet a -> getSingleRecord c g s proto a nt = Ok r -> says r "protocol" (SV (bs proto)).
Proof.
  intros A E. unfold getSingleRecord in E. destruct (fillLabels _ _ _ _ _ _ _ _ _) as [g1| |] eqn:F; cbn [bind] in E; try discriminate.
  assert (X : r = withTs (metAll g1 [(VConnectTime, 0); (VRequestSentTime, sSentTime s); (VWaitingTtfbTime, sWaitingTime s);
                         (VContentDownloadTime, sDownloadTime s); (VRequestTotalTime, s64 (sDuration s));
                         (VRequestIo, s64 (sRequestSize s)); (VResponseIo, s64 (sResponseSize s))]) (getStartTime (sp_req s))) by congruence. subst r.
  eapply says_same; [|eapply filled_misc; [|exact F]]; [cbn [withTs glabels]; apply metAll_labels|]. intros l Y. injection Y as <-. exact A.
Qed.
Lemma good_empty : goodAttrs [].
Proof. split; [apply RecordParsers.empty_may|]. split; [constructor|]. intros k v E. discriminate. Qed.
(** the data of a pair is bytes *)
Definition byteEvs (v : evs) : Prop := Forall is_byte (evsData v) /\ Forall (fun e => Forall is_byte (EventModel.getData e)) (kept v).
Definition bytePair (x : pairs) : Prop := (forall v, p_req x = Some v -> byteEvs v) /\ (forall v, p_resp x = Some v -> byteEvs v).
Lemma multi_attrs p m rq l s a : goodParser p -> bytePair m -> p_req m = Some rq -> multiPairs p m = Ok (Some l) -> In (s, a) l -> goodAttrs a.
Proof.
  intros (G1 & G2) (BQ & BR) Q E J. specialize (BQ _ Q). destruct (C55_multi _ _ _ _ Q E) as (ms & l1 & l2 & idx & R & -> & A & _ & _ & N). apply in_app_or in J. destruct J as [J|J].
  - apply in_map_iff in J. destruct J as ((i & x) & EX & J). cbn [snd] in EX. subst x.
    assert (Y : exists e, In e (keptOf (p_resp m)) /\ answers p (kept rq) ms e (i, (s, a))).
    { clear - A J. induction A as [|e' x es xs A1 A IH]; [destruct J|]. destruct J as [-> | J]; [exists e'; split; [left; reflexivity|exact A1]|]. destruct (IH J) as (e & E1 & E2). exists e. split; [right; exact E1|exact E2]. }
    destruct Y as (e & EI & q & m2 & _ & P2 & _ & _ & S). cbn [fst snd] in S. injection S as -> ->.
    assert (BE : Forall is_byte (EventModel.getData e)). { unfold keptOf in EI. destruct (p_resp m) as [v|]; [|destruct EI]. destruct (BR v eq_refl) as (_ & K). rewrite Forall_forall in K. exact (K e EI). }
    exact (G2 _ _ _ _ BE good_empty P2).
  - assert (Y : exists i, noAnswer (kept rq) ms i (s, a)).
    { clear - N J. induction N as [|i x is xs N1 N IH]; [destruct J|]. destruct J as [-> | J]; [eauto|apply IH; exact J]. }
    destruct Y as (i & q & m2 & _ & Z2 & S). cbn [fst snd] in S. injection S as -> ->.
    assert (M : In m2 ms). { unfold znth in Z2. destruct (i <? 0); [discriminate|]. eapply nth_error_In; exact Z2. }
    destruct BQ as (_ & K). clear - R M G1 K. induction R as [|e m' es ms P R IH]; [destruct M|]. inversion K as [|? ? K1 K2]; subst. destruct M as [->|M]; [exact (G1 _ _ _ K1 P)|exact (IH K2 M)].
Qed.

Lemma records_not_back c g x proto l nt r : getRecords c g x proto (Some l) nt = Ok [r] -> ahas l LHttpContinue = false.
Proof.
  unfold getRecords. destruct (p_req x); [|discriminate]. destruct (ahas l LHttpContinue); [discriminate|reflexivity].
Qed.
(** A pair that gave a record was not put back. *)
Lemma report_back an m d x en d' r : report an m d x = Ok (en, d') -> en_records en = [r] -> en_back en = false.
Proof.
  intros E RE. unfold report in E. destruct (parseProtocols _ _ _ _ _ _) as [[v s]| |] eqn:V; cbn [bind fst snd] in E; try discriminate.
  apply verdict_inv in V. destruct v as [|p q|p].
  - destruct (getConnectFail _ _) as [l| |]; cbn [bind] in E; try discriminate. injection E as <- <-. reflexivity.
  - destruct V as (H & V). unfold parseWith in V. destruct (an_parser an p) as [pr|]; [|discriminate].
    destruct (parseProtocol (an_rconf an) (me_pool m) pr x (me_nat m)) as [[l|]| |] eqn:PP; try discriminate.
    2:{ injection V as <-. discriminate E. }
    2:{ injection V as <-. discriminate E. }
    injection V as <-. cbn [bind fst snd] in E. injection E as <- <-. cbn [en_records en_back] in *. subst l.
    unfold parseProtocol in PP. unfold putsBack. destruct (pr_multi pr); [reflexivity|]. destruct (p_req x) as [rq|]; [|reflexivity].
    destruct (pr_request pr (evsData rq)) as [[ok q]| |]; cbn [bind fst snd] in PP; try discriminate. destruct ok; cbn [negb] in PP; [|discriminate].
    destruct (p_resp x) as [rs|].
    + destruct (pr_response pr (evsData rs) (m_attrs q)) as [[ok2 q2]| |]; cbn [bind fst snd] in PP; try discriminate. destruct ok2; cbn [negb] in PP; [|discriminate].
      destruct (getRecords _ _ _ _ _ _) as [l| |] eqn:G; cbn [bind] in PP; try discriminate. injection PP as ->. exact (records_not_back _ _ _ _ _ _ _ G).
    + destruct (asBool (aget (m_attrs q) LOneway)); [discriminate|]. destruct (getRecords _ _ _ _ _ _) as [l| |] eqn:G; cbn [bind] in PP; try discriminate. injection PP as ->.
      exact (records_not_back _ _ _ _ _ _ _ G).
  - destruct (getRecords _ _ _ _ _ _) as [l| |]; cbn [bind] in E; try discriminate. injection E as <- <-. reflexivity.
Qed.
(** The record of a pair with one record that is not DNS. *)
Lemma report_record an m d x en d' r : goodAnalyzer an -> bytePair x -> report an m d x = Ok (en, d') -> en_records en = [r] -> protocolIs (glabels r) "dns" = false ->
  en_back en = false /\
  ((p_req x = None /\ getConnectFail (me_pool m 0%nat) x = Ok [r]) \/
   exists proto a rq, p_req x = Some rq /\ goodO a /\ getRecords (an_rconf an) (me_pool m 0%nat) x proto a (me_nat m) = Ok [r]).
Proof.
  intros GA BP E RE ND. unfold report in E. destruct (parseProtocols _ _ _ _ _ _) as [[v s]| |] eqn:V; cbn [bind fst snd] in E; try discriminate.
  apply verdict_inv in V. destruct v as [|p q|p].
  - destruct (getConnectFail _ _) as [l| |] eqn:C; cbn [bind] in E; try discriminate. injection E as <- <-. cbn [en_records en_back] in *. subst l. split; [reflexivity|]. left. split; [|reflexivity].
    unfold hasRequest in V. destruct (p_req x); [discriminate|reflexivity].
  - destruct V as (H & V). unfold parseWith in V. destruct (an_parser an p) as [pr|] eqn:AP; [|discriminate]. destruct (GA _ _ AP) as (GP & MU).
    unfold hasRequest in H. destruct (p_req x) as [rq|] eqn:RQ; [|discriminate].
    destruct (parseProtocol (an_rconf an) (me_pool m) pr x (me_nat m)) as [[l|]| |] eqn:PP; try discriminate.
    2:{ injection V as <-. discriminate E. }
    2:{ injection V as <-. discriminate E. }
    injection V as <-. cbn [bind fst snd] in E. injection E as <- <-. cbn [en_records en_back] in *. subst l.
    unfold parseProtocol in PP. unfold putsBack. rewrite RQ. rewrite RQ in PP. destruct (pr_multi pr) eqn:M.
    + exfalso. destruct (multiPairs pr x) as [[l|]| |] eqn:MP; cbn [bind] in PP; try discriminate.
      destruct (singleRecords _ _ _ _ _ l) as [rs| |] eqn:SR; cbn [bind] in PP; try discriminate. injection PP as ->.
      destruct l as [|[s0 a0] l]; cbn [singleRecords] in SR; [discriminate|].
      destruct (getSingleRecord _ _ s0 _ _ _) as [r0| |] eqn:G; cbn [bind] in SR; try discriminate.
      destruct (singleRecords _ _ _ _ _ l) as [rs| |]; cbn [bind] in SR; try discriminate. injection SR as -> _.
      pose proof (multi_attrs pr x rq _ s0 a0 GP BP RQ MP (or_introl eq_refl)) as GAT.
      pose proof (single_protocol _ _ _ _ _ _ _ (proj1 GAT) G) as P. rewrite (MU eq_refl) in P.
      unfold protocolIs, strOf in ND. unfold says in P. rewrite P in ND. vm_compute in ND. discriminate.
    + destruct (pr_request pr (evsData rq)) as [[ok q]| |] eqn:PQ; cbn [bind fst snd] in PP; try discriminate. destruct ok; cbn [negb] in PP; [|discriminate].
      pose proof (proj1 GP _ _ _ (proj1 (proj1 BP _ RQ)) PQ) as GQ. destruct (p_resp x) as [rs|] eqn:RSP.
      * destruct (pr_response pr (evsData rs) (m_attrs q)) as [[ok2 q2]| |] eqn:PS; cbn [bind fst snd] in PP; try discriminate. destruct ok2; cbn [negb] in PP; [|discriminate].
        pose proof (proj2 GP _ _ _ _ (proj1 (proj2 BP _ RSP)) GQ PS) as GQ2.
        destruct (getRecords _ _ _ _ _ _) as [l| |] eqn:G; cbn [bind] in PP; try discriminate. injection PP as ->. split; [exact (records_not_back _ _ _ _ _ _ _ G)|].
        right. exists (pr_name pr), (Some (m_attrs q2)), rq. split; [reflexivity|]. split; [|exact G]. intros l Y. injection Y as <-. exact GQ2.
      * destruct (asBool (aget (m_attrs q) LOneway)); [discriminate|]. destruct (getRecords _ _ _ _ _ _) as [l| |] eqn:G; cbn [bind] in PP; try discriminate. injection PP as ->.
        split; [exact (records_not_back _ _ _ _ _ _ _ G)|]. right. exists (pr_name pr), (Some (m_attrs q)), rq. split; [reflexivity|]. split; [|exact G]. intros l Y. injection Y as <-. exact GQ.
  - destruct (getRecords _ _ _ _ _ _) as [l| |] eqn:G; cbn [bind] in E; try discriminate. injection E as <- <-. cbn [en_records en_back] in *. subst l. split; [reflexivity|]. right.
    unfold hasRequest in V. destruct (p_req x) as [rq|] eqn:RQ; [|discriminate]. exists p, None, rq. split; [reflexivity|]. split; [|exact G]. intros l Y. discriminate.
Qed.

(** ** What they hold *)
Lemma labels_aset m k v : goodLabels m -> goodLabel k v -> goodLabels (aset m k v).
Proof.
  intros (N & G) L. split; [apply NoDup_keys_aset; exact N|]. intros k' v' E. rewrite aget_aset in E. case_eqb k' k; [subst k'; injection E as <-; exact L|exact (G _ _ E)].
Qed.
Lemma labels_setAll : forall l m, Forall (fun p : string * aval => goodLabel (fst p) (snd p)) l -> goodLabels m -> goodLabels (setAll l m).
Proof.
  induction l as [|[k v] l IH]; intros m F G; [exact G|]. inversion F as [|? ? F1 F2]; subst. cbn [setAll fold_left fst snd] in *. apply (IH (aset m k v)); [exact F2|]. apply labels_aset; assumption.
Qed.
Lemma labels_list l : goodLabels l -> Forall (fun p : string * aval => goodLabel (fst p) (snd p)) l.
Proof.
  intros (N & G). apply Forall_forall. intros [k v] J. cbn [fst snd]. apply G. clear G. induction l as [|[k' v'] l IH]; [destruct J|]. cbn [aget]. inversion N as [|? ? NI N']; subst. destruct J as [J|J].
  - injection J as -> ->. rewrite eqb_refl. reflexivity.
  - case_eqb k k'; [|exact (IH N' J)]. subst k'. exfalso. apply NI. apply in_map_iff. exists (k, v). auto.
Qed.
Ltac glabel := split; [intros ? Y; first [discriminate Y|injection Y as <-; cbv [NoError NoResponse ConnectFailError]; try lia]
  |split; [intros Y; first [eexists; reflexivity|exfalso; vm_compute in Y; intuition discriminate]|intros Y; first [eexists; reflexivity|discriminate Y]]].
Lemma base_labels e t1 t2 er et sl sip dip : goodEvent e -> 0 <= t1 < 2 ^ 32 -> 0 <= t2 < 2 ^ 32 -> 0 <= et < 100 ->
  Forall (fun p : string * aval => goodLabel (fst p) (snd p)) (baseOf e t1 t2 er et sl sip dip).
Proof.
  intros (E1 & E2 & E3 & E4 & _) T1 T2 T3. unfold baseOf. repeat (apply Forall_cons; [cbn [fst snd]; glabel|]). apply Forall_nil.
Qed.
Lemma s64_range x : - 2 ^ 63 <= s64 x < 2 ^ 63.
Proof. unfold s64. pose proof (Z.mod_pos_bound (x + 2 ^ 63) (2 ^ 64) ltac:(lia)). lia. Qed.
Lemma filled_labels c g e proto slow a rq resp nt r : fillLabels c g e proto slow a rq resp nt = Ok r ->
  goodLabels (glabels g) -> goodO a -> goodEvent e -> (forall t ts d, resp = Some (t, ts, d) -> 0 <= t < 2 ^ 32) ->
  (forall ip port, nt = Some (ip, port) -> 0 <= port < 2 ^ 16) -> goodLabels (glabels r).
Proof.
  intros F G A E T N. destruct (fill_inv _ _ _ _ _ _ _ _ _ _ F) as (sip & dip & q & p & _ & _ & _ & _ & L & _). cbv zeta in L. rewrite L. clear L.
  apply labels_setAll. { destruct nt as [[ip port]|]; [|constructor]. specialize (N _ _ eq_refl). cbn [natLabels]. repeat (apply Forall_cons; [cbn [fst snd]; glabel|]). apply Forall_nil. }
  assert (B : goodLabels (before e proto slow a resp sip dip q p (glabels g))).
  { unfold before. apply labels_setAll; [repeat (apply Forall_cons; [cbn [fst snd]; glabel|]); apply Forall_nil|].
    apply labels_setAll. { destruct resp as [[[t ts] d]|]; cbn [endLabels]; [|constructor]. pose proof (s64_range ts). repeat (apply Forall_cons; [cbn [fst snd]; glabel|]); apply Forall_nil. }
    apply labels_setAll. { destruct a as [l|]; cbn [attributesOf]; [|constructor]. apply labels_list. apply (A l eq_refl). }
    apply labels_setAll; [|exact G]. apply Forall_app. split.
    - apply base_labels; [exact E|apply E| |cbv [NoError]; lia]. destruct resp as [[[t ts] d]|]; cbn [tidOf]; [exact (T _ _ _ eq_refl)|lia].
    - repeat (apply Forall_cons; [cbn [fst snd]; glabel|]); apply Forall_nil. }
  destruct (_ && _); [|exact B]. apply labels_aset; [apply labels_aset; [exact B|glabel]|glabel].
Qed.

Lemma records_name c g x proto a nt r : getRecords c g x proto a nt = Ok [r] -> gname r = gname g.
Proof.
  unfold getRecords. destruct (p_req x) as [rq|]; [|discriminate]. destruct (match a with Some l => _ | None => _ end); [discriminate|].
  destruct (fillLabels _ _ _ _ _ _ _ _ _) as [g1| |] eqn:F; cbn [bind]; try discriminate. intros E.
  destruct (fill_inv _ _ _ _ _ _ _ _ _ _ F) as (? & ? & ? & ? & _ & _ & _ & _ & _ & _ & N). rewrite <- N.
  match type of E with Ok [withTs (metAll g1 ?l) ?t] = _ => assert (X : withTs (metAll g1 l) t = r) by congruence; destruct (metAll_labels l g1) as (_ & _ & M) end.
  rewrite <- X. cbn [withTs gname]. exact M.
Qed.
(** What a network record needs to be for C69, and what it counts for. *)
Definition recordOf (e : event) (io1 io2 time : Z) (r : group) : Prop :=
  gname r = "net_request_metric_group" /\ mnames r = groupMetricNames /\ int_group r /\ goodLabels (glabels r) /\ 0 <= gts r < 2 ^ 64 /\
  boolOf (glabels r) "is_server" = e_role e /\ strOf (glabels r) "container_id" = bs (e_cid e) /\
  valueIn "request_io" (gmetrics r) = io1 /\ valueIn "response_io" (gmetrics r) = io2 /\ valueIn "request_total_time" (gmetrics r) = time.
Lemma start_range e : 0 <= getStartTime e < 2 ^ 64.
Proof. unfold getStartTime, w64. apply Z.mod_pos_bound. lia. Qed.
Lemma seven_metrics a b c d e f g : fold_left (fun m p => aset m (fst p) (MInt (snd p)))
    [(VConnectTime, a); (VRequestSentTime, b); (VWaitingTtfbTime, c); (VContentDownloadTime, d); (VRequestTotalTime, e); (VRequestIo, f); (VResponseIo, g)] (map (fun n => (n, MInt 0)) groupMetricNames) =
  [("connect_time", MInt a); ("request_sent_time", MInt b); ("waiting_ttfb_time", MInt c); ("content_download_time", MInt d); ("request_total_time", MInt e); ("request_io", MInt f); ("response_io", MInt g)].
Proof. reflexivity. Qed.
Lemma two_metrics a e : fold_left (fun m p => aset m (fst p) (MInt (snd p))) [(VConnectTime, a); (VRequestTotalTime, e)] (map (fun n => (n, MInt 0)) groupMetricNames) =
  [("connect_time", MInt a); ("request_sent_time", MInt 0); ("waiting_ttfb_time", MInt 0); ("content_download_time", MInt 0); ("request_total_time", MInt e); ("request_io", MInt 0); ("response_io", MInt 0)].
Proof. reflexivity. Qed.
Lemma records_record c g x proto a nt r rq : clearGroup g -> goodO a -> p_req x = Some rq -> goodEvent (v_first rq) -> (forall v, p_resp x = Some v -> goodEvent (v_first v)) ->
  (forall ip port, nt = Some (ip, port) -> 0 <= port < 2 ^ 16) -> getRecords c g x proto a nt = Ok [r] ->
  recordOf (v_first rq) (s64 (getRequestSize x)) (s64 (getResponseSize x)) (totalTime x) r.
Proof.
  intros (GN & GM & GL) A Q E1 E2 N E. destruct (records_inv _ _ _ _ _ _ _ _ Q E) as (g1 & F & L & T & M).
  destruct (C55_record _ _ _ _ _ _ _ _ Q (goodO_ok _ A) E) as ((_ & _ & P3 & P4 & _) & _).
  rewrite GM, seven_metrics in M. unfold recordOf. split; [rewrite (records_name _ _ _ _ _ _ _ E); exact GN|].
  split; [unfold mnames; rewrite M; reflexivity|]. split.
  { intros n d J. rewrite M in J. repeat (destruct J as [J|J]; [injection J as <- <-; eexists; reflexivity|]). destruct J. }
  split. { rewrite L. eapply filled_labels; [exact F|exact GL|exact A|exact E1| |exact N]. intros t ts d Y. destruct (p_resp x) as [v|]; [|discriminate]. injection Y as <- _ _. apply (E2 v eq_refl). }
  split; [rewrite T; apply start_range|]. split; [unfold boolOf; rewrite P4; reflexivity|]. split; [unfold strOf; rewrite P3; reflexivity|].
  rewrite M. unfold valueIn. repeat split; cbn [map fst snd]; lits; cbn [zsum fold_right]; lia.
Qed.
Lemma fail_record g x r v : clearGroup g -> p_con x = Some v -> goodEvent (v_first v) -> getConnectFail g x = Ok [r] ->
  recordOf (v_first v) 0 0 (s64 (evsDuration v)) r.
Proof.
  intros (GN & GM & GL) C GE E. destruct (C55_connect_fail _ _ _ _ C E) as ((_ & _ & P3 & P4 & _) & _).
  unfold getConnectFail in E. rewrite C in E. destruct (baseLabels _ _ _ _ _ _) as [b| |] eqn:B; cbn [bind] in E; try discriminate.
  apply base_inv in B. destruct B as (sip & dip & S & D & ->).
  destruct (updAll _ _) as [g1| |] eqn:U; cbn [bind] in E; try discriminate. apply updAll_inv in U. destruct U as (L & K & NM & _).
  assert (E' : withTs g1 (getStartTime (v_first v)) = r) by congruence. subst r. clear E. cbn [withTs gname gmetrics glabels gts] in *.
  match type of K with _ = gmetrics (metAll g ?l) => pose proof (metAll_metrics l g) as MM; destruct (metAll_labels l g) as (ML & _ & MN) end.
  rewrite GM, two_metrics in MM. rewrite MM in K. unfold recordOf. cbn [withTs gname gmetrics glabels gts].
  split; [congruence|]. split; [unfold mnames; cbn [gmetrics withTs]; rewrite K; reflexivity|]. split.
  { intros n d J. cbn [gmetrics withTs] in J. rewrite K in J. repeat (destruct J as [J|J]; [injection J as <- <-; eexists; reflexivity|]). destruct J. }
  split. { rewrite L. apply labels_setAll; [|rewrite ML; exact GL]. apply base_labels; [exact GE|lia|lia|cbv [ConnectFailError]; lia]. }
  split; [apply start_range|]. split; [unfold boolOf; unfold says in P4; cbn [glabels withTs] in P4; rewrite P4; reflexivity|].
  split; [unfold strOf; unfold says in P3; cbn [glabels withTs] in P3; rewrite P3; reflexivity|].
  rewrite K. unfold valueIn. repeat split; cbn [map fst snd]; lits; cbn [zsum fold_right]; lia.
Qed.
