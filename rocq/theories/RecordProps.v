(** C55: what a reported record says. *)
From Coq Require Import Sorted.
From Verif Require Import Base Decimal AttrModel PoolModel PoolProps EventModel PairModel PairSpec PairProps MsgModel TextModel TextProps LabelNames DetectModel ReaderProofs DetectProofs RecordModel RecordSpec RecordProofs DnsModel DnsProps FactoryModel RecordParsers.
Open Scope string_scope. Open Scope list_scope. Open Scope Z_scope.

Definition answered (m : pairs) : bool := match p_resp m with Some _ => true | None => false end.
Definition okAttrs (a : option attrs) : Prop := forall l, a = Some l -> parserMaySet l.

Lemma records_inv c g m proto a nt rq r : p_req m = Some rq -> getRecords c g m proto a nt = Ok [r] ->
  exists g1, fillLabels c g (v_first rq) proto (match p_resp m with Some _ => isSlow c (getDuration m) proto | None => false end) a (evsData rq)
      (match p_resp m with Some v => Some (e_tid (v_first v), lastTs v, evsData v) | None => None end) nt = Ok g1 /\
    glabels r = glabels g1 /\ gts r = getStartTime (v_first rq) /\
    gmetrics r = fold_left (fun m p => aset m (fst p) (MInt (snd p)))
      [(VConnectTime, s64 (getConnectDuration m)); (VRequestSentTime, getSentTime m);
       (VWaitingTtfbTime, getWaitingTime m); (VContentDownloadTime, getDownloadTime m);
       (VRequestTotalTime, totalTime m); (VRequestIo, s64 (getRequestSize m)); (VResponseIo, s64 (getResponseSize m))] (gmetrics g).
Proof.
  intros Q. unfold getRecords. rewrite Q. destruct (match a with Some l => _ | None => _ end); [discriminate|].
  destruct (fillLabels _ _ _ _ _ _ _ _ _) as [g1| |] eqn:F; cbn [bind]; try discriminate.
  intros E. assert (E' : withTs (metAll g1 [(VConnectTime, s64 (getConnectDuration m)); (VRequestSentTime, getSentTime m);
                               (VWaitingTtfbTime, getWaitingTime m); (VContentDownloadTime, getDownloadTime m);
                               (VRequestTotalTime, totalTime m); (VRequestIo, s64 (getRequestSize m)); (VResponseIo, s64 (getResponseSize m))])
                   (getStartTime (v_first rq)) = r) by congruence. clear E. subst r.
  exists g1. split; [reflexivity|].
  match goal with |- context [metAll g1 ?l] => destruct (metAll_labels l g1) as (L1 & _ & _); pose proof (metAll_metrics l g1) as L2; set (ll := l) in * end.
  cbn [withTs glabels gts gmetrics]. split; [exact L1|]. split; [reflexivity|]. rewrite L2.
  destruct (fill_inv _ _ _ _ _ _ _ _ _ _ F) as (? & ? & ? & ? & _ & _ & _ & _ & _ & -> & _). reflexivity.
Qed.
Lemma says_same r g k v : glabels r = glabels g -> says g k v -> says r k v.
Proof. unfold says. intros ->. auto. Qed.
Lemma parties_same e r g : glabels r = glabels g -> parties e g -> parties e r.
Proof. unfold parties, says. intros ->. auto. Qed.
Lemma translated_same e r g : glabels r = glabels g -> translated e g -> translated e r.
Proof. unfold translated, says. intros ->. auto. Qed.
Lemma errors_same a b r g : glabels r = glabels g -> errorMarks a b g -> errorMarks a b r.
Proof. unfold errorMarks, says. intros ->. auto. Qed.
Lemma carries_same a r g : glabels r = glabels g -> carries a g -> carries a r.
Proof. unfold carries, says. intros ->. auto. Qed.

(** The record of a pair names the parties of its first request, the protocol, the threads of the first request and the
    first response, the translated destination if there is one, marks an error exactly if the parser found one or there
    is no response, and carries the labels of the parser. *)
Theorem C55_record c g m proto a nt rq r : p_req m = Some rq -> okAttrs a -> getRecords c g m proto a nt = Ok [r] ->
  parties (v_first rq) r /\ translated nt r /\ errorMarks a (answered m) r /\ carries a r /\
  says r "protocol" (SV (bs proto)) /\ says r "request_tid" (IV (e_tid (v_first rq))) /\
  says r "response_tid" (IV (match p_resp m with Some v => e_tid (v_first v) | None => 0 end)) /\
  gts r = w64 (e_ts (v_first rq) - e_lat (v_first rq)).
Proof.
  intros Q A E. destruct (records_inv _ _ _ _ _ _ _ _ Q E) as (g1 & F & L & T & _).
  destruct (filled_misc _ _ _ _ _ _ _ _ _ _ A F) as (M1 & M2 & M3 & M4).
  split; [eapply parties_same; [exact L|]; eapply filled_parties; eassumption|].
  split; [eapply translated_same; [exact L|]; eapply filled_nat; eassumption|].
  split. { eapply errors_same; [exact L|]. pose proof (filled_errors _ _ _ _ _ _ _ _ _ _ A F) as X.
           unfold answered. destruct (p_resp m); exact X. }
  split; [eapply carries_same; [exact L|]; eapply filled_carries; eassumption|].
  split; [eapply says_same; eassumption|]. split; [eapply says_same; eassumption|]. split; [|exact T].
  eapply says_same; [exact L|]. destruct (p_resp m); exact M2.
Qed.
Print Assumptions C55_record.

(** Slow: there is a response and it came no earlier than the threshold after the request started. The threshold is the
    one of the protocol if positive, else the general one if positive, else 500 ms. *)
Definition thresholdMs (c : rconf) (proto : string) (t : Z) : Prop :=
  (aget (rc_slow c) proto = Some t /\ 0 < t) \/
  ((forall v, aget (rc_slow c) proto = Some v -> v <= 0) /\ ((rc_default c = t /\ 0 < t) \/ (rc_default c <= 0 /\ t = 500))).
Lemma threshold_spec c proto t : thresholdMs c proto t -> slowThreshold c proto = t.
Proof.
  intros [(E & P) | (N & D)]; unfold slowThreshold.
  - rewrite E. destruct (0 <? t) eqn:X; [reflexivity|]. apply Z.ltb_ge in X. lia.
  - assert (X : (if 0 <? rc_default c then rc_default c else 500) = t).
    { destruct (0 <? rc_default c) eqn:X; [apply Z.ltb_lt in X|apply Z.ltb_ge in X]; lia. }
    rewrite X. destruct (aget (rc_slow c) proto) as [v|]; [|reflexivity]. specialize (N v eq_refl).
    destruct (0 <? v) eqn:Y; [apply Z.ltb_lt in Y; lia|reflexivity].
Qed.
Lemma slow_spec c proto t d : thresholdMs c proto t -> t * 1000000 < 2 ^ 63 -> 0 <= d < 2 ^ 63 -> isSlow c d proto = (t * 1000000 <=? d).
Proof.
  intros T L D. assert (P : 0 < t) by (destruct T as [(_ & P)|(_ & [(_ & P)|(_ & P)])]; lia).
  unfold isSlow. rewrite (threshold_spec _ _ _ T). rewrite (s64_small (t * 1000000)), (s64_small d) by lia. reflexivity.
Qed.
Theorem C55_slow c g m proto a nt rq r t : p_req m = Some rq -> okAttrs a -> getRecords c g m proto a nt = Ok [r] ->
  thresholdMs c proto t -> t * 1000000 < 2 ^ 63 -> getDuration m < 2 ^ 63 ->
  exists b, says r "is_slow" (BV b) /\ (b = true <-> p_resp m <> None /\ t * 1000000 <= getDuration m).
Proof.
  intros Q A E T TL D. destruct (records_inv _ _ _ _ _ _ _ _ Q E) as (g1 & F & L & _).
  destruct (filled_misc _ _ _ _ _ _ _ _ _ _ A F) as (_ & _ & M & _).
  eexists. split; [eapply says_same; eassumption|]. destruct (p_resp m) as [v|] eqn:P.
  - rewrite (slow_spec _ _ _ _ T TL). { rewrite Z.leb_le. split; [intros H; split; [discriminate|exact H]|tauto]. }
    split; [|exact D]. unfold getDuration. rewrite P, Q. apply Z.mod_pos_bound. lia.
  - split; [discriminate|]. intros (H & _). tauto.
Qed.
Print Assumptions C55_slow.

(** The payload labels are the text (C27) of the merged request and response payloads; without a response the second is
    empty.  The end of the trace is the time of the last response. *)
Theorem C55_payload c g m proto a nt rq r : p_req m = Some rq -> okAttrs a -> getRecords c g m proto a nt = Ok [r] ->
  (exists q, getPayloadString (rc_payload c) (evsData rq) proto = Ok q /\ says r "request_payload" (SV q)) /\
  (p_resp m = None -> says r "response_payload" (SV [])) /\
  (forall v, p_resp m = Some v -> says r "end_timestamp" (IV (s64 (lastTs v))) /\
     exists p, getPayloadString (rc_payload c) (evsData v) proto = Ok p /\ says r "response_payload" (SV p)).
Proof.
  intros Q A E. destruct (records_inv _ _ _ _ _ _ _ _ Q E) as (g1 & F & L & _).
  destruct (filled_payload _ _ _ _ _ _ _ _ _ _ F) as (q & P1 & P2 & P3 & P4).
  split; [exists q; split; [exact P1|eapply says_same; eassumption]|]. split.
  - intros N. rewrite N in P3. eapply says_same; [exact L|]. apply P3. reflexivity.
  - intros v V. rewrite V in P4, F. destruct (P4 _ _ _ eq_refl) as (p & X & Y). split.
    + eapply says_same; [exact L|]. eapply filled_end; [exact F|reflexivity].
    + exists p. split; [exact X|]. eapply says_same; eassumption.
Qed.
Print Assumptions C55_payload.

(** The measurements of the record are those of the pair (C12 and C13 say what these are). *)
Theorem C55_measures c g m proto a nt rq r : p_req m = Some rq -> getRecords c g m proto a nt = Ok [r] ->
  measures r "connect_time" (s64 (getConnectDuration m)) /\ measures r "request_sent_time" (getSentTime m) /\
  measures r "waiting_ttfb_time" (getWaitingTime m) /\ measures r "content_download_time" (getDownloadTime m) /\
  measures r "request_total_time" (totalTime m) /\ measures r "request_io" (s64 (getRequestSize m)) /\
  measures r "response_io" (s64 (getResponseSize m)) /\
  (forall n, ~ In n groupMetricNames -> getMetric r n = getMetric g n).
Proof.
  intros Q E. destruct (records_inv _ _ _ _ _ _ _ _ Q E) as (g1 & F & _ & _ & M).
  unfold measures, getMetric. rewrite M. cbn [fold_left fst snd].
  repeat split; try (rewrite !aget_aset; lits; reflexivity).
  intros n N. cbn [groupMetricNames In] in N.
  rewrite !aget_aset_other by (intros ->; apply N; cbn; tauto). reflexivity.
Qed.
Print Assumptions C55_measures.

(** A continued HTTP exchange reports nothing. *)
Theorem C55_continue c g m proto l nt rq v : p_req m = Some rq -> aget l "http_continue" = Some v -> getRecords c g m proto (Some l) nt = Ok [].
Proof. intros Q H. unfold getRecords. rewrite Q. unfold ahas. change LHttpContinue with "http_continue". rewrite H. reflexivity. Qed.
Print Assumptions C55_continue.

(** Making the record never stops the collector, if both addresses are there, the group from the pool has labels of the
    right types and the payload has a text. *)
Lemma base_good e t1 t2 er et sl sip dip : goodList (baseOf e t1 t2 er et sl sip dip).
Proof.
  unfold goodList, baseOf. repeat (apply Forall_cons; [split; [|cbn; tauto]; split; [|split]; cbn [fst snd]; intros H; try (eexists; reflexivity);
    exfalso; cbn in H; intuition discriminate|]). constructor.
Qed.
Lemma typed_setAll : forall l m, typed l -> NoDup (keys l) -> typed m -> typed (setAll l m).
Proof. intros l m T N M k v G. rewrite setAll_get in G by exact N. destruct (aget l k) eqn:E; [inversion G; subst; eapply T|eapply M]; eassumption. Qed.
Lemma parser_typed l : parserMaySet l -> typed l.
Proof.
  intros (N & O & E & T) k v G. split; [|split]; intros I.
  - exfalso. rewrite O in G; [discriminate|]. revert I. cbn. tauto.
  - assert (D : "error_type" = k \/ In k ownLabels) by (revert I; cbn; tauto). destruct D as [<- | D]; [eapply T; exact G|].
    exfalso. rewrite O in G; [discriminate|exact D].
  - assert (D : "is_error" = k \/ In k ownLabels) by (revert I; cbn; tauto). destruct D as [<- | D]; [eapply E; exact G|].
    exfalso. rewrite O in G; [discriminate|exact D].
Qed.
Ltac good1 := apply Forall_cons; [split; [split; [|split]; cbn [fst snd]; intros H; try (eexists; reflexivity); exfalso; cbn in H; intuition discriminate|cbn; tauto]|].
Definition hasText (c : rconf) (d : bytes) (proto : string) : Prop := exists t, getPayloadString (rc_payload c) d proto = Ok t.
Lemma fill_ok c g e proto slow a rq resp nt : typed (glabels g) -> okAttrs a -> e_sip e <> [] -> e_dip e <> [] -> hasText c rq proto ->
  (forall d, dataOf resp = Some d -> hasText c d proto) -> exists r, fillLabels c g e proto slow a rq resp nt = Ok r /\ typed (glabels r).
Proof.
  intros T A S D (q & Q) R. unfold fillLabels, baseLabels. destruct (e_sip e) as [|s0 sl] eqn:ES; [tauto|]. destruct (e_dip e) as [|d0 dl] eqn:ED; [tauto|].
  unfold getSip, getDip. rewrite ES, ED, !gindex_0. cbn [bind]. fold (tidOf resp).
  match goal with |- context [updAll g (?b ++ ?x)] => change b with (baseOf e (e_tid e) (tidOf resp) false NoError slow (ipLong2String s0) (ipLong2String d0)) end.
  destruct (updAll_ok (baseOf e (e_tid e) (tidOf resp) false NoError slow (ipLong2String s0) (ipLong2String d0) ++ [(LProtocol, SV (bs proto))]) g T) as (g1 & -> & T1).
  { apply Forall_app. split; [apply base_good|]. good1. constructor. }
  cbn [bind]. fold (endLabels resp).
  assert (T2 : typed (glabels (mergeAttrs g1 a))).
  { destruct (mergeAttrs_labels g1 a) as (-> & _). apply typed_setAll; [|apply attributes_nodup; exact A|exact T1].
    destruct a as [l|]; [apply parser_typed, (A l eq_refl)|]. intros k v G. discriminate. }
  destruct (updAll_ok (endLabels resp) (mergeAttrs g1 a) T2) as (g3 & -> & T3).
  { destruct resp as [[[t ts] d]|]; [|constructor]. cbn [endLabels]. good1. constructor. }
  cbn [bind]. fold (dataOf resp). unfold payloadLabels. rewrite Q. cbn [bind].
  assert (P : exists p, match dataOf resp with Some d => getPayloadString (rc_payload c) d proto | None => Ok [] end = Ok p).
  { destruct (dataOf resp) as [d|]; [apply R; reflexivity|eauto]. }
  destruct P as (p & ->). cbn [bind].
  destruct (updAll_ok [(LRequestPayload, SV q); (LResponsePayload, SV p)] g3 T3) as (g4 & -> & T4). { good1. good1. constructor. }
  cbn [bind]. fold (natLabels nt).
  match goal with |- context [updAll ?g5 (natLabels nt)] => destruct (updAll_ok (natLabels nt) g5) as (g6 & E6 & T6) end.
  - destruct (_ && _); [|exact T4]. cbn [glabels withLabels].
    apply typed_aset; [apply typed_aset; [exact T4|]|]; (split; [|split]; intros H; try (eexists; reflexivity); exfalso; cbn in H; intuition discriminate).
  - destruct nt as [[ip port]|]; [|constructor]. cbn [natLabels]. good1. good1. constructor.
  - eauto.
Qed.
Theorem C55_total c g m proto a nt rq : p_req m = Some rq -> okAttrs a -> typed (glabels g) ->
  e_sip (v_first rq) <> [] -> e_dip (v_first rq) <> [] -> hasText c (evsData rq) proto ->
  (forall v, p_resp m = Some v -> hasText c (evsData v) proto) ->
  (exists l, a = Some l /\ ahas l "http_continue" = true /\ getRecords c g m proto a nt = Ok []) \/
  exists r, getRecords c g m proto a nt = Ok [r] /\ typed (glabels r).
Proof.
  intros Q A T S D H R. unfold getRecords. rewrite Q.
  destruct (match a with Some l => ahas l LHttpContinue | None => false end) eqn:C.
  - left. destruct a as [l|]; [|discriminate]. exists l. repeat split. exact C.
  - right. match goal with |- context [fillLabels c g ?e proto ?s a ?d ?p nt] => destruct (fill_ok c g e proto s a d p nt T A S D H) as (g1 & -> & T1) end.
    { intros d. destruct (p_resp m) as [v|]; [|discriminate]. cbn [dataOf]. intros E. inversion E; subst. apply R. reflexivity. }
    cbn [bind]. eexists. split; [reflexivity|]. cbn [withTs glabels]. match goal with |- context [metAll g1 ?l] => destruct (metAll_labels l g1) as (-> & _ & _) end. exact T1.
Qed.
Print Assumptions C55_total.
(** Every payload has a text unless the protocol is dubbo and the payload is shorter than sixteen bytes... *)
Theorem C55_text_exists c (d : bytes) proto : proto <> "dubbo" \/ 16 <= zlen d -> hasText c d proto.
Proof.
  intros [N | L].
  - destruct (C27_text_total (rc_payload c) d proto N) as (t & E & _). exists t. exact E.
  - destruct (string_dec proto "dubbo") as [-> | N]; [|destruct (C27_text_total (rc_payload c) d proto N) as (t & E & _); exists t; exact E].
    unfold hasText, getPayloadString. cbn [orb]. lits. cbn [orb]. unfold getSubstrBytes.
    pose proof (payloadLength_pos (rc_payload c) "dubbo") as P.
    destruct (payloadLength (rc_payload c) "dubbo" <=? 16) eqn:E1.
    + rewrite gslice_ok by lia. cbn [bind]. eauto.
    + apply Z.leb_gt in E1. destruct (zlen d <? 16 + payloadLength (rc_payload c) "dubbo") eqn:E2.
      * rewrite gslice_ok by lia. cbn [bind]. eauto.
      * apply Z.ltb_ge in E2. rewrite gslice_ok by lia. cbn [bind]. eauto.
Qed.
Print Assumptions C55_text_exists.

(** The same for the parsers of the collector, without an assumption about their labels. *)
Section Real.
  Context (b64 : bytes -> option bytes) (clustering : bytes -> bytes) (json : bytes -> option RocketModel.rheader) (ipOther : bytes -> bytes) (ignore3 : bool).
  Notation all := (factory b64 clustering json ipOther ignore3).
  Lemma parsed_attrs p c pool m nt rs rq : In p all -> pr_multi p = false -> p_req m = Some rq -> parseProtocol c pool p m nt = Ok (Some rs) -> rs <> [] ->
    exists a okq q, pr_request p (evsData rq) = Ok (okq, q) /\ okq = true /\
      (p_resp m = None -> a = m_attrs q) /\ (forall v, p_resp m = Some v -> exists q2, pr_response p (evsData v) (m_attrs q) = Ok (true, q2) /\ a = m_attrs q2) /\
      parserMaySet a /\ getRecords c (pool 0%nat) m (pr_name p) (Some a) nt = Ok rs.
  Proof.
    intros I M Q. destruct (C55_parser_labels clustering b64 json ipOther ignore3 p I) as (L1 & L2).
    unfold parseProtocol. rewrite M, Q. destruct (pr_request p (evsData rq)) as [[okq q]| |] eqn:R; cbn [bind fst snd]; try discriminate.
    destruct okq; cbn [negb]; [|discriminate]. pose proof (L1 _ _ _ R) as G1. destruct (p_resp m) as [v|].
    - destruct (pr_response p (evsData v) (m_attrs q)) as [[ok2 q2]| |] eqn:R2; cbn [bind fst snd]; try discriminate.
      destruct ok2; cbn [negb]; [|discriminate]. destruct (getRecords _ _ _ _ _ _) as [l| |] eqn:E; cbn [bind]; try discriminate.
      intros X NE. inversion X; subst l. exists (m_attrs q2), true, q. split; [reflexivity|]. split; [reflexivity|]. split; [discriminate|]. split.
      + intros v' V. inversion V; subst v'. eauto.
      + split; [eapply L2; eassumption|exact E].
    - destruct (asBool (aget (m_attrs q) LOneway)); [intros X NE; inversion X; subst; tauto|].
      destruct (getRecords _ _ _ _ _ _) as [l| |] eqn:E; cbn [bind]; try discriminate.
      intros X NE. inversion X; subst l. exists (m_attrs q), true, q. split; [reflexivity|]. split; [reflexivity|]. split; [reflexivity|].
      split; [discriminate|]. split; assumption.
  Qed.
  Theorem C55_parsed p c pool m nt rq r : In p all -> pr_multi p = false -> p_req m = Some rq -> parseProtocol c pool p m nt = Ok (Some [r]) ->
    exists q a, pr_request p (evsData rq) = Ok (true, q) /\
      (p_resp m = None -> a = m_attrs q) /\ (forall v, p_resp m = Some v -> exists q2, pr_response p (evsData v) (m_attrs q) = Ok (true, q2) /\ a = m_attrs q2) /\
      parties (v_first rq) r /\ translated nt r /\ errorMarks (Some a) (answered m) r /\ carries (Some a) r /\ says r "protocol" (SV (bs (pr_name p))).
  Proof.
    intros I M Q E. destruct (parsed_attrs _ _ _ _ _ _ _ I M Q E ltac:(discriminate)) as (a & okq & q & R & -> & A1 & A2 & A & G).
    exists q, a. split; [exact R|]. split; [exact A1|]. split; [exact A2|].
    assert (OA : okAttrs (Some a)) by (intros l X; inversion X; subst; exact A).
    destruct (C55_record _ _ _ _ _ _ _ _ Q OA G) as (P1 & P2 & P3 & P4 & P5 & _). auto.
  Qed.
  (** Every pair with a request is reported at the latest by the generic parser, which is tried last: as "NOSUPPORT" and with no error unless unanswered. *)
  Theorem C55_generic c pool m nt rq : p_req m = Some rq -> typed (glabels (pool 0%nat)) -> e_sip (v_first rq) <> [] -> e_dip (v_first rq) <> [] ->
    exists r, parseProtocol c pool genericParser m nt = Ok (Some [r]) /\ says r "protocol" (SV (bs "NOSUPPORT")) /\
      says r "is_error" (BV (negb (answered m))).
  Proof.
    intros Q T S D.
    assert (R : parseProtocol c pool genericParser m nt = bind (getRecords c (pool 0%nat) m NOSUPPORT (Some []) nt) (fun l => Ok (Some l))).
    { unfold parseProtocol. cbn [genericParser plain pr_multi pr_request pr_response]. rewrite Q. destruct (p_resp m); reflexivity. }
    assert (A : okAttrs (Some [])) by (intros l X; inversion X; subst; apply empty_may).
    destruct (C55_total c (pool 0%nat) m NOSUPPORT (Some []) nt rq Q A T S D) as [(l & E & H & _) | (r & E & _)].
    - apply C55_text_exists. left. discriminate.
    - intros v _. apply C55_text_exists. left. discriminate.
    - inversion E; subst. discriminate.
    - exists r. rewrite R, E. split; [reflexivity|].
      destruct (C55_record _ _ _ _ _ _ _ _ Q A E) as (_ & _ & (E1 & E2 & _) & _ & P & _). split; [exact P|].
      assert (NP : ~ parserError (Some [])) by (unfold parserError; discriminate).
      destruct (answered m); cbn [negb]; [apply E2; auto|apply E1; auto].
  Qed.
End Real.
Print Assumptions C55_parsed.
Print Assumptions C55_generic.

(** A record made from one request and perhaps its response (DNS). *)
Theorem C55_single c g m proto a nt r t : parserMaySet a -> getSingleRecord c g m proto a nt = Ok r ->
  thresholdMs c proto t -> t * 1000000 < 2 ^ 63 -> sDuration m < 2 ^ 63 ->
  let ans := match sp_resp m with Some _ => true | None => false end in
  parties (sp_req m) r /\ translated nt r /\ errorMarks (Some a) ans r /\ carries (Some a) r /\ says r "protocol" (SV (bs proto)) /\
  says r "request_tid" (IV (e_tid (sp_req m))) /\ says r "response_tid" (IV (match sp_resp m with Some v => e_tid v | None => 0 end)) /\
  says r "is_slow" (BV (ans && (t * 1000000 <=? sDuration m))) /\
  measures r "connect_time" 0 /\ measures r "request_sent_time" (sSentTime m) /\ measures r "waiting_ttfb_time" (sWaitingTime m) /\
  measures r "content_download_time" (sDownloadTime m) /\ measures r "request_total_time" (sDuration m) /\
  measures r "request_io" (s64 (sRequestSize m)) /\ measures r "response_io" (s64 (sResponseSize m)) /\
  gts r = w64 (e_ts (sp_req m) - e_lat (sp_req m)).
Proof.
  intros PA E T TL DL. assert (A : okAttrs (Some a)) by (intros l X; inversion X; subst; exact PA).
  unfold getSingleRecord in E. destruct (fillLabels _ _ _ _ _ _ _ _ _) as [g1| |] eqn:F; cbn [bind] in E; try discriminate.
  assert (D0 : 0 <= sDuration m) by (unfold sDuration; destruct (sp_resp m); [apply Z.mod_pos_bound; lia|lia]).
  assert (D1 : s64 (sDuration m) = sDuration m) by (apply s64_small; lia).
  match type of E with Ok ?x = Ok r => assert (E' : x = r) by congruence end. clear E.
  match type of E' with context [metAll g1 ?l] => destruct (metAll_labels l g1) as (L1 & _ & _); pose proof (metAll_metrics l g1) as L2; set (ll := l) in * end.
  assert (L : glabels r = glabels g1) by (rewrite <- E'; exact L1).
  assert (K : gmetrics r = fold_left (fun m p => aset m (fst p) (MInt (snd p))) ll (gmetrics g1)) by (rewrite <- E'; exact L2).
  assert (TS : gts r = getStartTime (sp_req m)) by (rewrite <- E'; reflexivity). clear E' L1 L2.
  destruct (filled_misc _ _ _ _ _ _ _ _ _ _ A F) as (M1 & M2 & M3 & M4). cbn zeta.
  split; [eapply parties_same; [exact L|]; eapply filled_parties; eassumption|].
  split; [eapply translated_same; [exact L|]; eapply filled_nat; eassumption|].
  split. { eapply errors_same; [exact L|]. pose proof (filled_errors _ _ _ _ _ _ _ _ _ _ A F) as X. destruct (sp_resp m); exact X. }
  split; [eapply carries_same; [exact L|]; eapply filled_carries; eassumption|].
  split; [eapply says_same; eassumption|]. split; [eapply says_same; eassumption|].
  split. { eapply says_same; [exact L|]. destruct (sp_resp m); exact M2. }
  split. { eapply says_same; [exact L|]. rewrite (slow_spec _ _ _ _ T TL) in M3 by lia.
    destruct (sp_resp m) eqn:SR; cbn [andb]; [exact M3|]. replace (t * 1000000 <=? sDuration m) with false in M3; [exact M3|].
    symmetry. apply Z.leb_gt. unfold sDuration. rewrite SR. assert (0 < t) by (destruct T as [(_ & P)|(_ & [(_ & P)|(_ & P)])]; lia). lia. }
  unfold measures, getMetric. rewrite K. unfold ll. cbn [fold_left fst snd].
  repeat (split; [rewrite !aget_aset; lits; rewrite ?D1; reflexivity|]). exact TS.
Qed.
Print Assumptions C55_single.

(** A connection without a request is a failed connect. *)
Theorem C55_connect_fail g m v r : p_con m = Some v -> getConnectFail g m = Ok [r] ->
  parties (v_first v) r /\ translated None r /\ says r "is_error" (BV true) /\ says r "error_type" (IV 1) /\ says r "is_slow" (BV false) /\
  says r "request_tid" (IV 0) /\ says r "response_tid" (IV 0) /\
  measures r "connect_time" (s64 (evsDuration v)) /\ measures r "request_total_time" (s64 (evsDuration v)) /\
  gts r = w64 (e_ts (v_first v) - e_lat (v_first v)).
Proof.
  intros C E. unfold getConnectFail in E. rewrite C in E.
  destruct (baseLabels _ _ _ _ _ _) as [b| |] eqn:B; cbn [bind] in E; try discriminate.
  apply base_inv in B. destruct B as (sip & dip & S & D & ->).
  destruct (updAll _ _) as [g1| |] eqn:U; cbn [bind] in E; try discriminate. apply updAll_inv in U. destruct U as (L & K & _ & _).
  assert (E' : withTs g1 (getStartTime (v_first v)) = r) by congruence. subst r. clear E.
  assert (X : forall k x, aget (baseOf (v_first v) 0 0 true ConnectFailError false sip dip) k = Some x -> says (withTs g1 (getStartTime (v_first v))) k x).
  { intros k x G. unfold says. cbn [withTs glabels]. rewrite L, setAll_get, G; [reflexivity|].
    unfold baseOf, keys. cbn [map app fst]. repeat (apply NoDup_cons; [cbn; intuition discriminate|]). apply NoDup_nil. }
  unfold parties, translated. repeat split; try (apply X; reflexivity).
  - intros a l H. apply X. unfold getSip in S. rewrite H, gindex_0 in S. cbn [bind] in S. inversion S. reflexivity.
  - intros a l H. apply X. unfold getDip in D. rewrite H, gindex_0 in D. cbn [bind] in D. inversion D. reflexivity.
  - unfold measures, getMetric. cbn [withTs gmetrics]. rewrite K, metAll_metrics. cbn [fold_left fst snd]. rewrite !aget_aset. lits. reflexivity.
  - unfold measures, getMetric. cbn [withTs gmetrics]. rewrite K, metAll_metrics. cbn [fold_left fst snd]. rewrite !aget_aset. lits. reflexivity.
Qed.
Print Assumptions C55_connect_fail.

(** ** Several requests on one connection (DNS over TCP) *)
Definition parsedRequest (p : parser) (e : event) (q : msg) : Prop := pr_request p (EventModel.getData e) = Ok (true, q).
(** [x]: the index of the answered request, the pair and the attributes *)
Definition answers (p : parser) (reqs : list event) (ms : list msg) (e : event) (x : Z * (single * attrs)) : Prop :=
  exists q m2, znth reqs (fst x) = Some q /\ pr_response p (EventModel.getData e) [] = Ok (true, m2) /\ fst x = pr_match p ms m2 /\ fst x <> -1 /\
    snd x = ({| sp_req := q; sp_resp := Some e |}, m_attrs m2).
Definition noAnswer (reqs : list event) (ms : list msg) (i : Z) (x : single * attrs) : Prop :=
  exists q m, znth reqs i = Some q /\ znth ms i = Some m /\ x = ({| sp_req := q; sp_resp := None |}, m_attrs m).

Lemma Forall2_len {A B} (P : A -> B -> Prop) l l' : Forall2 P l l' -> List.length l = List.length l'.
Proof. induction 1; cbn [List.length]; congruence. Qed.
Lemma parseRequests_spec p : forall l ms, parseRequests p l = Ok (Some ms) -> Forall2 (parsedRequest p) l ms.
Proof.
  induction l as [|e l IH]; intros ms E; cbn [parseRequests] in E; [inversion E; constructor|].
  destruct (pr_request p (EventModel.getData e)) as [[ok m]| |] eqn:R; cbn [bind fst snd] in E; try discriminate.
  destruct ok; [|discriminate]. destruct (parseRequests p l) as [[ms'|]| |]; cbn [bind] in E; try discriminate.
  inversion E; subst. constructor; [exact R|apply IH; reflexivity].
Qed.
Lemma matchResponses_spec p reqs ms : forall l out, matchResponses p reqs ms l = Ok (Some out) -> Forall2 (answers p reqs ms) l out.
Proof.
  induction l as [|e l IH]; intros out E; cbn [matchResponses] in E; [inversion E; constructor|].
  destruct (pr_response p (EventModel.getData e) []) as [[ok m]| |] eqn:R; cbn [bind fst snd] in E; try discriminate.
  destruct ok; [|discriminate]. destruct (pr_match p ms m =? -1) eqn:X; [discriminate|]. apply Z.eqb_neq in X.
  destruct (znth reqs (pr_match p ms m)) as [q|] eqn:Z1; [|discriminate].
  destruct (matchResponses p reqs ms l) as [[o|]| |]; cbn [bind] in E; try discriminate.
  inversion E; subst. constructor; [|apply IH; reflexivity]. exists q, m. cbn [fst snd]. auto.
Qed.
Lemma znth_cons_pos {A} (a : A) l i : 0 < i -> znth (a :: l) i = znth l (i - 1).
Proof.
  intros P. unfold znth. replace (i <? 0) with false by lia. replace (i - 1 <? 0) with false by lia.
  replace (Z.to_nat i) with (S (Z.to_nat (i - 1))) by lia. reflexivity.
Qed.
Lemma unanswered_spec : forall reqs ms ans i, List.length reqs = List.length ms ->
  exists idx, StronglySorted Z.lt idx /\ (forall j, In j idx <-> i <= j < i + zlen reqs /\ ~ In j ans) /\
    Forall2 (fun j x => exists q m, znth reqs (j - i) = Some q /\ znth ms (j - i) = Some m /\ x = ({| sp_req := q; sp_resp := None |}, m_attrs m)) idx (unanswered i ans reqs ms).
Proof.
  induction reqs as [|q reqs IH]; intros [|m ms] ans i L; try discriminate.
  - exists []. split; [constructor|]. split; [|constructor]. intros j. rewrite zlen_nil. cbn [In]. lia.
  - cbn [List.length] in L. destruct (IH ms ans (i + 1) ltac:(congruence)) as (idx & S1 & S2 & S3). cbn [unanswered].
    assert (S3' : Forall2 (fun j x => exists q0 m0, znth (q :: reqs) (j - i) = Some q0 /\ znth (m :: ms) (j - i) = Some m0 /\ x = ({| sp_req := q0; sp_resp := None |}, m_attrs m0)) idx (unanswered (i + 1) ans reqs ms)).
    { assert (P : forall j, In j idx -> i + 1 <= j) by (intros j J; apply S2 in J; lia). clear - S3 P.
      induction S3 as [|j x idx l (q0 & m0 & Q1 & Q2 & Q3) S3 IH]; constructor.
      - exists q0, m0. pose proof (P j (or_introl eq_refl)). rewrite !znth_cons_pos by lia. replace (j - i - 1) with (j - (i + 1)) by lia. auto.
      - apply IH. intros k K. apply P. right. exact K. }
    destruct (existsb (Z.eqb i) ans) eqn:X.
    + apply existsb_exists in X. destruct X as (k & K & EK). apply Z.eqb_eq in EK. subst k.
      exists idx. split; [exact S1|]. split; [|exact S3']. intros j. rewrite S2, zlen_cons. split; [intros (A & B); split; [lia|exact B]|].
      intros (A & B). split; [|exact B]. assert (j <> i) by (intros ->; tauto). lia.
    + assert (NI : ~ In i ans). { intros I. assert (Y : existsb (Z.eqb i) ans = true) by (apply existsb_exists; exists i; split; [exact I|apply Z.eqb_refl]). congruence. }
      exists (i :: idx). split; [|split].
      * constructor; [exact S1|]. apply Forall_forall. intros j J. apply S2 in J. lia.
      * intros j. cbn [In]. rewrite S2, zlen_cons. split.
        -- intros [<- | (A & B)]; [|split; [lia|exact B]]. split; [|exact NI]. pose proof (zlen_nonneg reqs). lia.
        -- intros (A & B). destruct (Z.eq_dec i j); [auto|]. right. split; [lia|exact B].
      * cbn [app]. constructor; [|exact S3']. exists q, m. rewrite Z.sub_diag. auto.
Qed.
Definition keptOf (o : option evs) : list event := match o with Some v => kept v | None => [] end.
(** The records: one for each response, in order, with the request it answers; then one, in order, for each request that no response answers. *)
Theorem C55_multi p m rq l : p_req m = Some rq -> multiPairs p m = Ok (Some l) ->
  exists ms l1 l2 idx, Forall2 (parsedRequest p) (kept rq) ms /\ l = map snd l1 ++ l2 /\
    Forall2 (answers p (kept rq) ms) (keptOf (p_resp m)) l1 /\
    StronglySorted Z.lt idx /\ (forall i, In i idx <-> 0 <= i < zlen (kept rq) /\ ~ In i (map fst l1)) /\
    Forall2 (noAnswer (kept rq) ms) idx l2.
Proof.
  intros Q E. unfold multiPairs in E. rewrite Q in E.
  destruct (parseRequests p (kept rq)) as [[ms|]| |] eqn:R; cbn [bind] in E; try discriminate.
  apply parseRequests_spec in R. pose proof (Forall2_len _ _ _ R) as L.
  assert (U : forall ans, exists idx, StronglySorted Z.lt idx /\ (forall i, In i idx <-> 0 <= i < zlen (kept rq) /\ ~ In i ans) /\
    Forall2 (noAnswer (kept rq) ms) idx (unanswered 0 ans (kept rq) ms)).
  { intros ans. destruct (unanswered_spec (kept rq) ms ans 0 L) as (idx & S1 & S2 & S3). exists idx. split; [exact S1|]. split; [exact S2|].
    clear - S3. induction S3 as [|j x idx l (q & m & A & B & C) S3 IH]; constructor; [|exact IH]. rewrite Z.sub_0_r in A, B. exists q, m. auto. }
  destruct (p_resp m) as [rs|].
  - destruct (matchResponses p (kept rq) ms (kept rs)) as [[o|]| |] eqn:M; cbn [bind] in E; try discriminate.
    inversion E; subst l. apply matchResponses_spec in M. destruct (U (map fst o)) as (idx & U1 & U2 & U3).
    exists ms, o, (unanswered 0 (map fst o) (kept rq) ms), idx. auto 10.
  - inversion E; subst l. destruct (U []) as (idx & U1 & U2 & U3).
    exists ms, [], (unanswered 0 [] (kept rq) ms), idx. split; [exact R|]. split; [reflexivity|]. split; [constructor|]. auto.
Qed.
Print Assumptions C55_multi.
Lemma znth_in {A} (l : list A) i x : znth l i = Some x -> In x l.
Proof. unfold znth. destruct (i <? 0); [discriminate|]. apply nth_error_In. Qed.
Lemma in_znth {A} (l : list A) x : In x l -> exists i, 0 <= i < zlen l /\ znth l i = Some x.
Proof.
  intros I. apply In_nth_error in I. destruct I as (n & E). exists (Z.of_nat n).
  assert (n < List.length l)%nat by (apply nth_error_Some; congruence). unfold zlen. split; [lia|].
  unfold znth. replace (Z.of_nat n <? 0) with false by lia. rewrite Nat2Z.id. exact E.
Qed.
(** Every request is in a record, and nothing but the requests and responses of the pair is. *)
Theorem C55_multi_all p m rq l : p_req m = Some rq -> multiPairs p m = Ok (Some l) ->
  (forall q, In q (kept rq) -> exists s a, In (s, a) l /\ sp_req s = q) /\
  (forall e, In e (keptOf (p_resp m)) -> exists s a, In (s, a) l /\ sp_resp s = Some e) /\
  (forall s a, In (s, a) l -> In (sp_req s) (kept rq) /\ (forall e, sp_resp s = Some e -> In e (keptOf (p_resp m)))).
Proof.
  intros Q E. destruct (C55_multi _ _ _ _ Q E) as (ms & l1 & l2 & idx & R & -> & A & _ & I & N). split; [|split].
  - intros q IQ. destruct (in_znth _ _ IQ) as (i & B & Z1). destruct (in_dec Z.eq_dec i (map fst l1)) as [J | J].
    + apply in_map_iff in J. destruct J as ((i' & s & a) & EX & J). cbn [fst] in EX. subst i'.
      assert (Y : exists e, answers p (kept rq) ms e (i, (s, a))).
      { clear - A J. induction A as [|e x es xs A1 A IH]; [contradiction|]. destruct J as [-> | J]; [eauto|apply IH; exact J]. }
      destruct Y as (e & q' & m2 & Z2 & _ & _ & _ & S). cbn [fst snd] in Z2, S. inversion S; subst.
      exists {| sp_req := q'; sp_resp := Some e |}, (m_attrs m2). split; [|cbn [sp_req]; congruence].
      apply in_or_app. left. apply in_map_iff. eexists. split; [|exact J]. reflexivity.
    + assert (J2 : In i idx) by (apply I; auto).
      assert (Y : exists x, In x l2 /\ noAnswer (kept rq) ms i x).
      { clear - N J2. induction N as [|j x es xs A1 A IH]; [contradiction|]. destruct J2 as [-> | J]; [exists x; cbn; auto|].
        destruct (IH J) as (y & Y1 & Y2). exists y. cbn; auto. }
      destruct Y as (x & IX & q' & m2 & Z2 & _ & ->). eexists _, _. split; [apply in_or_app; right; exact IX|]. cbn [sp_req]. congruence.
  - intros e IE.
    assert (Y : exists x, In x l1 /\ answers p (kept rq) ms e x).
    { clear - A IE. induction A as [|e' x es xs A1 A IH]; [contradiction|]. destruct IE as [-> | J]; [exists x; cbn; auto|].
      destruct (IH J) as (y & Y1 & Y2). exists y. cbn; auto. }
    destruct Y as ([i x] & IX & q' & m2 & _ & _ & _ & _ & S). cbn [snd] in S. subst x.
    eexists _, _. split; [apply in_or_app; left; apply in_map_iff; eexists; split; [|exact IX]; reflexivity|]. reflexivity.
  - intros s a J. apply in_app_or in J. destruct J as [J | J].
    + apply in_map_iff in J. destruct J as ((i & x) & EX & J). cbn [snd] in EX. subst x.
      assert (Y : exists e, In e (keptOf (p_resp m)) /\ answers p (kept rq) ms e (i, (s, a))).
      { clear - A J. induction A as [|e x es xs A1 A IH]; [contradiction|]. destruct J as [-> | J]; [exists e; cbn; auto|].
        destruct (IH J) as (y & Y1 & Y2). exists y. cbn; auto. }
      destruct Y as (e & IE & q' & m2 & Z2 & _ & _ & _ & S). cbn [fst snd] in Z2, S. inversion S; subst. cbn [sp_req sp_resp].
      split; [eapply znth_in; exact Z2|]. intros e' X. inversion X; subst. exact IE.
    + assert (Y : exists i, noAnswer (kept rq) ms i (s, a)).
      { clear - N J. induction N as [|j x es xs A1 A IH]; [contradiction|]. destruct J as [-> | J]; eauto. }
      destruct Y as (i & q' & m2 & Z2 & _ & S). inversion S; subst. cbn [sp_req sp_resp]. split; [eapply znth_in; exact Z2|discriminate].
Qed.
Print Assumptions C55_multi_all.
(** DNS: the request in the record of a response asked for the same name with the same id. *)
Theorem C55_dns_pairing ipOther ignore3 m rq l s a e : p_req m = Some rq -> multiPairs (dnsParser ipOther ignore3) m = Ok (Some l) ->
  In (s, a) l -> sp_resp s = Some e -> exists q r, tcpDnsRequest (EventModel.getData (sp_req s)) = Ok (true, q) /\
    tcpDnsResponse ipOther ignore3 (EventModel.getData e) [] = Ok (true, r) /\
    attrInt q LDnsId = attrInt r LDnsId /\ attrStr q LDnsDomain = attrStr r LDnsDomain.
Proof.
  intros Q E I SE. destruct (C55_multi _ _ _ _ Q E) as (ms & l1 & l2 & idx & R & -> & A & _ & _ & N).
  apply in_app_or in I. destruct I as [I | I].
  - apply in_map_iff in I. destruct I as ((i & x) & EX & J). cbn [snd] in EX. subst x.
    assert (Y : exists e, answers (dnsParser ipOther ignore3) (kept rq) ms e (i, (s, a))).
    { clear - A J. induction A as [|e' x es xs A1 A IH]; [contradiction|]. destruct J as [-> | J]; [eauto|apply IH; exact J]. }
    destruct Y as (e' & q' & m2 & Z2 & P2 & PM & PN & S). cbn [fst snd] in Z2, S, PM, PN. inversion S; subst. cbn [sp_resp] in SE. inversion SE; subst e'.
    cbn [dnsParser pr_match pr_response] in *. destruct (C25_pair ms m2) as [(X & _) | (q & pre & sf & EM & X & Y1 & Y2 & _)]; [congruence|].
    exists q, m2. split; [|auto]. cbn [sp_req]. subst ms.
    apply Forall2_app_inv_r in R. destruct R as (k1 & k2 & R1 & R2 & EK). inversion R2 as [|q0 ? k3 ? PQ _]; subst.
    rewrite EK in Z2. rewrite X in Z2. assert (LK : zlen pre = zlen k1) by (unfold zlen; f_equal; symmetry; eapply Forall2_len; exact R1).
    rewrite LK in Z2. assert (q0 = q'). { rewrite znth_app_len in Z2. congruence. }
    subst q0. exact PQ.
  - exfalso. assert (Y : exists i, noAnswer (kept rq) ms i (s, a)).
    { clear - N I. induction N as [|j x es xs A1 A IH]; [contradiction|]. destruct I as [-> | J]; eauto. }
    destruct Y as (i & q' & m2 & _ & _ & S). inversion S; subst. discriminate.
Qed.
Print Assumptions C55_dns_pairing.
(** Requests and responses past the tenth of a pair get no record. *)
Theorem C55_kept max l v : buildEvs max l = Some v -> kept v = firstn 10 l.
Proof. exact (kept_build max l v). Qed.
Print Assumptions C55_kept.

(** ** The groups the pool hands out *)
(** A group of the pool: new, or used for a record, then possibly given further labels of the right types, and cleared. *)
Inductive pooled (c : rconf) : group -> Prop :=
| P_new now : pooled c (createDataGroup now)
| P_record g m proto a nt r r' : pooled c g -> okAttrs a -> getRecords c g m proto a nt = Ok [r] ->
    (typed (glabels r) -> typed (glabels r')) -> pooled c (resetGroup r')
| P_single g m proto a nt r r' : pooled c g -> parserMaySet a -> getSingleRecord c g m proto a nt = Ok r ->
    (typed (glabels r) -> typed (glabels r')) -> pooled c (resetGroup r')
| P_fail g m r r' : pooled c g -> getConnectFail g m = Ok [r] -> (typed (glabels r) -> typed (glabels r')) -> pooled c (resetGroup r').
Lemma typeOk_zero k v : typeOk k v -> typeOk k (zero_of v).
Proof.
  intros (A & B & C). split; [|split]; intros I.
  - destruct (A I) as (s & ->). eexists. reflexivity.
  - destruct (B I) as (s & ->). eexists. reflexivity.
  - destruct (C I) as (s & ->). eexists. reflexivity.
Qed.
Lemma typed_reset g : typed (glabels g) -> typed (glabels (resetGroup g)).
Proof.
  intros T k v G. cbn [resetGroup glabels] in G. rewrite aget_map in G. destruct (aget (glabels g) k) as [o|] eqn:O; cbn [option_map] in G; [|discriminate].
  inversion G; subst. apply typeOk_zero, T, O.
Qed.
Lemma fill_typed c g e proto slow a rq resp nt r : typed (glabels g) -> okAttrs a -> fillLabels c g e proto slow a rq resp nt = Ok r -> typed (glabels r).
Proof.
  intros T A F.
  assert (S : e_sip e <> []). { intros X. unfold fillLabels, baseLabels, getSip in F. rewrite X in F. discriminate. }
  assert (D : e_dip e <> []).
  { intros X. unfold fillLabels, baseLabels, getSip, getDip in F. rewrite X in F. destruct (gindex (e_sip e) 0); discriminate. }
  assert (H : hasText c rq proto /\ forall d, dataOf resp = Some d -> hasText c d proto).
  { unfold fillLabels in F. destruct (baseLabels _ _ _ _ _ _) as [x| |]; cbn [bind] in F; try discriminate.
    destruct (updAll g _) as [g1| |]; cbn [bind] in F; try discriminate.
    destruct (updAll (mergeAttrs g1 a) _) as [g2| |]; cbn [bind] in F; try discriminate.
    fold (dataOf resp) in F. unfold payloadLabels in F. unfold hasText.
    destruct (getPayloadString (rc_payload c) rq proto) as [q| |]; cbn [bind] in F; try discriminate. split; [eauto|].
    intros d E. rewrite E in F. destruct (getPayloadString (rc_payload c) d proto) as [p| |]; cbn [bind] in F; try discriminate. eauto. }
  destruct H as (H1 & H2). destruct (fill_ok c g e proto slow a rq resp nt T A S D H1 H2) as (r' & E & T'). rewrite F in E. inversion E; subst. exact T'.
Qed.
Theorem C55_pool_typed c g : pooled c g -> typed (glabels g).
Proof.
  induction 1 as [now|g m proto a nt r r' P T A E M|g m proto a nt r r' P T A E M|g m r r' P T E M]; [intros k v X; discriminate|..]; apply typed_reset, M; clear M.
  - destruct (p_req m) as [rq|] eqn:Q; [|unfold getRecords in E; rewrite Q in E; discriminate].
    destruct (records_inv _ _ _ _ _ _ _ _ Q E) as (g1 & F & L & _). rewrite L. eapply fill_typed; [exact T|exact A|exact F].
  - unfold getSingleRecord in E. destruct (fillLabels _ _ _ _ _ _ _ _ _) as [g1| |] eqn:F; cbn [bind] in E; try discriminate.
    apply fill_typed in F; [|exact T|intros l X; inversion X; subst; exact A].
    match type of E with Ok ?x = Ok _ => assert (r = x) as -> by congruence end. cbn [withTs glabels].
    match goal with |- context [metAll g1 ?l] => destruct (metAll_labels l g1) as (-> & _ & _) end. exact F.
  - unfold getConnectFail in E. destruct (p_con m) as [v|]; [|discriminate].
    destruct (baseLabels _ _ _ _ _ _) as [b| |] eqn:B; cbn [bind] in E; try discriminate.
    apply base_inv in B. destruct B as (sip & dip & S & D & ->).
    match type of E with context [updAll ?g0 _] => destruct (updAll_ok (baseOf (v_first v) 0 0 true ConnectFailError false sip dip) g0) as (g1 & U & T1) end.
    + match goal with |- context [metAll g ?l] => destruct (metAll_labels l g) as (-> & _ & _) end. exact T.
    + apply base_good.
    + rewrite U in E. cbn [bind] in E. inversion E; subst r. exact T1.
Qed.
Print Assumptions C55_pool_typed.

(** A port configured as dubbo: a request the parser did not read, shorter than sixteen bytes, panics instead of giving a record. *)
Theorem C55_static_dubbo_panics_refuted c g m rq nt : typed (glabels g) -> p_req m = Some rq -> zlen (evsData rq) < 16 ->
  16 < payloadLength (rc_payload c) "dubbo" -> getRecords c g m "dubbo" None nt = Panic.
Proof.
  intros T Q L P. pose proof (C27_dubbo_short_payload_panics_refuted (rc_payload c) (evsData rq) L P) as X.
  unfold getRecords. rewrite Q. cbn iota. unfold fillLabels. unfold baseLabels, getSip, getDip.
  destruct (gindex (e_sip (v_first rq)) 0) as [s0| |] eqn:S0; cbn [bind]; try reflexivity; [|unfold gindex in S0; destruct (znth _ _); discriminate].
  destruct (gindex (e_dip (v_first rq)) 0) as [d0| |] eqn:D0; cbn [bind]; try reflexivity; [|unfold gindex in D0; destruct (znth _ _); discriminate].
  match goal with |- context [updAll g ?b] => destruct (updAll_ok b g T) as (g1 & -> & T1) end.
  { apply Forall_app. split; [apply base_good|]. good1. constructor. }
  cbn [bind mergeAttrs].
  match goal with |- context [updAll g1 ?b] => destruct (updAll_ok b g1 T1) as (g2 & -> & T2) end.
  { destruct (p_resp m); [|constructor]. good1. constructor. }
  cbn [bind]. unfold payloadLabels. rewrite X. reflexivity.
Qed.
Print Assumptions C55_static_dubbo_panics_refuted.

(** ** Examples *)
Definition exEvent (name : string) (d : bytes) (ts lat : Z) : event :=
  {| e_name := name; e_ts := ts; e_lat := lat; e_net := true; e_params := 2;
     e_attrs := [{| kv_key := "res"; kv_type := TInt64; kv_val := [Z.of_nat (List.length d); 0; 0; 0; 0; 0; 0; 0] |}; {| kv_key := "data"; kv_type := TBytebuf; kv_val := d |}];
     e_pid := 7; e_tid := 8; e_comm := "curl"; e_cid := "c"; e_fd := 4; e_proto := L4Tcp; e_role := false;
     e_sip := [16777226]; e_dip := [33554442]; e_sport := 4000; e_dport := 80 |}.
Definition exConf : rconf := {| rc_slow := [("http", 1)]; rc_default := 0; rc_payload := [] |}.
Definition exHttp : pairs :=
  {| p_con := None; p_req := Some (newEvents (exEvent "write" (bs "GET /a?b HTTP/1.1") 1000 100) 1024);
     p_resp := Some (newEvents (exEvent "read" (bs "HTTP/1.1 404 Not Found") 3000000 50) 1024); p_send := 0; p_max := 1024 |}.
(** an HTTP request with an error answer, reported from a new group: it is slow and an error *)
Example C55_http_ex : exists r, parseProtocol exConf (fun _ => createDataGroup 5) (httpParser (fun _ => None) (fun u => u)) exHttp (Some (bs "10.1.1.1", 8080)) = Ok (Some [r]) /\
  says r "src_ip" (SV (bs "10.0.0.1")) /\ says r "dnat_port" (IV 8080) /\ says r "is_error" (BV true) /\ says r "is_slow" (BV true) /\
  says r "http_status_code" (IV 404) /\ measures r "request_total_time" 2999100 /\ gts r = 900.
Proof. eexists. split; [vm_compute; reflexivity|]. repeat split; vm_compute; reflexivity. Qed.
(** two DNS queries on one connection, the second answered first; and a query sent twice *)
Definition exQuery (i : Z) (n : string) : bytes := [0; 0] ++ [0; i; 1; 0; 0; 1; 0; 0; 0; 0; 0; 0] ++ [1] ++ bs n ++ [0; 0; 1; 0; 1].
Definition exReply (i : Z) (n : string) : bytes := [0; 0] ++ [0; i; 129; 128; 0; 1; 0; 0; 0; 0; 0; 0] ++ [1] ++ bs n ++ [0; 0; 1; 0; 1].
Definition exDns (q r : list bytes) : pairs :=
  {| p_con := None; p_req := buildEvs 1024 (map (fun d => exEvent "write" d 1000 100) q);
     p_resp := buildEvs 1024 (map (fun d => exEvent "read" d 2000 100) r); p_send := 0; p_max := 1024 |}.
Example C55_multi_ex : exists a1 a2, multiPairs (dnsParser (fun _ => []) false) (exDns [exQuery 1 "a"; exQuery 2 "b"] [exReply 2 "b"]) =
  Ok (Some [({| sp_req := exEvent "write" (exQuery 2 "b") 1000 100; sp_resp := Some (exEvent "read" (exReply 2 "b") 2000 100) |}, a1);
            ({| sp_req := exEvent "write" (exQuery 1 "a") 1000 100; sp_resp := None |}, a2)]) /\ aget a2 "dns_domain" = Some (SV (bs "a.")).
Proof. eexists _, _. split; vm_compute; reflexivity. Qed.
(** Two queries with the same id and name: the first is reported with both answers and the second as unanswered, i.e. an error. *)
Theorem C55_same_query_twice_refuted : exists q1 q2 r1 r2 a b, e_ts q1 <> e_ts q2 /\
  multiPairs (dnsParser (fun _ => []) false) {| p_con := None; p_req := buildEvs 1024 [q1; q2]; p_resp := buildEvs 1024 [r1; r2]; p_send := 0; p_max := 1024 |} =
  Ok (Some [({| sp_req := q1; sp_resp := Some r1 |}, a); ({| sp_req := q1; sp_resp := Some r2 |}, a); ({| sp_req := q2; sp_resp := None |}, b)]).
Proof.
  exists (exEvent "write" (exQuery 1 "a") 1000 100), (exEvent "write" (exQuery 1 "a") 1500 100),
         (exEvent "read" (exReply 1 "a") 2000 100), (exEvent "read" (exReply 1 "a") 2500 100). eexists _, _. split; [vm_compute; discriminate|]. vm_compute. reflexivity.
Qed.
Print Assumptions C55_same_query_twice_refuted.
Example C55_pooled_ex : exists g r, pooled exConf g /\ g <> createDataGroup 5 /\ getRecords exConf g exHttp "http" None None = Ok [r].
Proof.
  assert (X : exists r, getRecords exConf (createDataGroup 5) exHttp "http" None None = Ok [r]) by (eexists; vm_compute; reflexivity).
  destruct X as (r0 & X). exists (resetGroup r0).
  assert (Y : exists r, getRecords exConf (resetGroup r0) exHttp "http" None None = Ok [r]).
  { assert (Z1 : Ok [r0] = getRecords exConf (createDataGroup 5) exHttp "http" None None) by congruence. vm_compute in Z1. inversion Z1; subst. eexists. vm_compute. reflexivity. }
  destruct Y as (r & Y). exists r. split; [|split; [|exact Y]].
  - refine (P_record exConf _ _ _ None _ _ _ (P_new _ 5) _ X (fun t => t)). intros l A. discriminate.
  - intros C. apply (f_equal gts) in C. discriminate.
Qed.
