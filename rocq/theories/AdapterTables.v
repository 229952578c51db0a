(** The labels of each converter, as the tables of AdapterSpec. *)
From Verif Require Import Base Decimal AttrModel AttrProofs PoolModel LabelNames EnrichModel AdapterModel AdapterProofs AdapterSpec AdapterWorld.
From Coq Require Import Permutation Sorting.Sorted.
Open Scope string_scope. Open Scope list_scope. Open Scope Z_scope.

Lemma adjusted_app adj m : forall a b, adjusted adj m (a ++ b) = adjusted adj m a ++ adjusted adj m b.
Proof.
  unfold adjusted. induction adj as [|x adj IH]; intros a b; cbn [fold_left]; [reflexivity|]. rewrite <- IH. f_equal.
  rewrite !adjust_eq. destruct (adjOff x m); [reflexivity|apply map_app].
Qed.
Lemma adjusted_noop adj m t : (forall p, In p t -> ~ In (fst p) (flat_map adjKeys adj)) -> adjusted adj m t = t.
Proof.
  unfold adjusted. revert t. induction adj as [|x adj IH]; intros t H; cbn [fold_left flat_map] in *; [reflexivity|].
  assert (E : adjustList x m t = t).
  { rewrite adjust_eq. destruct (adjOff x m); [reflexivity|]. rewrite <- (map_id t) at 2. apply map_ext_in. intros p I.
    specialize (H p I). rewrite in_app_iff in H. destruct x; cbn [adjFun adjKeys] in *.
    - rewrite (proj2 (eqb_neq (fst p) LbDstNode)), (proj2 (eqb_neq (fst p) LbDstPod)) by (intros X; apply H; left; rewrite X; cbn; auto). reflexivity.
    - rewrite (proj2 (eqb_neq (fst p) LbDstIp)), (proj2 (eqb_neq (fst p) LbDstPort)) by (intros X; apply H; left; rewrite X; cbn; auto). reflexivity. }
  rewrite E. apply IH. intros p I. specialize (H p I). rewrite in_app_iff in H. tauto.
Qed.
Definition builtIn (s : shape) (e : list dict) (m : labels) (vl : list kv) : list kv :=
  adjusted (s_adj s) m (dictTable m (s_base s ++ e) ++ combine (vkeys (s_val s)) (map snd vl)).
Lemma tableOf_eq cl s k e m vl : In s shapes -> aget (s_extra s) k = Some e -> goodCustom cl -> tableOf cl s e m vl = builtIn s e m vl ++ customs cl.
Proof.
  intros Hs He [_ G]. unfold tableOf, rawTable, builtIn. rewrite app_assoc, adjusted_app. f_equal. apply adjusted_noop.
  intros p I X. apply in_map_iff in I. destruct I as (q & <- & Iq). cbn [fst] in X.
  apply (G (fst q)); [apply in_map; exact Iq|]. eapply keys_reserved; [exact Hs|exact He|]. apply adj_in_base; [exact Hs|exact X].
Qed.
Lemma keys_distinct cl s k e : In s shapes -> aget (s_extra s) k = Some e -> (s_val s = VSpan -> k <> pREDIS) -> goodCustom cl ->
  NoDup (allKeys (s_base s ++ e) (vkeys (s_val s)) cl).
Proof.
  intros Hs He R [N G]. assert (W := wkeys_nodup s Hs k e He R). unfold allKeys.
  revert W. assert (D : forall x, In x (wkeys (s_base s ++ e) (vkeys (s_val s))) -> ~ In x (map fst cl)).
  { intros x I J. apply (G x J). eapply keys_reserved; eassumption. }
  revert D. generalize (wkeys (s_base s ++ e) (vkeys (s_val s))). induction l as [|x l IH]; intros D W; cbn [app]; [exact N|].
  inversion W; subst. constructor; [|apply IH; [intros y I; apply D; right; exact I|assumption]].
  rewrite in_app_iff. intros [X|X]; [contradiction|]. exact (D x (or_introl eq_refl) X).
Qed.
Lemma in_aget_iff {V} (t : list (string * V)) k v : NoDup (map fst t) -> (In (k, v) t <-> aget t k = Some v).
Proof. intros N. split; [intros I; apply in_aget; assumption|apply aget_in]. Qed.

Section Shows.
  Context (cl : list (string * aval)) (good : goodCustom cl).
  Lemma create_shows t ms g x ty p s vl tab : poolsOK cl p -> nth_error shapes x = Some s -> vlabels (s_val s) g = Ok vl ->
    (s_val s = VSpan -> found s (glabels g) <> pREDIS) ->
    (ty = AttributeMap -> map fst vl = vkeys (s_val s) /\ forall p, In p vl -> snd p <> None) ->
    (forall e, aget (s_extra s) (found s (glabels g)) = Some e -> forall p, In p (builtIn s e (glabels g) vl) <-> In p tab) ->
    exists p' r, create cl t ms g x ty p = Ok (p', r) /\ poolsOK cl p' /\ formOf (res_attrs r) = ty /\
      shows cl g {| wn_type := t; wn_metrics := ms; wn_labels := tab |} r.
  Proof.
    intros P Hs V R FV Tab. assert (Is := nth_error_In _ _ Hs).
    destruct (create_ok cl t ms g x ty p s vl P Hs V) as (e & p' & r & He & C & P' & _ & T1 & T2 & T3 & _ & T4 & A).
    exists p', r. split; [exact C|]. split; [exact P'|]. split; [exact T4|]. unfold shows. cbn [wn_type wn_metrics wn_labels].
    split; [exact T1|]. split; [exact T2|]. split; [exact T3|].
    assert (ND := keys_distinct cl s _ e Is He R good). assert (L := vlabels_len _ _ _ V).
    assert (KT : map fst (tableOf cl s e (glabels g) vl) = allKeys (s_base s ++ e) (vkeys (s_val s)) cl).
    { unfold tableOf. rewrite adjusted_keys. apply raw_keys. rewrite map_length. exact L. }
    assert (IT : forall q, In q (tableOf cl s e (glabels g) vl) <-> In q (withCustom tab cl)).
    { intros q. rewrite (tableOf_eq cl s _ e (glabels g) vl Is He good). unfold withCustom. rewrite !in_app_iff, (Tab e He q). reflexivity. }
    assert (PS := sort_perm (allKeys (s_base s ++ e) (vkeys (s_val s)) cl)). fold (sorted (s_base s ++ e) (vkeys (s_val s)) cl) in PS.
    unfold labelsAre. destruct (res_attrs r) as [l|m].
    - destruct A as [K Q]. assert (NS : NoDup (map fst l)) by (rewrite K; exact (Permutation_NoDup (Permutation_sym PS) ND)).
      split.
      + rewrite K. apply sorted_strict; [apply sort_sorted|rewrite <- K; exact NS].
      + intros k v. rewrite <- IT, (in_aget_iff l k v NS), (in_aget_iff _ k v) by (rewrite KT; exact ND).
        destruct (in_dec string_dec k (allKeys (s_base s ++ e) (vkeys (s_val s)) cl)) as [I|NI].
        * rewrite Q; [reflexivity|]. split; [apply NoDup_once; assumption|]. left. apply (wkeys_nodup s Is _ e He R).
        * assert (N1 : aget l k = None) by (apply aget_none_notin; unfold keys; rewrite K; intros X; apply NI; exact (proj1 (sort_in _ _) X)).
          assert (N2 : aget (tableOf cl s e (glabels g) vl) k = None) by (apply aget_none_notin; unfold keys; rewrite KT; exact NI).
          rewrite N1, N2. reflexivity.
    - destruct A as [MO Q]. cbn [formOf] in T4. subst ty. destruct (FV eq_refl) as [F1 F2]. specialize (Q F1 F2).
      intros k v. rewrite <- IT, (in_aget_iff _ k (Some v)) by (rewrite KT; exact ND).
      destruct (in_dec string_dec k (allKeys (s_base s ++ e) (vkeys (s_val s)) cl)) as [I|NI].
      + rewrite Q by (apply NoDup_once; assumption). destruct (aget (tableOf cl s e (glabels g) vl) k) as [[w|]|]; cbn [join]; split; congruence.
      + assert (N2 : aget (tableOf cl s e (glabels g) vl) k = None) by (apply aget_none_notin; unfold keys; rewrite KT; exact NI).
        rewrite N2. split; [|discriminate]. intros X. exfalso. apply NI. apply (proj2 MO). congruence.
  Qed.
End Shows.

(** ** The dictionaries and the tables *)
Lemma content_table s m e : s_extra s = entityProtocol -> aget (s_extra s) (found s m) = Some e -> dictTable m e = contentT m.
Proof.
  intros X. unfold found. rewrite X. clear X. unfold updateProtocolKey, contentT, requestContent, responseContent, codeOf, oneOf, existsb, protocolIs.
  change LProtocol with "protocol". set (P := strOf m "protocol").
  destruct (eqb P (bs "http")) eqn:E1; [intros H; inversion H; reflexivity|].
  destruct (eqb P (bs "grpc")) eqn:E2; [intros H; inversion H; reflexivity|].
  destruct (eqb P (bs "mysql")) eqn:E3; [intros H; inversion H; reflexivity|].
  destruct (eqb P (bs "dns")) eqn:E4; [apply eqb_true in E4; rewrite ?E4; intros H; inversion H; reflexivity|].
  destruct (eqb P (bs "kafka")) eqn:E5; [apply eqb_true in E5; rewrite ?E5; intros H; inversion H; reflexivity|].
  destruct (eqb P (bs "dubbo")) eqn:E6; [apply eqb_true in E6; rewrite ?E6; intros H; inversion H; reflexivity|].
  destruct (eqb P (bs "redis")) eqn:E7; [apply eqb_true in E7; rewrite ?E7; intros H; inversion H; unfold dictTable, dictValue, failed; cbn [map vt newKey originKey]; change (intOf m LErrorType =? ProtocolError) with (intOf m "error_type" =? 3); destruct (intOf m "error_type" =? 3); reflexivity|].
  destruct (eqb P (bs "rocketmq")) eqn:E8; [apply eqb_true in E8; rewrite ?E8; intros H; inversion H; reflexivity|].
  intros H; inversion H; reflexivity.
Qed.
Lemma status_table s m e : s_extra s = topologyProtocol -> aget (s_extra s) (found s m) = Some e -> dictTable m e = edgeStatusT m.
Proof.
  intros X. unfold found. rewrite X. clear X. unfold updateProtocolKey, edgeStatusT, statusCode, codeOf, oneOf, existsb, protocolIs.
  change LProtocol with "protocol". set (P := strOf m "protocol").
  destruct (eqb P (bs "http")) eqn:E1; [intros H; inversion H; reflexivity|].
  destruct (eqb P (bs "grpc")) eqn:E2; [intros H; inversion H; reflexivity|].
  destruct (eqb P (bs "mysql")) eqn:E3; [intros H; inversion H; reflexivity|].
  destruct (eqb P (bs "dns")) eqn:E4; [apply eqb_true in E4; rewrite ?E4; intros H; inversion H; reflexivity|].
  destruct (eqb P (bs "kafka")) eqn:E5; [apply eqb_true in E5; rewrite ?E5; intros H; inversion H; reflexivity|].
  destruct (eqb P (bs "dubbo")) eqn:E6; [apply eqb_true in E6; rewrite ?E6; intros H; inversion H; reflexivity|].
  destruct (eqb P (bs "redis")) eqn:E7; [apply eqb_true in E7; rewrite ?E7; intros H; inversion H; unfold dictTable, dictValue, failed; cbn [map vt newKey originKey]; change (intOf m LErrorType =? ProtocolError) with (intOf m "error_type" =? 3); destruct (intOf m "error_type" =? 3); reflexivity|].
  destruct (eqb P (bs "rocketmq")) eqn:E8; [apply eqb_true in E8; rewrite ?E8; intros H; inversion H; reflexivity|].
  intros H; inversion H; reflexivity.
Qed.
Lemma span_table s m e : s_extra s = spanProtocol -> protocolIs m "redis" = false -> aget (s_extra s) (found s m) = Some e -> dictTable m e = spanProtocolT m.
Proof.
  intros X. unfold found. rewrite X. clear X. unfold updateProtocolKey, spanProtocolT, protocolIs.
  change LProtocol with "protocol". set (P := strOf m "protocol"). intros NR.
  destruct (eqb P (bs "http")) eqn:E1; [intros H; inversion H; reflexivity|].
  destruct (eqb P (bs "grpc")) eqn:E2; [apply eqb_true in E2; rewrite ?E2; intros H; inversion H; reflexivity|].
  destruct (eqb P (bs "mysql")) eqn:E3; [intros H; inversion H; reflexivity|].
  destruct (eqb P (bs "dns")) eqn:E4; [apply eqb_true in E4; rewrite ?E4; intros H; inversion H; reflexivity|].
  destruct (eqb P (bs "kafka")) eqn:E5; [apply eqb_true in E5; rewrite ?E5; intros H; inversion H; reflexivity|].
  destruct (eqb P (bs "dubbo")) eqn:E6; [apply eqb_true in E6; rewrite ?E6; intros H; inversion H; reflexivity|].
  rewrite NR.
  destruct (eqb P (bs "rocketmq")) eqn:E8; [apply eqb_true in E8; rewrite ?E8; intros H; inversion H; reflexivity|].
  intros H; inversion H; reflexivity.
Qed.
Definition redisT (m : labels) : list kv :=
  [S_ "redis.command" (strOf m "redis_command"); S_ "redis.error_msg" (strOf m "redis_error_msg");
   S_ "redis.request_payload" (strOf m "request_payload"); S_ "redis.request_payload" (strOf m "response_payload")].
Lemma redis_table s m e : s_extra s = spanProtocol -> protocolIs m "redis" = true -> aget (s_extra s) (found s m) = Some e ->
  found s m = pREDIS /\ dictTable m e = redisT m.
Proof.
  intros X R. apply eqb_true in R. unfold found, updateProtocolKey. rewrite X. change LProtocol with "protocol". rewrite R. cbn. intros H. inversion H. auto.
Qed.
Lemma not_redis s m : s_extra s = spanProtocol -> protocolIs m "redis" = false -> found s m <> pREDIS.
Proof.
  intros X. unfold found. rewrite X. clear X. unfold updateProtocolKey, protocolIs. change LProtocol with "protocol". set (P := strOf m "protocol"). intros NR. rewrite NR.
  destruct (eqb P (bs "http")); [discriminate|]. destruct (eqb P (bs "grpc")); [discriminate|]. destruct (eqb P (bs "mysql")); [discriminate|].
  destruct (eqb P (bs "dns")); [discriminate|]. destruct (eqb P (bs "kafka")); [discriminate|]. destruct (eqb P (bs "dubbo")); [discriminate|].
  destruct (eqb P (bs "rocketmq")); discriminate.
Qed.

(** ** Values of the metrics *)
Lemma last_other n d ms k : k <> n -> lastInt ((n, d) :: ms) k = lastInt ms k.
Proof.
  intros N. unfold lastInt. cbn [rev]. rewrite aget_app_l. destruct (aget (rev ms) k); [reflexivity|]. cbn [aget].
  rewrite (proj2 (eqb_neq k n)) by exact N. reflexivity.
Qed.
Lemma last_same n v ms : (forall d, In (n, d) ms -> isInt d) ->
  lastInt ((n, MInt v) :: ms) n = match lastInt ms n with Some w => Some w | None => Some v end.
Proof.
  intros I. unfold lastInt. cbn [rev]. rewrite aget_app_l. destruct (aget (rev ms) n) as [d|] eqn:E.
  - apply aget_in in E. apply in_rev in E. specialize (I d E). destruct d; [reflexivity|destruct I].
  - cbn [aget]. rewrite eqb_refl. reflexivity.
Qed.
Definition upd (ms : list (string * mdata)) (p : kv) (label name : string) : kv :=
  match lastInt ms name with Some v => (label, Some (IV v)) | None => p end.
Lemma spanValues_eq ms : intsOf measured ms -> forall a b c d e f, spanValues ms [a; b; c; d; e; f] =
  Ok [upd ms a LbRequestSentNs MRequestSentTime; upd ms b LbWaitingTTfbNs MWaitingTtfbTime; upd ms c LbContentDownloadNs MContentDownloadTime;
      upd ms d LbRequestTotalNs MRequestTotalTime; upd ms e LbRequestIoBytes MRequestIo; upd ms f LbResponseIoBytes MResponseIo].
Proof.
  induction ms as [|[n x] ms IH]; intros I a b c d e f; cbn [spanValues]; [reflexivity|].
  assert (I' : intsOf measured ms) by (intros n' d' H; apply I; right; exact H).
  specialize (IH I'). unfold spanSlot.
  Ltac hit I I' IH x n := subst n;
    let T := fresh "T" in assert (T : isInt x) by (apply (I _ x (or_introl eq_refl)); cbn; tauto); destruct x as [v|]; [|destruct T];
    cbn [intVal bind set_nth]; rewrite IH; unfold upd;
    rewrite last_same by (intros dd Hd; apply (I' _ dd Hd); cbn; tauto); rewrite ?last_other by discriminate;
    match goal with |- context [match (match ?o with Some _ => _ | None => Some v end) with _ => _ end] => destruct o; reflexivity end.
  case_eqb n MRequestSentTime; [hit I I' IH x n|]. case_eqb n MWaitingTtfbTime; [hit I I' IH x n|].
  case_eqb n MContentDownloadTime; [hit I I' IH x n|]. case_eqb n MRequestTotalTime; [hit I I' IH x n|].
  case_eqb n MRequestIo; [hit I I' IH x n|]. case_eqb n MResponseIo; [hit I I' IH x n|].
  rewrite IH. unfold upd. rewrite !last_other by congruence. reflexivity.
Qed.
Definition pick (ms : list (string * mdata)) (d : Z) (name : string) : Z := match lastInt ms name with Some v => v | None => d end.
Lemma statusValues_eq ms : intsOf timed ms -> forall a b c d, statusValues ms a b c d =
  Ok (pick ms a MRequestSentTime, pick ms b MWaitingTtfbTime, pick ms c MContentDownloadTime, pick ms d MRequestTotalTime).
Proof.
  induction ms as [|[n x] ms IH]; intros I a b c d; cbn [statusValues]; [reflexivity|].
  assert (I' : intsOf timed ms) by (intros n' d' H; apply I; right; exact H).
  specialize (IH I').
  Ltac hit2 I I' IH x n := subst n;
    let T := fresh "T" in assert (T : isInt x) by (apply (I _ x (or_introl eq_refl)); cbn; tauto); destruct x as [v|]; [|destruct T];
    cbn [intVal bind]; rewrite IH; unfold pick;
    rewrite last_same by (intros dd Hd; apply (I' _ dd Hd); cbn; tauto); rewrite ?last_other by discriminate;
    match goal with |- context [match (match ?o with Some _ => _ | None => Some v end) with _ => _ end] => destruct o; reflexivity end.
  case_eqb n MRequestSentTime; [hit2 I I' IH x n|]. case_eqb n MWaitingTtfbTime; [hit2 I I' IH x n|].
  case_eqb n MContentDownloadTime; [hit2 I I' IH x n|]. case_eqb n MRequestTotalTime; [hit2 I I' IH x n|].
  rewrite IH. unfold pick. rewrite !last_other by congruence. reflexivity.
Qed.
Lemma subStage_eq t : getSubStageStatus t = colour 200 1000 t.
Proof. unfold getSubStageStatus, colour, millToNano, ms. destruct (t <=? 200 * 1000000) eqn:A; [reflexivity|]. destruct (1000 * 1000000 <=? t) eqn:B, (t <? 1000 * 1000000) eqn:C; try reflexivity; lia. Qed.
Lemma request_eq t : getRequestStatus t = colour 800 1500 t.
Proof. unfold getRequestStatus, colour, millToNano, ms. destruct (t <=? 800 * 1000000) eqn:A; [reflexivity|]. destruct (1500 * 1000000 <=? t) eqn:B, (t <? 1500 * 1000000) eqn:C; try reflexivity; lia. Qed.
Lemma status_labels g : intsOf timed (gmetrics g) -> vlabels VStatus g = Ok (coloursT g).
Proof.
  intros I. cbn [vlabels]. unfold getTraceStatusLabels. rewrite (statusValues_eq _ I). cbn [bind].
  rewrite !subStage_eq, request_eq. reflexivity.
Qed.
Lemma span_labels g : intsOf measured (gmetrics g) -> 0 <= gts g < 2 ^ 64 -> exists vl, vlabels VSpan g = Ok vl /\
  combine (vkeys VSpan) (map snd vl) = spanValuesT g /\
  ((forall n, In n measured -> lastInt (gmetrics g) n <> None) -> map fst vl = vkeys VSpan /\ forall p, In p vl -> snd p <> None).
Proof.
  intros I T. cbn [vlabels]. unfold getTraceSpanStatusLabels. cbn [repeat]. rewrite (spanValues_eq _ I). cbn [bind].
  eexists. split; [reflexivity|].
  assert (ST : s64 (gts g / millToNano) = gts g / AdapterSpec.ms).
  { unfold AdapterSpec.ms, millToNano. assert (0 <= gts g / 1000000) by (apply Z.div_pos; lia).
    assert (gts g / 1000000 < 2 ^ 63) by (apply Z.div_lt_upper_bound; lia). unfold s64. rewrite Z.mod_small by lia. lia. }
  split.
  - cbn [app map]. unfold upd, spanValuesT, metricT. rewrite ST.
    change MRequestSentTime with "request_sent_time". change MWaitingTtfbTime with "waiting_ttfb_time". change MContentDownloadTime with "content_download_time".
    change MRequestTotalTime with "request_total_time". change MRequestIo with "request_io". change MResponseIo with "response_io".
    destruct (lastInt (gmetrics g) "request_sent_time"), (lastInt (gmetrics g) "waiting_ttfb_time"), (lastInt (gmetrics g) "content_download_time"),
      (lastInt (gmetrics g) "request_total_time"), (lastInt (gmetrics g) "request_io"), (lastInt (gmetrics g) "response_io"); reflexivity.
  - intros F. unfold upd.
    assert (G : forall n, In n measured -> exists v, lastInt (gmetrics g) n = Some v).
    { intros n J. specialize (F n J). destruct (lastInt (gmetrics g) n); [eauto|contradiction]. }
    destruct (G "request_sent_time" ltac:(cbn; tauto)) as [v1 E1]. destruct (G "waiting_ttfb_time" ltac:(cbn; tauto)) as [v2 E2].
    destruct (G "content_download_time" ltac:(cbn; tauto)) as [v3 E3]. destruct (G "request_total_time" ltac:(cbn; tauto)) as [v4 E4].
    destruct (G "request_io" ltac:(cbn; tauto)) as [v5 E5]. destruct (G "response_io" ltac:(cbn; tauto)) as [v6 E6].
    unfold MRequestSentTime, MWaitingTtfbTime, MContentDownloadTime, MRequestTotalTime, MRequestIo, MResponseIo. rewrite E1, E2, E3, E4, E5, E6.
    split; [reflexivity|]. cbn [app In]. intros p H. repeat (destruct H as [<-|H]; [discriminate|]). destruct H.
Qed.
