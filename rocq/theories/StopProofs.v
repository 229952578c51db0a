(** Lemmas about the network analyzer going on. *)
From Verif Require Import Base Decimal AttrModel PoolModel EventModel PairModel PairSpec PairProps MsgModel TextModel LabelNames DetectModel DetectSpec DetectProofs DetectProps RecordModel RecordSpec RecordProofs RecordProps
  NetModel NetSpec NetProofs2 NetProofs3 StopSpec.
Open Scope string_scope. Open Scope list_scope. Open Scope Z_scope.

(** ** The stored pairs *)
Definition addressed (e : event) : Prop := e_sip e <> [] /\ e_dip e <> [].
Definition evOk (n : Z) (e : event) : Prop := goodEvent e /\ addressed e /\ n <= zlen (EventModel.getData e).
Definition evsOk (n : Z) (v : evs) : Prop := evOk n (v_first v) /\ n <= zlen (evsData v) /\ Forall is_byte (evsData v) /\ Forall (evOk n) (kept v).
Definition pairOk (n : Z) (p : pairs) : Prop :=
  (forall v, p_con p = Some v -> addressed (v_first v)) /\ (forall v, p_req p = Some v -> evsOk n v) /\ (forall v, p_resp p = Some v -> evsOk n v).
Definition stOk (n : Z) (st : state) : Prop := Forall (fun kp => pairOk n (snd kp)) (st_map st).
Definition handedOk (n : Z) (x : pairs) : Prop := pairOk n x /\ (p_con x <> None \/ p_req x <> None).
Definition tokOk (n : Z) (t : tok) : Prop := match t with KConn e => addressed e | KReq e => evOk n e | KResp e => evOk n e end.

Lemma new_ok n e mx : evOk n e -> evsOk n (newEvents e mx).
Proof. intros (G & A & L). unfold evsOk, newEvents, evsData, kept. cbn [v_first v_merg]. split; [split; [exact G|split; assumption]|]. split; [exact L|]. split; [apply G|]. constructor; [split; [exact G|split; assumption]|constructor]. Qed.
Lemma merge_ok n v e : evsOk n v -> evOk n e -> evsOk n (mergeEvent v e).
Proof.
  intros (F & L & B & K) E.
  assert (D : PairModel.m_data (mergable v) = evsData v /\ m_events (mergable v) = kept v) by (unfold mergable, evsData, kept; destruct (v_merg v); split; reflexivity).
  destruct D as [D1 D2].
  unfold evsOk, mergeEvent. cbv zeta. unfold evsData at 1 2. unfold kept at 1. cbn [v_first v_merg PairModel.m_data m_events]. rewrite D1, D2. split; [exact F|].
  split; [|split].
  - destruct (_ =? 0); [exact L|]. rewrite zlen_app. assert (NN : forall b : bytes, 0 <= zlen b) by (intros b; unfold zlen; lia). pose proof (NN (slice (EventModel.getData e) 0 (getAppendLength (v_max v) (zlen (evsData v)) (zlen (EventModel.getData e))))). lia.
  - destruct (_ =? 0); [exact B|]. apply Forall_app. split; [exact B|]. apply bytes_slice. apply E.
  - destruct (_ <? 10); [|exact K]. apply Forall_app. split; [exact K|constructor; [exact E|constructor]].
Qed.
Lemma back_ok n cur origin : evsOk n cur -> evsOk n origin -> evsOk n (putEventBack cur origin).
Proof. intros C O. unfold putEventBack. apply merge_ok; [exact O|apply C]. Qed.
Lemma aset_ok (P : pairs -> Prop) (k : key) p : forall l : list (key * pairs), Forall (fun kp => P (snd kp)) l -> P p -> Forall (fun kp => P (snd kp)) (aset l k p).
Proof.
  induction l as [|[k' v] l IH]; intros F H; cbn [aset]; [constructor; [exact H|constructor]|]. inversion F as [|? ? F1 F2]; subst.
  destruct (eqb k k'); constructor; try assumption. apply IH; assumption.
Qed.
Lemma adel_ok (P : pairs -> Prop) (k : key) (l : list (key * pairs)) : Forall (fun kp => P (snd kp)) l -> Forall (fun kp => P (snd kp)) (adel l k).
Proof. intros F. unfold adel. rewrite Forall_forall in *. intros x J. apply filter_In in J. apply F. apply J. Qed.
Lemma get_ok n st k p : stOk n st -> aget (st_map st) k = Some p -> pairOk n p.
Proof. intros S G. apply aget_in in G. unfold stOk in S. rewrite Forall_forall in S. exact (S _ G). Qed.
Lemma bump_ok n p : pairOk n p -> pairOk n (bumpSend p).
Proof. intros H. exact H. Qed.
Lemma distribute_ok n st old new cont : stOk n st -> pairOk n old -> (forall p, new = Some p -> pairOk n p) ->
  stOk n (fst (distribute st old new cont)) /\ Forall (handedOk n) (snd (distribute st old new cont)).
Proof.
  intros S O N. unfold distribute.
  assert (X : p_con old <> None \/ p_req old <> None -> let r := (if negb (checkSend old)
      then ({| st_map := aset (st_map st) (getKey old) (bumpSend old); st_gauge := st_gauge st |}, [])
      else
        let st1 := match new with
                   | Some n => {| st_map := aset (st_map st) (getKey n) n; st_gauge := st_gauge st |}
                   | None => {| st_map := adel (st_map st) (getKey old); st_gauge := st_gauge st - 1 |}
                   end in
        match p_req old with
        | Some r =>
            if cont
            then match aget (st_map st1) (evKey (v_first r)) with
                 | Some cur => ({| st_map := aset (st_map st1) (evKey (v_first r)) (putRequestBack cur r); st_gauge := st_gauge st1 |}, [])
                 | None => (st1, [])
                 end
            else (st1, [bumpSend old])
        | None => (st1, [bumpSend old])
        end) in stOk n (fst r) /\ Forall (handedOk n) (snd r)).
  { intros NE r. subst r. destruct (negb (checkSend old)); [cbn [fst snd]; split; [apply aset_ok; [exact S|exact O]|constructor]|]. cbv zeta.
    match goal with |- context [match p_req old with Some _ => if cont then match aget (st_map ?s) _ with _ => _ end else _ | None => _ end] => set (st1 := s) end.
    assert (S1 : stOk n st1) by (subst st1; destruct new as [p|]; [apply (aset_ok (pairOk n)); [exact S|exact (N p eq_refl)]|apply (adel_ok (pairOk n)); exact S]).
    assert (OUT : Forall (handedOk n) [bumpSend old]) by (constructor; [split; [exact O|exact NE]|constructor]).
    destruct (p_req old) as [r|] eqn:Q; [|split; assumption]. destruct cont; [|split; assumption].
    destruct (aget (st_map st1) (evKey (v_first r))) as [cur|] eqn:G; [|split; [exact S1|constructor]]. cbn [fst snd]. split; [|constructor].
    apply (aset_ok (pairOk n)); [exact S1|]. pose proof (get_ok _ _ _ _ S1 G) as (C1 & C2 & C3). destruct O as (_ & O2 & _). pose proof (O2 r Q) as OR.
    unfold putRequestBack. destruct (p_req cur) as [w|] eqn:W; (split; [exact C1|split; [|exact C3]]); cbn [withReq p_req]; intros v E; injection E as <-; [apply back_ok; [exact (C2 w eq_refl)|exact OR]|exact OR]. }
  destruct (p_con old); [apply X; left; discriminate|]. destruct (p_req old); [apply X; right; discriminate|]. split; [exact S|constructor].
Qed.
Lemma analyse_ok n c st cont t : stOk n st -> tokOk n t -> stOk n (fst (analyse c st cont t)) /\ Forall (handedOk n) (snd (analyse c st cont t)).
Proof.
  intros S T. destruct t as [e|e|e]; cbn [tokOk] in T; cbn [analyse].
  - assert (NP : pairOk n (connectPair c e)) by (split; [|split]; cbn; try discriminate; intros v E; injection E as <-; exact T).
    unfold analyseConnect. cbv zeta. destruct (aget (st_map st) (getKey (connectPair c e))) as [old|] eqn:G.
    2: { cbn [fst snd]. split; [apply aset_ok; assumption|constructor]. }
    pose proof (get_ok _ _ _ _ S G) as O. assert (D : stOk n (fst (distribute st old (Some (connectPair c e)) cont)) /\ Forall (handedOk n) (snd (distribute st old (Some (connectPair c e)) cont))).
    { apply distribute_ok; [exact S|exact O|]. intros p E. injection E as <-. exact NP. }
    destruct (p_req old) as [r|] eqn:Q; [exact D|]. destruct (p_con old) as [v|]; [|exact D]. destruct (isTimeout _ _ _); [exact D|]. cbn [fst snd]. split; [|constructor].
    apply (aset_ok (pairOk n)); [exact S|]. unfold mergeConnect. rewrite Q. destruct O as (_ & O2 & O3). split; [|split]; cbn [withCon p_con p_req p_resp]; [|exact O2|exact O3].
    intros w E. injection E as <-. exact T.
  - assert (NP : pairOk n (requestPair c e)) by (split; [|split]; cbn [requestPair p_con p_req p_resp]; try discriminate; intros v E; injection E as <-; apply new_ok; exact T).
    unfold analyseRequest. cbv zeta. destruct (aget (st_map st) (getKey (requestPair c e))) as [old|] eqn:G.
    2: { cbn [fst snd]. split; [apply (aset_ok (pairOk n)); assumption|constructor]. }
    pose proof (get_ok _ _ _ _ S G) as O.
    assert (MR : pairOk n (mergeRequest old e)).
    { unfold mergeRequest. destruct O as (O1 & O2 & O3). destruct (p_req old) as [r|] eqn:Q; (split; [exact O1|split; [|exact O3]]); cbn [withReq p_req]; intros v E; injection E as <-; [apply merge_ok; [exact (O2 r eq_refl)|exact T]|apply new_ok; exact T]. }
    destruct (p_req old) as [r|] eqn:Q.
    + destruct (_ || _); [|cbn [fst snd]; split; [apply (aset_ok (pairOk n)); assumption|constructor]].
      apply distribute_ok; [exact S|exact O|]. intros p E. injection E as <-. exact NP.
    + destruct (p_con old); cbn [fst snd]; (split; [apply (aset_ok (pairOk n)); assumption|constructor]).
  - cbn [fst snd]. split; [|constructor]. unfold analyseResponse. destruct (aget (st_map st) (evKey e)) as [old|] eqn:G; [|exact S]. destruct (p_req old); [|exact S]. cbv zeta.
    pose proof (get_ok _ _ _ _ S G) as (O1 & O2 & O3). apply (aset_ok (pairOk n)); [exact S|].
    unfold mergeResponse. destruct (p_resp old) as [r|] eqn:Q; (split; [exact O1|split; [exact O2|]]); cbn [withResp p_resp]; intros v E; injection E as <-; [apply merge_ok; [exact (O3 r eq_refl)|exact T]|apply new_ok; exact T].
Qed.

(** ** The records *)
Section Report.
  Context (n : Z) (an : analyzer) (ST : steady n an).
  Lemma text_ok d proto : n <= zlen d -> (proto = "dubbo" -> 16 <= n) -> hasText (an_rconf an) d proto.
  Proof. intros L D. apply C55_text_exists. destruct (string_dec proto "dubbo") as [E|E]; [right; specialize (D E); lia|left; exact E]. Qed.
  Lemma records_ok g x proto a nt rq : pairOk n x -> p_req x = Some rq -> typed (glabels g) -> okAttrs a -> (proto = "dubbo" -> 16 <= n) ->
    exists l, getRecords (an_rconf an) g x proto a nt = Ok l.
  Proof.
    intros (_ & P2 & P3) Q T A D. destruct (P2 rq Q) as ((_ & (S1 & S2) & _) & L & _ & _).
    destruct (C55_total (an_rconf an) g x proto a nt rq Q A T S1 S2 (text_ok _ _ L D)) as [(l & _ & _ & E)|(r & E & _)]; [|eauto|eauto].
    intros v V. apply text_ok; [apply (P3 v V)|exact D].
  Qed.
  Lemma fail_ok g x : pairOk n x -> p_con x <> None -> typed (glabels g) -> exists l, getConnectFail g x = Ok l.
  Proof.
    intros (P1 & _) C T. unfold getConnectFail. destruct (p_con x) as [v|]; [|congruence]. destruct (P1 v eq_refl) as (S & D). unfold baseLabels, getSip, getDip.
    destruct (e_sip (v_first v)) as [|s0 sl]; [congruence|]. destruct (e_dip (v_first v)) as [|d0 dl]; [congruence|]. rewrite !ReaderProofs.gindex_0. cbn [bind].
    match goal with |- context [updAll ?g1 ?b] => destruct (updAll_ok (baseOf (v_first v) 0 0 true ConnectFailError false (ipLong2String s0) (ipLong2String d0)) g1) as (g2 & E & _) end.
    - match goal with |- context [metAll g ?l] => destruct (metAll_labels l g) as (-> & _) end. exact T.
    - apply base_good.
    - unfold baseOf in E. cbn [app] in E. rewrite E. cbn [bind]. eauto.
  Qed.
  Lemma single_ok g s proto a nt : typed (glabels g) -> parserMaySet a -> evOk n (sp_req s) -> (forall e, sp_resp s = Some e -> evOk n e) -> (proto = "dubbo" -> 16 <= n) ->
    exists r, getSingleRecord (an_rconf an) g s proto a nt = Ok r.
  Proof.
    intros T A (_ & (S1 & S2) & L) R D. unfold getSingleRecord.
    match goal with |- context [fillLabels ?c g ?e proto ?sl ?a' ?d ?p nt] => destruct (fill_ok c g e proto sl a' d p nt T) as (g1 & -> & _) end.
    - intros l E. injection E as <-. exact A.
    - exact S1.
    - exact S2.
    - apply text_ok; assumption.
    - intros d. destruct (sp_resp s) as [e|]; [|discriminate]. cbn [dataOf]. intros E. injection E as <-. apply text_ok; [apply (R e eq_refl)|exact D].
    - cbn [bind]. eauto.
  Qed.
  Lemma requests_total p : verdictsFrom n p -> forall l, Forall (evOk n) l -> exists o, parseRequests p l = Ok o.
  Proof.
    intros (V & _). induction l as [|e l IH]; intros F; [eexists; reflexivity|]. inversion F as [|? ? (G & _ & L) F2]; subst. cbn [parseRequests].
    destruct (V (EventModel.getData e) ltac:(apply G) L) as (ok & m & ->). cbn [bind fst snd]. destruct ok; [|eauto]. destruct (IH F2) as (o & ->). cbn [bind]. eauto.
  Qed.
  Lemma responses_total p reqs ms : verdictsFrom n p -> List.length reqs = List.length ms -> forall l, Forall (evOk n) l -> exists o, matchResponses p reqs ms l = Ok o.
  Proof.
    intros (_ & V & M) LEN. induction l as [|e l IH]; intros F; [eexists; reflexivity|]. inversion F as [|? ? (G & _ & L) F2]; subst. cbn [matchResponses].
    destruct (V (EventModel.getData e) [] ltac:(apply G) L) as (ok & m & ->). cbn [bind fst snd]. destruct ok; [|eauto]. cbv zeta.
    destruct (pr_match p ms m =? -1) eqn:MM; [eauto|]. apply Z.eqb_neq in MM. destruct (M ms m) as [E|B]; [congruence|].
    assert (Z : exists q, znth reqs (pr_match p ms m) = Some q).
    { unfold znth, zlen in *. replace (pr_match p ms m <? 0) with false by lia. destruct (nth_error reqs (Z.to_nat (pr_match p ms m))) eqn:N; [eauto|]. apply nth_error_None in N. lia. }
    destruct Z as (q & ->). destruct (IH F2) as (o & ->). cbn [bind]. eauto.
  Qed.
  Lemma singles_ok pool proto nt : (forall i, typed (glabels (pool i))) -> (proto = "dubbo" -> 16 <= n) -> forall l i,
    Forall (fun sa : single * attrs => parserMaySet (snd sa) /\ evOk n (sp_req (fst sa)) /\ (forall e, sp_resp (fst sa) = Some e -> evOk n e)) l ->
    exists rs, singleRecords (an_rconf an) pool proto nt i l = Ok rs.
  Proof.
    intros T D. induction l as [|[s a] l IH]; intros i F; [eexists; reflexivity|]. inversion F as [|? ? (A & Q & R) F2]; subst. cbn [fst snd] in *. cbn [singleRecords].
    destruct (single_ok (pool i) s proto a nt (T i) A Q R D) as (r & ->). destruct (IH (S i) F2) as (rs & E). cbn [bind]. rewrite E. cbn [bind]. eauto.
  Qed.
  Lemma parse_ok p pool x nt rq : (forall i, typed (glabels (pool i))) -> goodParser p -> verdictsFrom n p -> (pr_name p = "dubbo" -> 16 <= n) -> pairOk n x -> p_req x = Some rq ->
    exists o, parseProtocol (an_rconf an) pool p x nt = Ok o.
  Proof.
    intros T G V D X Q. pose proof X as (P1 & P2 & P3). pose proof (P2 rq Q) as (F & L & B & K). unfold parseProtocol. destruct (pr_multi p).
    - assert (M : exists o, multiPairs p x = Ok o).
      { unfold multiPairs. rewrite Q. destruct (requests_total p V (kept rq) K) as (o & E). rewrite E. cbn [bind]. destruct o as [ms|]; [|eauto]. destruct (p_resp x) as [rs|] eqn:R; [|eauto].
        destruct (responses_total p (kept rq) ms V (Forall2_len _ _ _ (parseRequests_spec _ _ _ E)) (kept rs)) as (o & ->); [apply (P3 rs eq_refl)|]. cbn [bind]. eauto. }
      destruct M as ([l|] & M); rewrite M; cbn [bind]; [|eauto].
      destruct (singles_ok pool (pr_name p) nt T D l 0%nat) as (rs & ->); [|cbn [bind]; eauto]. apply Forall_forall. intros [s a] J. cbn [fst snd].
      assert (BP : bytePair x).
      { assert (E : forall v, evsOk n v -> byteEvs v). { intros v (_ & _ & B' & K'). split; [exact B'|]. eapply Forall_impl; [|exact K']. intros e (GE & _). apply GE. }
        split; intros v E'; apply E; [apply P2|apply P3]; exact E'. }
      destruct (multi_attrs p x rq l s a G BP Q M J) as (A & _). split; [exact A|]. destruct (C55_multi_all p x rq l Q M) as (_ & _ & I). destruct (I s a J) as (I1 & I2). rewrite Forall_forall in K.
      split; [exact (K _ I1)|]. intros e E. specialize (I2 e E). unfold keptOf in I2. destruct (p_resp x) as [v|] eqn:R; [|destruct I2]. destruct (P3 v eq_refl) as (_ & _ & _ & K3). rewrite Forall_forall in K3. exact (K3 e I2).
    - rewrite Q. destruct G as (G1 & G2). destruct V as (V1 & V2 & _). destruct (V1 (evsData rq) B L) as (ok & m & E). rewrite E. cbn [bind fst snd]. destruct ok; cbn [negb]; [|eauto].
      pose proof (G1 _ _ _ B E) as GA. destruct (p_resp x) as [rs|] eqn:R.
      + destruct (P3 rs eq_refl) as (_ & L3 & B3 & _). destruct (V2 (evsData rs) (m_attrs m) B3 L3) as (ok2 & m2 & E2). rewrite E2. cbn [bind fst snd]. destruct ok2; cbn [negb]; [|eauto].
        destruct (records_ok (pool 0%nat) x (pr_name p) (Some (m_attrs m2)) nt rq X Q (T 0%nat)) as (l & ->); [|exact D|cbn [bind]; eauto].
        intros l E'. injection E' as <-. apply (G2 _ _ _ _ B3 GA E2).
      + destruct (asBool _); [eauto|]. destruct (records_ok (pool 0%nat) x (pr_name p) (Some (m_attrs m)) nt rq X Q (T 0%nat)) as (l & ->); [|exact D|cbn [bind]; eauto].
        intros l E'. injection E' as <-. apply GA.
  Qed.

  (** ** The caches of the parsers *)
  Lemma copRun_app : forall a b c, copRun c (a ++ b) = bind (copRun c a) (fun c' => copRun c' b).
  Proof. induction a as [|o a IH]; intros b c; [reflexivity|]. cbn [app copRun]. destruct (copStep c o); cbn [bind]; [apply IH|reflexivity|reflexivity]. Qed.
  Definition dOk (d : dstate) : Prop := exists l, copRun [] l = Ok (d_cache d).
  Lemma parseWith_ok m p x : typedPool m -> pairOk n x -> p_req x <> None -> parseWith an m p x = None \/ exists l, parseWith an m p x = Some (Ok l).
  Proof.
    intros T X Q. unfold parseWith. destruct (an_parser an p) as [pr|] eqn:P; [|left; reflexivity]. destruct ST as (S1 & _). destruct (S1 p pr P) as (G & V & D).
    destruct (p_req x) as [rq|] eqn:R; [|congruence]. destruct (parse_ok pr (me_pool m) x (me_nat m) rq T G V D X R) as (o & ->). destruct o; [right; eauto|left; reflexivity].
  Qed.
  Lemma first_ok m x l p r : typedPool m -> pairOk n x -> p_req x <> None -> firstAccepting (parseWith an m) l x = Some (p, r) -> exists q, r = Ok q.
  Proof.
    intros T X Q F. apply first_parse in F. destruct (parseWith_ok m p x T X Q) as [E|(q & E)]; rewrite E in F; [discriminate|]. injection F as <-. eauto.
  Qed.
  Lemma report_ok m d x : typedPool m -> dOk d -> handedOk n x -> exists r, report an m d x = Ok r /\ dOk (snd r).
  Proof.
    intros T DO (X & NE). unfold report.
    assert (PP : exists v d', parseProtocols getPort hasRequest (parseWith an m) (an_ports an) d x = Ok (v, d') /\ dOk d' /\
      match v with ConnectFail => p_con x <> None | Parsed _ q => exists l, q = Ok l | Unparsed p => p_req x <> None /\ (p = "dubbo" -> 16 <= n) end).
    { unfold parseProtocols. destruct (p_req x) as [rq|] eqn:Q.
      2: { replace (hasRequest x) with false by (unfold hasRequest; rewrite Q; reflexivity). cbn [negb]. destruct NE as [NE|NE]; [|congruence]. destruct (aget (static (an_ports an)) (getPort x)); eauto. }
      assert (QN : p_req x <> None) by congruence. replace (hasRequest x) with true by (unfold hasRequest; rewrite Q; reflexivity). cbn [negb].
      destruct (aget (static (an_ports an)) (getPort x)) as [sp|] eqn:SP.
      - assert (U : exists v d', Ok (Unparsed (R := res (list group * bool)) sp, d) = Ok (v, d') /\ dOk d' /\ match v with ConnectFail => p_con x <> None | Parsed _ q => exists l, q = Ok l | Unparsed p => Some rq <> None /\ (p = "dubbo" -> 16 <= n) end).
        { eexists; eexists; split; [reflexivity|]. split; [exact DO|]. split; [discriminate|]. intros ->. destruct ST as (_ & S2). eapply S2; exact SP. }
        destruct (member sp (known (an_ports an))); [|exact U]. destruct (parseWith_ok m sp x T X QN) as [-> | (l & ->)]; [exact U|]. eexists; eexists; split; [reflexivity|]. split; [exact DO|eauto].
      - destruct (firstAccepting (parseWith an m) (cachedParsers (d_cache d) (getPort x)) x) as [[p r]|] eqn:FA.
        + destruct (first_ok _ _ _ _ _ T X QN FA) as (q & ->).
          destruct (eqb NOSUPPORT p); [|eexists; eexists; split; [reflexivity|]; split; [exact DO|eauto]].
          destruct (addPortCount (d_count d) p (getPort x)) as [cn cv]. destruct (cv =? CACHE_RESET_THRESHOLD); [|eexists; eexists; split; [reflexivity|]; split; [exact DO|eauto]].
          destruct DO as (lo & DO). destruct (C17_list_content (lo ++ [CRemove (getPort x) p])) as (c' & E & _).
          assert (RC : removeCached (d_cache d) (getPort x) p = Ok c').
          { rewrite copRun_app in E. rewrite DO in E. cbn [bind copRun copStep] in E. destruct (removeCached _ _ _) as [c2| |]; cbn [bind] in E; congruence. }
          rewrite RC. cbn [bind]. eexists; eexists; split; [reflexivity|]. split; [exists (lo ++ [CRemove (getPort x) p]); exact E|eauto].
        + destruct (firstAccepting (parseWith an m) (tried (an_ports an)) x) as [[p r]|] eqn:FB.
          * destruct (first_ok _ _ _ _ _ T X QN FB) as (q & ->). destruct (addPortCount (d_count d) p (getPort x)) as [cn cv]. eexists; eexists; split; [reflexivity|]. split; [|eauto].
            destruct (cv =? CACHE_ADD_THRESHOLD); [|exact DO]. destruct DO as (lo & DO). exists (lo ++ [CAdd (getPort x) p]). cbn [d_cache]. rewrite copRun_app, DO. reflexivity.
          * eexists; eexists; split; [reflexivity|]. split; [exact DO|]. split; [discriminate|discriminate]. }
    destruct PP as (v & d' & -> & D' & V). cbn [bind fst snd]. destruct v as [|p q|p].
    - destruct (fail_ok (me_pool m 0%nat) x X V (T 0%nat)) as (l & ->). cbn [bind]. eexists. split; [reflexivity|exact D'].
    - destruct V as (l & ->). cbn [bind]. eexists. split; [reflexivity|exact D'].
    - destruct V as (Q & D). destruct (p_req x) as [rq|] eqn:R; [|congruence].
      destruct (records_ok (me_pool m 0%nat) x p None (me_nat m) rq X R (T 0%nat)) as (l & ->); [discriminate|exact D|]. cbn [bind]. eexists. split; [reflexivity|exact D'].
  Qed.

  (** ** The machine *)
  Definition nOk (s : nstate) : Prop := stOk n (n_pairs s) /\ dOk (n_detect s).
  Lemma tok_ok s m t : nOk s -> typedPool m -> tokOk n t -> exists r, netTok an s m t = Ok r /\ nOk (snd r).
  Proof.
    intros (S & D) T K. unfold netTok. destruct (analyse_ok n (an_conf an) (n_pairs s) false t S K) as (A1 & A2). destruct (analyse (an_conf an) (n_pairs s) false t) as [st [|x o]] eqn:E; cbn [fst snd] in *.
    - eexists. split; [reflexivity|]. split; [exact A1|exact D].
    - inversion A2 as [|? ? H _]; subst. destruct (report_ok m (n_detect s) x T D H) as (r & -> & D'). cbn [bind]. eexists. split; [reflexivity|]. split; [|exact D'].
      cbn [snd n_pairs]. apply analyse_ok; assumption.
  Qed.
  Lemma toks_ok ms : (forall i, typedPool (ms i)) -> forall l s i, nOk s -> Forall (tokOk n) l -> exists r, netToks an s ms i l = Ok r /\ nOk (snd r).
  Proof.
    intros T. induction l as [|t l IH]; intros s i O F; cbn [netToks]; [eexists; split; [reflexivity|exact O]|]. inversion F as [|? ? F1 F2]; subst.
    destruct (tok_ok s (ms i) t O (T i) F1) as (r & -> & O1). cbn [bind]. destruct (IH (snd r) (S i) O1 F2) as (r' & -> & O2). cbn [bind]. eexists. split; [reflexivity|exact O2].
  Qed.
  Lemma scan_ok ms now : (forall k, typedPool (ms k)) -> forall l s, nOk s -> Forall (fun kp => pairOk n (snd kp)) l -> exists r, netScan an s ms now l = Ok r /\ nOk (snd r).
  Proof.
    intros T. induction l as [|[k p] l IH]; intros s O F; cbn [netScan]; [eexists; split; [reflexivity|exact O]|]. inversion F as [|? ? F1 F2]; subst. cbn [snd] in F1.
    destruct (expired (an_conf an) now p); [|apply IH; assumption]. destruct O as (S & D). assert (N : forall q : pairs, None = Some q -> pairOk n q) by discriminate.
    destruct (distribute_ok n (n_pairs s) p None false S F1 N) as (A1 & A2). destruct (distribute (n_pairs s) p None false) as [st [|x o]] eqn:E; cbn [fst snd] in *.
    - apply IH; [split; [exact A1|exact D]|exact F2].
    - inversion A2 as [|? ? H _]; subst. destruct (report_ok (ms k) (n_detect s) x (T k) D H) as (r & -> & D'). cbn [bind].
      edestruct IH as (r' & E' & O'); [|exact F2|rewrite E'; cbn [bind]; eexists; split; [reflexivity|exact O']]. split; [cbn [n_pairs]; apply distribute_ok; assumption|exact D'].
  Qed.
  Lemma classify_addr e l t : classify e = Ok l -> In t l -> e_sip (tokEv t) = e_sip e /\ e_dip (tokEv t) = e_dip e /\ e_sip e <> [].
  Proof.
    intros C J. unfold classify in C. destruct (negb (e_net e)); [injection C as <-; destruct J|]. destruct (e_sip e) as [|s0 sl] eqn:SI; [injection C as <-; destruct J|].
    assert (NE : s0 :: sl <> []) by discriminate.
    assert (X : (if isConnect e then Ok [KConn e] else if getDataLen e <=? 0 then Ok []
         else match getResVal e with
              | Ok r => if r <? 0 then Ok [] else match isRequest e with
                  | Ok true => if eqb (e_name e) "sendmmsg" then match convertSendmmsg e with Some (Ok l) => Ok (map KReq l) | Some Err => Err | Some Panic => Panic | None => Ok [] end else Ok [KReq e]
                  | Ok false => Ok [KResp e] | Err => Err | Panic => Panic end
              | Err => Err | Panic => Panic end) = Ok l \/ l = []).
    { destruct (e_proto e); first [right; congruence|left; exact C]. }
    clear C. destruct X as [C| ->]; [|destruct J]. destruct (isConnect e); [injection C as <-; destruct J as [<-|[]]; auto|].
    destruct (getDataLen e <=? 0); [injection C as <-; destruct J|]. destruct (getResVal e) as [r| |]; try discriminate. destruct (r <? 0); [injection C as <-; destruct J|].
    destruct (isRequest e) as [[|]| |]; try discriminate.
    - destruct (eqb (e_name e) "sendmmsg"); [|injection C as <-; destruct J as [<-|[]]; auto].
      unfold convertSendmmsg in C. destruct (negb _); [injection C as <-; destruct J|]. destruct (splitDataBytes _) as [[bs'| |]|] eqn:SP; try discriminate.
      + injection C as <-. rewrite map_map in J. apply in_map_iff in J. destruct J as (b & <- & JB). cbn [tokEv]. rewrite <- SI.
        assert (Y : forall f k v, e_sip (setUserAttribute f k v) = e_sip f /\ e_dip (setUserAttribute f k v) = e_dip f) by (intros f k v; unfold setUserAttribute; destruct (e_params f =? 0); split; reflexivity).
        rewrite (proj1 (Y _ _ _)), (proj1 (Y _ _ _)), (proj2 (Y _ _ _)), (proj2 (Y _ _ _)). rewrite SI. auto.
      + injection C as <-. destruct J.
    - injection C as <-. destruct J as [<-|[]]. auto.
  Qed.
  Lemma classify_tokOk e l : wholeEvent n e -> classify e = Ok l -> Forall (tokOk n) l.
  Proof.
    intros (G & DI & _ & L) C. apply Forall_forall. intros t J. destruct (classify_addr e l t C J) as (A1 & A2 & A3). pose proof (classify_good e l t G C J) as GT.
    assert (AD : addressed (tokEv t)) by (unfold addressed; rewrite A1, A2; split; [exact A3|apply DI; exact A3]).
    destruct t as [x|x|x]; cbn [tokOk tokEv] in *; [exact AD| |]; (split; [exact GT|]; split; [exact AD|]; eapply L; [exact C|exact J|reflexivity]).
  Qed.
  Lemma step_ok s o : nOk s -> wholeNop n o -> exists r, netStep an s o = Ok r /\ nOk (snd r).
  Proof.
    intros O W. destruct o as [ms e|ms now]; cbn [netStep wholeNop] in *.
    - destruct W as (W & T). destruct (classify e) as [l| |] eqn:C.
      + apply toks_ok; [exact T|exact O|]. eapply classify_tokOk; eassumption.
      + eexists. split; [reflexivity|exact O].
      + exfalso. destruct W as (G & _ & R & _). exact (C14_no_panic e ltac:(apply G) R C).
    - apply scan_ok; [exact W|exact O|]. apply O.
  Qed.
  Lemma run_ok : forall os s, nOk s -> Forall (wholeNop n) os -> exists r, netRun an s os = Ok r /\ nOk (snd r).
  Proof.
    induction os as [|o os IH]; intros s O F; cbn [netRun]; [eexists; split; [reflexivity|exact O]|]. inversion F as [|? ? F1 F2]; subst.
    destruct (step_ok s o O F1) as (r & -> & O1). cbn [bind]. destruct (IH (snd r) O1 F2) as (r' & -> & O2). cbn [bind]. eexists. split; [reflexivity|exact O2].
  Qed.
End Report.
