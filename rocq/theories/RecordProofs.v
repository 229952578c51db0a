(** Lemmas about RecordModel.v. *)
From Verif Require Import Base Decimal AttrModel PoolModel PoolProps EventModel PairModel MsgModel TextModel LabelNames DetectModel ReaderProofs RecordModel RecordSpec.
Open Scope string_scope. Open Scope list_scope. Open Scope Z_scope.

Definition setAll (l m : attrs) : attrs := fold_left (fun m p => aset m (fst p) (snd p)) l m.
Lemma setAll_app a b m : setAll (a ++ b) m = setAll b (setAll a m).
Proof. apply fold_left_app. Qed.
Lemma setAll_get : forall l m k, NoDup (keys l) -> aget (setAll l m) k = match aget l k with Some v => Some v | None => aget m k end.
Proof.
  induction l as [|[k' v'] l IH]; intros m k N; [reflexivity|].
  cbn [setAll fold_left fst snd]. change (fold_left _ l ?x) with (setAll l x). inversion N; subst.
  rewrite IH by assumption. cbn [aget]. rewrite aget_aset. case_eqb k k'; [subst k|reflexivity].
  destruct (aget l k') eqn:E2; [|reflexivity]. exfalso. apply H1. eapply aget_some_in_keys; eassumption.
Qed.

Lemma updAll_inv : forall l g g', updAll g l = Ok g' ->
  glabels g' = setAll l (glabels g) /\ gmetrics g' = gmetrics g /\ gname g' = gname g /\ gts g' = gts g.
Proof.
  induction l as [|[k v] l IH]; intros g g' E; cbn [updAll] in E; [inversion E; subst; repeat split|].
  cbn [applyUse] in E. destruct (aget (glabels g) k) as [o|].
  - destruct (same_type o v); cbn [bind] in E; [|discriminate]. apply IH in E. cbn [glabels gmetrics gname gts withLabels] in E. exact E.
  - cbn [bind] in E. apply IH in E. cbn [glabels gmetrics gname gts withLabels] in E. exact E.
Qed.

Lemma typed_aset m k v : typed m -> typeOk k v -> typed (aset m k v).
Proof.
  intros T O k' v' G. rewrite aget_aset in G. case_eqb k' k; [subst k'|].
  - inversion G; subst. exact O.
  - apply T. exact G.
Qed.
Definition goodList (l : attrs) : Prop := Forall (fun p => typeOk (fst p) (snd p) /\ In (fst p) (textLabels ++ numberLabels ++ flagLabels)) l.
Lemma same_typeOk k a b : In k (textLabels ++ numberLabels ++ flagLabels) -> typeOk k a -> typeOk k b -> same_type a b = true.
Proof.
  intros I (A1 & A2 & A3) (B1 & B2 & B3). rewrite !in_app_iff in I. destruct I as [I | [I | I]].
  - destruct (A1 I), (B1 I); subst; reflexivity.
  - destruct (A2 I), (B2 I); subst; reflexivity.
  - destruct (A3 I), (B3 I); subst; reflexivity.
Qed.
Lemma updAll_ok : forall l g, typed (glabels g) -> goodList l -> exists g', updAll g l = Ok g' /\ typed (glabels g').
Proof.
  induction l as [|[k v] l IH]; intros g T F; cbn [updAll]; [eauto|].
  inversion F as [|? ? (K & I) F']; subst. cbn [fst snd] in *. cbn [applyUse].
  assert (T' : typed (glabels (withLabels g (aset (glabels g) k v)))) by (cbn [glabels withLabels]; apply typed_aset; assumption).
  destruct (aget (glabels g) k) as [o|] eqn:G.
  - rewrite (same_typeOk k o v I (T _ _ G) K). cbn [bind]. apply IH; assumption.
  - cbn [bind]. apply IH; assumption.
Qed.

Lemma metAll_labels : forall l g, glabels (metAll g l) = glabels g /\ gts (metAll g l) = gts g /\ gname (metAll g l) = gname g.
Proof. induction l as [|[n v] l IH]; intros g; cbn [metAll]; [repeat split|]. destruct (IH (updateAddIntMetric g n v)) as (-> & -> & ->). repeat split. Qed.
Lemma metAll_metrics : forall l g, gmetrics (metAll g l) = fold_left (fun m p => aset m (fst p) (MInt (snd p))) l (gmetrics g).
Proof. induction l as [|[n v] l IH]; intros g; cbn [metAll fold_left fst snd]; [reflexivity|]. rewrite IH. reflexivity. Qed.

(** evaluates comparisons of literal strings *)
Ltac lits := repeat match goal with |- context [@eqb string ?i ?a ?b] => let x := eval vm_compute in (@eqb string i a b) in
                       match x with true => idtac | false => idtac end; change (@eqb string i a b) with x end; cbv iota.

Definition endLabels (resp : option (Z * Z * bytes)) : attrs := match resp with Some (_, ts, _) => [(LEndTimestamp, IV (s64 ts))] | None => [] end.
Definition natLabels (nt : nat_tuple) : attrs := match nt with Some (ip, port) => [(LDnatIp, SV ip); (LDnatPort, IV port)] | None => [] end.
Definition tidOf (resp : option (Z * Z * bytes)) : Z := match resp with Some (t, _, _) => t | None => 0 end.
Definition dataOf (resp : option (Z * Z * bytes)) : option bytes := match resp with Some (_, _, d) => Some d | None => None end.
Definition baseOf (e : event) (reqTid respTid : Z) (err : bool) (errType : Z) (slow : bool) (sip dip : bytes) : attrs :=
  [(LPid, IV (e_pid e)); (LRequestTid, IV reqTid); (LResponseTid, IV respTid); (LComm, SV (bs (e_comm e)));
      (LSrcIp, SV sip); (LDstIp, SV dip); (LSrcPort, IV (e_sport e)); (LDstPort, IV (e_dport e));
      (LDnatIp, SV []); (LDnatPort, IV (-1)); (LContainerId, SV (bs (e_cid e)));
      (LIsError, BV err); (LErrorType, IV errType); (LIsSlow, BV slow); (LIsServer, BV (e_role e))].
Lemma base_inv e t1 t2 er et sl b : baseLabels e t1 t2 er et sl = Ok b ->
  exists sip dip, getSip e = Ok sip /\ getDip e = Ok dip /\ b = baseOf e t1 t2 er et sl sip dip.
Proof.
  unfold baseLabels. destruct (getSip e) as [sip| |]; cbn [bind]; try discriminate.
  destruct (getDip e) as [dip| |]; cbn [bind]; try discriminate. intros E. inversion E. eauto.
Qed.
Lemma payload_inv c proto rq resp pl : payloadLabels c proto rq resp = Ok pl ->
  exists q r, getPayloadString (rc_payload c) rq proto = Ok q /\
    (match resp with Some d => getPayloadString (rc_payload c) d proto = Ok r | None => r = [] end) /\
    pl = [(LRequestPayload, SV q); (LResponsePayload, SV r)].
Proof.
  unfold payloadLabels. destruct (getPayloadString _ rq _) as [q| |]; cbn [bind]; try discriminate.
  destruct resp as [d|]; [destruct (getPayloadString _ d _) as [r| |]|]; cbn [bind]; try discriminate;
    intros E; inversion E; eauto.
Qed.
Lemma mergeAttrs_labels g a : glabels (mergeAttrs g a) = setAll (attributesOf a) (glabels g) /\ gmetrics (mergeAttrs g a) = gmetrics g
  /\ gname (mergeAttrs g a) = gname g.
Proof. destruct a; repeat split. Qed.

(** The labels before the "no response" check. *)
Definition before (e : event) (proto : string) (slow : bool) (a : option attrs) (resp : option (Z * Z * bytes)) (sip dip q r : bytes) (m : attrs) : attrs :=
  setAll [(LRequestPayload, SV q); (LResponsePayload, SV r)]
    (setAll (endLabels resp) (setAll (attributesOf a)
       (setAll (baseOf e (e_tid e) (tidOf resp) false NoError slow sip dip ++ [(LProtocol, SV (bs proto))]) m))).
Definition noResp (resp : option (Z * Z * bytes)) : bool := match resp with None => true | Some _ => false end.
Lemma fill_inv c g e proto slow a rq resp nt r : fillLabels c g e proto slow a rq resp nt = Ok r ->
  exists sip dip q p, getSip e = Ok sip /\ getDip e = Ok dip /\ getPayloadString (rc_payload c) rq proto = Ok q /\
    (match dataOf resp with Some d => getPayloadString (rc_payload c) d proto = Ok p | None => p = [] end) /\
    let b := before e proto slow a resp sip dip q p (glabels g) in
    glabels r = setAll (natLabels nt) (if negb (asBool (aget b LIsError)) && noResp resp
       then aset (aset b LIsError (BV true)) LErrorType (IV NoResponse) else b) /\ gmetrics r = gmetrics g /\ gname r = gname g.
Proof.
  unfold fillLabels. fold (tidOf resp).
  destruct (baseLabels e (e_tid e) (tidOf resp) false NoError slow) as [b| |] eqn:B; cbn [bind]; try discriminate.
  apply base_inv in B. destruct B as (sip & dip & S & D & ->).
  destruct (updAll g _) as [g1| |] eqn:U1; cbn [bind]; try discriminate.
  fold (endLabels resp). destruct (updAll (mergeAttrs g1 a) (endLabels resp)) as [g3| |] eqn:U3; cbn [bind]; try discriminate.
  fold (dataOf resp). destruct (payloadLabels c proto rq (dataOf resp)) as [pl| |] eqn:P; cbn [bind]; try discriminate.
  apply payload_inv in P. destruct P as (q & p & Q & P & ->).
  destruct (updAll g3 _) as [g4| |] eqn:U4; cbn [bind]; try discriminate. fold (natLabels nt). fold (noResp resp).
  apply updAll_inv in U1, U3, U4. destruct (mergeAttrs_labels g1 a) as (M1 & M2 & M3).
  destruct U1 as (L1 & K1 & N1 & _), U3 as (L3 & K3 & N3 & _), U4 as (L4 & K4 & N4 & _).
  assert (EB : glabels g4 = before e proto slow a resp sip dip q p (glabels g)).
  { unfold before. rewrite <- L1, <- M1, <- L3. exact L4. }
  intros U5. exists sip, dip, q, p. repeat (split; [assumption|]). cbn zeta. rewrite <- EB.
  apply updAll_inv in U5. destruct U5 as (L5 & K5 & N5 & _). split; [|split].
  - rewrite L5. f_equal. destruct (_ && _); reflexivity.
  - rewrite K5. transitivity (gmetrics g4); [destruct (_ && _); reflexivity|]. congruence.
  - rewrite N5. transitivity (gname g4); [destruct (_ && _); reflexivity|]. congruence.
Qed.

Lemma attributes_nodup a : (forall l, a = Some l -> parserMaySet l) -> NoDup (keys (attributesOf a)).
Proof. intros H. destruct a as [l|]; [apply (H l eq_refl)|constructor]. Qed.
Lemma attributes_own a k : (forall l, a = Some l -> parserMaySet l) -> In k ownLabels -> aget (attributesOf a) k = None.
Proof. intros H I. destruct a as [l|]; [|reflexivity]. apply (H l eq_refl). exact I. Qed.

Ltac lookup := repeat first
  [ progress cbn [setAll fold_left fst snd app endLabels natLabels baseOf]
  | rewrite aget_aset; lits ].

(** the value of a label of the analyzer's own *)
Section Own.
  Context (e : event) (proto : string) (slow : bool) (a : option attrs) (resp : option (Z * Z * bytes)) (sip dip q r : bytes) (m : attrs).
  Hypothesis A : forall l, a = Some l -> parserMaySet l.
  Lemma before_base k : aget (endLabels resp) k = None -> k <> LRequestPayload -> k <> LResponsePayload ->
    aget (before e proto slow a resp sip dip q r m) k =
    match aget (attributesOf a) k with Some v => Some v
    | None => match aget (baseOf e (e_tid e) (tidOf resp) false NoError slow sip dip ++ [(LProtocol, SV (bs proto))]) k with
              | Some v => Some v | None => aget m k end end.
  Proof.
    intros E N1 N2. unfold before. rewrite setAll_get by (apply NoDup_cons; [cbn; intuition discriminate|apply NoDup_cons; [cbn; tauto|apply NoDup_nil]]).
    cbn [aget]. rewrite (proj2 (eqb_neq k LRequestPayload) N1), (proj2 (eqb_neq k LResponsePayload) N2).
    rewrite setAll_get, E by (destruct resp as [[[? ?] ?]|]; [apply NoDup_cons; [cbn; tauto|apply NoDup_nil]|apply NoDup_nil]).
    rewrite setAll_get by (apply attributes_nodup; exact A).
    rewrite setAll_get; [reflexivity|].
    unfold baseOf, keys. cbn [map app fst]. repeat (apply NoDup_cons; [cbn; intuition discriminate|]). apply NoDup_nil.
  Qed.
End Own.
Lemma end_other resp k : k <> LEndTimestamp -> aget (endLabels resp) k = None.
Proof. intros N. destruct resp as [[[? ?] ?]|]; [|reflexivity]. cbn [endLabels aget]. rewrite (proj2 (eqb_neq k LEndTimestamp) N). reflexivity. Qed.
Lemma nat_other nt k m : k <> LDnatIp -> k <> LDnatPort -> aget (setAll (natLabels nt) m) k = aget m k.
Proof.
  intros N1 N2. destruct nt as [[ip port]|]; [|reflexivity]. cbn [natLabels setAll fold_left fst snd].
  rewrite !aget_aset, (proj2 (eqb_neq k _) N1), (proj2 (eqb_neq k _) N2). reflexivity.
Qed.
Lemma noresp_other k (b : bool) m : k <> LIsError -> k <> LErrorType ->
  aget (if b then aset (aset m LIsError (BV true)) LErrorType (IV NoResponse) else m) k = aget m k.
Proof. intros N1 N2. destruct b; [|reflexivity]. rewrite !aget_aset, (proj2 (eqb_neq k _) N1), (proj2 (eqb_neq k _) N2). reflexivity. Qed.

Lemma noError_dec a : (forall l, a = Some l -> parserMaySet l) ->
  (parserError a /\ aget (attributesOf a) "is_error" = Some (BV true)) \/
  (~ parserError a /\ (aget (attributesOf a) "is_error" = None \/ aget (attributesOf a) "is_error" = Some (BV false))).
Proof.
  intros A. unfold parserError. destruct (aget (attributesOf a) "is_error") as [v|] eqn:E.
  - destruct a as [l|]; [|discriminate]. destruct (A l eq_refl) as (_ & _ & B & _). destruct (B v E) as (b & ->).
    destruct b; [left; auto|right]. split; [congruence|auto].
  - right. split; [congruence|auto].
Qed.

Section Filled.
  Context (c : rconf) (g : group) (e : event) (proto : string) (slow : bool) (a : option attrs) (rq : bytes) (resp : option (Z * Z * bytes)) (nt : nat_tuple) (r : group).
  Hypothesis A : forall l, a = Some l -> parserMaySet l.
  Hypothesis F : fillLabels c g e proto slow a rq resp nt = Ok r.

  Lemma filled_own k v : In k ownLabels -> k <> LDnatIp -> k <> LDnatPort -> k <> LEndTimestamp -> k <> LRequestPayload -> k <> LResponsePayload ->
    (forall sip dip, getSip e = Ok sip -> getDip e = Ok dip ->
      aget (baseOf e (e_tid e) (tidOf resp) false NoError slow sip dip ++ [(LProtocol, SV (bs proto))]) k = Some v) -> says r k v.
  Proof.
    intros I N1 N2 N3 N4 N5 B. destruct (fill_inv _ _ _ _ _ _ _ _ _ _ F) as (sip & dip & q & p & S & D & _ & _ & L & _).
    unfold says. rewrite L, nat_other by assumption.
    rewrite noresp_other by (intros ->; cbn in I; intuition discriminate).
    rewrite before_base by (try apply end_other; assumption). rewrite attributes_own by assumption. rewrite (B sip dip S D). reflexivity.
  Qed.
  Ltac own := apply filled_own; [cbn; tauto|discriminate|discriminate|discriminate|discriminate|discriminate|intros sip dip S D; try reflexivity].
  Lemma filled_parties : parties e r.
  Proof.
    unfold parties. repeat split; try (own; fail).
    - intros a0 l E. own. unfold getSip in S. rewrite E in S. rewrite gindex_0 in S. cbn [bind] in S. inversion S. reflexivity.
    - intros a0 l E. own. unfold getDip in D. rewrite E in D. rewrite gindex_0 in D. cbn [bind] in D. inversion D. reflexivity.
  Qed.
  Lemma filled_misc : says r "request_tid" (IV (e_tid e)) /\ says r "response_tid" (IV (tidOf resp)) /\ says r "is_slow" (BV slow) /\ says r "protocol" (SV (bs proto)).
  Proof. repeat split; own. Qed.
  Lemma filled_nat : translated nt r.
  Proof.
    destruct (fill_inv _ _ _ _ _ _ _ _ _ _ F) as (sip & dip & q & p & S & D & _ & _ & L & _). unfold translated, says. rewrite L.
    destruct nt as [[ip port]|].
    - split; cbn [natLabels setAll fold_left fst snd]; rewrite !aget_aset; lits; reflexivity.
    - cbn [natLabels setAll fold_left]. rewrite !noresp_other by discriminate.
      rewrite !before_base by (try apply end_other; try assumption; discriminate).
      rewrite !attributes_own by (try assumption; cbn; tauto). split; reflexivity.
  Qed.
  Lemma filled_end : (forall t ts d, resp = Some (t, ts, d) -> says r "end_timestamp" (IV (s64 ts))).
  Proof.
    destruct (fill_inv _ _ _ _ _ _ _ _ _ _ F) as (sip & dip & q & p & S & D & _ & _ & L & _). intros t ts d E. unfold says. rewrite L.
    rewrite nat_other, noresp_other by discriminate. rewrite E. unfold before. cbn [endLabels setAll fold_left fst snd].
    rewrite !aget_aset. lits. reflexivity.
  Qed.
  Lemma filled_payload : exists q, getPayloadString (rc_payload c) rq proto = Ok q /\ says r "request_payload" (SV q) /\
    (resp = None -> says r "response_payload" (SV [])) /\
    (forall t ts d, resp = Some (t, ts, d) -> exists p, getPayloadString (rc_payload c) d proto = Ok p /\ says r "response_payload" (SV p)).
  Proof.
    destruct (fill_inv _ _ _ _ _ _ _ _ _ _ F) as (sip & dip & q & p & S & D & Q & P & L & _). exists q. split; [exact Q|].
    assert (R : says r "response_payload" (SV p)).
    { unfold says. rewrite L. rewrite nat_other, noresp_other by discriminate. unfold before. cbn [setAll fold_left fst snd].
      rewrite !aget_aset. lits. reflexivity. }
    split; [|split].
    - unfold says. rewrite L. rewrite nat_other, noresp_other by discriminate. unfold before. cbn [setAll fold_left fst snd].
      rewrite !aget_aset. lits. reflexivity.
    - intros ->. cbn [dataOf] in P. subst p. exact R.
    - intros t ts d ->. cbn [dataOf] in P. eauto.
  Qed.
  Lemma filled_carries : carries a r.
  Proof.
    destruct (fill_inv _ _ _ _ _ _ _ _ _ _ F) as (sip & dip & q & p & S & D & Q & P & L & _). intros k v N1 N2 G. unfold says. rewrite L.
    assert (O : ~ In k ownLabels) by (intros I; rewrite (attributes_own a k A I) in G; discriminate).
    cbn [ownLabels In] in O.
    rewrite nat_other, noresp_other, before_base by (try apply end_other; try assumption; intros ->; apply O; cbn; tauto).
    rewrite G. reflexivity.
  Qed.
  Lemma filled_errors : errorMarks a (negb (noResp resp)) r.
  Proof.
    destruct (fill_inv _ _ _ _ _ _ _ _ _ _ F) as (sip & dip & q & p & S & D & Q & P & L & _). cbn zeta in L.
    set (b := before e proto slow a resp sip dip q p (glabels g)) in *.
    assert (BE : aget b LIsError = match aget (attributesOf a) LIsError with Some v => Some v | None => Some (BV false) end).
    { unfold b. rewrite before_base by (try apply end_other; try assumption; discriminate). reflexivity. }
    assert (BT : aget b LErrorType = match aget (attributesOf a) LErrorType with Some v => Some v | None => Some (IV 0) end).
    { unfold b. rewrite before_base by (try apply end_other; try assumption; discriminate). reflexivity. }
    assert (R : forall k, k <> LDnatIp -> k <> LDnatPort -> aget (glabels r) k = aget (if negb (asBool (aget b LIsError)) && noResp resp
         then aset (aset b LIsError (BV true)) LErrorType (IV NoResponse) else b) k).
    { intros k N1 N2. rewrite L. apply nat_other; assumption. }
    pose proof (R LIsError ltac:(discriminate) ltac:(discriminate)) as RE.
    pose proof (R LErrorType ltac:(discriminate) ltac:(discriminate)) as RT.
    unfold errorMarks, says. change "is_error" with LIsError. change "error_type" with LErrorType. rewrite RE, RT. clear R RE RT L.
    destruct (noError_dec a A) as [(PE & E) | (PE & E)]; change "is_error" with LIsError in E.
    - rewrite E in BE. rewrite BE. cbn [asBool negb andb]. rewrite BE, BT.
      repeat split; try tauto; try congruence.
      + intros z _ H. rewrite H. reflexivity.
      + intros _ H. rewrite H. reflexivity.
    - assert (BE' : aget b LIsError = Some (BV false)) by (rewrite BE; destruct E as [-> | ->]; reflexivity).
      rewrite BE'. cbn [asBool negb andb]. destruct (noResp resp) eqn:NR; cbn [negb].
      + rewrite !aget_aset. lits. repeat split; try tauto; try congruence.
        * intros (_ & H). discriminate.
        * intros z [H|H]; [discriminate|tauto].
        * intros [H|H]; [discriminate|tauto].
      + rewrite BE', BT. repeat split; try tauto; try congruence.
        * intros [H|H]; [tauto|discriminate].
        * intros z _ H. rewrite H. reflexivity.
        * intros _ H. rewrite H. reflexivity.
  Qed.
End Filled.
