(** The gauges and the measurements of the OpenTelemetry exporter. *)
From Coq Require Import Sorting.Permutation.
From Verif Require Import Base Decimal AttrModel PoolModel KeyModel KeyProps AggModel AggSpec AggProofs LabelNames EnrichModel AdapterModel AdapterSpec AdapterWorld AdapterProps OtelModel OtelSpec.
Open Scope string_scope. Open Scope list_scope. Open Scope Z_scope.

(** ** Selectors *)
Lemma selector_cases n sels : getSelector n = Some sels ->
  (n = TraceAsMetric /\ sels = traceAsMetricSelector) \/ (n = TcpRttMetricName /\ sels = tcpRttSelector) \/ (n = K8sWorkLoadMetricName /\ sels = k8sWorkloadSelector).
Proof.
  unfold getSelector. case_eqb n TraceAsMetric; [intros X; inversion X; auto|].
  case_eqb n TcpRttMetricName; [intros X; inversion X; auto|]. case_eqb n K8sWorkLoadMetricName; [intros X; inversion X; auto|discriminate].
Qed.
Definition validb (s : selector) : bool := eqb (snd s) "boolean" || eqb (snd s) "string" || eqb (snd s) "int".
Lemma validb_ok sels : forallb validb sels = true -> Forall valid_type sels.
Proof.
  intros F. apply Forall_forall. intros s J. rewrite forallb_forall in F. specialize (F s J). unfold validb in F.
  apply orb_true_iff in F. destruct F as [F|F]; [apply orb_true_iff in F; destruct F as [F|F]|]; apply eqb_true in F; unfold valid_type; auto.
Qed.
Lemma selector_ok n sels : getSelector n = Some sels ->
  (List.length sels <= 37)%nat /\ Forall valid_type sels /\ NoDup (map fst sels) /\ aget gaugeKinds n = Some [{| c_out := n; c_kind := LastKind; c_bounds := [] |}].
Proof.
  intros E. destruct (selector_cases n sels E) as [[-> ->]|[[-> ->]|[-> ->]]];
    (split; [vm_compute; lia|split; [apply validb_ok; vm_compute; reflexivity|split; [apply nodupb_ok; vm_compute; reflexivity|vm_compute; reflexivity]]]).
Qed.

Definition keyOf (n : string) (m : labels) : list lkey := match getSelector n with Some sels => getLabelKeys sels m | None => [] end.
Lemma keyOf_ext n m m' : (forall k, aget m k = aget m' k) -> keyOf n m = keyOf n m'.
Proof.
  intros E. unfold keyOf. destruct (getSelector n) as [sels|]; [|reflexivity]. unfold getLabelKeys. f_equal. apply map_ext. intros s.
  unfold selectKey. rewrite E. reflexivity.
Qed.
Definition shownKey (n : string) (key : list lkey) : list (string * bytes) :=
  match getSelector n with Some sels => map (fun k => (kname k, kvalue k)) (firstn (List.length sels) key) | None => [] end.
Lemma selectKey_text l s : valid_type s -> kvalue (selectKey l s) = toString (selected l s).
Proof.
  intros V. unfold selectKey, selected, BooleanType, StringType, IntType, kvalue. cbn [fst snd].
  destruct V as [-> | [-> | ->]]; cbn [eqb Eqb_string String.eqb Ascii.eqb Bool.eqb]; reflexivity.
Qed.
Lemma shownKey_ok n m : shownKey n (keyOf n m) = shownOf n m.
Proof.
  unfold shownKey, keyOf, shownOf, gaugeLabels. destruct (getSelector n) as [sels|] eqn:E; [|reflexivity].
  destruct (selector_ok n sels E) as (L & V & _ & _). unfold getLabelKeys, pad, maxLabelKeySize. rewrite (firstn_all2 sels) by exact L.
  rewrite firstn_app, map_length, Nat.sub_diag. cbn [firstn]. rewrite app_nil_r, firstn_all2 by (rewrite map_length; lia).
  rewrite map_map. apply map_ext_in. intros s J. rewrite Forall_forall in V. rewrite (selectKey_text m s (V s J)). reflexivity.
Qed.
Lemma toString_selected m m' s : valid_type s -> toString (selected m s) = toString (selected m' s) -> selected m s = selected m' s.
Proof.
  intros V. unfold selected. destruct V as [-> | [-> | ->]]; cbn [eqb Eqb_string String.eqb Ascii.eqb Bool.eqb toString]; intros E.
  - f_equal. apply formatBool_inj. exact E.
  - f_equal. exact E.
  - f_equal. apply formatInt_inj. exact E.
Qed.
Lemma shown_key n m m' : getSelector n <> None -> (keyOf n m = keyOf n m' <-> shownOf n m = shownOf n m').
Proof.
  intros N. split; [intros E; rewrite <- !shownKey_ok, E; reflexivity|].
  unfold shownOf, keyOf, gaugeLabels. destruct (getSelector n) as [sels|] eqn:G; [|congruence]. intros E.
  destruct (selector_ok n sels G) as (L & V & _ & _). apply keys_iff; [exact L|exact V|]. intros s J. rewrite Forall_forall in V.
  apply toString_selected; [apply V; exact J|]. revert E J. clear. induction sels as [|x sels IH]; intros E J; [destruct J|].
  cbn [map] in E. injection E as E1 E2. destruct J as [->|J]; [exact E1|exact (IH E2 J)].
Qed.
Lemma fold_aset_append {A V} (f : A -> string) (h : A -> V) : forall (l : list A) (acc : list (string * V)), NoDup (map f l) ->
  (forall a, In a l -> ~ In (f a) (keys acc)) -> fold_left (fun acc a => aset acc (f a) (h a)) l acc = acc ++ map (fun a => (f a, h a)) l.
Proof.
  induction l as [|a l IH]; intros acc ND D; cbn [fold_left map]; [rewrite app_nil_r; reflexivity|]. inversion ND as [|? ? NI ND']; subst.
  assert (E : aset acc (f a) (h a) = acc ++ [(f a, h a)]).
  { assert (X := D a (or_introl eq_refl)). revert X. clear. induction acc as [|[k v] acc IH]; intros X; [reflexivity|]. cbn [aset app].
    rewrite (proj2 (eqb_neq (f a) k)); [|intros Q; apply X; left; symmetry; exact Q]. f_equal. apply IH. intros J. apply X. right. exact J. }
  rewrite E, IH; [rewrite <- app_assoc; reflexivity|exact ND'|]. intros b J. unfold keys. rewrite map_app, in_app_iff. intros [K|[K|[]]].
  - exact (D b (or_intror J) K).
  - apply NI. apply in_map_iff. exists b. split; [symmetry; exact K|exact J].
Qed.
Lemma getLabels_key n sels m : getSelector n = Some sels -> int64_labels m -> getLabels (keyOf n m) = map (fun s => (fst s, selected m s)) sels.
Proof.
  intros E R. unfold keyOf. rewrite E. destruct (selector_ok n sels E) as (L & V & ND & _). rewrite getLabels_select by assumption.
  exact (fold_aset_append (fun s : selector => fst s) (selected m) sels [] ND (fun a _ F => F)).
Qed.

(** ** The aggregator of the gauges *)
Definition lastKey (l : list reading) (n : string) (key : list lkey) (v : Z) : Prop :=
  exists a m b, l = a ++ (n, m, v) :: b /\ keyOf n m = key /\ forall m' v', In (n, m', v') b -> keyOf n m' <> key.
Definition readingOK (r : reading) : Prop := getSelector (fst (fst r)) <> None /\ int64_labels (snd (fst r)).
Definition entryIs (l : list reading) (n : string) (key : list lkey) (m : vmap) : Prop :=
  exists v, vals m = [(n, [{| a_name := n; a_core := CLast v |}])] /\ lastKey l n key v.
Definition aggIs (l : list reading) (done : list string) (a : agg_state) : Prop :=
  Forall readingOK l /\ (forall n, NoDup (keys (recOf a n))) /\ (forall n, In n done -> recOf a n = []) /\
  forall n key, ~ In n done -> match aget (recOf a n) key with
                               | None => forall m v, In (n, m, v) l -> keyOf n m <> key
                               | Some m => entryIs l n key m
                               end.
Lemma aggIs_nil : aggIs [] [] [].
Proof. split; [constructor|]. split; [intros n; constructor|]. split; [intros n []|]. intros n key _. cbn [recOf aget]. intros m v []. Qed.
Lemma lastKey_in l n key v : lastKey l n key v -> exists m, In (n, m, v) l /\ keyOf n m = key.
Proof. intros (a & m & b & -> & K & _). exists m. split; [apply in_or_app; right; left; reflexivity|exact K]. Qed.
Lemma lastKey_snoc l n m v : lastKey (l ++ [(n, m, v)]) n (keyOf n m) v.
Proof. exists l, m, []. split; [reflexivity|]. split; [reflexivity|intros m' v' []]. Qed.
Lemma lastKey_more l n key v r : lastKey l n key v -> (forall m' v', r = (n, m', v') -> keyOf n m' <> key) -> lastKey (l ++ [r]) n key v.
Proof.
  intros (a & m & b & -> & K & B) D. exists a, m, (b ++ [r]). split; [rewrite <- app_assoc; reflexivity|]. split; [exact K|].
  intros m' v' J. apply in_app_or in J. destruct J as [J|[J|[]]]; [exact (B m' v' J)|exact (D m' v' J)].
Qed.

Lemma record_last l a n sels m m' v ts : aggIs l [] a -> getSelector n = Some sels -> int64_labels m -> (forall k, aget m' k = aget m k) ->
  exists a', aggregate gaugeKinds a {| gname := n; gmetrics := [(n, MInt v)]; glabels := m'; gts := ts |} sels = Ok a' /\ aggIs (l ++ [(n, m, v)]) [] a' /\
    (forall x, ahas a' x = true -> ahas a x = true \/ x = n).
Proof.
  intros (RO & ND & _ & A) E R X. destruct (selector_ok n sels E) as (_ & _ & _ & GK).
  assert (KEY : getLabelKeys sels m' = keyOf n m).
  { rewrite <- (keyOf_ext n m' m X). unfold keyOf. rewrite E. reflexivity. }
  unfold aggregate. cbn [gname gmetrics glabels gts]. rewrite KEY.
  assert (REC : exists vm, record (kindsDefault gaugeKinds) (recOf a n) (keyOf n m) [(n, MInt v)] ts 0 = Ok (aset (recOf a n) (keyOf n m) vm) /\
                vals vm = [(n, [{| a_name := n; a_core := CLast v |}])]).
  { unfold record. specialize (A n (keyOf n m) (fun x => x)). destruct (aget (recOf a n) (keyOf n m)) as [m0|].
    - destruct A as (v0 & V & _). cbn [foldM]. unfold calculate. cbn [fst snd]. rewrite V. cbn [aget]. rewrite eqb_refl. cbn [mapM feed a_core feedCore bind a_name].
      eexists. split; [reflexivity|]. cbn [vals aset]. rewrite eqb_refl. reflexivity.
    - unfold newValues. cbn [fold_left fst]. unfold kindsDefault at 1. rewrite GK. cbn [aset map]. cbn [foldM]. unfold calculate. cbn [fst snd vals aget]. rewrite eqb_refl.
      cbn [mapM feed newAgg newCore a_core feedCore bind a_name c_out c_kind]. eexists. split; [reflexivity|]. cbn [vals aset]. rewrite eqb_refl. reflexivity. }
  destruct REC as (vm & -> & V). cbn [bind]. eexists. split; [reflexivity|]. split.
  - split; [apply Forall_app; split; [exact RO|constructor; [|constructor]]; split; [cbn [fst snd]; congruence|exact R]|].
    split; [intros x; rewrite recOf_aset; destruct (eqb x n); [apply NoDup_keys_aset|]; apply ND|]. split; [intros x []|].
    intros x key _. rewrite recOf_aset. case_eqb x n.
    + subst x. rewrite aget_aset. case_eqb key (keyOf n m).
      * subst key. exists v. split; [exact V|apply lastKey_snoc].
      * specialize (A n key (fun x => x)). destruct (aget (recOf a n) key) as [m0|].
        -- destruct A as (v0 & V0 & L0). exists v0. split; [exact V0|]. apply lastKey_more; [exact L0|]. intros m1 v1 Q. inversion Q; subst. congruence.
        -- intros m1 v1 J. apply in_app_or in J. destruct J as [J|[J|[]]]; [exact (A m1 v1 J)|]. inversion J; subst. congruence.
    + specialize (A x key (fun y => y)). destruct (aget (recOf a x) key) as [m0|].
      * destruct A as (v0 & V0 & L0). exists v0. split; [exact V0|]. apply lastKey_more; [exact L0|]. intros m1 v1 Q. inversion Q; subst. congruence.
      * intros m1 v1 J. apply in_app_or in J. destruct J as [J|[J|[]]]; [exact (A m1 v1 J)|]. inversion J; subst. congruence.
  - intros x. unfold ahas. rewrite aget_aset. case_eqb x n; [auto|]. auto.
Qed.

Section Gauges.
  Context (cl : list (string * aval)).

  Lemma textual l sels m it : (forall x, Permutation (it x) x) -> l = map (fun s : selector => (fst s, selected m s)) sels ->
    saysLabels cl (map (fun p : string * bytes => S_ (fst p) (snd p)) (map (fun s => (fst s, toString (selected m s))) sels))
      (map (fun p : string * aval => (fst p, Some (SV (toString (snd p))))) (it l) ++ map (fun p : string * aval => (fst p, Some (snd p))) cl).
  Proof.
    intros P -> k v. unfold withCustom. rewrite !in_app_iff. rewrite map_map.
    assert (Q : Permutation (map (fun p : string * aval => (fst p, Some (SV (toString (snd p))))) (it (map (fun s : selector => (fst s, selected m s)) sels)))
                            (map (fun s : selector => S_ (fst s) (toString (selected m s))) sels)).
    { rewrite (Permutation_map _ (P (map (fun s : selector => (fst s, selected m s)) sels))), map_map. cbn [fst snd]. apply Permutation_refl. }
    assert (H : In (k, v) (map (fun p : string * aval => (fst p, Some (SV (toString (snd p))))) (it (map (fun s : selector => (fst s, selected m s)) sels))) <->
                In (k, v) (map (fun s : selector => S_ (fst s) (toString (selected m s))) sels)).
    { split; apply Permutation_in; [exact Q|apply Permutation_sym; exact Q]. }
    cbn [fst snd]. tauto.
  Qed.

  Lemma dump_observes it n l : (forall x, Permutation (it x) x) -> Forall readingOK l -> forall r : recorder,
    (forall key m, In (key, m) r -> entryIs l n key m) ->
    exists gs os, dumpRecorder n r = Ok gs /\ mapM (observeOne cl it n) gs = Ok os /\
      Forall2 (observes cl l) (map (fun p : list lkey * vmap => (n, shownKey n (fst p))) r) (List.concat os).
  Proof.
    intros P RO. induction r as [|[key m] r IH]; intros E; [exists [], []; split; [reflexivity|]; split; [reflexivity|constructor]|].
    destruct IH as (gs & os & D & M & F); [intros k x J; apply E; right; exact J|].
    destruct (E key m (or_introl eq_refl)) as (v & V & a & m0 & b & -> & K & B).
    assert (R0 : readingOK (n, m0, v)) by (rewrite Forall_forall in RO; apply RO; apply in_or_app; right; left; reflexivity).
    destruct R0 as [R1 R2]. cbn [fst snd] in R1, R2. destruct (getSelector n) as [sels|] eqn:G; [|congruence].
    unfold dumpRecorder in *. cbn [mapM fst snd]. unfold AggModel.getAll at 1. rewrite V. cbn [mapM snd a_core getCore bind a_name List.concat app].
    rewrite D. cbn [bind]. eexists _, _. split; [reflexivity|]. cbn [mapM]. unfold observeOne at 1. cbn [gmetrics glabels bind]. rewrite M. cbn [bind].
    split; [reflexivity|]. cbn [map List.concat app]. constructor; [|exact F]. subst key.
    exists v. eexists. split; [reflexivity|]. cbn [fst snd]. rewrite shownKey_ok. split.
    - exists a, m0, b. split; [reflexivity|]. split; [reflexivity|]. intros m' v' J X. apply (B m' v' J). apply shown_key; [congruence|exact X].
    - unfold shownOf, gaugeLabels. rewrite G. apply textual; [exact P|]. apply getLabels_key; [exact G|exact R2].
  Qed.

  Lemma collect_ok it l : (forall x, Permutation (it x) x) -> forall ns done a, aggIs l done a -> NoDup (done ++ ns) ->
    exists out a' series, collectGauges cl it ns a = Ok (out, a') /\ aggIs l (done ++ ns) a' /\ (forall x, ahas a' x = ahas a x) /\
      NoDup series /\ (forall n L, In (n, L) series <-> In n ns /\ exists m v, In (n, m, v) l /\ shownOf n m = L) /\ Forall2 (observes cl l) series out.
  Proof.
    intros P. induction ns as [|n ns IH]; intros done a A ND.
    - exists [], a, []. cbn [collectGauges]. split; [reflexivity|]. rewrite app_nil_r. split; [exact A|]. split; [reflexivity|].
      split; [constructor|]. split; [|constructor]. intros n L. split; [intros []|intros [[] _]].
    - assert (NI : ~ In n done) by (intros J; apply NoDup_remove_2 in ND; apply ND; apply in_or_app; left; exact J).
      assert (N2 : ~ In n ns) by (intros J; apply NoDup_remove_2 in ND; apply ND; apply in_or_app; right; exact J).
      assert (ND' : NoDup ((done ++ [n]) ++ ns)) by (rewrite <- app_assoc; exact ND).
      destruct A as (RO & NDr & DN & A).
      assert (S : exists gs os a1, dumpSingle a n = Ok (gs, a1) /\ mapM (observeOne cl it n) gs = Ok os /\
                 Forall2 (observes cl l) (map (fun p : list lkey * vmap => (n, shownKey n (fst p))) (recOf a n)) (List.concat os) /\
                 aggIs l (done ++ [n]) a1 /\ forall x, ahas a1 x = ahas a x).
      { destruct (dump_observes it n l P RO (recOf a n)) as (gs & os & D & M & F).
        { intros key m J. specialize (A n key NI). rewrite (in_aget _ _ _ (NDr n) J) in A. exact A. }
        unfold dumpSingle. unfold recOf in D. destruct (aget a n) as [r|] eqn:G.
        - rewrite D. cbn [bind]. exists gs, os. eexists. split; [reflexivity|]. split; [exact M|]. split; [exact F|]. split.
          + split; [exact RO|]. split; [intros x; rewrite recOf_aset; destruct (eqb x n); [constructor|apply NDr]|]. split.
            * intros x J. rewrite recOf_aset. case_eqb x n; [reflexivity|]. apply DN. apply in_app_or in J. destruct J as [J|[J|[]]]; [exact J|congruence].
            * intros x key J. rewrite recOf_aset. case_eqb x n; [subst; exfalso; apply J; apply in_or_app; right; left; reflexivity|].
              apply A. intros Q. apply J. apply in_or_app. left. exact Q.
          + intros x. unfold ahas. rewrite aget_aset. case_eqb x n; [subst; rewrite G; reflexivity|reflexivity].
        - cbn [dumpRecorder mapM] in D. inversion D; subst gs. exists [], os, a. split; [reflexivity|]. split; [exact M|]. split; [exact F|]. split; [|reflexivity].
          split; [exact RO|]. split; [exact NDr|]. split.
          + intros x J. apply in_app_or in J. destruct J as [J|[J|[]]]; [apply DN; exact J|]. subst. unfold recOf. rewrite G. reflexivity.
          + intros x key J. apply A. intros Q. apply J. apply in_or_app. left. exact Q. }
      destruct S as (gs & os & a1 & D & M & F & A1 & H1). destruct (IH (done ++ [n]) a1 A1 ND') as (out & a' & series & C & A' & H' & NDs & IN & F').
      cbn [collectGauges]. rewrite D. cbn [bind fst snd]. rewrite M. cbn [bind]. rewrite C. cbn [bind fst snd].
      eexists _, a', _. split; [reflexivity|]. rewrite <- app_assoc in A'. split; [exact A'|]. split; [intros x; rewrite H', H1; reflexivity|].
      assert (IN1 : forall x L, In (x, L) (map (fun p : list lkey * vmap => (n, shownKey n (fst p))) (recOf a n)) <-> x = n /\ exists m v, In (n, m, v) l /\ shownOf n m = L).
      { intros x L. rewrite in_map_iff. split.
        - intros ([key m] & Q & J). cbn [fst] in Q. inversion Q; subst. split; [reflexivity|]. specialize (A x key NI).
          rewrite (in_aget _ _ _ (NDr x) J) in A. destruct A as (v & _ & LK). destruct (lastKey_in _ _ _ _ LK) as (m0 & J0 & <-). exists m0, v.
          split; [exact J0|]. symmetry. apply shownKey_ok.
        - intros (-> & m & v & J & <-). specialize (A n (keyOf n m) NI). destruct (aget (recOf a n) (keyOf n m)) as [vm|] eqn:G.
          + exists (keyOf n m, vm). split; [cbn [fst]; rewrite shownKey_ok; reflexivity|exact (aget_in _ _ _ G)].
          + exfalso. exact (A m v J eq_refl). }
      split; [|split; [|apply Forall2_app; [exact F|exact F']]].
      + assert (ND1 : NoDup (map (fun p : list lkey * vmap => (n, shownKey n (fst p))) (recOf a n))).
        { assert (W : forall key m, In (key, m) (recOf a n) -> exists m0, keyOf n m0 = key /\ getSelector n <> None).
          { intros key m J. specialize (A n key NI). rewrite (in_aget _ _ _ (NDr n) J) in A. destruct A as (v & _ & LK).
            destruct (lastKey_in _ _ _ _ LK) as (m0 & J0 & Q). exists m0. split; [exact Q|]. rewrite Forall_forall in RO. exact (proj1 (RO _ J0)). }
          assert (N := NDr n). revert W N. generalize (recOf a n). clear. induction r as [|[key m] r IH]; intros W N; cbn [map]; [constructor|].
          unfold keys in N. cbn [map fst] in N. inversion N as [|? ? NI N']; subst. constructor; [|apply IH; [intros k x J; apply (W k x); right; exact J|exact N']].
          intros J. apply in_map_iff in J. destruct J as ([key' m'] & Q & J). cbn [fst] in Q. assert (Q' : shownKey n key' = shownKey n key) by congruence. clear Q.
          destruct (W key m (or_introl eq_refl)) as (m1 & K1 & G). destruct (W key' m' (or_intror J)) as (m2 & K2 & _). subst key key'.
          rewrite !shownKey_ok in Q'. apply (shown_key n m2 m1 G) in Q'. apply NI. rewrite <- Q'. apply in_map_iff. exists (keyOf n m2, m'). split; [reflexivity|exact J]. }
        revert ND1 NDs IN1 IN N2. clear. generalize (map (fun p : list lkey * vmap => (n, shownKey n (fst p))) (recOf a n)). intros s1 ND1 NDs IN1 IN N2.
        assert (DJ : forall q, In q s1 -> ~ In q series).
        { intros [x L] J1 J2. apply IN1 in J1. apply IN in J2. destruct J1 as [-> _]. destruct J2 as [J2 _]. exact (N2 J2). }
        clear IN1 IN. induction s1 as [|q s1 IH]; [exact NDs|]. inversion ND1 as [|? ? X1 X2]; subst. cbn [app]. constructor.
        * intros J. apply in_app_or in J. destruct J as [J|J]; [exact (X1 J)|exact (DJ q (or_introl eq_refl) J)].
        * apply IH; [exact X2|]. intros q' J. apply DJ. right. exact J.
      + intros x L. rewrite in_app_iff, IN1, IN. cbn [In]. split.
        * intros [[-> H]|[J H]]; [split; [left; reflexivity|exact H]|split; [right; exact J|exact H]].
        * intros [[<-|J] H]; [left; auto|right; auto].
  Qed.
End Gauges.
