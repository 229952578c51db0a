(** Counter conservation, absence of panics, and the cumulative aggregator. *)
From Verif Require Import Base Decimal AttrModel PoolModel KeyModel AggModel AggSpec AggProofs.

(** ** Sums over association lists *)
Lemma zsum_aset_none {K V} `{Eqb K} (f : K * V -> Z) (l : list (K * V)) k v :
  aget l k = None -> zsum (map f (aset l k v)) = zsum (map f l) + f (k, v).
Proof.
  induction l as [|[k' v'] l IH]; cbn [aget aset]; intros E.
  - cbn. lia.
  - destruct (eqb k k') eqn:E'; [discriminate|]. cbn [map]. rewrite !zsum_cons, IH by exact E. lia.
Qed.
Lemma zsum_aset_some {K V} `{Eqb K} (f : K * V -> Z) (l : list (K * V)) k v v0 :
  aget l k = Some v0 -> zsum (map f (aset l k v)) = zsum (map f l) - f (k, v0) + f (k, v).
Proof.
  induction l as [|[k' v'] l IH]; cbn [aget aset]; intros E; [discriminate|].
  case_eqb k k'.
  - subst k'. inversion E; subst v'. cbn [map]. rewrite !zsum_cons. lia.
  - cbn [map]. rewrite !zsum_cons, IH by exact E. lia.
Qed.

(** ** The counters held in a series *)
Definition coreVal (c : core) : Z := match c with CSum v => v | CCount v => v | _ => 0 end.
Definition slVal (out : string) (sl : list aggv) : Z :=
  zsum (map (fun a => if eqb (a_name a) out then coreVal (a_core a) else 0) sl).
Definition voutP (out : string) (p : string * list aggv) : Z := slVal out (snd p).
Definition vout (out : string) (m : AggModel.vmap) : Z := zsum (map (voutP out) (vals m)).

Definition contribC (out : string) (d : mdata) (c : kcfg) : Z :=
  if eqb (c_out c) out then
    match c_kind c, d with
    | SumKind, MInt x => x
    | SumKind, MHist s _ _ _ => s
    | CountKind, MInt _ => 1
    | CountKind, MHist _ k _ _ => k
    | _, _ => 0
    end
  else 0.
Definition contribP (km : kindMap) (out : string) (p : string * mdata) : Z :=
  zsum (map (contribC out (snd p)) (match aget km (fst p) with Some cs => cs | None => [] end)).
Lemma contribution_eq km out g : contribution km out g = zsum (map (contribP km out) (gmetrics g)).
Proof. reflexivity. Qed.

Lemma slVal_nil cs out : slVal out (sliceOf cs []) = 0.
Proof.
  unfold slVal, sliceOf. rewrite map_map. cbn [a_name a_core]. induction cs as [|c cs IH]; [reflexivity|]. cbn [map].
  rewrite zsum_cons, IH. unfold coreOf. destruct (eqb (c_out c) out); [|reflexivity]. destruct (c_kind c); reflexivity.
Qed.
Lemma slVal_snoc cs out ds d : eqm (slVal out (sliceOf cs (ds ++ [d]))) (slVal out (sliceOf cs ds) + zsum (map (contribC out d) cs)).
Proof.
  unfold slVal, sliceOf. rewrite !map_map. cbn [a_name a_core]. induction cs as [|c cs IH]; [apply eqm_refl|].
  cbn [map]. rewrite !zsum_cons.
  match goal with |- eqm (?x + ?y) (?a + ?b + (?c0 + ?e)) => replace (a + b + (c0 + e)) with ((a + c0) + (b + e)) by lia end.
  apply eqm_add; [|exact IH]. unfold contribC. destruct (eqb (c_out c) out); [|apply eqm_refl].
  unfold coreOf. destruct (c_kind c); cbn [coreVal]; try apply eqm_refl.
  - rewrite sumOf_snoc. eapply eqm_trans; [apply eqm_s64|]. apply eqm_add; [apply eqm_sym, eqm_s64|]. destruct d; apply eqm_refl.
  - rewrite countOf_snoc. eapply eqm_trans; [apply eqm_s64|]. apply eqm_add; [apply eqm_sym, eqm_s64|]. destruct d; apply eqm_refl.
Qed.

Lemma calculate_vout km out names ds m p ts now m' :
  vals_are (kindsDefault km) names ds (vals m) -> In (fst p) names -> kok (kindsDefault km) [p] ->
  calculate ts now m p = Ok m' ->
  eqm (vout out m') (vout out m + contribP km out p).
Proof.
  intros (ND & K & S) I OKp E. destruct p as [n d]. unfold calculate in E. cbn [fst snd] in *.
  destruct (aget (vals m) n) as [sl|] eqn:G.
  - destruct (S _ _ G) as (cs & F & ->). rewrite feed_slice in E.
    + cbn [bind] in E. inversion E; subst m'. unfold vout. cbn [vals].
      rewrite (zsum_aset_some _ _ _ _ _ G). unfold voutP at 2 3. cbn [snd].
      unfold contribP. cbn [fst snd]. unfold kindsDefault in F. rewrite F.
      match goal with |- eqm (?a - ?b + ?c) (?a + ?e) => replace (a + e) with (a - b + (b + e)) by lia end.
      apply eqm_add; [apply eqm_refl|]. apply slVal_snoc.
    + intros c J. eapply OKp; [left; reflexivity|exact F|exact J].
  - inversion E; subst m'. unfold contribP. cbn [fst snd].
    destruct (aget km n) as [cs|] eqn:F.
    + exfalso. apply aget_none_notin in G. apply G. apply K. split; [exact I|]. unfold kindsDefault. congruence.
    + cbn. rewrite Z.add_0_r. apply eqm_refl.
Qed.

Lemma fold_vout km out ts now names : forall ms ds m m',
  vals_are (kindsDefault km) names ds (vals m) -> (forall p, In p ms -> In (fst p) names) -> kok (kindsDefault km) ms ->
  foldM (calculate ts now) ms m = Ok m' ->
  eqm (vout out m') (vout out m + zsum (map (contribP km out) ms)).
Proof.
  induction ms as [|p ms IH]; intros ds m m' V I OKms E; cbn [foldM] in E.
  - inversion E. cbn. rewrite Z.add_0_r. apply eqm_refl.
  - assert (OKp : kok (kindsDefault km) [p]).
    { intros x d cs c [J|[]]. eapply OKms. left. exact J. }
    destruct (calculate_ok _ names ds m p ts now V OKp) as (m1 & E1 & V1 & _).
    rewrite E1 in E. cbn [bind] in E.
    pose proof (calculate_vout km out names ds m p ts now m1 V (I p (or_introl eq_refl)) OKp E1) as C1.
    assert (C2 := IH _ _ _ V1 (fun q J => I q (or_intror J)) (fun x d cs c J => OKms x d cs c (or_intror J)) E).
    eapply eqm_trans; [exact C2|]. cbn [map]. rewrite zsum_cons.
    rewrite Z.add_assoc. apply eqm_add; [exact C1|apply eqm_refl].
Qed.

Lemma vout_new km out ms : vout out (newValues (kindsDefault km) ms) = 0.
Proof.
  destruct (newValues_are (kindsDefault km) ms) as (ND & _ & S). unfold vout.
  assert (H : forall p, In p (vals (newValues (kindsDefault km) ms)) -> voutP out p = 0).
  { intros [x sl] I. unfold voutP. cbn [snd]. destruct (S x sl (in_aget _ _ _ ND I)) as (cs & _ & ->). apply slVal_nil. }
  revert H. generalize (vals (newValues (kindsDefault km) ms)). induction l as [|p l IH]; intros H; [reflexivity|].
  cbn [map]. rewrite zsum_cons, H by (left; reflexivity). rewrite IH; [reflexivity|]. intros q I. apply H. right. exact I.
Qed.

(** ** Pending amounts *)
Definition pendP (L : labelset) (out : string) (p : list lkey * AggModel.vmap) : Z :=
  if eqb (getLabels (fst p)) L then vout out (snd p) else 0.
Definition pend (L : labelset) (out : string) (r : recorder) : Z := zsum (map (pendP L out) r).

Lemma window_in nm key : forall h g, In g (window nm key h) ->
  exists sels, In (OAgg g sels) h /\ gname g = nm /\ getLabelKeys sels (glabels g) = key.
Proof.
  induction h as [|o h IH] using rev_ind; intros g I; [destruct I|].
  rewrite window_snoc in I. destruct o as [g' sels| |n]; cbn [window_step] in I.
  - destruct (eqb (gname g') nm && eqb (getLabelKeys sels (glabels g')) key) eqn:E.
    + apply in_app_or in I. destruct I as [I|[I|[]]].
      * destruct (IH _ I) as (s' & A & B & C). exists s'. split; [apply in_or_app; auto|auto].
      * subst g'. apply andb_true_iff in E. destruct E as [E1 E2]. exists sels.
        split; [apply in_or_app; right; left; reflexivity|]. split; apply eqb_true; assumption.
    + destruct (IH _ I) as (s' & A & B & C). exists s'. split; [apply in_or_app; auto|auto].
  - destruct I.
  - destruct (eqb n nm); [destruct I|]. destruct (IH _ I) as (s' & A & B & C). exists s'. split; [apply in_or_app; auto|auto].
Qed.

Lemma getAll_vout km out names ds m ms :
  counter_output km out -> vals_are (kindsDefault km) names ds (vals m) -> getAll m = Ok ms ->
  zsum (map (fun p => if eqb (fst p) out then match snd p with MInt v => v | _ => 0 end else 0) ms) = vout out m.
Proof.
  intros CO (ND & K & S) G. unfold getAll in G. destruct (mapM _ (vals m)) as [ls| |] eqn:M; cbn [bind] in G; try discriminate.
  inversion G; subst ms; clear G. apply mapM_ok in M. unfold vout.
  assert (S' : forall p, In p (vals m) -> exists cs, kindsDefault km (fst p) = Some cs /\ snd p = sliceOf cs (ds (fst p))).
  { intros [x sl] I. cbn [fst snd]. apply S. apply in_aget; assumption. }
  clear K S ND. revert ls M. generalize (vals m) S'. clear S'.
  induction l as [|[x sl] l IH]; intros S' ls M; inversion M as [|? b ? ls' E F]; subst; [reflexivity|].
  cbn [List.concat map]. rewrite map_app, zsum_app, zsum_cons. f_equal.
  - destruct (S' (x, sl) (or_introl eq_refl)) as (cs & KF & SL). cbn [fst snd] in *. subst sl. unfold voutP. cbn [snd].
    apply mapM_ok in E. unfold sliceOf in *. unfold slVal. unfold kindsDefault in KF.
    assert (CK : forall c, In c cs -> c_out c = out -> c_kind c = SumKind \/ c_kind c = CountKind) by (intros c I; exact (CO _ _ _ KF I)).
    clear -E CK. revert b E. generalize (ds x). intros dd. clear ds.
    induction cs as [|c cs IH]; intros b E; cbn [map] in E; inversion E as [|? d ? b' X Y]; subst; [reflexivity|].
    cbn [map a_name a_core] in *. rewrite !zsum_cons. f_equal.
    + destruct (getCore (coreOf c dd)) as [v| |] eqn:V; cbn [bind] in X; try discriminate.
      inversion X; subst d. cbn [fst snd]. case_eqb (c_out c) out; [|reflexivity].
      unfold coreOf in *. destruct (CK c (or_introl eq_refl)) as [k|k]; [assumption| |]; rewrite k in *; cbn [getCore] in V; inversion V; reflexivity.
    + apply IH; [|assumption]. intros c' I. apply CK. right. exact I.
  - apply IH; [|assumption]. intros p I. apply S'. right. exact I.
Qed.

Lemma dumpRecorder_exported km out nm0 nm L r gs :
  counter_output km out ->
  (forall key m, In (key, m) r -> exists ws, series_is (kindsDefault km) ws m) ->
  dumpRecorder nm0 r = Ok gs ->
  exportedIn nm L out gs = if eqb nm0 nm then pend L out r else 0.
Proof.
  intros CO SI E. unfold dumpRecorder in E. apply mapM_ok in E. unfold exportedIn, pend.
  revert gs E. induction r as [|[key m] r IH]; intros gs E; inversion E as [|? g ? gs' X Y]; subst.
  - destruct (eqb nm0 nm); reflexivity.
  - cbn [map]. rewrite zsum_cons. rewrite IH; [|intros k m' I; apply (SI k m'); right; exact I|assumption].
    cbn [fst snd] in X. destruct (getAll m) as [ms| |] eqn:G; cbn [bind] in X; try discriminate. inversion X; subst g.
    cbn [gname glabels gmetrics]. destruct (SI key m (or_introl eq_refl)) as (ws & g0 & rr & -> & V).
    rewrite (getAll_vout km out _ _ _ _ CO V G). destruct (eqb nm0 nm); cbn [andb]; [|reflexivity].
    rewrite zsum_cons. unfold pendP at 2. cbn [fst snd]. reflexivity.
Qed.

Lemma exportedIn_concat nm L out ls : exportedIn nm L out (List.concat ls) = zsum (map (exportedIn nm L out) ls).
Proof.
  induction ls as [|l ls IH]; [reflexivity|]. cbn [List.concat map]. rewrite zsum_cons, <- IH.
  unfold exportedIn. rewrite map_app, zsum_app. reflexivity.
Qed.

Lemma dump_exported km out nm L s ls :
  counter_output km out -> NoDup (keys s) ->
  (forall n r, In (n, r) s -> forall key m, In (key, m) r -> exists ws, series_is (kindsDefault km) ws m) ->
  mapM (fun p => dumpRecorder (fst p) (snd p)) s = Ok ls ->
  exportedIn nm L out (List.concat ls) = pend L out (recOf s nm).
Proof.
  intros CO ND SI E. rewrite exportedIn_concat. apply mapM_ok in E.
  induction E as [|[n r] gs s' ls' X Y IH]; [reflexivity|].
  cbn [map]. rewrite zsum_cons. cbn [fst snd] in X.
  rewrite (dumpRecorder_exported km out n nm L r gs CO (SI n r (or_introl eq_refl)) X).
  cbn [keys map fst] in ND. inversion ND as [|? ? NI ND']; subst.
  rewrite IH; [|assumption|intros n' r' I; apply (SI n' r'); right; exact I].
  unfold recOf. cbn [aget]. rewrite (eqb_sym n nm). case_eqb nm n; [|reflexivity].
  subst n. apply aget_none_notin in NI. replace (aget s' nm) with (@None recorder) by (symmetry; exact NI). cbn. lia.
Qed.

Lemma series_pairs km h s : state_is km h s ->
  forall n r, In (n, r) s -> forall key m, In (key, m) r -> exists ws, series_is (kindsDefault km) ws m.
Proof.
  intros (ND & NDr & W) n r I key m J. exists (window n key h). specialize (W n key). specialize (NDr n).
  unfold recOf in *. rewrite (in_aget _ _ _ ND I) in *. rewrite (in_aget _ _ _ NDr J) in W. exact W.
Qed.

Lemma fed_snoc km nm L out h o : fed km nm L out (h ++ [o]) =
  fed km nm L out h + match o with
                      | OAgg g sels => if eqb (gname g) nm && eqb (getLabels (getLabelKeys sels (glabels g))) L
                                       then contribution km out g else 0
                      | _ => 0
                      end.
Proof. unfold fed. rewrite map_app, zsum_app. cbn [map]. rewrite zsum_cons. cbn [zsum fold_right]. lia. Qed.
Lemma exported_snoc nm L out es e : exported nm L out (es ++ [e]) = exported nm L out es + exportedIn nm L out e.
Proof. unfold exported. rewrite map_app, zsum_app. cbn [map]. rewrite zsum_cons. cbn [zsum fold_right]. lia. Qed.

Lemma step_conserves km out nm L full h s o es s' :
  counter_output km out -> uniform full -> (forall x, In x (h ++ [o]) -> In x full) ->
  (forall g sels, In (OAgg g sels) full -> readings_ok km g) ->
  state_is km h s -> agg_step km s o = Ok (es, s') ->
  eqm (exportedIn nm L out es + pend L out (recOf s' nm))
      (pend L out (recOf s nm) + (fed km nm L out (h ++ [o]) - fed km nm L out h)).
Proof.
  intros CO U IN RO SI ST. rewrite fed_snoc.
  match goal with |- eqm _ (_ + (?f + ?x - ?f)) => replace (f + x - f) with x by lia end.
  pose proof SI as (NDs & NDr & W).
  destruct o as [g sels| |n]; cbn [agg_step] in ST.
  - unfold aggregate in ST. set (key := getLabelKeys sels (glabels g)) in *.
    destruct (record _ (recOf s (gname g)) key _ _ _) as [r'| |] eqn:R; cbn [bind] in ST; try discriminate.
    inversion ST; subst es s'; clear ST. cbn [exportedIn map zsum fold_right]. rewrite Z.add_0_l, recOf_aset, (eqb_sym (gname g) nm).
    case_eqb nm (gname g); cbn [andb]; [|rewrite Z.add_0_r; apply eqm_refl]. subst nm.
    assert (OKg : kok (kindsDefault km) (gmetrics g)).
    { intros m d cs c I F J. eapply RO; [apply IN; apply in_or_app; right; left; reflexivity|exact I|exact F|exact J]. }
    unfold record in R. specialize (W (gname g) key). unfold pend.
    destruct (aget (recOf s (gname g)) key) as [m0|] eqn:G.
    + destruct W as (g0 & rr & WE & V).
      destruct (foldM _ _ m0) as [m'| |] eqn:F; cbn [bind] in R; try discriminate. inversion R; subst r'; clear R.
      rewrite (zsum_aset_some _ _ _ _ _ G). unfold pendP at 2 3. cbn [fst snd].
      assert (C : eqm (vout out m') (vout out m0 + contribution km out g)).
      { rewrite contribution_eq. eapply fold_vout; [exact V| |exact OKg|exact F].
        intros p J. apply in_map with (f := fst) in J. fold (mnames g) in J.
        destruct (window_in (gname g) key h g0) as (s0 & A & B & D); [rewrite WE; left; reflexivity|].
        refine (proj1 (U g sels g0 s0 _ _ _ _ (fst p)) J).
        - apply IN. apply in_or_app. right. left. reflexivity.
        - apply IN. apply in_or_app. left. exact A.
        - auto.
        - rewrite D. reflexivity. }
      case_eqb (getLabels key) L.
      * match goal with |- eqm (?a - ?b + ?c) (?a + ?e) => replace (a + e) with (a - b + (b + e)) by lia end.
        apply eqm_add; [apply eqm_refl|exact C].
      * match goal with |- eqm ?a ?b => replace a with b by lia end. apply eqm_refl.
    + destruct (foldM _ _ _) as [m'| |] eqn:F; cbn [bind] in R; try discriminate. inversion R; subst r'; clear R.
      rewrite (zsum_aset_none _ _ _ _ G). apply eqm_add; [apply eqm_refl|]. unfold pendP. cbn [fst snd].
      destruct (eqb (getLabels key) L); [|apply eqm_refl].
      rewrite contribution_eq. rewrite <- (Z.add_0_l (zsum _)). rewrite <- (vout_new km out (gmetrics g)).
      eapply fold_vout; [apply newValues_are| |exact OKg|exact F].
      intros p J. apply in_map. exact J.
  - unfold dump in ST. destruct (mapM _ s) as [ls| |] eqn:M; cbn [bind] in ST; try discriminate. inversion ST; subst es s'.
    rewrite recOf_reset. rewrite (dump_exported km out nm L s ls CO NDs (series_pairs km h s SI) M).
    cbn [pend map zsum fold_right]. apply eqm_refl.
  - unfold dumpSingle in ST. destruct (aget s n) as [r|] eqn:G.
    + destruct (dumpRecorder n r) as [gs| |] eqn:D; cbn [bind] in ST; try discriminate. inversion ST; subst es s'.
      rewrite (dumpRecorder_exported km out n nm L r gs CO) with (2 := D).
      * rewrite recOf_aset, (eqb_sym n nm). case_eqb nm n.
        -- subst n. unfold recOf. rewrite G. cbn [pend map zsum fold_right]. apply eqm_refl.
        -- rewrite Z.add_0_l, Z.add_0_r. apply eqm_refl.
      * apply (series_pairs km h s SI n r). apply aget_in. exact G.
    + inversion ST; subst. cbn [exportedIn map zsum fold_right]. rewrite Z.add_0_l, Z.add_0_r. apply eqm_refl.
Qed.

Lemma run_conserves km out nm L full : forall os h s es s',
  counter_output km out -> uniform full -> (forall x, In x (h ++ os) -> In x full) ->
  (forall g sels, In (OAgg g sels) full -> readings_ok km g) ->
  state_is km h s -> agg_run km s os = Ok (es, s') ->
  eqm (exported nm L out es + pend L out (recOf s' nm))
      (pend L out (recOf s nm) + (fed km nm L out (h ++ os) - fed km nm L out h)).
Proof.
  induction os as [|o os IH]; intros h s es s' CO U IN RO SI R; cbn [agg_run] in R.
  - inversion R; subst. rewrite app_nil_r. cbn [exported map zsum fold_right].
    match goal with |- eqm ?a ?b => replace a with b by lia end. apply eqm_refl.
  - destruct (agg_step km s o) as [[e1 s1]| |] eqn:S1; cbn [bind fst snd] in R; try discriminate.
    destruct (agg_run km s1 os) as [[e2 s2]| |] eqn:R2; cbn [bind fst snd] in R; try discriminate.
    inversion R; subst es s2; clear R.
    assert (IN1 : forall x, In x (h ++ [o]) -> In x full).
    { intros x I. apply IN. apply in_app_or in I. apply in_or_app. destruct I as [I|[I|[]]]; [left; exact I|right; left; exact I]. }
    assert (E : h ++ o :: os = (h ++ [o]) ++ os) by (rewrite <- app_assoc; reflexivity).
    pose proof (step_conserves km out nm L full h s o e1 s1 CO U IN1 RO SI S1) as C1.
    assert (SI1 : state_is km (h ++ [o]) s1).
    { eapply agg_step_state; [exact SI| |exact S1]. intros g sels ->. apply (RO g sels). apply IN1. apply in_or_app. right. left. reflexivity. }
    assert (C2 := IH (h ++ [o]) s1 e2 s' CO U ltac:(rewrite <- E; exact IN) RO SI1 R2).
    rewrite <- E in C2. unfold exported in *. cbn [map]. rewrite zsum_cons.
    destruct (eqm_ex _ _ C1) as (k1 & D1). destruct (eqm_ex _ _ C2) as (k2 & D2). apply (eqm_of (k1 + k2)). lia.
Qed.

(** ** No panic on integer readings *)

Lemma readings_int ws m : (forall g, In g ws -> int_group g) -> countOf (readings ws m) = Z.of_nat (List.length (readings ws m)).
Proof.
  intros H. assert (A : forall d, In d (readings ws m) -> exists x, d = MInt x).
  { intros d I. unfold readings in I. apply in_flat_map in I. destruct I as (g & I & J). apply in_map_iff in J.
    destruct J as ([n d'] & E & J). cbn [snd] in E. subst d'. apply filter_In in J. destruct J as [J _]. exact (H g I n d J). }
  revert A. generalize (readings ws m). induction l as [|d l IH]; intros A; [reflexivity|].
  unfold countOf in *. cbn [map List.length]. rewrite zsum_cons, IH by (intros x I; apply A; right; exact I).
  destruct (A d (or_introl eq_refl)) as (x & ->). lia.
Qed.

Lemma int_ok km g : int_group g -> readings_ok km g.
Proof. intros I m d cs c J _ _. destruct (I _ _ J) as (x & ->). exact Logic.I. Qed.

Definition size (ws : list group) : Z := zsum (map (fun g => Z.of_nat (List.length (gmetrics g))) ws).
Lemma size_nonneg ws : 0 <= size ws.
Proof. unfold size. induction ws as [|g ws IH]; [cbn; lia|]. cbn [map]. rewrite zsum_cons. lia. Qed.
Lemma readings_le ws m : Z.of_nat (List.length (readings ws m)) <= size ws.
Proof.
  induction ws as [|g ws IH]; [cbn; lia|]. unfold readings, size in *. cbn [flat_map map]. rewrite zsum_cons, app_length, map_length.
  assert (List.length (filter (fun p => eqb (fst p) m) (gmetrics g)) <= List.length (gmetrics g))%nat.
  { generalize (gmetrics g). induction l as [|p l IHl]; [cbn; lia|]. cbn [filter]. destruct (eqb (fst p) m); cbn [List.length]; lia. }
  lia.
Qed.
Lemma volume_nonneg h : 0 <= volume h.
Proof. unfold volume. induction h as [|o h IH]; [cbn; lia|]. cbn [map]. rewrite zsum_cons. destruct o; lia. Qed.
Lemma volume_app a b : volume (a ++ b) = volume a + volume b.
Proof. unfold volume. rewrite map_app, zsum_app. reflexivity. Qed.
Lemma window_size nm key h : size (window nm key h) <= volume h.
Proof.
  induction h as [|o h IH] using rev_ind; [cbn; lia|]. rewrite window_snoc, volume_app.
  pose proof (volume_nonneg h). destruct o as [g sels| |n]; cbn [window_step].
  - unfold volume at 2. cbn [map]. rewrite zsum_cons. cbn [zsum fold_right].
    destruct (eqb (gname g) nm && eqb (getLabelKeys sels (glabels g)) key); [|lia].
    unfold size in *. rewrite map_app, zsum_app. cbn [map]. rewrite zsum_cons. cbn [zsum fold_right]. lia.
  - change (volume [ODump]) with 0. cbn. lia.
  - change (volume [ODumpSingle n]) with 0. destruct (eqb n nm); [cbn; lia|lia].
Qed.

Lemma getAll_total kf ws m : series_is kf ws m ->
  (forall x, readings ws x <> [] -> s64 (countOf (readings ws x)) <> 0) -> exists ms, getAll m = Ok ms.
Proof.
  intros (g0 & r & -> & ND & K & S) N. unfold getAll.
  assert (H : forall p, In p (vals m) -> exists l, mapM (fun a => bind (getCore (a_core a)) (fun d => Ok (a_name a, d))) (snd p) = Ok l).
  { intros [x sl] I. cbn [snd]. pose proof (in_aget _ _ _ ND I) as G. destruct (S _ _ G) as (cs & KF & ->).
    eexists. unfold sliceOf. rewrite mapM_map. apply mapM_total with (g := fun c => (c_out c, expected c (readings (g0 :: r) x))).
    intros c _. cbn [a_core a_name]. rewrite getCore_total; [reflexivity|]. apply N.
    assert (J : In x (mnames g0)) by (apply K; eapply aget_some_in_keys; exact G).
    unfold readings. cbn [flat_map]. apply in_map_iff in J. destruct J as ([x' d] & E & J). cbn [fst] in E. subst x'.
    assert (A : In d (map snd (filter (fun p => eqb (fst p) x) (gmetrics g0)))).
    { apply in_map_iff. exists (x, d). split; [reflexivity|]. apply filter_In. split; [exact J|]. apply eqb_refl. }
    destruct (map snd (filter (fun p => eqb (fst p) x) (gmetrics g0))); [destruct A|discriminate]. }
  assert (G : exists ls, mapM (fun p => mapM (fun a => bind (getCore (a_core a)) (fun d => Ok (a_name a, d))) (snd p)) (vals m) = Ok ls).
  { clear -H. induction (vals m) as [|p l IH]; [eexists; reflexivity|]. cbn [mapM].
    destruct (H p (or_introl eq_refl)) as (l1 & ->). destruct IH as (l2 & ->); [intros q I; apply H; right; exact I|].
    eexists. reflexivity. }
  destruct G as (ls & ->). eexists. reflexivity.
Qed.

Lemma mapM_ex {A B} (f : A -> res B) l : (forall a, In a l -> exists b, f a = Ok b) -> exists r, mapM f l = Ok r.
Proof.
  induction l as [|a l IH]; intros H; [eexists; reflexivity|]. cbn [mapM].
  destruct (H a (or_introl eq_refl)) as (b & ->). destruct IH as (r & ->); [intros x I; apply H; right; exact I|].
  eexists. reflexivity.
Qed.

Lemma dumpRecorder_total kf nm r (win : list lkey -> list group) :
  (forall key m, In (key, m) r -> series_is kf (win key) m) ->
  (forall key x, readings (win key) x <> [] -> s64 (countOf (readings (win key) x)) <> 0) ->
  exists gs, dumpRecorder nm r = Ok gs.
Proof.
  intros SI N. unfold dumpRecorder. apply mapM_ex. intros [key m] I. cbn [fst snd].
  destruct (getAll_total kf (win key) m (SI _ _ I) (N key)) as (ms & ->). eexists. reflexivity.
Qed.

Lemma agg_step_total km h s o :
  state_is km h s ->
  (forall g sels, In (OAgg g sels) (h ++ [o]) -> int_group g) -> volume h < 2 ^ 63 ->
  exists es s', agg_step km s o = Ok (es, s').
Proof.
  intros SI IG VOL.
  assert (N : forall nm key x, readings (window nm key h) x <> [] -> s64 (countOf (readings (window nm key h) x)) <> 0).
  { intros nm key x NE. rewrite readings_int.
    - pose proof (readings_le (window nm key h) x). pose proof (window_size nm key h).
      destruct (readings (window nm key h) x) as [|d l]; [congruence|]. cbn [List.length] in *.
      unfold s64. rewrite Z.mod_small by lia. lia.
    - intros g I. apply window_in in I. destruct I as (sels & I & _). apply (IG g sels). apply in_or_app. left. exact I. }
  pose proof SI as (NDs & NDr & W).
  assert (P : forall n r, In (n, r) s -> exists gs, dumpRecorder n r = Ok gs).
  { intros n r I. apply dumpRecorder_total with (kf := kindsDefault km) (win := fun key => window n key h).
    - intros key m J. specialize (W n key). specialize (NDr n). unfold recOf in *. rewrite (in_aget _ _ _ NDs I) in *.
      rewrite (in_aget _ _ _ NDr J) in W. exact W.
    - intros key. apply N. }
  destruct o as [g sels| |n]; cbn [agg_step].
  - unfold aggregate.
    destruct (record_series (kindsDefault km) (recOf s (gname g)) (getLabelKeys sels (glabels g)) g (gts g) 0
               (window (gname g) (getLabelKeys sels (glabels g)) h)) as (m & r' & E & _).
    + intros x d cs c I F J. apply (int_ok km g) with (m := x) (cs := cs); try assumption.
      apply (IG g sels). apply in_or_app. right. left. reflexivity.
    + intros X. specialize (W (gname g) (getLabelKeys sels (glabels g))).
      destruct (aget _ _) as [m|]; [|reflexivity]. apply series_nonempty in W. contradiction.
    + intros m G. specialize (W (gname g) (getLabelKeys sels (glabels g))). rewrite G in W. exact W.
    + intros X G. specialize (W (gname g) (getLabelKeys sels (glabels g))). rewrite G in W. contradiction.
    + rewrite E. cbn [bind]. eauto.
  - unfold dump. destruct (mapM_ex (fun p => dumpRecorder (fst p) (snd p)) s) as (ls & ->).
    + intros [n r] I. exact (P n r I).
    + cbn [bind]. eauto.
  - unfold dumpSingle. destruct (aget s n) as [r|] eqn:G; [|eauto].
    destruct (P n r (aget_in _ _ _ G)) as (gs & ->). cbn [bind]. eauto.
Qed.

Lemma agg_run_total km : forall os h s,
  state_is km h s ->
  (forall g sels, In (OAgg g sels) (h ++ os) -> int_group g) -> volume (h ++ os) < 2 ^ 63 ->
  exists es s', agg_run km s os = Ok (es, s').
Proof.
  induction os as [|o os IH]; intros h s SI IG VOL; cbn [agg_run]; [eauto|].
  assert (E : h ++ o :: os = (h ++ [o]) ++ os) by (rewrite <- app_assoc; reflexivity). rewrite E in *.
  destruct (agg_step_total km h s o SI) as (e1 & s1 & S1).
  - intros g sels I. apply (IG g sels). apply in_or_app. left. exact I.
  - rewrite !volume_app in VOL. pose proof (volume_nonneg os). pose proof (volume_nonneg [o]). lia.
  - rewrite S1. cbn [bind snd fst]. destruct (IH (h ++ [o]) s1) as (e2 & s2 & ->).
    + eapply agg_step_state; [exact SI| |exact S1]. intros g sels ->. apply int_ok. apply (IG g sels).
      apply in_or_app. left. apply in_or_app. right. left. reflexivity.
    + exact IG.
    + exact VOL.
    + cbn [bind fst snd]. eauto.
Qed.

(** ** Cumulative aggregator *)
Lemma aget_filter {K V} `{Eqb K} (f : K * V -> bool) (l : list (K * V)) k : NoDup (keys l) ->
  aget (filter f l) k = match aget l k with Some v => if f (k, v) then Some v else None | None => None end.
Proof.
  induction l as [|[k' v] l IH]; intros ND; [reflexivity|]. cbn [keys map fst] in ND. inversion ND as [|? ? NI ND']; subst.
  cbn [filter aget]. case_eqb k k'.
  - subst k'. destruct (f (k, v)) eqn:F.
    + cbn [aget]. rewrite eqb_refl. reflexivity.
    + rewrite IH by assumption. apply aget_none_notin in NI. replace (aget l k) with (@None V) by (symmetry; exact NI). reflexivity.
  - destruct (f (k', v)); [cbn [aget]; rewrite (proj2 (eqb_neq k k')) by assumption|]; apply IH; assumption.
Qed.
Lemma NoDup_keys_filter {K V} (f : K * V -> bool) (l : list (K * V)) : NoDup (keys l) -> NoDup (keys (filter f l)).
Proof.
  induction l as [|[k v] l IH]; intros ND; [constructor|]. cbn [keys map fst] in ND. inversion ND as [|? ? NI ND']; subst.
  cbn [filter]. destruct (f (k, v)); [|apply IH; assumption]. cbn [keys map fst]. constructor; [|apply IH; assumption].
  intros I. apply NI. apply in_map_iff in I. destruct I as (p & E & I). apply filter_In in I. destruct I as [I _].
  apply in_map_iff. exists p. auto.
Qed.

Definition cstate_is (km : kindMap) (e : Z) (h : list cum_op) (s : agg_state) : Prop :=
  NoDup (keys s) /\ (forall nm, NoDup (keys (recOf s nm))) /\
  (forall nm key, match aget (recOf s nm) key with
                  | None => cwindow e nm key h = None
                  | Some m => exists ws g, cwindow e nm key h = Some (ws ++ [g], vupd m) /\ series_is (kindsCumulative km) (ws ++ [g]) m /\
                                           vts m = gts g
                  end).

Lemma cwindow_snoc e nm key h o : cwindow e nm key (h ++ [o]) = cwindow_step e nm key (cwindow e nm key h) o.
Proof. unfold cwindow. rewrite fold_left_app. reflexivity. Qed.

Lemma cwindow_in e nm key : forall h ws t g, cwindow e nm key h = Some (ws, t) -> In g ws ->
  exists now, In (CRec g now) h /\ gname g = nm /\ getLabelsKeys (glabels g) = Ok key.
Proof.
  induction h as [|o h IH] using rev_ind; intros ws t g E I; [discriminate|].
  rewrite cwindow_snoc in E.
  assert (IH' : forall ws t, cwindow e nm key h = Some (ws, t) -> In g ws ->
     exists now, In (CRec g now) (h ++ [o]) /\ gname g = nm /\ getLabelsKeys (glabels g) = Ok key).
  { intros ws' t' E' I'. destruct (IH _ _ _ E' I') as (now & A & B & C). exists now. split; [apply in_or_app; auto|auto]. }
  destruct o as [g' now|now]; cbn [cwindow_step] in E.
  - destruct (eqb (gname g') nm && _) eqn:M.
    + assert (M' : gname g' = nm /\ getLabelsKeys (glabels g') = Ok key).
      { apply andb_true_iff in M. destruct M as [M1 M2]. destruct (getLabelsKeys (glabels g')) as [k| |]; try discriminate.
        apply eqb_true in M1. apply eqb_true in M2. subst k. auto. }
      destruct (cwindow e nm key h) as [[ws0 t0]|] eqn:C; inversion E; subst.
      * apply in_app_or in I. destruct I as [I|[I|[]]]; [exact (IH' _ _ eq_refl I)|].
        subst g'. exists t. split; [apply in_or_app; right; left; reflexivity|exact M'].
      * destruct I as [I|[]]. subst g'. exists t. split; [apply in_or_app; right; left; reflexivity|exact M'].
    + eauto.
  - destruct (cwindow e nm key h) as [[ws0 t0]|] eqn:C; [|discriminate].
    destruct (t0 <? now - e); [discriminate|]. inversion E; subst. eauto.
Qed.

Lemma aget_mapv {K V W} `{Eqb K} (f : V -> W) (l : list (K * V)) k :
  aget (map (fun p => (fst p, f (snd p))) l) k = option_map f (aget l k).
Proof. induction l as [|[k' v] l IH]; [reflexivity|]. cbn [map aget fst snd]. destruct (eqb k k'); [reflexivity|exact IH]. Qed.

Lemma cum_step_state km e full h s o es s' :
  cuniform full -> (forall x, In x (h ++ [o]) -> In x full) ->
  (forall g now, In (CRec g now) full -> creadings_ok km g) ->
  cstate_is km e h s -> cum_step km e s o = Ok (es, s') -> cstate_is km e (h ++ [o]) s'.
Proof.
  intros (NE & U) IN RO (NDs & NDr & W) ST. destruct o as [g now|now]; cbn [cum_step] in ST.
  - unfold cum_aggregate in ST. destruct (getLabelsKeys (glabels g)) as [key| |] eqn:KEY; cbn [bind] in ST; try discriminate.
    assert (ING : In (CRec g now) full) by (apply IN; apply in_or_app; right; left; reflexivity).
    set (ws := match cwindow e (gname g) key h with Some (ws, _) => ws | None => [] end).
    pose proof (W (gname g) key) as Wk.
    destruct (record_series (kindsCumulative km) (recOf s (gname g)) key g (gts g) now ws) as (m & r' & E & -> & SI & T).
    + intros x d cs c I F J. exact (RO g now ING x d cs c I F J).
    + intros X. unfold ws in X. destruct (aget _ _) as [m|]; [|reflexivity].
      destruct Wk as (ws' & gl & C & SI & _). rewrite C in X. rewrite X in SI. apply series_nonempty in SI. contradiction.
    + intros m G. rewrite G in Wk. destruct Wk as (ws' & gl & C & SI & _). unfold ws. rewrite C. exact SI.
    + intros X G. rewrite G in Wk. unfold ws in X. rewrite Wk in X. contradiction.
    + rewrite E in ST. cbn [bind] in ST. inversion ST; subst es s'; clear ST.
      assert (UPD : vupd m = now /\ vts m = gts g).
      { destruct (gmetrics g) as [|p ms] eqn:GM; [exfalso; apply (NE g now ING); exact GM|].
        destruct (aget (recOf s (gname g)) key) as [m0|] eqn:G.
        - destruct Wk as (ws' & gl & C & (g0 & rr & WE & V) & _). rewrite WE in *.
          assert (H : ahas (vals m0) (fst p) = true).
          { apply (keys_of_vals _ _ _ _ _ V). split.
            - destruct (cwindow_in e (gname g) key h (g0 :: rr) (vupd m0) g0 C (or_introl eq_refl)) as (n0 & A & B & D).
              apply (U g now g0 n0 ING); [apply IN; apply in_or_app; left; exact A|auto|congruence|].
              unfold mnames. rewrite GM. left. reflexivity.
            - unfold kindsCumulative. destruct (aget km (fst p)); discriminate. }
          cbn [existsb] in T. rewrite H in T. inversion T. split; reflexivity.
        - cbn [existsb] in T. unfold kindsCumulative in T at 1. destruct (aget km (fst p)); inversion T; split; reflexivity. }
      destruct UPD as [UPD UTS].
      split; [apply NoDup_keys_aset; exact NDs|]. split.
      * intros nm. rewrite recOf_aset. destruct (eqb nm (gname g)); [apply NoDup_keys_aset|]; apply NDr.
      * intros nm k. rewrite recOf_aset, cwindow_snoc. cbn [cwindow_step]. rewrite KEY, (eqb_sym (gname g) nm).
        case_eqb nm (gname g); cbn [andb]; [|apply W]. subst nm.
        rewrite aget_aset, (eqb_sym key k). case_eqb k key; [|apply W]. subst k.
        exists ws, g. split; [|split; [exact SI|exact UTS]]. rewrite UPD. unfold ws.
        destruct (cwindow e (gname g) key h) as [[w' t]|]; reflexivity.
  - unfold cum_dump in ST. destruct (mapM _ s) as [ls| |]; cbn [bind] in ST; try discriminate. inversion ST; subst es s'; clear ST.
    assert (RE : forall nm, recOf (map (fun p => (fst p, removeExpired (now - e) (snd p))) s) nm = removeExpired (now - e) (recOf s nm)).
    { intros nm. unfold recOf. rewrite (aget_mapv (removeExpired (now - e))). destruct (aget s nm); reflexivity. }
    split; [unfold keys in *; rewrite map_map; exact NDs|]. split.
    + intros nm. rewrite RE. apply NoDup_keys_filter. apply NDr.
    + intros nm key. rewrite RE, cwindow_snoc. unfold removeExpired. rewrite aget_filter by apply NDr.
      specialize (W nm key). destruct (aget (recOf s nm) key) as [m|]; cbn [cwindow_step].
      * destruct W as (ws & gl & -> & SI). cbn [snd]. destruct (vupd m <? now - e); cbn [negb]; [reflexivity|].
        exists ws, gl. auto.
      * rewrite W. reflexivity.
Qed.

Lemma cum_run_state km e full : cuniform full ->
  (forall g now, In (CRec g now) full -> creadings_ok km g) ->
  forall os h s es s', (forall x, In x (h ++ os) -> In x full) ->
  cstate_is km e h s -> cum_run km e s os = Ok (es, s') -> cstate_is km e (h ++ os) s'.
Proof.
  intros U RO. induction os as [|o os IH]; intros h s es s' IN SI R; cbn [cum_run] in R.
  - inversion R; subst. rewrite app_nil_r. exact SI.
  - destruct (cum_step km e s o) as [[e1 s1]| |] eqn:S1; cbn [bind fst snd] in R; try discriminate.
    destruct (cum_run km e s1 os) as [[e2 s2]| |] eqn:R2; cbn [bind fst snd] in R; try discriminate.
    inversion R; subst es s2; clear R.
    assert (E : h ++ o :: os = (h ++ [o]) ++ os) by (rewrite <- app_assoc; reflexivity). rewrite E in *.
    eapply IH; [exact IN| |exact R2]. eapply cum_step_state; [exact U| |exact RO|exact SI|exact S1].
    intros x I. apply IN. apply in_or_app. left. exact I.
Qed.

Lemma cstate_is_nil km e : cstate_is km e [] [].
Proof. split; [constructor|]. split; [intros; constructor|]. intros nm key. reflexivity. Qed.

Lemma cum_run_app km e : forall a b s, cum_run km e s (a ++ b) =
  bind (cum_run km e s a) (fun r => bind (cum_run km e (snd r) b) (fun r' => Ok (fst r ++ fst r', snd r'))).
Proof.
  induction a as [|o a IH]; intros b s; cbn [app cum_run].
  - cbn [bind fst snd app]. destruct (cum_run km e s b) as [[]| |]; reflexivity.
  - destruct (cum_step km e s o) as [[e1 s1]| |]; cbn [bind fst snd]; try reflexivity.
    rewrite IH. destruct (cum_run km e s1 a) as [[e2 s2]| |]; cbn [bind fst snd]; try reflexivity.
    destruct (cum_run km e s2 b) as [[e3 s3]| |]; reflexivity.
Qed.
