(** C61: what a Prometheus scrape shows. *)
From Verif Require Import Base Decimal AttrModel PoolModel KeyModel KeyProps AggModel AggSpec AggProofs AggProofs2 AggProps PromModel PromSpec PromProps.
Open Scope string_scope. Open Scope list_scope. Open Scope Z_scope.

Lemma bucketMap_get : forall bounds counts acc bk x, bucketMap bounds counts acc = Ok bk ->
  ((forall b, In b bounds -> f64 b <> x) -> aget bk x = aget acc x) /\
  (forall i b c, nth_error bounds i = Some b -> nth_error counts i = Some c -> f64 b = x ->
     (forall j b', nth_error bounds j = Some b' -> f64 b' = x -> j = i) -> aget bk x = Some c).
Proof.
  induction bounds as [|b0 bounds IH]; intros counts acc bk x E; cbn [bucketMap] in E.
  - inversion E; subst. split; [reflexivity|]. intros [|i] b c H; discriminate.
  - destruct counts as [|c0 counts]; [discriminate|]. destruct (IH _ _ _ x E) as [A B]. split.
    + intros N. rewrite A by (intros b I; apply N; right; exact I). apply aget_aset_other. intros X. apply (N b0 (or_introl eq_refl)). congruence.
    + intros [|i] b c HB HC F U; cbn [nth_error] in HB, HC.
      * inversion HB; inversion HC; subst b0 c0. rewrite A; [rewrite F; apply aget_aset_same|].
        intros b' I X. apply In_nth_error in I. destruct I as (j & I). specialize (U (Datatypes.S j) b' I X). discriminate.
      * apply (B i b c HB HC F). intros j b' HJ X. specialize (U (Datatypes.S j) b' HJ X). congruence.
Qed.
Lemma bucketMap_keys : forall bounds counts acc bk x, bucketMap bounds counts acc = Ok bk ->
  aget bk x <> None -> aget acc x <> None \/ exists b, In b bounds /\ f64 b = x.
Proof.
  induction bounds as [|b0 bounds IH]; intros counts acc bk x E; cbn [bucketMap] in E; [inversion E; auto|].
  destruct counts as [|c0 counts]; [discriminate|]. intros H. destruct (IH _ _ _ x E H) as [G|(b & I & G)].
  - destruct (Z.eq_dec (f64 b0) x) as [X|X]; [right; exists b0; split; [left; reflexivity|exact X]|].
    left. rewrite aget_aset_other in G by congruence. exact G.
  - right. exists b. split; [right; exact I|exact G].
Qed.
Lemma bucketMap_total : forall bounds counts acc, List.length bounds = List.length counts -> exists bk, bucketMap bounds counts acc = Ok bk.
Proof.
  induction bounds as [|b bounds IH]; intros [|c counts] acc L; cbn [bucketMap List.length] in *; try discriminate; [eauto|].
  apply IH. congruence.
Qed.

Section Scrape.
Variables uLetter uDigit : Z -> bool.
Variable runes : string -> list Z.
Variable validText : bytes -> bool.
Local Notation collectMetric := (collectMetric uLetter uDigit runes validText).
Local Notation collectGroup := (collectGroup uLetter uDigit runes validText).
Local Notation collect := (collect uLetter uDigit runes validText).
Local Notation prom_run := (prom_run uLetter uDigit runes validText).
Local Notation shownMetric := (shownMetric uLetter uDigit runes validText).
Local Notation shownSeries := (shownSeries uLetter uDigit runes validText).

Lemma collectMetric_shown L t m piece : collectMetric L t m = Ok piece -> shownMetric L t m piece.
Proof.
  unfold PromModel.collectMetric, PromSpec.shownMetric. destruct (snd m) as [v|sum count bounds counts] eqn:D.
  - destruct (sanitize uLetter uDigit true (runes (fst m))) as [n| |]; cbn [bind]; try discriminate. intros E. inversion E; subst. exists n.
    split; [reflexivity|]. unfold accepted. destruct (validMetricName n && _); [|reflexivity]. eexists. split; [reflexivity|reflexivity].
  - destruct (bucketMap bounds counts []) as [bk| |] eqn:B; cbn [bind]; try discriminate.
    destruct (sanitize uLetter uDigit true (runes (fst m))) as [n| |]; cbn [bind]; try discriminate. intros E. inversion E; subst. exists n.
    split; [reflexivity|]. unfold accepted. destruct (validMetricName n && _); [|reflexivity]. eexists. split; [reflexivity|].
    cbn [shownValue]. exists bk. split; [reflexivity|]. split.
    + intros i b c HB HC U. apply (proj2 (bucketMap_get _ _ _ _ (f64 b) B) i b c HB HC eq_refl). exact U.
    + intros x H. destruct (bucketMap_keys _ _ _ _ x B H) as [G|G]; [cbn in G; congruence|exact G].
Qed.

Lemma collectGroup_shown g part : collectGroup g = Ok part -> shownSeries (texts (glabels g)) (gts g / 1000 / 1000) (gmetrics g) part.
Proof.
  unfold PromModel.collectGroup. destruct (mapM _ (gmetrics g)) as [ls| |] eqn:M; cbn [bind]; try discriminate. intros E. inversion E; subst.
  exists ls. split; [reflexivity|]. apply mapM_ok in M. revert M. clear E. generalize (gmetrics g). intros ms M.
  induction M; [constructor|]. constructor; [|assumption]. apply collectMetric_shown. assumption.
Qed.

Lemma prom_run_cum : forall h s ss s', prom_run s h = Ok (ss, s') ->
  exists es, cum_run promKinds promExpiry s (map promOp h) = Ok (es, s') /\ Forall2 (fun gs x => collect gs = Ok x) es ss.
Proof.
  induction h as [|o h IH]; intros s ss s' E; cbn [PromModel.prom_run] in E.
  - inversion E; subst. exists []. split; [reflexivity|constructor].
  - cbn [map cum_run]. destruct (cum_step promKinds promExpiry s (promOp o)) as [[e1 s1]| |]; cbn [bind fst snd] in *; try discriminate.
    destruct (collect e1) as [x| |] eqn:C; cbn [bind] in E; try discriminate.
    destruct (prom_run s1 h) as [[ss1 s2]| |] eqn:R; cbn [bind fst snd] in E; try discriminate. inversion E; subst.
    destruct (IH _ _ _ R) as (es & -> & F). exists (e1 :: es). split; [reflexivity|]. constructor; assumption.
Qed.

Lemma promOp_in h g now : In (CRec g now) (map promOp h) -> exists g', In (CRec g' now) h /\ g = unnamed g'.
Proof. intros I. apply in_map_iff in I. destruct I as ([g' t|t] & E & I); cbn [promOp] in E; inversion E; subst. eauto. Qed.
Lemma sameMetrics_uniform h : sameMetrics h -> cuniform (map promOp h).
Proof.
  intros [A B]. split.
  - intros g now I. apply promOp_in in I. destruct I as (g' & I & ->). exact (A g' now I).
  - intros g1 n1 g2 n2 I1 I2 _ L m. apply promOp_in in I1. apply promOp_in in I2. destruct I1 as (g1' & I1 & ->). destruct I2 as (g2' & I2 & ->).
    exact (B g1' n1 g2' n2 I1 I2 L m).
Qed.
Lemma promReadings_ok h : promReadings h -> forall g t, In (CRec g t) (map promOp h) -> creadings_ok promKinds g.
Proof. intros A g t I. apply promOp_in in I. destruct I as (g' & I & ->). exact (A g' t I). Qed.

Lemma cwindow_nonempty e nm key h : cwindow e nm key h <> None <-> cgroups e h nm key <> [].
Proof.
  unfold cgroups. induction h as [|o h IH] using rev_ind; [cbn; split; congruence|].
  rewrite cwindow_snoc. destruct o as [g now|now]; cbn [cwindow_step].
  - destruct (eqb (gname g) nm && _); [|exact IH]. destruct (cwindow e nm key h) as [[ws t]|].
    + split; [intros _ X; apply app_eq_nil in X; destruct X; discriminate|discriminate].
    + split; discriminate.
  - destruct (cwindow e nm key h) as [[ws t]|]; [|exact IH]. destruct (t <? now - e); [cbn; split; congruence|exact IH].
Qed.

Lemma exports_ext kf kf' ws ms : (forall n, kf n = kf' n) -> exports kf ws ms -> exports kf' ws ms.
Proof.
  intros E (g0 & r & names & W & ND & N & M). exists g0, r, names. split; [exact W|]. split; [exact ND|]. split; [intros m; rewrite <- E; apply N|].
  rewrite M. clear -E. induction names as [|m names IH]; [reflexivity|]. cbn [flat_map]. rewrite IH, E. reflexivity.
Qed.

(** ** C61 *)
(** A scrape shows, for every label set with a live series, the value of each of its metrics - sums since the series was created, the last
    round-trip time, the duration histograms - under the metric's Prometheus name, with the series' labels and the time of its last result. *)
Theorem C61_scrape : forall h now ss s,
  sameMetrics h -> promReadings h -> prom_run [] (h ++ [CDump now]) = Ok (ss, s) ->
  exists before series parts, ss = before ++ [List.concat parts] /\ NoDup series /\
    (forall key, In key series <-> recorded h key <> []) /\
    Forall2 (fun key part => exists ms ws l, recorded h key = ws ++ [l] /\
               exports kindOf (recorded h key) ms /\
               shownSeries (texts (getLabels key)) (gts l / 1000 / 1000) ms part) series parts.
Proof.
  intros h now ss s SM PR R. apply prom_run_cum in R. destruct R as (es & R & F). rewrite map_app in R. cbn [map promOp] in R.
  destruct (C05_collection_exports_live_series _ _ _ _ _ _ (sameMetrics_uniform h SM) (promReadings_ok h PR) R) as (eb & gs & series & -> & ND & L & D).
  apply Forall2_app_inv_l in F. destruct F as (before & lst & F1 & F2 & ->). inversion F2 as [|? x ? ? C F3]; subst. inversion F3; subst.
  unfold PromModel.collect in C. destruct (mapM collectGroup gs) as [parts| |] eqn:M; cbn [bind] in C; try discriminate. inversion C; subst.
  apply mapM_ok in M. exists before, (map snd series), parts. split; [reflexivity|].
  assert (NM : forall p, In p series -> fst p = "").
  { intros [nm key] I. apply L in I. destruct (cwindow promExpiry nm key (map promOp h)) as [[ws t]|] eqn:W; [|congruence].
    destruct ws as [|g ws].
    - exfalso. assert (X : cwindow promExpiry nm key (map promOp h) <> None) by congruence. apply cwindow_nonempty in X. unfold cgroups in X. rewrite W in X. congruence.
    - destruct (cwindow_in _ _ _ _ _ _ g W (or_introl eq_refl)) as (t' & I' & N & _). apply promOp_in in I'. destruct I' as (g' & _ & ->). cbn in *. congruence. }
  split; [|split].
  - clear -ND NM. induction series as [|[n k] series IH]; cbn [map snd]; [constructor|]. inversion ND as [|? ? NI ND']; subst. constructor.
    + intros I. apply in_map_iff in I. destruct I as ([n' k'] & E & I). cbn [snd] in E. subst k'.
      assert (n = "") by (apply (NM (n, k)); left; reflexivity). assert (n' = "") by (apply (NM (n', k)); right; exact I). subst. contradiction.
    + apply IH; [exact ND'|]. intros p I. apply NM. right. exact I.
  - intros key. rewrite recorded_is. rewrite <- cwindow_nonempty, <- L. rewrite in_map_iff. split.
    + intros ([n k] & E & I). cbn [snd] in E. subst k. assert (n = "") by (apply (NM (n, key) I)). subst. exact I.
    + intros I. exists ("", key). auto.
  - clear -D M NM. revert parts M NM. induction D as [|p g series gs (D & T) DD IH]; intros parts M NM; inversion M as [|? part ? parts' M1 M2]; subst; cbn [map]; constructor.
    + assert (N : fst p = "") by (apply NM; left; reflexivity). destruct p as [nm key]. cbn [fst snd] in *. subst nm.
      destruct D as (_ & GL & EX). cbn [fst snd] in *. destruct T as (ws & l & WE & T). exists (gmetrics g), ws, l. rewrite recorded_is. split; [exact WE|].
      split; [exact (exports_ext _ _ _ _ kindOf_is EX)|]. rewrite <- GL, <- T. apply collectGroup_shown. exact M1.
    + apply IH; [exact M2|]. intros q I. apply NM. right. exact I.
Qed.

(** The labels of a series are those of every result recorded in it. *)
Theorem C61_labels : forall h key g n, goodLabels h -> In g (recorded h key) ->
  aget (texts (getLabels key)) n = labelText (glabels g) n.
Proof.
  intros h key g n GL I. rewrite recorded_is in I. unfold cgroups in I. destruct (cwindow promExpiry "" key (map promOp h)) as [[ws t]|] eqn:W; [|destruct I].
  destruct (cwindow_in _ _ _ _ _ _ g W I) as (t' & I' & _ & K). apply promOp_in in I'. destruct I' as (g' & I' & ->). cbn [unnamed glabels] in *.
  destruct (GL g' t' I') as (A & B & C). unfold texts, labelText. rewrite (aget_mapv toString).
  rewrite (C01_all_labels_key_to_labels (glabels g') key n (conj A B) C K). reflexivity.
Qed.

(** Two series are told apart by the text of their labels, as long as a label is not text in one and a number or a boolean in the other. *)
Theorem C61_distinct : forall h key1 key2 g1 g2, goodLabels h -> In g1 (recorded h key1) -> In g2 (recorded h key2) ->
  (forall n a b, aget (glabels g1) n = Some a -> aget (glabels g2) n = Some b -> sameKind a b) ->
  (forall n, aget (texts (getLabels key1)) n = aget (texts (getLabels key2)) n) -> key1 = key2.
Proof.
  intros h key1 key2 g1 g2 GL I1 I2 K E.
  assert (P : forall key g, In g (recorded h key) -> label_map (glabels g) /\ getLabelsKeys (glabels g) = Ok key).
  { intros key g I. rewrite recorded_is in I. unfold cgroups in I. destruct (cwindow promExpiry "" key (map promOp h)) as [[ws t]|] eqn:W; [|destruct I].
    destruct (cwindow_in _ _ _ _ _ _ g W I) as (t' & I' & _ & KK). apply promOp_in in I'. destruct I' as (g' & I' & ->). cbn [unnamed glabels] in *.
    destruct (GL g' t' I') as (A & B & _). split; [split; assumption|exact KK]. }
  destruct (P _ _ I1) as [M1 K1]. destruct (P _ _ I2) as [M2 K2].
  apply (C01_all_labels_key_identifies _ _ _ _ M1 M2 K1 K2). intros n. specialize (E n).
  rewrite (C61_labels h key1 g1 n GL I1), (C61_labels h key2 g2 n GL I2) in E. unfold labelText in E. specialize (K n).
  destruct (aget (glabels g1) n) as [a|], (aget (glabels g2) n) as [b|]; cbn [option_map] in E; try discriminate; [|reflexivity].
  specialize (K a b eq_refl eq_refl). f_equal. inversion E as [E'].
  destruct a, b; cbn [sameKind toString] in *; try contradiction; f_equal; [exact E'|apply formatInt_inj; exact E'|apply formatBool_inj; exact E'].
Qed.

Lemma cum_record_ok h s g now : sameMetrics (h ++ [CRec g now]) -> promReadings (h ++ [CRec g now]) ->
  cstate_is promKinds promExpiry (map promOp h) s -> (List.length (glabels g) <= 37)%nat ->
  exists s', cum_step promKinds promExpiry s (CRec (unnamed g) now) = Ok ([], s').
Proof.
  intros SM PR (NDs & NDr & W) LE. cbn [cum_step]. unfold cum_aggregate. cbn [unnamed glabels gname gmetrics gts].
  unfold getLabelsKeys. change maxLabelKeySize with 37%nat. rewrite (proj2 (Nat.leb_le _ _) LE). cbn [bind].
  set (key := sortKeys (pad (map labelToKey (glabels g)))). specialize (W "" key).
  destruct (record_series (kindsCumulative promKinds) (recOf s "") key (unnamed g) (gts g) now
              (match cwindow promExpiry "" key (map promOp h) with Some (ws, _) => ws | None => [] end)) as (m & r' & E & _).
  - intros x d cs c I F J. apply (PR g now) with (m := x) (cs := cs); try assumption. apply in_or_app. right. left. reflexivity.
  - intros X. destruct (aget (recOf s "") key) as [m|]; [|reflexivity]. destruct W as (ws & gl & C & SI & _). rewrite C in X.
    apply app_eq_nil in X. destruct X; discriminate.
  - intros m G. rewrite G in W. destruct W as (ws & gl & C & SI & _). rewrite C. exact SI.
  - intros X G. rewrite G in W. rewrite W in X. congruence.
  - cbn [unnamed gmetrics] in E. rewrite E. cbn [bind]. eauto.
Qed.

Lemma exports_sane h key ms : promReadings h -> exports (kindsCumulative promKinds) (recorded h key) ms ->
  forall m, In m ms -> (exists g t d, In (CRec g t) h /\ In (fst m, d) (gmetrics g)) /\
    match snd m with MInt _ => True | MHist _ _ b c => List.length b = List.length c end.
Proof.
  intros PR (g0 & r & names & WE & _ & NM & ->) m I. apply in_flat_map in I. destruct I as (x & Ix & I).
  destruct (kindsCumulative promKinds x) as [cs|] eqn:K; [|destruct I]. apply in_map_iff in I. destruct I as (c & <- & Ic). cbn [fst snd].
  apply NM in Ix. destruct Ix as [Ix _].
  assert (G0 : exists g t, In (CRec g t) h /\ In x (mnames g)).
  { rewrite recorded_is in WE. unfold cgroups in WE. destruct (cwindow promExpiry "" key (map promOp h)) as [[ws t]|] eqn:W; [|discriminate]. subst ws.
    destruct (cwindow_in _ _ _ _ _ _ g0 W (or_introl eq_refl)) as (t' & I' & _ & _). apply promOp_in in I'. destruct I' as (g' & I' & ->). eauto. }
  destruct G0 as (g & t & IG & IM). split.
  - assert (c_out c = x).
    { unfold kindsCumulative in K. destruct (aget promKinds x) as [l|] eqn:A.
      - inversion K; subst l. apply aget_in in A. unfold promKinds in A.
        repeat (destruct A as [A|A]; [inversion A; subst; destruct Ic as [<-|[]]; reflexivity|]). destruct A.
      - inversion K; subst cs. destruct Ic as [<-|[]]. reflexivity. }
    rewrite H. apply in_map_iff in IM. destruct IM as ([y d] & E & IM). cbn [fst] in E. subst y. exists g, t, d. auto.
  - unfold expected. destruct (c_kind c); try exact Logic.I. rewrite map_length, combine_length, seq_length, Nat.min_id. reflexivity.
Qed.

Lemma collectMetric_total L t m : sanitize uLetter uDigit true (runes (fst m)) <> Panic ->
  match snd m with MInt _ => True | MHist _ _ b c => List.length b = List.length c end -> exists p, collectMetric L t m = Ok p.
Proof.
  intros S D. unfold PromModel.collectMetric.
  assert (X : exists n, sanitize uLetter uDigit true (runes (fst m)) = Ok n).
  { revert S. unfold sanitize. destruct (runes (fst m)) as [|r l]; [eauto|]. cbn [negb andb]. cbv zeta.
    generalize (if firstIs asciiDigit (map (sanitizeRune uLetter uDigit) (r :: l)) then bs "key_" ++ map (sanitizeRune uLetter uDigit) (r :: l)
                else map (sanitizeRune uLetter uDigit) (r :: l)). intros s3.
    destruct (firstIs (Z.eqb 95) s3); [|eauto]. destruct s3 as [|a [|c t']]; [congruence|congruence|eauto]. }
  destruct X as (n & ->). destruct (snd m) as [v|su co b c]; cbn [bind]; [eauto|].
  destruct (bucketMap_total b c [] D) as (bk & ->). cbn [bind]. eauto.
Qed.

Lemma prom_total_aux : forall h2 h1 s, sameMetrics (h1 ++ h2) -> promReadings (h1 ++ h2) ->
  (forall g t, In (CRec g t) (h1 ++ h2) -> (List.length (glabels g) <= 37)%nat /\
     forall m, In m (mnames g) -> sanitize uLetter uDigit true (runes m) <> Panic) ->
  cstate_is promKinds promExpiry (map promOp h1) s -> exists r, prom_run s h2 = Ok r.
Proof.
  induction h2 as [|o h2 IH]; intros h1 s SM PR OK CS; cbn [PromModel.prom_run]; [eauto|].
  assert (SP : h1 ++ o :: h2 = (h1 ++ [o]) ++ h2) by (rewrite <- app_assoc; reflexivity). rewrite SP in SM, PR, OK.
  assert (SM1 : sameMetrics (h1 ++ [o])).
  { destruct SM as [A B]. split; intros; [eapply A|eapply B]; try eassumption; apply in_or_app; left; eassumption. }
  assert (PR1 : promReadings (h1 ++ [o])) by (intros g t I; apply (PR g t); apply in_or_app; left; exact I).
  assert (ST : exists e1 s1, cum_step promKinds promExpiry s (promOp o) = Ok (e1, s1) /\ exists x, collect e1 = Ok x).
  { destruct o as [g now|now]; cbn [promOp].
    - destruct (cum_record_ok h1 s g now SM1 PR1 CS) as (s1 & E).
      + apply (OK g now). apply in_or_app. left. apply in_or_app. right. left. reflexivity.
      + exists [], s1. split; [exact E|]. exists []. reflexivity.
    - pose proof CS as (NDs & NDr & W). cbn [cum_step]. unfold cum_dump.
      assert (SER : forall n r, In (n, r) s -> forall key m, In (key, m) r -> exists ws, cwindow promExpiry n key (map promOp h1) = Some (ws, vupd m) /\ series_is (kindsCumulative promKinds) ws m).
      { intros n r I key m J. specialize (W n key). specialize (NDr n). unfold recOf in *. rewrite (in_aget _ _ _ NDs I) in *.
        rewrite (in_aget _ _ _ NDr J) in W. destruct W as (ws & gl & C & SI & _). eauto. }
      assert (GA : forall n r, In (n, r) s -> forall key m, In (key, m) r -> exists ms, getAll m = Ok ms).
      { intros n r I key m J. destruct (SER n r I key m J) as (ws & _ & g0 & rr & -> & ND & K & S). unfold getAll.
        destruct (mapM_ex (fun p => mapM (fun a => bind (getCore (a_core a)) (fun d => Ok (a_name a, d))) (snd p)) (vals m)) as (ls & ->); [|cbn [bind]; eauto].
        intros [x sl] I2. apply mapM_ex. intros a I3. cbn [snd] in I3. destruct (S x sl (in_aget _ _ _ ND I2)) as (cs & KF & ->).
        unfold sliceOf in I3. apply in_map_iff in I3. destruct I3 as (c & <- & I3). cbn [a_core a_name].
        assert (KC : c_kind c <> AvgKind).
        { unfold kindsCumulative in KF. destruct (aget promKinds x) as [l|] eqn:A.
          - inversion KF; subst l. apply aget_in in A. unfold promKinds in A.
            repeat (destruct A as [A|A]; [inversion A; subst; destruct I3 as [<-|[]]; discriminate|]). destruct A.
          - inversion KF; subst cs. destruct I3 as [<-|[]]. discriminate. }
        unfold coreOf. destruct (c_kind c); try congruence; cbn [getCore bind]; eauto. }
      destruct (mapM_ex (fun p => dumpRecorder (fst p) (snd p)) s) as (ls & M).
      { intros [n r] I. unfold dumpRecorder. apply mapM_ex. intros [key m] J. cbn [fst snd]. destruct (GA n r I key m J) as (ms & ->). cbn [bind]. eauto. }
      exists (List.concat ls). eexists. rewrite M. cbn [bind]. split; [reflexivity|].
      assert (D : Forall2 (describes (kindsCumulative promKinds) (cgroups promExpiry (map promOp h1))) (all_series s) (List.concat ls)).
      { apply dump_ok; [exact NDs| |exact NDr|exact M]. intros nm key m G. specialize (W nm key). rewrite G in W.
        destruct W as (ws & gl & C & SI & _). unfold cgroups. rewrite C. exact SI. }
      unfold PromModel.collect. destruct (mapM_ex collectGroup (List.concat ls)) as (xs & ->); [|cbn [bind]; eauto].
      intros g I. assert (DG : exists p, In p (all_series s) /\ describes (kindsCumulative promKinds) (cgroups promExpiry (map promOp h1)) p g).
      { clear -D I. induction D as [|p g' l l' D1 D2 IH]; [destruct I|]. destruct I as [<-|I]; [exists p; split; [left; reflexivity|exact D1]|].
        destruct (IH I) as (q & Q1 & Q2). exists q. split; [right; exact Q1|exact Q2]. }
      destruct DG as ([nm key] & IP & N & L & EX). cbn [fst snd] in *.
      assert (NMe : nm = "").
      { destruct EX as (g0 & r & nn & WE & _). unfold cgroups in WE. destruct (cwindow promExpiry nm key (map promOp h1)) as [[ws t]|] eqn:CW; [|discriminate]. subst ws.
        destruct (cwindow_in _ _ _ _ _ _ g0 CW (or_introl eq_refl)) as (t' & I' & N' & _). apply promOp_in in I'. destruct I' as (g' & _ & ->). cbn in N'. congruence. }
      subst nm. unfold PromModel.collectGroup. rewrite NMe in EX.
      destruct (mapM_ex (collectMetric (texts (glabels g)) (sampleTime (gts g))) (gmetrics g)) as (ps & ->); [|cbn [bind]; eauto].
      intros m Im. assert (PR0 : promReadings h1) by (intros g' t' I'; apply (PR g' t'); apply in_or_app; left; apply in_or_app; left; exact I').
      destruct (exports_sane h1 key (gmetrics g) PR0 EX m Im) as [(g1 & t1 & d & I1 & I2) DD].
      apply collectMetric_total; [|exact DD]. apply (OK g1 t1); [apply in_or_app; left; apply in_or_app; left; exact I1|].
      unfold mnames. apply in_map_iff. exists (fst m, d). auto. }
  destruct ST as (e1 & s1 & ST & x & C). rewrite ST. cbn [bind fst snd]. rewrite C. cbn [bind].
  destruct (IH (h1 ++ [o]) s1 SM PR OK) as (r & ->); [|cbn [bind]; eauto].
  rewrite map_app. cbn [map]. eapply (cum_step_state promKinds promExpiry (map promOp (h1 ++ [o]))); [apply sameMetrics_uniform; exact SM1| |apply promReadings_ok; exact PR1|exact CS|exact ST].
  intros y I. rewrite map_app. exact I.
Qed.

(** No history of results and scrapes makes the exporter panic, when results have at most 37 labels and no metric is named by a lone symbol. *)
Theorem C61_no_panic : forall h, sameMetrics h -> promReadings h ->
  (forall g t, In (CRec g t) h -> (List.length (glabels g) <= 37)%nat /\
     forall m, In m (mnames g) -> sanitize uLetter uDigit true (runes m) <> Panic) ->
  exists ss s, prom_run [] h = Ok (ss, s).
Proof.
  intros h SM PR OK. destruct (prom_total_aux h [] [] SM PR OK) as ([ss s] & E); [apply cstate_is_nil|]. eauto.
Qed.
End Scrape.
Print Assumptions C61_scrape.
Print Assumptions C61_labels.
Print Assumptions C61_distinct.
Print Assumptions C61_no_panic.

(** Values up to 2^53 are shown exactly. *)
Theorem C61_exact : forall v, Z.abs v <= 2 ^ 53 -> f64 v = v.
Proof.
  intros v H. unfold f64. destruct (Z.eq_dec (Z.abs v) (2 ^ 53)) as [E|E].
  - assert (v = 2 ^ 53 \/ v = - 2 ^ 53) as [-> | ->] by lia; vm_compute; reflexivity.
  - assert (L : Z.log2 (Z.abs v) <= 52).
    { destruct (Z.eq_dec v 0) as [->|N]; [cbn; lia|]. apply Z.lt_succ_r. apply Z.log2_lt_pow2; [lia|]. change (Z.succ 52) with 53. lia. }
    rewrite Z.max_l by lia. change (2 ^ 0) with 1. rewrite Z.div_1_r, Z.mod_1_r. cbn. lia.
Qed.
Print Assumptions C61_exact.

(** ** Findings *)
Definition exRun := prom_run (fun _ => false) (fun _ => false) bs (fun _ => true).
Definition exRes (name : string) (l : labelset) (v ts : Z) : group :=
  {| gname := "x"; gmetrics := [(name, MInt v)]; glabels := l; gts := ts |}.
Definition exLabels : labelset := [("src_ip", SV (bs "10.0.0.1")); ("dst_port", IV 80)].
Definition exTexts : list (string * bytes) := [("dst_port", bs "80"); ("src_ip", bs "10.0.0.1")].

(** The exporter forgets the group name, so results of different kinds about the same labels share one series, whose metrics are those of
    the first: once a round-trip time of a connection is known, its lost packets are never shown. *)
Theorem C61_shared_labels_refuted : exists h before s, prom_run (fun _ => false) (fun _ => false) bs (fun _ => true) [] h = Ok (before ++
    [[{| s_name := bs "kindling_tcp_srtt_microseconds"; s_labels := exTexts; s_time := 1; s_value := PCounter 35 |}]], s) /\
  In (CRec (exRes "kindling_tcp_packet_loss_total" exLabels 7 2000000) 2000000) h /\ ~ sameMetrics h.
Proof.
  exists [CRec (exRes RttName exLabels 35 1000000) 1000000; CRec (exRes DropName exLabels 7 2000000) 2000000; CDump 3000000].
  exists [[]; []]. eexists. split; [vm_compute; reflexivity|]. split; [right; left; reflexivity|].
  intros [_ B]. specialize (B (exRes RttName exLabels 35 1000000) 1000000 (exRes DropName exLabels 7 2000000) 2000000).
  assert (X : In RttName (mnames (exRes DropName exLabels 7 2000000))).
  { apply B; [left; reflexivity|right; left; reflexivity|reflexivity|left; reflexivity]. }
  destruct X as [X|[]]. discriminate X.
Qed.
Print Assumptions C61_shared_labels_refuted.

(** A label that is a number in one result and text in another gives two samples with the same name and labels in one scrape. *)
Theorem C61_one_sample_per_label_set_refuted : exists h before a b s,
  prom_run (fun _ => false) (fun _ => false) bs (fun _ => true) [] h = Ok (before ++ [[a; b]], s) /\ sameMetrics h /\
  s_name a = s_name b /\ s_labels a = s_labels b /\ s_value a <> s_value b.
Proof.
  exists [CRec (exRes DropName [("port", IV 80)] 1 0) 0; CRec (exRes DropName [("port", SV (bs "80"))] 2 0) 0; CDump 0].
  exists [[]; []]. eexists. eexists. eexists. split; [vm_compute; reflexivity|]. split; [|split; [reflexivity|split; [reflexivity|discriminate]]].
  split.
  - intros g now [I|[I|[I|[]]]]; inversion I; discriminate.
  - intros g1 n1 g2 n2 [I|[I|[I|[]]]] [J|[J|[J|[]]]] _ m; inversion I; inversion J; reflexivity.
Qed.
Print Assumptions C61_one_sample_per_label_set_refuted.

(** ** Example: two requests and a round-trip time, scraped twice; the second scrape comes after six idle minutes and still shows them
    (C05), the third does not. *)
Definition exHist (l : labelset) (v ts : Z) : group :=
  {| gname := "x"; gmetrics := [("kindling_entity_request_total", MInt 1); (EntityHistogram, MInt v)]; glabels := l; gts := ts |}.
Definition exHistory : list cum_op :=
  [CRec (exHist [("pod", SV (bs "a"))] 15000000 5000000) 0; CRec (exHist [("pod", SV (bs "a"))] 60000000 9000000) 10;
   CRec (exRes RttName exLabels 35 1000000) 20].
Example exScrape : exists s, exRun [] (exHistory ++ [CDump 30; CDump (6 * 60 * 1000000000); CDump (7 * 60 * 1000000000)]) =
  Ok ([[]; []; [];
    [{| s_name := bs "kindling_entity_request_total"; s_labels := [("pod", bs "a")]; s_time := 9; s_value := PCounter 2 |};
     {| s_name := bs EntityHistogram; s_labels := [("pod", bs "a")]; s_time := 9; s_value := PHistogram 2 75000000
          (map (fun p => (fst p * 1000000, snd p)) [(10, 0); (20, 1); (50, 1); (80, 2); (130, 2); (200, 2); (300, 2); (400, 2); (500, 2); (700, 2); (1000, 2); (2000, 2); (5000, 2); (30000, 2)]) |};
     {| s_name := bs RttName; s_labels := exTexts; s_time := 1; s_value := PCounter 35 |}];
    [{| s_name := bs "kindling_entity_request_total"; s_labels := [("pod", bs "a")]; s_time := 9; s_value := PCounter 2 |};
     {| s_name := bs EntityHistogram; s_labels := [("pod", bs "a")]; s_time := 9; s_value := PHistogram 2 75000000
          (map (fun p => (fst p * 1000000, snd p)) [(10, 0); (20, 1); (50, 1); (80, 2); (130, 2); (200, 2); (300, 2); (400, 2); (500, 2); (700, 2); (1000, 2); (2000, 2); (5000, 2); (30000, 2)]) |};
     {| s_name := bs RttName; s_labels := exTexts; s_time := 1; s_value := PCounter 35 |}];
    []], s).
Proof. eexists. vm_compute. reflexivity. Qed.
Example exMeets : sameMetrics exHistory /\ promReadings exHistory /\ goodLabels exHistory.
Proof.
  split; [|split].
  - split.
    + intros g now [I|[I|[I|[]]]]; inversion I; discriminate.
    + intros g1 n1 g2 n2 [I|[I|[I|[]]]] [J|[J|[J|[]]]] L m; inversion I; inversion J; subst; try reflexivity; exfalso; vm_compute in L; discriminate.
  - intros g now [I|[I|[I|[]]]] m d cs c M K C; inversion I; subst; cbn in M;
      repeat (destruct M as [M|M]; [inversion M; subst; exact Logic.I|]); destruct M.
  - intros g now I.
    assert (X : forall l : labelset, (l = [("pod", SV (bs "a"))] \/ l = exLabels) ->
      NoDup (keys l) /\ ~ In "" (keys l) /\ (forall k z, aget l k = Some (IV z) -> - 2 ^ 63 <= z < 2 ^ 63)).
    { intros l [-> | ->].
      - split; [repeat constructor; cbn; intuition discriminate|]. split; [cbn; intuition discriminate|].
        intros k z. cbn [aget]. destruct (eqb k _); discriminate.
      - split; [repeat constructor; cbn; intuition discriminate|]. split; [cbn; intuition discriminate|].
        intros k z. unfold exLabels. cbn [aget]. destruct (eqb k _); [discriminate|]. destruct (eqb k _); [|discriminate].
        intros E. inversion E. lia. }
    destruct I as [I|[I|[I|[]]]]; inversion I; apply X; [left|left|right]; reflexivity.
Qed.
Example exRounded : f64 (2 ^ 53 + 1) = 2 ^ 53.
Proof. reflexivity. Qed.
