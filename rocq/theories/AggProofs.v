(** Lemmas behind AggProps.v. *)
From Verif Require Import Base Decimal AttrModel PoolModel KeyModel AggModel AggSpec.

(** ** Machine arithmetic *)
Definition eqm (a b : Z) : Prop := (a - b) mod 2 ^ 64 = 0.
Lemma eqm_refl a : eqm a a.
Proof. unfold eqm. rewrite Z.sub_diag. reflexivity. Qed.
Lemma eqm_of k a b : a = b + k * 2 ^ 64 -> eqm a b.
Proof. intros ->. unfold eqm. replace (b + k * 2 ^ 64 - b) with (k * 2 ^ 64) by lia. apply Z.mod_mul. lia. Qed.
Lemma eqm_ex a b : eqm a b -> exists k, a = b + k * 2 ^ 64.
Proof. unfold eqm. intros E. apply Z.mod_divide in E; [|lia]. destruct E as (k & E). exists k. lia. Qed.
Lemma eqm_sym a b : eqm a b -> eqm b a.
Proof. intros E. destruct (eqm_ex _ _ E) as (k & ->). apply (eqm_of (- k)). lia. Qed.
Lemma eqm_trans a b c : eqm a b -> eqm b c -> eqm a c.
Proof. intros E F. destruct (eqm_ex _ _ E) as (k & ->). destruct (eqm_ex _ _ F) as (j & ->). apply (eqm_of (j + k)). lia. Qed.
Lemma eqm_add a b c d : eqm a b -> eqm c d -> eqm (a + c) (b + d).
Proof. intros E F. destruct (eqm_ex _ _ E) as (k & ->). destruct (eqm_ex _ _ F) as (j & ->). apply (eqm_of (j + k)). lia. Qed.
Lemma eqm_sub a b c d : eqm a b -> eqm c d -> eqm (a - c) (b - d).
Proof. intros E F. destruct (eqm_ex _ _ E) as (k & ->). destruct (eqm_ex _ _ F) as (j & ->). apply (eqm_of (k - j)). lia. Qed.
Lemma eqm_s64 a : eqm (s64 a) a.
Proof. unfold s64. pose proof (Z.div_mod (a + 2 ^ 63) (2 ^ 64) ltac:(lia)). apply (eqm_of (- ((a + 2 ^ 63) / 2 ^ 64))). lia. Qed.
Lemma eqm_w64 a : eqm (w64 a) a.
Proof. unfold w64. pose proof (Z.div_mod a (2 ^ 64) ltac:(lia)). apply (eqm_of (- (a / 2 ^ 64))). lia. Qed.
Lemma s64_eqm a b : eqm a b -> s64 a = s64 b.
Proof.
  intros E. destruct (eqm_ex _ _ E) as (k & ->). unfold s64. f_equal.
  replace (b + k * 2 ^ 64 + 2 ^ 63) with (b + 2 ^ 63 + k * 2 ^ 64) by lia. apply Z.mod_add. lia.
Qed.
Lemma w64_eqm a b : eqm a b -> w64 a = w64 b.
Proof. intros E. destruct (eqm_ex _ _ E) as (k & ->). unfold w64. apply Z.mod_add. lia. Qed.
Lemma s64_add_l a b : s64 (s64 a + b) = s64 (a + b).
Proof. apply s64_eqm. apply eqm_add; [apply eqm_s64|apply eqm_refl]. Qed.
Lemma s64_add_both a b : s64 (s64 a + s64 b) = s64 (a + b).
Proof. apply s64_eqm. apply eqm_add; apply eqm_s64. Qed.
Lemma w64_add_l a b : w64 (w64 a + b) = w64 (a + b).
Proof. apply w64_eqm. apply eqm_add; [apply eqm_w64|apply eqm_refl]. Qed.

Lemma zsum_app a b : zsum (a ++ b) = zsum a + zsum b.
Proof. induction a as [|x a IH]; cbn [zsum fold_right app]; [reflexivity|]. fold (zsum (a ++ b)). fold (zsum a). lia. Qed.
Lemma zsum_cons x a : zsum (x :: a) = x + zsum a.
Proof. reflexivity. Qed.
Lemma sumOf_snoc ds d : sumOf (ds ++ [d]) = sumOf ds + match d with MInt x => x | MHist s _ _ _ => s end.
Proof. unfold sumOf. rewrite map_app, zsum_app. cbn. lia. Qed.
Lemma countOf_snoc ds d : countOf (ds ++ [d]) = countOf ds + match d with MInt _ => 1 | MHist _ k _ _ => k end.
Proof. unfold countOf. rewrite map_app, zsum_app. cbn. lia. Qed.
Lemma ints_snoc ds d : ints (ds ++ [d]) = ints ds ++ match d with MInt x => [x] | MHist _ _ _ _ => [] end.
Proof. unfold ints. rewrite flat_map_app. cbn [flat_map]. rewrite app_nil_r. reflexivity. Qed.

(** ** The monad *)
Lemma foldM_app {A S} (f : S -> A -> res S) a b s :
  foldM f (a ++ b) s = bind (foldM f a s) (fun s' => foldM f b s').
Proof.
  revert s. induction a as [|x a IH]; intros s; [reflexivity|]. cbn [app foldM].
  destruct (f s x); cbn [bind]; auto.
Qed.
Lemma mapM_ok {A B} (f : A -> res B) l r : mapM f l = Ok r <-> Forall2 (fun a b => f a = Ok b) l r.
Proof.
  revert r. induction l as [|a l IH]; intros r; cbn [mapM].
  - split; [intros E; inversion E; constructor|intros E; inversion E; reflexivity].
  - split.
    + destruct (f a) as [b| |] eqn:E; cbn [bind]; try discriminate.
      destruct (mapM f l) as [bs'| |]; cbn [bind]; try discriminate. intros X; inversion X; subst.
      constructor; [assumption|]. apply IH. reflexivity.
    + intros X; inversion X as [|? b ? l' E F]; subst. rewrite E. cbn [bind]. apply IH in F. rewrite F. reflexivity.
Qed.
Lemma mapM_map {A B C} (f : B -> res C) (g : A -> B) l : mapM f (map g l) = mapM (fun a => f (g a)) l.
Proof. induction l as [|a l IH]; [reflexivity|]. cbn [map mapM]. destruct (f (g a)); cbn [bind]; try reflexivity. rewrite IH. reflexivity. Qed.
Lemma mapM_total {A B} (f : A -> res B) (g : A -> B) l :
  (forall a, In a l -> f a = Ok (g a)) -> mapM f l = Ok (map g l).
Proof.
  induction l as [|a l IH]; intros H; [reflexivity|]. cbn [mapM map]. rewrite (H a (or_introl eq_refl)). cbn [bind].
  rewrite IH by (intros b I; apply H; right; exact I). reflexivity.
Qed.

(** ** One running value *)
Definition coreOf (c : kcfg) (ds : list mdata) : core :=
  match c_kind c with
  | SumKind => CSum (s64 (sumOf ds))
  | CountKind => CCount (s64 (countOf ds))
  | MaxKind => CMax (fold_left Z.max (ints ds) 0)
  | LastKind => CLast (last (ints ds) 0)
  | AvgKind => CAvg (s64 (sumOf ds)) (s64 (countOf ds))
  | HistogramKind => CHist (s64 (sumOf ds)) (w64 (countOf ds)) (c_bounds c)
      (map (fun p => w64 (zsum (map (belowOf (fst p) (snd p)) ds)))
           (combine (seq 0 (List.length (c_bounds c))) (c_bounds c)))
  end.

Lemma coreOf_nil c : newCore c = coreOf c [].
Proof.
  unfold newCore, coreOf. destruct (c_kind c); try reflexivity. f_equal. cbn [map zsum fold_right].
  generalize 0%nat. induction (c_bounds c) as [|b bs' IH]; intros n; [reflexivity|].
  cbn [List.length seq combine map]. f_equal. apply IH.
Qed.

Lemma addBuckets_eq x ds : forall bounds n,
  addBuckets x bounds (map (fun p => w64 (zsum (map (belowOf (fst p) (snd p)) ds))) (combine (seq n (List.length bounds)) bounds))
  = map (fun p => w64 (zsum (map (belowOf (fst p) (snd p)) (ds ++ [MInt x])))) (combine (seq n (List.length bounds)) bounds).
Proof.
  induction bounds as [|b bounds IH]; intros n; [reflexivity|].
  cbn [List.length seq combine map addBuckets fst snd]. f_equal; [|apply IH].
  rewrite map_app, zsum_app. cbn [map belowOf zsum fold_right].
  destruct (x <=? b); [|f_equal; lia]. rewrite w64_add_l. f_equal; lia.
Qed.

Lemma mergeBuckets_eq s k0 b0 ds : forall bounds n pre k, List.length k = List.length bounds -> List.length pre = n ->
  mergeBuckets (map (fun p => w64 (zsum (map (belowOf (fst p) (snd p)) ds))) (combine (seq n (List.length bounds)) bounds)) k
  = Ok (map (fun p => w64 (zsum (map (belowOf (fst p) (snd p)) (ds ++ [MHist s k0 b0 (pre ++ k)])))) (combine (seq n (List.length bounds)) bounds)).
Proof.
  induction bounds as [|b bounds IH]; intros n pre k L P; destruct k as [|x k]; cbn in L; try discriminate; [reflexivity|].
  cbn [List.length seq combine map mergeBuckets fst snd].
  rewrite (IH (S n) (pre ++ [x]) k) by (rewrite ?app_length; cbn; lia).
  rewrite <- app_assoc. cbn [app bind]. f_equal. f_equal.
  rewrite map_app, zsum_app. cbn [map belowOf zsum fold_right].
  rewrite app_nth2, <- P, Nat.sub_diag by lia. cbn [nth]. rewrite w64_add_l. f_equal. lia.
Qed.

Lemma feedCore_ok c ds d : hist_ok c d -> feedCore (coreOf c ds) d = Ok (coreOf c (ds ++ [d])).
Proof.
  intros H. unfold coreOf. destruct (c_kind c) eqn:K; cbn [feedCore].
  - rewrite sumOf_snoc. destruct d; rewrite s64_add_l; reflexivity.
  - rewrite ints_snoc. destruct d as [x|]; [|rewrite app_nil_r; reflexivity].
    rewrite fold_left_app. cbn [fold_left]. do 2 f_equal.
    destruct (Z.ltb_spec (fold_left Z.max (ints ds) 0) x); lia.
  - rewrite sumOf_snoc, countOf_snoc. destruct d; rewrite ?s64_add_both, ?s64_add_l; reflexivity.
  - rewrite ints_snoc. destruct d as [x|]; [|rewrite app_nil_r; reflexivity]. rewrite last_last. reflexivity.
  - rewrite countOf_snoc. destruct d; rewrite ?s64_add_both, ?s64_add_l; reflexivity.
  - rewrite sumOf_snoc, countOf_snoc. destruct d as [x|s k b bk].
    + rewrite addBuckets_eq, s64_add_l, w64_add_l. reflexivity.
    + cbn [hist_ok] in H. destruct (H K) as [H1 H2]. rewrite H1, Nat.eqb_refl.
      rewrite (mergeBuckets_eq s k b ds (c_bounds c) 0 [] bk) by auto. cbn [bind app].
      rewrite s64_add_l, w64_add_l. reflexivity.
Qed.

Lemma getCore_expected c ds d : getCore (coreOf c ds) = Ok d -> d = expected c ds.
Proof.
  unfold coreOf, expected. destruct (c_kind c); cbn [getCore]; try (intros E; inversion E; reflexivity).
  destruct (s64 (countOf ds) =? 0); intros E; inversion E; reflexivity.
Qed.
Lemma getCore_total c ds : s64 (countOf ds) <> 0 -> getCore (coreOf c ds) = Ok (expected c ds).
Proof.
  intros N. unfold coreOf, expected. destruct (c_kind c); cbn [getCore]; try reflexivity.
  destruct (Z.eqb_spec (s64 (countOf ds)) 0); [contradiction|reflexivity].
Qed.

(** ** The values of one series *)
Section Kinds.
Variable kf : string -> option (list kcfg).

Definition kok (ms : list (string * mdata)) : Prop :=
  forall m d cs c, In (m, d) ms -> kf m = Some cs -> In c cs -> hist_ok c d.

Definition dataOf (ms : list (string * mdata)) (m : string) : list mdata :=
  map snd (filter (fun p => eqb (fst p) m) ms).

Definition sliceOf (cs : list kcfg) (ds : list mdata) : list aggv :=
  map (fun c => {| a_name := c_out c; a_core := coreOf c ds |}) cs.

Definition vals_are (names : list string) (ds : string -> list mdata) (l : list (string * list aggv)) : Prop :=
  NoDup (keys l) /\
  (forall m, In m (keys l) <-> In m names /\ kf m <> None) /\
  (forall m sl, aget l m = Some sl -> exists cs, kf m = Some cs /\ sl = sliceOf cs (ds m)).

Lemma newValues_are ms : vals_are (map fst ms) (fun _ => []) (vals (newValues kf ms)).
Proof.
  unfold newValues. cbn [vals].
  assert (G : forall (ms : list (string * mdata)) names acc, vals_are names (fun _ => []) acc ->
     vals_are (names ++ map fst ms) (fun _ => [])
       (fold_left (fun acc p => match kf (fst p) with Some cs => aset acc (fst p) (map newAgg cs) | None => acc end) ms acc)).
  { clear ms. induction ms as [|[m d] ms IH]; intros names acc (ND & K & S).
    - cbn [map fold_left]. rewrite app_nil_r. repeat split; auto; apply K; auto.
    - cbn [map fold_left fst]. replace (names ++ m :: map fst ms) with ((names ++ [m]) ++ map fst ms) by (rewrite <- app_assoc; reflexivity).
      apply IH. destruct (kf m) as [cs|] eqn:F.
      + split; [apply NoDup_keys_aset; assumption|]. split.
        * intros x. rewrite in_keys_aset, K, in_app_iff. cbn [In]. split.
          -- intros [->|[A B]]; [split; [auto|congruence]|auto].
          -- intros [[A|[->|[]]] B]; auto.
        * intros x sl. rewrite aget_aset. case_eqb x m; [|apply S].
          subst x. intros X; inversion X; subst sl. exists cs. split; [assumption|].
          unfold sliceOf. apply map_ext. intros c. unfold newAgg. rewrite coreOf_nil. reflexivity.
      + split; [assumption|]. split; [|assumption].
        intros x. rewrite K, in_app_iff. cbn [In]. split; [intros [A B]; auto|].
        intros [[A|[->|[]]] B]; [auto|congruence]. }
  apply (G ms [] []). split; [constructor|]. split.
  - intros m. cbn. tauto.
  - intros m sl. discriminate.
Qed.

Lemma feed_slice cs ds d : (forall c, In c cs -> hist_ok c d) ->
  mapM (fun a => feed a d) (sliceOf cs ds) = Ok (sliceOf cs (ds ++ [d])).
Proof.
  intros H. unfold sliceOf. rewrite mapM_map. apply mapM_total. intros c I. unfold feed. cbn [a_core a_name].
  rewrite feedCore_ok by auto. reflexivity.
Qed.

Lemma dataOf_snoc ms m d x : dataOf (ms ++ [(m, d)]) x = dataOf ms x ++ (if eqb m x then [d] else []).
Proof. unfold dataOf. rewrite filter_app, map_app. cbn [filter fst]. destruct (eqb m x); reflexivity. Qed.

Lemma calculate_ok names ds m p ts now :
  vals_are names ds (vals m) -> kok [p] ->
  exists m', calculate ts now m p = Ok m' /\
    vals_are names (fun x => ds x ++ dataOf [p] x) (vals m') /\
    (vts m', vupd m') = if ahas (vals m) (fst p) then (ts, now) else (vts m, vupd m).
Proof.
  intros (ND & K & S) OKp. destruct p as [n d]. unfold calculate. cbn [fst snd]. unfold ahas.
  destruct (aget (vals m) n) as [sl|] eqn:G.
  - destruct (S _ _ G) as (cs & F & ->). rewrite feed_slice.
    + cbn [bind]. eexists. split; [reflexivity|]. cbn [vals vts vupd]. split; [|reflexivity].
      split; [apply NoDup_keys_aset; assumption|]. split.
      * intros x. rewrite in_keys_aset, K. split; [|auto]. intros [->|A]; [|assumption].
        apply K. eapply aget_some_in_keys. exact G.
      * intros x sl. rewrite aget_aset. unfold dataOf. cbn [filter fst]. case_eqb x n.
        -- subst x. intros X; inversion X. exists cs. rewrite eqb_refl. split; [assumption|reflexivity].
        -- intros Gx. destruct (S _ _ Gx) as (cs' & F' & ->). exists cs'. split; [assumption|].
           rewrite (proj2 (eqb_neq n x)) by congruence. cbn [map]. rewrite app_nil_r. reflexivity.
    + intros c I. eapply OKp; [left; reflexivity|exact F|exact I].
  - eexists. split; [reflexivity|]. split; [|reflexivity].
    split; [assumption|]. split; [assumption|].
    intros x sl Gx. destruct (S _ _ Gx) as (cs & F & ->). exists cs. split; [assumption|].
    unfold dataOf. cbn [filter fst]. rewrite (proj2 (eqb_neq n x)) by congruence. cbn [map]. rewrite app_nil_r. reflexivity.
Qed.

Lemma vals_are_ext names ds ds' l : (forall x, ds x = ds' x) -> vals_are names ds l -> vals_are names ds' l.
Proof.
  intros E (A & B & C). split; [assumption|]. split; [assumption|]. intros m sl G. destruct (C _ _ G) as (cs & F & ->).
  exists cs. rewrite E. auto.
Qed.

Lemma keys_of_vals names ds l m : vals_are names ds l -> ahas l m = true <-> In m names /\ kf m <> None.
Proof.
  intros (ND & K & S). rewrite <- K. unfold ahas. destruct (aget l m) eqn:G.
  - split; [intros _; eapply aget_some_in_keys; exact G|reflexivity].
  - apply aget_none_notin in G. split; [discriminate|contradiction].
Qed.

Lemma fold_calculate_ok ts now names ms : forall ds m,
  vals_are names ds (vals m) -> kok ms ->
  exists m', foldM (calculate ts now) ms m = Ok m' /\
    vals_are names (fun x => ds x ++ dataOf ms x) (vals m') /\
    (vts m', vupd m') = if existsb (fun p => ahas (vals m) (fst p)) ms then (ts, now) else (vts m, vupd m).
Proof.
  induction ms as [|p ms IH]; intros ds m V OKms.
  - exists m. split; [reflexivity|]. split; [|reflexivity]. eapply vals_are_ext; [|exact V].
    intros x. cbn. rewrite app_nil_r. reflexivity.
  - destruct (calculate_ok names ds m p ts now V) as (m1 & E1 & V1 & T1).
    { intros x d cs c [I|[]]. eapply OKms. left. exact I. }
    destruct (IH _ _ V1) as (m2 & E2 & V2 & T2).
    { intros x d cs c I. eapply OKms. right. exact I. }
    exists m2. cbn [foldM]. rewrite E1. cbn [bind]. split; [exact E2|]. split.
    + eapply vals_are_ext; [|exact V2]. intros x. cbn beta. rewrite <- app_assoc. f_equal.
      unfold dataOf. cbn [filter]. destruct (eqb (fst p) x); reflexivity.
    + rewrite T2. cbn [existsb].
      assert (SAME : forall q : string * mdata, ahas (vals m1) (fst q) = ahas (vals m) (fst q)).
      { intros q. apply eq_true_iff_eq. rewrite (keys_of_vals _ _ _ _ V1), (keys_of_vals _ _ _ _ V). reflexivity. }
      assert (X : existsb (fun q => ahas (vals m1) (fst q)) ms = existsb (fun q => ahas (vals m) (fst q)) ms).
      { clear -SAME. induction ms as [|q ms IH]; [reflexivity|]. cbn [existsb]. rewrite SAME, IH. reflexivity. }
      rewrite X. destruct (existsb (fun q => ahas (vals m) (fst q)) ms); [rewrite orb_true_r; reflexivity|].
      rewrite orb_false_r. exact T1.
Qed.

(** The state of a series that received the groups [ws]. *)
Definition series_is (ws : list group) (m : vmap) : Prop :=
  exists g0 r, ws = g0 :: r /\ vals_are (mnames g0) (readings ws) (vals m).

Lemma readings_snoc ws g m : readings (ws ++ [g]) m = readings ws m ++ dataOf (gmetrics g) m.
Proof. unfold readings. rewrite flat_map_app. cbn [flat_map]. rewrite app_nil_r. reflexivity. Qed.

Lemma record_series r key g ts now (ws : list group) :
  kok (gmetrics g) ->
  (ws = [] -> aget r key = None) ->
  (forall m, aget r key = Some m -> series_is ws m) ->
  (ws <> [] -> aget r key <> None) ->
  exists m r', record kf r key (gmetrics g) ts now = Ok r' /\ r' = aset r key m /\ series_is (ws ++ [g]) m /\
    (vts m, vupd m) =
      match aget r key with
      | Some m0 => if existsb (fun p => ahas (vals m0) (fst p)) (gmetrics g) then (ts, now) else (vts m0, vupd m0)
      | None => if existsb (fun p => match kf (fst p) with Some _ => true | None => false end) (gmetrics g) then (ts, now) else (0, 0)
      end.
Proof.
  intros OKg E0 S0 N0. unfold record. destruct (aget r key) as [m0|] eqn:G.
  - destruct (S0 _ eq_refl) as (g0 & rest & -> & V).
    destruct (fold_calculate_ok ts now _ (gmetrics g) _ _ V OKg) as (m' & F & V' & T).
    exists m'. eexists. rewrite F. cbn [bind]. split; [reflexivity|]. split; [reflexivity|]. split; [|exact T].
    exists g0, (rest ++ [g]). split; [reflexivity|]. eapply vals_are_ext; [|exact V'].
    intros x. cbn beta. change (g0 :: rest ++ [g]) with ((g0 :: rest) ++ [g]). rewrite readings_snoc. reflexivity.
  - assert (ws = []). { destruct ws; [reflexivity|]. exfalso. apply N0; [discriminate|reflexivity]. }
    subst ws. pose proof (newValues_are (gmetrics g)) as V.
    destruct (fold_calculate_ok ts now _ (gmetrics g) _ _ V OKg) as (m' & F & V' & T).
    exists m'. eexists. rewrite F. cbn [bind]. split; [reflexivity|]. split; [reflexivity|]. split.
    + exists g, []. split; [reflexivity|]. eapply vals_are_ext; [|exact V'].
      intros x. cbn. rewrite app_nil_r. reflexivity.
    + rewrite T. cbn [vts vupd newValues].
      assert (X : existsb (fun p => ahas (vals (newValues kf (gmetrics g))) (fst p)) (gmetrics g)
                = existsb (fun p => match kf (fst p) with Some _ => true | None => false end) (gmetrics g)).
      { assert (Y : forall ms : list (string * mdata), (forall p, In p ms -> In p (gmetrics g)) ->
            existsb (fun p => ahas (vals (newValues kf (gmetrics g))) (fst p)) ms
            = existsb (fun p => match kf (fst p) with Some _ => true | None => false end) ms).
        { induction ms as [|q ms IH]; intros I; [reflexivity|]. cbn [existsb]. rewrite IH by (intros p J; apply I; right; exact J).
          f_equal. apply eq_true_iff_eq. rewrite (keys_of_vals _ _ _ _ V).
          assert (In (fst q) (map fst (gmetrics g))) by (apply in_map; apply I; left; reflexivity).
          destruct (kf (fst q)); split; intros; try discriminate; try tauto; try reflexivity.
          split; [assumption|discriminate]. }
        apply Y. auto. }
      rewrite X. reflexivity.
Qed.
End Kinds.

(** ** Exporting a series *)
Lemma concat_flat {A B} (f : A -> list B) l : List.concat (map f l) = flat_map f l.
Proof. induction l as [|a l IH]; [reflexivity|]. cbn [map List.concat flat_map]. rewrite IH. reflexivity. Qed.

Lemma getAll_ok kf ws m ms : series_is kf ws m -> getAll m = Ok ms -> exports kf ws ms.
Proof.
  intros (g0 & r & -> & ND & K & S) G. unfold getAll in G.
  destruct (mapM _ (vals m)) as [ls| |] eqn:M; cbn [bind] in G; try discriminate. inversion G; subst ms; clear G.
  exists g0, r, (keys (vals m)). split; [reflexivity|]. split; [assumption|]. split; [assumption|].
  rewrite <- concat_flat. f_equal. apply mapM_ok in M.
  assert (S' : forall p, In p (vals m) -> exists cs, kf (fst p) = Some cs /\ snd p = sliceOf cs (readings (g0 :: r) (fst p))).
  { intros [x sl] I. cbn [fst snd]. apply S. apply in_aget; assumption. }
  clear K S ND. revert ls M. generalize (vals m) S'. clear S'.
  induction l as [|[x sl] l IH]; intros S' ls M; inversion M as [|? b ? ls' E F]; subst; [reflexivity|].
  cbn [keys map fst]. f_equal.
  - destruct (S' (x, sl) (or_introl eq_refl)) as (cs & KF & SL). cbn [fst snd] in *. rewrite KF. subst sl.
    apply mapM_ok in E. unfold sliceOf in E. clear -E. revert b E. generalize (readings (g0 :: r) x). intros ds.
    induction cs as [|c cs IH]; intros b E; cbn [map] in E; inversion E as [|? d ? b' X Y]; subst; [reflexivity|].
    cbn [map a_name a_core] in *. f_equal; [|apply IH; assumption].
    destruct (getCore (coreOf c ds)) as [v| |] eqn:V; cbn [bind] in X; try discriminate.
    inversion X. f_equal. apply getCore_expected. exact V.
  - apply IH; [intros p I; apply S'; right; exact I|assumption].
Qed.

(** ** The default aggregator follows the windows *)
Definition state_is (km : kindMap) (h : list agg_op) (s : agg_state) : Prop :=
  NoDup (keys s) /\
  (forall nm, NoDup (keys (recOf s nm))) /\
  (forall nm key, match aget (recOf s nm) key with
                  | None => window nm key h = []
                  | Some m => series_is (kindsDefault km) (window nm key h) m
                  end).

Lemma window_snoc nm key h o : window nm key (h ++ [o]) = window_step nm key (window nm key h) o.
Proof. unfold window. rewrite fold_left_app. reflexivity. Qed.

Lemma series_nonempty kf ws m : series_is kf ws m -> ws <> [].
Proof. intros (g0 & r & -> & _). discriminate. Qed.

Lemma recOf_aset s n r x : recOf (aset s n r) x = if eqb x n then r else recOf s x.
Proof. unfold recOf. rewrite aget_aset. destruct (eqb x n); reflexivity. Qed.

Lemma aget_reset (s : agg_state) n : aget (map (fun p => (fst p, ([] : recorder))) s) n = option_map (fun _ => []) (aget s n).
Proof. induction s as [|[k v] s IH]; [reflexivity|]. cbn [map aget fst]. destruct (eqb n k); [reflexivity|exact IH]. Qed.
Lemma recOf_reset (s : agg_state) n : recOf (map (fun p => (fst p, ([] : recorder))) s) n = [].
Proof. unfold recOf. rewrite aget_reset. destruct (aget s n); reflexivity. Qed.

Lemma agg_step_state km h s o es s' :
  state_is km h s ->
  (forall g sels, o = OAgg g sels -> readings_ok km g) ->
  agg_step km s o = Ok (es, s') -> state_is km (h ++ [o]) s'.
Proof.
  intros (NDs & NDr & W) RO S. destruct o as [g sels| |n]; cbn [agg_step] in S.
  - unfold aggregate in S.
    destruct (record_series (kindsDefault km) (recOf s (gname g)) (getLabelKeys sels (glabels g)) g (gts g) 0
               (window (gname g) (getLabelKeys sels (glabels g)) h)) as (m & r' & E & -> & SI & _).
    + intros m d cs c I F J. eapply RO; eauto.
    + intros X. specialize (W (gname g) (getLabelKeys sels (glabels g))).
      destruct (aget _ _) as [m|]; [|reflexivity]. apply series_nonempty in W. contradiction.
    + intros m G. specialize (W (gname g) (getLabelKeys sels (glabels g))). rewrite G in W. exact W.
    + intros X G. specialize (W (gname g) (getLabelKeys sels (glabels g))). rewrite G in W. contradiction.
    + rewrite E in S. cbn [bind] in S. inversion S; subst es s'; clear S. split; [|split].
      * apply NoDup_keys_aset. assumption.
      * intros nm. rewrite recOf_aset. destruct (eqb nm (gname g)); [apply NoDup_keys_aset|]; apply NDr.
      * intros nm key. rewrite recOf_aset, window_snoc. cbn [window_step].
        rewrite (eqb_sym (gname g) nm). case_eqb nm (gname g); cbn [andb].
        -- subst nm. rewrite aget_aset. rewrite (eqb_sym _ key). case_eqb key (getLabelKeys sels (glabels g)).
           ++ subst key. exact SI.
           ++ apply W.
        -- apply W.
  - unfold dump in S. destruct (mapM _ s) as [ls| |]; cbn [bind] in S; try discriminate. inversion S; subst es s'.
    split; [|split].
    + unfold keys. rewrite map_map. cbn [fst]. exact NDs.
    + intros nm. rewrite recOf_reset. constructor.
    + intros nm key. rewrite recOf_reset, window_snoc. reflexivity.
  - unfold dumpSingle in S. destruct (aget s n) as [r|] eqn:G.
    + destruct (dumpRecorder n r) as [gs| |]; cbn [bind] in S; try discriminate. inversion S; subst es s'. split; [|split].
      * apply NoDup_keys_aset. assumption.
      * intros nm. rewrite recOf_aset. destruct (eqb nm n); [constructor|apply NDr].
      * intros nm key. rewrite recOf_aset, window_snoc. cbn [window_step]. rewrite (eqb_sym n nm).
        destruct (eqb nm n); [reflexivity|apply W].
    + inversion S; subst es s'. split; [assumption|]. split; [assumption|].
      intros nm key. rewrite window_snoc. cbn [window_step]. case_eqb n nm; [|apply W].
      subst nm. specialize (W n key). unfold recOf in *. rewrite G in *. reflexivity.
Qed.

Lemma agg_run_state km : forall os h s es s',
  state_is km h s ->
  (forall g sels, In (OAgg g sels) os -> readings_ok km g) ->
  agg_run km s os = Ok (es, s') -> state_is km (h ++ os) s'.
Proof.
  induction os as [|o os IH]; intros h s es s' SI RO R; cbn [agg_run] in R.
  - inversion R; subst. rewrite app_nil_r. exact SI.
  - destruct (agg_step km s o) as [[e1 s1]| |] eqn:S; cbn [bind fst snd] in R; try discriminate.
    destruct (agg_run km s1 os) as [[e2 s2]| |] eqn:R2; cbn [bind fst snd] in R; try discriminate.
    inversion R; subst es s2. replace (h ++ o :: os) with ((h ++ [o]) ++ os) by (rewrite <- app_assoc; reflexivity).
    eapply IH; [|intros g sels I; apply (RO g sels); right; exact I|exact R2].
    eapply agg_step_state; [exact SI| |exact S]. intros g sels ->. apply (RO g sels). left. reflexivity.
Qed.

Lemma state_is_nil km : state_is km [] [].
Proof. split; [constructor|]. split; [intros; constructor|]. intros nm key. reflexivity. Qed.

Lemma agg_run_app km : forall a b s, agg_run km s (a ++ b) =
  bind (agg_run km s a) (fun r => bind (agg_run km (snd r) b) (fun r' => Ok (fst r ++ fst r', snd r'))).
Proof.
  induction a as [|o a IH]; intros b s; cbn [app agg_run].
  - cbn [bind fst snd app]. destruct (agg_run km s b) as [[]| |]; reflexivity.
  - destruct (agg_step km s o) as [[e1 s1]| |]; cbn [bind fst snd]; try reflexivity.
    rewrite IH. destruct (agg_run km s1 a) as [[e2 s2]| |]; cbn [bind fst snd]; try reflexivity.
    destruct (agg_run km s2 b) as [[e3 s3]| |]; reflexivity.
Qed.

(** ** What a dump exports *)
Lemma dumpRecorder_ok kf win nm r gs :
  (forall key m, In (key, m) r -> series_is kf (win nm key) m) ->
  dumpRecorder nm r = Ok gs -> Forall2 (describes kf win) (map (fun p => (nm, fst p)) r) gs.
Proof.
  intros SI E. unfold dumpRecorder in E. apply mapM_ok in E. revert gs E.
  induction r as [|[key m] r IH]; intros gs E; inversion E as [|? g ? gs' X Y]; subst; cbn [map]; constructor.
  - cbn [fst snd] in X. destruct (getAll m) as [ms| |] eqn:G; cbn [bind] in X; try discriminate. inversion X; subst g.
    split; [reflexivity|]. split; [reflexivity|]. cbn [fst snd gmetrics]. eapply getAll_ok; [|exact G].
    apply SI. left. reflexivity.
  - apply IH; [|assumption]. intros k m' I. apply SI. right. exact I.
Qed.

Definition all_series (s : agg_state) : list (string * list lkey) :=
  flat_map (fun p => map (fun q => (fst p, fst q)) (snd p)) s.

Lemma Forall2_concat {A B} (R : A -> B -> Prop) ls ms : Forall2 (Forall2 R) ls ms -> Forall2 R (List.concat ls) (List.concat ms).
Proof. induction 1; cbn [List.concat]; [constructor|]. apply Forall2_app; assumption. Qed.

Lemma dump_ok kf win s ls :
  NoDup (keys s) ->
  (forall nm key m, aget (recOf s nm) key = Some m -> series_is kf (win nm key) m) ->
  (forall nm, NoDup (keys (recOf s nm))) ->
  mapM (fun p => dumpRecorder (fst p) (snd p)) s = Ok ls ->
  Forall2 (describes kf win) (all_series s) (List.concat ls).
Proof.
  intros ND SI NDr E. unfold all_series. rewrite <- concat_flat. apply Forall2_concat.
  apply mapM_ok in E.
  assert (H : forall p, In p s -> recOf s (fst p) = snd p).
  { intros [n r] I. unfold recOf. cbn [fst snd]. rewrite (in_aget _ _ _ ND I). reflexivity. }
  assert (H2 : forall p, In p s -> forall key m, In (key, m) (snd p) -> series_is kf (win (fst p) key) m).
  { intros p I key m J. apply SI. rewrite (H p I). apply in_aget; [|exact J]. rewrite <- (H p I). apply NDr. }
  clear ND SI NDr H. induction E as [|p gs s' ls' X Y IH]; cbn [map]; constructor.
  - apply dumpRecorder_ok; [|exact X]. intros key m J. apply H2; [left; reflexivity|exact J].
  - apply IH. intros q I. apply H2. right. exact I.
Qed.

(** The time of an exported group is that of its series. *)
Lemma dumpRecorder_ts nm r gs : dumpRecorder nm r = Ok gs -> Forall2 (fun p e => gts e = vts (snd p)) r gs.
Proof.
  intros E. unfold dumpRecorder in E. apply mapM_ok in E. induction E as [|p g r gs X Y IH]; constructor; [|exact IH].
  destruct (getAll (snd p)); cbn [bind] in X; try discriminate. inversion X. reflexivity.
Qed.
Lemma dump_ts s ls : NoDup (keys s) -> (forall nm, NoDup (keys (recOf s nm))) ->
  mapM (fun p => dumpRecorder (fst p) (snd p)) s = Ok ls ->
  Forall2 (fun p e => exists m, aget (recOf s (fst p)) (snd p) = Some m /\ gts e = vts m) (all_series s) (List.concat ls).
Proof.
  intros ND NDr E. unfold all_series. rewrite <- concat_flat. apply Forall2_concat. apply mapM_ok in E.
  assert (H : forall p, In p s -> recOf s (fst p) = snd p).
  { intros [n r] I. unfold recOf. cbn [fst snd]. rewrite (in_aget _ _ _ ND I). reflexivity. }
  assert (H2 : forall p, In p s -> forall q, In q (snd p) -> aget (recOf s (fst p)) (fst q) = Some (snd q)).
  { intros p I [k m] J. rewrite (H p I). apply in_aget; [|exact J]. rewrite <- (H p I). apply NDr. }
  clear H NDr ND. revert H2. generalize (recOf s). intros rec H2. induction E as [|p gs s' ls' X Y IH]; cbn [map]; constructor.
  - apply dumpRecorder_ts in X. assert (H3 := H2 p (or_introl eq_refl)). clear -X H3. destruct p as [n r]. cbn [fst snd] in *.
    induction X as [|q g r gs X1 X2 IHX]; cbn [map]; constructor.
    + exists (snd q). split; [apply H3; left; reflexivity|exact X1].
    + apply IHX. intros q' I. apply H3. right. exact I.
  - apply IH. intros q I. apply H2. right. exact I.
Qed.

Lemma all_series_in s nm key : NoDup (keys s) -> In (nm, key) (all_series s) <-> aget (recOf s nm) key <> None.
Proof.
  intros ND. unfold all_series. rewrite in_flat_map. split.
  - intros ([n r] & I & J). apply in_map_iff in J. destruct J as ([k m] & E & J). cbn [fst snd] in *. inversion E; subst.
    unfold recOf. rewrite (in_aget _ _ _ ND I). intros X. apply aget_none_notin in X. apply X.
    apply in_map_iff. exists (key, m). auto.
  - intros X. unfold recOf in X. destruct (aget s nm) as [r|] eqn:G; [|cbn in X; congruence].
    destruct (aget r key) as [m|] eqn:G2; [|congruence].
    exists (nm, r). split; [apply aget_in; exact G|]. apply in_map_iff. exists (key, m). split; [reflexivity|].
    apply aget_in. exact G2.
Qed.

Lemma all_series_nodup s : NoDup (keys s) -> (forall p, In p s -> NoDup (keys (snd p))) -> NoDup (all_series s).
Proof.
  induction s as [|[n r] s IH]; intros ND H; [constructor|].
  cbn [all_series flat_map fst snd]. cbn [keys map fst] in ND. inversion ND as [|? ? NI ND']; subst.
  assert (A : NoDup (map (fun q : list lkey * vmap => (n, fst q)) r)).
  { specialize (H (n, r) (or_introl eq_refl)). cbn [snd] in H. unfold keys in H.
    clear -H. induction r as [|[k m] r IH]; cbn [map fst] in *; [constructor|]. inversion H as [|? ? NI ND]; subst.
    constructor; [|apply IH; assumption]. intros I. apply NI. apply in_map_iff in I. destruct I as (q & E & I).
    apply in_map_iff. exists q. split; [congruence|assumption]. }
  assert (B : NoDup (all_series s)) by (apply IH; [assumption|intros p I; apply H; right; exact I]).
  assert (C : forall x, In x (map (fun q : list lkey * vmap => (n, fst q)) r) -> ~ In x (all_series s)).
  { intros x I J. apply in_map_iff in I. destruct I as (q & <- & I). unfold all_series in J. apply in_flat_map in J.
    destruct J as ([n' r'] & J & K). apply in_map_iff in K. destruct K as (q' & E & K). inversion E; subst.
    apply NI. apply in_map_iff. exists (n, r'). auto. }
  clear -A B C. induction (map (fun q : list lkey * vmap => (n, fst q)) r) as [|x l IH]; [exact B|].
  cbn [app]. inversion A; subst. constructor.
  - intros I. apply in_app_or in I. destruct I as [I|I]; [contradiction|]. eapply C; [left; reflexivity|exact I].
  - apply IH; [assumption|]. intros y I. apply C. right. exact I.
Qed.
