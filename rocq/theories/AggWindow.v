(** C03 and C04 for every interleaving of concurrent Aggregate calls with dumps. *)
From Coq Require Import Sorting.Permutation.
From Verif Require Import Base Decimal AttrModel AttrProofs PoolModel KeyModel AggModel AggSpec AggProofs AggProofs2 AggConcModel AggConcSpec AggConcProps.

(** ** Readings in another order *)
Lemma zsum_perm a b : Permutation a b -> zsum a = zsum b.
Proof. induction 1; rewrite ?zsum_cons; lia. Qed.
Lemma sumOf_perm a b : Permutation a b -> sumOf a = sumOf b.
Proof. intros P. unfold sumOf. apply zsum_perm, Permutation_map, P. Qed.
Lemma countOf_perm a b : Permutation a b -> countOf a = countOf b.
Proof. intros P. unfold countOf. apply zsum_perm, Permutation_map, P. Qed.
Lemma ints_perm a b : Permutation a b -> Permutation (ints a) (ints b).
Proof. intros P. unfold ints. apply Permutation_flat_map, P. Qed.
Lemma max_perm a b : Permutation a b -> forall x, fold_left Z.max a x = fold_left Z.max b x.
Proof.
  induction 1 as [|y a b P IH|y z a|a b c P1 I1 P2 I2]; intros x; cbn [fold_left]; auto.
  - f_equal. lia.
  - rewrite I1. apply I2.
Qed.
Lemma last_in (l : list Z) : In (last l 0) l \/ l = [] /\ last l 0 = 0.
Proof.
  destruct l as [|x l]; [right; auto|left]. revert x. induction l as [|y l IH]; intros x; [left; reflexivity|].
  right. apply IH.
Qed.

Lemma shows_perm ds ds' c d : Permutation ds ds' -> d = expected c ds -> shows ds' c (c_out c, d).
Proof.
  intros P ->. split; [reflexivity|]. cbn [snd]. unfold expected.
  destruct (c_kind c).
  - rewrite (sumOf_perm _ _ P). reflexivity.
  - rewrite (max_perm _ _ (ints_perm _ _ P)). reflexivity.
  - rewrite (sumOf_perm _ _ P), (countOf_perm _ _ P). reflexivity.
  - exists (last (ints ds) 0). split; [reflexivity|]. pose proof (ints_perm _ _ P) as PI.
    destruct (last_in (ints ds)) as [I|[E I]].
    + left. eapply Permutation_in; eauto.
    + right. rewrite E in PI. apply Permutation_nil in PI. auto.
  - rewrite (countOf_perm _ _ P). reflexivity.
  - rewrite (sumOf_perm _ _ P), (countOf_perm _ _ P). f_equal. apply map_ext. intros q. f_equal.
    apply zsum_perm, Permutation_map, P.
Qed.

(** ** What the calls in progress still have to feed to one value *)
Definition mine (mn : string) (i : nat) (t : string * nat * mdata) : bool := eqb (fst (fst t)) mn && Nat.eqb (snd (fst t)) i.
Definition due (nm : string) (key : list lkey) (mn : string) (i : nat) (p : Z * flight) : list mdata :=
  if eqb (f_name (snd p)) nm && eqb (f_key (snd p)) key then map snd (filter (mine mn i) (f_todo (snd p))) else [].
Definition pending nm key mn i (fl : list (Z * flight)) : list mdata := flat_map (due nm key mn i) fl.

Lemma adel_notin {V} (l : list (Z * V)) k : ~ In k (keys l) -> adel l k = l.
Proof.
  intros N. unfold adel. induction l as [|[k' v'] l IH]; [reflexivity|]. cbn [filter fst]. cbn [keys map fst] in N.
  rewrite (proj2 (eqb_neq k k')) by (intros ->; apply N; left; reflexivity). cbn [negb]. f_equal. apply IH.
  intros I. apply N. right. exact I.
Qed.
Lemma flat_aset {V B} (F : Z * V -> list B) (l : list (Z * V)) k v : NoDup (keys l) ->
  Permutation (flat_map F (aset l k v)) (F (k, v) ++ flat_map F (adel l k)).
Proof.
  induction l as [|[k' v'] l IH]; intros ND; cbn [aset flat_map adel filter fst]; [reflexivity|].
  cbn [keys map fst] in ND. inversion ND as [|? ? NI ND']; subst.
  case_eqb k k'; cbn [negb flat_map].
  - subst k'. fold (adel l k). rewrite (adel_notin _ _ NI). reflexivity.
  - fold (adel l k). rewrite (IH ND'). rewrite !app_assoc. apply Permutation_app_tail. apply Permutation_app_comm.
Qed.
Lemma flat_adel {V B} (F : Z * V -> list B) (l : list (Z * V)) k v : NoDup (keys l) -> aget l k = Some v ->
  Permutation (flat_map F l) (F (k, v) ++ flat_map F (adel l k)).
Proof.
  induction l as [|[k' v'] l IH]; intros ND G; [discriminate|]. cbn [aget] in G. cbn [flat_map adel filter fst].
  cbn [keys map fst] in ND. inversion ND as [|? ? NI ND']; subst.
  case_eqb k k'; cbn [negb flat_map].
  - subst k'. inversion G; subst v'. fold (adel l k). rewrite (adel_notin _ _ NI). reflexivity.
  - fold (adel l k). rewrite (IH ND' G). rewrite !app_assoc. apply Permutation_app_tail. apply Permutation_app_comm.
Qed.
Lemma flat_none {V B} (F : Z * V -> list B) (l : list (Z * V)) k v : NoDup (keys l) -> aget l k = None ->
  Permutation (flat_map F (aset l k v)) (F (k, v) ++ flat_map F l).
Proof. intros ND G. rewrite (flat_aset F l k v ND). rewrite adel_notin; [reflexivity|]. apply aget_none_notin. exact G. Qed.

Lemma seq_one {B} (i n : nat) (f : nat -> B) : forall m, (m <= i < m + n)%nat ->
  map f (filter (fun j => Nat.eqb j i) (seq m n)) = [f i].
Proof.
  induction n as [|n IH]; intros m L; [lia|]. cbn [seq filter]. destruct (Nat.eqb_spec m i) as [->|N].
  - cbn [map]. f_equal. clear. assert (G : forall q m, (i < m)%nat -> filter (fun j => Nat.eqb j i) (seq m q) = []).
    { induction q as [|q IH]; intros m L; [reflexivity|]. cbn [seq filter]. destruct (Nat.eqb_spec m i); [lia|]. apply IH. lia. }
    rewrite G by lia. reflexivity.
  - apply IH. lia.
Qed.
Lemma filter_map_comm {A B} (p : B -> bool) (f : A -> B) l : filter p (map f l) = map f (filter (fun x => p (f x)) l).
Proof. induction l as [|a l IH]; [reflexivity|]. cbn [map filter]. destruct (p (f a)); cbn [map]; rewrite IH; reflexivity. Qed.

Lemma todo_data m ms mn sl i : aget (vals m) mn = Some sl -> (i < List.length sl)%nat ->
  map snd (filter (mine mn i) (todoOf m ms)) = dataOf ms mn.
Proof.
  intros G L. unfold todoOf, dataOf. induction ms as [|[n d] ms IH]; [reflexivity|]. cbn [flat_map fst snd].
  rewrite filter_app, map_app, IH. cbn [filter fst]. case_eqb n mn.
  - subst n. rewrite G. cbn [map snd]. rewrite filter_map_comm, map_map. cbn [snd]. unfold mine. cbn [fst snd].
    rewrite eqb_refl. cbn [andb]. rewrite (seq_one i (List.length sl) (fun _ => d) 0) by lia. reflexivity.
  - destruct (aget (vals m) n) as [sl'|]; [|reflexivity]. rewrite filter_map_comm, map_map. unfold mine. cbn [fst snd].
    rewrite (proj2 (eqb_neq n mn) E). cbn [andb].
    assert (Z : forall l : list nat, filter (fun _ => false) l = []) by (induction l; auto). rewrite Z. reflexivity.
Qed.

(** ** The values of a series and the readings of its window *)
Section Window.
Variable km : kindMap.

Definition value_is (nm : string) (key : list lkey) (ws : list group) (fl : list (Z * flight)) (mn : string) (i : nat) (c : kcfg) (a : aggv) : Prop :=
  exists ds, a = {| a_name := c_out c; a_core := coreOf c ds |} /\ Permutation (ds ++ pending nm key mn i fl) (readings ws mn).

Definition tally (nm : string) (key : list lkey) (ws : list group) (fl : list (Z * flight)) (m : vmap) : Prop :=
  exists g0 r, ws = g0 :: r /\ NoDup (keys (vals m)) /\
    (forall x, In x (keys (vals m)) <-> In x (mnames g0) /\ kindsDefault km x <> None) /\
    (forall mn sl, aget (vals m) mn = Some sl -> exists cs, kindsDefault km mn = Some cs /\ List.length sl = List.length cs /\
       forall i c a, nth_error cs i = Some c -> nth_error sl i = Some a -> value_is nm key ws fl mn i c a).

Definition winv (h : list agg_op) (st : conc_state) : Prop :=
  NoDup (keys (fst st)) /\ (forall nm, NoDup (keys (recOf (fst st) nm))) /\ NoDup (keys (snd st)) /\
  (forall nm key, match aget (recOf (fst st) nm) key with
                  | None => window nm key h = [] /\
                            forall id f, aget (snd st) id = Some f -> f_name f = nm -> f_key f <> key
                  | Some m => tally nm key (window nm key h) (snd st) m
                  end).

Lemma pending_none nm key mn i fl : NoDup (keys fl) -> (forall id f, aget fl id = Some f -> f_name f = nm -> f_key f <> key) -> pending nm key mn i fl = [].
Proof.
  intros ND N. unfold pending. assert (G : forall p, In p fl -> due nm key mn i p = []).
  { intros [id f] I. unfold due. cbn [snd]. case_eqb (f_name f) nm; [|reflexivity].
    rewrite (proj2 (eqb_neq (f_key f) key)); [reflexivity|]. exact (N id f (in_aget _ _ _ ND I) E). }
  clear ND N. induction fl as [|p fl IH]; [reflexivity|]. cbn [flat_map]. rewrite (G p (or_introl eq_refl)). cbn [app].
  apply IH. intros q I. apply G. right. exact I.
Qed.

Lemma tally_pend nm key ws fl fl' m :
  (forall mn i, Permutation (pending nm key mn i fl') (pending nm key mn i fl)) ->
  tally nm key ws fl m -> tally nm key ws fl' m.
Proof.
  intros P (g0 & r & E & ND & K & V). exists g0, r. split; [exact E|]. split; [exact ND|]. split; [exact K|].
  intros mn sl G. destruct (V _ _ G) as (cs & KC & LN & H). exists cs. split; [exact KC|]. split; [exact LN|].
  intros i c a NC NA. destruct (H i c a NC NA) as (ds & A & PE). exists ds. split; [exact A|]. rewrite P. exact PE.
Qed.

Lemma begin_winv h s fl id g sels es st' :
  winv h (s, fl) -> conc_step km (s, fl) (ABegin id g sels) = Ok (es, st') -> winv (h ++ [OAgg g sels]) st' /\ es = [].
Proof.
  intros (ND & NDr & NDf & W) ST. cbn [conc_step] in ST. cbn [fst snd] in *.
  destruct (aget fl id) as [?|] eqn:GF; [discriminate|].
  set (key := getLabelKeys sels (glabels g)) in *.
  set (m := match aget (recOf s (gname g)) key with Some m => m | None => newValues (kindsDefault km) (gmetrics g) end) in *.
  inversion ST; subst es st'; clear ST. split; [|reflexivity].
  split; [apply NoDup_keys_aset; exact ND|]. split.
  { intros n. cbn [fst]. rewrite recOf_aset. destruct (eqb n (gname g)); [apply NoDup_keys_aset|]; apply NDr. }
  split; [apply NoDup_keys_aset; exact NDf|]. cbn [fst snd]. intros n k.
  set (f := {| f_name := gname g; f_key := key; f_todo := todoOf m (gmetrics g) |}).
  assert (PD : forall mn i, Permutation (pending n k mn i (aset fl id f)) (due n k mn i (id, f) ++ pending n k mn i fl)).
  { intros mn i. unfold pending. apply flat_none; assumption. }
  assert (OTH : n <> gname g \/ k <> key -> (forall mn i, due n k mn i (id, f) = []) /\ window n k (h ++ [OAgg g sels]) = window n k h).
  { intros O. split.
    - intros mn i. unfold due, f. cbn [snd f_name f_key]. destruct O as [O|O].
      + rewrite (proj2 (eqb_neq (gname g) n)) by congruence. reflexivity.
      + rewrite (proj2 (eqb_neq key k)) by congruence. rewrite andb_false_r. reflexivity.
    - rewrite window_snoc. cbn [window_step]. fold key. destruct O as [O|O].
      + rewrite (proj2 (eqb_neq (gname g) n)) by congruence. reflexivity.
      + rewrite (proj2 (eqb_neq key k)) by congruence. rewrite andb_false_r. reflexivity. }
  assert (REST : n <> gname g \/ k <> key -> match aget (recOf s n) k with
                  | None => window n k (h ++ [OAgg g sels]) = [] /\
                            forall id0 f0, aget (aset fl id f) id0 = Some f0 -> f_name f0 = n -> f_key f0 <> k
                  | Some m => tally n k (window n k (h ++ [OAgg g sels])) (aset fl id f) m
                  end).
  { intros O. destruct (OTH O) as [DU WI]. specialize (W n k). rewrite WI. destruct (aget (recOf s n) k) as [m1|].
    - eapply tally_pend; [|exact W]. intros mn i. rewrite PD, DU. reflexivity.
    - destruct W as [W1 W2]. split; [exact W1|]. intros j f0. rewrite aget_aset. destruct (eqb j id).
      + intros X; inversion X; subst f0. unfold f. cbn [f_name f_key]. intros <-. destruct O as [O|O]; congruence.
      + apply W2. }
  rewrite recOf_aset. case_eqb n (gname g); [|apply REST; auto].
  subst n. rewrite aget_aset. case_eqb k key; [|apply REST; auto].
  subst k. clear REST OTH. rewrite window_snoc. cbn [window_step]. fold key. rewrite !eqb_refl. cbn [andb].
  specialize (W (gname g) key).
  assert (DU : forall mn i sl, aget (vals m) mn = Some sl -> (i < List.length sl)%nat -> due (gname g) key mn i (id, f) = dataOf (gmetrics g) mn).
  { intros mn i sl G L. unfold due, f. cbn [snd f_name f_key f_todo]. rewrite !eqb_refl. cbn [andb]. eapply todo_data; eassumption. }
  assert (LT : forall (sl : list aggv) i a, nth_error sl i = Some a -> (i < List.length sl)%nat).
  { intros sl i a X. apply nth_error_Some. congruence. }
  destruct (aget (recOf s (gname g)) key) as [m0|] eqn:G0; subst m.
  - destruct W as (g0 & r & E & NDv & K & V). exists g0, (r ++ [g]). split; [rewrite E; reflexivity|]. split; [exact NDv|]. split; [exact K|].
    intros mn sl G. destruct (V _ _ G) as (cs & KC & LN & H). exists cs. split; [exact KC|]. split; [exact LN|].
    intros i c a NC NA. destruct (H i c a NC NA) as (ds & A & PE). exists ds. split; [exact A|].
    rewrite PD, (DU _ _ _ G (LT _ _ _ NA)), readings_snoc. rewrite <- PE.
    rewrite (Permutation_app_comm (dataOf (gmetrics g) mn)). rewrite app_assoc. reflexivity.
  - destruct W as [W1 W2]. rewrite W1. cbn [app].
    destruct (newValues_are (kindsDefault km) (gmetrics g)) as (A & B & C).
    exists g, []. split; [reflexivity|]. split; [exact A|]. split; [exact B|].
    intros mn sl G. destruct (C _ _ G) as (cs & KC & SL). exists cs. split; [exact KC|].
    split; [rewrite SL; unfold sliceOf; apply map_length|].
    intros i c a NC NA. exists []. split.
    + rewrite SL in NA. unfold sliceOf in NA. rewrite nth_error_map, NC in NA. inversion NA. reflexivity.
    + cbn [app]. rewrite PD, (DU _ _ _ G (LT _ _ _ NA)), (pending_none _ _ _ _ _ NDf W2).
      rewrite app_nil_r. unfold readings. cbn [flat_map]. rewrite app_nil_r. reflexivity.
Qed.

Lemma window_in nm key : forall h g, In g (window nm key h) -> exists sels, In (OAgg g sels) h.
Proof.
  intros h. induction h as [|o h IH] using rev_ind; intros g I; [destruct I|].
  rewrite window_snoc in I. destruct o as [g' s'| |n]; cbn [window_step] in I.
  - destruct (_ && _) in I.
    + apply in_app_or in I. destruct I as [I|[<-|[]]].
      * destruct (IH _ I) as (x & J). exists x. apply in_or_app. auto.
      * exists s'. apply in_or_app. right. left. reflexivity.
    + destruct (IH _ I) as (x & J). exists x. apply in_or_app. auto.
  - destruct I.
  - destruct (eqb n nm); [destruct I|]. destruct (IH _ I) as (x & J). exists x. apply in_or_app. auto.
Qed.
Lemma readings_in ws mn d : In d (readings ws mn) -> exists g, In g ws /\ In (mn, d) (gmetrics g).
Proof.
  unfold readings. intros I. apply in_flat_map in I. destruct I as (g & J & I). exists g. split; [exact J|].
  apply in_map_iff in I. destruct I as ([n x] & E & I). apply filter_In in I. destruct I as [I E2]. cbn [fst snd] in *.
  apply (eqb_eq n mn) in E2. subst. exact I.
Qed.

Lemma feed_winv h s fl id es st' :
  (forall g sels, In (OAgg g sels) h -> readings_ok km g) ->
  winv h (s, fl) -> conc_step km (s, fl) (AFeed id) = Ok (es, st') -> winv h st' /\ es = [].
Proof.
  intros RO (ND & NDr & NDf & W) ST. cbn [conc_step] in ST. cbn [fst snd] in *.
  destruct (aget fl id) as [f|] eqn:GF; [|discriminate].
  destruct (f_todo f) as [|[[mn i] d] rest] eqn:TD; [discriminate|].
  destruct (aget (recOf s (f_name f)) (f_key f)) as [m|] eqn:G; [|discriminate].
  destruct (aget (vals m) mn) as [sl|] eqn:GV; [|discriminate].
  unfold feedAt in ST. destruct (nth_error sl i) as [a|] eqn:NA; [|discriminate].
  destruct (feed a d) as [a'| |] eqn:FD; cbn [bind] in ST; try discriminate.
  inversion ST; subst es st'; clear ST. split; [|reflexivity].
  set (f' := {| f_name := f_name f; f_key := f_key f; f_todo := rest |}).
  set (m' := {| vals := aset (vals m) mn (set_nth sl i a'); vts := vts m; vupd := vupd m |}).
  assert (PD : forall n k x j, Permutation (pending n k x j fl) (due n k x j (id, f) ++ pending n k x j (adel fl id))).
  { intros. unfold pending. apply flat_adel; assumption. }
  assert (PD' : forall n k x j, Permutation (pending n k x j (aset fl id f')) (due n k x j (id, f') ++ pending n k x j (adel fl id))).
  { intros. unfold pending. apply flat_aset; assumption. }
  assert (DO : forall n k x j, (n <> f_name f \/ k <> f_key f \/ x <> mn \/ j <> i) -> due n k x j (id, f) = due n k x j (id, f')).
  { intros n k x j O. unfold due, f'. cbn [snd f_name f_key f_todo]. rewrite TD. case_eqb (f_name f) n; [|reflexivity].
    case_eqb (f_key f) k; [|reflexivity]. cbn [andb filter]. unfold mine at 1. cbn [fst snd].
    case_eqb mn x; [|reflexivity]. destruct (Nat.eqb_spec i j); [|reflexivity]. exfalso. subst. intuition. }
  assert (DS : due (f_name f) (f_key f) mn i (id, f) = d :: due (f_name f) (f_key f) mn i (id, f')).
  { unfold due, f'. cbn [snd f_name f_key f_todo]. rewrite TD, !eqb_refl. cbn [andb filter]. unfold mine at 1. cbn [fst snd].
    rewrite eqb_refl, Nat.eqb_refl. reflexivity. }
  assert (PO : forall n k x j, (n <> f_name f \/ k <> f_key f \/ x <> mn \/ j <> i) ->
     Permutation (pending n k x j (aset fl id f')) (pending n k x j fl)).
  { intros n k x j O. rewrite PD, PD', (DO _ _ _ _ O). reflexivity. }
  split; [apply NoDup_keys_aset; exact ND|]. split.
  { intros n. cbn [fst]. rewrite recOf_aset. destruct (eqb n (f_name f)); [apply NoDup_keys_aset|]; apply NDr. }
  split; [apply NoDup_keys_aset; exact NDf|]. cbn [fst snd]. intros n k.
  assert (REST : n <> f_name f \/ k <> f_key f -> match aget (recOf s n) k with
                  | None => window n k h = [] /\
                            forall id0 f0, aget (aset fl id f') id0 = Some f0 -> f_name f0 = n -> f_key f0 <> k
                  | Some m => tally n k (window n k h) (aset fl id f') m
                  end).
  { intros O. specialize (W n k). destruct (aget (recOf s n) k) as [m1|].
    - eapply tally_pend; [|exact W]. intros x j. apply PO. destruct O; auto.
    - destruct W as [W1 W2]. split; [exact W1|]. intros j f0. rewrite aget_aset. destruct (eqb j id).
      + intros X; inversion X; subst f0. unfold f'. cbn [f_name f_key]. apply (W2 id f GF).
      + apply W2. }
  rewrite recOf_aset. case_eqb n (f_name f); [|apply REST; auto]. subst n.
  rewrite aget_aset. case_eqb k (f_key f); [|apply REST; auto]. subst k. clear REST.
  specialize (W (f_name f) (f_key f)). rewrite G in W. set (ws := window (f_name f) (f_key f) h) in *.
  destruct W as (g0 & r & E & NDv & K & V). exists g0, r. split; [exact E|].
  unfold m'. cbn [vals]. split; [apply NoDup_keys_aset; exact NDv|]. split.
  { intros x. rewrite in_keys_aset, K. split; [|auto]. intros [->|X]; [|exact X]. apply K. eapply aget_some_in_keys. exact GV. }
  intros x sl1. rewrite aget_aset. case_eqb x mn.
  - subst x. intros X; inversion X; subst sl1; clear X. destruct (V _ _ GV) as (cs & KC & LN & H).
    exists cs. split; [exact KC|]. split; [rewrite set_nth_length; exact LN|].
    intros j c b NC NB. destruct (Nat.eq_dec j i) as [->|NE].
    + rewrite nth_set_same in NB by (apply nth_error_Some; congruence). inversion NB; subst b; clear NB.
      destruct (H i c a NC NA) as (ds & A & PE). exists (ds ++ [d]).
      assert (HO : hist_ok c d).
      { assert (I : In d (readings ws mn)).
        { eapply Permutation_in; [exact PE|]. apply in_or_app. right. eapply Permutation_in; [symmetry; apply PD|].
          rewrite DS. left. reflexivity. }
        destruct (readings_in _ _ _ I) as (gg & I1 & I2). destruct (window_in _ _ _ _ I1) as (ss & I3).
        exact (RO gg ss I3 mn d cs c I2 KC (nth_error_In _ _ NC)). }
      split.
      * subst a. unfold feed in FD. cbn [a_core a_name] in FD. rewrite (feedCore_ok c ds d HO) in FD. cbn [bind] in FD.
        inversion FD. reflexivity.
      * rewrite PD'. rewrite <- PE. rewrite PD, DS. rewrite <- app_assoc. reflexivity.
    + rewrite nth_set_other in NB by exact NE. destruct (H j c b NC NB) as (ds & A & PE). exists ds. split; [exact A|].
      rewrite PO by auto. exact PE.
  - intros G1. destruct (V _ _ G1) as (cs & KC & LN & H). exists cs. split; [exact KC|]. split; [exact LN|].
    intros j c b NC NB. destruct (H j c b NC NB) as (ds & A & PE). exists ds. split; [exact A|]. rewrite PO by auto. exact PE.
Qed.

Lemma end_winv h s fl id es st' :
  winv h (s, fl) -> conc_step km (s, fl) (AEnd id) = Ok (es, st') -> winv h st' /\ es = [].
Proof.
  intros (ND & NDr & NDf & W) ST. cbn [conc_step] in ST. cbn [fst snd] in *.
  destruct (aget fl id) as [f|] eqn:GF; [|discriminate]. destruct (f_todo f) eqn:TD; [|discriminate].
  inversion ST; subst es st'; clear ST. split; [|reflexivity].
  split; [exact ND|]. split; [exact NDr|]. split; [apply NoDup_keys_adel; exact NDf|]. cbn [fst snd]. intros n k.
  specialize (W n k). destruct (aget (recOf s n) k) as [m|].
  - eapply tally_pend; [|exact W]. intros mn i. unfold pending. rewrite (flat_adel (due n k mn i) fl id f NDf GF).
    unfold due at 2. cbn [snd]. rewrite TD. cbn [filter map]. destruct (_ && _); reflexivity.
  - destruct W as [W1 W2]. split; [exact W1|]. intros j f0. rewrite aget_adel. destruct (eqb j id); [discriminate|apply W2].
Qed.

Lemma dumps_winv h s fl a o es st' :
  (a = ADump /\ o = ODump \/ exists n, a = ADumpSingle n /\ o = ODumpSingle n) ->
  winv h (s, fl) -> conc_step km (s, fl) a = Ok (es, st') -> winv (h ++ [o]) st'.
Proof.
  intros AA (ND & NDr & NDf & W) ST. cbn [fst snd] in *.
  destruct AA as [[-> ->]|(n & -> & ->)]; cbn [conc_step] in ST; (destruct fl as [|? ?]; [|discriminate]).
  - unfold dump in ST. destruct (mapM _ s) as [ls| |] eqn:M; cbn [bind fst snd] in ST; try discriminate. inversion ST; subst es st'.
    split; [unfold keys in *; cbn [fst]; rewrite map_map; exact ND|]. cbn [fst snd].
    split; [intros; rewrite recOf_reset; constructor|]. split; [constructor|]. intros nm k. rewrite recOf_reset. cbn [aget].
    rewrite window_snoc. split; [reflexivity|]. intros id f; discriminate.
  - unfold dumpSingle in ST. destruct (aget s n) as [r|] eqn:G.
    + destruct (dumpRecorder n r) as [gs| |] eqn:D; cbn [bind fst snd] in ST; try discriminate. inversion ST; subst es st'.
      split; [apply NoDup_keys_aset; exact ND|]. cbn [fst snd].
      split; [intros x; rewrite recOf_aset; destruct (eqb x n); [constructor|apply NDr]|]. split; [constructor|].
      intros x k. rewrite recOf_aset, window_snoc. cbn [window_step]. rewrite (eqb_sym n x). destruct (eqb x n).
      * cbn [aget]. split; [reflexivity|]. intros id f; discriminate.
      * apply W.
    + cbn [bind fst snd] in ST. inversion ST; subst es st'. split; [exact ND|]. split; [exact NDr|]. split; [exact NDf|].
      cbn [fst snd]. intros x k. rewrite window_snoc. cbn [window_step]. case_eqb n x; [|apply W]. subst x.
      unfold recOf. rewrite G. cbn [aget]. split; [reflexivity|]. intros id f; discriminate.
Qed.

Lemma run_winv : forall l h st es st', (forall g sels, In (OAgg g sels) (h ++ calls l) -> readings_ok km g) ->
  winv h st -> conc_run km st l = Ok (es, st') -> winv (h ++ calls l) st'.
Proof.
  induction l as [|a l IH]; intros h st es st' RO CI R; cbn [conc_run] in R.
  - inversion R; subst. cbn [calls flat_map]. rewrite app_nil_r. exact CI.
  - destruct (conc_step km st a) as [[e1 s1]| |] eqn:S1; cbn [bind fst snd] in R; try discriminate.
    destruct (conc_run km s1 l) as [[e2 s2]| |] eqn:R2; cbn [bind fst snd] in R; try discriminate.
    inversion R; subst es s2; clear R.
    set (o := match a with ABegin _ g sels => [OAgg g sels] | ADump => [ODump] | ADumpSingle n => [ODumpSingle n] | _ => [] end).
    assert (CE : calls (a :: l) = o ++ calls l) by reflexivity. rewrite CE in *. rewrite app_assoc in *.
    eapply IH; [exact RO| |exact R2].
    destruct st as [s fl]. destruct a as [id g sels|id|id| |n]; unfold o.
    + eapply begin_winv; eassumption.
    + rewrite app_nil_r. eapply feed_winv; [|exact CI|exact S1]. intros g sels I. apply (RO g sels).
      apply in_or_app. left. apply in_or_app. left. exact I.
    + rewrite app_nil_r. eapply end_winv; eassumption.
    + eapply dumps_winv; [left; auto|exact CI|exact S1].
    + eapply dumps_winv; [right; eauto|exact CI|exact S1].
Qed.

Lemma getAll_shows nm key ws m ms : tally nm key ws [] m -> getAll m = Ok ms -> shows_all (kindsDefault km) ws ms.
Proof.
  intros (g0 & r & E & ND & K & V) G. unfold getAll in G.
  destruct (mapM _ (vals m)) as [ls| |] eqn:M; cbn [bind] in G; try discriminate. inversion G; subst ms; clear G.
  exists g0, r, (keys (vals m)), ls. split; [exact E|]. split; [exact ND|]. split; [exact K|]. split; [reflexivity|].
  apply mapM_ok in M.
  assert (V' : forall p, In p (vals m) -> exists cs, kindsDefault km (fst p) = Some cs /\ List.length (snd p) = List.length cs /\
       forall i c a, nth_error cs i = Some c -> nth_error (snd p) i = Some a -> value_is nm key ws [] (fst p) i c a).
  { intros [x sl] I. cbn [fst snd]. apply V. apply in_aget; assumption. }
  clear K V ND. revert V'. induction M as [|p l vs ls X Y IH]; intros V'; [constructor|]. unfold keys. cbn [map].
  constructor; [|apply IH; intros q I; apply V'; right; exact I].
  destruct (V' p (or_introl eq_refl)) as (cs & KC & LN & H). exists cs. split; [exact KC|].
  apply mapM_ok in X. clear -X LN H. revert cs LN H. generalize (snd p) X. clear X.
  assert (GG : forall sl (X : Forall2 (fun a b => bind (getCore (a_core a)) (fun d => Ok (a_name a, d)) = Ok b) sl l) n cs,
     List.length sl = List.length cs ->
     (forall i c a, nth_error cs i = Some c -> nth_error sl i = Some a -> value_is nm key ws [] (fst p) (n + i) c a) ->
     Forall2 (shows (readings ws (fst p))) cs l).
  { intros sl X. induction X as [|a b sl l E X IH]; intros n cs LN H; destruct cs as [|c cs]; cbn in LN; try discriminate; [constructor|].
    constructor.
    - destruct (H 0%nat c a eq_refl eq_refl) as (ds & -> & PE). cbn [a_core a_name] in E. unfold pending in PE. cbn [flat_map] in PE.
      rewrite app_nil_r in PE. destruct (getCore (coreOf c ds)) as [d| |] eqn:GC; cbn [bind] in E; try discriminate.
      inversion E; subst b. eapply shows_perm; [exact PE|]. apply getCore_expected. exact GC.
    - apply (IH (S n)); [lia|]. intros i c' a' N1 N2. specialize (H (S i) c' a' N1 N2).
      replace (S n + i)%nat with (n + S i)%nat by lia. exact H. }
  intros sl X cs LN H. exact (GG sl X 0%nat cs LN H).
Qed.

Lemma dumpRecorder_shows win nm r gs :
  (forall key m, In (key, m) r -> tally nm key (win nm key) [] m) ->
  dumpRecorder nm r = Ok gs -> Forall2 (portrays (kindsDefault km) win) (map (fun p => (nm, fst p)) r) gs.
Proof.
  intros SI E. unfold dumpRecorder in E. apply mapM_ok in E. revert gs E.
  induction r as [|[key m] r IH]; intros gs E; inversion E as [|? g ? gs' X Y]; subst; cbn [map]; constructor.
  - cbn [fst snd] in X. destruct (getAll m) as [ms| |] eqn:G; cbn [bind] in X; try discriminate. inversion X; subst g.
    split; [reflexivity|]. split; [reflexivity|]. cbn [fst snd gmetrics]. eapply getAll_shows; [|exact G].
    apply SI. left. reflexivity.
  - apply IH; [|assumption]. intros k m' I. apply SI. right. exact I.
Qed.

Lemma dump_shows win s ls :
  NoDup (keys s) ->
  (forall nm key m, aget (recOf s nm) key = Some m -> tally nm key (win nm key) [] m) ->
  (forall nm, NoDup (keys (recOf s nm))) ->
  mapM (fun p => dumpRecorder (fst p) (snd p)) s = Ok ls ->
  Forall2 (portrays (kindsDefault km) win) (all_series s) (List.concat ls).
Proof.
  intros ND SI NDr E. unfold all_series. rewrite <- concat_flat. apply Forall2_concat.
  assert (P : forall p, In p s -> forall key m, In (key, m) (snd p) -> tally (fst p) key (win (fst p) key) [] m).
  { intros [n r] I key m J. cbn [fst snd] in *. apply SI. specialize (NDr n). unfold recOf in *.
    rewrite (in_aget _ _ _ ND I) in *. apply in_aget; assumption. }
  clear ND SI NDr. apply mapM_ok in E. induction E as [|p gs s' ls' X Y IH]; cbn [map]; constructor.
  - apply dumpRecorder_shows; [|exact X]. intros key m. apply P. left. reflexivity.
  - apply IH. intros q I. apply P. right. exact I.
Qed.

Lemma winv_nil : winv [] ([], []).
Proof.
  split; [constructor|]. split; [intros; constructor|]. split; [constructor|]. intros nm key. cbn. split; [reflexivity|].
  intros id f; discriminate.
Qed.

Lemma conc_run_app : forall a b st, conc_run km st (a ++ b) =
  bind (conc_run km st a) (fun r => bind (conc_run km (snd r) b) (fun r' => Ok (fst r ++ fst r', snd r'))).
Proof.
  induction a as [|o a IH]; intros b st; cbn [app conc_run].
  - cbn [bind fst snd app]. destruct (conc_run km st b) as [[]| |]; reflexivity.
  - destruct (conc_step km st o) as [[e1 s1]| |]; cbn [bind fst snd]; try reflexivity.
    rewrite IH. destruct (conc_run km s1 a) as [[e2 s2]| |]; cbn [bind fst snd]; try reflexivity.
    destruct (conc_run km s2 b) as [[e3 s3]| |]; reflexivity.
Qed.
End Window.

(** However concurrent Aggregate calls interleave, a Dump exports one group per series that received anything since the
    last dump, and each of its values describes exactly the readings of the calls since then: sums, counts, maxima,
    averages and histograms are what those readings come to, and the last value is one of them. *)
Theorem C03_dump_exports_windows_under_concurrency : forall km l es st,
  (forall g sels, In (OAgg g sels) (calls l) -> readings_ok km g) ->
  conc_run km ([], []) (l ++ [ADump]) = Ok (es, st) ->
  exists before gs series, es = before ++ [gs] /\ NoDup series /\
    (forall nm key, In (nm, key) series <-> window nm key (calls l) <> []) /\
    Forall2 (portrays (kindsDefault km) (fun nm key => window nm key (calls l))) series gs.
Proof.
  intros km l es st RO R. rewrite conc_run_app in R.
  destruct (conc_run km ([], []) l) as [[e1 [s1 fl]]| |] eqn:R1; cbn [bind fst snd] in R; try discriminate.
  pose proof (run_winv km l [] _ _ _ RO (winv_nil km) R1) as (NDs & NDr & NDf & W). cbn [app fst snd] in *.
  cbn [conc_run conc_step] in R. destruct fl as [|? ?]; [|discriminate].
  unfold dump in R. destruct (mapM _ s1) as [ls| |] eqn:M; cbn [bind fst snd] in R; try discriminate.
  inversion R; subst es st; clear R.
  exists e1, (List.concat ls), (all_series s1). split; [reflexivity|]. split; [|split].
  - apply all_series_nodup; [exact NDs|]. intros [n r] I. cbn [snd]. specialize (NDr n). unfold recOf in NDr.
    rewrite (in_aget _ _ _ NDs I) in NDr. exact NDr.
  - intros nm key. rewrite all_series_in by exact NDs. specialize (W nm key).
    destruct (aget (recOf s1 nm) key) as [m|].
    + destruct W as (g0 & r & E & _). rewrite E. split; intros _; discriminate.
    + destruct W as [W _]. split; congruence.
  - apply dump_shows; [exact NDs| |exact NDr|exact M]. intros nm key m G. specialize (W nm key). rewrite G in W. exact W.
Qed.
Print Assumptions C03_dump_exports_windows_under_concurrency.

Theorem C03_dump_single_exports_windows_under_concurrency : forall km l n es st,
  (forall g sels, In (OAgg g sels) (calls l) -> readings_ok km g) ->
  conc_run km ([], []) (l ++ [ADumpSingle n]) = Ok (es, st) ->
  exists before gs series, es = before ++ [gs] /\ NoDup series /\
    (forall nm key, In (nm, key) series <-> nm = n /\ window nm key (calls l) <> []) /\
    Forall2 (portrays (kindsDefault km) (fun nm key => window nm key (calls l))) series gs.
Proof.
  intros km l n es st RO R. rewrite conc_run_app in R.
  destruct (conc_run km ([], []) l) as [[e1 [s1 fl]]| |] eqn:R1; cbn [bind fst snd] in R; try discriminate.
  pose proof (run_winv km l [] _ _ _ RO (winv_nil km) R1) as (NDs & NDr & NDf & W). cbn [app fst snd] in *.
  cbn [conc_run conc_step] in R. destruct fl as [|? ?]; [|discriminate].
  unfold dumpSingle in R. pose proof (W n) as Wn. specialize (NDr n). unfold recOf in Wn, NDr.
  destruct (aget s1 n) as [r|] eqn:G.
  - destruct (dumpRecorder n r) as [gs| |] eqn:D; cbn [bind fst snd] in R; try discriminate. inversion R; subst es st; clear R.
    exists e1, gs, (map (fun p => (n, fst p)) r). split; [reflexivity|]. split; [|split].
    + unfold keys in NDr. clear -NDr. induction r as [|[k m] r IH]; cbn [map fst] in *; [constructor|].
      inversion NDr as [|? ? NI ND]; subst. constructor; [|apply IH; assumption]. intros I. apply NI.
      apply in_map_iff in I. destruct I as (q & E & I). apply in_map_iff. exists q. split; [congruence|assumption].
    + intros nm key. rewrite in_map_iff. specialize (Wn key). split.
      * intros ([k m] & E & I). cbn [fst] in E. inversion E; subst. split; [reflexivity|].
        rewrite (in_aget _ _ _ NDr I) in Wn. destruct Wn as (g0 & r0 & E2 & _). rewrite E2. discriminate.
      * intros [-> NE]. destruct (aget r key) as [m|] eqn:G2; [|destruct Wn; congruence].
        exists (key, m). split; [reflexivity|apply aget_in; exact G2].
    + apply dumpRecorder_shows; [|exact D]. intros key m I. specialize (Wn key). rewrite (in_aget _ _ _ NDr I) in Wn. exact Wn.
  - cbn [bind fst snd] in R. inversion R; subst es st; clear R. exists e1, [], []. split; [reflexivity|]. split; [constructor|]. split; [|constructor].
    intros nm key. split; [intros []|]. intros [-> NE]. exfalso. apply NE. specialize (Wn key). cbn in Wn. apply Wn.
Qed.
Print Assumptions C03_dump_single_exports_windows_under_concurrency.

(** Histograms under concurrency: the exported histogram of integer readings counts, for each bound, the readings of the
    window at or below it. *)
Theorem C04_histogram_under_concurrency : forall km l es st,
  (forall g sels, In (OAgg g sels) (calls l) -> int_group g) ->
  conc_run km ([], []) (l ++ [ADump]) = Ok (es, st) ->
  exists before gs, es = before ++ [gs] /\
  forall e out s n b k, In e gs -> In (out, MHist s n b k) (gmetrics e) ->
    exists key m cs c xs, window (gname e) key (calls l) <> [] /\ glabels e = getLabels key /\
      aget km m = Some cs /\ In c cs /\ c_out c = out /\ c_kind c = HistogramKind /\
      readings (window (gname e) key (calls l)) m = map MInt xs /\
      s = s64 (zsum xs) /\ n = w64 (Z.of_nat (List.length xs)) /\ b = c_bounds c /\
      k = map (fun t => w64 (Z.of_nat (List.length (filter (fun x => x <=? t) xs)))) b.
Proof.
  intros km l es st IG R.
  destruct (C03_dump_exports_windows_under_concurrency km l es st) as (before & gs & series & E & ND & SE & F); [|exact R|].
  { intros g sels I m d cs c J _ _. destruct (IG g sels I m d J) as (x & ->). exact Logic.I. }
  exists before, gs. split; [exact E|]. intros e out s n b k IE IM.
  assert (P : exists p, In p series /\ portrays (kindsDefault km) (fun nm key => window nm key (calls l)) p e).
  { clear -F IE. induction F as [|p g series gs X Y IH]; [destruct IE|]. destruct IE as [<-|IE].
    - exists p. split; [left; reflexivity|exact X].
    - destruct (IH IE) as (q & A & B). exists q. split; [right; exact A|exact B]. }
  destruct P as ([nm key] & IS & N & LB & g0 & r & names & ls & WE & NDn & NI & MS & FF). cbn [fst snd] in *. subst nm.
  rewrite MS in IM. apply in_concat in IM. destruct IM as (l0 & IL & IM).
  assert (P : exists m cs, kindsDefault km m = Some cs /\ Forall2 (shows (readings (window (gname e) key (calls l)) m)) cs l0).
  { clear -FF IL. induction FF as [|m l1 names ls (cs & A & B) Y IH]; [destruct IL|]. destruct IL as [<-|IL]; [eauto|auto]. }
  destruct P as (m & cs & KC & FS).
  assert (P : exists c, In c cs /\ shows (readings (window (gname e) key (calls l)) m) c (out, MHist s n b k)).
  { clear -FS IM. induction FS as [|c p cs l0 X Y IH]; [destruct IM|]. destruct IM as [<-|IM].
    - exists c. split; [left; reflexivity|exact X].
    - destruct (IH IM) as (c' & A & B). exists c'. split; [right; exact A|exact B]. }
  destruct P as (c & IC & CO & SH). cbn [fst snd] in *.
  assert (XS : exists xs, readings (window (gname e) key (calls l)) m = map MInt xs).
  { assert (G : forall ds, (forall d, In d ds -> exists x, d = MInt x) -> exists xs, ds = map MInt xs).
    { induction ds as [|d ds IH]; intros H; [exists []; reflexivity|].
      destruct (H d (or_introl eq_refl)) as (x & ->). destruct IH as (xs & ->); [intros d I; apply H; right; exact I|].
      exists (x :: xs). reflexivity. }
    apply G. intros d I. destruct (readings_in _ _ _ I) as (gg & I1 & I2). destruct (window_in _ _ _ _ I1) as (ss & I3).
    exact (IG gg ss I3 m d I2). }
  destruct XS as (xs & XE).
  exists key, m, cs, c, xs. split; [rewrite WE; discriminate|]. split; [exact LB|]. split; [exact KC|]. split; [exact IC|]. split; [auto|].
  rewrite XE in SH. unfold expected in SH. destruct (c_kind c) eqn:KI; try discriminate SH; [destruct SH as (x & X & _); discriminate|].
  split; [reflexivity|]. split; [exact XE|]. inversion SH as [[A B C D]]. clear SH.
  assert (SU : sumOf (map MInt xs) = zsum xs) by (unfold sumOf; rewrite map_map, map_id; reflexivity).
  assert (CN : countOf (map MInt xs) = Z.of_nat (List.length xs)).
  { unfold countOf. rewrite map_map. clear. induction xs as [|x xs IH]; [reflexivity|]. cbn [map List.length]. rewrite zsum_cons, IH. lia. }
  rewrite SU, CN. split; [reflexivity|]. split; [reflexivity|]. split; [reflexivity|].
  assert (BU : forall t j, zsum (map (belowOf j t) (map MInt xs)) = Z.of_nat (List.length (filter (fun x => x <=? t) xs))).
  { intros t j. rewrite map_map. cbn [belowOf]. clear. induction xs as [|x xs IH]; [reflexivity|].
    cbn [map filter]. rewrite zsum_cons, IH. destruct (x <=? t); cbn [List.length]; lia. }
  assert (BS : forall ts j, map (fun p => w64 (zsum (map (belowOf (fst p) (snd p)) (map MInt xs)))) (combine (seq j (List.length ts)) ts)
                = map (fun t => w64 (Z.of_nat (List.length (filter (fun x => x <=? t) xs)))) ts).
  { induction ts as [|t ts IH]; intros j; [reflexivity|]. cbn [List.length seq combine map fst snd]. rewrite BU, IH. reflexivity. }
  apply BS.
Qed.
Print Assumptions C04_histogram_under_concurrency.

(** Two "last" values of one export need not come from the same call: here every call carries the same number twice, and
    the dump shows two different ones. *)
Theorem C03_last_of_one_call_under_concurrency_refuted : exists km l es st e,
  (forall g sels, In (OAgg g sels) (calls l) -> exists x, gmetrics g = [("dur"%string, MInt x); ("size"%string, MInt x)]) /\
  conc_run km ([], []) (l ++ [ADump]) = Ok (es, st) /\
  In e (List.concat es) /\ gmetrics e = [("lastDur"%string, MInt 1); ("lastSize"%string, MInt 2)].
Proof.
  exists [("dur"%string, [{| c_out := "lastDur"%string; c_kind := LastKind; c_bounds := [] |}]);
          ("size"%string, [{| c_out := "lastSize"%string; c_kind := LastKind; c_bounds := [] |}])].
  set (g := fun x => {| gname := "net"%string; gmetrics := [("dur"%string, MInt x); ("size"%string, MInt x)]; glabels := []; gts := x |}).
  exists [ABegin 1 (g 1) []; ABegin 2 (g 2) []; AFeed 2; AFeed 1; AFeed 1; AFeed 2; AEnd 1; AEnd 2].
  eexists. eexists. eexists. split; [|split; [vm_compute; reflexivity|split; [|]]].
  - intros g0 sels I. cbn [calls flat_map app] in I. destruct I as [E|[E|[]]]; inversion E; subst; eexists; reflexivity.
  - cbn [List.concat app]. left. reflexivity.
  - reflexivity.
Qed.
Print Assumptions C03_last_of_one_call_under_concurrency_refuted.

(** Two overlapping calls: the dump shows the sum, the largest and the histogram of both. *)
Example C03_concurrency_example :
  let km := [("dur"%string, [{| c_out := "sum"%string; c_kind := SumKind; c_bounds := [] |};
                             {| c_out := "max"%string; c_kind := MaxKind; c_bounds := [] |};
                             {| c_out := "hist"%string; c_kind := HistogramKind; c_bounds := [5; 10] |}])] in
  let g x := {| gname := "net"%string; gmetrics := [("dur"%string, MInt x)]; glabels := []; gts := x |} in
  let l := [ABegin 1 (g 4) []; ABegin 2 (g 7) []; AFeed 2; AFeed 1; AFeed 1; AFeed 2; AFeed 2; AFeed 1; AEnd 1; AEnd 2] in
  (forall g' sels, In (OAgg g' sels) (calls l) -> int_group g') /\
  exists es st e, conc_run km ([], []) (l ++ [ADump]) = Ok (es, st) /\ List.concat es = [e] /\
    gmetrics e = [("sum"%string, MInt 11); ("max"%string, MInt 7); ("hist"%string, MHist 11 2 [5; 10] [1; 2])].
Proof.
  cbv zeta. split.
  - intros g' sels I. cbn [calls flat_map app] in I. destruct I as [E|[E|[]]]; inversion E; subst; intros m d [X|[]];
      inversion X; eexists; reflexivity.
  - eexists. eexists. eexists. split; [vm_compute; reflexivity|]. split; reflexivity.
Qed.
