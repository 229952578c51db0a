(** C01: aggregation keys. *)
From Coq Require Import Sorting.Permutation.
From Verif Require Import Base Decimal AttrModel KeyModel.

(** ** Specification *)
(** The value a label set has for a selected label, read with the selector's type. *)
Definition selected (l : labelset) (s : selector) : aval :=
  if eqb (snd s) "boolean"%string then BV (asBool (aget l (fst s)))
  else if eqb (snd s) "string"%string then SV (asString (aget l (fst s)))
  else IV (asInt (aget l (fst s))).

Definition valid_type (s : selector) : Prop :=
  snd s = "boolean"%string \/ snd s = "string"%string \/ snd s = "int"%string.

(** Integer labels are Go int64 values. *)
Definition int64_labels (l : labelset) : Prop :=
  forall k z, aget l k = Some (IV z) -> - 2 ^ 63 <= z < 2 ^ 63.

(** ** Proofs *)
Lemma asInt_range l k : int64_labels l -> - 2 ^ (64 - 1) <= asInt (aget l k) < 2 ^ (64 - 1).
Proof.
  intros R. change (64 - 1) with 63. unfold asInt. destruct (aget l k) as [[s|z|b]|] eqn:E; try lia. eapply R; eassumption.
Qed.

Lemma selectKey_type l s : ktype (selectKey l s) = snd s.
Proof. reflexivity. Qed.
Lemma selectKey_name l s : kname (selectKey l s) = fst s.
Proof. reflexivity. Qed.

Lemma selectKey_eq l1 l2 s : valid_type s ->
  (selectKey l1 s = selectKey l2 s <-> selected l1 s = selected l2 s).
Proof.
  intros V. unfold selectKey, selected, BooleanType, StringType, IntType.
  destruct V as [-> | [-> | ->]]; cbn [eqb Eqb_string String.eqb Ascii.eqb Bool.eqb]; split; intros E.
  - f_equal. apply formatBool_inj. congruence.
  - do 2 f_equal. congruence.
  - congruence.
  - do 2 f_equal. congruence.
  - f_equal. apply formatInt_inj. congruence.
  - do 3 f_equal. congruence.
Qed.

Lemma pad_inj a b : List.length a = List.length b -> pad a = pad b -> a = b.
Proof.
  intros L E. unfold pad in E. rewrite L in E. eapply app_inv_tail. exact E.
Qed.

Lemma keys_iff sels l1 l2 : (List.length sels <= 37)%nat -> Forall valid_type sels ->
  (getLabelKeys sels l1 = getLabelKeys sels l2 <-> forall s, In s sels -> selected l1 s = selected l2 s).
Proof.
  intros L V. unfold getLabelKeys, maxLabelKeySize. rewrite firstn_all2 by assumption. split.
  - intros E. apply pad_inj in E; [|rewrite !map_length; reflexivity].
    intros s I. apply selectKey_eq.
    + rewrite Forall_forall in V. apply V. exact I.
    + clear L V. induction sels as [|x sels IH]; [destruct I|]. cbn [map] in E. inversion E.
      destruct I as [->|I]; [congruence|]. apply IH; [exact H1|exact I].
  - intros A. f_equal. apply map_ext_in. intros s I. apply selectKey_eq.
    + rewrite Forall_forall in V. apply V. exact I.
    + apply A. exact I.
Qed.

Lemma keyLabel_blank acc : keyLabel acc blank = acc.
Proof. reflexivity. Qed.

Lemma fold_blank n acc : fold_left keyLabel (repeat blank n) acc = acc.
Proof. induction n; cbn [repeat fold_left]; [reflexivity|]. rewrite keyLabel_blank. exact IHn. Qed.

Lemma keyLabel_select l s acc : valid_type s -> int64_labels l ->
  keyLabel acc (selectKey l s) = aset acc (fst s) (selected l s).
Proof.
  intros V R. unfold keyLabel, selectKey, selected, ktype, kname, kvalue, BooleanType, StringType, IntType.
  cbn [fst snd]. destruct V as [-> | [-> | ->]]; cbn [eqb Eqb_string String.eqb Ascii.eqb Bool.eqb].
  - rewrite parseBool_format. reflexivity.
  - reflexivity.
  - rewrite parseInt_format; [reflexivity|lia|apply asInt_range; assumption].
Qed.

Lemma fold_select l sels : forall acc, Forall valid_type sels -> int64_labels l ->
  fold_left keyLabel (map (selectKey l) sels) acc = fold_left (fun a s => aset a (fst s) (selected l s)) sels acc.
Proof.
  induction sels as [|s sels IH]; intros acc V R; [reflexivity|]. cbn [map fold_left].
  inversion V; subst. rewrite keyLabel_select by assumption. apply IH; assumption.
Qed.

Lemma getLabels_select sels l : (List.length sels <= 37)%nat -> Forall valid_type sels -> int64_labels l ->
  getLabels (getLabelKeys sels l) = fold_left (fun a s => aset a (fst s) (selected l s)) sels [].
Proof.
  intros L V R. unfold getLabels, getLabelKeys, maxLabelKeySize, pad. rewrite firstn_all2 by assumption.
  rewrite fold_left_app, fold_blank. apply fold_select; assumption.
Qed.

Lemma fold_aset_get l n : forall sels acc, NoDup (map fst sels) ->
  aget (fold_left (fun a s => aset a (fst s) (selected l s)) sels acc) n =
  match find (fun s => eqb n (fst s)) sels with Some s => Some (selected l s) | None => aget acc n end.
Proof.
  induction sels as [|s sels IH]; intros acc ND; [reflexivity|].
  cbn [fold_left find map] in *. inversion ND as [|? ? NI ND']; subst. rewrite IH by assumption.
  rewrite aget_aset. case_eqb n (fst s).
  - subst n. replace (find (fun s0 => eqb (fst s) (fst s0)) sels) with (@None selector); [reflexivity|].
    symmetry. clear -NI. induction sels as [|x sels IH]; [reflexivity|]. cbn [find map] in *.
    case_eqb (fst s) (fst x).
    + exfalso. apply NI. left. congruence.
    + apply IH. intros I. apply NI. right. exact I.
  - reflexivity.
Qed.

(** ** Theorems *)

(** Equal keys exactly when the selected labels agree. *)
Theorem C01_key_identifies : forall sels l1 l2,
  (List.length sels <= 37)%nat -> Forall valid_type sels ->
  (getLabelKeys sels l1 = getLabelKeys sels l2 <-> forall s, In s sels -> selected l1 s = selected l2 s).
Proof. exact keys_iff. Qed.
Print Assumptions C01_key_identifies.

(** Converting the key back gives every selected label with its value, and nothing else. *)
Theorem C01_key_to_labels : forall sels l n,
  (List.length sels <= 37)%nat -> Forall valid_type sels -> NoDup (map fst sels) -> int64_labels l ->
  aget (getLabels (getLabelKeys sels l)) n =
    match find (fun s => eqb n (fst s)) sels with Some s => Some (selected l s) | None => None end.
Proof. intros. rewrite getLabels_select by assumption. apply fold_aset_get. assumption. Qed.
Print Assumptions C01_key_to_labels.

Example C01_meets :
  let sels := [("pid", "int"); ("is_server", "boolean"); ("src_ip", "string")]%string in
  let l := [("pid"%string, IV (-5)); ("other"%string, SV (bs "x")); ("src_ip"%string, SV (bs "10.0.0.1"))] in
  (List.length sels <= 37)%nat /\ Forall valid_type sels /\ NoDup (map fst sels) /\ int64_labels l /\
  aget (getLabels (getLabelKeys sels l)) "pid"%string = Some (IV (-5)) /\
  aget (getLabels (getLabelKeys sels l)) "is_server"%string = Some (BV false) /\
  aget (getLabels (getLabelKeys sels l)) "other"%string = None.
Proof.
  cbn zeta. split; [cbn; lia|]. split; [unfold valid_type; repeat (apply Forall_cons; [cbn; auto|]); constructor|].
  split.
  { repeat constructor; cbn; intuition discriminate. }
  split.
  { intros k z. cbn [aget]. destruct (eqb k "pid"%string); [intros E; inversion E; lia|].
    destruct (eqb k "other"%string); [discriminate|]. destruct (eqb k "src_ip"%string); discriminate. }
  vm_compute. repeat split; reflexivity.
Qed.

(** Finding: selectors beyond the 37th are ignored, so label sets that differ there are merged. *)
Definition many : list selector := map (fun n => (String (ascii_of_nat (65 + n)) EmptyString, "string"%string)) (seq 0 38).
Theorem C01_any_number_of_selectors_refuted :
  exists sels l1 l2, NoDup (map fst sels) /\ Forall valid_type sels /\
    getLabelKeys sels l1 = getLabelKeys sels l2 /\ exists s, In s sels /\ selected l1 s <> selected l2 s.
Proof.
  exists many, [(String (ascii_of_nat 102) EmptyString, SV (bs "a"))], [].
  split.
  { unfold many. rewrite map_map. cbn [fst]. 
    apply (NoDup_map_inv (fun s => match s with String c _ => nat_of_ascii c | EmptyString => 0%nat end)).
    vm_compute. repeat constructor; cbn; intuition discriminate. }
  split.
  { unfold many. apply Forall_forall. intros s I. apply in_map_iff in I. destruct I as (n & <- & _). right. left. reflexivity. }
  split; [vm_compute; reflexivity|].
  exists (String (ascii_of_nat 102) EmptyString, "string"%string). split; [|vm_compute; discriminate].
  unfold many. apply in_map_iff. exists 37%nat. split; [reflexivity|]. apply in_seq. lia.
Qed.
Print Assumptions C01_any_number_of_selectors_refuted.

(** ** Keys over all labels (GetLabelsKeys) *)
Lemma leb_refl s : String.leb s s = true.
Proof.
  unfold String.leb. replace (String.compare s s) with Eq; [reflexivity|].
  symmetry. induction s as [|c s IH]; [reflexivity|]. cbn. unfold Ascii.compare. rewrite N.compare_refl. exact IH.
Qed.

Lemma compare_trans : forall a b c, String.compare a b <> Gt -> String.compare b c <> Gt -> String.compare a c <> Gt.
Proof.
  induction a as [|x a IH]; intros [|y b] [|z c]; cbn; try congruence.
  unfold Ascii.compare.
  destruct (N.compare_spec (N_of_ascii x) (N_of_ascii y)) as [E1|L1|G1];
  destruct (N.compare_spec (N_of_ascii y) (N_of_ascii z)) as [E2|L2|G2];
  destruct (N.compare_spec (N_of_ascii x) (N_of_ascii z)) as [E3|L3|G3]; try lia; try congruence.
  apply IH.
Qed.
Lemma leb_trans a b c : String.leb a b = true -> String.leb b c = true -> String.leb a c = true.
Proof.
  unfold String.leb. pose proof (compare_trans a b c).
  destruct (String.compare a b), (String.compare b c), (String.compare a c); try congruence; intros; exfalso; apply H; congruence.
Qed.

Fixpoint sorted (l : list lkey) : Prop :=
  match l with
  | [] => True
  | x :: l' => (forall y, In y l' -> String.leb (kname x) (kname y) = true) /\ sorted l'
  end.

Lemma insert_perm k l : Permutation (insertKey k l) (k :: l).
Proof.
  induction l as [|x l IH]; [reflexivity|]. cbn [insertKey].
  destruct (String.leb (kname k) (kname x)); [reflexivity|]. rewrite IH. apply perm_swap.
Qed.
Lemma sort_perm l : Permutation (sortKeys l) l.
Proof. induction l as [|x l IH]; [reflexivity|]. cbn [sortKeys fold_right]. rewrite insert_perm. constructor. exact IH. Qed.
Lemma insert_sorted k l : sorted l -> sorted (insertKey k l).
Proof.
  induction l as [|x l IH]; cbn [insertKey sorted]; [cbn; intuition|]. intros [A B].
  destruct (String.leb (kname k) (kname x)) eqn:E; cbn [sorted].
  - split; [|split; assumption]. intros y [<-|I]; [assumption|]. eapply leb_trans; [exact E|]. apply A. exact I.
  - split; [|auto]. intros y I. apply (Permutation_in _ (insert_perm k l)) in I.
    destruct I as [<-|I]; [|auto]. destruct (String.leb_total (kname k) (kname x)); congruence.
Qed.
Lemma sort_sorted l : sorted (sortKeys l).
Proof. induction l as [|x l IH]; [exact I|]. cbn [sortKeys fold_right]. apply insert_sorted. exact IH. Qed.

Lemma sorted_unique a : forall b, Permutation a b -> sorted a -> sorted b ->
  (forall x y, In x a -> In y a -> kname x = kname y -> x = y) -> a = b.
Proof.
  induction a as [|x a IH]; intros b P SA SB U.
  - apply Permutation_nil in P. congruence.
  - destruct b as [|y b]; [symmetry in P; apply Permutation_nil in P; discriminate|].
    assert (E : x = y).
    { apply U.
      - left. reflexivity.
      - apply (Permutation_in _ (Permutation_sym P)). left. reflexivity.
      - cbn [sorted] in SA, SB. apply String.leb_antisym.
        + assert (I : In y (x :: a)) by (apply (Permutation_in _ (Permutation_sym P)); left; reflexivity).
          destruct I as [->|I]; [apply leb_refl|]. apply SA. exact I.
        + assert (I : In x (y :: b)) by (apply (Permutation_in _ P); left; reflexivity).
          destruct I as [->|I]; [apply leb_refl|]. apply SB. exact I. }
    subst y. f_equal. apply IH.
    + apply Permutation_cons_inv with x. exact P.
    + apply SA.
    + apply SB.
    + intros u v Iu Iv. apply U; right; assumption.
Qed.

(** Label maps as Go maps: distinct names. *)
Definition label_map (l : labelset) : Prop := NoDup (keys l) /\ ~ In ""%string (keys l).

Lemma pad_in k l : In k (pad l) -> In k l \/ k = blank.
Proof. unfold pad. intros I. apply in_app_or in I. destruct I as [I|I]; [auto|]. right. eapply repeat_spec. exact I. Qed.

Lemma labelToKey_name p : kname (labelToKey p) = fst p.
Proof. reflexivity. Qed.
Lemma labelToKey_inj k v w : labelToKey (k, v) = labelToKey (k, w) -> v = w.
Proof.
  unfold labelToKey. cbn [fst snd]. intros E. injection E as E1 E2.
  destruct v as [s|z|b], w as [s'|z'|b']; cbn [toString] in E1; try (vm_compute in E2; discriminate).
  - congruence.
  - f_equal. apply formatInt_inj. exact E1.
  - f_equal. apply formatBool_inj. exact E1.
Qed.

Lemma names_unique l : label_map l ->
  forall x y, In x (pad (map labelToKey l)) -> In y (pad (map labelToKey l)) -> kname x = kname y -> x = y.
Proof.
  intros [ND NE] x y Ix Iy E.
  assert (NB : forall x, In x (map labelToKey l) -> kname x <> ""%string).
  { intros z I. apply in_map_iff in I. destruct I as (p & <- & I). intros X. apply NE.
    apply in_map_iff. exists p. split; [exact X|exact I]. }
  destruct (pad_in _ _ Ix) as [A| ->]; destruct (pad_in _ _ Iy) as [B| ->]; try reflexivity.
  - apply in_map_iff in A. destruct A as ([k v] & <- & A). apply in_map_iff in B. destruct B as ([k' v'] & <- & B).
    rewrite !labelToKey_name in E. cbn [fst] in E. subst k'.
    apply in_aget in A; [|exact ND]. apply in_aget in B; [|exact ND]. congruence.
  - exfalso. exact (NB _ A E).
  - exfalso. apply (NB _ B). symmetry. exact E.
Qed.

(** Whatever order Go iterates the map in and whatever sorting algorithm sort.Sort uses, the key is the same:
    any name-sorted arrangement of the (padded) entries of any reordering is the model's key. *)
Theorem C01_all_labels_key_order_independent : forall l l' out k,
  label_map l -> getLabelsKeys l = Ok k ->
  Permutation l' l -> Permutation out (pad (map labelToKey l')) -> sorted out ->
  out = k.
Proof.
  intros l l' out k LM G P PO S. unfold getLabelsKeys in G.
  destruct (List.length l <=? maxLabelKeySize)%nat; [|discriminate]. inversion G; subst k.
  assert (PP : Permutation (pad (map labelToKey l')) (pad (map labelToKey l))).
  { unfold pad. rewrite !map_length, (Permutation_length P). apply Permutation_app_tail. apply Permutation_map. exact P. }
  apply sorted_unique.
  - rewrite PO, PP. symmetry. apply sort_perm.
  - exact S.
  - apply sort_sorted.
  - intros x y Ix Iy. apply (names_unique l LM).
    + rewrite <- PP, <- PO. exact Ix.
    + rewrite <- PP, <- PO. exact Iy.
Qed.
Print Assumptions C01_all_labels_key_order_independent.

Lemma label_in_pad l k v : label_map l -> (In (labelToKey (k, v)) (pad (map labelToKey l)) <-> aget l k = Some v).
Proof.
  intros [ND NE]. split.
  - intros I. destruct (pad_in _ _ I) as [A|A].
    + apply in_map_iff in A. destruct A as ([k' v'] & E & A).
      assert (k' = k) by (apply (f_equal kname) in E; exact E). subst k'.
      apply labelToKey_inj in E. subst v'. apply in_aget; assumption.
    + exfalso. apply (f_equal ktype) in A. destruct v; vm_compute in A; discriminate.
  - intros G. unfold pad. apply in_or_app. left. apply in_map. apply aget_in. exact G.
Qed.

(** Keys over all labels are equal exactly when the label sets are. *)
Theorem C01_all_labels_key_identifies : forall l1 l2 k1 k2,
  label_map l1 -> label_map l2 -> getLabelsKeys l1 = Ok k1 -> getLabelsKeys l2 = Ok k2 ->
  (k1 = k2 <-> forall n, aget l1 n = aget l2 n).
Proof.
  intros l1 l2 k1 k2 M1 M2 G1 G2. unfold getLabelsKeys in *.
  destruct (List.length l1 <=? maxLabelKeySize)%nat eqn:L1; [|discriminate].
  destruct (List.length l2 <=? maxLabelKeySize)%nat eqn:L2; [|discriminate].
  inversion G1; inversion G2; subst k1 k2; clear G1 G2. split.
  - intros E n.
    assert (P : Permutation (pad (map labelToKey l1)) (pad (map labelToKey l2))).
    { rewrite <- (sort_perm (pad (map labelToKey l1))), E. apply sort_perm. }
    assert (X : forall v, aget l1 n = Some v <-> aget l2 n = Some v).
    { intros v. rewrite <- !label_in_pad by assumption. rewrite P. reflexivity. }
    destruct (aget l1 n) as [v|]; [symmetry; apply X; reflexivity|].
    destruct (aget l2 n) as [v|]; [apply X; reflexivity|reflexivity].
  - intros A.
    assert (P : Permutation l1 l2).
    { destruct M1 as [N1 _], M2 as [N2 _]. apply NoDup_Permutation.
      - eapply NoDup_map_inv. exact N1.
      - eapply NoDup_map_inv. exact N2.
      - intros [k v]. split; intros I.
        + apply aget_in. rewrite <- A. apply in_aget; assumption.
        + apply aget_in. rewrite A. apply in_aget; assumption. }
    apply sorted_unique; try apply sort_sorted.
    + rewrite !sort_perm. unfold pad. rewrite !map_length, (Permutation_length P).
      apply Permutation_app_tail, Permutation_map. exact P.
    + intros x y Ix Iy. apply (names_unique l1 M1); rewrite <- sort_perm; assumption.
Qed.
Print Assumptions C01_all_labels_key_identifies.

(** Converting such a key back returns the label set. *)
Lemma keyLabel_toKey acc k v : (match v with IV z => - 2 ^ 63 <= z < 2 ^ 63 | _ => True end) ->
  keyLabel acc (labelToKey (k, v)) = aset acc k v.
Proof.
  intros R. unfold keyLabel, labelToKey, ktype, kname, kvalue. cbn [fst snd].
  destruct v as [s|z|b]; cbn [eqb Eqb_string String.eqb Ascii.eqb Bool.eqb BooleanType StringType IntType toString].
  - reflexivity.
  - rewrite parseInt_format; [reflexivity|lia|exact R].
  - rewrite parseBool_format. reflexivity.
Qed.

Lemma fold_keys_get ks : forall acc n,
  (forall x, In x ks -> x = blank \/ exists k v, x = labelToKey (k, v) /\ k <> ""%string /\ (match v with IV z => - 2 ^ 63 <= z < 2 ^ 63 | _ => True end)) ->
  (forall x y, In x ks -> In y ks -> kname x = kname y -> x = y) ->
  (forall k v, In (labelToKey (k, v)) ks -> n = k -> aget (fold_left keyLabel ks acc) n = Some v) /\
  ((forall v, ~ In (labelToKey (n, v)) ks) -> aget (fold_left keyLabel ks acc) n = aget acc n).
Proof.
  induction ks as [|x ks IH]; intros acc n F U; [split; [intros k v []|reflexivity]|].
  cbn [fold_left].
  destruct (IH (keyLabel acc x) n) as [A B].
  { intros y I. apply F. right. exact I. } { intros y z Iy Iz. apply U; right; assumption. }
  split.
  - intros k v I E. subst n.
    destruct (In_dec (fun a b : lkey => Eqb_dec a b) (labelToKey (k, v)) ks) as [I2|NI2]; [eapply A; eauto|].
    destruct I as [->|I]; [|contradiction].
    rewrite B.
    + destruct (F (labelToKey (k, v)) (or_introl eq_refl)) as [E|(k' & v' & E & _ & R)].
      * apply (f_equal ktype) in E. destruct v; vm_compute in E; discriminate.
      * assert (k' = k) by (apply (f_equal kname) in E; symmetry; exact E). subst k'.
        apply labelToKey_inj in E. subst v'. rewrite keyLabel_toKey by assumption. apply aget_aset_same.
    + intros w Iw. apply NI2. rewrite (U (labelToKey (k, v)) (labelToKey (k, w))); [exact Iw|left; reflexivity|right; exact Iw|reflexivity].
  - intros N. rewrite B by (intros v I; apply (N v); right; exact I).
    destruct (F x (or_introl eq_refl)) as [-> | (k & v & -> & NE & R)]; [reflexivity|].
    rewrite keyLabel_toKey by assumption. apply aget_aset_other. intros ->. apply (N v). left. reflexivity.
Qed.

Theorem C01_all_labels_key_to_labels : forall l k n,
  label_map l -> int64_labels l -> getLabelsKeys l = Ok k -> aget (getLabels k) n = aget l n.
Proof.
  intros l k n LM R G. pose proof LM as [ND NE]. unfold getLabelsKeys in G.
  destruct (List.length l <=? maxLabelKeySize)%nat; [|discriminate]. inversion G; subst k. unfold getLabels.
  destruct (fold_keys_get (sortKeys (pad (map labelToKey l))) [] n) as [A B].
  - intros x I. rewrite sort_perm in I. destruct (pad_in _ _ I) as [J|J]; [right|left; exact J].
    apply in_map_iff in J. destruct J as ([k v] & <- & J). exists k, v. split; [reflexivity|]. split.
    + intros ->. apply NE. apply in_map_iff. exists (""%string, v). split; [reflexivity|exact J].
    + destruct v; try exact Logic.I. eapply R. apply in_aget; eassumption.
  - intros x y Ix Iy. apply (names_unique l LM); rewrite <- sort_perm; assumption.
  - destruct (aget l n) as [v|] eqn:E.
    + eapply A; [|reflexivity]. rewrite sort_perm. apply label_in_pad; assumption.
    + rewrite B; [reflexivity|]. intros v I. rewrite sort_perm in I. apply label_in_pad in I; [congruence|assumption].
Qed.
Print Assumptions C01_all_labels_key_to_labels.

Example C01_all_labels_meets :
  let l := [("b"%string, IV 3); ("a"%string, BV true); ("c"%string, SV (bs "v"))] in
  label_map l /\ int64_labels l /\ exists k, getLabelsKeys l = Ok k /\ aget (getLabels k) "a"%string = Some (BV true).
Proof.
  cbn zeta. split; [split|split].
  - repeat constructor; cbn; intuition discriminate.
  - cbn. intuition discriminate.
  - intros k z. cbn [aget]. destruct (eqb k "b"%string); [intros E; inversion E; lia|].
    destruct (eqb k "a"%string); [discriminate|]. destruct (eqb k "c"%string); discriminate.
  - eexists. split; [vm_compute; reflexivity|vm_compute; reflexivity].
Qed.

(** Finding: a group with more than 37 labels crashes the cumulative (Prometheus) aggregator. *)
Theorem C01_all_labels_key_total_refuted : exists l, label_map l /\ getLabelsKeys l = Panic.
Proof.
  exists (map (fun s => (fst s, SV [])) many). split; [|vm_compute; reflexivity].
  unfold label_map.
  split.
  - replace (keys _) with (map fst many) by reflexivity.
    apply (NoDup_map_inv (fun s => match s with String c _ => nat_of_ascii c | EmptyString => 0%nat end)).
    vm_compute. repeat constructor; cbn; intuition discriminate.
  - replace (keys _) with (map fst many) by reflexivity.
    unfold many. rewrite map_map. intros I. apply in_map_iff in I. destruct I as (n & X & _). discriminate.
Qed.
Print Assumptions C01_all_labels_key_total_refuted.
