From Verif Require Import Base CompareModel.

Section Compare.
  Context {A : Type} `{Eqb A}.

  Lemma setFlag_length f i : List.length (setFlag f i) = List.length f.
  Proof. revert i. induction f as [|b f IH]; intros [|i]; cbn; auto. Qed.

  Lemma nth_setFlag f i k : (i < List.length f)%nat ->
    nth k (setFlag f i) false = if (k =? i)%nat then true else nth k f false.
  Proof.
    revert i k. induction f as [|b f IH]; intros i k L; cbn in L; [lia|].
    destruct i as [|i], k as [|k]; cbn; try reflexivity. apply IH. lia.
  Qed.

  Lemma inner_spec olds : forall j i n c,
    (i < List.length (newFlags c))%nat -> (j + List.length olds <= List.length (oldFlags c))%nat ->
    let c' := innerLoop olds j i n c in
    oldElements c' = oldElements c /\ newElements c' = newElements c /\
    List.length (oldFlags c') = List.length (oldFlags c) /\ List.length (newFlags c') = List.length (newFlags c) /\
    (forall k, nth k (oldFlags c') false =
       nth k (oldFlags c) false || ((j <=? k)%nat && match nth_error olds (k - j) with Some o => eqb o n | None => false end)) /\
    (forall k, nth k (newFlags c') false =
       nth k (newFlags c) false || ((k =? i)%nat && existsb (fun o => eqb o n) olds)).
  Proof.
    induction olds as [|o olds IH]; intros j i n c Li Lj; cbn [innerLoop].
    - repeat split; intros k.
      + destruct (k - j)%nat; cbn; rewrite andb_false_r, orb_false_r; reflexivity.
      + cbn. rewrite andb_false_r, orb_false_r; reflexivity.
    - cbn [List.length] in Lj.
      set (c1 := if eqb o n then _ else c).
      assert (L1 : List.length (oldFlags c1) = List.length (oldFlags c) /\ List.length (newFlags c1) = List.length (newFlags c)
                   /\ oldElements c1 = oldElements c /\ newElements c1 = newElements c).
      { unfold c1. destruct (eqb o n); cbn; rewrite ?setFlag_length; auto. }
      destruct L1 as (L1 & L2 & E1 & E2).
      destruct (IH (S j) i n c1) as (P1 & P2 & P3 & P4 & P5 & P6); [lia|lia|].
      cbv zeta. repeat split; try congruence.
      + intros k. rewrite P5. unfold c1. destruct (eqb o n) eqn:E; cbn [oldFlags].
        * rewrite nth_setFlag by lia. destruct (k =? j)%nat eqn:KJ.
          -- apply Nat.eqb_eq in KJ. subst k. rewrite Nat.leb_refl, Nat.sub_diag. cbn. rewrite E, orb_true_r. reflexivity.
          -- apply Nat.eqb_neq in KJ. destruct (j <=? k)%nat eqn:LE; cbn [andb].
             ++ apply Nat.leb_le in LE. replace (S j <=? k)%nat with true by (symmetry; apply Nat.leb_le; lia).
                replace (k - j)%nat with (S (k - S j)) by lia. reflexivity.
             ++ apply Nat.leb_gt in LE. replace (S j <=? k)%nat with false by (symmetry; apply Nat.leb_gt; lia). reflexivity.
        * destruct (j <=? k)%nat eqn:LE; cbn [andb].
          -- apply Nat.leb_le in LE. destruct (Nat.eq_dec k j) as [->|NE].
             ++ rewrite Nat.sub_diag. cbn [nth_error]. rewrite E.
                replace (S j <=? j)%nat with false by (symmetry; apply Nat.leb_gt; lia). reflexivity.
             ++ replace (S j <=? k)%nat with true by (symmetry; apply Nat.leb_le; lia).
                replace (k - j)%nat with (S (k - S j)) by lia. reflexivity.
          -- apply Nat.leb_gt in LE. replace (S j <=? k)%nat with false by (symmetry; apply Nat.leb_gt; lia). reflexivity.
      + intros k. rewrite P6. unfold c1. cbn [existsb]. destruct (eqb o n) eqn:E; cbn [newFlags orb].
        * rewrite nth_setFlag by lia. destruct (k =? i)%nat; cbn; [rewrite orb_true_r|rewrite !orb_false_r]; reflexivity.
        * reflexivity.
  Qed.

  Lemma outer_spec news : forall i c,
    List.length (oldFlags c) = List.length (oldElements c) ->
    (i + List.length news <= List.length (newFlags c))%nat ->
    let c' := outerLoop news i c in
    oldElements c' = oldElements c /\ newElements c' = newElements c /\
    List.length (oldFlags c') = List.length (oldFlags c) /\ List.length (newFlags c') = List.length (newFlags c) /\
    (forall k, nth k (oldFlags c') false =
       nth k (oldFlags c) false || match nth_error (oldElements c) k with Some o => existsb (eqb o) news | None => false end) /\
    (forall k, nth k (newFlags c') false =
       nth k (newFlags c) false || ((i <=? k)%nat && match nth_error news (k - i) with Some n => existsb (fun o => eqb o n) (oldElements c) | None => false end)).
  Proof.
    induction news as [|n news IH]; intros i c LO LN; cbn [outerLoop].
    - repeat split; intros k.
      + destruct (nth_error (oldElements c) k); cbn; rewrite orb_false_r; reflexivity.
      + destruct (k - i)%nat; cbn; rewrite andb_false_r, orb_false_r; reflexivity.
    - cbn [List.length] in LN.
      destruct (inner_spec (oldElements c) 0 i n c) as (P1 & P2 & P3 & P4 & P5 & P6); [lia|lia|].
      set (c1 := innerLoop (oldElements c) 0 i n c) in *.
      destruct (IH (S i) c1) as (Q1 & Q2 & Q3 & Q4 & Q5 & Q6); [congruence|lia|].
      cbv zeta. repeat split; try congruence.
      + intros k. rewrite Q5, P5, P1. rewrite Nat.sub_0_r. cbn [Nat.leb andb].
        destruct (nth_error (oldElements c) k) as [o|]; cbn [existsb].
        * rewrite orb_assoc. reflexivity.
        * rewrite !orb_false_r. reflexivity.
      + intros k. rewrite Q6, P6, P1.
        destruct (Nat.eq_dec k i) as [->|NE].
        * rewrite Nat.eqb_refl, Nat.leb_refl, Nat.sub_diag. cbn [nth_error andb].
          replace (S i <=? i)%nat with false by (symmetry; apply Nat.leb_gt; lia). cbn [andb].
          rewrite orb_false_r. reflexivity.
        * apply Nat.eqb_neq in NE as NE'. rewrite NE'. cbn [andb]. rewrite orb_false_r. f_equal.
          destruct (i <=? k)%nat eqn:LE.
          -- apply Nat.leb_le in LE. replace (S i <=? k)%nat with true by (symmetry; apply Nat.leb_le; lia).
             replace (k - i)%nat with (S (k - S i)) by lia. reflexivity.
          -- apply Nat.leb_gt in LE. replace (S i <=? k)%nat with false by (symmetry; apply Nat.leb_gt; lia). reflexivity.
  Qed.

  Lemma unflagged_filter els : forall flags (f : A -> bool),
    List.length flags = List.length els ->
    (forall k, nth k flags false = match nth_error els k with Some e => f e | None => false end) ->
    unflagged flags els = filter (fun e => negb (f e)) els.
  Proof.
    induction els as [|e els IH]; intros [|b flags] f L N; cbn in L; try lia; [reflexivity|].
    cbn [unflagged filter]. pose proof (N O) as N0. cbn in N0. subst b.
    rewrite (IH flags f).
    - destruct (f e); reflexivity.
    - lia.
    - intros k. apply (N (S k)).
  Qed.

  Lemma existsb_eqb_in l a : existsb (eqb a) l = true <-> In a l.
  Proof.
    rewrite existsb_exists. split.
    - intros (x & I & E). apply eqb_true in E. subst. assumption.
    - intros I. exists a. split; [assumption|apply eqb_refl].
  Qed.

  Lemma nth_repeat_false k n : nth k (repeat false n) false = false.
  Proof. revert k. induction n as [|n IH]; intros [|k]; cbn; auto. Qed.

  Lemma compare_filter olds news :
    let c := Compare (NewSlice olds news) in
    GetRemovedElements c = filter (fun e => negb (existsb (eqb e) news)) olds /\
    GetAddedElements c = filter (fun e => negb (existsb (eqb e) olds)) news.
  Proof.
    destruct (outer_spec news 0 (NewSlice olds news)) as (Q1 & Q2 & Q3 & Q4 & Q5 & Q6); cbn in *.
    - apply repeat_length.
    - rewrite repeat_length. lia.
    - rewrite repeat_length in Q3, Q4. unfold Compare, GetRemovedElements, GetAddedElements. cbn. split.
      + rewrite Q1. apply (unflagged_filter olds _ (fun e => existsb (eqb e) news)); [assumption|].
        intros k. rewrite Q5, nth_repeat_false. reflexivity.
      + rewrite Q2. apply (unflagged_filter news _ (fun e => existsb (eqb e) olds)); [assumption|].
        intros k. rewrite Q6, nth_repeat_false, Nat.sub_0_r. cbn.
        destruct (nth_error news k); [|reflexivity].
        clear. induction olds as [|o l IH]; cbn; [reflexivity|]. rewrite IH, eqb_sym. reflexivity.
  Qed.

  (** [sub] keeps, in order and with repetitions, exactly the elements of [l] that satisfy [P] *)
  Inductive keeps (P : A -> Prop) : list A -> list A -> Prop :=
  | keeps_nil : keeps P [] []
  | keeps_yes a l sub : P a -> keeps P l sub -> keeps P (a :: l) (a :: sub)
  | keeps_no a l sub : ~ P a -> keeps P l sub -> keeps P (a :: l) sub.

  Lemma filter_keeps (P : A -> Prop) f l : (forall a, f a = true <-> P a) -> keeps P l (filter f l).
  Proof.
    intros F. induction l as [|a l IH]; cbn; [constructor|].
    destruct (f a) eqn:E.
    - apply keeps_yes; [apply F; assumption|assumption].
    - apply keeps_no; [|assumption]. rewrite <- F. congruence.
  Qed.

  Lemma compare_keeps olds news :
    let c := Compare (NewSlice olds news) in
    keeps (fun e => ~ In e news) olds (GetRemovedElements c) /\
    keeps (fun e => ~ In e olds) news (GetAddedElements c).
  Proof.
    cbv zeta. destruct (compare_filter olds news) as [E1 E2]. rewrite E1, E2.
    split; apply filter_keeps; intros a; rewrite negb_true_iff, <- existsb_eqb_in; symmetry; apply not_true_iff_false.
  Qed.

  Lemma compare_in olds news e :
    let c := Compare (NewSlice olds news) in
    (In e (GetRemovedElements c) <-> In e olds /\ ~ In e news) /\
    (In e (GetAddedElements c) <-> In e news /\ ~ In e olds).
  Proof.
    cbv zeta. destruct (compare_filter olds news) as [E1 E2]. rewrite E1, E2, !filter_In.
    rewrite !negb_true_iff. split.
    - rewrite <- (existsb_eqb_in news e), not_true_iff_false. reflexivity.
    - rewrite <- (existsb_eqb_in olds e), not_true_iff_false. reflexivity.
  Qed.
End Compare.

(** container ids *)
Lemma afterSep_some l r : afterSep l = Some r ->
  exists p, l = p ++ SEP ++ r /\ (forall p' r', l = p' ++ SEP ++ r' -> (List.length p <= List.length p')%nat).
Proof.
  revert r. induction l as [|b l IH]; intros r E; [discriminate|].
  cbn [afterSep] in E. destruct (starts_with SEP (b :: l)) eqn:S.
  - apply starts_with_iff in S. destruct S as (r0 & S). rewrite S in *.
    rewrite skipn_app_exact in E by reflexivity. inversion E; subst. exists [].
    split; [reflexivity|]. intros; cbn; lia.
  - destruct (IH r E) as (p & E2 & Min). exists (b :: p). split; [rewrite E2; reflexivity|].
    intros [|x p'] r' E3.
    + exfalso. cbn [app] in E3. rewrite E3, starts_with_app in S. discriminate.
    + cbn [app] in E3. injection E3 as E4 E5. cbn [List.length]. apply le_n_S. apply (Min p' r'). exact E5.
Qed.

Lemma afterSep_none l : afterSep l = None -> forall p r, l <> p ++ SEP ++ r.
Proof.
  intros E p. revert l E. induction p as [|x p IH]; intros l E r F; subst l.
  - discriminate.
  - cbn [app afterSep] in E. destruct (starts_with SEP _); [discriminate|].
    exact (IH _ E r eq_refl).
Qed.

Lemma truncate_found p r :
  (forall p' r', p ++ SEP ++ r = p' ++ SEP ++ r' -> (List.length p <= List.length p')%nat) ->
  TruncateContainerId (p ++ SEP ++ r) = firstn 12 r.
Proof.
  intros Min. unfold TruncateContainerId. destruct (afterSep (p ++ SEP ++ r)) as [s|] eqn:E.
  - apply afterSep_some in E. destruct E as (p0 & E0 & Min0).
    assert (L : List.length p0 = List.length p).
    { specialize (Min _ _ E0). specialize (Min0 p r eq_refl). lia. }
    assert (P : p = p0).
    { apply (f_equal (firstn (List.length p))) in E0.
      rewrite firstn_app, Nat.sub_diag, firstn_all, firstn_O, app_nil_r in E0.
      rewrite <- L, firstn_app, Nat.sub_diag, firstn_all, firstn_O, app_nil_r in E0. exact E0. }
    subst p0. apply app_inv_head in E0. apply app_inv_head in E0. subst s.
    unfold slice, zlen. rewrite Z.sub_0_r. change (Z.to_nat 0) with O. cbn [skipn].
    destruct (12 <? Z.of_nat (List.length r)) eqn:LT.
    + reflexivity.
    + rewrite Nat2Z.id, firstn_all. symmetry. apply firstn_all2. lia.
  - exfalso. eapply afterSep_none; eauto.
Qed.

Lemma truncate_runtime runtime id : ~ In 58 runtime -> TruncateContainerId (runtime ++ SEP ++ id) = firstn 12 id.
Proof.
  intros N. apply truncate_found. intros p' r' E.
  destruct (le_lt_dec (List.length runtime) (List.length p')) as [L|L]; [assumption|exfalso].
  apply N. apply (f_equal (fun l => nth (List.length p') l 0)) in E.
  rewrite app_nth1 in E by assumption. rewrite app_nth2, Nat.sub_diag in E by lia. cbn in E.
  rewrite <- E. apply nth_In. assumption.
Qed.

Lemma truncate_no_sep s : (forall p r, s <> p ++ SEP ++ r) -> TruncateContainerId s = [].
Proof.
  intros N. unfold TruncateContainerId. destruct (afterSep s) as [r|] eqn:E; [|reflexivity].
  apply afterSep_some in E. destruct E as (p & E & _). exfalso. eapply N; eauto.
Qed.

Lemma truncate_length s : (List.length (TruncateContainerId s) <= 12)%nat.
Proof.
  unfold TruncateContainerId. destruct (afterSep s) as [r|]; [|cbn; lia].
  unfold slice. rewrite firstn_length. unfold zlen. destruct (12 <? Z.of_nat (List.length r)) eqn:E; lia.
Qed.
