From Verif Require Import Base ConntrackModel ConntrackSpec.

Section Proofs.
  Variable maxSize : nat.
  Variable timeout : Z.
  Hypothesis maxPos : (0 < maxSize)%nat.
  Notation run := (runOps maxSize timeout).
  Notation step := (stepOp maxSize timeout).

  (** *** deletion and insertion as the two primitive changes *)
  Definition orphOf (c : cache) (k : connKey) : option nat :=
    match aget (lru c) k with Some e => eorphan e | None => None end.
  Definition pdel (c : cache) (k : connKey) : cache :=
    {| lru := adel (lru c) k; orphans := removeOrphan (orphans c) (orphOf c k); nextId := nextId c |}.
  Definition padd (c : cache) (k : connKey) (t : translation) (orph : bool) (now : Z) : cache :=
    if orph then {| lru := (k, {| etrans := t; eorphan := Some (nextId c) |}) :: lru c;
                    orphans := (nextId c, k, now + timeout) :: orphans c; nextId := S (nextId c) |}
    else {| lru := (k, {| etrans := t; eorphan := None |}) :: lru c; orphans := orphans c; nextId := nextId c |}.

  Definition lastKey (c : cache) : option connKey :=
    match rev (lru c) with [] => None | (k, _) :: _ => Some k end.
  Definition shrink (c : cache) : cache :=
    if (maxSize <? List.length (lru c))%nat then
      match lastKey c with Some k => pdel c k | None => c end
    else c.

  Definition Inv (c : cache) : Prop :=
    NoDup (keys (lru c)) /\ NoDup (map oid (orphans c)) /\
    (forall o, In o (orphans c) -> (oid o < nextId c)%nat) /\
    (forall o, In o (orphans c) -> exists t, aget (lru c) (okey o) = Some {| etrans := t; eorphan := Some (oid o) |}) /\
    (forall k e i, aget (lru c) k = Some e -> eorphan e = Some i -> exists x, In (i, k, x) (orphans c)).

  Lemma adel_absent {V} (m : list (connKey * V)) k : aget m k = None -> adel m k = m.
  Proof.
    induction m as [|[k' v] m IH]; cbn [aget]; intros G; [reflexivity|].
    unfold adel in *. cbn [filter fst]. destruct (eqb k k'); [discriminate|]. cbn [negb]. f_equal. auto.
  Qed.

  Lemma adel_last {V} (m : list (connKey * V)) k v : NoDup (keys (m ++ [(k, v)])) -> adel (m ++ [(k, v)]) k = m.
  Proof.
    intros ND. unfold adel. rewrite filter_app. cbn [filter fst]. rewrite eqb_refl. cbn [negb]. rewrite app_nil_r.
    apply adel_absent. apply aget_none_notin. unfold keys in *. rewrite map_app in ND. cbn [map fst] in ND.
    apply NoDup_remove_2 in ND. rewrite app_nil_r in ND. assumption.
  Qed.

  Lemma adel_length {V} (m : list (connKey * V)) k : (List.length (adel m k) <= List.length m)%nat.
  Proof.
    unfold adel. induction m as [|p m IH]; cbn [filter List.length]; [lia|].
    destruct (negb _); cbn [List.length]; lia.
  Qed.

  Lemma adel_length_present {V} (m : list (connKey * V)) k v : aget m k = Some v -> (List.length (adel m k) < List.length m)%nat.
  Proof.
    induction m as [|[k' v'] m IH]; cbn [aget]; [discriminate|]. unfold adel. cbn [filter fst List.length].
    destruct (eqb k k'); cbn [negb List.length].
    - intros _. pose proof (adel_length m k). unfold adel in H. lia.
    - intros G. specialize (IH G). unfold adel in IH. lia.
  Qed.

  Lemma in_removeOrphan os i o : In o (removeOrphan os (Some i)) <-> In o os /\ oid o <> i.
  Proof. cbn [removeOrphan]. rewrite filter_In, negb_true_iff, Nat.eqb_neq. tauto. Qed.

  Lemma removeOrphan_absent os i : (forall o, In o os -> oid o <> i) -> removeOrphan os (Some i) = os.
  Proof.
    intros N. cbn [removeOrphan]. induction os as [|o os IH]; [reflexivity|]. cbn [filter].
    destruct (Nat.eqb (oid o) i) eqn:E.
    - apply Nat.eqb_eq in E. exfalso. apply (N o); [left; reflexivity|assumption].
    - cbn [negb]. f_equal. apply IH. intros o' I. apply N. right. assumption.
  Qed.

  Lemma Inv_pdel c k : Inv c -> Inv (pdel c k).
  Proof.
    intros (ND & NO & LT & FW & BW). unfold Inv, pdel. cbn [lru orphans nextId].
    assert (SUB : forall o, In o (removeOrphan (orphans c) (orphOf c k)) -> In o (orphans c)).
    { intros o I. destruct (orphOf c k); [apply in_removeOrphan in I; tauto|exact I]. }
    split; [apply NoDup_keys_adel; assumption|]. split.
    { destruct (orphOf c k) as [i|]; cbn [removeOrphan]; [|assumption].
      revert NO. clear. induction (orphans c) as [|o os IH]; cbn [map filter]; intros NO; [constructor|].
      inversion NO as [|? ? NI NO']; subst. destruct (negb _); cbn [map]; [|auto].
      constructor; [|auto]. intros I. apply NI. apply in_map_iff in I. destruct I as (x & E & I).
      apply filter_In in I. apply in_map_iff. exists x. tauto. }
    split; [intros o I; apply LT; auto|]. split.
    - intros o I. pose proof (SUB o I) as I'. destruct (FW o I') as (t & G). exists t.
      rewrite aget_adel_other; [assumption|]. intros E. rewrite E in G.
      unfold orphOf in I. rewrite G in I. cbn [eorphan] in I. apply in_removeOrphan in I. tauto.
    - intros k' e i G E. rewrite aget_adel in G. case_eqb k' k; [discriminate|].
      assert (G' : aget (lru c) k' = Some e) by exact G.
      destruct (BW k' e i G' E) as (x & I). exists x.
      unfold orphOf. destruct (aget (lru c) k) as [e'|] eqn:Gk; [|exact I].
      destruct (eorphan e') as [j|] eqn:Ej; [|exact I]. apply in_removeOrphan. split; [exact I|].
      cbn [oid fst]. intros ->. destruct (BW k e' j Gk Ej) as (y & I2).
      assert (X : forall a b, In a (orphans c) -> In b (orphans c) -> oid a = oid b -> a = b).
      { clear -NO. revert NO. induction (orphans c) as [|o os IH]; intros NO a b Ia Ib Eab; [destruct Ia|].
        cbn [map] in NO. inversion NO as [|? ? NI NO']; subst.
        destruct Ia as [->|Ia], Ib as [->|Ib]; auto.
        - exfalso. apply NI. rewrite Eab. apply in_map. assumption.
        - exfalso. apply NI. rewrite <- Eab. apply in_map. assumption. }
      specialize (X _ _ I I2 eq_refl). inversion X. congruence.
  Qed.

  Lemma Inv_padd c k t b now : Inv c -> aget (lru c) k = None -> Inv (padd c k t b now).
  Proof.
    intros (ND & NO & LT & FW & BW) A. unfold Inv, padd. destruct b; cbn [lru orphans nextId].
    - split; [|split; [|split; [|split]]].
      + cbn [keys map fst]. constructor; [|assumption]. apply aget_none_notin. assumption.
      + cbn [map oid fst]. constructor; [|assumption]. intros I. apply in_map_iff in I. destruct I as (o & E & I).
        apply LT in I. lia.
      + intros o [<-|I]; [cbn; lia|]. apply LT in I. lia.
      + intros o [<-|I]; cbn [okey oid fst snd aget].
        * rewrite eqb_refl. eauto.
        * destruct (FW o I) as (t' & G). exists t'. case_eqb (okey o) k; [congruence|exact G].
      + intros k' e i. cbn [aget]. case_eqb k' k.
        * subst k'. intros G E; inversion G; subst. cbn in E. inversion E; subst. eexists. left. reflexivity.
        * intros G E2. destruct (BW k' e i G E2) as (x & I). exists x. right. exact I.
    - split; [|split; [|split; [|split]]]; try assumption.
      + cbn [keys map fst]. constructor; [|assumption]. apply aget_none_notin. assumption.
      + intros o I. cbn [aget]. destruct (FW o I) as (t' & G). exists t'. case_eqb (okey o) k; [congruence|exact G].
      + intros k' e i. cbn [aget]. case_eqb k' k.
        * subst k'. intros G E; inversion G; subst. discriminate.
        * intros G E2. exact (BW k' e i G E2).
  Qed.

  Lemma Inv_shrink c : Inv c -> Inv (shrink c).
  Proof.
    intros I. unfold shrink. destruct (_ <? _)%nat; [|assumption]. destruct (lastKey c); [apply Inv_pdel|]; assumption.
  Qed.

  Lemma pdel_absent c k : aget (lru c) k = None -> pdel c k = c.
  Proof. intros G. unfold pdel, orphOf. rewrite G, (adel_absent _ _ G). destruct c; reflexivity. Qed.

  Lemma lruAdd_shrink c k e : Inv c -> (List.length (lru c) <= maxSize)%nat ->
    aget (lru c) k = None ->
    fst (lruAdd maxSize c k e) =
    let l := (k, e) :: lru c in
    if (maxSize <? List.length l)%nat then
      match rev l with
      | [] => c
      | (_, old) :: rest => {| lru := rev rest; orphans := removeOrphan (orphans c) (eorphan old); nextId := nextId c |}
      end
    else {| lru := l; orphans := orphans c; nextId := nextId c |}.
  Proof.
    intros I L A. unfold lruAdd, ahas. rewrite A. cbv zeta. destruct (_ <? _)%nat; [|reflexivity].
    destruct (rev ((k, e) :: lru c)) as [|[? ?] ?]; reflexivity.
  Qed.

  Lemma register_prim c k t b now : Inv c -> (List.length (lru c) <= maxSize)%nat ->
    fst (cRegister maxSize timeout c k t b now) = shrink (padd (pdel c k) k t b now).
  Proof.
    intros I L.
    assert (OS : match aget (lru c) k with Some e => removeOrphan (orphans c) (eorphan e) | None => orphans c end
                 = orphans (pdel c k)).
    { unfold pdel, orphOf. cbn [orphans]. destruct (aget (lru c) k); reflexivity. }
    unfold cRegister. rewrite OS. clear OS.
    destruct (aget (lru c) k) as [e0|] eqn:G.
    - (* present: no eviction possible *)
      pose proof (adel_length_present _ _ _ G) as LL.
      assert (SH : shrink (padd (pdel c k) k t b now) = padd (pdel c k) k t b now).
      { unfold shrink. assert (LP : List.length (lru (padd (pdel c k) k t b now)) = S (List.length (adel (lru c) k))).
        { unfold padd, pdel. destruct b; reflexivity. }
        rewrite LP. destruct (maxSize <? S (List.length (adel (lru c) k)))%nat eqn:Q; [|reflexivity].
        apply Nat.ltb_lt in Q. lia. }
      rewrite SH. unfold lruAdd, ahas, padd, pdel. destruct b; cbn [lru]; rewrite G; reflexivity.
    - (* absent *)
      rewrite (pdel_absent c k G).
      assert (ND : NoDup (keys (lru (padd c k t b now)))).
      { apply (Inv_padd c k t b now I G). }
      unfold shrink, lruAdd, ahas, padd, lastKey in *. destruct b; cbn [lru orphans nextId] in *; rewrite G;
        destruct (maxSize <? _)%nat; try reflexivity.
      + match goal with |- context[rev ?l] => destruct (rev l) as [|[k1 e1] rest] eqn:R; set (L0 := l) in * end.
        { apply (f_equal (@List.length _)) in R. rewrite rev_length in R. discriminate. }
        assert (RL : L0 = rev rest ++ [(k1, e1)]).
        { rewrite <- (rev_involutive L0), R. reflexivity. }
        unfold pdel, orphOf. cbn [fst lru orphans nextId]. fold L0.
        rewrite RL in ND |- *. rewrite (adel_last _ _ _ ND).
        rewrite (in_aget (rev rest ++ [(k1, e1)]) k1 e1 ND); [reflexivity|].
        apply in_or_app. right. left. reflexivity.
      + match goal with |- context[rev ?l] => destruct (rev l) as [|[k1 e1] rest] eqn:R; set (L0 := l) in * end.
        { apply (f_equal (@List.length _)) in R. rewrite rev_length in R. discriminate. }
        assert (RL : L0 = rev rest ++ [(k1, e1)]).
        { rewrite <- (rev_involutive L0), R. reflexivity. }
        unfold pdel, orphOf. cbn [fst lru orphans nextId]. fold L0.
        rewrite RL in ND |- *. rewrite (adel_last _ _ _ ND).
        rewrite (in_aget (rev rest ++ [(k1, e1)]) k1 e1 ND); [reflexivity|].
        apply in_or_app. right. left. reflexivity.
  Qed.

  Lemma remove_prim c k : fst (cRemove c k) = pdel c k.
  Proof.
    unfold cRemove. destruct (aget (lru c) k) as [e|] eqn:G; cbn [fst].
    - unfold pdel, orphOf. rewrite G. reflexivity.
    - symmetry. apply pdel_absent. assumption.
  Qed.

  Lemma get_prim c k : fst (cGet c k) =
    match aget (lru c) k with
    | Some e => padd (pdel c k) k (etrans e) false 0
    | None => c
    end.
  Proof.
    unfold cGet. destruct (aget (lru c) k) as [e|] eqn:G; [|reflexivity]. cbn [fst].
    unfold padd, pdel, orphOf. cbn [lru orphans nextId]. rewrite G. reflexivity.
  Qed.

  Lemma aget_pdel c k k' : aget (lru (pdel c k)) k' = if eqb k' k then None else aget (lru c) k'.
  Proof. unfold pdel. cbn [lru]. apply aget_adel. Qed.

  Lemma aget_padd c k t b now k' :
    aget (lru (padd c k t b now)) k' =
    if eqb k' k then Some {| etrans := t; eorphan := if b then Some (nextId c) else None |} else aget (lru c) k'.
  Proof. unfold padd. destruct b; cbn [lru aget]; reflexivity. Qed.

  Lemma shrink_length c : Inv c -> (List.length (lru c) <= S maxSize)%nat -> (List.length (lru (shrink c)) <= maxSize)%nat.
  Proof.
    intros I L. unfold shrink. destruct (maxSize <? List.length (lru c))%nat eqn:Q.
    - apply Nat.ltb_lt in Q. unfold lastKey. destruct (rev (lru c)) as [|[k e] rest] eqn:R.
      + apply (f_equal (@List.length _)) in R. rewrite rev_length in R. cbn in R. lia.
      + assert (RL : lru c = rev rest ++ [(k, e)]) by (rewrite <- (rev_involutive (lru c)), R; reflexivity).
        unfold pdel. cbn [lru].
        assert (G : aget (lru c) k = Some e).
        { apply in_aget; [apply I|]. rewrite RL. apply in_or_app. right. left. reflexivity. }
        pose proof (adel_length_present _ _ _ G). lia.
    - apply Nat.ltb_ge in Q. assumption.
  Qed.

  (** *** compaction *)
  Fixpoint sortedDesc (l : list orphan) : Prop :=
    match l with
    | [] => True
    | a :: r => (forall b, In b r -> oexp b <= oexp a) /\ sortedDesc r
    end.

  Lemma sortedDesc_app l1 l2 : sortedDesc (l1 ++ l2) ->
    sortedDesc l1 /\ sortedDesc l2 /\ (forall a b, In a l1 -> In b l2 -> oexp b <= oexp a).
  Proof.
    induction l1 as [|a l1 IH]; cbn [app sortedDesc].
    - intros S. split; [exact Coq.Init.Logic.I|]. split; [assumption|]. intros ? ? [].
    - intros [A S]. destruct (IH S) as (S1 & S2 & X). split; [split; [|assumption]|split; [assumption|]].
      + intros b I. apply A. apply in_or_app. left. assumption.
      + intros a' b [<-|I1] I2; [apply A; apply in_or_app; right; assumption|apply X; assumption].
  Qed.

  Lemma sortedDesc_filter f l : sortedDesc l -> sortedDesc (filter f l).
  Proof.
    induction l as [|a l IH]; cbn [sortedDesc filter]; [tauto|]. intros [A S].
    destruct (f a); [|auto]. cbn [sortedDesc]. split; [|auto]. intros b I. apply filter_In in I. apply A. tauto.
  Qed.

  Lemma sortedDesc_remove l i : sortedDesc l -> sortedDesc (removeOrphan l i).
  Proof. destruct i; cbn [removeOrphan]; [apply sortedDesc_filter|tauto]. Qed.

  Lemma orph_unique c : Inv c -> forall a b, In a (orphans c) -> In b (orphans c) -> okey a = okey b -> a = b.
  Proof.
    intros (ND & NO & LT & FW & BW) a b Ia Ib E.
    destruct (FW a Ia) as (ta & Ga), (FW b Ib) as (tb & Gb). rewrite E in Ga. rewrite Ga in Gb. inversion Gb as [[E1 E2]].
    revert Ia Ib E2. revert NO. clear. induction (orphans c) as [|o os IH]; intros NO Ia Ib Eab; [destruct Ia|].
    cbn [map] in NO. inversion NO as [|? ? NI NO']; subst.
    destruct Ia as [->|Ia], Ib as [->|Ib]; auto.
    - exfalso. apply NI. rewrite Eab. apply in_map. assumption.
    - exfalso. apply NI. rewrite <- Eab. apply in_map. assumption.
  Qed.

  Lemma filter_all {A} (l : list A) : filter (fun _ => true) l = l.
  Proof. induction l as [|a l IH]; cbn [filter]; [reflexivity|]. f_equal. exact IH. Qed.

  Lemma compact_loop now : forall fuel c n,
    Inv c -> (List.length (orphans c) <= fuel)%nat ->
    exists c' f, removeOrphansLoop fuel c now n = Some (c', n + (zlen (lru c) - zlen (lru c'))) /\ Inv c' /\
      lru c' = filter f (lru c) /\
      (forall k e, In (k, e) (lru c) -> f (k, e) = false -> exists o, In o (orphans c) /\ okey o = k /\ oexp o < now) /\
      (forall o, In o (orphans c') -> In o (orphans c)) /\
      (sortedDesc (orphans c) -> sortedDesc (orphans c') /\ forall o, In o (orphans c') -> now <= oexp o) /\
      nextId c' = nextId c.
  Proof.
    induction fuel as [|fuel IH]; intros c n I L; cbn [removeOrphansLoop].
    - destruct (orphans c) as [|o os] eqn:O; [|cbn in L; lia]. cbn [rev].
      exists c, (fun _ => true). split; [f_equal; f_equal; lia|]. split; [assumption|].
      split; [symmetry; apply filter_all|].
      rewrite O. repeat split; try discriminate; auto. intros ? [].
    - destruct (rev (orphans c)) as [|o os] eqn:R.
      + assert (O : orphans c = []) by (rewrite <- (rev_involutive (orphans c)), R; reflexivity).
        exists c, (fun _ => true). split; [f_equal; f_equal; lia|]. split; [assumption|].
        split; [symmetry; apply filter_all|].
        rewrite O. repeat split; try discriminate; auto. intros ? [].
      + assert (O : orphans c = rev os ++ [o]) by (rewrite <- (rev_involutive (orphans c)), R; reflexivity).
        destruct (oexp o <? now) eqn:EX; cbn [negb].
        * apply Z.ltb_lt in EX. rewrite remove_prim.
          assert (Io : In o (orphans c)) by (rewrite O; apply in_or_app; right; left; reflexivity).
          pose proof I as (ND & NO & LT & FW & BW). destruct (FW o Io) as (t & G).
          assert (OR : orphOf c (okey o) = Some (oid o)) by (unfold orphOf; rewrite G; reflexivity).
          assert (LL : (List.length (orphans (pdel c (okey o))) <= fuel)%nat).
          { unfold pdel. rewrite OR. cbn [orphans]. rewrite O in L |- *. cbn [removeOrphan].
            rewrite filter_app. cbn [filter]. rewrite Nat.eqb_refl. cbn [negb]. rewrite app_nil_r.
            rewrite app_length in L. cbn in L.
            assert (List.length (filter (fun o0 => negb (oid o0 =? oid o)%nat) (rev os)) <= List.length (rev os))%nat; [|lia].
            clear. induction (rev os) as [|a l IHl]; cbn [filter List.length]; [lia|]. destruct (negb _); cbn [List.length]; lia. }
          destruct (IH (pdel c (okey o)) (n + 1) (Inv_pdel c (okey o) I) LL) as (c' & f & E1 & I' & E2 & F & SUB & SO & NI).
          exists c', (fun p => negb (eqb (okey o) (fst p)) && f p).
          split.
          { rewrite E1. f_equal. f_equal.
            assert (LC : zlen (lru (pdel c (okey o))) = zlen (lru c) - 1); [|lia].
            unfold pdel, zlen. cbn [lru].
            assert (X : S (List.length (adel (lru c) (okey o))) = List.length (lru c)); [|lia].
            clear -ND G. revert ND G. induction (lru c) as [|[k' v'] m IHm]; cbn [aget]; intros ND G; [discriminate|].
            cbn [keys map fst] in ND. inversion ND as [|? ? NI ND']; subst. unfold adel. cbn [filter fst].
            case_eqb (okey o) k'.
            - subst k'. cbn [negb List.length]. f_equal.
              change (filter _ m) with (adel m (okey o)). rewrite adel_absent; [reflexivity|]. apply aget_none_notin. assumption.
            - cbn [negb List.length]. f_equal. apply IHm; assumption. }
          split; [assumption|]. split.
          { rewrite E2. unfold pdel. cbn [lru]. unfold adel. clear.
            induction (lru c) as [|p m IHm]; [reflexivity|]. cbn [filter].
            destruct (negb (eqb (okey o) (fst p))) eqn:Q; cbn [andb filter]; [destruct (f p)|]; rewrite ?IHm; reflexivity. }
          split.
          { intros k e Ik Ff. case_eqb (okey o) k.
            - exists o. auto.
            - apply eqb_neq in E. cbn [fst] in Ff. rewrite E in Ff. cbn [negb andb] in Ff.
              apply eqb_neq in E. destruct (F k e) as (o' & Io' & K & X).
              + unfold pdel. cbn [lru]. unfold adel. apply filter_In. split; [assumption|].
                cbn [fst]. apply negb_true_iff. apply eqb_neq. assumption.
              + assumption.
              + exists o'. split; [|auto]. unfold pdel in Io'. rewrite OR in Io'. cbn [orphans] in Io'.
                apply in_removeOrphan in Io'. tauto. }
          split.
          { intros o' Io'. apply SUB in Io'. unfold pdel in Io'. rewrite OR in Io'. cbn [orphans] in Io'.
            apply in_removeOrphan in Io'. tauto. }
          split.
          { intros S. apply SO. unfold pdel. cbn [orphans]. apply sortedDesc_remove. assumption. }
          exact NI.
        * apply Z.ltb_ge in EX.
          exists c, (fun _ => true). split; [f_equal; f_equal; lia|]. split; [assumption|].
          split; [symmetry; apply filter_all|].
          split; [discriminate|]. split; [tauto|]. split; [|reflexivity].
          intros S. split; [assumption|]. intros o' Io'. rewrite O in S, Io'.
          apply sortedDesc_app in S. destruct S as (_ & _ & X). apply in_app_or in Io'.
          destruct Io' as [Io'|[<-|[]]]; [|assumption]. specialize (X o' o Io' (or_introl eq_refl)). lia.
  Qed.

  Lemma compact_ok c now : Inv c ->
    exists c' f, removeOrphans c now = Some (c', zlen (lru c) - zlen (lru c')) /\ Inv c' /\
      lru c' = filter f (lru c) /\
      (forall k e, In (k, e) (lru c) -> f (k, e) = false -> exists o, In o (orphans c) /\ okey o = k /\ oexp o < now) /\
      (forall o, In o (orphans c') -> In o (orphans c)) /\
      (sortedDesc (orphans c) -> sortedDesc (orphans c') /\ forall o, In o (orphans c') -> now <= oexp o) /\
      nextId c' = nextId c.
  Proof.
    intros I. destruct (compact_loop now (List.length (orphans c)) c 0 I (Nat.le_refl _)) as (c' & f & E & R).
    exists c', f. split; [|exact R]. unfold removeOrphans. rewrite E. reflexivity.
  Qed.

  Lemma filter_length {A} f (l : list A) : (List.length (filter f l) <= List.length l)%nat.
  Proof. induction l as [|a l IH]; cbn [filter List.length]; [lia|]. destruct (f a); cbn [List.length]; lia. Qed.

  (** *** state invariant over histories *)
  Lemma run_snoc h o : run (h ++ [o]) = step (run h) o.
  Proof. unfold runOps. rewrite fold_left_app. reflexivity. Qed.

  Lemma padd_length c k t b now : List.length (lru (padd c k t b now)) = S (List.length (lru c)).
  Proof. unfold padd. destruct b; reflexivity. Qed.

  Lemma step_inv c o : Inv c -> (List.length (lru c) <= maxSize)%nat ->
    Inv (step c o) /\ (List.length (lru (step c o)) <= maxSize)%nat.
  Proof.
    intros I L. destruct o as [k t b now|k|k|now]; cbn [stepOp].
    - rewrite register_prim by assumption.
      assert (I1 : Inv (padd (pdel c k) k t b now)).
      { apply Inv_padd; [apply Inv_pdel; assumption|]. rewrite aget_pdel, eqb_refl. reflexivity. }
      split; [apply Inv_shrink; assumption|]. apply shrink_length; [assumption|].
      rewrite padd_length. unfold pdel. cbn [lru]. pose proof (adel_length (lru c) k). lia.
    - rewrite get_prim. destruct (aget (lru c) k) as [e|] eqn:G; [|auto].
      split.
      + apply Inv_padd; [apply Inv_pdel; assumption|]. rewrite aget_pdel, eqb_refl. reflexivity.
      + rewrite padd_length. unfold pdel. cbn [lru]. pose proof (adel_length_present _ _ _ G). lia.
    - rewrite remove_prim. split; [apply Inv_pdel; assumption|]. unfold pdel. cbn [lru].
      pose proof (adel_length (lru c) k). lia.
    - destruct (compact_ok c now I) as (c' & f & E & I' & E2 & _). rewrite E. split; [assumption|].
      rewrite E2. pose proof (filter_length f (lru c)). lia.
  Qed.

  Lemma run_inv h : Inv (run h) /\ (List.length (lru (run h)) <= maxSize)%nat.
  Proof.
    induction h as [|o h IH] using rev_ind.
    - cbn. split; [|lia]. unfold Inv. cbn. repeat split; try constructor; try (intros ? []). discriminate.
    - rewrite run_snoc. apply step_inv; apply IH.
  Qed.

  Lemma aget_filter_some (f : connKey * entry -> bool) l k e : NoDup (keys l) ->
    aget (filter f l) k = Some e -> aget l k = Some e /\ f (k, e) = true.
  Proof.
    intros ND G. apply aget_in in G. apply filter_In in G. destruct G as [G F].
    split; [apply in_aget; assumption|assumption].
  Qed.

  (** *** soundness: what is stored comes from the last registration *)
  Definition reg_times_le (h : list op) (now : Z) : Prop := forall k t b n, In (Reg k t b n) h -> n <= now.

  Definition ghost (h : list op) (c : cache) : Prop :=
    forall k e, aget (lru c) k = Some e ->
      exists orph t0 h2, registered_since h k (etrans e) orph t0 h2 /\
        match eorphan e with
        | Some i => orph = true /\ In (i, k, t0 + timeout) (orphans c) /\ ~ In (Get k) h2 /\
                    (forall now, In (Compact now) h2 -> now <= t0 + timeout)
        | None => orph = true -> exists a b, h2 = a ++ Get k :: b /\ (forall now, In (Compact now) a -> now <= t0 + timeout)
        end.

  Lemma registered_extend h k t b t0 h2 o :
    registered_since h k t b t0 h2 ->
    (forall t' b' n, o <> Reg k t' b' n) -> o <> Rem k ->
    registered_since (h ++ [o]) k t b t0 (h2 ++ [o]).
  Proof.
    intros (h1 & -> & N1 & N2) A B. exists h1. rewrite <- app_assoc. split; [reflexivity|]. split.
    - intros t' b' n I. apply in_app_or in I. destruct I as [I|[I|[]]]; [eapply N1; eassumption|]. subst o. exact (A t' b' n eq_refl).
    - intros I. apply in_app_or in I. destruct I as [I|[I|[]]]; [contradiction|]. subst o. apply B. reflexivity.
  Qed.

  Lemma nondecreasing_app l1 l2 : nondecreasing (l1 ++ l2) ->
    nondecreasing l1 /\ (forall a b, In a l1 -> In b l2 -> a <= b).
  Proof.
    induction l1 as [|a l1 IH]; cbn [app nondecreasing].
    - intros _. split; [exact Coq.Init.Logic.I|]. intros ? ? [].
    - intros [A S]. destruct (IH S) as (S1 & X). split; [split; [|assumption]|].
      + intros b I. apply A. apply in_or_app. left. assumption.
      + intros a' b [<-|I1] I2; [apply A; apply in_or_app; right; assumption|apply X; assumption].
  Qed.

  Lemma monotone_app h o : monotone (h ++ [o]) -> monotone h /\
    forall n k t b, In (Reg k t b n) h -> forall now, In now (op_time o) -> n <= now.
  Proof.
    unfold monotone. rewrite flat_map_app. intros M. apply nondecreasing_app in M. destruct M as [M X].
    split; [assumption|]. intros n k t b I now J. apply X.
    - apply in_flat_map. exists (Reg k t b n). split; [assumption|]. left. reflexivity.
    - cbn [flat_map]. rewrite app_nil_r. assumption.
  Qed.

  Lemma ghost_pdel_like h h2o c k c' :
    (* entries of c' other than k are entries of c, with their orphan elements kept *)
    (forall k' e, k' <> k -> aget (lru c') k' = Some e -> aget (lru c) k' = Some e) ->
    (forall k' e i x, k' <> k -> aget (lru c') k' = Some e -> eorphan e = Some i -> In (i, k', x) (orphans c) -> In (i, k', x) (orphans c')) ->
    (forall k', k' <> k -> (forall t' b' n, h2o <> Reg k' t' b' n) /\ h2o <> Rem k' /\ h2o <> Get k') ->
    (forall now, h2o <> Compact now) ->
    ghost h c ->
    forall k' e, k' <> k -> aget (lru c') k' = Some e ->
      exists orph t0 h2, registered_since (h ++ [h2o]) k' (etrans e) orph t0 h2 /\
        match eorphan e with
        | Some i => orph = true /\ In (i, k', t0 + timeout) (orphans c') /\ ~ In (Get k') h2 /\
                    (forall now, In (Compact now) h2 -> now <= t0 + timeout)
        | None => orph = true -> exists a b, h2 = a ++ Get k' :: b /\ (forall now, In (Compact now) a -> now <= t0 + timeout)
        end.
  Proof.
    intros A B C D G k' e N Ge. destruct (G k' e (A k' e N Ge)) as (orph & t0 & h2 & R & M).
    destruct (C k' N) as (C1 & C2 & C3).
    exists orph, t0, (h2 ++ [h2o]). split; [apply registered_extend; assumption|].
    destruct (eorphan e) as [i|] eqn:E.
    - destruct M as (M1 & M2 & M3 & M4). split; [assumption|]. split; [eapply B; eassumption|]. split.
      + intros I. apply in_app_or in I. destruct I as [I|[I|[]]]; [contradiction|]. congruence.
      + intros now I. apply in_app_or in I. destruct I as [I|[I|[]]]; [auto|]. exfalso. exact (D now I).
    - intros O. destruct (M O) as (a & b & -> & X). exists a, (b ++ [h2o]). split; [|assumption].
      rewrite <- app_assoc. reflexivity.
  Qed.

  Lemma orphans_pdel_keep c k : Inv c -> forall k' e i x,
    k' <> k -> aget (lru c) k' = Some e -> eorphan e = Some i -> In (i, k', x) (orphans c) ->
    In (i, k', x) (orphans (pdel c k)).
  Proof.
    intros I k' e i x N G E J. unfold pdel. cbn [orphans]. unfold orphOf.
    destruct (aget (lru c) k) as [e'|] eqn:Gk; [|exact J]. destruct (eorphan e') as [j|] eqn:Ej; [|exact J].
    apply in_removeOrphan. split; [exact J|]. cbn [oid fst]. intros ->.
    pose proof I as (_ & NO & _ & FW & BW). destruct (BW k e' j Gk Ej) as (y & I2).
    assert (X : forall a b, In a (orphans c) -> In b (orphans c) -> oid a = oid b -> a = b).
    { clear -NO. revert NO. induction (orphans c) as [|o os IH]; intros NO a b Ia Ib Eab; [destruct Ia|].
      cbn [map] in NO. inversion NO as [|? ? NI NO']; subst.
      destruct Ia as [->|Ia], Ib as [->|Ib]; auto.
      - exfalso. apply NI. rewrite Eab. apply in_map. assumption.
      - exfalso. apply NI. rewrite <- Eab. apply in_map. assumption. }
    specialize (X _ _ J I2 eq_refl). inversion X. congruence.
  Qed.

  Lemma aget_shrink c k e : aget (lru (shrink c)) k = Some e -> aget (lru c) k = Some e.
  Proof.
    unfold shrink. destruct (_ <? _)%nat; [|tauto]. destruct (lastKey c) as [k1|]; [|tauto].
    rewrite aget_pdel. destruct (eqb k k1); [discriminate|tauto].
  Qed.

  Lemma orphans_shrink_keep c : Inv c -> forall k' e i x,
    aget (lru (shrink c)) k' = Some e -> eorphan e = Some i -> In (i, k', x) (orphans c) ->
    In (i, k', x) (orphans (shrink c)).
  Proof.
    intros I k' e i x G E J. pose proof (aget_shrink _ _ _ G) as G0. unfold shrink in *.
    destruct (_ <? _)%nat; [|exact J]. destruct (lastKey c) as [k1|]; [|exact J].
    rewrite aget_pdel in G. case_eqb k' k1; [discriminate|].
    eapply orphans_pdel_keep; eauto.
  Qed.

  Lemma orphans_shrink_sub c o : In o (orphans (shrink c)) -> In o (orphans c).
  Proof.
    unfold shrink. destruct (_ <? _)%nat; [|tauto]. destruct (lastKey c) as [k1|]; [|tauto].
    unfold pdel. cbn [orphans]. destruct (orphOf c k1); [intros I; apply in_removeOrphan in I; tauto|tauto].
  Qed.

  Lemma orphans_pdel_sub c k o : In o (orphans (pdel c k)) -> In o (orphans c).
  Proof. unfold pdel. cbn [orphans]. destruct (orphOf c k); [intros I; apply in_removeOrphan in I; tauto|tauto]. Qed.

  Lemma sorted_shrink c : sortedDesc (orphans c) -> sortedDesc (orphans (shrink c)).
  Proof.
    intros S. unfold shrink. destruct (_ <? _)%nat; [|assumption]. destruct (lastKey c) as [k1|]; [|assumption].
    unfold pdel. cbn [orphans]. apply sortedDesc_remove. assumption.
  Qed.

  (** every orphan's expiry is a past registration time plus the timeout *)
  Definition expFrom (h : list op) (c : cache) : Prop :=
    forall o, In o (orphans c) -> exists t b n, In (Reg (okey o) t b n) h /\ oexp o = n + timeout.

  Lemma run_ghost h : monotone h ->
    ghost h (run h) /\ sortedDesc (orphans (run h)) /\ expFrom h (run h).
  Proof.
    induction h as [|o h IH] using rev_ind; intros M.
    - cbn. split; [|split]; [intros k e G; discriminate|exact Coq.Init.Logic.I|intros ? []].
    - apply monotone_app in M. destruct M as [M MT]. destruct (IH M) as (G & S & X). clear IH.
      rewrite run_snoc. destruct (run_inv h) as [I L]. set (c := run h) in *.
      destruct o as [k t b now|k|k|now]; cbn [stepOp].
      + (* Reg *)
        rewrite register_prim by assumption. set (c1 := padd (pdel c k) k t b now).
        assert (I1 : Inv c1).
        { apply Inv_padd; [apply Inv_pdel; assumption|]. rewrite aget_pdel, eqb_refl. reflexivity. }
        assert (X1 : expFrom (h ++ [Reg k t b now]) c1).
        { intros o Io. assert (O : o = (nextId (pdel c k), k, now + timeout) \/ In o (orphans c)).
          { unfold c1, padd in Io. destruct b; cbn [orphans] in Io.
            - destruct Io as [<-|Io]; [left; reflexivity|right; apply orphans_pdel_sub in Io; assumption].
            - right; apply orphans_pdel_sub in Io; assumption. }
          destruct O as [->|O].
          - exists t, b, now. split; [apply in_or_app; right; left; reflexivity|reflexivity].
          - destruct (X o O) as (t' & b' & n & J & E). exists t', b', n. split; [apply in_or_app; left; assumption|assumption]. }
        split; [|split].
        * intros k' e Ge. case_eqb k' k.
          -- subst k'. apply aget_shrink in Ge as Ge1. unfold c1 in Ge1. rewrite aget_padd, eqb_refl in Ge1.
             inversion Ge1; subst e; clear Ge1. cbn [etrans eorphan].
             exists b, now, []. split.
             { exists h. split; [reflexivity|]. split; [intros t' b' n []|intros []]. }
             destruct b.
             { split; [reflexivity|]. split; [|split; [intros []|intros ? []]].
               eapply orphans_shrink_keep; [exact I1|exact Ge|reflexivity|].
               unfold c1, padd. cbn [orphans]. left. reflexivity. }
             { discriminate. }
          -- eapply (ghost_pdel_like h (Reg k t b now) c k (shrink c1)); eauto.
             ++ intros k0 e0 N0 G0. apply aget_shrink in G0. unfold c1 in G0. rewrite aget_padd in G0.
                apply eqb_neq in N0. rewrite N0 in G0. rewrite aget_pdel, N0 in G0. assumption.
             ++ intros k0 e0 i x N0 G0 E0 J. eapply orphans_shrink_keep; eauto.
                apply aget_shrink in G0. unfold c1 in G0 |- *. rewrite aget_padd in G0.
                apply eqb_neq in N0 as N0'. rewrite N0' in G0. rewrite aget_pdel, N0' in G0.
                assert (In (i, k0, x) (orphans (pdel c k))) by (eapply orphans_pdel_keep; eauto).
                unfold padd. destruct b; cbn [orphans]; [right|]; assumption.
             ++ intros k0 N0. repeat split; congruence.
             ++ congruence.
        * apply sorted_shrink. unfold c1, padd. destruct b; cbn [orphans].
          -- cbn [sortedDesc]. split.
             ++ intros o Io. apply orphans_pdel_sub in Io. destruct (X o Io) as (t' & b' & n & J & E).
                rewrite E. cbn [oexp snd]. specialize (MT n _ _ _ J now (or_introl eq_refl)). lia.
             ++ unfold pdel. cbn [orphans]. apply sortedDesc_remove. assumption.
          -- unfold pdel. cbn [orphans]. apply sortedDesc_remove. assumption.
        * intros o Io. apply X1. apply orphans_shrink_sub. assumption.
      + (* Get *)
        rewrite get_prim. destruct (aget (lru c) k) as [e0|] eqn:G0.
        * set (c1 := padd (pdel c k) k (etrans e0) false 0).
          split; [|split].
          -- intros k' e Ge. case_eqb k' k.
             ++ subst k'. unfold c1 in Ge. rewrite aget_padd, eqb_refl in Ge. inversion Ge; subst e. cbn [etrans eorphan].
                destruct (G k e0 G0) as (orph & t0 & h2 & R & MM).
                exists orph, t0, (h2 ++ [Get k]). split; [apply registered_extend; [assumption|congruence|congruence]|].
                intros O. destruct (eorphan e0).
                ** exists h2, []. split; [reflexivity|]. apply MM.
                ** destruct (MM O) as (a & b & -> & Y). exists a, (b ++ [Get k]). split; [rewrite <- app_assoc; reflexivity|assumption].
             ++ eapply (ghost_pdel_like h (Get k) c k c1); eauto.
                ** intros k0 e1 N0 G1. unfold c1 in G1. rewrite aget_padd in G1.
                   apply eqb_neq in N0. rewrite N0 in G1. rewrite aget_pdel, N0 in G1. assumption.
                ** intros k0 e1 i x N0 G1 E0 J. unfold c1 in G1 |- *. rewrite aget_padd in G1.
                   apply eqb_neq in N0 as N0'. rewrite N0' in G1. rewrite aget_pdel, N0' in G1.
                   unfold padd. cbn [orphans]. eapply orphans_pdel_keep; eauto.
                ** intros k0 N0. repeat split; congruence.
                ** congruence.
          -- unfold c1, padd, pdel. cbn [orphans]. apply sortedDesc_remove. assumption.
          -- intros o Io. unfold c1, padd in Io. cbn [orphans] in Io. apply orphans_pdel_sub in Io.
             destruct (X o Io) as (t' & b' & n & J & E). exists t', b', n. split; [apply in_or_app; left; assumption|assumption].
        * split; [|split; [assumption|]].
          -- intros k' e Ge. assert (N : k' <> k) by congruence.
             eapply (ghost_pdel_like h (Get k) c k c); eauto.
             ++ intros k0 N0. repeat split; congruence.
             ++ congruence.
          -- intros o Io. destruct (X o Io) as (t' & b' & n & J & E). exists t', b', n. split; [apply in_or_app; left; assumption|assumption].
      + (* Rem *)
        rewrite remove_prim. split; [|split].
        * intros k' e Ge. rewrite aget_pdel in Ge. case_eqb k' k; [discriminate|].
          eapply (ghost_pdel_like h (Rem k) c k (pdel c k)); eauto.
          -- intros k0 e1 N0 G1. rewrite aget_pdel in G1. apply eqb_neq in N0. rewrite N0 in G1. assumption.
          -- intros k0 e1 i x N0 G1 E1 J. rewrite aget_pdel in G1. apply eqb_neq in N0 as N0'. rewrite N0' in G1.
             eapply orphans_pdel_keep; eauto.
          -- intros k0 N0. repeat split; congruence.
          -- congruence.
          -- rewrite aget_pdel. apply eqb_neq in E. rewrite E in *. assumption.
        * unfold pdel. cbn [orphans]. apply sortedDesc_remove. assumption.
        * intros o Io. apply orphans_pdel_sub in Io. destruct (X o Io) as (t' & b' & n & J & E). exists t', b', n.
          split; [apply in_or_app; left; assumption|assumption].
      + (* Compact *)
        destruct (compact_ok c now I) as (c' & f & E & I' & E2 & F & SUB & SO & NI). rewrite E.
        destruct (SO S) as [S' EX]. split; [|split; [assumption|]].
        * intros k e Ge. rewrite E2 in Ge. apply aget_filter_some in Ge; [|apply I]. destruct Ge as [Ge Ff].
          destruct (G k e Ge) as (orph & t0 & h2 & R & MM).
          exists orph, t0, (h2 ++ [Compact now]). split; [apply registered_extend; [assumption|congruence|congruence]|].
          destruct (eorphan e) as [i|] eqn:Ei.
          -- destruct MM as (M1 & M2 & M3 & M4). split; [assumption|].
             assert (Ge' : aget (lru c') k = Some e).
             { rewrite E2. apply in_aget.
               - rewrite <- E2. apply I'.
               - apply filter_In. split; [apply aget_in; assumption|assumption]. }
             assert (IN : In (i, k, t0 + timeout) (orphans c')).
             { pose proof I' as (_ & _ & _ & _ & BW). destruct (BW k e i Ge' Ei) as (x & J).
               pose proof (SUB _ J) as J2. pose proof (orph_unique c I _ _ J2 M2 eq_refl) as U.
               inversion U; subst. exact J. }
             split; [assumption|]. split.
             ++ intros J. apply in_app_or in J. destruct J as [J|[J|[]]]; [contradiction|discriminate].
             ++ intros n J. apply in_app_or in J. destruct J as [J|[J|[]]]; [auto|]. inversion J; subst n.
                apply EX in IN. cbn [oexp snd] in IN. assumption.
          -- intros O. destruct (MM O) as (a & b & -> & Y). exists a, (b ++ [Compact now]).
             split; [rewrite <- app_assoc; reflexivity|assumption].
        * intros o Io. apply SUB in Io. destruct (X o Io) as (t' & b' & n & J & E3). exists t', b', n.
          split; [apply in_or_app; left; assumption|assumption].
  Qed.

  Lemma split_first {A} (P : A -> Prop) (a b a' b' : list A) (x y : A) :
    a ++ x :: b = a' ++ y :: b' -> ~ In x a' -> x <> y -> In y a.
  Proof.
    revert a'. induction a as [|z a IH]; intros a' E N D.
    - destruct a' as [|z' a']; cbn in E; inversion E; subst; [contradiction|]. exfalso. apply N. left. reflexivity.
    - destruct a' as [|z' a']; cbn in E; inversion E; subst; [left; reflexivity|]. right.
      apply (IH a'); auto. intros J. apply N. right. assumption.
  Qed.

  Lemma sound h k t : monotone h ->
    snd (cGet (run h) k) = Some t ->
    exists orph t0 h2, registered_since h k t orph t0 h2 /\ (orph = true -> ~ expired_unused timeout k t0 h2).
  Proof.
    intros M E. unfold cGet in E. destruct (aget (lru (run h)) k) as [e|] eqn:G; [|discriminate].
    cbn [snd] in E. inversion E; subst t. clear E.
    destruct (run_ghost h M) as (GH & _ & _). destruct (GH k e G) as (orph & t0 & h2 & R & MM).
    exists orph, t0, h2. split; [assumption|]. intros O (a & now & b & E & LT & NG).
    destruct (eorphan e).
    - destruct MM as (_ & _ & _ & M4). specialize (M4 now). rewrite E in M4.
      assert (now <= t0 + timeout); [|lia]. apply M4. apply in_or_app. right. left. reflexivity.
    - destruct (MM O) as (a' & b' & E' & Y). rewrite E in E'.
      assert (J : In (Compact now) a').
      { eapply (split_first (fun _ => True)); [symmetry; exact E'|assumption|discriminate]. }
      apply Y in J. lia.
  Qed.

  (** *** completeness: nothing disappears without a reason *)
  Definition touchKeys (o : op) : list connKey :=
    match o with Reg k' _ _ _ => [k'] | Get k' => [k'] | _ => [] end.
  Lemma touched_snoc k h o : touched k (h ++ [o]) = touched k h ++ filter (fun k' => negb (eqb k' k)) (touchKeys o).
  Proof. unfold touched. rewrite flat_map_app, filter_app. cbn [flat_map]. rewrite app_nil_r. reflexivity. Qed.

  Definition stored (c : cache) (k : connKey) (t : translation) (ahead : list connKey) : Prop :=
    exists l1 e l2, lru c = l1 ++ (k, e) :: l2 /\ etrans e = t /\ (forall k', In k' (keys l1) -> In k' ahead).

  Lemma stored_weaken c k t a1 a2 : stored c k t a1 -> (forall x, In x a1 -> In x a2) -> stored c k t a2.
  Proof. intros (l1 & e & l2 & E1 & E2 & F) S. exists l1, e, l2. auto. Qed.

  Lemma stored_filter c c' f k t a : lru c' = filter f (lru c) -> stored c k t a ->
    (forall e, In (k, e) (lru c) -> f (k, e) = true) -> stored c' k t a.
  Proof.
    intros E (l1 & e & l2 & E1 & E2 & F) FK. exists (filter f l1), e, (filter f l2).
    split; [|split; [assumption|]].
    - rewrite E, E1, filter_app. cbn [filter]. rewrite FK; [reflexivity|].
      rewrite E1. apply in_or_app. right. left. reflexivity.
    - intros k' I. apply F. unfold keys in *. apply in_map_iff in I. destruct I as (p & Ep & I).
      apply filter_In in I. apply in_map_iff. exists p. tauto.
  Qed.

  Lemma stored_pdel c k t a k' : k' <> k -> stored c k t a -> stored (pdel c k') k t a.
  Proof.
    intros N S. apply (stored_filter c _ (fun p => negb (eqb k' (fst p))) k t a); [reflexivity|assumption|].
    intros e _. cbn [fst]. apply negb_true_iff. apply eqb_neq. assumption.
  Qed.

  Lemma stored_padd c k t a k' t' b now : stored c k t a -> stored (padd c k' t' b now) k t (k' :: a).
  Proof.
    intros (l1 & e & l2 & E1 & E2 & F). unfold padd.
    destruct b; cbn [lru]; rewrite E1.
    - eexists (_ :: l1), e, l2. split; [reflexivity|]. split; [assumption|].
      intros x [<-|I]; [left; reflexivity|right; auto].
    - eexists (_ :: l1), e, l2. split; [reflexivity|]. split; [assumption|].
      intros x [<-|I]; [left; reflexivity|right; auto].
  Qed.

  Lemma stored_shrink c k t a : Inv c -> (List.length (nodup Eqb_dec a) < maxSize)%nat ->
    stored c k t a -> stored (shrink c) k t a.
  Proof.
    intros I LA S. unfold shrink. destruct (maxSize <? List.length (lru c))%nat eqn:Q; [|assumption].
    apply Nat.ltb_lt in Q. unfold lastKey. destruct (rev (lru c)) as [|[k1 e1] rest] eqn:R; [assumption|].
    assert (RL : lru c = rev rest ++ [(k1, e1)]) by (rewrite <- (rev_involutive (lru c)), R; reflexivity).
    destruct (Eqb_dec k1 k) as [->|N]; [|apply stored_pdel; assumption]. exfalso.
    destruct S as (l1 & e & l2 & E1 & E2 & F).
    pose proof I as (ND & _).
    assert (L2 : l2 = []).
    { destruct l2 as [|p l2]; [reflexivity|]. exfalso.
      assert (X : exists p' l3, p :: l2 = l3 ++ [p']) by (destruct (exists_last (l := p :: l2)) as (l3 & p' & ->); [discriminate|eauto]).
      destruct X as (p' & l3 & X). rewrite X in E1. rewrite RL in E1.
      change (l1 ++ (k, e) :: l3 ++ [p']) with (l1 ++ ((k, e) :: l3) ++ [p']) in E1. rewrite app_assoc in E1.
      apply app_inj_tail in E1. destruct E1 as [E1 E3]. subst p'.
      rewrite RL in ND. unfold keys in ND. rewrite map_app in ND. cbn [map fst] in ND.
      apply NoDup_remove_2 in ND. rewrite app_nil_r in ND. apply ND. rewrite E1, map_app. apply in_or_app. right. left. reflexivity. }
    subst l2. rewrite E1, app_length in Q. cbn [List.length] in Q.
    assert (ND1 : NoDup (keys l1)).
    { rewrite E1 in ND. unfold keys in ND. rewrite map_app in ND. cbn [map fst] in ND. apply NoDup_remove_1 in ND.
      rewrite app_nil_r in ND. exact ND. }
    assert (LE : (List.length (keys l1) <= List.length (nodup Eqb_dec a))%nat).
    { apply NoDup_incl_length; [assumption|]. intros x J. apply nodup_In. apply F. assumption. }
    unfold keys in LE. rewrite map_length in LE. lia.
  Qed.

  Lemma nodup_length_incl (a b : list connKey) : (forall x, In x a -> In x b) ->
    (List.length (nodup Eqb_dec a) <= List.length (nodup Eqb_dec b))%nat.
  Proof.
    intros S. apply NoDup_incl_length; [apply NoDup_nodup|]. intros x J. apply nodup_In. apply nodup_In in J. auto.
  Qed.

  Lemma aget_stored c k e : aget (lru c) k = Some e -> exists l1 l2, lru c = l1 ++ (k, e) :: l2.
  Proof. intros G. apply aget_in in G. apply in_split in G. destruct G as (l1 & l2 & E). eauto. Qed.

  Lemma stored_aget c k t a : Inv c -> stored c k t a -> exists e, aget (lru c) k = Some e /\ etrans e = t.
  Proof.
    intros I (l1 & e & l2 & E1 & E2 & _). exists e. split; [|assumption]. apply in_aget; [apply I|].
    rewrite E1. apply in_or_app. right. left. reflexivity.
  Qed.

  Lemma complete_aux h1 k t orph t0 h2 :
    (forall t' b now, ~ In (Reg k t' b now) h2) -> ~ In (Rem k) h2 ->
    (List.length (nodup Eqb_dec (touched k h2)) < maxSize)%nat ->
    (orph = true -> ~ expired_unused timeout k t0 h2) ->
    let c := run (h1 ++ Reg k t orph t0 :: h2) in
    stored c k t (touched k h2) /\
    (forall e i, aget (lru c) k = Some e -> eorphan e = Some i -> orph = true /\ ~ In (Get k) h2 /\ In (i, k, t0 + timeout) (orphans c)).
  Proof.
    induction h2 as [|o h2 IH] using rev_ind; intros NR NM LT NE.
    - cbv zeta. change (Reg k t orph t0 :: []) with ([] ++ [Reg k t orph t0]). cbn [app].
      rewrite run_snoc. cbn [stepOp]. destruct (run_inv h1) as [I L]. rewrite register_prim by assumption.
      set (c1 := padd (pdel (run h1) k) k t orph t0).
      assert (I1 : Inv c1).
      { apply Inv_padd; [apply Inv_pdel; assumption|]. rewrite aget_pdel, eqb_refl. reflexivity. }
      split.
      + apply stored_shrink; [assumption|cbn; lia|]. unfold c1, padd. destruct orph; cbn [lru].
        * exists [], {| etrans := t; eorphan := Some (nextId (pdel (run h1) k)) |}, (lru (pdel (run h1) k)).
          split; [reflexivity|]. split; [reflexivity|]. intros ? [].
        * exists [], {| etrans := t; eorphan := None |}, (lru (pdel (run h1) k)).
          split; [reflexivity|]. split; [reflexivity|]. intros ? [].
      + intros e i G E. apply aget_shrink in G as G1. unfold c1 in G1. rewrite aget_padd, eqb_refl in G1.
        inversion G1; subst e. cbn [eorphan] in E. destruct orph; [|discriminate].
        split; [reflexivity|]. split; [intros []|]. eapply orphans_shrink_keep; [exact I1|exact G|exact E|].
        inversion E. unfold c1, padd. cbn [orphans]. left. reflexivity.
    - assert (NR' : forall t' b now, ~ In (Reg k t' b now) h2).
      { intros t' b now J. eapply NR. apply in_or_app. left. eassumption. }
      assert (NM' : ~ In (Rem k) h2) by (intros J; apply NM; apply in_or_app; left; assumption).
      assert (LT' : (List.length (nodup Eqb_dec (touched k h2)) < maxSize)%nat).
      { eapply Nat.le_lt_trans; [|exact LT]. apply nodup_length_incl. intros x J. rewrite touched_snoc. apply in_or_app. left. assumption. }
      assert (NE' : orph = true -> ~ expired_unused timeout k t0 h2).
      { intros O (a & now & b & E & X). apply (NE O). exists a, now, (b ++ [o]). rewrite E, <- app_assoc. auto. }
      specialize (IH NR' NM' LT' NE'). cbv zeta in IH |- *. destruct IH as [ST OR].
      replace (h1 ++ Reg k t orph t0 :: h2 ++ [o]) with ((h1 ++ Reg k t orph t0 :: h2) ++ [o]) by (rewrite <- app_assoc; reflexivity).
      rewrite run_snoc. destruct (run_inv (h1 ++ Reg k t orph t0 :: h2)) as [I L].
      set (c := run (h1 ++ Reg k t orph t0 :: h2)) in *.
      destruct o as [k' t' b now|k'|k'|now]; cbn [stepOp].
      + assert (N : k' <> k) by (intros ->; eapply NR; apply in_or_app; right; left; reflexivity).
        rewrite register_prim by assumption. set (c1 := padd (pdel c k') k' t' b now).
        assert (I1 : Inv c1).
        { apply Inv_padd; [apply Inv_pdel; assumption|]. rewrite aget_pdel, eqb_refl. reflexivity. }
        split.
        * apply stored_shrink; [assumption|exact LT|].
          apply stored_weaken with (a1 := k' :: touched k h2).
          -- apply stored_padd. apply stored_pdel; assumption.
          -- intros x [<-|J]; rewrite touched_snoc; apply in_or_app; [right|left; assumption].
             cbn [touchKeys filter]. apply eqb_neq in N. rewrite N. left. reflexivity.
        * intros e i G E. apply aget_shrink in G as G1. unfold c1 in G1. rewrite aget_padd in G1.
          assert (N' : eqb k k' = false) by (apply eqb_neq; congruence). rewrite N' in G1. rewrite aget_pdel, N' in G1.
          destruct (OR e i G1 E) as (O1 & O2 & O3). split; [assumption|]. split.
          -- intros J. apply in_app_or in J. destruct J as [J|[J|[]]]; [contradiction|discriminate].
          -- eapply orphans_shrink_keep; [exact I1|exact G|exact E|].
             assert (J : In (i, k, t0 + timeout) (orphans (pdel c k'))) by (eapply orphans_pdel_keep; eauto).
             unfold c1, padd. destruct b; cbn [orphans]; [right|]; assumption.
      + rewrite get_prim. destruct (aget (lru c) k') as [e0|] eqn:G0.
        * destruct (Eqb_dec k' k) as [->|N].
          -- split.
             ++ destruct (stored_aget _ _ _ _ I ST) as (e1 & G1 & T1). rewrite G0 in G1. inversion G1; subst e1.
                unfold padd. exists [], {| etrans := etrans e0; eorphan := None |}, (lru (pdel c k)).
                split; [reflexivity|]. split; [exact T1|]. intros ? [].
             ++ intros e i G E. rewrite aget_padd, eqb_refl in G. inversion G; subst e. discriminate.
          -- split.
             ++ apply stored_weaken with (a1 := k' :: touched k h2).
                ** apply stored_padd. apply stored_pdel; assumption.
                ** intros x [<-|J]; rewrite touched_snoc; apply in_or_app; [right|left; assumption].
                   cbn [touchKeys filter]. apply eqb_neq in N. rewrite N. left. reflexivity.
             ++ intros e i G E. rewrite aget_padd in G.
                assert (N' : eqb k k' = false) by (apply eqb_neq; congruence). rewrite N' in G. rewrite aget_pdel, N' in G.
                destruct (OR e i G E) as (O1 & O2 & O3). split; [assumption|]. split.
                ** intros J. apply in_app_or in J. destruct J as [J|[J|[]]]; [contradiction|congruence].
                ** unfold padd. cbn [orphans]. eapply orphans_pdel_keep; eauto.
        * split.
          -- apply stored_weaken with (a1 := touched k h2); [assumption|]. intros x J. rewrite touched_snoc. apply in_or_app. left. assumption.
          -- intros e i G E. destruct (OR e i G E) as (O1 & O2 & O3). split; [assumption|]. split; [|assumption].
             intros J. apply in_app_or in J. destruct J as [J|[J|[]]]; [contradiction|]. congruence.
      + assert (N : k' <> k) by (intros ->; apply NM; apply in_or_app; right; left; reflexivity).
        rewrite remove_prim. split.
        * apply stored_weaken with (a1 := touched k h2); [apply stored_pdel; assumption|].
          intros x J. rewrite touched_snoc. apply in_or_app. left. assumption.
        * intros e i G E. rewrite aget_pdel in G. assert (N' : eqb k k' = false) by (apply eqb_neq; congruence). rewrite N' in G.
          destruct (OR e i G E) as (O1 & O2 & O3). split; [assumption|]. split.
          -- intros J. apply in_app_or in J. destruct J as [J|[J|[]]]; [contradiction|discriminate].
          -- eapply orphans_pdel_keep; eauto.
      + destruct (compact_ok c now I) as (c' & f & E & I' & E2 & F & SUB & SO & NI). rewrite E.
        assert (FK : forall e, In (k, e) (lru c) -> f (k, e) = true).
        { intros e Ie. destruct (f (k, e)) eqn:Fe; [reflexivity|exfalso].
          destruct (F k e Ie Fe) as (o & Io & Ko & Xo).
          pose proof I as (ND & _ & _ & FW & BW). destruct (FW o Io) as (t1 & G1). rewrite Ko in G1.
          destruct (OR _ (oid o) G1 eq_refl) as (O1 & O2 & O3).
          pose proof (orph_unique c I _ _ Io O3) as U. cbn [okey fst snd] in U. specialize (U Ko). rewrite U in Xo. cbn [oexp snd] in Xo.
          apply (NE O1). exists h2, now, []. split; [reflexivity|]. split; [lia|assumption]. }
        split.
        * apply stored_weaken with (a1 := touched k h2); [eapply stored_filter; eassumption|].
          intros x J. rewrite touched_snoc. apply in_or_app. left. assumption.
        * intros e i G Ei. pose proof G as G'. rewrite E2 in G. apply aget_filter_some in G; [|apply I]. destruct G as [G Ff].
          destruct (OR e i G Ei) as (O1 & O2 & O3). split; [assumption|]. split.
          -- intros J. apply in_app_or in J. destruct J as [J|[J|[]]]; [contradiction|discriminate].
          -- pose proof I' as (_ & _ & _ & _ & BW). destruct (BW k e i G' Ei) as (x & J).
             pose proof (SUB _ J) as J2. pose proof (orph_unique c I _ _ J2 O3 eq_refl) as U. inversion U; subst. exact J.
  Qed.

  Lemma complete h k t orph t0 h2 :
    registered_since h k t orph t0 h2 ->
    (List.length (nodup Eqb_dec (touched k h2)) < maxSize)%nat ->
    (orph = true -> ~ expired_unused timeout k t0 h2) ->
    snd (cGet (run h) k) = Some t.
  Proof.
    intros (h1 & -> & N1 & N2) LT NE.
    destruct (complete_aux h1 k t orph t0 h2 N1 N2 LT NE) as [ST _].
    destruct (stored_aget _ _ _ _ (proj1 (run_inv _)) ST) as (e & G & T).
    unfold cGet. rewrite G. cbn [snd]. congruence.
  Qed.

  Lemma size_bound h : (List.length (lru (run h)) <= maxSize)%nat.
  Proof. apply run_inv. Qed.

  Lemma compaction_terminates h now : exists c n, removeOrphans (run h) now = Some (c, n) /\
    n = zlen (lru (run h)) - zlen (lru c).
  Proof.
    destruct (compact_ok (run h) now (proj1 (run_inv h))) as (c' & f & E & _). eauto.
  Qed.

  (** the number of waiting orphans never exceeds the number of entries *)
  Lemma orphans_bound h : (List.length (orphans (run h)) <= List.length (lru (run h)))%nat.
  Proof.
    destruct (run_inv h) as [I _]. set (c := run h) in *.
    assert (ND : NoDup (map okey (orphans c))).
    { pose proof (orph_unique c I) as U. pose proof I as (_ & NO & _). revert U NO.
      induction (orphans c) as [|o os IH]; cbn [map]; intros U NO; [constructor|].
      inversion NO as [|? ? NI NO']; subst. constructor.
      - intros J. apply in_map_iff in J. destruct J as (o' & E & J).
        assert (o' = o) by (apply U; [right; assumption|left; reflexivity|assumption]). subst o'.
        apply NI. apply in_map. assumption.
      - apply IH; [|assumption]. intros a b Ia Ib. apply U; right; assumption. }
    rewrite <- (map_length okey), <- (map_length fst (lru c)). apply NoDup_incl_length; [assumption|].
    intros k J. apply in_map_iff in J. destruct J as (o & <- & J). pose proof I as (_ & _ & _ & FW & _).
    destruct (FW o J) as (t & G). eapply aget_some_in_keys. eassumption.
  Qed.
End Proofs.

(** *** addresses *)
Lemma len4 {A} (l : list A) : List.length l = 4%nat -> exists a b c d, l = [a; b; c; d].
Proof.
  destruct l as [|a [|b [|c [|d [|e l]]]]]; cbn; try discriminate. intros _. eauto.
Qed.

Lemma v4prefix_len : List.length v4InV6Prefix = 12%nat.
Proof. reflexivity. Qed.

Lemma starts_prefix_skip ip : starts_with v4InV6Prefix ip = true -> ip = v4InV6Prefix ++ skipn 12 ip.
Proof.
  intros S. apply starts_with_iff in S. destruct S as (r & ->). rewrite skipn_app_exact; [reflexivity|reflexivity].
Qed.

Lemma ipEqual_same a b : validIP a -> validIP b -> (ipEqual a b = true <-> sameIP a b).
Proof.
  unfold validIP, ipEqual, sameIP, canonical, zlen. intros [A|A] [B|B]; rewrite A, B; change (Z.of_nat 4) with 4; change (Z.of_nat 16) with 16; cbn [Nat.eqb].
  - rewrite Z.eqb_refl. rewrite (eqb_eq a b). split; [intros ->; reflexivity|].
    intros E. apply app_inv_head in E. assumption.
  - cbn [Z.eqb Pos.eqb andb]. rewrite andb_true_iff, (eqb_eq a). split.
    + intros [S E]. apply starts_prefix_skip in S. rewrite S, <- E. reflexivity.
    + intros E. change [0;0;0;0;0;0;0;0;0;0;255;255] with v4InV6Prefix in E. rewrite <- E. split; [apply starts_with_app|].
      rewrite skipn_app_exact; reflexivity.
  - cbn [Z.eqb Pos.eqb andb]. rewrite andb_true_iff, (eqb_eq (skipn 12 a)). split.
    + intros [S E]. apply starts_prefix_skip in S. rewrite S, E. reflexivity.
    + intros E. change [0;0;0;0;0;0;0;0;0;0;255;255] with v4InV6Prefix in E. rewrite E. split; [apply starts_with_app|].
      rewrite skipn_app_exact; reflexivity.
  - rewrite Z.eqb_refl. apply (eqb_eq a b).
Qed.

Lemma addr_same a b : validIP a -> validIP b -> (AddressFromNetIP a = AddressFromNetIP b <-> sameIP a b).
Proof.
  assert (X : forall a, validIP a -> AddressFromNetIP a =
            if starts_with v4InV6Prefix (canonical a) then V4 (skipn 12 (canonical a)) else V6 (canonical a)).
  { clear. intros a [A|A]; unfold AddressFromNetIP, to4, canonical, zlen; rewrite A.
    - change (Z.of_nat 4 =? 4) with true. change (4 =? 4)%nat with true. cbv iota.
      change [0;0;0;0;0;0;0;0;0;0;255;255] with v4InV6Prefix. rewrite starts_with_app.
      rewrite skipn_app_exact; reflexivity.
    - change (Z.of_nat 16 =? 4) with false. change (Z.of_nat 16 =? 16) with true. change (16 =? 4)%nat with false.
      cbn [andb]. cbv iota. destruct (starts_with v4InV6Prefix a); [reflexivity|].
      rewrite firstn_app_exact; [reflexivity|congruence]. }
  intros VA VB. rewrite (X a VA), (X b VB). unfold sameIP. split; [|intros ->; reflexivity].
  destruct (starts_with v4InV6Prefix (canonical a)) eqn:SA, (starts_with v4InV6Prefix (canonical b)) eqn:SB; intros E; try discriminate.
  - apply (f_equal (fun x => match x with V4 l => l | V6 l => l end)) in E. cbv beta iota in E.
    apply starts_prefix_skip in SA, SB. rewrite SA, SB, E. reflexivity.
  - apply (f_equal (fun x => match x with V4 l => l | V6 l => l end)) in E. exact E.
Qed.

(** *** NAT detection *)
Lemma IsNAT_iff os od osp odp rs rd rsp rdp p q :
  validIP os -> validIP od -> validIP rs -> validIP rd ->
  exists b, IsNAT (mkCon (mkTuple os od p osp odp) (mkTuple rs rd q rsp rdp)) = Some b /\
  (b = false <-> sameIP os rd /\ sameIP od rs /\ osp = rdp /\ odp = rsp).
Proof.
  intros A B C D. unfold IsNAT. cbn [origin reply mkCon mkTuple tproto tsrc tdst psport pdport].
  pose proof (ipEqual_same os rd A D) as E1. pose proof (ipEqual_same od rs B C) as E2.
  destruct (ipEqual os rd); cbn [negb].
  - eexists. split; [reflexivity|]. rewrite !orb_false_iff, !negb_false_iff, !Z.eqb_eq. rewrite E2. tauto.
  - eexists. split; [reflexivity|]. split; [discriminate|]. intros (S & _). apply E1 in S. discriminate.
Qed.

Section Reg.
  Variable maxSize : nat.
  Variable timeout : Z.
  Hypothesis maxPos : (0 < maxSize)%nat.
  Notation run := (runOps maxSize timeout).

  (** storing a NAT connection is registering its two directions *)
  Lemma register_ops h os od osp odp rs rd rsp rdp p typ n1 n2 :
    validIP os -> validIP od -> validIP rs -> validIP rd ->
    (p = 6 /\ typ = TCP) \/ (p = 17 /\ typ = UDP) ->
    ~ (sameIP os rd /\ sameIP od rs /\ osp = rdp /\ odp = rsp) ->
    register maxSize timeout (run h) (mkCon (mkTuple os od p osp odp) (mkTuple rs rd p rsp rdp)) n1 n2 =
    Some (run (h ++ [Reg (keyOfStats {| csource := os; cdest := od; csport := osp; cdport := odp; ctype := typ |})
                         {| replSrcIP := rs; replDstIP := rd; replSrcPort := rsp; replDstPort := rdp |} true n1;
                     Reg (keyOfStats {| csource := rs; cdest := rd; csport := rsp; cdport := rdp; ctype := typ |})
                         {| replSrcIP := os; replDstIP := od; replSrcPort := osp; replDstPort := odp |} true n2])).
  Proof.
    intros A B C D P N. destruct (IsNAT_iff os od osp odp rs rd rsp rdp p p A B C D) as (b & E & F).
    unfold register. rewrite E. destruct b; [|exfalso; apply N; apply F; reflexivity].
    unfold runOps. rewrite fold_left_app. cbn [fold_left stepOp].
    assert (K : forall a b c d, formatKey (mkTuple a b p c d) =
                Some (Some (keyOfStats {| csource := a; cdest := b; csport := c; cdport := d; ctype := typ |}))).
    { intros. destruct P as [[-> ->]|[-> ->]]; reflexivity. }
    unfold cAdd. cbn [origin reply mkCon]. rewrite !K.
    unfold formatIPTranslation. cbn [mkTuple tsrc tdst tproto psport pdport pnum].
    destruct (cRegister maxSize timeout _ _ _ true n1) as [c1 e1]. cbn [fst].
    destruct (cRegister maxSize timeout c1 _ _ true n2) as [c2 e2]. reflexivity.
  Qed.

  Lemma register_mirror c os od osp odp rs rd rsp rdp p q n1 n2 :
    validIP os -> validIP od -> validIP rs -> validIP rd ->
    sameIP os rd -> sameIP od rs -> osp = rdp -> odp = rsp ->
    register maxSize timeout c (mkCon (mkTuple os od p osp odp) (mkTuple rs rd q rsp rdp)) n1 n2 = Some c.
  Proof.
    intros A B C D S1 S2 P1 P2. destruct (IsNAT_iff os od osp odp rs rd rsp rdp p q A B C D) as (b & E & F).
    unfold register. rewrite E. assert (b = false) by (apply F; tauto). subst b. reflexivity.
  Qed.
End Reg.

Lemma getDNAT_real c s t : snd (getDNATTuple c s) = Some t ->
  snd (GetTranslationForConn c s) = Some t /\
  (validIP (cdest s) -> validIP (replSrcIP t) -> ~ (sameIP (cdest s) (replSrcIP t) /\ replSrcPort t = cdport s)).
Proof.
  unfold getDNATTuple. destruct (GetTranslationForConn c s) as [c' [r|]]; cbn [snd]; [|discriminate].
  destruct (ipEqual (cdest s) (replSrcIP r)) eqn:E1; cbn [andb].
  - destruct (replSrcPort r =? cdport s) eqn:E2; cbn [snd]; [discriminate|]. intros E; inversion E; subst r. split; [reflexivity|].
    intros _ _ [_ X]. apply Z.eqb_neq in E2. contradiction.
  - cbn [snd]. intros E; inversion E; subst r. split; [reflexivity|].
    intros A B [X _]. apply ipEqual_same in X; [congruence|assumption|assumption].
Qed.

Lemma getDNAT_complete c s t : snd (GetTranslationForConn c s) = Some t ->
  validIP (cdest s) -> validIP (replSrcIP t) ->
  ~ (sameIP (cdest s) (replSrcIP t) /\ replSrcPort t = cdport s) ->
  snd (getDNATTuple c s) = Some t.
Proof.
  intros G A B N. unfold getDNATTuple. destruct (GetTranslationForConn c s) as [c' r]. cbn [snd] in G. subst r.
  destruct (ipEqual (cdest s) (replSrcIP t)) eqn:E1; cbn [andb]; [|reflexivity].
  destruct (replSrcPort t =? cdport s) eqn:E2; [|reflexivity].
  exfalso. apply N. split; [apply ipEqual_same; assumption|apply Z.eqb_eq; assumption].
Qed.

(** *** 32-bit integers and IP values *)
Lemma IPToUInt32_4 a b c d : IPToUInt32 [a; b; c; d] =
  Z.lor (Z.lor (Z.lor a (Z.shiftl b 8)) (Z.shiftl c 16)) (Z.shiftl d 24).
Proof. reflexivity. Qed.

Lemma int32ToIp_back i : 0 <= i < 2 ^ 32 -> IPToUInt32 (int32ToIp i) = i.
Proof.
  intros R. unfold int32ToIp. rewrite IPToUInt32_4.
  rewrite (lor_shift (i mod 256)); [|lia|apply Z.mod_pos_bound; lia].
  rewrite (lor_shift _ _ 16); [|lia|].
  2: { pose proof (Z.mod_pos_bound i 256). pose proof (Z.mod_pos_bound (i / 2 ^ 8) 256). lia. }
  rewrite (lor_shift _ _ 24); [|lia|].
  2: { pose proof (Z.mod_pos_bound i 256). pose proof (Z.mod_pos_bound (i / 2 ^ 8) 256). pose proof (Z.mod_pos_bound (i / 2 ^ 16) 256). lia. }
  change (2 ^ 24) with (256 * 256 * 256) in *. change (2 ^ 16) with (256 * 256) in *. change (2 ^ 8) with 256 in *. change (2 ^ 32) with (256 * 256 * 256 * 256) in R.
  rewrite <- !Z.div_div by lia.
  set (a := i / 256) in *. set (b := a / 256) in *. set (c := b / 256) in *.
  pose proof (Z.div_mod i 256 ltac:(lia)) as E1. fold a in E1.
  pose proof (Z.div_mod a 256 ltac:(lia)) as E2. fold b in E2.
  pose proof (Z.div_mod b 256 ltac:(lia)) as E3. fold c in E3.
  assert (C : 0 <= c < 256).
  { unfold c, b, a. rewrite !Z.div_div by lia. split; [apply Z.div_pos; lia|apply Z.div_lt_upper_bound; lia]. }
  rewrite (Z.mod_small c 256) by assumption. lia.
Qed.

Lemma ip_back a b c d : is_byte a -> is_byte b -> is_byte c -> is_byte d ->
  int32ToIp (IPToUInt32 [a; b; c; d]) = [a; b; c; d].
Proof.
  unfold is_byte. intros A B C D. rewrite IPToUInt32_4.
  rewrite (lor_shift a) by lia. rewrite (lor_shift _ _ 16) by lia. rewrite (lor_shift _ _ 24) by lia.
  unfold int32ToIp.
  assert (E : forall x y, 0 <= x < 256 -> (x + y * 256) mod 256 = x /\ (x + y * 256) / 256 = y).
  { intros x y X. rewrite Z.mod_add, Z.div_add by lia. rewrite Z.mod_small, Z.div_small by assumption. split; lia. }
  set (v := _ + _).
  assert (V : v = a + (b + (c + d * 256) * 256) * 256) by (unfold v; lia).
  change (2 ^ 24) with (256 * 256 * 256). change (2 ^ 16) with (256 * 256). change (2 ^ 8) with 256.
  rewrite <- !Z.div_div by lia. rewrite V.
  destruct (E a (b + (c + d * 256) * 256) A) as [-> ->].
  destruct (E b (c + d * 256) B) as [-> ->].
  destruct (E c d C) as [-> ->]. rewrite Z.mod_small by assumption. reflexivity.
Qed.

(** *** one compaction, exactly *)
Lemma registered_unique h k t o t0 h2 t' o' t0' h2' :
  registered_since h k t o t0 h2 -> registered_since h k t' o' t0' h2' ->
  t = t' /\ o = o' /\ t0 = t0' /\ h2 = h2'.
Proof.
  intros (h1 & E & N1 & N2) (h1' & E' & N1' & N2'). rewrite E in E'. clear E N2 N2'.
  revert h1' E'. induction h1 as [|x h1 IH]; intros [|x' h1'] E'; cbn [app] in E'.
  - inversion E'; subst. auto.
  - inversion E'; subst. exfalso. eapply N1. apply in_or_app. right. left. reflexivity.
  - inversion E'; subst. exfalso. eapply N1'. apply in_or_app. right. left. reflexivity.
  - inversion E'; subst. eapply IH. eassumption.
Qed.

Section Exact.
  Variable maxSize : nat.
  Variable timeout : Z.
  Hypothesis maxPos : (0 < maxSize)%nat.
  Notation run := (runOps maxSize timeout).

  Lemma compact_exact h now k t orph t0 h2 :
    monotone h ->
    registered_since h k t orph t0 h2 ->
    snd (cGet (run h) k) = Some t ->
    (snd (cGet (run (h ++ [Compact now])) k) = None <-> orph = true /\ ~ In (Get k) h2 /\ t0 + timeout < now) /\
    (snd (cGet (run (h ++ [Compact now])) k) = Some t <-> ~ (orph = true /\ ~ In (Get k) h2 /\ t0 + timeout < now)).
  Proof.
    intros M R P. unfold cGet in P. destruct (aget (lru (run h)) k) as [e|] eqn:G; [|discriminate].
    cbn [snd] in P. inversion P as [T]. clear P.
    destruct (run_ghost maxSize timeout maxPos h M) as (GH & S & X). destruct (GH k e G) as (orph' & t0' & h2' & R' & MM).
    rewrite T in R'. destruct (registered_unique _ _ _ _ _ _ _ _ _ _ R R') as (_ & <- & <- & <-).
    destruct (run_inv maxSize timeout maxPos h) as [I L].
    destruct (compact_ok maxSize maxPos (run h) now I) as (c' & f & E & I' & E2 & F & SUB & SO & NI).
    destruct (SO S) as [S' EX].
    assert (RC : run (h ++ [Compact now]) = c').
    { rewrite run_snoc. cbn [stepOp]. rewrite E. reflexivity. }
    rewrite RC.
    assert (KEY : f (k, e) = false <-> orph = true /\ ~ In (Get k) h2 /\ t0 + timeout < now).
    { split.
      - intros Ff. destruct (F k e (aget_in _ _ _ G) Ff) as (o & Io & Ko & Xo).
        pose proof I as (_ & _ & _ & FW & _). destruct (FW o Io) as (t1 & G1). rewrite Ko, G in G1. inversion G1 as [Ee].
        rewrite Ee in MM. cbn [eorphan] in MM. destruct MM as (M1 & M2 & M3 & M4).
        pose proof (orph_unique _ I _ _ Io M2 Ko) as U. rewrite U in Xo. cbn [oexp snd] in Xo. auto.
      - intros (O & NG & XP). destruct (f (k, e)) eqn:Ff; [exfalso|reflexivity].
        assert (G' : aget (lru c') k = Some e).
        { rewrite E2. apply in_aget; [rewrite <- E2; apply I'|]. apply filter_In. split; [apply aget_in; assumption|assumption]. }
        destruct (eorphan e) as [i|] eqn:Ei.
        + destruct MM as (M1 & M2 & M3 & M4). pose proof I' as (_ & _ & _ & _ & BW). destruct (BW k e i G' Ei) as (x & J).
          pose proof (SUB _ J) as J2. pose proof (orph_unique _ I _ _ J2 M2 eq_refl) as U. inversion U; subst x.
          apply EX in J. cbn [oexp snd] in J. lia.
        + destruct (MM O) as (a & b & -> & _). apply NG. apply in_or_app. right. left. reflexivity. }
    rewrite <- KEY. unfold cGet.
    assert (G' : aget (lru c') k = if f (k, e) then Some e else None).
    { rewrite E2. destruct (f (k, e)) eqn:Ff.
      - apply in_aget; [rewrite <- E2; apply I'|]. apply filter_In. split; [apply aget_in; assumption|assumption].
      - apply aget_none_notin. intros J. unfold keys in J. apply in_map_iff in J. destruct J as ([k0 e0] & E0 & J).
        cbn [fst] in E0. subst k0. apply filter_In in J. destruct J as [J Fe].
        assert (e0 = e); [|congruence]. pose proof I as (ND & _). apply (in_aget _ _ _ ND) in J. congruence. }
    rewrite G'. destruct (f (k, e)); cbn [snd]; (split; split; try congruence; try discriminate).
  Qed.
End Exact.
