(** Facts about the protocol cache and counters. *)
From Verif Require Import Base DetectModel DetectSpec.
Open Scope string_scope. Open Scope list_scope. Open Scope Z_scope.

Lemma member_in p l : member p l = true <-> In p l.
Proof.
  unfold member. rewrite existsb_exists. split.
  - intros (x & I & E). apply eqb_true in E. subst. exact I.
  - intros I. exists p. split; [exact I|apply eqb_refl].
Qed.
Lemma without_in p q l : In q (without p l) <-> In q l /\ q <> p.
Proof. unfold without. rewrite filter_In, negb_true_iff. rewrite (eqb_neq q p). reflexivity. Qed.
Lemma without_notin p l : ~ In p l -> without p l = l.
Proof.
  induction l as [|a l IH]; [reflexivity|]. cbn [without filter]. intros N. case_eqb a p.
  - subst. exfalso. apply N. left. reflexivity.
  - cbn [negb]. f_equal. apply IH. intros H. apply N. right. exact H.
Qed.
Lemma without_app p a b : without p (a ++ b) = without p a ++ without p b.
Proof. apply filter_app. Qed.
Lemma without_without p q l : without p (without q l) = without q (without p l).
Proof.
  unfold without. induction l as [|a l IH]; [reflexivity|]. cbn [filter].
  destruct (negb (eqb a q)) eqn:E1, (negb (eqb a p)) eqn:E2; cbn [filter]; rewrite ?E1, ?E2, IH; reflexivity.
Qed.
Lemma without_nodup p l : NoDup l -> NoDup (without p l).
Proof. apply NoDup_filter. Qed.
Lemma zlen_app {A} (a b : list A) : zlen (a ++ b) = zlen a + zlen b.
Proof. unfold zlen. rewrite app_length. lia. Qed.
Lemma zlen_cons {A} (x : A) (l : list A) : zlen (x :: l) = 1 + zlen l.
Proof. unfold zlen. cbn [List.length]. lia. Qed.
Lemma znth_app_len {A} (a : list A) x b : znth (a ++ x :: b) (zlen a) = Some x.
Proof.
  unfold znth, zlen. replace (Z.of_nat (List.length a) <? 0) with false by lia. rewrite Nat2Z.id, nth_error_app2, Nat.sub_diag by lia. reflexivity.
Qed.
Lemma slice_pre {A} (a b : list A) : slice (a ++ b) 0 (zlen a) = a.
Proof. unfold slice, zlen. cbn [Z.to_nat skipn]. rewrite Z.sub_0_r, Nat2Z.id. apply firstn_app_exact. reflexivity. Qed.
Lemma slice_all {A} (a : list A) : slice a 0 (zlen a) = a.
Proof. rewrite <- (app_nil_r a) at 1. apply slice_pre. Qed.
Lemma slice_suf {A} (a b : list A) : slice (a ++ b) (zlen a) (zlen a + zlen b) = b.
Proof.
  unfold slice, zlen. rewrite Nat2Z.id, skipn_app_exact by reflexivity.
  replace (Z.to_nat _) with (List.length b) by lia. apply firstn_all.
Qed.

Lemma removeLoop_nothing p : forall n i arr len,
  (forall j, i <= j < i + Z.of_nat n -> exists v, znth arr j = Some v /\ v <> p) -> removeLoop n i arr len p = Ok (arr, len).
Proof.
  induction n as [|n IH]; intros i arr len H; [reflexivity|]. cbn [removeLoop].
  destruct (H i) as (v & E & N); [lia|]. rewrite E. rewrite (proj2 (eqb_neq v p) N). apply IH. intros j J. apply H. lia.
Qed.
Lemma removeLoop_ok p : forall rest pre, ~ In p pre -> NoDup rest -> exists arr len,
  removeLoop (List.length rest) (zlen pre) (pre ++ rest) (zlen (pre ++ rest)) p = Ok (arr, len) /\ slice arr 0 len = pre ++ without p rest.
Proof.
  induction rest as [|a rest IH]; intros pre NP ND.
  - exists (pre ++ []), (zlen (pre ++ [])). split; [reflexivity|]. rewrite slice_all. reflexivity.
  - cbn [List.length removeLoop]. rewrite znth_app_len. case_eqb a p.
    + subst a. inversion ND as [|? ? NI ND2]; subst.
      replace (zlen (pre ++ p :: rest) <? zlen pre + 1) with false by (rewrite zlen_app, zlen_cons; unfold zlen; lia).
      rewrite (slice_pre pre (p :: rest)).
      assert (S2 : slice (pre ++ p :: rest) (zlen pre + 1) (zlen (pre ++ p :: rest)) = rest).
      { change (p :: rest) with ([p] ++ rest). rewrite app_assoc. replace (zlen pre + 1) with (zlen (pre ++ [p])) by (rewrite zlen_app; reflexivity).
        rewrite (zlen_app (pre ++ [p]) rest). apply slice_suf. }
      rewrite S2.
      set (arr := pre ++ rest ++ slice (pre ++ p :: rest) (zlen (pre ++ p :: rest) - 1) (zlen (pre ++ p :: rest))).
      exists arr, (zlen (pre ++ p :: rest) - 1). split.
      * apply removeLoop_nothing. intros j J. unfold arr.
        destruct (exists_last (l := p :: rest) (fun H => ltac:(discriminate))) as (l0 & z & Z0).
        assert (T : slice (pre ++ p :: rest) (zlen (pre ++ p :: rest) - 1) (zlen (pre ++ p :: rest)) = [z]).
        { rewrite Z0, app_assoc. replace (zlen ((pre ++ l0) ++ [z]) - 1) with (zlen (pre ++ l0)) by (rewrite (zlen_app (pre ++ l0)); change (zlen [z]) with 1; lia).
          rewrite (zlen_app (pre ++ l0)). apply slice_suf. }
        rewrite T. destruct rest as [|b rest]; [cbn [List.length] in J; lia|].
        assert (ZI : In z (b :: rest)).
        { destruct l0 as [|c l0]; [discriminate|]. inversion Z0 as [[Q1 Q2]]. rewrite Q2. apply in_or_app. right. left. reflexivity. }
        assert (IN : exists v, znth (pre ++ (b :: rest) ++ [z]) j = Some v /\ In v ((b :: rest) ++ [z])).
        { unfold znth. replace (j <? 0) with false by (unfold zlen in J; lia).
          assert (GE : (List.length pre <= Z.to_nat j)%nat) by (unfold zlen in J; lia).
          rewrite nth_error_app2 by exact GE.
          destruct (nth_error ((b :: rest) ++ [z]) (Z.to_nat j - List.length pre)) as [v|] eqn:E.
          - exists v. split; [reflexivity|]. eapply nth_error_In; eauto.
          - apply nth_error_None in E. rewrite app_length in E. cbn [List.length] in E, J. unfold zlen in J. lia. }
        destruct IN as (v & E & I). exists v. split; [exact E|]. intros ->. apply in_app_or in I. destruct I as [I|[I|[]]]; [exact (NI I)|]. subst. exact (NI ZI).
      * unfold arr. rewrite app_assoc. replace (zlen (pre ++ p :: rest) - 1) with (zlen (pre ++ rest)) by (rewrite !zlen_app, zlen_cons; lia).
        rewrite slice_pre. cbn [without filter]. rewrite eqb_refl. cbn [negb]. fold (without p rest). rewrite without_notin by assumption. reflexivity.
    + inversion ND as [|? ? NI ND2]; subst. destruct (IH (pre ++ [a])) as (arr & len & E1 & E2).
      * intros I. apply in_app_or in I. destruct I as [I|[I|[]]]; [exact (NP I)|congruence].
      * assumption.
      * exists arr, len. rewrite <- app_assoc in E1. cbn [app] in E1. rewrite zlen_app in E1. change (zlen [a]) with 1 in E1.
        split; [exact E1|]. rewrite E2. cbn [without filter]. rewrite (proj2 (eqb_neq a p) E). cbn [negb]. rewrite <- app_assoc. reflexivity.
Qed.
Lemma removeCached_ok c port p : (forall val, aget c port = Some val -> NoDup val) -> exists c', removeCached c port p = Ok c' /\
  forall q, cachedParsers c' q = if eqb q port then without p (cachedParsers c q) else cachedParsers c q.
Proof.
  intros ND. unfold removeCached, cachedParsers. destruct (aget c port) as [val|] eqn:E.
  - destruct (removeLoop_ok p val [] (fun x => x) (ND val eq_refl)) as (arr & len & E1 & E2). cbn [app] in E1, E2. change (zlen (@nil pname)) with 0 in E1.
    rewrite E1. cbn [bind fst snd]. eexists. split; [reflexivity|]. intros q. rewrite aget_aset. case_eqb q port; [|reflexivity]. subst. rewrite E. exact E2.
  - exists c. split; [reflexivity|]. intros q. case_eqb q port; [|reflexivity]. subst. rewrite E. reflexivity.
Qed.

(** the list with the generic parser moved to the end *)
Definition arranged (a : list pname) : list pname := without NOSUPPORT a ++ (if in_dec string_dec NOSUPPORT a then [NOSUPPORT] else []).
Lemma arranged_in a p : In p (arranged a) <-> In p a.
Proof.
  unfold arranged. rewrite in_app_iff, without_in. destruct (in_dec string_dec NOSUPPORT a) as [I|N]; cbn [In].
  - split; [intros [[]|[<-|[]]]; auto|]. intros H. destruct (string_dec p NOSUPPORT); [subst; auto|left; auto].
  - split; [intros [[]|[]]; auto|]. intros H. left. split; [exact H|intros ->; contradiction].
Qed.
Lemma arranged_nodup a : NoDup a -> NoDup (arranged a).
Proof.
  intros H. unfold arranged. destruct (in_dec string_dec NOSUPPORT a); [|rewrite app_nil_r; apply without_nodup; exact H].
  apply NoDup_snoc; [apply without_nodup; exact H|]. rewrite without_in. tauto.
Qed.
Lemma lastIs_app l x p : lastIs (l ++ [x]) p = eqb x p.
Proof. unfold lastIs. rewrite rev_app_distr. reflexivity. Qed.
Lemma addCached_ok c port p a : cachedParsers c port = arranged a -> forall q,
  cachedParsers (addCached c port p) q = if eqb q port then arranged (if in_dec string_dec p a then a else a ++ [p]) else cachedParsers c q.
Proof.
  intros E q. unfold addCached. unfold cachedParsers in E.
  assert (M : member p (arranged a) = true <-> In p a) by (rewrite member_in; apply arranged_in).
  destruct (aget c port) as [val|] eqn:G.
  - subst val. destruct (member p (arranged a)) eqn:MP.
    + destruct (in_dec string_dec p a) as [_|N]; [|exfalso; apply N, M; reflexivity].
      case_eqb q port; [|reflexivity]. subst. unfold cachedParsers. rewrite G. reflexivity.
    + destruct (in_dec string_dec p a) as [I|N]; [apply M in I; congruence|].
      assert (R : lastIs (arranged a) NOSUPPORT = if in_dec string_dec NOSUPPORT a then true else false).
      { unfold arranged. destruct (in_dec string_dec NOSUPPORT a) as [I|N2]; [rewrite lastIs_app; reflexivity|]. rewrite app_nil_r.
        destruct (without NOSUPPORT a) as [|y0 l0] eqn:W0; [reflexivity|]. destruct (exists_last (l := y0 :: l0) (fun H => ltac:(discriminate))) as (l & y & W). rewrite W in *. clear W. rename W0 into W. rewrite lastIs_app. apply eqb_neq. intros ->.
        assert (H : In NOSUPPORT (without NOSUPPORT a)) by (rewrite W; apply in_or_app; right; left; reflexivity). apply without_in in H. tauto. }
      rewrite R. unfold cachedParsers. unfold arranged. destruct (in_dec string_dec NOSUPPORT a) as [I|N2].
      * rewrite aget_aset. case_eqb q port; [|reflexivity]. rewrite removelast_last. rewrite without_app.
        destruct (in_dec string_dec NOSUPPORT (a ++ [p])) as [_|N3]; [|exfalso; apply N3, in_or_app; left; exact I].
        cbn [without filter]. rewrite (proj2 (eqb_neq p NOSUPPORT)) by congruence. cbn [negb]. rewrite <- app_assoc. reflexivity.
      * rewrite aget_aset. case_eqb q port; [|reflexivity]. rewrite app_nil_r. rewrite without_app. cbn [without filter].
        case_eqb p NOSUPPORT.
        -- subst p. cbn [negb]. destruct (in_dec string_dec NOSUPPORT (a ++ [NOSUPPORT])) as [_|N3]; [|exfalso; apply N3, in_or_app; right; left; reflexivity].
           rewrite app_nil_r. reflexivity.
        -- cbn [negb]. destruct (in_dec string_dec NOSUPPORT (a ++ [p])) as [I3|_]; [|rewrite app_nil_r; reflexivity].
           exfalso. apply in_app_or in I3. destruct I3 as [I3|[I3|[]]]; [contradiction|congruence].
  - assert (A : a = []).
    { destruct a as [|y a]; [reflexivity|]. exfalso. assert (H : In y (arranged (y :: a))) by (apply arranged_in; left; reflexivity). rewrite <- E in H. exact H. }
    subst a. cbn [app]. unfold cachedParsers. rewrite aget_aset. case_eqb q port; [|reflexivity].
    match goal with |- context [if in_dec string_dec p ?l then _ else _] => destruct (in_dec string_dec p l) as [[]|_] end.
    unfold arranged. cbn [without filter]. case_eqb p NOSUPPORT.
    + subst p. reflexivity.
    + cbn [negb]. destruct (in_dec string_dec NOSUPPORT [p]) as [[F|[]]|_]; [congruence|reflexivity].
Qed.
Lemma arranged_without p a : without p (arranged a) = arranged (without p a).
Proof.
  unfold arranged. rewrite without_app, without_without. f_equal.
  destruct (in_dec string_dec NOSUPPORT a) as [I|N], (in_dec string_dec NOSUPPORT (without p a)) as [I2|N2].
  - apply without_in in I2. cbn [without filter]. rewrite (proj2 (eqb_neq NOSUPPORT p)) by tauto. reflexivity.
  - rewrite without_in in N2. cbn [without filter]. destruct (Eqb_dec NOSUPPORT p) as [->|D]; [rewrite eqb_refl; reflexivity|tauto].
  - apply without_in in I2. tauto.
  - reflexivity.
Qed.
Lemma arranged_tail a l1 l2 : arranged a = l1 ++ NOSUPPORT :: l2 -> l2 = [].
Proof.
  unfold arranged. intros E. destruct l2 as [|x l2]; [reflexivity|]. exfalso.
  assert (N : ~ In NOSUPPORT (without NOSUPPORT a)) by (rewrite without_in; tauto).
  destruct (in_dec string_dec NOSUPPORT a).
  - destruct (exists_last (l := x :: l2) (fun H => ltac:(discriminate))) as (l3 & z & E3). rewrite E3 in E.
    change (l1 ++ NOSUPPORT :: l3 ++ [z]) with (l1 ++ (NOSUPPORT :: l3) ++ [z]) in E. rewrite app_assoc in E. apply app_inj_tail in E.
    destruct E as (E & _). apply N. rewrite E. apply in_or_app. right. left. reflexivity.
  - rewrite app_nil_r in E. apply N. rewrite E. apply in_or_app. right. left. reflexivity.
Qed.
