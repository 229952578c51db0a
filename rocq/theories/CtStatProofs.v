From Verif Require Import Base ConntrackModel ConntrackSpec ConntrackProofs CtStatModel CtStatSpec.
Open Scope string_scope. Open Scope list_scope. Open Scope Z_scope.

Section Stat.
  Variable maxSize : nat.
  Variable timeout : Z.
  Hypothesis maxPos : (0 < maxSize)%nat.
  Notation step := (stepOp maxSize timeout).
  Notation Inv' := (fun c => Inv c /\ (List.length (lru c) <= maxSize)%nat).
  Notation run := (callRun maxSize timeout).
  Notation cstep := (callStep maxSize timeout).

  Lemma adel_length_one {V} (m : list (connKey * V)) k v : NoDup (keys m) -> aget m k = Some v ->
    S (List.length (adel m k)) = List.length m.
  Proof.
    induction m as [|[k' v'] m IH]; cbn [aget]; [discriminate|]. intros ND G. unfold adel in *. cbn [filter fst keys map List.length] in *.
    inversion ND as [|? ? NI ND']; subst. case_eqb k k'; cbn [negb].
    - subst k'. f_equal. pose proof (adel_absent m k (proj2 (aget_none_notin m k) NI)) as A. unfold adel in A. rewrite A. reflexivity.
    - cbn [List.length]. f_equal. apply IH; assumption.
  Qed.

  Lemma reg_balance c k t b now : Inv c ->
    zlen (lru (fst (cRegister maxSize timeout c k t b now))) + (if snd (cRegister maxSize timeout c k t b now) then 1 else 0) =
    zlen (lru c) + (if ahas (lru c) k then 0 else 1).
  Proof.
    intros I.
    assert (G : forall os n e,
      zlen (lru (fst (lruAdd maxSize {| lru := lru c; orphans := os; nextId := n |} k e)))
      + (if snd (lruAdd maxSize {| lru := lru c; orphans := os; nextId := n |} k e) then 1 else 0)
      = zlen (lru c) + (if ahas (lru c) k then 0 else 1)).
    { intros os n e. unfold lruAdd. cbn [lru orphans nextId]. destruct (ahas (lru c) k) eqn:A.
      - unfold ahas in A. destruct (aget (lru c) k) as [v|] eqn:Q; [|discriminate].
        cbn [fst snd lru]. pose proof (adel_length_one _ _ _ (proj1 I) Q). unfold zlen. cbn [List.length]. lia.
      - cbv zeta. destruct (_ <? _)%nat; [|cbn [fst snd lru]; unfold zlen; cbn [List.length]; lia].
        pose proof (rev_length ((k, e) :: lru c)) as RL. destruct (rev ((k, e) :: lru c)) as [|[k0 e0] r]; [discriminate|].
        cbn [fst snd lru]. unfold zlen. rewrite rev_length. cbn [List.length] in RL. lia. }
    unfold cRegister. cbv zeta. destruct b; apply G.
  Qed.

  Lemma aget_shrink c k e : aget (lru (shrink maxSize c)) k = Some e -> aget (lru c) k = Some e.
  Proof.
    unfold shrink. destruct (_ <? _)%nat; [|auto]. destruct (lastKey c); [|auto]. rewrite aget_pdel. case_eqb k c0; [discriminate|auto].
  Qed.

  Lemma aget_filter (f : connKey * entry -> bool) l k e : NoDup (keys l) -> aget (filter f l) k = Some e -> aget l k = Some e.
  Proof.
    intros ND G. apply in_aget; [assumption|]. apply aget_in in G. apply filter_In in G. tauto.
  Qed.

  (** An entry after an operation: touched by it, or there before *)
  Lemma step_entry c o k e : Inv c -> (List.length (lru c) <= maxSize)%nat -> aget (lru (step c o)) k = Some e ->
    match o with
    | Reg k' _ b _ => if eqb k k' then (eorphan e <> None <-> b = true) else aget (lru c) k = Some e
    | Get k' => if eqb k k' then eorphan e = None /\ ahas (lru c) k = true else aget (lru c) k = Some e
    | _ => aget (lru c) k = Some e
    end.
  Proof.
    intros I L. destruct o as [k' t b now|k'|k'|now]; cbn [stepOp].
    - rewrite register_prim by assumption. intros G. apply aget_shrink in G. rewrite aget_padd, aget_pdel in G.
      case_eqb k k'; [|exact G]. inversion G; subst e. destruct b; cbn [eorphan]; split; congruence.
    - rewrite (get_prim timeout). unfold ahas. destruct (aget (lru c) k') as [e'|] eqn:Q.
      + rewrite aget_padd, aget_pdel. case_eqb k k'; [|auto]. subst k'. intros G. inversion G. split; [reflexivity|]. rewrite Q. reflexivity.
      + intros G. case_eqb k k'; congruence.
    - rewrite remove_prim, aget_pdel. case_eqb k k'; [discriminate|auto].
    - destruct (compact_ok maxSize maxPos c now I) as (c' & f & E & _ & E2 & _). rewrite E, E2. intros G. eapply aget_filter; [apply I|exact G].
  Qed.

  (** how many of the tuples were new when they were stored *)
  Fixpoint fresh (c : cache) (os : list op) : Z :=
    match os with
    | [] => 0
    | o :: os => (match o with Reg k _ _ _ => if ahas (lru c) k then 0 else 1 | _ => 0 end) + fresh (step c o) os
    end.
  Definition regKeys (os : list op) : list connKey := flat_map (fun o => match o with Reg k _ _ _ => [k] | _ => [] end) os.

  Lemma fold_inv os : forall c, Inv' c -> Inv' (fold_left step os c).
  Proof. induction os as [|o os IH]; intros c I; cbn [fold_left]; [exact I|]. apply IH. apply step_inv; [exact maxPos|apply I..]. Qed.

  Lemma cAdd_ops c x b n1 n2 c' n : Inv' c -> cAdd maxSize timeout c x b n1 n2 = Some (c', n) ->
    let os := dirOp (origin x) (reply x) b n1 ++ dirOp (reply x) (origin x) b n2 in
    c' = fold_left step os c /\ 0 <= n /\ zlen (lru c') + n = zlen (lru c) + fresh c os /\
    regKeys os = tupleKey (origin x) ++ tupleKey (reply x).
  Proof.
    intros I. unfold cAdd. cbv zeta.
    set (reg := fun (c0 : cache) (kt tr : option ipTuple) (now : Z) =>
      match kt, tr with
      | Some kt, Some tr =>
          match formatKey kt with
          | None => None
          | Some None => Some (c0, 0)
          | Some (Some k) =>
              match formatIPTranslation tr with
              | None => None
              | Some t => let '(c', ev) := cRegister maxSize timeout c0 k t b now in Some (c', if ev then 1 else 0)
              end
          end
      | _, _ => None
      end).
    change (match reg c (origin x) (reply x) n1 with
            | Some (c1, m1) => match reg c1 (reply x) (origin x) n2 with Some (c2, m2) => Some (c2, m1 + m2) | None => None end
            | None => None end = Some (c', n) ->
            c' = fold_left step (dirOp (origin x) (reply x) b n1 ++ dirOp (reply x) (origin x) b n2) c /\ 0 <= n /\
            zlen (lru c') + n = zlen (lru c) + fresh c (dirOp (origin x) (reply x) b n1 ++ dirOp (reply x) (origin x) b n2) /\
            regKeys (dirOp (origin x) (reply x) b n1 ++ dirOp (reply x) (origin x) b n2) = tupleKey (origin x) ++ tupleKey (reply x)).
    assert (R : forall c0 kt tr now c1 m, Inv' c0 -> reg c0 kt tr now = Some (c1, m) ->
       c1 = fold_left step (dirOp kt tr b now) c0 /\ 0 <= m /\ zlen (lru c1) + m = zlen (lru c0) + fresh c0 (dirOp kt tr b now) /\
       regKeys (dirOp kt tr b now) = tupleKey kt).
    { intros c0 kt tr now c1 m I0. unfold reg, dirOp, tupleKey. destruct kt as [kt|], tr as [tr|]; try discriminate.
      destruct (formatKey kt) as [[k|]|]; try discriminate.
      - destruct (formatIPTranslation tr) as [t|]; [|discriminate].
        pose proof (reg_balance c0 k t b now (proj1 I0)) as B.
        cbn [fold_left stepOp fresh regKeys flat_map app]. destruct (cRegister maxSize timeout c0 k t b now) as [c2 ev]. cbn [fst snd] in *.
        intros E. inversion E; subst. repeat split; [destruct ev; lia|]. rewrite B. lia.
      - intros E. inversion E; subst. cbn [fold_left fresh regKeys flat_map]. repeat split; lia. }
    destruct (reg c (origin x) (reply x) n1) as [[c1 m1]|] eqn:E1; [|discriminate].
    destruct (R _ _ _ _ _ _ I E1) as (A1 & A2 & A3 & A4).
    assert (I1 : Inv' c1) by (rewrite A1; apply fold_inv; exact I).
    destruct (reg c1 (reply x) (origin x) n2) as [[c2 m2]|] eqn:E2; [|discriminate].
    destruct (R _ _ _ _ _ _ I1 E2) as (B1 & B2 & B3 & B4). intros E. inversion E; subst c' n. cbv zeta.
    assert (FA : forall os1 os2 c0, fresh c0 (os1 ++ os2) = fresh c0 os1 + fresh (fold_left step os1 c0) os2).
    { induction os1 as [|o os1 IH]; intros os2 c0; cbn [app fresh fold_left]; [lia|]. rewrite IH. lia. }
    split; [rewrite fold_left_app, <- A1; exact B1|]. split; [lia|]. split; [rewrite FA, <- A1; lia|].
    unfold regKeys in *. rewrite flat_map_app. congruence.
  Qed.

  Lemma remove_balance c k : Inv c -> zlen (lru (fst (cRemove c k))) + (if snd (cRemove c k) then 1 else 0) = zlen (lru c).
  Proof.
    intros I. unfold cRemove. destruct (aget (lru c) k) as [e|] eqn:G; cbn [fst snd lru]; [|lia].
    pose proof (adel_length_one _ _ _ (proj1 I) G). unfold zlen. lia.
  Qed.
  Lemma get_balance c k : Inv c -> zlen (lru (fst (cGet c k))) = zlen (lru c).
  Proof.
    intros I. unfold cGet. destruct (aget (lru c) k) as [e|] eqn:G; cbn [fst lru]; [|reflexivity].
    pose proof (adel_length_one _ _ _ (proj1 I) G). unfold zlen. cbn [List.length]. lia.
  Qed.

  Definition ind (b : bool) : Z := if b then 1 else 0.

  (** Everything one call does *)
  Lemma call_step t o t' : Inv' (tr_cache t) -> cstep t o = Some t' ->
    tr_cache t' = fold_left step (opsOf o) (tr_cache t) /\
    tr_gets t' = tr_gets t + ind (isAsk o) /\
    tr_registers t' = tr_registers t + ind (isKept o) /\
    tr_dropped t' = tr_dropped t + ind (isRefused o) /\
    tr_unregisters t <= tr_unregisters t' /\ tr_evicts t <= tr_evicts t' /\
    zlen (lru (tr_cache t')) + tr_evicts t' + tr_unregisters t' =
      zlen (lru (tr_cache t)) + tr_evicts t + tr_unregisters t + fresh (tr_cache t) (opsOf o) /\
    regKeys (opsOf o) = tuplesOf o.
  Proof.
    intros I. destruct o as [x n1 n2|x n1 n2|s|s|now]; cbn [callStep opsOf isAsk isKept isRefused tuplesOf]; unfold translated.
    - destruct (IsNAT x) as [[|]|]; [|intros E; inversion E; subst; cbn [fold_left fresh ind regKeys flat_map]; repeat split; lia|discriminate].
      destruct (cAdd _ _ _ _ _ _ _) as [[c n]|] eqn:A; [|discriminate]. intros E. inversion E; subst t'.
      destruct (cAdd_ops _ _ _ _ _ _ _ I A) as (B1 & B2 & B3 & B4). cbn [tr_cache tr_gets tr_registers tr_dropped tr_unregisters tr_evicts ind].
      repeat split; try lia; assumption.
    - destruct (IsNAT x) as [[|]|]; [|intros E; inversion E; subst; cbn [tr_cache tr_gets tr_registers tr_dropped tr_unregisters tr_evicts fold_left fresh ind regKeys flat_map negb]; repeat split; lia|discriminate].
      destruct (cAdd _ _ _ _ _ _ _) as [[c n]|] eqn:A; [|discriminate]. intros E. inversion E; subst t'.
      destruct (cAdd_ops _ _ _ _ _ _ _ I A) as (B1 & B2 & B3 & B4). cbn [tr_cache tr_gets tr_registers tr_dropped tr_unregisters tr_evicts ind negb].
      repeat split; try lia; assumption.
    - intros E. inversion E; subst t'. unfold GetTranslationForConn. pose proof (get_balance (tr_cache t) (keyOfStats s) (proj1 I)).
      cbn [tr_cache tr_gets tr_registers tr_dropped tr_unregisters tr_evicts fold_left stepOp fresh ind regKeys flat_map app]. repeat split; lia.
    - pose proof (remove_balance (tr_cache t) (keyOfStats s) (proj1 I)) as RB. cbn [fold_left stepOp].
      destruct (cRemove (tr_cache t) (keyOfStats s)) as [c r]. cbn [fst snd] in *. intros E. inversion E; subst t'.
      cbn [tr_cache tr_gets tr_registers tr_dropped tr_unregisters tr_evicts fresh ind regKeys flat_map app]. destruct r; repeat split; lia.
    - cbn [fold_left stepOp]. destruct (compact_ok maxSize maxPos (tr_cache t) now (proj1 I)) as (c & f & E & _ & E2 & _). rewrite E. intros E3.
      inversion E3; subst t'. cbn [tr_cache tr_gets tr_registers tr_dropped tr_unregisters tr_evicts fresh ind regKeys flat_map app].
      assert (zlen (lru c) <= zlen (lru (tr_cache t))) by (rewrite E2; pose proof (filter_length maxSize maxPos f (lru (tr_cache t))); unfold zlen; lia).
      repeat split; lia.
  Qed.

  Lemma call_inv t o t' : Inv' (tr_cache t) -> cstep t o = Some t' -> Inv' (tr_cache t').
  Proof. intros I E. destruct (call_step t o t' I E) as (-> & _). apply fold_inv. exact I. Qed.

  Lemma count_cons f o h : count f (o :: h) = ind (f o) + count f h.
  Proof. unfold count, zlen. cbn [filter]. destruct (f o); cbn [List.length ind]; lia. Qed.

  Lemma call_run h : forall t t', Inv' (tr_cache t) -> run t h = Some t' ->
    Inv' (tr_cache t') /\
    tr_cache t' = fold_left step (flat_map opsOf h) (tr_cache t) /\
    tr_gets t' = tr_gets t + count isAsk h /\
    tr_registers t' = tr_registers t + count isKept h /\
    tr_dropped t' = tr_dropped t + count isRefused h /\
    tr_unregisters t <= tr_unregisters t' /\ tr_evicts t <= tr_evicts t' /\
    zlen (lru (tr_cache t')) + tr_evicts t' + tr_unregisters t' =
      zlen (lru (tr_cache t)) + tr_evicts t + tr_unregisters t + fresh (tr_cache t) (flat_map opsOf h) /\
    regKeys (flat_map opsOf h) = tuples h.
  Proof.
    induction h as [|o h IH]; intros t t' I; cbn [callRun].
    - intros E. inversion E; subst. cbn [flat_map fold_left fresh tuples regKeys]. unfold count, zlen. cbn [filter List.length]. repeat split; try lia; apply I.
    - destruct (cstep t o) as [t1|] eqn:S1; [|discriminate]. intros E. pose proof (call_inv t o t1 I S1) as I1.
      destruct (call_step t o t1 I S1) as (A1 & A2 & A3 & A4 & A5 & A6 & A7 & A8).
      destruct (IH t1 t' I1 E) as (B0 & B1 & B2 & B3 & B4 & B5 & B6 & B7 & B8).
      assert (FA : forall os1 os2 c0, fresh c0 (os1 ++ os2) = fresh c0 os1 + fresh (fold_left step os1 c0) os2).
      { induction os1 as [|o1 os1 IHo]; intros os2 c0; cbn [app fresh fold_left]; [lia|]. rewrite IHo. lia. }
      rewrite !count_cons. cbn [flat_map tuples].
      split; [exact B0|]. split; [rewrite fold_left_app, <- A1; exact B1|]. split; [lia|]. split; [lia|]. split; [lia|]. split; [lia|]. split; [lia|].
      split; [rewrite FA, <- A1; lia|]. unfold regKeys, tuples in *. rewrite flat_map_app, A8, B8. reflexivity.
  Qed.

  Lemma empty_inv : Inv' emptyCache.
  Proof. exact (run_inv maxSize timeout maxPos []). Qed.

  (** *** new tuples *)
  Lemma fresh_bound os : forall c, 0 <= fresh c os <= zlen (regKeys os).
  Proof.
    induction os as [|o os IH]; intros c; cbn [fresh regKeys flat_map]; [unfold zlen; cbn; lia|]. specialize (IH (step c o)). unfold regKeys, zlen in *.
    rewrite app_length. destruct o as [k t b now|k|k|now]; cbn [List.length]; try lia. destruct (ahas (lru c) k); lia.
  Qed.

  Lemma step_keys c o k : Inv' c -> In k (keys (lru (step c o))) -> In k (keys (lru c)) \/ In k (regKeys [o]).
  Proof.
    intros I J. apply in_keys_aget in J. destruct J as (e & G). pose proof (step_entry c o k e (proj1 I) (proj2 I) G) as SE.
    destruct o as [k' t b now|k'|k'|now]; cbn [regKeys flat_map app In].
    - case_eqb k k'; [auto|]. left. eapply aget_some_in_keys. exact SE.
    - case_eqb k k'.
      + destruct SE as [_ H]. left. subst k'. unfold ahas in H. destruct (aget (lru c) k) eqn:Q; [|discriminate]. eapply aget_some_in_keys. exact Q.
      + left. eapply aget_some_in_keys. exact SE.
    - left. eapply aget_some_in_keys. exact SE.
    - left. eapply aget_some_in_keys. exact SE.
  Qed.

  Lemma fresh_all os : forall c, Inv' c -> NoDup (regKeys os) -> (forall k, In k (regKeys os) -> ~ In k (keys (lru c))) ->
    fresh c os = zlen (regKeys os).
  Proof.
    induction os as [|o os IH]; intros c I ND D; [reflexivity|]. cbn [fresh].
    assert (I' : Inv' (step c o)) by (apply step_inv; [exact maxPos|apply I..]).
    assert (RK : regKeys (o :: os) = regKeys [o] ++ regKeys os) by (unfold regKeys; cbn [flat_map]; rewrite app_nil_r; reflexivity).
    rewrite RK in *. rewrite (IH (step c o) I').
    - unfold zlen. rewrite app_length. destruct o as [k t b now|k|k|now]; cbn [regKeys flat_map app List.length]; try lia.
      assert (A : ahas (lru c) k = false).
      { unfold ahas. replace (aget (lru c) k) with (@None entry); [reflexivity|]. symmetry. apply aget_none_notin. apply D. apply in_or_app. left. left. reflexivity. }
      rewrite A. lia.
    - destruct o; cbn [regKeys flat_map app] in ND; try exact ND. inversion ND; assumption.
    - intros k K J. apply (step_keys c o k I) in J. destruct J as [J|J].
      + apply (D k); [apply in_or_app; right; exact K|exact J].
      + destruct o as [k' t b now|k'|k'|now]; cbn [regKeys flat_map app In] in J; try contradiction. destruct J as [->|[]].
        cbn [regKeys flat_map app] in ND. inversion ND as [|? ? NI _]. apply NI. exact K.
  Qed.

  (** *** waiting tuples *)
  Definition marks (c : cache) (w : connKey -> bool) : Prop := forall k e, aget (lru c) k = Some e -> (eorphan e <> None <-> w k = true).

  Lemma existsb_app_eqb (k : connKey) l1 l2 : existsb (eqb k) (l1 ++ l2) = existsb (eqb k) l1 || existsb (eqb k) l2.
  Proof. apply existsb_app. Qed.

  Lemma regs_marks b os : (forall o, In o os -> match o with Reg _ _ b' _ => b' = b | _ => False end) -> forall c w, Inv' c -> marks c w ->
    marks (fold_left step os c) (fun k => if existsb (eqb k) (regKeys os) then b else w k).
  Proof.
    induction os as [|o os IH]; intros F c w I M; [exact M|]. cbn [fold_left].
    pose proof (F o (or_introl eq_refl)) as Fo. destruct o as [k' t b' now|k'|k'|now]; try contradiction. subst b'.
    assert (M1 : marks (step c (Reg k' t b now)) (fun k => if eqb k k' then b else w k)).
    { intros k e G. pose proof (step_entry c _ k e (proj1 I) (proj2 I) G) as SE. cbv beta iota in SE. case_eqb k k'; [exact SE|]. apply M. exact SE. }
    assert (I1 : Inv' (step c (Reg k' t b now))) by (apply step_inv; [exact maxPos|apply I..]).
    pose proof (IH (fun o J => F o (or_intror J)) _ _ I1 M1) as M2. intros k e G. rewrite (M2 k e G). cbn [regKeys flat_map app existsb].
    unfold regKeys. destruct (existsb (eqb k) _); destruct (eqb k k'); cbn [orb]; reflexivity.
  Qed.

  Lemma dirOp_regs kt tr b now o : In o (dirOp kt tr b now) -> match o with Reg _ _ b' _ => b' = b | _ => False end.
  Proof.
    unfold dirOp. destruct kt as [kt|]; [|intros []]. destruct tr as [tr|]; [|intros []]. destruct (formatKey kt) as [[k|]|]; [|intros []|intros []].
    destruct (formatIPTranslation tr); [|intros []]. intros [<-|[]]. reflexivity.
  Qed.

  Lemma call_marks t o t' w : Inv' (tr_cache t) -> cstep t o = Some t' -> marks (tr_cache t) w -> marks (tr_cache t') (waitStep w o).
  Proof.
    intros I E M. destruct (call_step t o t' I E) as (-> & _ & _ & _ & _ & _ & _ & RK).
    destruct o as [x n1 n2|x n1 n2|s|s|now]; unfold waitStep; rewrite <- ?RK.
    - apply regs_marks; [|exact I|exact M]. intros o J. cbn [opsOf] in J. destruct (translated x); [|contradiction].
      apply in_app_or in J. destruct J as [J|J]; apply dirOp_regs in J; exact J.
    - apply regs_marks; [|exact I|exact M]. intros o J. cbn [opsOf] in J. destruct (translated x); [|contradiction].
      apply in_app_or in J. destruct J as [J|J]; apply dirOp_regs in J; exact J.
    - cbn [opsOf fold_left]. intros k e G. pose proof (step_entry _ _ k e (proj1 I) (proj2 I) G) as SE. cbv beta iota in SE.
      case_eqb k (keyOfStats s); [|apply M; exact SE]. destruct SE as [-> _]. split; congruence.
    - cbn [opsOf fold_left]. intros k e G. apply M. exact (step_entry _ _ k e (proj1 I) (proj2 I) G).
    - cbn [opsOf fold_left]. intros k e G. apply M. exact (step_entry _ _ k e (proj1 I) (proj2 I) G).
  Qed.

  Lemma run_marks h : forall t t' w, Inv' (tr_cache t) -> run t h = Some t' -> marks (tr_cache t) w -> marks (tr_cache t') (fold_left waitStep h w).
  Proof.
    induction h as [|o h IH]; intros t t' w I E M; cbn [callRun fold_left] in *; [inversion E; subst; exact M|].
    destruct (cstep t o) as [t1|] eqn:S1; [|discriminate].
    eapply IH; [eapply call_inv; eassumption|exact E|]. eapply call_marks; eassumption.
  Qed.

  Lemma orphans_exact c w : Inv c -> marks c w -> zlen (orphans c) = zlen (filter w (keys (lru c))).
  Proof.
    intros I M. pose proof I as (NL & NO & _ & FW & BW).
    assert (ND : NoDup (map okey (orphans c))).
    { pose proof (orph_unique c I) as U. clear FW BW M. clear I. revert U NO.
      induction (orphans c) as [|o os IH]; cbn [map]; intros U NO; [constructor|].
      inversion NO as [|? ? NI NO']; subst. constructor.
      - intros J. apply in_map_iff in J. destruct J as (o' & E & J).
        assert (o' = o) by (apply U; [right; assumption|left; reflexivity|assumption]). subst o'.
        apply NI. apply in_map. assumption.
      - apply IH; [|assumption]. intros a b Ia Ib. apply U; right; assumption. }
    assert (L1 : (List.length (map okey (orphans c)) <= List.length (filter w (keys (lru c))))%nat).
    { apply NoDup_incl_length; [exact ND|]. intros k J. apply in_map_iff in J. destruct J as (o & <- & J). destruct (FW o J) as (t & G).
      apply filter_In. split; [eapply aget_some_in_keys; exact G|]. apply (M _ _ G). cbn [eorphan]. discriminate. }
    assert (L2 : (List.length (filter w (keys (lru c))) <= List.length (map okey (orphans c)))%nat).
    { apply NoDup_incl_length; [apply NoDup_filter; exact NL|]. intros k J. apply filter_In in J. destruct J as [J W].
      apply in_keys_aget in J. destruct J as (e & G). apply (M _ _ G) in W. destruct (eorphan e) as [i|] eqn:Q; [|congruence].
      destruct (BW k e i G Q) as (x & J). apply in_map_iff. exists (i, k, x). split; [reflexivity|exact J]. }
    rewrite map_length in *. unfold zlen. lia.
  Qed.
End Stat.
