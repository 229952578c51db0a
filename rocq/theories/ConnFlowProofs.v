(** Proofs for C74: from the events of the kernel to the reports of the connection analyzer. *)
From Coq Require Import Sorting.Permutation ZifyBool.
From Verif Require Import Base Decimal EventModel AttrModel PoolModel LabelNames RecordModel AggSpec ConnectModel ConnectSpec ConnectProps ConnFlowModel ConnFlowSpec.
Open Scope string_scope. Open Scope list_scope. Open Scope Z_scope.

(** ** Distinct keys *)
Lemma in_distinct k l : In k (distinct l) <-> In k l.
Proof.
  induction l as [|a l IH]; [tauto|]. cbn [distinct]. destruct (existsb (eqb a) l) eqn:E.
  - rewrite IH. apply existsb_exists in E. destruct E as (b & J & E). apply eqb_true in E. subst b. cbn [In]. split; [auto|]. intros [<-|X]; assumption.
  - cbn [In]. rewrite IH. tauto.
Qed.
Lemma nodup_distinct l : NoDup (distinct l).
Proof.
  induction l as [|a l IH]; [constructor|]. cbn [distinct]. destruct (existsb (eqb a) l) eqn:E; [exact IH|]. constructor; [|exact IH].
  intros J. apply (proj1 (in_distinct _ _)) in J. assert (X : existsb (eqb a) l = true) by (apply existsb_exists; exists a; split; [exact J|apply eqb_refl]). congruence.
Qed.
Lemma perm_flat_app {A B} (f g : A -> list B) l : Permutation (flat_map (fun a => f a ++ g a) l) (flat_map f l ++ flat_map g l).
Proof.
  induction l as [|a l IH]; [constructor|]. cbn [flat_map]. rewrite <- !app_assoc. apply Permutation_app_head.
  rewrite IH. rewrite !app_assoc. apply Permutation_app_tail. apply Permutation_app_comm.
Qed.

(** ** The goroutine and the analyzer *)
Lemma some_inj {A} (a b : A) : Some a = Some b -> a = b.
Proof. congruence. Qed.
Definition handAll (cf : cconf) (outs : list (list (ckey * cstats))) (h : list (kop * natFn)) : list group :=
  List.concat (map (fun x => handOver cf (snd (snd x)) (fst x)) (combine outs h)).
Local Opaque kstep.
Lemma lrun_krun cf : forall os s gss s', lrun cf s os = Some (Ok (gss, s')) ->
  exists outs, krun (cf_wait cf) (l_map s) (map fst (seenOps (l_chan s) os)) = Ok (outs, l_map s') /\ List.length outs = List.length (seenOps (l_chan s) os) /\
    List.concat gss = handAll cf outs (seenOps (l_chan s) os) /\ l_chan s ++ offered os = takenEvents (seenOps (l_chan s) os) ++ l_chan s'.
Proof.
  induction os as [|o os IH]; intros s gss s' H; cbn [lrun] in H.
  - injection H as <- <-. exists []. repeat split. cbn. rewrite app_nil_r. reflexivity.
  - destruct (lstep cf s o) as [[[gs s1]| |]|] eqn:E; try discriminate H. destruct (lrun cf s1 os) as [[[r s2]| |]|] eqn:R; try discriminate H. injection H as <- <-.
    destruct (IH s1 r s2 R) as (outs & K & L & G & C). destruct o as [e|d|now look d|now look d]; cbn [lstep] in E.
    + destruct (zlen (l_chan s) <? cf_chan cf); [|discriminate E]. injection E as <- <-. cbn [l_chan l_map] in *. exists outs. cbn [seenOps]. split; [exact K|]. split; [exact L|]. split; [exact G|].
      rewrite <- C. cbn [offered flat_map]. rewrite <- app_assoc. reflexivity.
    + destruct (l_live s); [|discriminate E]. destruct (l_chan s) as [|e q] eqn:Q; [discriminate E|]. apply some_inj in E.
      destruct (kstep (cf_wait cf) (l_map s) (KEvent e)) as [[out m1]| |] eqn:KS; cbn [bind] in E; try discriminate E. injection E as <- <-. cbn [l_chan l_map fst snd] in *.
      exists (out :: outs). cbn [seenOps map fst krun]. rewrite KS. cbn [bind fst snd]. rewrite K. cbn [bind fst snd List.length]. split; [reflexivity|]. split; [congruence|]. split.
      * unfold handAll in *. cbn [combine map List.concat fst snd]. rewrite G. reflexivity.
      * cbn [offered flat_map takenEvents fst app]. fold (offered os). fold (takenEvents (seenOps q os)). rewrite C. reflexivity.
    + destruct (l_live s); [|discriminate E]. apply some_inj in E.
      destruct (kstep (cf_wait cf) (l_map s) (KScan now look)) as [[out m1]| |] eqn:KS; cbn [bind] in E; try discriminate E. injection E as <- <-. cbn [l_chan l_map fst snd] in *.
      exists (out :: outs). cbn [seenOps map fst krun]. rewrite KS. cbn [bind fst snd]. rewrite K. cbn [bind fst snd List.length]. split; [reflexivity|]. split; [congruence|]. split.
      * unfold handAll in *. cbn [combine map List.concat fst snd]. rewrite G. reflexivity.
      * cbn [offered flat_map takenEvents fst app]. exact C.
    + destruct (l_live s); [|discriminate E]. apply some_inj in E.
      destruct (kstep (cf_wait cf) (l_map s) (KScan now look)) as [[out m1]| |] eqn:KS; cbn [bind] in E; try discriminate E. injection E as <- <-. cbn [l_chan l_map fst snd] in *.
      exists (out :: outs). cbn [seenOps map fst krun]. rewrite KS. cbn [bind fst snd]. rewrite K. cbn [bind fst snd List.length]. split; [reflexivity|]. split; [congruence|]. split.
      * unfold handAll in *. cbn [combine map List.concat fst snd]. rewrite G. reflexivity.
      * cbn [offered flat_map takenEvents fst app]. exact C.
Qed.

(** ** One step of the analyzer, over a set of connections *)
Definition stepAttempt (w : Z) (k : ckey) (p : option pend) (x : kop * natFn) : list attempt :=
  match decision w k p (fst x), hear k p (fst x) with
  | Some (ok, code), Some p' => if told k (fst x) then [{| a_key := k; a_pend := p'; a_ok := ok; a_code := code; a_nat := snd x |}] else []
  | _, _ => []
  end.
Definition after (w : Z) (k : ckey) (p : option pend) (o : kop) : option pend := match decision w k p o with Some _ => None | None => hear k p o end.
Lemma decided_heard w k p o x : decision w k p o = Some x -> exists p', hear k p o = Some p'.
Proof.
  destruct o as [e|now look]; cbn [decision hear]; intros D.
  - destruct (says e) as [[k' w']|]; [|discriminate D]. destruct (eqb k' k); [|discriminate D]. destruct p, w'; cbn in *; try discriminate D; eexists; reflexivity.
  - destruct p; [eexists; reflexivity|discriminate D].
Qed.
Lemma attempts_cons w k p x h : attempts w k p (x :: h) = stepAttempt w k p x ++ attempts w k (after w k p (fst x)) h.
Proof.
  destruct x as [o d]. unfold stepAttempt, after. cbn [attempts fst snd]. destruct (decision w k p o) as [[ok code]|] eqn:D; [|reflexivity].
  destruct (decided_heard w k p o _ D) as (p' & H). rewrite H. reflexivity.
Qed.
Definition asReport (a : attempt) : ckey * cstats := (a_key a, statsOf (a_pend a) (a_ok a) (a_code a)).
Lemma step_key w k p x a : In a (stepAttempt w k p x) -> a_key a = k /\ a_nat a = snd x /\ stepAttempt w k p x = [a].
Proof.
  unfold stepAttempt. destruct (decision w k p (fst x)) as [[ok code]|]; [|intros []]. destruct (hear k p (fst x)); [|intros []]. destruct (told k (fst x)); [|intros []].
  intros [<-|[]]. auto.
Qed.
Lemma step_perm w m o d out m' K : waitOk w -> inProg m -> saneOp o -> kstep w m o = Ok (out, m') -> NoDup K -> (forall k, aget m k <> None -> In k K) ->
  (forall e k wd, o = KEvent e -> says e = Some (k, wd) -> In k K) ->
  Permutation out (flat_map (fun k => map asReport (stepAttempt w k (option_map view (aget m k)) (o, d))) K) /\
  (forall k, option_map view (aget m' k) = after w k (option_map view (aget m k)) o) /\ inProg m' /\ (forall k, aget m' k <> None -> In k K).
Proof.
  intros W P S H N SUB SAY. destruct (kstep_full w m o out m' W P S H) as (P' & ND & IFF & TOLD & NEXT). split; [|split; [exact NEXT|split; [exact P'|]]].
  - apply NoDup_Permutation.
    + revert ND. clear. induction out as [|x out IH]; intros ND; [constructor|]. cbn [map] in ND. inversion ND as [|? ? A B]; subst. constructor; [|auto]. intros J. apply A. apply in_map. exact J.
    + clear - N. induction N as [|k K NI N IH]; [constructor|]. cbn [flat_map]. unfold stepAttempt at 1. cbn [fst].
      destruct (decision w k (option_map view (aget m k)) o) as [[ok code]|]; [|exact IH]. destruct (hear k (option_map view (aget m k)) o); [|exact IH]. destruct (told k o); [|exact IH].
      cbn [map app]. constructor; [|exact IH]. intros J. apply in_flat_map in J. destruct J as (k' & K' & J). apply in_map_iff in J. destruct J as (a & A & J).
      apply step_key in J. destruct J as (J & _). unfold asReport in A. injection A as A _. cbn [a_key] in A. congruence.
    + intros [k c]. split.
      * intros J. pose proof (TOLD _ J) as T. cbn [fst] in T. apply IFF in J; [|exact T]. destruct J as (ok & code & p' & D & Hh & ->). apply in_flat_map. exists k. split.
        -- destruct o as [e|now look]; cbn [decision hear] in *.
           ++ destruct (says e) as [[k' wd]|] eqn:SY; [|discriminate D]. case_eqb k' k; [|discriminate D]. subst k'. eapply SAY; [reflexivity|exact SY].
           ++ apply SUB. destruct (aget m k); [discriminate|discriminate D].
        -- unfold stepAttempt. cbn [fst snd]. rewrite D, Hh. assert (T' : told k o = true) by (destruct o; cbn [told]; [lia|reflexivity]). rewrite T'. left. reflexivity.
      * intros J. apply in_flat_map in J. destruct J as (k' & K' & J). apply in_map_iff in J. destruct J as (a & A & J). unfold stepAttempt in J. cbn [fst snd] in J.
        destruct (decision w k' (option_map view (aget m k')) o) as [[ok code]|] eqn:D; [|destruct J]. destruct (hear k' (option_map view (aget m k')) o) as [p'|] eqn:Hh; [|destruct J].
        destruct (told k' o) eqn:T; [|destruct J]. destruct J as [<-|[]]. unfold asReport in A. cbn [a_key a_pend a_ok a_code] in A. injection A as <- <-.
        apply IFF; [destruct o; cbn [told] in T; [lia|exact Logic.I]|]. exists ok, code, p'. auto.
  - intros k G. specialize (NEXT k). destruct (aget m' k) as [c|]; [|congruence]. cbn [option_map] in NEXT. unfold after in NEXT.
    destruct (decision w k (option_map view (aget m k)) o); [discriminate NEXT|]. destruct o as [e|now look]; cbn [hear] in NEXT.
    + destruct (says e) as [[k' wd]|] eqn:SY; [|apply SUB; destruct (aget m k); [discriminate|discriminate NEXT]].
      case_eqb k' k; [subst k'; eapply SAY; [reflexivity|exact SY]|]. apply SUB. destruct (aget m k); [discriminate|discriminate NEXT].
    + apply SUB. destruct (aget m k); [discriminate|discriminate NEXT].
Qed.
Lemma run_perm cf K : waitOk (cf_wait cf) -> NoDup K -> forall h m outs m', inProg m -> Forall (fun x => saneOp (fst x)) h -> krun (cf_wait cf) m (map fst h) = Ok (outs, m') ->
  (forall k, aget m k <> None -> In k K) -> (forall e d k wd, In (KEvent e, d) h -> says e = Some (k, wd) -> In k K) ->
  Permutation (handAll cf outs h) (flat_map (fun k => map (groupOf cf) (attempts (cf_wait cf) k (option_map view (aget m k)) h)) K).
Proof.
  intros W N. induction h as [|[o d] h IH]; intros m outs m' P F R SUB SAY.
  - cbn in R. injection R as <- <-. cbn [handAll combine map List.concat attempts]. clear. induction K; [constructor|exact IHK].
  - inversion F as [|? ? F1 F2]; subst. cbn [map fst krun] in R, F1. destruct (kstep (cf_wait cf) m o) as [[out m1]| |] eqn:KS; cbn [bind fst snd] in R; try discriminate R.
    destruct (krun (cf_wait cf) m1 (map fst h)) as [[outs1 m2]| |] eqn:R1; cbn [bind fst snd] in R; try discriminate R. injection R as <- <-.
    destruct (step_perm (cf_wait cf) m o d out m1 K W P F1 KS N SUB) as (A & B & P1 & SUB1).
    { intros e k wd -> SY. eapply SAY; [left; reflexivity|exact SY]. }
    specialize (IH m1 outs1 m2 P1 F2 R1 SUB1 (fun e d' k wd J => SAY e d' k wd (or_intror J))).
    unfold handAll in *. cbn [combine map List.concat fst snd].
    transitivity (flat_map (fun k => map (groupOf cf) (stepAttempt (cf_wait cf) k (option_map view (aget m k)) (o, d))) K ++ flat_map (fun k => map (groupOf cf) (attempts (cf_wait cf) k (option_map view (aget m1 k)) h)) K).
    + apply Permutation_app; [|exact IH]. unfold handOver. rewrite A. rewrite flat_map_concat_map, concat_map, map_map, <- flat_map_concat_map.
      rewrite (flat_map_ext _ (fun k => map (groupOf cf) (stepAttempt (cf_wait cf) k (option_map view (aget m k)) (o, d)))); [reflexivity|].
      intros k. rewrite map_map. apply map_ext_in. intros a J. apply step_key in J. destruct J as (_ & NA & _). unfold groupOf, asReport. cbn [fst snd]. rewrite NA. reflexivity.
    + rewrite <- perm_flat_app. rewrite (flat_map_ext _ (fun k => map (groupOf cf) (attempts (cf_wait cf) k (option_map view (aget m k)) ((o, d) :: h)))); [reflexivity|].
      intros k. rewrite attempts_cons, map_app, B. reflexivity.
Qed.

(** ** What the attempts carry *)
Definition goodKop (x : kop * natFn) : Prop :=
  match fst x with
  | KEvent e => 0 <= e_ts e < 2 ^ 63 /\ 0 <= e_pid e < 2 ^ 32 /\ 0 <= e_sport e < 2 ^ 32 /\ 0 <= e_dport e < 2 ^ 32
  | KScan now _ => 0 <= now < 2 ^ 63
  end /\ forall a b c e ip port, snd x a b c e = Some (ip, port) -> 0 <= port < 2 ^ 16.
Lemma seen_good : forall os q, Forall (fun e => 0 <= e_ts e < 2 ^ 63 /\ 0 <= e_pid e < 2 ^ 32 /\ 0 <= e_sport e < 2 ^ 32 /\ 0 <= e_dport e < 2 ^ 32) q ->
  Forall saneLop os -> Forall goodKop (seenOps q os).
Proof.
  induction os as [|o os IH]; intros q Q F; [constructor|]. inversion F as [|? ? F1 F2]; subst. destruct o as [e|d|now look d|now look d]; cbn [seenOps saneLop] in *.
  - apply IH; [|exact F2]. apply Forall_app. split; [exact Q|constructor; [exact F1|constructor]].
  - destruct q as [|e q]; [constructor|]. inversion Q; subst. constructor; [split; assumption|]. apply IH; assumption.
  - constructor; [exact F1|apply IH; assumption].
  - constructor; [exact F1|apply IH; assumption].
Qed.
Definition goodPend (p : pend) : Prop := 0 <= p_start p < 2 ^ 63 /\ 0 <= p_last p < 2 ^ 63 /\ 0 <= p_pid p < 2 ^ 32.
Definition goodKey (k : ckey) : Prop := 0 <= kSport k < 2 ^ 32 /\ 0 <= kDport k < 2 ^ 32.
Definition goodAttempt (a : attempt) : Prop :=
  goodPend (a_pend a) /\ - 2 ^ 63 <= a_code a < 2 ^ 63 /\ (forall x y z t ip port, a_nat a x y z t = Some (ip, port) -> 0 <= port < 2 ^ 16).
Lemma hear_good k p x p' : goodKop x -> match p with Some p => goodPend p | None => True end -> hear k p (fst x) = Some p' -> goodPend p'.
Proof.
  destruct x as [[e|now look] d]; cbn [fst hear]; intros (G & _) P H; cbn [fst] in G.
  - destruct (says e) as [[k' wd]|]; [|subst p; exact P]. destruct (eqb k' k); [|subst p; exact P].
    destruct p as [p|], wd; cbn in H; try discriminate H; injection H as <-; unfold goodPend in *; cbn [p_start p_last p_pid]; lia.
  - subst p. exact P.
Qed.
Lemma s64_in x : - 2 ^ 63 <= s64 x < 2 ^ 63.
Proof. unfold s64. pose proof (Z.mod_pos_bound (x + 2 ^ 63) (2 ^ 64)). lia. Qed.
Lemma int_in kv r : getIntValue kv = Ok r -> - 2 ^ 63 <= r < 2 ^ 63.
Proof.
  unfold getIntValue. destruct (kv_type kv); intros H; try (injection H as <-; lia); (destruct (leValue _ _) as [v| |]; cbn [bind] in H; try discriminate H; injection H as <-).
  - unfold s8. pose proof (Z.mod_pos_bound (v + 2 ^ 7) (2 ^ 8)). lia.
  - unfold s16. pose proof (Z.mod_pos_bound (v + 2 ^ 15) (2 ^ 16)). lia.
  - unfold s32. pose proof (Z.mod_pos_bound (v + 2 ^ 31) (2 ^ 32)). lia.
  - apply s64_in.
Qed.
Lemma returned_in e k r : says e = Some (k, Returned r) -> - 2 ^ 63 <= r < 2 ^ 63.
Proof.
  unfold says. destruct (eqb (e_name e) "tcp_connect"); [destruct (kernelKey e), (uintAt e "retval"); discriminate|].
  destruct (eqb (e_name e) "tcp_set_state"); [destruct (kernelKey e), (intAt e "old_state"), (intAt e "new_state"); try discriminate; destruct (z =? 1); [discriminate|destruct (z0 =? 1); discriminate]|].
  destruct (eqb (e_name e) "connect").
  - destruct (isTcp e); [|discriminate]. destruct (socketKey e); [|discriminate]. unfold intAt. destruct (getUserAttribute e "res") as [kv|]; [|discriminate].
    destruct (getIntValue kv) as [r'| |] eqn:G; try discriminate. intros H. injection H as _ <-. exact (int_in kv r' G).
  - destruct (memS _ _); [|discriminate]. destruct (e_net e && isTcp e); [|discriminate]. destruct (socketKey e); discriminate.
Qed.
Lemma decision_code w k p o ok code : decision w k p o = Some (ok, code) -> - 2 ^ 63 <= code < 2 ^ 63.
Proof.
  destruct o as [e|now look]; cbn [decision].
  - destruct (says e) as [[k' wd]|] eqn:SY; [|discriminate]. destruct (eqb k' k); [|discriminate]. destruct wd as [r|r| | |]; cbn [decided].
    + destruct (r =? 0); [discriminate|]. intros H. injection H as _ <-. apply s64_in.
    + destruct p; [|discriminate]. destruct (r =? 0); [intros H; injection H as _ <-; lia|]. destruct (existsb _ _); [discriminate|]. intros H. injection H as _ <-. exact (returned_in _ _ _ SY).
    + destruct p; [|discriminate]. intros H. injection H as _ <-. lia.
    + destruct p; [|discriminate]. intros H. injection H as _ <-. lia.
    + destruct p; [|discriminate]. intros H. injection H as _ <-. lia.
  - destruct p as [p|]; [|discriminate]. destruct (_ || _); [discriminate|]. destruct (look _ _) as [| |st]; [intros H; injection H as _ <-; lia..|].
    destruct (_ || _); [discriminate|]. intros H. injection H as _ <-. lia.
Qed.
Lemma attempts_good w k : forall h p, Forall goodKop h -> match p with Some p => goodPend p | None => True end -> Forall goodAttempt (attempts w k p h).
Proof.
  induction h as [|x h IH]; intros p F P; [constructor|]. inversion F as [|? ? F1 F2]; subst. rewrite attempts_cons. apply Forall_app. split.
  - unfold stepAttempt. destruct (decision w k p (fst x)) as [[ok code]|] eqn:D; [|constructor]. destruct (hear k p (fst x)) as [p'|] eqn:Hh; [|constructor]. destruct (told k (fst x)); [|constructor].
    constructor; [|constructor]. split; [exact (hear_good k p x p' F1 P Hh)|]. split; [exact (decision_code _ _ _ _ _ _ D)|exact (proj2 F1)].
  - apply IH; [exact F2|]. unfold after. destruct (decision w k p (fst x)); [exact Logic.I|]. destruct (hear k p (fst x)) as [p'|] eqn:Hh; [|exact Logic.I]. exact (hear_good k p x p' F1 P Hh).
Qed.
Lemma attempts_key w k : forall h p a, In a (attempts w k p h) -> a_key a = k.
Proof.
  induction h as [|x h IH]; intros p a J; [destruct J|]. rewrite attempts_cons in J. apply in_app_or in J. destruct J as [J|J]; [exact (proj1 (step_key _ _ _ _ _ J))|exact (IH _ _ J)].
Qed.
Lemma says_key e k wd : 0 <= e_sport e < 2 ^ 32 -> 0 <= e_dport e < 2 ^ 32 -> says e = Some (k, wd) -> goodKey k.
Proof.
  intros A B. assert (KK : forall k', kernelKey e = Some k' -> goodKey k').
  { intros k'. unfold kernelKey. destruct (uintAt e "sip"), (uintAt e "sport") as [sp|], (uintAt e "dip"), (uintAt e "dport") as [dp|]; try discriminate. intros H. injection H as <-.
    unfold goodKey, kSport, kDport. cbn [fst snd]. split; apply Z.mod_pos_bound; lia. }
  assert (SK : forall k', socketKey e = Some k' -> goodKey k').
  { intros k'. unfold socketKey. destruct (e_sip e); [discriminate|]. destruct (e_dip e); [discriminate|]. intros H. injection H as <-. unfold goodKey, kSport, kDport. cbn [fst snd]. auto. }
  unfold says. destruct (eqb (e_name e) "tcp_connect"); [destruct (kernelKey e) as [k'|], (uintAt e "retval"); try discriminate; intros H; injection H as <- _; auto|].
  destruct (eqb (e_name e) "tcp_set_state").
  { destruct (kernelKey e) as [k'|], (intAt e "old_state") as [o|], (intAt e "new_state") as [n|]; try discriminate. destruct (o =? 1); [intros H; injection H as <- _; auto|]. destruct (n =? 1); [|discriminate]. intros H; injection H as <- _; auto. }
  destruct (eqb (e_name e) "connect").
  - destruct (isTcp e); [|discriminate]. destruct (socketKey e) as [k'|], (intAt e "res"); try discriminate. intros H; injection H as <- _; auto.
  - destruct (memS _ _); [|discriminate]. destruct (e_net e && isTcp e); [|discriminate]. destruct (socketKey e) as [k'|]; [|discriminate]. intros H; injection H as <- _; auto.
Qed.
Lemma named_says h k : In k (named h) <-> exists e d wd, In (KEvent e, d) h /\ says e = Some (k, wd).
Proof.
  unfold named. rewrite in_distinct, in_flat_map. split.
  - intros ([[e|now look] d] & J & X); cbn [fst] in X; [|destruct X]. destruct (says e) as [[k' wd]|] eqn:SY; [|destruct X]. destruct X as [<-|[]]. eauto 6.
  - intros (e & d & wd & J & SY). exists (KEvent e, d). split; [exact J|]. cbn [fst]. rewrite SY. left. reflexivity.
Qed.
Lemma all_good w h : Forall goodKop h -> forall a, In a (allAttempts w h) -> goodAttempt a /\ goodKey (a_key a).
Proof.
  intros F a J. unfold allAttempts in J. apply in_flat_map in J. destruct J as (k & K & J). split.
  - pose proof (attempts_good w k h None F Logic.I) as X. rewrite Forall_forall in X. exact (X a J).
  - rewrite (attempts_key _ _ _ _ _ J). apply named_says in K. destruct K as (e & d & wd & I & SY). rewrite Forall_forall in F. specialize (F _ I). destruct F as (G & _). cbn [fst] in G.
    eapply says_key; [| |exact SY]; lia.
Qed.
