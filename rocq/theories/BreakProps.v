(** Property C65: the limit on the rate of conntrack messages. *)
From Verif Require Import Base BreakModel BreakSpec.
Open Scope list_scope. Open Scope Z_scope.

Lemma weighted_new prev count d : 0 < d -> weighted prev count d (newEventRate prev count d).
Proof.
  intros D. unfold weighted, newEventRate, second. destruct (prev =? 0).
  - assert (X := Z.div_mod (count * 10 ^ 9) d ltac:(lia)). assert (Y := Z.mod_pos_bound (count * 10 ^ 9) d D). nia.
  - replace (2 * count * 10 ^ 9) with (2 * (count * 10 ^ 9)) by ring. generalize (2 * (count * 10 ^ 9) + 8 * prev * d). intros x.
    assert (X := Z.div_mod x (10 * d) ltac:(lia)). assert (Y := Z.mod_pos_bound x (10 * d) ltac:(lia)). nia.
Qed.
Lemma elapsed_max now last : elapsed now last = Z.max (10 ^ 9) (now - last).
Proof. unfold elapsed, second. destruct (Z.ltb_spec (now - last) (10 ^ 9)); lia. Qed.
Lemma weighted_nonneg prev count d new : 0 < d -> 0 <= prev -> 0 <= count -> weighted prev count d new -> 0 <= new.
Proof. unfold weighted. intros D P C. destruct (prev =? 0); nia. Qed.

Lemma sees_app limit q os1 q1 : sees_all limit q os1 q1 -> forall os2 q2, sees_all limit q1 os2 q2 -> sees_all limit q (os1 ++ os2) q2.
Proof. induction 1 as [|q o q1 os q2 S _ IH]; intros os2 q3 H; [exact H|]. cbn [app]. eapply SA_cons; [exact S|]. apply IH. exact H. Qed.

Section Run.
  Variable limit : Z.
  Variable old : bool.
  Hypothesis LP : 0 <= limit.

  (** The state of the two goroutines and what the observer remembers belong together. *)
  Definition tick_ok (s : st) (q : view) : Prop :=
    match ticker s with
    | UIdle => due q = None /\ average q = eventRate s /\ since q = lastUpdate s
    | ULast now => due q = None /\ average q = eventRate s /\ since q = lastUpdate s
    | USwap now last => due q = None /\ average q = eventRate s /\ since q = lastUpdate s /\ last = since q
    | URate now d count => due q = Some (count, d, now) /\ 0 < d /\ average q = eventRate s /\ 0 <= count
    | UStoreLast now new => exists c d, due q = Some (c, d, now) /\ weighted (average q) c d new /\ 0 <= new
    | UStoreRate new => exists c d, due q = Some (c, d, lastUpdate s) /\ weighted (average q) c d new /\ 0 <= new
    | UStatus new => exists c d, due q = Some (c, d, lastUpdate s) /\ weighted (average q) c d new /\ eventRate s = new /\ 0 <= new
    end.
  Definition Inv (s : st) (q : view) : Prop :=
    pending q = eventCount s /\ 0 <= eventCount s /\ 0 <= eventRate s /\
    (reader s = REnded \/ (num q = sampNum s /\ den q = sampDen s /\ 0 <= sampNum s <= sampDen s /\ 0 < sampDen s)) /\
    (if isOpen s then
       ticker s = UIdle /\ due q = None /\
       match reader s with
       | RIdle | RTicked | ROpen | RJoin => ph q = Tripped /\ average q = eventRate s /\ limit < eventRate s
       | RReset1 | RReset2 => ph q = Restarting
       | RReset3 => ph q = Restarting /\ eventRate s = 0
       | RReset4 => ph q = Closed /\ average q = 0 /\ eventRate s = 0 /\ since q = lastUpdate s
       | REnded => True
       end
     else ph q = Closed /\ tick_ok s q /\ (reader s = RIdle \/ reader s = RTicked \/ reader s = RJoin \/ reader s = REnded)).

  Lemma start_Inv t0 : Inv (start t0) (first_view t0).
  Proof. unfold Inv, tick_ok, start, first_view. cbn. split; [reflexivity|]. split; [lia|]. split; [lia|]. split; [right; lia|]. auto. Qed.

  (** messages are counted, so a batch has at least none *)
  Definition sane (a : act) : Prop := match a with ARead n => 0 <= n | _ => True end.

  Lemma maxE : maxEventsPerSec limit = limit.
  Proof. unfold maxEventsPerSec. destruct (Z.eqb_spec limit (-1)); [lia|reflexivity]. Qed.

  Lemma step_Inv s q a s' os : sane a -> Inv s q -> step limit old s a = Some (s', os) -> exists q', sees_all limit q os q' /\ Inv s' q'.
  Proof.
    intros SA I E.
    assert (one : forall q o q', sees limit q o q' -> sees_all limit q [o] q') by (intros; eapply SA_cons; [eassumption|constructor]).
    destruct I as (IP & IC & IR & IS & IO). destruct a as [n| |x|now|ok|now|]; cbn [step] in E.
    - (* ARead *)
      destruct (reader s) eqn:RD; try discriminate. injection E as <- <-. eexists. split; [apply one; apply S_read|].
      cbn [sane] in SA. unfold Inv, tick_ok in *. cbn. rewrite ?RD in *. split; [lia|]. split; [lia|]. split; [lia|]. split; [destruct IS as [IS|IS]; [discriminate|right; exact IS]|].
      destruct (isOpen s); [exact IO|]. destruct IO as (A & B & _). split; [exact A|]. split; [exact B|auto].
    - (* ACheck *)
      destruct (reader s) eqn:RD; try discriminate. destruct (isOpen s) eqn:O; injection E as <- <-; (eexists; split; [constructor|]); unfold Inv, tick_ok in *; cbn.
      + split; [exact IP|]. split; [exact IC|]. split; [exact IR|]. split; [destruct IS as [IS|IS]; [congruence|right; exact IS]|]. exact IO.
      + split; [exact IP|]. split; [exact IC|]. split; [exact IR|]. split; [destruct IS as [IS|IS]; [congruence|right; exact IS]|].
        destruct IO as (A & B & _). auto.
    - (* AOpen *)
      destruct (reader s) eqn:RD; try discriminate. destruct (isOpen s) eqn:O.
      2:{ destruct IO as (_ & _ & [X|[X|[X|X]]]); congruence. }
      destruct IO as (TI & D & PH & AV & GT). destruct IS as [IS|(IN & ID & IB & IDP)]; [congruence|].
      destruct old.
      + injection E as <- <-. eexists. split; [apply one; apply S_ignored; exact PH|]. unfold Inv. cbn. rewrite TI.
        split; [exact IP|]. split; [exact IC|]. split; [exact IR|]. split; [right; auto|]. try rewrite O. auto.
      + injection E as E. unfold openSocket in E.
        set (nm := limit * sampNum s * 95) in *. set (dn := eventRate s * sampDen s * 100) in *.
        assert (DP : 0 < dn) by (unfold dn; nia).
        assert (NN : 0 <= nm) by (unfold nm; nia).
        assert (LT : nm < dn). { unfold nm, dn. assert (limit * sampNum s <= limit * sampDen s) by nia. assert (limit * sampDen s < eventRate s * sampDen s) by nia. nia. }
        destruct (Z.leb_spec dn nm) as [Q|_]; [lia|]. destruct (Z.ltb_spec nm 0) as [Q|_]; [lia|].
        assert (TH : sees limit q (OThrottle (eventRate s) nm dn)
             {| pending := pending q; average := average q; since := since q; due := due q; ph := Restarting; num := nm; den := dn |}).
        { rewrite <- AV. apply S_throttle; [exact PH|exact DP|]. rewrite ID, AV, IN. fold dn nm. reflexivity. }
        destruct x; injection E as <- <-.
        * eexists. split; [apply one; exact TH|]. unfold Inv. cbn. rewrite TI. split; [exact IP|]. split; [exact IC|]. split; [exact IR|].
          split; [right; lia|]. try rewrite O. auto.
        * exists q. split; [constructor|]. unfold Inv. cbn. try rewrite O. auto 10.
        * exists q. split; [constructor|]. unfold Inv. cbn. try rewrite O. auto 10.
    - (* AReset *)
      destruct (reader s) eqn:RD; try discriminate; (destruct (isOpen s) eqn:O; [|destruct IO as (_ & _ & [X|[X|[X|X]]]); congruence]);
        destruct IO as (TI & D & IO); (destruct IS as [IS|IS]; [congruence|]); injection E as <- <-.
      + eexists. split; [apply one; apply S_clear; exact IO|]. unfold Inv. cbn. try rewrite O. split; [reflexivity|]. split; [lia|]. auto 8.
      + exists q. split; [constructor|]. unfold Inv. cbn. try rewrite O. split; [exact IP|]. split; [lia|]. split; [lia|]. auto 8.
      + destruct IO as (IO & Z0). eexists. split; [apply one; apply S_reset; [exact IO|exact D]|]. unfold Inv. cbn. try rewrite O. auto 12.
      + destruct IO as (IO & AV & Z0 & SI). exists q. split; [constructor|]. unfold Inv, tick_ok. cbn. rewrite TI.
        split; [exact IP|]. split; [exact IC|]. split; [exact IR|]. split; [right; exact IS|]. split; [exact IO|]. split; [|destruct old; auto].
        split; [exact D|]. split; [lia|exact SI].
    - (* AJoin *)
      destruct (reader s) eqn:RD; try discriminate. injection E as <- <-. exists q. split; [constructor|]. unfold Inv, tick_ok in *. cbn.
      split; [exact IP|]. split; [exact IC|]. split; [exact IR|]. split; [destruct IS as [IS|IS]; [congruence|right; exact IS]|].
      destruct (isOpen s) eqn:O; [destruct IO as (A & B & C); destruct ok; auto|]. destruct IO as (A & B & _). split; [exact A|]. split; [exact B|]. destruct ok; auto.
    - (* ATick *)
      assert (E' : match ticker s with UIdle => Some (upd s (eventCount s) (eventRate s) (lastUpdate s) (isOpen s) (reader s) (if isOpen s then UIdle else ULast now), []) | _ => None end = Some (s', os))
        by (destruct (reader s); exact E).
      clear E. destruct (ticker s) eqn:TK; try discriminate. injection E' as <- <-. exists q. split; [constructor|]. unfold Inv, tick_ok in *. cbn.
      split; [exact IP|]. split; [exact IC|]. split; [exact IR|]. split; [exact IS|]. rewrite TK in IO. destruct (isOpen s); [exact IO|]. exact IO.
    - (* AUpdate *)
      assert (OC : ticker s <> UIdle -> isOpen s = false) by (intros N; destruct (isOpen s); [destruct IO as (Q & _); contradiction|reflexivity]).
      assert (E' : match ticker s with
        | UIdle => None
        | ULast now => Some (upd s (eventCount s) (eventRate s) (lastUpdate s) (isOpen s) (reader s) (USwap now (lastUpdate s)), [])
        | USwap now last => Some (upd s 0 (eventRate s) (lastUpdate s) (isOpen s) (reader s) (URate now (elapsed now last) (eventCount s)), [OMeasure (eventCount s) now])
        | URate now d count => Some (upd s (eventCount s) (eventRate s) (lastUpdate s) (isOpen s) (reader s) (UStoreLast now (newEventRate (eventRate s) count d)), [])
        | UStoreLast now new => Some (upd s (eventCount s) (eventRate s) now (isOpen s) (reader s) (UStoreRate new), [])
        | UStoreRate new => Some (upd s (eventCount s) new (lastUpdate s) (isOpen s) (reader s) (UStatus new), [])
        | UStatus new => Some (upd s (eventCount s) (eventRate s) (lastUpdate s) (if maxEventsPerSec limit <? new then true else isOpen s) (reader s) UIdle, [OVerdict new (maxEventsPerSec limit <? new)])
        end = Some (s', os)) by (destruct (reader s); exact E).
      clear E. rewrite maxE in E'.
      destruct (ticker s) as [|now|now last|now d count|now new|new|new] eqn:TK; [discriminate| | | | | |];
        specialize (OC ltac:(discriminate)); rewrite OC in *; destruct IO as (PH & TO & RO); unfold tick_ok in TO; rewrite TK in TO; injection E' as <- <-.
      + exists q. split; [constructor|]. destruct TO as (A & B & C). unfold Inv, tick_ok. cbn. auto 12.
      + destruct TO as (A & B & C & ->). eexists. split; [apply one; rewrite <- IP; apply S_measure; assumption|]. unfold Inv, tick_ok. cbn.
        split; [reflexivity|]. split; [lia|]. split; [exact IR|]. split; [exact IS|]. split; [exact PH|]. split; [|exact RO].
        rewrite elapsed_max. split; [rewrite IP; reflexivity|]. split; [lia|]. split; [exact B|exact IC].
      + destruct TO as (A & B & C & F). exists q. split; [constructor|]. unfold Inv, tick_ok. cbn.
        split; [exact IP|]. split; [exact IC|]. split; [exact IR|]. split; [exact IS|]. split; [exact PH|]. split; [|exact RO].
        assert (W := weighted_new (eventRate s) count d B). exists count, d. rewrite C. split; [exact A|]. split; [exact W|]. exact (weighted_nonneg _ _ _ _ B IR F W).
      + destruct TO as (c & d & A & B & C). exists q. split; [constructor|]. unfold Inv, tick_ok. cbn. eauto 12.
      + destruct TO as (c & d & A & B & C). exists q. split; [constructor|]. unfold Inv, tick_ok. cbn.
        split; [exact IP|]. split; [exact IC|]. split; [exact C|]. split; [exact IS|]. split; [exact PH|]. split; [|exact RO]. eauto 8.
      + destruct TO as (c & d & A & B & C & F). eexists. split; [apply one; eapply S_verdict; eassumption|]. unfold Inv, tick_ok. cbn.
        split; [exact IP|]. split; [exact IC|]. split; [exact IR|]. split; [exact IS|]. destruct (Z.ltb_spec limit new) as [Q|Q].
        * split; [reflexivity|]. split; [reflexivity|]. destruct RO as [RO|[RO|[RO|RO]]]; rewrite RO; [split; [reflexivity|lia]|split; [reflexivity|lia]|split; [reflexivity|lia]|exact Logic.I].
        * split; [reflexivity|]. split; [split; [reflexivity|split; [lia|reflexivity]]|exact RO].
  Qed.
End Run.

Lemma run_app limit old acts1 : forall s acts2, run limit old s (acts1 ++ acts2) =
  let '(s1, o1) := run limit old s acts1 in let '(s2, o2) := run limit old s1 acts2 in (s2, o1 ++ o2).
Proof.
  induction acts1 as [|a r IH]; intros s acts2; cbn [app run]; [destruct (run limit old s acts2); reflexivity|].
  destruct (step limit old s a) as [[s' os]|]; [|apply IH]. rewrite IH. destruct (run limit old s' r) as [s1 o1]. destruct (run limit old s1 acts2). rewrite app_assoc. reflexivity.
Qed.
Lemma run_Inv limit old (LP : 0 <= limit) acts : Forall sane acts -> forall s q, Inv limit s q ->
  exists q', sees_all limit q (snd (run limit old s acts)) q' /\ Inv limit (fst (run limit old s acts)) q'.
Proof.
  induction 1 as [|a r SA _ IH]; intros s q I; cbn [run]; [exists q; split; [constructor|exact I]|].
  destruct (step limit old s a) as [[s' os]|] eqn:E; [|apply IH; exact I]. destruct (step_Inv limit old LP s q a s' os SA I E) as (q1 & S1 & I1).
  destruct (IH s' q1 I1) as (q2 & S2 & I2). destruct (run limit old s' r) as [s2 o2]. exists q2. split; [eapply sees_app; eassumption|exact I2].
Qed.

(** C65: in every interleaving of the reader and the ticker, what is seen is what a limiter may do: every message is counted in one
    measurement, averages are as configured, the limit trips exactly when the average exceeds it, each trip is answered once, and then the
    share let through shrinks.  Nothing panics. *)
Theorem C65_limiter : forall (limit : Z) (old : bool) (t0 : Z) (acts : list act),
  0 <= limit -> Forall sane acts ->
  exists q, sees_all limit (first_view t0) (snd (run limit old (start t0) acts)) q.
Proof.
  intros limit old t0 acts LP SA. destruct (run_Inv limit old LP acts SA _ _ (start_Inv limit t0)) as (q & S & _). exists q. exact S.
Qed.
Print Assumptions C65_limiter.

(** *** Consequences *)
(** The measurements of a list of observations: messages and nanoseconds; [last] is when the count began. *)
Fixpoint intervals (last : Z) (os : list obs) : list (Z * Z) :=
  match os with
  | [] => []
  | OMeasure c now :: r => (c, Z.max (10 ^ 9) (now - last)) :: intervals now r
  | OReset now :: r => intervals now r
  | _ :: r => intervals last r
  end.
Definition counted_from (q : view) : Z := match due q with Some (_, _, now) => now | None => since q end.
Definition quiet (limit : Z) (p : Z * Z) : Prop := fst p * 10 ^ 9 <= limit * snd p.
Definition alarm (o : obs) : Prop := match o with OVerdict _ b => b = true | OThrottle _ _ _ => True | OIgnored => True | OClear => True | OReset _ => True | _ => False end.
Lemma quiet_sees limit q os q' : sees_all limit q os q' -> ph q = Closed -> average q <= limit ->
  (forall c d now, due q = Some (c, d, now) -> c * 10 ^ 9 <= limit * d /\ 0 < d) ->
  Forall (quiet limit) (intervals (counted_from q) os) -> Forall (fun o => ~ alarm o) os /\ ph q' = Closed.
Proof.
  induction 1 as [|q o q1 os q2 S _ IH]; intros PH AV DU Q; [split; [constructor|exact PH]|].
  destruct S as [q n|q now P D|q c d now new D W|q n d P _ _|q P|q P|q now P D]; try congruence; cbn [intervals] in Q.
  - destruct (IH PH AV DU Q) as [A B]. split; [constructor; [intros []|exact A]|exact B].
  - inversion Q as [|? ? Q1 Q2]; subst. assert (CF : counted_from q = since q) by (unfold counted_from; rewrite D; reflexivity). rewrite CF in *.
    unfold quiet in Q1. cbn [fst snd] in Q1.
    destruct (IH P AV ltac:(cbn [due]; intros c d n0 E; injection E as <- <- <-; split; [exact Q1|lia]) Q2) as [A B]. split; [constructor; [intros []|exact A]|exact B].
  - destruct (DU c d now D) as [Q1 DP].
    assert (N : new <= limit). { unfold weighted in W. destruct (average q =? 0); nia. }
    assert (F : limit <? new = false) by lia. rewrite F in *. unfold counted_from in Q at 1. rewrite D in Q.
    destruct (IH eq_refl N ltac:(discriminate) Q) as [A B]. split; [constructor; [cbn; discriminate|exact A]|exact B].
Qed.

(** C65: while no measurement shows more messages per second than the limit, no limit is ever applied. *)
Theorem C65_below_the_limit : forall (limit : Z) (old : bool) (t0 : Z) (acts : list act),
  0 <= limit -> Forall sane acts ->
  let os := snd (run limit old (start t0) acts) in
  Forall (fun p => fst p * 10 ^ 9 <= limit * snd p) (intervals t0 os) ->
  (forall rate, ~ In (OVerdict rate true) os) /\ (forall r n d, ~ In (OThrottle r n d) os) /\ ~ In OIgnored os.
Proof.
  intros limit old t0 acts LP SA os Q. destruct (C65_limiter limit old t0 acts LP SA) as (q & S). fold os in S.
  destruct (quiet_sees _ _ _ _ S eq_refl ltac:(exact LP) ltac:(discriminate) Q) as [A _]. rewrite Forall_forall in A.
  split; [|split]; [intros r I|intros r n d I|intros I]; apply (A _ I); exact Logic.I || reflexivity.
Qed.
Print Assumptions C65_below_the_limit.

(** C65: the limit -1 is no limit: as long as a measurement counts less than 2^63 messages, none is ever applied. *)
Lemma off_run old t0 acts : Forall sane acts ->
  Forall (fun p => fst p < 2 ^ 63) (intervals t0 (snd (run (-1) old (start t0) acts))) ->
  run (-1) old (start t0) acts = run (2 ^ 63 - 1) old (start t0) acts.
Proof.
  induction acts as [|a acts IH] using rev_ind; [reflexivity|]. intros SA Q. apply Forall_app in SA. destruct SA as [SA SA1].
  rewrite run_app in Q |- *. rewrite (run_app (2 ^ 63 - 1)).
  assert (PRE : forall l o1 o2 P, Forall P (intervals l (o1 ++ o2)) -> Forall P (intervals l o1)).
  { intros l o1 o2 P. revert l. induction o1 as [|o o1 IHo]; intros l; [constructor|]. cbn [app]. destruct o; cbn [intervals]; try (apply IHo).
    intros X. inversion X; subst. constructor; [assumption|apply (IHo _); assumption]. }
  destruct (run (-1) old (start t0) acts) as [s1 o1] eqn:R1.
  assert (Q1 : Forall (fun p : Z * Z => fst p < 2 ^ 63) (intervals t0 o1)).
  { destruct (run (-1) old s1 [a]) as [s2 o2]. cbn [snd] in Q. exact (PRE _ _ _ _ Q). }
  specialize (IH SA Q1). rewrite <- IH.
  destruct (run_Inv (2 ^ 63 - 1) old ltac:(lia) acts SA _ _ (start_Inv (2 ^ 63 - 1) t0)) as (q & S & I). rewrite <- IH in S, I. cbn [fst snd] in S, I.
  assert (CL : ph q = Closed).
  { enough (QQ : Forall (quiet (2 ^ 63 - 1)) (intervals (counted_from (first_view t0)) o1)) by exact (proj2 (quiet_sees _ _ _ _ S eq_refl ltac:(cbn; lia) ltac:(discriminate) QQ)).
    change (counted_from (first_view t0)) with t0.
    assert (POS : forall l o, Forall (fun p => 10 ^ 9 <= snd p) (intervals l o)).
    { intros l o. revert l. induction o as [|x o IHo]; intros l; [constructor|]. destruct x; cbn [intervals]; try apply IHo. constructor; [cbn [snd]; lia|apply IHo]. }
    specialize (POS t0 o1). rewrite Forall_forall in *. intros p J. specialize (POS p J). specialize (Q1 p J). unfold quiet. nia. }
  assert (NO : reader s1 <> ROpen).
  { destruct I as (_ & _ & _ & _ & IO). intros RO. rewrite RO in IO. destruct (isOpen s1); [destruct IO as (_ & _ & T & _); congruence|]. destruct IO as (_ & _ & [X|[X|[X|X]]]); congruence. }
  cbn [run]. assert (E : step (-1) old s1 a = step (2 ^ 63 - 1) old s1 a); [|rewrite E; reflexivity].
  unfold step. destruct a; try reflexivity.
  destruct (reader s1); try reflexivity. contradiction.
Qed.
Theorem C65_no_limit : forall (old : bool) (t0 : Z) (acts : list act),
  Forall sane acts ->
  let os := snd (run (-1) old (start t0) acts) in
  Forall (fun p => fst p < 2 ^ 63) (intervals t0 os) ->
  (forall rate, ~ In (OVerdict rate true) os) /\ (forall r n d, ~ In (OThrottle r n d) os) /\ ~ In OIgnored os /\ ~ In OPanic os.
Proof.
  intros old t0 acts SA os Q. assert (E := off_run old t0 acts SA Q). unfold os in *. rewrite E in *.
  assert (POS : forall l o, Forall (fun p => 10 ^ 9 <= snd p) (intervals l o)).
  { intros l o. revert l. induction o as [|x o IHo]; intros l; [constructor|]. destruct x; cbn [intervals]; try apply IHo. constructor; [cbn [snd]; lia|apply IHo]. }
  assert (Q' : Forall (fun p => fst p * 10 ^ 9 <= (2 ^ 63 - 1) * snd p) (intervals t0 (snd (run (2 ^ 63 - 1) old (start t0) acts)))).
  { specialize (POS t0 (snd (run (2 ^ 63 - 1) old (start t0) acts))). rewrite Forall_forall in *. intros p J. specialize (POS p J). specialize (Q p J). nia. }
  destruct (C65_below_the_limit (2 ^ 63 - 1) old t0 acts ltac:(lia) SA Q') as (A & B & C). split; [exact A|]. split; [exact B|]. split; [exact C|].
  destruct (C65_limiter (2 ^ 63 - 1) old t0 acts ltac:(lia) SA) as (q & S). clear - S. revert S. generalize (first_view t0), (snd (run (2 ^ 63 - 1) old (start t0) acts)).
  intros v os S. induction S as [|q0 o q1 os q2 S1 _ IH]; [intros []|]. intros [->|J]; [inversion S1|exact (IH J)].
Qed.
Print Assumptions C65_no_limit.

(** C65: more than [max 1 limit] verdicts in a row about measurements of at least 5 messages per second above the limit include a trip. *)
Definition verdicts (os : list obs) : Z := zlen (filter (fun o => match o with OVerdict _ _ => true | _ => false end) os).
Definition trips (os : list obs) : Z := zlen (filter (fun o => match o with OVerdict _ b => b | _ => false end) os).
Definition answers (os : list obs) : Z := zlen (filter (fun o => match o with OThrottle _ _ _ | OIgnored => true | _ => false end) os).
Definition busy (limit : Z) (p : Z * Z) : Prop := (limit + 5) * snd p <= fst p * 10 ^ 9.
Definition room (limit a : Z) : Z := if a =? 0 then 0 else Z.max 0 (limit - a).
Lemma verdicts_cons o os : verdicts (o :: os) = (match o with OVerdict _ _ => 1 | _ => 0 end) + verdicts os.
Proof. unfold verdicts, zlen. cbn [filter]. destruct o; cbn [List.length]; lia. Qed.
Lemma busy_sees limit q os q' : 0 <= limit -> sees_all limit q os q' -> 0 <= average q -> 0 <= pending q ->
  (forall n, In (ORead n) os -> 0 <= n) ->
  (forall c d now, due q = Some (c, d, now) -> (limit + 5) * d <= c * 10 ^ 9 /\ 0 < d) ->
  Forall (busy limit) (intervals (counted_from q) os) -> (forall r, ~ In (OVerdict r true) os) -> verdicts os <= room limit (average q).
Proof.
  intros LP. assert (RN : forall a, 0 <= room limit a) by (intros a; unfold room; destruct (a =? 0); lia).
  induction 1 as [|q o q1 os q2 S _ IH]; intros AV PE RE DU Q NT; [exact (RN _)|]. rewrite verdicts_cons.
  assert (NT' : forall r, ~ In (OVerdict r true) os) by (intros r J; apply (NT r); right; exact J).
  assert (RE' : forall n, In (ORead n) os -> 0 <= n) by (intros n J; apply RE; right; exact J).
  destruct S as [q n|q now P D|q c d now new D W|q n d P _ _|q P|q P|q now P D]; cbn [intervals] in Q.
  - assert (N0 : 0 <= n) by (apply RE; left; reflexivity). specialize (IH AV ltac:(cbn; lia) RE' DU Q NT'). exact IH.
  - inversion Q as [|? ? Q1 Q2]; subst. assert (CF : counted_from q = since q) by (unfold counted_from; rewrite D; reflexivity). rewrite CF in *.
    unfold busy in Q1. cbn [fst snd] in Q1.
    exact (IH AV ltac:(cbn; lia) RE' ltac:(cbn [due]; intros c d n0 E; injection E as <- <- <-; split; [exact Q1|lia]) Q2 NT').
  - destruct (DU c d now D) as [Q1 DP]. unfold counted_from in Q. rewrite D in Q.
    assert (NL : new <= limit). { destruct (Z.ltb_spec limit new) as [Y|Y]; [|exact Y]. exfalso. apply (NT new). left. reflexivity. }
    assert (G : average q <> 0 /\ average q + 1 <= new).
    { unfold weighted in W. destruct (Z.eqb_spec (average q) 0) as [Y|Y]; [exfalso; nia|]. split; [exact Y|]. nia. }
    assert (N0 : 0 <= new) by lia.
    specialize (IH N0 PE RE' ltac:(discriminate) Q NT'). cbn [average] in IH. unfold room in *. destruct (Z.eqb_spec new 0); [lia|]. destruct (Z.eqb_spec (average q) 0); lia.
  - exact (IH AV PE RE' DU Q NT').
  - exact (IH AV PE RE' DU Q NT').
  - exact (IH AV ltac:(cbn; lia) RE' DU Q NT').
  - unfold counted_from in IH. cbn [due since average] in IH. rewrite D in IH. specialize (IH ltac:(lia) PE RE' ltac:(discriminate) Q NT').
    unfold room in IH. cbn [Z.eqb] in IH. specialize (RN (average q)). lia.
Qed.
Lemma sees_split limit os1 : forall q os2 q', sees_all limit q (os1 ++ os2) q' -> exists q1, sees_all limit q os1 q1 /\ sees_all limit q1 os2 q'.
Proof.
  induction os1 as [|o os1 IH]; intros q os2 q' S; [exists q; split; [constructor|exact S]|]. cbn [app] in S. inversion S as [|? ? q1 ? ? S1 S2]; subst.
  destruct (IH _ _ _ S2) as (q2 & A & B). exists q2. split; [eapply SA_cons; eassumption|exact B].
Qed.
Lemma due_positive limit q os q' : sees_all limit q os q' -> 0 <= average q -> 0 <= pending q -> (forall n, In (ORead n) os -> 0 <= n) ->
  (forall c d now, due q = Some (c, d, now) -> 0 <= c /\ 0 < d) -> 0 <= average q' /\ 0 <= pending q' /\ (forall c d now, due q' = Some (c, d, now) -> 0 <= c /\ 0 < d).
Proof.
  induction 1 as [|q o q1 os q2 S _ IH]; intros AV PE RE DU; [auto|].
  assert (RE' : forall n, In (ORead n) os -> 0 <= n) by (intros n J; apply RE; right; exact J).
  destruct S as [q n|q now P D|q c d now new D W|q n d P _ _|q P|q P|q now P D]; apply IH; cbn; auto; try lia.
  - assert (0 <= n) by (apply RE; left; reflexivity). lia.
  - intros c d n0 E. injection E as <- <- <-. split; [exact PE|]. lia.
  - destruct (DU c d now D) as [C0 D0]. exact (weighted_nonneg _ _ _ _ D0 AV C0 W).
  - discriminate.
Qed.
Definition begun (t0 : Z) (os : list obs) : Z :=
  fold_left (fun last o => match o with OMeasure _ now => now | OReset now => now | _ => last end) os t0.
Lemma counted_begun limit q os q' : sees_all limit q os q' -> counted_from q' = begun (counted_from q) os.
Proof.
  unfold begun. induction 1 as [|q o q1 os q2 S _ IH]; [reflexivity|]. cbn [fold_left]. rewrite IH. f_equal. unfold counted_from.
  destruct S as [q n|q now P D|q c d now new D W|q n d P _ _|q P|q P|q now P D]; cbn; try rewrite D; reflexivity.
Qed.
Lemma run_reads limit old acts : forall s, Forall sane acts -> forall n, In (ORead n) (snd (run limit old s acts)) -> 0 <= n.
Proof.
  induction acts as [|a r IH]; intros s SA n J; [destruct J|]. inversion SA as [|? ? S1 S2]; subst. cbn [run] in J. destruct (step limit old s a) as [[s' os]|] eqn:E; [|exact (IH _ S2 _ J)].
  specialize (IH s' S2 n). destruct (run limit old s' r) as [s2 o2]. cbn [snd] in *. apply in_app_or in J. destruct J as [J|J]; [|exact (IH J)]. clear - S1 E J.
  destruct a as [m| |x|now|ok|now|]; cbn [step] in E; [|exfalso..].
  - destruct (reader s); try discriminate. injection E as <- <-. destruct J as [J|[]]. injection J as ->. exact S1.
  - destruct (reader s); try discriminate. destruct (isOpen s); injection E as <- <-; destruct J.
  - destruct (reader s); try discriminate. destruct old; [injection E as <- <-; destruct J as [J|[]]; discriminate|]. injection E as E. unfold openSocket in E.
    destruct x; repeat (match type of E with (if ?b then _ else _) = _ => destruct b end); injection E as <- <-; try (destruct J as [J|[]]; discriminate); destruct J.
  - destruct (reader s); try discriminate; injection E as <- <-; try (destruct J as [J|[]]; discriminate); destruct J.
  - destruct (reader s); try discriminate. injection E as <- <-. destruct J.
  - destruct (reader s), (ticker s); try discriminate; injection E as <- <-; destruct J.
  - destruct (reader s), (ticker s); try discriminate; injection E as <- <-; try (destruct J as [J|[]]; discriminate); destruct J.
Qed.

(** C65: [before] is what was seen first; then come more than [max 1 limit] verdicts, all measurements showing at least 5 messages per second
    above the limit: the limit trips among them. *)
Theorem C65_sustained_excess : forall (limit : Z) (old : bool) (t0 : Z) (acts : list act) (before after : list obs),
  0 <= limit -> Forall sane acts -> snd (run limit old (start t0) acts) = before ++ after ->
  Forall (fun p => (limit + 5) * snd p <= fst p * 10 ^ 9) (intervals (begun t0 before) after) ->
  Z.max 1 limit < verdicts after -> exists rate, In (OVerdict rate true) after.
Proof.
  intros limit old t0 acts before after LP SA E B V. destruct (C65_limiter limit old t0 acts LP SA) as (q & S).
  assert (RE := run_reads limit old acts (start t0) SA). rewrite E in S, RE.
  destruct (sees_split _ _ _ _ _ S) as (q1 & S1 & S2). destruct (due_positive _ _ _ _ S1) as (A1 & A2 & A3); [cbn; lia|cbn; lia|intros n J; apply RE; apply in_or_app; left; exact J|discriminate|].
  assert (CF := counted_begun _ _ _ _ S1). change (counted_from (first_view t0)) with t0 in CF. rewrite <- CF in B. clear CF S1 S E.
  assert (RE2 : forall n, In (ORead n) after -> 0 <= n) by (intros n J; apply RE; apply in_or_app; right; exact J). clear RE.
  destruct (existsb (fun o => match o with OVerdict _ b => b | _ => false end) after) eqn:X.
  { apply existsb_exists in X. destruct X as (o & J & O). destruct o as [|?|r b| | | | |]; try discriminate. subst b. exists r. exact J. }
  exfalso. assert (NT : forall r, ~ In (OVerdict r true) after).
  { intros r J. assert (Y : existsb (fun o => match o with OVerdict _ b => b | _ => false end) after = true) by (apply existsb_exists; eexists; split; [exact J|reflexivity]). congruence. }
  clear X. (* the first verdict may be about an earlier measurement *)
  revert V. cut (verdicts after <= Z.max 1 limit); [lia|].
  clear - LP S2 A1 A2 A3 RE2 B NT. induction S2 as [|q o q1 os q2 S S2 IH]; [unfold verdicts; cbn; lia|].
  assert (NT' : forall r, ~ In (OVerdict r true) os) by (intros r J; apply (NT r); right; exact J).
  assert (RE' : forall n, In (ORead n) os -> 0 <= n) by (intros n J; apply RE2; right; exact J).
  rewrite verdicts_cons. destruct S as [q n|q now P D|q c d now new D W|q n d P _ _|q P|q P|q now P D]; cbn [intervals] in B.
  - assert (0 <= n) by (apply RE2; left; reflexivity). apply IH; cbn; auto; lia.
  - inversion B as [|? ? B1 B2]; subst. assert (CF : counted_from q = since q) by (unfold counted_from; rewrite D; reflexivity). rewrite CF in *. cbn [fst snd] in B1.
    assert (K := busy_sees _ _ _ _ LP S2 A1 ltac:(cbn; lia) RE' ltac:(cbn [due]; intros c d n0 E; injection E as <- <- <-; split; [exact B1|lia]) B2 NT').
    cbn [average] in K. unfold room in K. destruct (average q =? 0) eqn:AZ; lia.
  - destruct (A3 c d now D) as [C0 D0]. assert (N0 := weighted_nonneg _ _ _ _ D0 A1 C0 W). unfold counted_from in B. rewrite D in B.
    assert (K := busy_sees _ _ _ _ LP S2 N0 A2 RE' ltac:(discriminate) B NT'). cbn [average] in K. unfold room in K.
    assert (NL : new <= limit). { destruct (Z.ltb_spec limit new) as [Y|Y]; [|exact Y]. exfalso. apply (NT new). left. reflexivity. }
    destruct (new =? 0) eqn:AZ; lia.
  - apply IH; auto.
  - apply IH; auto.
  - apply IH; cbn; auto; lia.
  - unfold counted_from in IH. cbn [due since average pending] in IH. rewrite D in IH. apply IH; auto; [lia|discriminate].
Qed.
Print Assumptions C65_sustained_excess.

(** C65, finding: four messages per second too many are never noticed, however long it goes on: the average is cut to a whole number
    each time. *)
Definition period (n t : Z) : list act := [ARead n; ACheck; ATick t; AUpdate; AUpdate; AUpdate; AUpdate; AUpdate; AUpdate].
Fixpoint periods (k : nat) (n t : Z) : list act :=
  match k with O => [] | S k' => period n t ++ periods k' n (t + 3 * 10 ^ 9) end.
Definition settled (limit t : Z) : st :=
  {| eventCount := 0; eventRate := limit; lastUpdate := t; isOpen := false; sampNum := 1; sampDen := 1; samplingPct := 100;
     throttles := 0; reader := RIdle; ticker := UIdle |}.
Lemma period_settled limit n t : 0 < limit -> limit * 3 <= n <= (limit + 4) * 3 ->
  run limit false (settled limit t) (period n (t + 3 * 10 ^ 9)) =
    (settled limit (t + 3 * 10 ^ 9), [ORead n; OMeasure n (t + 3 * 10 ^ 9); OVerdict limit false]).
Proof.
  intros LP N. unfold period, settled. cbv beta iota zeta delta [run step reader isOpen ticker upd eventCount eventRate lastUpdate app sampNum sampDen samplingPct throttles].
  assert (E : elapsed (t + 3 * 10 ^ 9) t = 3 * 10 ^ 9) by (rewrite elapsed_max; lia). rewrite E.
  assert (R : newEventRate limit (0 + n) (3 * 10 ^ 9) = limit).
  { unfold newEventRate, second. destruct (Z.eqb_spec limit 0); [lia|]. symmetry. apply (Z.div_unique _ _ _ (2 * (0 + n) * 10 ^ 9 + 8 * limit * (3 * 10 ^ 9) - 10 * (3 * 10 ^ 9) * limit)); lia. }
  rewrite R. unfold maxEventsPerSec. destruct (Z.eqb_spec limit (-1)); [lia|]. rewrite Z.ltb_irrefl. rewrite Z.add_0_l. reflexivity.
Qed.
Theorem C65_slight_excess_refuted : forall limit : Z, 0 < limit -> forall k : nat,
  let os := snd (run limit false (start 0) (period (limit * 3) (3 * 10 ^ 9) ++ periods k ((limit + 4) * 3) (6 * 10 ^ 9))) in
  verdicts os = Z.of_nat k + 1 /\ trips os = 0 /\
  Forall (fun p => p = (limit * 3, 3 * 10 ^ 9) \/ p = ((limit + 4) * 3, 3 * 10 ^ 9)) (intervals 0 os).
Proof.
  intros limit LP k os.
  assert (P : forall k t, exists s os, run limit false (settled limit t) (periods k ((limit + 4) * 3) (t + 3 * 10 ^ 9)) = (s, os) /\
    verdicts os = Z.of_nat k /\ trips os = 0 /\ Forall (fun p => p = (limit * 3, 3 * 10 ^ 9) \/ p = ((limit + 4) * 3, 3 * 10 ^ 9)) (intervals t os)).
  { clear k os. induction k as [|k IH]; intros t.
    - exists (settled limit t), []. split; [reflexivity|]. split; [reflexivity|]. split; [reflexivity|constructor].
    - cbn [periods]. rewrite run_app, (period_settled limit _ t LP) by lia. destruct (IH (t + 3 * 10 ^ 9)) as (s & os & R & V & T & F). rewrite R.
      eexists _, _. split; [reflexivity|]. split; [|split].
      + rewrite <- app_comm_cons, verdicts_cons. cbn [app]. rewrite !verdicts_cons, V. lia.
      + unfold trips in *. cbn [app filter]. exact T.
      + cbn [app intervals]. constructor; [right; f_equal; lia|exact F]. }
  unfold os. rewrite run_app.
  assert (R0 : run limit false (start 0) (period (limit * 3) (3 * 10 ^ 9)) = (settled limit (3 * 10 ^ 9), [ORead (limit * 3); OMeasure (limit * 3) (3 * 10 ^ 9); OVerdict limit false])).
  { unfold period, start, settled. cbv beta iota zeta delta [run step reader isOpen ticker upd eventCount eventRate lastUpdate app sampNum sampDen samplingPct throttles].
    assert (E : elapsed (3 * 10 ^ 9) 0 = 3 * 10 ^ 9) by (rewrite elapsed_max; lia). rewrite E.
    assert (R : newEventRate 0 (0 + limit * 3) (3 * 10 ^ 9) = limit).
    { unfold newEventRate, second. cbn [Z.eqb]. symmetry. apply (Z.div_unique _ _ _ 0); lia. }
    rewrite R. unfold maxEventsPerSec. destruct (Z.eqb_spec limit (-1)); [lia|]. rewrite Z.ltb_irrefl, Z.add_0_l. reflexivity. }
  rewrite R0. destruct (P k (3 * 10 ^ 9)) as (s & o2 & R & V & T & F). change (6 * 10 ^ 9) with (3 * 10 ^ 9 + 3 * 10 ^ 9). rewrite R. cbn [snd].
  split; [|split].
  - cbn [app]. rewrite !verdicts_cons, V. lia.
  - unfold trips in *. cbn [app filter]. exact T.
  - cbn [app intervals]. constructor; [left; f_equal; lia|exact F].
Qed.
Print Assumptions C65_slight_excess_refuted.

(** *** What throttling does *)
Definition throttled (os : list obs) : nat := List.length (filter (fun o => match o with OThrottle _ _ _ => true | _ => false end) os).
Definition share_ok (limit : Z) (q : view) (k : nat) : Prop :=
  (ph q = Tripped -> limit < average q) /\ 0 <= num q /\ 0 < den q /\ num q * 100 ^ Z.of_nat k <= 95 ^ Z.of_nat k * den q.
Lemma share_sees limit q os q' : 0 <= limit -> sees_all limit q os q' -> forall k, share_ok limit q k -> share_ok limit q' (k + throttled os).
Proof.
  intros LP. induction 1 as [|q o q1 os q2 S _ IH]; intros k H.
  - replace (k + throttled [])%nat with k by (unfold throttled; cbn; lia). exact H.
  - assert (TC : throttled (o :: os) = ((match o with OThrottle _ _ _ => 1 | _ => 0 end) + throttled os)%nat) by (unfold throttled; destruct o; reflexivity).
    rewrite TC. destruct H as (HT & HN & HD & HS).
    destruct S as [q n|q now P D|q c d now new D W|q n d P DP EQ|q P|q P|q now P D]; rewrite ?Nat.add_0_l.
    1,2: apply IH; unfold share_ok; cbn; auto.
    + apply IH. unfold share_ok. cbn. split; [|auto]. destruct (Z.ltb_spec limit new); [auto|discriminate].
    + specialize (HT P). rewrite Nat.add_assoc. apply IH. unfold share_ok. cbn [ph average num den].
      assert (N0 : 0 <= n). { assert (0 <= limit * num q * 95 * d) by nia. assert (0 < average q * den q * 100) by nia. nia. }
      split; [discriminate|]. split; [exact N0|]. split; [exact DP|].
      replace (Z.of_nat (k + 1)) with (Z.of_nat k + 1) by lia. rewrite !Z.pow_add_r by lia. rewrite !Z.pow_1_r.
      (* n/d = limit/average * num/den * 95/100 <= 95/100 * num/den *)
      assert (Q1 : n * (den q * 100) <= num q * 95 * d).
      { assert (AP : 0 < average q) by lia. assert (X : n * (den q * 100) * average q <= num q * 95 * d * average q).
        { replace (n * (den q * 100) * average q) with (n * (average q * den q * 100)) by ring. rewrite EQ. assert (0 <= num q * 95 * d) by nia. nia. }
        nia. }
      set (A := 100 ^ Z.of_nat k) in *. set (B := 95 ^ Z.of_nat k) in *.
      assert (AP : 0 < A) by (unfold A; apply Z.pow_pos_nonneg; lia). assert (BP : 0 < B) by (unfold B; apply Z.pow_pos_nonneg; lia).
      assert (X : n * (A * 100) * den q <= B * 95 * d * den q).
      { replace (n * (A * 100) * den q) with (n * (den q * 100) * A) by ring. assert (n * (den q * 100) * A <= num q * 95 * d * A) by nia.
        replace (num q * 95 * d * A) with (num q * A * (95 * d)) in * by ring. assert (num q * A * (95 * d) <= B * den q * (95 * d)) by nia. nia. }
      nia.
    + apply IH. unfold share_ok. cbn. split; [discriminate|auto].
    + apply IH. unfold share_ok. cbn. split; [discriminate|auto].
    + apply IH. unfold share_ok. cbn. split; [discriminate|auto].
Qed.
(** C65: the stream is throttled only when the average is above the limit, and the k-th time the share of messages let through is at
    most 0.95^k. *)
Theorem C65_share_shrinks : forall (limit : Z) (old : bool) (t0 : Z) (acts : list act) (before after : list obs) (rate n d : Z),
  0 <= limit -> Forall sane acts ->
  snd (run limit old (start t0) acts) = before ++ OThrottle rate n d :: after ->
  limit < rate /\ 0 <= n /\ 0 < d /\ n * 100 ^ Z.of_nat (S (throttled before)) <= 95 ^ Z.of_nat (S (throttled before)) * d.
Proof.
  intros limit old t0 acts before after rate n d LP SA E. destruct (C65_limiter limit old t0 acts LP SA) as (q & S). rewrite E in S.
  destruct (sees_split _ _ _ _ _ S) as (q1 & S1 & S2). inversion S2 as [|? ? q2 ? ? S3 _]; subst.
  assert (H0 : share_ok limit (first_view t0) 0) by (unfold share_ok, first_view; cbn; split; [discriminate|lia]).
  assert (H1 := share_sees _ _ _ _ LP S1 _ H0). assert (S4 : sees_all limit q1 [OThrottle rate n d] q2) by (eapply SA_cons; [exact S3|constructor]).
  assert (H2 := share_sees _ _ _ _ LP S4 _ H1). inversion S3; subst. destruct H1 as (T & _). specialize (T ltac:(assumption)). destruct H2 as (_ & A & B & C).
  cbn [num den] in *. split; [exact T|]. split; [exact A|]. split; [exact B|].
  replace (throttled [OThrottle (average q1) n d]) with 1%nat in C by reflexivity. replace (0 + throttled before + 1)%nat with (Datatypes.S (throttled before)) in C by lia. exact C.
Qed.
Print Assumptions C65_share_shrinks.

(** C65: each trip is answered at most once. *)
Lemma answers_sees limit q os q' : sees_all limit q os q' -> answers os + (if match ph q' with Tripped => true | _ => false end then 1 else 0) <= trips os + (if match ph q with Tripped => true | _ => false end then 1 else 0).
Proof.
  induction 1 as [|q o q1 os q2 S _ IH]; [unfold answers, trips; cbn; lia|]. unfold answers, trips, zlen in *.
  destruct S as [q n|q now P D|q c d now new D W|q n d P DP EQ|q P|q P|q now P D]; cbn [filter]; cbn [ph] in IH.
  - exact IH.
  - exact IH.
  - destruct (limit <? new); cbn [List.length]; destruct (ph q); lia.
  - rewrite P. cbn [List.length]. lia.
  - rewrite P. cbn [List.length]. lia.
  - rewrite P. exact IH.
  - rewrite P. exact IH.
Qed.
Theorem C65_one_answer_per_trip : forall (limit : Z) (old : bool) (t0 : Z) (acts : list act),
  0 <= limit -> Forall sane acts ->
  answers (snd (run limit old (start t0) acts)) <= trips (snd (run limit old (start t0) acts)).
Proof.
  intros limit old t0 acts LP SA. destruct (C65_limiter limit old t0 acts LP SA) as (q & S). assert (H := answers_sees _ _ _ _ S). cbn [first_view ph] in H.
  destruct (ph q); lia.
Qed.
Print Assumptions C65_one_answer_per_trip.

(** C65: as long as the stream goes on, the tracker says that it is sampling exactly when it has been throttled. *)
Definition pct_ok (s : st) (os : list obs) : Prop :=
  reader s = REnded \/
  (samplingPct s = sampNum s * 100 / sampDen s /\ 0 < sampDen s /\ sampNum s <= sampDen s /\ 0 <= sampNum s /\ (throttled os = 0%nat <-> sampNum s = sampDen s)).
Lemma pct_step limit old s q a s' os os0 : 0 <= limit -> Inv limit s q -> pct_ok s os0 -> step limit old s a = Some (s', os) -> pct_ok s' (os0 ++ os).
Proof.
  intros LP I H E. destruct I as (_ & _ & _ & _ & IO).
  assert (TA : forall a b, throttled (a ++ b) = (throttled a + throttled b)%nat) by (intros; unfold throttled; rewrite filter_app, app_length; reflexivity).
  assert (same : forall s', samplingPct s' = samplingPct s -> sampNum s' = sampNum s -> sampDen s' = sampDen s -> throttled os = 0%nat -> reader s <> REnded -> pct_ok s' (os0 ++ os)).
  { intros s2 A B C D NE. destruct H as [H|H]; [contradiction|]. right. rewrite A, B, C, TA, D, Nat.add_0_r. exact H. }
  destruct a as [n| |x|now|ok|now|]; cbn [step] in E.
  - destruct (reader s) eqn:RD; try discriminate. injection E as <- <-. apply same; try reflexivity. discriminate.
  - destruct (reader s) eqn:RD; try discriminate. destruct (isOpen s); injection E as <- <-; (apply same; try reflexivity; discriminate).
  - destruct (reader s) eqn:RD; try discriminate. destruct old; [injection E as <- <-; apply same; try reflexivity; discriminate|].
    destruct (isOpen s) eqn:O; [|destruct IO as (_ & _ & [X|[X|[X|X]]]); congruence]. destruct IO as (_ & _ & _ & _ & GT). injection E as E. unfold openSocket in E.
    destruct H as [H|(HP & DP & ND & NN & HT)]; [congruence|].
    set (nm := limit * sampNum s * 95) in *. set (dn := eventRate s * sampDen s * 100) in *.
    assert (DP' : 0 < dn) by (unfold dn; nia). assert (NN' : 0 <= nm) by (unfold nm; nia).
    assert (LT : nm < dn). { unfold nm, dn. assert (limit * sampNum s <= limit * sampDen s) by nia. assert (limit * sampDen s < eventRate s * sampDen s) by nia. nia. }
    destruct (Z.leb_spec dn nm) as [Q|_]; [lia|]. destruct (Z.ltb_spec nm 0) as [Q|_]; [lia|].
    destruct x; injection E as <- <-; [|left; reflexivity..]. right. cbn [samplingPct sampNum sampDen]. split; [reflexivity|]. split; [lia|]. split; [lia|]. split; [lia|].
    rewrite TA. change (throttled [OThrottle (eventRate s) nm dn]) with 1%nat. split; intros; lia.
  - destruct (reader s) eqn:RD; try discriminate; injection E as <- <-; (apply same; try reflexivity; discriminate).
  - destruct (reader s) eqn:RD; try discriminate. injection E as <- <-. destruct ok; [apply same; try reflexivity; discriminate|left; reflexivity].
  - destruct (reader s) eqn:RD; destruct (ticker s); try discriminate; injection E as <- <-; try (apply same; try reflexivity; discriminate). left. reflexivity.
  - destruct (reader s) eqn:RD; destruct (ticker s); try discriminate; injection E as <- <-; first [apply same; solve [reflexivity|discriminate]|left; reflexivity].
Qed.
Lemma pct_run limit old acts : 0 <= limit -> Forall sane acts -> forall s q os0, Inv limit s q -> pct_ok s os0 ->
  pct_ok (fst (run limit old s acts)) (os0 ++ snd (run limit old s acts)).
Proof.
  intros LP. induction 1 as [|a r SA _ IH]; intros s q os0 I H; cbn [run]; [cbn [fst snd]; rewrite app_nil_r; exact H|].
  destruct (step limit old s a) as [[s' os]|] eqn:E; [|exact (IH s q os0 I H)].
  destruct (step_Inv limit old LP s q a s' os SA I E) as (q1 & _ & I1). assert (H1 := pct_step _ _ _ _ _ _ _ _ LP I H E). specialize (IH s' q1 _ I1 H1).
  destruct (run limit old s' r) as [s2 o2]. cbn [fst snd] in *. rewrite app_assoc. exact IH.
Qed.
Theorem C65_says_when_sampling : forall (limit : Z) (old : bool) (t0 : Z) (acts : list act),
  0 <= limit -> Forall sane acts ->
  let '(s, os) := run limit old (start t0) acts in
  reader s <> REnded ->
  (isSampling s = true <-> exists rate n d, In (OThrottle rate n d) os).
Proof.
  intros limit old t0 acts LP SA.
  assert (P0 : pct_ok (start t0) []) by (right; cbn; repeat split; lia || auto).
  assert (H := pct_run limit old acts LP SA (start t0) (first_view t0) [] (start_Inv limit t0) P0). destruct (run limit old (start t0) acts) as [s os]. cbn [fst snd app] in H.
  intros NE. destruct H as [H|(HP & DP & ND & NN & HT)]; [contradiction|].
  assert (TI : throttled os <> 0%nat <-> exists rate n d, In (OThrottle rate n d) os).
  { unfold throttled. split.
    - intros N. destruct (filter _ os) as [|o r] eqn:F; [cbn in N; lia|]. assert (J : In o (o :: r)) by (left; reflexivity). rewrite <- F in J. apply filter_In in J.
      destruct J as [J O]. destruct o as [| | |rate n d| | | |]; try discriminate. eauto.
    - intros (rate & n & d & J) Z0. destruct (filter _ os) as [|o r] eqn:F; [|discriminate]. assert (K : In (OThrottle rate n d) []) by (rewrite <- F; apply filter_In; auto). destruct K. }
  rewrite <- TI. unfold isSampling. rewrite HP. split.
  - intros L Z0. apply HT in Z0. rewrite Z0 in L. rewrite Z.mul_comm, Z.div_mul in L by lia. discriminate.
  - intros N. assert (sampNum s < sampDen s) by (destruct (Z.eq_dec (sampNum s) (sampDen s)); [exfalso; apply N; apply HT; assumption|lia]).
    assert (sampNum s * 100 / sampDen s < 100) by (apply Z.div_lt_upper_bound; lia). lia.
Qed.
Print Assumptions C65_says_when_sampling.

(** C65: the filter takes a message or drops it, and takes it for as many of the kernel's 2^32 random numbers as the share says. *)
Theorem C65_sampler : forall n d : Z, 0 <= n <= d -> 0 < d ->
  exists prog, GenerateBPFSampler n d = Some prog /\
    forall rand, 0 <= rand < 2 ^ 32 ->
      (captured prog rand = Some 4096 \/ captured prog rand = Some 0) /\
      (captured prog rand = Some 4096 <-> (rand + 1) * d <= 2 ^ 32 * n).
Proof.
  intros n d N D. unfold GenerateBPFSampler. destruct (Z.ltb_spec n 0); [lia|]. destruct (Z.ltb_spec d n); [lia|]. cbn [orb].
  eexists. split; [reflexivity|]. intros rand R. unfold captured. cbn [List.length exec].
  assert (Q : rand <? 2 ^ 32 * n / d = true <-> (rand + 1) * d <= 2 ^ 32 * n).
  { rewrite Z.ltb_lt. split.
    - intros L. assert (X := Z.mul_div_le (2 ^ 32 * n) d D). nia.
    - intros L. assert (rand + 1 <= 2 ^ 32 * n / d) by (apply Z.div_le_lower_bound; lia). lia. }
  destruct (rand <? 2 ^ 32 * n / d).
  - change (skipn (Z.to_nat 0) [Ret 4096; Ret 0]) with [Ret 4096; Ret 0]. cbn [exec]. split; [auto|]. rewrite <- Q. split; reflexivity.
  - change (skipn (Z.to_nat 1) [Ret 4096; Ret 0]) with [Ret 0]. cbn [exec]. split; [auto|]. rewrite <- Q. split; discriminate.
Qed.
Print Assumptions C65_sampler.

(** C65, finding: any other negative limit than -1 ends in a panic at the first batch after the first tick, even an empty one. *)
Theorem C65_negative_limit_refuted : forall limit t0 now : Z, limit < -1 ->
  In OPanic (snd (run limit false (start t0) [ATick now; AUpdate; AUpdate; AUpdate; AUpdate; AUpdate; AUpdate; ARead 0; ACheck; AOpen Opened])).
Proof.
  intros limit t0 now L.
  cbv beta iota zeta delta [run step reader isOpen ticker upd eventCount eventRate lastUpdate app sampNum sampDen samplingPct throttles start snd].
  assert (D : 0 < elapsed now t0) by (rewrite elapsed_max; lia).
  assert (R : newEventRate 0 0 (elapsed now t0) = 0) by (unfold newEventRate; cbn [Z.eqb]; apply Z.div_small; lia). rewrite R.
  unfold maxEventsPerSec. destruct (Z.eqb_spec limit (-1)); [lia|]. destruct (Z.ltb_spec limit 0); [|lia]. unfold openSocket. cbn [sampNum sampDen eventRate].
  destruct (Z.leb_spec (0 * 1 * 100) (limit * 1 * 95)); [lia|]. destruct (Z.ltb_spec (limit * 1 * 95) 0); [|lia]. cbn. auto.
Qed.
Print Assumptions C65_negative_limit_refuted.

(** 6000 messages in three seconds against a limit of 500: the average is 2000, the breaker trips, and the new socket lets through
    500/2000 * 0.95 = 23 per cent.  A tick meets the breaker open, a tick after the reset finds nothing to complain about. *)
Definition exActs : list act :=
  period 6000 (3 * 10 ^ 9) ++ [ARead 10; ACheck; ATick (6 * 10 ^ 9); AOpen Opened; AReset 0; AReset 0; AReset (7 * 10 ^ 9); AReset 0; AJoin true]
    ++ period 300 (9 * 10 ^ 9).
Example C65_example :
  Forall sane exActs /\
  snd (run 500 false (start 0) exActs) =
    [ORead 6000; OMeasure 6000 (3 * 10 ^ 9); OVerdict 2000 true; ORead 10; OThrottle 2000 47500 200000; OClear; OReset (7 * 10 ^ 9);
     ORead 300; OMeasure 300 (9 * 10 ^ 9); OVerdict 150 false] /\
  samplingPct (fst (run 500 false (start 0) exActs)) = 23 /\ isSampling (fst (run 500 false (start 0) exActs)) = true /\
  throttles (fst (run 500 false (start 0) exActs)) = 1 /\ reader (fst (run 500 false (start 0) exActs)) = RIdle.
Proof.
  split; [unfold exActs, period; cbn [app]; repeat constructor; cbn; lia|]. vm_compute. auto 10.
Qed.
