(** C57 the sampling of slow traces, C58 the pairing of Java trace events. *)
From Verif Require Import Base Decimal AttrModel PoolModel LabelNames EnrichModel CpuSpec CpuWorld TriggerModel TriggerSpec.
From Coq Require Import ZifyBool.
Open Scope string_scope. Open Scope list_scope. Open Scope Z_scope.

(** * C57 *)
Record sworld (h : list sop) (s : samp) : Prop := {
  sw_on : sp_on s = profiling (rev h);
  sw_apm : forall pid, existsb (Z.eqb (w64 pid)) (sp_apm s) = apmSeen pid (rev h);
  sw_map : forall k, aget (sp_map s) k = firstSince k (rev h);
  sw_keys : NoDup (keys (sp_map s)) }.
Lemma load_get m k g k' : aget (loadOrStore m k g) k' = match aget m k' with Some x => Some x | None => if eqb k k' then Some g else None end.
Proof.
  unfold loadOrStore. destruct (aget m k) as [x|] eqn:E.
  - destruct (aget m k') as [y|] eqn:E'; [reflexivity|]. case_eqb k k'; [subst; congruence|reflexivity].
  - rewrite aget_aset, (eqb_sym k' k). case_eqb k k'; [subst; rewrite E; reflexivity|]. destruct (aget m k'); reflexivity.
Qed.
Lemma load_keys m k g : NoDup (keys m) -> NoDup (keys (loadOrStore m k g)).
Proof. intros N. unfold loadOrStore. destruct (aget m k); [exact N|]. apply NoDup_keys_aset. exact N. Qed.
Lemma off_empty : forall rh, profiling rh = false -> (forall k, firstSince k rh = None) /\ forall pid, apmSeen pid rh = false.
Proof.
  induction rh as [|o r IH]; intros P; [split; reflexivity|]. destruct o; cbn [profiling] in P; cbn [firstSince apmSeen]; try (split; reflexivity); try discriminate P.
  - destruct (IH P) as [A B]. split; intros x; rewrite ?A, ?B; [|rewrite P, andb_false_r; reflexivity]. unfold qualifies. rewrite P. reflexivity.
  - destruct (IH P) as [A B]. split; [reflexivity|exact B].
Qed.
Lemma srun_world h : sworld h (srun h).
Proof.
  induction h as [|o h IH] using rev_ind; [split; try reflexivity; constructor|].
  unfold srun in *. rewrite fold_left_app. cbn [fold_left]. set (s := fold_left sstep h samp0) in *. destruct IH as [On A M K].
  destruct o; cbn [sstep].
  - split; rewrite ?rev_app_distr; try reflexivity. constructor.
  - split; rewrite ?rev_app_distr; try reflexivity. constructor.
  - assert (Q : forall k, firstSince k (rev (h ++ [TSignal g])) = match aget (sp_map s) k with Some x => Some x | None => if qualifies (rev h) g && eqb (sampleKey g) k then Some g else None end).
    { intros k. rewrite rev_app_distr. cbn [rev app firstSince]. rewrite M. reflexivity. }
    assert (P : profiling (rev (h ++ [TSignal g])) = sp_on s) by (rewrite rev_app_distr; cbn [rev app profiling]; congruence).
    assert (R : forall pid, apmSeen pid (rev (h ++ [TSignal g])) = (tApm g && (w64 (tPid g) =? w64 pid) && sp_on s) || existsb (Z.eqb (w64 pid)) (sp_apm s)).
    { intros pid. rewrite rev_app_distr. cbn [rev app apmSeen]. rewrite A, On. reflexivity. }
    unfold signal. unfold qualifies in Q. rewrite <- On in Q. specialize (A (tPid g)).
    fold (tPid g) (tApm g) (tSlow g) (tServer g). rewrite A. destruct (sp_on s) eqn:Es; cbn [andb] in *.
    2:{ cbn [fst]. split; [congruence| | |exact K].
        - intros pid. rewrite R, andb_false_r. reflexivity.
        - intros k. rewrite Q. destruct (aget (sp_map s) k); reflexivity. }
    assert (NC : forall k : bytes, match aget (sp_map s) k with Some x => Some x | None => None end = aget (sp_map s) k) by (intros k; destruct (aget (sp_map s) k); reflexivity).
    destruct (tApm g) eqn:Ea; cbn [andb orb] in *.
    + destruct (tSlow g); cbn [fst andb] in *.
      * split; cbn [sp_on sp_apm sp_map]; [congruence| | |apply load_keys; exact K].
        -- intros pid. rewrite R, andb_true_r. cbn [existsb]. rewrite Z.eqb_sym. reflexivity.
        -- intros k. rewrite Q, load_get. reflexivity.
      * split; cbn [sp_on sp_apm sp_map]; [congruence| | |exact K].
        -- intros pid. rewrite R, andb_true_r. cbn [existsb]. rewrite Z.eqb_sym. reflexivity.
        -- intros k. rewrite Q, NC. reflexivity.
    + destruct (tSlow g); cbn [fst andb] in *.
      * destruct (tServer g); cbn [fst andb] in *.
        -- destruct (apmSeen (tPid g) (rev h)); cbn [fst negb andb] in *.
           ++ split; [congruence| | |exact K]; [intros pid; rewrite R; reflexivity|]. intros k. rewrite Q, NC. reflexivity.
           ++ split; cbn [sp_on sp_apm sp_map]; [congruence| | |apply load_keys; exact K]; [intros pid; rewrite R; reflexivity|]. intros k. rewrite Q, load_get. reflexivity.
        -- split; [congruence| | |exact K]; [intros pid; rewrite R; reflexivity|]. intros k. rewrite Q, NC. reflexivity.
      * split; [congruence| | |exact K]; [intros pid; rewrite R; reflexivity|]. intros k. rewrite Q, NC. reflexivity.
  - unfold tick. destruct (sp_on s) eqn:Es.
    + split; cbn [sp_on sp_apm sp_map]; rewrite ?rev_app_distr; cbn [snd rev app profiling apmSeen firstSince sp_on sp_apm sp_map]; [congruence|exact A|reflexivity|constructor].
    + cbn [snd]. split; rewrite ?rev_app_distr; cbn [rev app profiling apmSeen firstSince]; [congruence|exact A| |exact K].
      intros k. rewrite M. apply off_empty. congruence.
Qed.

(** What is kept for the next tick, after any history: per sampling key, the first qualifying trace since the last tick. *)
Theorem C57_kept h key : aget (sp_map (srun h)) key = firstSince key (rev h).
Proof. apply (sw_map _ _ (srun_world h)). Qed.
Print Assumptions C57_kept.

Lemma triggers_in l : forall out, triggers l = Ok out ->
  (forall t, In t out <-> exists k g v, In (k, g) l /\ getMetric g RequestTotalTime = Some (MInt v) /\ t = trigOf g v) /\
  (forall f : group -> bytes, (forall k g, In (k, g) l -> f g = k) -> NoDup (map fst l) -> NoDup (map (fun t => f (tg_data t)) out)).
Proof.
  induction l as [|[k g] l IH]; intros out H; cbn [triggers snd] in H.
  - inversion H; subst. split; [intros t; split; [intros []|intros (a & b & c & [] & _)]|]. intros f _ _. constructor.
  - unfold triggerOf in H. destruct (getMetric g RequestTotalTime) as [[v|a b c d]|] eqn:E; cbn [bind] in H; try discriminate H;
      (destruct (triggers l) as [out'| |]; cbn [bind] in H; try discriminate H); inversion H; subst; clear H; destruct (IH _ eq_refl) as [A B].
    + split.
      * intros t. cbn [app In]. rewrite A. split.
        -- intros [<-|(k' & g' & v' & I & G & ->)]; [exists k, g, v; split; [left; reflexivity|]; split; [exact E|reflexivity]|exists k', g', v'; auto].
        -- intros (k' & g' & v' & [I|I] & G & ->); [left; inversion I; subst; assert (v' = v) by congruence; subst; reflexivity|right; exists k', g', v'; auto].
      * intros f F N. cbn [app map tg_data]. inversion N as [|? ? NI N']; subst. constructor; [|apply B; [intros k' g' I; apply F; right; exact I|exact N']].
        intros I. apply in_map_iff in I. destruct I as (t & Et & I). apply A in I. destruct I as (k' & g' & v' & I & G & ->). cbn [trigOf tg_data] in Et.
        rewrite (F k' g' (or_intror I)), (F k g (or_introl eq_refl)) in Et. subst k'. apply NI. apply (in_map fst) in I. exact I.
    + split.
      * intros t. cbn [app]. rewrite A. split; [intros (k' & g' & v' & I & G & ->); exists k', g', v'; split; [right; exact I|auto]|].
        intros (k' & g' & v' & [I|I] & G & ->); [inversion I; subst; congruence|exists k', g', v'; auto].
      * intros f F N. cbn [app]. inversion N; subst. apply B; [intros k' g' I; apply F; right; exact I|assumption].
Qed.
Lemma first_key key : forall rh g, firstSince key rh = Some g -> sampleKey g = key /\ In (TSignal g) rh.
Proof.
  induction rh as [|o r IH]; intros g H; cbn [firstSince] in H; [discriminate H|]. destruct o; try discriminate H.
  destruct (firstSince key r) as [x|] eqn:E.
  - inversion H; subst. destruct (IH _ eq_refl) as [A B]. split; [exact A|right; exact B].
  - destruct (qualifies r g0 && eqb (sampleKey g0) key) eqn:F; [|discriminate H]. inversion H; subst. apply andb_true_iff in F. destruct F as [_ F]. apply eqb_true in F.
    split; [exact F|left; reflexivity].
Qed.
(** A tick starts exactly the triggers of the traces kept that have a duration, one per sampling key, with the process, the start and the duration of the trace. *)
Theorem C57_tick h out s' : tick (srun h) = (Ok out, s') ->
  (forall t, In t out <-> exists key g v, firstSince key (rev h) = Some g /\ getMetric g RequestTotalTime = Some (MInt v) /\ t = trigOf g v) /\
  NoDup (map (fun t => sampleKey (tg_data t)) out) /\ forall key, firstSince key (rev (h ++ [TTick])) = None.
Proof.
  intros H. destruct (srun_world h) as [On A M K]. unfold tick in H. destruct (sp_on (srun h)) eqn:Es.
  - inversion H as [[T E]]. destruct (triggers_in _ _ T) as [X Y]. split; [|split].
    + intros t. rewrite X. split; intros (k & g & v & I & G & ->); exists k, g, v; (split; [|split; [exact G|reflexivity]]).
      * rewrite <- M. apply in_aget; [exact K|exact I].
      * rewrite <- M in I. apply aget_in. exact I.
    + apply Y; [|exact K]. intros k g I. apply in_aget in I; [|exact K]. rewrite M in I. apply first_key in I. apply I.
    + intros key. rewrite rev_app_distr. reflexivity.
  - inversion H; subst. split; [|split; [constructor|intros key; rewrite rev_app_distr; reflexivity]].
    intros t. split; [intros []|]. intros (k & g & v & I & _). rewrite (proj1 (off_empty (rev h) (eq_sym On))) in I. discriminate I.
Qed.
Print Assumptions C57_tick.

Lemma split_digits : forall p q a b : bytes, forallb isDigit p = true -> forallb isDigit q = true ->
  (forall c r, a = c :: r -> isDigit c = false) -> (forall c r, b = c :: r -> isDigit c = false) -> p ++ a = q ++ b -> p = q /\ a = b.
Proof.
  induction p as [|x p IH]; intros [|y q] a b P Q A B E; cbn [app forallb] in *; subst; try (split; reflexivity).
  - exfalso. apply andb_true_iff in Q. destruct Q as [Q _]. specialize (A y _ eq_refl). congruence.
  - exfalso. apply andb_true_iff in P. destruct P as [P _]. specialize (B x _ eq_refl). congruence.
  - apply andb_true_iff in P. apply andb_true_iff in Q. inversion E as [[E1 E2]]. destruct (IH q a b) as [I1 I2]; try tauto; try assumption. split; congruence.
Qed.
Lemma forallb_rev (f : Z -> bool) l : forallb f (rev l) = forallb f l.
Proof.
  induction l as [|a l IH]; [reflexivity|]. cbn [rev forallb]. rewrite forallb_app, IH. cbn [forallb]. rewrite andb_true_r. apply andb_comm.
Qed.
Lemma plain_key a b m n : endsPlain a -> endsPlain b -> a ++ formatInt m = b ++ formatInt n -> a = b /\ m = n.
Proof.
  intros (xa & ca & Ea & Da & Na) (xb & cb & Eb & Db & Nb) E.
  assert (F : forall z, exists sg dg, formatInt z = sg ++ dg /\ forallb isDigit dg = true /\ (sg = [] \/ sg = [45])).
  { intros z. unfold formatInt. destruct (z <? 0) eqn:L; [exists [45], (digits (- z))|exists [], (digits z)]; (split; [reflexivity|]); (split; [apply digits_all; lia|]); auto. }
  destruct (F m) as (sm & dm & Fm & Gm & Hm). destruct (F n) as (sn & dn & Fn & Gn & Hn). rewrite Fm, Fn in E. rewrite !app_assoc in E.
  apply (f_equal (@rev Z)) in E. rewrite !(rev_app_distr _ dm), !(rev_app_distr _ dn) in E.
  assert (X : forall x c s, s = [] \/ s = [45] -> isDigit c = false -> forall c' r, rev ((x ++ [c]) ++ s) = c' :: r -> isDigit c' = false).
  { intros x c s [-> | ->] D c' r R; [rewrite app_nil_r, rev_app_distr in R|rewrite rev_app_distr in R]; cbn [rev app] in R; inversion R; subst; [exact D|reflexivity]. }
  subst a b. apply split_digits in E; [|rewrite forallb_rev; exact Gm|rewrite forallb_rev; exact Gn|intros c' r R; eapply X; [exact Hm|exact Da|exact R]|intros c' r R; eapply X; [exact Hn|exact Db|exact R]].
  destruct E as [E1 E2]. apply (f_equal (@rev Z)) in E1. apply (f_equal (@rev Z)) in E2. rewrite !rev_involutive in E1, E2. subst dn.
  assert (Y : xa ++ [ca] = xb ++ [cb] /\ sm = sn).
  { destruct Hm as [-> | ->], Hn as [-> | ->]; rewrite ?app_nil_r in E2.
    - split; [exact E2|reflexivity].
    - apply app_inj_tail in E2. destruct E2 as [_ E2]. congruence.
    - symmetry in E2. apply app_inj_tail in E2. destruct E2 as [_ E2]. congruence.
    - apply app_inj_tail in E2. split; [apply E2|reflexivity]. }
  destruct Y as [Y1 Y2]. split; [exact Y1|]. apply formatInt_inj. congruence.
Qed.

Lemma first_exists key : forall rh1 rh2 g, (forall o, In o rh1 -> exists g', o = TSignal g') -> qualifies rh2 g = true -> sampleKey g = key ->
  exists g0, firstSince key (rh1 ++ TSignal g :: rh2) = Some g0.
Proof.
  induction rh1 as [|o r IH]; intros rh2 g NS Q E; cbn [app].
  - cbn [firstSince]. destruct (firstSince key rh2) as [x|]; [exists x; reflexivity|]. rewrite Q, E, eqb_refl. exists g. reflexivity.
  - destruct (NS o (or_introl eq_refl)) as [g' ->]. destruct (IH rh2 g) as [g0 H]; [intros o' I; apply NS; right; exact I|exact Q|exact E|]. cbn [firstSince]. rewrite H. exists g0. reflexivity.
Qed.
(** Every qualifying slow trace is represented at the next tick by a trigger for the same URL and process, if URLs do not end in a digit. *)
Theorem C57_represented h1 g h2 out s' : tick (srun (h1 ++ TSignal g :: h2)) = (Ok out, s') -> qualifies (rev h1) g = true ->
  (forall o, In o h2 -> exists g', o = TSignal g') ->
  (forall g', In (TSignal g') (h1 ++ TSignal g :: h2) -> endsPlain (tUrl g') /\ exists v, getMetric g' RequestTotalTime = Some (MInt v)) ->
  exists t, In t out /\ tUrl (tg_data t) = tUrl g /\ tPid (tg_data t) = tPid g /\ tg_pid t = w32 (tPid g).
Proof.
  intros H Q NS PL. destruct (C57_tick _ _ _ H) as (X & _ & _).
  destruct (first_exists (sampleKey g) (rev h2) (rev h1) g) as [g0 F]; [intros o I; apply NS; apply in_rev; exact I|exact Q|reflexivity|].
  assert (R : rev (h1 ++ TSignal g :: h2) = rev h2 ++ TSignal g :: rev h1) by (rewrite rev_app_distr; cbn [rev]; rewrite <- app_assoc; reflexivity).
  rewrite <- R in F. destruct (first_key _ _ _ F) as [Ek I0]. apply in_rev in I0. destruct (PL g0 I0) as [P0 [v V]].
  destruct (PL g) as [P1 _]; [apply in_or_app; right; left; reflexivity|]. destruct (plain_key _ _ _ _ P0 P1 Ek) as [U P].
  exists (trigOf g0 v). split; [apply X; exists (sampleKey g), g0, v; auto|]. cbn [trigOf tg_data tg_pid]. split; [exact U|]. split; [exact P|]. unfold tPid in *. rewrite P. reflexivity.
Qed.
Print Assumptions C57_represented.
(** Slow traces of the client side go to the rings of their threads instead, and nothing else does. *)
Theorem C57_inner_calls h g g' : In g' (snd (signal g (srun h))) <-> g' = g /\ profiling (rev h) = true /\ tSlow g = true /\ tApm g = false /\ tServer g = false.
Proof.
  destruct (srun_world h) as [On _ _ _]. rewrite <- On. unfold signal, tSlow, tApm, tServer. destruct (sp_on (srun h)); [|split; [intros []|intros (_ & E & _); discriminate E]].
  destruct (boolOf (glabels g) LIsInstallApm).
  - destruct (boolOf (glabels g) LIsSlow); (split; [intros []|intros (_ & _ & _ & E & _); discriminate E]).
  - destruct (boolOf (glabels g) LIsSlow); [|split; [intros []|intros (_ & _ & E & _); discriminate E]].
    destruct (boolOf (glabels g) LIsServer); [|split; [intros [<-|[]]; auto|intros (-> & _); left; reflexivity]].
    destruct (existsb _ _); (split; [intros []|intros (_ & _ & _ & _ & E); discriminate E]).
Qed.
Print Assumptions C57_inner_calls.

Definition slowT (url : string) (pid : Z) (ts v : Z) (apm server : bool) : group :=
  {| gname := "net_request_metric_group"; gmetrics := [(RequestTotalTime, MInt v)]; gts := ts;
     glabels := [(LPid, IV pid); (LIsSlow, BV true); (LIsServer, BV server); (LIsInstallApm, BV apm); (LContentKey, SV (bs url))] |}.
Example C57_example : fst (tick (srun [TStart; TSignal (slowT "/a" 7 1000 5 false true); TSignal (slowT "/a" 7 2000 6 false true); TSignal (slowT "/b" 7 3000 7 false true);
    TSignal (slowT "/a" 9 3000 7 true true); TSignal (slowT "/c" 9 3000 7 false true)])) =
  Ok [trigOf (slowT "/a" 7 1000 5 false true) 5; trigOf (slowT "/b" 7 3000 7 false true) 7; trigOf (slowT "/a" 9 3000 7 true true) 7].
Proof. vm_compute. reflexivity. Qed.
(** Without the condition on URLs another process's trace can be masked: the URL and the process number are joined without a separator. *)
Theorem C57_masked_refuted : ~ forall h1 g h2 out s', tick (srun (h1 ++ TSignal g :: h2)) = (Ok out, s') -> qualifies (rev h1) g = true ->
  (forall o, In o h2 -> exists g', o = TSignal g') -> (forall g', In (TSignal g') (h1 ++ TSignal g :: h2) -> exists v, getMetric g' RequestTotalTime = Some (MInt v)) ->
  exists t, In t out /\ tPid (tg_data t) = tPid g.
Proof.
  intros F. destruct (F [TStart; TSignal (slowT "/x1" 2 10 5 false true)] (slowT "/x" 12 10 5 false true) [] [trigOf (slowT "/x1" 2 10 5 false true) 5]
    {| sp_on := true; sp_apm := []; sp_map := [] |}) as (t & [<-|[]] & E); try (vm_compute; reflexivity).
  - intros o [].
  - intros g' [E|[E|[E|[]]]]; try discriminate E; inversion E; subst; eexists; vm_compute; reflexivity.
  - vm_compute in E. discriminate E.
Qed.
Print Assumptions C57_masked_refuted.

(** * C58 *)
Section Java.
Variable meta : bytes -> option (bytes * bytes * bytes).
Variables slowMs d : Z.
Fixpoint jpending (cs : list Z) (rh : list jop) : list (bytes * Z) :=
  match rh with
  | [] => []
  | JEv ev t :: r => jpending cs r ++ (if forallb (fun c => c <? t + d) cs then [(jkey ev, t)] else [])
  | JCheck c :: r => jpending (if cleaning r then c :: cs else cs) r
  | JGone :: r => jpending cs r
  end.
Lemma jdue_pending key now : forall rh cs, jdue d key now cs rh = existsb (fun x => eqb (fst x) key && (snd x + d <=? now)) (jpending cs rh).
Proof.
  induction rh as [|o r IH]; intros cs; [reflexivity|]. destruct o; cbn [jdue jpending]; try apply IH.
  rewrite IH, existsb_app, orb_comm. f_equal. destruct (forallb _ cs); cbn [existsb fst snd]; [rewrite orb_false_r, andb_true_r; reflexivity|rewrite andb_false_r; reflexivity].
Qed.
Lemma jpending_check c : forall rh cs, jpending (c :: cs) rh = filter (fun x => c <? snd x + d) (jpending cs rh).
Proof.
  assert (P : forall rh cs cs', (forall x, forallb (fun c => c <? x) cs = forallb (fun c => c <? x) cs') -> jpending cs rh = jpending cs' rh).
  { induction rh as [|o r IH]; intros cs cs' E; [reflexivity|]. destruct o; cbn [jpending]; try (apply IH; exact E).
    - rewrite (IH cs cs' E), E. reflexivity.
    - destruct (cleaning r); apply IH; [|exact E]. intros x. cbn [forallb]. rewrite E. reflexivity. }
  induction rh as [|o r IH]; intros cs; [reflexivity|]. destruct o; cbn [jpending]; try apply IH.
  - rewrite IH, filter_app. f_equal. cbn [forallb]. destruct (forallb (fun c0 => c0 <? now + d) cs); rewrite ?andb_true_r, ?andb_false_r; [|reflexivity].
    cbn [filter snd]. destruct (c <? now + d); reflexivity.
  - destruct (cleaning r); [|apply IH]. rewrite (P r (now :: c :: cs) (c :: now :: cs)); [apply IH|]. intros x. cbn [forallb]. rewrite !andb_assoc, (andb_comm (now <? x)). reflexivity.
Qed.
Lemma jtimes_app a b : jtimes (a ++ b) = jtimes a ++ jtimes b.
Proof. induction a as [|o a IH]; [reflexivity|]. destruct o; cbn [app jtimes]; rewrite ?IH; reflexivity. Qed.
Lemma jpending_in : forall rh cs x, In x (jpending cs rh) -> In (snd x) (jtimes (rev rh)).
Proof.
  induction rh as [|o r IH]; intros cs x I; [destruct I|]. cbn [rev]. rewrite jtimes_app, in_app_iff.
  destruct o; cbn [jpending] in I; try (left; apply (IH _ _ I)).
  apply in_app_iff in I. destruct I as [I|I]; [left; apply (IH _ _ I)|]. right. destruct (forallb _ cs); [|destruct I]. destruct I as [I|[]]. subst x. left. reflexivity.
Qed.
Lemma jpending_sorted : forall rh cs, nondecreasing (jtimes (rev rh)) -> nondecreasing (map snd (jpending cs rh)).
Proof.
  induction rh as [|o r IH]; intros cs H; [exact I|]. cbn [rev] in H. rewrite jtimes_app in H. apply nondecreasing_app in H. destruct H as (A & B & C).
  destruct o; cbn [jpending]; try (apply IH; exact A).
  rewrite map_app. apply nondecreasing_app. split; [apply IH; exact A|]. destruct (forallb _ cs); cbn [map snd nondecreasing]; [|split; [exact I|intros ? ? _ []]].
  split; [split; [constructor|exact I]|]. intros u v U [V|[]]. subst v. apply in_map_iff in U. destruct U as (x & <- & U). apply C; [apply (jpending_in r cs x U)|left; reflexivity].
Qed.
Lemma javaDelete_spec now : forall q m, nondecreasing (map snd q) ->
  fst (javaDelete d now q m) = filter (fun x => now <? snd x + d) q /\
  forall k, aget (snd (javaDelete d now q m)) k = if existsb (fun x => eqb (fst x) k && (snd x + d <=? now)) q then None else aget m k.
Proof.
  induction q as [|[k t] q IH]; intros m S; cbn [javaDelete map snd nondecreasing] in *; [split; reflexivity|].
  destruct S as [S1 S2]. destruct (now <? t + d) eqn:E.
  - cbn [fst snd filter]. rewrite E.
    assert (X : forall x, In x q -> (now <? snd x + d) = true).
    { intros x I. rewrite Forall_forall in S1. specialize (S1 (snd x) (in_map snd q x I)). lia. }
    split; [f_equal; symmetry; clear -X; induction q as [|x q IH]; [reflexivity|]; cbn [filter]; rewrite (X x (or_introl eq_refl)); f_equal; apply IH; intros y I; apply X; right; exact I|].
    intros k'. assert (Y : existsb (fun x => eqb (fst x) k' && (snd x + d <=? now)) ((k, t) :: q) = false).
    { cbn [existsb fst snd]. apply orb_false_iff. split; [replace (t + d <=? now) with false by lia; apply andb_false_r|]. destruct (existsb _ q) eqn:F; [|reflexivity].
      apply existsb_exists in F. destruct F as (x & I & F). specialize (X x I). apply andb_true_iff in F. lia. }
    rewrite Y. reflexivity.
  - destruct (IH (adel m k) S2) as [A B]. cbn [filter snd]. rewrite E. split; [exact A|]. intros k'. rewrite B, aget_adel. cbn [existsb fst snd].
    replace (t + d <=? now) with true by lia. rewrite andb_true_r, (eqb_sym k' k). destruct (eqb k k'); cbn [orb]; destruct (existsb _ q); reflexivity.
Qed.
Record jworld (h : list jop) (s : jst) : Prop := {
  jw_gc : js_gc s = cleaning (rev h);
  jw_q : js_q s = jpending [] (rev h);
  jw_map : forall k, aget (js_map s) k = entryOf d k (rev h) }.
Lemma jrun_world h : nondecreasing (jtimes h) -> jworld h (jrun meta slowMs d h).
Proof.
  induction h as [|o h IH] using rev_ind; intros T; [split; reflexivity|].
  rewrite jtimes_app in T. apply nondecreasing_app in T. destruct T as (T1 & _ & _). specialize (IH T1).
  unfold jrun in *. rewrite fold_left_app. cbn [fold_left]. set (s := fold_left (jstep meta slowMs d) h jst0) in *. destruct IH as [G Q M].
  destruct o as [ev now|now|]; cbn [jstep].
  - unfold javaEvent. destruct (j_entry ev =? 1) eqn:E.
    + split; cbn [snd js_gc js_q js_map]; rewrite ?rev_app_distr; cbn [rev app cleaning jpending entryOf forallb]; [exact G|rewrite Q; reflexivity|].
      intros k. rewrite aget_aset, E, andb_true_r, (eqb_sym k). destruct (eqb (jkey ev) k); [reflexivity|apply M].
    + assert (X : jworld (h ++ [JEv ev now]) {| js_map := js_map s; js_q := js_q s ++ [(jkey ev, now)]; js_gc := js_gc s |}).
      { split; cbn [js_gc js_q js_map]; rewrite ?rev_app_distr; cbn [rev app cleaning jpending entryOf forallb]; [exact G|rewrite Q; reflexivity|].
        intros k. rewrite E, andb_false_r. apply M. }
      destruct (aget (js_map s) (jkey ev)); exact X.
  - destruct (js_gc s) eqn:Eg.
    + destruct (javaDelete d now (js_q s) (js_map s)) as [q m] eqn:D.
      assert (S : nondecreasing (map snd (js_q s))) by (rewrite Q; apply jpending_sorted; rewrite rev_involutive; exact T1).
      destruct (javaDelete_spec now (js_q s) (js_map s) S) as [D1 D2]. rewrite D in D1, D2. cbn [fst snd] in D1, D2.
      split; cbn [js_gc js_q js_map]; rewrite ?rev_app_distr; cbn [rev app cleaning jpending entryOf]; [exact G| |].
      * rewrite <- G, jpending_check, D1, Q. reflexivity.
      * intros k. rewrite D2, <- G, jdue_pending, <- Q. cbn [andb]. destruct (existsb _ _); [reflexivity|apply M].
    + split; rewrite ?rev_app_distr; cbn [rev app cleaning jpending entryOf]; rewrite <- ?G; [congruence|exact Q|exact M].
  - split; cbn [js_gc js_q js_map]; rewrite ?rev_app_distr; cbn [rev app cleaning jpending entryOf]; [reflexivity|exact Q|exact M].
Qed.
End Java.

(** The labels and the duration of the trace signalled for an entry and an exit. *)
Definition traceShows (ev old : jev) (spend : Z) (g : group) : Prop :=
  tSlow g = true /\ tApm g = true /\ tServer g = true /\ tPid g = j_pid ev /\ tUrl g = j_url old /\ strOf (glabels g) LProtocol = j_proto old /\
  strOf (glabels g) LHttpApmTraceId = j_tid ev /\ gts g = j_ts old /\ getMetric g RequestTotalTime = Some (MInt (s64 spend)).
Lemma javaTrace_shows meta ev old spend : 0 <= j_pid ev < 2 ^ 32 -> traceShows ev old spend (javaTrace meta ev old spend).
Proof.
  intros R. assert (P : fst (parseInt 64 (pidString ev)) = j_pid ev).
  { pose proof (parseInt_format 64 (j_pid ev)) as X. unfold formatInt in X. replace (j_pid ev <? 0) with false in X by lia. unfold pidString. rewrite X by lia. reflexivity. }
  unfold javaTrace. rewrite P. unfold traceShows, tSlow, tApm, tServer, tPid, tUrl, strOf, intOf, boolOf, getMetric.
  destruct (eqb (j_proto old) (bs "http")), (meta (j_cid ev)) as [[[w c] p]|]; cbn [glabels gmetrics gts]; repeat split.
Qed.
(** An exit event is paired with the last entry event of its key that was not cleaned up, and signals a slow trace exactly if the time
    between them is above the threshold. *)
Theorem C58_exit meta slowMs d h ev now : nondecreasing (jtimes h) -> j_entry ev <> 1 -> 0 <= j_pid ev < 2 ^ 32 -> 0 <= slowMs -> slowMs * 1000000 < 2 ^ 64 ->
  match entryOf d (jkey ev) (rev h), fst (javaEvent meta slowMs ev now (jrun meta slowMs d h)) with
  | Some old, Some g => slowMs * 1000000 < (j_ts ev - j_ts old) mod 2 ^ 64 /\ traceShows ev old ((j_ts ev - j_ts old) mod 2 ^ 64) g
  | Some old, None => (j_ts ev - j_ts old) mod 2 ^ 64 <= slowMs * 1000000
  | None, Some _ => False
  | None, None => True
  end.
Proof.
  intros T NE R S1 S2. destruct (jrun_world meta slowMs d h T) as [_ _ M]. unfold javaEvent. replace (j_entry ev =? 1) with false by lia. rewrite M.
  destruct (entryOf d (jkey ev) (rev h)) as [old|]; cbn [fst]; [|exact I].
  assert (W : w64 (w64 slowMs * 1000000) = slowMs * 1000000) by (unfold w64; rewrite (Z.mod_small slowMs) by lia; apply Z.mod_small; lia). rewrite W.
  fold (w64 (j_ts ev - j_ts old)). destruct (slowMs * 1000000 <? w64 (j_ts ev - j_ts old)) eqn:E; [|lia]. split; [lia|]. apply javaTrace_shows. exact R.
Qed.
Print Assumptions C58_exit.
(** An entry event signals nothing. *)
Theorem C58_entry meta slowMs ev now s : j_entry ev = 1 -> fst (javaEvent meta slowMs ev now s) = None.
Proof. intros E. unfold javaEvent. rewrite E. reflexivity. Qed.
Print Assumptions C58_entry.

(** An entry stays known until the first check [d] or more after the oldest event of its key still remembered. *)
Theorem C58_entry_kept d h1 e0 t0 h2 : j_entry e0 = 1 ->
  (forall ev t, In (JEv ev t) h2 -> jkey ev = jkey e0 -> j_entry ev <> 1) ->
  (forall ev t c, In (JEv ev t) (h1 ++ JEv e0 t0 :: h2) -> jkey ev = jkey e0 -> In (JCheck c) h2 -> c < t + d) ->
  entryOf d (jkey e0) (rev (h1 ++ JEv e0 t0 :: h2)) = Some e0.
Proof.
  intros E. induction h2 as [|o h2 IH] using rev_ind; intros NE NC.
  - rewrite rev_app_distr. cbn [rev app entryOf]. rewrite eqb_refl, E. reflexivity.
  - assert (R : rev (h1 ++ JEv e0 t0 :: h2 ++ [o]) = o :: rev (h1 ++ JEv e0 t0 :: h2)).
    { replace (h1 ++ JEv e0 t0 :: h2 ++ [o]) with ((h1 ++ JEv e0 t0 :: h2) ++ [o]) by (rewrite <- app_assoc; reflexivity). rewrite rev_app_distr. reflexivity. }
    rewrite R. assert (IH' : entryOf d (jkey e0) (rev (h1 ++ JEv e0 t0 :: h2)) = Some e0).
    { apply IH; [intros ev t I K; apply (NE ev t); [apply in_or_app; left; exact I|exact K]|].
      intros ev t c I K J. apply (NC ev t c); [|exact K|apply in_or_app; left; exact J]. apply in_app_iff. apply in_app_iff in I. destruct I as [I|[I|I]]; [left; exact I|right; left; exact I|right; right; apply in_or_app; left; exact I]. }
    destruct o as [ev now|now|]; cbn [entryOf]; [|..].
    + case_eqb (jkey ev) (jkey e0); [|exact IH']. assert (N : j_entry ev <> 1) by (apply (NE ev now); [apply in_or_app; right; left; reflexivity|assumption]).
      replace (j_entry ev =? 1) with false by lia. exact IH'.
    + assert (D : jdue d (jkey e0) now [] (rev (h1 ++ JEv e0 t0 :: h2)) = false).
      { assert (Y : forall rh cs, (forall ev t, In (JEv ev t) rh -> jkey ev = jkey e0 -> now < t + d) -> jdue d (jkey e0) now cs rh = false).
        { induction rh as [|o r IHr]; intros cs Hx; [reflexivity|]. assert (Hr : forall ev t, In (JEv ev t) r -> jkey ev = jkey e0 -> now < t + d) by (intros ev t I; apply Hx; right; exact I).
          destruct o as [ev t|c|]; cbn [jdue]; try (apply IHr; exact Hr). rewrite IHr by exact Hr. rewrite orb_false_r. case_eqb (jkey ev) (jkey e0); [|reflexivity].
          assert (now < t + d) by (apply (Hx ev t); [left; reflexivity|assumption]). replace (t + d <=? now) with false by lia. reflexivity. }
        apply Y. intros ev t I K. apply in_rev in I. apply (NC ev t now); [|exact K|apply in_or_app; right; left; reflexivity].
        apply in_app_iff. apply in_app_iff in I. destruct I as [I|[I|I]]; [left; exact I|right; left; exact I|right; right; apply in_or_app; left; exact I]. }
      rewrite D, andb_false_r. exact IH'.
    + exact IH'.
Qed.
Print Assumptions C58_entry_kept.

Definition je (ts : Z) (tid : string) (en : Z) (pid : Z) : jev := {| j_ts := ts; j_tid := bs tid; j_entry := en; j_proto := bs "http"; j_url := bs "/u"; j_pid := pid; j_cid := bs "c" |}.
Example C58_example : let h := [JEv (je 1000000000 "t" 1 7) 10; JCheck 100; JEv (je 1000000000 "t2" 1 7) 101] in
  nondecreasing (jtimes h) /\ entryOf 120 (jkey (je 0 "t" 0 7)) (rev h) = Some (je 1000000000 "t" 1 7) /\
  exists g, fst (javaEvent (fun _ => None) 500 (je 1600000000 "t" 0 7) 102 (jrun (fun _ => None) 500 120 h)) = Some g /\ tPid g = 7 /\ getMetric g RequestTotalTime = Some (MInt 600000000).
Proof. cbv zeta. split; [cbn; repeat (constructor; try lia)|]. split; [vm_compute; reflexivity|]. eexists. split; [vm_compute; reflexivity|]. split; vm_compute; reflexivity. Qed.
(** An exit can be paired with the entry of another process: trace id and process number are joined without a separator. *)
Theorem C58_collision_refuted : ~ forall d h ev old, entryOf d (jkey ev) (rev h) = Some old -> j_pid old = j_pid ev.
Proof. intros F. specialize (F 120 [JEv (je 10 "t1" 1 2) 5] (je 20 "t" 0 12) (je 10 "t1" 1 2) eq_refl). discriminate F. Qed.
Print Assumptions C58_collision_refuted.
(** An exit stamped before its entry signals a trace of about 584 years. *)
Theorem C58_backwards_refuted : ~ forall meta slowMs d h ev now old g, nondecreasing (jtimes h) -> entryOf d (jkey ev) (rev h) = Some old ->
  fst (javaEvent meta slowMs ev now (jrun meta slowMs d h)) = Some g -> j_ts old <= j_ts ev.
Proof.
  intros F. specialize (F (fun _ => None) 500 120 [JEv (je 1000 "t" 1 2) 5] (je 999 "t" 0 2) 6 (je 1000 "t" 1 2) _ ltac:(cbn; repeat constructor) eq_refl eq_refl). vm_compute in F. apply F. reflexivity.
Qed.
Print Assumptions C58_backwards_refuted.
(** A second entry of a trace is removed when the first would have expired, before its own time. *)
Theorem C58_reentry_refuted : ~ forall d h1 e0 t0 now, nondecreasing (jtimes (h1 ++ [JEv e0 t0; JCheck now])) -> j_entry e0 = 1 -> now < t0 + d ->
  entryOf d (jkey e0) (rev (h1 ++ [JEv e0 t0; JCheck now])) = Some e0.
Proof.
  intros F. specialize (F 120 [JEv (je 10 "t" 1 2) 5] (je 2000 "t" 1 2) 100 130 ltac:(cbn; repeat (constructor; try lia)) eq_refl ltac:(lia)). vm_compute in F. discriminate F.
Qed.
Print Assumptions C58_reentry_refuted.
(** After the profiling was stopped once, entries are never removed any more. *)
Theorem C58_never_cleaned meta slowMs d h e0 t0 cs : j_entry e0 = 1 ->
  aget (js_map (jrun meta slowMs d (h ++ JGone :: JEv e0 t0 :: map JCheck cs))) (jkey e0) = Some e0.
Proof.
  intros E. unfold jrun. rewrite fold_left_app. cbn [fold_left]. set (s := jstep meta slowMs d _ JGone).
  assert (G : js_gc s = false) by reflexivity. set (s' := jstep meta slowMs d s (JEv e0 t0)).
  assert (A : js_gc s' = false /\ aget (js_map s') (jkey e0) = Some e0).
  { unfold s'. cbn [jstep]. unfold javaEvent. rewrite E. cbn [Z.eqb Pos.eqb snd js_gc js_map]. split; [exact G|apply aget_aset_same]. }
  clearbody s'. clear s G. destruct A as [A B]. induction cs as [|c cs IH]; cbn [map fold_left]; [exact B|]. cbn [jstep]. rewrite A. exact IH.
Qed.
Print Assumptions C58_never_cleaned.
