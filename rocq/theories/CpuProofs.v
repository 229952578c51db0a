From Verif Require Import Base AttrModel AttrProofs CpuModel CpuSpec.
From Coq Require Import ZifyBool.
Open Scope string_scope. Open Scope list_scope. Open Scope Z_scope.

Lemma w64_small x : 0 <= x < 2 ^ 64 -> w64 x = x.
Proof. intros H. unfold w64. apply Z.mod_small. exact H. Qed.
Lemma s64w x : - 2 ^ 63 <= x < 2 ^ 63 -> s64 (w64 x) = x.
Proof.
  intros H. unfold s64, w64. rewrite Z.add_mod_idemp_l by lia. rewrite Z.mod_small by lia. lia.
Qed.
Lemma sec_div t : sec t = t / nano. Proof. reflexivity. Qed.

(** * Segments *)
Lemma kl_put e g kd : kl (putTimedEvent e g) kd = if kindb (t_kind e) kd then kl g kd ++ [e] else kl g kd.
Proof. unfold putTimedEvent. destruct (t_kind e), kd; reflexivity. Qed.
Lemma put_start e g : g_start (putTimedEvent e g) = g_start g. Proof. unfold putTimedEvent; destruct (t_kind e); reflexivity. Qed.
Lemma put_end e g : g_end (putTimedEvent e g) = g_end g. Proof. unfold putTimedEvent; destruct (t_kind e); reflexivity. Qed.
Lemma put_sent e g : g_sent (putTimedEvent e g) = 0. Proof. unfold putTimedEvent; destruct (t_kind e); reflexivity. Qed.
Lemma kl_fresh b i kd : kl (freshAt b i) kd = []. Proof. destruct kd; reflexivity. Qed.

(** What [shows] asks of one slot. *)
Definition slotOK (n : Z) (k : track) (s : Z) (g : seg) : Prop :=
  g_start g = s * 1000000000 /\ g_end g = (s + 1) * 1000000000 /\ (forall kd, kl g kd = eventsOf n (k_recs k) kd s) /\
  (busy n k s = true -> g_sent g = if k_sent k s then 1 else 0).
Lemma shows_slots n k r : shows n k r <-> r_base r = k_base k /\ r_name r = k_name k /\ zlen (r_segs r) = n /\
  forall i g, nth_error (r_segs r) i = Some g -> slotOK n k (k_base k + Z.of_nat i) g.
Proof.
  unfold shows. split.
  - intros (A & B & C & D). split; [exact A|]. split; [exact B|]. split; [exact C|]. intros i g G. destruct (D i g G) as (a & b & c & d & e & f & h & j).
    split; [exact a|]. split; [exact b|]. split; [|exact j]. intros []; assumption.
  - intros (A & B & C & D). split; [exact A|]. split; [exact B|]. split; [exact C|]. intros i g G. destruct (D i g G) as (a & b & c & d).
    split; [exact a|]. split; [exact b|]. split; [exact (c KCpu)|]. split; [exact (c KFutex)|]. split; [exact (c KTransaction)|].
    split; [exact (c KSpan)|]. split; [exact (c KInner)|exact d].
Qed.

Lemma busy_none n k s : busy n k s = false <-> forall kd, eventsOf n (k_recs k) kd s = [].
Proof.
  unfold busy, eventsOf. induction (k_recs k) as [|p l IH]; cbn [existsb filter map]; [split; [reflexivity|reflexivity]|].
  split.
  - intros H kd. apply orb_false_iff in H. destruct H as [A B]. rewrite A, andb_false_r. apply IH. exact B.
  - intros H. apply orb_false_iff. split.
    + specialize (H (t_kind (fst p))). destruct (covers n (snd p) (fst p) s); [|reflexivity]. destruct (t_kind (fst p)); discriminate H.
    + apply IH. intros kd. specialize (H kd). destruct (kindb _ _ && _); [discriminate H|exact H].
Qed.
Lemma isNotEmpty_kl g : isNotEmpty g = false <-> forall kd, kl g kd = [].
Proof.
  unfold isNotEmpty. rewrite !orb_false_iff. unfold zlen. split.
  - intros ((((A & B) & C) & D) & E) kd. destruct kd; cbn [kl]; apply length_zero_iff_nil; lia.
  - intros H. pose proof (H KCpu) as A. pose proof (H KFutex) as B. pose proof (H KTransaction) as C. pose proof (H KSpan) as D. pose proof (H KInner) as E.
    cbn [kl] in *. rewrite A, B, C, D, E. cbn. tauto.
Qed.
Lemma slot_busy n k s g : slotOK n k s g -> isNotEmpty g = busy n k s.
Proof.
  intros (_ & _ & K & _). destruct (isNotEmpty g) eqn:E.
  - destruct (busy n k s) eqn:F; [reflexivity|]. exfalso. rewrite busy_none in F.
    assert (X : isNotEmpty g = false) by (apply isNotEmpty_kl; intros kd; rewrite K; apply F). congruence.
  - symmetry. apply busy_none. intros kd. rewrite <- K. apply isNotEmpty_kl. exact E.
Qed.

(** * Loops *)
Section Fold.
  Variable f : seg -> seg.
  Lemma fold_nth : forall ix (d : list seg) i, NoDup ix ->
    nth_error (fold_left (fun d i => match nth_error d i with Some g => set_nth d i (f g) | None => d end) ix d) i =
    option_map (fun g => if existsb (Nat.eqb i) ix then f g else g) (nth_error d i).
  Proof.
    induction ix as [|j ix IH]; intros d i ND; cbn [fold_left existsb].
    - destruct (nth_error d i); reflexivity.
    - inversion ND as [|? ? NI ND']; subst. rewrite IH by exact ND'. destruct (Nat.eqb i j) eqn:E.
      + apply Nat.eqb_eq in E. subst j. cbn [orb].
        assert (X : existsb (Nat.eqb i) ix = false).
        { destruct (existsb (Nat.eqb i) ix) eqn:F; [|reflexivity]. exfalso. apply existsb_exists in F. destruct F as (x & I & F). apply Nat.eqb_eq in F. subst. auto. }
        rewrite X. destruct (nth_error d i) as [g|] eqn:G.
        * rewrite nth_set_same by (apply nth_error_Some; congruence). reflexivity.
        * rewrite G. reflexivity.
      + apply Nat.eqb_neq in E. cbn [orb]. destruct (nth_error d j) as [g|]; [|reflexivity]. rewrite nth_set_other by exact E. reflexivity.
  Qed.
  Lemma fold_len : forall ix (d : list seg),
    List.length (fold_left (fun d i => match nth_error d i with Some g => set_nth d i (f g) | None => d end) ix d) = List.length d.
  Proof.
    induction ix as [|j ix IH]; intros d; cbn [fold_left]; [reflexivity|]. rewrite IH. destruct (nth_error d j); [apply set_nth_length|reflexivity].
  Qed.
End Fold.

Lemma existsb_filter_seq (p : nat -> bool) n i : (i < n)%nat -> existsb (Nat.eqb i) (filter p (seq 0 n)) = p i.
Proof.
  intros L. destruct (p i) eqn:P.
  - apply existsb_exists. exists i. split; [|apply Nat.eqb_refl]. apply filter_In. split; [apply in_seq; lia|exact P].
  - destruct (existsb (Nat.eqb i) (filter p (seq 0 n))) eqn:E; [|reflexivity]. apply existsb_exists in E. destruct E as (x & I & E).
    apply Nat.eqb_eq in E. subst x. apply filter_In in I. destruct I as [_ I]. congruence.
Qed.
Lemma putRange_len n e so eo d : List.length (putRange n e so eo d) = List.length d.
Proof. apply (fold_len (putTimedEvent e)). Qed.
Lemma putRange_nth n e so eo d i : List.length d = n ->
  nth_error (putRange n e so eo d) i = option_map (fun g => if (so <=? Z.of_nat i) && (Z.of_nat i <=? eo) then putTimedEvent e g else g) (nth_error d i).
Proof.
  intros L. unfold putRange. rewrite (fold_nth (putTimedEvent e)) by (apply NoDup_filter, seq_NoDup).
  destruct (nth_error d i) as [g|] eqn:G; [|reflexivity]. cbn [option_map]. rewrite existsb_filter_seq; [reflexivity|].
  rewrite <- L. apply nth_error_Some. congruence.
Qed.
Lemma freshAll_len n b : List.length (freshAll n b) = n.
Proof. unfold freshAll. rewrite map_length, seq_length. reflexivity. Qed.
Lemma nth_seq a n i : nth_error (seq a n) i = if (i <? n)%nat then Some (a + i)%nat else None.
Proof.
  revert a i. induction n as [|n IH]; intros a i; cbn [seq]; [destruct i; reflexivity|].
  destruct i; cbn [nth_error]; [rewrite Nat.add_0_r; reflexivity|]. rewrite IH. change (S i <? S n)%nat with (i <? n)%nat. rewrite Nat.add_succ_r. reflexivity.
Qed.
Lemma freshAll_nth n b i g : nth_error (freshAll n b) i = Some g -> g = freshAt b i.
Proof.
  unfold freshAll. rewrite nth_error_map, nth_seq. destruct (i <? n)%nat; cbn [option_map]; [|discriminate]. intros H. inversion H. reflexivity.
Qed.
Lemma shiftLoop_len : forall k i clear b d, List.length (shiftLoop k i clear b d) = List.length d.
Proof.
  induction k as [|k IH]; intros i clear b d; cbn [shiftLoop]; [reflexivity|]. rewrite IH, set_nth_length.
  destruct (nth_error d (i + clear)); [apply set_nth_length|reflexivity].
Qed.
(** After the loop over [i .. i+k), the slots below hold what was [clear] above, and those above are fresh. *)
Lemma shiftLoop_nth : forall k i clear b d j, (i + k <= clear)%nat -> (clear + clear <= List.length d)%nat ->
  nth_error (shiftLoop k i clear b d) j =
  if (i <=? j)%nat && (j <? i + k)%nat then nth_error d (j + clear)
  else if (i + clear <=? j)%nat && (j <? i + k + clear)%nat then Some (freshAt b j) else nth_error d j.
Proof.
  induction k as [|k IH]; intros i clear b d j L1 L2; cbn [shiftLoop].
  - replace ((i <=? j)%nat && (j <? i + 0)%nat) with false by lia. replace ((i + clear <=? j)%nat && (j <? i + 0 + clear)%nat) with false by lia. reflexivity.
  - destruct (nth_error d (i + clear)) as [v|] eqn:V.
    2:{ apply nth_error_None in V. lia. }
    rewrite IH; [|lia|rewrite !set_nth_length; exact L2].
    assert (F : forall x, nth_error (set_nth (set_nth d i v) (i + clear) (freshAt b (i + clear))) x =
      if (x =? i + clear)%nat then Some (freshAt b (i + clear)) else if (x =? i)%nat then Some v else nth_error d x).
    { intros x. destruct (x =? i + clear)%nat eqn:E1.
      - apply Nat.eqb_eq in E1. subst x. apply nth_set_same. rewrite set_nth_length. lia.
      - apply Nat.eqb_neq in E1. rewrite nth_set_other by exact E1. destruct (x =? i)%nat eqn:E2.
        + apply Nat.eqb_eq in E2. subst x. apply nth_set_same. lia.
        + apply Nat.eqb_neq in E2. apply nth_set_other. exact E2. }
    rewrite !F.
    destruct ((S i <=? j)%nat && (j <? S i + k)%nat) eqn:A.
    + replace ((i <=? j)%nat && (j <? i + S k)%nat) with true by lia. replace (j + clear =? i + clear)%nat with false by lia.
      replace (j + clear =? i)%nat with false by lia. reflexivity.
    + destruct ((S i + clear <=? j)%nat && (j <? S i + k + clear)%nat) eqn:B.
      * replace ((i <=? j)%nat && (j <? i + S k)%nat) with false by lia. replace ((i + clear <=? j)%nat && (j <? i + S k + clear)%nat) with true by lia. reflexivity.
      * destruct (j =? i + clear)%nat eqn:E1.
        -- apply Nat.eqb_eq in E1. subst j. replace ((i <=? i + clear)%nat && (i + clear <? i + S k)%nat) with false by lia.
           replace ((i + clear <=? i + clear)%nat && (i + clear <? i + S k + clear)%nat) with true by lia. reflexivity.
        -- destruct (j =? i)%nat eqn:E2.
           ++ apply Nat.eqb_eq in E2. subst j. replace ((i <=? i)%nat && (i <? i + S k)%nat) with true by lia. symmetry. exact V.
           ++ replace ((i <=? j)%nat && (j <? i + S k)%nat) with false by lia. replace ((i + clear <=? j)%nat && (j <? i + S k + clear)%nat) with false by lia. reflexivity.
Qed.

(** * Putting *)
Lemma eventsOf_app n l e b kd s : eventsOf n (l ++ [(e, b)]) kd s = eventsOf n l kd s ++ (if kindb (t_kind e) kd && covers n b e s then [e] else []).
Proof.
  unfold eventsOf. rewrite filter_app, map_app. f_equal. cbn [filter fst snd]. destruct (kindb _ _ && _); reflexivity.
Qed.
Lemma busy_app n b nm snt e b' k s : busy n {| k_base := b; k_name := nm; k_recs := k_recs k ++ [(e, b')]; k_sent := snt |} s = busy n k s || covers n b' e s.
Proof. unfold busy. cbn [k_recs]. rewrite existsb_app. cbn [existsb fst snd]. rewrite orb_false_r. reflexivity. Qed.

(** Nothing recorded covers a second beyond the ring. *)
Definition within (n : Z) (k : track) : Prop := forall e b, In (e, b) (k_recs k) -> b <= k_base k.
Lemma beyond_empty n k s kd : within n k -> k_base k + n <= s -> eventsOf n (k_recs k) kd s = [].
Proof.
  intros W L. unfold eventsOf. assert (X : filter (fun p => kindb (t_kind (fst p)) kd && covers n (snd p) (fst p) s) (k_recs k) = []).
  { unfold within in W. induction (k_recs k) as [|[e b] l IH]; [reflexivity|]. cbn [filter fst snd].
    assert (Y : covers n b e s = false). { specialize (W e b (or_introl eq_refl)). unfold covers. lia. }
    rewrite Y, andb_false_r. apply IH. intros e' b' I. apply (W e' b'). right. exact I. }
  rewrite X. reflexivity.
Qed.
Lemma beyond_idle n k s : within n k -> k_base k + n <= s -> busy n k s = false.
Proof. intros W L. apply busy_none. intros kd. apply beyond_empty; assumption. Qed.

Lemma fresh_slot n k b i : (0 <= b /\ (b + n + 1) * 1000000000 < 2 ^ 64)%Z -> Z.of_nat i < n -> (forall kd, eventsOf n (k_recs k) kd (b + Z.of_nat i) = []) ->
  slotOK n k (b + Z.of_nat i) (freshAt b i).
Proof.
  intros S L E. unfold slotOK. split; [|split; [|split]].
  - cbn [freshAt newSegment g_start]. unfold nano. rewrite (w64_small (b + Z.of_nat i)) by lia. apply w64_small. lia.
  - cbn [freshAt newSegment g_end]. unfold nano. rewrite (w64_small (b + Z.of_nat (Datatypes.S i))) by lia. rewrite w64_small by lia. lia.
  - intros kd. rewrite kl_fresh, E. reflexivity.
  - intros B. exfalso. apply busy_none in E. congruence.
Qed.

(** Recording an event in a slot that already shows the events before. *)
Lemma put_slot n k b' nm e s g bb :
  slotOK n k s g ->
  slotOK n {| k_base := b'; k_name := nm; k_recs := k_recs k ++ [(e, bb)]; k_sent := fun x => if covers n bb e x then false else k_sent k x |} s
    (if covers n bb e s then putTimedEvent e g else g).
Proof.
  intros (A & B & C & D). unfold slotOK. cbn [k_recs k_sent]. destruct (covers n bb e s) eqn:E.
  - rewrite put_start, put_end, put_sent. split; [exact A|]. split; [exact B|]. split; [|reflexivity].
    intros kd. rewrite kl_put, eventsOf_app, E, andb_true_r, <- C. destruct (kindb (t_kind e) kd); [reflexivity|]. rewrite app_nil_r. reflexivity.
  - split; [exact A|]. split; [exact B|]. split.
    + intros kd. rewrite eventsOf_app, E, andb_false_r, app_nil_r. apply C.
    + rewrite busy_app, E, orb_false_r. exact D.
Qed.

(** * The ring of a thread *)
Definition inv (n : nat) (k : track) (r : ring) : Prop :=
  r_base r = k_base k /\ r_name r = k_name k /\ List.length (r_segs r) = n /\
  (forall i g, nth_error (r_segs r) i = Some g -> slotOK (Z.of_nat n) k (k_base k + Z.of_nat i) g) /\
  within (Z.of_nat n) k /\ 0 <= k_base k /\ (k_base k + Z.of_nat n + 1) * 1000000000 < 2 ^ 64.
Lemma inv_shows n k r : inv n k r -> shows (Z.of_nat n) k r.
Proof. intros (A & B & C & D & _). apply shows_slots. split; [exact A|]. split; [exact B|]. split; [unfold zlen; congruence|exact D]. Qed.

Definition record (n : Z) (b : Z) (nm : bytes) (e : tev) (k : track) : track :=
  {| k_base := b; k_name := nm; k_recs := k_recs k ++ [(e, b)]; k_sent := fun s => if covers n b e s then false else k_sent k s |}.
(** The common end of all the branches. *)
Lemma record_inv n k b nm e d so eo :
  List.length d = n ->
  (forall i g, nth_error d i = Some g -> slotOK (Z.of_nat n) k (b + Z.of_nat i) g) ->
  within (Z.of_nat n) k -> k_base k <= b -> 0 <= b -> (b + Z.of_nat n + 1) * 1000000000 < 2 ^ 64 ->
  so = Z.max 0 (sec (t_start e) - b) -> eo = sec (t_end e) - b ->
  inv n (record (Z.of_nat n) b nm e k) {| r_name := nm; r_base := b; r_segs := putRange n e so eo d |}.
Proof.
  intros L S W M P Q Eso Eeo. unfold inv. cbn [record k_base k_name k_recs r_base r_name r_segs].
  split; [reflexivity|]. split; [reflexivity|]. split; [rewrite putRange_len; exact L|]. split; [|split; [|split; assumption]].
  - intros i g. rewrite putRange_nth by exact L. destruct (nth_error d i) as [g0|] eqn:G; cbn [option_map]; [|discriminate]. intros H. inversion H; subst g. clear H.
    assert (I : (i < n)%nat) by (rewrite <- L; apply nth_error_Some; congruence).
    assert (X : (so <=? Z.of_nat i) && (Z.of_nat i <=? eo) = covers (Z.of_nat n) b e (b + Z.of_nat i)) by (unfold covers; lia).
    rewrite X. apply (put_slot (Z.of_nat n) k b nm e (b + Z.of_nat i) g0 b). apply S. exact G.
  - intros e0 b0 I. cbn [record k_base]. cbn [record k_recs] in I. apply in_app_iff in I. destruct I as [I|[I|[]]].
    + specialize (W e0 b0 I). lia.
    + inversion I; subst. apply Z.le_refl.
Qed.

Definition blank (b : Z) (nm : bytes) : track := {| k_base := b; k_name := nm; k_recs := []; k_sent := fun _ => false |}.
Lemma sec_nonneg t : 0 <= t -> 0 <= sec t.
Proof. intros H. apply Z.div_pos; lia. Qed.
Lemma sec_bound n t : saneTime n t -> 0 <= sec t /\ (sec t + n + 1) * 1000000000 < 2 ^ 64.
Proof. intros [A B]. split; [apply sec_nonneg; exact A|exact B]. Qed.

Lemma freshAll_slots n k b : 0 <= b -> (b + Z.of_nat n + 1) * 1000000000 < 2 ^ 64 ->
  (forall kd s, b <= s -> eventsOf (Z.of_nat n) (k_recs k) kd s = []) ->
  forall i g, nth_error (freshAll n b) i = Some g -> slotOK (Z.of_nat n) k (b + Z.of_nat i) g.
Proof.
  intros P Q E i g G. assert (I : (i < n)%nat) by (rewrite <- (freshAll_len n b); apply nth_error_Some; congruence).
  apply freshAll_nth in G. subst g. apply fresh_slot; [split; assumption|lia|]. intros kd. apply E. lia.
Qed.

Lemma new_inv n nm e : saneTime (Z.of_nat n) (t_start e) -> saneTime (Z.of_nat n) (t_end e) ->
  exists k, trackStep (Z.of_nat n) None (IPut nm e) = Some k /\ inv n k (newRing n nm e).
Proof.
  intros S1 S2. apply sec_bound in S1. apply sec_bound in S2. destruct S1 as [A1 B1]. destruct S2 as [A2 B2].
  eexists. split; [reflexivity|]. unfold newRing. rewrite <- !sec_div. rewrite s64w by lia.
  pose proof (record_inv n (blank (sec (t_start e)) nm) (sec (t_start e)) nm e (freshAll n (sec (t_start e))) 0 (sec (t_end e) - sec (t_start e))) as R.
  destruct R as (a & b & c & d & f & g); try assumption; cbn [blank k_base]; try lia.
  - apply freshAll_len.
  - apply freshAll_slots; [assumption|assumption|reflexivity].
  - intros x y [].
  - unfold inv. cbn [record blank k_base k_name k_recs k_sent app] in *. split; [reflexivity|]. split; [reflexivity|]. split; [exact c|]. split; [|split; assumption].
    intros i g0 G. specialize (d i g0 G). destruct d as (d1 & d2 & d3 & d4). split; [exact d1|]. split; [exact d2|]. split; [exact d3|].
    intros Bz. cbn [k_sent] in *. rewrite d4 by exact Bz. cbn [record blank k_sent]. destruct (covers (Z.of_nat n) (sec (t_start e)) e (sec (t_start e) + Z.of_nat i)); reflexivity.
Qed.

Lemma put_inv n c k r nm e : n = (2 * c)%nat -> (0 < c)%nat -> inv n k r -> saneTime (Z.of_nat n) (t_start e) -> saneTime (Z.of_nat n) (t_end e) ->
  exists k', trackStep (Z.of_nat n) (Some k) (IPut nm e) = Some k' /\ inv n k' (putRing n nm e r) /\ k_base k <= k_base k'.
Proof.
  intros En Cp (A & B & C & D & W & P & Q) S1 S2. apply sec_bound in S1. apply sec_bound in S2. destruct S1 as [A1 B1]. destruct S2 as [A2 B2].
  unfold putRing. rewrite A. rewrite <- !sec_div. rewrite !s64w by lia. cbn [trackStep].
  assert (E0 : (sec (t_end e) - k_base k <? 0) = (sec (t_end e) <? k_base k)) by lia. rewrite E0. clear E0.
  destruct (sec (t_end e) <? k_base k) eqn:E1.
  { exists k. split; [reflexivity|]. split; [|lia]. unfold inv. auto 8. }
  eexists. split; [reflexivity|]. fold (record (Z.of_nat n) (nextBase (Z.of_nat n) (k_base k) (sec (t_start e)) (sec (t_end e))) nm e k).
  cbn [record k_base]. unfold nextBase.
  assert (E2 : (Z.of_nat n <=? Z.max 0 (sec (t_start e) - k_base k)) || (Z.of_nat n <? sec (t_end e) - k_base k) =
    (k_base k + Z.of_nat n <=? sec (t_start e)) || (k_base k + Z.of_nat n <? sec (t_end e))) by lia.
  rewrite E2. clear E2. destruct ((k_base k + Z.of_nat n <=? sec (t_start e)) || (k_base k + Z.of_nat n <? sec (t_end e))) eqn:E3.
  2:{ split; [|lia]. apply record_inv; try assumption; lia. }
  assert (E4 : (3 * Z.of_nat n <=? Z.max 0 (sec (t_start e) - k_base k) * 2) = (3 * Z.of_nat n <=? 2 * (sec (t_start e) - k_base k))) by lia.
  rewrite E4. clear E4. destruct (3 * Z.of_nat n <=? 2 * (sec (t_start e) - k_base k)) eqn:E5.
  - split; [|lia]. apply record_inv; try assumption; try lia.
    + apply freshAll_len.
    + apply freshAll_slots; [assumption|assumption|]. intros kd s Ls. apply beyond_empty; [exact W|lia].
  - assert (Ec : (n / 2)%nat = c) by (subst n; rewrite Nat.mul_comm; apply Nat.div_mul; lia). rewrite Ec.
    assert (Ez : Z.of_nat n / 2 = Z.of_nat c) by (subst n; rewrite Nat2Z.inj_mul, Z.mul_comm; apply Z.div_mul; lia). rewrite Ez.
    rewrite w64_small by lia. split; [|lia].
    apply record_inv; try assumption; try lia.
    + rewrite shiftLoop_len. exact C.
    + intros i g. rewrite shiftLoop_nth by lia. destruct ((0 <=? i)%nat && (i <? 0 + c)%nat) eqn:F1.
      * intros G. specialize (D _ _ G). replace (k_base k + Z.of_nat c + Z.of_nat i) with (k_base k + Z.of_nat (i + c)) by lia. exact D.
      * destruct ((0 + c <=? i)%nat && (i <? 0 + c + c)%nat) eqn:F2.
        -- intros G. inversion G; subst g. apply fresh_slot; [split; lia|lia|]. intros kd. apply beyond_empty; [exact W|lia].
        -- intros G. exfalso. assert (i < n)%nat by (rewrite <- C; apply nth_error_Some; congruence). lia.
Qed.

(** * Sending *)
Definition upd (f : seg -> seg) (p : seg -> bool) (g : seg) : seg := if p g then f g else g.
Lemma fold_ext {A B} (f g : A -> B -> A) : (forall a b, f a b = g a b) -> forall l a, fold_left f l a = fold_left g l a.
Proof. intros E l. induction l as [|x l IH]; intros a; cbn [fold_left]; [reflexivity|]. rewrite E. apply IH. Qed.
Lemma set_nth_id {A} (d : list A) : forall i g, nth_error d i = Some g -> set_nth d i g = d.
Proof. induction d as [|a d IH]; intros [|i] g H; cbn [nth_error set_nth] in *; try discriminate; [inversion H; reflexivity|]. f_equal. apply IH. exact H. Qed.
Lemma markAll_nth ix d i : NoDup ix ->
  nth_error (fold_left (fun d i => match nth_error d i with Some g => if isNotEmpty g then set_nth d i (markSent g) else d | None => d end) ix d) i =
  option_map (fun g => if existsb (Nat.eqb i) ix && isNotEmpty g then markSent g else g) (nth_error d i).
Proof.
  intros ND. rewrite (fold_ext _ (fun d i => match nth_error d i with Some g => set_nth d i (upd markSent isNotEmpty g) | None => d end)).
  - rewrite (fold_nth (upd markSent isNotEmpty)) by exact ND. destruct (nth_error d i) as [g|]; [|reflexivity]. cbn [option_map]. unfold upd.
    destruct (existsb (Nat.eqb i) ix); reflexivity.
  - intros a b. destruct (nth_error a b) as [g|] eqn:G; [|reflexivity]. unfold upd. destruct (isNotEmpty g); [reflexivity|]. symmetry. apply set_nth_id. exact G.
Qed.
Lemma markAll_len ix : forall d, List.length (fold_left (fun d i => match nth_error d i with Some g => if isNotEmpty g then set_nth d i (markSent g) else d | None => d end) ix d) = List.length d.
Proof.
  induction ix as [|j ix IH]; intros d; cbn [fold_left]; [reflexivity|]. rewrite IH. destruct (nth_error d j) as [g|]; [|reflexivity].
  destruct (isNotEmpty g); [apply set_nth_length|reflexivity].
Qed.

Lemma filter_none {A} (p : A -> bool) l : (forall x, In x l -> p x = false) -> filter p l = [].
Proof. intros H. induction l as [|a l IH]; [reflexivity|]. cbn [filter]. rewrite (H a (or_introl eq_refl)). apply IH. intros x I. apply H. right. exact I. Qed.
Lemma sendIndices_eq n r a b : 0 <= r_base r -> (r_base r + Z.of_nat n + 1) * 1000000000 < 2 ^ 64 -> 0 <= a < 2 ^ 64 -> 0 <= b < 2 ^ 64 ->
  sendIndices n r a b = filter (fun i => (sec a <=? r_base r + Z.of_nat i) && (r_base r + Z.of_nat i <=? sec b)) (seq 0 n).
Proof.
  intros P Q Ha Hb. unfold sendIndices. rewrite <- !sec_div.
  assert (Sa : 0 <= sec a < 2 ^ 35) by (unfold sec; split; [apply Z.div_pos; lia|apply Z.div_lt_upper_bound; lia]).
  assert (Sb : 0 <= sec b < 2 ^ 35) by (unfold sec; split; [apply Z.div_pos; lia|apply Z.div_lt_upper_bound; lia]).
  rewrite (w64_small (r_base r + Z.of_nat n)) by lia. rewrite s64w by lia.
  destruct ((sec b <? r_base r) || (r_base r + Z.of_nat n <? sec a)) eqn:E.
  - symmetry. apply filter_none. intros i I. apply in_seq in I. lia.
  - rewrite (w64_small (sec b - r_base r)) by lia. apply filter_ext_in. intros i I. apply in_seq in I.
    destruct (r_base r + Z.of_nat n <? sec b - r_base r) eqn:F.
    + replace (s64 (r_base r + Z.of_nat n)) with (r_base r + Z.of_nat n) by (unfold s64; rewrite Z.mod_small by lia; lia). lia.
    + replace (s64 (sec b - r_base r)) with (sec b - r_base r) by (unfold s64; rewrite Z.mod_small by lia; lia). lia.
Qed.

Lemma send_state n k r pid tid a b : inv n k r -> 0 <= a < 2 ^ 64 -> 0 <= b < 2 ^ 64 ->
  exists k', trackStep (Z.of_nat n) (Some k) (ISend a b) = Some k' /\ inv n k' (snd (sendThread n pid tid r a b)).
Proof.
  intros (A & B & C & D & W & P & Q) Ha Hb. eexists. split; [reflexivity|]. unfold sendThread. cbn [snd]. unfold inv. cbn [k_base k_name k_recs k_sent r_base r_name r_segs].
  split; [exact A|]. split; [exact B|]. split; [rewrite markAll_len; exact C|]. split; [|split; [exact W|split; assumption]].
  intros i g. rewrite sendIndices_eq by (rewrite ?A; assumption). rewrite markAll_nth by (apply NoDup_filter, seq_NoDup).
  destruct (nth_error (r_segs r) i) as [g0|] eqn:G; cbn [option_map]; [|discriminate]. intros H. inversion H; subst g. clear H.
  assert (I : (i < n)%nat) by (rewrite <- C; apply nth_error_Some; congruence). rewrite existsb_filter_seq by exact I. rewrite A.
  pose proof (D i g0 G) as S. pose proof (slot_busy _ _ _ _ S) as Bz. destruct S as (S1 & S2 & S3 & S4).
  unfold slotOK. cbn [k_recs k_sent]. unfold busy in *. cbn [k_recs]. rewrite Bz.
  destruct ((sec a <=? k_base k + Z.of_nat i) && (k_base k + Z.of_nat i <=? sec b)) eqn:E; cbn [andb].
  - destruct (existsb _ (k_recs k)) eqn:F.
    + split; [exact S1|]. split; [exact S2|]. split; [|reflexivity]. intros kd. rewrite <- S3. destruct kd; reflexivity.
    + split; [exact S1|]. split; [exact S2|]. split; [exact S3|]. discriminate.
  - split; [exact S1|]. split; [exact S2|]. split; [exact S3|exact S4].
Qed.

Lemma flat_map_filter_map {A B C} (f : A -> list B) (g : B -> C) (p : A -> bool) (h : A -> C) l :
  (forall x, In x l -> map g (f x) = if p x then [h x] else []) -> map g (flat_map f l) = map h (filter p l).
Proof.
  intros H. induction l as [|a l IH]; [reflexivity|]. cbn [flat_map filter]. rewrite map_app, (H a (or_introl eq_refl)), IH by (intros x I; apply H; right; exact I).
  destruct (p a); reflexivity.
Qed.
Lemma filter_map {A B} (f : A -> B) (p : B -> bool) l : filter p (map f l) = map f (filter (fun x => p (f x)) l).
Proof. induction l as [|a l IH]; [reflexivity|]. cbn [map filter]. destruct (p (f a)); cbn [map]; rewrite IH; reflexivity. Qed.
Lemma filter_filter {A} (p q : A -> bool) l : filter p (filter q l) = filter (fun x => q x && p x) l.
Proof. induction l as [|a l IH]; [reflexivity|]. cbn [filter]. destruct (q a); cbn [filter andb]; [|exact IH]. destruct (p a); rewrite IH; reflexivity. Qed.

Lemma send_out n k r pid tid a b : inv n k r -> 0 <= a < 2 ^ 64 -> 0 <= b < 2 ^ 64 ->
  fst (sendThread n pid tid r a b) = expectedOf (Z.of_nat n) pid tid a b (Some k).
Proof.
  intros (A & B & C & D & W & P & Q) Ha Hb. unfold sendThread, expectedOf, secondsOf. cbn [fst]. rewrite sendIndices_eq by (rewrite ?A; assumption).
  rewrite Nat2Z.id, filter_map, map_map, A.
  rewrite (flat_map_filter_map _ _ (fun i => busy (Z.of_nat n) k (k_base k + Z.of_nat i)) (fun i => secondRecord (Z.of_nat n) pid tid k (k_base k + Z.of_nat i))).
  - rewrite filter_filter. reflexivity.
  - intros i I. apply filter_In in I. destruct I as [I _]. apply in_seq in I. unfold sendable.
    destruct (nth_error (r_segs r) i) as [g|] eqn:G.
    2:{ apply nth_error_None in G. lia. }
    pose proof (D i g G) as S. rewrite (slot_busy _ _ _ _ S). destruct (busy (Z.of_nat n) k (k_base k + Z.of_nat i)) eqn:Bz; [|reflexivity].
    destruct S as (S1 & S2 & S3 & S4). cbn [map]. f_equal. unfold toDataGroup, secondRecord. rewrite S1, S2, S4, B by exact Bz.
    rewrite <- (S3 KCpu), <- (S3 KFutex), <- (S3 KTransaction), <- (S3 KSpan), <- (S3 KInner). reflexivity.
Qed.

(** * The run of one thread *)
Definition tstep (n : nat) (pid tid : Z) (o : option ring) (it : titem) : option ring :=
  match it with
  | IPut nm e => Some (match o with Some r => putRing n nm e r | None => newRing n nm e end)
  | ISend a b => option_map (fun r => snd (sendThread n pid tid r a b)) o
  end.
Definition trun (n : nat) (pid tid : Z) (l : list titem) : option ring := fold_left (tstep n pid tid) l None.
Lemma trun_inv n c pid tid l : n = (2 * c)%nat -> (0 < c)%nat -> Forall (saneItem (Z.of_nat n)) l ->
  match trun n pid tid l, tracked (Z.of_nat n) l with Some r, Some k => inv n k r | None, None => True | _, _ => False end.
Proof.
  intros En Cp. induction l as [|it l IH] using rev_ind; intros S; [exact I|].
  apply Forall_app in S. destruct S as [S1 S2]. inversion S2 as [|? ? S3 _]; subst x l0. specialize (IH S1).
  unfold trun, tracked in *. rewrite !fold_left_app. cbn [fold_left].
  destruct (fold_left (tstep n pid tid) l None) as [r|]; destruct (fold_left (trackStep (Z.of_nat n)) l None) as [k|]; try contradiction.
  - destruct it as [nm e|a b]; cbn [saneItem] in S3; destruct S3 as [S3 S4].
    + destruct (put_inv n c k r nm e En Cp IH S3 S4) as (k' & T & V & _). cbn [tstep]. rewrite T. exact V.
    + destruct (send_state n k r pid tid a b IH S3 S4) as (k' & T & V). cbn [tstep option_map]. rewrite T. exact V.
  - destruct it as [nm e|a b]; cbn [saneItem] in S3; destruct S3 as [S3 S4].
    + destruct (new_inv n nm e S3 S4) as (k' & T & V). cbn [tstep]. rewrite T. exact V.
    + exact I.
Qed.
