(** C81 what is found in Elasticsearch. *)
From Verif Require Import Base AttrModel PoolModel EnrichModel CpuModel CpuSpec CpuProofs CpuWorld CpuProps FileModel AdapterModel EsModel EsSpec.
From Coq Require Import ZifyBool.
Open Scope string_scope. Open Scope list_scope. Open Scope Z_scope.

(** ** Labels of the documents *)
Lemma merge_other o : forall m k, ~ In k (keys o) -> aget (mergeLabels m o) k = aget m k.
Proof.
  induction o as [|[k' v] o IH]; intros m k NI; [reflexivity|]. unfold mergeLabels in *. cbn [fold_left fst snd]. rewrite IH.
  - apply aget_aset_other. intros ->. apply NI. left. reflexivity.
  - intros J. apply NI. right. exact J.
Qed.
Definition segKeys := ["pid"; "tid"; "isSent"; "threadName"; "startTime"; "endTime"; "cpuEvents"; "javaFutexEvents"; "transactionIds"; "spans"; "innerCalls"].
Lemma attrs_apart f k : In k segKeys -> ~ In k (keys (toAttributes f)).
Proof.
  intros K J. unfold toAttributes, keys in J. cbn [map fst] in J. destruct (f_srv f); unfold segKeys in K; cbn [In] in K, J;
    repeat (destruct K as [<-|K]; [repeat (destruct J as [J|J]; [discriminate J|]); exact J|]); exact K.
Qed.
Lemma seg_label tl st x texts k : In k segKeys -> aget (cpuGroupLabels tl st x texts) k = aget (segLabels x texts) k.
Proof. intros K. unfold cpuGroupLabels. apply merge_other, attrs_apart, K. Qed.
Ltac insegs := unfold segKeys; cbn [In]; repeat (first [left; reflexivity | right]).
Lemma seg_fixed x c f t s i : let m := segLabels x (segTexts c f t s i) in
  aget m "pid" = Some (IV (x_pid x)) /\ aget m "tid" = Some (IV (x_tid x)) /\ aget m "isSent" = Some (IV (x_sent x)) /\
  aget m "startTime" = Some (IV (s64 (x_start x))).
Proof. cbv zeta. destruct c, f, t, s, i; repeat split; reflexivity. Qed.
Lemma seg_texts x c f t s i : let m := segLabels x (segTexts c f t s i) in
  aget m "cpuEvents" = option_map SV c /\ aget m "javaFutexEvents" = option_map SV f /\ aget m "transactionIds" = option_map SV t /\
  aget m "spans" = option_map SV s /\ aget m "innerCalls" = option_map SV i.
Proof. cbv zeta. destruct c, f, t, s, i; repeat split; reflexivity. Qed.

Lemma write_seg enc suffix tr x doc : In doc (esWrite suffix (segGroup enc tr x)) <-> x_sent x <> 1 /\ doc = (if eqb suffix "" then "camera_event_group" else append "camera_event_group" (append "_" suffix), segGroup enc tr x).
Proof.
  unfold esWrite, segGroup at 1. cbn [glabels]. unfold intOf. rewrite seg_label by insegs. destruct (seg_fixed x (enc (x_cpu x)) (enc (x_futex x)) (enc (x_trans x)) (enc (x_spans x)) (enc (x_inner x))) as (_ & _ & S & _).
  rewrite S. cbn [asInt]. destruct (x_sent x =? 1) eqn:E; cbn [In]; split.
  - intros [].
  - lia.
  - intros [<-|[]]. split; [lia|]. unfold segGroup. cbn [gname]. destruct (eqb suffix ""); reflexivity.
  - intros [_ ->]. left. unfold segGroup. cbn [gname]. destruct (eqb suffix ""); reflexivity.
Qed.
Lemma about_seg enc tr x pid tid s ix : 0 <= s * 1000000000 < 2 ^ 64 -> 0 <= x_start x < 2 ^ 64 ->
  about pid tid s (ix, segGroup enc tr x) <-> x_pid x = pid /\ x_tid x = tid /\ x_start x = s * 1000000000.
Proof.
  intros B C. unfold about, segGroup, intOf. cbn [snd glabels]. rewrite !seg_label by insegs.
  destruct (seg_fixed x (enc (x_cpu x)) (enc (x_futex x)) (enc (x_trans x)) (enc (x_spans x)) (enc (x_inner x))) as (P & T & _ & S).
  rewrite P, T, S. cbn [asInt]. assert (W : w64 (s64 (x_start x)) = x_start x).
  { unfold w64, s64. rewrite Zminus_mod_idemp_l. replace (x_start x + 2 ^ 63 - 2 ^ 63) with (x_start x) by lia. apply Z.mod_small. exact C. }
  rewrite W. split.
  - intros (A1 & A2 & A3). inversion A1. inversion A2. auto.
  - intros (-> & -> & ->). auto.
Qed.

(** ** The history as a list of steps *)
Lemma esRun_nth n d enc suffix : forall h s i, nth_error (esRun n d enc suffix s h) i =
  option_map (fun p => esStep n enc suffix (fold_left (cstep n d) (map fst (firstn i h)) s) (fst p) (snd p)) (nth_error h i).
Proof.
  induction h as [|[o tr] h IH]; intros s i; [destruct i; reflexivity|]. destruct i as [|i]; [reflexivity|].
  cbn [esRun nth_error firstn map fold_left fst snd]. rewrite IH. reflexivity.
Qed.
Notation T n d h pid tid := (tracked (Z.of_nat n) (life d pid tid (rev h))).

Lemma track_start n k s : inv n k s -> 0 <= k_base k /\ (k_base k + Z.of_nat n + 1) * 1000000000 < 2 ^ 64.
Proof. intros (_ & _ & _ & _ & _ & A & B). split; assumption. Qed.

(** A document for a second of a thread comes from a busy, unmarked second of its track. *)
Lemma doc_track n d enc suffix h pid a b tr doc p tid s : good n h -> 0 <= a < 2 ^ 64 -> 0 <= b < 2 ^ 64 -> 0 <= s * 1000000000 < 2 ^ 64 ->
  (In doc (esStep n enc suffix (crun n d h) (OSend pid a b) tr) /\ about p tid s doc) <->
  p = pid /\ isOn (rev h) = true /\ exists k, T n d h pid tid = Some k /\ k_base k <= s < k_base k + Z.of_nat n /\ sec a <= s <= sec b /\
    busy (Z.of_nat n) k s = true /\ k_sent k s = false /\
    doc = (if eqb suffix "" then "camera_event_group" else append "camera_event_group" (append "_" suffix), segGroup enc tr (secondRecord (Z.of_nat n) pid tid k s)).
Proof.
  intros G Ha Hb Hs. cbn [esStep]. destruct (C31_window n d h pid a b G Ha Hb) as (tids & _ & IT & E). rewrite E. clear E.
  pose proof (fun t => good_inv n d h pid t G) as V.
  assert (ST : forall t k i, T n d h pid t = Some k -> (i < n)%nat -> 0 <= (k_base k + Z.of_nat i) * 1000000000 < 2 ^ 64).
  { intros t k i Ek I. specialize (V t). rewrite Ek in V. destruct (ringAfter n d h pid t) as [r|]; [|contradiction]. apply track_start in V. lia. }
  split.
  - intros (I & Ab). apply in_flat_map in I. destruct I as (x & I & W). apply write_seg in W. destruct W as [NS ->].
    destruct (isOn (rev h)); [|destruct I]. apply in_flat_map in I. destruct I as (t & It & I). unfold expectedOf in I.
    destruct (T n d h pid t) as [k|] eqn:Ek; [|destruct I]. apply in_map_iff in I. destruct I as (s' & <- & I). apply filter_In in I. destruct I as [I J].
    unfold secondsOf in I. apply in_map_iff in I. destruct I as (i & <- & I). apply in_seq in I.
    assert (Li : (i < n)%nat) by lia. pose proof (ST t k i Ek Li) as B. apply about_seg in Ab; [|exact Hs|exact B]. cbn [secondRecord x_pid x_tid x_start] in Ab.
    destruct Ab as (<- & -> & Es). assert (s = k_base k + Z.of_nat i) by lia. subst s. split; [reflexivity|]. split; [reflexivity|]. exists k. split; [exact Ek|].
    split; [lia|]. split; [lia|]. split; [lia|]. split; [|reflexivity]. cbn [secondRecord x_sent] in NS. destruct (k_sent k (k_base k + Z.of_nat i)); [congruence|reflexivity].
  - intros (-> & On & k & Ek & Ls & Lw & Bz & Sn & ->). rewrite On. specialize (V tid). rewrite Ek in V. split.
    + apply in_flat_map. exists (secondRecord (Z.of_nat n) pid tid k s). split.
      * apply in_flat_map. exists tid. split; [apply IT; destruct (ringAfter n d h pid tid) as [r|]; [exists r; reflexivity|contradiction]|].
        rewrite Ek. unfold expectedOf. apply in_map. apply filter_In. split; [|lia]. unfold secondsOf. apply in_map_iff. exists (Z.to_nat (s - k_base k)).
        split; [lia|]. apply in_seq. lia.
      * apply write_seg. split; [|reflexivity]. cbn [secondRecord x_sent]. rewrite Sn. discriminate.
    + apply about_seg; [exact Hs|exact Hs|]. cbn [secondRecord x_pid x_tid x_start]. auto.
Qed.

(** ** Once *)
Definition quiet (n : nat) (s : Z) (k : option track) : Prop :=
  match k with None => True | Some k => k_sent k s = true \/ busy (Z.of_nat n) k s = false end.
Lemma quiet_step n d pid tid s rh o : quiet n s (tracked (Z.of_nat n) (life d pid tid rh)) -> ~ touches pid tid s o ->
  quiet n s (tracked (Z.of_nat n) (life d pid tid (o :: rh))).
Proof.
  intros Q NT. destruct o as [| |p t nm e|p a b|p t now|now]; cbn [life]; try exact Q.
  - exact Logic.I.
  - destruct ((p =? pid) && (t =? tid) && isOn rh) eqn:E; [|exact Q]. assert (p = pid /\ t = tid) as [-> ->] by lia.
    assert (NC : forall bb, covers (Z.of_nat n) bb e s = false).
    { intros bb. unfold covers. destruct (sec (t_start e) <=? s) eqn:E1; [|reflexivity]. destruct (s <=? sec (t_end e)) eqn:E2; [|reflexivity].
      exfalso. apply NT. exists nm, e. split; [reflexivity|]. unfold sec in *. lia. }
    rewrite tracked_snoc. destruct (tracked _ (life d pid tid rh)) as [k|]; cbn [trackStep].
    + destruct (sec (t_end e) <? k_base k); [exact Q|]. cbn [quiet] in *. rewrite busy_app. cbn [k_sent]. rewrite NC, orb_false_r. exact Q.
    + cbn [quiet]. right. unfold busy. cbn [k_recs existsb fst snd]. rewrite NC. reflexivity.
  - destruct ((p =? pid) && isOn rh); [|exact Q]. rewrite tracked_snoc. destruct (tracked _ (life d pid tid rh)) as [k|]; cbn [trackStep]; [|exact Logic.I].
    cbn [quiet k_sent] in *. destruct Q as [Q|Q]; [left|right; exact Q]. rewrite Q. destruct (_ && _); reflexivity.
  - destruct (due d pid tid now [] rh); [exact Logic.I|exact Q].
Qed.
Lemma quiet_run n d pid tid s h : forall h2, quiet n s (T n d h pid tid) -> (forall o, In o h2 -> ~ touches pid tid s o) -> quiet n s (T n d (h ++ h2) pid tid).
Proof.
  induction h2 as [|o h2 IH] using rev_ind; intros Q NT; [rewrite app_nil_r; exact Q|]. rewrite app_assoc, rev_app_distr. cbn [rev app].
  apply quiet_step; [|apply NT, in_or_app; right; left; reflexivity]. apply IH; [exact Q|]. intros o' I. apply NT, in_or_app. left. exact I.
Qed.

Lemma esStep_doc n enc suffix s o tr doc : In doc (esStep n enc suffix s o tr) -> exists pid a b, o = OSend pid a b.
Proof. destruct o; cbn [esStep]; intros I; first [destruct I; fail | do 3 eexists; reflexivity]. Qed.
Lemma good_firstn n (h : list (cop * (labels * Z))) i : good n (map fst h) -> good n (map fst (firstn i h)).
Proof. intros G. rewrite <- (firstn_skipn i h), map_app in G. exact (good_app _ _ _ G). Qed.
Lemma good_send n (h : list (cop * (labels * Z))) i pid a b tr : good n (map fst h) -> nth_error h i = Some (OSend pid a b, tr) -> 0 <= a < 2 ^ 64 /\ 0 <= b < 2 ^ 64.
Proof.
  intros (_ & _ & _ & S) N. rewrite Forall_forall in S. apply (S (OSend pid a b)). apply nth_error_In in N. apply (in_map fst) in N. exact N.
Qed.
Lemma about_doc n d enc suffix h i docs doc pid tid s : good n (map fst h) -> nth_error (esRun n d enc suffix cpu0 h) i = Some docs -> In doc docs -> about pid tid s doc ->
  exists a b tr, nth_error h i = Some (OSend pid a b, tr) /\ isOn (rev (map fst (firstn i h))) = true /\ sec a <= s <= sec b /\
    exists k, T n d (map fst (firstn i h)) pid tid = Some k /\ busy (Z.of_nat n) k s = true /\ k_sent k s = false.
Proof.
  intros G N I Ab. rewrite esRun_nth in N. destruct (nth_error h i) as [[o tr]|] eqn:E; [|discriminate N]. cbn [option_map fst snd] in N.
  inversion N as [N']. clear N. rewrite <- N' in I. fold (crun n d (map fst (firstn i h))) in I.
  destruct (esStep_doc _ _ _ _ _ _ _ I) as (p & a & b & ->). destruct (good_send n h i p a b tr G E) as [Ha Hb].
  assert (Hs : 0 <= s * 1000000000 < 2 ^ 64).
  { destruct Ab as (_ & _ & Ab). rewrite <- Ab. unfold w64. apply Z.mod_pos_bound. lia. }
  destruct (proj1 (doc_track n d enc suffix (map fst (firstn i h)) p a b tr doc pid tid s (good_firstn n h i G) Ha Hb Hs) (conj I Ab)) as (-> & On & k & Ek & _ & Lw & Bz & Sn & _).
  exists a, b, tr. split; [reflexivity|]. split; [exact On|]. split; [exact Lw|]. exists k. auto.
Qed.

(** * C81 *)
(** A second of a thread is indexed again only after another event that covers it has arrived. *)
Theorem C81_once n d enc suffix h i j docs1 docs2 doc1 doc2 pid tid s : good n (map fst h) -> (i < j)%nat ->
  nth_error (esRun n d enc suffix cpu0 h) i = Some docs1 -> In doc1 docs1 -> about pid tid s doc1 ->
  nth_error (esRun n d enc suffix cpu0 h) j = Some docs2 -> In doc2 docs2 -> about pid tid s doc2 ->
  exists m o, (i < m < j)%nat /\ nth_error (map fst h) m = Some o /\ touches pid tid s o.
Proof.
  intros G L N1 I1 A1 N2 I2 A2. destruct (about_doc _ _ _ _ _ _ _ _ _ _ _ G N1 I1 A1) as (a & b & tr & E1 & On & Lw & k & Ek & Bz & Sn).
  destruct (about_doc _ _ _ _ _ _ _ _ _ _ _ G N2 I2 A2) as (a' & b' & tr' & E2 & On' & _ & k' & Ek' & Bz' & Sn').
  set (mid := firstn (j - S i) (skipn (S i) h)).
  assert (Fj : firstn j h = (firstn i h ++ [(OSend pid a b, tr)]) ++ mid).
  { replace j with (S i + (j - S i))%nat at 1 by lia. rewrite <- (firstn_skipn (S i) h) at 1. rewrite firstn_app.
    assert (Lh : (S i <= List.length h)%nat) by (assert (i < List.length h)%nat by (apply nth_error_Some; congruence); lia).
    rewrite firstn_length_le by lia. rewrite firstn_firstn. replace (Nat.min (S i + (j - S i)) (S i)) with (S i) by lia.
    replace (S i + (j - S i) - S i)%nat with (j - S i)%nat by lia. fold mid. f_equal.
    clear - E1. revert i E1. induction h as [|x h IH]; intros [|i] E; [discriminate E|discriminate E|inversion E; reflexivity|]. cbn [firstn app]. f_equal. apply IH. exact E. }
  assert (Q : quiet n s (T n d (map fst (firstn i h) ++ [OSend pid a b]) pid tid)).
  { rewrite rev_app_distr. cbn [rev app life]. rewrite Z.eqb_refl, On. cbn [andb]. rewrite tracked_snoc, Ek. cbn [trackStep quiet k_sent]. left.
    replace ((sec a <=? s) && (s <=? sec b)) with true by lia. reflexivity. }
  assert (DEC : forall o, {touches pid tid s o} + {~ touches pid tid s o}).
  { intros o. destruct o as [| |p t nm e|p a0 b0|p t now|now]; try (right; intros (? & ? & X & _); discriminate X).
    destruct ((p =? pid) && (t =? tid) && (t_start e / 1000000000 <=? s) && (s <=? t_end e / 1000000000)) eqn:E.
    - left. exists nm, e. assert (p = pid /\ t = tid) as [-> ->] by lia. split; [reflexivity|lia].
    - right. intros (nm' & e' & X & Y). inversion X; subst. lia. }
  destruct (Exists_dec (touches pid tid s) (map fst mid) DEC) as [X|X].
  - apply Exists_exists in X. destruct X as (o & Io & To). apply In_nth_error in Io. destruct Io as [q Eq]. exists (S i + q)%nat, o.
    assert (Lq : (q < j - S i)%nat).
    { assert (q < List.length (map fst mid))%nat by (apply nth_error_Some; congruence). rewrite map_length in H. unfold mid in H. pose proof (firstn_le_length (j - S i) (skipn (S i) h)). lia. }
    split; [lia|]. split; [|exact To]. rewrite nth_error_map in *. unfold mid in Eq. destruct (nth_error (firstn (j - S i) (skipn (S i) h)) q) as [y|] eqn:Ey; [|discriminate Eq].
    rewrite <- (firstn_skipn (S i) h). assert (Lh : (S i <= List.length h)%nat) by (assert (i < List.length h)%nat by (apply nth_error_Some; congruence); lia).
    rewrite nth_error_app2; rewrite firstn_length_le by lia; [|lia]. replace (S i + q - S i)%nat with q by lia.
    rewrite <- (firstn_skipn (j - S i) (skipn (S i) h)), nth_error_app1 by (apply nth_error_Some; congruence). rewrite Ey. exact Eq.
  - exfalso. assert (Q2 : quiet n s (T n d (map fst (firstn j h)) pid tid)).
    { rewrite Fj, map_app, map_app. apply quiet_run; [exact Q|]. intros o Io To. apply X. apply Exists_exists. exists o. auto. }
    rewrite Ek' in Q2. cbn [quiet] in Q2. rewrite Bz', Sn' in Q2. destruct Q2; discriminate.
Qed.
Print Assumptions C81_once.

(** ** Nothing missing *)
Definition kept (n : nat) (enc : list tev -> option bytes) (k : track) (s : Z) (doc : string * group) : Prop :=
  let m := glabels (snd doc) in
  gts (snd doc) = s * 1000000000 /\ aget m "cpuEvents" = option_map SV (enc (eventsOf (Z.of_nat n) (k_recs k) KCpu s)) /\
  aget m "javaFutexEvents" = option_map SV (enc (eventsOf (Z.of_nat n) (k_recs k) KFutex s)) /\
  aget m "transactionIds" = option_map SV (enc (eventsOf (Z.of_nat n) (k_recs k) KTransaction s)) /\
  aget m "spans" = option_map SV (enc (eventsOf (Z.of_nat n) (k_recs k) KSpan s)) /\
  aget m "innerCalls" = option_map SV (enc (eventsOf (Z.of_nat n) (k_recs k) KInner s)).
Lemma kept_seg n enc tr pid tid k s ix : kept n enc k s (ix, segGroup enc tr (secondRecord (Z.of_nat n) pid tid k s)).
Proof.
  unfold kept, segGroup. cbn [snd glabels gts]. split; [reflexivity|]. rewrite !seg_label by insegs.
  apply (seg_texts (secondRecord (Z.of_nat n) pid tid k s)).
Qed.
Lemma kept_ext n enc k k' s doc : (forall kd, eventsOf (Z.of_nat n) (k_recs k') kd s = eventsOf (Z.of_nat n) (k_recs k) kd s) -> kept n enc k s doc -> kept n enc k' s doc.
Proof. intros E K. unfold kept in *. cbv zeta in *. rewrite !E. exact K. Qed.
Definition sofar (n : nat) d enc suffix h : list (string * group) := List.concat (esRun n d enc suffix cpu0 h).
Lemma esRun_app n d enc suffix : forall h h' s, esRun n d enc suffix s (h ++ h') = esRun n d enc suffix s h ++ esRun n d enc suffix (fold_left (cstep n d) (map fst h) s) h'.
Proof. induction h as [|[o tr] h IH]; intros h' s; [reflexivity|]. cbn [app esRun map fst fold_left]. rewrite IH. reflexivity. Qed.
Lemma sofar_snoc n d enc suffix h o tr : sofar n d enc suffix (h ++ [(o, tr)]) = sofar n d enc suffix h ++ esStep n enc suffix (crun n d (map fst h)) o tr.
Proof. unfold sofar. rewrite esRun_app, concat_app. cbn [esRun List.concat]. rewrite app_nil_r. reflexivity. Qed.

Lemma sent_kept n d enc suffix : forall h, good n (map fst h) -> forall pid tid k s, T n d (map fst h) pid tid = Some k -> k_base k <= s ->
  busy (Z.of_nat n) k s = true -> k_sent k s = true -> exists doc, In doc (sofar n d enc suffix h) /\ about pid tid s doc /\ kept n enc k s doc.
Proof.
  induction h as [|[o tr] h IH] using rev_ind; intros G pid tid k s Ek L Bz Sn; [discriminate Ek|].
  rewrite map_app in Ek, G. cbn [map fst] in Ek, G. pose proof (good_app _ _ _ G) as G0. specialize (IH G0 pid tid).
  assert (KEEP : forall k0, T n d (map fst h) pid tid = Some k0 -> k_base k0 <= s -> busy (Z.of_nat n) k0 s = true -> k_sent k0 s = true ->
            (forall kd, eventsOf (Z.of_nat n) (k_recs k) kd s = eventsOf (Z.of_nat n) (k_recs k0) kd s) ->
            exists doc, In doc (sofar n d enc suffix (h ++ [(o, tr)])) /\ about pid tid s doc /\ kept n enc k s doc).
  { intros k0 E0 L0 B0 S0 X. destruct (IH k0 s E0 L0 B0 S0) as (doc & I & A & K). exists doc. rewrite sofar_snoc. split; [apply in_or_app; left; exact I|].
    split; [exact A|]. exact (kept_ext _ _ _ _ _ _ X K). }
  rewrite rev_app_distr in Ek. cbn [rev app] in Ek. destruct o as [| |p t nm e|p a b|p t now|now]; cbn [life] in Ek;
    try (apply (KEEP k Ek L Bz Sn); intros kd; reflexivity).
  - discriminate Ek.
  - destruct ((p =? pid) && (t =? tid) && isOn (rev (map fst h))); [|apply (KEEP k Ek L Bz Sn); intros kd; reflexivity].
    rewrite tracked_snoc in Ek. destruct (tracked _ (life d pid tid (rev (map fst h)))) as [k0|] eqn:E0; cbn [trackStep] in Ek.
    + destruct (sec (t_end e) <? k_base k0) eqn:F; [inversion Ek; subst k0; apply (KEEP k eq_refl L Bz Sn); intros kd; reflexivity|].
      pose proof (nextBase_ge (Z.of_nat n) (k_base k0) (sec (t_start e)) (sec (t_end e))) as NB. destruct G as (_ & Pn & _).
      inversion Ek as [Ek']. subst k. clear Ek. cbn [k_base k_sent k_recs] in *. rewrite busy_app in Bz.
      destruct (covers _ _ e s) eqn:C; [discriminate Sn|]. rewrite orb_false_r in Bz. apply (KEEP k0 eq_refl ltac:(lia) Bz Sn).
      intros kd. rewrite eventsOf_app, C, andb_false_r, app_nil_r. reflexivity.
    + inversion Ek; subst k. discriminate Sn.
  - destruct ((p =? pid) && isOn (rev (map fst h))) eqn:E; [|apply (KEEP k Ek L Bz Sn); intros kd; reflexivity].
    apply andb_true_iff in E. destruct E as [Ep On]. apply Z.eqb_eq in Ep. subst p.
    rewrite tracked_snoc in Ek. destruct (tracked _ (life d pid tid (rev (map fst h)))) as [k0|] eqn:E0; cbn [trackStep] in Ek; [|discriminate Ek].
    inversion Ek as [Ek']. subst k. clear Ek. cbn [k_base k_sent k_recs] in *. change (busy (Z.of_nat n) k0 s = true) in Bz.
    destruct (k_sent k0 s) eqn:S0; [apply (KEEP k0 eq_refl L Bz S0); intros kd; reflexivity|].
    destruct ((sec a <=? s) && (s <=? sec b)) eqn:W; [|discriminate Sn].
    pose proof (good_inv n d (map fst h) pid tid G0) as V. rewrite E0 in V. destruct (ringAfter n d (map fst h) pid tid) as [r|]; [|contradiction].
    destruct V as (_ & _ & _ & _ & Wi & P1 & P2).
    assert (Us : s < k_base k0 + Z.of_nat n). { destruct (Z_lt_ge_dec s (k_base k0 + Z.of_nat n)) as [|H]; [assumption|]. rewrite beyond_idle in Bz by (try exact Wi; lia). discriminate Bz. }
    destruct G as (_ & _ & _ & SO). rewrite Forall_forall in SO. destruct (SO (OSend pid a b)) as [Ha Hb]; [apply in_or_app; right; left; reflexivity|].
    assert (Hs : 0 <= s * 1000000000 < 2 ^ 64) by lia.
    destruct (proj2 (doc_track n d enc suffix (map fst h) pid a b tr (if eqb suffix "" then "camera_event_group" else append "camera_event_group" (append "_" suffix), segGroup enc tr (secondRecord (Z.of_nat n) pid tid k0 s)) pid tid s G0 Ha Hb Hs)) as [D1 D2].
    { split; [reflexivity|]. split; [exact On|]. exists k0. split; [exact E0|]. split; [lia|]. split; [lia|]. auto. }
    eexists. rewrite sofar_snoc. split; [apply in_or_app; right; exact D1|]. split; [exact D2|]. apply (kept_ext n enc k0); [intros kd; reflexivity|]. apply kept_seg.
  - destruct (due d pid tid now [] (rev (map fst h))); [discriminate Ek|]. apply (KEEP k Ek L Bz Sn); intros kd; reflexivity.
Qed.

(** After a window of a process was sent, every second of the window that holds events of one of its threads is in Elasticsearch with all
    the events it holds: in a document of this send or of an earlier one. *)
Theorem C81_indexed n d enc suffix h pid a b tr tid r i g : good n (map (@fst _ _) (h ++ [(OSend pid a b, tr)])) -> isOn (rev (map fst h)) = true ->
  ringAfter n d (map fst h) pid tid = Some r -> nth_error (r_segs r) i = Some g -> isNotEmpty g = true -> sec a * 1000000000 <= g_start g <= b ->
  exists doc, In doc (List.concat (esRun n d enc suffix cpu0 (h ++ [(OSend pid a b, tr)]))) /\ about pid tid (g_start g / 1000000000) doc /\ holds enc g doc.
Proof.
  intros G On R Gn Ne W. pose proof G as G'. rewrite map_app in G'. cbn [map fst] in G'. pose proof (good_app _ _ _ G') as G0.
  pose proof (good_inv n d (map fst h) pid tid G0) as V. rewrite R in V. destruct (T n d (map fst h) pid tid) as [k|] eqn:Ek; [|contradiction].
  destruct V as (V1 & V2 & V3 & V4 & V5 & V6 & V7). pose proof (V4 _ _ Gn) as S. pose proof (slot_busy _ _ _ _ S) as Sb. destruct S as (S1 & S2 & S3 & S4).
  rewrite Ne in Sb. symmetry in Sb. set (s := k_base k + Z.of_nat i) in *.
  assert (i < n)%nat by (rewrite <- V3; apply nth_error_Some; congruence).
  assert (Es : g_start g / 1000000000 = s) by (rewrite S1; apply Z.div_mul; lia). rewrite Es.
  assert (Lw : sec a <= s <= sec b). { unfold sec in *. rewrite S1 in W. pose proof (Z.div_mod b 1000000000). pose proof (Z.mod_pos_bound b 1000000000). lia. }
  destruct (sent_kept n d enc suffix (h ++ [(OSend pid a b, tr)]) G pid tid
     {| k_base := k_base k; k_name := k_name k; k_recs := k_recs k; k_sent := fun s => if (sec a <=? s) && (s <=? sec b) then true else k_sent k s |} s) as (doc & I & A & K).
  - rewrite map_app. cbn [map fst]. rewrite rev_app_distr. cbn [rev app life]. rewrite Z.eqb_refl, On. cbn [andb]. rewrite tracked_snoc, Ek. reflexivity.
  - cbn [k_base]. lia.
  - exact Sb.
  - cbn [k_sent]. replace ((sec a <=? s) && (s <=? sec b)) with true by lia. reflexivity.
  - exists doc. split; [exact I|]. split; [exact A|]. unfold kept in K. cbn [k_recs] in K. cbv zeta in K. rewrite <- (S3 KCpu), <- (S3 KFutex), <- (S3 KTransaction), <- (S3 KSpan), <- (S3 KInner), <- S1 in K. exact K.
Qed.
Print Assumptions C81_indexed.

(** Every document of the profiling data is of the index the configuration names, and only groups whose label isSent is 1 are left out. *)
Theorem C81_written suffix g : esWrite suffix g =
  if intOf (glabels g) "isSent" =? 1 then [] else [(match suffix with ""%string => gname g | _ => (gname g ++ "_" ++ suffix)%string end, g)].
Proof. unfold esWrite. destruct (intOf (glabels g) "isSent" =? 1); [reflexivity|]. destruct suffix; reflexivity. Qed.
Print Assumptions C81_written.

(** ** Traces *)
Lemma lastOf_get {A} : forall (l : list (string * A)) (k : string), NoDup (keys l) -> aget l k = lastOf l k.
Proof.
  induction l as [|[k' v] l IH]; intros k ND; [reflexivity|]. cbn [lastOf aget]. inversion ND as [|? ? NI ND']; subst. specialize (IH k ND').
  case_eqb k k'.
  - subst k'. assert (N : aget l k = None) by (apply aget_none_notin; exact NI). rewrite <- IH, N, eqb_refl. reflexivity.
  - rewrite IH. destruct (lastOf l k); [reflexivity|]. case_eqb k' k; [congruence|reflexivity].
Qed.
Lemma lastOf_fold {A B} (f : A -> B) : forall (l : list (string * A)) acc k,
  aget (fold_left (fun acc p => aset acc (fst p) (f (snd p))) l acc) k = match lastOf l k with Some v => Some (f v) | None => aget acc k end.
Proof.
  induction l as [|[k' v] l IH]; intros acc k; [reflexivity|]. cbn [fold_left fst snd lastOf]. rewrite IH. destruct (lastOf l k); [reflexivity|].
  rewrite aget_aset. case_eqb k k'; case_eqb k' k; try congruence; reflexivity.
Qed.
Lemma intMetrics_spec : forall ms acc, match intMetrics acc ms with
  | Ok l => (forall m d, In (m, d) ms -> exists v, d = MInt v) /\ forall k, aget l k = match lastOf ms k with Some (MInt v) => Some v | Some _ => None | None => aget acc k end
  | _ => intMetrics acc ms = Panic /\ exists m s c b k, In (m, MHist s c b k) ms end.
Proof.
  induction ms as [|[m [v|s c b q]] ms IH]; intros acc; cbn [intMetrics].
  - split; [intros m d []|reflexivity].
  - specialize (IH (aset acc m v)). destruct (intMetrics (aset acc m v) ms) as [l| |].
    + destruct IH as [A B]. split.
      * intros m' d' [E|I]; [inversion E; subst; exists v; reflexivity|exact (A m' d' I)].
      * intros k. rewrite B. cbn [lastOf]. destruct (lastOf ms k); [reflexivity|]. rewrite aget_aset. case_eqb k m; case_eqb m k; try congruence; reflexivity.
    + destruct IH as [A (m' & s & c & b & q & I)]. split; [exact A|]. exists m', s, c, b, q. right. exact I.
    + destruct IH as [A (m' & s & c & b & q & I)]. split; [exact A|]. exists m', s, c, b, q. right. exact I.
  - split; [reflexivity|]. exists m, s, c, b, q. left. reflexivity.
Qed.

(** With a reachable server, the group of an abnormal request whose metrics are integers becomes one document with its name, its time, the
    last value of each metric and the text of each label. *)
Theorem C81_trace index g : gname g = "single_net_request_metric_group" -> (forall m d, In (m, d) (gmetrics g) -> exists v, d = MInt v) ->
  exists doc, esConsume true index (Some g) = Ok [(match index with ""%string => "kindling_trace" | _ => index end, doc)] /\
    td_name doc = gname g /\ td_ts doc = gts g /\
    (forall m, aget (td_metrics doc) m = match lastOf (gmetrics g) m with Some (MInt v) => Some v | _ => None end) /\
    (forall k, aget (td_labels doc) k = option_map toString (lastOf (glabels g) k)).
Proof.
  intros N IM. unfold esConsume. rewrite N. change (eqb "single_net_request_metric_group" AggregatedNetRequestMetricGroup) with false.
  change (eqb "single_net_request_metric_group" SingleNetRequestMetricGroup) with true. cbv iota. unfold sendTrace.
  pose proof (intMetrics_spec (gmetrics g) []) as S. destruct (intMetrics [] (gmetrics g)) as [l| |].
  - cbn [bind]. destruct S as [_ S]. eexists. split; [destruct index; reflexivity|]. cbn [td_name td_ts td_metrics td_labels]. split; [exact N|]. split; [reflexivity|].
    split; [intros m; rewrite S; destruct (lastOf (gmetrics g) m) as [[]|]; reflexivity|].
    intros k. unfold labelTexts. rewrite (lastOf_fold toString). destruct (lastOf (glabels g) k); reflexivity.
  - destruct S as [_ (m & s & c & b & q & I)]. destruct (IM _ _ I) as [v E]. discriminate E.
  - destruct S as [_ (m & s & c & b & q & I)]. destruct (IM _ _ I) as [v E]. discriminate E.
Qed.
Print Assumptions C81_trace.

(** Everything else leaves no document: no group, a group of another name, no server. *)
Theorem C81_nothing client index g : client = false \/ g = None \/ (exists g', g = Some g' /\ gname g' <> "single_net_request_metric_group") -> esConsume client index g = Ok [].
Proof.
  intros [->|[->|(g' & -> & N)]]; [|reflexivity|].
  - destruct g as [g|]; [|reflexivity]. unfold esConsume, sendTrace. destruct (eqb _ _); [reflexivity|]. destruct (eqb _ _); reflexivity.
  - unfold esConsume. destruct (eqb _ _); [reflexivity|]. destruct (eqb (gname g') SingleNetRequestMetricGroup) eqn:E; [|reflexivity].
    exfalso. apply N. apply eqb_true in E. exact E.
Qed.
Print Assumptions C81_nothing.

(** A histogram among the metrics of an abnormal request, and nothing else, makes the exporter panic. *)
Theorem C81_histogram client index g : esConsume client index g = Panic <->
  client = true /\ exists g' m s c b k, g = Some g' /\ gname g' = "single_net_request_metric_group" /\ In (m, MHist s c b k) (gmetrics g').
Proof.
  split.
  - destruct g as [g|]; [|discriminate]. unfold esConsume. destruct (eqb (gname g) AggregatedNetRequestMetricGroup); [discriminate|].
    destruct (eqb (gname g) SingleNetRequestMetricGroup) eqn:E; [|discriminate]. apply eqb_true in E. unfold sendTrace. destruct client; [|discriminate].
    intros P. split; [reflexivity|]. pose proof (intMetrics_spec (gmetrics g) []) as S. destruct (intMetrics [] (gmetrics g)) as [l| |]; [discriminate P| |];
      destruct S as [_ (m & s & c & b & q & I)]; exists g, m, s, c, b, q; auto.
  - intros (-> & g' & m & s & c & b & q & -> & N & I). unfold esConsume. rewrite N. change (eqb "single_net_request_metric_group" AggregatedNetRequestMetricGroup) with false.
    change (eqb "single_net_request_metric_group" SingleNetRequestMetricGroup) with true. cbv iota. unfold sendTrace.
    pose proof (intMetrics_spec (gmetrics g') []) as S. destruct (intMetrics [] (gmetrics g')) as [l| |] eqn:E.
    + destruct S as [S _]. destruct (S _ _ I) as [v X]. discriminate X.
    + destruct S as [S _]. discriminate S.
    + reflexivity.
Qed.
Print Assumptions C81_histogram.

(** ** The configured storage *)
(** An exporter that was created with one of the two storages takes every group. *)
Theorem C81_storage storage es reachable files w g : storage = "elasticsearch" \/ storage = "file" -> newCamera storage es reachable files = Ok w ->
  exists docs, cameraConsume w g = Ok docs /\
    (storage = "elasticsearch" -> exists suffix, es = Some suffix /\ docs = if intOf (glabels g) "isSent" =? 1 then [] else [(match suffix with ""%string => gname g | _ => (gname g ++ "_" ++ suffix)%string end, g)]) /\
    (storage = "file" -> docs = []).
Proof.
  intros [->| ->] N; unfold newCamera in N.
  - change (eqb "elasticsearch" "elasticsearch") with true in N. cbv iota in N. destruct es as [suffix|]; [|discriminate N]. destruct reachable; [|discriminate N]. inversion N. eexists. split; [reflexivity|].
    split; [intros _; exists suffix; split; [reflexivity|apply C81_written]|discriminate].
  - change (eqb "file" "elasticsearch") with false in N. change (eqb "file" "file") with true in N. cbv iota in N. destruct files; [|discriminate N]. inversion N. eexists. split; [reflexivity|].
    split; [discriminate|reflexivity].
Qed.
Print Assumptions C81_storage.

(** A storage of any other name is accepted when the collector starts, and then the first group, whatever it is, crashes the collector. *)
Theorem C81_other_storage_refuted : ~ forall storage es reachable files w g, newCamera storage es reachable files = Ok w -> exists docs, cameraConsume w g = Ok docs.
Proof.
  intros H. destruct (H "es" (Some "") true true WNone {| gname := ""; gmetrics := []; glabels := []; gts := 0 |} eq_refl) as [docs D]. discriminate D.
Qed.
Print Assumptions C81_other_storage_refuted.

(** ** Examples *)
Definition exEnc (l : list tev) : option bytes := Some [zlen l].
Definition exEv (a b : Z) : tev := {| t_kind := KCpu; t_start := a * nano; t_end := b * nano; t_data := [] |}.
Definition exTr : labels * Z := ([("isServer", BV true)], 5).
Definition exHist : list (cop * (labels * Z)) :=
  [(OStart, exTr); (OPut 7 8 (bs "t") (exEv 10 12), exTr); (OSend 7 (11 * nano) (12 * nano), exTr); (OSend 7 (10 * nano) (12 * nano), exTr);
   (OPut 7 8 (bs "t") (exEv 12 13), exTr); (OSend 7 (10 * nano) (13 * nano), exTr)].
(** Two seconds first, then the one that was not in the window, then the one that got another event and the new one. *)
Example C81_example : map (map (fun doc => (fst doc, intOf (glabels (snd doc)) "startTime" / nano, strOf (glabels (snd doc)) "cpuEvents"))) (esRun 4 0 exEnc "x" cpu0 exHist) =
  [[]; []; [("camera_event_group_x", 11, [1]); ("camera_event_group_x", 12, [1])]; [("camera_event_group_x", 10, [1])]; [];
   [("camera_event_group_x", 12, [2]); ("camera_event_group_x", 13, [1])]].
Proof. vm_compute. reflexivity. Qed.
Example C81_hypotheses : good 4 (map fst exHist) /\
  (exists docs1 docs2 doc1 doc2, nth_error (esRun 4 0 exEnc "x" cpu0 exHist) 2 = Some docs1 /\ nth_error (esRun 4 0 exEnc "x" cpu0 exHist) 5 = Some docs2 /\
     In doc1 docs1 /\ In doc2 docs2 /\ about 7 8 12 doc1 /\ about 7 8 12 doc2) /\
  (exists r g, ringAfter 4 0 (map fst (firstn 5 exHist)) 7 8 = Some r /\ nth_error (r_segs r) 2 = Some g /\ isNotEmpty g = true /\ g_start g = 12 * nano).
Proof.
  split; [|split].
  - split; [exists 2%nat; reflexivity|]. split; [lia|]. split; [cbn; auto|].
    repeat (constructor; [cbn [map fst saneOp]; unfold saneTime, sec, exEv, nano; cbn [t_start t_end]; try exact Logic.I; vm_compute; intuition congruence|]). constructor.
  - eexists. eexists. eexists. eexists. split; [vm_compute; reflexivity|]. split; [vm_compute; reflexivity|]. split; [right; left; reflexivity|]. split; [left; reflexivity|].
    split; vm_compute; auto.
  - eexists. eexists. split; [vm_compute; reflexivity|]. split; [vm_compute; reflexivity|]. split; vm_compute; reflexivity.
Qed.
Example C81_trace_example : esConsume true "" (Some {| gname := "single_net_request_metric_group"; gmetrics := [("d", MInt 3); ("d", MInt 4)]; glabels := [("k", BV true)]; gts := 9 |}) =
  Ok [("kindling_trace", {| td_name := "single_net_request_metric_group"; td_metrics := [("d", 4)]; td_labels := [("k", bs "true")]; td_ts := 9 |})].
Proof. vm_compute. reflexivity. Qed.
