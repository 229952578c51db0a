(** C30 the segments of a thread, C31 what a trigger sends, C32 the data of exited threads. *)
From Verif Require Import Base AttrModel AttrProofs CpuModel CpuSpec CpuProofs CpuWorld.
From Coq Require Import ZifyBool FinFun.
Open Scope string_scope. Open Scope list_scope. Open Scope Z_scope.

(** The ring kept for a thread after a history. *)
Definition ringAfter (n : nat) (d : Z) (h : list cop) (pid tid : Z) : option ring := aget (threads (crun n d h) pid) tid.
(** The conditions on histories: an even positive ring size (40 by default), a clock that does not go back, timestamps that do not wrap. *)
Definition good (n : nat) (h : list cop) : Prop :=
  Nat.Even n /\ (0 < n)%nat /\ nondecreasing (times h) /\ Forall (saneOp (Z.of_nat n)) h.

Lemma good_inv n d h pid tid : good n h ->
  match ringAfter n d h pid tid, tracked (Z.of_nat n) (life d pid tid (rev h)) with Some r, Some k => inv n k r | None, None => True | _, _ => False end.
Proof.
  intros ([c Ec] & P & T & S). unfold ringAfter. pose proof (crun_world n d h T) as [_ _ R _ _]. rewrite <- ringOf_threads, R.
  apply (trun_inv n c); [lia|lia|]. apply life_sane. exact S.
Qed.
Lemma good_app n h h' : good n (h ++ h') -> good n h.
Proof.
  intros (A & B & C & D). rewrite times_app in C. apply nondecreasing_app in C. apply Forall_app in D. split; [exact A|]. split; [exact B|]. split; [apply C|apply D].
Qed.

(** * C30 *)
(** After any history, slot [i] of a thread's ring is second base + [i] and holds exactly the events that cover it, per kind, in order of arrival. *)
Theorem C30_ring n d h pid tid r : good n h -> ringAfter n d h pid tid = Some r ->
  exists k, tracked (Z.of_nat n) (life d pid tid (rev h)) = Some k /\ shows (Z.of_nat n) k r.
Proof.
  intros G H. pose proof (good_inv n d h pid tid G) as V. rewrite H in V. destruct (tracked _ _) as [k|]; [|contradiction]. exists k. split; [reflexivity|apply inv_shows; exact V].
Qed.
Print Assumptions C30_ring.

Lemma life_put d pid tid h nm e : isOn (rev h) = true -> life d pid tid (rev (h ++ [OPut pid tid nm e])) = life d pid tid (rev h) ++ [IPut nm e].
Proof. intros On. rewrite rev_app_distr. cbn [rev app life]. rewrite !Z.eqb_refl, On. reflexivity. Qed.
Lemma tracked_snoc n l it : tracked n (l ++ [it]) = trackStep n (tracked n l) it.
Proof. unfold tracked. rewrite fold_left_app. reflexivity. Qed.

Lemma nextBase_ge n b s f : 0 < n -> b <= nextBase n b s f.
Proof. intros P. unfold nextBase. pose proof (Z.div_pos n 2). destruct (_ || _); [|lia]. destruct (3 * n <=? 2 * (s - b)) eqn:E; lia. Qed.

(** The window only moves forward. *)
Theorem C30_forward n d h pid tid nm e r : good n (h ++ [OPut pid tid nm e]) -> isOn (rev h) = true -> ringAfter n d h pid tid = Some r ->
  exists r', ringAfter n d (h ++ [OPut pid tid nm e]) pid tid = Some r' /\ r_base r <= r_base r'.
Proof.
  intros G On H. pose proof (good_inv n d _ pid tid G) as V. pose proof (good_inv n d _ pid tid (good_app _ _ _ G)) as U. rewrite H in U.
  rewrite life_put, tracked_snoc in V by exact On. destruct (tracked (Z.of_nat n) (life d pid tid (rev h))) as [k|]; [|contradiction]. cbn [trackStep] in V.
  destruct G as (_ & P & _ & _). assert (Pn : 0 < Z.of_nat n) by lia.
  destruct (sec (t_end e) <? k_base k); (destruct (ringAfter n d (h ++ [OPut pid tid nm e]) pid tid) as [r'|]; [|contradiction]); exists r'; (split; [reflexivity|]).
  - destruct U as (U & _). destruct V as (V & _). lia.
  - destruct U as (U & _). destruct V as (V & _). cbn [k_base] in V. rewrite U, V. apply nextBase_ge. exact Pn.
Qed.
Print Assumptions C30_forward.

(** An arriving event that does not end before the window is stored, last of its kind, in its first second that is in the window. *)
Theorem C30_stored n d h pid tid nm e : good n (h ++ [OPut pid tid nm e]) -> isOn (rev h) = true -> t_start e <= t_end e ->
  (forall r, ringAfter n d h pid tid = Some r -> r_base r <= sec (t_end e)) ->
  exists r i g l, ringAfter n d (h ++ [OPut pid tid nm e]) pid tid = Some r /\ nth_error (r_segs r) i = Some g /\
    r_base r + Z.of_nat i = Z.max (r_base r) (sec (t_start e)) /\ kl g (t_kind e) = l ++ [e] /\ r_name r = nm.
Proof.
  intros G On SE Hb. pose proof (good_inv n d _ pid tid G) as V. pose proof (good_inv n d _ pid tid (good_app _ _ _ G)) as U.
  rewrite life_put, tracked_snoc in V by exact On. destruct G as ([c Ec] & P & _ & _).
  assert (SS : sec (t_start e) <= sec (t_end e)) by (apply Z.div_le_mono; lia).
  set (K := tracked (Z.of_nat n) (life d pid tid (rev h))) in *.
  assert (X : exists k', trackStep (Z.of_nat n) K (IPut nm e) = Some k' /\ k_name k' = nm /\
    (exists l, k_recs k' = l ++ [(e, k_base k')]) /\ Z.max (k_base k') (sec (t_start e)) <= sec (t_end e) /\ Z.max (k_base k') (sec (t_start e)) < k_base k' + Z.of_nat n).
  { destruct K as [k|]; cbn [trackStep].
    - assert (B : k_base k <= sec (t_end e)).
      { destruct (ringAfter n d h pid tid) as [r|]; [|contradiction]. specialize (Hb r eq_refl). destruct U as (U & _). lia. }
      replace (sec (t_end e) <? k_base k) with false by lia. eexists. split; [reflexivity|]. cbn [k_name k_recs k_base]. split; [reflexivity|].
      split; [exists (k_recs k); reflexivity|]. unfold nextBase. assert (Ez : Z.of_nat n / 2 = Z.of_nat c) by (subst n; rewrite Nat2Z.inj_mul, Z.mul_comm; apply Z.div_mul; lia).
      rewrite Ez. destruct ((k_base k + Z.of_nat n <=? sec (t_start e)) || (k_base k + Z.of_nat n <? sec (t_end e))) eqn:E1; [|lia].
      destruct (3 * Z.of_nat n <=? 2 * (sec (t_start e) - k_base k)) eqn:E2; lia.
    - eexists. split; [reflexivity|]. cbn [k_name k_recs k_base]. split; [reflexivity|]. split; [exists []; reflexivity|lia]. }
  destruct X as (k' & Ek & Nm & (l & Rl) & L1 & L2). rewrite Ek in V. destruct (ringAfter n d (h ++ [OPut pid tid nm e]) pid tid) as [r|]; [|contradiction].
  destruct V as (V1 & V2 & V3 & V4 & _). set (s := Z.max (k_base k') (sec (t_start e))) in *.
  assert (I : (Z.to_nat (s - k_base k') < List.length (r_segs r))%nat) by lia.
  destruct (nth_error (r_segs r) (Z.to_nat (s - k_base k'))) as [g|] eqn:Gn; [|apply nth_error_None in Gn; lia].
  destruct (V4 _ _ Gn) as (_ & _ & C3 & _). replace (k_base k' + Z.of_nat (Z.to_nat (s - k_base k'))) with s in C3 by lia.
  specialize (C3 (t_kind e)). rewrite Rl, eventsOf_app in C3.
  assert (Kb : kindb (t_kind e) (t_kind e) = true) by (destruct (t_kind e); reflexivity). rewrite Kb in C3.
  assert (Cv : covers (Z.of_nat n) (k_base k') e s = true) by (unfold covers; lia). rewrite Cv in C3. cbn [andb] in C3.
  exists r, (Z.to_nat (s - k_base k')), g, (eventsOf (Z.of_nat n) l (t_kind e) s). split; [reflexivity|]. split; [exact Gn|]. split; [rewrite V1; lia|]. split; [exact C3|congruence].
Qed.
Print Assumptions C30_stored.

(** Nothing is in a segment that did not arrive for that thread and does not overlap its second. *)
Lemma tracked_recs n : forall l k e b, tracked n l = Some k -> In (e, b) (k_recs k) -> exists nm, In (IPut nm e) l.
Proof.
  induction l as [|it l IH] using rev_ind; intros k e b H I; [discriminate H|]. rewrite tracked_snoc in H.
  destruct (tracked n l) as [k0|] eqn:E0; destruct it as [nm e0|x y]; cbn [trackStep] in H.
  - destruct (sec (t_end e0) <? k_base k0).
    + inversion H; subst. destruct (IH _ _ _ eq_refl I) as [nm' J]. exists nm'. apply in_or_app. left. exact J.
    + inversion H; subst. cbn [k_recs] in I. apply in_app_iff in I. destruct I as [I|[I|[]]].
      * destruct (IH _ _ _ eq_refl I) as [nm' J]. exists nm'. apply in_or_app. left. exact J.
      * inversion I; subst. exists nm. apply in_or_app. right. left. reflexivity.
  - inversion H; subst. cbn [k_recs] in I. destruct (IH _ _ _ eq_refl I) as [nm' J]. exists nm'. apply in_or_app. left. exact J.
  - inversion H; subst. cbn [k_recs] in I. destruct I as [I|[]]. inversion I; subst. exists nm. apply in_or_app. right. left. reflexivity.
  - discriminate H.
Qed.
Lemma life_in d pid tid : forall rh nm e, In (IPut nm e) (life d pid tid rh) -> In (OPut pid tid nm e) rh.
Proof.
  induction rh as [|o r IH]; intros nm e I; [destruct I|]. destruct o; cbn [life] in I; try (right; apply IH; exact I).
  - destruct I.
  - destruct ((pid0 =? pid) && (tid0 =? tid) && isOn r) eqn:E; [|right; apply IH; exact I]. apply in_app_iff in I. destruct I as [I|[I|[]]]; [right; apply IH; exact I|].
    inversion I; subst. left. f_equal; lia.
  - destruct (_ && _); [|right; apply IH; exact I]. apply in_app_iff in I. destruct I as [I|[I|[]]]; [right; apply IH; exact I|discriminate I].
  - destruct (due _ _ _ _ _ _); [destruct I|right; apply IH; exact I].
Qed.
Theorem C30_sound n d h pid tid r i g kd e : good n h -> ringAfter n d h pid tid = Some r -> nth_error (r_segs r) i = Some g -> In e (kl g kd) ->
  t_kind e = kd /\ (exists nm, In (OPut pid tid nm e) h) /\ t_start e < g_end g /\ g_start g < t_end e + 1000000000 /\ sec (t_start e) <= r_base r + Z.of_nat i <= sec (t_end e).
Proof.
  intros G H Gn I. pose proof (good_inv n d h pid tid G) as V. rewrite H in V. destruct (tracked _ _) as [k|] eqn:Ek; [|contradiction].
  destruct V as (V1 & _ & _ & V4 & _). destruct (V4 _ _ Gn) as (S1 & S2 & S3 & _). rewrite S3 in I. unfold eventsOf in I. apply in_map_iff in I. destruct I as ([e' b] & E & I).
  cbn [fst] in E. subst e'. apply filter_In in I. destruct I as [I F]. cbn [fst snd] in F. apply andb_true_iff in F. destruct F as [F1 F2].
  split; [destruct (t_kind e), kd; try reflexivity; discriminate F1|]. split.
  - destruct (tracked_recs _ _ _ _ _ Ek I) as [nm J]. exists nm. apply life_in in J. apply in_rev. exact J.
  - rewrite S1, S2, V1. unfold covers, sec in F2. pose proof (Z.div_mod (t_start e) 1000000000). pose proof (Z.div_mod (t_end e) 1000000000).
    pose proof (Z.mod_pos_bound (t_start e) 1000000000). pose proof (Z.mod_pos_bound (t_end e) 1000000000). unfold sec. lia.
Qed.
Print Assumptions C30_sound.

Lemma tracked_mono n : 0 < n -> forall l2 l1 k1 k2, tracked n l1 = Some k1 -> tracked n (l1 ++ l2) = Some k2 ->
  k_base k1 <= k_base k2 /\ exists x, k_recs k2 = k_recs k1 ++ x.
Proof.
  intros P. induction l2 as [|it l2 IH]; intros l1 k1 k2 H1 H2.
  - rewrite app_nil_r in H2. assert (k1 = k2) by congruence. subst. split; [lia|]. exists []. rewrite app_nil_r. reflexivity.
  - replace (l1 ++ it :: l2) with ((l1 ++ [it]) ++ l2) in H2 by (rewrite <- app_assoc; reflexivity).
    destruct (tracked n (l1 ++ [it])) as [k|] eqn:E.
    + destruct (IH _ _ _ E H2) as (A & x & B). rewrite tracked_snoc, H1 in E. destruct it as [nm e|a b]; cbn [trackStep] in E.
      * destruct (sec (t_end e) <? k_base k1); inversion E; subst; [split; [exact A|exists x; exact B]|]. cbn [k_base k_recs] in *. split.
        -- pose proof (nextBase_ge n (k_base k1) (sec (t_start e)) (sec (t_end e)) P). lia.
        -- exists ([(e, nextBase n (k_base k1) (sec (t_start e)) (sec (t_end e)))] ++ x). rewrite app_assoc. exact B.
      * inversion E; subst. cbn [k_base k_recs] in *. split; [exact A|exists x; exact B].
    + rewrite tracked_snoc, H1 in E. destruct it as [nm e|a b]; cbn [trackStep] in E; [destruct (_ <? _); discriminate E|discriminate E].
Qed.
Lemma life_extends d pid tid h1 : forall h2, (forall o, In o h2 -> o <> OStop) ->
  (forall t c, In (OExit pid tid t) (h1 ++ h2) -> In (OCheck c) h2 -> c < t + d) ->
  exists x, life d pid tid (rev (h1 ++ h2)) = life d pid tid (rev h1) ++ x.
Proof.
  induction h2 as [|o h2 IH] using rev_ind; intros NS NX; [exists []; rewrite !app_nil_r; reflexivity|].
  rewrite app_assoc, rev_app_distr. cbn [rev app].
  destruct IH as [x IH]; [intros o' I; apply NS; apply in_or_app; left; exact I| |].
  { intros t c I J. apply (NX t c); [rewrite app_assoc; apply in_or_app; left; exact I|apply in_or_app; left; exact J]. }
  destruct o; cbn [life]; try (exists x; exact IH).
  - exfalso. apply (NS OStop); [apply in_or_app; right; left; reflexivity|reflexivity].
  - destruct (_ && _ && _); [|exists x; exact IH]. exists (x ++ [IPut name e]). rewrite IH, app_assoc. reflexivity.
  - destruct (_ && _); [|exists x; exact IH]. eexists. rewrite IH, <- app_assoc. reflexivity.
  - assert (D : due d pid tid now [] (rev (h1 ++ h2)) = false).
    { assert (Y : forall rh cs, (forall t, In (OExit pid tid t) rh -> now < t + d) -> due d pid tid now cs rh = false).
      { induction rh as [|o r IHr]; intros cs Hx; [reflexivity|].
        destruct o; cbn [due]; try (apply IHr; intros t I; apply Hx; right; exact I).
        rewrite IHr by (intros t I; apply Hx; right; exact I). rewrite orb_false_r.
        destruct ((pid0 =? pid) && (tid0 =? tid)) eqn:E; [|rewrite !andb_false_l; reflexivity]. assert (pid0 = pid /\ tid0 = tid) as [-> ->] by lia.
        assert (now < now0 + d) by (apply Hx; left; reflexivity). replace (now0 + d <=? now) with false by lia. rewrite !andb_false_r. reflexivity. }
      apply Y. intros t I. apply in_rev in I. apply (NX t now); [rewrite app_assoc; apply in_or_app; left; exact I|apply in_or_app; right; left; reflexivity]. }
    rewrite D. exists x. exact IH.
Qed.

(** An event within one second that arrived while its second was not yet forgotten stays in the segment of that second for as long as the
    window includes it and the thread is not removed. *)
Theorem C30_kept n d h1 h2 pid tid nm e r : let h := (h1 ++ [OPut pid tid nm e]) ++ h2 in good n h -> isOn (rev h1) = true ->
  sec (t_start e) = sec (t_end e) -> (forall r1, ringAfter n d h1 pid tid = Some r1 -> r_base r1 <= sec (t_end e)) ->
  (forall o, In o h2 -> o <> OStop) -> (forall t c, In (OExit pid tid t) h -> In (OCheck c) h2 -> c < t + d) ->
  ringAfter n d h pid tid = Some r -> r_base r <= sec (t_start e) ->
  exists i g, nth_error (r_segs r) i = Some g /\ r_base r + Z.of_nat i = sec (t_start e) /\ In e (kl g (t_kind e)).
Proof.
  intros h G On One Hb NS NX Hr Lb. pose proof (good_inv n d h pid tid G) as V. rewrite Hr in V.
  destruct (tracked (Z.of_nat n) (life d pid tid (rev h))) as [k2|] eqn:E2; [|contradiction].
  pose proof (good_app _ _ _ G) as G1. pose proof (good_app _ _ _ G1) as G0.
  pose proof (good_inv n d h1 pid tid G0) as U. destruct G as ([c Ec] & P & _ & _). assert (Pn : 0 < Z.of_nat n) by lia.
  destruct (life_extends d pid tid (h1 ++ [OPut pid tid nm e]) h2 NS NX) as [x Lx]. unfold h in E2. rewrite Lx in E2.
  rewrite life_put in E2 by exact On. set (K := tracked (Z.of_nat n) (life d pid tid (rev h1))) in *.
  assert (X : exists k1, tracked (Z.of_nat n) (life d pid tid (rev h1) ++ [IPut nm e]) = Some k1 /\ In (e, k_base k1) (k_recs k1) /\ sec (t_start e) < k_base k1 + Z.of_nat n).
  { rewrite tracked_snoc. fold K. destruct K as [k|]; cbn [trackStep].
    - assert (B : k_base k <= sec (t_end e)).
      { destruct (ringAfter n d h1 pid tid) as [r1|]; [|contradiction]. specialize (Hb r1 eq_refl). destruct U as (U & _). lia. }
      replace (sec (t_end e) <? k_base k) with false by lia. eexists. split; [reflexivity|]. cbn [k_recs k_base]. split; [apply in_or_app; right; left; reflexivity|].
      unfold nextBase. assert (Ez : Z.of_nat n / 2 = Z.of_nat c) by (subst n; rewrite Nat2Z.inj_mul, Z.mul_comm; apply Z.div_mul; lia). rewrite Ez.
      destruct ((k_base k + Z.of_nat n <=? sec (t_start e)) || (k_base k + Z.of_nat n <? sec (t_end e))) eqn:E1; [|lia].
      destruct (3 * Z.of_nat n <=? 2 * (sec (t_start e) - k_base k)) eqn:E3; lia.
    - eexists. split; [reflexivity|]. cbn [k_recs k_base]. split; [left; reflexivity|lia]. }
  destruct X as (k1 & E1 & R1 & L1). destruct (tracked_mono (Z.of_nat n) Pn _ _ _ _ E1 E2) as (M & y & Ry).
  destruct V as (V1 & _ & V3 & V4 & _).
  assert (I : (Z.to_nat (sec (t_start e) - k_base k2) < List.length (r_segs r))%nat) by lia.
  destruct (nth_error (r_segs r) (Z.to_nat (sec (t_start e) - k_base k2))) as [g|] eqn:Gn; [|apply nth_error_None in Gn; lia].
  exists (Z.to_nat (sec (t_start e) - k_base k2)), g. split; [exact Gn|]. split; [lia|].
  destruct (V4 _ _ Gn) as (_ & _ & C3 & _). rewrite C3. replace (k_base k2 + Z.of_nat (Z.to_nat (sec (t_start e) - k_base k2))) with (sec (t_start e)) by lia.
  unfold eventsOf. apply in_map_iff. exists (e, k_base k1). split; [reflexivity|]. apply filter_In. split; [rewrite Ry; apply in_or_app; left; exact R1|].
  cbn [fst snd]. assert (Kb : kindb (t_kind e) (t_kind e) = true) by (destruct (t_kind e); reflexivity). rewrite Kb. unfold covers. lia.
Qed.
Print Assumptions C30_kept.

(** The half of the window before the end of an arriving event survives its arrival. *)
Theorem C30_retention n d h pid tid nm e r s : good n (h ++ [OPut pid tid nm e]) -> isOn (rev h) = true -> t_start e <= t_end e ->
  ringAfter n d h pid tid = Some r -> r_base r <= s < r_base r + Z.of_nat n -> sec (t_end e) - Z.of_nat n / 2 <= s ->
  exists r', ringAfter n d (h ++ [OPut pid tid nm e]) pid tid = Some r' /\ r_base r' <= s.
Proof.
  intros G On SE H W L. pose proof (good_inv n d _ pid tid G) as V. pose proof (good_inv n d _ pid tid (good_app _ _ _ G)) as U. rewrite H in U.
  rewrite life_put, tracked_snoc in V by exact On. destruct (tracked (Z.of_nat n) (life d pid tid (rev h))) as [k|]; [|contradiction]. cbn [trackStep] in V.
  destruct G as ([c Ec] & P & _ & _). assert (Ez : Z.of_nat n / 2 = Z.of_nat c) by (subst n; rewrite Nat2Z.inj_mul, Z.mul_comm; apply Z.div_mul; lia).
  assert (SS : sec (t_start e) <= sec (t_end e)) by (apply Z.div_le_mono; lia).
  destruct (sec (t_end e) <? k_base k) eqn:E0; (destruct (ringAfter n d (h ++ [OPut pid tid nm e]) pid tid) as [r'|]; [|contradiction]); exists r'; (split; [reflexivity|]);
    destruct U as (U & _); destruct V as (V & _).
  - lia.
  - cbn [k_base] in V. rewrite V. unfold nextBase. rewrite Ez in *.
    destruct ((k_base k + Z.of_nat n <=? sec (t_start e)) || (k_base k + Z.of_nat n <? sec (t_end e))) eqn:E1; [|lia].
    destruct (3 * Z.of_nat n <=? 2 * (sec (t_start e) - k_base k)) eqn:E3; lia.
Qed.
Print Assumptions C30_retention.

Definition ev (k : ekind) (s f : Z) (dt : string) : tev := {| t_kind := k; t_start := s * 1000000000 + 5; t_end := f * 1000000000 + 7; t_data := bs dt |}.
Definition h30 : list cop :=
  [OStart; OPut 1 2 (bs "java") (ev KCpu 100 100 "a"); OPut 1 2 (bs "java") (ev KFutex 101 102 "b"); OPut 1 3 (bs "gc") (ev KCpu 100 101 "c");
   OSend 1 100000000000 101000000000; OPut 1 2 (bs "worker") (ev KSpan 103 104 "d"); OPut 1 2 (bs "worker") (ev KCpu 104 104 "e")].
Example C30_example : good 4 h30 /\
  option_map (fun r => (r_base r, map (fun g => (g_start g / 1000000000, map t_data (g_cpu g), map t_data (g_futex g), map t_data (g_spans g), g_sent g)) (r_segs r))) (ringAfter 4 10 h30 1 2) =
  Some (102, [(102, [], [bs "b"], [], 0); (103, [], [], [bs "d"], 0); (104, [bs "e"], [], [], 0); (105, [], [], [], 0)]).
Proof.
  split; [|vm_compute; reflexivity]. split; [exists 2%nat; reflexivity|]. split; [lia|]. split; [cbn; auto|].
  repeat (constructor; [cbn; unfold saneTime, sec; cbn; try split; try exact I; lia|]). constructor.
Qed.

(** An event that ends exactly one ring length after the base loses its last second, though that second is in the window later. *)
Theorem C30_boundary_refuted : ~ forall n d h pid tid nm e r s, good n h -> In (OPut pid tid nm e) h -> ringAfter n d h pid tid = Some r ->
  (forall o, In o h -> match o with OStop | OExit _ _ _ | OCheck _ => False | _ => True end) ->
  (forall h1 h2 r1, h = h1 ++ OPut pid tid nm e :: h2 -> ringAfter n d h1 pid tid = Some r1 -> r_base r1 <= sec (t_start e)) ->
  sec (t_start e) <= s <= sec (t_end e) -> r_base r <= s < r_base r + Z.of_nat n ->
  forall i g, nth_error (r_segs r) i = Some g -> r_base r + Z.of_nat i = s -> In e (kl g (t_kind e)).
Proof.
  intros F. set (h := [OStart; OPut 1 2 (bs "t") (ev KCpu 100 100 "a"); OPut 1 2 (bs "t") (ev KCpu 103 104 "b"); OPut 1 2 (bs "t") (ev KCpu 105 105 "c")]).
  destruct (ringAfter 4 10 h 1 2) as [r|] eqn:R; [|vm_compute in R; discriminate R].
  assert (Eb : r_base r = 102) by (vm_compute in R; inversion R; reflexivity).
  destruct (nth_error (r_segs r) 2) as [g|] eqn:G; [|vm_compute in R; inversion R; subst r; discriminate G].
  assert (X : In (ev KCpu 103 104 "b") (kl g KCpu)).
  { apply (F 4%nat 10 h 1 2 (bs "t") (ev KCpu 103 104 "b") r 104) with (i := 2%nat).
    - split; [exists 2%nat; reflexivity|]. split; [lia|]. split; [cbn; auto|].
      repeat (constructor; [cbn; unfold saneTime, sec; cbn; try split; try exact I; lia|]). constructor.
    - right. right. left. reflexivity.
    - exact R.
    - intros o [<-|[<-|[<-|[<-|[]]]]]; exact I.
    - intros h1 h2 r1 E H1. destruct h1 as [|o1 [|o2 [|o3 [|o4 [|o5 h1]]]]]; try discriminate E.
      inversion E; subst. vm_compute in H1. inversion H1; subst r1. vm_compute. discriminate.
    - split; vm_compute; discriminate.
    - rewrite Eb. lia.
    - exact G.
    - rewrite Eb. reflexivity. }
  vm_compute in R. inversion R; subst r. cbn [r_segs nth_error] in G. inversion G; subst g. cbn [kl g_cpu In] in X. exact X.
Qed.
Print Assumptions C30_boundary_refuted.

(** With an odd ring size an event can be put in a segment labelled with another second. *)
Theorem C30_odd_refuted : ~ forall n d h pid tid r i g, (0 < n)%nat -> nondecreasing (times h) -> Forall (saneOp (Z.of_nat n)) h ->
  ringAfter n d h pid tid = Some r -> nth_error (r_segs r) i = Some g -> forall e, In e (g_cpu g) -> t_start e < g_end g.
Proof.
  intros F. set (h := [OStart; OPut 1 2 (bs "t") (ev KCpu 100 100 "a"); OPut 1 2 (bs "t") (ev KCpu 103 103 "b")]).
  destruct (ringAfter 3 10 h 1 2) as [r|] eqn:R; [|vm_compute in R; discriminate R].
  destruct (nth_error (r_segs r) 2) as [g|] eqn:G; [|vm_compute in R; inversion R; subst r; discriminate G].
  assert (X : t_start (ev KCpu 103 103 "b") < g_end g).
  { apply (F 3%nat 10 h 1 2 r 2%nat g); [lia|cbn; auto| |exact R|exact G|].
    - repeat (constructor; [cbn; unfold saneTime, sec; cbn; try split; try exact I; lia|]). constructor.
    - vm_compute in R. inversion R; subst r. cbn [r_segs nth_error] in G. inversion G; subst g. left. reflexivity. }
  vm_compute in R. inversion R; subst r. cbn [r_segs nth_error] in G. inversion G; subst g. vm_compute in X. discriminate X.
Qed.
Print Assumptions C30_odd_refuted.

(** * C31 *)
(** Sending a window emits, thread by thread in some order, one record per second of the window in which the thread has events, in order of
    time, with the events of that second and whether they were sent before. *)
Theorem C31_window n d h pid a b : good n h -> 0 <= a < 2 ^ 64 -> 0 <= b < 2 ^ 64 ->
  exists tids, NoDup tids /\ (forall tid, In tid tids <-> exists r, ringAfter n d h pid tid = Some r) /\
    fst (sendEvents n pid a b (crun n d h)) =
      if isOn (rev h) then flat_map (fun tid => expectedOf (Z.of_nat n) pid tid a b (tracked (Z.of_nat n) (life d pid tid (rev h)))) tids else [].
Proof.
  intros ([c Ec] & P & T & S) Ha Hb. destruct (send_world n c d h pid a b) as (A & B & C); try assumption; try lia.
  exists (keys (threads (crun n d h) pid)). split; [exact A|]. split; [|exact C]. intros tid. unfold ringAfter. split.
  - intros I. apply in_keys_aget. exact I.
  - intros [r R]. eapply aget_some_in_keys. exact R.
Qed.
Print Assumptions C31_window.

Lemma out_nodup n d h pid a b : forall l, NoDup l -> NoDup (map (fun x => (x_tid x, x_start x)) (flat_map (fun tid => expectedOf n pid tid a b (tracked n (life d pid tid (rev h)))) l)).
Proof.
  induction l as [|t l IH]; intros ND; [constructor|]. cbn [flat_map]. rewrite map_app. inversion ND as [|? ? NI ND']; subst. specialize (IH ND').
  set (A := map (fun x => (x_tid x, x_start x)) (expectedOf n pid t a b (tracked n (life d pid t (rev h))))).
  assert (NA : NoDup A).
  { unfold A, expectedOf. destruct (tracked _ _) as [k|]; [|constructor]. rewrite map_map. cbn [secondRecord x_tid x_start].
    apply Injective_map_NoDup; [intros u v Q; inversion Q; lia|]. apply NoDup_filter. unfold secondsOf.
    apply Injective_map_NoDup; [intros u v Q; lia|apply seq_NoDup]. }
  assert (DJ : forall y, In y A -> ~ In y (map (fun x => (x_tid x, x_start x)) (flat_map (fun tid => expectedOf n pid tid a b (tracked n (life d pid tid (rev h)))) l))).
  { intros y I J. unfold A, expectedOf in I. destruct (tracked _ (life d pid t (rev h))) as [k|]; [|destruct I]. rewrite map_map in I. apply in_map_iff in I. destruct I as (s & <- & _).
    cbn [secondRecord x_tid x_start] in J. apply in_map_iff in J. destruct J as (x & Ex & J). apply in_flat_map in J. destruct J as (t' & I' & J). unfold expectedOf in J.
    destruct (tracked _ (life d pid t' (rev h))) as [k'|]; [|destruct J]. apply in_map_iff in J. destruct J as (s' & <- & _). cbn [secondRecord x_tid x_start] in Ex. inversion Ex. subst t'. contradiction. }
  clearbody A. induction A as [|y A IHA]; [exact IH|]. cbn [app]. inversion NA; subst. constructor.
  - intros I. apply in_app_iff in I. destruct I as [I|I]; [contradiction|]. apply (DJ y (or_introl eq_refl) I).
  - apply IHA; [assumption|]. intros z I. apply DJ. right. exact I.
Qed.

(** The records of a window, one by one: nothing outside the window, nothing empty, nothing twice, and every event that a segment of the window holds. *)
Theorem C31_records n d h pid a b : good n h -> 0 <= a < 2 ^ 64 -> 0 <= b < 2 ^ 64 -> isOn (rev h) = true ->
  let out := fst (sendEvents n pid a b (crun n d h)) in
  NoDup (map (fun x => (x_tid x, x_start x)) out) /\
  (forall x, In x out -> x_pid x = pid /\ sec a * 1000000000 <= x_start x /\ x_start x <= b /\ x_end x = x_start x + 1000000000 /\
     (exists r i g, ringAfter n d h pid (x_tid x) = Some r /\ nth_error (r_segs r) i = Some g /\ g_start g = x_start x /\ isNotEmpty g = true /\
        x_name x = r_name r /\ x_sent x = g_sent g /\ x_cpu x = g_cpu g /\ x_futex x = g_futex g /\ x_trans x = g_trans g /\ x_spans x = g_spans g /\ x_inner x = g_inner g)) /\
  (forall tid r i g, ringAfter n d h pid tid = Some r -> nth_error (r_segs r) i = Some g -> isNotEmpty g = true -> sec a * 1000000000 <= g_start g <= b ->
     exists x, In x out /\ x_tid x = tid /\ x_start x = g_start g).
Proof.
  intros G Ha Hb On. cbv zeta. destruct (C31_window n d h pid a b G Ha Hb) as (tids & ND & IT & E). rewrite On in E. rewrite E. clear E.
  assert (V : forall tid, match ringAfter n d h pid tid, tracked (Z.of_nat n) (life d pid tid (rev h)) with Some r, Some k => inv n k r | None, None => True | _, _ => False end)
    by (intros tid; apply good_inv; exact G).
  assert (SB : forall s t, s <= sec t <-> s * 1000000000 <= t).
  { intros s t. unfold sec. pose proof (Z.div_mod t 1000000000). pose proof (Z.mod_pos_bound t 1000000000). lia. }
  assert (IN : forall x, In x (flat_map (fun tid => expectedOf (Z.of_nat n) pid tid a b (tracked (Z.of_nat n) (life d pid tid (rev h)))) tids) <->
    exists tid r k i, ringAfter n d h pid tid = Some r /\ tracked (Z.of_nat n) (life d pid tid (rev h)) = Some k /\ (i < n)%nat /\
      sec a <= k_base k + Z.of_nat i <= sec b /\ busy (Z.of_nat n) k (k_base k + Z.of_nat i) = true /\ x = secondRecord (Z.of_nat n) pid tid k (k_base k + Z.of_nat i)).
  { intros x. rewrite in_flat_map. split.
    - intros (tid & I & J). specialize (V tid). apply IT in I. destruct I as [r R]. rewrite R in V. destruct (tracked (Z.of_nat n) (life d pid tid (rev h))) as [k|] eqn:Ek; [|contradiction].
      unfold expectedOf in J. apply in_map_iff in J. destruct J as (s & Es & J). apply filter_In in J. destruct J as [J1 J2]. unfold secondsOf in J1. apply in_map_iff in J1.
      destruct J1 as (i & Ei & J1). apply in_seq in J1. subst s. exists tid, r, k, i. split; [exact R|]. split; [exact Ek|]. split; [lia|]. split; [lia|]. split; [lia|congruence].
    - intros (tid & r & k & i & R & Ek & I & L & Bz & ->). exists tid. split; [apply IT; exists r; exact R|]. rewrite Ek. unfold expectedOf. apply in_map. apply filter_In.
      split; [unfold secondsOf; apply in_map_iff; exists i; split; [reflexivity|apply in_seq; lia]|lia]. }
  split; [|split].
  - apply out_nodup. exact ND.
  - intros x I. apply IN in I. destruct I as (tid & r & k & i & R & Ek & I & L & Bz & ->). specialize (V tid). rewrite R, Ek in V. destruct V as (V1 & V2 & V3 & V4 & _).
    cbn [secondRecord x_pid x_tid x_start x_end x_name x_sent x_cpu x_futex x_trans x_spans x_inner].
    destruct (nth_error (r_segs r) i) as [g|] eqn:Gn; [|apply nth_error_None in Gn; lia]. pose proof (V4 _ _ Gn) as S. pose proof (slot_busy _ _ _ _ S) as Sb. destruct S as (S1 & S2 & S3 & S4).
    split; [reflexivity|]. split; [lia|]. split; [apply SB; lia|]. split; [lia|]. exists r, i, g. split; [exact R|]. split; [exact Gn|]. split; [exact S1|]. split; [congruence|].
    split; [congruence|]. split; [symmetry; apply S4; exact Bz|]. split; [symmetry; apply (S3 KCpu)|]. split; [symmetry; apply (S3 KFutex)|]. split; [symmetry; apply (S3 KTransaction)|].
    split; [symmetry; apply (S3 KSpan)|symmetry; apply (S3 KInner)].
  - intros tid r i g R Gn Ne W. specialize (V tid). rewrite R in V. destruct (tracked (Z.of_nat n) (life d pid tid (rev h))) as [k|] eqn:Ek; [|contradiction].
    destruct V as (V1 & V2 & V3 & V4 & _). pose proof (V4 _ _ Gn) as S. pose proof (slot_busy _ _ _ _ S) as Sb. destruct S as (S1 & S2 & S3 & S4).
    exists (secondRecord (Z.of_nat n) pid tid k (k_base k + Z.of_nat i)). split; [|split; [reflexivity|symmetry; exact S1]]. apply IN. exists tid, r, k, i.
    assert (i < n)%nat by (rewrite <- V3; apply nth_error_Some; congruence).
    split; [exact R|]. split; [exact Ek|]. split; [assumption|]. split; [rewrite SB; lia|]. split; [congruence|reflexivity].
Qed.
Print Assumptions C31_records.

(** Sending the same window again gives the same records, now marked as sent. *)
Theorem C31_resend n d h pid a b : good n h -> 0 <= a < 2 ^ 64 -> 0 <= b < 2 ^ 64 ->
  fst (sendEvents n pid a b (crun n d (h ++ [OSend pid a b]))) =
  map (fun x => {| x_pid := x_pid x; x_tid := x_tid x; x_sent := 1; x_name := x_name x; x_start := x_start x; x_end := x_end x; x_cpu := x_cpu x;
                   x_futex := x_futex x; x_trans := x_trans x; x_spans := x_spans x; x_inner := x_inner x |}) (fst (sendEvents n pid a b (crun n d h))).
Proof.
  intros G Ha Hb. assert (G' : good n (h ++ [OSend pid a b])).
  { destruct G as (A & B & C & D). split; [exact A|]. split; [exact B|]. split; [rewrite times_app; cbn [times]; rewrite app_nil_r; exact C|].
    apply Forall_app. split; [exact D|]. constructor; [split; assumption|constructor]. }
  assert (S : forall t r, snd (sendThread n pid t r a b) = snd (sendThread n pid t r a b)) by reflexivity. clear S.
  assert (K : keys (threads (crun n d (h ++ [OSend pid a b])) pid) = keys (threads (crun n d h) pid)).
  { unfold crun. rewrite fold_left_app. cbn [fold_left cstep]. fold (crun n d h). unfold sendEvents. destruct (c_on (crun n d h)); [|reflexivity].
    destruct (aget (c_rings (crun n d h)) pid) as [ths|] eqn:E; [|reflexivity]. cbn [snd]. unfold threads. cbn [c_rings]. rewrite aget_aset_same, E. unfold keys. rewrite map_map. reflexivity. }
  destruct G as ([c Ec] & P & T & Sn). destruct G' as (_ & _ & T' & Sn').
  destruct (send_world n c d h pid a b) as (_ & _ & E1); try assumption; try lia.
  destruct (send_world n c d (h ++ [OSend pid a b]) pid a b) as (_ & _ & E2); try assumption; try lia.
  cbv zeta in E1, E2. rewrite E1, E2, K. rewrite rev_app_distr. cbn [rev app isOn]. destruct (isOn (rev h)) eqn:On; [|reflexivity].
  generalize (keys (threads (crun n d h) pid)). intros l. induction l as [|t l IH]; [reflexivity|]. cbn [flat_map]. rewrite map_app, IH. f_equal.
  cbn [life]. rewrite Z.eqb_refl, On. cbn [andb]. rewrite tracked_snoc. destruct (tracked (Z.of_nat n) (life d pid t (rev h))) as [k|]; [|reflexivity].
  cbn [trackStep]. unfold expectedOf, secondsOf, busy. cbn [k_base k_recs]. rewrite map_map. apply map_ext_in. intros s I. apply filter_In in I. destruct I as [_ I].
  apply andb_true_iff in I. destruct I as [I _]. unfold secondRecord. cbn [k_sent k_name k_recs x_pid x_tid x_name x_start x_end x_cpu x_futex x_trans x_spans x_inner]. rewrite I. reflexivity.
Qed.
Print Assumptions C31_resend.

(** The ticks of a trigger: the first [w] windows together are the seconds from the one [edge] before the trigger's start to the one [w-1]
    seconds after its end. *)
Theorem C31_ticks w start spend edge s : (0 < w)%nat -> 0 <= edge <= start -> 0 <= spend -> start + spend + Z.of_nat w * 1000000000 < 2 ^ 64 ->
  (exists k, (k < w)%nat /\ sec (fst (taskWindow k start spend edge)) <= s <= sec (snd (taskWindow k start spend edge))) <->
  sec (start - edge) <= s <= sec (start + spend) + Z.of_nat w - 1.
Proof.
  intros W He Hs Hw.
  assert (T : forall k, (k < w)%nat -> taskWindow k start spend edge = (start - edge + Z.of_nat k * 1000000000, start + spend + Z.of_nat k * 1000000000)).
  { intros k L. unfold taskWindow, nano. rewrite (w64_small (Z.of_nat k * 1000000000)) by lia. rewrite (w64_small (Z.of_nat k * 1000000000 + start)) by lia.
    rewrite !w64_small by lia. f_equal; lia. }
  assert (D : forall x k, sec (x + Z.of_nat k * 1000000000) = sec x + Z.of_nat k) by (intros x k; unfold sec; apply Z.div_add; lia).
  assert (M : sec (start - edge) <= sec (start + spend)) by (apply Z.div_le_mono; lia).
  split.
  - intros (k & L & B). rewrite T in B by exact L. cbn [fst snd] in B. rewrite !D in B. lia.
  - intros B. destruct (Z_le_gt_dec s (sec (start + spend))) as [L|L].
    + exists 0%nat. split; [exact W|]. rewrite T by exact W. cbn [fst snd]. rewrite !D. lia.
    + exists (Z.to_nat (s - sec (start + spend))). split; [lia|]. rewrite T by lia. cbn [fst snd]. rewrite !D. lia.
Qed.
Print Assumptions C31_ticks.
Example C31_ticks_example : map (fun k => (sec (fst (taskWindow k 1000500000000 2000000000 2000000000)), sec (snd (taskWindow k 1000500000000 2000000000 2000000000)))) [0%nat; 1%nat] = [(998, 1002); (999, 1003)].
Proof. vm_compute. reflexivity. Qed.
Example C31_example : map (fun x => (x_tid x, x_sent x, x_start x / 1000000000, map t_data (x_cpu x), map t_data (x_futex x))) (fst (sendEvents 4 1 100000000000 102000000000 (crun 4 10 h30))) =
  [(2, 0, 102, [], [bs "b"]); (3, 1, 100, [bs "c"], []); (3, 1, 101, [bs "c"], [])].
Proof. vm_compute. reflexivity. Qed.

(** A trigger whose start is before the width of the edge window sends nothing at all at its first tick. *)
Theorem C31_early_trigger_refuted : ~ forall n d h pid start spend edge tid r i g, good n h -> isOn (rev h) = true -> 0 <= start -> 0 <= spend -> 0 <= edge -> start + spend < 2 ^ 64 ->
  ringAfter n d h pid tid = Some r -> nth_error (r_segs r) i = Some g -> isNotEmpty g = true -> start <= g_start g <= start + spend ->
  exists x, In x (fst (sendEvents n pid (fst (taskWindow 0 start spend edge)) (snd (taskWindow 0 start spend edge)) (crun n d h))) /\ x_tid x = tid /\ x_start x = g_start g.
Proof.
  intros F. set (h := [OStart; OPut 1 2 (bs "t") (ev KCpu 1 1 "a")]).
  destruct (ringAfter 4 10 h 1 2) as [r|] eqn:R; [|vm_compute in R; discriminate R].
  destruct (nth_error (r_segs r) 0) as [g|] eqn:G; [|vm_compute in R; inversion R; subst r; discriminate G].
  destruct (F 4%nat 10 h 1 1000000000 1000000000 2000000000 2 r 0%nat g) as (x & I & _); try lia; try assumption; try reflexivity.
  - split; [exists 2%nat; reflexivity|]. split; [lia|]. split; [exact I|]. repeat (constructor; [cbn; unfold saneTime, sec; cbn; try split; try exact I; lia|]). constructor.
  - vm_compute in R. inversion R; subst r. cbn [r_segs nth_error] in G. inversion G; subst g. reflexivity.
  - vm_compute in R. inversion R; subst r. cbn [r_segs nth_error] in G. inversion G; subst g. cbn [g_start]. lia.
Qed.
Print Assumptions C31_early_trigger_refuted.

(** * C32 *)
Lemma tracked_some n : forall l, (exists k, tracked n l = Some k) <-> exists nm e, In (IPut nm e) l.
Proof.
  induction l as [|it l IH] using rev_ind; [split; [intros [k H]; discriminate H|intros (nm & e & [])]|]. rewrite tracked_snoc. destruct it as [nm e|a b]; cbn [trackStep].
  - split; [intros _; exists nm, e; apply in_or_app; right; left; reflexivity|]. intros _. destruct (tracked n l) as [k|]; [|eexists; reflexivity]. destruct (_ <? _); eexists; reflexivity.
  - split.
    + intros [k H]. destruct (tracked n l) as [k0|]; [|discriminate H]. destruct (proj1 IH (ex_intro _ k0 eq_refl)) as (nm & e & J). exists nm, e. apply in_or_app. left. exact J.
    + intros (nm & e & J). apply in_app_iff in J. destruct J as [J|[J|[]]]; [|discriminate J]. destruct (proj2 IH (ex_intro _ nm (ex_intro _ e J))) as [k H]. rewrite H. eexists. reflexivity.
Qed.
(** A thread has data exactly if an event of it arrived since it was last forgotten. *)
Theorem C32_present n d h pid tid : good n h ->
  (exists r, ringAfter n d h pid tid = Some r) <-> exists nm e, In (IPut nm e) (life d pid tid (rev h)).
Proof.
  intros G. rewrite <- (tracked_some (Z.of_nat n)). pose proof (good_inv n d h pid tid G) as V. destruct (ringAfter n d h pid tid) as [r|], (tracked _ _) as [k|]; try contradiction.
  - split; intros _; eexists; reflexivity.
  - split; intros [x H]; discriminate H.
Qed.
Print Assumptions C32_present.

Lemma due_exit d pid tid t now : forall rh2 rh1 cs, isOn rh1 = true -> t + d <= now -> (forall c, In c cs -> c < t + d) -> (forall c, In (OCheck c) rh2 -> c < t + d) ->
  due d pid tid now cs (rh2 ++ OExit pid tid t :: rh1) = true.
Proof.
  induction rh2 as [|o r IH]; intros rh1 cs On L C1 C2; cbn [app].
  - cbn [due]. rewrite !Z.eqb_refl, On. replace (t + d <=? now) with true by lia. cbn [andb].
    assert (X : forallb (fun c => c <? t + d) cs = true) by (apply forallb_forall; intros c I; specialize (C1 c I); lia). rewrite X. reflexivity.
  - assert (C3 : forall c, In (OCheck c) r -> c < t + d) by (intros c I; apply C2; right; exact I).
    destruct o; cbn [due]; try (apply IH; assumption).
    + rewrite IH by assumption. apply orb_true_r.
    + apply IH; [exact On|exact L| |exact C3]. intros c [<-|I]; [apply C2; left; reflexivity|apply C1; exact I].
Qed.
Lemma exit_forgotten d pid tid t h1 : isOn (rev h1) = true -> forall h2, (forall nm e, ~ In (OPut pid tid nm e) h2) ->
  (forall nm e, ~ In (IPut nm e) (life d pid tid (rev ((h1 ++ [OExit pid tid t]) ++ h2)))) \/ (forall c, In (OCheck c) h2 -> c < t + d).
Proof.
  intros On. induction h2 as [|o h2 IH] using rev_ind; intros NP; [right; intros c []|].
  assert (NP' : forall nm e, ~ In (OPut pid tid nm e) h2) by (intros nm e I; apply (NP nm e); apply in_or_app; left; exact I).
  specialize (IH NP'). rewrite app_assoc, rev_app_distr. cbn [rev app].
  destruct IH as [IH|IH].
  - left. intros nm e. destruct o; cbn [life]; try apply IH.
    + intros [].
    + destruct ((pid0 =? pid) && (tid0 =? tid) && isOn (rev ((h1 ++ [OExit pid tid t]) ++ h2))) eqn:E; [|apply IH]. exfalso.
      assert (pid0 = pid /\ tid0 = tid) as [-> ->] by lia. apply (NP name e0). apply in_or_app. right. left. reflexivity.
    + destruct (_ && _); [|apply IH]. intros I. apply in_app_iff in I. destruct I as [I|[I|[]]]; [apply (IH nm e I)|discriminate I].
    + destruct (due _ _ _ _ _ _); [intros []|apply IH].
  - destruct o as [| |p0 t0 nm0 e0|p0 a0 b0|p0 t0 now|now]; try (right; intros c I; apply in_app_iff in I; destruct I as [I|[I|[]]]; [apply IH; exact I|discriminate I]).
    destruct (Z_lt_ge_dec now (t + d)) as [L|L].
    + right. intros c I. apply in_app_iff in I. destruct I as [I|[I|[]]]; [apply IH; exact I|]. inversion I; subst. exact L.
    + left. intros nm e. cbn [life]. rewrite !rev_app_distr. cbn [rev app]. rewrite due_exit; [intros []|exact On|lia|intros c []|]. intros c I. apply IH. apply in_rev. exact I.
Qed.
(** The first check [d] or more after an exit leaves no data of a thread from which nothing arrived since. *)
Theorem C32_removed n d h1 h2 pid tid t now : let h := ((h1 ++ [OExit pid tid t]) ++ h2) ++ [OCheck now] in good n h -> isOn (rev h1) = true ->
  (forall nm e, ~ In (OPut pid tid nm e) h2) -> t + d <= now -> ringAfter n d h pid tid = None.
Proof.
  intros h G On NP L. destruct (ringAfter n d h pid tid) as [r|] eqn:R; [|reflexivity]. exfalso.
  destruct (proj1 (C32_present n d h pid tid G) (ex_intro _ r R)) as (nm & e & I). unfold h in I. rewrite <- (app_assoc _ h2 [OCheck now]) in I.
  destruct (exit_forgotten d pid tid t h1 On (h2 ++ [OCheck now])) as [X|X].
  - intros nm' e' J. apply in_app_iff in J. destruct J as [J|[J|[]]]; [apply (NP nm' e' J)|discriminate J].
  - apply (X nm e I).
  - assert (now < t + d) by (apply X; apply in_or_app; right; left; reflexivity). lia.
Qed.
Print Assumptions C32_removed.

(** A thread's data is not removed by the exit of other threads, nor by a check sooner than [d] after its own exit: all that was received stays known. *)
Theorem C32_not_early n d h1 h2 pid tid : good n (h1 ++ h2) -> (forall o, In o h2 -> o <> OStop) ->
  (forall t c, In (OExit pid tid t) (h1 ++ h2) -> In (OCheck c) h2 -> c < t + d) ->
  (exists x, life d pid tid (rev (h1 ++ h2)) = life d pid tid (rev h1) ++ x) /\
  (forall r, ringAfter n d h1 pid tid = Some r -> exists r', ringAfter n d (h1 ++ h2) pid tid = Some r' /\ r_base r <= r_base r').
Proof.
  intros G NS NX. destruct (life_extends d pid tid h1 h2 NS NX) as [x Lx]. split; [exists x; exact Lx|]. intros r R.
  pose proof (good_inv n d h1 pid tid (good_app _ _ _ G)) as U. rewrite R in U. pose proof (good_inv n d _ pid tid G) as V. rewrite Lx in V.
  destruct (tracked (Z.of_nat n) (life d pid tid (rev h1))) as [k|] eqn:Ek; [|contradiction].
  destruct (proj2 (tracked_some (Z.of_nat n) (life d pid tid (rev h1) ++ x))) as [k' Ek'].
  { destruct (proj1 (tracked_some (Z.of_nat n) (life d pid tid (rev h1))) (ex_intro _ k Ek)) as (nm & e & I). exists nm, e. apply in_or_app. left. exact I. }
  rewrite Ek' in V. destruct (ringAfter n d (h1 ++ h2) pid tid) as [r'|]; [|contradiction]. exists r'. split; [reflexivity|].
  assert (Pn : 0 < Z.of_nat n) by (destruct G as (_ & P & _); lia). destruct (tracked_mono (Z.of_nat n) Pn _ _ _ _ Ek Ek') as [M _]. destruct U as (U & _). destruct V as (V & _). lia.
Qed.
Print Assumptions C32_not_early.

(** Stopping the profiling forgets everything. *)
Theorem C32_stopped n d h pid tid : ringAfter n d (h ++ [OStart; OStop]) pid tid = None.
Proof. unfold ringAfter, crun. rewrite fold_left_app. reflexivity. Qed.
Print Assumptions C32_stopped.

Definition h32 : list cop :=
  [OStart; OPut 1 2 (bs "a") (ev KCpu 100 100 "a"); OPut 1 3 (bs "b") (ev KCpu 100 100 "b"); OExit 1 2 100; OCheck 105; OExit 1 3 107].
Example C32_example : good 4 (h32 ++ [OCheck 111]) /\ (exists r, ringAfter 4 10 h32 1 2 = Some r) /\
  ringAfter 4 10 (h32 ++ [OCheck 111]) 1 2 = None /\ exists r, ringAfter 4 10 (h32 ++ [OCheck 111]) 1 3 = Some r.
Proof.
  split.
  - split; [exists 2%nat; reflexivity|]. split; [lia|]. split; [cbn; repeat (constructor; try lia)|].
    repeat (constructor; [cbn; unfold saneTime, sec; cbn; try split; try exact I; lia|]). constructor.
  - split; [eexists; vm_compute; reflexivity|]. split; [vm_compute; reflexivity|]. eexists. vm_compute. reflexivity.
Qed.
(** The data of a new thread that got the id of an exited one is removed with it. *)
Theorem C32_reuse_refuted : ~ forall n d h1 h2 pid tid nm e now t, good n (h1 ++ OExit pid tid t :: OPut pid tid nm e :: h2 ++ [OCheck now]) ->
  isOn (rev h1) = true -> (forall o, In o h2 -> o <> OStop /\ forall t', o <> OExit pid tid t') ->
  exists r, ringAfter n d (h1 ++ OExit pid tid t :: OPut pid tid nm e :: h2 ++ [OCheck now]) pid tid = Some r.
Proof.
  intros F. destruct (F 4%nat 10 [OStart; OPut 1 2 (bs "a") (ev KCpu 100 100 "a")] [] 1 2 (bs "b") (ev KCpu 108 108 "b") 111 100) as [r H].
  - split; [exists 2%nat; reflexivity|]. split; [lia|]. split; [cbn; repeat (constructor; try lia)|].
    repeat (constructor; [cbn; unfold saneTime, sec; cbn; try split; try exact I; lia|]). constructor.
  - reflexivity.
  - intros o [].
  - vm_compute in H. discriminate H.
Qed.
Print Assumptions C32_reuse_refuted.
(** An event delivered after the removal brings the thread back, and no later check removes it. *)
Theorem C32_late_event_refuted : exists n d h pid tid, good n h /\ In (OExit pid tid 100) h /\
  forall cs, nondecreasing (111 :: cs) -> exists r, ringAfter n d (h ++ map OCheck cs) pid tid = Some r.
Proof.
  set (h := [OStart; OPut 1 2 (bs "a") (ev KCpu 100 100 "a"); OExit 1 2 100; OCheck 111; OPut 1 2 (bs "a") (ev KCpu 100 100 "late")]).
  assert (G : good 4 h).
  { split; [exists 2%nat; reflexivity|]. split; [lia|]. split; [cbn; repeat (constructor; try lia)|].
    repeat (constructor; [cbn; unfold saneTime, sec; cbn; try split; try exact I; lia|]). constructor. }
  exists 4%nat, 10, h, 1, 2. split; [exact G|]. split; [right; right; left; reflexivity|]. intros cs _.
  assert (X : forall cs s, c_queue s = [] -> fold_left (cstep 4 10) (map OCheck cs) s = s).
  { clear. induction cs as [|c cs IH]; intros s Q; [reflexivity|]. cbn [map fold_left cstep]. rewrite Q. cbn [tidDelete].
    destruct s as [on rs q]. cbn [c_on c_rings c_queue] in *. subst q. apply IH. reflexivity. }
  unfold ringAfter, crun. rewrite fold_left_app. rewrite X by (vm_compute; reflexivity). eexists. vm_compute. reflexivity.
Qed.
Print Assumptions C32_late_event_refuted.
