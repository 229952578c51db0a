(** C73: while profiling is on, a slow request that was sampled is stored once, and the events around it are sent for as many seconds as
    configured. *)
From Verif Require Import Base CpuModel CpuSpec CpuProps ProfModel ProfSpec ProfProofs.
Open Scope string_scope. Open Scope list_scope. Open Scope Z_scope.

(** ** Storing *)
(** However the goroutines of the sessions, the sampling interval and the requests interleave: as long as profiling is switched on only
    after the goroutines of the earlier sessions have returned, no trace is stored twice, and only traces that arrived are stored. *)
Theorem C73_once h s : prun h p0 = Some s -> clean h -> NoDup (arrived h) -> NoDup (p_out s) /\ incl (p_out s) (arrived h).
Proof.
  intros R C N. destruct (PJ_run h s R C N) as (_ & _ & _ & _ & _ & ND & IN). split.
  - apply NoDup_app_r in ND. unfold sent in ND. apply NoDup_app_r in ND. apply NoDup_app_r in ND. exact ND.
  - intros x I. apply IN. apply in_or_app. right. unfold sent. apply in_or_app. right. apply in_or_app. right. exact I.
Qed.
Print Assumptions C73_once.

(** A slow request that arrives while profiling is on, when no other one of its key is waiting, is waiting, being stored or stored for as
    long as profiling is not switched off. *)
Theorem C73_kept h1 k id h2 s1 s : prun h1 p0 = Some s1 -> p_on s1 = true -> aget (p_map s1) k = None -> prun (h1 ++ PSignal k id :: h2) p0 = Some s ->
  clean (h1 ++ PSignal k id :: h2) -> NoDup (arrived (h1 ++ PSignal k id :: h2)) -> ~ In PStop h2 -> held s id.
Proof.
  intros R1 On A R C N NS. replace (h1 ++ PSignal k id :: h2) with ((h1 ++ [PSignal k id]) ++ h2) in R, C, N by (rewrite <- app_assoc; reflexivity).
  rewrite prun_app in R. destruct (prun (h1 ++ [PSignal k id]) p0) as [s2|] eqn:R2; [|discriminate].
  assert (H2 : held s2 id /\ p_on s2 = true).
  { rewrite prun_app, R1 in R2. cbn [prun pdo] in R2. rewrite On, A in R2. injection R2 as <-. split; [|exact On]. left. unfold setMap. cbn [p_map]. rewrite map_app. apply in_or_app. right. left. reflexivity. }
  clear R1 A On. revert s2 s R2 R C N NS H2. generalize (h1 ++ [PSignal k id]) as h. clear h1. induction h2 as [|o h2 IH]; intros h s2 s R2 R C N NS (H2 & On2).
  - injection R as <-. exact H2.
  - cbn [prun] in R. destruct (pdo o s2) as [s3|] eqn:D; [|discriminate].
    assert (J : PJ (arrived h) s2).
    { apply PJ_run; [exact R2|exact (clean_app _ _ C)|]. rewrite arrived_app in N. eapply PJ_perm; [apply Permutation.Permutation_refl|exact N]. }
    replace (h ++ o :: h2) with ((h ++ [o]) ++ h2) in C, N by (rewrite <- app_assoc; reflexivity).
    apply (IH (h ++ [o]) s3 s).
    + rewrite prun_app, R2. cbn [prun]. rewrite D. reflexivity.
    + exact R.
    + exact C.
    + exact N.
    + intros X. apply NS. right. exact X.
    + apply (held_step _ _ _ _ _ J D); [intros ->; apply NS; left; reflexivity|exact On2|exact H2].
Qed.
Print Assumptions C73_kept.

(** After profiling was switched off, whatever happened before, every goroutine of the sessions can return by steps of its own; so
    waiting for them before the next start is possible. *)
Theorem C73_can_return h s : prun h p0 = Some s -> p_on s = false -> exists h2 s', Forall ofWorkers h2 /\ prun h2 s = Some s' /\ quiet s'.
Proof.
  intros R O. apply can_be_quiet; [|exact O]. eapply noParked_run; [|exact R]. intros _. split; constructor.
Qed.
Print Assumptions C73_can_return.

(** a session that samples two requests, a repeated one among them, and a second session after it *)
Definition h73 : list pop_ :=
  [PStart; PSPark 0; PRPark 0; PSignal (bs "/a1") 1; PSignal (bs "/b1") 2; PSignal (bs "/a1") 3; PSTick 0; PSVisit 0; PRTake 0; PSDel 0; PSignal (bs "/a1") 4; PRPut 0; PSVisit 0; PSDel 0; PSVisit 0;
   PRTake 0; PRPut 0; PSPark 0; PRPark 0; PStop; PStart; PSignal (bs "/a1") 5; PSTick 0; PSVisit 0; PSDel 0; PSVisit 0; PRTake 0; PRPut 0].
Example C73_once_example : option_map (fun s => (p_out s, p_map s, p_sam s)) (prun h73 p0) = Some ([1; 2; 5]%nat, [], [SHead; SEnd]).
Proof. vm_compute. reflexivity. Qed.
Example C73_clean_example : clean h73.
Proof. apply clean_run. vm_compute. reflexivity. Qed.
Example C73_kept_example : exists s1, prun (firstn 10 h73) p0 = Some s1 /\ p_on s1 = true /\ aget (p_map s1) (bs "/a1") = None.
Proof. eexists. split; [vm_compute; reflexivity|]. split; reflexivity. Qed.

(** A goroutine of a session that is busy while profiling is switched off and on again reads the new session's stop channel and lives on:
    with two goroutines sampling, one trace is stored twice. *)
Theorem C73_twice_refuted : exists h s, prun h p0 = Some s /\ NoDup (arrived h) /\ p_out s = [7; 7]%nat.
Proof.
  exists [PStart; PSTick 0; PStop; PStart; PSVisit 1; PSignal (bs "/a1") 7; PSTick 0; PSTick 1; PSVisit 0; PSVisit 1; PRTake 0; PRPut 0; PRTake 0; PRPut 0]. eexists.
  split; [vm_compute; reflexivity|]. split; [|reflexivity]. constructor; [intros []|constructor].
Qed.
Print Assumptions C73_twice_refuted.
(** A trace of the stopped session is stored in the next one. *)
Theorem C73_stale_refuted : exists h1 h2 s1 s, prun h1 p0 = Some s1 /\ p_on s1 = false /\ p_out s1 = [] /\ arrived h2 = [] /\ prun h2 s1 = Some s /\ p_out s = [7]%nat.
Proof.
  exists [PStart; PSignal (bs "/a1") 7; PSTick 0; PStop], [PStart; PSVisit 1; PRTake 0; PRPut 0]. eexists. eexists. split; [vm_compute; reflexivity|]. repeat split; reflexivity.
Qed.
Print Assumptions C73_stale_refuted.
(** A goroutine of the stopped session removes the waiting trace of the next session, which is never stored. *)
Theorem C73_lost_refuted : exists h1 h2 s1 s, prun h1 p0 = Some s1 /\ p_on s1 = true /\ aget (p_map s1) (bs "/a1") = None /\ ~ In PStop h2 /\ prun (h1 ++ PSignal (bs "/a1") 8 :: h2) p0 = Some s /\
  ~ held s 8 /\ p_on s = true.
Proof.
  exists [PStart; PSignal (bs "/a1") 7; PSTick 0; PSVisit 0; PStop; PStart], [PSDel 1]. eexists. eexists. split; [vm_compute; reflexivity|]. split; [reflexivity|]. split; [reflexivity|].
  split; [intros [E|[]]; discriminate|]. split; [vm_compute; reflexivity|]. split; [|reflexivity]. intros [H|[H|[H|H]]]; try (destruct H; fail). destruct H as [H|[H|[]]]; discriminate.
Qed.
Print Assumptions C73_lost_refuted.

(** ** Sending the events around a trace *)
(** A routine that is waiting whenever the clock fires runs its task [w] times and ends. *)
Theorem C73_prompt w h s : krun w h k0 = Some s -> prompt h -> k_runs s = w /\ k_done s = true.
Proof. intros R P. exact (krun_prompt w (List.length h) h k0 s (Nat.le_refl _) R P eq_refl eq_refl eq_refl). Qed.
Print Assumptions C73_prompt.
(** So the tasks it runs send the seconds from [edge] before the start of the trace to w-1 seconds after its end. *)
Theorem C73_seconds w h s start spend edge x : krun w h k0 = Some s -> prompt h -> (0 < w)%nat -> 0 <= edge <= start -> 0 <= spend -> start + spend + Z.of_nat w * 1000000000 < 2 ^ 64 ->
  (exists k, (k < k_runs s)%nat /\ sec (fst (taskWindow k start spend edge)) <= x <= sec (snd (taskWindow k start spend edge))) <->
  sec (start - edge) <= x <= sec (start + spend) + Z.of_nat w - 1.
Proof. intros R P. destruct (C73_prompt w h s R P) as (-> & _). apply C31_ticks. Qed.
Print Assumptions C73_seconds.
(** However late the routine is, it never runs the task more often than the clock has ticked; until its timer fires that is at most [w] times. *)
Theorem C73_runs w h s : krun w h k0 = Some s -> (k_runs s <= ticks h)%nat /\ (k_timer s = false -> (k_runs s <= w)%nat).
Proof.
  intros R. destruct (krun_runs w h k0 s R) as (A & B); [cbn; lia|]. cbn [k_fired k0] in B. split; [lia|]. intros T.
  assert (X := krun_before w h k0 s R T). cbn [k_fired k0 k_timer] in X. specialize (X ltac:(lia)). lia.
Qed.
Print Assumptions C73_runs.
Example C73_prompt_example : option_map (fun s => (k_runs s, k_done s)) (krun 2 [KTick; KRun; KTick; KRun; KTimer; KExpire] k0) = Some (2%nat, true) /\ prompt [KTick; KRun; KTick; KRun; KTimer; KExpire].
Proof. split; [vm_compute; reflexivity|exact Logic.I]. Qed.

(** Whatever the configured number of seconds, a routine that is late may end without having sent anything: the ticks it missed are
    dropped, and of the last one and the timer it may pick the timer. *)
Theorem C73_none_refuted w : exists h s, krun w h k0 = Some s /\ k_done s = true /\ k_runs s = 0%nat.
Proof.
  assert (T : forall n s, k_done s = false -> (k_fired s + n <= w)%nat -> exists s', krun w (repeat KTick n) s = Some s' /\ k_fired s' = (k_fired s + n)%nat /\ k_runs s' = k_runs s /\ k_timer s' = k_timer s /\ k_done s' = false).
  { induction n as [|n IH]; intros s Dn L; [exists s; repeat split; try assumption; lia|]. cbn [repeat krun]. unfold kdo. rewrite Dn. destruct (Nat.ltb_spec (k_fired s) w); [|lia]. cbn [orb].
    destruct (IH {| k_fired := S (k_fired s); k_full := true; k_timer := k_timer s; k_ready := k_ready s; k_runs := k_runs s; k_done := false |} eq_refl) as (s' & A & B & C & D & E); [cbn [k_fired]; lia|].
    exists s'. split; [exact A|]. cbn [k_fired k_runs k_timer] in B, C, D. repeat split; try assumption. lia. }
  destruct (T w k0 eq_refl ltac:(cbn [k_fired k0]; lia)) as (s & A & B & C & D & E). cbn [k_fired k_runs k_timer k0] in B, C, D.
  assert (X : krun w (repeat KTick w ++ [KTimer; KExpire]) k0 = krun w [KTimer; KExpire] s).
  { revert A. generalize k0 as t. generalize (repeat KTick w) as l. induction l as [|o l IH]; intros t A; cbn [krun app] in *; [injection A as ->; reflexivity|]. destruct (kdo w o t) as [t'|]; [apply IH; exact A|discriminate]. }
  exists (repeat KTick w ++ [KTimer; KExpire]). eexists. rewrite X. cbn [krun]. unfold kdo at 1. rewrite E, B, D, Nat.eqb_refl. cbn [andb negb]. unfold kdo. cbn [k_done k_ready k_runs]. split; [reflexivity|].
  split; [reflexivity|]. exact C.
Qed.
Print Assumptions C73_none_refuted.
(** And a routine may run more often than configured: while its task takes longer than a second, the tick and the timer are both ready,
    and it may pick the tick. *)
Theorem C73_more_refuted : exists h s, krun 1 h k0 = Some s /\ k_done s = true /\ k_runs s = 3%nat.
Proof. exists [KTick; KTimer; KRun; KTick; KRun; KTick; KRun; KExpire]. eexists. split; [vm_compute; reflexivity|]. split; reflexivity. Qed.
Print Assumptions C73_more_refuted.
