(** The slow outgoing calls of a profiling session reach the rings of the threads. *)
From Coq Require Import Lia.
From Verif Require Import Base CallModel CallSpec CallProofs.
Open Scope list_scope.

(** A call is put into the rings at most as often as it was reported, whatever is started and stopped and however the goroutines run. *)
Theorem C78_once n h s c : crun traceCap h (c0 n) = Some s -> (count_occ call_dec (c_ring s) c <= count_occ call_dec (arrived h) c)%nat.
Proof.
  intros R. pose proof (places_run traceCap h (c0 n) s c R) as P. rewrite places_0 in P. rewrite occ_places in P. lia.
Qed.
Print Assumptions C78_once.

(** A call reported while the profiling is on is in the rings or on its way there as long as the profiling is not stopped. *)
Theorem C78_kept n h1 s1 i id h2 s : crun traceCap h1 (c0 n) = Some s1 -> c_phase s1 = POn -> crun traceCap (h1 ++ KRecv i id :: h2) (c0 n) = Some s -> ~ In KStop h2 ->
  In (i, id) (c_ring s) \/ onItsWay s (i, id).
Proof.
  intros R1 On R N. destruct (crun_app _ _ _ _ _ R) as (m & Rm & R2). rewrite R1 in Rm. injection Rm as <-.
  destruct (live_run traceCap (KRecv i id :: h2) s1 s (i, id) R2 On) as (_ & L); [intros [X|X]; [discriminate|exact (N X)]|].
  assert (P : (0 < count_occ call_dec (live s) (i, id))%nat).
  { unfold arrived in L. cbn [flat_map arrived1 app] in L. rewrite count_occ_cons_eq in L by reflexivity. lia. }
  apply count_occ_In in P. apply (live_onItsWay s (i, id) (reach_chans _ _ _ _ R)) in P. tauto.
Qed.
Print Assumptions C78_kept.

(** Nothing that is on its way has to wait for another report or for the end of the session: the goroutines by themselves can bring all of it
    into the rings. *)
Theorem C78_delivered n h s : crun traceCap h (c0 n) = Some s -> c_phase s = POn ->
  exists h2 s', Forall ofGoroutines h2 /\ crun traceCap h2 s = Some s' /\ (forall c, ~ onItsWay s' c) /\ forall c, onItsWay s c -> In c (c_ring s').
Proof.
  intros R On. destruct (can_be_quiet traceCap traceCap_pos (weight s) s (Nat.le_refl _) On (reach_reader _ _ _ _ R) (reach_chans _ _ _ _ R)) as (h2 & s' & F & R2 & Q & _).
  exists h2, s'. split; [exact F|]. split; [exact R2|]. split; [exact Q|]. intros c W.
  assert (NS : ~ In KStop h2) by (intros X; rewrite Forall_forall in F; exact (F _ X)).
  destruct (live_run traceCap h2 s s' c R2 On NS) as (_ & L).
  assert (I1 : In c (live s)) by (apply (live_onItsWay s c (reach_chans _ _ _ _ R)); left; exact W).
  assert (I2 : In c (live s')). { apply (count_occ_In call_dec). apply (count_occ_In call_dec) in I1. lia. }
  apply (live_onItsWay s' c (chans_nonempty _ _ _ _ R2 (reach_chans _ _ _ _ R))) in I2. destruct I2 as [X|X]; [destruct (Q c X)|exact X].
Qed.
Print Assumptions C78_delivered.

(** In the first session of a collector the calls that one goroutine reports come into the rings in the order it reports them, none left
    out, and all of them once nothing is on its way. *)
Theorem C78_in_order n h s i : crun traceCap h (c0 n) = Some s -> ~ In KStop h ->
  exists rest, reports i (arrived (sinceOn h)) = reports i (c_ring s) ++ rest /\ ((forall c, ~ onItsWay s c) -> rest = []).
Proof.
  intros R N. destruct (before_run traceCap i h (c0 n) s R N (before_0 n)) as [((_ & _ & _ & Rg & _) & A)|I].
  - exists []. rewrite A, Rg. split; [reflexivity|]. intros _. reflexivity.
  - pose proof I as (_ & _ & _ & r & _ & _ & A). exists (reports i (ofReader r ++ now s) ++ pend (nth_error (c_send s) i)). split.
    + rewrite A, (reports_app i (c_ring s)), <- app_assoc. reflexivity.
    + intros Q. pose proof (reports_quiet i s _ I Q) as B. rewrite A, (reports_app i (c_ring s)), <- app_assoc in B.
      rewrite <- (app_nil_r (reports i (c_ring s))) in B at 2. apply app_inv_head in B. exact B.
Qed.
Print Assumptions C78_in_order.

Lemma traceCap_S : exists m, traceCap = S (S (S (S m))).
Proof. exists (traceCap - 4)%nat. unfold traceCap. lia. Qed.

(** Two calls of one goroutine and one of another, all in the rings in the end *)
Example C78_example : exists s, crun traceCap [KStart; KStart2; KRecv 0 9; KStart3; KRecv 0 1; KRecv 1 2; KEval 1; KEval 0; KPut 0; KRecv 0 3; KREval 0; KRTake 0; KEval 0; KPut 0;
    KPut 1; KRPut 0; KREval 0; KRTake 0; KRPut 0; KREval 0; KRTake 0; KRPut 0] (c0 2) = Some s /\ c_ring s = [(0, 1); (0, 3); (1, 2)]%nat /\ (forall c, ~ onItsWay s c) /\
    reports 0 (arrived (sinceOn [KStart; KStart2; KRecv 0 9; KStart3; KRecv 0 1; KRecv 1 2; KRecv 0 3])) = [(0, 1); (0, 3)]%nat.
Proof.
  destruct traceCap_S as [m ->]. eexists. split; [vm_compute; reflexivity|]. split; [reflexivity|]. split; [|reflexivity].
  intros c [(i & A)|[(i & A)|[(q & A & B)|(j & A)]]]; cbn in A.
  - destruct i as [|[|i]]; try discriminate. destruct i; discriminate.
  - destruct i as [|[|i]]; try discriminate. destruct i; discriminate.
  - injection A as <-. destruct B.
  - destruct j as [|j]; try discriminate. destruct j; discriminate.
Qed.

(** A stop of the profiling can leave the goroutine that reports a call waiting for ever, and with it all the requests it was to handle:
    the channel is full, the goroutine waits at it, and the reader takes the stop instead of a call.  No later start helps, because
    it makes another channel. *)
Theorem C78_stuck_refuted : exists h s1 s c g, crun traceCap h (c0 1) = Some s1 /\ c_phase s1 = POn /\ onItsWay s1 c /\
  crun traceCap [KStop; KStop2; KRQuit 0] s1 = Some s /\
  forall h2 s2, crun traceCap h2 s = Some s2 -> nth_error (c_send s2) 0 = Some (SSending c g) /\ forall id, cdo traceCap (KRecv 0 id) s2 = None.
Proof.
  assert (Z : exists cap, cap = traceCap) by (eexists; reflexivity). destruct Z as [cap <-].
  destruct (fill_run cap cap 0%nat [] ltac:(cbn [List.length]; lia)) as (q & L & R). cbn [List.length Nat.add] in L.
  exists ([KStart; KStart2; KStart3; KREval 0] ++ fill 0 cap ++ [KRecv 0 cap; KEval 0]).
  exists {| c_phase := POn; c_sess := 1; c_chans := [[]; q]; c_send := [SSending (0, cap)%nat 1]; c_rd := [RSel 1 1]; c_ring := [] |}.
  exists {| c_phase := POff; c_sess := 1; c_chans := [[]; q; []]; c_send := [SSending (0, cap)%nat 1]; c_rd := [REnd]; c_ring := [] |}.
  exists (0, cap)%nat, 1%nat. split; [|split; [reflexivity|split]].
  - apply (crun_join cap _ _ _ (filled [])); [reflexivity|]. apply (crun_join cap _ _ _ (filled q)); [exact R|reflexivity].
  - right. left. exists 0%nat. reflexivity.
  - split; [reflexivity|]. intros h2 s2 R2.
    match type of R2 with crun _ _ ?t = _ => assert (A : abandoned cap t 1) end.
    { split; [cbn; lia|]. split; [exists q; split; [reflexivity|rewrite L; apply Nat.le_refl]|]. intros j k E. destruct j as [|j]; [discriminate|destruct j; discriminate]. }
    pose proof (abandoned_run cap 1 0 (0, cap)%nat h2 _ s2 R2 A eq_refl) as K. split; [exact K|]. intros id. unfold cdo. rewrite K. reflexivity.
Qed.
Print Assumptions C78_stuck_refuted.

(** A call reported in one session can come into the rings of the next: the reader had it in hand when the profiling was stopped, or the
    goroutine that reports it had not yet looked at the channel. *)
Theorem C78_stale_refuted : exists h1 h2 h3 s1 s2 s3 c, crun traceCap h1 (c0 1) = Some s1 /\ onItsWay s1 c /\ crun traceCap (KStop :: h2) s1 = Some s2 /\ c_phase s2 = POff /\ c_ring s2 = [] /\
  arrived h3 = [] /\ crun traceCap h3 s2 = Some s3 /\ c_ring s3 = [c].
Proof.
  destruct traceCap_S as [m ->]. exists [KStart; KStart2; KStart3; KRecv 0 7], [KStop2], [KStart; KStart2; KStart3; KEval 0; KPut 0; KREval 1; KRTake 1; KRPut 1].
  do 3 eexists. exists (0, 7)%nat. split; [vm_compute; reflexivity|]. split; [left; exists 0%nat; reflexivity|]. split; [vm_compute; reflexivity|]. do 3 (split; [reflexivity|]). split; [vm_compute; reflexivity|]. reflexivity.
Qed.
Print Assumptions C78_stale_refuted.

(** After a stop and a start in quick succession two readers may be at work, and the calls of one goroutine, all reported in the session
    that is on, can change their order. *)
Theorem C78_reordered_refuted : exists h1 h2 s1 s, crun traceCap h1 (c0 1) = Some s1 /\ c_phase s1 = POn /\ arrived h1 = [] /\ ~ In KStop h2 /\ crun traceCap h2 s1 = Some s /\
  arrived h2 = [(0, 1); (0, 2)]%nat /\ c_ring s = [(0, 2); (0, 1)]%nat.
Proof.
  destruct traceCap_S as [m ->]. exists [KStart; KStart2; KStart3; KStop; KStop2; KStart; KStart2; KStart3],
    [KREval 0; KREval 1; KRecv 0 1; KEval 0; KPut 0; KRecv 0 2; KEval 0; KPut 0; KRTake 0; KRTake 1; KRPut 1; KRPut 0].
  do 2 eexists. split; [vm_compute; reflexivity|]. split; [reflexivity|]. split; [reflexivity|]. split; [|split; [vm_compute; reflexivity|split; reflexivity]].
  cbn [In]. intros X. repeat destruct X as [X|X]; try discriminate. exact X.
Qed.
Print Assumptions C78_reordered_refuted.
