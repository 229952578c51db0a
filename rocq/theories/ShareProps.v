(* C79: the goroutines of the profiling analyzer (events, exits, signals, clean-up rounds, sendings, starts and stops) next to
   those that use the Kubernetes metadata, which the analyzer looks pods up in: who waits for whom, and what is read and
   written at once. *)
From Coq Require Import Lia.
From Verif Require Import Base LockModel LockSpec LockProofs LockProps.
Open Scope list_scope.
Open Scope Z_scope.

(* The rings of the threads, the queue of exited threads and the table of the running Java traces are never read and
   written, or written twice, at once. *)
Theorem C79_guarded : forall net calls s v, In v [VRings; VTids; VJava] -> reach net calls s -> ~ clash s v.
Proof.
  intros net calls s v Hv Hr. apply (no_clash (chk false false)); [apply (reach_inv false false net calls s (plain calls) Hr)|].
  cbn [In] in Hv. repeat (destruct Hv as [<-|Hv]; [reflexivity|]). destruct Hv.
Qed.
Print Assumptions C79_guarded.

Definition noSend (t : thread) : Prop := ~ In ASend (t_rest t).

Lemma in_times : forall n p (a : act), In a (times n p) -> In a p.
Proof. induction n as [|n IH]; intros p a Hi; cbn [times] in Hi; [destruct Hi|]. apply in_app_or in Hi. destruct Hi as [Hi|Hi]; [exact Hi|apply IH, Hi]. Qed.

Ltac nosend := repeat match goal with
  | H : In _ (_ ++ _) |- _ => apply in_app_or in H; destruct H as [H|H]
  | H : In _ (times ?n _) |- _ => apply in_times in H
  | H : In _ (flat_map _ _) |- _ => apply in_flat_map in H; destruct H as (? & ? & H)
  | H : In _ (match ?x with _ => _ end) |- _ => destruct x
  | H : In _ [] |- _ => destruct H
  | H : In _ (_ :: _) |- _ => destruct H as [H|H]; [discriminate H|]
  end.
Lemma acts_noSend o : ~ isSnapshot o -> ~ In ASend (acts o).
Proof.
  intros Hs Hi. destruct o; cbn [acts] in Hi;
    try (unfold clearAll, addPod, updatePod, deletePod, deleteRound, addService, updateService, deleteService, addRs, updateRs, setupCache, lockAll, unlockAll,
      putEvent, javaActs, signalActs, tidRound, javaRound, sendEvents, startProfile, stopProfile in Hi); unfold rd, wr in Hi; nosend.
  all: try (unfold addPod, addService, deleteService, deletePodInfo in *; unfold rd, wr in *; nosend).
  all: try (unfold addContainer, addServicePort, deleteServicePort, deleteContainerByIpPort in *; unfold rd, wr in *; nosend).
  all: try (unfold addPort, addContainerByIpPort, addServiceByIpPort, deleteServiceByIpPort in *; unfold rd, wr in *; nosend).
  all: try (unfold addContainerByIpPort, addServiceByIpPort, deleteServiceByIpPort, deleteContainerByIpPort in *; unfold rd, wr in *; nosend).
  - unfold addRs, wr in Hi. nosend.
  - apply Hs. eexists. reflexivity.
Qed.

Lemma step_noSend net s i s' : (forall t, In t s -> noSend t) -> step net i s = Some s' -> forall t, In t s' -> noSend t.
Proof.
  intros Hs Hst. assert (Hu : forall k u, noSend u -> forall t, In t (upd k u s) -> noSend t).
  { clear Hst s' i. induction s as [|v s IH]; intros k u Hk t Hi; [destruct k; destruct Hi|]. destruct k as [|k]; cbn [upd] in Hi; destruct Hi as [<-|Hi].
    - exact Hk.
    - apply Hs. right. exact Hi.
    - apply Hs. left. reflexivity.
    - refine (IH _ k u Hk t Hi). intros w Hw. apply Hs. right. exact Hw. }
  unfold step in Hst. destruct (nth_error s i) as [t|] eqn:Ht; [|discriminate]. pose proof (Hs t (nth_error_In _ _ Ht)) as Hn.
  unfold noSend in Hn. destruct (t_rest t) as [|a r] eqn:Hr; [discriminate|].
  assert (Hn' : ~ In ASend r) by (intros X; apply Hn; right; exact X).
  destruct a; repeat match type of Hst with (if ?c then _ else _) = _ => destruct c end; try discriminate; injection Hst as <-; apply Hu; unfold noSend; cbn [t_rest]; try exact Hn'; try exact Hn.
Qed.

Lemma reach_noSend net calls s : nobody calls isSnapshot -> reach net calls s -> forall t, In t s -> noSend t.
Proof.
  intros Hno Hr. induction Hr as [|s s' i Hr IH Hst].
  - intros t Hi. apply in_map_iff in Hi. destruct Hi as (ops & <- & Hin). unfold noSend. cbn [goroutine t_rest]. intros X.
    apply in_flat_map in X. destruct X as (o & Ho & X). exact (acts_noSend o (Hno ops o Hin Ho) X).
  - exact (step_noSend net s i s' IH Hst).
Qed.

Lemma step_net net net' s i : (forall t, In t s -> noSend t) -> step net i s = step net' i s.
Proof.
  intros Hs. unfold step. destruct (nth_error s i) as [t|] eqn:Ht; [|reflexivity]. pose proof (Hs t (nth_error_In _ _ Ht)) as Hn. unfold noSend in Hn.
  destruct (t_rest t) as [|a r]; [reflexivity|]. destruct a; try reflexivity. exfalso. apply Hn. left. reflexivity.
Qed.

(* In a process that hands out no snapshots of the metadata the goroutines never wait for each other for ever: in every
   state that can come up all have ended or one can go on. *)
Theorem C79_no_deadlock : forall net calls s, nobody calls isSnapshot -> reach net calls s -> allEnded s \/ alive net s.
Proof.
  intros net calls s Hno Hr.
  assert (Hr' : reach always calls s).
  { induction Hr as [|s s' i Hr IH Hst]; [apply reach0|]. apply (reach1 always calls s s' i IH). rewrite <- Hst. apply step_net. apply (reach_noSend net calls s Hno Hr). }
  destruct (C66_no_deadlock always calls s (fun _ => eq_refl) Hr') as [H|(i & s' & Hst)]; [left; exact H|right]. exists i, s'.
  rewrite <- Hst. apply step_net. apply (reach_noSend net calls s Hno Hr).
Qed.
Print Assumptions C79_no_deadlock.

(* The segments of a trace are sent from rings that stand still: from the first look at the rings to the end of the sending
   nobody is about to change them, neither a new event nor the clean-up of an exited thread nor a stop. *)
Theorem C79_send_of_one_moment : forall net calls s i t n m1 m2 more, reach net calls s -> nth_error s i = Some t ->
  [ARead VOn; ARead VRings] ++ times n [AWrite VSeg; ARead VSeg; AWrite VSeg] = m1 ++ m2 -> m2 <> [] -> t_rest t = m2 ++ [ARUnlock LRing] ++ more ->
  forall j, j <> i -> ~ aboutToWrite s j VRings.
Proof.
  intros net calls s i t n m1 m2 more Hr Hi Hm Hne Hrest j Hji (u & r & Hj & Hur).
  destruct (reach_inv false false net calls s (plain calls) Hr) as [Hwf Hex].
  assert (Hacc : forall a, In a m2 -> access a).
  { intros a Ha. assert (Hin : In a ([ARead VOn; ARead VRings] ++ times n [AWrite VSeg; ARead VSeg; AWrite VSeg])) by (rewrite Hm; apply in_or_app; right; exact Ha).
    apply in_app_or in Hin. unfold access. destruct Hin as [Hin|Hin]; [|apply in_times in Hin].
    - destruct Hin as [<-|[<-|[]]]; left; eexists; reflexivity.
    - destruct Hin as [<-|[<-|[<-|[]]]]; [right; left|left|right; left]; eexists; reflexivity. }
  pose proof (rest_access _ t m2 _ (Hwf i t Hi) Hacc Hne Hrest) as Hg. cbn [app] in Hg.
  apply go_runlock in Hg. destruct Hg as (h1 & Hh & _).
  destruct (write_holds _ u VRings r (Hwf j u Hj) eq_refl Hur) as (l & Hgl & Hin). cbn [guard] in Hgl. injection Hgl as <-.
  apply (proj1 (Hex j i u t Hji Hj Hi LRing ltac:(discriminate)) Hin R). rewrite Hh. left. reflexivity.
Qed.
Print Assumptions C79_send_of_one_moment.

Ltac byExec sched :=
  match goal with |- exists s, reach always ?calls s /\ clash s ?v =>
    let H := fresh in
    assert (H : exists s, exec always sched (map goroutine calls) = Some s /\ clash s v);
    [eexists; split; [vm_compute; reflexivity|]; exists 0%nat, 1%nat; split; [discriminate|]; split;
      [eexists; eexists; split; reflexivity|first [left; eexists; eexists; split; reflexivity|right; eexists; eexists; split; reflexivity]]
    |let s := fresh "s" in let He := fresh in let Hc := fresh in
     destruct H as (s & He & Hc); exists s; split; [apply (exec_reach always calls _ _ s (reach0 always _) He)|exact Hc]] end.

(* Non-vacuity of the last theorem: a sending in the middle, an event, an exited thread and a stop that wait *)
Example C79_example : exists s t, reach always [[OSend 2]; [OCpuEvent true true]; [OTidRound 1]; [OStopProfile]] s /\ nth_error s 0 = Some t /\ t_rest t = [AWrite VSeg; ARead VSeg; AWrite VSeg] ++ [ARUnlock LRing] /\ (exists u, nth_error s 1 = Some u /\ t_rest u = ALock LRing :: [ARead VOn; ARead VRings; AWrite VRings; AWrite VSeg; AUnlock LRing]) /\ alive always s.
Proof.
  assert (H : exists s, exec always [0; 0; 0; 0; 0; 0; 1; 1; 2; 2; 2]%nat (map goroutine [[OSend 2]; [OCpuEvent true true]; [OTidRound 1]; [OStopProfile]]) = Some s /\
    exists t, nth_error s 0 = Some t /\ t_rest t = [AWrite VSeg; ARead VSeg; AWrite VSeg] ++ [ARUnlock LRing] /\
    (exists u, nth_error s 1 = Some u /\ t_rest u = ALock LRing :: [ARead VOn; ARead VRings; AWrite VRings; AWrite VSeg; AUnlock LRing]) /\ alive always s).
  { eexists. split; [vm_compute; reflexivity|]. eexists. split; [reflexivity|]. split; [reflexivity|]. split; [eexists; split; reflexivity|]. exists 0%nat. eexists. reflexivity. }
  destruct H as (s & He & t & H1 & H2 & H3 & H4). exists s, t. split; [apply (exec_reach always _ _ _ s (reach0 always _) He)|]. split; [exact H1|]. split; [exact H2|]. split; [exact H3|exact H4].
Qed.

(* The table of the processes that have an APM agent is a plain map without a lock.  A slow Java trace of one goroutine
   writes it while another goroutine, with a request of any process, reads or writes it; Go stops the collector for this
   ("concurrent map read and map write", "concurrent map writes"). *)
Theorem C79_apm_table_refuted :
  (exists s, reach always [[OTransaction true true true false (Some true) true]; [OSignal true false true true]] s /\ clash s VApm) /\ (exists s, reach always [[OSignal true true true true]; [OSignal true true false true]] s /\ clash s VApm).
Proof. split; [byExec [0;0;0;0;0;0;0;0;0;0;0;0;0;0;0;0;1]%nat|byExec [0;1]%nat]. Qed.
Print Assumptions C79_apm_table_refuted.

(* The queue of the Java traces to drop is appended to under one lock and looked at under another. *)
Theorem C79_java_queue_refuted : exists s, reach always [[OTransaction true true true true None true]; [OJavaRound 1]] s /\ clash s VJavaQ.
Proof. byExec [0;0;0;0;0;0;0;0;0;0;1;1]%nat. Qed.
Print Assumptions C79_java_queue_refuted.

(* Whether the profiling is on is read by every event and every signal outside the lock that a stop writes it under; a start
   writes it, and replaces the channel, the table and the sampled traces, under no lock. *)
Theorem C79_switch_refuted :
  (exists s, reach always [[OStopProfile]; [OCpuEvent true true]] s /\ clash s VOn) /\
  (exists s, reach always [[OStartProfile]; [OSignal true false true false]] s /\ clash s VChan) /\
  (exists s, reach always [[OStopProfile]; [OSample]] s /\ clash s VSample).
Proof. split; [byExec [0;0]%nat|split; [byExec [1]%nat|byExec [0;0;0;0;0;0]%nat]]. Qed.
Print Assumptions C79_switch_refuted.

(* Two traces of one process may be sent at once, and each marks the segments as sent, under the lock for readers only. *)
Theorem C79_marks_refuted : exists s, reach always [[OSend 1]; [OSend 1]] s /\ clash s VSeg.
Proof. byExec [0;0;0;1;1;1]%nat. Qed.
Print Assumptions C79_marks_refuted.
