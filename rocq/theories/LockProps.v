(* C66: goroutines that use the Kubernetes metadata never wait for each other for ever, and the tables they share are
   not read and written at once. *)
From Coq Require Import Lia.
From Verif Require Import Base LockModel LockSpec LockProofs.
Open Scope list_scope.
Open Scope Z_scope.

Lemma plain (calls : list (list op)) : forall ops o, In ops calls -> In o ops ->
  (isSetup o -> false = false /\ false = false) /\ (isSnapshot o -> false = false).
Proof. intros ops o _ _. split; intros _; [split|]; reflexivity. Qed.

(* As long as the clients of the snapshots take their data, in every state that can come up, whatever the calls and the
   schedule, all goroutines have ended or one of them can go on. *)
Theorem C66_no_deadlock : forall net calls s, every net -> reach net calls s -> allEnded s \/ alive net s.
Proof.
  intros net calls s Hnet Hr. pose proof (reach_inv false false net calls s (plain calls) Hr) as Hinv.
  destruct (left_ s) as [|n] eqn:Hl.
  - left. apply (left_ended (chk false false) s Hinv), Hl.
  - right. assert (Hex : exists i t, nth_error s i = Some t /\ t_rest t <> []).
    { clear -Hl. induction s as [|t s IH]; [discriminate|]. destruct (t_rest t) as [|a r] eqn:Hr.
      - cbn [left_ fold_right] in Hl. fold (left_ s) in Hl. assert (H0 : left1 t = O) by (unfold left1; rewrite Hr; reflexivity).
        rewrite H0 in Hl. destruct (IH Hl) as (i & u & Hi & Hu). exists (S i), u. split; assumption.
      - exists O, t. split; [reflexivity|congruence]. }
    destruct Hex as (i & t & Hi & Ht). apply (progress (chk false false) net s Hnet Hinv 13 i t Hi Ht). lia.
Qed.
Print Assumptions C66_no_deadlock.

(* The calls of the goroutines fix the number of steps: no schedule takes more, and one that has taken that many has
   brought every call to its end.  With C66_no_deadlock: every call returns, in whatever order the goroutines run. *)
Theorem C66_every_call_returns : forall net calls, exists N, forall n s, steps net n (map goroutine calls) s ->
  (n <= N)%nat /\ (n = N <-> allEnded s).
Proof.
  intros net calls. exists (left_ (map goroutine calls)). intros n s Hst.
  assert (H : reach net calls s /\ (n + left_ s = left_ (map goroutine calls))%nat).
  { remember (map goroutine calls) as s0 eqn:H0. induction Hst as [s0|n s0 s1 s2 i Hst IH Hs]; subst.
    - split; [apply reach0|reflexivity].
    - destruct (IH eq_refl) as [Hr Hl]. split; [apply (reach1 net calls s1 s2 i Hr Hs)|].
      pose proof (step_left (chk false false) net s1 i s2 (reach_inv false false net calls s1 (plain calls) Hr) Hs). lia. }
  destruct H as [Hr Hl]. split; [lia|]. rewrite <- (left_ended (chk false false) s (reach_inv false false net calls s (plain calls) Hr)). lia.
Qed.
Print Assumptions C66_every_call_returns.

Lemma guard_not_sem v l : guard v = Some l -> l <> LSem.
Proof. destruct v; cbn [guard]; congruence. Qed.

Lemma write_holds c t v r : wf c t -> c v = true -> t_rest t = AWrite v :: r -> exists l, guard v = Some l /\ In (l, W) (t_held t).
Proof.
  intros Hw Hc Hr. destruct (wf_next c t Hw _ r Hr) as [[Hn Hg]|(l0 & h0 & He & _)]; [|discriminate].
  cbn [go] in Hg. rewrite Hc in Hg. cbn [negb orb] in Hg. unfold mayWrite in Hg. destruct (guard v) as [l|]; [|discriminate].
  exists l. split; [reflexivity|]. destruct (existsb (fun p => eqb (fst p) l && eqb (snd p) W) (t_held t)) eqn:He; [|discriminate].
  apply (proj1 (has_in l W t)). exact He.
Qed.

Lemma read_holds c t v r : wf c t -> c v = true -> t_rest t = ARead v :: r -> exists l m, guard v = Some l /\ In (l, m) (t_held t).
Proof.
  intros Hw Hc Hr. destruct (wf_next c t Hw _ r Hr) as [[Hn Hg]|(l0 & h0 & He & _)]; [|discriminate].
  cbn [go] in Hg. rewrite Hc in Hg. cbn [negb orb] in Hg. unfold mayRead in Hg. destruct (guard v) as [l|]; [|discriminate].
  destruct (existsb (fun p => eqb (fst p) l) (t_held t)) eqn:He; [|discriminate].
  apply existsb_exists in He. destruct He as [[l' m] [Hin Hl]]. cbn [fst] in Hl. apply eqb_true in Hl. subst l'.
  exists l, m. split; [reflexivity|exact Hin].
Qed.

Lemma no_clash c s v : inv c s -> c v = true -> ~ clash s v.
Proof.
  intros [Hwf Hex] Hc (i & j & Hij & (t & r & Hi & Hr) & Hother).
  destruct (write_holds c t v r (Hwf i t Hi) Hc Hr) as (l & Hg & Hin).
  assert (Hu : exists u m, nth_error s j = Some u /\ In (l, m) (t_held u)).
  { destruct Hother as [(u & r' & Hj & Hr')|(u & r' & Hj & Hr')].
    - destruct (read_holds c u v r' (Hwf j u Hj) Hc Hr') as (l' & m & Hg' & Hin'). exists u, m. split; [exact Hj|]. congruence.
    - destruct (write_holds c u v r' (Hwf j u Hj) Hc Hr') as (l' & Hg' & Hin'). exists u, W. split; [exact Hj|]. congruence. }
  destruct Hu as (u & m & Hj & Hin'). exact (proj1 (Hex i j t u Hij Hi Hj l (guard_not_sem v l Hg)) Hin m Hin').
Qed.

(* The tables of the containers by id, of the containers and the services by address, of the nodes, the pods, the replica
   sets and the queue of delayed deletions are never read and written, or written twice, at once. *)
Theorem C66_tables_guarded : forall net calls s v, In v [VC; VIp; VIpS; VNode; VPod; VRs; VQueue] ->
  reach net calls s -> ~ clash s v.
Proof.
  intros net calls s v Hv Hr. apply (no_clash (chk false false)); [apply (reach_inv false false net calls s (plain calls) Hr)|].
  cbn [In] in Hv. repeat (destruct Hv as [<-|Hv]; [reflexivity|]). destruct Hv.
Qed.
Print Assumptions C66_tables_guarded.

(* Nor are the host ports and the local workloads, in a process that loads no snapshot. *)
Theorem C66_host_ports_guarded : forall net calls s v, In v [VHost; VWork] -> nobody calls isSetup ->
  reach net calls s -> ~ clash s v.
Proof.
  intros net calls s v Hv Hno Hr. apply (no_clash (chk true false)).
  - apply (reach_inv true false net calls s); [|exact Hr]. intros ops o H1 H2. split; [|reflexivity].
    intros Hs. exfalso. exact (Hno ops o H1 H2 Hs).
  - cbn [In] in Hv. repeat (destruct Hv as [<-|Hv]; [reflexivity|]). destruct Hv.
Qed.
Print Assumptions C66_host_ports_guarded.

(* Nor are the services, in a process that neither loads a snapshot nor hands any out. *)
Theorem C66_services_guarded : forall net calls s, nobody calls isSetup -> nobody calls isSnapshot ->
  reach net calls s -> ~ clash s VSvc.
Proof.
  intros net calls s Hno Hno' Hr. apply (no_clash (chk true true)); [|reflexivity].
  apply (reach_inv true true net calls s); [|exact Hr]. intros ops o H1 H2. split; intros Hs; exfalso;
    [exact (Hno ops o H1 H2 Hs)|exact (Hno' ops o H1 H2 Hs)].
Qed.
Print Assumptions C66_services_guarded.

(* a part of a program that only reads, writes and sends *)
Definition access (a : act) : Prop := (exists v, a = ARead v) \/ (exists v, a = AWrite v) \/ a = ASend.

Lemma go_access c h : forall m p h', (forall a, In a m -> access a) -> go c h (m ++ p) = Some h' -> go c h p = Some h'.
Proof.
  induction m as [|a m IH]; intros p h' Hm Hg; [exact Hg|]. cbn [app] in Hg.
  assert (Hm' : forall b, In b m -> access b) by (intros b Hb; apply Hm; right; exact Hb).
  destruct (Hm a (or_introl eq_refl)) as [[v ->]|[[v ->]| ->]]; cbn [go] in Hg.
  - destruct (negb (c v) || mayRead h v); [|discriminate]. apply (IH p h' Hm' Hg).
  - destruct (negb (c v) || mayWrite h v); [|discriminate]. apply (IH p h' Hm' Hg).
  - apply (IH p h' Hm' Hg).
Qed.

Lemma rest_access c t m p : wf c t -> (forall a, In a m -> access a) -> m <> [] -> t_rest t = m ++ p -> go c (t_held t) p = Some [].
Proof.
  intros Hw Hm Hne Hr. destruct m as [|a m]; [congruence|]. cbn [app] in Hr.
  destruct (wf_next c t Hw a _ Hr) as [[Hn Hg]|(l0 & h0 & He & _)].
  - apply (go_access c (t_held t) (a :: m) p [] Hm). exact Hg.
  - subst a. destruct (Hm _ (or_introl eq_refl)) as [[v Hv]|[[v Hv]|Hv]]; discriminate.
Qed.

Lemma go_unlock c h l p h' : go c h (AUnlock l :: p) = Some h' -> exists h1, h = (l, W) :: h1 /\ go c h1 p = Some h'.
Proof.
  cbn [go]. destruct h as [|[l' m] h1]; [discriminate|]. destruct m; try discriminate. destruct (eqb l' l) eqn:He; [|discriminate].
  apply eqb_true in He. subst l'. intros Hg. exists h1. split; [reflexivity|exact Hg].
Qed.
Lemma go_runlock c h l p h' : go c h (ARUnlock l :: p) = Some h' -> exists h1, h = (l, R) :: h1 /\ go c h1 p = Some h'.
Proof.
  cbn [go]. destruct h as [|[l' m] h1]; [discriminate|]. destruct m; try discriminate. destruct (eqb l' l) eqn:He; [|discriminate].
  apply eqb_true in He. subst l'. intros Hg. exists h1. split; [reflexivity|exact Hg].
Qed.

(* A snapshot is of one moment: from its first table to the end of its transmission nobody else is about to change one
   of the tables of the containers, the service addresses, the nodes, the pods, the replica sets or the queue. *)
Theorem C66_snapshot_of_one_moment : forall net calls s i t cs m1 m2 more, reach net calls s -> nth_error s i = Some t ->
  marshal cs ++ [ASend] = m1 ++ m2 -> m2 <> [] -> t_rest t = m2 ++ rUnlockAll ++ more ->
  forall j v, j <> i -> In v [VC; VIp; VIpS; VNode; VPod; VRs; VQueue] -> ~ aboutToWrite s j v.
Proof.
  intros net calls s i t cs m1 m2 more Hr Hi Hm Hne Hrest j v Hji Hv (u & r & Hj & Hur).
  destruct (reach_inv false false net calls s (plain calls) Hr) as [Hwf Hex].
  assert (Hacc : forall a, In a m2 -> access a).
  { intros a Ha. assert (Hin : In a (marshal cs ++ [ASend])) by (rewrite Hm; apply in_or_app; right; exact Ha).
    unfold marshal in Hin. rewrite !in_app_iff, in_map_iff in Hin. unfold access.
    destruct Hin as [[Hin|[(c & <- & _)|Hin]]|Hin].
    - cbn [In] in Hin. repeat (destruct Hin as [<-|Hin]; [left; eexists; reflexivity|]). destruct Hin.
    - left. eexists. reflexivity.
    - cbn [In] in Hin. repeat (destruct Hin as [<-|Hin]; [left; eexists; reflexivity|]). destruct Hin.
    - destruct Hin as [<-|[]]. right. right. reflexivity. }
  pose proof (rest_access _ t m2 _ (Hwf i t Hi) Hacc Hne Hrest) as Hg. unfold rUnlockAll in Hg. cbn [app] in Hg.
  apply go_unlock in Hg. destruct Hg as (h1 & Hh & Hg).
  apply go_runlock in Hg. destruct Hg as (h2 & -> & Hg). apply go_runlock in Hg. destruct Hg as (h3 & -> & Hg).
  apply go_runlock in Hg. destruct Hg as (h4 & -> & Hg). apply go_runlock in Hg. destruct Hg as (h5 & -> & Hg).
  apply go_runlock in Hg. destruct Hg as (h6 & -> & Hg). apply go_runlock in Hg. destruct Hg as (h7 & -> & Hg).
  apply go_runlock in Hg. destruct Hg as (h8 & -> & _).
  assert (Hc : chk false false v = true).
  { cbn [In] in Hv. repeat (destruct Hv as [<-|Hv]; [reflexivity|]). destruct Hv. }
  destruct (write_holds _ u v r (Hwf j u Hj) Hc Hur) as (l & Hgl & Hin).
  assert (Hheld : exists m, In (l, m) (t_held t)).
  { rewrite Hh. cbn [In] in Hv |- *. destruct Hv as [<-|[<-|[<-|[<-|[<-|[<-|[<-|[]]]]]]]]; cbn [guard] in Hgl; injection Hgl as <-;
      first [exists R; tauto|exists W; tauto]. }
  destruct Hheld as [m Hm']. exact (proj1 (Hex j i u t Hji Hj Hi l (guard_not_sem v l Hgl)) Hin m Hm').
Qed.
Print Assumptions C66_snapshot_of_one_moment.

(* A snapshot is loaded in one go: while its tables are put in place nobody else is about to read or change one of them. *)
Theorem C66_load_in_one_go : forall net calls s i t ws more, reach net calls s -> nth_error s i = Some t ->
  (forall a, In a ws -> exists v, a = AWrite v) -> ws <> [] -> t_rest t = ws ++ unlockAll ++ more ->
  forall j v, j <> i -> In v [VC; VIp; VIpS; VNode; VPod; VRs; VQueue] -> ~ aboutToRead s j v /\ ~ aboutToWrite s j v.
Proof.
  intros net calls s i t ws more Hr Hi Hws Hne Hrest j v Hji Hv.
  destruct (reach_inv false false net calls s (plain calls) Hr) as [Hwf Hex].
  assert (Hacc : forall a, In a ws -> access a) by (intros a Ha; right; left; apply Hws, Ha).
  pose proof (rest_access _ t ws _ (Hwf i t Hi) Hacc Hne Hrest) as Hg. unfold unlockAll in Hg. cbn [app] in Hg.
  apply go_unlock in Hg. destruct Hg as (h1 & Hh & Hg).
  apply go_unlock in Hg. destruct Hg as (h2 & -> & Hg). apply go_unlock in Hg. destruct Hg as (h3 & -> & Hg).
  apply go_unlock in Hg. destruct Hg as (h4 & -> & Hg). apply go_unlock in Hg. destruct Hg as (h5 & -> & Hg).
  apply go_unlock in Hg. destruct Hg as (h6 & -> & Hg). apply go_unlock in Hg. destruct Hg as (h7 & -> & _).
  assert (Hc : chk false false v = true).
  { cbn [In] in Hv. repeat (destruct Hv as [<-|Hv]; [reflexivity|]). destruct Hv. }
  assert (Hheld : forall l, guard v = Some l -> In (l, W) (t_held t)).
  { intros l Hgl. rewrite Hh. cbn [In] in Hv |- *. destruct Hv as [<-|[<-|[<-|[<-|[<-|[<-|[<-|[]]]]]]]]; cbn [guard] in Hgl; injection Hgl as <-; tauto. }
  split; intros (u & r & Hj & Hur).
  - destruct (read_holds _ u v r (Hwf j u Hj) Hc Hur) as (l & m & Hgl & Hin).
    exact (proj1 (Hex i j t u (fun H => Hji (eq_sym H)) Hi Hj l (guard_not_sem v l Hgl)) (Hheld l Hgl) m Hin).
  - destruct (write_holds _ u v r (Hwf j u Hj) Hc Hur) as (l & Hgl & Hin).
    exact (proj1 (Hex i j t u (fun H => Hji (eq_sym H)) Hi Hj l (guard_not_sem v l Hgl)) (Hheld l Hgl) W Hin).
Qed.
Print Assumptions C66_load_in_one_go.

(* ---- schedules by example ---- *)
Fixpoint exec (net : nat -> bool) (sched : list nat) (s : list thread) : option (list thread) :=
  match sched with [] => Some s | i :: sched' => match step net i s with Some s' => exec net sched' s' | None => None end end.

Lemma exec_reach net calls : forall sched s s', reach net calls s -> exec net sched s = Some s' -> reach net calls s'.
Proof.
  induction sched as [|i sched IH]; intros s s' Hr He; cbn [exec] in He; [congruence|].
  destruct (step net i s) as [s1|] eqn:Hs; [|discriminate]. apply (IH s1 s' (reach1 net calls s s1 i Hr Hs) He).
Qed.

Definition always (_ : nat) : bool := true.
Definition aService : svcShape := {| ss_selector := true; ss_pods := [(1%nat, 1%nat)]; ss_ip := true; ss_ports := [Some 1%nat] |}.
Definition aPod : podShape := {| ps_rs := true; ps_ids := 1; ps_ip := true; ps_containers := [(7, [true; true])]; ps_local := true |}.
Definition aSnapshot : setupShape := {| su_c := true; su_host := true; su_ip := true; su_ips := true; su_node := true; su_svc := true; su_rs := true |}.

(* The snapshot walks the table of the services without its lock: when a service is added meanwhile, Go stops the
   metadata provider ("concurrent map iteration and map write"). *)
Theorem C66_services_snapshot_refuted : exists s, reach always [[OSnapshot []]; [OAddService aService]] s /\ clash s VSvc.
Proof.
  assert (H : exists s, exec always (repeat 0 16 ++ [1; 1])%nat (map goroutine [[OSnapshot []]; [OAddService aService]]) = Some s /\ clash s VSvc).
  { eexists. split; [vm_compute; reflexivity|]. exists 1%nat, 0%nat. split; [discriminate|]. split.
    - eexists. eexists. split; reflexivity.
    - left. eexists. eexists. split; reflexivity. }
  destruct H as (s & He & Hc). exists s. split; [|exact Hc]. apply (exec_reach always _ _ _ s (reach0 always _) He).
Qed.
Print Assumptions C66_services_snapshot_refuted.

(* A container record is published with its first port, and the host port of the second port is then written into it
   outside every lock: a lookup by the first host port reads the same map (the same holds for a snapshot). *)
Theorem C66_host_port_map_refuted : exists s t done, reach always [[OAddPod aPod]; [OByHostPort (Some 7)]] s /\
  nth_error s 0 = Some t /\ flat_map acts [OAddPod aPod] = done ++ t_rest t /\ (exists before after, done = before ++ wr LHost VHost ++ after) /\
  clash s (VPorts 7).
Proof.
  assert (H : exists s, exec always (repeat 0 24 ++ [1; 1; 1])%nat (map goroutine [[OAddPod aPod]; [OByHostPort (Some 7)]]) = Some s /\
    exists t done, nth_error s 0 = Some t /\ flat_map acts [OAddPod aPod] = done ++ t_rest t /\
      (exists before after, done = before ++ wr LHost VHost ++ after) /\ clash s (VPorts 7)).
  { eexists. split; [vm_compute; reflexivity|]. eexists. exists (firstn 21 (flat_map acts [OAddPod aPod])). split; [reflexivity|].
    split; [reflexivity|]. split.
    - exists (firstn 12 (flat_map acts [OAddPod aPod])), (rd LP VIp ++ wr LP VIp). reflexivity.
    - exists 0%nat, 1%nat. split; [discriminate|]. split.
      + eexists. eexists. split; reflexivity.
      + left. eexists. eexists. split; reflexivity. }
  destruct H as (s & He & t & done & H1 & H2 & H3 & Hc). exists s, t, done. split; [|split; [exact H1|split; [exact H2|split; [exact H3|exact Hc]]]].
  apply (exec_reach always _ _ _ s (reach0 always _) He).
Qed.
Print Assumptions C66_host_port_map_refuted.

(* Loading a snapshot takes neither the lock of the host ports nor that of the local workloads: a lookup in the host
   ports and the report of the workloads read the tables while they are replaced. *)
Theorem C66_load_refuted :
  (exists s, reach always [[OSetup aSnapshot]; [OByHostPort None]] s /\ clash s VHost)
  /\ (exists s, reach always [[OSetup aSnapshot]; [OWorkloads]] s /\ clash s VWork).
Proof.
  assert (H : forall calls n k v, (exists s, exec always (repeat 0 n ++ repeat 1 k)%nat (map goroutine calls) = Some s /\ clash s v) ->
    exists s, reach always calls s /\ clash s v).
  { intros calls n k v (s & He & Hc). exists s. split; [|exact Hc]. apply (exec_reach always calls _ _ s (reach0 always _) He). }
  assert (Hcl : forall s v, aboutToWrite s 0 v -> aboutToRead s 1 v -> clash s v).
  { intros s v H0 H1. exists 0%nat, 1%nat. split; [discriminate|]. split; [exact H0|left; exact H1]. }
  split.
  - apply (H _ 17%nat 1%nat). eexists. split; [vm_compute; reflexivity|]. apply Hcl; eexists; eexists; split; reflexivity.
  - apply (H _ 15%nat 1%nat). eexists. split; [vm_compute; reflexivity|]. apply Hcl; eexists; eexists; split; reflexivity.
Qed.
Print Assumptions C66_load_refuted.

(* A snapshot is sent while all the locks are held.  A client that does not read its snapshot stops the changes of the
   metadata and, behind the first change that waits, every other client: nothing can go on. *)
Definition stalled (i : nat) : bool := negb (i =? 0)%nat.
Theorem C66_stalled_client_refuted : exists s, reach stalled [[OSnapshot []]; [OAddPod aPod]; [OSnapshot []]] s /\
  ~ allEnded s /\ ~ alive stalled s /\
  (exists t, nth_error s 1 = Some t /\ ~ ended t) /\ (exists t, nth_error s 2 = Some t /\ ~ ended t).
Proof.
  assert (H : exists s, exec stalled (repeat 0 17 ++ repeat 1 9 ++ [2])%nat (map goroutine [[OSnapshot []]; [OAddPod aPod]; [OSnapshot []]]) = Some s /\
    ~ allEnded s /\ ~ alive stalled s /\
    (exists t, nth_error s 1 = Some t /\ ~ ended t) /\ (exists t, nth_error s 2 = Some t /\ ~ ended t)).
  { eexists. split; [vm_compute; reflexivity|]. split; [|split; [|split]].
    - intros Ha. specialize (Ha _ (or_introl eq_refl)). discriminate Ha.
    - intros (i & s' & Hs). destruct i as [|[|[|i]]]; [discriminate Hs|discriminate Hs|discriminate Hs|].
      unfold step in Hs. destruct i; discriminate Hs.
    - eexists. split; [reflexivity|]. intros He. discriminate He.
    - eexists. split; [reflexivity|]. intros He. discriminate He. }
  destruct H as (s & He & H1 & H2). exists s. split; [|split; [exact H1|exact H2]].
  apply (exec_reach stalled _ _ _ s (reach0 stalled _) He).
Qed.
Print Assumptions C66_stalled_client_refuted.

(* Four goroutines, interleaved, to the end: a snapshot, a pod, a service update and a loaded snapshot. *)
Fixpoint rounds (net : nat -> bool) (n k : nat) (s : list thread) : list thread :=
  match n with
  | O => s
  | S n' => rounds net n' k (fold_left (fun s' i => match step net i s' with Some s'' => s'' | None => s' end) (seq 0 k) s)
  end.
Definition aCalls : list (list op) :=
  [[OSnapshot [7]; OById]; [OAddPod aPod; OByHostPort (Some 7)];
   [OUpdateService false {| sd_ip := true; sd_ports := [(true, Some [true; false])] |} aService];
   [OSetup aSnapshot; ODeleteRound [{| ds_name := Some true; ds_ids := 1; ds_ports := [Some true; None]; ds_hostPorts := [true] |}]]].
Example C66_example : forallb (fun t => match t_rest t with [] => true | _ => false end) (rounds always 200 4 (map goroutine aCalls)) = true
  /\ left_ (map goroutine aCalls) = 203%nat.
Proof. vm_compute. split; reflexivity. Qed.
