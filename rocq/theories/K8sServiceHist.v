(** C39: histories that meet the hypotheses of its theorems, and histories for which attribution fails. *)
From Coq Require Import Permutation.
From Verif Require Import Base Decimal CompareModel K8sModel K8sSpec K8sProofs K8sInv K8sIter K8sProps K8sNodeProps K8sServiceSpec K8sServiceProofs K8sServiceInv K8sServiceProps K8sServiceAddr.
Open Scope string_scope. Open Scope list_scope. Open Scope Z_scope.

Definition S1 ok (w : world) l (st : kstate) : Prop := sreach (fun _ => false) (fun x => x) (bs "node-1") idIt 60 ok w l st.
Definition anyTime (w : world) (st : kstate) (o : kop) : Prop := True.
Definition relabel (app : string) (p : pod) : pod :=
  {| pd_uid := pd_uid p; pd_rv := pd_rv p; pd_ns := pd_ns p; pd_name := pd_name p; pd_labels := [(bs "app", bs app)]; pd_owners := pd_owners p; pd_node := pd_node p; pd_hostnet := pd_hostnet p;
     pd_ip := pd_ip p; pd_hostip := pd_hostip p; pd_statuses := pd_statuses p; pd_containers := pd_containers p |}.
Definition mkSvc (rv name ip app : string) (np : bool) : service :=
  {| sv_rv := bs rv; sv_ns := bs "shop"; sv_name := bs name; sv_ip := bs ip; sv_nodeport := np; sv_selector := [(bs "app", bs app)]; sv_ports := [{| sp_port := 80; sp_node := 30080 |}] |}.
Lemma idIt_ranges : ranges idIt.
Proof. intros A n l. apply Permutation_refl. Qed.
Lemma S1_pod ok w l st now o w' : S1 ok w l st -> wstep st now w o w' -> ok w st o -> match o with OAddService _ | OUpdateService _ _ | ODeleteService _ => False | _ => True end ->
  S1 ok w' l (step1 now o st).
Proof. intros R W K O. eapply SR_step; [exact R|exact W|apply S_other; exact O|exact K]. Qed.
Lemma S1_svc ok w l st now o l' : S1 ok w l st -> sstep l o l' -> w_now w <= now -> match o with OAddPod _ | OUpdatePod _ _ | ODeletePod _ | ODeleteRound => False | _ => True end -> ok w st o ->
  S1 ok {| w_live := w_live w; w_used := w_used w; w_retired := w_retired w; w_spoiled := w_spoiled w; w_reused := w_reused w; w_dead := w_dead w; w_now := now; w_round := w_round w |} l' (step1 now o st).
Proof. intros R S N O K. eapply SR_step; [exact R|apply W_other; assumption|exact S|exact K]. Qed.
Ltac sAdd R now p := let R' := fresh "R" in
  match type of R with S1 ?ok ?w ?l ?st => pose proof (S1_pod ok w l st now _ _ R (W_add st now w p ltac:(cbn; lia) ltac:(okp) eq_refl ltac:(cbn; intuition discriminate)) I I) as R' end; clear R; rename R' into R.
Ltac sDel R now p := let R' := fresh "R" in
  match type of R with S1 ?ok ?w ?l ?st => pose proof (S1_pod ok w l st now _ _ R (W_delete st now w p ltac:(cbn; lia) eq_refl) I I) as R' end; clear R; rename R' into R.
Ltac sRound R now := let R' := fresh "R" in
  match type of R with S1 ?ok ?w ?l ?st => pose proof (S1_pod ok w l st now _ _ R (W_deletions st now w ltac:(cbn; lia)) I I) as R' end; clear R; rename R' into R.
Ltac sSvc R now s K := let R' := fresh "R" in
  match type of R with S1 ?ok ?w ?l ?st => pose proof (S1_svc ok w l st now _ _ R (S_add l s eq_refl) ltac:(cbn; lia) I K) as R' end; clear R; rename R' into R.
Ltac sSvcDel R now s := let R' := fresh "R" in
  match type of R with S1 ?ok ?w ?l ?st => pose proof (S1_svc ok w l st now _ _ R (S_delete l s eq_refl) ltac:(cbn; lia) I I) as R' end; clear R; rename R' into R.

Definition web : service := mkSvc "1" "web" "10.96.0.1" "web" false.
Definition other : service := mkSvc "2" "other" "10.96.0.2" "db" false.

(** A pod, then two services, then another pod: both pods belong to the service that selects them. *)
Example C39_history : exists w l st, S1 onlyAdded w l st /\ aget l (svcKey web) = Some web /\ aget l (svcKey other) = Some other /\
  aget (w_live w) (podKey p1) = Some p1 /\ aget (w_live w) (podKey p2) = Some p2 /\ selects web p1 /\ ~ selects other p1 /\
  (forall k, ~ w_spoiled w k) /\ (forall u, ~ w_reused w u) /\
  (exists info j, answer idIt O st (CAddr (bs "10.0.0.1") 8080) = Some info /\ pi_svc (podAt (k_pods st) (ci_pod info)) = Some j /\ isService (svcAt (k_svcs st) j) web) /\
  (exists info j, answer idIt O st (CAddr (bs "10.0.0.2") 0) = Some info /\ pi_svc (podAt (k_pods st) (ci_pod info)) = Some j /\ isService (svcAt (k_svcs st) j) web).
Proof.
  assert (R : S1 onlyAdded w0 [] k0) by apply SR_start. sAdd R 5 p1.
  assert (NS : forall k, ~ (False \/ spoils w0 p1 k)). { intros k [[] | (_ & [(key & q & _ & X & _) | (u & [] & _)])]. discriminate. }
  assert (NR : forall u, ~ (False \/ u = pd_uid p1 /\ pendingName k0 (podKey p1))). { intros u [[] | (_ & d & ts & [] & _)]. }
  sSvc R 6 web (conj (eq_refl : k_queue (step1 5 (OAddPod p1) k0) = []) (conj NS NR)).
  sSvc R 7 other (conj (eq_refl : k_queue (step1 6 (OAddService web) (step1 5 (OAddPod p1) k0)) = []) (conj NS NR)).
  sAdd R 10 p2. eexists _, _, _. split; [exact R|]. clear R.
  split; [reflexivity|]. split; [reflexivity|]. split; [reflexivity|]. split; [reflexivity|]. split.
  { split; [reflexivity|]. split; [discriminate|]. intros k v [E | []]. inversion E; subst. reflexivity. }
  split. { intros (_ & _ & H). specialize (H (bs "app") (bs "db") (or_introl eq_refl)). discriminate. }
  split. { intros k. cbn [w_spoiled]. intros [X | (C & [(key & q & K & X & D) | (u & [] & _)])]; [exact (NS k X)|].
    cbn [w_live w0 aset aget] in X. destruct (eqb key (podKey p1)); [|discriminate X]. inversion X; subst q. exact (apart12 k D C). }
  split. { intros u. cbn [w_reused]. intros [X | (_ & d & ts & X & _)]; [exact (NR u X)|]. vm_compute in X. exact X. }
  split; (eexists _, _; split; [vm_compute; reflexivity|]; split; [vm_compute; reflexivity|]; vm_compute; repeat split).
Qed.

(** Two services select a pod.  When the one it was attributed to is deleted the pod is left with the emptied record, not with the other service. *)
Definition web2 : service := mkSvc "2" "web-canary" "10.96.0.3" "web" false.
Theorem C39_second_service_refuted : exists w l st info j, S1 anyTime w l st /\ aget l (svcKey web) = Some web /\ aget (w_live w) (podKey p1) = Some p1 /\ selects web p1 /\
  answer idIt O st (CAddr (bs "10.0.0.1") 8080) = Some info /\ describes (podAt (k_pods st) (ci_pod info)) p1 /\ pi_svc (podAt (k_pods st) (ci_pod info)) = Some j /\ svcAt (k_svcs st) j = nilSvc.
Proof.
  assert (R : S1 anyTime w0 [] k0) by apply SR_start. sAdd R 5 p1. sSvc R 6 web I. sSvc R 7 web2 I. sSvcDel R 8 web2.
  eexists _, _, _, _, _. split; [exact R|]. clear R. split; [reflexivity|]. split; [reflexivity|].
  split; [split; [reflexivity|split; [discriminate|intros k v [E | []]; inversion E; subst; reflexivity]]|].
  split; [vm_compute; reflexivity|]. split; [vm_compute; repeat split|]. split; vm_compute; reflexivity.
Qed.
Print Assumptions C39_second_service_refuted.

(** A pod ends and another takes its address.  A service that selects the first, added within the grace period, is given to the second. *)
Definition d1 : pod := relabel "db" (mkPod "u7" "9" "db-0" "10.0.0.1" "192.168.0.1" [] false [ctr "db" [{| pt_container := 8080; pt_host := 0 |}]]).
Theorem C39_reassigned_address_refuted : exists w l st info j, S1 anyTime w l st /\ w_live w = [(podKey d1, d1)] /\ l = [(svcKey web, web)] /\ ~ selects web d1 /\
  answer idIt O st (CAddr (bs "10.0.0.1") 8080) = Some info /\ describes (podAt (k_pods st) (ci_pod info)) d1 /\ pi_svc (podAt (k_pods st) (ci_pod info)) = Some j /\ isService (svcAt (k_svcs st) j) web /\ k_queue st = [].
Proof.
  assert (R : S1 anyTime w0 [] k0) by apply SR_start. sAdd R 5 p1. sDel R 20 p1. sAdd R 30 d1. sSvc R 40 web I. sRound R 1000.
  eexists _, _, _, _, _. split; [exact R|]. clear R. split; [vm_compute; reflexivity|]. split; [reflexivity|].
  split; [intros (_ & _ & H); specialize (H (bs "app") (bs "web") (or_introl eq_refl)); discriminate|].
  split; [vm_compute; reflexivity|]. split; [vm_compute; repeat split|]. split; [vm_compute; reflexivity|]. split; [vm_compute; repeat split|vm_compute; reflexivity].
Qed.
Print Assumptions C39_reassigned_address_refuted.

(** Two pods on the network of a node, without declared ports: the service that selects one is given to the other. *)
Definition h2' : pod := relabel "agent" h2.
Theorem C39_shared_address_refuted : exists w l st info j, S1 anyTime w l st /\ aget (w_live w) (podKey h2') = Some h2' /\ l = [(svcKey web, web)] /\ ~ selects web h2' /\
  answer idIt O st (CAddr (bs "192.168.0.1") 0) = Some info /\ describes (podAt (k_pods st) (ci_pod info)) h2' /\ pi_svc (podAt (k_pods st) (ci_pod info)) = Some j /\ isService (svcAt (k_svcs st) j) web.
Proof.
  assert (R : S1 anyTime w0 [] k0) by apply SR_start. sAdd R 5 h1. sAdd R 10 h2'. sSvc R 40 web I.
  eexists _, _, _, _, _. split; [exact R|]. clear R. split; [reflexivity|]. split; [reflexivity|].
  split; [intros (_ & _ & H); specialize (H (bs "app") (bs "web") (or_introl eq_refl)); discriminate|].
  split; [vm_compute; reflexivity|]. split; [vm_compute; repeat split|]. split; [vm_compute; reflexivity|vm_compute; repeat split].
Qed.
Print Assumptions C39_shared_address_refuted.

(** *** Addresses *)
Definition A1 l N st : Prop := areach (fun _ => false) (fun x => x) (bs "node-1") idIt 60 l N st.
Definition np : service := mkSvc "4" "shopfront" "10.96.0.4" "web" true.
Definition nodeB : node := {| nd_name := bs "node-b"; nd_addresses := [(bs "InternalIP", bs "192.168.0.2")] |}.
Definition nodeC : node := {| nd_name := bs "node-c"; nd_addresses := [(bs "InternalIP", bs "192.168.0.3")] |}.
Lemma np_ok : svcPortsOk np.
Proof. intros q [<- | []]. cbn. lia. Qed.
(** The address of a node that joins after a service of type NodePort does not answer the service, that of an earlier node does. *)
Theorem C39_later_node_refuted : exists l N st, A1 l N st /\ aget l (svcKey np) = Some np /\ nodesOf st (bs "192.168.0.3") /\ served np (nodesOf st) (bs "192.168.0.3") 30080 /\
  getServiceByIpPort st (bs "192.168.0.2") 30080 <> None /\ getServiceByIpPort st (bs "10.96.0.4") 80 <> None /\ getServiceByIpPort st (bs "192.168.0.3") 30080 = None.
Proof.
  assert (AP : forall (N : bytes -> Prop), ~ N (bs "10.96.0.4") -> apartServices [(svcKey np, np)] N).
  { intros N NN. split.
    - intros key s. cbn [aget]. destruct (eqb key (svcKey np)); [|discriminate]. intros E. inversion E; subst. split; [apply np_ok|]. intros _. exact NN.
    - intros key s key' s'. cbn [aget]. case_eqb key (svcKey np); [|discriminate]. case_eqb key' (svcKey np); [|discriminate]. congruence. }
  assert (AP0 : forall (N : bytes -> Prop), apartServices [] N) by (intros N; split; intros; discriminate).
  assert (R0 : A1 [] (fun _ => False) k0) by apply A_start.
  assert (R1 : A1 [] _ _) by (exact (A_step _ _ _ _ _ [] _ k0 O 1 (OAddNode nodeB) [] R0 (S_other _ (OAddNode nodeB) I) (AP0 _))). clear R0.
  match type of R1 with A1 _ ?N ?st => assert (R2 : A1 [(svcKey np, np)] _ _) by (refine (A_step _ _ _ _ _ [] N st O 2 (OAddService np) _ R1 (S_add [] np eq_refl) (AP _ _)); intros [[[] | (i & E)] | (i & E)]; vm_compute in E; discriminate E) end. clear R1.
  match type of R2 with A1 _ ?N ?st => assert (R3 : A1 [(svcKey np, np)] _ _) by (refine (A_step _ _ _ _ _ _ N st O 3 (OAddNode nodeC) _ R2 (S_other _ (OAddNode nodeC) I) (AP _ _)); intros [[[[] | (i & E)] | (i & E)] | (i & E)]; vm_compute in E; discriminate E) end. clear R2.
  eexists _, _, _. split; [exact R3|]. clear R3. split; [reflexivity|].
  assert (X : nodesOf (step1 3 (OAddNode nodeC) (step1 2 (OAddService np) (step1 1 (OAddNode nodeB) k0))) (bs "192.168.0.3")) by (eexists; vm_compute; reflexivity).
  split; [exact X|]. split; [split; [split; discriminate|]; eexists; split; [left; reflexivity|]; right; split; [reflexivity|]; split; [exact X|reflexivity]|].
  split; [vm_compute; discriminate|]. split; [vm_compute; discriminate|vm_compute; reflexivity].
Qed.
Print Assumptions C39_later_node_refuted.
