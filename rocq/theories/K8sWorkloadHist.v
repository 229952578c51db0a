(** C40: histories that meet the hypotheses, and where the property fails. *)
From Verif Require Import Base Decimal CompareModel K8sModel K8sSpec K8sProofs K8sInv K8sIter K8sProps K8sWorkloadSpec K8sWorkloadProofs K8sWorkloadProps.
Open Scope string_scope. Open Scope list_scope. Open Scope Z_scope.

Definition asciiLower (s : bytes) : bytes := map (fun c => if ((65 <=? c) && (c <=? 90))%bool then c + 32 else c) s.
Definition apps1 (s : bytes) : bool := eqb s (bs "apps/v1").
Notation Steady := (steady apps1 asciiLower (bs "node-1") idIt 60).
Notation Alone := (alone apps1 asciiLower (bs "node-1") idIt 60).
Definition W1 (ok : world -> kstate -> kop -> Prop) (w : world) (st : kstate) : Prop := reach apps1 asciiLower (bs "node-1") idIt 60 ok w st.
Definition wstep1 (now : Z) (o : kop) (st : kstate) : kstate := kstep apps1 asciiLower (bs "node-1") idIt 60 O now o st.
Lemma W1_step ok w st now o w' : W1 ok w st -> wstep st now w o w' -> ok w st o -> W1 ok w' (wstep1 now o st).
Proof. intros R S K. eapply R_step; [exact R|exact S|exact K]. Qed.
Definition ownedPod (uid name ip node : string) (o : owner) : pod :=
  {| pd_uid := bs uid; pd_rv := bs "1"; pd_ns := bs "shop"; pd_name := bs name; pd_labels := [(bs "app", bs "web")]; pd_owners := [o]; pd_node := bs node; pd_hostnet := false; pd_ip := bs ip; pd_hostip := bs "192.168.0.1";
     pd_statuses := []; pd_containers := [ctr "web" []] |}.
Definition byKind (kind name : string) : owner := {| ow_controller := true; ow_kind := bs kind; ow_name := bs name; ow_api := bs "apps/v1" |}.
Definition wl (kind name : string) : winfo := {| wi_ns := bs "shop"; wi_name := bs name; wi_kind := bs kind |}.

Ltac wAdd R now p ok := let R' := fresh "R" in
  match type of R with W1 ?k ?w ?st => pose proof (W1_step k w st now _ _ R (W_add st now w p ltac:(cbn; lia) ltac:(okp) eq_refl ltac:(cbn; intuition discriminate)) ltac:(ok)) as R' end; clear R; rename R' into R.
Ltac wDel R now p ok := let R' := fresh "R" in
  match type of R with W1 ?k ?w ?st => pose proof (W1_step k w st now _ _ R (W_delete st now w p ltac:(cbn; lia) eq_refl) ltac:(ok)) as R' end; clear R; rename R' into R.
Ltac wRound R now ok := let R' := fresh "R" in
  match type of R with W1 ?k ?w ?st => pose proof (W1_step k w st now _ _ R (W_deletions st now w ltac:(cbn; lia)) ltac:(ok)) as R' end; clear R; rename R' into R.
Ltac wOther R now o ok := let R' := fresh "R" in
  match type of R with W1 ?k ?w ?st => pose proof (W1_step k w st now _ _ R (W_other st now w o ltac:(cbn; lia) I) ltac:(ok)) as R' end; clear R; rename R' into R.
(** the queue holds no deletion of that name *)
Ltac noPending := let X := fresh in intros (? & ? & X & ?); vm_compute in X; repeat (destruct X as [X | X]; [inversion X; subst; cbn in *; discriminate|]); try destruct X; try contradiction.
Ltac okSteady := first [exact I | split; exact I | noPending].

Ltac okAlone := split; [noPending|]; let G := fresh in let N := fresh in intros ? ? G N; vm_compute in G;
  repeat match type of G with (match ?x with _ => _ end) = _ => destruct x; try discriminate G end; try discriminate G; injection G as <-; vm_compute; discriminate.

Definition webA : pod := ownedPod "u1" "web-7f-a" "10.0.0.1" "node-1" (byKind "ReplicaSet" "web-7f").
Definition webB : pod := ownedPod "u2" "web-7f-b" "10.0.0.2" "node-1" (byKind "ReplicaSet" "web-7f").
Definition webFar : pod := ownedPod "u3" "web-7f-c" "10.0.0.3" "node-2" (byKind "ReplicaSet" "web-7f").
Definition db0 : pod := ownedPod "u4" "db-0" "10.0.0.4" "node-1" (byKind "StatefulSet" "db").
Definition webSts : pod := ownedPod "u5" "web-0" "10.0.0.5" "node-1" (byKind "StatefulSet" "web").

(** Pods of two workloads; one ends and its grace period passes. *)
Example C40_history : exists w st, W1 Alone w st /\ k_queue st = [] /\ w_live w = [((bs "shop", bs "db-0"), db0)] /\ workloads st = [wl "statefulset" "db"].
Proof.
  assert (R : W1 Alone w0 k0) by apply R_start.
  wAdd R 5 webA okAlone. wAdd R 6 db0 okAlone.
  wDel R 20 webA okSteady. wRound R 80 okSteady.
  eexists _, _. split; [exact R|]. clear R. repeat split; vm_compute; reflexivity.
Qed.

(** A workload with two pods on this node: when one ends the inventory loses the workload, though the other lives. *)
Theorem C40_second_pod_refuted : exists w st, W1 Steady w st /\ k_queue st = [] /\ w_live w = [((bs "shop", bs "web-7f-b"), webB)] /\ pd_node webB = bs "node-1" /\ workloads st = [].
Proof.
  assert (R : W1 Steady w0 k0) by apply R_start. wAdd R 5 webA okSteady. wAdd R 6 webB okSteady. wDel R 20 webA okSteady. wRound R 80 okSteady.
  eexists _, _. split; [exact R|]. clear R. repeat split; vm_compute; reflexivity.
Qed.
Print Assumptions C40_second_pod_refuted.
(** The pod that ends may even have run on another node. *)
Theorem C40_remote_pod_refuted : exists w st, W1 Steady w st /\ k_queue st = [] /\ w_live w = [((bs "shop", bs "web-7f-a"), webA)] /\ pd_node webA = bs "node-1" /\ pd_node webFar = bs "node-2" /\ workloads st = [].
Proof.
  assert (R : W1 Steady w0 k0) by apply R_start. wAdd R 5 webA okSteady. wAdd R 6 webFar okSteady. wDel R 20 webFar okSteady. wRound R 80 okSteady.
  eexists _, _. split; [exact R|]. clear R. repeat split; vm_compute; reflexivity.
Qed.
Print Assumptions C40_remote_pod_refuted.
(** A pod replaced by another of its workload, never two at a time: the delayed deletion of the first removes the workload of the second. *)
Theorem C40_replaced_pod_refuted : exists w st, W1 Steady w st /\ k_queue st = [] /\ w_live w = [((bs "shop", bs "web-7f-b"), webB)] /\ pd_node webB = bs "node-1" /\ workloads st = [].
Proof.
  assert (R : W1 Steady w0 k0) by apply R_start. wAdd R 5 webA okSteady. wDel R 20 webA okSteady. wAdd R 30 webB okSteady. wRound R 80 okSteady.
  eexists _, _. split; [exact R|]. clear R. repeat split; vm_compute; reflexivity.
Qed.
Print Assumptions C40_replaced_pod_refuted.
(** Two workloads of different kinds with one name share an entry: only the last is listed. *)
Theorem C40_same_name_refuted : exists w st, W1 Steady w st /\ k_queue st = [] /\ w_live w = [((bs "shop", bs "web-7f-a"), webA); ((bs "shop", bs "web-0"), webSts)] /\ workloads st = [wl "statefulset" "web"].
Proof.
  assert (R : W1 Steady w0 k0) by apply R_start. wAdd R 5 webA okSteady. wAdd R 6 webSts okSteady.
  eexists _, _. split; [exact R|]. clear R. repeat split; vm_compute; reflexivity.
Qed.
Print Assumptions C40_same_name_refuted.
(** A replica set that is heard of after its pod: the name guessed from the replica set's stays in the inventory after the pod's end. *)
Definition blue : pod := ownedPod "u1" "web-blue-a" "10.0.0.1" "node-1" (byKind "ReplicaSet" "web-blue").
Definition blue' : pod := {| pd_uid := pd_uid blue; pd_rv := bs "2"; pd_ns := pd_ns blue; pd_name := pd_name blue; pd_labels := pd_labels blue; pd_owners := pd_owners blue; pd_node := pd_node blue; pd_hostnet := false; pd_ip := pd_ip blue; pd_hostip := pd_hostip blue; pd_statuses := []; pd_containers := pd_containers blue |}.
Definition blueRs : replicaset := {| rs_rv := bs "1"; rs_ns := bs "shop"; rs_name := bs "web-blue"; rs_owners := [{| ow_controller := true; ow_kind := bs "Rollout"; ow_name := bs "shop"; ow_api := bs "argoproj.io/v1alpha1" |}] |}.
Theorem C40_late_replica_set_refuted : exists w st, W1 anyEvent w st /\ k_queue st = [] /\ w_live w = [] /\ workloads st = [wl "deployment" "web"].
Proof.
  assert (R : W1 anyEvent w0 k0) by apply R_start. wAdd R 5 blue okSteady. wOther R 6 (OAddRs blueRs) okSteady.
  match type of R with W1 ?k ?w ?st => pose proof (W1_step k w st 7 _ _ R (W_update st 7 w blue blue' ltac:(cbn; lia) ltac:(okp) eq_refl eq_refl ltac:(discriminate) ltac:(left; reflexivity) ltac:(cbn; intros; try discriminate; congruence)) I) as R' end. clear R. rename R' into R.
  wDel R 20 blue' okSteady. wRound R 80 okSteady.
  eexists _, _. split; [exact R|]. clear R. repeat split; vm_compute; reflexivity.
Qed.
Print Assumptions C40_late_replica_set_refuted.
