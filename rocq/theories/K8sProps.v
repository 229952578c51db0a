(** C37: the metadata of pods follows the watched pods. *)
From Coq Require Import Permutation.
From Verif Require Import Base Decimal CompareModel K8sModel K8sSpec K8sProofs K8sInv K8sIter.
Open Scope string_scope. Open Scope list_scope. Open Scope Z_scope.

Lemma normal_claim k : exists k', kvalid k' /\ (forall it n s, answer it n s k = answer it n s k') /\ (kvalid k -> k' = k).
Proof.
  destruct k as [c | ip p | ip p]; [exists (CId c)|exists (CAddr ip p)|exists (CHost ip (w32 p))]; (split; [try exact I; apply w32_range|]); split; intros; try reflexivity.
  - cbn [answer]. unfold getContainerByHostIpPort, hostKey. rewrite (w32_small (w32 p)) by apply w32_range. reflexivity.
  - rewrite w32_small by assumption. reflexivity.
Qed.
Lemma answer_lookup it n st k info : ranges it -> nd2 (k_ips st) -> kvalid k -> answer it n st k = Some info ->
  exists k', kvalid k' /\ lookup st k' = Some info /\
    (k' = k \/ exists ip p q, k = CAddr ip p /\ k' = CAddr ip q /\ lookup st k = None /\ pi_hostnet (podAt (k_pods st) (ci_pod info)) = false).
Proof.
  intros RI N V A. destruct k as [c | ip p | ip p]; cbn [answer] in A; [exists (CId c); auto| |exists (CHost ip p); auto].
  destruct (byIpPort_entry it n st ip p info RI N A) as (q & G & [-> | (G' & H)]); [exists (CAddr ip p); auto|].
  exists (CAddr ip q). split; [exact I|]. split; [exact G|]. right. exists ip, p, q. auto.
Qed.
Lemma lookup_answer it n st k info : lookup st k = Some info -> answer it n st k = Some info.
Proof. destruct k as [c | ip p | ip p]; cbn [lookup answer]; auto. intros G. unfold getContainerByIpPort. fold (get2 (k_ips st) ip p). rewrite G. reflexivity. Qed.

(** Whatever a live pod can be looked up by finds it, with its metadata and the right container, as long as no two pods had it at once and it was
    not given up and taken back: after every history, at every moment, whatever deletions are still waiting. *)
Theorem C37_live : forall builtIn lower myNode it grace ok w st n key v k,
  0 < grace -> reach builtIn lower myNode it grace ok w st -> aget (w_live w) key = Some v -> claims v k -> ~ w_spoiled w k ->
  exists info, answer it n st k = Some info /\ describes (podAt (k_pods st) (ci_pod info)) v /\ rightContainer v k info.
Proof.
  intros builtIn lower myNode it grace ok w st n key v k GP R G CL NS. destruct (reach_inv builtIn lower myNode it grace ok w st GP R) as (IV & _).
  destruct (i_found _ _ _ IV key v k G CL NS) as (info & A & B & C). exists info. split; [apply lookup_answer; exact A|]. split; [apply record_describes; exact B|exact C].
Qed.
Print Assumptions C37_live.

(** No question is answered with a pod that ended the grace period before the last round of deletions: by id, by address and port (declared or not),
    by host port, by address. *)
Theorem C37_deleted : forall builtIn lower myNode it grace ok w st u t,
  0 < grace -> ranges it -> reach builtIn lower myNode it grace ok w st -> w_dead w u t -> t + grace <= w_round w -> ~ w_reused w u ->
  (forall n k info, answer it n st k = Some info -> pi_uid (podAt (k_pods st) (ci_pod info)) <> u) /\
  (forall n ip i, getPodByIp it n st ip = Some i -> pi_uid (podAt (k_pods st) i) <> u).
Proof.
  intros builtIn lower myNode it grace ok w st u t GP RI R DT L NR. destruct (reach_inv builtIn lower myNode it grace ok w st GP R) as (IV & (_ & _ & QV)).
  pose proof (reach_nd builtIn lower myNode it grace ok w st R) as ND. destruct (i_dead _ _ _ IV u t DT) as (_ & DL).
  assert (K : forall k info, kvalid k -> lookup st k = Some info -> uidOf st info <> u).
  { intros k info V G U. destruct (i_stale _ _ _ IV k info V G) as [X | [(key & v & X1 & X2 & _) | (d & ts & X1 & X2 & _)]].
    - apply NR. congruence.
    - apply (DL key v X1). congruence.
    - assert (ts <= t) by (eapply (i_times _ _ _ IV); [exact X1|rewrite X2, U; exact DT]). rewrite Forall_forall in QV. specialize (QV _ X1). cbn [snd] in QV. lia. }
  split.
  - intros n k info A. destruct (normal_claim k) as (k' & V & E & _). rewrite E in A. destruct (answer_lookup it n st k' info RI ND V A) as (k2 & V2 & G & _). apply (K k2 info V2 G).
  - intros n ip i A. destruct (byIp_entry it n st ip i RI ND A) as (q & c & G & <- & _). apply (K (CAddr ip q) c I G).
Qed.
Print Assumptions C37_deleted.

(** A round of deletions that runs the grace period after the last event leaves no deletion waiting. *)
Theorem C37_settles : forall builtIn lower myNode it grace ok w st n now,
  0 < grace -> reach builtIn lower myNode it grace ok w st -> w_now w + grace <= now ->
  k_queue (kstep builtIn lower myNode it grace n now ODeleteRound st) = [].
Proof.
  intros builtIn lower myNode it grace ok w st n now GP R L. destruct (reach_inv builtIn lower myNode it grace ok w st GP R) as (IV & (_ & _ & QV)).
  cbn [kstep]. unfold deleteRound. rewrite deleteAll_queue. cbn [setQueue k_queue].
  assert (X : forall q, Forall (fun x => snd x <= w_now w) q -> snd (expired grace now q) = []).
  { induction q as [|[d ts] q IH]; intros F; cbn [expired snd]; [reflexivity|]. inversion F as [|? ? F1 F2]; subst. cbn [snd] in F1. replace (now <? ts + grace) with false by lia. apply IH. exact F2. }
  apply X. eapply Forall_impl; [|exact QV]. cbn beta. tauto.
Qed.
Print Assumptions C37_settles.

(** With no deletion waiting the answers are exact: an answer is a live pod that declares what was asked for, or a pod with its own network that has the address
    when no pod declares the port; no answer means no live pod declares it. *)
Theorem C37_exact : forall builtIn lower myNode it grace ok w st n k,
  0 < grace -> ranges it -> reach builtIn lower myNode it grace ok w st -> k_queue st = [] -> (forall u, ~ w_reused w u) -> (forall k, ~ w_spoiled w k) -> kvalid k ->
  match answer it n st k with
  | Some info => exists key v, aget (w_live w) key = Some v /\ describes (podAt (k_pods st) (ci_pod info)) v /\
      (claims v k \/ exists ip p q, k = CAddr ip p /\ claims v (CAddr ip q) /\ pd_hostnet v = false /\ forall key' v', aget (w_live w) key' = Some v' -> ~ claims v' k)
  | None => forall key v, aget (w_live w) key = Some v -> ~ claims v k
  end.
Proof.
  intros builtIn lower myNode it grace ok w st n k GP RI R Q NR NS V. destruct (reach_inv builtIn lower myNode it grace ok w st GP R) as (IV & _). rewrite Q in IV.
  pose proof (reach_nd builtIn lower myNode it grace ok w st R) as ND.
  destruct (answer it n st k) as [info|] eqn:A.
  - destruct (answer_lookup it n st k info RI ND V A) as (k' & V' & G & C).
    destruct (i_stale _ _ _ IV k' info V' G) as [X | [(key & v & X1 & X2 & X3 & X4) | (d & ts & [] & _)]]; [exfalso; eapply NR; exact X|].
    exists key, v. split; [exact X1|]. pose proof (record_describes _ _ X4) as DE. split; [exact DE|].
    destruct C as [-> | (ip & p & q & -> & -> & G0 & HN)]; [left; exact X3|]. right. exists ip, p, q. split; [reflexivity|]. split; [exact X3|].
    split; [destruct DE as (_ & _ & _ & _ & _ & _ & _ & HE); congruence|].
    intros key' v' L CL. destruct (i_found _ _ _ IV key' v' _ L CL (NS _)) as (x & Y & _). congruence.
  - intros key v L CL. destruct (i_found _ _ _ IV key v k L CL (NS k)) as (x & Y & _). apply (lookup_answer it n) in Y. congruence.
Qed.
Print Assumptions C37_exact.

(** A pod with its own network that is alone with its address is found by the address, and by the address with any port. *)
Theorem C37_any_port : forall builtIn lower myNode it grace ok w st n key v ip q,
  0 < grace -> ranges it -> reach builtIn lower myNode it grace ok w st -> k_queue st = [] -> (forall u, ~ w_reused w u) ->
  aget (w_live w) key = Some v -> claims v (CAddr ip q) -> ~ w_spoiled w (CAddr ip q) -> pd_hostnet v = false ->
  (forall key' v' q', aget (w_live w) key' = Some v' -> claims v' (CAddr ip q') -> v' = v) ->
  (forall p, exists info, getContainerByIpPort it n st ip p = Some info /\ describes (podAt (k_pods st) (ci_pod info)) v) /\
  (exists i, getPodByIp it n st ip = Some i /\ describes (podAt (k_pods st) i) v).
Proof.
  intros builtIn lower myNode it grace ok w st n key v ip q GP RI R Q NR L CL NS HN AL. destruct (reach_inv builtIn lower myNode it grace ok w st GP R) as (IV & _). rewrite Q in IV.
  pose proof (reach_nd builtIn lower myNode it grace ok w st R) as ND.
  assert (D : forall x c, get2 (k_ips st) ip x = Some c -> describes (podAt (k_pods st) (ci_pod c)) v).
  { intros x c G. destruct (i_stale _ _ _ IV (CAddr ip x) c I G) as [X | [(key' & v' & X1 & X2 & X3 & X4) | (d & ts & [] & _)]]; [exfalso; eapply NR; exact X|].
    rewrite <- (AL key' v' x X1 X3). apply record_describes. exact X4. }
  assert (E : exists x c, get2 (k_ips st) ip x = Some c). { destruct (i_found _ _ _ IV key v _ L CL NS) as (c & G & _). exists q, c. exact G. }
  assert (H : forall x c, get2 (k_ips st) ip x = Some c -> pi_hostnet (podAt (k_pods st) (ci_pod c)) = false). { intros x c G. destruct (D x c G) as (_ & _ & _ & _ & _ & _ & _ & ->). exact HN. }
  split.
  - intros p. destruct (getContainerByIpPort it n st ip p) as [info|] eqn:G; [|exfalso; exact (byIpPort_some it n st ip p RI ND E H G)].
    exists info. split; [reflexivity|]. destruct (byIpPort_entry it n st ip p info RI ND G) as (x & X & _). apply (D x info X).
  - destruct (byIp_some it n st ip RI ND E H) as (x & c & X & ->). exists (ci_pod c). split; [reflexivity|]. apply (D x c X).
Qed.
Print Assumptions C37_any_port.

(** *** Histories that show the hypotheses are met, and that they are needed *)
Definition idIt : forall A : Type, nat -> list A -> list A := fun _ _ l => l.
Definition ctr (name : string) (ports : list port) : container := {| ct_name := bs name; ct_ports := ports |}.
Definition mkPod (uid rv name ip hostip : string) (ids : list string) (hostnet : bool) (cs : list container) : pod :=
  {| pd_uid := bs uid; pd_rv := bs rv; pd_ns := bs "shop"; pd_name := bs name; pd_labels := [(bs "app", bs "web")]; pd_owners := []; pd_node := bs "node-1"; pd_hostnet := hostnet; pd_ip := bs ip; pd_hostip := bs hostip;
     pd_statuses := map (fun i => (bs "c", bs "docker://" ++ bs i)) ids; pd_containers := cs |}.
Definition R1 (w : world) (st : kstate) : Prop := reach (fun _ => false) (fun x => x) (bs "node-1") idIt 60 anyEvent w st.
Lemma okPorts_dec p : forallb (fun c => forallb (fun q => ((0 <=? pt_container q) && (pt_container q <? 65536) && (0 <=? pt_host q) && (pt_host q <? 65536))%bool) (ct_ports c)) (pd_containers p) = true ->
  negb (eqb (pd_hostip p) []) = true -> negb (eqb (pd_name p) []) = true -> portsOk p.
Proof.
  intros A B C. split; [|split].
  - intros c q I J. rewrite forallb_forall in A. specialize (A c I). rewrite forallb_forall in A. specialize (A q J). lia.
  - intros _ X. rewrite X in B. discriminate.
  - intros X. rewrite X in C. discriminate.
Qed.
Definition step1 (now : Z) (o : kop) (st : kstate) : kstate := kstep (fun _ => false) (fun x => x) (bs "node-1") idIt 60 O now o st.
Lemma R1_step w st now o w' : R1 w st -> wstep st now w o w' -> R1 w' (step1 now o st).
Proof. intros R S. eapply R_step; [exact R|exact S|exact I]. Qed.
Ltac okp := apply okPorts_dec; reflexivity.
Ltac goAdd R now p := let R' := fresh "R" in
  match type of R with R1 ?w ?st => pose proof (R1_step w st now _ _ R (W_add st now w p ltac:(cbn; lia) ltac:(okp) eq_refl ltac:(cbn; intuition discriminate))) as R' end; clear R; rename R' into R.
Ltac goUpd R now old new := let R' := fresh "R" in
  match type of R with R1 ?w ?st => pose proof (R1_step w st now _ _ R (W_update st now w old new ltac:(cbn; lia) ltac:(okp) eq_refl eq_refl ltac:(discriminate) ltac:(left; reflexivity) ltac:(cbn; intros; try discriminate; congruence))) as R' end; clear R; rename R' into R.
Ltac goDel R now p := let R' := fresh "R" in
  match type of R with R1 ?w ?st => pose proof (R1_step w st now _ _ R (W_delete st now w p ltac:(cbn; lia) eq_refl)) as R' end; clear R; rename R' into R.
Ltac goRound R now := let R' := fresh "R" in
  match type of R with R1 ?w ?st => pose proof (R1_step w st now _ _ R (W_deletions st now w ltac:(cbn; lia))) as R' end; clear R; rename R' into R.

Definition ports1 : list port := [{| pt_container := 8080; pt_host := 30080 |}; {| pt_container := 9090; pt_host := 0 |}].
Definition p1 : pod := mkPod "u1" "1" "web-0" "10.0.0.1" "192.168.0.1" ["aaaaaaaaaaaaaaaa"] false [ctr "web" ports1].
Definition p1' : pod := mkPod "u1" "2" "web-0" "10.0.0.1" "192.168.0.1" ["bbbbbbbbbbbbbbbb"] false [ctr "web" ports1].
Definition p2 : pod := mkPod "u2" "3" "web-1" "10.0.0.2" "192.168.0.1" ["cccccccccccccccc"] false [ctr "web" []; ctr "log" []].
Lemma apart p q : (forall c, In c (shortIds p) -> ~ In c (shortIds q)) -> pd_ip p <> pd_ip q -> (forall x, In x (podHostPorts p) -> ~ In x (podHostPorts q)) -> forall k, claims p k -> claims q k -> False.
Proof.
  intros A B C [c | ip x | ip x] P Q.
  - apply shortIds_in in P. apply shortIds_in in Q. eapply A; eassumption.
  - destruct P as (_ & P & _), Q as (_ & Q & _). congruence.
  - destruct P as (_ & _ & P), Q as (_ & _ & Q). apply podHostPorts_in in P. apply podHostPorts_in in Q. eapply C; eassumption.
Qed.
Lemma apart12 k : claims p1 k -> claims p2 k -> False.
Proof. apply apart; [intros c [<- | []] [X | []]; discriminate|discriminate|intros x _ []]. Qed.
Lemma apart12' k : claims p1' k -> claims p2 k -> False.
Proof. apply apart; [intros c [<- | []] [X | []]; discriminate|discriminate|intros x _ []]. Qed.

(** Two pods; the first restarts its container, then ends; the grace period passes. *)
Example C37_history : exists w st, R1 w st /\ k_queue st = [] /\ w_live w = [((bs "shop", bs "web-1"), p2)] /\ w_dead w (bs "u1") 20 /\ w_round w = 80 /\
  (forall k, ~ w_spoiled w k) /\ (forall u, ~ w_reused w u) /\
  claims p2 (CAddr (bs "10.0.0.2") 0) /\ getContainerByIpPort idIt O st (bs "10.0.0.2") 4000 <> None /\ getContainerByIpPort idIt O st (bs "10.0.0.1") 8080 = None /\
  aget (k_cids st) (bs "bbbbbbbbbbbb") = None.
Proof.
  assert (R : R1 w0 k0) by apply R_start. goAdd R 5 p1. goAdd R 10 p2. goUpd R 15 p1 p1'. goDel R 20 p1'. goRound R 80.
  eexists _, _. split; [exact R|]. clear R.
  split; [vm_compute; reflexivity|]. split; [vm_compute; reflexivity|]. split; [cbn; auto|]. split; [reflexivity|].
  split; [|split; [|split; [|split; [|split]]]].
  - intros k. cbn [w_spoiled w0 w_live w_retired]. unfold spoils. cbn [w_spoiled w0 w_live w_retired aset].
    intros [[[[] | (_ & [(key & q & _ & X & _) | (u & [] & _)])] | (C & [(key & q & K & X & D) | (u & [] & _)])] | (C & [(key & q & K & X & D) | (u & [] & _)])].
    + discriminate.
    + cbn [aget] in X. destruct (eqb key (podKey p1)); [|discriminate]. inversion X; subst q. exact (apart12 k D C).
    + change (eqb (podKey p2) (podKey p1)) with false in X. cbn [aget aset] in X. destruct (eqb key (podKey p1)) eqn:E; [apply eqb_true in E; subst; apply K; reflexivity|].
      destruct (eqb key (podKey p2)); [|discriminate]. inversion X; subst q. exact (apart12' k C D).
  - intros u. cbn [w_reused w0]. unfold pendingName. intros [[[[] | (_ & d & ts & [] & _)] | (_ & d & ts & I & _)] | (_ & N & _)].
    + vm_compute in I. exact I.
    + apply N. reflexivity.
  - cbn [claims]. split; [discriminate|]. split; [reflexivity|]. exists (ctr "web" []). split; [left; reflexivity|]. left. auto.
  - vm_compute. discriminate.
  - vm_compute. reflexivity.
  - vm_compute. reflexivity.
Qed.

(** *** Where the property fails *)
(** A pod is deleted and created again under the same name within the grace period.  The deletion, when it is due, removes the cached record of the new pod,
    so that the next update of the new pod gives nothing up: the container id it drops is answered for ever after. *)
Definition n1 : pod := mkPod "u9" "7" "web-0" "10.0.0.9" "192.168.0.1" ["dddddddddddddddd"] false [ctr "web" ports1].
Definition n1' : pod := mkPod "u9" "8" "web-0" "10.0.0.9" "192.168.0.1" ["eeeeeeeeeeeeeeee"] false [ctr "web" ports1].
Theorem C37_recreated_refuted : exists w st, R1 w st /\ k_queue st = [] /\ w_round w = 1000 /\ w_live w = [((bs "shop", bs "web-0"), n1')] /\
  exists info, answer idIt O st (CId (bs "dddddddddddd")) = Some info /\ ~ claims n1' (CId (bs "dddddddddddd")).
Proof.
  assert (R : R1 w0 k0) by apply R_start. goAdd R 5 p1. goDel R 20 p1. goAdd R 30 n1. goRound R 90. goUpd R 100 n1 n1'. goRound R 1000.
  eexists _, _. split; [exact R|]. clear R. split; [vm_compute; reflexivity|]. split; [reflexivity|]. split; [vm_compute; reflexivity|].
  eexists. split; [vm_compute; reflexivity|]. rewrite <- shortIds_in. intros [X | []]. discriminate.
Qed.
Print Assumptions C37_recreated_refuted.

(** A pod whose address changes and changes back within the grace period: the delayed deletion removes the entries it has again. *)
Definition q1 : pod := mkPod "u1" "2" "web-0" "10.0.0.5" "192.168.0.1" ["aaaaaaaaaaaaaaaa"] false [ctr "web" ports1].
Definition q2 : pod := mkPod "u1" "3" "web-0" "10.0.0.1" "192.168.0.1" ["aaaaaaaaaaaaaaaa"] false [ctr "web" ports1].
Theorem C37_regained_address_refuted : exists w st, R1 w st /\ k_queue st = [] /\ w_live w = [((bs "shop", bs "web-0"), q2)] /\
  claims q2 (CAddr (bs "10.0.0.1") 8080) /\ answer idIt O st (CAddr (bs "10.0.0.1") 8080) = None.
Proof.
  assert (R : R1 w0 k0) by apply R_start. goAdd R 5 p1. goUpd R 20 p1 q1. goUpd R 30 q1 q2. goRound R 90.
  eexists _, _. split; [exact R|]. clear R. split; [vm_compute; reflexivity|]. split; [vm_compute; reflexivity|]. split; [|vm_compute; reflexivity].
  cbn [claims]. split; [discriminate|]. split; [reflexivity|]. eexists. split; [left; reflexivity|]. right. eexists. split; [left; reflexivity|reflexivity].
Qed.
Print Assumptions C37_regained_address_refuted.

(** Two pods on the network of one node, without declared ports, share the entry of the node's address: when one ends the other is not found. *)
Definition h1 : pod := mkPod "u1" "1" "proxy" "192.168.0.1" "192.168.0.1" [] true [ctr "proxy" []].
Definition h2 : pod := mkPod "u2" "2" "agent" "192.168.0.1" "192.168.0.1" [] true [ctr "agent" []].
Theorem C37_shared_address_refuted : exists w st, R1 w st /\ k_queue st = [] /\ w_live w = [((bs "shop", bs "proxy"), h1)] /\
  claims h1 (CAddr (bs "192.168.0.1") 0) /\ answer idIt O st (CAddr (bs "192.168.0.1") 0) = None.
Proof.
  assert (R : R1 w0 k0) by apply R_start. goAdd R 5 h1. goAdd R 10 h2. goDel R 20 h2. goRound R 90.
  eexists _, _. split; [exact R|]. clear R. split; [vm_compute; reflexivity|]. split; [vm_compute; reflexivity|]. split; [|vm_compute; reflexivity].
  cbn [claims]. split; [discriminate|]. split; [reflexivity|]. eexists. split; [left; reflexivity|]. left. split; reflexivity.
Qed.
Print Assumptions C37_shared_address_refuted.

(** A pod that loses its address but keeps the address of its node goes on answering for its host ports. *)
Definition l1 : pod := mkPod "u1" "2" "web-0" "" "192.168.0.1" [] false [ctr "web" ports1].
Theorem C37_lost_address_refuted : exists st, st = step1 1000 ODeleteRound (step1 10 (OUpdatePod p1 l1) (step1 5 (OAddPod p1) k0)) /\
  k_queue st = [] /\ ~ claims l1 (CHost (bs "192.168.0.1") 30080) /\ answer idIt O st (CHost (bs "192.168.0.1") 30080) <> None.
Proof.
  eexists. split; [reflexivity|]. split; [vm_compute; reflexivity|]. split; [cbn [claims]; intros (X & _); apply X; reflexivity|]. vm_compute. discriminate.
Qed.
Print Assumptions C37_lost_address_refuted.
