(** C67: a client of the metadata provider that has loaded a snapshot answers as the provider does, and goes on doing so. *)
From Coq Require Import Permutation Sorted.
From Verif Require Import Base Decimal CompareModel K8sModel K8sSpec K8sProofs K8sInv K8sIter K8sProps SnapModel SnapSpec SnapProofs SnapInv.
Open Scope string_scope. Open Scope list_scope. Open Scope Z_scope.

(** Once it has loaded the snapshot the client knows of every container id, address and port, host port, service address,
    node and replica set what the provider knows: for every state of the provider. *)
Theorem C67_same_answers : forall builtIn lower client it m st cl, cl = load client it m (marshal st) ->
  (forall k, option_map (known cl) (lookup cl k) = option_map (known st) (lookup st k)) /\
  (forall ip p, option_map (knownSvc cl) (getServiceByIpPort cl ip p) = option_map (knownSvc st) (getServiceByIpPort st ip p)) /\
  (forall ip, getNodeName cl ip = getNodeName st ip) /\
  (forall ns owners, controllerOf builtIn lower (k_rs cl) ns owners = controllerOf builtIn lower (k_rs st) ns owners).
Proof.
  intros builtIn lower client it m st cl ->. split; [apply loaded_lookup|]. split; [apply loaded_svc|]. split; reflexivity.
Qed.
Print Assumptions C67_same_answers.

(** A second client fed from the first gets the same snapshot. *)
Theorem C67_handed_on : forall client it m st, marshal (load client it m (marshal st)) = marshal st.
Proof. exact load_marshal. Qed.
Print Assumptions C67_handed_on.

Lemma workOf_get my ps : forall (cs : list (bytes * cinfo)) g a b wi,
  get2 (fold_left (fun g e => let p := podAt ps (ci_pod (snd e)) in if eqb (pi_node p) my then put2 g (pi_ns p) (pi_wname p) {| wi_ns := pi_ns p; wi_name := pi_wname p; wi_kind := pi_wkind p |} else g) cs g) a b = Some wi ->
  get2 g a b = Some wi \/ exists e, In e cs /\ pi_node (podAt ps (ci_pod (snd e))) = my /\ wi = {| wi_ns := pi_ns (podAt ps (ci_pod (snd e))); wi_name := pi_wname (podAt ps (ci_pod (snd e))); wi_kind := pi_wkind (podAt ps (ci_pod (snd e))) |}.
Proof.
  induction cs as [|e cs IH]; intros g a b wi G; cbn [fold_left] in G; [auto|]. apply IH in G. destruct G as [G | (e' & I & X)]; [|right; exists e'; split; [right; exact I|exact X]].
  cbn zeta in G. revert G. case_eqb (pi_node (podAt ps (ci_pod (snd e)))) my; intros G; [|left; exact G]. rewrite get2_put2 in G. destruct (_ && _)%bool; [|left; exact G].
  right. exists e. split; [left; reflexivity|]. split; [exact E|]. congruence.
Qed.
Lemma workOf_has my ps : forall (cs : list (bytes * cinfo)) g a b,
  (get2 g a b <> None \/ exists e, In e cs /\ pi_node (podAt ps (ci_pod (snd e))) = my /\ pi_ns (podAt ps (ci_pod (snd e))) = a /\ pi_wname (podAt ps (ci_pod (snd e))) = b) ->
  get2 (fold_left (fun g e => let p := podAt ps (ci_pod (snd e)) in if eqb (pi_node p) my then put2 g (pi_ns p) (pi_wname p) {| wi_ns := pi_ns p; wi_name := pi_wname p; wi_kind := pi_wkind p |} else g) cs g) a b <> None.
Proof.
  induction cs as [|e cs IH]; intros g a b H; cbn [fold_left]; [destruct H as [H | (e & [] & _)]; exact H|]. apply IH. cbn zeta.
  destruct H as [H | (e' & [<- | I] & A & B & C)].
  - left. destruct (eqb _ _); [|exact H]. rewrite get2_put2. destruct (_ && _)%bool; [discriminate|exact H].
  - left. rewrite A, eqb_refl, get2_put2, B, C, !eqb_refl. discriminate.
  - right. exists e'. auto.
Qed.
Lemma workOf_nd my ps : forall (cs : list (bytes * cinfo)) g, (nd2 g /\ NoDup (keys g)) ->
  let r := fold_left (fun g e => let p := podAt ps (ci_pod (snd e)) in if eqb (pi_node p) my then put2 g (pi_ns p) (pi_wname p) {| wi_ns := pi_ns p; wi_name := pi_wname p; wi_kind := pi_wkind p |} else g) cs g in
  nd2 r /\ NoDup (keys r).
Proof.
  induction cs as [|e cs IH]; intros g H; cbn [fold_left]; [exact H|]. apply IH. cbn zeta. destruct (eqb _ _); [|exact H]. destruct H as (A & B). split; [apply nd2_put2; exact A|].
  unfold put2. apply NoDup_keys_aset. exact B.
Qed.
Lemma workloads_in (st : kstate) wi : nd2 (k_work st) -> NoDup (keys (k_work st)) -> (In wi (workloads st) <-> exists a b, get2 (k_work st) a b = Some wi).
Proof.
  intros N M. unfold workloads. rewrite in_flat_map. split.
  - intros ([a i] & I & X). cbn [snd] in X. apply in_map_iff in X. destruct X as ([b w] & <- & J). exists a, b. cbn [snd]. apply (get2_in (k_work st) a b w N). unfold inner. rewrite (in_aget _ _ _ M I). exact J.
  - intros (a & b & G). apply (get2_in (k_work st) a b wi N) in G. unfold inner in G. destruct (aget (k_work st) a) as [i|] eqn:E; [|destruct G]. apply aget_in in E.
    exists (a, i). split; [exact E|]. apply in_map_iff. exists (b, wi). auto.
Qed.

(** The workloads the client exports right after it has loaded the snapshot are those of the live pods on its node. *)
Theorem C67_workloads : forall builtIn lower provider client it it' grace w st m,
  ranges it' -> reach builtIn lower provider it grace anyEvent w st -> settled w st ->
  (forall wi, In wi (workloads (load client it' m (marshal st))) -> exists key v c info,
     aget (w_live w) key = Some v /\ pd_node v = client /\ claims v (CId c) /\ lookup st (CId c) = Some info /\ describes (podAt (k_pods st) (ci_pod info)) v /\
     wi = {| wi_ns := pd_ns v; wi_name := pi_wname (podAt (k_pods st) (ci_pod info)); wi_kind := pi_wkind (podAt (k_pods st) (ci_pod info)) |}) /\
  (forall key v c, aget (w_live w) key = Some v -> pd_node v = client -> claims v (CId c) -> exists info wi, lookup st (CId c) = Some info /\ In wi (workloads (load client it' m (marshal st))) /\
     wi_ns wi = pd_ns v /\ wi_name wi = pi_wname (podAt (k_pods st) (ci_pod info))).
Proof.
  intros builtIn lower provider client it it' grace w st m RI R S. pose proof (reach_inv0 builtIn lower provider it grace anyEvent w st R) as IV.
  pose proof (reach_cids_nd builtIn lower provider it grace anyEvent w st R) as ND. destruct S as (Q & NR & NS & HC). rewrite Q in IV.
  fold (loaded client it' m st). set (cl := loaded client it' m st).
  pose proof (loaded_lookup client it' m st) as LK. fold cl in LK.
  assert (NDC : NoDup (keys (k_cids cl))). { destruct (loaded_tables client it' m st) as (A & _). fold cl in A. rewrite <- (keys_mapv (known cl)), A, keys_mapv. exact ND. }
  destruct (workOf_nd client (k_pods cl) (it' _ m (k_cids cl)) [] (conj (fun a => NoDup_nil _) (NoDup_nil _))) as (N1 & N2).
  assert (FROM : forall c info', lookup cl (CId c) = Some info' -> exists info, lookup st (CId c) = Some info /\ jsonPod (podAt (k_pods cl) (ci_pod info')) = jsonPod (podAt (k_pods st) (ci_pod info))).
  { intros c info' G. specialize (LK (CId c)). rewrite G in LK. destruct (lookup st (CId c)) as [i|]; [|discriminate]. exists i. cbn [option_map] in LK. split; [reflexivity|].
    assert (J : known cl info' = known st i) by congruence. exact (f_equal jc_pod J). }
  split.
  - intros wi W. apply (workloads_in cl wi N1 N2) in W. destruct W as (a & b & G). destruct (workOf_get client (k_pods cl) (it' _ m (k_cids cl)) [] a b wi G) as [X | ([c info'] & I & PN & ->)]; [discriminate|].
    apply (ranges_in it' RI) in I. apply (in_aget (k_cids cl) c info' NDC) in I. destruct (FROM c info' I) as (info & G1 & J). cbn [snd] in *.
    destruct (i_stale _ _ _ IV (CId c) info Logic.I G1) as [X | [(key & v & X1 & X2 & X3 & X4) | (d & ts & [] & _)]]; [exfalso; exact (NR _ X)|].
    pose proof (record_describes _ _ X4) as DE. exists key, v, c, info. pose proof (f_equal pi_node J) as J1. pose proof (f_equal pi_ns J) as J2. pose proof (f_equal pi_wname J) as J3. pose proof (f_equal pi_wkind J) as J4.
    cbn [jsonPod pi_node pi_ns pi_wname pi_wkind] in J1, J2, J3, J4. rewrite J1 in PN. rewrite J2, J3, J4. pose proof DE as (_ & D2 & _ & _ & _ & D6 & _).
    split; [exact X1|]. split; [congruence|]. split; [exact X3|]. split; [exact G1|]. split; [exact DE|]. f_equal. exact D2.
  - intros key v c L PN CL. destruct (i_found _ _ _ IV key v (CId c) L CL (NS _)) as (info & G & RR & _). pose proof (record_describes _ _ RR) as (_ & D2 & _ & _ & _ & D6 & _).
    pose proof (LK (CId c)) as X. rewrite G in X. destruct (lookup cl (CId c)) as [info'|] eqn:G'; [|discriminate]. destruct (FROM c info' G') as (i2 & G2 & J). assert (i2 = info) by congruence. subst i2.
    pose proof (f_equal pi_node J) as J1. pose proof (f_equal pi_ns J) as J2. pose proof (f_equal pi_wname J) as J3. cbn [jsonPod pi_node pi_ns pi_wname] in J1, J2, J3.
    assert (H : get2 (k_work cl) (pd_ns v) (pi_wname (podAt (k_pods st) (ci_pod info))) <> None).
    { refine (workOf_has client (k_pods cl) (it' _ m (k_cids cl)) [] _ _ _). right. exists (c, info'). cbn [snd]. split; [apply (ranges_in it' RI); apply aget_in; exact G'|]. split; [congruence|]. split; congruence. }
    destruct (get2 (k_work cl) (pd_ns v) (pi_wname (podAt (k_pods st) (ci_pod info)))) as [wi|] eqn:GW; [|congruence]. exists info, wi. split; [exact G|].
    split; [apply (workloads_in cl wi N1 N2); eauto|].
    assert (KEY : forall (cs : list (bytes * cinfo)) g, (forall a b wi, get2 g a b = Some wi -> wi_ns wi = a /\ wi_name wi = b) -> forall a b wi,
      get2 (fold_left (fun g e => let p := podAt (k_pods cl) (ci_pod (snd e)) in if eqb (pi_node p) client then put2 g (pi_ns p) (pi_wname p) {| wi_ns := pi_ns p; wi_name := pi_wname p; wi_kind := pi_wkind p |} else g) cs g) a b = Some wi -> wi_ns wi = a /\ wi_name wi = b).
    { induction cs as [|e cs IH]; intros g HG a b x; cbn [fold_left]; [apply HG|]. apply IH. clear a b x. intros a b x. cbn zeta. destruct (eqb _ client); [|apply HG]. rewrite get2_put2.
      case_eqb a (pi_ns (podAt (k_pods cl) (ci_pod (snd e)))); case_eqb b (pi_wname (podAt (k_pods cl) (ci_pod (snd e)))); cbn [andb]; try apply HG. intros Y. inversion Y; subst. auto. }
    apply (KEY (it' _ m (k_cids cl)) [] ltac:(discriminate) _ _ wi GW).
Qed.
Print Assumptions C67_workloads.

(** After the snapshot and every further history of events: whatever a live pod can be looked up by finds it at the client. *)
Theorem C67_live : forall builtIn lower provider client it it' grace grace' w cl n key v k,
  ranges it' -> follows builtIn lower provider client it it' grace grace' w cl -> aget (w_live w) key = Some v -> claims v k -> ~ w_spoiled w k ->
  exists info, answer it' n cl k = Some info /\ describesBut (podAt (k_pods cl) (ci_pod info)) v /\ rightContainer v k info /\
    (pd_hostnet v = false -> pi_hostnet (podAt (k_pods cl) (ci_pod info)) = false).
Proof.
  intros builtIn lower provider client it it' grace grace' w cl n key v k RI F L CL NS. destruct (follows_inv builtIn lower provider client it it' grace grace' w cl RI F) as (_ & we & S & IV & _).
  pose proof (s_live _ _ S key) as A. rewrite L in A. destruct (aget (w_live we) key) as [q|] eqn:E; [|contradiction].
  destruct (i_found _ _ _ IV key q k E (proj2 (alike_claims v q k A) CL)) as (info & G & R & RC); [rewrite (s_spoiled _ _ S); exact NS|].
  exists info. split; [apply lookup_answer; exact G|]. apply record_describes in R. split; [eapply alike_describes; eassumption|]. split; [eapply alike_right; eassumption|].
  intros H. destruct R as (_ & _ & _ & _ & _ & _ & _ & ->). destruct A as [-> | ->]; [exact H|reflexivity].
Qed.
Print Assumptions C67_live.

(** No question is answered by the client with a pod that ended the grace period before its last round of deletions. *)
Theorem C67_deleted : forall builtIn lower provider client it it' grace grace' w cl u t,
  0 < grace' -> ranges it' -> follows builtIn lower provider client it it' grace grace' w cl -> w_dead w u t -> t + grace' <= w_round w -> ~ w_reused w u ->
  (forall n k info, answer it' n cl k = Some info -> pi_uid (podAt (k_pods cl) (ci_pod info)) <> u) /\
  (forall n ip i, getPodByIp it' n cl ip = Some i -> pi_uid (podAt (k_pods cl) i) <> u).
Proof.
  intros builtIn lower provider client it it' grace grace' w cl u t GP' RI F DT L NR. destruct (follows_inv builtIn lower provider client it it' grace grace' w cl RI F) as (ND & we & S & IV & QV0). destruct (QV0 GP') as (_ & _ & QV).
  rewrite <- (s_dead _ _ S) in DT. rewrite <- (s_reused _ _ S) in NR. rewrite <- (s_round _ _ S) in L. destruct (i_dead _ _ _ IV u t DT) as (_ & DL).
  assert (K : forall k info, kvalid k -> lookup cl k = Some info -> uidOf cl info <> u).
  { intros k info V G U. destruct (i_stale _ _ _ IV k info V G) as [X | [(key & v & X1 & X2 & _) | (d & ts & X1 & X2 & _)]].
    - apply NR. congruence.
    - apply (DL key v X1). congruence.
    - assert (ts <= t) by (eapply (i_times _ _ _ IV); [exact X1|rewrite X2, U; exact DT]). rewrite Forall_forall in QV. specialize (QV _ X1). cbn [snd] in QV. lia. }
  split.
  - intros n k info A. destruct (normal_claim k) as (k' & V & E & _). rewrite E in A. destruct (answer_lookup it' n cl k' info RI ND V A) as (k2 & V2 & G & _). apply (K k2 info V2 G).
  - intros n ip i A. destruct (byIp_entry it' n cl ip i RI ND A) as (q & c & G & <- & _). apply (K (CAddr ip q) c I G).
Qed.
Print Assumptions C67_deleted.

(** With no deletion waiting the answers of the client are exact, but that a port no pod declares may be answered with a pod
    on the network of its node. *)
Theorem C67_exact : forall builtIn lower provider client it it' grace grace' w cl n k,
  ranges it' -> follows builtIn lower provider client it it' grace grace' w cl -> k_queue cl = [] -> (forall u, ~ w_reused w u) -> (forall k, ~ w_spoiled w k) -> kvalid k ->
  match answer it' n cl k with
  | Some info => exists key v, aget (w_live w) key = Some v /\ describesBut (podAt (k_pods cl) (ci_pod info)) v /\
      (claims v k \/ exists ip p q, k = CAddr ip p /\ claims v (CAddr ip q) /\ forall key' v', aget (w_live w) key' = Some v' -> ~ claims v' k)
  | None => forall key v, aget (w_live w) key = Some v -> ~ claims v k
  end.
Proof.
  intros builtIn lower provider client it it' grace grace' w cl n k RI F Q NR NS V. destruct (follows_inv builtIn lower provider client it it' grace grace' w cl RI F) as (ND & we & S & IV & _). rewrite Q in IV.
  assert (FOUND : forall key v k, aget (w_live w) key = Some v -> claims v k -> exists info, lookup cl k = Some info).
  { intros key v k' L CL. pose proof (s_live _ _ S key) as A. rewrite L in A. destruct (aget (w_live we) key) as [q|] eqn:E; [|contradiction].
    destruct (i_found _ _ _ IV key q k' E (proj2 (alike_claims v q k' A) CL)) as (info & G & _); [rewrite (s_spoiled _ _ S); apply NS|]. eauto. }
  destruct (answer it' n cl k) as [info|] eqn:A.
  - destruct (answer_lookup it' n cl k info RI ND V A) as (k' & V' & G & C).
    destruct (i_stale _ _ _ IV k' info V' G) as [X | [(key & q & X1 & X2 & X3 & X4) | (d & ts & [] & _)]]; [exfalso; rewrite (s_reused _ _ S) in X; eapply NR; exact X|].
    pose proof (s_live _ _ S key) as AL. rewrite X1 in AL. destruct (aget (w_live w) key) as [v|] eqn:E; [|contradiction]. apply (alike_claims v q k' AL) in X3.
    exists key, v. split; [exact E|]. split; [eapply alike_describes; [exact AL|apply record_describes; exact X4]|].
    destruct C as [-> | (ip & p & x & -> & -> & G0 & HN)]; [left; exact X3|]. right. exists ip, p, x. split; [reflexivity|]. split; [exact X3|].
    intros key' v' L CL. destruct (FOUND key' v' _ L CL) as (y & Y). congruence.
  - intros key v L CL. destruct (FOUND key v k L CL) as (x & Y). apply (lookup_answer it' n) in Y. congruence.
Qed.
Print Assumptions C67_exact.

(** *** A client, and where the property fails *)
Definition F1 (w : world) (st : kstate) : Prop := follows (fun _ => false) (fun x => x) (bs "node-1") (bs "node-2") idIt idIt 60 60 w st.
Definition step2 (now : Z) (o : kop) (st : kstate) : kstate := kstep (fun _ => false) (fun x => x) (bs "node-2") idIt 60 O now o st.
Definition load1 (st : kstate) : kstate := load (bs "node-2") idIt O (marshal st).
Lemma F1_step w st now o w' : F1 w st -> wstep st now w o w' -> F1 w' (step2 now o st).
Proof. intros F S. eapply F_step; eassumption. Qed.

(** The provider sees two pods; the client loads them; then one is updated and ends. *)
Example C67_history : exists w cl, F1 w cl /\ k_queue cl = [] /\ w_live w = [((bs "shop", bs "web-1"), p2)] /\ w_dead w (bs "u1") 2000 /\ w_round w = 2100 /\
  answer idIt O cl (CId (bs "cccccccccccc")) <> None /\ answer idIt O cl (CId (bs "bbbbbbbbbbbb")) = None /\ answer idIt O cl (CAddr (bs "10.0.0.1") 8080) = None.
Proof.
  assert (R : R1 w0 k0) by apply R_start. goAdd R 5 p1. goAdd R 10 p2.
  match type of R with R1 ?w ?st => assert (F : F1 (atTime 1000 w) (load1 st)) end.
  { apply F_load; [exact R|]. split; [reflexivity|]. split; [|split].
    - intros u. cbn [w_reused w0]. unfold pendingName. intros [[[] | (_ & d & ts & [] & _)] | (_ & d & ts & I & _)]. vm_compute in I. exact I.
    - intros k. cbn [w_spoiled w0 w_live w_retired]. unfold spoils. cbn [w_spoiled w0 w_live w_retired aset].
      intros [[[] | (_ & [(key & q & _ & X & _) | (u & [] & _)])] | (C & [(key & q & K & X & D) | (u & [] & _)])]; [discriminate|].
      cbn [aget] in X. destruct (eqb key (podKey p1)); [|discriminate]. inversion X; subst q. exact (apart12 k D C).
    - intros key v. cbn [w_live w0 aset]. change (eqb (podKey p2) (podKey p1)) with false. cbn [aget aset]. destruct (eqb key (podKey p1)); [|destruct (eqb key (podKey p2)); [|discriminate]]; intros X; inversion X; subst v.
      + exists (bs "aaaaaaaaaaaa"). apply shortIds_in. left. reflexivity.
      + exists (bs "cccccccccccc"). apply shortIds_in. left. reflexivity. }
  clear R.
  match type of F with F1 ?w ?st => pose proof (F1_step w st 1500 _ _ F (W_update st 1500 w p1 p1' ltac:(cbn; lia) ltac:(okp) eq_refl eq_refl ltac:(discriminate) ltac:(left; reflexivity) ltac:(cbn; intros; try discriminate; congruence))) as F2 end. clear F.
  match type of F2 with F1 ?w ?st => pose proof (F1_step w st 2000 _ _ F2 (W_delete st 2000 w p1' ltac:(cbn; lia) eq_refl)) as F3 end. clear F2.
  match type of F3 with F1 ?w ?st => pose proof (F1_step w st 2100 _ _ F3 (W_deletions st 2100 w ltac:(cbn; lia))) as F4 end. clear F3.
  eexists _, _. split; [exact F4|]. clear F4. split; [vm_compute; reflexivity|]. split; [vm_compute; reflexivity|]. split; [cbn; auto|]. split; [reflexivity|].
  split; [vm_compute; discriminate|]. split; vm_compute; reflexivity.
Qed.

(** The network a pod is on is not part of the snapshot: for a port of a node's address that nothing declares the provider
    answers with no pod, the client with a pod on the network of the node. *)
Definition net1 : pod := mkPod "u7" "1" "agent" "192.168.0.1" "192.168.0.1" ["ffffffffffffffff"] true [ctr "agent" [{| pt_container := 9100; pt_host := 0 |}]].
Theorem C67_host_network_refuted : exists w st, R1 w st /\ settled w st /\ answer idIt O st (CAddr (bs "192.168.0.1") 22) = None /\
  exists info, answer idIt O (load1 st) (CAddr (bs "192.168.0.1") 22) = Some info /\ pi_name (podAt (k_pods (load1 st)) (ci_pod info)) = bs "agent".
Proof.
  assert (R : R1 w0 k0) by apply R_start. goAdd R 5 net1. eexists _, _. split; [exact R|]. clear R. split; [|split; [vm_compute; reflexivity|eexists; split; vm_compute; reflexivity]].
  split; [reflexivity|]. split; [|split].
  - intros u. cbn [w_reused w0]. unfold pendingName. intros [[] | (_ & d & ts & [] & _)].
  - intros k. cbn [w_spoiled w0 w_live w_retired]. unfold spoils. cbn [w_live w0 w_retired]. intros [[] | (_ & [(key & q & _ & X & _) | (u & [] & _)])]. discriminate.
  - intros key v. cbn [w_live w0 aset aget]. destruct (eqb key (podKey net1)); [|discriminate]. intros X. inversion X; subst v. exists (bs "ffffffffffff"). apply shortIds_in. left. reflexivity.
Qed.
Print Assumptions C67_host_network_refuted.

(** The waiting deletions are not part of the snapshot: a pod that ended just before it is answered by the client for ever,
    while the provider (which has no grace period, service.go:94, but deletes every ten seconds) forgets it in its next round. *)
Definition stepP (now : Z) (o : kop) (st : kstate) : kstate := kstep (fun _ => false) (fun x => x) (bs "node-1") idIt 0 O now o st.
Theorem C67_pending_deletion_refuted : exists st, st = stepP 20 (ODeletePod (Some p1)) (stepP 5 (OAddPod p1) k0) /\
  answer idIt O (stepP 25 ODeleteRound st) (CAddr (bs "10.0.0.1") 8080) = None /\
  forall times, answer idIt O (fold_left (fun s t => step2 t ODeleteRound s) times (load1 st)) (CAddr (bs "10.0.0.1") 8080) <> None.
Proof.
  eexists. split; [reflexivity|]. split; [vm_compute; reflexivity|].
  match goal with |- forall times, answer _ _ (fold_left _ times ?s) _ <> None => set (cl := s) end.
  assert (E : forall t, step2 t ODeleteRound cl = cl). { intros t. reflexivity. }
  intros times. replace (fold_left (fun s t => step2 t ODeleteRound s) times cl) with cl; [vm_compute; discriminate|].
  induction times as [|t l IH]; cbn [fold_left]; [reflexivity|]. rewrite E. exact IH.
Qed.
Print Assumptions C67_pending_deletion_refuted.

(** Each container of the snapshot has a copy of its pod's service: when the service is deleted the provider's pods lose it,
    the client's keep it. *)
Definition svc1 : service := {| sv_rv := bs "1"; sv_ns := bs "shop"; sv_name := bs "web"; sv_ip := bs "10.1.0.1"; sv_nodeport := false; sv_selector := [(bs "app", bs "web")];
  sv_ports := [{| sp_port := 80; sp_node := 0 |}] |}.
Definition svcNameOf (st : kstate) (k : claim) : option bytes :=
  match answer idIt O st k with Some c => option_map (fun i => si_name (svcAt (k_svcs st) i)) (pi_svc (podAt (k_pods st) (ci_pod c))) | None => None end.
Theorem C67_deleted_service_refuted : exists st, st = step1 6 (OAddService svc1) (step1 5 (OAddPod p1) k0) /\
  let k := CAddr (bs "10.0.0.1") 8080 in
  svcNameOf st k = Some (bs "web") /\ svcNameOf (load1 st) k = Some (bs "web") /\
  svcNameOf (step1 7 (ODeleteService (Some svc1)) st) k = Some [] /\ svcNameOf (step2 7 (ODeleteService (Some svc1)) (load1 st)) k = Some (bs "web").
Proof. eexists. split; [reflexivity|]. cbn zeta. vm_compute. auto. Qed.
Print Assumptions C67_deleted_service_refuted.

(** A service that appears after the snapshot does not reach the copy of the pod that host ports are answered with. *)
Theorem C67_later_service_refuted : exists st, st = step1 5 (OAddPod p1) k0 /\
  let k := CHost (bs "192.168.0.1") 30080 in
  svcNameOf (step1 6 (OAddService svc1) st) k = Some (bs "web") /\ svcNameOf (step2 6 (OAddService svc1) (load1 st)) k = None /\
  svcNameOf (step2 6 (OAddService svc1) (load1 st)) (CAddr (bs "10.0.0.1") 8080) = Some (bs "web").
Proof. eexists. split; [reflexivity|]. cbn zeta. vm_compute. auto. Qed.
Print Assumptions C67_later_service_refuted.

(** A pod of the snapshot that has no container id yet is not among the client's pods by name: the client does not give up the
    address it has when an update changes it, and does not forget it. *)
Definition y1 : pod := mkPod "u1" "1" "web-0" "10.0.0.1" "192.168.0.1" [] false [ctr "web" ports1].
Definition y2 : pod := mkPod "u1" "2" "web-0" "10.0.0.7" "192.168.0.1" ["aaaaaaaaaaaaaaaa"] false [ctr "web" ports1].
Theorem C67_no_container_refuted : exists w st, R1 w st /\ k_queue st = [] /\ w_live w = [((bs "shop", bs "web-0"), y1)] /\
  answer idIt O (step1 1000 ODeleteRound (step1 20 (OUpdatePod y1 y2) st)) (CAddr (bs "10.0.0.1") 8080) = None /\
  answer idIt O (step2 1000 ODeleteRound (step2 20 (OUpdatePod y1 y2) (load1 st))) (CAddr (bs "10.0.0.1") 8080) <> None /\
  k_queue (step2 1000 ODeleteRound (step2 20 (OUpdatePod y1 y2) (load1 st))) = [].
Proof.
  assert (R : R1 w0 k0) by apply R_start. goAdd R 5 y1. eexists _, _. split; [exact R|]. clear R. split; [vm_compute; reflexivity|]. split; [vm_compute; reflexivity|]. split; [vm_compute; reflexivity|]. split; [vm_compute; discriminate|vm_compute; reflexivity].
Qed.
Print Assumptions C67_no_container_refuted.

(** The workload an exported service belongs to: a pod that appears after the snapshot does not tell the copy of its service
    that service addresses are answered with. *)
Definition pw : pod := {| pd_uid := bs "u3"; pd_rv := bs "1"; pd_ns := bs "shop"; pd_name := bs "db-0"; pd_labels := [(bs "app", bs "web")]; pd_owners := [{| ow_controller := true; ow_kind := bs "statefulset"; ow_name := bs "db"; ow_api := [] |}];
  pd_node := bs "node-1"; pd_hostnet := false; pd_ip := bs "10.0.0.3"; pd_hostip := bs "192.168.0.1"; pd_statuses := [(bs "c", bs "docker://gggggggggggggggg")]; pd_containers := [ctr "db" ports1] |}.
Definition svcWorkload (st : kstate) : option bytes := option_map (fun i => si_wname (svcAt (k_svcs st) i)) (getServiceByIpPort st (bs "10.1.0.1") 80).
Theorem C67_service_workload_refuted : exists st, st = step1 5 (OAddService svc1) k0 /\
  svcWorkload (step1 6 (OAddPod pw) st) = Some (bs "db") /\ svcWorkload (step2 6 (OAddPod pw) (load1 st)) = Some [].
Proof. eexists. split; [reflexivity|]. vm_compute. auto. Qed.
Print Assumptions C67_service_workload_refuted.
