(** C39: pods are attributed to the services that select them, and the addresses of services answer the services. *)
From Coq Require Import Permutation.
From Verif Require Import Base Decimal CompareModel K8sModel K8sSpec K8sProofs K8sInv K8sIter K8sProps K8sNodeProps K8sServiceSpec K8sServiceProofs K8sServiceInv.
Open Scope string_scope. Open Scope list_scope. Open Scope Z_scope.

(** A selector matches the labels exactly when every label of it is there with the same value. *)
Theorem C39_match : forall sel labels, selectorsMatchLabels sel labels = true <-> forall k v, In (k, v) sel -> aget labels k = Some v.
Proof. exact match_iff. Qed.
Print Assumptions C39_match.

(** After every history of pods and services, a pod that is added or updated is attributed right: whatever it can be looked up by gives a record that refers to a service
    that exists and selects it, or to none if none does. *)
Theorem C39_pod : forall builtIn lower myNode it grace ok w l st n m now o p w' k,
  ranges it -> sreach builtIn lower myNode it grace ok w l st -> wstep st now w o w' -> (o = OAddPod p \/ exists old, o = OUpdatePod old p /\ pd_rv old <> pd_rv p) -> claims p k ->
  exists info, answer it m (kstep builtIn lower myNode it grace n now o st) k = Some info /\
    describes (podAt (k_pods (kstep builtIn lower myNode it grace n now o st)) (ci_pod info)) p /\
    attributed l (kstep builtIn lower myNode it grace n now o st) (podAt (k_pods (kstep builtIn lower myNode it grace n now o st)) (ci_pod info)) p.
Proof.
  intros builtIn lower myNode it grace ok w l st n m now o p w' k RI R S O CL. pose proof (sreach_inv _ _ _ _ _ _ _ _ _ R) as SI.
  assert (PO : portsOk p) by (destruct O as [-> | (old & -> & NE)]; inversion S; subst; try contradiction; try assumption; congruence).
  set (st' := addPod builtIn lower myNode it n p st).
  assert (X : exists info, answer it m st' k = Some info /\ describes (podAt (k_pods st') (ci_pod info)) p /\ attributed l st' (podAt (k_pods st') (ci_pod info)) p).
  { destruct (addPod_lookup builtIn lower myNode it n p st k PO (claims_valid p k PO CL)) as [(_ & info & A & B & _) | (N & _)]; [|contradiction].
    exists info. split; [apply lookup_answer; exact A|]. rewrite B. split.
    - apply record_describes. unfold st'. destruct (addPod_pods builtIn lower myNode it n p st) as (r & -> & IR). rewrite podAt_new. exact IR.
    - apply linked_attributed; [eapply sinv_frame; [apply svcFrame_addPod|exact SI]|]. apply addPod_linked; assumption. }
  destruct O as [-> | (old & -> & NE)]; cbn [kstep]; [exact X|]. unfold updatePod. rewrite (proj2 (eqb_neq _ _) NE).
  destruct (get2 (k_gpods st) (pd_ns old) (pd_name old)); exact X.
Qed.
Print Assumptions C39_pod.

(** A service that appears while no deletion of a pod is waiting is given to every live pod it selects and to no other. *)
Theorem C39_service : forall builtIn lower myNode it grace ok w l st n m s key v k,
  0 < grace -> ranges it -> sreach builtIn lower myNode it grace ok w l st -> k_queue st = [] -> (forall k, ~ w_spoiled w k) -> (forall u, ~ w_reused w u) ->
  aget (w_live w) key = Some v -> claims v k ->
  exists info, answer it m (addService it n s st) k = Some info /\ describes (podAt (k_pods (addService it n s st)) (ci_pod info)) v /\
    (selects s v -> exists j, pi_svc (podAt (k_pods (addService it n s st)) (ci_pod info)) = Some j /\ isService (svcAt (k_svcs (addService it n s st)) j) s) /\
    (~ selects s v -> pi_svc (podAt (k_pods (addService it n s st)) (ci_pod info)) = pi_svc (podAt (k_pods st) (ci_pod info))).
Proof.
  intros builtIn lower myNode it grace ok w l st n m s key v k GP RI R Q NS NR L CL.
  pose proof (sreach_reach _ _ _ _ _ _ _ _ _ R) as RR. destruct (reach_inv builtIn lower myNode it grace ok w st GP RR) as (IV & _). rewrite Q in IV.
  pose proof (reach_gpods_nd builtIn lower myNode it grace ok w st RR) as ND.
  destruct (i_found _ _ _ IV key v k L CL (NS k)) as (info & A & B & _). pose proof (reach_shared builtIn lower myNode it grace ok w st RR) as SH. pose proof (SH key v k info L CL (NS k) A) as G. exists info.
  destruct (sameBut_addService it n s st) as (E1 & E2 & E3 & _). split; [apply lookup_answer; erewrite lookup_frame by eassumption; exact A|].
  assert (G' : get2 (k_gpods st) (pd_ns v) (pd_name v) = Some (ci_pod info)).
  { destruct G as [G | G]; [|exact G]. pose proof (i_g _ _ _ IV key v L) as X. rewrite G in X. exfalso. exact (NR _ X). }
  destruct (addService_effect builtIn lower myNode it w s n st RI IV SH ND NS key v (ci_pod info) L (ex_intro _ k CL) G') as (b & E & SB). rewrite E. split; [|split].
  - apply record_describes in B. destruct b; exact B.
  - intros S. apply SB in S. subst b. exists (List.length (k_svcs st)). split; [reflexivity|]. destruct (addService_svcs it n s st) as (_ & _ & X).
    eapply isService_same; [apply X|]. rewrite svcAt_new. repeat split.
  - intros S. destruct b; [exfalso; apply S, SB; reflexivity|reflexivity].
Qed.
Print Assumptions C39_service.

(** While services are only added (each while no deletion of a pod is waiting), every live pod is attributed right at every moment. *)
Theorem C39_exact : forall builtIn lower myNode it grace w l st m key v k,
  0 < grace -> ranges it -> sreach builtIn lower myNode it grace onlyAdded w l st -> aget (w_live w) key = Some v -> claims v k -> ~ w_spoiled w k -> ~ w_reused w (pd_uid v) ->
  exists info, answer it m st k = Some info /\ describes (podAt (k_pods st) (ci_pod info)) v /\ attributed l st (podAt (k_pods st) (ci_pod info)) v.
Proof.
  intros builtIn lower myNode it grace w l st m key v k GP RI R L CL NS NR.
  pose proof (sreach_reach _ _ _ _ _ _ _ _ _ R) as RR. destruct (reach_inv builtIn lower myNode it grace onlyAdded w st GP RR) as (IV & _).
  pose proof (sreach_ainv builtIn lower myNode it grace w l st GP RI R key v L (ex_intro _ k CL)) as A.
  destruct (i_found _ _ _ IV key v k L CL NS) as (info & X & Y & _). pose proof (reach_shared builtIn lower myNode it grace onlyAdded w st RR key v k info L CL NS X) as G. exists info. split; [apply lookup_answer; exact X|]. split; [apply record_describes; exact Y|].
  apply linked_attributed; [eapply sreach_inv; exact R|].
  destruct G as [G | G]; rewrite G in A; [|exact A]. pose proof (i_g _ _ _ IV key v L) as Z. rewrite G in Z. contradiction.
Qed.
Print Assumptions C39_exact.

(** *** No pod is attributed to a service that is gone *)
Definition blank (i : svcInfo) : Prop := si_ip i = [] /\ si_name i = [] /\ si_ns i = [] /\ si_selector i = [].
Definition ghostless (l : list ((bytes * bytes) * service)) (st : kstate) : Prop :=
  forall j, blank (svcAt (k_svcs st) j) \/ exists s, aget l (svcKey s) = Some s /\ get2 (k_gsvcs st) (sv_ns s) (sv_name s) = Some j /\ isService (svcAt (k_svcs st) j) s.
Lemma blank_same a b : svcSame a b -> blank a -> blank b.
Proof. intros (A & B & C & _ & D) (E & F & G & H). repeat split; congruence. Qed.
Lemma ghostless_frame l st st' : svcFrame st st' -> ghostless l st -> ghostless l st'.
Proof.
  intros (A & _ & B) H j. destruct (H j) as [X | (s & X & Y & Z)]; [left; eapply blank_same; [apply B|exact X]|right; exists s]. rewrite A. split; [exact X|]. split; [exact Y|]. eapply isService_same; [apply B|exact Z].
Qed.
Lemma blank_nil : blank nilSvc.
Proof. repeat split. Qed.
Lemma ghostless_add it l s n st : SInv l st -> ghostless l st -> aget l (svcKey s) = None -> ghostless (aset l (svcKey s) s) (addService it n s st).
Proof.
  intros SI H NL j. destruct (addService_svcs it n s st) as (G & LE & B). destruct (Nat.lt_trichotomy j (List.length (k_svcs st))) as [LT | [-> | GT]].
  - destruct (H j) as [X | (s' & X & Y & Z)].
    + left. eapply blank_same; [apply B|]. rewrite svcAt_old by exact LT. exact X.
    + right. exists s'. assert (NE : svcKey s' <> svcKey s) by congruence. rewrite aget_aset_other by exact NE. split; [exact X|]. rewrite G, get2_put2. split.
      * case_eqb (sv_ns s') (sv_ns s); case_eqb (sv_name s') (sv_name s); cbn [andb]; try exact Y. exfalso. apply NE. unfold svcKey. congruence.
      * eapply isService_same; [apply B|]. rewrite svcAt_old by exact LT. exact Z.
  - right. exists s. rewrite aget_aset_same. split; [reflexivity|]. rewrite G, get2_put2, !eqb_refl. split; [reflexivity|]. eapply isService_same; [apply B|]. rewrite svcAt_new. repeat split.
  - left. unfold svcAt. rewrite nth_overflow; [exact blank_nil|]. rewrite LE, app_length. cbn [List.length]. lia.
Qed.
Lemma ghostless_delete it l s n st : SInv l st -> ghostless l st -> aget l (svcKey s) = Some s -> ghostless (adel l (svcKey s)) (deleteService it n (Some s) st).
Proof.
  intros SI H NL j. destruct (deleteService_svcs it n s st) as (G & E). destruct (s_live _ _ SI _ _ _ NL) as (i & GI & _). rewrite GI in E. rewrite E, G.
  unfold svcAt. rewrite nth_upd. destruct (Nat.eqb j i) eqn:JI; cbn [andb].
  - left. destruct (Nat.ltb i (List.length (k_svcs st))) eqn:LT; [exact blank_nil|]. rewrite nth_overflow; [exact blank_nil|]. apply Nat.eqb_eq in JI. apply Nat.ltb_ge in LT. lia.
  - apply Nat.eqb_neq in JI. destruct (H j) as [X | (s' & X & Y & Z)]; [left; exact X|right; exists s'].
    rewrite aget_adel_other; [auto|]. intros K. unfold svcKey in K. inversion K. congruence.
Qed.
Theorem C39_no_deleted_service : forall builtIn lower myNode it grace ok w l st m k info j,
  sreach builtIn lower myNode it grace ok w l st -> answer it m st k = Some info -> pi_svc (podAt (k_pods st) (ci_pod info)) = Some j ->
  blank (svcAt (k_svcs st) j) \/ exists s, aget l (svcKey s) = Some s /\ isService (svcAt (k_svcs st) j) s.
Proof.
  intros builtIn lower myNode it grace ok w l st m k info j R _ _.
  assert (H : ghostless l st).
  { clear - R. induction R as [|w l st n now o w' l' R IH ST SS OK].
    - intros j. left. destruct j; exact blank_nil.
    - pose proof (sreach_inv _ _ _ _ _ _ _ _ _ R) as SI. inversion SS as [s NL|s L|old new L K V|s L| |o' O]; subst; cbn [kstep].
      + apply ghostless_add; assumption.
      + unfold updateService. rewrite eqb_refl. exact IH.
      + unfold updateService. rewrite (proj2 (eqb_neq _ _) V).
        pose proof (ghostless_delete it l old n st SI IH L) as A. pose proof (sinv_delete it l old n st SI) as B.
        assert (N : aget (adel l (svcKey old)) (svcKey new) = None) by (rewrite K, aget_adel_same; reflexivity).
        pose proof (ghostless_add it _ new (S n) _ B A N) as C.
        intros j. destruct (C j) as [X | (s & X & Y)]; [left; exact X|right]. exists s. split; [|exact Y]. rewrite aget_aset in X. rewrite aget_aset, <- K.
        destruct (eqb (svcKey s) (svcKey new)) eqn:E; [exact X|]. rewrite aget_adel, <- K, E in X. exact X.
      + apply ghostless_delete; assumption.
      + exact IH.
      + eapply ghostless_frame; [apply svcFrame_other; exact O|exact IH]. }
  destruct (H j) as [X | (s & X & _ & Y)]; [left; exact X|right; exists s; auto].
Qed.
Print Assumptions C39_no_deleted_service.
