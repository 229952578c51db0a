(** What holds of the inventory of workloads after every history. *)
From Coq Require Import Sorted.
From Verif Require Import Base Decimal CompareModel K8sModel K8sSpec K8sProofs K8sInv K8sIter K8sWorkloadSpec.
Open Scope string_scope. Open Scope list_scope. Open Scope Z_scope.

(** what a pod's record says about its workload *)
Definition wfields (i : podInfo) : bytes * bytes * bytes * bytes := (pi_ns i, pi_wkind i, pi_wname i, pi_node i).
Definition wSame (st st' : kstate) : Prop := k_work st' = k_work st /\ k_gpods st' = k_gpods st /\ (forall i, wfields (podAt (k_pods st') i) = wfields (podAt (k_pods st) i)).
Lemma wSame_refl st : wSame st st.
Proof. repeat split. Qed.
Lemma wSame_trans a b c : wSame a b -> wSame b c -> wSame a c.
Proof. intros (A & B & C) (D & E & F). split; [congruence|]. split; [congruence|]. intros i. rewrite F. apply C. Qed.

Section Frame.
  Context (it : forall A : Type, nat -> list A -> list A).
  Lemma wSame_attach id o st : wSame st (attach id o st).
  Proof.
    destruct o as [i|]; [|apply wSame_refl]. split; [reflexivity|]. split; [reflexivity|]. intros j. cbn [attach setHeaps k_pods]. unfold podAt. rewrite nth_upd. destruct (_ && _)%bool; reflexivity.
  Qed.
  Lemma wSame_attachCids id : forall l st, wSame st (attachCids id l st).
  Proof. induction l as [|c l IH]; intros st; cbn [attachCids]; [apply wSame_refl|]. eapply wSame_trans; [apply wSame_attach|apply IH]. Qed.
  Lemma wSame_attachPorts id ip : forall l n st, wSame st (attachPorts it n id ip l st).
  Proof. induction l as [|c l IH]; intros n st; cbn [attachPorts]; [apply wSame_refl|]. eapply wSame_trans; [apply wSame_attach|apply IH]. Qed.
  Lemma wSame_attachPods id : forall l n st, wSame st (attachPods it n id l st).
  Proof.
    induction l as [|c l IH]; intros n st; cbn [attachPods]; [apply wSame_refl|].
    eapply wSame_trans; [apply wSame_attachCids|]. eapply wSame_trans; [apply wSame_attachPorts|]. apply IH.
  Qed.
  Lemma wSame_addService n s st : wSame st (addService it n s st).
  Proof.
    unfold addService. set (id := List.length (k_svcs st)).
    match goal with |- context [attachPods it (S n) id ?l ?s0] => pose proof (wSame_attachPods id l (S n) s0) as A; set (x := attachPods it (S n) id l s0) in * end.
    assert (B : wSame x (if hasClusterIp s then setSvcs x (k_gsvcs x) (fold_left (addSvcPort s id (it _ n (keys (k_nodes x)))) (sv_ports s) (k_ipsvcs x)) else x)) by (destruct (hasClusterIp s); repeat split).
    eapply wSame_trans; [|exact B]. exact A.
  Qed.
  Lemma wSame_deleteService n o st : wSame st (deleteService it n o st).
  Proof. destruct o as [s|]; [|apply wSame_refl]. cbn [deleteService]. destruct (get2 (k_gsvcs st) (sv_ns s) (sv_name s)); destruct (hasClusterIp s); repeat split. Qed.
End Frame.

Section Workloads.
  Context (builtIn : bytes -> bool) (lower : bytes -> bytes) (myNode : bytes) (it : forall A : Type, nat -> list A -> list A) (grace : Z).
  Notation addPod := (addPod builtIn lower myNode it).
  Notation kstep := (kstep builtIn lower myNode it grace).
  Notation workloadOf := (workloadOf builtIn lower).
  Notation entryOf := (entryOf builtIn lower).
  Lemma wSame_other n now o st : match o with OAddPod _ | OUpdatePod _ _ | ODeletePod _ | ODeleteRound => False | _ => True end -> wSame st (kstep n now o st).
  Proof.
    destruct o; intros O; try destruct O; cbn [K8sModel.kstep].
    - apply wSame_addService.
    - unfold updateService. destruct (eqb _ _); [apply wSame_refl|]. eapply wSame_trans; [apply wSame_deleteService|apply wSame_addService].
    - apply wSame_deleteService.
    - unfold addReplicaSet. destruct (List.find _ _); repeat split.
    - unfold updateReplicaSet. destruct (eqb _ _); [apply wSame_refl|]. unfold addReplicaSet. destruct (List.find _ _); repeat split.
    - destruct o; repeat split.
    - repeat split.
    - repeat split.
    - destruct o; repeat split.
  Qed.
  Lemma other_rs n now o st : match o with OAddRs _ | OUpdateRs _ _ | ODeleteRs _ => False | _ => True end -> k_rs (kstep n now o st) = k_rs st.
  Proof.
    assert (P : forall n p st, k_rs (addPod n p st) = k_rs st) by (intros m p s; unfold K8sModel.addPod; destruct (eqb (pd_ip p) []); reflexivity).
    assert (A : forall uid ip l n st, k_rs (delPorts it n uid ip l st) = k_rs st).
    { intros uid ip. induction l as [|p l IH]; intros m s; cbn [delPorts]; [reflexivity|]. rewrite IH. destruct (getContainerByIpPort it m s ip (w32 p)); [|reflexivity]. destruct (eqb _ uid); reflexivity. }
    assert (B : forall uid ip l st, k_rs (delHostPorts uid ip l st) = k_rs st).
    { intros uid ip. induction l as [|p l IH]; intros s; cbn [delHostPorts]; [reflexivity|]. rewrite IH. destruct (getContainerByHostIpPort s ip p); [|reflexivity]. destruct (eqb _ uid); reflexivity. }
    assert (DI : forall n d st, k_rs (deletePodInfo it n d st) = k_rs st).
    { intros m d s. unfold deletePodInfo. destruct (eqb (di_hostip d) []); destruct (eqb (di_ip d) []); rewrite ?B, ?A; cbn [setCids k_rs]; destruct (eqb (di_name d) []); try reflexivity; destruct (get2 _ _ _); reflexivity. }
    assert (D : forall l n st, k_rs (deleteAll it n l st) = k_rs st) by (induction l as [|[d ts] l IH]; intros m s; cbn [deleteAll]; [reflexivity|]; rewrite IH; apply DI).
    assert (T : forall id o st, k_rs (attach id o st) = k_rs st) by (intros id [i|] s; reflexivity).
    assert (AC : forall id l st, k_rs (attachCids id l st) = k_rs st) by (intros id; induction l as [|c l IH]; intros s; cbn [attachCids]; [reflexivity|]; rewrite IH; apply T).
    assert (AP : forall id ip l n st, k_rs (attachPorts it n id ip l st) = k_rs st) by (intros id ip; induction l as [|c l IH]; intros m s; cbn [attachPorts]; [reflexivity|]; rewrite IH; apply T).
    assert (AA : forall id l n st, k_rs (attachPods it n id l st) = k_rs st) by (intros id; induction l as [|c l IH]; intros m s; cbn [attachPods]; [reflexivity|]; rewrite IH, AP; apply AC).
    assert (S : forall n s st, k_rs (addService it n s st) = k_rs st).
    { intros m s x. unfold addService. destruct (hasClusterIp s); cbn [setSvcs k_rs]; rewrite AA; reflexivity. }
    assert (DS : forall n o st, k_rs (deleteService it n o st) = k_rs st).
    { intros m [s|] x; [|reflexivity]. cbn [deleteService]. destruct (get2 _ _ _); destruct (hasClusterIp s); reflexivity. }
    destruct o; intros O; try destruct O; cbn [K8sModel.kstep].
    - apply P.
    - unfold updatePod. destruct (eqb _ _); [reflexivity|]. destruct (get2 _ _ _); [|apply P]. cbn [setQueue k_rs]. apply P.
    - destruct o; reflexivity.
    - unfold deleteRound. rewrite D. reflexivity.
    - apply S.
    - unfold updateService. destruct (eqb _ _); [reflexivity|]. rewrite S. apply DS.
    - apply DS.
    - reflexivity.
    - reflexivity.
    - destruct o; reflexivity.
  Qed.
  Lemma addPod_work n p st : k_work (addPod n p st) = (if eqb (pd_node p) myNode then put2 (k_work st) (pd_ns p) (snd (workloadOf st p)) (entryOf st p) else k_work st).
  Proof. unfold K8sModel.addPod. destruct (eqb (pd_ip p) []); reflexivity. Qed.
  Lemma addPod_wfields n p st : wfields (podAt (k_pods (addPod n p st)) (List.length (k_pods st))) = (pd_ns p, fst (workloadOf st p), snd (workloadOf st p), pd_node p).
  Proof. unfold K8sModel.addPod. destruct (eqb (pd_ip p) []); cbn [setGpods setAddrs setCids setHeaps k_pods]; rewrite podAt_new; reflexivity. Qed.
  Lemma addPod_rs n p st : k_rs (addPod n p st) = k_rs st.
  Proof. unfold K8sModel.addPod. destruct (eqb (pd_ip p) []); reflexivity. Qed.

  (** *** one entry per name *)
  Definition nd1 (st : kstate) : Prop := NoDup (keys (k_work st)) /\ nd2 (k_work st).
  Lemma nd1_put st a b v : nd1 st -> NoDup (keys (put2 (k_work st) a b v)) /\ nd2 (put2 (k_work st) a b v).
  Proof. intros (A & B). split; [apply NoDup_keys_aset; exact A|apply nd2_put2; exact B]. Qed.
  Lemma nd1_rem st a b : nd1 st -> NoDup (keys (rem2 (k_work st) a b)) /\ nd2 (rem2 (k_work st) a b).
  Proof. intros (A & B). split; [|apply nd2_rem2; exact B]. unfold rem2. destruct (aget (k_work st) a); [apply NoDup_keys_aset; exact A|exact A]. Qed.
  Lemma workloads_get2 st wi : nd1 st -> (In wi (workloads st) <-> exists a b, get2 (k_work st) a b = Some wi).
  Proof.
    intros (A & B). unfold workloads. rewrite in_flat_map. split.
    - intros ([a m] & I & J). cbn [snd] in J. apply in_map_iff in J. destruct J as ([b x] & E & J). cbn [snd] in E. subst x. exists a, b.
      apply (get2_in (k_work st) a b wi B). unfold inner. rewrite (in_aget _ _ _ A I). exact J.
    - intros (a & b & G). apply (get2_in (k_work st) a b wi B) in G. unfold inner in G. destruct (aget (k_work st) a) as [m|] eqn:E; [|destruct G].
      exists (a, m). split; [apply aget_in; exact E|]. cbn [snd]. apply in_map_iff. exists (b, wi). auto.
  Qed.

  Definition solo (st : kstate) : Prop := forall a b b' id id', get2 (k_gpods st) a b = Some id -> get2 (k_gpods st) a b' = Some id' ->
    pi_wname (podAt (k_pods st) id) = pi_wname (podAt (k_pods st) id') -> b = b'.
  Record WInv (single : bool) (w : world) (st : kstate) : Prop := {
    k_nd : nd1 st;
    k_reused : forall u, ~ w_reused w u;
    k_ns : forall a b id, get2 (k_gpods st) a b = Some id -> pi_ns (podAt (k_pods st) id) = a;
    k_rec : forall key v, aget (w_live w) key = Some v -> exists id, get2 (k_gpods st) (pd_ns v) (pd_name v) = Some id /\
      wfields (podAt (k_pods st) id) = (pd_ns v, fst (workloadOf st v), snd (workloadOf st v), pd_node v);
    k_sound : forall a b wi, get2 (k_work st) a b = Some wi -> wi_ns wi = a /\ wi_name wi = b /\
      exists name id, get2 (k_gpods st) a name = Some id /\ wfields (podAt (k_pods st) id) = (a, wi_kind wi, b, myNode);
    k_solo : single = true -> solo st;
    k_all : single = true -> forall key v, aget (w_live w) key = Some v -> pd_node v = myNode -> get2 (k_work st) (pd_ns v) (snd (workloadOf st v)) = Some (entryOf st v) }.

  Lemma winv_put single w w' n p st q : Inv w q st -> WInv single w st -> w_live w' = aset (w_live w) (podKey p) p -> (forall u, ~ w_reused w' u) ->
    (forall id, get2 (k_gpods st) (pd_ns p) (pd_name p) = Some id -> pi_wname (podAt (k_pods st) id) = snd (workloadOf st p) /\ pi_wkind (podAt (k_pods st) id) = fst (workloadOf st p) /\ pi_node (podAt (k_pods st) id) = pd_node p) ->
    (single = true -> forall name id, get2 (k_gpods st) (pd_ns p) name = Some id -> name <> pd_name p -> pi_wname (podAt (k_pods st) id) <> snd (workloadOf st p)) ->
    WInv single w' (addPod n p st).
  Proof.
    intros IV WI EL NR SAME ONE.
    assert (WO : forall v, workloadOf (addPod n p st) v = workloadOf st v) by (intros v; unfold K8sWorkloadSpec.workloadOf; rewrite addPod_rs; reflexivity).
    assert (EO : forall v, entryOf (addPod n p st) v = entryOf st v) by (intros v; unfold K8sWorkloadSpec.entryOf; rewrite WO; reflexivity).
    assert (OLD : forall a b id, get2 (k_gpods st) a b = Some id -> podAt (k_pods (addPod n p st)) id = podAt (k_pods st) id).
    { intros a b id G. destruct (addPod_pods builtIn lower myNode it n p st) as (r & -> & _). apply podAt_old. exact (i_gids _ _ _ IV a b id G). }
    pose proof (addPod_wfields n p st) as NEW.
    assert (GG : forall a b id, get2 (k_gpods (addPod n p st)) a b = Some id -> (a = pd_ns p /\ b = pd_name p /\ id = List.length (k_pods st)) \/ ((a, b) <> (pd_ns p, pd_name p) /\ get2 (k_gpods st) a b = Some id)).
    { intros a b id. rewrite addPod_gpods, get2_put2. case_eqb a (pd_ns p); case_eqb b (pd_name p); cbn [andb]; intros G; try (right; split; [congruence|exact G]). left. subst. split; [reflexivity|]. split; [reflexivity|congruence]. }
    assert (GO : forall a b id, get2 (k_gpods st) a b = Some id -> (a, b) <> (pd_ns p, pd_name p) -> get2 (k_gpods (addPod n p st)) a b = Some id).
    { intros a b id G N. rewrite addPod_gpods, get2_put2. case_eqb a (pd_ns p); case_eqb b (pd_name p); cbn [andb]; try exact G. congruence. }
    assert (GN : get2 (k_gpods (addPod n p st)) (pd_ns p) (pd_name p) = Some (List.length (k_pods st))) by (rewrite addPod_gpods, get2_put2, !eqb_refl; reflexivity).
    split.
    - unfold nd1. rewrite addPod_work. destruct (eqb (pd_node p) myNode); [apply nd1_put|]; apply (k_nd _ _ _ WI).
    - exact NR.
    - intros a b id G. destruct (GG a b id G) as [(-> & -> & ->) | (N & G0)]; [unfold wfields in NEW; congruence|]. rewrite (OLD _ _ _ G0). apply (k_ns _ _ _ WI a b id G0).
    - intros key v G. rewrite EL, aget_aset in G. rewrite WO. case_eqb key (podKey p).
      + inversion G; subst v. exists (List.length (k_pods st)). split; [exact GN|exact NEW].
      + destruct (k_rec _ _ _ WI key v G) as (id & G0 & F). exists id. destruct (i_live _ _ _ IV key v G) as (K & _).
        split; [apply GO; [exact G0|]; intros X; apply E; rewrite K; unfold podKey; exact X|]. rewrite (OLD _ _ _ G0). exact F.
    - intros a b wi G. rewrite addPod_work in G.
      assert (X : (a = pd_ns p /\ b = snd (workloadOf st p) /\ pd_node p = myNode /\ wi = entryOf st p) \/ get2 (k_work st) a b = Some wi).
      { case_eqb (pd_node p) myNode; [|right; exact G]. rewrite get2_put2 in G. case_eqb a (pd_ns p); case_eqb b (snd (workloadOf st p)); cbn [andb] in G; try (right; exact G). left. subst. repeat split; congruence. }
      destruct X as [(-> & -> & PN & ->) | G0].
      + split; [reflexivity|]. split; [reflexivity|]. exists (pd_name p), (List.length (k_pods st)). split; [exact GN|]. rewrite NEW, PN. reflexivity.
      + destruct (k_sound _ _ _ WI a b wi G0) as (A & B & name & id & G1 & F). split; [exact A|]. split; [exact B|].
        destruct (Eqb_dec (a, name) (pd_ns p, pd_name p)) as [E | N].
        * inversion E as [[Ea En]]. rewrite Ea, En in *. exists (pd_name p), (List.length (k_pods st)). split; [exact GN|]. rewrite NEW. destruct (SAME id G1) as (S1 & S2 & S3). unfold wfields in F. congruence.
        * exists name, id. split; [apply GO; assumption|]. rewrite (OLD _ _ _ G1). exact F.
    - intros SG a b b' id id' G G' E. specialize (ONE SG). assert (WN : pi_wname (podAt (k_pods (addPod n p st)) (List.length (k_pods st))) = snd (workloadOf st p)) by (unfold wfields in NEW; congruence).
      destruct (GG a b id G) as [(-> & -> & ->) | (N & G0)]; destruct (GG _ b' id' G') as [(X & -> & ->) | (N' & G0')]; [reflexivity| | |].
      + exfalso. rewrite WN, (OLD _ _ _ G0') in E. apply (ONE b' id' G0'); congruence.
      + exfalso. subst a. rewrite WN, (OLD _ _ _ G0) in E. apply (ONE b id G0); congruence.
      + rewrite (OLD _ _ _ G0), (OLD _ _ _ G0') in E. exact (k_solo _ _ _ WI SG a b b' id id' G0 G0' E).
    - intros SG key v G PN. specialize (ONE SG). rewrite EL, aget_aset in G. rewrite WO, EO, addPod_work. case_eqb key (podKey p).
      + inversion G; subst v. rewrite PN, eqb_refl, get2_put2, !eqb_refl. reflexivity.
      + pose proof (k_all _ _ _ WI SG key v G PN) as X. destruct (eqb (pd_node p) myNode); [|exact X]. rewrite get2_put2.
        case_eqb (pd_ns v) (pd_ns p); case_eqb (snd (workloadOf st v)) (snd (workloadOf st p)); cbn [andb]; try exact X. exfalso.
        destruct (k_rec _ _ _ WI key v G) as (id & G0 & F). destruct (i_live _ _ _ IV key v G) as (K & _). rewrite E0 in G0.
        apply (ONE (pd_name v) id G0); [intros Y; apply E; rewrite K; unfold podKey; congruence|]. unfold wfields in F. congruence.
  Qed.
  Lemma deletePodInfo_work n d st : k_pods (deletePodInfo it n d st) = k_pods st /\ k_rs (deletePodInfo it n d st) = k_rs st /\
    ((k_work (deletePodInfo it n d st) = k_work st /\ k_gpods (deletePodInfo it n d st) = k_gpods st) \/
     (exists id, di_name d <> [] /\ get2 (k_gpods st) (di_ns d) (di_name d) = Some id /\ k_gpods (deletePodInfo it n d st) = rem2 (k_gpods st) (di_ns d) (di_name d) /\
        k_work (deletePodInfo it n d st) = rem2 (k_work st) (pi_ns (podAt (k_pods st) id)) (pi_wname (podAt (k_pods st) id)))).
  Proof.
    assert (A : forall uid ip l n st, k_rs (delPorts it n uid ip l st) = k_rs st).
    { intros uid ip. induction l as [|p l IH]; intros m s; cbn [delPorts]; [reflexivity|]. rewrite IH. destruct (getContainerByIpPort it m s ip (w32 p)); [|reflexivity]. destruct (eqb _ uid); reflexivity. }
    assert (B : forall uid ip l st, k_rs (delHostPorts uid ip l st) = k_rs st).
    { intros uid ip. induction l as [|p l IH]; intros s; cbn [delHostPorts]; [reflexivity|]. rewrite IH. destruct (getContainerByHostIpPort s ip p); [|reflexivity]. destruct (eqb _ uid); reflexivity. }
    assert (BW : forall uid ip l st, k_work (delHostPorts uid ip l st) = k_work st).
    { intros uid ip. induction l as [|p l IH]; intros s; cbn [delHostPorts]; [reflexivity|]. rewrite IH. destruct (getContainerByHostIpPort s ip p); [|reflexivity]. destruct (eqb _ uid); reflexivity. }
    unfold deletePodInfo. set (s1 := if eqb (di_name d) [] then st else _).
    assert (N1 : k_pods s1 = k_pods st /\ k_rs s1 = k_rs st /\ ((k_work s1 = k_work st /\ k_gpods s1 = k_gpods st) \/
      (exists id, di_name d <> [] /\ get2 (k_gpods st) (di_ns d) (di_name d) = Some id /\ k_gpods s1 = rem2 (k_gpods st) (di_ns d) (di_name d) /\
        k_work s1 = rem2 (k_work st) (pi_ns (podAt (k_pods st) id)) (pi_wname (podAt (k_pods st) id))))).
    { unfold s1. case_eqb (di_name d) (@nil Z); [auto 6|]. destruct (get2 _ _ _) as [id|]; [|auto 6]. split; [reflexivity|]. split; [reflexivity|]. right. exists id. repeat split. exact E. }
    clearbody s1. set (s2 := setCids s1 (fold_left adel (di_cids d) (k_cids s1))).
    set (s3 := if eqb (di_ip d) [] then s2 else delPorts it n (di_uid d) (di_ip d) (di_ports d) s2).
    assert (N3 : k_pods s3 = k_pods s1 /\ k_gpods s3 = k_gpods s1 /\ k_work s3 = k_work s1 /\ k_rs s3 = k_rs s1).
    { unfold s3. destruct (eqb (di_ip d) []); [repeat split|]. rewrite A. destruct (delPorts_frame it (di_uid d) (di_ip d) (di_ports d) n s2) as (-> & _ & _ & -> & _ & ->). repeat split. }
    destruct N3 as (E1 & E2 & E3 & E4). rewrite <- E1, <- E2, <- E3, <- E4 in N1.
    destruct (eqb (di_hostip d) []); [exact N1|]. rewrite B, BW. destruct (delHosts_frame (di_uid d) (di_hostip d) (di_hostports d) s3) as (-> & _ & _ & -> & _). exact N1.
  Qed.
  Lemma winv_delete single w d ts q n st : Inv w ((d, ts) :: q) st -> WInv single w st -> WInv single w (deletePodInfo it n d st).
  Proof.
    intros IV WI. destruct (deletePodInfo_work n d st) as (EP & ER & C).
    assert (WO : forall v, workloadOf (deletePodInfo it n d st) v = workloadOf st v) by (intros v; unfold K8sWorkloadSpec.workloadOf; rewrite ER; reflexivity).
    assert (EO : forall v, entryOf (deletePodInfo it n d st) v = entryOf st v) by (intros v; unfold K8sWorkloadSpec.entryOf; rewrite WO; reflexivity).
    destruct C as [(EW & EG) | (id & ND & G & EG & EW)].
    - split; unfold nd1, solo; rewrite ?EP, ?EW, ?EG; try apply WI.
      + intros key v L. rewrite WO. apply (k_rec _ _ _ WI key v L).
      + intros SG key v L PN. rewrite WO, EO. exact (k_all _ _ _ WI SG key v L PN).
    - assert (DEAD : forall key v, aget (w_live w) key = Some v -> (pd_ns v, pd_name v) <> (di_ns d, di_name d)).
      { intros key v L E. destruct (i_live _ _ _ IV key v L) as (K & _). unfold podKey in K. rewrite E in K. subst key.
        apply (k_reused _ _ _ WI (pd_uid v)). eapply (i_name _ _ _ IV d ts v); [left; reflexivity|exact ND|exact L]. }
      assert (GL : forall a b x, get2 (rem2 (k_gpods st) (di_ns d) (di_name d)) a b = Some x -> (a, b) <> (di_ns d, di_name d) /\ get2 (k_gpods st) a b = Some x).
      { intros a b x. rewrite get2_rem2. case_eqb a (di_ns d); case_eqb b (di_name d); cbn [andb]; intros X; try discriminate; (split; [congruence|exact X]). }
      assert (GR : forall a b x, get2 (k_gpods st) a b = Some x -> (a, b) <> (di_ns d, di_name d) -> get2 (rem2 (k_gpods st) (di_ns d) (di_name d)) a b = Some x).
      { intros a b x X N. rewrite get2_rem2. case_eqb a (di_ns d); case_eqb b (di_name d); cbn [andb]; try exact X. congruence. }
      pose proof (k_ns _ _ _ WI _ _ _ G) as NSD. split; unfold nd1, solo; rewrite ?EP, ?EW, ?EG.
      + apply nd1_rem. apply (k_nd _ _ _ WI).
      + apply (k_reused _ _ _ WI).
      + intros a b x X. apply GL in X. apply (k_ns _ _ _ WI a b x). tauto.
      + intros key v L. rewrite WO. destruct (k_rec _ _ _ WI key v L) as (x & X & F). exists x. split; [|exact F]. apply GR; [exact X|]. exact (DEAD key v L).
      + intros a b wi X. rewrite get2_rem2 in X.
        case_eqb a (pi_ns (podAt (k_pods st) id)); case_eqb b (pi_wname (podAt (k_pods st) id)); cbn [andb] in X; try discriminate;
          (destruct (k_sound _ _ _ WI _ _ wi X) as (A & B & name & id' & G1 & F); split; [exact A|]; split; [exact B|]; exists name, id'; split; [|exact F]; apply GR; [exact G1|]; intros Y; inversion Y; subst;
           assert (id' = id) by congruence; subst id'; unfold wfields in F; inversion F; congruence).
      + intros SG a b b' i i' X X'. apply GL in X. apply GL in X'. apply (k_solo _ _ _ WI SG a b b' i i'); tauto.
      + intros SG key v L PN. rewrite WO, EO, get2_rem2. pose proof (k_all _ _ _ WI SG key v L PN) as X.
        case_eqb (pd_ns v) (pi_ns (podAt (k_pods st) id)); case_eqb (snd (workloadOf st v)) (pi_wname (podAt (k_pods st) id)); cbn [andb]; try exact X. exfalso.
        destruct (k_rec _ _ _ WI key v L) as (x & Y & F). apply (DEAD key v L). rewrite E, NSD in Y |- *. f_equal. eapply (k_solo _ _ _ WI SG (di_ns d)); [exact Y|exact G|]. unfold wfields in F. congruence.
  Qed.
  Lemma winv_deleteAll single w q : forall l n st, Inv w (l ++ q) st -> WInv single w st -> WInv single w (deleteAll it n l st).
  Proof.
    induction l as [|[d ts] l IH]; intros n st IV WI; cbn [deleteAll]; [exact WI|]. cbn [app] in IV. apply IH; [eapply (inv_delete builtIn lower myNode); exact IV|eapply winv_delete; [exact IV|exact WI]].
  Qed.
  Lemma winv_same single w w' st st' : wSame st st' -> (forall key v, aget (w_live w') key = Some v -> aget (w_live w) key = Some v) -> w_reused w' = w_reused w -> (forall key v, aget (w_live w) key = Some v -> workloadOf st' v = workloadOf st v) -> WInv single w st -> WInv single w' st'.
  Proof.
    intros (A & B & C) EL ER WO WI.
    assert (WN : forall i, pi_wname (podAt (k_pods st') i) = pi_wname (podAt (k_pods st) i)) by (intros i; specialize (C i); unfold wfields in C; congruence).
    split; unfold nd1, solo; rewrite ?A, ?B, ?ER; try apply WI.
    - intros a b id G. pose proof (k_ns _ _ _ WI a b id G) as X. specialize (C id). unfold wfields in C. congruence.
    - intros key v G. apply EL in G. rewrite (WO key v G). destruct (k_rec _ _ _ WI key v G) as (id & X & Y). exists id. rewrite C. auto.
    - intros a b wi G. destruct (k_sound _ _ _ WI a b wi G) as (X & Y & name & id & Z & F). split; [exact X|]. split; [exact Y|]. exists name, id. rewrite C. auto.
    - intros SG a b b' id id' G G' E. rewrite !WN in E. exact (k_solo _ _ _ WI SG a b b' id id' G G' E).
    - intros SG key v G PN. apply EL in G. unfold K8sWorkloadSpec.entryOf. rewrite (WO key v G). exact (k_all _ _ _ WI SG key v G PN).
  Qed.
  Definition rule (single : bool) : world -> kstate -> kop -> Prop := if single then alone builtIn lower myNode it grace else steady builtIn lower myNode it grace.
  Lemma rule_steady single w st o : rule single w st o -> steady builtIn lower myNode it grace w st o.
  Proof. destruct single; [intros (A & _); exact A|intros A; exact A]. Qed.
  Lemma reach_winv single w st : 0 < grace -> reach builtIn lower myNode it grace (rule single) w st -> WInv single w st.
  Proof.
    intros GP R. induction R as [|w st n now o w' R WI S OK].
    - split; unfold nd1, solo; cbn; try discriminate; try tauto. split; [constructor|]. intros a. constructor.
    - destruct (reach_inv builtIn lower myNode it grace (rule single) w st GP R) as (IV & _). pose proof (rule_steady single w st o OK) as ST.
      assert (SAMErs : forall o', match o' with OAddRs _ | OUpdateRs _ _ | ODeleteRs _ => False | _ => True end -> forall v, workloadOf (kstep n now o' st) v = workloadOf st v).
      { intros o' O v. unfold K8sWorkloadSpec.workloadOf. rewrite other_rs by exact O. reflexivity. }
      inversion S; subst; cbn [steady] in ST.
      + (* add *) cbn [K8sModel.kstep]. eapply winv_put; [exact IV|exact WI|reflexivity| | |].
        * cbn [w_reused]. intros u [X | (_ & X)]; [exact (k_reused _ _ _ WI u X)|exact (ST X)].
        * intros id G. exfalso. destruct (i_gstale _ _ _ IV _ _ id G) as [(v & X) | (d & ts & X & _ & E)]; [unfold podKey in *; congruence|]. apply ST. exists d, ts. auto.
        * intros SG. subst single. destruct OK as (_ & OK). exact OK.
      + (* resync *) cbn [K8sModel.kstep]. unfold updatePod. rewrite eqb_refl. apply (winv_same single w _ st); [apply wSame_refl|cbn [w_live]; auto|reflexivity|intros; reflexivity|exact WI].
      + (* update *) cbn [K8sModel.kstep]. unfold updatePod. match goal with NE : pd_rv old <> pd_rv new |- _ => rewrite (proj2 (eqb_neq _ _) NE) end.
        match goal with KE : podKey new = podKey old |- _ => unfold podKey in KE; inversion KE as [[K1 K2]] end. destruct ST as (OW & NO).
        assert (WE : workloadOf st new = workloadOf st old) by (unfold K8sWorkloadSpec.workloadOf; rewrite OW, K1; reflexivity).
        match goal with LO : aget (w_live w) (podKey old) = Some old |- _ => destruct (k_rec _ _ _ WI _ _ LO) as (id0 & G0 & F0); pose proof LO as LIVE end.
        match goal with |- WInv _ ?x _ => set (w'' := x) end.
        assert (P : WInv single w'' (addPod n new st)).
        { apply (winv_put single w w'' n new st (k_queue st)); [exact IV|exact WI|unfold w'', podKey; cbn [w_live]; congruence| | |].
          - unfold w''. cbn [w_reused]. intros u [X | (_ & _ & d & ts & X & E)]; [exact (k_reused _ _ _ WI u X)|].
            apply (k_reused _ _ _ WI (pd_uid old)). eapply (i_name _ _ _ IV d ts old); [exact X| |rewrite E; exact LIVE].
            destruct (i_live _ _ _ IV _ _ LIVE) as (_ & (_ & _ & NN) & _). unfold podKey in E. inversion E. congruence.
          - intros id G. rewrite K1, K2 in G. assert (id = id0) by congruence. subst id. unfold wfields in F0. inversion F0. rewrite WE, NO. auto.
          - intros SG name id G N E. apply N. rewrite K2. rewrite K1 in G. eapply (k_solo _ _ _ WI SG (pd_ns old)); [exact G|exact G0|]. unfold wfields in F0. congruence. }
        match goal with |- context [match ?g with Some _ => _ | None => _ end] => destruct g; [|exact P] end. apply (winv_same single w'' w'' (addPod n new st)); [|intros key v L; exact L|reflexivity| |exact P]; [repeat split|]. intros; reflexivity.
      + (* delete *) cbn [K8sModel.kstep deletePod]. apply (winv_same single w _ st); [| |reflexivity| |exact WI]; [repeat split| |intros; reflexivity].
        cbn [w_live]. intros key v. rewrite aget_adel. destruct (eqb key (podKey p)); [discriminate|auto].
      + (* garbage *) cbn [K8sModel.kstep deletePod]. apply (winv_same single w _ st); [apply wSame_refl|cbn [w_live]; auto|reflexivity|intros; reflexivity|exact WI].
      + (* deletions *) cbn [K8sModel.kstep]. unfold deleteRound. match goal with |- WInv _ ?x _ => set (w' := x) end.
        apply (winv_deleteAll single w' (snd (expired grace now (k_queue st)))).
        * rewrite expired_split. apply inv_setQueue. eapply (inv_same builtIn lower myNode); [apply sameBut_refl| | | | | | | |exact IV]; try reflexivity. assumption.
        * apply (winv_same single w _ st); [|intros key v L; exact L|reflexivity|intros; reflexivity|exact WI]. repeat split.
      + (* the other watches *) apply (winv_same single w _ st); [apply wSame_other; assumption|cbn [w_live]; auto|reflexivity| |exact WI].
        intros key v L. destruct o; try contradiction; try (apply SAMErs; exact I); apply (ST n now key v L).
  Qed.
End Workloads.
