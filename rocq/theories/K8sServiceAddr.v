(** C39: the addresses of services answer the services. *)
From Coq Require Import Permutation.
From Verif Require Import Base Decimal CompareModel K8sModel K8sSpec K8sProofs K8sInv K8sIter K8sProps K8sNodeProps K8sServiceSpec K8sServiceProofs.
Open Scope string_scope. Open Scope list_scope. Open Scope Z_scope.

(** *** Specification *)
(** The addresses a service answers at: its cluster address with its ports and, for the type NodePort, the addresses of the nodes with its node ports. *)
Definition clustered (s : service) : Prop := sv_ip s <> [] /\ sv_ip s <> bs "None".
Definition served (s : service) (nodes : bytes -> Prop) (ip : bytes) (p : Z) : Prop :=
  clustered s /\ exists q, In q (sv_ports s) /\ ((ip = sv_ip s /\ p = sp_port q) \/ (sv_nodeport s = true /\ nodes ip /\ p = sp_node q)).
Definition svcPortsOk (s : service) : Prop := forall q, In q (sv_ports s) -> 0 <= sp_port q < 65536 /\ 0 <= sp_node q < 65536.
(** the addresses of the nodes the collector knows *)
Definition nodesOf (st : kstate) (ip : bytes) : Prop := exists i, aget (k_nodes st) ip = Some i.
(** The services that exist have different cluster addresses, none of them an address a node ever had, and valid ports. *)
Definition apartServices (l : list ((bytes * bytes) * service)) (nodes : bytes -> Prop) : Prop :=
  (forall key s, aget l key = Some s -> svcPortsOk s /\ (clustered s -> ~ nodes (sv_ip s))) /\
  (forall key s key' s', aget l key = Some s -> aget l key' = Some s' -> key <> key' -> clustered s -> sv_ip s <> sv_ip s').
Section Reach.
  Context (builtIn : bytes -> bool) (lower : bytes -> bytes) (myNode : bytes) (it : forall A : Type, nat -> list A -> list A) (grace : Z).
  (** every history of the services among any other events; [nodes]: every address of a node so far *)
  Inductive areach : list ((bytes * bytes) * service) -> (bytes -> Prop) -> kstate -> Prop :=
  | A_start : areach [] (fun _ => False) k0
  | A_step l nodes st n now o l' : areach l nodes st -> sstep l o l' ->
      apartServices l' (fun a => nodes a \/ nodesOf (kstep builtIn lower myNode it grace n now o st) a) ->
      areach l' (fun a => nodes a \/ nodesOf (kstep builtIn lower myNode it grace n now o st) a) (kstep builtIn lower myNode it grace n now o st).
End Reach.

(** *** Proofs *)
Lemma clustered_iff s : hasClusterIp s = true <-> clustered s.
Proof. unfold hasClusterIp, clustered. rewrite andb_true_iff, !negb_true_iff, !eqb_neq. reflexivity. Qed.
Definition pairs (s : service) (addrs : list bytes) : list (bytes * Z) :=
  flat_map (fun q => (sv_ip s, w32 (sp_port q)) :: (if sv_nodeport s then map (fun a => (a, w32 (sp_node q))) addrs else [])) (sv_ports s).
Lemma fold_map {A B C} (f : C -> B -> C) (g : A -> B) : forall l c, fold_left (fun c a => f c (g a)) l c = fold_left f (map g l) c.
Proof. induction l as [|a l IH]; intros c; cbn [fold_left map]; [reflexivity|apply IH]. Qed.
Lemma put_pairs s id addrs : forall m, fold_left (addSvcPort s id addrs) (sv_ports s) m = fold_left (fun m x => put2 m (fst x) (snd x) id) (pairs s addrs) m.
Proof.
  unfold pairs. induction (sv_ports s) as [|q l IH]; intros m; cbn [fold_left flat_map]; [reflexivity|]. rewrite IH, fold_left_app. f_equal. unfold addSvcPort. cbn [fold_left fst snd].
  destruct (sv_nodeport s); [|reflexivity]. rewrite <- fold_map. reflexivity.
Qed.
Lemma del_pairs s addrs : forall m, fold_left (delSvcPort s addrs) (sv_ports s) m = fold_left (fun m x => del2 m (fst x) (snd x)) (pairs s addrs) m.
Proof.
  unfold pairs. induction (sv_ports s) as [|q l IH]; intros m; cbn [fold_left flat_map]; [reflexivity|]. rewrite IH, fold_left_app. f_equal. unfold delSvcPort. cbn [fold_left fst snd].
  destruct (sv_nodeport s); [|reflexivity]. rewrite <- fold_map. reflexivity.
Qed.
Lemma fold_put (id : nat) (ip : bytes) (p : Z) : forall l m, (In (ip, p) l /\ get2 (fold_left (fun m x => put2 m (fst x) (snd x) id) l m) ip p = Some id) \/
  (~ In (ip, p) l /\ get2 (fold_left (fun m x => put2 m (fst x) (snd x) id) l m) ip p = get2 m ip p).
Proof.
  induction l as [|[a x] l IH]; intros m; cbn [fold_left fst snd]; [right; split; [intros []|reflexivity]|].
  destruct (IH (put2 m a x id)) as [(A & B) | (A & B)]; [left; split; [right; exact A|exact B]|]. rewrite B, get2_put2.
  case_eqb ip a; case_eqb p x; cbn [andb].
  - left. subst. split; [left; reflexivity|reflexivity].
  - right. split; [intros [X | X]; [congruence|exact (A X)]|reflexivity].
  - right. split; [intros [X | X]; [congruence|exact (A X)]|reflexivity].
  - right. split; [intros [X | X]; [congruence|exact (A X)]|reflexivity].
Qed.
Lemma fold_del {V} (ip : bytes) (p : Z) : forall l (m : list (bytes * list (Z * V))), (In (ip, p) l /\ get2 (fold_left (fun m x => del2 m (fst x) (snd x)) l m) ip p = None) \/
  (~ In (ip, p) l /\ get2 (fold_left (fun m x => del2 m (fst x) (snd x)) l m) ip p = get2 m ip p).
Proof.
  induction l as [|[a x] l IH]; intros m; cbn [fold_left fst snd]; [right; split; [intros []|reflexivity]|].
  destruct (IH (del2 m a x)) as [(A & B) | (A & B)]; [left; split; [right; exact A|exact B]|]. rewrite B, get2_del2.
  case_eqb ip a; case_eqb p x; cbn [andb].
  - left. subst. split; [left; reflexivity|reflexivity].
  - right. split; [intros [X | X]; [congruence|exact (A X)]|reflexivity].
  - right. split; [intros [X | X]; [congruence|exact (A X)]|reflexivity].
  - right. split; [intros [X | X]; [congruence|exact (A X)]|reflexivity].
Qed.
Lemma in_keys {V} (l : list (bytes * V)) a : In a (keys l) <-> exists v, aget l a = Some v.
Proof.
  split.
  - intros I. destruct (aget l a) as [v|] eqn:E; [eauto|]. exfalso. exact (proj1 (aget_none_notin l a) E I).
  - intros (v & E). unfold keys. apply aget_in in E. apply (in_map fst) in E. exact E.
Qed.
Section Tables.
  Context (it : forall A : Type, nat -> list A -> list A).
  Lemma pairs_served s st n ip p : ranges it -> svcPortsOk s -> clustered s -> In (ip, p) (pairs s (it _ n (keys (k_nodes st)))) <-> served s (nodesOf st) ip p.
  Proof.
    intros RI PO CS. unfold pairs, served. rewrite in_flat_map. split.
    - intros (q & Q & I). split; [exact CS|]. exists q. split; [exact Q|]. destruct (PO q Q) as (P1 & P2). destruct I as [E | I].
      + inversion E; subst. rewrite w32_small by lia. left. split; reflexivity.
      + right. destruct (sv_nodeport s); [|destruct I]. apply in_map_iff in I. destruct I as (a & E & I). inversion E; subst. rewrite w32_small by lia. apply (ranges_in it RI) in I. apply in_keys in I. split; [reflexivity|]. split; [exact I|reflexivity].
    - intros (_ & q & Q & H). exists q. split; [exact Q|]. destruct (PO q Q) as (P1 & P2). destruct H as [(-> & ->) | (NP & NO & ->)].
      + left. rewrite w32_small by lia. reflexivity.
      + right. rewrite NP. apply in_map_iff. exists ip. rewrite w32_small by lia. split; [reflexivity|]. apply (ranges_in it RI). apply in_keys. exact NO.
  Qed.
  Lemma attachPods_frame id : forall l n st, k_nodes (attachPods it n id l st) = k_nodes st /\ k_ipsvcs (attachPods it n id l st) = k_ipsvcs st.
  Proof.
    assert (T : forall o st, k_nodes (attach id o st) = k_nodes st /\ k_ipsvcs (attach id o st) = k_ipsvcs st) by (intros [i|] s; split; reflexivity).
    assert (AC : forall l st, k_nodes (attachCids id l st) = k_nodes st /\ k_ipsvcs (attachCids id l st) = k_ipsvcs st).
    { induction l as [|c l IH]; intros s; cbn [attachCids]; [split; reflexivity|]. destruct (IH (attach id (getPodByContainerId s c) s)) as (-> & ->). apply T. }
    assert (AP : forall ip l n st, k_nodes (attachPorts it n id ip l st) = k_nodes st /\ k_ipsvcs (attachPorts it n id ip l st) = k_ipsvcs st).
    { intros ip. induction l as [|c l IH]; intros m s; cbn [attachPorts]; [split; reflexivity|]. destruct (IH (S m) (attach id (getPodByIpPort it m s ip (w32 c)) s)) as (-> & ->). apply T. }
    induction l as [|i l IH]; intros n st; cbn [attachPods]; [split; reflexivity|].
    match goal with |- context [attachPods it ?a id l ?b] => destruct (IH a b) as (-> & ->) end.
    match goal with |- context [attachPorts it ?a id ?ip ?q ?b] => destruct (AP ip q a b) as (-> & ->) end. apply AC.
  Qed.
  Lemma addService_addr n s st ip p : ranges it -> svcPortsOk s ->
    (served s (nodesOf st) ip p /\ getServiceByIpPort (addService it n s st) ip p = Some (List.length (k_svcs st))) \/
    (~ served s (nodesOf st) ip p /\ getServiceByIpPort (addService it n s st) ip p = getServiceByIpPort st ip p).
  Proof.
    intros RI PO. unfold getServiceByIpPort, addService. set (id := List.length (k_svcs st)).
    match goal with |- context [attachPods it (S n) id ?l ?s0] => destruct (attachPods_frame id l (S n) s0) as (A & B); set (x := attachPods it (S n) id l s0) in * end.
    cbn [setSvcs setHeaps k_nodes k_ipsvcs] in A, B. destruct (hasClusterIp s) eqn:H.
    - apply clustered_iff in H. cbn [setSvcs k_ipsvcs]. rewrite A, B, put_pairs.
      destruct (fold_put id ip p (pairs s (it _ n (keys (k_nodes st)))) (k_ipsvcs st)) as [(I & E) | (I & E)]; [left|right]; (split; [|exact E]); rewrite pairs_served in I by assumption; exact I.
    - right. rewrite B. split; [|reflexivity]. intros (C & _). apply clustered_iff in C. congruence.
  Qed.
  Lemma deleteService_addr n s st ip p : ranges it -> svcPortsOk s ->
    (served s (nodesOf st) ip p /\ getServiceByIpPort (deleteService it n (Some s) st) ip p = None) \/
    (~ served s (nodesOf st) ip p /\ getServiceByIpPort (deleteService it n (Some s) st) ip p = getServiceByIpPort st ip p).
  Proof.
    intros RI PO. unfold getServiceByIpPort. cbn [deleteService].
    match goal with |- context [if hasClusterIp s then setSvcs ?y _ _ else _] => set (x := y) end.
    assert (A : k_nodes x = k_nodes st) by (unfold x; destruct (get2 _ _ _); reflexivity). assert (B : k_ipsvcs x = k_ipsvcs st) by (unfold x; destruct (get2 _ _ _); reflexivity).
    destruct (hasClusterIp s) eqn:H.
    - apply clustered_iff in H. cbn [setSvcs k_ipsvcs]. rewrite A, B, del_pairs.
      destruct (fold_del ip p (pairs s (it _ n (keys (k_nodes st)))) (k_ipsvcs st)) as [(I & E) | (I & E)]; [left|right]; (split; [|exact E]); rewrite pairs_served in I by assumption; exact I.
    - right. rewrite B. split; [|reflexivity]. intros (C & _). apply clustered_iff in C. congruence.
  Qed.
  Lemma deletePodInfo_ipsvcs n d st : k_ipsvcs (deletePodInfo it n d st) = k_ipsvcs st.
  Proof.
    assert (A : forall uid ip l n st, k_ipsvcs (delPorts it n uid ip l st) = k_ipsvcs st).
    { intros uid ip. induction l as [|p l IH]; intros m s; cbn [delPorts]; [reflexivity|]. rewrite IH. destruct (getContainerByIpPort it m s ip (w32 p)); [|reflexivity]. destruct (eqb _ uid); reflexivity. }
    assert (B : forall uid ip l st, k_ipsvcs (delHostPorts uid ip l st) = k_ipsvcs st).
    { intros uid ip. induction l as [|p l IH]; intros s; cbn [delHostPorts]; [reflexivity|]. rewrite IH. destruct (getContainerByHostIpPort s ip p); [|reflexivity]. destruct (eqb _ uid); reflexivity. }
    unfold deletePodInfo. destruct (eqb (di_hostip d) []); destruct (eqb (di_ip d) []); rewrite ?B, ?A; cbn [setCids k_ipsvcs]; destruct (eqb (di_name d) []); try reflexivity; destruct (get2 _ _ _); reflexivity.
  Qed.
End Tables.
Section Addr.
  Context (builtIn : bytes -> bool) (lower : bytes -> bytes) (myNode : bytes) (it : forall A : Type, nat -> list A -> list A) (grace : Z).
  Lemma other_ipsvcs n now o st : match o with OAddService _ | OUpdateService _ _ | ODeleteService _ => False | _ => True end -> k_ipsvcs (kstep builtIn lower myNode it grace n now o st) = k_ipsvcs st.
  Proof.
    assert (P : forall n p st, k_ipsvcs (addPod builtIn lower myNode it n p st) = k_ipsvcs st) by (intros m p s; unfold addPod; destruct (eqb (pd_ip p) []); reflexivity).
    assert (D : forall l n st, k_ipsvcs (deleteAll it n l st) = k_ipsvcs st) by (induction l as [|[d ts] l IH]; intros m s; cbn [deleteAll]; [reflexivity|]; rewrite IH; apply deletePodInfo_ipsvcs).
    destruct o; intros O; try destruct O; cbn [kstep]; try reflexivity.
    - apply P.
    - unfold updatePod. destruct (eqb _ _); [reflexivity|]. destruct (get2 _ _ _); [|apply P]. cbn [setQueue k_ipsvcs]. apply P.
    - destruct o; reflexivity.
    - unfold deleteRound. rewrite D. reflexivity.
    - unfold addReplicaSet. destruct (List.find _ _); reflexivity.
    - unfold updateReplicaSet. destruct (eqb _ _); [reflexivity|]. unfold addReplicaSet. destruct (List.find _ _); reflexivity.
    - destruct o; reflexivity.
    - destruct o; reflexivity.
  Qed.
  Lemma addService_nodes n s st : k_nodes (addService it n s st) = k_nodes st.
  Proof. apply (other_nodes builtIn lower myNode it grace n 0 (OAddService s) st I). Qed.
  Lemma deleteService_nodes n s st : k_nodes (deleteService it n s st) = k_nodes st.
  Proof. apply (other_nodes builtIn lower myNode it grace n 0 (ODeleteService s) st I). Qed.

  (** what holds of the addresses, apart from those of nodes *)
  Definition atCluster (s : service) (ip : bytes) (p : Z) : Prop := served s (fun _ => False) ip p.
  Record AddrInv (l : list ((bytes * bytes) * service)) (nodes : bytes -> Prop) (st : kstate) : Prop := {
    a_svc : SInv l st;
    a_nodes : forall a, nodesOf st a -> nodes a;
    a_live : forall key s ip p, aget l key = Some s -> atCluster s ip p -> exists j, getServiceByIpPort st ip p = Some j /\ get2 (k_gsvcs st) (sv_ns s) (sv_name s) = Some j;
    a_only : forall ip p j, getServiceByIpPort st ip p = Some j -> nodes ip \/ exists key s, aget l key = Some s /\ atCluster s ip p }.
  Lemma served_cases s N ip p : served s N ip p -> atCluster s ip p \/ N ip.
  Proof. intros (C & q & Q & [H | (H & NI & E)]); [left; split; [exact C|exists q; auto]|right; exact NI]. Qed.
  Lemma served_more s N ip p : atCluster s ip p -> served s N ip p.
  Proof. intros (C & q & Q & [H | (_ & [] & _)]). split; [exact C|]. exists q. auto. Qed.
  Lemma atCluster_ip s ip p : atCluster s ip p -> ip = sv_ip s /\ clustered s.
  Proof. intros (C & q & Q & [(H & _) | (_ & [] & _)]). auto. Qed.
  Lemma addr_add l nodes s n st : ranges it -> AddrInv l nodes st -> aget l (svcKey s) = None -> apartServices (aset l (svcKey s) s) nodes -> AddrInv (aset l (svcKey s) s) nodes (addService it n s st).
  Proof.
    intros RI IV NL (AP1 & AP2). destruct (AP1 (svcKey s) s (aget_aset_same _ _ _)) as (PO & NN). destruct (addService_svcs it n s st) as (G & _). split.
    - apply (sinv_add builtIn lower). exact (a_svc _ _ _ IV).
    - intros a (i & E). rewrite addService_nodes in E. apply (a_nodes _ _ _ IV). exists i. exact E.
    - intros key s' ip p GL CL. pose proof (atCluster_ip _ _ _ CL) as (-> & CS). rewrite aget_aset in GL. case_eqb key (svcKey s).
      + inversion GL; subst s'. exists (List.length (k_svcs st)). rewrite G, get2_put2, !eqb_refl. split; [|reflexivity].
        destruct (addService_addr it n s st (sv_ip s) p RI PO) as [(_ & X) | (X & _)]; [exact X|]. exfalso. apply X. apply served_more. exact CL.
      + destruct (a_live _ _ _ IV key s' _ p GL CL) as (j & X & Y). exists j. pose proof (s_key _ _ (a_svc _ _ _ IV) key s' GL) as K.
        assert (GL2 : aget (aset l (svcKey s) s) key = Some s') by (rewrite aget_aset_other by exact E; exact GL).
        split.
        * destruct (addService_addr it n s st (sv_ip s') p RI PO) as [(X1 & _) | (_ & X2)]; [|congruence]. exfalso.
          destruct (served_cases _ _ _ _ X1) as [Z | Z].
          -- apply atCluster_ip in Z. destruct Z as (Z & _). exact (AP2 key s' (svcKey s) s GL2 (aget_aset_same _ _ _) E CS Z).
          -- apply (proj2 (AP1 key s' GL2) CS). apply (a_nodes _ _ _ IV). exact Z.
        * rewrite G, get2_put2. case_eqb (sv_ns s') (sv_ns s); case_eqb (sv_name s') (sv_name s); cbn [andb]; try exact Y. exfalso. apply E. rewrite K. unfold svcKey. congruence.
    - intros ip p j H. destruct (addService_addr it n s st ip p RI PO) as [(X1 & X2) | (_ & X2)].
      + destruct (served_cases _ _ _ _ X1) as [Z | Z]; [right; exists (svcKey s), s; rewrite aget_aset_same; auto|left; apply (a_nodes _ _ _ IV); exact Z].
      + rewrite X2 in H. destruct (a_only _ _ _ IV ip p j H) as [Z | (key & s' & Z1 & Z2)]; [left; exact Z|]. right. exists key, s'. split; [|exact Z2].
        rewrite aget_aset. case_eqb key (svcKey s); [congruence|exact Z1].
  Qed.
  Lemma addr_delete l nodes s n st : ranges it -> AddrInv l nodes st -> aget l (svcKey s) = Some s -> apartServices l nodes -> AddrInv (adel l (svcKey s)) nodes (deleteService it n (Some s) st).
  Proof.
    intros RI IV GS (AP1 & AP2). destruct (AP1 (svcKey s) s GS) as (PO & NN). destruct (deleteService_svcs it n s st) as (G & _). split.
    - apply sinv_delete. exact (a_svc _ _ _ IV).
    - intros a (i & E). rewrite deleteService_nodes in E. apply (a_nodes _ _ _ IV). exists i. exact E.
    - intros key s' ip p GL CL. pose proof (atCluster_ip _ _ _ CL) as (-> & CS). rewrite aget_adel in GL. case_eqb key (svcKey s); [discriminate|].
      destruct (a_live _ _ _ IV key s' _ p GL CL) as (j & X & Y). exists j. rewrite G. split; [|exact Y].
      destruct (deleteService_addr it n s st (sv_ip s') p RI PO) as [(X1 & _) | (_ & X2)]; [|congruence]. exfalso.
      destruct (served_cases _ _ _ _ X1) as [Z | Z].
      + apply atCluster_ip in Z. destruct Z as (Z & _). exact (AP2 key s' (svcKey s) s GL GS E CS Z).
      + apply (proj2 (AP1 key s' GL) CS). apply (a_nodes _ _ _ IV). exact Z.
    - intros ip p j H. destruct (deleteService_addr it n s st ip p RI PO) as [(X1 & X2) | (X1 & X2)]; [congruence|].
      rewrite X2 in H. destruct (a_only _ _ _ IV ip p j H) as [Z | (key & s' & Z1 & Z2)]; [left; exact Z|]. right. exists key, s'. split; [|exact Z2].
      rewrite aget_adel. case_eqb key (svcKey s); [|exact Z1]. exfalso. apply X1. apply served_more. congruence.
  Qed.
  Lemma apart_less l l' (N N' : bytes -> Prop) : (forall k s, aget l' k = Some s -> aget l k = Some s) -> (forall a, N' a -> N a) -> apartServices l N -> apartServices l' N'.
  Proof.
    intros H HN (A & B). split.
    - intros key s G. destruct (A key s (H _ _ G)) as (X & Y). split; [exact X|]. intros C Z. exact (Y C (HN _ Z)).
    - intros key s key' s' G G'. apply B; apply H; assumption.
  Qed.
  Lemma addr_more l (N N' : bytes -> Prop) st : (forall a, N a -> N' a) -> AddrInv l N st -> AddrInv l N' st.
  Proof.
    intros H IV. split; [exact (a_svc _ _ _ IV)|intros a X; apply H; apply (a_nodes _ _ _ IV); exact X|exact (a_live _ _ _ IV)|]. intros ip p j G. destruct (a_only _ _ _ IV ip p j G) as [X | X]; auto.
  Qed.
  Lemma addr_ext l l' N st : (forall k, aget l' k = aget l k) -> AddrInv l N st -> AddrInv l' N st.
  Proof.
    intros H IV. split; [eapply sinv_ext; [exact H|exact (a_svc _ _ _ IV)]|exact (a_nodes _ _ _ IV)| |].
    - intros key s ip p G. rewrite H in G. apply (a_live _ _ _ IV key s ip p G).
    - intros ip p j G. destruct (a_only _ _ _ IV ip p j G) as [X | (key & s & X & Y)]; [auto|]. right. exists key, s. rewrite H. auto.
  Qed.
  Lemma areach_inv l nodes st : ranges it -> areach builtIn lower myNode it grace l nodes st -> AddrInv l nodes st /\ apartServices l nodes.
  Proof.
    intros RI R. induction R as [|l nodes st n now o l' R [IV AP] SS AP'].
    - split; [|split; intros; discriminate]. split; [apply sinv_start|intros a (i & E); discriminate|intros; discriminate|intros; discriminate].
    - split; [|exact AP']. inversion SS as [s NL|s L|old new L K V|s L| |o' O]; subst; cbn [kstep] in *.
      + apply addr_add; [exact RI|eapply addr_more; [|exact IV]; auto|exact NL|exact AP'].
      + unfold updateService. rewrite eqb_refl. eapply addr_more; [|exact IV]; auto.
      + unfold updateService in *. rewrite (proj2 (eqb_neq _ _) V) in *.
        eapply addr_ext; [|apply addr_add; [exact RI|eapply addr_more; [|eapply addr_delete; [exact RI|exact IV|exact L|exact AP]]; auto| |]].
        * intros k. rewrite <- K, !aget_aset, aget_adel. destruct (eqb k (svcKey new)); reflexivity.
        * rewrite K. apply aget_adel_same.
        * eapply apart_less; [|intros a X; exact X|exact AP']. intros k s. rewrite <- K, !aget_aset, aget_adel. destruct (eqb k (svcKey new)); [auto|discriminate || auto].
      + eapply addr_more; [|eapply addr_delete; [exact RI|exact IV|exact L|exact AP]]; auto.
      + eapply addr_more; [|exact IV]; auto.
      + split.
        * eapply sinv_frame; [apply svcFrame_other; exact O|exact (a_svc _ _ _ IV)].
        * intros a X. right. exact X.
        * intros key s ip p G C. destruct (a_live _ _ _ IV key s ip p G C) as (j & X & Y). exists j. unfold getServiceByIpPort. rewrite other_ipsvcs by exact O.
          destruct (svcFrame_other builtIn lower myNode it grace n now o st O) as (-> & _). auto.
        * intros ip p j. unfold getServiceByIpPort. rewrite other_ipsvcs by exact O. intros G. destruct (a_only _ _ _ IV ip p j G) as [X | X]; auto.
  Qed.
End Addr.

(** A service that appears answers at all its addresses, the known nodes' included; no other answer changes. *)
Theorem C39_address_added : forall it n s st ip p, ranges it -> svcPortsOk s ->
  (served s (nodesOf st) ip p -> exists j, getServiceByIpPort (addService it n s st) ip p = Some j /\ isService (svcAt (k_svcs (addService it n s st)) j) s) /\
  (~ served s (nodesOf st) ip p -> getServiceByIpPort (addService it n s st) ip p = getServiceByIpPort st ip p).
Proof.
  intros it n s st ip p RI PO. destruct (addService_addr it n s st ip p RI PO) as [(A & B) | (A & B)]; split; intros H; try contradiction; [|exact B].
  eexists. split; [exact B|]. destruct (addService_svcs it n s st) as (_ & _ & X). eapply isService_same; [apply X|]. rewrite svcAt_new. repeat split.
Qed.
Print Assumptions C39_address_added.
(** A service that is deleted answers at none of its addresses; no other answer changes. *)
Theorem C39_address_deleted : forall it n s st ip p, ranges it -> svcPortsOk s ->
  (served s (nodesOf st) ip p -> getServiceByIpPort (deleteService it n (Some s) st) ip p = None) /\
  (~ served s (nodesOf st) ip p -> getServiceByIpPort (deleteService it n (Some s) st) ip p = getServiceByIpPort st ip p).
Proof. intros it n s st ip p RI PO. destruct (deleteService_addr it n s st ip p RI PO) as [(A & B) | (A & B)]; split; intros H; try contradiction; exact B. Qed.
Print Assumptions C39_address_deleted.
(** After every history, the cluster address and a port of a service that exists answer this service, and an address that no node ever had answers only if
    it is the cluster address of a service that exists, with a port of it. *)
Theorem C39_address : forall builtIn lower myNode it grace l nodes st, ranges it -> areach builtIn lower myNode it grace l nodes st ->
  (forall key s q, aget l key = Some s -> clustered s -> In q (sv_ports s) ->
     exists j, getServiceByIpPort st (sv_ip s) (sp_port q) = Some j /\ isService (svcAt (k_svcs st) j) s) /\
  (forall ip p j, getServiceByIpPort st ip p = Some j -> ~ nodes ip ->
     exists key s q, aget l key = Some s /\ ip = sv_ip s /\ In q (sv_ports s) /\ p = sp_port q /\ isService (svcAt (k_svcs st) j) s).
Proof.
  intros builtIn lower myNode it grace l nodes st RI R. destruct (areach_inv builtIn lower myNode it grace l nodes st RI R) as (IV & _).
  assert (LV : forall key s j, aget l key = Some s -> get2 (k_gsvcs st) (sv_ns s) (sv_name s) = Some j -> isService (svcAt (k_svcs st) j) s).
  { intros key s j G Y. pose proof (s_key _ _ (a_svc _ _ _ IV) key s G) as K. subst key. destruct (s_live _ _ (a_svc _ _ _ IV) _ _ s G) as (i & A & B). assert (i = j) by congruence. subst. exact B. }
  split.
  - intros key s q G CS Q. destruct (a_live _ _ _ IV key s (sv_ip s) (sp_port q) G) as (j & X & Y); [split; [exact CS|exists q; auto]|]. exists j. split; [exact X|]. eapply LV; eassumption.
  - intros ip p j G N. destruct (a_only _ _ _ IV ip p j G) as [X | (key & s & X & Y)]; [contradiction|].
    destruct (a_live _ _ _ IV key s ip p X Y) as (j' & X1 & X2). assert (j' = j) by congruence. subst j'.
    destruct Y as (_ & q & Q & [(-> & ->) | (_ & [] & _)]). exists key, s, q. repeat (split; [assumption || reflexivity|]). eapply LV; eassumption.
Qed.
Print Assumptions C39_address.
