(** The enrichment adds exactly the labels of the tables of EnrichSpec.v. *)
From Verif Require Import Base Decimal AttrModel CompareModel K8sModel EnrichModel EnrichSpec.
Open Scope string_scope. Open Scope list_scope. Open Scope Z_scope.

Lemma aget_app {K V} `{Eqb K} (a b : list (K * V)) k : aget (a ++ b) k = match aget a k with Some v => Some v | None => aget b k end.
Proof. induction a as [|[k' v] a IH]; cbn [app aget]; [reflexivity|]. destruct (eqb k k'); [reflexivity|exact IH]. Qed.
Definition okEntry (kv : string * aval) : bool :=
  match snd kv with SV _ => existsb (String.eqb (fst kv)) stringLabels | IV _ => String.eqb (fst kv) "dst_port" | BV _ => false end.
Fixpoint distinct (l : list string) : bool := match l with [] => true | k :: l' => negb (existsb (String.eqb k) l') && distinct l' end.
Lemma existsb_in k l : existsb (String.eqb k) l = true <-> In k l.
Proof. rewrite existsb_exists. split; [intros (x & I & E); apply (proj1 (String.eqb_eq _ _)) in E; subst; exact I|intros I; exists k; split; [exact I|apply String.eqb_refl]]. Qed.
Lemma upd1_ok m k v : wellTyped m -> okEntry (k, v) = true -> upd1 m k v = Ok (aset m k v) /\ wellTyped (aset m k v).
Proof.
  intros (S & P) O. unfold okEntry in O; cbn [fst snd] in O. unfold upd1. split.
  - destruct (aget m k) as [old|] eqn:G; [|reflexivity]. destruct v; cbn [same_type] in *; [|apply (proj1 (String.eqb_eq _ _)) in O; cbn [fst] in O; subst k|discriminate O].
    + apply existsb_in in O. destruct (S _ _ O G) as (s0 & ->). reflexivity.
    + destruct (P _ G) as (z0 & ->). reflexivity.
  - split.
    + intros k' v' I G. rewrite aget_aset in G. case_eqb k' k; [|eapply S; eassumption]. subst k'. destruct v; [inversion G; eauto| |discriminate O].
      apply (proj1 (String.eqb_eq _ _)) in O. subst k. exfalso. apply existsb_in in I. vm_compute in I. discriminate I.
    + intros v' G. rewrite aget_aset in G. case_eqb "dst_port" k; [|eapply P; eassumption]. subst k. destruct v; [|inversion G; eauto|discriminate O].
      vm_compute in O. discriminate O.
Qed.
Lemma upds_ok l : forall m, wellTyped m -> forallb okEntry l = true -> distinct (keys l) = true -> exists m', upds l m = Ok m' /\ wellTyped m' /\ with_ l m m'.
Proof.
  induction l as [|[k v] l IH]; intros m W O D; cbn [upds forallb keys map distinct fst] in *.
  - exists m. repeat split; try apply W.
  - apply andb_true_iff in O, D. destruct O as (O & OL), D as (D & DL). destruct (upd1_ok m k v W O) as (E & W'). rewrite E. cbn [bind].
    destruct (IH (aset m k v) W' OL DL) as (m' & E' & W2 & WI). exists m'. split; [exact E'|]. split; [exact W2|]. intros x. rewrite WI. cbn [aget]. rewrite aget_aset.
    case_eqb x k; [|reflexivity]. subst x. destruct (aget l k) as [u|] eqn:G; [|reflexivity]. exfalso. apply aget_in in G. apply negb_true_iff in D.
    rewrite (proj2 (existsb_in k (map fst l))) in D; [discriminate|]. change k with (fst (k, u)). apply in_map. exact G.
Qed.
Lemma with_nil m : with_ [] m m. Proof. intros k. reflexivity. Qed.
Lemma with_app a b m m1 m2 : with_ a m m1 -> with_ b m1 m2 -> with_ (b ++ a) m m2.
Proof. intros A B k. rewrite B, A, aget_app. destruct (aget b k); reflexivity. Qed.
Lemma with_same a b m m' : (forall k, aget a k = aget b k) -> with_ a m m' -> with_ b m m'.
Proof. intros E W k. rewrite W, E. reflexivity. Qed.
(** What a step does: it succeeds, keeps the types and adds a table. *)
Definition adds (r : res labels) (m : labels) (t : labels) : Prop := exists m', r = Ok m' /\ wellTyped m' /\ with_ t m m'.
Lemma adds_same r m a b : (forall k, aget a k = aget b k) -> adds r m a -> adds r m b.
Proof. intros E (m' & A & B & C). exists m'. split; [exact A|]. split; [exact B|]. eapply with_same; eassumption. Qed.
Lemma adds_bind r g m a b : adds r m a -> (forall m', wellTyped m' -> with_ a m m' -> adds (g m') m' b) -> adds (bind r g) m (b ++ a).
Proof. intros (m' & A & B & C) G. destruct (G m' B C) as (m'' & A' & B' & C'). exists m''. rewrite A. cbn [bind]. split; [exact A'|]. split; [exact B'|]. eapply with_app; eassumption. Qed.
Lemma adds_upds l m : wellTyped m -> forallb okEntry l = true -> distinct (keys l) = true -> adds (upds l m) m l.
Proof. intros W O D. destruct (upds_ok l m W O D) as (m' & H). exists m'. exact H. Qed.
Lemma adds_ok m : wellTyped m -> adds (Ok m) m [].
Proof. intros W. exists m. split; [reflexivity|]. split; [exact W|apply with_nil]. Qed.
Lemma strOf_with t m m' k : with_ t m m' -> aget t k = None -> strOf m' k = strOf m k.
Proof. intros W N. unfold strOf. rewrite W, N. reflexivity. Qed.
Lemma intOf_with t m m' k : with_ t m m' -> aget t k = None -> intOf m' k = intOf m k.
Proof. intros W N. unfold intOf. rewrite W, N. reflexivity. Qed.
Lemma strOf_new t m m' k s : with_ t m m' -> aget t k = Some (SV s) -> strOf m' k = s.
Proof. intros W N. unfold strOf. rewrite W, N. reflexivity. Qed.
Ltac names := unfold LbIsServer, LbContainerId, LbSrcNode, LbSrcNodeIp, LbSrcNamespace, LbSrcPod, LbSrcWorkloadName, LbSrcWorkloadKind, LbSrcService, LbSrcIp, LbSrcPort, LbSrcContainerId, LbSrcContainer, LbDstNode, LbDstNodeIp, LbDstNamespace, LbDstPod, LbDstWorkloadName, LbDstWorkloadKind, LbDstService, LbDstIp, LbDstPort, LbDnatIp, LbDnatPort, LbDstContainerId, LbDstContainer in *.
(** two tables with the same entries in another order *)
Ltac tables := let k := fresh "k" in intros k; cbn [app aget map]; names;
  repeat match goal with |- context [eqb k ?c] => let E := fresh "E" in destruct (eqb k c) eqn:E; [apply eqb_true in E; subst k; reflexivity|] end; reflexivity.
Ltac upds := apply adds_upds; [assumption|reflexivity|reflexivity].

Section Proofs.
  Context (it : forall A : Type, nat -> list A -> list A) (localIp localName : bytes) (st : kstate).

  Lemma addPodSrc_adds r m : wellTyped m -> adds (addPodSrc st r m) m (podSrcT st r).
  Proof.
    intros W. unfold addPodSrc, podSrcT, svcName. destruct (pi_svc r) as [i|]; (eapply adds_same; [|upds]); tables.
  Qed.
  Lemma addContainerSrc_adds c m : wellTyped m ->
    adds (addContainerSrc st c m) m (podSrcT st (podOf st c) ++ [("src_container", SV (ci_name c)); ("src_container_id", SV (ci_id c))]).
  Proof. intros W. apply adds_bind; [upds|]. intros m' W' _. apply addPodSrc_adds. exact W'. Qed.
  Lemma addPodDst_adds r m ip : wellTyped m -> strOf m "dst_ip" = ip -> adds (addPodDst r m) m (podDstT ip r).
  Proof.
    intros W I. unfold podDstT. eapply adds_same; [|apply adds_bind with (b := if eqb ip [] then [("dst_ip", SV (pi_ip r))] else []); [upds|]].
    - destruct (eqb ip []); tables.
    - intros m' W' X. rewrite (strOf_with _ _ _ LbDstIp X eq_refl). names. rewrite I. destruct (eqb ip []); [upds|apply adds_ok; exact W'].
  Qed.
  Lemma addContainerDst_adds c m ip : wellTyped m -> strOf m "dst_ip" = ip -> adds (addContainerDst st c m) m (containerDstT st ip c).
  Proof. intros W I. apply adds_bind; [upds|]. intros m' W' X. apply addPodDst_adds; [exact W'|]. rewrite (strOf_with _ _ _ "dst_ip" X eq_refl). exact I. Qed.
  Lemma srcByIp_adds n m cid : wellTyped m ->
    adds (srcByIp it localIp localName n st m) m (srcT localIp localName st cid (strOf m "src_ip") (byAddress it st n (strOf m "src_ip"))).
  Proof.
    intros W. unfold srcByIp, byAddress. change LbSrcIp with "src_ip". set (ip := strOf m "src_ip"). cbv zeta. change loopbackIp with (bs "127.0.0.1").
    assert (F : adds (if eqb ip (bs "127.0.0.1") then upds [(LbSrcNodeIp, SV localIp); (LbSrcNode, SV localName)] m else Ok m) m
                     (if eqb ip (bs "127.0.0.1") then [(LbSrcNodeIp, SV localIp); (LbSrcNode, SV localName)] else [])).
    { destruct (eqb ip (bs "127.0.0.1")); [upds|apply adds_ok; exact W]. }
    destruct (getPodByIp it n st ip) as [i|]; [|destruct (getNodeName st ip) as [name|]]; cbn [srcT];
      (eapply adds_same; [|apply adds_bind; [exact F|intros m' W' X; first [apply addPodSrc_adds; exact W' | upds]]]);
      destruct (eqb ip (bs "127.0.0.1")); try solve [tables]; unfold podSrcT, svcName; destruct (pi_svc _); tables.
  Qed.
  Lemma clientSrc_adds n m : wellTyped m ->
    adds (clientSrc it localIp localName n st m) m
         (srcT localIp localName st (strOf m "container_id") (strOf m "src_ip") (clientSource it st n (strOf m "container_id") (strOf m "src_ip"))).
  Proof.
    intros W. unfold clientSrc, clientSource. change LbContainerId with "container_id". cbv zeta. destruct (eqb (strOf m "container_id") []) eqn:E; [apply srcByIp_adds; exact W|].
    set (cid := strOf m "container_id"). destruct (aget (k_cids st) cid) as [c|]; cbn [srcT].
    - eapply adds_same; [|apply adds_bind; [upds|intros m' W' X; apply addContainerSrc_adds; exact W']]. unfold podSrcT, svcName. destruct (pi_svc _); tables.
    - eapply adds_same; [|apply adds_bind; [upds|intros m' W' X; upds]]. tables.
  Qed.
  Lemma srcT_other cid ip p k : In k ["dst_ip"; "dst_port"; "dnat_ip"; "dnat_port"; "container_id"] -> aget (srcT localIp localName st cid ip p) k = None.
  Proof.
    intros I. destruct p; cbn [srcT]; unfold podSrcT, svcName.
    1,2: destruct (pi_svc _). 7: destruct (eqb ip (bs "127.0.0.1")).
    all: repeat (destruct I as [<-|I]; [reflexivity|]); destruct I.
  Qed.
  Lemma srcT_ip cid ip p m m' : with_ (srcT localIp localName st cid ip p) m m' -> strOf m "src_ip" = ip -> strOf m' "src_ip" = srcIpAfter st ip p.
  Proof.
    intros W E. unfold strOf in *. rewrite W. destruct p; cbn [srcT srcIpAfter]; try exact E; [reflexivity|reflexivity|].
    destruct (eqb ip (bs "127.0.0.1")); exact E.
  Qed.
  Lemma addService_adds i m : wellTyped m -> adds (EnrichModel.addService st i m) m (serviceT st i).
  Proof. intros W. upds. Qed.
  Lemma addHostPort_adds a port c m ip : wellTyped m -> strOf m "dst_ip" = ip -> adds (addHostPort st a port c m) m (hostPortT st a port c ++ containerDstT st ip c).
  Proof. intros W I. apply adds_bind; [apply addContainerDst_adds; assumption|]. intros m' W' X. upds. Qed.
  Lemma loop_adds m ip : wellTyped m -> adds (if eqb ip loopbackIp then upds [(LbDstNodeIp, SV localIp); (LbDstNode, SV localName)] m else Ok m) m (loopT localIp localName ip).
  Proof.
    intros W. unfold loopT. change loopbackIp with (bs "127.0.0.1"). destruct (eqb ip (bs "127.0.0.1")); [|apply adds_ok; exact W]. eapply adds_same; [|upds]. tables.
  Qed.
  Lemma clientDst_adds n m : wellTyped m ->
    adds (clientDst it localIp localName n st m) m
         (clientDstT it st n (if eqb (strOf m "dst_ip") (bs "127.0.0.1") then strOf m "src_ip" else strOf m "dst_ip") (strOf m "dst_ip") (intOf m "dst_port") (strOf m "dnat_ip") (intOf m "dnat_port")
          ++ loopT localIp localName (strOf m "dst_ip")).
  Proof.
    intros W. unfold clientDst. cbv zeta. change LbDstIp with "dst_ip". set (ip := strOf m "dst_ip").
    apply adds_bind; [apply loop_adds; exact W|]. intros m1 W1 X1.
    assert (O : forall k, k <> "dst_node" -> k <> "dst_node_ip" -> aget (loopT localIp localName ip) k = None).
    { intros k A B. unfold loopT. destruct (eqb ip (bs "127.0.0.1")); [|reflexivity]. cbn [aget]. rewrite (proj2 (eqb_neq k "dst_node") A), (proj2 (eqb_neq k "dst_node_ip") B). reflexivity. }
    assert (I1 : strOf m1 "dst_ip" = ip) by (apply (strOf_with _ _ _ _ X1); apply O; discriminate).
    assert (I2 : strOf m1 "src_ip" = strOf m "src_ip") by (apply (strOf_with _ _ _ _ X1); apply O; discriminate).
    assert (I3 : strOf m1 "dnat_ip" = strOf m "dnat_ip") by (apply (strOf_with _ _ _ _ X1); apply O; discriminate).
    assert (I4 : intOf m1 "dst_port" = intOf m "dst_port") by (apply (intOf_with _ _ _ _ X1); apply O; discriminate).
    assert (I5 : intOf m1 "dnat_port" = intOf m "dnat_port") by (apply (intOf_with _ _ _ _ X1); apply O; discriminate).
    clear O. change loopbackIp with (bs "127.0.0.1"). change LbDstPort with "dst_port". rewrite I4.
    replace (strOf m1 (if eqb ip (bs "127.0.0.1") then LbSrcIp else "dst_ip")) with (if eqb ip (bs "127.0.0.1") then strOf m "src_ip" else ip)
      by (destruct (eqb ip (bs "127.0.0.1")); [symmetry; exact I2|symmetry; exact I1]).
    set (a := if eqb ip (bs "127.0.0.1") then strOf m "src_ip" else ip). set (port := intOf m "dst_port") in *. unfold clientDstT.
    destruct (getServiceByIpPort st a (w32 port)) as [i|].
    - apply adds_bind; [apply addService_adds; exact W1|]. intros m2 W2 X2.
      rewrite (strOf_with _ _ _ LbDnatIp X2 eq_refl), (intOf_with _ _ _ LbDnatPort X2 eq_refl). names. rewrite I3, I5.
      destruct (eqb (strOf m "dnat_ip") []); cbn [negb andb]; [apply adds_ok; exact W2|]. destruct (intOf m "dnat_port" =? -1); cbn [negb]; [apply adds_ok; exact W2|].
      destruct (getContainerByIpPort _ _ _ _ _) as [c|]; [apply addContainerDst_adds; [exact W2|rewrite (strOf_with _ _ _ "dst_ip" X2 eq_refl); exact I1]|].
      destruct (getNodeName _ _); [|apply adds_ok; exact W2]. eapply adds_same; [|upds]. tables.
    - destruct (getContainerByIpPort _ _ _ _ _) as [c|]; [apply addContainerDst_adds; assumption|].
      destruct (getContainerByHostIpPort _ _ _) as [c|]; [apply addHostPort_adds; assumption|].
      destruct (getNodeName _ _); (eapply adds_same; [|upds]); tables.
  Qed.
  Lemma serverDst_adds m : wellTyped m -> adds (serverDst localIp localName st m) m (serverDstT localIp localName st (strOf m "container_id") (strOf m "dst_ip")).
  Proof.
    intros W. unfold serverDst, serverDstT. cbv zeta. change LbContainerId with "container_id". set (cid := strOf m "container_id"). set (ip := strOf m "dst_ip").
    assert (X : forall t g, (forall m1, wellTyped m1 -> strOf m1 "dst_ip" = ip -> adds (g m1) m1 t) -> adds (bind (upds [(LbDstContainerId, SV cid)] m) g) m (t ++ [(LbDstContainerId, SV cid)])).
    { intros t g G. apply adds_bind; [upds|]. intros m1 W1 X1. apply G; [exact W1|]. exact (strOf_with _ _ _ "dst_ip" X1 eq_refl). }
    destruct (aget (k_cids st) cid) as [c|].
    - eapply adds_same; [|apply X; intros m1 W1 I1; apply adds_bind with (b := map (fun s => ("dst_service", SV s)) (svcName st (podOf st c))); [apply addContainerDst_adds; [exact W1|exact I1]|]].
      + unfold svcName, containerDstT, podDstT. destruct (pi_svc _), (eqb ip []); tables.
      + intros m2 W2 _. unfold svcName, podOf. destruct (pi_svc _); cbn [map]; [upds|apply adds_ok; exact W2].
    - eapply adds_same; [|apply X; intros m1 W1 I1; upds]. tables.
  Qed.
  Lemma tcpSrc_adds n m : wellTyped m -> adds (tcpSrc it n st m) m (tcpSrcT st (tcpSource it st n (strOf m "src_ip") (intOf m "src_port"))).
  Proof.
    intros W. unfold tcpSrc, tcpSource, byAddress. cbv zeta. change LbSrcIp with "src_ip". change LbSrcPort with "src_port".
    destruct (getContainerByIpPort _ _ _ _ _) as [c|]; [apply addContainerSrc_adds; exact W|].
    destruct (getPodByIp _ _ _ _) as [i|]; [apply addPodSrc_adds; exact W|]. destruct (getNodeName _ _); upds.
  Qed.
  Lemma tcpDst_adds n m : wellTyped m ->
    adds (tcpDst it n st m) m (tcpDstT it st n (strOf m "dst_ip") (intOf m "dst_port") (strOf m "dnat_ip") (intOf m "dnat_port")).
  Proof.
    intros W. unfold tcpDst, tcpDstT. cbv zeta. change LbDstIp with "dst_ip". change LbDstPort with "dst_port". set (ip := strOf m "dst_ip"). set (port := intOf m "dst_port").
    destruct (getServiceByIpPort _ _ _) as [i|].
    - apply adds_bind; [apply addService_adds; exact W|]. intros m2 W2 X2.
      rewrite (strOf_with _ _ _ LbDnatIp X2 eq_refl), (intOf_with _ _ _ LbDnatPort X2 eq_refl). names.
      destruct (eqb (strOf m "dnat_ip") []); cbn [negb andb]; [apply adds_ok; exact W2|]. destruct (intOf m "dnat_port" =? -1); cbn [negb]; [apply adds_ok; exact W2|].
      destruct (getContainerByIpPort _ _ _ _ _) as [c|]; [apply addContainerDst_adds; [exact W2|exact (strOf_with _ _ _ "dst_ip" X2 eq_refl)]|apply adds_ok; exact W2].
    - destruct (getContainerByIpPort _ _ _ _ _) as [c|]; [apply addContainerDst_adds; [exact W|reflexivity]|]. unfold byAddress.
      destruct (getContainerByHostIpPort _ _ _) as [c|]; (apply adds_bind; [first [apply addHostPort_adds; [exact W|reflexivity] | apply adds_ok; exact W]|]); intros m2 W2 X2;
        (destruct (getPodByIp _ _ _ _) as [i|]; [apply addPodDst_adds; [exact W2|]|destruct (getNodeName _ _); upds]).
      + eapply strOf_new; [exact X2|reflexivity].
      + eapply strOf_with; [exact X2|reflexivity].
  Qed.
End Proofs.
