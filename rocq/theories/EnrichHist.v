(** C43: what the labels say about the cluster. *)
From Coq Require Import Permutation.
From Verif Require Import Base Decimal AttrModel CompareModel K8sModel K8sSpec K8sProofs K8sInv K8sIter K8sProps K8sServiceSpec K8sServiceAddr EnrichModel EnrichSpec EnrichProofs EnrichProps.
Open Scope string_scope. Open Scope list_scope. Open Scope Z_scope.

(** At most one of the two ports survives on a tcp metric, and never a port from 32768 on. *)
Theorem C43_one_port : forall it localIp localName n st name m m', wellTyped m -> isTcp name = true -> enrich it localIp localName true n st name m = Ok m' ->
  (aget m' "src_port" = None \/ aget m' "dst_port" = None) /\
  (forall p, aget m' "src_port" = Some (IV p) \/ aget m' "dst_port" = Some (IV p) -> p < 32768) /\
  aget m' "dnat_ip" = None /\ aget m' "dnat_port" = None.
Proof.
  intros it localIp localName n st name m m' W T E. destruct (C43_tcp it localIp localName n st name m W T) as (m1 & m2 & A & X & _ & D1 & D2 & S & D & _).
  assert (m2 = m') by congruence. subst m2. clear A E. rewrite S, D. set (sp := intOf m "src_port") in *. set (np := intOf m "dnat_port") in *.
  set (dp := if 0 <? np then np else intOf m1 "dst_port"). split; [|split; [|split; assumption]].
  - destruct (Z.leb_spec sp dp), (Z.ltb_spec dp sp); try lia; rewrite ?andb_false_r; auto.
  - intros p [H | H].
    + destruct (Z.ltb_spec sp 32768); [|discriminate H]. cbn [andb] in H. destruct (sp <=? dp); [|discriminate H]. unfold sp, intOf in *. rewrite H in *. cbn [asInt] in *. lia.
    + destruct (Z.ltb_spec dp 32768); [|discriminate H]. cbn [andb] in H. destruct (dp <? sp); [|discriminate H]. unfold dp in *. destruct (0 <? np).
      * inversion H. subst. lia.
      * unfold intOf in *. rewrite H in *. cbn [asInt] in *. lia.
Qed.
Print Assumptions C43_one_port.

(** Only the labels of the two ends change. *)
Definition endLabels : list string := stringLabels ++ ["src_port"; "dst_port"; "dnat_ip"; "dnat_port"].
Definition tableOk (t : labels) : bool := forallb (fun kv => existsb (String.eqb (fst kv)) endLabels) t.
Lemma tableOk_app a b : tableOk (a ++ b) = (tableOk a && tableOk b)%bool.
Proof. apply forallb_app. Qed.
Lemma tableOk_none t k : tableOk t = true -> ~ In k endLabels -> aget t k = None.
Proof.
  intros T N. destruct (aget t k) as [v|] eqn:G; [|reflexivity]. exfalso. apply N. apply aget_in in G. unfold tableOk in T. rewrite forallb_forall in T. specialize (T _ G). apply existsb_in in T. exact T.
Qed.
Lemma srcT_in lip lname st cid ip p : tableOk (srcT lip lname st cid ip p) = true.
Proof. destruct p; cbn [srcT]; unfold podSrcT, svcName; [destruct (pi_svc _)|destruct (pi_svc _)| | |destruct (eqb _ _)]; reflexivity. Qed.
Lemma containerDstT_in st ip c : tableOk (containerDstT st ip c) = true.
Proof. unfold containerDstT, podDstT. destruct (eqb ip []); reflexivity. Qed.
Lemma podDstT_in ip r : tableOk (podDstT ip r) = true.
Proof. unfold podDstT. destruct (eqb ip []); reflexivity. Qed.
Lemma clientDstT_in it st n a ip port nip nport : tableOk (clientDstT it st n a ip port nip nport) = true.
Proof.
  unfold clientDstT. destruct (getServiceByIpPort _ _ _).
  - rewrite tableOk_app. apply andb_true_iff. split; [|reflexivity]. destruct (eqb nip []); [reflexivity|]. destruct (nport =? -1); [reflexivity|].
    destruct (getContainerByIpPort _ _ _ _ _); [apply containerDstT_in|]. destruct (getNodeName _ _); reflexivity.
  - destruct (getContainerByIpPort _ _ _ _ _); [apply containerDstT_in|]. destruct (getContainerByHostIpPort _ _ _); [rewrite tableOk_app, containerDstT_in; reflexivity|].
    destruct (getNodeName _ _); reflexivity.
Qed.
Lemma tcpDstT_in it st n ip port nip nport : tableOk (tcpDstT it st n ip port nip nport) = true.
Proof.
  unfold tcpDstT. destruct (getServiceByIpPort _ _ _).
  - rewrite tableOk_app. apply andb_true_iff. split; [|reflexivity]. destruct (eqb nip []); [reflexivity|]. destruct (nport =? -1); [reflexivity|].
    destruct (getContainerByIpPort _ _ _ _ _); [apply containerDstT_in|reflexivity].
  - destruct (getContainerByIpPort _ _ _ _ _); [apply containerDstT_in|]. cbv zeta. rewrite tableOk_app. apply andb_true_iff. split.
    + destruct (byAddress _ _ _ _); try reflexivity. apply podDstT_in.
    + destruct (getContainerByHostIpPort _ _ _); [rewrite tableOk_app, containerDstT_in; reflexivity|reflexivity].
Qed.
Theorem C43_others_kept : forall it localIp localName enable n st name m, wellTyped m ->
  exists m', enrich it localIp localName enable n st name m = Ok m' /\ forall k, ~ In k endLabels -> aget m' k = aget m k.
Proof.
  intros it localIp localName enable n st name m W. destruct enable; [|exists m; split; reflexivity].
  destruct (isTcp name) eqn:T; [|destruct (boolOf m "is_server") eqn:B].
  - destruct (C43_tcp it localIp localName n st name m W T) as (m1 & m2 & A & X & _ & _ & _ & _ & _ & F). exists m2. split; [exact A|]. intros k N.
    rewrite F, X, tableOk_none; [reflexivity| |exact N|].
    + rewrite tableOk_app, tcpDstT_in. unfold tcpSrcT, podSrcT, svcName. destruct (tcpSource _ _ _ _ _); [destruct (pi_svc _)|destruct (pi_svc _)| | |]; reflexivity.
    + intros I. apply N. unfold endLabels. cbn [In app stringLabels] in *. tauto.
  - destruct (C43_server it localIp localName n st name m W T B) as (m' & A & X). exists m'. split; [exact A|]. intros k N. rewrite X, tableOk_none; [reflexivity| |exact N].
    rewrite tableOk_app, srcT_in, andb_true_r. unfold serverDstT. destruct (aget _ _); [|reflexivity]. rewrite tableOk_app, containerDstT_in, andb_true_r. unfold svcName. destruct (pi_svc _); reflexivity.
  - destruct (C43_client it localIp localName n st name m W T B) as (m' & A & X). exists m'. split; [exact A|]. intros k N. rewrite X, tableOk_none; [reflexivity| |exact N].
    rewrite !tableOk_app, srcT_in, andb_true_r, clientDstT_in. cbn [andb]. unfold loopT. destruct (eqb _ _); reflexivity.
Qed.
Print Assumptions C43_others_kept.

(** A record of the caches: what one of the questions to the caches answers. *)
Inductive inCaches (it : forall A : Type, nat -> list A -> list A) (st : kstate) : podInfo -> Prop :=
| IC_answer n k c : answer it n st k = Some c -> inCaches it st (podAt (k_pods st) (ci_pod c))
| IC_address n ip i : getPodByIp it n st ip = Some i -> inCaches it st (podAt (k_pods st) i).
Definition srcOf (m : labels) (r : podInfo) : Prop :=
  strOf m "src_pod" = pi_name r /\ strOf m "src_namespace" = pi_ns r /\ strOf m "src_workload_kind" = pi_wkind r /\ strOf m "src_workload_name" = pi_wname r /\
  strOf m "src_node" = pi_node r /\ strOf m "src_node_ip" = pi_nodeaddr r /\ strOf m "src_ip" = pi_ip r.
Definition dstOf (m : labels) (r : podInfo) : Prop :=
  strOf m "dst_pod" = pi_name r /\ strOf m "dst_namespace" = pi_ns r /\ strOf m "dst_workload_kind" = pi_wkind r /\ strOf m "dst_workload_name" = pi_wname r /\
  strOf m "dst_node" = pi_node r /\ strOf m "dst_node_ip" = pi_nodeaddr r.
Lemma podSrcT_gives st r t : forall m m', with_ (podSrcT st r ++ t) m m' -> srcOf m' r.
Proof. intros m m' X. unfold srcOf, strOf. rewrite !X. repeat split. Qed.
Lemma podDstT_gives ip r t : forall m m', with_ (podDstT ip r ++ t) m m' -> dstOf m' r.
Proof. intros m m' X. unfold dstOf, strOf. rewrite !X. unfold podDstT. destruct (eqb ip []); repeat split. Qed.
Definition only (p : string) (t : labels) : bool := forallb (fun kv => String.prefix p (fst kv)) t.
Lemma only_app p a b : only p (a ++ b) = (only p a && only p b)%bool. Proof. apply forallb_app. Qed.
Lemma only_none p t k : only p t = true -> String.prefix p k = false -> aget t k = None.
Proof.
  intros T N. destruct (aget t k) as [v|] eqn:G; [|reflexivity]. exfalso. apply aget_in in G. unfold only in T. rewrite forallb_forall in T. specialize (T _ G). cbn [fst] in T. congruence.
Qed.
Lemma srcT_only lip lname st cid ip p : only "src_" (srcT lip lname st cid ip p) = true.
Proof. destruct p; cbn [srcT]; unfold podSrcT, svcName; [destruct (pi_svc _)|destruct (pi_svc _)| | |destruct (eqb _ _)]; reflexivity. Qed.
Lemma tcpSrcT_only st p : only "src_" (tcpSrcT st p) = true.
Proof. destruct p; cbn [tcpSrcT]; unfold podSrcT, svcName; [destruct (pi_svc _)|destruct (pi_svc _)| | |]; reflexivity. Qed.
Lemma containerDstT_only st ip c : only "dst_" (containerDstT st ip c) = true.
Proof. unfold containerDstT, podDstT. destruct (eqb ip []); reflexivity. Qed.
Lemma loopT_only lip lname ip : only "dst_" (loopT lip lname ip) = true.
Proof. unfold loopT. destruct (eqb _ _); reflexivity. Qed.
Lemma serverDstT_only lip lname st cid ip : only "dst_" (serverDstT lip lname st cid ip) = true.
Proof. unfold serverDstT. destruct (aget _ _); [|reflexivity]. rewrite only_app, containerDstT_only. unfold svcName. destruct (pi_svc _); reflexivity. Qed.
Lemma clientDstT_only it st n a ip port nip nport : only "dst_" (clientDstT it st n a ip port nip nport) = true.
Proof.
  unfold clientDstT. destruct (getServiceByIpPort _ _ _).
  - rewrite only_app. apply andb_true_iff. split; [|reflexivity]. destruct (eqb nip []); [reflexivity|]. destruct (nport =? -1); [reflexivity|].
    destruct (getContainerByIpPort _ _ _ _ _); [apply containerDstT_only|]. destruct (getNodeName _ _); reflexivity.
  - destruct (getContainerByIpPort _ _ _ _ _); [apply containerDstT_only|]. destruct (getContainerByHostIpPort _ _ _); [rewrite only_app, containerDstT_only; reflexivity|].
    destruct (getNodeName _ _); reflexivity.
Qed.
Lemma tcpDstT_only it st n ip port nip nport : only "dst_" (tcpDstT it st n ip port nip nport) = true.
Proof.
  unfold tcpDstT. destruct (getServiceByIpPort _ _ _).
  - rewrite only_app. apply andb_true_iff. split; [|reflexivity]. destruct (eqb nip []); [reflexivity|]. destruct (nport =? -1); [reflexivity|].
    destruct (getContainerByIpPort _ _ _ _ _); [apply containerDstT_only|reflexivity].
  - destruct (getContainerByIpPort _ _ _ _ _); [apply containerDstT_only|]. cbv zeta. rewrite only_app. apply andb_true_iff. split.
    + destruct (byAddress _ _ _ _); try reflexivity. unfold podDstT. destruct (eqb _ _); reflexivity.
    + destruct (getContainerByHostIpPort _ _ _); [rewrite only_app, containerDstT_only; reflexivity|reflexivity].
Qed.
(** The part of the result that is about one end. *)
Lemma src_part d s m m' : only "dst_" d = true -> with_ (d ++ s) m m' -> forall k, String.prefix "dst_" k = false -> aget m' k = match aget s k with Some v => Some v | None => aget m k end.
Proof. intros O X k N. rewrite X, aget_app, (only_none "dst_" d k O N). reflexivity. Qed.
Lemma dst_part d s m m' : only "src_" s = true -> with_ (d ++ s) m m' -> forall k, String.prefix "src_" k = false -> aget m' k = match aget d k with Some v => Some v | None => aget m k end.
Proof. intros O X k N. rewrite X, aget_app, (only_none "src_" s k O N). destruct (aget d k); reflexivity. Qed.

(** Two label sets agree on the labels of one end, its address and ports apart. *)
Definition srcNames : list string := ["src_pod"; "src_namespace"; "src_workload_kind"; "src_workload_name"; "src_node"; "src_node_ip"; "src_ip"; "src_service"; "src_container"; "src_container_id"].
Definition dstNames : list string := ["dst_pod"; "dst_namespace"; "dst_workload_kind"; "dst_workload_name"; "dst_node"; "dst_node_ip"; "dst_service"; "dst_container"; "dst_container_id"].

(** The source of any group: all its labels come from one record of the caches, or no pod is named that was not, and the namespace is one of the two
    marks: the internal one for an unknown container of this node or the address of a node, the external one otherwise. *)
Theorem C43_source : forall it localIp localName n st name m m', wellTyped m -> enrich it localIp localName true n st name m = Ok m' ->
  (exists r, inCaches it st r /\ srcOf m' r) \/
  ((forall k, In k ["src_pod"; "src_workload_kind"; "src_workload_name"; "src_ip"; "src_service"; "src_container"] -> aget m' k = aget m k) /\
   let ip := strOf m "src_ip" in
   let sentHere := negb (isTcp name) && negb (boolOf m "is_server") && negb (eqb (strOf m "container_id") []) in
   strOf m' "src_namespace" =
     if sentHere then bs "NOT_FOUND_INTERNAL" else match getNodeName st ip with Some _ => bs "NOT_FOUND_INTERNAL" | None => bs "NOT_FOUND_EXTERNAL" end).
Proof.
  intros it localIp localName n st name m m' W E.
  assert (K : forall s p b, (forall k, In k srcNames -> aget m' k = match aget s k with Some v => Some v | None => aget m k end) ->
     ((exists r, inCaches it st r /\ (p = FPod r \/ (exists c, p = FContainer c /\ r = podOf st c))) \/ (p = FLocal /\ b = true) \/
      (p = match getNodeName st (strOf m "src_ip") with Some name => FNode (strOf m "src_ip") name | None => FUnknown end /\ b = false)) ->
     ((exists cid ip, s = srcT localIp localName st cid ip p) \/ s = tcpSrcT st p) ->
     (exists r, inCaches it st r /\ srcOf m' r) \/
     ((forall k, In k ["src_pod"; "src_workload_kind"; "src_workload_name"; "src_ip"; "src_service"; "src_container"] -> aget m' k = aget m k) /\
      strOf m' "src_namespace" = if b : bool then bs "NOT_FOUND_INTERNAL" else match getNodeName st (strOf m "src_ip") with Some _ => bs "NOT_FOUND_INTERNAL" | None => bs "NOT_FOUND_EXTERNAL" end)).
  { intros s p b G [(r & I & P) | Q] S.
    - left. exists r. split; [exact I|]. assert (Y : exists t, s = podSrcT st r ++ t).
      { destruct P as [-> | (c & -> & ->)], S as [(cid & ip & ->) | ->]; cbn [srcT tcpSrcT]; first [exists []; rewrite app_nil_r; reflexivity | eexists; reflexivity]. }
      destruct Y as (t & ->). unfold srcOf, strOf. rewrite !G by (cbn [In srcNames]; tauto). repeat split.
    - right. set (ns := if b then bs "NOT_FOUND_INTERNAL" else match getNodeName st (strOf m "src_ip") with Some _ => bs "NOT_FOUND_INTERNAL" | None => bs "NOT_FOUND_EXTERNAL" end).
      assert (Y : (forall k, In k ["src_pod"; "src_workload_kind"; "src_workload_name"; "src_ip"; "src_service"; "src_container"] -> aget s k = None) /\ aget s "src_namespace" = Some (SV ns)).
      { unfold ns. destruct Q as [(-> & ->) | (-> & ->)]; [|destruct (getNodeName st (strOf m "src_ip"))]; destruct S as [(cid & ip & ->) | ->]; cbn [srcT tcpSrcT];
          (split; [intros k J; cbn [In] in J; repeat (destruct J as [<-|J]; [try reflexivity; destruct (eqb ip (bs "127.0.0.1")); reflexivity|]); destruct J|reflexivity]). }
      destruct Y as (Y1 & Y2).
      split; [intros k J; rewrite G by (cbn [In srcNames] in *; tauto); rewrite Y1 by exact J; reflexivity|]. unfold strOf. rewrite G by (cbn [In srcNames]; tauto). rewrite Y2. reflexivity. }
  assert (BA : forall x, let p := byAddress it st x (strOf m "src_ip") in
     (exists r, inCaches it st r /\ (p = FPod r \/ (exists c, p = FContainer c /\ r = podOf st c))) \/
      p = match getNodeName st (strOf m "src_ip") with Some name => FNode (strOf m "src_ip") name | None => FUnknown end).
  { intros x. unfold byAddress. cbv zeta. destruct (getPodByIp it x st (strOf m "src_ip")) as [i|] eqn:P; [left; eexists; split; [eapply IC_address; exact P|left; reflexivity]|right; reflexivity]. }
  assert (ND : forall k, In k srcNames -> String.prefix "dst_" k = false) by (intros k J; cbn [In srcNames] in J; repeat (destruct J as [<-|J]; [reflexivity|]); destruct J).
  destruct (isTcp name) eqn:T; [|destruct (boolOf m "is_server") eqn:B]; cbv zeta; cbn [negb andb].
  - destruct (C43_tcp it localIp localName n st name m W T) as (m1 & m2 & A & X & _ & _ & _ & _ & _ & F). assert (m2 = m') by congruence. subst m2.
    apply (K (tcpSrcT st (tcpSource it st n (strOf m "src_ip") (intOf m "src_port"))) (tcpSource it st n (strOf m "src_ip") (intOf m "src_port")) false).
    + intros k J. rewrite F by (intros N; cbn [In srcNames] in *; repeat (destruct J as [<-|J]; [repeat (destruct N as [N|N]; [discriminate N|]); destruct N|]); destruct J).
      apply (src_part _ _ _ _ (tcpDstT_only _ _ _ _ _ _ _) X). apply ND. exact J.
    + unfold tcpSource. destruct (getContainerByIpPort it n st (strOf m "src_ip") (w32 (intOf m "src_port"))) as [c|] eqn:G.
      * left. eexists. split; [exact (IC_answer it st n (CAddr _ _) _ G)|]. right. exists c. auto.
      * destruct (BA (S n)) as [H | H]; auto.
    + right. reflexivity.
  - destruct (C43_server it localIp localName n st name m W T B) as (m2 & A & X). assert (m2 = m') by congruence. subst m2. cbv zeta in X.
    apply (K (srcT localIp localName st [] (strOf m "src_ip") (byAddress it st n (strOf m "src_ip"))) (byAddress it st n (strOf m "src_ip")) false).
    + intros k J. apply (src_part _ _ _ _ (serverDstT_only _ _ _ _ _) X). apply ND. exact J.
    + destruct (BA n) as [H | H]; auto.
    + left. eauto.
  - destruct (C43_client it localIp localName n st name m W T B) as (m2 & A & X). assert (m2 = m') by congruence. subst m2. cbv zeta in X.
    apply (K (srcT localIp localName st (strOf m "container_id") (strOf m "src_ip") (clientSource it st n (strOf m "container_id") (strOf m "src_ip"))) (clientSource it st n (strOf m "container_id") (strOf m "src_ip")) (negb (eqb (strOf m "container_id") []))).
    + intros k J. rewrite app_assoc in X. refine (src_part _ _ _ _ _ X k (ND k J)). rewrite only_app, clientDstT_only, loopT_only. reflexivity.
    + unfold clientSource. destruct (eqb (strOf m "container_id") []); cbn [negb]; [destruct (BA n) as [H | H]; auto|]. destruct (aget (k_cids st) (strOf m "container_id")) as [c|] eqn:G; [|auto].
      left. eexists. split; [exact (IC_answer it st n (CId _) _ G)|]. right. exists c. auto.
    + left. eauto.
Qed.
Print Assumptions C43_source.

(** The destination of a request: all its labels come from one record of the caches; or no pod is named that was not and the labels are those of the service
    that was called; or the namespace is one of the two marks and neither workload nor service are changed.  For a tcp metric the same holds when the destination is
    not a port of a node that belongs to a container (C43_tcp_host_port_refuted is about that case). *)
Definition svcDst (m : labels) (s : svcInfo) : Prop :=
  strOf m "dst_namespace" = si_ns s /\ strOf m "dst_service" = si_name s /\ strOf m "dst_workload_kind" = si_wkind s /\ strOf m "dst_workload_name" = si_wname s.
Theorem C43_destination : forall it localIp localName n st name m m', wellTyped m -> enrich it localIp localName true n st name m = Ok m' ->
  (isTcp name = true -> getContainerByHostIpPort st (strOf m "dst_ip") (w32 (intOf m "dst_port")) = None) ->
  (exists r, inCaches it st r /\ dstOf m' r) \/
  (aget m' "dst_pod" = aget m "dst_pod" /\ exists ip p i, getServiceByIpPort st ip p = Some i /\ svcDst m' (svcAt (k_svcs st) i)) \/
  ((forall k, In k ["dst_pod"; "dst_workload_kind"; "dst_workload_name"; "dst_service"; "dst_container"] -> aget m' k = aget m k) /\
   (strOf m' "dst_namespace" = bs "NOT_FOUND_INTERNAL" \/ strOf m' "dst_namespace" = bs "NOT_FOUND_EXTERNAL")).
Proof.
  intros it localIp localName n st name m m' W E HP.
  set (goal := _ \/ _).
  assert (K : forall d, (forall k, In k dstNames -> aget m' k = match aget d k with Some v => Some v | None => aget m k end) ->
     ((exists r ip t u, inCaches it st r /\ d = u ++ podDstT ip r ++ t /\ forall k, In k ["dst_pod"; "dst_namespace"; "dst_workload_kind"; "dst_workload_name"; "dst_node"; "dst_node_ip"] -> aget u k = None) \/
      (exists ip p i t u, getServiceByIpPort st ip p = Some i /\ d = u ++ serviceT st i ++ t /\ aget t "dst_pod" = None /\
         forall k, In k ["dst_pod"; "dst_namespace"; "dst_workload_kind"; "dst_workload_name"; "dst_service"] -> aget u k = None) \/
      ((forall k, In k ["dst_pod"; "dst_workload_kind"; "dst_workload_name"; "dst_service"; "dst_container"] -> aget d k = None) /\
       (aget d "dst_namespace" = Some (SV (bs "NOT_FOUND_INTERNAL")) \/ aget d "dst_namespace" = Some (SV (bs "NOT_FOUND_EXTERNAL"))))) -> goal).
  { intros d G [(r & ip & t & u & I & -> & U) | [(ip & p & i & t & u & I & -> & T & U) | (N & S)]].
    - left. exists r. split; [exact I|]. unfold dstOf, strOf. rewrite !G by (cbn [In dstNames]; tauto). rewrite !(aget_app u), !U by (cbn [In]; tauto).
      unfold podDstT. destruct (eqb ip []); repeat split.
    - right. left. split.
      + rewrite G by (cbn [In dstNames]; tauto). rewrite (aget_app u), U by (cbn [In]; tauto). rewrite aget_app. cbn [serviceT aget]. change (aget (serviceT st i) "dst_pod") with (@None aval). rewrite T. reflexivity.
      + exists ip, p, i. split; [exact I|]. unfold svcDst, strOf. rewrite !G by (cbn [In dstNames]; tauto). rewrite !(aget_app u), !U by (cbn [In]; tauto). repeat split.
    - right. right. split.
      + intros k J. rewrite G by (cbn [In dstNames] in *; tauto). rewrite N by exact J. reflexivity.
      + unfold strOf. rewrite G by (cbn [In dstNames]; tauto). destruct S as [-> | ->]; auto. }
  assert (NS : forall k, In k dstNames -> String.prefix "src_" k = false) by (intros k J; cbn [In dstNames] in J; repeat (destruct J as [<-|J]; [reflexivity|]); destruct J).
  Ltac each J := cbn [In] in J; repeat (destruct J as [<-|J]; [reflexivity|]); destruct J.
  destruct (isTcp name) eqn:T; [|destruct (boolOf m "is_server") eqn:B].
  - specialize (HP eq_refl). destruct (C43_tcp it localIp localName n st name m W T) as (m1 & m2 & A & X & _ & _ & _ & _ & _ & F). assert (m2 = m') by congruence. subst m2.
    apply (K (tcpDstT it st (S (S n)) (strOf m "dst_ip") (intOf m "dst_port") (strOf m "dnat_ip") (intOf m "dnat_port"))).
    + intros k J. rewrite F by (intros N; cbn [In dstNames] in *; repeat (destruct J as [<-|J]; [repeat (destruct N as [N|N]; [discriminate N|]); destruct N|]); destruct J).
      refine (dst_part _ _ _ _ _ X k (NS k J)). apply tcpSrcT_only.
    + unfold tcpDstT. rewrite HP. cbv zeta. destruct (getServiceByIpPort st (strOf m "dst_ip") (w32 (intOf m "dst_port"))) as [i|] eqn:G.
      * destruct (eqb (strOf m "dnat_ip") []); [|destruct (intOf m "dnat_port" =? -1)];
          try (right; left; eexists _, _, i, [], []; split; [exact G|]; split; [rewrite app_nil_r; reflexivity|]; split; reflexivity).
        destruct (getContainerByIpPort it (S (S n)) st (strOf m "dnat_ip") (w32 (intOf m "dnat_port"))) as [c|] eqn:GC;
          try (right; left; eexists _, _, i, [], []; split; [exact G|]; split; [rewrite app_nil_r; reflexivity|]; split; reflexivity).
        left. exists (podOf st c). unfold containerDstT. eexists _, _, []. split; [exact (IC_answer it st _ (CAddr _ _) _ GC)|]. split; [rewrite <- app_assoc; reflexivity|reflexivity].
      * destruct (getContainerByIpPort it (S (S n)) st (strOf m "dst_ip") (w32 (intOf m "dst_port"))) as [c|] eqn:GC.
        -- left. exists (podOf st c). unfold containerDstT. eexists _, _, []. split; [exact (IC_answer it st _ (CAddr _ _) _ GC)|]. split; reflexivity.
        -- unfold byAddress. destruct (getPodByIp it (S (S (S n))) st (strOf m "dst_ip")) as [i|] eqn:GP.
           ++ left. eexists _, _, [], []. split; [eapply IC_address; exact GP|]. split; reflexivity.
           ++ right. right. destruct (getNodeName st (strOf m "dst_ip")); (split; [intros k J; each J|auto]).
  - destruct (C43_server it localIp localName n st name m W T B) as (m2 & A & X). assert (m2 = m') by congruence. subst m2. cbv zeta in X.
    apply (K (serverDstT localIp localName st (strOf m "container_id") (strOf m "dst_ip"))).
    + intros k J. refine (dst_part _ _ _ _ _ X k (NS k J)). apply srcT_only.
    + unfold serverDstT. destruct (aget (k_cids st) (strOf m "container_id")) as [c|] eqn:G.
      * left. exists (podOf st c), (strOf m "dst_ip"), [("dst_container", SV (ci_name c)); ("dst_container_id", SV (ci_id c))], (map (fun s => ("dst_service", SV s)) (svcName st (podOf st c))).
        split; [exact (IC_answer it st n (CId _) _ G)|]. split; [unfold containerDstT; reflexivity|]. intros k J. unfold svcName. destruct (pi_svc _); each J.
      * right. right. split; [intros k J; each J|auto].
  - destruct (C43_client it localIp localName n st name m W T B) as (m2 & A & X). assert (m2 = m') by congruence. subst m2. cbv zeta in X.
    rewrite app_assoc in X. set (a := if eqb (strOf m "dst_ip") (bs "127.0.0.1") then _ else _) in X. set (lt := loopT localIp localName (strOf m "dst_ip")) in X.
    assert (LT : forall k, In k ["dst_pod"; "dst_namespace"; "dst_workload_kind"; "dst_workload_name"; "dst_service"; "dst_container"] -> aget lt k = None).
    { intros k J. unfold lt, loopT. destruct (eqb _ _); each J. }
    apply (K (clientDstT it st (S n) a (strOf m "dst_ip") (intOf m "dst_port") (strOf m "dnat_ip") (intOf m "dnat_port") ++ lt)).
    + intros k J. refine (dst_part _ _ _ _ _ X k (NS k J)). apply srcT_only.
    + unfold clientDstT. destruct (getServiceByIpPort st a (w32 (intOf m "dst_port"))) as [i|] eqn:G.
      * assert (SV : forall u, (forall k, In k ["dst_pod"; "dst_namespace"; "dst_workload_kind"; "dst_workload_name"; "dst_service"] -> aget u k = None) ->
          exists ip p i0 t u0, getServiceByIpPort st ip p = Some i0 /\ (u ++ serviceT st i) ++ lt = u0 ++ serviceT st i0 ++ t /\ aget t "dst_pod" = None /\
            forall k, In k ["dst_pod"; "dst_namespace"; "dst_workload_kind"; "dst_workload_name"; "dst_service"] -> aget u0 k = None).
        { intros u U. exists a, (w32 (intOf m "dst_port")), i, lt, u. split; [exact G|]. split; [rewrite <- app_assoc; reflexivity|]. split; [apply LT; cbn [In]; tauto|exact U]. }
        destruct (eqb (strOf m "dnat_ip") []); [right; left; apply SV; reflexivity|]. destruct (intOf m "dnat_port" =? -1); [right; left; apply SV; reflexivity|].
        destruct (getContainerByIpPort it (S n) st (strOf m "dnat_ip") (w32 (intOf m "dnat_port"))) as [c|] eqn:GC.
        -- left. exists (podOf st c). unfold containerDstT. eexists _, _, []. split; [exact (IC_answer it st _ (CAddr _ _) _ GC)|]. split; [rewrite <- !app_assoc; reflexivity|reflexivity].
        -- right. left. apply SV. destruct (getNodeName _ _); [|reflexivity]. intros k J. each J.
      * destruct (getContainerByIpPort it (S n) st a (w32 (intOf m "dst_port"))) as [c|] eqn:GC.
        -- left. exists (podOf st c). unfold containerDstT. eexists _, _, []. split; [exact (IC_answer it st _ (CAddr _ _) _ GC)|]. split; [rewrite <- !app_assoc; reflexivity|reflexivity].
        -- destruct (getContainerByHostIpPort st a (w32 (intOf m "dst_port"))) as [c|] eqn:GH.
           ++ left. exists (podOf st c), (strOf m "dst_ip"), ([("dst_container", SV (ci_name c)); ("dst_container_id", SV (ci_id c))] ++ lt), (hostPortT st a (intOf m "dst_port") c).
              split; [exact (IC_answer it st n (CHost _ _) _ GH)|]. split; [unfold containerDstT; rewrite <- !app_assoc; reflexivity|]. intros k J. each J.
           ++ right. right. destruct (getNodeName st a); (split; [intros k J; rewrite aget_app, LT by (cbn [In] in *; tauto); each J|rewrite aget_app; auto]).
Qed.
Print Assumptions C43_destination.
