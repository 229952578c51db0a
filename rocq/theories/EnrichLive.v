(** C43 with C37 and C39: the labels of a request describe the pods and services that exist. *)
From Coq Require Import Permutation.
From Verif Require Import Base Decimal AttrModel CompareModel K8sModel K8sSpec K8sProofs K8sInv K8sIter K8sProps K8sServiceSpec K8sServiceAddr EnrichModel EnrichSpec EnrichProofs EnrichProps EnrichHist.
Open Scope string_scope. Open Scope list_scope. Open Scope Z_scope.

Definition srcIsPod (m : labels) (v : pod) : Prop :=
  strOf m "src_pod" = pd_name v /\ strOf m "src_namespace" = pd_ns v /\ strOf m "src_node" = pd_node v /\ strOf m "src_node_ip" = pd_hostip v /\ strOf m "src_ip" = pd_ip v.
Definition dstIsPod (m : labels) (v : pod) : Prop :=
  strOf m "dst_pod" = pd_name v /\ strOf m "dst_namespace" = pd_ns v /\ strOf m "dst_node" = pd_node v /\ strOf m "dst_node_ip" = pd_hostip v.

(** After every history of the watches: a request made by a container of a pod that exists is labelled with this pod and this container ... *)
Theorem C43_live_client : forall builtIn lower myNode it grace ok w st key v cid localIp localName n name m m',
  0 < grace -> reach builtIn lower myNode it grace ok w st -> aget (w_live w) key = Some v -> claims v (CId cid) -> ~ w_spoiled w (CId cid) ->
  wellTyped m -> isTcp name = false -> boolOf m "is_server" = false -> strOf m "container_id" = cid ->
  enrich it localIp localName true n st name m = Ok m' ->
  srcIsPod m' v /\ strOf m' "src_container_id" = cid /\ exists full, In (strOf m' "src_container", full) (pd_statuses v) /\ TruncateContainerId full = cid.
Proof.
  intros builtIn lower myNode it grace ok w st key v cid localIp localName n name m m' GP R L CL NS W T B CI E.
  destruct (C37_live builtIn lower myNode it grace ok w st n key v (CId cid) GP R L CL NS) as (c & A & (_ & D2 & D3 & D4 & _ & D6 & D7 & _) & (I & full & F1 & F2)). cbn [answer] in A.
  destruct (C43_client it localIp localName n st name m W T B) as (m2 & E2 & X). assert (m2 = m') by congruence. subst m2. cbv zeta in X. rewrite CI in X.
  unfold clientSource in X. rewrite (proj2 (eqb_neq cid [])) in X by apply CL. rewrite A in X. cbn [srcT] in X. rewrite app_assoc in X.
  assert (O : forall k, String.prefix "dst_" k = false -> aget m' k = match aget (podSrcT st (podOf st c) ++ [("src_container", SV (ci_name c)); ("src_container_id", SV (ci_id c))]) k with Some x => Some x | None => aget m k end).
  { intros k N. refine (src_part _ _ _ _ _ X k N). rewrite only_app, clientDstT_only, loopT_only. reflexivity. }
  unfold srcIsPod, strOf. rewrite !O by reflexivity. rewrite !aget_app. unfold podSrcT, svcName. fold (podOf st c) in *. rewrite <- D2, <- D3, <- D4, <- D6, <- D7.
  destruct (pi_svc (podOf st c)); (split; [repeat split|]; split; [exact I|]; exists full; split; [exact F1|exact F2]).
Qed.
Print Assumptions C43_live_client.
(** ... and so is a request served by it. *)
Theorem C43_live_server : forall builtIn lower myNode it grace ok w st key v cid localIp localName n name m m',
  0 < grace -> reach builtIn lower myNode it grace ok w st -> aget (w_live w) key = Some v -> claims v (CId cid) -> ~ w_spoiled w (CId cid) ->
  wellTyped m -> isTcp name = false -> boolOf m "is_server" = true -> strOf m "container_id" = cid ->
  enrich it localIp localName true n st name m = Ok m' ->
  dstIsPod m' v /\ strOf m' "dst_container_id" = cid /\ exists full, In (strOf m' "dst_container", full) (pd_statuses v) /\ TruncateContainerId full = cid.
Proof.
  intros builtIn lower myNode it grace ok w st key v cid localIp localName n name m m' GP R L CL NS W T B CI E.
  destruct (C37_live builtIn lower myNode it grace ok w st n key v (CId cid) GP R L CL NS) as (c & A & (_ & D2 & D3 & D4 & _ & D6 & D7 & _) & (I & full & F1 & F2)). cbn [answer] in A.
  destruct (C43_server it localIp localName n st name m W T B) as (m2 & E2 & X). assert (m2 = m') by congruence. subst m2. cbv zeta in X. rewrite CI in X.
  unfold serverDstT in X. rewrite A in X.
  assert (O : forall k, String.prefix "src_" k = false -> aget m' k = match aget (map (fun s => ("dst_service", SV s)) (svcName st (podOf st c)) ++ containerDstT st (strOf m "dst_ip") c) k with Some x => Some x | None => aget m k end).
  { intros k N. refine (dst_part _ _ _ _ _ X k N). apply srcT_only. }
  unfold dstIsPod, strOf. rewrite !O by reflexivity. rewrite !aget_app. unfold containerDstT, podDstT, svcName. fold (podOf st c) in *. rewrite <- D2, <- D3, <- D6, <- D7.
  destruct (pi_svc (podOf st c)), (eqb (strOf m "dst_ip") []); (split; [repeat split|]; split; [exact I|]; exists full; split; [exact F1|exact F2]).
Qed.
Print Assumptions C43_live_server.
(** A request made by this node to an address and port of a container of a pod that exists, which no service has, is labelled with this pod. *)
Theorem C43_live_destination : forall builtIn lower myNode it grace ok w st key v ip port localIp localName n name m m',
  0 < grace -> reach builtIn lower myNode it grace ok w st -> aget (w_live w) key = Some v -> claims v (CAddr ip port) -> ~ w_spoiled w (CAddr ip port) -> 0 <= port < 65536 ->
  getServiceByIpPort st ip port = None -> ip <> bs "127.0.0.1" ->
  wellTyped m -> isTcp name = false -> boolOf m "is_server" = false -> strOf m "dst_ip" = ip -> intOf m "dst_port" = port ->
  enrich it localIp localName true n st name m = Ok m' ->
  dstIsPod m' v /\ strOf m' "dst_ip" = ip /\ intOf m' "dst_port" = port.
Proof.
  intros builtIn lower myNode it grace ok w st key v ip port localIp localName n name m m' GP R L CL NS PO SV NL W T B DI DP E.
  destruct (C37_live builtIn lower myNode it grace ok w st (S n) key v (CAddr ip port) GP R L CL NS) as (c & A & (_ & D2 & D3 & D4 & _ & D6 & D7 & _) & _). cbn [answer] in A.
  destruct (C43_client it localIp localName n st name m W T B) as (m2 & E2 & X). assert (m2 = m') by congruence. subst m2. cbv zeta in X. rewrite DI, DP in X.
  rewrite (proj2 (eqb_neq ip (bs "127.0.0.1")) NL) in X. unfold clientDstT in X. replace (w32 port) with port in X by (symmetry; apply w32_small; lia). rewrite SV, A in X. rewrite app_assoc in X.
  assert (IN : ip <> []) by (destruct CL as (C1 & C2 & _); congruence).
  assert (O : forall k, String.prefix "src_" k = false -> aget m' k = match aget (containerDstT st ip c ++ loopT localIp localName ip) k with Some x => Some x | None => aget m k end).
  { intros k N. refine (dst_part _ _ _ _ _ X k N). apply srcT_only. }
  unfold containerDstT, podDstT, loopT in O. rewrite (proj2 (eqb_neq ip []) IN), (proj2 (eqb_neq ip (bs "127.0.0.1")) NL) in O.
  unfold dstIsPod, strOf, intOf in *. rewrite !O by reflexivity. fold (podOf st c) in *. rewrite <- D2, <- D3, <- D6, <- D7. repeat split; assumption.
Qed.
Print Assumptions C43_live_destination.
(** A request made by this node to the cluster address and a port of a service that exists is labelled with the name of this service. *)
Theorem C43_service_destination : forall builtIn lower myNode it grace l nodes st key s q localIp localName n name m m',
  ranges it -> areach builtIn lower myNode it grace l nodes st -> aget l key = Some s -> clustered s -> In q (sv_ports s) -> 0 <= sp_port q < 65536 ->
  sv_ip s <> bs "127.0.0.1" ->
  wellTyped m -> isTcp name = false -> boolOf m "is_server" = false -> strOf m "dst_ip" = sv_ip s -> intOf m "dst_port" = sp_port q ->
  enrich it localIp localName true n st name m = Ok m' ->
  strOf m' "dst_service" = sv_name s.
Proof.
  intros builtIn lower myNode it grace l nodes st key s q localIp localName n name m m' RI R L CS Q PO NL W T B DI DP E.
  destruct (C39_address builtIn lower myNode it grace l nodes st RI R) as (H & _). destruct (H key s q L CS Q) as (j & G & I). destruct I as (_ & I & _). clear H.
  destruct (C43_client it localIp localName n st name m W T B) as (m2 & E2 & X). assert (m2 = m') by congruence. subst m2. cbv zeta in X. rewrite DI, DP in X.
  rewrite (proj2 (eqb_neq (sv_ip s) (bs "127.0.0.1")) NL) in X. unfold clientDstT in X. replace (w32 (sp_port q)) with (sp_port q) in X by (symmetry; apply w32_small; lia). rewrite G in X.
  unfold strOf. rewrite X. rewrite <- app_assoc, aget_app.
  match goal with |- context [match aget ?u "dst_service" with Some v => Some v | None => aget (serviceT st j ++ _) _ end] => assert (U : aget u "dst_service" = None) end.
  { destruct (eqb _ _); [reflexivity|]. destruct (_ =? -1); [reflexivity|]. destruct (getContainerByIpPort _ _ _ _ _); [|destruct (getNodeName _ _); reflexivity]. unfold containerDstT, podDstT. destruct (eqb _ _); reflexivity. }
  rewrite U. cbn. exact I.
Qed.
Print Assumptions C43_service_destination.

(** *** Examples and where the property fails *)
Definition lab0 : labels := [("container_id", SV (bs "aaaaaaaaaaaa")); ("src_ip", SV (bs "10.0.0.1")); ("src_port", IV 40000); ("dst_ip", SV (bs "10.0.0.2")); ("dst_port", IV 80); ("is_server", BV false); ("protocol", SV (bs "http"))].
Lemma wellTyped_dec m : forallb (fun kv => match snd kv with SV _ => negb (String.eqb (fst kv) "dst_port") | IV _ | BV _ => negb (existsb (String.eqb (fst kv)) stringLabels) end) m = true ->
  (forall v, aget m "dst_port" = Some v -> exists z, v = IV z) -> wellTyped m.
Proof.
  intros F P. split; [|exact P]. intros k v I G. apply aget_in in G. rewrite forallb_forall in F. specialize (F _ G). cbn [fst snd] in F. apply existsb_in in I. rewrite I in F. destruct v; [eauto|discriminate F|discriminate F].
Qed.
Ltac typed := apply wellTyped_dec; [reflexivity|intros v H; vm_compute in H; inversion H; subst; eauto].
(** Two pods; the first calls the second. *)
Example C43_request : exists w st m', R1 w st /\ wellTyped lab0 /\ claims p1 (CId (bs "aaaaaaaaaaaa")) /\ aget (w_live w) (podKey p1) = Some p1 /\
  enrich idIt (bs "192.168.0.1") (bs "node-1") true O st (bs "net_request_metric_group") lab0 = Ok m' /\
  strOf m' "src_pod" = bs "web-0" /\ strOf m' "src_container" = bs "c" /\ strOf m' "dst_pod" = bs "web-1" /\ strOf m' "dst_namespace" = bs "shop" /\ strOf m' "protocol" = bs "http".
Proof.
  assert (R : R1 w0 k0) by apply R_start. goAdd R 5 p1. goAdd R 10 p2. eexists _, _, _. split; [exact R|]. clear R.
  split; [typed|]. split; [rewrite <- shortIds_in; left; reflexivity|]. split; [reflexivity|]. split; [vm_compute; reflexivity|]. repeat split; vm_compute; reflexivity.
Qed.
(** A tcp metric to a port of a node that belongs to a container names the pod, but with the mark for addresses outside the cluster instead of its namespace. *)
Definition lab1 : labels := [("src_ip", SV (bs "10.0.0.2")); ("src_port", IV 40000); ("dst_ip", SV (bs "192.168.0.1")); ("dst_port", IV 30080)].
Theorem C43_tcp_host_port_refuted : exists w st m', R1 w st /\ wellTyped lab1 /\ aget (w_live w) (podKey p1) = Some p1 /\ claims p1 (CHost (bs "192.168.0.1") 30080) /\
  enrich idIt (bs "192.168.0.1") (bs "node-1") true O st (bs "tcp_rtt_metric_group") lab1 = Ok m' /\
  strOf m' "dst_pod" = pd_name p1 /\ strOf m' "dst_namespace" = bs "NOT_FOUND_EXTERNAL" /\ pd_ns p1 = bs "shop".
Proof.
  assert (R : R1 w0 k0) by apply R_start. goAdd R 5 p1. goAdd R 10 p2. eexists _, _, _. split; [exact R|]. clear R.
  split; [typed|]. split; [reflexivity|]. split.
  { cbn [claims]. split; [discriminate|]. split; [reflexivity|]. exists (ctr "web" ports1), {| pt_container := 8080; pt_host := 30080 |}. repeat split; [left; reflexivity|left; reflexivity|discriminate]. }
  split; [vm_compute; reflexivity|]. repeat split; vm_compute; reflexivity.
Qed.
Print Assumptions C43_tcp_host_port_refuted.
(** A request over the loopback address by a process of the node that is in no container is labelled with this node, and marked as coming from outside the cluster. *)
Definition lab2 : labels := [("src_ip", SV (bs "127.0.0.1")); ("src_port", IV 40000); ("dst_ip", SV (bs "127.0.0.1")); ("dst_port", IV 80)].
Theorem C43_loopback_refuted : exists w st m', R1 w st /\ wellTyped lab2 /\
  enrich idIt (bs "192.168.0.1") (bs "node-1") true O st (bs "net_request_metric_group") lab2 = Ok m' /\
  strOf m' "src_node" = bs "node-1" /\ strOf m' "src_node_ip" = bs "192.168.0.1" /\ strOf m' "src_namespace" = bs "NOT_FOUND_EXTERNAL" /\
  strOf m' "dst_node" = bs "node-1" /\ strOf m' "dst_namespace" = bs "NOT_FOUND_EXTERNAL".
Proof.
  assert (R : R1 w0 k0) by apply R_start. goAdd R 5 p1. eexists _, _, _. split; [exact R|]. clear R.
  split; [typed|]. split; [vm_compute; reflexivity|]. repeat split; vm_compute; reflexivity.
Qed.
Print Assumptions C43_loopback_refuted.
(** The listening port of a tcp metric survives, with the destination behind the translation. *)
Example C43_translated : exists m', enrich idIt (bs "192.168.0.1") (bs "node-1") true O k0 (bs "tcp_drop_metric_group")
    [("src_ip", SV (bs "10.0.0.2")); ("src_port", IV 40000); ("dst_ip", SV (bs "10.96.0.4")); ("dst_port", IV 80); ("dnat_ip", SV (bs "10.0.0.1")); ("dnat_port", IV 8080)] = Ok m' /\
  aget m' "dst_ip" = Some (SV (bs "10.0.0.1")) /\ aget m' "dst_port" = Some (IV 8080) /\ aget m' "src_port" = None /\ aget m' "dnat_ip" = None.
Proof. eexists. split; [vm_compute; reflexivity|]. repeat split. Qed.
