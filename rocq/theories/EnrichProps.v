(** C43: the labels that the Kubernetes enrichment adds. *)
From Coq Require Import Permutation.
From Verif Require Import Base Decimal AttrModel CompareModel K8sModel K8sSpec K8sProofs K8sInv K8sIter K8sProps K8sServiceSpec K8sServiceAddr EnrichModel EnrichSpec EnrichProofs.
Open Scope string_scope. Open Scope list_scope. Open Scope Z_scope.

Definition isTcp (name : bytes) : bool :=
  existsb (eqb name) [bs "tcp_rtt_metric_group"; bs "tcp_retransmit_metric_group"; bs "tcp_drop_metric_group"].
Lemma enrich_net it lip lname n st name m : isTcp name = false ->
  enrich it lip lname true n st name m = if boolOf m "is_server" then forServer it lip lname n st m else forClient it lip lname n st m.
Proof.
  unfold isTcp, enrich. cbn [existsb negb]. intros H. apply orb_false_iff in H. destruct H as (A & H). apply orb_false_iff in H. destruct H as (B & H). apply orb_false_iff in H. destruct H as (C & _).
  rewrite A, B, C. reflexivity.
Qed.
Lemma enrich_tcp it lip lname n st name m : isTcp name = true -> enrich it lip lname true n st name m = forTcp it n st m.
Proof. unfold isTcp, enrich. cbn [existsb negb]. rewrite orb_false_r, <- orb_assoc. intros ->. reflexivity. Qed.

(** Switched off, nothing changes. *)
Theorem C43_disabled : forall it localIp localName n st name m, enrich it localIp localName false n st name m = Ok m.
Proof. reflexivity. Qed.
Print Assumptions C43_disabled.

(** A request made by this node: exactly the labels of the tables of its source and its destination are added, whatever the caches hold. *)
Theorem C43_client : forall it localIp localName n st name m,
  wellTyped m -> isTcp name = false -> boolOf m "is_server" = false ->
  exists m', enrich it localIp localName true n st name m = Ok m' /\
    let cid := strOf m "container_id" in
    let sip := strOf m "src_ip" in
    let dip := strOf m "dst_ip" in
    let src := clientSource it st n cid sip in
    with_ (clientDstT it st (S n) (if eqb dip (bs "127.0.0.1") then srcIpAfter st sip src else dip) dip (intOf m "dst_port") (strOf m "dnat_ip") (intOf m "dnat_port")
           ++ loopT localIp localName dip ++ srcT localIp localName st cid sip src) m m'.
Proof.
  intros it localIp localName n st name m W T B. rewrite (enrich_net _ _ _ _ _ _ _ T), B. cbv zeta. unfold forClient.
  set (src := clientSource it st n (strOf m "container_id") (strOf m "src_ip")).
  assert (X : adds (bind (clientSrc it localIp localName n st m) (clientDst it localIp localName (S n) st)) m
    ((clientDstT it st (S n) (if eqb (strOf m "dst_ip") (bs "127.0.0.1") then srcIpAfter st (strOf m "src_ip") src else strOf m "dst_ip") (strOf m "dst_ip") (intOf m "dst_port") (strOf m "dnat_ip") (intOf m "dnat_port")
      ++ loopT localIp localName (strOf m "dst_ip")) ++ srcT localIp localName st (strOf m "container_id") (strOf m "src_ip") src)).
  { apply adds_bind; [apply clientSrc_adds; exact W|]. intros m' W' X.
    assert (O : forall k, In k ["dst_ip"; "dst_port"; "dnat_ip"; "dnat_port"; "container_id"] -> aget m' k = aget m k) by (intros k I; rewrite X; fold src; rewrite srcT_other; [reflexivity|exact I]).
    pose proof (clientDst_adds it localIp localName st (S n) m' W') as D. rewrite (srcT_ip localIp localName st _ _ _ m m' X eq_refl) in D.
    unfold strOf, intOf in *. rewrite !O in D by (cbn [In]; tauto). exact D. }
  destruct X as (m' & A & _ & C). exists m'. split; [exact A|]. rewrite app_assoc. exact C.
Qed.
Print Assumptions C43_client.

(** A request served by this node. *)
Theorem C43_server : forall it localIp localName n st name m,
  wellTyped m -> isTcp name = false -> boolOf m "is_server" = true ->
  exists m', enrich it localIp localName true n st name m = Ok m' /\
    let cid := strOf m "container_id" in
    let sip := strOf m "src_ip" in
    with_ (serverDstT localIp localName st cid (strOf m "dst_ip") ++ srcT localIp localName st [] sip (byAddress it st n sip)) m m'.
Proof.
  intros it localIp localName n st name m W T B. rewrite (enrich_net _ _ _ _ _ _ _ T), B. cbv zeta. unfold forServer.
  assert (X : adds (bind (srcByIp it localIp localName n st m) (serverDst localIp localName st)) m
    (serverDstT localIp localName st (strOf m "container_id") (strOf m "dst_ip") ++ srcT localIp localName st [] (strOf m "src_ip") (byAddress it st n (strOf m "src_ip")))).
  { apply adds_bind; [apply srcByIp_adds; exact W|]. intros m' W' X.
    assert (O : forall k, In k ["dst_ip"; "dst_port"; "dnat_ip"; "dnat_port"; "container_id"] -> aget m' k = aget m k) by (intros k I; rewrite X, srcT_other; [reflexivity|exact I]).
    pose proof (serverDst_adds localIp localName st m' W') as D. unfold strOf in *. rewrite !O in D by (cbn [In]; tauto). exact D. }
  destruct X as (m' & A & _ & C). exists m'. split; [exact A|exact C].
Qed.
Print Assumptions C43_server.

(** A tcp metric: the labels of the tables, then the real destination instead of the one called, without the translation labels, and without the
    port that is likely a dynamic one: of the two ports only one below 32768 and not above the other is kept (the one of the source if they are equal). *)
Lemma tcpSrcT_other st p k : In k ["dst_ip"; "dst_port"; "dnat_ip"; "dnat_port"; "src_port"] -> aget (tcpSrcT st p) k = None.
Proof.
  intros I. destruct p; cbn [tcpSrcT]; unfold podSrcT, svcName; [destruct (pi_svc _)|destruct (pi_svc _)| | |];
    repeat (destruct I as [<-|I]; [reflexivity|]); destruct I.
Qed.
Lemma podDstT_other ip r k : In k ["src_port"; "dst_port"; "dnat_ip"; "dnat_port"] -> aget (podDstT ip r) k = None.
Proof. intros I. unfold podDstT. destruct (eqb ip []); repeat (destruct I as [<-|I]; [reflexivity|]); destruct I. Qed.
Lemma containerDstT_other st ip r k : In k ["src_port"; "dst_port"; "dnat_ip"; "dnat_port"] -> aget (containerDstT st ip r) k = None.
Proof. intros I. unfold containerDstT. rewrite aget_app, podDstT_other by exact I. repeat (destruct I as [<-|I]; [reflexivity|]); destruct I. Qed.
Lemma tcpDstT_other it st n ip port nip nport k : In k ["dnat_ip"; "dnat_port"; "src_port"] -> aget (tcpDstT it st n ip port nip nport) k = None.
Proof.
  intros I. assert (J : In k ["src_port"; "dst_port"; "dnat_ip"; "dnat_port"]) by (cbn [In] in *; tauto). unfold tcpDstT, byAddress.
  assert (S : forall i, aget (serviceT st i) k = None) by (intros i; repeat (destruct I as [<-|I]; [reflexivity|]); destruct I).
  assert (H : forall a p c, aget (hostPortT st a p c) k = None) by (intros a p c; repeat (destruct I as [<-|I]; [reflexivity|]); destruct I).
  assert (N : forall v, aget [("dst_namespace", SV v)] k = None) by (intros v; repeat (destruct I as [<-|I]; [reflexivity|]); destruct I).
  destruct (getServiceByIpPort st ip (w32 port)) as [i|].
  - rewrite aget_app, S. destruct (eqb nip []); [reflexivity|]. destruct (nport =? -1); [reflexivity|]. destruct (getContainerByIpPort _ _ _ _ _); [|reflexivity].
    rewrite containerDstT_other by exact J. reflexivity.
  - destruct (getContainerByIpPort _ _ _ _ _); [apply containerDstT_other; exact J|]. cbv zeta. rewrite aget_app.
    destruct (getContainerByHostIpPort _ _ _) as [c|]; (destruct (getPodByIp _ _ _ _); [rewrite podDstT_other by exact J|destruct (getNodeName _ _); rewrite N]);
      rewrite ?aget_app, ?H, ?containerDstT_other by exact J; reflexivity.
Qed.
Theorem C43_tcp : forall it localIp localName n st name m,
  wellTyped m -> isTcp name = true ->
  exists m1 m', enrich it localIp localName true n st name m = Ok m' /\
    with_ (tcpDstT it st (S (S n)) (strOf m "dst_ip") (intOf m "dst_port") (strOf m "dnat_ip") (intOf m "dnat_port")
           ++ tcpSrcT st (tcpSource it st n (strOf m "src_ip") (intOf m "src_port"))) m m1 /\
    let sport := intOf m "src_port" in
    let dport := if 0 <? intOf m "dnat_port" then intOf m "dnat_port" else intOf m1 "dst_port" in
    aget m' "dst_ip" = (if eqb (strOf m "dnat_ip") [] then aget m1 "dst_ip" else Some (SV (strOf m "dnat_ip"))) /\
    aget m' "dnat_ip" = None /\ aget m' "dnat_port" = None /\
    aget m' "src_port" = (if (sport <? 32768) && (sport <=? dport) then aget m "src_port" else None) /\
    aget m' "dst_port" = (if (dport <? 32768) && (dport <? sport) then (if 0 <? intOf m "dnat_port" then Some (IV (intOf m "dnat_port")) else aget m1 "dst_port") else None) /\
    forall k, ~ In k ["dst_ip"; "dnat_ip"; "dnat_port"; "src_port"; "dst_port"] -> aget m' k = aget m1 k.
Proof.
  intros it localIp localName n st name m W T. rewrite (enrich_tcp _ _ _ _ _ _ _ T). unfold forTcp.
  destruct (tcpSrc_adds it st n m W) as (m0 & A0 & W0 & X0). rewrite A0. cbn [bind].
  assert (O : forall k, In k ["dst_ip"; "dst_port"; "dnat_ip"; "dnat_port"; "src_port"] -> aget m0 k = aget m k) by (intros k I; rewrite X0, tcpSrcT_other; [reflexivity|exact I]).
  destruct (tcpDst_adds it st (S (S n)) m0 W0) as (m1 & A1 & W1 & X1). rewrite A1. cbn [bind].
  unfold strOf, intOf in X1. rewrite !O in X1 by (cbn [In]; tauto). fold (strOf m "dst_ip") (intOf m "dst_port") (strOf m "dnat_ip") (intOf m "dnat_port") in X1.
  exists m1. eexists. split; [reflexivity|]. split; [eapply with_app; eassumption|]. cbv zeta.
  assert (Q : forall k, In k ["dnat_ip"; "dnat_port"; "src_port"] -> aget m1 k = aget m k).
  { intros k I. rewrite X1, tcpDstT_other by exact I. apply O. cbn [In] in *. tauto. }
  assert (Q1 : strOf m1 "dnat_ip" = strOf m "dnat_ip") by (unfold strOf; rewrite Q; [reflexivity|cbn [In]; tauto]).
  assert (Q2 : intOf m1 "dnat_port" = intOf m "dnat_port") by (unfold intOf; rewrite Q; [reflexivity|cbn [In]; tauto]).
  assert (Q3 : aget m1 "src_port" = aget m "src_port") by (apply Q; cbn [In]; tauto).
  unfold tcpDnat. cbv zeta. names. rewrite Q1.
  set (nip := strOf m "dnat_ip") in *. set (m2 := if eqb nip [] then m1 else aset m1 "dst_ip" (SV nip)).
  assert (G2 : forall k, aget m2 k = if eqb k "dst_ip" then (if eqb nip [] then aget m1 "dst_ip" else Some (SV nip)) else aget m1 k).
  { intros k. unfold m2. destruct (eqb nip []); [|apply aget_aset]. case_eqb k "dst_ip"; [subst; reflexivity|reflexivity]. }
  assert (I2 : intOf m2 "dnat_port" = intOf m "dnat_port") by (unfold intOf in *; rewrite G2; exact Q2). rewrite I2. set (np := intOf m "dnat_port") in *.
  set (m3 := if 0 <? np then aset m2 "dst_port" (IV np) else m2).
  assert (G3 : forall k, aget m3 k = if eqb k "dst_port" then (if 0 <? np then Some (IV np) else aget m1 "dst_port") else aget m2 k).
  { intros k. unfold m3. destruct (0 <? np); [apply aget_aset|]. case_eqb k "dst_port"; [subst; apply G2|reflexivity]. }
  set (m4 := adel (adel m3 "dnat_ip") "dnat_port").
  assert (G4 : forall k, aget m4 k = if eqb k "dnat_port" then None else if eqb k "dnat_ip" then None else aget m3 k).
  { intros k. unfold m4. rewrite !aget_adel. reflexivity. }
  assert (P1 : intOf m4 "src_port" = intOf m "src_port") by (unfold intOf; rewrite G4, G3, G2; cbn; rewrite Q3; reflexivity).
  assert (P2 : intOf m4 "dst_port" = if 0 <? np then np else intOf m1 "dst_port").
  { unfold intOf. rewrite G4, G3. cbn. destruct (0 <? np); reflexivity. }
  unfold tcpPorts. cbv zeta. names. rewrite P1, P2. set (sp := intOf m "src_port"). set (dp := if 0 <? np then np else intOf m1 "dst_port").
  assert (F : forall k, aget (if (sp <? 32768) && (dp <? 32768) then if dp <? sp then adel m4 "src_port" else adel m4 "dst_port"
      else if 32768 <=? dp then adel (if 32768 <=? sp then adel m4 "src_port" else m4) "dst_port" else if 32768 <=? sp then adel m4 "src_port" else m4) k =
    if eqb k "src_port" then (if (sp <? 32768) && (sp <=? dp) then aget m4 k else None) else if eqb k "dst_port" then (if (dp <? 32768) && (dp <? sp) then aget m4 k else None) else aget m4 k).
  { intros k. clearbody sp dp m4. clear - k.
    destruct (Z.ltb_spec sp 32768), (Z.ltb_spec dp 32768), (Z.leb_spec 32768 sp), (Z.leb_spec 32768 dp), (Z.ltb_spec dp sp), (Z.leb_spec sp dp); try lia; cbn [andb]; rewrite ?aget_adel;
      case_eqb k "src_port"; subst; try reflexivity; case_eqb k "dst_port"; subst; reflexivity. }
  split; [rewrite F, G4, G3, G2; reflexivity|]. split; [rewrite F, G4; reflexivity|]. split; [rewrite F, G4; reflexivity|].
  split; [rewrite F; cbn [eqb Eqb_string]; rewrite G4, G3, G2; cbn; rewrite Q3; reflexivity|].
  split; [rewrite F; cbn [eqb Eqb_string]; rewrite G4, G3; cbn; reflexivity|].
  intros k N. rewrite F, G4, G3, G2. cbn [In] in N.
  rewrite (proj2 (eqb_neq k "src_port")), (proj2 (eqb_neq k "dst_port")), (proj2 (eqb_neq k "dnat_port")), (proj2 (eqb_neq k "dnat_ip")), (proj2 (eqb_neq k "dst_ip")) by (intros ->; tauto). reflexivity.
Qed.
Print Assumptions C43_tcp.
