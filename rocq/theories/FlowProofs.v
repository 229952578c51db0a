(** Lemmas for C69: what enrichment keeps, and where exported groups come from. *)
From Coq Require Import Sorting.Permutation.
From Verif Require Import Base Decimal AttrModel PoolModel KeyModel KeyProps AggModel AggSpec AggProofs AggProofs2 AggProps AggTotal SampleModel SampleProps K8sModel EnrichModel EnrichSpec EnrichProofs EnrichProps
  EventModel TcpModel PipeModel LabelNames AdapterModel AdapterSpec OtelModel OtelSpec OtelProofs OtelProofs2 OtelProps FlowModel FlowSpec.
Open Scope string_scope. Open Scope list_scope. Open Scope Z_scope.

(** ** Enrichment keeps the other labels, distinct names and int64 values *)
Definition touched : list string :=
  stringLabels ++ ["dst_port"; "dnat_ip"; "dnat_port"; "src_port"].
Definition fits64 (v : aval) : Prop := match v with IV z => - 2 ^ 63 <= z < 2 ^ 63 | _ => True end.
Definition keeps (m m' : labels) : Prop :=
  (NoDup (keys m) -> NoDup (keys m')) /\ (int64_labels m -> int64_labels m') /\ forall k, ~ In k touched -> aget m' k = aget m k.
Lemma keeps_refl m : keeps m m.
Proof. split; [auto|]. split; [auto|]. reflexivity. Qed.
Lemma keeps_trans a b c : keeps a b -> keeps b c -> keeps a c.
Proof. intros (A1 & A2 & A3) (B1 & B2 & B3). split; [auto|]. split; [auto|]. intros k N. rewrite B3, A3 by exact N. reflexivity. Qed.
Lemma keeps_aset m k v : In k touched -> fits64 v -> keeps m (aset m k v).
Proof.
  intros I F. split; [apply NoDup_keys_aset|]. split.
  - intros R k' z G. rewrite aget_aset in G. case_eqb k' k; [injection G as ->; exact F|exact (R k' z G)].
  - intros k' N. rewrite aget_aset. case_eqb k' k; [subst; contradiction|reflexivity].
Qed.
Lemma keeps_adel m k : In k touched -> keeps m (adel m k).
Proof.
  intros I. split; [apply NoDup_keys_adel|]. split.
  - intros R k' z G. rewrite aget_adel in G. case_eqb k' k; [discriminate|exact (R k' z G)].
  - intros k' N. rewrite aget_adel. case_eqb k' k; [subst; contradiction|reflexivity].
Qed.
Definition goodUpds (l : list (string * aval)) : Prop := forall k v, In (k, v) l -> In k touched /\ fits64 v.
Lemma keeps_upds l : forall m m', goodUpds l -> upds l m = Ok m' -> keeps m m'.
Proof.
  induction l as [|[k v] l IH]; intros m m' G U; cbn [upds] in U; [injection U as <-; apply keeps_refl|].
  destruct (upd1 m k v) as [m1| |] eqn:E; cbn [bind] in U; try discriminate.
  destruct (G k v (or_introl eq_refl)) as [I F]. assert (m1 = aset m k v) as ->.
  { unfold upd1 in E. destruct (aget m k) as [o|]; [destruct (same_type o v); [|discriminate]|]; injection E as <-; reflexivity. }
  eapply keeps_trans; [exact (keeps_aset m k v I F)|]. apply IH; [|exact U]. intros k' v' J. apply G. right. exact J.
Qed.
(** every function below only updates touched labels *)
Definition keeper (f : labels -> res labels) : Prop := forall m m', f m = Ok m' -> keeps m m'.
Lemma keeper_ok : keeper (fun m => Ok m).
Proof. intros m m' E. injection E as <-. apply keeps_refl. Qed.
Lemma keeper_upds l : goodUpds l -> keeper (upds l).
Proof. intros G m m' E. exact (keeps_upds l m m' G E). Qed.
Lemma keeper_bind f g : keeper f -> keeper g -> keeper (fun m => bind (f m) g).
Proof. intros F G m m' E. destruct (f m) as [m1| |] eqn:E1; cbn [bind] in E; try discriminate. eapply keeps_trans; [exact (F m m1 E1)|exact (G m1 m' E)]. Qed.
Lemma keeps_bind f g m m' : (forall m1, f m = Ok m1 -> keeps m m1) -> keeper g -> bind (f m) g = Ok m' -> keeps m m'.
Proof. intros F G E. destruct (f m) as [m1| |] eqn:E1; cbn [bind] in E; try discriminate. eapply keeps_trans; [exact (F m1 eq_refl)|exact (G m1 m' E)]. Qed.
Ltac good := intros ? ? GI; cbn [In app] in GI; repeat (destruct GI as [GI|GI]; [injection GI as <- <-; split; [cbn; tauto|exact Logic.I]|]); destruct GI.

Section Keep.
  Context (it : forall A : Type, nat -> list A -> list A) (lip lname : bytes) (st : kstate) (PF : portsFit st).
  Lemma keep_podSrc r : keeper (addPodSrc st r).
  Proof. unfold addPodSrc. apply keeper_upds. destruct (pi_svc r); good. Qed.
  Lemma keep_containerSrc c : keeper (addContainerSrc st c).
  Proof. unfold addContainerSrc. apply (keeper_bind (upds _)); [apply keeper_upds; good|apply keep_podSrc]. Qed.
  Lemma keep_podDst r : keeper (addPodDst r).
  Proof. unfold addPodDst. apply (keeper_bind (upds _)); [apply keeper_upds; good|]. intros m m' E. destruct (eqb (strOf m LbDstIp) []); [eapply keeper_upds; [|exact E]; good|exact (keeper_ok m m' E)]. Qed.
  Lemma keep_containerDst c : keeper (addContainerDst st c).
  Proof. unfold addContainerDst. apply (keeper_bind (upds _)); [apply keeper_upds; good|apply keep_podDst]. Qed.
  Lemma keep_service i : keeper (addService st i).
  Proof. unfold addService. apply keeper_upds. good. Qed.
  Lemma keep_hostPort ip port a c : getContainerByHostIpPort st a (w32 port) = Some c -> keeper (addHostPort st ip port c).
  Proof.
    intros G. unfold addHostPort. apply keeper_bind; [apply keep_containerDst|]. apply keeper_upds. intros k v J. cbn [In] in J.
    destruct J as [J|[J|[J|[]]]]; injection J as <- <-; (split; [cbn; tauto|]); try exact Logic.I.
    destruct (aget (ci_hostports c) (s32 port)) as [q|] eqn:Q; [|cbn; lia]. pose proof (PF _ _ _ G _ _ Q). cbn [fits64]. lia.
  Qed.
  Lemma keep_srcByIp n : keeper (srcByIp it lip lname n st).
  Proof.
    intros m m' E. unfold srcByIp in E. eapply (keeps_bind (fun m => if eqb (strOf m LbSrcIp) loopbackIp then upds _ m else Ok m)); [| |exact E].
    - intros m1 E1. cbv beta in E1. destruct (eqb (strOf m LbSrcIp) loopbackIp); [eapply keeper_upds; [|exact E1]; good|exact (keeper_ok m m1 E1)].
    - destruct (getPodByIp it n st (strOf m LbSrcIp)) as [i|]; [apply keep_podSrc|]. destruct (getNodeName st (strOf m LbSrcIp)); apply keeper_upds; good.
  Qed.
  Lemma keep_clientSrc n : keeper (clientSrc it lip lname n st).
  Proof.
    intros m m' E. unfold clientSrc in E. destruct (eqb (strOf m LbContainerId) []); [exact (keep_srcByIp n m m' E)|].
    eapply (keeps_bind (upds _)); [| |exact E].
    - intros m1 E1. eapply keeper_upds; [|exact E1]. good.
    - destruct (aget (k_cids st) (strOf m LbContainerId)) as [c|]; [apply keep_containerSrc|apply keeper_upds; good].
  Qed.
  Lemma keep_clientDst n : keeper (clientDst it lip lname n st).
  Proof.
    intros m m' E. unfold clientDst in E.
    eapply (keeps_bind (fun m => if eqb (strOf m LbDstIp) loopbackIp then upds _ m else Ok m)); [| |exact E].
    - intros m1 E1. cbv beta in E1. destruct (eqb (strOf m LbDstIp) loopbackIp); [eapply keeper_upds; [|exact E1]; good|exact (keeper_ok m m1 E1)].
    - intros a b X. cbv beta zeta in X. set (ip := strOf a (if eqb (strOf m LbDstIp) loopbackIp then LbSrcIp else LbDstIp)) in X.
      destruct (getServiceByIpPort st ip (w32 (intOf a LbDstPort))) as [i|].
      + eapply (keeps_bind (addService st i)); [intros m1; apply keep_service| |exact X].
        intros c d Y. cbv beta zeta in Y. destruct (negb (eqb (strOf c LbDnatIp) []) && negb (intOf c LbDnatPort =? -1)); [|exact (keeper_ok c d Y)].
        destruct (getContainerByIpPort it n st (strOf c LbDnatIp) (w32 (intOf c LbDnatPort))) as [q|]; [exact (keep_containerDst q c d Y)|].
        destruct (getNodeName st (strOf c LbDnatIp)); [eapply keeper_upds; [|exact Y]; good|exact (keeper_ok c d Y)].
      + destruct (getContainerByIpPort it n st ip (w32 (intOf a LbDstPort))) as [q|]; [exact (keep_containerDst q a b X)|].
        destruct (getContainerByHostIpPort st ip (w32 (intOf a LbDstPort))) as [q|] eqn:H; [exact (keep_hostPort ip _ ip q H a b X)|].
        destruct (getNodeName st ip); (eapply keeper_upds; [|exact X]); good.
  Qed.
  Lemma keep_serverDst : keeper (serverDst lip lname st).
  Proof.
    intros m m' E. unfold serverDst in E. eapply (keeps_bind (upds [(LbDstContainerId, SV (strOf m LbContainerId))])); [intros m1 E1; eapply keeper_upds; [|exact E1]; good| |exact E].
    intros a b X. cbv beta in X. destruct (aget (k_cids st) (strOf m LbContainerId)) as [c|]; [|eapply keeper_upds; [|exact X]; good].
    eapply (keeps_bind (addContainerDst st c)); [intros m1; apply keep_containerDst| |exact X].
    destruct (pi_svc (podAt (k_pods st) (ci_pod c))); [apply keeper_upds; good|apply keeper_ok].
  Qed.
  Lemma keep_tcpSrc n : keeper (tcpSrc it n st).
  Proof.
    intros m m' E. unfold tcpSrc in E. destruct (getContainerByIpPort it n st (strOf m LbSrcIp) (w32 (intOf m LbSrcPort))) as [c|]; [exact (keep_containerSrc c m m' E)|].
    destruct (getPodByIp it (S n) st (strOf m LbSrcIp)) as [i|]; [exact (keep_podSrc _ m m' E)|]. eapply keeper_upds; [|exact E]. good.
  Qed.
  Lemma keep_tcpDst n : keeper (tcpDst it n st).
  Proof.
    intros m m' E. unfold tcpDst in E. set (ip := strOf m LbDstIp) in E. set (port := intOf m LbDstPort) in E.
    destruct (getServiceByIpPort st ip (w32 port)) as [i|].
    - eapply (keeps_bind (addService st i)); [intros m1; apply keep_service| |exact E].
      intros c d Y. cbv beta zeta in Y. destruct (negb (eqb (strOf c LbDnatIp) []) && negb (intOf c LbDnatPort =? -1)); [|exact (keeper_ok c d Y)].
      destruct (getContainerByIpPort it n st (strOf c LbDnatIp) (w32 (intOf c LbDnatPort))) as [q|]; [exact (keep_containerDst q c d Y)|exact (keeper_ok c d Y)].
    - destruct (getContainerByIpPort it n st ip (w32 port)) as [q|]; [exact (keep_containerDst q m m' E)|].
      eapply (keeps_bind (fun m => match getContainerByHostIpPort st ip (w32 port) with Some c => addHostPort st ip port c m | None => Ok m end)); [| |exact E].
      + intros m1 E1. cbv beta in E1. destruct (getContainerByHostIpPort st ip (w32 port)) as [q|] eqn:H; [exact (keep_hostPort ip _ ip q H m m1 E1)|exact (keeper_ok m m1 E1)].
      + destruct (getPodByIp it (S n) st ip) as [i|]; [apply keep_podDst|apply keeper_upds; good].
  Qed.
  Lemma keep_dnat m : int64_labels m -> keeps m (tcpDnat m).
  Proof.
    intros R. unfold tcpDnat.
    set (m1 := if eqb (strOf m LbDnatIp) [] then m else aset m LbDstIp (SV (strOf m LbDnatIp))).
    assert (K1 : keeps m m1) by (unfold m1; destruct (eqb (strOf m LbDnatIp) []); [apply keeps_refl|apply keeps_aset; [cbn; tauto|exact Logic.I]]).
    set (m2 := if 0 <? intOf m1 LbDnatPort then aset m1 LbDstPort (IV (intOf m1 LbDnatPort)) else m1).
    assert (K2 : keeps m1 m2).
    { unfold m2. destruct (0 <? intOf m1 LbDnatPort); [|apply keeps_refl]. apply keeps_aset; [cbn; tauto|]. cbn [fits64].
      pose proof (asInt_range m1 LbDnatPort (proj1 (proj2 K1) R)) as X. exact X. }
    eapply keeps_trans; [exact K1|]. eapply keeps_trans; [exact K2|]. apply (keeps_trans _ (adel m2 LbDnatIp)); apply keeps_adel; cbn; tauto.
  Qed.
  Lemma keep_ports m : keeps m (tcpPorts m).
  Proof.
    unfold tcpPorts. destruct (_ && _).
    - destruct (_ <? _); apply keeps_adel; cbn; tauto.
    - cbv zeta. apply (keeps_trans m (if 32768 <=? intOf m LbSrcPort then adel m LbSrcPort else m)); [destruct (32768 <=? intOf m LbSrcPort); [apply keeps_adel; cbn; tauto|apply keeps_refl]|].
      destruct (32768 <=? intOf m LbDstPort); [apply keeps_adel; cbn; tauto|apply keeps_refl].
  Qed.
  Lemma keep_enrich enable n name m m' : int64_labels m -> enrich it lip lname enable n st name m = Ok m' -> keeps m m'.
  Proof.
    intros R E. unfold enrich in E. destruct (negb enable); [injection E as <-; apply keeps_refl|]. destruct (_ || _).
    - unfold forTcp in E. destruct (tcpSrc it n st m) as [m1| |] eqn:E1; cbn [bind] in E; try discriminate.
      destruct (tcpDst it (S (S n)) st m1) as [m2| |] eqn:E2; cbn [bind] in E; try discriminate. injection E as <-.
      pose proof (keep_tcpSrc n m m1 E1) as K1. pose proof (keep_tcpDst _ m1 m2 E2) as K2.
      pose proof (keeps_trans _ _ _ K1 K2) as K. eapply keeps_trans; [exact K|]. eapply keeps_trans; [apply keep_dnat; apply K; exact R|apply keep_ports].
    - destruct (boolOf m LbIsServer).
      + unfold forServer in E. eapply (keeps_bind (srcByIp it lip lname n st)); [intros m1; apply keep_srcByIp|apply keep_serverDst|exact E].
      + unfold forClient in E. eapply (keeps_bind (clientSrc it lip lname n st)); [intros m1; apply keep_clientSrc|apply keep_clientDst|exact E].
  Qed.
  Lemma enrich_total enable n name m : wellTyped m -> exists m', enrich it lip lname enable n st name m = Ok m'.
  Proof.
    intros W. destruct enable; [|eexists; reflexivity]. destruct (EnrichProps.isTcp name) eqn:T.
    - destruct (C43_tcp it lip lname n st name m W T) as (m1 & m' & E & _). eauto.
    - destruct (boolOf m "is_server") eqn:B.
      + destruct (C43_server it lip lname n st name m W T B) as (m' & E & _). eauto.
      + destruct (C43_client it lip lname n st name m W T B) as (m' & E & _). eauto.
  Qed.
End Keep.

(** ** Exported groups come from consumed ones *)
Section From.
  Context (km : kindMap) (Q : string -> list lkey -> Prop).
  Definition allQ (s : agg_state) : Prop := forall nm r key m, In (nm, r) s -> In (key, m) r -> Q nm key.
  Lemma in_aset_cases {K V} `{Eqb K} (s : list (K * V)) k v k' v' : In (k', v') (aset s k v) -> (k', v') = (k, v) \/ In (k', v') s.
  Proof.
    induction s as [|[a b] s IH]; cbn [aset]; intros I.
    - destruct I as [I|[]]. left. congruence.
    - destruct (eqb k a) eqn:E.
      + apply eqb_true in E. subst a. destruct I as [I|I]; [left; congruence|right; right; exact I].
      + destruct I as [I|I]; [right; left; exact I|]. destruct (IH I) as [J|J]; [left; exact J|right; right; exact J].
  Qed.
  Lemma mapM_in {A B} (f : A -> res B) : forall l bs b, mapM f l = Ok bs -> In b bs -> exists a, In a l /\ f a = Ok b.
  Proof.
    induction l as [|a l IH]; intros bs b E I; cbn [mapM] in E; [injection E as <-; destruct I|].
    destruct (f a) as [x| |] eqn:F; cbn [bind] in E; try discriminate. destruct (mapM f l) as [y| |] eqn:M; cbn [bind] in E; try discriminate. injection E as <-.
    destruct I as [<-|I]; [exists a; split; [left; reflexivity|exact F]|]. destruct (IH y b eq_refl I) as (a' & J & X). exists a'. split; [right; exact J|exact X].
  Qed.
  Lemma dumpRecorder_in nm r gs g : dumpRecorder nm r = Ok gs -> In g gs -> gname g = nm /\ exists key m, In (key, m) r /\ glabels g = getLabels key.
  Proof.
    intros E I. destruct (mapM_in _ _ _ _ E I) as ([key m] & J & X). cbn [fst snd] in X. destruct (AggModel.getAll m) as [ms| |]; cbn [bind] in X; try discriminate. injection X as <-.
    split; [reflexivity|]. exists key, m. auto.
  Qed.
  Lemma aget_in' (s : agg_state) n : forall r, aget s n = Some r -> In (n, r) s.
  Proof. intros r E. apply aget_in. exact E. Qed.
  Lemma from_step s o es s' : (forall g sels, o = OAgg g sels -> Q (gname g) (getLabelKeys sels (glabels g))) -> allQ s -> agg_step km s o = Ok (es, s') ->
    allQ s' /\ forall g, In g es -> exists key, Q (gname g) key /\ glabels g = getLabels key.
  Proof.
    intros O A E. destruct o as [g sels| |n]; cbn [agg_step] in E.
    - unfold aggregate in E. destruct (record _ _ _ _ _ _) as [r| |] eqn:R; cbn [bind] in E; try discriminate. injection E as <- <-. split; [|intros x []].
      unfold record in R. destruct (foldM _ _ _) as [m'| |]; cbn [bind] in R; try discriminate. injection R as <-.
      intros nm r key m I J. apply in_aset_cases in I. destruct I as [I|I]; [|exact (A nm r key m I J)]. injection I as -> ->.
      apply in_aset_cases in J. destruct J as [J|J]; [injection J as -> _; exact (O g sels eq_refl)|].
      unfold recOf in J. destruct (aget s (gname g)) as [r0|] eqn:G; [|destruct J]. exact (A _ _ _ _ (aget_in' _ _ _ G) J).
    - unfold dump in E. destruct (mapM _ s) as [ls| |] eqn:M; cbn [bind] in E; try discriminate. injection E as <- <-. split.
      + intros nm r key m I J. apply in_map_iff in I. destruct I as (p & I & _). injection I as _ <-. destruct J.
      + intros g I. apply in_concat in I. destruct I as (l & J & I). destruct (mapM_in _ _ _ _ M J) as ([nm r] & P & D). cbn [fst snd] in D.
        destruct (dumpRecorder_in _ _ _ _ D I) as (N & key & m & K & L). exists key. split; [rewrite N; exact (A _ _ _ _ P K)|exact L].
    - unfold dumpSingle in E. destruct (aget s n) as [r|] eqn:G.
      + destruct (dumpRecorder n r) as [gs| |] eqn:D; cbn [bind] in E; try discriminate. injection E as <- <-. split.
        * intros nm r' key m I J. apply in_aset_cases in I. destruct I as [I|I]; [injection I as -> ->; destruct J|exact (A _ _ _ _ I J)].
        * intros g I. destruct (dumpRecorder_in _ _ _ _ D I) as (N & key & m & K & L). exists key. split; [rewrite N; exact (A _ _ _ _ (aget_in' _ _ _ G) K)|exact L].
      + injection E as <- <-. split; [exact A|intros g []].
  Qed.
  Lemma from_run : forall h s es s', (forall g sels, In (OAgg g sels) h -> Q (gname g) (getLabelKeys sels (glabels g))) -> allQ s -> agg_run km s h = Ok (es, s') ->
    forall g, In g (List.concat es) -> exists key, Q (gname g) key /\ glabels g = getLabels key.
  Proof.
    induction h as [|o h IH]; intros s es s' O A R g I; cbn [agg_run] in R; [injection R as <- <-; destruct I|].
    destruct (agg_step km s o) as [[e1 s1]| |] eqn:E; cbn [bind fst snd] in R; try discriminate.
    destruct (agg_run km s1 h) as [[e2 s2]| |] eqn:R2; cbn [bind fst snd] in R; try discriminate. injection R as <- <-.
    destruct (from_step s o e1 s1) as [A1 X]; [intros g0 sels ->; apply O; left; reflexivity|exact A|exact E|].
    cbn [List.concat] in I. apply in_app_or in I. destruct I as [I|I]; [exact (X g I)|].
    exact (IH s1 e2 s2 (fun g0 sels J => O g0 sels (or_intror J)) A1 R2 g I).
  Qed.
End From.
