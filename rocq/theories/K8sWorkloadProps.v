(** C40: the exported inventory of workloads. *)
From Verif Require Import Base Decimal CompareModel K8sModel K8sSpec K8sProofs K8sInv K8sIter K8sProps K8sWorkloadSpec K8sWorkloadProofs.
Open Scope string_scope. Open Scope list_scope. Open Scope Z_scope.

Lemma get2_workloads st a b wi : get2 (k_work st) a b = Some wi -> In wi (workloads st).
Proof.
  unfold get2, workloads. intros G. rewrite in_flat_map. destruct (aget (k_work st) a) as [m|] eqn:E; [|cbn [inner] in G; unfold inner in G; rewrite E in G; discriminate G].
  unfold inner in G; rewrite E in G.
  exists (a, m). split; [apply aget_in; exact E|]. cbn [snd]. apply in_map_iff. exists (b, wi). split; [reflexivity|]. apply aget_in. exact G.
Qed.

(** A pod of this node that is added, or updated to a new version, has its workload in the inventory at once. *)
Theorem C40_listed : forall builtIn lower myNode it grace n now st p,
  pd_node p = myNode ->
  In (entryOf builtIn lower st p) (workloads (kstep builtIn lower myNode it grace n now (OAddPod p) st)) /\
  (forall old, pd_rv old <> pd_rv p -> In (entryOf builtIn lower st p) (workloads (kstep builtIn lower myNode it grace n now (OUpdatePod old p) st))).
Proof.
  intros builtIn lower myNode it grace n now st p PN.
  assert (A : In (entryOf builtIn lower st p) (workloads (addPod builtIn lower myNode it n p st))).
  { apply (get2_workloads _ (pd_ns p) (snd (workloadOf builtIn lower st p))). rewrite addPod_work, PN, eqb_refl, get2_put2, !eqb_refl. reflexivity. }
  split; [exact A|]. intros old NE. cbn [kstep]. unfold updatePod. rewrite (proj2 (eqb_neq _ _) NE). destruct (get2 (k_gpods st) (pd_ns old) (pd_name old)); exact A.
Qed.
Print Assumptions C40_listed.

(** What is in the inventory belongs to a live pod of this node, or to a pod whose deletion is waiting. *)
Theorem C40_sound : forall builtIn lower myNode it grace w st wi,
  0 < grace -> reach builtIn lower myNode it grace (steady builtIn lower myNode it grace) w st -> In wi (workloads st) ->
  (exists key v, aget (w_live w) key = Some v /\ pd_node v = myNode /\ wi = entryOf builtIn lower st v) \/
  (exists d ts, In (d, ts) (k_queue st) /\ di_ns d = wi_ns wi /\ di_name d <> [] /\ forall v, aget (w_live w) (di_ns d, di_name d) <> Some v).
Proof.
  intros builtIn lower myNode it grace w st wi GP R I. pose proof (reach_winv builtIn lower myNode it grace false w st GP R) as WI.
  destruct (reach_inv builtIn lower myNode it grace _ w st GP R) as (IV & _).
  apply (workloads_get2 st wi (k_nd _ _ _ _ _ _ WI)) in I. destruct I as (a & b & G).
  destruct (k_sound _ _ _ _ _ _ WI a b wi G) as (A & B & name & id & G1 & F).
  destruct (aget (w_live w) (a, name)) as [v|] eqn:L.
  - left. exists (a, name), v. split; [exact L|]. destruct (k_rec _ _ _ _ _ _ WI _ _ L) as (id' & G2 & F2). destruct (i_live _ _ _ IV _ _ L) as (K & _). unfold podKey in K. inversion K as [[K1 K2]].
    rewrite <- K1, <- K2 in G2. assert (id' = id) by congruence. subst id'. rewrite F in F2. inversion F2. split; [reflexivity|].
    destruct wi as [x y z]. cbn [wi_ns wi_name wi_kind] in *. unfold entryOf. congruence.
  - right. destruct (i_gstale _ _ _ IV _ _ id G1) as [(v & X) | (d & ts & X & Y & Z)]; [congruence|]. exists d, ts. split; [exact X|]. inversion Z; subst. split; [congruence|]. split; [exact Y|]. rewrite Z. congruence.
Qed.
Print Assumptions C40_sound.

(** No workload is listed twice. *)
Theorem C40_once : forall builtIn lower myNode it grace w st,
  0 < grace -> reach builtIn lower myNode it grace (steady builtIn lower myNode it grace) w st -> NoDup (map (fun wi => (wi_ns wi, wi_name wi)) (workloads st)).
Proof.
  intros builtIn lower myNode it grace w st GP R. pose proof (reach_winv builtIn lower myNode it grace false w st GP R) as WI.
  pose proof (k_sound _ _ _ _ _ _ WI) as KS. destruct (k_nd _ _ _ _ _ _ WI) as (N1 & N2).
  assert (X : forall a m b wi, In (a, m) (k_work st) -> In (b, wi) m -> wi_ns wi = a /\ wi_name wi = b).
  { intros a m b wi I J. destruct (KS a b wi) as (A & B & _); [|auto]. apply (get2_in (k_work st) a b wi N2). unfold inner. rewrite (in_aget _ _ _ N1 I). exact J. }
  assert (Y : forall a m, In (a, m) (k_work st) -> NoDup (keys m)).
  { intros a m I. specialize (N2 a). unfold inner in N2. rewrite (in_aget _ _ _ N1 I) in N2. exact N2. }
  unfold workloads. clear KS WI R N2. induction (k_work st) as [|[a m] l IH]; [constructor|]. cbn [flat_map snd map]. rewrite map_app. unfold keys in N1. cbn [map fst] in N1. inversion N1 as [|? ? N3 N4]; subst.
  assert (E : map (fun wi => (wi_ns wi, wi_name wi)) (map snd m) = map (fun b => (a, b)) (keys m)).
  { unfold keys. rewrite !map_map. apply map_ext_in. intros [b wi] J. cbn [fst snd]. destruct (X a m b wi (or_introl eq_refl) J). congruence. }
  rewrite E. specialize (IH N4 (fun a' m' b wi I => X a' m' b wi (or_intror I)) (fun a' m' I => Y a' m' (or_intror I))).
  assert (M : NoDup (map (fun b => (a, b)) (keys m))). { pose proof (Y a m (or_introl eq_refl)) as Q. clear -Q. induction (keys m) as [|b k IH]; [constructor|]. inversion Q; subst. cbn [map]. constructor; [|auto]. rewrite in_map_iff. intros (x & A & B). inversion A; subst. auto. }
  assert (D : forall p, In p (map (fun b => (a, b)) (keys m)) -> ~ In p (map (fun wi => (wi_ns wi, wi_name wi)) (flat_map (fun kv => map snd (snd kv)) l))).
  { intros p J K. apply in_map_iff in J. destruct J as (b & <- & _). apply in_map_iff in K. destruct K as (wi & K & L). apply in_flat_map in L. destruct L as ([a' m'] & L1 & L2). cbn [snd] in L2.
    apply in_map_iff in L2. destruct L2 as ([b' wi'] & L3 & L4). cbn [snd] in L3. subst wi'. destruct (X a' m' b' wi (or_intror L1) L4) as (Z1 & Z2). apply N3. apply in_map_iff. exists (a', m'). split; [cbn [fst]; congruence|exact L1]. }
  clear E. induction (map (fun b => (a, b)) (keys m)) as [|p k IHk]; [exact IH|]. inversion M; subst. cbn [app]. constructor; [|apply IHk; [assumption|intros q I; apply D; right; exact I]].
  rewrite in_app_iff. intros [I | I]; [contradiction|]. exact (D p (or_introl eq_refl) I).
Qed.
Print Assumptions C40_once.

(** While every workload has at most one pod at a time, the inventory without waiting deletions is exactly the workloads of the live pods of this node. *)
Theorem C40_exact : forall builtIn lower myNode it grace w st wi,
  0 < grace -> reach builtIn lower myNode it grace (alone builtIn lower myNode it grace) w st -> k_queue st = [] ->
  (In wi (workloads st) <-> exists key v, aget (w_live w) key = Some v /\ pd_node v = myNode /\ wi = entryOf builtIn lower st v).
Proof.
  intros builtIn lower myNode it grace w st wi GP R Q. pose proof (reach_winv builtIn lower myNode it grace true w st GP R) as WI.
  destruct (reach_inv builtIn lower myNode it grace _ w st GP R) as (IV & _). rewrite Q in IV. split.
  - intros I. apply (workloads_get2 st wi (k_nd _ _ _ _ _ _ WI)) in I. destruct I as (a & b & G).
    destruct (k_sound _ _ _ _ _ _ WI a b wi G) as (A & B & name & id & G1 & F).
    destruct (i_gstale _ _ _ IV _ _ id G1) as [(v & L) | (d & ts & [] & _)].
    exists (a, name), v. split; [exact L|]. destruct (k_rec _ _ _ _ _ _ WI _ _ L) as (id' & G2 & F2). destruct (i_live _ _ _ IV _ _ L) as (K & _). unfold podKey in K. inversion K as [[K1 K2]].
    rewrite <- K1, <- K2 in G2. assert (id' = id) by congruence. subst id'. rewrite F in F2. inversion F2. split; [reflexivity|].
    destruct wi as [x y z]. cbn [wi_ns wi_name wi_kind] in *. unfold entryOf. congruence.
  - intros (key & v & L & PN & ->). eapply get2_workloads. exact (k_all _ _ _ _ _ _ WI eq_refl key v L PN).
Qed.
Print Assumptions C40_exact.

(** In any state and whatever happens, a workload only leaves the inventory in a round of deletions that removes a pod of that workload. *)
Theorem C40_kept : forall builtIn lower myNode it grace n now o st ns name wi,
  get2 (k_work st) ns name = Some wi -> get2 (k_work (kstep builtIn lower myNode it grace n now o st)) ns name = None ->
  o = ODeleteRound /\ exists d ts id, In (d, ts) (k_queue st) /\ ts + grace <= now /\ get2 (k_gpods st) (di_ns d) (di_name d) = Some id /\
    pi_ns (podAt (k_pods st) id) = ns /\ pi_wname (podAt (k_pods st) id) = name.
Proof.
  intros builtIn lower myNode it grace n now o st ns name wi G G'.
  assert (A : forall p, get2 (k_work (addPod builtIn lower myNode it n p st)) ns name <> None).
  { intros p. rewrite addPod_work. destruct (eqb (pd_node p) myNode); [|congruence]. rewrite get2_put2. destruct (_ && _)%bool; congruence. }
  assert (D : forall l m s wi, get2 (k_work s) ns name = Some wi -> get2 (k_work (deleteAll it m l s)) ns name = None -> exists d ts id, In (d, ts) l /\ get2 (k_gpods s) (di_ns d) (di_name d) = Some id /\
    pi_ns (podAt (k_pods s) id) = ns /\ pi_wname (podAt (k_pods s) id) = name).
  { clear. induction l as [|[d ts] l IH]; intros m s wi G G'; cbn [deleteAll] in G'; [congruence|].
    destruct (deletePodInfo_work it m d s) as (EP & _ & C).
    destruct (get2 (k_work (deletePodInfo it m d s)) ns name) as [wi'|] eqn:G2.
    - destruct (IH _ _ _ G2 G') as (d' & ts' & id & I & X & Y). exists d', ts', id. split; [right; exact I|]. rewrite EP in Y. split; [|exact Y].
      destruct C as [(_ & EG) | (id' & _ & _ & EG & _)]; rewrite EG in X; [exact X|]. rewrite get2_rem2 in X. destruct (_ && _)%bool; congruence.
    - destruct C as [(EW & _) | (id' & _ & X & _ & EW)]; [congruence|]. exists d, ts, id'. split; [left; reflexivity|]. split; [exact X|]. rewrite EW, get2_rem2 in G2.
      case_eqb ns (pi_ns (podAt (k_pods s) id')); case_eqb name (pi_wname (podAt (k_pods s) id')); cbn [andb] in G2; try congruence. auto. }
  assert (F : match o with OAddPod _ | OUpdatePod _ _ | ODeletePod _ | ODeleteRound => False | _ => True end -> False).
  { intros O. destruct (wSame_other builtIn lower myNode it grace n now o st O) as (E & _). congruence. }
  destruct o; try (exfalso; apply F; exact I); cbn [kstep] in G'.
  - destruct (A p G').
  - unfold updatePod in G'. destruct (eqb _ _); [congruence|]. destruct (get2 (k_gpods st) _ _); destruct (A new G').
  - destruct o; cbn in G'; congruence.
  - split; [reflexivity|]. unfold deleteRound in G'. destruct (D _ _ (setQueue st (snd (expired grace now (k_queue st)))) wi G G') as (d & ts & id & I & X). exists d, ts, id.
    assert (E : forall q, In (d, ts) (fst (expired grace now q)) -> In (d, ts) q /\ ts + grace <= now).
    { clear. induction q as [|[d' ts'] q IH]; cbn [expired fst]; [intros []|]. destruct (now <? ts' + grace) eqn:Y; cbn [fst]; [intros []|]. intros [I | I]; [inversion I; subst; split; [left; reflexivity|lia]|]. destruct (IH I). split; [right|]; assumption. }
    destruct (E _ I). auto.
Qed.
Print Assumptions C40_kept.
