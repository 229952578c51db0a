(** Lemmas about the snapshot and the client that loads it. *)
From Coq Require Import Permutation Sorted.
From Verif Require Import Base Decimal CompareModel K8sModel K8sSpec K8sProofs K8sInv K8sIter SnapModel SnapSpec.
Open Scope list_scope. Open Scope Z_scope.

(** *** What is written is what is read *)
Definition ext (h h' : heaps) : Prop := (exists a, fst h' = fst h ++ a) /\ exists b, snd h' = snd h ++ b.
Lemma ext_refl h : ext h h.
Proof. split; exists []; rewrite app_nil_r; reflexivity. Qed.
Lemma ext_trans a b c : ext a b -> ext b c -> ext a c.
Proof. intros ((x & X) & (y & Y)) ((x' & X') & (y' & Y')). split; [exists (x ++ x')|exists (y ++ y')]; rewrite ?X', ?Y', ?X, ?Y, app_assoc; reflexivity. Qed.

Definition spec {A B} (f : A -> heaps -> B * heaps) (v : heaps -> B -> A) (ok : heaps -> B -> Prop) (P : A -> Prop) : Prop :=
  forall a h, P a -> ext h (snd (f a h)) /\ ok (snd (f a h)) (fst (f a h)) /\ v (snd (f a h)) (fst (f a h)) = a.
Definition stable {A B} (v : heaps -> B -> A) (ok : heaps -> B -> Prop) : Prop :=
  forall h h' b, ext h h' -> ok h b -> ok h' b /\ v h' b = v h b.
Definition vals {K A} (P : A -> Prop) (m : list (K * A)) : Prop := Forall (fun e => P (snd e)) m.

Lemma alloc_stable {K A B} (v : heaps -> B -> A) ok : stable v ok -> stable (fun h => @mapv K _ _ (v h)) (fun h => @vals K _ (ok h)).
Proof.
  intros S h h' m E O. split.
  - eapply Forall_impl; [|exact O]. cbn beta. intros e X. apply (S h h' _ E X).
  - unfold mapv. apply map_ext_in. intros e I. unfold vals in O. rewrite Forall_forall in O. rewrite (proj2 (S h h' (snd e) E (O e I))). reflexivity.
Qed.
Lemma alloc_spec {K A B} (f : A -> heaps -> B * heaps) v ok P : spec f v ok P -> stable v ok ->
  spec (@alloc K _ _ f) (fun h => mapv (v h)) (fun h => vals (ok h)) (vals P).
Proof.
  intros S ST m. induction m as [|[k a] m IH]; intros h PM; cbn [alloc fst snd]; [split; [apply ext_refl|split; [constructor|reflexivity]]|].
  inversion PM as [|? ? P1 P2]; subst. cbn [snd] in P1. destruct (S a h P1) as (E1 & O1 & V1). destruct (IH (snd (f a h)) P2) as (E2 & O2 & V2).
  destruct (ST _ _ _ E2 O1) as (O3 & V3). split; [eapply ext_trans; eassumption|]. split; [constructor; [exact O3|exact O2]|].
  cbn [mapv map fst snd]. rewrite V3, V1. f_equal. exact V2.
Qed.

Definition svcOk (h : heaps) (i : nat) : Prop := (i < List.length (snd h))%nat.
Definition svcView (h : heaps) (i : nat) : svcInfo := jsonSvc (svcAt (snd h) i).
Definition cOk (h : heaps) (c : cinfo) : Prop :=
  (ci_pod c < List.length (fst h))%nat /\ pi_hostnet (podAt (fst h) (ci_pod c)) = false /\ match pi_svc (podAt (fst h) (ci_pod c)) with None => True | Some i => svcOk h i end.
Definition cView (h : heaps) (c : cinfo) : jcinfo := jsonC (fst h) (snd h) c.
Definition plainSvc (s : svcInfo) : Prop := jsonSvc s = s.
Definition plainC (c : jcinfo) : Prop := jsonPod (jc_pod c) = jc_pod c /\ match jc_svc c with None => True | Some s => plainSvc s end.

Lemma svcAt_old h x i : (i < List.length h)%nat -> svcAt (h ++ x) i = svcAt h i.
Proof. intros L. unfold svcAt. apply app_nth1. exact L. Qed.
Lemma podAt_app h x i : (i < List.length h)%nat -> podAt (h ++ x) i = podAt h i.
Proof. intros L. unfold podAt. apply app_nth1. exact L. Qed.
Lemma svc_stable : stable svcView svcOk.
Proof. intros h h' i ((a & _) & (b & E)) O. unfold svcOk, svcView in *. rewrite E, app_length, svcAt_old by exact O. split; [lia|reflexivity]. Qed.
Lemma svc_spec : spec allocSvc svcView svcOk plainSvc.
Proof.
  intros s h P. cbn [allocSvc fst snd]. split; [split; [exists []; rewrite app_nil_r|exists [s]]; reflexivity|]. unfold svcOk, svcView. cbn [fst snd]. rewrite app_length. cbn [List.length]. split; [lia|].
  unfold svcAt. rewrite nth_middle. exact P.
Qed.
Lemma c_stable : stable cView cOk.
Proof.
  intros h h' c E (O1 & O0 & O2). pose proof E as ((a & A) & (b & B)). unfold cOk, cView, jsonC. rewrite A, podAt_app by exact O1. rewrite app_length.
  destruct (pi_svc (podAt (fst h) (ci_pod c))) as [i|]; cbn [option_map]; [|split; [split; [lia|split; [exact O0|exact I]]|reflexivity]].
  destruct (svc_stable h h' i E O2) as (X & Y). unfold svcView in Y. rewrite Y. split; [split; [lia|split; [exact O0|exact X]]|reflexivity].
Qed.
Lemma c_spec : spec allocC cView cOk plainC.
Proof.
  intros [ci cn ch cp cs] h (P1 & P2). cbn [jc_pod jc_svc] in *. unfold allocC, cOk, cView, jsonC, svcOk. cbn [jc_svc jc_id jc_name jc_hostports jc_pod].
  destruct cs as [s|]; cbn [fst snd allocSvc ci_pod ci_id ci_name ci_hostports].
  - rewrite podAt_new, !app_length. cbn [List.length setSvc pi_svc option_map].
    split; [split; eexists; reflexivity|]. split; [split; [lia|split; [rewrite <- P1; reflexivity|lia]]|]. unfold svcAt. rewrite nth_middle, P2. f_equal. rewrite <- P1. destruct cp; reflexivity.
  - rewrite podAt_new, !app_length. cbn [List.length setSvc pi_svc option_map].
    split; [split; [eexists; reflexivity|exists []; rewrite app_nil_r; reflexivity]|]. split; [split; [lia|split; [rewrite <- P1; reflexivity|exact I]]|]. f_equal. rewrite <- P1. destruct cp; reflexivity.
Qed.

Definition plain (s : snapshot) : Prop :=
  vals plainC (j_cids s) /\ vals (vals plainC) (j_ips s) /\ vals plainC (j_hosts s) /\ vals (vals plainSvc) (j_ipsvcs s) /\ vals (vals plainSvc) (j_gsvcs s).
Lemma vals_mapv {K A B} (f : A -> B) (P : B -> Prop) (m : list (K * A)) : (forall a, P (f a)) -> vals P (mapv f m).
Proof. intros H. unfold vals, mapv. apply Forall_forall. intros e I. apply in_map_iff in I. destruct I as (x & <- & _). apply H. Qed.
Lemma plainC_json ps ss c : plainC (jsonC ps ss c).
Proof. unfold plainC, jsonC. cbn [jc_pod jc_svc]. split; [reflexivity|]. destruct (pi_svc _); cbn [option_map]; [reflexivity|exact I]. Qed.
Lemma marshal_plain st : plain (marshal st).
Proof.
  unfold plain, marshal. cbn [j_cids j_ips j_hosts j_ipsvcs j_gsvcs].
  split; [apply vals_mapv; intros c; apply plainC_json|]. split; [apply vals_mapv; intros m; apply vals_mapv; intros c; apply plainC_json|]. split; [apply vals_mapv; intros c; apply plainC_json|].
  split; apply vals_mapv; intros m; apply vals_mapv; intros i; reflexivity.
Qed.

Definition heapsOf (st : kstate) : heaps := (k_pods st, k_svcs st).
Lemma load_spec client it m s : plain s -> marshal (load client it m s) = s /\
  vals (cOk (heapsOf (load client it m s))) (k_cids (load client it m s)) /\ vals (vals (cOk (heapsOf (load client it m s)))) (k_ips (load client it m s)) /\
  vals (cOk (heapsOf (load client it m s))) (k_hosts (load client it m s)) /\ vals (vals (svcOk (heapsOf (load client it m s)))) (k_ipsvcs (load client it m s)) /\
  vals (vals (svcOk (heapsOf (load client it m s)))) (k_gsvcs (load client it m s)).
Proof.
  intros (P1 & P2 & P3 & P4 & P5).
  pose proof (alloc_stable (K := bytes) _ _ c_stable) as SC. pose proof (alloc_stable (K := Z) _ _ c_stable) as SCZ. pose proof (alloc_stable (K := bytes) _ _ SCZ) as SI.
  pose proof (alloc_stable (K := Z) _ _ svc_stable) as SZ. pose proof (alloc_stable (K := bytes) _ _ svc_stable) as SB. pose proof (alloc_stable (K := bytes) _ _ SZ) as SZ2. pose proof (alloc_stable (K := bytes) _ _ SB) as SB2.
  destruct (alloc_spec (K := bytes) _ _ _ _ c_spec c_stable (j_cids s) ([], []) P1) as (E1 & O1 & V1).
  destruct (alloc_spec (K := bytes) _ _ _ _ (alloc_spec (K := Z) _ _ _ _ c_spec c_stable) SCZ (j_ips s) (snd (alloc allocC (j_cids s) ([], []))) P2) as (E2 & O2 & V2).
  set (h1 := snd (alloc allocC (j_cids s) ([], []))) in *. 
  set (h2 := snd (alloc (alloc allocC) (j_ips s) h1)) in *.
  destruct (alloc_spec (K := bytes) _ _ _ _ c_spec c_stable (j_hosts s) h2 P3) as (E3 & O3 & V3). set (h3 := snd (alloc allocC (j_hosts s) h2)) in *.
  destruct (alloc_spec (K := bytes) _ _ _ _ (alloc_spec (K := Z) _ _ _ _ svc_spec svc_stable) SZ (j_ipsvcs s) h3 P4) as (E4 & O4 & V4). set (h4 := snd (alloc (alloc allocSvc) (j_ipsvcs s) h3)) in *.
  destruct (alloc_spec (K := bytes) _ _ _ _ (alloc_spec (K := bytes) _ _ _ _ svc_spec svc_stable) SB (j_gsvcs s) h4 P5) as (E5 & O5 & V5). set (h5 := snd (alloc (alloc allocSvc) (j_gsvcs s) h4)) in *.
  assert (HH : heapsOf (load client it m s) = h5). { unfold heapsOf, load. cbn [k_pods k_svcs]. fold h1. fold h2. fold h3. fold h4. fold h5. destruct h5; reflexivity. }
  pose proof (ext_trans _ _ _ E4 E5) as E45. pose proof (ext_trans _ _ _ E3 E45) as E35. pose proof (ext_trans _ _ _ E2 E35) as E25.
  destruct (SC _ _ _ E25 O1) as (O1' & V1'). destruct (SI _ _ _ E35 O2) as (O2' & V2'). destruct (SC _ _ _ E45 O3) as (O3' & V3'). destruct (SZ2 _ _ _ E5 O4) as (O4' & V4').
  rewrite HH. cbn [k_cids k_ips k_hosts k_ipsvcs k_gsvcs load]. fold h1. fold h2. fold h3. fold h4.
  split; [|split; [exact O1'|split; [exact O2'|split; [exact O3'|split; [exact O4'|exact O5]]]]].
  unfold marshal. replace (k_pods (load client it m s)) with (fst h5) by (rewrite <- HH; reflexivity). replace (k_svcs (load client it m s)) with (snd h5) by (rewrite <- HH; reflexivity).
  cbn [k_cids k_ips k_hosts k_ipsvcs k_gsvcs k_rs k_nodes load]. fold h1. fold h2. fold h3. fold h4.
  transitivity {| j_cids := j_cids s; j_ips := j_ips s; j_hosts := j_hosts s; j_ipsvcs := j_ipsvcs s; j_gsvcs := j_gsvcs s; j_rs := j_rs s; j_nodes := j_nodes s |}; [|destruct s; reflexivity].
  f_equal.
  - etransitivity; [exact V1'|exact V1].
  - etransitivity; [exact V2'|exact V2].
  - etransitivity; [exact V3'|exact V3].
  - etransitivity; [exact V4'|exact V4].
  - exact V5.
Qed.
Lemma load_marshal client it m st : marshal (load client it m (marshal st)) = marshal st.
Proof. apply load_spec. apply marshal_plain. Qed.

(** *** The lookups *)
Lemma aget_mapv {K A B} `{Eqb K} (f : A -> B) (m : list (K * A)) k : aget (mapv f m) k = option_map f (aget m k).
Proof. induction m as [|[k' a] m IH]; cbn [mapv map aget fst snd]; [reflexivity|]. destruct (eqb k k'); [reflexivity|exact IH]. Qed.
Lemma keys_mapv {K A B} (f : A -> B) (m : list (K * A)) : keys (mapv f m) = keys m.
Proof. unfold keys, mapv. rewrite map_map. reflexivity. Qed.
Lemma inner_mapv {K L A B} `{Eqb K} (f : A -> B) (m : list (K * list (L * A))) k : inner (mapv (mapv f) m) k = mapv f (inner m k).
Proof. unfold inner. rewrite aget_mapv. destruct (aget m k); reflexivity. Qed.
Lemma get2_mapv {K L A B} `{Eqb K} `{Eqb L} (f : A -> B) (m : list (K * list (L * A))) a b : get2 (mapv (mapv f) m) a b = option_map f (get2 m a b).
Proof. unfold get2. rewrite inner_mapv. apply aget_mapv. Qed.
Lemma vals_aget {K A} `{Eqb K} (P : A -> Prop) (m : list (K * A)) k a : vals P m -> aget m k = Some a -> P a.
Proof. intros V G. apply aget_in in G. unfold vals in V. rewrite Forall_forall in V. apply (V _ G). Qed.
Lemma vals_get2 {K L A} `{Eqb K} `{Eqb L} (P : A -> Prop) (m : list (K * list (L * A))) a b x : vals (vals P) m -> get2 m a b = Some x -> P x.
Proof. intros V G. unfold get2, inner in G. destruct (aget m a) as [i|] eqn:E; [|discriminate]. apply (vals_aget P i b); [|exact G]. apply (vals_aget _ m a); assumption. Qed.

Section Load.
  Context (client : bytes) (it : forall A : Type, nat -> list A -> list A) (m : nat) (st : kstate).
  Definition loaded : kstate := load client it m (marshal st).
  Lemma loaded_tables : mapv (known loaded) (k_cids loaded) = mapv (known st) (k_cids st) /\ mapv (mapv (known loaded)) (k_ips loaded) = mapv (mapv (known st)) (k_ips st) /\
    mapv (known loaded) (k_hosts loaded) = mapv (known st) (k_hosts st) /\ mapv (mapv (knownSvc loaded)) (k_ipsvcs loaded) = mapv (mapv (knownSvc st)) (k_ipsvcs st) /\
    mapv (mapv (knownSvc loaded)) (k_gsvcs loaded) = mapv (mapv (knownSvc st)) (k_gsvcs st).
  Proof.
    pose proof (load_marshal client it m st) as E. fold loaded in E.
    split; [exact (f_equal j_cids E)|]. split; [exact (f_equal j_ips E)|]. split; [exact (f_equal j_hosts E)|]. split; [exact (f_equal j_ipsvcs E)|exact (f_equal j_gsvcs E)].
  Qed.
  Lemma loaded_lookup k : option_map (known loaded) (lookup loaded k) = option_map (known st) (lookup st k).
  Proof.
    destruct loaded_tables as (A & B & C & _). destruct k as [c | ip p | ip p]; cbn [lookup].
    - rewrite <- !aget_mapv, A. reflexivity.
    - rewrite <- !get2_mapv, B. reflexivity.
    - unfold getContainerByHostIpPort. rewrite <- !aget_mapv, C. reflexivity.
  Qed.
  Lemma loaded_svc ip p : option_map (knownSvc loaded) (getServiceByIpPort loaded ip p) = option_map (knownSvc st) (getServiceByIpPort st ip p).
  Proof. destruct loaded_tables as (_ & _ & _ & D & _). unfold getServiceByIpPort. rewrite <- !get2_mapv, D. reflexivity. Qed.
  Lemma loaded_valid k info : lookup loaded k = Some info -> cOk (heapsOf loaded) info.
  Proof.
    destruct (load_spec client it m (marshal st) (marshal_plain st)) as (_ & A & B & C & _). fold loaded in A, B, C.
    destruct k as [c | ip p | ip p]; cbn [lookup]; intros G.
    - apply (vals_aget _ _ _ _ A G).
    - apply (vals_get2 _ _ _ _ _ B G).
    - apply (vals_aget _ _ _ _ C G).
  Qed.
End Load.
