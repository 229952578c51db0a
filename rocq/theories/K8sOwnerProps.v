(** C56: the workload a pod is attributed to. *)
From Verif Require Import Base Decimal CompareModel K8sModel K8sSpec K8sProofs K8sInv K8sIter K8sProps K8sWorkloadSpec K8sWorkloadProofs K8sWorkloadHist.
Open Scope string_scope. Open Scope list_scope. Open Scope Z_scope.

(** *** Specification *)
(** the owner that controls an object: the first one marked so *)
Definition controls (owners : list owner) (o : owner) : Prop := exists l1 l2, owners = l1 ++ o :: l2 /\ ow_controller o = true /\ forall x, In x l1 -> ow_controller x = false.
Definition uncontrolled (owners : list owner) : Prop := forall x, In x owners -> ow_controller x = false.
(** the replica sets of the cluster, as their watch shows them: added once, updated from the version last sent, deleted *)
Definition rsKey (r : replicaset) : bytes * bytes := (rs_ns r, rs_name r).
Definition rset := list ((bytes * bytes) * replicaset).
Inductive rstep (l : rset) : kop -> rset -> Prop :=
| RS_add r : aget l (rsKey r) = None -> ~ In 47 (rs_ns r) -> rstep l (OAddRs r) (aset l (rsKey r) r)
| RS_update old new : aget l (rsKey old) = Some old -> rsKey new = rsKey old -> (rs_rv new = rs_rv old -> new = old) -> rstep l (OUpdateRs old new) (aset l (rsKey old) new)
| RS_delete r : aget l (rsKey r) = Some r -> rstep l (ODeleteRs (Some r)) (adel l (rsKey r))
| RS_other o : match o with OAddRs _ | OUpdateRs _ _ | ODeleteRs (Some _) => False | _ => True end -> rstep l o l.
Definition suffixOk (h : bytes) : Prop := h <> [] /\ forall c, In c h -> 48 <= c <= 57 \/ 97 <= c <= 122.

(** lemmas *)
Lemma controls_find l : match List.find ow_controller l with Some o => controls l o | None => uncontrolled l end.
Proof.
  induction l as [|x l IH]; cbn [List.find]; [intros x []|]. destruct (ow_controller x) eqn:E; [exists [], l; split; [reflexivity|]; split; [exact E|intros y []]|].
  destruct (List.find ow_controller l) as [o|].
  - destruct IH as (l1 & l2 & -> & C & N). exists (x :: l1), l2. split; [reflexivity|]. split; [exact C|]. intros y [<- | I]; auto.
  - intros y [<- | I]; auto.
Qed.
Lemma controls_fun l a b : controls l a -> controls l b -> a = b.
Proof.
  intros (l1 & l2 & -> & C & N) (m1 & m2 & E & D & M). revert m1 E M. induction l1 as [|x l1 IH]; intros [|y m1] E M; cbn [app] in E; inversion E; subst.
  - reflexivity.
  - rewrite (M y (or_introl eq_refl)) in C. discriminate.
  - rewrite (N b (or_introl eq_refl)) in D. discriminate.
  - eapply IH; [intros z I; apply N; right; exact I|exact H1|intros z I; apply M; right; exact I].
Qed.
Lemma controls_not l a : controls l a -> uncontrolled l -> False.
Proof. intros (l1 & l2 & -> & C & N) U. rewrite (U a) in C; [discriminate|]. apply in_or_app. right. left. reflexivity. Qed.
Lemma lastDash_spec s : match lastDash s with Some (a, b) => s = a ++ bs "-" ++ b /\ ~ In 45 b | None => ~ In 45 s end.
Proof.
  induction s as [|c s IH]; cbn [lastDash]; [intros []|]. destruct (lastDash s) as [[a b]|].
  - destruct IH as (-> & N). split; [reflexivity|exact N].
  - destruct (c =? 45) eqn:E; [split; [apply Z.eqb_eq in E; subst; reflexivity|exact IH]|]. intros [-> | I]; [discriminate|contradiction].
Qed.
Lemma last_dash a b a' b' : a ++ bs "-" ++ b = a' ++ bs "-" ++ b' -> ~ In 45 b -> ~ In 45 b' -> a = a' /\ b = b'.
Proof.
  change (bs "-") with [45]. cbn [app]. revert a'. induction a as [|x a IH]; intros [|y a'] E N N'; cbn [app] in E; inversion E; subst.
  - auto.
  - exfalso. apply N. apply in_or_app. right. left. reflexivity.
  - exfalso. apply N'. apply in_or_app. right. left. reflexivity.
  - destruct (IH a' H1 N N') as (-> & ->). auto.
Qed.
Lemma suffix_all h : forallb isSuffixChar h = true <-> (forall c, In c h -> 48 <= c <= 57 \/ 97 <= c <= 122).
Proof. rewrite forallb_forall. unfold isSuffixChar. split; intros A c I; specialize (A c I); lia. Qed.
Lemma extract_spec s : (exists d h, s = d ++ bs "-" ++ h /\ suffixOk h /\ ~ In 10 d /\ extractDeploymentName s = d) \/
  ((forall d h, s = d ++ bs "-" ++ h -> suffixOk h -> ~ In 10 d -> False) /\ extractDeploymentName s = []).
Proof.
  assert (NB : forall h, suffixOk h -> ~ In 45 h) by (intros h (_ & A) I; specialize (A _ I); lia).
  unfold extractDeploymentName. pose proof (lastDash_spec s) as L. destruct (lastDash s) as [[a b]|].
  - destruct L as (E & N).
    destruct (negb (eqb b []) && forallb isSuffixChar b && negb (existsb (Z.eqb 10) a))%bool eqn:C.
    + left. exists a, b. split; [exact E|]. apply andb_prop in C. destruct C as (C & C3). apply andb_prop in C. destruct C as (C1 & C2).
      split; [split; [intros ->; discriminate|apply suffix_all; exact C2]|]. split; [|reflexivity]. intros I. rewrite negb_true_iff in C3. assert (X : existsb (Z.eqb 10) a = true) by (apply existsb_exists; exists 10; split; [exact I|reflexivity]). congruence.
    + right. split; [|reflexivity]. intros d h E' S N'. rewrite E in E'. destruct (last_dash _ _ _ _ E' N (NB h S)) as (-> & ->).
      destruct S as (S1 & S2). rewrite (proj2 (suffix_all h) S2), (proj2 (eqb_neq _ _) S1) in C. cbn [negb andb] in C. rewrite negb_false_iff in C. apply existsb_exists in C. destruct C as (x & I & X). apply Z.eqb_eq in X. subst x. contradiction.
  - right. split; [|reflexivity]. intros d h -> _ _. apply L. apply in_or_app. right. left. reflexivity.
Qed.
Lemma mapKey_inj a b a' b' : ~ In 47 a -> ~ In 47 a' -> mapKey a b = mapKey a' b' -> a = a' /\ b = b'.
Proof.
  unfold mapKey. revert a'. induction a as [|x a IH]; intros [|y a'] N N' E; cbn [app] in E; inversion E; subst.
  - auto.
  - exfalso. apply N'. left. reflexivity.
  - exfalso. apply N. left. reflexivity.
  - destruct (IH a') as (-> & ->); auto; intros I; [apply N|apply N']; right; exact I.
Qed.

Section Owner.
  Context (builtIn : bytes -> bool) (lower : bytes -> bytes) (myNode : bytes) (it : forall A : Type, nat -> list A -> list A) (grace : Z).
  Inductive rreach : rset -> kstate -> Prop :=
  | RR_start : rreach [] k0
  | RR_step l st n now o l' : rreach l st -> rstep l o l' -> rreach l' (kstep builtIn lower myNode it grace n now o st).
  (** the kind with its group and version, unless these are built in *)
  Inductive kindName (o : owner) : bytes -> Prop :=
  | K_plain : ow_api o = [] \/ builtIn (ow_api o) = true -> kindName o (lower (ow_kind o))
  | K_custom : ow_api o <> [] -> builtIn (ow_api o) = false -> kindName o (ow_api o ++ bs "/" ++ lower (ow_kind o)).
  (** The workload of a pod: what controls it, or what controls the replica set that controls it; of an unknown or uncontrolled replica set called
      deployment-hash the deployment, of others a deployment without a name. *)
  Inductive belongs (l : rset) (v : pod) : bytes -> bytes -> Prop :=
  | B_nothing : uncontrolled (pd_owners v) -> belongs l v [] []
  | B_direct o k : controls (pd_owners v) o -> ow_kind o <> bs "ReplicaSet" -> kindName o k -> belongs l v k (ow_name o)
  | B_through o r c k : controls (pd_owners v) o -> ow_kind o = bs "ReplicaSet" -> aget l (pd_ns v, ow_name o) = Some r -> controls (rs_owners r) c -> kindName c k -> belongs l v k (ow_name c)
  | B_guess o d h : controls (pd_owners v) o -> ow_kind o = bs "ReplicaSet" -> (forall r, aget l (pd_ns v, ow_name o) = Some r -> uncontrolled (rs_owners r)) ->
      ow_name o = d ++ bs "-" ++ h -> suffixOk h -> ~ In 10 d -> belongs l v (bs "deployment") d
  | B_unnamed o : controls (pd_owners v) o -> ow_kind o = bs "ReplicaSet" -> (forall r, aget l (pd_ns v, ow_name o) = Some r -> uncontrolled (rs_owners r)) ->
      (forall d h, ow_name o = d ++ bs "-" ++ h -> suffixOk h -> ~ In 10 d -> False) -> belongs l v (bs "deployment") [].

  (** *** Proofs *)
  Lemma controllerOf_find rs ns l : controllerOf builtIn lower rs ns l =
    match List.find ow_controller l with
    | None => ([], [])
    | Some o => if eqb (ow_kind o) (bs "ReplicaSet")
        then match aget rs (mapKey ns (ow_name o)) with Some w => (completeGVK builtIn (co_api w) (lower (co_kind w)), co_name w) | None => (bs "deployment", extractDeploymentName (ow_name o)) end
        else (completeGVK builtIn (ow_api o) (lower (ow_kind o)), ow_name o)
    end.
  Proof. induction l as [|x l IH]; cbn [controllerOf List.find]; [reflexivity|]. destruct (ow_controller x); [reflexivity|exact IH]. Qed.
  Lemma kindName_iff o k : kindName o k <-> k = completeGVK builtIn (ow_api o) (lower (ow_kind o)).
  Proof.
    unfold completeGVK. split.
    - intros [[E | E] | N B]; [rewrite E; reflexivity|destruct (eqb (ow_api o) []); [reflexivity|]; rewrite E; reflexivity|]. rewrite (proj2 (eqb_neq _ _) N), B. reflexivity.
    - case_eqb (ow_api o) (@nil Z); intros ->; [apply K_plain; auto|]. destruct (builtIn (ow_api o)) eqn:B; [apply K_plain; auto|]. apply K_custom; assumption.
  Qed.
  Definition ctl (r : replicaset) : option controller :=
    match List.find ow_controller (rs_owners r) with None => None | Some o => Some {| co_name := ow_name o; co_kind := ow_kind o; co_api := ow_api o |} end.
  Definition RInv (l : rset) (st : kstate) : Prop :=
    (forall key r, aget l key = Some r -> key = rsKey r /\ ~ In 47 (rs_ns r)) /\
    (forall ns name : bytes, ~ In 47 ns -> aget (k_rs st) (mapKey ns name) = match aget l (ns, name) with Some r => ctl r | None => None end).
  Lemma rinv_add l st r : RInv l st -> ~ In 47 (rs_ns r) -> (forall ns name : bytes, ~ In 47 ns -> (ns, name) <> rsKey r -> aget (k_rs (addReplicaSet r st)) (mapKey ns name) = aget (k_rs st) (mapKey ns name)) /\
    (aget (k_rs st) (mapKey (rs_ns r) (rs_name r)) = None -> aget (k_rs (addReplicaSet r st)) (mapKey (rs_ns r) (rs_name r)) = ctl r).
  Proof.
    intros (A & B) NS. unfold addReplicaSet, ctl. destruct (List.find ow_controller (rs_owners r)) as [o|]; [|split; [reflexivity|auto]]. cbn [setRs k_rs]. split.
    - intros ns name N K. rewrite aget_aset_other; [reflexivity|]. intros X. apply K. apply mapKey_inj in X; [|assumption..]. destruct X as (-> & ->). reflexivity.
    - intros _. rewrite aget_aset_same. reflexivity.
  Qed.
  Lemma rreach_inv l st : rreach l st -> RInv l st.
  Proof.
    intros R. induction R as [|l st n now o l' R (A & B) S]; [split; [discriminate|reflexivity]|]. inversion S; subst.
    - cbn [K8sModel.kstep]. destruct (rinv_add l st r (conj A B) ltac:(assumption)) as (X & Y). split.
      + intros key x G. rewrite aget_aset in G. case_eqb key (rsKey r); [inversion G; subst; auto|]. apply A. exact G.
      + intros ns name N. rewrite aget_aset. case_eqb (ns, name) (rsKey r); [inversion E; subst; apply Y; rewrite B by exact N; change (rs_ns r, rs_name r) with (rsKey r); rewrite H; reflexivity|].
        rewrite X by assumption. apply B. exact N.
    - cbn [K8sModel.kstep]. unfold updateReplicaSet. destruct (A _ _ H) as (_ & NS). assert (KE : rs_ns new = rs_ns old /\ rs_name new = rs_name old) by (unfold rsKey in H0; inversion H0; auto). destruct KE as (K1 & K2).
      case_eqb (rs_rv new) (rs_rv old).
      + rewrite (H1 E). split.
        * intros key x G. rewrite aget_aset in G. case_eqb key (rsKey old); [inversion G; subst; auto|]. apply A. exact G.
        * intros ns name N. rewrite B by exact N. rewrite aget_aset. case_eqb (ns, name) (rsKey old); [rewrite E0, H; reflexivity|reflexivity].
      + set (st1 := deleteReplicaSet (Some old) st).
        assert (B1 : forall ns name : bytes, ~ In 47 ns -> aget (k_rs st1) (mapKey ns name) = match aget (adel l (rsKey old)) (ns, name) with Some r => ctl r | None => None end).
        { intros ns name N. unfold st1. cbn [deleteReplicaSet setRs k_rs]. rewrite !aget_adel. case_eqb (ns, name) (rsKey old); [inversion E0; subst; rewrite eqb_refl; reflexivity|].
          case_eqb (mapKey ns name) (mapKey (rs_ns old) (rs_name old)); [|apply B; exact N]. exfalso. apply mapKey_inj in E1; [|assumption..]. destruct E1 as (-> & ->). apply E0. reflexivity. }
        assert (A1 : forall key r, aget (adel l (rsKey old)) key = Some r -> key = rsKey r /\ ~ In 47 (rs_ns r)). { intros key r. rewrite aget_adel. destruct (eqb key (rsKey old)); [discriminate|]. apply A. }
        destruct (rinv_add (adel l (rsKey old)) st1 new (conj A1 B1) ltac:(congruence)) as (X & Y). split.
        * intros key x G. rewrite aget_aset in G. case_eqb key (rsKey old); [inversion G; subst; split; congruence|]. apply A. exact G.
        * intros ns name N. rewrite aget_aset. case_eqb (ns, name) (rsKey old).
          -- inversion E0; subst. rewrite <- K1, <- K2. apply Y. rewrite K1, K2, B1 by exact N. change (rs_ns old, rs_name old) with (rsKey old). rewrite aget_adel_same. reflexivity.
          -- rewrite X; [|exact N|congruence]. rewrite B1 by exact N. rewrite aget_adel_other by exact E0. reflexivity.
    - cbn [K8sModel.kstep deleteReplicaSet setRs]. destruct (A _ _ H) as (_ & NS). split.
      + intros key x. rewrite aget_adel. destruct (eqb key (rsKey r)); [discriminate|]. apply A.
      + intros ns name N. cbn [setRs k_rs]. rewrite !aget_adel. case_eqb (ns, name) (rsKey r); [inversion E; subst; rewrite eqb_refl; reflexivity|].
        case_eqb (mapKey ns name) (mapKey (rs_ns r) (rs_name r)); [|apply B; exact N]. exfalso. apply mapKey_inj in E0; [|assumption..]. destruct E0 as (-> & ->). apply E. reflexivity.
    - split; [exact A|]. intros ns name N. assert (E : k_rs (kstep builtIn lower myNode it grace n now o st) = k_rs st).
      { destruct o; try contradiction; try (apply other_rs; exact I). destruct o; [contradiction|reflexivity]. }
      rewrite E. apply B. exact N.
  Qed.
End Owner.

(** After every history of the watches, the workload of a pod with the replica sets known is the one it belongs to. *)
Theorem C56_workload : forall builtIn lower myNode it grace l st v kind name,
  rreach builtIn lower myNode it grace l st -> ~ In 47 (pd_ns v) ->
  (workloadOf builtIn lower st v = (kind, name) <-> belongs builtIn lower l v kind name).
Proof.
  intros builtIn lower myNode it grace l st v kind name R NS. destruct (rreach_inv _ _ _ _ _ _ _ R) as (_ & B).
  unfold workloadOf. rewrite controllerOf_find. pose proof (controls_find (pd_owners v)) as F.
  destruct (List.find ow_controller (pd_owners v)) as [o|].
  2:{ split; [intros E; inversion E; subst; apply B_nothing; exact F|]. intros [? | ? ? C | ? ? ? ? C | ? ? ? C | ? C]; [reflexivity|exfalso; exact (controls_not _ _ C F)..]. }
  case_eqb (ow_kind o) (bs "ReplicaSet").
  - rewrite B by exact NS. pose proof (extract_spec (ow_name o)) as XS.
    assert (U : match (match aget l (pd_ns v, ow_name o) with Some r => ctl r | None => None end) with Some w => exists r c, aget l (pd_ns v, ow_name o) = Some r /\ controls (rs_owners r) c /\ w = {| co_name := ow_name c; co_kind := ow_kind c; co_api := ow_api c |}
       | None => forall r, aget l (pd_ns v, ow_name o) = Some r -> uncontrolled (rs_owners r) end).
    { destruct (aget l (pd_ns v, ow_name o)) as [r|]; [|discriminate]. unfold ctl. pose proof (controls_find (rs_owners r)) as F2. destruct (List.find ow_controller (rs_owners r)) as [c|]; [exists r, c; auto|]. intros r' X. inversion X; subst. exact F2. }
    destruct (match aget l (pd_ns v, ow_name o) with Some r => ctl r | None => None end) as [w|].
    + destruct U as (r & c & G & C & ->). cbn [co_api co_kind co_name]. split.
      * intros X. inversion X; subst. eapply B_through; try eassumption. apply kindName_iff. reflexivity.
      * intros [N | o' k C' K | o' r' c' k C' K G' C'' KN | o' d h C' K N | o' C' K N].
        -- exfalso. exact (controls_not _ _ F N).
        -- exfalso. rewrite <- (controls_fun _ _ _ F C') in K. contradiction.
        -- rewrite <- (controls_fun _ _ _ F C') in G'. rewrite G in G'. inversion G'; subst r'. rewrite <- (controls_fun _ _ _ C C'') in *. apply kindName_iff in KN. subst k. reflexivity.
        -- exfalso. rewrite <- (controls_fun _ _ _ F C') in N. exact (controls_not _ _ C (N r G)).
        -- exfalso. rewrite <- (controls_fun _ _ _ F C') in N. exact (controls_not _ _ C (N r G)).
    + split.
      * intros X. inversion X; subst. destruct XS as [(d & h & E1 & S & N & ->) | (N & ->)]; [eapply B_guess; eassumption|eapply B_unnamed; eassumption].
      * intros [N | o' k C' K | o' r' c' k C' K G' C'' KN | o' d h C' K N EN S ND | o' C' K N M].
        -- exfalso. exact (controls_not _ _ F N).
        -- exfalso. rewrite <- (controls_fun _ _ _ F C') in K. contradiction.
        -- exfalso. rewrite <- (controls_fun _ _ _ F C') in G'. exact (controls_not _ _ C'' (U _ G')).
        -- rewrite <- (controls_fun _ _ _ F C') in EN. destruct XS as [(d' & h' & E1 & S' & N' & ->) | (N' & _)]; [|exfalso; exact (N' _ _ EN S ND)].
           rewrite E1 in EN. assert (NB : forall h, suffixOk h -> ~ In 45 h) by (intros x (_ & A) I; specialize (A _ I); lia). destruct (last_dash _ _ _ _ EN (NB _ S') (NB _ S)) as (-> & _). reflexivity.
        -- rewrite <- (controls_fun _ _ _ F C') in M. destruct XS as [(d' & h' & E1 & S' & N' & _) | (_ & ->)]; [exfalso; exact (M _ _ E1 S' N')|reflexivity].
  - split.
    + intros X. inversion X; subst. eapply B_direct; [exact F|exact E|]. apply kindName_iff. reflexivity.
    + intros [N | o' k C' K KN | o' r' c' k C' K G' C'' KN | o' d h C' K N EN S ND | o' C' K N M]; [exfalso; exact (controls_not _ _ F N)| |exfalso; apply E; rewrite (controls_fun _ _ _ F C'); exact K..].
      rewrite <- (controls_fun _ _ _ F C') in *. apply kindName_iff in KN. subst k. reflexivity.
Qed.
Print Assumptions C56_workload.

(** A pod found by what it claims, right after it was added, carries its workload. *)
Theorem C56_added : forall builtIn lower myNode it grace l st n now p k,
  rreach builtIn lower myNode it grace l st -> ~ In 47 (pd_ns p) -> portsOk p -> kvalid k -> claims p k ->
  exists info, lookup (kstep builtIn lower myNode it grace n now (OAddPod p) st) k = Some info /\
    let r := podAt (k_pods (kstep builtIn lower myNode it grace n now (OAddPod p) st)) (ci_pod info) in
    belongs builtIn lower l p (pi_wkind r) (pi_wname r).
Proof.
  intros builtIn lower myNode it grace l st n now p k R NS PO V CL. cbn [kstep].
  destruct (addPod_lookup builtIn lower myNode it n p st k PO V) as [(_ & info & E & C & _) | (N & _)]; [|contradiction].
  exists info. split; [exact E|]. cbv zeta. rewrite C. pose proof (addPod_wfields builtIn lower myNode it n p st) as F.
  apply (C56_workload builtIn lower myNode it grace l st p); [exact R|exact NS|].
  generalize dependent (podAt (k_pods (addPod builtIn lower myNode it n p st)) (List.length (k_pods st))). intros r F. unfold wfields in F. destruct (workloadOf builtIn lower st p); cbn [fst snd] in F. congruence.
Qed.
Print Assumptions C56_added.

(** A deployment's replica set known, one unknown, a custom controller, none. *)
Example C56_cases : exists l st, rreach apps1 asciiLower (bs "node-1") idIt 60 l st /\
  belongs apps1 asciiLower l webA (bs "deployment") (bs "web") /\ workloadOf apps1 asciiLower st webA = (bs "deployment", bs "web") /\
  belongs apps1 asciiLower l blue (bs "argoproj.io/v1alpha1/rollout") (bs "shop") /\ workloadOf apps1 asciiLower st db0 = (bs "statefulset", bs "db") /\
  workloadOf apps1 asciiLower st p1 = ([], []) /\ workloadOf apps1 asciiLower st (ownedPod "u" "x" "" "" (byKind "ReplicaSet" "x")) = (bs "deployment", []).
Proof.
  pose proof (RR_step apps1 asciiLower (bs "node-1") idIt 60 [] k0 O 1 (OAddRs blueRs) _ (RR_start _ _ _ _ _) (RS_add [] blueRs eq_refl ltac:(cbn; intuition discriminate))) as R.
  eexists _, _. split; [exact R|].
  split; [apply (C56_workload _ _ _ _ _ _ _ _ _ _ R); [cbn; intuition discriminate|vm_compute; reflexivity]|]. split; [vm_compute; reflexivity|].
  split; [apply (C56_workload _ _ _ _ _ _ _ _ _ _ R); [cbn; intuition discriminate|vm_compute; reflexivity]|]. repeat split; vm_compute; reflexivity.
Qed.
