(** C38: the names of nodes follow the watched nodes. *)
From Verif Require Import Base Decimal CompareModel K8sModel K8sSpec K8sProofs.
Open Scope string_scope. Open Scope list_scope. Open Scope Z_scope.

(** *** Specification *)
(** The internal address a node announces: the last of its addresses of that type. *)
Definition announces (n : node) (ip : bytes) : Prop :=
  exists a b, nd_addresses n = a ++ (bs "InternalIP", ip) :: b /\ forall t x, In (t, x) b -> t <> bs "InternalIP".
(** The nodes that exist, by name, and every name and every address seen so far. *)
Record nworld := { n_live : list (bytes * node); n_names : bytes -> Prop; n_addrs : bytes -> Prop; n_last : bytes -> option bytes }.
Definition nw0 : nworld := {| n_live := []; n_names := fun _ => False; n_addrs := fun _ => False; n_last := fun _ => None |}.
Definition nput (w : nworld) (x : node) (ip : bytes) : nworld :=
  {| n_live := aset (n_live w) (nd_name x) x; n_names := fun m => m = nd_name x \/ n_names w m; n_addrs := fun a => a = ip \/ n_addrs w a;
     n_last := fun a => if eqb a ip then Some (nd_name x) else n_last w a |}.
(** A node is created once; an update tells the version last seen; a deletion tells the last version; two nodes never have one address at a time. *)
Inductive nwstep (w : nworld) : kop -> nworld -> Prop :=
| NW_add x ip : aget (n_live w) (nd_name x) = None -> announces x ip -> (forall m y, aget (n_live w) m = Some y -> ~ announces y ip) -> nwstep w (OAddNode x) (nput w x ip)
| NW_update old new ip : aget (n_live w) (nd_name old) = Some old -> nd_name new = nd_name old -> announces new ip ->
    (forall m y, m <> nd_name new -> aget (n_live w) m = Some y -> ~ announces y ip) -> nwstep w (OUpdateNode old new) (nput w new ip)
| NW_delete x : aget (n_live w) (nd_name x) = Some x ->
    nwstep w (ODeleteNode (Some x)) {| n_live := adel (n_live w) (nd_name x); n_names := n_names w; n_addrs := n_addrs w; n_last := n_last w |}
| NW_garbage : nwstep w (ODeleteNode None) w
| NW_other o : match o with OAddNode _ | OUpdateNode _ _ | ODeleteNode _ => False | _ => True end -> nwstep w o w.
Section Reach.
  Context (builtIn : bytes -> bool) (lower : bytes -> bytes) (myNode : bytes) (it : forall A : Type, nat -> list A -> list A) (grace : Z).
  Inductive nreach : nworld -> kstate -> Prop :=
  | N_start : nreach nw0 k0
  | N_step w st n now o w' : nreach w st -> nwstep w o w' -> nreach w' (kstep builtIn lower myNode it grace n now o st).
End Reach.

(** *** Proofs *)
Lemma internalIp_announces n ip : announces n ip -> internalIp n = ip.
Proof.
  intros (a & b & E & N). unfold internalIp. rewrite E, fold_left_app. cbn [fold_left fst snd]. rewrite eqb_refl. clear E.
  induction b as [|[t x] b IH]; cbn [fold_left fst snd]; [reflexivity|].
  rewrite (proj2 (eqb_neq t (bs "InternalIP"))) by (eapply N; left; reflexivity). apply IH. intros t' x' I. apply (N t' x'). right. exact I.
Qed.
Lemma announces_fun n a b : announces n a -> announces n b -> a = b.
Proof. intros A B. apply internalIp_announces in A. apply internalIp_announces in B. congruence. Qed.
Section Nodes.
  Context (builtIn : bytes -> bool) (lower : bytes -> bytes) (myNode : bytes) (it : forall A : Type, nat -> list A -> list A) (grace : Z).
  Lemma deletePodInfo_nodes n d st : k_nodes (deletePodInfo it n d st) = k_nodes st.
  Proof.
    assert (A : forall uid ip l n st, k_nodes (delPorts it n uid ip l st) = k_nodes st).
    { intros uid ip. induction l as [|p l IH]; intros m s; cbn [delPorts]; [reflexivity|]. rewrite IH. destruct (getContainerByIpPort it m s ip (w32 p)); [|reflexivity]. destruct (eqb _ uid); reflexivity. }
    assert (B : forall uid ip l st, k_nodes (delHostPorts uid ip l st) = k_nodes st).
    { intros uid ip. induction l as [|p l IH]; intros s; cbn [delHostPorts]; [reflexivity|]. rewrite IH. destruct (getContainerByHostIpPort s ip p); [|reflexivity]. destruct (eqb _ uid); reflexivity. }
    unfold deletePodInfo. destruct (eqb (di_hostip d) []); destruct (eqb (di_ip d) []); rewrite ?B, ?A; cbn [setCids k_nodes]; destruct (eqb (di_name d) []); try reflexivity; destruct (get2 _ _ _); reflexivity.
  Qed.
  Lemma other_nodes n now o st : match o with OAddNode _ | OUpdateNode _ _ | ODeleteNode _ => False | _ => True end -> k_nodes (kstep builtIn lower myNode it grace n now o st) = k_nodes st.
  Proof.
    assert (P : forall n p st, k_nodes (addPod builtIn lower myNode it n p st) = k_nodes st) by (intros m p s; unfold addPod; destruct (eqb (pd_ip p) []); reflexivity).
    assert (D : forall l n st, k_nodes (deleteAll it n l st) = k_nodes st) by (induction l as [|[d ts] l IH]; intros m s; cbn [deleteAll]; [reflexivity|]; rewrite IH; apply deletePodInfo_nodes).
    assert (T : forall id o st, k_nodes (attach id o st) = k_nodes st) by (intros id [i|] s; reflexivity).
    assert (AC : forall id l st, k_nodes (attachCids id l st) = k_nodes st) by (intros id; induction l as [|c l IH]; intros s; cbn [attachCids]; [reflexivity|]; rewrite IH; apply T).
    assert (AP : forall id ip l n st, k_nodes (attachPorts it n id ip l st) = k_nodes st) by (intros id ip; induction l as [|c l IH]; intros m s; cbn [attachPorts]; [reflexivity|]; rewrite IH; apply T).
    assert (AA : forall id l n st, k_nodes (attachPods it n id l st) = k_nodes st) by (intros id; induction l as [|c l IH]; intros m s; cbn [attachPods]; [reflexivity|]; rewrite IH, AP; apply AC).
    assert (S : forall n s st, k_nodes (addService it n s st) = k_nodes st).
    { intros m s x. unfold addService. destruct (hasClusterIp s); cbn [setSvcs k_nodes]; rewrite AA; reflexivity. }
    assert (DS : forall n o st, k_nodes (deleteService it n o st) = k_nodes st).
    { intros m [s|] x; [|reflexivity]. cbn [deleteService]. destruct (get2 _ _ _); destruct (hasClusterIp s); reflexivity. }
    destruct o; intros O; try destruct O; cbn [kstep].
    - apply P.
    - unfold updatePod. destruct (eqb _ _); [reflexivity|]. destruct (get2 _ _ _); [|apply P]. cbn [setQueue k_nodes]. apply P.
    - destruct o; reflexivity.
    - unfold deleteRound. rewrite D. reflexivity.
    - apply S.
    - unfold updateService. destruct (eqb _ _); [reflexivity|]. rewrite S. apply DS.
    - apply DS.
    - unfold addReplicaSet. destruct (List.find _ _); reflexivity.
    - unfold updateReplicaSet. destruct (eqb _ _); [reflexivity|]. unfold addReplicaSet. destruct (List.find _ _); reflexivity.
    - destruct o; reflexivity.
  Qed.
  Lemma addNode_get x st ip a : announces x ip -> getNodeName (addNode x st) a = if eqb a ip then Some (nd_name x) else getNodeName st a.
  Proof. intros A. unfold getNodeName, addNode. cbn [setNodes k_nodes]. rewrite (internalIp_announces x ip A), aget_aset. destruct (eqb a ip); reflexivity. Qed.
  Lemma deleteNode_get x st a : getNodeName (deleteNode (Some x) st) a = if eqb a (nd_name x) then None else getNodeName st a.
  Proof. unfold getNodeName, deleteNode. cbn [setNodes k_nodes]. rewrite aget_adel. destruct (eqb a (nd_name x)); reflexivity. Qed.
  Lemma getNodeName_other n now o st a : match o with OAddNode _ | OUpdateNode _ _ | ODeleteNode _ => False | _ => True end -> getNodeName (kstep builtIn lower myNode it grace n now o st) a = getNodeName st a.
  Proof. intros O. unfold getNodeName. rewrite other_nodes by exact O. reflexivity. Qed.

  Lemma live_names w st : nreach builtIn lower myNode it grace w st -> forall m x, aget (n_live w) m = Some x -> m = nd_name x /\ n_names w m /\ exists ip, announces x ip /\ n_addrs w ip.
  Proof.
    intros R. induction R as [|w st n now o w' R IH S]; [discriminate|]. intros m x. inversion S; subst; clear S; try exact (IH m x).
    - cbn [nput n_live n_names n_addrs]. rewrite aget_aset. case_eqb m (nd_name x0); intros G.
      + inversion G; subst. split; [reflexivity|]. split; [auto|]. exists ip. auto.
      + destruct (IH m x G) as (A & B & i & C & D). split; [exact A|]. split; [auto|]. exists i. auto.
    - cbn [nput n_live n_names n_addrs]. rewrite aget_aset. case_eqb m (nd_name new); intros G.
      + inversion G; subst. split; [reflexivity|]. split; [auto|]. exists ip. auto.
      + destruct (IH m x G) as (A & B & i & C & D). split; [exact A|]. split; [auto|]. exists i. auto.
    - cbn [n_live n_names n_addrs]. rewrite aget_adel. case_eqb m (nd_name x0); [discriminate|]. exact (IH m x).
  Qed.
  Lemma live_last w st : nreach builtIn lower myNode it grace w st -> forall m x ip, aget (n_live w) m = Some x -> announces x ip -> n_last w ip = Some m.
  Proof.
    intros R. induction R as [|w st n now o w' R IH S]; [discriminate|]. intros m x ip. inversion S; subst; clear S; try exact (IH m x ip).
    - cbn [nput n_live n_last]. rewrite aget_aset. case_eqb m (nd_name x0); intros G A.
      + inversion G; subst. rewrite (announces_fun _ _ _ A H0), eqb_refl. reflexivity.
      + rewrite (proj2 (eqb_neq ip ip0)); [exact (IH m x ip G A)|]. intros ->. exact (H1 m x G A).
    - cbn [nput n_live n_last]. rewrite aget_aset. case_eqb m (nd_name new); intros G A.
      + inversion G; subst. rewrite (announces_fun _ _ _ A H1), eqb_refl. reflexivity.
      + rewrite (proj2 (eqb_neq ip ip0)); [exact (IH m x ip G A)|]. intros ->. exact (H2 m x E G A).
    - cbn [n_live n_last]. rewrite aget_adel. case_eqb m (nd_name x0); [discriminate|]. exact (IH m x ip).
  Qed.
End Nodes.

(** An address is answered with the last node that announced it, as long as no node is called like an address. *)
Theorem C38_last : forall builtIn lower myNode it grace w st a,
  nreach builtIn lower myNode it grace w st -> (forall m, n_names w m -> ~ n_addrs w m) -> getNodeName st a = n_last w a.
Proof.
  intros builtIn lower myNode it grace w st a R. revert a. induction R as [|w st n now o w' R IH S]; intros a D; [reflexivity|].
  assert (D0 : forall w', nwstep w o w' -> (forall m, n_names w' m -> ~ n_addrs w' m) -> forall m, n_names w m -> ~ n_addrs w m).
  { intros x S' D' m M A. inversion S'; subst; cbn [nput n_names n_addrs] in D'; eapply D'; eauto. }
  specialize (IH a (D0 w' S D)). assert (AW : forall b, n_last w b <> None -> n_addrs w b).
  { clear -R. induction R as [|w st n now o w' R IH S]; intros b N; [apply N; reflexivity|]. inversion S; subst; clear S; try exact (IH b N); cbn [nput n_last n_addrs] in *;
      (destruct (eqb b ip) eqn:E; [left; apply eqb_true; exact E|right; apply IH; exact N]). }
  inversion S; subst; clear S; cbn [kstep].
  - rewrite (addNode_get x st ip a H0), IH. reflexivity.
  - unfold updateNode. rewrite (addNode_get new _ ip a H1), deleteNode_get, IH. cbn [nput n_last n_names n_addrs] in *. destruct (eqb a ip) eqn:E; [reflexivity|].
    case_eqb a (nd_name old); [|reflexivity]. symmetry. destruct (n_last w a) as [m|] eqn:L; [|reflexivity]. exfalso. apply (D (nd_name new)); [auto|]. right. apply AW. rewrite H0, <- E0, L. discriminate.
  - rewrite deleteNode_get, IH. cbn [n_last n_names n_addrs] in *. case_eqb a (nd_name x); [|reflexivity]. symmetry. destruct (n_last w a) as [m|] eqn:L; [|reflexivity]. exfalso.
    destruct (live_names _ _ _ _ _ _ _ R _ _ H) as (_ & B & _). apply (D (nd_name x) B). rewrite <- E. apply AW. rewrite L. discriminate.
  - exact IH.
  - change (getNodeName (kstep builtIn lower myNode it grace n now o st) a = n_last w' a). rewrite getNodeName_other by exact H. exact IH.
Qed.
Print Assumptions C38_last.

(** So a node that exists is found by its address. *)
Theorem C38_live : forall builtIn lower myNode it grace w st name x ip,
  nreach builtIn lower myNode it grace w st -> (forall m, n_names w m -> ~ n_addrs w m) -> aget (n_live w) name = Some x -> announces x ip -> getNodeName st ip = Some (nd_name x).
Proof.
  intros builtIn lower myNode it grace w st name x ip R D L A. rewrite (C38_last _ _ _ _ _ _ _ _ R D). destruct (live_names _ _ _ _ _ _ _ R _ _ L) as (<- & _). eapply live_last; eassumption.
Qed.
Print Assumptions C38_live.

(** Where every node is called like its address, the answers are exact. *)
Inductive named : kop -> Prop :=
| Na_add x : announces x (nd_name x) -> named (OAddNode x)
| Na_update old new : announces new (nd_name new) -> named (OUpdateNode old new)
| Na_other o : match o with OAddNode _ | OUpdateNode _ _ => False | _ => True end -> named o.
Inductive namedReach builtIn lower myNode it grace : nworld -> kstate -> Prop :=
| NR_start : namedReach builtIn lower myNode it grace nw0 k0
| NR_step w st n now o w' : namedReach builtIn lower myNode it grace w st -> nwstep w o w' -> named o -> namedReach builtIn lower myNode it grace w' (kstep builtIn lower myNode it grace n now o st).
Theorem C38_named_by_address : forall builtIn lower myNode it grace w st a m,
  namedReach builtIn lower myNode it grace w st ->
  (getNodeName st a = Some m <-> exists x, aget (n_live w) m = Some x /\ nd_name x = m /\ announces x a).
Proof.
  intros builtIn lower myNode it grace w st a m R.
  assert (G : forall a m, (getNodeName st a = Some m <-> m = a /\ exists x, aget (n_live w) m = Some x) /\ (forall x, aget (n_live w) m = Some x -> nd_name x = m /\ announces x m)).
  { clear a m. induction R as [|w st n now o w' R IH S N]; [intros a m; split; [split; [discriminate|intros (_ & x & X); discriminate]|discriminate]|].
    intros a m. destruct (IH a m) as (E & L). inversion S; subst; clear S; cbn [kstep].
    - inversion N as [? N'| |? F]; subst; [|destruct F]. rewrite (addNode_get x st (nd_name x) a N'). cbn [nput n_live]. rewrite aget_aset. split.
      + case_eqb a (nd_name x); [subst a|].
        * split; [intros X; inversion X; subst; split; [reflexivity|]; rewrite eqb_refl; eauto|]. intros (-> & _). reflexivity.
        * rewrite E. split; intros (-> & y & Y); (split; [reflexivity|]); rewrite (proj2 (eqb_neq a (nd_name x)) E0) in *; eauto.
      + intros y. case_eqb m (nd_name x); [|apply L]. intros X. inversion X; subst. auto.
    - inversion N as [|? ? N'|? F]; subst; [|destruct F]. unfold updateNode. rewrite (addNode_get new _ (nd_name new) a N'), deleteNode_get. cbn [nput n_live]. rewrite aget_aset. split.
      + case_eqb a (nd_name new); [subst a|].
        * split; [intros X; inversion X; subst; split; [reflexivity|]; rewrite eqb_refl; eauto|]. intros (-> & _). reflexivity.
        * rewrite <- H0, (proj2 (eqb_neq a (nd_name new)) E0), E. split; intros (-> & y & Y); (split; [reflexivity|]); rewrite (proj2 (eqb_neq a (nd_name new)) E0) in *; eauto.
      + intros y. case_eqb m (nd_name new); [|apply L]. intros X. inversion X; subst. auto.
    - rewrite deleteNode_get. cbn [n_live]. rewrite aget_adel. split.
      + case_eqb a (nd_name x); [subst a|].
        * split; [discriminate|]. intros (-> & y & Y). rewrite eqb_refl in Y. discriminate.
        * rewrite E. split; intros (-> & y & Y); (split; [reflexivity|]); rewrite (proj2 (eqb_neq a (nd_name x)) E0) in *; eauto.
      + intros y. case_eqb m (nd_name x); [discriminate|apply L].
    - split; [exact E|exact L].
    - split; [|exact L]. change (getNodeName (kstep builtIn lower myNode it grace n now o st) a = Some m <-> m = a /\ exists x, aget (n_live w') m = Some x).
      rewrite getNodeName_other by exact H. exact E. }
  destruct (G a m) as (E & L). rewrite E. split.
  - intros (-> & x & X). exists x. destruct (L x X). auto.
  - intros (x & X & _ & A). destruct (L x X) as (_ & B). split; [exact (announces_fun x _ _ B A)|eauto].
Qed.
Print Assumptions C38_named_by_address.

(** *** A history: two nodes, one changes its address, the other is deleted. *)
Definition nodeAt (name : string) (ip : string) : node := {| nd_name := bs name; nd_addresses := [(bs "Hostname", bs name); (bs "InternalIP", bs ip); (bs "ExternalIP", bs "1.2.3.4")] |}.
Lemma nodeAt_announces name ip : announces (nodeAt name ip) (bs ip).
Proof. exists [(bs "Hostname", bs name)], [(bs "ExternalIP", bs "1.2.3.4")]. split; [reflexivity|]. intros t x [E | []]. inversion E. discriminate. Qed.

Example C38_history : exists w st, nreach (fun _ => false) (fun x => x) (bs "a") (fun _ _ l => l) 60 w st /\ (forall m, n_names w m -> ~ n_addrs w m) /\
  aget (n_live w) (bs "a") = Some (nodeAt "a" "10.0.0.3") /\ aget (n_live w) (bs "b") = Some (nodeAt "b" "10.0.0.2") /\ getNodeName st (bs "10.0.0.3") = Some (bs "a").
Proof.
  eexists _, _. split.
  - eapply (N_step _ _ _ _ _ _ _ O 0); [|eapply (NW_update _ (nodeAt "a" "10.0.0.1") (nodeAt "a" "10.0.0.3")); [|reflexivity|apply (nodeAt_announces "a" "10.0.0.3")|]].
    + eapply (N_step _ _ _ _ _ _ _ O 0); [|eapply NW_add; [|apply (nodeAt_announces "b" "10.0.0.2")|]].
      * eapply (N_step _ _ _ _ _ _ _ O 0); [apply N_start|eapply NW_add; [reflexivity|apply (nodeAt_announces "a" "10.0.0.1")|discriminate]].
      * reflexivity.
      * intros m y G A. cbn [nput n_live nw0 aset aget] in G. destruct (eqb m _); [|discriminate]. inversion G; subst y. pose proof (announces_fun _ _ _ A (nodeAt_announces "a" "10.0.0.1")). discriminate.
    + reflexivity.
    + intros m y N G A. cbn [nput n_live nw0] in G. change (aget [(bs "a", nodeAt "a" "10.0.0.1"); (bs "b", nodeAt "b" "10.0.0.2")] m = Some y) in G. cbn [aget] in G.
      case_eqb m (bs "a"); [apply N; assumption|]. destruct (eqb m (bs "b")); [|discriminate]. inversion G; subst y. pose proof (announces_fun _ _ _ A (nodeAt_announces "b" "10.0.0.2")). discriminate.
  - split; [|split; [reflexivity|split; reflexivity]]. cbn [nput n_names n_addrs nw0 nd_name nodeAt]. intros m [-> | [-> | [-> | []]]] [X | [X | [X | []]]]; discriminate.
Qed.

(** A deleted node is still answered: the cache is keyed by address and the deletion goes by name. *)
Theorem C38_deleted_refuted : exists w st, nreach (fun _ => false) (fun x => x) (bs "a") (fun _ _ l => l) 60 w st /\ n_live w = [] /\ getNodeName st (bs "10.0.0.1") = Some (bs "a").
Proof.
  eexists _, _. split.
  - eapply (N_step _ _ _ _ _ _ _ O 0); [|eapply (NW_delete _ (nodeAt "a" "10.0.0.1"))].
    + eapply (N_step _ _ _ _ _ _ _ O 0); [apply N_start|eapply NW_add; [|apply (nodeAt_announces "a" "10.0.0.1")|discriminate]]. reflexivity.
    + reflexivity.
  - split; reflexivity.
Qed.
Print Assumptions C38_deleted_refuted.
(** So is the former address of a node that changed it. *)
Theorem C38_former_address_refuted : exists w st, nreach (fun _ => false) (fun x => x) (bs "a") (fun _ _ l => l) 60 w st /\
  n_live w = [(bs "a", nodeAt "a" "10.0.0.9")] /\ getNodeName st (bs "10.0.0.1") = Some (bs "a").
Proof.
  eexists _, _. split.
  - eapply (N_step _ _ _ _ _ _ _ O 0); [|eapply (NW_update _ (nodeAt "a" "10.0.0.1") (nodeAt "a" "10.0.0.9")); [|reflexivity|apply (nodeAt_announces "a" "10.0.0.9")|]].
    + eapply (N_step _ _ _ _ _ _ _ O 0); [apply N_start|eapply NW_add; [|apply (nodeAt_announces "a" "10.0.0.1")|discriminate]]. reflexivity.
    + reflexivity.
    + intros m y N G A. cbn [nput n_live nw0 aset aget] in G. case_eqb m (nd_name (nodeAt "a" "10.0.0.1")); [apply N; assumption|discriminate].
  - split; reflexivity.
Qed.
Print Assumptions C38_former_address_refuted.
Example C38_named_history : exists w st, namedReach (fun _ => false) (fun x => x) (bs "a") (fun _ _ l => l) 60 w st /\ getNodeName st (bs "10.0.0.1") = Some (bs "10.0.0.1").
Proof.
  eexists _, _. split.
  - eapply (NR_step _ _ _ _ _ _ _ O 0); [apply NR_start|eapply NW_add; [|apply (nodeAt_announces "10.0.0.1" "10.0.0.1")|discriminate]; reflexivity|apply Na_add, nodeAt_announces].
  - reflexivity.
Qed.
