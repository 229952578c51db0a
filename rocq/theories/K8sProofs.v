(** Lemmas about the metadata caches. *)
From Coq Require Import Sorted.
From Verif Require Import Base Decimal CompareModel CompareProofs CompareProps K8sModel K8sSpec.
Open Scope string_scope. Open Scope list_scope. Open Scope Z_scope.

(** *** maps of maps *)
Section Maps.
  Context {A B V : Type} `{Eqb A} `{Eqb B}.
  Implicit Types m : list (A * list (B * V)).
  Lemma inner_aset m a i a' : inner (aset m a i) a' = if eqb a' a then i else inner m a'.
  Proof. unfold inner. rewrite aget_aset. destruct (eqb a' a); reflexivity. Qed.
  Lemma get2_put2 m a b v a' b' : get2 (put2 m a b v) a' b' = if eqb a' a && eqb b' b then Some v else get2 m a' b'.
  Proof.
    unfold get2, put2. rewrite inner_aset. destruct (eqb a' a) eqn:X; cbn [andb]; [|reflexivity].
    apply eqb_true in X. subst. rewrite aget_aset. reflexivity.
  Qed.
  Lemma get2_rem2 m a b a' b' : get2 (rem2 m a b) a' b' = if eqb a' a && eqb b' b then None else get2 m a' b'.
  Proof.
    unfold get2, rem2. destruct (aget m a) as [i|] eqn:G.
    - rewrite inner_aset. destruct (eqb a' a) eqn:X; cbn [andb]; [|reflexivity].
      apply eqb_true in X. subst. rewrite aget_adel. unfold inner. rewrite G. reflexivity.
    - destruct (eqb a' a) eqn:X; cbn [andb]; [|reflexivity]. apply eqb_true in X. subst. unfold inner. rewrite G. cbn [aget]. destruct (eqb b' b); reflexivity.
  Qed.
  Lemma get2_del2 m a b a' b' : get2 (del2 m a b) a' b' = if eqb a' a && eqb b' b then None else get2 m a' b'.
  Proof.
    unfold get2, del2. destruct (aget m a) as [i|] eqn:G.
    - destruct (adel i b) as [|x l] eqn:D.
      + unfold inner. rewrite aget_adel. destruct (eqb a' a) eqn:X; cbn [andb]; [|reflexivity].
        apply eqb_true in X. subst. rewrite G. cbn [aget]. destruct (eqb b' b) eqn:Y; [reflexivity|].
        pose proof (aget_adel i b b') as Z. rewrite D, Y in Z. exact Z.
      + rewrite inner_aset, <- D. destruct (eqb a' a) eqn:X; cbn [andb]; [|reflexivity].
        apply eqb_true in X. subst. rewrite aget_adel. unfold inner. rewrite G. reflexivity.
    - destruct (eqb a' a) eqn:X; cbn [andb]; [|reflexivity]. apply eqb_true in X. subst. unfold inner. rewrite G. cbn [aget]. destruct (eqb b' b); reflexivity.
  Qed.
End Maps.

(** *** keys of the host ports *)
Lemma app_colon_inj a b x y : forallb isDigit x = true -> forallb isDigit y = true -> a ++ [58] ++ x = b ++ [58] ++ y -> a = b /\ x = y.
Proof.
  revert b. induction a as [|c a IH]; intros b X Y E.
  - destruct b as [|d b]; [cbn [app] in E; inversion E; auto|]. exfalso. cbn [app] in E. inversion E; subst.
    rewrite forallb_app in X. cbn [forallb] in X. rewrite !andb_true_iff in X. destruct X as (_ & X & _). discriminate.
  - destruct b as [|d b].
    + exfalso. cbn [app] in E. inversion E; subst. rewrite forallb_app in Y. cbn [forallb] in Y. rewrite !andb_true_iff in Y. destruct Y as (_ & Y & _). discriminate.
    + cbn [app] in E. inversion E; subst. destruct (IH b X Y H1) as (-> & ->). auto.
Qed.
Lemma w32_small z : 0 <= z < 2 ^ 32 -> w32 z = z.
Proof. intros B. unfold w32. apply Z.mod_small. exact B. Qed.
Lemma w32_range z : 0 <= w32 z < 2 ^ 32.
Proof. unfold w32. apply Z.mod_pos_bound. lia. Qed.
Lemma hostKey_inj a p b q : hostKey a p = hostKey b q -> a = b /\ w32 p = w32 q.
Proof.
  unfold hostKey. intros E. pose proof (w32_range p). pose proof (w32_range q).
  apply app_colon_inj in E; [|apply digits_all; lia|apply digits_all; lia]. destruct E as (-> & E). split; [reflexivity|].
  apply digits_inj in E; [exact E|lia|lia].
Qed.

(** *** heaps *)
Lemma podAt_old h x i : (i < List.length h)%nat -> podAt (h ++ [x]) i = podAt h i.
Proof. intros L. unfold podAt. apply app_nth1. exact L. Qed.
Lemma podAt_new h x : podAt (h ++ [x]) (List.length h) = x.
Proof. unfold podAt. rewrite app_nth2, Nat.sub_diag by lia. reflexivity. Qed.
Lemma upd_length {A} (f : A -> A) : forall h i, List.length (upd h i f) = List.length h.
Proof. induction h as [|x h IH]; intros [|i]; cbn [upd List.length]; auto. Qed.
Lemma nth_upd {A} (f : A -> A) d : forall h i j, nth j (upd h i f) d = if (Nat.eqb j i && Nat.ltb i (List.length h))%bool then f (nth j h d) else nth j h d.
Proof.
  induction h as [|x h IH]; intros i j; [destruct i, j; cbn; try reflexivity; rewrite andb_false_r; reflexivity|].
  destruct i as [|i], j as [|j]; cbn [upd nth List.length Nat.eqb]; [reflexivity|reflexivity|reflexivity|]. rewrite IH. reflexivity.
Qed.

(** *** AddPod *)
Definition isRecord (i : podInfo) (p : pod) : Prop := exists w svc, i = podRecord p w svc.
Lemma record_describes i p : isRecord i p -> describes i p.
Proof. intros (w & svc & ->). repeat split. Qed.

Definition newId (id : nat) (l : list (bytes * bytes)) (c : bytes) (info : cinfo) : Prop :=
  c <> [] /\ ci_id info = c /\ ci_pod info = id /\ exists full, In (ci_name info, full) l /\ TruncateContainerId full = c.
Lemma addCids_get id : forall l m c,
  (exists info, aget (addCids id l m) c = Some info /\ newId id l c info) \/
  ((forall n f, In (n, f) l -> TruncateContainerId f = c -> c = []) /\ aget (addCids id l m) c = aget m c).
Proof.
  induction l as [|[n f] l IH]; intros m c; cbn [addCids]; [right; split; [intros ? ? []|reflexivity]|].
  destruct (IH (if eqb (TruncateContainerId f) [] then m else aset m (TruncateContainerId f) {| ci_id := TruncateContainerId f; ci_name := n; ci_hostports := []; ci_pod := id |}) c) as [(info & E & C & I1 & I2 & full & I3 & I4) | (N & E)].
  - left. exists info. split; [exact E|]. split; [exact C|]. split; [exact I1|]. split; [exact I2|]. exists full. split; [right; exact I3|exact I4].
  - destruct (Eqb_dec c (TruncateContainerId f)) as [X | X].
    + case_eqb (TruncateContainerId f) (@nil Z).
      * right. split; [|exact E]. intros n' f' I T. congruence.
      * left. eexists. rewrite E, X, aget_aset_same. split; [reflexivity|]. split; [exact E0|]. split; [reflexivity|]. split; [reflexivity|].
        exists f. split; [left; reflexivity|reflexivity].
    + right. split; [intros n' f' [I | I] T; [inversion I; subst; congruence|eapply N; eassumption]|].
      rewrite E. destruct (eqb (TruncateContainerId f) []); [reflexivity|]. apply aget_aset_other. exact X.
Qed.

Lemma addPorts_ips ip hostip c : forall l m ip' p,
  (get2 (fst (addPorts ip hostip c l m)) ip' p = Some c /\ ip' = ip /\ exists q, In q l /\ p = w32 (pt_container q)) \/
  ((ip' = ip -> forall q, In q l -> p <> w32 (pt_container q)) /\ get2 (fst (addPorts ip hostip c l m)) ip' p = get2 (fst m) ip' p).
Proof.
  induction l as [|q l IH]; intros m ip' p; cbn [addPorts]; [right; split; [intros _ ? []|reflexivity]|].
  match goal with |- context [addPorts ip hostip c l ?m'] => destruct (IH m' ip' p) as [(E & I & q' & Q & P) | (N & E)] end.
  - left. split; [exact E|]. split; [exact I|]. exists q'. split; [right; exact Q|exact P].
  - rewrite E. cbn [fst]. rewrite get2_put2. case_eqb ip' ip; cbn [andb].
    + subst. case_eqb p (w32 (pt_container q)).
      * left. split; [reflexivity|]. split; [reflexivity|]. exists q. split; [left; reflexivity|assumption].
      * right. split; [intros _ q' [<- | I]; [assumption|apply N; auto]|reflexivity].
    + right. split; [congruence|reflexivity].
Qed.
Lemma addPorts_hosts ip hostip c : forall l m key,
  (aget (snd (addPorts ip hostip c l m)) key = Some c /\ exists q, In q l /\ pt_host q <> 0 /\ key = hostKey hostip (pt_host q)) \/
  ((forall q, In q l -> pt_host q <> 0 -> key <> hostKey hostip (pt_host q)) /\ aget (snd (addPorts ip hostip c l m)) key = aget (snd m) key).
Proof.
  induction l as [|q l IH]; intros m key; cbn [addPorts]; [right; split; [intros ? []|reflexivity]|].
  match goal with |- context [addPorts ip hostip c l ?m'] => destruct (IH m' key) as [(E & q' & Q & P) | (N & E)] end.
  - left. split; [exact E|]. exists q'. split; [right; exact Q|exact P].
  - rewrite E. cbn [snd]. destruct (pt_host q =? 0) eqn:Z0.
    + right. split; [|reflexivity]. intros q' [<- | I] NZ; [lia|apply N; auto].
    + rewrite aget_aset. case_eqb key (hostKey hostip (pt_host q)).
      * left. split; [reflexivity|]. exists q. split; [left; reflexivity|]. split; [lia|assumption].
      * right. split; [intros q' [<- | I] NZ; [assumption|apply N; auto]|reflexivity].
Qed.

Definition newAddr (id : nat) (many : bool) (l : list container) (p : Z) (info : cinfo) : Prop :=
  ci_pod info = id /\ exists t, In t l /\
    ((ct_ports t = [] /\ p = 0 /\ ci_name info = if many then [] else ct_name t) \/ (exists q, In q (ct_ports t) /\ p = w32 (pt_container q) /\ ci_name info = ct_name t)).
Definition declared (l : list container) (p : Z) : Prop :=
  exists t, In t l /\ ((ct_ports t = [] /\ p = 0) \/ exists q, In q (ct_ports t) /\ p = w32 (pt_container q)).
Lemma addContainers_ips id many ip hostip : forall l m ip' p,
  (exists info, get2 (fst (addContainers id many ip hostip l m)) ip' p = Some info /\ ip' = ip /\ newAddr id many l p info) \/
  ((ip' = ip -> ~ declared l p) /\ get2 (fst (addContainers id many ip hostip l m)) ip' p = get2 (fst m) ip' p).
Proof.
  induction l as [|t l IH]; intros m ip' p; cbn [addContainers]; [right; split; [intros _ (? & [] & _)|reflexivity]|].
  match goal with |- context [addContainers id many ip hostip l ?m'] => destruct (IH m' ip' p) as [(info & E & I & P & t' & T & C) | (N & E)] end.
  - left. exists info. split; [exact E|]. split; [exact I|]. split; [exact P|]. exists t'. split; [right; exact T|exact C].
  - destruct (ct_ports t) as [|q0 ps] eqn:CP.
    + cbn [fst] in E. rewrite E, get2_put2. case_eqb ip' ip; cbn [andb].
      * subst. case_eqb p 0.
        -- left. eexists. split; [reflexivity|]. split; [reflexivity|]. split; [reflexivity|]. exists t. split; [left; reflexivity|]. left. auto.
        -- right. split; [|reflexivity]. intros _ (t' & [<- | T] & C); [|apply N; [reflexivity|]; exists t'; auto].
           rewrite CP in C. destruct C as [(_ & X) | (q & [] & _)]. congruence.
      * right. split; [congruence|reflexivity].
    + rewrite E. set (c := {| ci_id := []; ci_name := ct_name t; ci_hostports := hostPortMap (q0 :: ps); ci_pod := id |}) in *.
      destruct (addPorts_ips ip hostip c (q0 :: ps) m ip' p) as [(E1 & I & q & Q & P) | (N1 & E1)].
      * left. exists c. split; [exact E1|]. split; [exact I|]. split; [reflexivity|]. exists t. split; [left; reflexivity|]. right. exists q. rewrite CP. auto.
      * right. split; [|exact E1]. intros X (t' & [<- | T] & C); [|apply N; [exact X|]; exists t'; auto].
        rewrite CP in C. destruct C as [(Y & _) | (q & Q & P)]; [discriminate|]. apply (N1 X q Q P).
Qed.
Definition newHost (id : nat) (hostip : bytes) (l : list container) (key : bytes) (info : cinfo) : Prop :=
  ci_pod info = id /\ exists t q, In t l /\ In q (ct_ports t) /\ pt_host q <> 0 /\ key = hostKey hostip (pt_host q) /\ ci_name info = ct_name t /\ ci_hostports info = hostPortMap (ct_ports t).
Lemma addContainers_hosts id many ip hostip : forall l m key,
  (exists info, aget (snd (addContainers id many ip hostip l m)) key = Some info /\ newHost id hostip l key info) \/
  ((forall t q, In t l -> In q (ct_ports t) -> pt_host q <> 0 -> key <> hostKey hostip (pt_host q)) /\ aget (snd (addContainers id many ip hostip l m)) key = aget (snd m) key).
Proof.
  induction l as [|t l IH]; intros m key; cbn [addContainers]; [right; split; [intros ? ? []|reflexivity]|].
  match goal with |- context [addContainers id many ip hostip l ?m'] => destruct (IH m' key) as [(info & E & P & t' & q & T & C) | (N & E)] end.
  - left. exists info. split; [exact E|]. split; [exact P|]. exists t', q. split; [right; exact T|exact C].
  - destruct (ct_ports t) as [|q0 ps] eqn:CP.
    + cbn [snd] in E. right. split; [|exact E]. intros t' q [<- | T] Q; [rewrite CP in Q; destruct Q|eapply N; eassumption].
    + rewrite E. set (c := {| ci_id := []; ci_name := ct_name t; ci_hostports := hostPortMap (q0 :: ps); ci_pod := id |}) in *.
      destruct (addPorts_hosts ip hostip c (q0 :: ps) m key) as [(E1 & q & Q & NZ & P) | (N1 & E1)].
      * left. exists c. split; [exact E1|]. split; [reflexivity|]. exists t, q. rewrite CP. cbn [c ci_name ci_hostports]. split; [left; reflexivity|]. auto.
      * right. split; [|exact E1]. intros t' q [<- | T] Q NZ; [rewrite CP in Q; apply N1; assumption|eapply N; eassumption].
Qed.
Lemma hostPortMap_get l p : (exists q, In q l /\ pt_host q <> 0 /\ pt_host q = p) -> exists q, In q l /\ pt_host q = p /\ aget (hostPortMap l) p = Some (pt_container q).
Proof.
  unfold hostPortMap. intros (q & Q & NZ & P).
  assert (G : forall l m, (exists q, In q l /\ pt_host q = p) \/ aget m p <> None ->
    exists v, aget (fold_left (fun m q => if pt_host q =? 0 then m else aset m (pt_host q) (pt_container q)) l m) p = Some v /\
      ((exists q, In q l /\ pt_host q = p /\ v = pt_container q) \/ aget m p = Some v)).
  { induction l0 as [|a l0 IH]; intros m Z; cbn [fold_left].
    - destruct (aget m p) as [v|] eqn:E; [eauto|]. destruct Z as [(x & [] & _) | Z]; congruence.
    - assert (Z' : (exists q, In q l0 /\ pt_host q = p) \/ aget (if pt_host a =? 0 then m else aset m (pt_host a) (pt_container a)) p <> None).
      { destruct Z as [(x & [<- | I] & X) | Z]; [|left; eauto|].
        - right. replace (pt_host a =? 0) with false by lia. rewrite X, aget_aset_same. discriminate.
        - right. destruct (pt_host a =? 0); [exact Z|]. rewrite aget_aset. destruct (eqb p (pt_host a)); [discriminate|exact Z]. }
      destruct (IH _ Z') as (v & E & D). exists v. split; [exact E|]. destruct D as [(x & I & X) | D]; [left; exists x; split; [right; exact I|exact X]|].
      destruct (pt_host a =? 0); [right; exact D|]. rewrite aget_aset in D. case_eqb p (pt_host a); [|right; exact D].
      left. exists a. split; [left; reflexivity|]. split; [congruence|congruence]. }
  destruct (G l [] (or_introl (ex_intro _ q (conj Q P)))) as (v & E & [(x & I & X & ->) | D]); [eauto|discriminate].
Qed.

Section Proofs.
  Context (builtIn : bytes -> bool) (lower : bytes -> bytes) (myNode : bytes) (it : forall A : Type, nat -> list A -> list A).
  Notation addPod := (addPod builtIn lower myNode it).

  Lemma addPod_pods n p st : exists r, k_pods (addPod n p st) = k_pods st ++ [r] /\ isRecord r p.
  Proof.
    unfold K8sModel.addPod. eexists. split; [|eexists _, _; reflexivity]. destruct (eqb (pd_ip p) []); reflexivity.
  Qed.
  Lemma addPod_gpods n p st : k_gpods (addPod n p st) = put2 (k_gpods st) (pd_ns p) (pd_name p) (List.length (k_pods st)).
  Proof. unfold K8sModel.addPod. destruct (eqb (pd_ip p) []); reflexivity. Qed.
  Lemma addPod_queue n p st : k_queue (addPod n p st) = k_queue st.
  Proof. unfold K8sModel.addPod. destruct (eqb (pd_ip p) []); reflexivity. Qed.

  Definition kvalid (k : claim) : Prop := match k with CHost _ p => 0 <= p < 2 ^ 32 | _ => True end.
  Lemma addPod_lookup n p st k : portsOk p -> kvalid k ->
    (claims p k /\ exists info, lookup (addPod n p st) k = Some info /\ ci_pod info = List.length (k_pods st) /\ rightContainer p k info) \/
    (~ claims p k /\ lookup (addPod n p st) k = lookup st k).
  Proof.
    intros (PO & _ & _) V. destruct k as [c | ip q | ip q]; cbn [lookup claims rightContainer kvalid] in *.
    - unfold K8sModel.addPod. match goal with |- context [k_cids (setGpods ?s _ _)] => replace (k_cids (setGpods s _ _)) with (addCids (List.length (k_pods st)) (pd_statuses p) (k_cids st)) by (destruct (eqb (pd_ip p) []); reflexivity) end.
      destruct (addCids_get (List.length (k_pods st)) (pd_statuses p) (k_cids st) c) as [(info & E & C & I1 & I2 & full & I3 & I4) | (N & E)].
      + left. split; [split; [exact C|exists (ci_name info), full; auto]|]. exists info. split; [exact E|]. split; [exact I2|]. split; [exact I1|]. exists full. auto.
      + right. split; [|exact E]. intros (NC & name & full & I & T). apply NC. eapply N; eassumption.
    - unfold K8sModel.addPod. case_eqb (pd_ip p) (@nil Z); [right; split; [tauto|reflexivity]|]. cbn [setGpods setAddrs k_ips setCids setHeaps k_hosts].
      match goal with |- context [addContainers ?id ?many ?i ?h ?l ?m] => destruct (addContainers_ips id many i h l m ip q) as [(info & E1 & -> & P & t & T & C) | (N & E1)] end.
      + left. split.
        { split; [exact E|]. split; [reflexivity|]. exists t. split; [exact T|]. destruct C as [(C1 & C2 & _) | (x & X & C2 & _)]; [auto|]. right. exists x. split; [exact X|].
          destruct (PO t x T X). rewrite w32_small in C2 by lia. exact C2. }
        exists info. split; [exact E1|]. split; [exact P|]. destruct C as [(C1 & C2 & C3) | (x & X & C2 & C3)].
        * left. split; [exact C2|]. exists t. split; [exact T|]. split; [exact C1|]. split; intros L.
          -- rewrite L in C3. replace (1 <? zlen [t]) with false in C3 by reflexivity. exact C3.
          -- unfold zlen in C3. replace (1 <? Z.of_nat (List.length (pd_containers p))) with true in C3 by lia. exact C3.
        * right. exists t, x. destruct (PO t x T X). rewrite w32_small in C2 by lia. auto.
      + right. split; [|exact E1]. intros (_ & X & t & T & C). apply N; [congruence|]. exists t. split; [exact T|]. destruct C as [C | (x & I & C)]; [auto|].
        right. exists x. destruct (PO t x T I). rewrite w32_small by lia. auto.
    - unfold getContainerByHostIpPort, K8sModel.addPod. case_eqb (pd_ip p) (@nil Z); [right; split; [tauto|reflexivity]|]. cbn [setGpods setAddrs k_ips setCids setHeaps k_hosts].
      match goal with |- context [addContainers ?id ?many ?i ?h ?l ?m] => destruct (addContainers_hosts id many i h l m (hostKey ip q)) as [(info & E1 & P & t & x & T & X & NZ & K & C1 & C2) | (N & E1)] end.
      + left. apply hostKey_inj in K. destruct K as (-> & K). destruct (PO t x T X) as (_ & PX). rewrite (w32_small q), (w32_small (pt_host x)) in K by lia.
        split; [split; [exact E|split; [reflexivity|exists t, x; auto]]|]. exists info. split; [exact E1|]. split; [exact P|].
        destruct (hostPortMap_get (ct_ports t) q) as (y & Y1 & Y2 & Y3); [exists x; split; [exact X|split; [exact NZ|congruence]]|].
        exists t, y. split; [exact T|]. split; [exact Y1|]. split; [exact Y2|]. split; [exact C1|]. rewrite C2. exact Y3.
      + right. split; [|exact E1]. intros (_ & X & t & x & T & I & NZ & C). apply (N t x T I NZ). congruence.
  Qed.

End Proofs.

Section Deletions.
  Context (it : forall A : Type, nat -> list A -> list A).
  Definition uidOf (st : kstate) (c : cinfo) : bytes := pi_uid (podAt (k_pods st) (ci_pod c)).
  Definition dclaims (d : delInfo) (k : claim) : Prop :=
    match k with
    | CId c => In c (di_cids d)
    | CAddr ip p => di_ip d <> [] /\ ip = di_ip d /\ exists q, In q (di_ports d) /\ p = w32 q
    | CHost ip p => di_hostip d <> [] /\ ip = di_hostip d /\ exists q, In q (di_hostports d) /\ w32 p = w32 q
    end.
  Lemma delPorts_frame uid ip : forall l n st, k_pods (delPorts it n uid ip l st) = k_pods st /\ k_cids (delPorts it n uid ip l st) = k_cids st /\
    k_hosts (delPorts it n uid ip l st) = k_hosts st /\ k_gpods (delPorts it n uid ip l st) = k_gpods st /\ k_queue (delPorts it n uid ip l st) = k_queue st /\
    k_work (delPorts it n uid ip l st) = k_work st.
  Proof.
    induction l as [|p l IH]; intros n st; cbn [delPorts]; [auto 10|].
    match goal with |- context [delPorts it (S n) uid ip l ?s] => destruct (IH (S n) s) as (-> & -> & -> & -> & -> & ->) end.
    destruct (getContainerByIpPort it n st ip (w32 p)); [|auto 10]. destruct (eqb _ uid); auto 10.
  Qed.
  Lemma delPorts_get uid ip : forall l n st ip' p,
    (get2 (k_ips (delPorts it n uid ip l st)) ip' p = None /\ ip' = ip /\ (exists q, In q l /\ p = w32 q) /\ exists c, get2 (k_ips st) ip' p = Some c /\ uidOf st c = uid) \/
    (get2 (k_ips (delPorts it n uid ip l st)) ip' p = get2 (k_ips st) ip' p /\
     ~ (ip' = ip /\ (exists q, In q l /\ p = w32 q) /\ exists c, get2 (k_ips st) ip' p = Some c /\ uidOf st c = uid)).
  Proof.
    induction l as [|p0 l IH]; intros n st ip' p; cbn [delPorts]; [right; split; [reflexivity|]; intros (_ & (q & [] & _) & _)|].
    set (s1 := match getContainerByIpPort it n st ip (w32 p0) with None => st | Some c => if eqb (pi_uid (podAt (k_pods st) (ci_pod c))) uid then setAddrs st (del2 (k_ips st) ip (w32 p0)) (k_hosts st) else st end).
    assert (H : k_pods s1 = k_pods st). { unfold s1. destruct (getContainerByIpPort _ _ _ _ _); [|reflexivity]. destruct (eqb _ uid); reflexivity. }
    assert (S1 : (get2 (k_ips s1) ip' p = None /\ ip' = ip /\ p = w32 p0 /\ exists c, get2 (k_ips st) ip' p = Some c /\ uidOf st c = uid) \/
      (get2 (k_ips s1) ip' p = get2 (k_ips st) ip' p /\ ~ (ip' = ip /\ p = w32 p0 /\ exists c, get2 (k_ips st) ip' p = Some c /\ uidOf st c = uid))).
    { unfold s1, getContainerByIpPort. fold (get2 (k_ips st) ip (w32 p0)). destruct (get2 (k_ips st) ip (w32 p0)) as [c|] eqn:G.
      - case_eqb (pi_uid (podAt (k_pods st) (ci_pod c))) uid.
        + cbn [setAddrs k_ips]. rewrite get2_del2. case_eqb ip' ip; case_eqb p (w32 p0); cbn [andb]; try (right; split; [reflexivity|]; tauto).
          left. subst. split; [reflexivity|]. split; [reflexivity|]. split; [reflexivity|]. exists c. auto.
        + right. split; [reflexivity|]. intros (-> & -> & c' & G' & U). assert (c' = c) by congruence. subst c'. apply E. exact U.
      - assert (D : get2 (del2 (k_ips st) ip (w32 p0)) ip' p = get2 (k_ips st) ip' p).
        { rewrite get2_del2. case_eqb ip' ip; case_eqb p (w32 p0); cbn [andb]; try reflexivity. subst. symmetry. exact G. }
        right. split.
        + match goal with |- context [match ?o with Some c => _ | None => st end] => destruct o as [c|]; [|reflexivity] end. destruct (eqb _ uid); [exact D|reflexivity].
        + intros (-> & -> & c & G' & _). congruence. }
    destruct (IH (S n) s1 ip' p) as [(E & I & (q & Q & P) & c & G & U) | (E & N)].
    - left. split; [exact E|]. split; [exact I|]. split; [exists q; split; [right; exact Q|exact P]|].
      destruct S1 as [(X & _) | (X & _)]; [congruence|]. exists c. split; [congruence|]. unfold uidOf in *. rewrite H in U. exact U.
    - destruct S1 as [(X & -> & -> & c & G & U) | (X & N1)].
      + left. split; [congruence|]. split; [reflexivity|]. split; [exists p0; split; [left; reflexivity|reflexivity]|]. eauto.
      + right. split; [congruence|]. intros (I & (q & [<- | Q] & P) & c & G & U); [apply N1; eauto|]. apply N. split; [exact I|]. split; [eauto|]. exists c. split; [congruence|].
        unfold uidOf in *. rewrite H. exact U.
  Qed.
  Lemma delHosts_frame uid ip : forall l st, k_pods (delHostPorts uid ip l st) = k_pods st /\ k_cids (delHostPorts uid ip l st) = k_cids st /\
    k_ips (delHostPorts uid ip l st) = k_ips st /\ k_gpods (delHostPorts uid ip l st) = k_gpods st /\ k_queue (delHostPorts uid ip l st) = k_queue st /\
    k_work (delHostPorts uid ip l st) = k_work st.
  Proof.
    induction l as [|p l IH]; intros st; cbn [delHostPorts]; [auto 10|].
    match goal with |- context [delHostPorts uid ip l ?s] => destruct (IH s) as (-> & -> & -> & -> & -> & ->) end.
    destruct (getContainerByHostIpPort st ip p); [|auto 10]. destruct (eqb _ uid); auto 10.
  Qed.
  Lemma delHosts_get uid ip : forall l st key,
    (aget (k_hosts (delHostPorts uid ip l st)) key = None /\ (exists q, In q l /\ key = hostKey ip q) /\ exists c, aget (k_hosts st) key = Some c /\ uidOf st c = uid) \/
    (aget (k_hosts (delHostPorts uid ip l st)) key = aget (k_hosts st) key /\
     ~ ((exists q, In q l /\ key = hostKey ip q) /\ exists c, aget (k_hosts st) key = Some c /\ uidOf st c = uid)).
  Proof.
    induction l as [|p0 l IH]; intros st key; cbn [delHostPorts]; [right; split; [reflexivity|]; intros ((q & [] & _) & _)|].
    set (s1 := match getContainerByHostIpPort st ip p0 with None => st | Some c => if eqb (pi_uid (podAt (k_pods st) (ci_pod c))) uid then setAddrs st (k_ips st) (adel (k_hosts st) (hostKey ip p0)) else st end).
    assert (H : k_pods s1 = k_pods st). { unfold s1. destruct (getContainerByHostIpPort _ _ _); [|reflexivity]. destruct (eqb _ uid); reflexivity. }
    assert (S1 : (aget (k_hosts s1) key = None /\ key = hostKey ip p0 /\ exists c, aget (k_hosts st) key = Some c /\ uidOf st c = uid) \/
      (aget (k_hosts s1) key = aget (k_hosts st) key /\ ~ (key = hostKey ip p0 /\ exists c, aget (k_hosts st) key = Some c /\ uidOf st c = uid))).
    { unfold s1, getContainerByHostIpPort. destruct (aget (k_hosts st) (hostKey ip p0)) as [c|] eqn:G.
      - case_eqb (pi_uid (podAt (k_pods st) (ci_pod c))) uid.
        + cbn [setAddrs k_hosts]. rewrite aget_adel. case_eqb key (hostKey ip p0); try (right; split; [reflexivity|]; tauto).
          left. subst. split; [reflexivity|]. split; [reflexivity|]. exists c. auto.
        + right. split; [reflexivity|]. intros (-> & c' & G' & U). assert (c' = c) by congruence. subst c'. apply E. exact U.
      - right. split; [reflexivity|]. intros (-> & c & G' & _). congruence. }
    destruct (IH s1 key) as [(E & (q & Q & P) & c & G & U) | (E & N)].
    - left. split; [exact E|]. split; [exists q; split; [right; exact Q|exact P]|].
      destruct S1 as [(X & _) | (X & _)]; [congruence|]. exists c. split; [congruence|]. unfold uidOf in *. rewrite H in U. exact U.
    - destruct S1 as [(X & -> & c & G & U) | (X & N1)].
      + left. split; [congruence|]. split; [exists p0; split; [left; reflexivity|reflexivity]|]. eauto.
      + right. split; [congruence|]. intros ((q & [<- | Q] & P) & c & G & U); [apply N1; eauto|]. apply N. split; [eauto|]. exists c. split; [congruence|].
        unfold uidOf in *. rewrite H. exact U.
  Qed.
  Lemma fold_adel {V} (l : list bytes) : forall (m : list (bytes * V)) c, aget (fold_left adel l m) c = if existsb (eqb c) l then None else aget m c.
  Proof.
    induction l as [|a l IH]; intros m c; cbn [fold_left existsb]; [reflexivity|]. rewrite IH, aget_adel.
    destruct (eqb c a); destruct (existsb (eqb c) l); reflexivity.
  Qed.
  Lemma existsb_eqb_in (c : bytes) l : existsb (eqb c) l = true <-> In c l.
  Proof.
    rewrite existsb_exists. split; [intros (x & I & E); apply eqb_true in E; subst; exact I|]. intros I. exists c. split; [exact I|apply eqb_refl].
  Qed.
  Lemma deletePodInfo_lookup n d st k : kvalid k ->
    (lookup (deletePodInfo it n d st) k = None /\ dclaims d k /\ exists c, lookup st k = Some c /\ (uidOf st c = di_uid d \/ isId k)) \/
    (lookup (deletePodInfo it n d st) k = lookup st k /\ ~ (dclaims d k /\ exists c, lookup st k = Some c /\ (uidOf st c = di_uid d \/ isId k))).
  Proof.
    intros V. unfold deletePodInfo.
    set (s1 := if eqb (di_name d) [] then st else _).
    assert (F1 : k_pods s1 = k_pods st /\ k_cids s1 = k_cids st /\ k_ips s1 = k_ips st /\ k_hosts s1 = k_hosts st).
    { unfold s1. destruct (eqb (di_name d) []); [auto|]. destruct (get2 _ _ _); auto. }
    destruct F1 as (P1 & C1 & I1 & H1). clearbody s1.
    set (s2 := setCids s1 (fold_left adel (di_cids d) (k_cids s1))).
    set (s3 := if eqb (di_ip d) [] then s2 else delPorts it n (di_uid d) (di_ip d) (di_ports d) s2).
    assert (P3 : k_pods s3 = k_pods st). { unfold s3. destruct (eqb (di_ip d) []); [exact P1|]. destruct (delPorts_frame (di_uid d) (di_ip d) (di_ports d) n s2) as (-> & _). exact P1. }
    destruct k as [c | ip q | ip q]; cbn [lookup dclaims kvalid isId] in *.
    - assert (X : k_cids (if eqb (di_hostip d) [] then s3 else delHostPorts (di_uid d) (di_hostip d) (di_hostports d) s3) = fold_left adel (di_cids d) (k_cids st)).
      { transitivity (k_cids s3).
        - destruct (eqb (di_hostip d) []); [reflexivity|]. destruct (delHosts_frame (di_uid d) (di_hostip d) (di_hostports d) s3) as (_ & -> & _). reflexivity.
        - unfold s3. destruct (eqb (di_ip d) []); [cbn [s2 setCids k_cids]; rewrite C1; reflexivity|].
          destruct (delPorts_frame (di_uid d) (di_ip d) (di_ports d) n s2) as (_ & -> & _). cbn [s2 setCids k_cids]. rewrite C1. reflexivity. }
      rewrite X, fold_adel. destruct (existsb (eqb c) (di_cids d)) eqn:EX.
      + apply existsb_eqb_in in EX. destruct (aget (k_cids st) c) as [x|] eqn:G.
        * left. split; [reflexivity|]. split; [exact EX|]. eauto.
        * right. split; [reflexivity|]. intros (_ & y & Y & _). congruence.
      + right. split; [reflexivity|]. intros (Y & _). apply existsb_eqb_in in Y. congruence.
    - assert (X : k_ips (if eqb (di_hostip d) [] then s3 else delHostPorts (di_uid d) (di_hostip d) (di_hostports d) s3) = k_ips s3).
      { destruct (eqb (di_hostip d) []); [reflexivity|]. destruct (delHosts_frame (di_uid d) (di_hostip d) (di_hostports d) s3) as (_ & _ & -> & _). reflexivity. }
      rewrite X. unfold s3. case_eqb (di_ip d) (@nil Z).
      + right. split; [cbn [s2 setCids k_ips]; rewrite I1; reflexivity|]. tauto.
      + assert (I2 : k_ips s2 = k_ips st) by exact I1. assert (U2 : forall c, uidOf s2 c = uidOf st c) by (intros c; unfold uidOf, s2; cbn [setCids k_pods]; rewrite P1; reflexivity).
        destruct (delPorts_get (di_uid d) (di_ip d) (di_ports d) n s2 ip q) as [(G & I & Q & c & GC & U) | (G & N)]; rewrite I2 in *.
        * left. split; [exact G|]. split; [auto|]. exists c. split; [exact GC|]. left. rewrite <- U2. exact U.
        * right. split; [exact G|]. intros ((_ & I & Q) & c & GC & [U | []]). apply N. split; [exact I|]. split; [exact Q|]. exists c. rewrite U2. auto.
    - unfold getContainerByHostIpPort. case_eqb (di_hostip d) (@nil Z).
      + right. split; [|tauto]. unfold s3. destruct (eqb (di_ip d) []); [cbn [s2 setCids k_hosts]; rewrite H1; reflexivity|].
        destruct (delPorts_frame (di_uid d) (di_ip d) (di_ports d) n s2) as (_ & _ & -> & _). cbn [s2 setCids k_hosts]. rewrite H1. reflexivity.
      + assert (H3 : k_hosts s3 = k_hosts st).
        { unfold s3. destruct (eqb (di_ip d) []); [exact H1|]. destruct (delPorts_frame (di_uid d) (di_ip d) (di_ports d) n s2) as (_ & _ & -> & _). exact H1. }
        assert (U3 : forall c, uidOf s3 c = uidOf st c) by (intros c; unfold uidOf; rewrite P3; reflexivity).
        destruct (delHosts_get (di_uid d) (di_hostip d) (di_hostports d) s3 (hostKey ip q)) as [(G & (x & X & K) & c & GC & U) | (G & N)]; rewrite H3 in *.
        * left. split; [exact G|]. apply hostKey_inj in K. destruct K as (-> & K). split; [split; [exact E|split; [reflexivity|eauto]]|]. exists c. split; [exact GC|]. left. rewrite <- U3. exact U.
        * right. split; [exact G|]. intros ((_ & -> & x & X & K) & c & GC & [U | []]). apply N. split; [exists x; split; [exact X|unfold hostKey; rewrite K; reflexivity]|]. exists c. rewrite U3. auto.
  Qed.
  Lemma deletePodInfo_frame n d st : k_pods (deletePodInfo it n d st) = k_pods st /\ k_queue (deletePodInfo it n d st) = k_queue st /\
    forall a b, get2 (k_gpods (deletePodInfo it n d st)) a b = if (negb (eqb (di_name d) []) && (eqb a (di_ns d) && eqb b (di_name d)))%bool then None else get2 (k_gpods st) a b.
  Proof.
    unfold deletePodInfo. set (s1 := if eqb (di_name d) [] then st else _).
    assert (F1 : k_pods s1 = k_pods st /\ k_queue s1 = k_queue st /\
      forall a b, get2 (k_gpods s1) a b = if (negb (eqb (di_name d) []) && (eqb a (di_ns d) && eqb b (di_name d)))%bool then None else get2 (k_gpods st) a b).
    { unfold s1. destruct (eqb (di_name d) []); cbn [negb andb]; [auto|]. destruct (get2 (k_gpods st) (di_ns d) (di_name d)) as [id|] eqn:G.
      - cbn [setGpods k_pods k_queue k_gpods]. split; [reflexivity|]. split; [reflexivity|]. intros a b. apply get2_rem2.
      - split; [reflexivity|]. split; [reflexivity|]. intros a b. destruct (eqb a (di_ns d) && eqb b (di_name d))%bool eqn:X; [|reflexivity].
        apply andb_true_iff in X. destruct X as (X & Y). apply eqb_true in X. apply eqb_true in Y. subst. exact G. }
    clearbody s1. destruct F1 as (A & B & C).
    set (s2 := setCids s1 (fold_left adel (di_cids d) (k_cids s1))).
    set (s3 := if eqb (di_ip d) [] then s2 else delPorts it n (di_uid d) (di_ip d) (di_ports d) s2).
    assert (F3 : k_pods s3 = k_pods s1 /\ k_queue s3 = k_queue s1 /\ k_gpods s3 = k_gpods s1).
    { unfold s3. destruct (eqb (di_ip d) []); [auto|]. destruct (delPorts_frame (di_uid d) (di_ip d) (di_ports d) n s2) as (-> & _ & _ & -> & -> & _). auto. }
    destruct F3 as (A3 & B3 & C3). rewrite <- A, <- A3, <- B, <- B3.
    destruct (eqb (di_hostip d) []); [rewrite C3; auto|].
    destruct (delHosts_frame (di_uid d) (di_hostip d) (di_hostports d) s3) as (-> & _ & _ & -> & -> & _). rewrite C3. auto.
  Qed.
End Deletions.
