(** The maps have one entry per key, so that ranging over one meets exactly what a lookup finds. *)
From Coq Require Import Permutation.
From Verif Require Import Base Decimal CompareModel K8sModel K8sSpec K8sProofs K8sInv.
Open Scope string_scope. Open Scope list_scope. Open Scope Z_scope.

Lemma ranges_in it : ranges it -> forall A n (l : list A) x, In x (it A n l) <-> In x l.
Proof. intros R A n l x. split; apply Permutation_in; [apply R|apply Permutation_sym, R]. Qed.

Definition nd2 {A B V} `{Eqb A} (m : list (A * list (B * V))) : Prop := forall a, NoDup (keys (inner m a)).
Section Nd.
  Context {A B V : Type} `{Eqb A} `{Eqb B}.
  Implicit Types m : list (A * list (B * V)).
  Lemma nd2_put2 m a b v : nd2 m -> nd2 (put2 m a b v).
  Proof. intros N x. unfold put2. rewrite inner_aset. destruct (eqb x a); [apply NoDup_keys_aset|]; apply N. Qed.
  Lemma nd2_rem2 m a b : nd2 m -> nd2 (rem2 m a b).
  Proof.
    intros N x. unfold rem2. destruct (aget m a) as [i|] eqn:G; [|apply N]. rewrite inner_aset. destruct (eqb x a); [|apply N].
    apply NoDup_keys_adel. specialize (N a). unfold inner in N. rewrite G in N. exact N.
  Qed.
  Lemma nd2_del2 m a b : nd2 m -> nd2 (del2 m a b).
  Proof.
    intros N x. unfold del2. destruct (aget m a) as [i|] eqn:G; [|apply N].
    assert (D : NoDup (keys (adel i b))). { apply NoDup_keys_adel. specialize (N a). unfold inner in N. rewrite G in N. exact N. }
    destruct (adel i b) as [|y l] eqn:X.
    - unfold inner. rewrite aget_adel. destruct (eqb x a); [constructor|]. apply N.
    - rewrite inner_aset. destruct (eqb x a); [exact D|apply N].
  Qed.
  Lemma get2_in m a b v : nd2 m -> (In (b, v) (inner m a) <-> get2 m a b = Some v).
  Proof. intros N. unfold get2. split; [intros I; apply in_aget; [apply N|exact I]|apply aget_in]. Qed.
End Nd.

Lemma addPorts_nd ip hostip c : forall l m, nd2 (fst m) -> nd2 (fst (addPorts ip hostip c l m)).
Proof. induction l as [|p l IH]; intros m N; cbn [addPorts]; [exact N|]. apply IH. cbn [fst]. apply nd2_put2. exact N. Qed.
Lemma addContainers_nd id many ip hostip : forall l m, nd2 (fst m) -> nd2 (fst (addContainers id many ip hostip l m)).
Proof.
  induction l as [|c l IH]; intros m N; cbn [addContainers]; [exact N|]. apply IH. destruct (ct_ports c); [cbn [fst]; apply nd2_put2; exact N|]. apply addPorts_nd. exact N.
Qed.

Section Iter.
  Context (builtIn : bytes -> bool) (lower : bytes -> bytes) (myNode : bytes) (it : forall A : Type, nat -> list A -> list A) (grace : Z).
  Lemma addPod_nd n p st : nd2 (k_ips st) -> nd2 (k_ips (addPod builtIn lower myNode it n p st)).
  Proof. intros N. unfold addPod. destruct (eqb (pd_ip p) []); [exact N|]. cbn [setGpods setAddrs k_ips setCids setHeaps]. apply addContainers_nd. exact N. Qed.
  Lemma delPorts_nd uid ip : forall l n st, nd2 (k_ips st) -> nd2 (k_ips (delPorts it n uid ip l st)).
  Proof.
    induction l as [|p l IH]; intros n st N; cbn [delPorts]; [exact N|]. apply IH. destruct (getContainerByIpPort it n st ip (w32 p)); [|exact N]. destruct (eqb _ uid); [|exact N].
    apply nd2_del2. exact N.
  Qed.
  Lemma deletePodInfo_nd n d st : nd2 (k_ips st) -> nd2 (k_ips (deletePodInfo it n d st)).
  Proof.
    intros N. unfold deletePodInfo. set (s1 := if eqb (di_name d) [] then st else _).
    assert (N1 : nd2 (k_ips s1)). { unfold s1. destruct (eqb (di_name d) []); [exact N|]. destruct (get2 _ _ _); exact N. }
    clearbody s1. set (s2 := setCids s1 (fold_left adel (di_cids d) (k_cids s1))).
    assert (N3 : nd2 (k_ips (if eqb (di_ip d) [] then s2 else delPorts it n (di_uid d) (di_ip d) (di_ports d) s2))) by (destruct (eqb (di_ip d) []); [exact N1|apply delPorts_nd; exact N1]).
    destruct (eqb (di_hostip d) []); [exact N3|]. match goal with |- context [delHostPorts ?u ?i ?l ?s] => destruct (delHosts_frame u i l s) as (_ & _ & -> & _) end. exact N3.
  Qed.
  Lemma deleteAll_nd : forall l n st, nd2 (k_ips st) -> nd2 (k_ips (deleteAll it n l st)).
  Proof. induction l as [|[d ts] l IH]; intros n st N; cbn [deleteAll]; [exact N|]. apply IH, deletePodInfo_nd, N. Qed.
  Lemma kstep_nd n now o st : nd2 (k_ips st) -> nd2 (k_ips (kstep builtIn lower myNode it grace n now o st)).
  Proof.
    intros N. destruct o; try (match goal with |- nd2 (k_ips (kstep _ _ _ _ _ _ _ ?o _)) => destruct (sameBut_other builtIn lower myNode it grace n now o st I) as (_ & -> & _) end; exact N); cbn [kstep].
    - apply addPod_nd. exact N.
    - unfold updatePod. destruct (eqb _ _); [exact N|]. destruct (get2 _ _ _); [|apply addPod_nd; exact N]. cbn [setQueue k_ips]. apply addPod_nd. exact N.
    - destruct o; exact N.
    - unfold deleteRound. apply deleteAll_nd. exact N.
  Qed.
  Lemma reach_nd ok w st : reach builtIn lower myNode it grace ok w st -> nd2 (k_ips st).
  Proof. intros R. induction R; [intros a; constructor|]. apply kstep_nd. assumption. Qed.

  (** what GetContainerByIpPort answers is an entry of the address, for that port or of a pod with its own network *)
  Lemma byIpPort_entry n st ip p c : ranges it -> nd2 (k_ips st) -> getContainerByIpPort it n st ip p = Some c ->
    exists q, get2 (k_ips st) ip q = Some c /\ (q = p \/ (get2 (k_ips st) ip p = None /\ pi_hostnet (podAt (k_pods st) (ci_pod c)) = false)).
  Proof.
    intros RI N G. unfold getContainerByIpPort in G. fold (get2 (k_ips st) ip p) in G. fold (get2 (k_ips st) ip 0) in G.
    destruct (get2 (k_ips st) ip p) as [c'|] eqn:G1; [exists p; split; [congruence|auto]|].
    destruct (get2 (k_ips st) ip 0) as [c'|] eqn:G0.
    - destruct (pi_hostnet (podAt (k_pods st) (ci_pod c'))) eqn:HN; [discriminate|]. assert (c' = c) by congruence. subst c'. exists 0. auto.
    - apply find_some in G. destruct G as (I & HN). apply in_map_iff in I. destruct I as ([q c'] & E & I). cbn [snd] in E. subst c'. apply (ranges_in it RI) in I. apply (get2_in (k_ips st)) in I; [|exact N].
      exists q. split; [exact I|]. right. split; [reflexivity|]. apply negb_true_iff. exact HN.
  Qed.
  (** an address with an entry of a pod with its own network answers for every port *)
  Lemma byIpPort_some n st ip p : ranges it -> nd2 (k_ips st) -> (exists q c, get2 (k_ips st) ip q = Some c) ->
    (forall q c, get2 (k_ips st) ip q = Some c -> pi_hostnet (podAt (k_pods st) (ci_pod c)) = false) -> getContainerByIpPort it n st ip p <> None.
  Proof.
    intros RI N (q & c & G) HN. unfold getContainerByIpPort. fold (get2 (k_ips st) ip p). fold (get2 (k_ips st) ip 0).
    destruct (get2 (k_ips st) ip p); [discriminate|]. destruct (get2 (k_ips st) ip 0) as [c0|] eqn:G0; [rewrite (HN _ _ G0); discriminate|].
    intros F. assert (I : In c (map snd (it (Z * cinfo)%type n (inner (k_ips st) ip)))).
    { apply in_map_iff. exists (q, c). split; [reflexivity|]. apply (ranges_in it RI). apply (get2_in (k_ips st)); assumption. }
    pose proof (find_none _ _ F c I) as X. cbn beta in X. rewrite (HN _ _ G) in X. discriminate.
  Qed.
  Lemma byIp_some n st ip : ranges it -> nd2 (k_ips st) -> (exists q c, get2 (k_ips st) ip q = Some c) ->
    (forall q c, get2 (k_ips st) ip q = Some c -> pi_hostnet (podAt (k_pods st) (ci_pod c)) = false) ->
    exists q c, get2 (k_ips st) ip q = Some c /\ getPodByIp it n st ip = Some (ci_pod c).
  Proof.
    intros RI N (q & c & G) HN. unfold getPodByIp.
    destruct (List.find _ _) as [x|] eqn:F.
    - apply find_some in F. destruct F as (I & _). apply in_map_iff in I. destruct I as ([q' c'] & E & I). cbn [snd] in E. subst c'. apply (ranges_in it RI) in I. apply (get2_in (k_ips st)) in I; [|exact N].
      exists q', x. split; [exact I|reflexivity].
    - assert (I : In c (map snd (it (Z * cinfo)%type n (inner (k_ips st) ip)))).
      { apply in_map_iff. exists (q, c). split; [reflexivity|]. apply (ranges_in it RI). apply (get2_in (k_ips st)); assumption. }
      pose proof (find_none _ _ F c I) as X. cbn beta in X. rewrite (HN _ _ G) in X. discriminate.
  Qed.
  Lemma byIp_entry n st ip i : ranges it -> nd2 (k_ips st) -> getPodByIp it n st ip = Some i ->
    exists q c, get2 (k_ips st) ip q = Some c /\ ci_pod c = i /\ pi_hostnet (podAt (k_pods st) i) = false.
  Proof.
    intros RI N G. unfold getPodByIp in G. destruct (List.find _ _) as [x|] eqn:F; [|discriminate]. cbn [option_map] in G. inversion G; subst i.
    apply find_some in F. destruct F as (I & HN). apply in_map_iff in I. destruct I as ([q' c'] & E & I). cbn [snd] in E. subst c'. apply (ranges_in it RI) in I. apply (get2_in (k_ips st)) in I; [|exact N].
    exists q', x. split; [exact I|]. split; [reflexivity|]. apply negb_true_iff. exact HN.
  Qed.
End Iter.
