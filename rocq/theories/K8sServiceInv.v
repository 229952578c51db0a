(** Every pod is attributed to a service that selects it, while services are only added. *)
From Coq Require Import Permutation.
From Verif Require Import Base Decimal CompareModel K8sModel K8sSpec K8sProofs K8sInv K8sIter K8sServiceSpec K8sServiceProofs.
Open Scope string_scope. Open Scope list_scope. Open Scope Z_scope.

Definition linked (l : list ((bytes * bytes) * service)) (st : kstate) (i : podInfo) (p : pod) : Prop :=
  match pi_svc i with
  | Some j => exists s, aget l (svcKey s) = Some s /\ selects s p /\ get2 (k_gsvcs st) (sv_ns s) (sv_name s) = Some j
  | None => forall key s, aget l key = Some s -> ~ selects s p
  end.
Lemma linked_attributed l st i p : SInv l st -> linked l st i p -> attributed l st i p.
Proof.
  intros IV. unfold linked, attributed. destruct (pi_svc i) as [j|]; [|auto]. intros (s & A & B & C). exists s. split; [exact A|]. split; [exact B|].
  destruct (s_live _ _ IV _ _ _ A) as (x & X & Y). assert (x = j) by congruence. subst. exact Y.
Qed.

Section Inv.
  Context (builtIn : bytes -> bool) (lower : bytes -> bytes) (myNode : bytes) (it : forall A : Type, nat -> list A -> list A) (grace : Z).
  Notation addPod := (addPod builtIn lower myNode it).
  Lemma addPod_record n p st : exists w, podAt (k_pods (addPod n p st)) (List.length (k_pods st)) = podRecord p w (hd_error (servicesMatching it n st (pd_ns p) (pd_labels p))).
  Proof.
    eexists. unfold K8sModel.addPod. destruct (eqb (pd_ip p) []); cbn [setGpods setAddrs setCids setHeaps k_pods]; apply podAt_new.
  Qed.
  Lemma addPod_linked n p st l : ranges it -> SInv l st -> linked l (addPod n p st) (podAt (k_pods (addPod n p st)) (List.length (k_pods st))) p.
  Proof.
    intros RI IV. destruct (addPod_record n p st) as (w & ->). unfold linked. cbn [podRecord pi_svc].
    destruct (svcFrame_addPod builtIn lower myNode it n p st) as (-> & _).
    pose proof (servicesMatching_spec it l st n p RI IV) as M. destruct (servicesMatching it n st (pd_ns p) (pd_labels p)) as [|j r] eqn:E; cbn [hd_error].
    - intros key s G S. pose proof (s_key _ _ IV _ _ G) as K. subst key. destruct (s_live _ _ IV _ _ _ G) as (j & X & _). apply (M j). exists s. auto.
    - apply M. left. reflexivity.
  Qed.

  (** *** one service is attached *)
  Definition touched (id : nat) (t : bool) (p : podInfo) : podInfo := if t then withSvc id p else p.
  Lemma attach_pods id i st j : (i < List.length (k_pods st))%nat -> podAt (k_pods (attach id (Some i) st)) j = touched id (Nat.eqb j i) (podAt (k_pods st) j).
  Proof.
    intros L. cbn [attach setHeaps k_pods]. unfold podAt. rewrite nth_upd. replace (Nat.ltb i (List.length (k_pods st))) with true by (symmetry; apply Nat.ltb_lt; exact L).
    rewrite andb_true_r. destruct (Nat.eqb j i); reflexivity.
  Qed.
  Lemma touched_twice id a b p : touched id a (touched id b p) = touched id (a || b) p.
  Proof. destruct a, b; reflexivity. Qed.
  Lemma attachCids_pods id i : forall l st, (i < List.length (k_pods st))%nat -> (forall c, In c l -> exists info, aget (k_cids st) c = Some info /\ ci_pod info = i) ->
    forall j, podAt (k_pods (attachCids id l st)) j = touched id (Nat.eqb j i && negb (eqb l [])) (podAt (k_pods st) j).
  Proof.
    induction l as [|c l IH]; intros st L H j; cbn [attachCids]; [rewrite eqb_refl, andb_false_r; reflexivity|].
    destruct (H c (or_introl eq_refl)) as (info & G & P). unfold getPodByContainerId. rewrite G. cbn [option_map]. rewrite P.
    rewrite IH.
    - rewrite attach_pods by exact L. rewrite touched_twice. replace (eqb (c :: l) []) with false by reflexivity. cbn [negb]. rewrite andb_true_r. destruct (Nat.eqb j i); [destruct (negb _)|]; reflexivity.
    - cbn [attach setHeaps k_pods]. rewrite upd_length. exact L.
    - intros c' I. apply (H c'). right. exact I.
  Qed.
  Lemma attachPorts_pods id i ip : forall l n st, (i < List.length (k_pods st))%nat -> (forall x, In x l -> exists info, get2 (k_ips st) ip (w32 x) = Some info /\ ci_pod info = i) ->
    forall j, podAt (k_pods (attachPorts it n id ip l st)) j = touched id (Nat.eqb j i && negb (eqb l [])) (podAt (k_pods st) j).
  Proof.
    induction l as [|c l IH]; intros n st L H j; cbn [attachPorts]; [rewrite eqb_refl, andb_false_r; reflexivity|].
    destruct (H c (or_introl eq_refl)) as (info & G & P). unfold getPodByIpPort, getContainerByIpPort. fold (get2 (k_ips st) ip (w32 c)). rewrite G. cbn [option_map]. rewrite P.
    rewrite IH.
    - rewrite attach_pods by exact L. rewrite touched_twice. replace (eqb (c :: l) []) with false by reflexivity. cbn [negb]. rewrite andb_true_r. destruct (Nat.eqb j i); [destruct (negb _)|]; reflexivity.
    - cbn [attach setHeaps k_pods]. rewrite upd_length. exact L.
    - intros c' I. apply (H c'). right. exact I.
  Qed.
  Definition hits (st : kstate) (i : nat) : Prop := (i < List.length (k_pods st))%nat /\
    (forall c, In c (pi_cids (podAt (k_pods st) i)) -> exists info, aget (k_cids st) c = Some info /\ ci_pod info = i) /\
    (forall x, In x (pi_ports (podAt (k_pods st) i)) -> exists info, get2 (k_ips st) (pi_ip (podAt (k_pods st) i)) (w32 x) = Some info /\ ci_pod info = i).
  Definition hasEntry (p : podInfo) : bool := (negb (eqb (pi_cids p) []) || negb (eqb (pi_ports p) []))%bool.
  Lemma touched_fields id t p : pi_cids (touched id t p) = pi_cids p /\ pi_ports (touched id t p) = pi_ports p /\ pi_ip (touched id t p) = pi_ip p /\ pi_labels (touched id t p) = pi_labels p.
  Proof. destruct t; repeat split. Qed.
  Lemma hits_same id st st' i : sameBut st st' -> (forall j, exists t, podAt (k_pods st') j = touched id t (podAt (k_pods st) j)) -> hits st i -> hits st' i.
  Proof.
    intros (A & B & _ & _ & _ & (L & _)) T (H1 & H2 & H3). destruct (T i) as (t & E). destruct (touched_fields id t (podAt (k_pods st) i)) as (F1 & F2 & F3 & _).
    unfold hits. rewrite A, B, L, E, F1, F2, F3. auto.
  Qed.
  Lemma attachPods_pods id : forall l n st, (forall i, In i l -> hits st i) ->
    forall j, podAt (k_pods (attachPods it n id l st)) j = touched id (existsb (Nat.eqb j) l && hasEntry (podAt (k_pods st) j)) (podAt (k_pods st) j).
  Proof.
    induction l as [|i l IH]; intros n st H j; cbn [attachPods]; [reflexivity|].
    destruct (H i (or_introl eq_refl)) as (L & HC & HP). set (p := podAt (k_pods st) i) in *.
    set (s1 := attachCids id (pi_cids p) st). set (s2 := attachPorts it n id (pi_ip p) (pi_ports p) s1).
    pose proof (attachCids_pods id i (pi_cids p) st L HC) as E1. fold s1 in E1.
    pose proof (sameBut_attachCids id (pi_cids p) st) as B1. fold s1 in B1. pose proof B1 as (B1a & B1b & _ & _ & _ & (B1c & _)).
    assert (E2 : forall j, podAt (k_pods s2) j = touched id (Nat.eqb j i && negb (eqb (pi_ports p) [])) (podAt (k_pods s1) j)).
    { apply attachPorts_pods; [rewrite B1c; exact L|]. intros x X. rewrite B1b. apply HP. exact X. }
    assert (E3 : forall j, podAt (k_pods s2) j = touched id (Nat.eqb j i && hasEntry p) (podAt (k_pods st) j)).
    { intros k. rewrite E2, E1, touched_twice. unfold hasEntry. destruct (Nat.eqb k i); cbn [andb orb]; [|reflexivity]. rewrite orb_comm. reflexivity. }
    assert (SB : sameBut st s2) by (eapply sameBut_trans; [exact B1|apply sameBut_attachPorts]).
    rewrite IH.
    - rewrite E3. cbn [existsb]. destruct (touched_fields id (Nat.eqb j i && hasEntry p) (podAt (k_pods st) j)) as (F1 & F2 & _). unfold hasEntry at 1. rewrite F1, F2. fold (hasEntry (podAt (k_pods st) j)).
      rewrite touched_twice. destruct (Nat.eqb j i) eqn:EJ; cbn [andb orb]; [|rewrite orb_false_r; reflexivity].
      apply Nat.eqb_eq in EJ. subst j. fold p. destruct (hasEntry p); [rewrite orb_true_r; reflexivity|rewrite andb_false_r; reflexivity].
    - intros k K. eapply (hits_same id st s2 k); [exact SB|intros x; eexists; apply E3|apply H; right; exact K].
  Qed.
  Lemma addService_pods n s st j : (forall i, In i (podsMatching it n st (sv_ns s) (sv_selector s)) -> hits st i) ->
    podAt (k_pods (addService it n s st)) j =
      touched (List.length (k_svcs st)) (existsb (Nat.eqb j) (podsMatching it n st (sv_ns s) (sv_selector s)) && hasEntry (podAt (k_pods st) j)) (podAt (k_pods st) j).
  Proof.
    intros H. unfold addService. set (id := List.length (k_svcs st)).
    match goal with |- context [attachPods it (S n) id ?l ?s0] => pose proof (attachPods_pods id l (S n) s0) as A end.
    match goal with |- podAt (k_pods (if ?b then ?x else ?y)) j = _ => replace (k_pods (if b then x else y)) with (k_pods y) by (destruct b; reflexivity) end.
    apply A. exact H.
  Qed.

  (** *** GlobalPodInfo has one entry per name *)
  Lemma kstep_gpods_nd n now o st : nd2 (k_gpods st) -> nd2 (k_gpods (kstep builtIn lower myNode it grace n now o st)).
  Proof.
    intros N. assert (P : forall n p, nd2 (k_gpods (addPod n p st))) by (intros m p; rewrite addPod_gpods; apply nd2_put2; exact N).
    assert (D : forall n d s, nd2 (k_gpods s) -> nd2 (k_gpods (deletePodInfo it n d s))).
    { intros m d s NS. unfold deletePodInfo. set (s1 := if eqb (di_name d) [] then s else _).
      assert (N1 : nd2 (k_gpods s1)). { unfold s1. destruct (eqb (di_name d) []); [exact NS|]. destruct (get2 _ _ _); [|exact NS]. cbn [setGpods k_gpods]. apply nd2_rem2. exact NS. }
      clearbody s1. set (s2 := setCids s1 (fold_left adel (di_cids d) (k_cids s1))).
      set (s3 := if eqb (di_ip d) [] then s2 else delPorts it m (di_uid d) (di_ip d) (di_ports d) s2).
      assert (N3 : nd2 (k_gpods s3)). { unfold s3. destruct (eqb (di_ip d) []); [exact N1|]. destruct (delPorts_frame it (di_uid d) (di_ip d) (di_ports d) m s2) as (_ & _ & _ & -> & _). exact N1. }
      destruct (eqb (di_hostip d) []); [exact N3|]. destruct (delHosts_frame (di_uid d) (di_hostip d) (di_hostports d) s3) as (_ & _ & _ & -> & _). exact N3. }
    assert (DA : forall l n s, nd2 (k_gpods s) -> nd2 (k_gpods (deleteAll it n l s))) by (induction l as [|[d ts] l IH]; intros m s NS; cbn [deleteAll]; [exact NS|]; apply IH, D, NS).
    destruct o; try (match goal with |- nd2 (k_gpods (kstep _ _ _ _ _ _ _ ?o _)) => destruct (sameBut_other builtIn lower myNode it grace n now o st I) as (_ & _ & _ & -> & _) end; exact N); cbn [kstep].
    - apply P.
    - unfold updatePod. destruct (eqb _ _); [exact N|]. destruct (get2 _ _ _); [cbn [setQueue k_gpods]|]; apply P.
    - destruct o; exact N.
    - unfold deleteRound. apply DA. exact N.
  Qed.
  Lemma reach_gpods_nd ok w st : reach builtIn lower myNode it grace ok w st -> nd2 (k_gpods st).
  Proof. intros R. induction R; [intros a; constructor|]. apply kstep_gpods_nd. assumption. Qed.

  (** *** the invariant *)
  Definition AInv (w : world) (l : list ((bytes * bytes) * service)) (st : kstate) : Prop :=
    forall key v, aget (w_live w) key = Some v -> (exists k, claims v k) ->
      match get2 (k_gpods st) (pd_ns v) (pd_name v) with Some id => linked l st (podAt (k_pods st) id) v | None => True end.
  Lemma linked_frame l st st' i p : k_gsvcs st' = k_gsvcs st -> linked l st i p -> linked l st' i p.
  Proof. intros E. unfold linked. destruct (pi_svc i); [rewrite E|]; auto. Qed.
  Lemma ainv_put w w' l n p st q : ranges it -> SInv l st -> Inv w q st -> w_live w' = aset (w_live w) (podKey p) p -> AInv w l st -> AInv w' l (addPod n p st).
  Proof.
    intros RI SI IV EL AI key v G CL. rewrite EL, aget_aset in G. rewrite addPod_gpods, get2_put2. case_eqb key (podKey p).
    - inversion G; subst v. rewrite !eqb_refl. cbn [andb]. apply addPod_linked; assumption.
    - destruct (i_live _ _ _ IV key v G) as (K & _). pose proof (AI key v G CL) as X. pose proof (i_gids _ _ _ IV (pd_ns v) (pd_name v)) as L.
      destruct (addPod_pods builtIn lower myNode it n p st) as (r & HP & _).
      case_eqb (pd_ns v) (pd_ns p); case_eqb (pd_name v) (pd_name p); cbn [andb];
        try (destruct (get2 (k_gpods st) (pd_ns v) (pd_name v)) as [id|]; [|exact I]; rewrite HP, podAt_old by (apply L; reflexivity); eapply linked_frame; [apply svcFrame_addPod|exact X]).
      exfalso. apply E. rewrite K. unfold podKey. congruence.
  Qed.
  Lemma entry_claims v i : isRecord i v -> hasEntry i = true <-> exists k, claims v k.
  Proof.
    intros (w & svc & ->). unfold hasEntry. cbn [podRecord pi_cids pi_ports]. rewrite orb_true_iff, !negb_true_iff. split.
    - intros [E | E].
      + destruct (shortIds v) as [|c r] eqn:S; [rewrite eqb_refl in E; discriminate|]. exists (CId c). apply shortIds_in. rewrite S. left. reflexivity.
      + case_eqb (pd_ip v) (@nil Z); [rewrite eqb_refl in E; discriminate|]. destruct (podPorts v) as [|x r] eqn:S; [rewrite eqb_refl in E; discriminate|].
        exists (CAddr (pd_ip v) x). cbn [claims]. split; [exact E0|]. split; [reflexivity|]. apply podPorts_in. rewrite S. left. reflexivity.
    - intros ([c | ip x | ip x] & C).
      + left. apply shortIds_in in C. destruct (shortIds v); [destruct C|reflexivity].
      + right. destruct C as (N & _ & C). rewrite (proj2 (eqb_neq _ _) N). apply podPorts_in in C. destruct (podPorts v); [destruct C|reflexivity].
      + right. destruct C as (N & _ & c & q & C & Q & _). rewrite (proj2 (eqb_neq _ _) N).
        assert (X : In (pt_container q) (podPorts v)) by (apply podPorts_in; exists c; eauto). destruct (podPorts v); [destruct X|reflexivity].
  Qed.
  Lemma addService_effect w s n st : ranges it -> Inv w [] st -> shared w st -> nd2 (k_gpods st) -> (forall k, ~ w_spoiled w k) ->
    forall key v id, aget (w_live w) key = Some v -> (exists k, claims v k) -> get2 (k_gpods st) (pd_ns v) (pd_name v) = Some id ->
    exists b, podAt (k_pods (addService it n s st)) id = touched (List.length (k_svcs st)) b (podAt (k_pods st) id) /\ (b = true <-> selects s v).
  Proof.
    intros RI IV SH ND NS.
    assert (GP : forall a b i, get2 (k_gpods st) a b = Some i -> exists v, aget (w_live w) (a, b) = Some v /\ (a, b) = podKey v /\ isRecord (podAt (k_pods st) i) v).
    { intros a b i G. destruct (i_gstale _ _ _ IV a b i G) as [(v & L) | (d & ts & [] & _)]. exists v. split; [exact L|]. destruct (i_live _ _ _ IV _ _ L) as (K & _). split; [exact K|].
      pose proof (i_g _ _ _ IV _ _ L) as X. inversion K; subst. rewrite G in X. exact X. }
    assert (M : forall i, In i (podsMatching it n st (sv_ns s) (sv_selector s)) <-> exists b, get2 (k_gpods st) (sv_ns s) b = Some i /\ sv_selector s <> [] /\ forall k v, In (k, v) (sv_selector s) -> aget (pi_labels (podAt (k_pods st) i)) k = Some v).
    { intros i. unfold podsMatching. case_eqb (sv_selector s) (@nil (bytes * bytes)); [split; [intros []|intros (b & _ & X & _); congruence]|].
      rewrite filter_In, in_map_iff, match_iff. split.
      - intros (([b j] & <- & J) & X). cbn [snd] in *. apply (ranges_in it RI) in J. apply (get2_in (k_gpods st)) in J; [|exact ND]. eauto.
      - intros (b & G & _ & X). split; [|exact X]. exists (b, i). split; [reflexivity|]. apply (ranges_in it RI). apply (get2_in (k_gpods st)); assumption. }
    assert (H : forall i, In i (podsMatching it n st (sv_ns s) (sv_selector s)) -> hits st i).
    { intros i I. apply M in I. destruct I as (b & G & _). destruct (GP _ _ _ G) as (v & L & K & R). unfold podKey in K. inversion K; subst.
      assert (F : forall k, claims v k -> exists info, lookup st k = Some info /\ ci_pod info = i).
      { intros k C. destruct (i_found _ _ _ IV _ _ _ L C (NS k)) as (info & X1 & _). pose proof (SH _ _ _ _ L C (NS k) X1) as X2. exists info. split; [exact X1|]. rewrite H0 in G. rewrite G in X2. destruct X2 as [X2 | X2]; congruence. }
      destruct (i_live _ _ _ IV _ _ L) as (_ & PO & _).
      split; [apply (i_gids _ _ _ IV _ _ _ G)|]. destruct R as (w' & svc & ->). cbn [podRecord pi_cids pi_ports pi_ip]. split.
      - intros c C. apply shortIds_in in C. apply (F (CId c) C).
      - intros x X. case_eqb (pd_ip v) (@nil Z); [destruct X|]. pose proof (podPorts_range v x PO X). rewrite w32_small by lia. apply (F (CAddr (pd_ip v) x)). cbn [claims]. split; [exact E|]. split; [reflexivity|]. apply podPorts_in. exact X. }
    intros key v id L CL G. destruct (i_live _ _ _ IV _ _ L) as (K & _). pose proof (i_g _ _ _ IV _ _ L) as R. rewrite G in R.
    exists (existsb (Nat.eqb id) (podsMatching it n st (sv_ns s) (sv_selector s))).
    rewrite (addService_pods n s st id H). rewrite (proj2 (entry_claims v _ R) CL), andb_true_r. split; [reflexivity|].
    assert (LAB : pi_labels (podAt (k_pods st) id) = pd_labels v) by (destruct R as (? & ? & ->); reflexivity). split.
    - intros EX. apply existsb_exists in EX. destruct EX as (i & I & E). apply Nat.eqb_eq in E. subst i. apply M in I. destruct I as (b & G' & NE & LB). rewrite LAB in LB.
      destruct (GP _ _ _ G') as (v' & L' & K' & R'). destruct R as (? & ? & R), R' as (? & ? & R'). rewrite R in R'. unfold podRecord in R'. inversion R'. unfold podKey in K'. inversion K'.
      split; [congruence|split; [exact NE|exact LB]].
    - intros (A & B & C). apply existsb_exists. exists id. split; [|apply Nat.eqb_refl]. apply M. exists (pd_name v). rewrite A, LAB. auto.
  Qed.
  Lemma ainv_addService w l s n st : ranges it -> SInv l st -> Inv w [] st -> shared w st -> nd2 (k_gpods st) -> (forall k, ~ w_spoiled w k) -> aget l (svcKey s) = None ->
    AInv w l st -> AInv w (aset l (svcKey s) s) (addService it n s st).
  Proof.
    intros RI SI IV SH ND NS NL AI key v L CL. destruct (sameBut_addService it n s st) as (_ & _ & _ & -> & _).
    pose proof (AI key v L CL) as X. destruct (get2 (k_gpods st) (pd_ns v) (pd_name v)) as [id|] eqn:G; [|exact I].
    destruct (addService_effect w s n st RI IV SH ND NS key v id L CL G) as (b & -> & SB).
    destruct (addService_svcs it n s st) as (GE & _). destruct b.
    - pose proof (proj1 SB eq_refl) as S. unfold linked. cbn [touched withSvc pi_svc]. exists s. rewrite aget_aset_same. split; [reflexivity|]. split; [exact S|]. rewrite GE, get2_put2, !eqb_refl. reflexivity.
    - cbn [touched]. assert (NSel : ~ selects s v) by (intros S; apply SB in S; discriminate).
      unfold linked in *. destruct (pi_svc (podAt (k_pods st) id)) as [j|].
      + destruct X as (s' & A & B & C). exists s'. rewrite aget_aset. case_eqb (svcKey s') (svcKey s); [congruence|]. split; [exact A|]. split; [exact B|]. rewrite GE, get2_put2.
        case_eqb (sv_ns s') (sv_ns s); case_eqb (sv_name s') (sv_name s); cbn [andb]; try exact C. exfalso. apply E. unfold svcKey. congruence.
      + intros key' s' A. rewrite aget_aset in A. destruct (eqb key' (svcKey s)); [inversion A; subst; exact NSel|]. exact (X key' s' A).
  Qed.
  Lemma kstep_gsvcs n now o st : match o with OAddService _ | OUpdateService _ _ | ODeleteService _ => False | _ => True end -> k_gsvcs (kstep builtIn lower myNode it grace n now o st) = k_gsvcs st.
  Proof. intros O. apply (svcFrame_other builtIn lower myNode it grace n now o st O). Qed.
  Lemma deletePodInfo_g n d st : k_pods (deletePodInfo it n d st) = k_pods st /\
    forall a b, get2 (k_gpods (deletePodInfo it n d st)) a b = get2 (k_gpods st) a b \/ get2 (k_gpods (deletePodInfo it n d st)) a b = None.
  Proof.
    unfold deletePodInfo. set (s1 := if eqb (di_name d) [] then st else _).
    assert (N1 : k_pods s1 = k_pods st /\ forall a b, get2 (k_gpods s1) a b = get2 (k_gpods st) a b \/ get2 (k_gpods s1) a b = None).
    { unfold s1. destruct (eqb (di_name d) []); [auto|]. destruct (get2 _ _ _); [|auto]. cbn [setGpods k_pods k_gpods]. split; [reflexivity|].
      intros a b. rewrite get2_rem2. destruct (_ && _)%bool; auto. }
    clearbody s1. set (s2 := setCids s1 (fold_left adel (di_cids d) (k_cids s1))).
    set (s3 := if eqb (di_ip d) [] then s2 else delPorts it n (di_uid d) (di_ip d) (di_ports d) s2).
    assert (N3 : k_pods s3 = k_pods s1 /\ k_gpods s3 = k_gpods s1).
    { unfold s3. destruct (eqb (di_ip d) []); [split; reflexivity|]. destruct (delPorts_frame it (di_uid d) (di_ip d) (di_ports d) n s2) as (-> & _ & _ & -> & _). split; reflexivity. }
    destruct N3 as (A & C). rewrite <- A, <- C in N1.
    destruct (eqb (di_hostip d) []); [exact N1|]. destruct (delHosts_frame (di_uid d) (di_hostip d) (di_hostports d) s3) as (-> & _ & _ & -> & _). exact N1.
  Qed.
  Lemma deleteAll_g : forall l n st, k_pods (deleteAll it n l st) = k_pods st /\
    forall a b, get2 (k_gpods (deleteAll it n l st)) a b = get2 (k_gpods st) a b \/ get2 (k_gpods (deleteAll it n l st)) a b = None.
  Proof.
    induction l as [|[d ts] l IH]; intros n st; cbn [deleteAll]; [auto|].
    destruct (IH (n + List.length (di_ports d))%nat (deletePodInfo it n d st)) as (A & C). destruct (deletePodInfo_g n d st) as (A1 & C1).
    rewrite A. split; [exact A1|]. intros a b. destruct (C a b) as [-> | E]; [apply C1|auto].
  Qed.
  Lemma sreach_ainv w l st : 0 < grace -> ranges it -> sreach builtIn lower myNode it grace onlyAdded w l st -> AInv w l st.
  Proof.
    intros GP RI R. induction R as [|w l st n now o w' l' R AI S SS OK]; [intros key v G; discriminate|].
    pose proof (sreach_inv builtIn lower myNode it grace onlyAdded w l st R) as SI.
    pose proof (sreach_reach builtIn lower myNode it grace onlyAdded w l st R) as RR.
    destruct (reach_inv builtIn lower myNode it grace onlyAdded w st GP RR) as (IV & _). pose proof (reach_gpods_nd onlyAdded w st RR) as ND.
    assert (CP : forall w1 l1 s1, w_live w1 = w_live w -> l1 = l -> k_gpods s1 = k_gpods st -> k_pods s1 = k_pods st -> k_gsvcs s1 = k_gsvcs st -> AInv w1 l1 s1).
    { intros w1 l1 s1 E1 -> E2 E3 E4 key v G CL. rewrite E1 in G. rewrite E2, E3. pose proof (AI key v G CL) as X.
      destruct (get2 (k_gpods st) (pd_ns v) (pd_name v)); [|exact I]. eapply linked_frame; [exact E4|exact X]. }
    destruct o as [p|old new|p| |s|old new|s|r|old new|r|x|old new|x]; try (cbn [onlyAdded] in OK; contradiction);
      try (assert (l' = l) by (inversion SS; reflexivity); subst l');
      try (inversion S; subst; apply CP; [reflexivity|reflexivity|cbn [kstep]; unfold updateReplicaSet, addReplicaSet, deleteReplicaSet; try destruct r; try destruct x; try destruct (eqb _ _); try destruct (List.find _ _); reflexivity ..]).
    - inversion S; subst; try contradiction. cbn [kstep]. eapply ainv_put; [exact RI|exact SI|exact IV|reflexivity|exact AI].
    - inversion S; subst; try contradiction; cbn [kstep]; unfold updatePod.
      + rewrite eqb_refl. apply CP; reflexivity.
      + match goal with NE : pd_rv old <> pd_rv new |- _ => rewrite (proj2 (eqb_neq _ _) NE) end. assert (AA : AInv {| w_live := aset (w_live w) (podKey old) new; w_used := w_used w; w_retired := w_retired w; w_spoiled := w_spoiled w; w_reused := w_reused w; w_dead := w_dead w; w_now := now; w_round := now |} l (addPod n new st)).
        { eapply ainv_put; [exact RI|exact SI|exact IV|cbn [w_live]; match goal with KE : podKey new = podKey old |- _ => rewrite KE end; reflexivity|exact AI]. }
        destruct (get2 (k_gpods st) (pd_ns old) (pd_name old)); exact AA.
    - inversion S; subst; try contradiction; cbn [kstep deletePod]; [|apply CP; reflexivity].
      intros key v G CL. cbn [w_live] in G. rewrite aget_adel in G. destruct (eqb key (podKey p0)); [discriminate|]. exact (AI key v G CL).
    - inversion S; subst; try contradiction. cbn [kstep]. unfold deleteRound.
      intros key v G CL. cbn [w_live] in G. pose proof (AI key v G CL) as X.
      destruct (deleteAll_g (fst (expired grace now (k_queue st))) n (setQueue st (snd (expired grace now (k_queue st))))) as (A & C).
      cbn [setQueue k_pods k_gpods] in A, C. rewrite A. destruct (C (pd_ns v) (pd_name v)) as [-> | ->]; [|exact I].
      destruct (get2 (k_gpods st) (pd_ns v) (pd_name v)); [|exact I]. eapply linked_frame; [apply (kstep_gsvcs n now ODeleteRound st I)|exact X].
    - cbn [onlyAdded] in OK. destruct OK as (Q & NS & NR). rewrite Q in IV. inversion S; subst; try contradiction. inversion SS; subst; try contradiction. cbn [kstep].
      pose proof (ainv_addService w l s n st RI SI IV (reach_shared builtIn lower myNode it grace onlyAdded w st RR) ND NS ltac:(assumption) AI) as X. intros key v G CL. cbn [w_live] in G. exact (X key v G CL).
  Qed.
End Inv.
