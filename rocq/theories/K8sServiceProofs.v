(** Lemmas about services in the metadata caches. *)
From Coq Require Import Permutation.
From Verif Require Import Base Decimal CompareModel K8sModel K8sSpec K8sProofs K8sInv K8sIter K8sServiceSpec.
Open Scope string_scope. Open Scope list_scope. Open Scope Z_scope.

Lemma match_iff sel labels : selectorsMatchLabels sel labels = true <-> forall k v, In (k, v) sel -> aget labels k = Some v.
Proof.
  induction sel as [|[k v] sel IH]; cbn [selectorsMatchLabels]; [split; [intros _ k v []|reflexivity]|].
  destruct (aget labels k) as [v'|] eqn:G.
  - case_eqb v' v.
    + rewrite IH. subst. split; [intros H k' v' [E | I]; [inversion E; subst; exact G|apply H; exact I]|]. intros H k' v' I. apply H. right. exact I.
    + split; [discriminate|]. intros H. exfalso. specialize (H k v (or_introl eq_refl)). congruence.
  - split; [discriminate|]. intros H. specialize (H k v (or_introl eq_refl)). congruence.
Qed.

(** records of services, up to the workload *)
Definition svcSame (a b : svcInfo) : Prop := si_ip b = si_ip a /\ si_name b = si_name a /\ si_ns b = si_ns a /\ si_nodeport b = si_nodeport a /\ si_selector b = si_selector a.
Definition svcSim (h h' : list svcInfo) : Prop := List.length h' = List.length h /\ forall i, svcSame (svcAt h i) (svcAt h' i).
Lemma svcSim_refl h : svcSim h h.
Proof. split; [reflexivity|]. intros i. repeat split. Qed.
Lemma svcSim_trans a b c : svcSim a b -> svcSim b c -> svcSim a c.
Proof.
  intros (L1 & H1) (L2 & H2). split; [congruence|]. intros i. destruct (H1 i) as (A1 & A2 & A3 & A4 & A5), (H2 i) as (B1 & B2 & B3 & B4 & B5).
  repeat split; congruence.
Qed.
Lemma svcSim_upd h i k n : svcSim h (upd h i (withWorkload k n)).
Proof. split; [apply upd_length|]. intros j. unfold svcAt. rewrite nth_upd. destruct (_ && _)%bool; repeat split. Qed.
Lemma svcSim_fold k n : forall l h, svcSim h (fold_left (fun h i => upd h i (withWorkload k n)) l h).
Proof. induction l as [|i l IH]; intros h; cbn [fold_left]; [apply svcSim_refl|]. eapply svcSim_trans; [apply svcSim_upd|apply IH]. Qed.
Lemma isService_same a b s : svcSame a b -> isService a s -> isService b s.
Proof. intros (A1 & A2 & A3 & A4 & A5) (B1 & B2 & B3 & B4 & B5). repeat split; congruence. Qed.
Lemma svcAt_old h x i : (i < List.length h)%nat -> svcAt (h ++ [x]) i = svcAt h i.
Proof. intros L. unfold svcAt. apply app_nth1. exact L. Qed.
Lemma svcAt_new h x : svcAt (h ++ [x]) (List.length h) = x.
Proof. unfold svcAt. rewrite app_nth2, Nat.sub_diag by lia. reflexivity. Qed.

Section Services.
  Context (builtIn : bytes -> bool) (lower : bytes -> bytes) (myNode : bytes) (it : forall A : Type, nat -> list A -> list A) (grace : Z).
  Notation kstep := (kstep builtIn lower myNode it grace).

  Definition svcFrame (st st' : kstate) : Prop := k_gsvcs st' = k_gsvcs st /\ svcSim (k_svcs st) (k_svcs st').
  Lemma svcFrame_refl st : svcFrame st st.
  Proof. split; [reflexivity|apply svcSim_refl]. Qed.
  Lemma svcFrame_trans a b c : svcFrame a b -> svcFrame b c -> svcFrame a c.
  Proof. intros (A & B) (C & D). split; [congruence|eapply svcSim_trans; eassumption]. Qed.
  Lemma svcFrame_same st st' : k_gsvcs st' = k_gsvcs st -> k_svcs st' = k_svcs st -> svcFrame st st'.
  Proof. intros A B. split; [exact A|]. rewrite B. apply svcSim_refl. Qed.
  Lemma svcFrame_addPod n p st : svcFrame st (addPod builtIn lower myNode it n p st).
  Proof. unfold addPod. split; [destruct (eqb (pd_ip p) []); reflexivity|]. destruct (eqb (pd_ip p) []); apply svcSim_fold. Qed.
  Lemma svcFrame_deletePodInfo n d st : svcFrame st (deletePodInfo it n d st).
  Proof.
    assert (A : forall uid ip l n st, svcFrame st (delPorts it n uid ip l st)).
    { intros uid ip. induction l as [|p l IH]; intros m s; cbn [delPorts]; [apply svcFrame_refl|]. eapply svcFrame_trans; [|apply IH].
      destruct (getContainerByIpPort it m s ip (w32 p)); [|apply svcFrame_refl]. destruct (eqb _ uid); apply svcFrame_same; reflexivity. }
    assert (B : forall uid ip l st, svcFrame st (delHostPorts uid ip l st)).
    { intros uid ip. induction l as [|p l IH]; intros s; cbn [delHostPorts]; [apply svcFrame_refl|]. eapply svcFrame_trans; [|apply IH].
      destruct (getContainerByHostIpPort s ip p); [|apply svcFrame_refl]. destruct (eqb _ uid); apply svcFrame_same; reflexivity. }
    unfold deletePodInfo. set (s1 := if eqb (di_name d) [] then st else _).
    assert (F1 : svcFrame st s1). { unfold s1. destruct (eqb (di_name d) []); [apply svcFrame_refl|]. destruct (get2 _ _ _); apply svcFrame_same; reflexivity. }
    clearbody s1. set (s2 := setCids s1 _). assert (F2 : svcFrame st s2) by (eapply svcFrame_trans; [exact F1|apply svcFrame_same; reflexivity]).
    set (s3 := if eqb (di_ip d) [] then s2 else _). assert (F3 : svcFrame st s3) by (unfold s3; destruct (eqb (di_ip d) []); [exact F2|eapply svcFrame_trans; [exact F2|apply A]]).
    destruct (eqb (di_hostip d) []); [exact F3|eapply svcFrame_trans; [exact F3|apply B]].
  Qed.
  Lemma svcFrame_other n now o st : match o with OAddService _ | OUpdateService _ _ | ODeleteService _ => False | _ => True end -> svcFrame st (kstep n now o st).
  Proof.
    assert (D : forall l n st, svcFrame st (deleteAll it n l st)) by (induction l as [|[d ts] l IH]; intros m s; cbn [deleteAll]; [apply svcFrame_refl|]; eapply svcFrame_trans; [apply svcFrame_deletePodInfo|apply IH]).
    destruct o; intros O; try destruct O; cbn [K8sModel.kstep].
    - apply svcFrame_addPod.
    - unfold updatePod. destruct (eqb _ _); [apply svcFrame_refl|]. destruct (get2 _ _ _); [|apply svcFrame_addPod]. eapply svcFrame_trans; [apply svcFrame_addPod|apply svcFrame_same; reflexivity].
    - destruct o; [apply svcFrame_same; reflexivity|apply svcFrame_refl].
    - unfold deleteRound. eapply svcFrame_trans; [|apply D]. apply svcFrame_same; reflexivity.
    - unfold addReplicaSet. destruct (List.find _ _); apply svcFrame_same; reflexivity.
    - unfold updateReplicaSet. destruct (eqb _ _); [apply svcFrame_refl|]. unfold addReplicaSet. destruct (List.find _ _); apply svcFrame_same; reflexivity.
    - destruct o; apply svcFrame_same; reflexivity.
    - apply svcFrame_same; reflexivity.
    - apply svcFrame_same; reflexivity.
    - destruct o; apply svcFrame_same; reflexivity.
  Qed.
  Definition svcNew (s : service) : svcInfo := {| si_ip := sv_ip s; si_name := sv_name s; si_ns := sv_ns s; si_nodeport := sv_nodeport s; si_selector := sv_selector s; si_wkind := []; si_wname := [] |}.
  Lemma svcFrame_attachPods id : forall l n st, svcFrame st (attachPods it n id l st).
  Proof.
    assert (T : forall o st, svcFrame st (attach id o st)) by (intros [i|] s; [split; [reflexivity|apply svcSim_upd]|apply svcFrame_refl]).
    assert (C : forall l st, svcFrame st (attachCids id l st)) by (induction l as [|c l IH]; intros s; cbn [attachCids]; [apply svcFrame_refl|]; eapply svcFrame_trans; [apply T|apply IH]).
    assert (P : forall ip l n st, svcFrame st (attachPorts it n id ip l st)) by (intros ip; induction l as [|c l IH]; intros m s; cbn [attachPorts]; [apply svcFrame_refl|]; eapply svcFrame_trans; [apply T|apply IH]).
    induction l as [|i l IH]; intros n st; cbn [attachPods]; [apply svcFrame_refl|]. eapply svcFrame_trans; [apply C|]. eapply svcFrame_trans; [apply P|]. apply IH.
  Qed.
  Lemma addService_svcs n s st : k_gsvcs (addService it n s st) = put2 (k_gsvcs st) (sv_ns s) (sv_name s) (List.length (k_svcs st)) /\
    svcSim (k_svcs st ++ [svcNew s]) (k_svcs (addService it n s st)).
  Proof.
    unfold addService. set (id := List.length (k_svcs st)).
    match goal with |- context [attachPods it (S n) id ?l ?s0] => destruct (svcFrame_attachPods id l (S n) s0) as (A & B); set (x := attachPods it (S n) id l s0) in * end.
    destruct (hasClusterIp s); (split; [exact A|exact B]).
  Qed.
  Lemma deleteService_svcs n s st : k_gsvcs (deleteService it n (Some s) st) = k_gsvcs st /\
    k_svcs (deleteService it n (Some s) st) = match get2 (k_gsvcs st) (sv_ns s) (sv_name s) with Some i => upd (k_svcs st) i (fun _ => nilSvc) | None => k_svcs st end.
  Proof. cbn [deleteService]. destruct (get2 (k_gsvcs st) (sv_ns s) (sv_name s)); destruct (hasClusterIp s); split; reflexivity. Qed.

  Record SInv (l : list ((bytes * bytes) * service)) (st : kstate) : Prop := {
    s_nd : nd2 (k_gsvcs st);
    s_key : forall key s, aget l key = Some s -> key = svcKey s;
    s_id : forall a b i, get2 (k_gsvcs st) a b = Some i -> (i < List.length (k_svcs st))%nat;
    s_inj : forall a b a' b' i, get2 (k_gsvcs st) a b = Some i -> get2 (k_gsvcs st) a' b' = Some i -> (a, b) = (a', b');
    s_live : forall a b s, aget l (a, b) = Some s -> exists i, get2 (k_gsvcs st) a b = Some i /\ isService (svcAt (k_svcs st) i) s;
    s_gone : forall a b i, get2 (k_gsvcs st) a b = Some i -> aget l (a, b) = None -> si_selector (svcAt (k_svcs st) i) = [] }.
  Lemma sinv_frame l st st' : svcFrame st st' -> SInv l st -> SInv l st'.
  Proof.
    intros (A & L & B) IV. split; rewrite ?A, ?L; try apply IV.
    - intros a b s G. destruct (s_live _ _ IV a b s G) as (i & X & Y). exists i. split; [exact X|]. eapply isService_same; [apply B|exact Y].
    - intros a b i G N. destruct (B i) as (_ & _ & _ & _ & ->). apply (s_gone _ _ IV a b i G N).
  Qed.
  Lemma sinv_add l s n st : SInv l st -> SInv (aset l (svcKey s) s) (addService it n s st).
  Proof.
    intros IV. destruct (addService_svcs n s st) as (A & L & B). rewrite app_length in L. cbn [List.length] in L. split.
    - rewrite A. apply nd2_put2. apply IV.
    - intros key x. rewrite aget_aset. case_eqb key (svcKey s); intros G; [inversion G; subst; reflexivity|]. apply (s_key _ _ IV key x G).
    - intros a b i. rewrite A, get2_put2, L. destruct (_ && _)%bool; intros G; [inversion G; lia|]. pose proof (s_id _ _ IV a b i G). lia.
    - intros a b a' b' i. rewrite A, !get2_put2. case_eqb a (sv_ns s); case_eqb b (sv_name s); case_eqb a' (sv_ns s); case_eqb b' (sv_name s); cbn [andb]; intros G G';
        try (apply (s_inj _ _ IV a b a' b' i G G')); try congruence;
        try (inversion G; subst; pose proof (s_id _ _ IV _ _ _ G'); lia); try (inversion G'; subst; pose proof (s_id _ _ IV _ _ _ G); lia).
    - intros a b x. rewrite aget_aset, A. setoid_rewrite get2_put2. case_eqb (a, b) (svcKey s); intros G.
      + inversion E; subst. inversion G; subst. exists (List.length (k_svcs st)). rewrite !eqb_refl. split; [reflexivity|]. eapply isService_same; [apply B|]. rewrite svcAt_new. repeat split.
      + destruct (s_live _ _ IV a b x G) as (i & X & Y). exists i. case_eqb a (sv_ns s); case_eqb b (sv_name s); cbn [andb]; try (split; [exact X|]; eapply isService_same; [apply B|]; rewrite svcAt_old by (apply (s_id _ _ IV _ _ _ X)); exact Y).
        exfalso. apply E. subst. reflexivity.
    - intros a b i. rewrite aget_aset, A, get2_put2. case_eqb (a, b) (svcKey s); [intros _ X; discriminate|].
      case_eqb a (sv_ns s); case_eqb b (sv_name s); cbn [andb]; intros G N; try (destruct (B i) as (_ & _ & _ & _ & ->); rewrite svcAt_old by (apply (s_id _ _ IV _ _ _ G)); apply (s_gone _ _ IV a b i G N)).
      exfalso. apply E. subst. reflexivity.
  Qed.
  Lemma sinv_delete l s n st : SInv l st -> SInv (adel l (svcKey s)) (deleteService it n (Some s) st).
  Proof.
    intros IV. destruct (deleteService_svcs n s st) as (A & B).
    assert (L : List.length (k_svcs (deleteService it n (Some s) st)) = List.length (k_svcs st)) by (rewrite B; destruct (get2 _ _ _); [apply upd_length|reflexivity]).
    split; rewrite ?A, ?L; try apply IV.
    - intros key x. rewrite aget_adel. case_eqb key (svcKey s); [discriminate|]. apply (s_key _ _ IV key x).
    - intros a b x. rewrite aget_adel. case_eqb (a, b) (svcKey s); [discriminate|]. intros G. destruct (s_live _ _ IV a b x G) as (i & X & Y). exists i. split; [exact X|].
      rewrite B. destruct (get2 (k_gsvcs st) (sv_ns s) (sv_name s)) as [j|] eqn:J; [|exact Y]. unfold svcAt. rewrite nth_upd.
      destruct (Nat.eqb i j) eqn:EJ; cbn [andb]; [|exact Y]. apply Nat.eqb_eq in EJ. subst j. exfalso. apply E. apply (s_inj _ _ IV a b (sv_ns s) (sv_name s) i X J).
    - intros a b i G. rewrite aget_adel, B. case_eqb (a, b) (svcKey s); intros N.
      + inversion E; subst. rewrite G. unfold svcAt. rewrite nth_upd, Nat.eqb_refl. replace (Nat.ltb i (List.length (k_svcs st))) with true; [reflexivity|]. symmetry. apply Nat.ltb_lt. apply (s_id _ _ IV _ _ _ G).
      + pose proof (s_gone _ _ IV a b i G N) as X. destruct (get2 (k_gsvcs st) (sv_ns s) (sv_name s)) as [j|]; [|exact X]. unfold svcAt. rewrite nth_upd. destruct (_ && _)%bool; [reflexivity|exact X].
  Qed.
  Lemma sinv_ext l l' st : (forall k, aget l' k = aget l k) -> SInv l st -> SInv l' st.
  Proof.
    intros E IV. split; try apply IV.
    - intros key s. rewrite E. apply (s_key _ _ IV).
    - intros a b s. rewrite E. apply (s_live _ _ IV).
    - intros a b i. rewrite E. apply (s_gone _ _ IV).
  Qed.
  Lemma sinv_step l st n now o l' : SInv l st -> sstep l o l' -> SInv l' (kstep n now o st).
  Proof.
    intros IV S. inversion S; subst; clear S; cbn [K8sModel.kstep].
    - apply sinv_add. exact IV.
    - unfold updateService. rewrite eqb_refl. exact IV.
    - unfold updateService. rewrite (proj2 (eqb_neq _ _) H1). eapply sinv_ext; [|apply sinv_add; apply (sinv_delete l old n st IV)].
      intros k. rewrite <- H0, !aget_aset, aget_adel. destruct (eqb k (svcKey new)); reflexivity.
    - apply sinv_delete. exact IV.
    - exact IV.
    - change (SInv l' (kstep n now o st)). eapply sinv_frame; [apply svcFrame_other; exact H|exact IV].
  Qed.
  Lemma sinv_start : SInv [] k0.
  Proof. split; try discriminate. intros a. constructor. Qed.
  Lemma sreach_inv ok w l st : sreach builtIn lower myNode it grace ok w l st -> SInv l st.
  Proof. intros R. induction R; [apply sinv_start|]. eapply sinv_step; eassumption. Qed.
  Lemma sreach_reach ok w l st : sreach builtIn lower myNode it grace ok w l st -> reach builtIn lower myNode it grace ok w st.
  Proof. intros R. induction R; [apply R_start|]. eapply R_step; eassumption. Qed.

  (** the services a pod matches are the existing services that select it *)
  Lemma servicesMatching_spec l st n p : ranges it -> SInv l st -> forall i,
    In i (servicesMatching it n st (pd_ns p) (pd_labels p)) <-> exists s, aget l (svcKey s) = Some s /\ selects s p /\ get2 (k_gsvcs st) (sv_ns s) (sv_name s) = Some i.
  Proof.
    intros RI IV i. unfold servicesMatching. rewrite filter_In, in_map_iff, andb_true_iff, negb_true_iff, match_iff. split.
    - intros (([b j] & <- & I) & NE & M). cbn [snd] in *. apply (ranges_in it RI) in I. apply (get2_in (k_gsvcs st)) in I; [|apply IV].
      destruct (aget l (pd_ns p, b)) as [s|] eqn:G; [|rewrite (s_gone _ _ IV _ _ _ I G) in NE; rewrite eqb_refl in NE; discriminate].
      pose proof (s_key _ _ IV _ _ G) as K. inversion K; subst. destruct (s_live _ _ IV _ _ _ G) as (i & X & (_ & _ & _ & _ & Y)).
      assert (i = j) by congruence. subst j. rewrite Y in *. exists s. unfold svcKey. rewrite <- H0. split; [exact G|]. split; [|exact I].
      split; [congruence|]. split; [|exact M]. apply eqb_neq. exact NE.
    - intros (s & G & (NS & NE & M) & X). destruct (s_live _ _ IV _ _ _ G) as (j & Y & (_ & _ & _ & _ & Z)). assert (j = i) by congruence. subst j. rewrite Z. split.
      + exists (sv_name s, i). split; [reflexivity|]. apply (ranges_in it RI). apply (get2_in (k_gsvcs st)); [apply IV|]. rewrite <- NS. exact X.
      + split; [apply eqb_neq; exact NE|exact M].
  Qed.
End Services.
