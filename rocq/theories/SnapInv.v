(** What holds of a client that has loaded a snapshot and follows the events. *)
From Coq Require Import Permutation Sorted.
From Verif Require Import Base Decimal CompareModel K8sModel K8sSpec K8sProofs K8sInv K8sIter SnapModel SnapSpec SnapProofs.
Open Scope list_scope. Open Scope Z_scope.

(** the pods of a snapshot, as the client knows them *)
Definition erase (p : pod) : pod :=
  {| pd_uid := pd_uid p; pd_rv := pd_rv p; pd_ns := pd_ns p; pd_name := pd_name p; pd_labels := pd_labels p; pd_owners := pd_owners p; pd_node := pd_node p; pd_hostnet := false;
     pd_ip := pd_ip p; pd_hostip := pd_hostip p; pd_statuses := pd_statuses p; pd_containers := pd_containers p |}.
Definition alike (p q : pod) : Prop := q = p \/ q = erase p.
Lemma claims_erase p k : claims (erase p) k <-> claims p k.
Proof. destruct k; reflexivity. Qed.
Lemma portsOk_erase p : portsOk (erase p) <-> portsOk p.
Proof. reflexivity. Qed.
Lemma alike_fields p q : alike p q -> pd_uid q = pd_uid p /\ pd_rv q = pd_rv p /\ podKey q = podKey p /\ pd_ip q = pd_ip p /\ pd_hostip q = pd_hostip p.
Proof. intros [-> | ->]; repeat split. Qed.
Lemma alike_claims p q k : alike p q -> (claims q k <-> claims p k).
Proof. intros [-> | ->]; [reflexivity|apply claims_erase]. Qed.
Lemma alike_right p q k c : alike p q -> rightContainer q k c -> rightContainer p k c.
Proof. intros [-> | ->]; [auto|]. destruct k; exact (fun x => x). Qed.
Lemma alike_describes i p q : alike p q -> describes i q -> describesBut i p.
Proof. intros [-> | ->] (A & B & C & D & E & F & G & _); repeat split; assumption. Qed.

(** *** The container ids have one entry each *)
Section Nd.
  Context (builtIn : bytes -> bool) (lower : bytes -> bytes) (myNode : bytes) (it : forall A : Type, nat -> list A -> list A) (grace : Z).
  Lemma addCids_nd id : forall l m, NoDup (keys m) -> NoDup (keys (addCids id l m)).
  Proof. induction l as [|[a b] l IH]; intros m N; cbn [addCids]; [exact N|]. apply IH. destruct (eqb _ _); [exact N|apply NoDup_keys_aset; exact N]. Qed.
  Lemma addPod_cids n p st : k_cids (addPod builtIn lower myNode it n p st) = addCids (List.length (k_pods st)) (pd_statuses p) (k_cids st).
  Proof. unfold addPod. destruct (eqb (pd_ip p) []); reflexivity. Qed.
  Lemma fold_adel_nd {V} : forall l (m : list (bytes * V)), NoDup (keys m) -> NoDup (keys (fold_left adel l m)).
  Proof. induction l as [|c l IH]; intros m N; cbn [fold_left]; [exact N|]. apply IH, NoDup_keys_adel, N. Qed.
  Lemma deletePodInfo_cids n d st : k_cids (deletePodInfo it n d st) = fold_left adel (di_cids d) (k_cids st).
  Proof.
    unfold deletePodInfo. set (s1 := if eqb (di_name d) [] then st else _).
    assert (E : k_cids s1 = k_cids st) by (unfold s1; destruct (eqb (di_name d) []); [reflexivity|]; destruct (get2 _ _ _); reflexivity).
    clearbody s1. rewrite <- E. set (s2 := setCids s1 _). set (s3 := if eqb (di_ip d) [] then s2 else _).
    assert (E3 : k_cids s3 = k_cids s2) by (unfold s3; destruct (eqb (di_ip d) []); [reflexivity|]; apply delPorts_frame).
    destruct (eqb (di_hostip d) []); [exact E3|]. rewrite (proj1 (proj2 (delHosts_frame (di_uid d) (di_hostip d) (di_hostports d) s3))). exact E3.
  Qed.
  Lemma deleteAll_cids_nd : forall l n st, NoDup (keys (k_cids st)) -> NoDup (keys (k_cids (deleteAll it n l st))).
  Proof. induction l as [|[d ts] l IH]; intros n st N; cbn [deleteAll]; [exact N|]. apply IH. rewrite deletePodInfo_cids. apply fold_adel_nd. exact N. Qed.
  Lemma kstep_cids_nd n now o st : NoDup (keys (k_cids st)) -> NoDup (keys (k_cids (kstep builtIn lower myNode it grace n now o st))).
  Proof.
    intros N. destruct o; try (match goal with |- NoDup (keys (k_cids (kstep _ _ _ _ _ _ _ ?o _))) => destruct (sameBut_other builtIn lower myNode it grace n now o st I) as (-> & _) end; exact N); cbn [kstep].
    - rewrite addPod_cids. apply addCids_nd. exact N.
    - unfold updatePod. destruct (eqb _ _); [exact N|]. destruct (get2 _ _ _); cbn [setQueue k_cids]; rewrite addPod_cids; apply addCids_nd; exact N.
    - destruct o; exact N.
    - unfold deleteRound. apply deleteAll_cids_nd. exact N.
  Qed.
  Lemma reach_cids_nd ok w st : reach builtIn lower myNode it grace ok w st -> NoDup (keys (k_cids st)).
  Proof. intros R. induction R; [constructor|]. apply kstep_cids_nd. assumption. Qed.
End Nd.

(** *** The pods by name *)
Lemma podsOf_get ps : forall (cs : list (bytes * cinfo)) g a b id, get2 (fold_left (fun g e => let p := podAt ps (ci_pod (snd e)) in put2 g (pi_ns p) (pi_name p) (ci_pod (snd e))) cs g) a b = Some id ->
  get2 g a b = Some id \/ exists e, In e cs /\ ci_pod (snd e) = id /\ pi_ns (podAt ps id) = a /\ pi_name (podAt ps id) = b.
Proof.
  induction cs as [|e cs IH]; intros g a b id G; cbn [fold_left] in G; [auto|]. apply IH in G. destruct G as [G | (e' & I & X)]; [|right; exists e'; split; [right; exact I|exact X]].
  cbn zeta in G. rewrite get2_put2 in G. case_eqb a (pi_ns (podAt ps (ci_pod (snd e)))); case_eqb b (pi_name (podAt ps (ci_pod (snd e)))); cbn [andb] in G; try (left; exact G).
  right. exists e. assert (ci_pod (snd e) = id) by congruence. split; [left; reflexivity|]. subst id. auto.
Qed.
Lemma podsOf_has ps : forall (cs : list (bytes * cinfo)) g a b, (get2 g a b <> None \/ exists e, In e cs /\ pi_ns (podAt ps (ci_pod (snd e))) = a /\ pi_name (podAt ps (ci_pod (snd e))) = b) ->
  get2 (fold_left (fun g e => let p := podAt ps (ci_pod (snd e)) in put2 g (pi_ns p) (pi_name p) (ci_pod (snd e))) cs g) a b <> None.
Proof.
  induction cs as [|e cs IH]; intros g a b H; cbn [fold_left]; [destruct H as [H | (e & [] & _)]; exact H|]. apply IH. cbn zeta. rewrite get2_put2.
  destruct H as [H | (e' & [<- | I] & A & B)].
  - left. destruct (_ && _)%bool; [discriminate|exact H].
  - left. rewrite A, B, !eqb_refl. discriminate.
  - right. exists e'. auto.
Qed.

Lemma record_known ps ss ps' ss' c c' v : isRecord (podAt ps (ci_pod c)) v -> jsonC ps' ss' c' = jsonC ps ss c -> pi_hostnet (podAt ps' (ci_pod c')) = false ->
  isRecord (podAt ps' (ci_pod c')) (erase v).
Proof.
  intros (w & svc & E) J H. apply (f_equal jc_pod) in J. unfold jsonC in J. cbn [jc_pod] in J. rewrite E in J. exists w, (pi_svc (podAt ps' (ci_pod c'))).
  destruct (podAt ps' (ci_pod c')) as [x1 x2 x3 x4 x5 x6 x7 x8 x9 x10 x11 x12 x13 x14]. cbn [pi_hostnet pi_svc] in *. subst x13. unfold jsonPod, podRecord in J. cbn [pi_uid pi_ip pi_name pi_ports pi_hostports pi_cids pi_labels pi_wkind pi_wname pi_ns pi_node pi_nodeaddr] in J.
  unfold podRecord, erase. cbn [pd_uid pd_ip pd_name pd_hostip pd_ns pd_node pd_labels pd_hostnet].
  change (podPorts _) with (podPorts v). change (podHostPorts _) with (podHostPorts v). change (shortIds _) with (shortIds v).
  congruence.
Qed.

Lemma right_known ps ss ps' ss' c c' v k : rightContainer v k c -> jsonC ps' ss' c' = jsonC ps ss c -> rightContainer (erase v) k c'.
Proof.
  intros R J. pose proof (f_equal jc_id J) as J1. pose proof (f_equal jc_name J) as J2. pose proof (f_equal jc_hostports J) as J3. cbn [jsonC jc_id jc_name jc_hostports] in J1, J2, J3.
  destruct k; cbn [rightContainer] in *; rewrite ?J1, ?J2, ?J3; exact R.
Qed.

Definition eraseWorld (t : Z) (w : world) : world :=
  {| w_live := mapv erase (w_live w); w_used := w_used w; w_retired := w_retired w; w_spoiled := w_spoiled w; w_reused := w_reused w; w_dead := w_dead w; w_now := t; w_round := t |}.

Section Loaded.
  Context (client : bytes) (it : forall A : Type, nat -> list A -> list A).
  Lemma loaded_inv w st m t : ranges it -> Inv w [] st -> NoDup (keys (k_cids st)) -> settled w st -> Inv (eraseWorld t w) [] (load client it m (marshal st)).
  Proof.
    intros RI IV ND (_ & NR & NS & HC). fold (loaded client it m st). set (cl := loaded client it m st).
    pose proof (loaded_lookup client it m st) as LK. fold cl in LK. pose proof (loaded_valid client it m st) as LV. fold cl in LV.
    assert (TO : forall k info, lookup st k = Some info -> exists info', lookup cl k = Some info' /\ known cl info' = known st info).
    { intros k info G. specialize (LK k). rewrite G in LK. destruct (lookup cl k) as [i|]; [|discriminate]. exists i. cbn [option_map] in LK. split; [reflexivity|congruence]. }
    assert (FROM : forall k info', lookup cl k = Some info' -> exists info, lookup st k = Some info /\ known cl info' = known st info).
    { intros k info' G. specialize (LK k). rewrite G in LK. destruct (lookup st k) as [i|]; [|discriminate]. exists i. cbn [option_map] in LK. split; [reflexivity|congruence]. }
    assert (REC : forall k info' info v, lookup cl k = Some info' -> known cl info' = known st info -> isRecord (podAt (k_pods st) (ci_pod info)) v -> isRecord (podAt (k_pods cl) (ci_pod info')) (erase v)).
    { intros k info' info v G J R. eapply record_known; [exact R|exact J|]. apply (LV k info' G). }
    assert (LIVE : forall key v, aget (mapv erase (w_live w)) key = Some v -> exists v0, aget (w_live w) key = Some v0 /\ v = erase v0).
    { intros key v G. rewrite aget_mapv in G. destruct (aget (w_live w) key) as [v0|]; [|discriminate]. cbn [option_map] in G. exists v0. split; [reflexivity|congruence]. }
    assert (STALE : forall k info', kvalid k -> lookup cl k = Some info' -> exists key v, aget (w_live w) key = Some v /\ claims v k /\ isRecord (podAt (k_pods cl) (ci_pod info')) (erase v)).
    { intros k info' V G. destruct (FROM k info' G) as (info & G' & J). destruct (i_stale _ _ _ IV k info V G') as [X | [(key & v & X1 & X2 & X3 & X4) | (d & ts & [] & _)]]; [exfalso; exact (NR _ X)|].
      exists key, v. split; [exact X1|]. split; [exact X3|]. eapply REC; eassumption. }
    assert (NDC : NoDup (keys (k_cids cl))).
    { destruct (loaded_tables client it m st) as (A & _). fold cl in A. rewrite <- (keys_mapv (known cl)), A, keys_mapv. exact ND. }
    assert (ENT : forall e, In e (it _ m (k_cids cl)) -> lookup cl (CId (fst e)) = Some (snd e)).
    { intros [c i] I. cbn [lookup fst snd]. apply in_aget; [exact NDC|]. apply (ranges_in it RI) in I. exact I. }
    assert (GP : forall a b id, get2 (k_gpods cl) a b = Some id -> exists e, In e (it _ m (k_cids cl)) /\ ci_pod (snd e) = id /\ pi_ns (podAt (k_pods cl) id) = a /\ pi_name (podAt (k_pods cl) id) = b).
    { intros a b id G. destruct (podsOf_get (k_pods cl) (it _ m (k_cids cl)) [] a b id G) as [X | X]; [discriminate|exact X]. }
    assert (GL : forall a b id, get2 (k_gpods cl) a b = Some id -> exists v, aget (w_live w) (a, b) = Some v /\ isRecord (podAt (k_pods cl) id) (erase v)).
    { intros a b id G. destruct (GP a b id G) as (e & J & <- & A & B). destruct (STALE (CId (fst e)) _ I (ENT e J)) as (key & v & L & _ & R). exists v. destruct (i_live _ _ _ IV key v L) as (K & _).
      destruct (record_describes _ _ R) as (_ & R1 & R2 & _). cbn [erase pd_ns pd_name] in R1, R2. split; [|exact R]. rewrite <- A, <- B, R1, R2. change (pd_ns v, pd_name v) with (podKey v). rewrite <- K. exact L. }
    split; cbn [eraseWorld w_live w_used w_retired w_spoiled w_reused w_dead w_now w_round]; try (intros d ts; intros; contradiction).
    - intros k info G. apply (LV k info G).
    - intros a b id G. destruct (GP a b id G) as (e & I & <- & _). apply (LV _ _ (ENT e I)).
    - intros key v G. destruct (LIVE key v G) as (v0 & L & ->). exact (i_live _ _ _ IV key v0 L).
    - intros key v G. destruct (LIVE key v G) as (v0 & L & ->). cbn [erase pd_ns pd_name pd_uid]. destruct (i_live _ _ _ IV key v0 L) as (K & _).
      destruct (get2 (k_gpods cl) (pd_ns v0) (pd_name v0)) as [id|] eqn:GG.
      + destruct (GL _ _ _ GG) as (v1 & L1 & R1). rewrite K in L. unfold podKey in L. assert (v1 = v0) by congruence. subst v1. exact R1.
      + exfalso. destruct (HC key v0 L) as (c & C). destruct (i_found _ _ _ IV key v0 (CId c) L C (NS _)) as (info & G1 & R & _). destruct (TO _ _ G1) as (info' & G2 & J).
        pose proof (REC _ _ _ _ G2 J R) as R'. destruct (record_describes _ _ R') as (_ & R1 & R2 & _). cbn [erase pd_ns pd_name] in R1, R2.
        refine (podsOf_has (k_pods cl) (it _ m (k_cids cl)) [] (pd_ns v0) (pd_name v0) _ GG). right. exists (c, info'). cbn [fst snd]. split; [|auto].
        apply (ranges_in it RI). cbn [lookup] in G2. apply aget_in. exact G2.
    - intros key v k G CL NS'. destruct (LIVE key v G) as (v0 & L & ->). apply claims_erase in CL. destruct (i_found _ _ _ IV key v0 k L CL (NS _)) as (info & G1 & R & RC).
      destruct (TO _ _ G1) as (info' & G2 & J). exists info'. split; [exact G2|]. split; [eapply REC; eassumption|]. eapply right_known; [exact RC|exact J].
    - intros a b id G. left. destruct (GL a b id G) as (v & L & _). exists (erase v). rewrite aget_mapv, L. reflexivity.
    - intros k info V G. right. left. destruct (STALE k info V G) as (key & v & L & C & R). exists key, (erase v). rewrite aget_mapv, L. split; [reflexivity|].
      split; [|split; [apply claims_erase; exact C|exact R]]. symmetry. apply (record_describes _ _ R).
    - intros key v key' v' k G G' N C C'. destruct (LIVE key v G) as (v0 & L & ->), (LIVE key' v' G') as (v1 & L' & ->). eapply (i_two _ _ _ IV key v0 key' v1); eassumption || (apply claims_erase; assumption).
    - intros key v key' v' G G'. destruct (LIVE key v G) as (v0 & L & ->), (LIVE key' v' G') as (v1 & L' & ->). apply (i_distinct _ _ _ IV key v0 key' v1); assumption.
    - intros u x DT. destruct (i_dead _ _ _ IV u x DT) as (A & B). split; [exact A|]. intros key v G. destruct (LIVE key v G) as (v0 & L & ->). exact (B key v0 L).
  Qed.
  Lemma loaded_nd m st : nd2 (k_ips st) -> nd2 (k_ips (load client it m (marshal st))).
  Proof.
    intros N a. fold (loaded client it m st). destruct (loaded_tables client it m st) as (_ & B & _). specialize (N a).
    rewrite <- (keys_mapv (known (loaded client it m st))), <- inner_mapv, B, inner_mapv, keys_mapv. exact N.
  Qed.
End Loaded.

(** *** The client and the cluster *)
Record wsim (w we : world) : Prop := {
  s_live : forall key, match aget (w_live w) key, aget (w_live we) key with Some p, Some q => alike p q | None, None => True | _, _ => False end;
  s_used : w_used we = w_used w; s_ret : w_retired we = w_retired w; s_spoiled : forall k, w_spoiled we k <-> w_spoiled w k; s_reused : w_reused we = w_reused w;
  s_dead : w_dead we = w_dead w; s_now : w_now we = w_now w; s_round : w_round we = w_round w }.
Lemma wsim_load t w : wsim (atTime t w) (eraseWorld t w).
Proof.
  split; try reflexivity. intros key. cbn [atTime eraseWorld w_live]. rewrite aget_mapv. destruct (aget (w_live w) key); cbn [option_map]; [right; reflexivity|exact I].
Qed.
Lemma wsim_aset w we p l le : (forall key, match aget (w_live w) key, aget (w_live we) key with Some p, Some q => alike p q | None, None => True | _, _ => False end) ->
  l = aset (w_live w) (podKey p) p -> le = aset (w_live we) (podKey p) p -> forall key, match aget l key, aget le key with Some p, Some q => alike p q | None, None => True | _, _ => False end.
Proof. intros S -> -> key. rewrite !aget_aset. destruct (eqb key (podKey p)); [left; reflexivity|apply S]. Qed.
Lemma spoils_sim w we p k : wsim w we -> (spoils we p k <-> spoils w p k).
Proof.
  intros S. unfold spoils. rewrite (s_ret _ _ S). split; intros (C & [(key & q & N & G & D) | X]); (split; [exact C|]); try (right; exact X); left.
  - pose proof (s_live _ _ S key) as L. rewrite G in L. destruct (aget (w_live w) key) as [q0|] eqn:E; [|contradiction]. exists key, q0. split; [exact N|]. split; [exact E|]. apply (alike_claims q0 q k L). exact D.
  - pose proof (s_live _ _ S key) as L. rewrite G in L. destruct (aget (w_live we) key) as [q0|] eqn:E; [|contradiction]. exists key, q0. split; [exact N|]. split; [exact E|]. apply (alike_claims q q0 k L). exact D.
Qed.

Section Follows.
  Context (builtIn : bytes -> bool) (lower : bytes -> bytes) (provider client : bytes) (it it' : forall A : Type, nat -> list A -> list A) (grace grace' : Z).
  Notation kstep' := (kstep builtIn lower client it' grace').
  Lemma step_sim st now w we o w' n : wsim w we -> wstep st now w o w' -> exists oe we', wstep st now we oe we' /\ wsim w' we' /\ kstep' n now oe st = kstep' n now o st.
  Proof.
    intros S W. pose proof (s_live _ _ S) as SL. inversion W; subst; clear W.
    - eexists (OAddPod p), _. split; [apply W_add; rewrite ?(s_now _ _ S), ?(s_used _ _ S); try assumption|].
      { specialize (SL (podKey p)). rewrite H1 in SL. destruct (aget (w_live we) (podKey p)); [contradiction|reflexivity]. }
      split; [|reflexivity]. split; cbn [w_live w_used w_retired w_spoiled w_reused w_dead w_now w_round]; rewrite ?(s_used _ _ S), ?(s_ret _ _ S), ?(s_reused _ _ S), ?(s_dead _ _ S), ?(s_round _ _ S); try reflexivity.
      + eapply wsim_aset; [exact SL|reflexivity|reflexivity].
      + intros k. rewrite (s_spoiled _ _ S k), (spoils_sim w we p k S). reflexivity.
    - specialize (SL (podKey p)) as L. rewrite H0 in L. destruct (aget (w_live we) (podKey p)) as [q|] eqn:E; [|contradiction]. destruct (alike_fields p q L) as (A1 & A2 & A3 & A4 & A5).
      eexists (OUpdatePod q q), _. split; [apply W_resync; rewrite ?(s_now _ _ S), ?A3; assumption|].
      split; [|cbn [kstep]; unfold updatePod; rewrite !eqb_refl; reflexivity].
      split; cbn [w_live w_used w_retired w_spoiled w_reused w_dead w_now w_round]; try apply S; reflexivity.
    - specialize (SL (podKey old)) as L. rewrite H1 in L. destruct (aget (w_live we) (podKey old)) as [q|] eqn:E; [|contradiction]. destruct (alike_fields old q L) as (A1 & A2 & A3 & A4 & A5).
      eexists (OUpdatePod q new), _. split; [apply W_update; rewrite ?(s_now _ _ S), ?(s_used _ _ S), ?A1, ?A2, ?A3, ?A4, ?A5; assumption|].
      split.
      + split; cbn [w_live w_used w_retired w_spoiled w_reused w_dead w_now w_round]; rewrite ?(s_used _ _ S), ?(s_ret _ _ S), ?(s_reused _ _ S), ?(s_dead _ _ S), ?(s_round _ _ S), ?A1, ?A3; try reflexivity.
        * intros key. rewrite !aget_aset. destruct (eqb key (podKey old)); [left; reflexivity|apply SL].
        * destruct L as [-> | ->]; reflexivity.
        * intros k. rewrite (s_spoiled _ _ S k), (spoils_sim w we new k S). reflexivity.
      + destruct L as [-> | ->]; reflexivity.
    - specialize (SL (podKey p)) as L. rewrite H0 in L. destruct (aget (w_live we) (podKey p)) as [q|] eqn:E; [|contradiction]. destruct (alike_fields p q L) as (A1 & A2 & A3 & A4 & A5).
      eexists (ODeletePod (Some q)), _. split; [apply W_delete; rewrite ?(s_now _ _ S), ?A3; assumption|].
      split; [|destruct L as [-> | ->]; reflexivity].
      split; cbn [w_live w_used w_retired w_spoiled w_reused w_dead w_now w_round]; rewrite ?(s_used _ _ S), ?(s_ret _ _ S), ?(s_reused _ _ S), ?(s_dead _ _ S), ?(s_round _ _ S), ?A1, ?A3; try reflexivity.
      + intros key. rewrite !aget_adel. destruct (eqb key (podKey p)); [exact I|apply SL].
      + destruct L as [-> | ->]; reflexivity.
      + apply S.
    - eexists (ODeletePod None), _. split; [apply W_garbage; rewrite (s_now _ _ S); assumption|]. split; [|reflexivity]. split; cbn [w_live w_used w_retired w_spoiled w_reused w_dead w_now w_round]; try apply S; reflexivity.
    - eexists ODeleteRound, _. split; [apply W_deletions; rewrite (s_now _ _ S); assumption|]. split; [|reflexivity]. split; cbn [w_live w_used w_retired w_spoiled w_reused w_dead w_now w_round]; try apply S; reflexivity.
    - exists o. eexists. split; [apply W_other; [rewrite (s_now _ _ S); assumption|exact H0]|]. split; [|reflexivity]. split; cbn [w_live w_used w_retired w_spoiled w_reused w_dead w_now w_round]; try apply S; reflexivity.
  Qed.
  Lemma follows_inv w cl : ranges it' -> follows builtIn lower provider client it it' grace grace' w cl ->
    nd2 (k_ips cl) /\ exists we, wsim w we /\ Inv we (k_queue cl) cl /\ (0 < grace' -> qinv grace' we cl).
  Proof.
    intros RI F. induction F as [w st m t R ST | w cl n now o w' F (N & we & S & IV & QV) W].
    - pose proof (reach_inv0 builtIn lower provider it grace anyEvent w st R) as IV. pose proof ST as (Q & _). rewrite Q in IV.
      split; [apply loaded_nd; eapply reach_nd; exact R|]. exists (eraseWorld t w). split; [apply wsim_load|]. split.
      + change (k_queue (load client it' m (marshal st))) with (@nil (delInfo * Z)). apply loaded_inv; try assumption. eapply reach_cids_nd. exact R.
      + intros _. split; [reflexivity|]. split; constructor.
    - split; [apply kstep_nd; exact N|]. destruct (step_sim cl now w we o w' n S W) as (oe & we' & W' & S' & E). exists we'. split; [exact S'|]. rewrite <- E.
      destruct (step_inv builtIn lower client it' grace' we cl n now oe we' IV W') as (A & B). split; [exact A|]. intros GP. exact (B GP (QV GP)).
  Qed.
End Follows.
