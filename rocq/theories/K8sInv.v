(** What holds of the metadata caches after every history of the watches. *)
From Coq Require Import Sorted.
From Verif Require Import Base Decimal CompareModel CompareProofs CompareProps K8sModel K8sSpec K8sProofs.
Open Scope string_scope. Open Scope list_scope. Open Scope Z_scope.

Record Inv (w : world) (q : list (delInfo * Z)) (st : kstate) : Prop := {
  i_ids : forall k info, lookup st k = Some info -> (ci_pod info < List.length (k_pods st))%nat;
  i_gids : forall a b id, get2 (k_gpods st) a b = Some id -> (id < List.length (k_pods st))%nat;
  i_live : forall key v, aget (w_live w) key = Some v -> key = podKey v /\ portsOk v /\ w_used w (pd_uid v);
  i_g : forall key v, aget (w_live w) key = Some v ->
    match get2 (k_gpods st) (pd_ns v) (pd_name v) with Some id => isRecord (podAt (k_pods st) id) v | None => w_reused w (pd_uid v) end;
  i_found : forall key v k, aget (w_live w) key = Some v -> claims v k -> ~ w_spoiled w k ->
    exists info, lookup st k = Some info /\ isRecord (podAt (k_pods st) (ci_pod info)) v /\ rightContainer v k info;
  i_gstale : forall a b id, get2 (k_gpods st) a b = Some id -> (exists v, aget (w_live w) (a, b) = Some v) \/
    exists d ts, In (d, ts) q /\ di_name d <> [] /\ (di_ns d, di_name d) = (a, b);
  i_pend : forall d ts k key v, In (d, ts) q -> dclaims d k -> aget (w_live w) key = Some v -> claims v k -> di_uid d = pd_uid v \/ isId k -> w_spoiled w k;
  i_ret : forall d ts k, In (d, ts) q -> dclaims d k -> kvalid k -> w_retired w (di_uid d) k \/ (~ isId k /\ exists t, w_dead w (di_uid d) t);
  i_name : forall d ts v, In (d, ts) q -> di_name d <> [] -> aget (w_live w) (di_ns d, di_name d) = Some v -> w_reused w (pd_uid v);
  i_stale : forall k info, kvalid k -> lookup st k = Some info -> w_reused w (uidOf st info) \/
    (exists key v, aget (w_live w) key = Some v /\ pd_uid v = uidOf st info /\ claims v k /\ isRecord (podAt (k_pods st) (ci_pod info)) v) \/
    (exists d ts, In (d, ts) q /\ di_uid d = uidOf st info /\ dclaims d k);
  i_two : forall key v key' v' k, aget (w_live w) key = Some v -> aget (w_live w) key' = Some v' -> key <> key' -> claims v k -> claims v' k -> w_spoiled w k;
  i_distinct : forall key v key' v', aget (w_live w) key = Some v -> aget (w_live w) key' = Some v' -> pd_uid v = pd_uid v' -> key = key';
  i_dead : forall u t, w_dead w u t -> w_used w u /\ forall key v, aget (w_live w) key = Some v -> pd_uid v <> u;
  i_times : forall d ts t, In (d, ts) q -> w_dead w (di_uid d) t -> ts <= t;
  i_now : forall d ts, In (d, ts) q -> ts <= w_now w }.

Lemma claims_valid v k : portsOk v -> claims v k -> kvalid k.
Proof.
  intros (P & _ & _) C. destruct k as [c | ip p | ip p]; cbn [claims kvalid] in *; try exact I.
  destruct C as (_ & _ & c & x & C & X & _ & ->). destruct (P c x C X). lia.
Qed.
Lemma shortIds_in p c : In c (shortIds p) <-> claims p (CId c).
Proof.
  unfold shortIds. rewrite filter_In, in_map_iff. cbn [claims]. split.
  - intros (([n f] & <- & I) & N). cbn [snd] in *. split; [|exists n, f; auto]. intros X. rewrite X in N. discriminate.
  - intros (N & n & f & I & <-). split; [exists (n, f); auto|]. rewrite (proj2 (eqb_neq _ _)) by exact N. reflexivity.
Qed.
Lemma podPorts_in p x : In x (podPorts p) <-> exists c, In c (pd_containers p) /\ ((ct_ports c = [] /\ x = 0) \/ exists q, In q (ct_ports c) /\ x = pt_container q).
Proof.
  unfold podPorts. rewrite in_flat_map. split; intros (c & C & X); exists c; (split; [exact C|]); unfold containerPorts in *; destruct (ct_ports c) as [|q0 l] eqn:P.
  - destruct X as [<- | []]. auto.
  - right. apply in_map_iff in X. destruct X as (q & <- & Q). eauto.
  - destruct X as [(_ & ->) | (q & [] & _)]. left. reflexivity.
  - destruct X as [(X & _) | (q & Q & ->)]; [discriminate|]. apply in_map. exact Q.
Qed.
Lemma podHostPorts_in p x : In x (podHostPorts p) <-> exists c q, In c (pd_containers p) /\ In q (ct_ports c) /\ pt_host q <> 0 /\ x = pt_host q.
Proof.
  unfold podHostPorts. rewrite in_flat_map. split.
  - intros (c & C & X). apply in_map_iff in X. destruct X as (q & <- & Q). apply filter_In in Q. destruct Q as (Q & N). exists c, q. split; [exact C|]. split; [exact Q|]. split; [lia|reflexivity].
  - intros (c & q & C & Q & N & ->). exists c. split; [exact C|]. apply in_map_iff. exists q. split; [reflexivity|]. apply filter_In. split; [exact Q|]. lia.
Qed.
Lemma podPorts_range p x : portsOk p -> In x (podPorts p) -> 0 <= x < 65536.
Proof. intros (P & _) X. apply podPorts_in in X. destruct X as (c & C & [(_ & ->) | (q & Q & ->)]); [lia|]. apply (P c q C Q). Qed.
Lemma podHostPorts_range p x : portsOk p -> In x (podHostPorts p) -> 0 <= x < 65536.
Proof. intros (P & _) X. apply podHostPorts_in in X. destruct X as (c & q & C & Q & _ & ->). apply (P c q C Q). Qed.

(** the deletion a pod asks for when it ends, and the one an update asks for *)
Definition dDelete (p : pod) : delInfo := {| di_uid := pd_uid p; di_name := pd_name p; di_ns := pd_ns p; di_cids := shortIds p; di_ip := pd_ip p; di_ports := podPorts p;
  di_hostip := pd_hostip p; di_hostports := podHostPorts p |}.
Definition dUpdate (oc : podInfo) (old new : pod) : delInfo :=
  {| di_uid := pd_uid old; di_name := if eqb (pd_name old) (pd_name new) then [] else pd_name old; di_ns := pd_ns old;
     di_cids := GetRemovedElements (Compare (NewSlice (pi_cids oc) (shortIds new))); di_ip := pd_ip old;
     di_ports := if eqb (pd_ip old) (pd_ip new) then GetRemovedElements (Compare (NewSlice (pi_ports oc) (podPorts new))) else pi_ports oc;
     di_hostip := pd_hostip old;
     di_hostports := if eqb (pd_hostip old) (pd_hostip new) then GetRemovedElements (Compare (NewSlice (pi_hostports oc) (podHostPorts new))) else pi_hostports oc |}.

Lemma same32 x y : 0 <= x < 65536 -> 0 <= y < 2 ^ 32 -> w32 y = w32 x -> y = x.
Proof. intros A B C. rewrite !w32_small in C by lia. exact C. Qed.
Lemma dDelete_claims p k : portsOk p -> claims p k -> dclaims (dDelete p) k.
Proof.
  intros P C. pose proof P as (_ & H & _). destruct k as [c | ip x | ip x]; cbn [dclaims dDelete di_cids di_ip di_ports di_hostip di_hostports].
  - apply shortIds_in. exact C.
  - destruct C as (N & <- & C). apply podPorts_in in C. pose proof (podPorts_range p x P C). split; [exact N|]. split; [reflexivity|]. exists x. split; [exact C|].
    rewrite w32_small by lia. reflexivity.
  - destruct C as (N & <- & C). split; [auto|]. split; [reflexivity|]. exists x. split; [apply podHostPorts_in; exact C|reflexivity].
Qed.
Lemma dUpdate_claims oc old new k : isRecord oc old -> portsOk old -> portsOk new -> (pd_ip old <> [] -> pd_ip new = [] -> pd_hostip new <> pd_hostip old) ->
  claims old k -> ~ claims new k -> dclaims (dUpdate oc old new) k.
Proof.
  intros (w & svc & ->) P PN L C N. pose proof P as (_ & H & _).
  destruct k as [c | ip x | ip x]; cbn [dclaims dUpdate di_cids di_ip di_ports di_hostip di_hostports podRecord pi_cids pi_ports pi_hostports].
  - apply compare_in. rewrite !shortIds_in. auto.
  - destruct C as (NE & <- & C). apply podPorts_in in C. pose proof (podPorts_range old x P C). split; [exact NE|]. split; [reflexivity|]. exists x.
    split; [|rewrite w32_small by lia; reflexivity]. rewrite (proj2 (eqb_neq _ _) NE). case_eqb (pd_ip old) (pd_ip new); [|exact C].
    apply compare_in. split; [exact C|]. intros X. apply N. cbn [claims]. apply podPorts_in in X. split; [congruence|]. auto.
  - destruct C as (NE & <- & C). apply podHostPorts_in in C. split; [auto|]. split; [reflexivity|]. exists x. split; [|reflexivity].
    rewrite (proj2 (eqb_neq _ _) NE). case_eqb (pd_hostip old) (pd_hostip new); [|exact C].
    apply compare_in. split; [exact C|]. intros X. apply N. cbn [claims]. apply podHostPorts_in in X. split; [|auto].
    intros Z. apply (L NE Z). auto.
Qed.
Lemma dUpdate_only oc old new k : isRecord oc old -> portsOk old -> kvalid k -> dclaims (dUpdate oc old new) k -> claims old k /\ ~ claims new k.
Proof.
  intros (w & svc & ->) P V. destruct k as [c | ip x | ip x]; cbn [dclaims dUpdate di_cids di_ip di_ports di_hostip di_hostports podRecord pi_cids pi_ports pi_hostports kvalid] in *.
  - intros C. apply compare_in in C. rewrite !shortIds_in in C. exact C.
  - intros (NE & -> & y & Y & ->). rewrite (proj2 (eqb_neq _ _) NE) in Y.
    assert (I : In y (podPorts old) /\ (pd_ip old = pd_ip new -> ~ In y (podPorts new))).
    { revert Y. case_eqb (pd_ip old) (pd_ip new); intros Y; [apply compare_in in Y; tauto|]. split; [exact Y|congruence]. }
    destruct I as (I & N). pose proof (podPorts_range old y P I). rewrite w32_small by lia. cbn [claims]. rewrite <- podPorts_in. split; [auto|].
    intros (_ & E & C). apply podPorts_in in C. apply N; auto.
  - intros (NE & -> & y & Y & W). 
    assert (I : pd_ip old <> [] /\ In y (podHostPorts old) /\ (pd_hostip old = pd_hostip new -> ~ In y (podHostPorts new))).
    { case_eqb (pd_ip old) (@nil Z).
      - exfalso. destruct (eqb (pd_hostip old) (pd_hostip new)); [|exact Y]. apply compare_in in Y. destruct Y as ([] & _).
      - split; [exact E|]. revert Y. case_eqb (pd_hostip old) (pd_hostip new); intros Y; [apply compare_in in Y; tauto|]. split; [exact Y|congruence]. }
    destruct I as (A & I & N). pose proof (podHostPorts_range old y P I) as R. pose proof (same32 y x R V W). subst x. cbn [claims]. rewrite <- podHostPorts_in.
    split; [auto|]. intros (_ & E & C). apply podHostPorts_in in C. apply N; auto.
Qed.

Lemma lookup_frame st st' k : k_cids st' = k_cids st -> k_ips st' = k_ips st -> k_hosts st' = k_hosts st -> lookup st' k = lookup st k.
Proof. intros A B C. destruct k; cbn [lookup]; unfold getContainerByHostIpPort; rewrite ?A, ?B, ?C; reflexivity. Qed.

(** the pods' records, up to the service they belong to *)
Definition heapSim (h h' : list podInfo) : Prop :=
  List.length h' = List.length h /\ forall i, pi_uid (podAt h' i) = pi_uid (podAt h i) /\ forall p, isRecord (podAt h i) p -> isRecord (podAt h' i) p.
Lemma heapSim_refl h : heapSim h h.
Proof. split; auto. Qed.
Lemma heapSim_trans a b c : heapSim a b -> heapSim b c -> heapSim a c.
Proof.
  intros (L1 & H1) (L2 & H2). split; [congruence|]. intros i. destruct (H1 i) as (U1 & R1), (H2 i) as (U2 & R2). split; [congruence|]. auto.
Qed.
Lemma heapSim_upd h i s : heapSim h (upd h i (withSvc s)).
Proof.
  split; [apply upd_length|]. intros j. unfold podAt. rewrite nth_upd. destruct (_ && _)%bool; [|auto]. split; [reflexivity|].
  intros p (w & svc & ->). exists w, (Some s). reflexivity.
Qed.
Definition sameBut (st st' : kstate) : Prop :=
  k_cids st' = k_cids st /\ k_ips st' = k_ips st /\ k_hosts st' = k_hosts st /\ k_gpods st' = k_gpods st /\ k_queue st' = k_queue st /\ heapSim (k_pods st) (k_pods st').
Lemma sameBut_refl st : sameBut st st.
Proof. repeat split; auto. Qed.
Lemma sameBut_trans a b c : sameBut a b -> sameBut b c -> sameBut a c.
Proof.
  intros (A1 & A2 & A3 & A4 & A5 & A6) (B1 & B2 & B3 & B4 & B5 & B6).
  split; [congruence|]. split; [congruence|]. split; [congruence|]. split; [congruence|]. split; [congruence|]. eapply heapSim_trans; eassumption.
Qed.

Section Inv.
  Context (builtIn : bytes -> bool) (lower : bytes -> bytes) (myNode : bytes) (it : forall A : Type, nat -> list A -> list A) (grace : Z).
  Notation addPod := (addPod builtIn lower myNode it).

  Lemma sameBut_attach id o st : sameBut st (attach id o st).
  Proof. destruct o as [i|]; [|apply sameBut_refl]. cbn [attach]. split; [reflexivity|]. split; [reflexivity|]. split; [reflexivity|]. split; [reflexivity|]. split; [reflexivity|]. apply heapSim_upd. Qed.
  Lemma sameBut_attachCids id : forall l st, sameBut st (attachCids id l st).
  Proof. induction l as [|c l IH]; intros st; cbn [attachCids]; [apply sameBut_refl|]. eapply sameBut_trans; [apply sameBut_attach|apply IH]. Qed.
  Lemma sameBut_attachPorts id ip : forall l n st, sameBut st (attachPorts it n id ip l st).
  Proof. induction l as [|c l IH]; intros n st; cbn [attachPorts]; [apply sameBut_refl|]. eapply sameBut_trans; [apply sameBut_attach|apply IH]. Qed.
  Lemma sameBut_attachPods id : forall l n st, sameBut st (attachPods it n id l st).
  Proof.
    induction l as [|c l IH]; intros n st; cbn [attachPods]; [apply sameBut_refl|].
    eapply sameBut_trans; [apply sameBut_attachCids|]. eapply sameBut_trans; [apply sameBut_attachPorts|]. apply IH.
  Qed.
  Lemma sameBut_frame st st' : k_cids st' = k_cids st -> k_ips st' = k_ips st -> k_hosts st' = k_hosts st -> k_gpods st' = k_gpods st -> k_queue st' = k_queue st -> k_pods st' = k_pods st -> sameBut st st'.
  Proof. intros A B C D E F. split; [exact A|]. split; [exact B|]. split; [exact C|]. split; [exact D|]. split; [exact E|]. rewrite F. apply heapSim_refl. Qed.
  Lemma sameBut_addService n s st : sameBut st (addService it n s st).
  Proof.
    unfold addService. set (id := List.length (k_svcs st)).
    match goal with |- context [attachPods it (S n) id ?l ?s0] => pose proof (sameBut_attachPods id l (S n) s0) as A; set (x := attachPods it (S n) id l s0) in * end.
    eapply sameBut_trans; [|eapply sameBut_trans; [exact A|]]; [apply sameBut_frame; reflexivity|].
    destruct (hasClusterIp s); [apply sameBut_frame; reflexivity|apply sameBut_refl].
  Qed.
  Lemma sameBut_deleteService n o st : sameBut st (deleteService it n o st).
  Proof.
    destruct o as [s|]; [|apply sameBut_refl]. cbn [deleteService].
    destruct (get2 (k_gsvcs st) (sv_ns s) (sv_name s)); destruct (hasClusterIp s); apply sameBut_frame; reflexivity.
  Qed.
  Lemma sameBut_other n now o st : match o with OAddPod _ | OUpdatePod _ _ | ODeletePod _ | ODeleteRound => False | _ => True end ->
    sameBut st (kstep builtIn lower myNode it grace n now o st).
  Proof.
    destruct o; intros O; try destruct O; cbn [kstep].
    - apply sameBut_addService.
    - unfold updateService. destruct (eqb _ _); [apply sameBut_refl|]. eapply sameBut_trans; [apply sameBut_deleteService|apply sameBut_addService].
    - apply sameBut_deleteService.
    - unfold addReplicaSet. destruct (List.find _ _); apply sameBut_frame; reflexivity.
    - unfold updateReplicaSet. destruct (eqb _ _); [apply sameBut_refl|]. unfold addReplicaSet. destruct (List.find _ _); apply sameBut_frame; reflexivity.
    - destruct o; apply sameBut_frame; reflexivity.
    - apply sameBut_frame; reflexivity.
    - apply sameBut_frame; reflexivity.
    - destruct o; apply sameBut_frame; reflexivity.
  Qed.

  (** *** Every step keeps the invariant *)
  Lemma inv_same w w' q st st' : sameBut st st' ->
    w_live w' = w_live w -> w_used w' = w_used w -> w_retired w' = w_retired w -> w_spoiled w' = w_spoiled w -> w_reused w' = w_reused w -> w_dead w' = w_dead w -> w_now w <= w_now w' ->
    Inv w q st -> Inv w' q st'.
  Proof.
    intros (A & B & C & D & E & L & H) E1 E2 E3 E4 E5 E6 E7 IV.
    assert (K : forall k, lookup st' k = lookup st k) by (intros k; apply lookup_frame; assumption).
    assert (U : forall c, uidOf st' c = uidOf st c) by (intros c; apply H).
    split; rewrite ?E1, ?E2, ?E3, ?E4, ?E5, ?E6, ?D, ?L; try apply IV.
    - intros k info. rewrite K. apply IV.
    - intros key v G. pose proof (i_g _ _ _ IV key v G) as X. destruct (get2 _ _ _); [|exact X]. apply H. exact X.
    - intros key v k G CL NS. destruct (i_found _ _ _ IV key v k G CL NS) as (info & X & Y & Z). exists info. rewrite K. split; [exact X|]. split; [apply H; exact Y|exact Z].
    - intros k info V G. rewrite K in G. rewrite U. destruct (i_stale _ _ _ IV k info V G) as [X | [(key & v & X1 & X2 & X3 & X4) | X]]; [auto| |auto].
      right. left. exists key, v. split; [exact X1|]. split; [exact X2|]. split; [exact X3|]. apply H. exact X4.
    - intros d ts I. pose proof (i_now _ _ _ IV d ts I). lia.
  Qed.
  Lemma inv_delete w d ts q n st : Inv w ((d, ts) :: q) st -> Inv w q (deletePodInfo it n d st).
  Proof.
    intros IV. destruct (deletePodInfo_frame it n d st) as (FP & FQ & FG).
    assert (U : forall c, uidOf (deletePodInfo it n d st) c = uidOf st c) by (intros c; unfold uidOf; rewrite FP; reflexivity).
    assert (KV : forall k, exists k', kvalid k' /\ forall s, lookup s k = lookup s k').
    { intros [c | ip p | ip p]; [exists (CId c)|exists (CAddr ip p)|exists (CHost ip (w32 p))]; (split; [try exact I; apply w32_range|]); intros s; try reflexivity.
      cbn [lookup]. unfold getContainerByHostIpPort, hostKey. rewrite (w32_small (w32 p)) by apply w32_range. reflexivity. }
    split; rewrite ?FP; try apply IV.
    - intros k info G. destruct (KV k) as (k' & V & K). rewrite K in G. pose proof (i_ids _ _ _ IV k' info) as X.
      destruct (deletePodInfo_lookup it n d st k' V) as [(N & _) | (E & _)]; [congruence|]. rewrite E in G. apply X. exact G.
    - intros a b id. rewrite FG. destruct (_ && _)%bool; [discriminate|]. apply IV.
    - intros key v G. rewrite FG. case_eqb (di_name d) (@nil Z); cbn [negb andb]; [apply (i_g _ _ _ IV key v G)|].
      case_eqb (pd_ns v) (di_ns d); case_eqb (pd_name v) (di_name d); cbn [andb]; try apply (i_g _ _ _ IV key v G).
      destruct (i_live _ _ _ IV key v G) as (-> & _). eapply (i_name _ _ _ IV d ts v); [left; reflexivity|exact E|]. rewrite <- E0, <- E1. exact G.
    - intros key v k G CL NS. destruct (i_live _ _ _ IV key v G) as (_ & PO & _). destruct (i_found _ _ _ IV key v k G CL NS) as (info & X & Y & Z). exists info.
      destruct (deletePodInfo_lookup it n d st k (claims_valid v k PO CL)) as [(N & DC & c & GC & UC) | (-> & _)];
        [exfalso|split; [exact X|]; split; [exact Y|exact Z]].
      apply NS. eapply (i_pend _ _ _ IV d ts k key v); [left; reflexivity|exact DC|exact G|exact CL|]. destruct UC as [UC | UC]; [left|right; exact UC].
      assert (c = info) by congruence. subst c. destruct (record_describes _ _ Y) as (UE & _). unfold uidOf in UC. congruence.
    - intros a b id. rewrite FG. case_eqb (di_name d) (@nil Z); cbn [negb andb]; intros G.
      + destruct (i_gstale _ _ _ IV a b id G) as [X | (d' & ts' & [Y | Y] & Z)]; [auto| |right; exists d', ts'; auto]. inversion Y; subst. tauto.
      + case_eqb a (di_ns d); case_eqb b (di_name d); cbn [andb] in G; try discriminate;
          (destruct (i_gstale _ _ _ IV a b id G) as [X | (d' & ts' & [Y | Y] & Z1 & Z2)]; [auto| |right; exists d', ts'; auto]; inversion Y; subst; inversion Z2; congruence).
    - intros d' ts' k key v I. apply (i_pend _ _ _ IV d' ts' k key v). right. exact I.
    - intros d' ts' k I. apply (i_ret _ _ _ IV d' ts' k). right. exact I.
    - intros d' ts' v I. apply (i_name _ _ _ IV d' ts' v). right. exact I.
    - intros k info V G. rewrite U. destruct (deletePodInfo_lookup it n d st k V) as [(N & _) | (E & N)]; [congruence|]. rewrite E in G.
      destruct (i_stale _ _ _ IV k info V G) as [X | [X | (d' & ts' & [Y | Y] & X1 & X2)]]; [auto|auto| |right; right; eauto].
      exfalso. inversion Y; subst. apply N. split; [exact X2|]. exists info. auto.
    - intros d' ts' t I. apply (i_times _ _ _ IV d' ts' t). right. exact I.
    - intros d' ts' I. apply (i_now _ _ _ IV d' ts'). right. exact I.
  Qed.
  Lemma inv_deleteAll w q : forall l n st, Inv w (l ++ q) st -> Inv w q (deleteAll it n l st).
  Proof.
    induction l as [|[d ts] l IH]; intros n st IV; cbn [deleteAll]; [exact IV|]. apply IH. cbn [app] in IV. eapply inv_delete. exact IV.
  Qed.

  Lemma inv_setQueue w q st x : Inv w q st -> Inv w q (setQueue st x).
  Proof. intros IV. split; try apply IV. Qed.

  Lemma inv_put w w' q ds n p st : Inv w q st -> portsOk p ->
    (forall key v, aget (w_live w) key = Some v -> pd_uid v = pd_uid p -> key = podKey p) -> (forall u t, w_dead w u t -> u <> pd_uid p) ->
    w_live w' = aset (w_live w) (podKey p) p -> (forall u, w_used w' u <-> u = pd_uid p \/ w_used w u) -> (forall u k, w_retired w u k -> w_retired w' u k) ->
    (forall k, w_spoiled w' k <-> w_spoiled w k \/ spoils w p k) -> (forall u, w_reused w u -> w_reused w' u) ->
    (forall u t, w_dead w u t -> w_dead w' u t) ->
    (forall u t, w_dead w' u t -> w_dead w u t \/ (u <> pd_uid p /\ w_used w u /\ t = w_now w' /\ forall key v, aget (w_live w) key = Some v -> key <> podKey p -> pd_uid v <> u)) ->
    w_now w <= w_now w' ->
    (forall d ts, In (d, ts) q -> (di_ns d, di_name d) = podKey p -> w_reused w' (pd_uid p) \/ exists v, aget (w_live w) (podKey p) = Some v /\ pd_uid v = pd_uid p) ->
    (forall d ts, In (d, ts) ds -> di_name d = [] /\ ts <= w_now w' /\ (forall t, w_dead w' (di_uid d) t -> ts <= t)) ->
    (forall d ts k, In (d, ts) ds -> dclaims d k -> kvalid k -> w_retired w' (di_uid d) k /\ ~ claims p k) ->
    (forall d ts k key v, In (d, ts) ds -> dclaims d k -> aget (w_live w) key = Some v -> key <> podKey p -> claims v k -> di_uid d = pd_uid v \/ isId k -> w_spoiled w k) ->
    (forall v k, aget (w_live w) (podKey p) = Some v -> claims v k -> ~ claims p k -> w_reused w (pd_uid v) \/ exists d ts, In (d, ts) ds /\ di_uid d = pd_uid v /\ dclaims d k) ->
    Inv w' (q ++ ds) (addPod n p st).
  Proof.
    intros IV PO FR FD EL EU ER ES ERE ED ED' EN PN D1 D2 D3 D4.
    destruct (addPod_pods builtIn lower myNode it n p st) as (r & HP & RR). pose proof (addPod_gpods builtIn lower myNode it n p st) as HG.
    assert (LEN : List.length (k_pods (addPod n p st)) = S (List.length (k_pods st))) by (rewrite HP, app_length; cbn [List.length]; lia).
    assert (OLD : forall i, (i < List.length (k_pods st))%nat -> podAt (k_pods (addPod n p st)) i = podAt (k_pods st) i) by (intros i L; rewrite HP; apply podAt_old; exact L).
    assert (NEW : podAt (k_pods (addPod n p st)) (List.length (k_pods st)) = r) by (rewrite HP; apply podAt_new).
    assert (LV : forall key v, aget (w_live w') key = Some v -> (key = podKey p /\ v = p) \/ (key <> podKey p /\ aget (w_live w) key = Some v)).
    { intros key v. rewrite EL, aget_aset. case_eqb key (podKey p); intros G; [left|right; auto]. split; [assumption|congruence]. }
    split.
    - intros k info G. rewrite LEN.
      assert (exists k', kvalid k' /\ forall s, lookup s k = lookup s k') as (k' & V & K).
      { destruct k as [c | ip x | ip x]; [exists (CId c)|exists (CAddr ip x)|exists (CHost ip (w32 x))]; (split; [try exact I; apply w32_range|]); intros s; try reflexivity.
        cbn [lookup]. unfold getContainerByHostIpPort, hostKey. rewrite (w32_small (w32 x)) by apply w32_range. reflexivity. }
      rewrite K in G. destruct (addPod_lookup builtIn lower myNode it n p st k' PO V) as [(_ & i & X & Y & _) | (_ & X)].
      + rewrite X in G. inversion G; subst. lia.
      + rewrite X in G. pose proof (i_ids _ _ _ IV k' info G). lia.
    - intros a b id. rewrite HG, get2_put2, LEN. destruct (_ && _)%bool; intros G; [inversion G; lia|]. pose proof (i_gids _ _ _ IV a b id G). lia.
    - intros key v G. destruct (LV key v G) as [(-> & ->) | (N & G')].
      + split; [reflexivity|]. split; [exact PO|]. apply EU. auto.
      + destruct (i_live _ _ _ IV key v G') as (A & B & C). split; [exact A|]. split; [exact B|]. apply EU. auto.
    - intros key v G. rewrite HG, get2_put2. destruct (LV key v G) as [(-> & ->) | (N & G')].
      + rewrite !eqb_refl. cbn [andb]. rewrite NEW. exact RR.
      + destruct (i_live _ _ _ IV key v G') as (A & _). pose proof (i_g _ _ _ IV key v G') as X. pose proof (i_gids _ _ _ IV (pd_ns v) (pd_name v)) as L.
        case_eqb (pd_ns v) (pd_ns p); case_eqb (pd_name v) (pd_name p); cbn [andb];
          try (destruct (get2 (k_gpods st) (pd_ns v) (pd_name v)) as [id|]; [rewrite OLD by (apply L; reflexivity); exact X|apply ERE; exact X]).
        exfalso. apply N. rewrite A. unfold podKey. congruence.
    - intros key v k G CL NS. destruct (LV key v G) as [(-> & ->) | (N & G')].
      + destruct (addPod_lookup builtIn lower myNode it n p st k PO (claims_valid p k PO CL)) as [(_ & info & X & Y & Z) | (NC & _)]; [|tauto].
        exists info. split; [exact X|]. rewrite Y, NEW. split; [exact RR|]. exact Z.
      + destruct (i_live _ _ _ IV key v G') as (_ & POv & _).
        assert (NS' : ~ w_spoiled w k) by (intros X; apply NS, ES; auto).
        destruct (addPod_lookup builtIn lower myNode it n p st k PO (claims_valid v k POv CL)) as [(CP & _) | (NC & X)].
        * exfalso. apply NS, ES. right. split; [exact CP|]. left. exists key, v. auto.
        * destruct (i_found _ _ _ IV key v k G' CL NS') as (info & A & B & C). exists info. rewrite X. split; [exact A|]. rewrite OLD by (eapply (i_ids _ _ _ IV); exact A). split; [exact B|exact C].
    - intros a b id. rewrite HG, get2_put2. case_eqb a (pd_ns p); case_eqb b (pd_name p); cbn [andb]; intros G.
      1: { left. exists p. rewrite EL. subst. apply aget_aset_same. }
      all: destruct (i_gstale _ _ _ IV a b id G) as [(v & X) | (d' & ts' & Y & Z)]; [left; exists v; rewrite EL, aget_aset_other; [exact X|unfold podKey; congruence]|right; exists d', ts'; split; [apply in_or_app; auto|exact Z]].
    - intros d ts k key v I DC G CL UI. apply in_app_or in I. destruct I as [I | I]; destruct (LV key v G) as [(-> & ->) | (N & G')].
      + apply ES. right. split; [exact CL|]. right.
        destruct (i_ret _ _ _ IV d ts k I DC (claims_valid p k PO CL)) as [R | (NI & t & DT)]; [exists (di_uid d); auto|].
        destruct UI as [UI | UI]; [|tauto]. exfalso. apply (FD _ _ DT). exact UI.
      + apply ES. left. eapply (i_pend _ _ _ IV); eassumption.
      + exfalso. destruct (D2 d ts k I DC (claims_valid p k PO CL)). tauto.
      + apply ES. left. eapply D3; eassumption.
    - intros d ts k I DC V. apply in_app_or in I. destruct I as [I | I].
      + destruct (i_ret _ _ _ IV d ts k I DC V) as [R | (NI & t & DT)]; [auto|]. right. split; [exact NI|]. exists t. auto.
      + left. apply (D2 d ts k I DC V).
    - intros d ts v I NN G. apply in_app_or in I. destruct I as [I | I]; [|destruct (D1 d ts I) as (X & _); congruence].
      destruct (LV _ v G) as [(K & ->) | (N & G')].
      + destruct (PN d ts I K) as [X | (v' & X1 & X2)]; [exact X|]. rewrite <- X2. apply ERE. eapply (i_name _ _ _ IV); [exact I|exact NN|]. rewrite K. exact X1.
      + apply ERE. eapply (i_name _ _ _ IV); eassumption.
    - intros k info V G. destruct (addPod_lookup builtIn lower myNode it n p st k PO V) as [(CP & i & X & Y & _) | (NC & X)].
      + rewrite X in G. assert (i = info) by congruence. subst i. right. left. exists (podKey p), p. unfold uidOf. rewrite Y, NEW. rewrite EL, aget_aset_same.
        split; [reflexivity|]. split; [|split; [exact CP|exact RR]]. symmetry. apply (record_describes r p RR).
      + rewrite X in G. unfold uidOf. rewrite OLD by (eapply (i_ids _ _ _ IV); exact G). fold (uidOf st info).
        destruct (i_stale _ _ _ IV k info V G) as [A | [(key & v & A1 & A2 & A3 & A4) | (d & ts & A1 & A2)]]; [auto| |right; right; exists d, ts; split; [apply in_or_app; auto|exact A2]].
        destruct (Eqb_dec key (podKey p)) as [K | K].
        * subst key. destruct (D4 v k A1 A3 NC) as [B | (d & ts & B1 & B2 & B3)]; [left; apply ERE; congruence|]. right. right. exists d, ts. split; [apply in_or_app; auto|]. split; [congruence|exact B3].
        * right. left. exists key, v. rewrite EL, aget_aset_other by exact K. auto.
    - intros key v key' v' k G G' N C C'. destruct (LV key v G) as [(-> & ->) | (K & H)], (LV key' v' G') as [(-> & ->) | (K' & H')]; [congruence| | |].
      + apply ES. right. split; [exact C|]. left. exists key', v'. auto.
      + apply ES. right. split; [exact C'|]. left. exists key, v. auto.
      + apply ES. left. eapply (i_two _ _ _ IV key v key' v'); eassumption.
    - intros key v key' v' G G' U. destruct (LV key v G) as [(-> & ->) | (K & H)], (LV key' v' G') as [(-> & ->) | (K' & H')]; [reflexivity| | |].
      + symmetry. apply (FR key' v' H'). congruence.
      + apply (FR key v H). exact U.
      + eapply (i_distinct _ _ _ IV); eassumption.
    - intros u t DT. destruct (ED' u t DT) as [X | (X1 & X2 & X3 & X4)].
      + destruct (i_dead _ _ _ IV u t X) as (A & B). split; [apply EU; auto|]. intros key v G. destruct (LV key v G) as [(-> & ->) | (K & H)]; [|eauto].
        intros Y. apply (FD u t X). congruence.
      + split; [apply EU; auto|]. intros key v G. destruct (LV key v G) as [(-> & ->) | (K & H)]; [congruence|eauto].
    - intros d ts t I DT. apply in_app_or in I. destruct I as [I | I]; [|destruct (D1 d ts I) as (_ & _ & DX); exact (DX t DT)].
      destruct (ED' (di_uid d) t DT) as [X | (_ & _ & TE & _)]; [eapply (i_times _ _ _ IV); eassumption|]. pose proof (i_now _ _ _ IV d ts I). lia.
    - intros d ts I. apply in_app_or in I. destruct I as [I | I]; [pose proof (i_now _ _ _ IV d ts I); lia|destruct (D1 d ts I) as (_ & DX & _); exact DX].
  Qed.

  (** the deletions are queued in time order, and the last round left none that was over *)
  Definition qinv (w : world) (st : kstate) : Prop :=
    w_round w <= w_now w /\ StronglySorted Z.le (map snd (k_queue st)) /\ Forall (fun x => snd x <= w_now w /\ w_round w < snd x + grace) (k_queue st).
  Lemma expired_split now : forall q, fst (expired grace now q) ++ snd (expired grace now q) = q.
  Proof. induction q as [|[d ts] q IH]; cbn [expired]; [reflexivity|]. destruct (now <? ts + grace); [reflexivity|]. cbn [fst snd app]. rewrite IH. reflexivity. Qed.
  Lemma expired_rest now : forall q, StronglySorted Z.le (map snd q) -> StronglySorted Z.le (map snd (snd (expired grace now q))) /\ Forall (fun x => now < snd x + grace) (snd (expired grace now q)).
  Proof.
    induction q as [|[d ts] q IH]; cbn [expired map snd]; intros S; [split; constructor|]. inversion S as [|? ? S1 F]; subst.
    destruct (now <? ts + grace) eqn:L; [|apply IH; exact S1]. split; [exact S|]. constructor; [cbn [snd]; lia|].
    rewrite Forall_forall in *. intros x X. pose proof (F (snd x) (in_map snd _ _ X)). lia.
  Qed.
  Lemma sorted_app_last : forall (q : list (delInfo * Z)) d now, StronglySorted Z.le (map snd q) -> Forall (fun x => snd x <= now) q -> StronglySorted Z.le (map snd (q ++ [(d, now)])).
  Proof.
    induction q as [|x q IH]; intros d now S F; cbn [app map]; [repeat constructor|]. inversion S as [|? ? S1 F1]; subst. inversion F as [|? ? F2 F3]; subst.
    constructor; [apply IH; assumption|]. rewrite map_app. apply Forall_app. split; [exact F1|]. constructor; [exact F2|constructor].
  Qed.
  Lemma qinv_push w w' st st' d now : 0 < grace -> w_now w <= now -> w_now w' = now -> w_round w' = w_round w -> k_queue st' = k_queue st ++ [(d, now)] -> qinv w st -> qinv w' st'.
  Proof.
    intros GP N E1 E2 E3 (A & B & C). unfold qinv. rewrite E1, E2, E3. split; [lia|].
    assert (C' : Forall (fun x => snd x <= now /\ w_round w < snd x + grace) (k_queue st)). { eapply Forall_impl; [|exact C]. cbn beta. intros x X. lia. }
    split; [apply sorted_app_last; [exact B|eapply Forall_impl; [|exact C']; cbn beta; tauto]|]. apply Forall_app. split; [exact C'|]. constructor; [cbn [snd]; lia|constructor].
  Qed.
  Lemma qinv_keep w w' st st' : w_now w <= w_now w' -> w_round w' = w_round w -> k_queue st' = k_queue st -> qinv w st -> qinv w' st'.
  Proof. intros E1 E2 E3 (A & B & C). unfold qinv. rewrite E2, E3. split; [lia|]. split; [exact B|]. eapply Forall_impl; [|exact C]. cbn beta. intros x X. lia. Qed.
  Lemma deleteAll_queue : forall l n st, k_queue (deleteAll it n l st) = k_queue st.
  Proof. induction l as [|[d ts] l IH]; intros n st; cbn [deleteAll]; [reflexivity|]. rewrite IH. apply deletePodInfo_frame. Qed.

  Lemma inv_start : Inv w0 [] k0.
  Proof.
    split; cbn; try discriminate; try tauto.
    - intros [c | ip x | ip x] info; cbn; discriminate.
    - intros [c | ip x | ip x] info _; cbn; discriminate.
  Qed.
  Lemma step_inv w st n now o w' : Inv w (k_queue st) st -> wstep st now w o w' ->
    Inv w' (k_queue (kstep builtIn lower myNode it grace n now o st)) (kstep builtIn lower myNode it grace n now o st) /\
    (0 < grace -> qinv w st -> qinv w' (kstep builtIn lower myNode it grace n now o st)).
  Proof.
    intros IV S.
    inversion S; subst; clear S; cbn [kstep].
    - (* add *)
      match goal with |- Inv ?x _ _ /\ _ => set (w' := x) end. split; [|intros _ QV; eapply qinv_keep; [| | |exact QV]; [exact H|reflexivity|apply addPod_queue]].
      rewrite addPod_queue, <- (app_nil_r (k_queue st)). apply (inv_put w w'); try exact IV; try exact H0; unfold w'; cbn [w_live w_used w_retired w_spoiled w_reused w_dead w_now w_round]; try tauto; try reflexivity.
      + intros key v G U. exfalso. destruct (i_live _ _ _ IV key v G) as (_ & _ & X). apply H2. rewrite <- U. exact X.
      + intros u t DT U. destruct (i_dead _ _ _ IV u t DT) as (X & _). apply H2. rewrite <- U. exact X.
      + intros d ts I K. left. right. split; [reflexivity|]. exists d, ts. auto.
      + intros d ts [].
      + intros d ts k [].
      + intros d ts k key v [].
      + intros v k G. congruence.
    - (* resync *)
      unfold updatePod. rewrite eqb_refl. split.
      + eapply inv_same; [apply sameBut_refl| | | | | | | |exact IV]; try reflexivity. exact H.
      + intros _ QV; eapply qinv_keep; [| | |exact QV]; [exact H|reflexivity|reflexivity].
    - (* update *)
      match goal with |- Inv ?x _ _ /\ _ => set (w' := x) end. unfold updatePod. rewrite (proj2 (eqb_neq _ _) H3).
      destruct (i_live _ _ _ IV _ _ H1) as (_ & POo & UO). pose proof (i_g _ _ _ IV _ _ H1) as GO.
      assert (FR : forall key v, aget (w_live w) key = Some v -> pd_uid v = pd_uid new -> key = podKey new).
      { intros key v G U. destruct H4 as [E | N]; [rewrite H2; eapply (i_distinct _ _ _ IV); [exact G|exact H1|congruence]|].
        exfalso. destruct (i_live _ _ _ IV key v G) as (_ & _ & X). apply N. rewrite <- U. exact X. }
      assert (FD : forall u t, w_dead w u t -> u <> pd_uid new).
      { intros u t DT U. destruct (i_dead _ _ _ IV u t DT) as (X & Y). destruct H4 as [E | N]; [apply (Y _ _ H1); congruence|]. apply N. rewrite <- U. exact X. }
      assert (OTHER : forall key v, aget (w_live w) key = Some v -> key <> podKey new -> pd_uid v <> pd_uid old).
      { intros key v G N U. apply N. rewrite H2. eapply (i_distinct _ _ _ IV); [exact G|exact H1|exact U]. }
      assert (PN : forall d ts, In (d, ts) (k_queue st) -> (di_ns d, di_name d) = podKey new -> w_reused w' (pd_uid new) \/ exists v, aget (w_live w) (podKey new) = Some v /\ pd_uid v = pd_uid new).
      { intros d ts I K. destruct (Eqb_dec (pd_uid new) (pd_uid old)) as [E | N]; [right; exists old; rewrite H2; auto|]. left. right. split; [reflexivity|]. split; [exact N|]. exists d, ts. rewrite <- H2. auto. }
      destruct (get2 (k_gpods st) (pd_ns old) (pd_name old)) as [id|] eqn:GG.
      + set (d := dUpdate (podAt (k_pods st) id) old new). split.
        * apply inv_setQueue. cbn [setQueue k_queue]. rewrite addPod_queue.
          change (Inv w' (k_queue st ++ [(d, now)]) (addPod n new st)).
          apply (inv_put w w'); try exact IV; try exact H0; try exact FR; try exact FD; try exact PN; unfold w'; cbn [w_live w_used w_retired w_spoiled w_reused w_dead w_now w_round]; try tauto; try reflexivity.
          -- rewrite H2. reflexivity.
          -- intros u t [DT | (-> & N & ->)]; [auto|]. right. split; [congruence|]. split; [exact UO|]. split; [reflexivity|]. exact OTHER.
          -- intros d' ts [E | []]. inversion E; subst. split; [unfold d; cbn [dUpdate di_name]; unfold podKey in H2; inversion H2 as [[Q1 Q2]]; rewrite Q2, eqb_refl; reflexivity|].
             split; [lia|]. intros t [DT | (_ & _ & ->)]; [|lia]. exfalso. destruct (i_dead _ _ _ IV _ _ DT) as (_ & X). apply (X _ _ H1). reflexivity.
          -- intros d' ts k [E | []] DC V. inversion E; subst. destruct (dUpdate_only _ old new k GO POo V DC) as (A & B). split; [|exact B]. right. split; [reflexivity|]. tauto.
          -- intros d' ts k key v [E | []] DC G N CL UI. inversion E; subst d' ts. destruct (i_live _ _ _ IV _ _ G) as (_ & POv & _).
             destruct (dUpdate_only _ old new k GO POo (claims_valid v k POv CL) DC) as (A & B).
             eapply (i_two _ _ _ IV (podKey old) old key v); [exact H1|exact G|congruence|exact A|exact CL].
          -- intros v k G CL NC. rewrite H2 in G. assert (v = old) by congruence. subst v. right. exists d, now. split; [left; reflexivity|]. split; [reflexivity|].
             apply dUpdate_claims; assumption.
        * intros GP QV; eapply (qinv_push w w' st _ d now); try exact QV; try exact GP; try exact H; try reflexivity. cbn [setQueue k_queue]. rewrite addPod_queue. reflexivity.
      + split.
        * rewrite addPod_queue, <- (app_nil_r (k_queue st)). apply (inv_put w w'); try exact IV; try exact H0; try exact FR; try exact FD; try exact PN; unfold w'; cbn [w_live w_used w_retired w_spoiled w_reused w_dead w_now w_round]; try tauto; try reflexivity.
          -- rewrite H2. reflexivity.
          -- intros u t [DT | (-> & N & ->)]; [auto|]. right. split; [congruence|]. split; [exact UO|]. split; [reflexivity|]. exact OTHER.
          -- intros d ts [].
          -- intros d ts k [].
          -- intros d ts k key v [].
          -- intros v k G CL NC. rewrite H2 in G. assert (v = old) by congruence. subst v. left. exact GO.
        * intros _ QV; eapply qinv_keep; [| | |exact QV]; [exact H|reflexivity|apply addPod_queue].
    - (* delete *)
      match goal with |- Inv ?x _ _ /\ _ => set (w' := x) end. cbn [deletePod]. set (d := dDelete p). destruct (i_live _ _ _ IV _ _ H0) as (_ & PO & UO). split.
      + apply inv_setQueue. cbn [setQueue k_queue].
        assert (LV : forall key v, aget (w_live w') key = Some v -> key <> podKey p /\ aget (w_live w) key = Some v).
        { intros key v. unfold w'. cbn [w_live]. rewrite aget_adel. case_eqb key (podKey p); [discriminate|auto]. }
        assert (DO : forall k, isId k -> dclaims d k -> claims p k).
        { intros [c | ip x | ip x] J; try destruct J. cbn [dclaims]. intros X. apply shortIds_in. exact X. }
        split; try apply IV.
        * intros key v G. apply LV in G. apply (i_live _ _ _ IV key v). tauto.
        * intros key v G. apply LV in G. apply (i_g _ _ _ IV key v). tauto.
        * intros key v k G CL NS. apply LV in G. apply (i_found _ _ _ IV key v k); tauto.
        * intros a b id G. destruct (i_gstale _ _ _ IV a b id G) as [(v & X) | (d' & ts' & Y & Z)]; [|right; exists d', ts'; split; [apply in_or_app; auto|exact Z]].
          destruct (Eqb_dec (a, b) (podKey p)) as [K | K].
          -- right. exists d, now. split; [apply in_or_app; right; left; reflexivity|]. split; [apply PO|]. symmetry. exact K.
          -- left. exists v. unfold w'. cbn [w_live]. rewrite aget_adel_other by exact K. exact X.
        * intros d' ts k key v J DC G CL UI. apply LV in G. destruct G as (N & G). apply in_app_or in J. destruct J as [J | [J | []]]; [eapply (i_pend _ _ _ IV); eassumption|].
          inversion J; subst d' ts. destruct UI as [UI | UI].
          -- exfalso. apply N. eapply (i_distinct _ _ _ IV); [exact G|exact H0|]. symmetry. exact UI.
          -- eapply (i_two _ _ _ IV (podKey p) p key v); [exact H0|exact G|congruence|apply DO; assumption|exact CL].
        * intros d' ts k J DC V. apply in_app_or in J. destruct J as [J | [J | []]].
          -- destruct (i_ret _ _ _ IV d' ts k J DC V) as [X | (X & t & Y)]; [left; left; exact X|]. right. split; [exact X|]. exists t. left. exact Y.
          -- inversion J; subst d' ts. destruct k as [c | ip x | ip x]; [left; right; split; [reflexivity|]; apply DO; [exact I|exact DC]| |]; (right; split; [intros []|]; exists now; right; split; reflexivity).
        * intros d' ts v J NN G. apply LV in G. destruct G as (N & G). apply in_app_or in J. destruct J as [J | [J | []]]; [eapply (i_name _ _ _ IV); eassumption|].
          inversion J; subst d' ts. exfalso. apply N. reflexivity.
        * intros k info V G. destruct (i_stale _ _ _ IV k info V G) as [A | [(key & v & A1 & A2 & A3 & A4) | (d' & ts & A1 & A2)]]; [left; exact A| |right; right; exists d', ts; split; [apply in_or_app; auto|exact A2]].
          destruct (Eqb_dec key (podKey p)) as [K | K].
          -- subst key. assert (v = p) by congruence. subst v. right. right. exists d, now. split; [apply in_or_app; right; left; reflexivity|]. split; [exact A2|]. apply dDelete_claims; assumption.
          -- right. left. exists key, v. unfold w'. cbn [w_live]. rewrite aget_adel_other by exact K. auto.
        * intros key v key' v' k G G'. apply LV in G. apply LV in G'. apply (i_two _ _ _ IV key v key' v' k); tauto.
        * intros key v key' v' G G'. apply LV in G. apply LV in G'. apply (i_distinct _ _ _ IV key v key' v'); tauto.
        * intros u t [DT | (-> & ->)].
          -- destruct (i_dead _ _ _ IV u t DT) as (A & B). split; [exact A|]. intros key v G. apply LV in G. apply (B key v). tauto.
          -- split; [exact UO|]. intros key v G U. apply LV in G. destruct G as (N & G). apply N. eapply (i_distinct _ _ _ IV); [exact G|exact H0|exact U].
        * intros d' ts t J DT. apply in_app_or in J. destruct J as [J | [J | []]].
          -- destruct DT as [DT | (_ & ->)]; [eapply (i_times _ _ _ IV); eassumption|]. pose proof (i_now _ _ _ IV d' ts J). lia.
          -- inversion J; subst d' ts. destruct DT as [DT | (_ & ->)]; [|lia]. exfalso. destruct (i_dead _ _ _ IV _ _ DT) as (_ & X). apply (X _ _ H0). reflexivity.
        * intros d' ts J. apply in_app_or in J. destruct J as [J | [J | []]]; [pose proof (i_now _ _ _ IV d' ts J); cbn [w' w_now]; lia|]. inversion J; subst. cbn [w' w_now]. lia.
      + intros GP QV; eapply (qinv_push w w' st _ d now); try exact QV; try exact GP; try exact H; reflexivity.
    - (* garbage *)
      split.
      + eapply inv_same; [apply sameBut_refl| | | | | | | |exact IV]; try reflexivity. exact H.
      + intros _ QV; eapply qinv_keep; [| | |exact QV]; [exact H|reflexivity|reflexivity].
    - (* deletions *)
      unfold deleteRound. rewrite deleteAll_queue. cbn [setQueue k_queue]. split.
      + apply inv_deleteAll. rewrite expired_split. apply inv_setQueue. eapply inv_same; [apply sameBut_refl| | | | | | | |exact IV]; try reflexivity. exact H.
      + intros _ (A & B & C). unfold qinv. rewrite deleteAll_queue. cbn [setQueue k_queue w_now w_round]. destruct (expired_rest now (k_queue st) B) as (X & Y). split; [lia|]. split; [exact X|].
        rewrite Forall_forall in *. intros x J. specialize (Y x J). assert (J' : In x (k_queue st)) by (rewrite <- (expired_split now (k_queue st)); apply in_or_app; right; exact J). specialize (C x J'). cbn beta in *. lia.
    - (* the other watches *)
      pose proof (sameBut_other n now o st H0) as SB. destruct SB as (A & B & C & D & E & F). split.
      + change (Inv {| w_live := w_live w; w_used := w_used w; w_retired := w_retired w; w_spoiled := w_spoiled w; w_reused := w_reused w; w_dead := w_dead w; w_now := now; w_round := w_round w |}
          (k_queue (kstep builtIn lower myNode it grace n now o st)) (kstep builtIn lower myNode it grace n now o st)).
        rewrite E. eapply inv_same; [apply sameBut_other; exact H0| | | | | | | |exact IV]; try reflexivity. exact H.
      + intros _ QV; eapply qinv_keep; [| | |exact QV]; [exact H|reflexivity|exact E].
  Qed.
  Lemma reach_inv0 ok w st : reach builtIn lower myNode it grace ok w st -> Inv w (k_queue st) st.
  Proof. intros R. induction R as [|w st n now o w' R IV S _]; [exact inv_start|]. apply (step_inv w st n now o w' IV S). Qed.
  Lemma reach_inv ok w st : 0 < grace -> reach builtIn lower myNode it grace ok w st -> Inv w (k_queue st) st /\ qinv w st.
  Proof.
    intros GP R. induction R as [|w st n now o w' R (IV & QV) S _]; [split; [exact inv_start|split; [cbn; lia|split; constructor]]|].
    destruct (step_inv w st n now o w' IV S) as (A & B). split; [exact A|exact (B GP QV)].
  Qed.

  (** *** The tables share the record of a pod (as long as it is not loaded from a snapshot) *)
  Definition shared (w : world) (st : kstate) : Prop := forall key v k info, aget (w_live w) key = Some v -> claims v k -> ~ w_spoiled w k -> lookup st k = Some info ->
    get2 (k_gpods st) (pd_ns v) (pd_name v) = None \/ get2 (k_gpods st) (pd_ns v) (pd_name v) = Some (ci_pod info).
  Lemma shared_put w w' n p st : Inv w (k_queue st) st -> shared w st -> portsOk p -> w_live w' = aset (w_live w) (podKey p) p ->
    (forall k, w_spoiled w' k <-> w_spoiled w k \/ spoils w p k) -> shared w' (addPod n p st).
  Proof.
    intros IV SH PO EL ES key v k info G CL NS L. rewrite EL, aget_aset in G. pose proof (addPod_gpods builtIn lower myNode it n p st) as HG. rewrite HG, get2_put2.
    revert G. case_eqb key (podKey p); intros G.
    - assert (v = p) by congruence. subst v. rewrite !eqb_refl. cbn [andb]. right.
      destruct (addPod_lookup builtIn lower myNode it n p st k PO (claims_valid p k PO CL)) as [(_ & i & X & Y & Z) | (NC & _)]; [|tauto]. congruence.
    - destruct (i_live _ _ _ IV key v G) as (KE & POv & _).
      destruct (addPod_lookup builtIn lower myNode it n p st k PO (claims_valid v k POv CL)) as [(CP & _) | (NC & X)].
      + exfalso. apply NS, ES. right. split; [exact CP|]. left. exists key, v. auto.
      + rewrite X in L. assert (NS' : ~ w_spoiled w k) by (intros Q; apply NS, ES; auto). pose proof (SH key v k info G CL NS' L) as C.
        case_eqb (pd_ns v) (pd_ns p); case_eqb (pd_name v) (pd_name p); cbn [andb]; try exact C. exfalso. apply E. rewrite KE. unfold podKey. congruence.
  Qed.
  Lemma shared_deleteAll w : (forall key v, aget (w_live w) key = Some v -> portsOk v) -> forall l n st, shared w st -> shared w (deleteAll it n l st).
  Proof.
    intros PO. induction l as [|[d ts] l IH]; intros n st SH; cbn [deleteAll]; [exact SH|]. apply IH.
    intros key v k info G CL NS L. destruct (deletePodInfo_frame it n d st) as (_ & _ & FG). rewrite FG.
    destruct (deletePodInfo_lookup it n d st k (claims_valid v k (PO _ _ G) CL)) as [(N & _) | (E & _)]; [congruence|]. rewrite E in L.
    destruct (_ && _)%bool; [auto|]. apply (SH key v k info); assumption.
  Qed.
  Lemma reach_shared ok w st : reach builtIn lower myNode it grace ok w st -> shared w st.
  Proof.
    intros R. induction R as [|w st n now o w' R SH S _]; [intros key v k info; cbn; discriminate|].
    pose proof (reach_inv0 ok w st R) as IV. inversion S; subst; clear S; cbn [kstep].
    - apply (shared_put w); try assumption; [reflexivity|]. intros k. cbn [w_spoiled]. tauto.
    - unfold updatePod. rewrite eqb_refl. exact SH.
    - unfold updatePod. rewrite (proj2 (eqb_neq _ _) H3).
      match goal with |- shared ?x _ => assert (X : shared x (addPod n new st)) by (apply (shared_put w); try assumption; [cbn [w_live]; rewrite H2; reflexivity|intros k; cbn [w_spoiled]; tauto]) end.
      destruct (get2 (k_gpods st) (pd_ns old) (pd_name old)); exact X.
    - intros key v k info G. cbn [w_live] in G. rewrite aget_adel in G. destruct (eqb key (podKey p)); [discriminate|]. apply (SH key v k info G).
    - exact SH.
    - unfold deleteRound. apply shared_deleteAll; [|exact SH]. intros key v G. apply (i_live _ _ _ IV key v G).
    - destruct (sameBut_other n now o st H0) as (A & B & C & D & _). intros key v k info G CL NS L. rewrite D. rewrite (lookup_frame _ _ k A B C) in L. apply (SH key v k info); assumption.
  Qed.
End Inv.
