(** C90: connecting to Kubernetes. *)
From Verif Require Import Base AttrModel PoolModel LabelNames EnrichModel TriggerModel InitModel.
Open Scope string_scope. Open Scope list_scope. Open Scope Z_scope.

(** ** Specification *)
(** What was asked last, or else the default *)
Definition asked {A} (f : kopt -> option A) (d : A) (opts : list kopt) : A :=
  match flat_map (fun o => match f o with Some a => [a] | None => [] end) (rev opts) with a :: _ => a | [] => d end.
Definition authOf o := match o with OAuth t => Some t | _ => None end.
Definition dirOf o := match o with ODir d => Some d | _ => None end.
Definition graceOf o := match o with OGrace s => Some s | _ => None end.
Definition rsOf o := match o with OReplicaSets b => Some b | _ => None end.
Definition providerOf o := match o with OProvider e n => Some (Some (e, n)) | _ => None end.
Definition podsOf o := match o with OPods h => Some (Some h) | _ => None end.
Definition servicesOf o := match o with OServices h => Some (Some h) | _ => None end.
Definition nodesOf o := match o with ONodes h => Some (Some h) | _ => None end.
Definition rsHandlerOf o := match o with OReplicaSetHandler h => Some (Some h) | _ => None end.
(** When the API server can be used, in the way asked for *)
Inductive reachable (v : outside) : string -> string -> Prop :=
| by_account dir : v_host v <> "" -> v_port v <> "" -> v_account v = true -> v_client v = true -> reachable v "serviceAccount" dir
| by_nothing dir : v_host v <> "" -> v_port v <> "" -> v_client v = true -> reachable v "none" dir
| by_file dir : dir <> "" -> v_file v dir = true -> v_client v = true -> reachable v "kubeConfig" dir
| by_default_file : v_file v "~/.kube/config" = true -> v_client v = true -> reachable v "kubeConfig" "".

(** ** Proofs *)
Lemma asked_snoc {A} (f : kopt -> option A) d opts o : asked f d (opts ++ [o]) = match f o with Some a => a | None => asked f d opts end.
Proof. unfold asked. rewrite rev_app_distr. cbn [rev app flat_map]. destruct (f o); reflexivity. Qed.
Lemma conf_asked opts : let c := fold_left applyOpt opts kconf0 in
  f_auth c = asked authOf "kubeConfig" opts /\ f_dir c = asked dirOf "~/.kube/config" opts /\ f_grace c = 1000000000 * asked graceOf 60 opts /\ f_rs c = asked rsOf false opts /\
  f_provider c = asked providerOf None opts /\ f_pods c = asked podsOf None opts /\ f_services c = asked servicesOf None opts /\ f_nodes c = asked nodesOf None opts /\ f_rsHandler c = asked rsHandlerOf None opts.
Proof.
  induction opts as [|o opts IH] using rev_ind; [repeat split|]. cbv zeta in *. rewrite fold_left_app. cbn [fold_left]. set (c := fold_left applyOpt opts kconf0) in *. rewrite !asked_snoc.
  destruct IH as (H1 & H2 & H3 & H4 & H5 & H6 & H7 & H8 & H9).
  destruct o; cbn [applyOpt f_auth f_dir f_grace f_rs f_provider f_pods f_services f_nodes f_rsHandler authOf dirOf graceOf rsOf providerOf podsOf servicesOf nodesOf rsHandlerOf]; repeat split; try assumption; lia.
Qed.
Lemma client_reachable v t dir : makeClient v t dir = true <-> reachable v t dir.
Proof.
  unfold makeClient, validate, restConfig. cbn [existsb]. rewrite orb_false_r. split.
  - case_eqb t "none".
    + subst t. cbn [orb]. change (eqb "none" "kubeConfig") with false. cbn [negb andb]. change (eqb "none" "none") with true. intros H.
      case_eqb (v_host v) ""; [discriminate H|]. case_eqb (v_port v) ""; [discriminate H|]. apply by_nothing; assumption.
    + case_eqb t "serviceAccount".
      * subst t. cbn [orb]. change (eqb "serviceAccount" "kubeConfig") with false. change (eqb "serviceAccount" "none") with false. cbn [negb andb]. intros H.
        case_eqb (v_host v) ""; [discriminate H|]. case_eqb (v_port v) ""; [discriminate H|]. cbn [orb] in H. destruct (v_account v) eqn:A; [|discriminate H]. apply by_account; assumption.
      * case_eqb t "kubeConfig"; [|discriminate]. subst t. cbn [orb negb andb]. intros H. case_eqb dir "".
        -- subst dir. destruct (v_file v defaultPath) eqn:F; [|discriminate H]. apply by_default_file; assumption.
        -- destruct (v_file v dir) eqn:F; [|discriminate H]. apply by_file; assumption.
  - intros R. destruct R as [dir N N' A C|dir N N' C|dir D F C|F C].
    + apply (eqb_neq (v_host v) "") in N. apply (eqb_neq (v_port v) "") in N'. rewrite N, N', A. exact C.
    + apply (eqb_neq (v_host v) "") in N. apply (eqb_neq (v_port v) "") in N'. rewrite N, N'. exact C.
    + apply (eqb_neq dir "") in D. rewrite D. change (eqb "kubeConfig" "none") with false. change (eqb "kubeConfig" "serviceAccount") with false. change (eqb "kubeConfig" "kubeConfig") with true. cbn [orb negb andb]. rewrite F. exact C.
    + change (eqb "kubeConfig" "none") with false. change (eqb "kubeConfig" "serviceAccount") with false. change (eqb "kubeConfig" "kubeConfig") with true. cbn [orb negb andb]. change (eqb "" "") with true. unfold defaultPath. rewrite F. exact C.
Qed.

(** The first call: with a metadata provider, its client and the removal of deleted pods are started, and nothing else; without one, it fails exactly when the API server
    cannot be reached in the way asked for, and starts nothing then; otherwise nodes, replica sets if asked for, services and pods are watched, in this order, each with
    the handler and the grace period asked for last. *)
Theorem C90_first : forall v opts s' ok, initK8s v opts kstate0 = (s', ok) ->
  let grace := 1000000000 * asked graceOf 60 opts in
  (forall client, asked providerOf None opts = Some (true, client) -> ok = true /\ i_work s' = [WGrace grace; WClient client]) /\
  ((forall client, asked providerOf None opts <> Some (true, client)) ->
     (ok = true <-> reachable v (asked authOf "kubeConfig" opts) (asked dirOf "~/.kube/config" opts)) /\
     (ok = false -> i_work s' = [] /\ i_success s' = false) /\
     (ok = true -> i_success s' = true /\ i_work s' = [WNodes (asked nodesOf None opts)] ++ (if asked rsOf false opts then [WReplicaSets (asked rsHandlerOf None opts)] else []) ++
        [WServices (asked servicesOf None opts); WPods grace (asked podsOf None opts)])).
Proof.
  intros v opts s' ok E grace. unfold initK8s in E. cbn [i_done kstate0] in E. destruct (conf_asked opts) as (H1 & H2 & H3 & H4 & H5 & H6 & H7 & H8 & H9). cbv zeta in E.
  set (c := fold_left applyOpt opts kconf0) in *. unfold grace. rewrite <- H1, <- H2, <- H3, <- H4, <- H5, <- H6, <- H7, <- H8, <- H9. split.
  - intros client P. rewrite P in E. injection E as <- <-. split; reflexivity.
  - intros P. assert (E' : fromServer v c kstate0 = (s', ok)). { destruct (f_provider c) as [[[] n]|]; try exact E. destruct (P n eq_refl). }
    rewrite <- client_reachable. unfold fromServer in E'. destruct (makeClient v (f_auth c) (f_dir c)); injection E' as <- <-.
    + split; [split; reflexivity|]. split; [discriminate|]. intros _. split; reflexivity.
    + split; [split; intros H; discriminate H|]. split; [intros _; split; reflexivity|discriminate].
Qed.
(** Only the first call of a process does anything, whatever later calls ask for. *)
Theorem C90_once : forall v opts l, calls ((v, opts) :: l) kstate0 = fst (initK8s v opts kstate0) /\
  forall v' opts', initK8s v' opts' (calls ((v, opts) :: l) kstate0) = (calls ((v, opts) :: l) kstate0, true).
Proof.
  intros v opts l. assert (D : forall v opts s, i_done (fst (initK8s v opts s)) = true).
  { intros v1 o1 s. unfold initK8s. destruct (i_done s) eqn:D; [exact D|]. cbv zeta. unfold fromProvider, fromServer.
    destruct (f_provider _) as [[[] n]|]; try reflexivity; destruct (makeClient _ _ _); reflexivity. }
  assert (K : forall l s, i_done s = true -> calls l s = s).
  { induction l0 as [|[v1 o1] l0 IH]; intros s H; [reflexivity|]. unfold calls in *. cbn [fold_left fst snd]. replace (fst (initK8s v1 o1 s)) with s; [exact (IH s H)|]. unfold initK8s. rewrite H. reflexivity. }
  assert (E : calls ((v, opts) :: l) kstate0 = fst (initK8s v opts kstate0)). { unfold calls. cbn [fold_left fst snd]. exact (K l _ (D v opts kstate0)). }
  split; [exact E|]. intros v' opts'. rewrite E. unfold initK8s at 1. rewrite D. reflexivity.
Qed.

(** The processor asks for what its configuration says. *)
Theorem C90_processor : forall v auth dir grace rs provider client s' ok, initK8s v (processorOptions auth dir grace rs provider client) kstate0 = (s', ok) ->
  (provider = Some true -> ok = true /\ i_work s' = [WGrace (1000000000 * grace); WClient client]) /\
  (provider <> Some true -> (ok = true <-> reachable v auth dir) /\
     (ok = true -> i_work s' = WNodes None :: (if rs then [WReplicaSets None] else []) ++ [WServices None; WPods (1000000000 * grace) None])).
Proof.
  intros v auth dir grace rs provider client s' ok E. destruct (C90_first _ _ _ _ E) as (A & B). split.
  - intros ->. exact (A client eq_refl).
  - intros P. destruct provider as [[]|]; [congruence| |]; (destruct B as (B1 & _ & B3); [intros c H; discriminate H|]; split; [exact B1|]; intros K; exact (proj2 (B3 K))).
Qed.
(** So does the metadata provider, which keeps no deleted pod, and has every change told by its own handlers. *)
Theorem C90_service : forall v auth dir rs pods replicaSets nodes services s' ok, initK8s v (serviceOptions auth dir rs pods replicaSets nodes services) kstate0 = (s', ok) ->
  (ok = true <-> reachable v auth dir) /\
  (ok = true -> i_work s' = WNodes (Some nodes) :: (if rs then [WReplicaSets (Some replicaSets)] else []) ++ [WServices (Some services); WPods 0 (Some pods)]).
Proof.
  intros v auth dir rs pods replicaSets nodes services s' ok E. destruct (C90_first _ _ _ _ E) as (_ & B). destruct B as (B1 & _ & B3); [intros c H; discriminate H|]. split; [exact B1|]. intros K. exact (proj2 (B3 K)).
Qed.

(** A slow Java transaction names its pod, if the API server is watched and the container is known. *)
Theorem C90_java : forall v opts s' cache ev old spend w c p, initK8s v opts kstate0 = (s', true) -> (forall client, asked providerOf None opts <> Some (true, client)) ->
  cache (j_cid ev) = Some (w, c, p) ->
  let g := javaTrace (javaMeta s' cache) ev old spend in
  aget (glabels g) "dst_workload_name" = Some (SV w) /\ aget (glabels g) "dst_container" = Some (SV c) /\ aget (glabels g) "dst_pod" = Some (SV p).
Proof.
  intros v opts s' cache ev old spend w c p E P K g. destruct (C90_first _ _ _ _ E) as (_ & B). destruct (B P) as (_ & _ & B3). destruct (B3 eq_refl) as (OK & _).
  unfold g, javaTrace, javaMeta. rewrite OK, K. cbn [glabels]. split; [|split].
  - rewrite !aget_aset. reflexivity.
  - rewrite !aget_aset. reflexivity.
  - rewrite !aget_aset. reflexivity.
Qed.
(** False: it does so with a metadata provider too: what its client has learned is never asked, and the trace names no pod. *)
Theorem C90_java_refuted : forall v opts s' client cache ev old spend, initK8s v opts kstate0 = (s', true) -> asked providerOf None opts = Some (true, client) ->
  let g := javaTrace (javaMeta s' cache) ev old spend in
  aget (glabels g) "dst_workload_name" = None /\ aget (glabels g) "dst_container" = None /\ aget (glabels g) "dst_pod" = None.
Proof.
  intros v opts s' client cache ev old spend E P g. assert (OK : i_success s' = false).
  { unfold initK8s in E. cbn [i_done kstate0] in E. cbv zeta in E. destruct (conf_asked opts) as (_ & _ & _ & _ & H5 & _). rewrite H5, P in E. injection E as <-. reflexivity. }
  unfold g, javaTrace, javaMeta. rewrite OK. cbn [glabels]. destruct (eqb (j_proto old) (bs "http")); repeat split.
Qed.
(** False: an error lasts: when the first call fails, every later call reports success, and nothing is watched. *)
Theorem C90_retry_refuted : forall v opts, snd (initK8s v opts kstate0) = false ->
  forall v' opts', let s := fst (initK8s v opts kstate0) in snd (initK8s v' opts' s) = true /\ i_work (fst (initK8s v' opts' s)) = [].
Proof.
  intros v opts F v' opts' s. destruct (initK8s v opts kstate0) as [s1 ok] eqn:E. cbn [snd] in F. subst ok. unfold s. cbn [fst].
  assert (N : forall client, asked providerOf None opts <> Some (true, client)). { intros client P. destruct (C90_first _ _ _ _ E) as (A & _). destruct (A client P) as (X & _). discriminate X. }
  destruct (C90_first _ _ _ _ E) as (_ & B). destruct (B N) as (_ & B2 & _). destruct (B2 eq_refl) as (W & _).
  pose proof (C90_once v opts []) as (E1 & O). rewrite E in *. cbn [fst] in *. rewrite E1 in O. rewrite O. split; [reflexivity|exact W].
Qed.
Print Assumptions C90_first.
Print Assumptions C90_once.
Print Assumptions C90_processor.
Print Assumptions C90_service.
Print Assumptions C90_java.
Print Assumptions C90_java_refuted.
Print Assumptions C90_retry_refuted.

(** ** Cases *)
Definition exOutside (account : bool) : outside := {| v_host := "10.0.0.1"; v_port := "443"; v_file := fun p => eqb p "/root/.kube/config"; v_account := account; v_client := true |}.
Example C90_example :
  initK8s (exOutside true) (processorOptions "serviceAccount" "/root/.kube/config" 60 true (Some false) 0) kstate0 =
    ({| i_done := true; i_success := true; i_work := [WNodes None; WReplicaSets None; WServices None; WPods 60000000000 None] |}, true) /\
  snd (initK8s (exOutside false) (processorOptions "serviceAccount" "" 60 false None 0) kstate0) = false /\
  snd (initK8s (exOutside false) (processorOptions "kubeConfig" "" 60 false None 0) kstate0) = false /\
  snd (initK8s (exOutside false) (processorOptions "kubeConfig" "/root/.kube/config" 60 false None 0) kstate0) = true /\
  i_work (fst (initK8s (exOutside false) (processorOptions "" "" 60 false (Some true) 7) kstate0)) = [WGrace 60000000000; WClient 7].
Proof. vm_compute. repeat split. Qed.
