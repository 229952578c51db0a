(** Connecting to Kubernetes: collector/pkg/metadata/kubernetes/initk8s.go:51-114, 135-213, config.go:41-104, the options of the processor
    (k8sprocessor/kubernetes_processor.go:47-61) and of the metadata provider (metaprovider/service/service.go:90-124).
    Simplifications: [outside] says what the environment and client-go answer; durations do not overflow; the watchers themselves are in WatchModel.v, the client of the
    metadata provider in MpcModel.v; a call is one step (sync.Once runs the function once and lets the other callers wait). *)
From Verif Require Import Base AttrModel PoolModel LabelNames EnrichModel TriggerModel.
Open Scope string_scope. Open Scope list_scope. Open Scope Z_scope.

(** What the environment answers: KUBERNETES_SERVICE_HOST and _PORT, whether the configuration file at a path can be loaded, whether the service account can be read,
    whether client-go makes a client *)
Record outside := { v_host : string; v_port : string; v_file : string -> bool; v_account : bool; v_client : bool }.
(** config.go:41-104.  A handler is a number; a client of the metadata provider too *)
Inductive kopt : Type :=
| OAuth (t : string) | ODir (d : string) | OGrace (seconds : Z) | OReplicaSets (b : bool) | OProvider (enable : bool) (client : nat)
| OPods (h : nat) | OServices (h : nat) | ONodes (h : nat) | OReplicaSetHandler (h : nat).
(** config.go:10-29 *)
Record kconf := { f_auth : string; f_dir : string; f_grace : Z; f_rs : bool; f_provider : option (bool * nat);
  f_pods : option nat; f_services : option nat; f_nodes : option nat; f_rsHandler : option nat }.
(** initk8s.go:70-75; a duration in nanoseconds *)
Definition defaultPath := "~/.kube/config".
Definition kconf0 : kconf := {| f_auth := "kubeConfig"; f_dir := defaultPath; f_grace := 60 * 1000000000; f_rs := false; f_provider := None;
  f_pods := None; f_services := None; f_nodes := None; f_rsHandler := None |}.
Definition applyOpt (c : kconf) (o : kopt) : kconf :=
  match o with
  | OAuth t => {| f_auth := t; f_dir := f_dir c; f_grace := f_grace c; f_rs := f_rs c; f_provider := f_provider c; f_pods := f_pods c; f_services := f_services c; f_nodes := f_nodes c; f_rsHandler := f_rsHandler c |}
  | ODir d => {| f_auth := f_auth c; f_dir := d; f_grace := f_grace c; f_rs := f_rs c; f_provider := f_provider c; f_pods := f_pods c; f_services := f_services c; f_nodes := f_nodes c; f_rsHandler := f_rsHandler c |}
  | OGrace s => {| f_auth := f_auth c; f_dir := f_dir c; f_grace := s * 1000000000; f_rs := f_rs c; f_provider := f_provider c; f_pods := f_pods c; f_services := f_services c; f_nodes := f_nodes c; f_rsHandler := f_rsHandler c |}
  | OReplicaSets b => {| f_auth := f_auth c; f_dir := f_dir c; f_grace := f_grace c; f_rs := b; f_provider := f_provider c; f_pods := f_pods c; f_services := f_services c; f_nodes := f_nodes c; f_rsHandler := f_rsHandler c |}
  | OProvider e n => {| f_auth := f_auth c; f_dir := f_dir c; f_grace := f_grace c; f_rs := f_rs c; f_provider := Some (e, n); f_pods := f_pods c; f_services := f_services c; f_nodes := f_nodes c; f_rsHandler := f_rsHandler c |}
  | OPods h => {| f_auth := f_auth c; f_dir := f_dir c; f_grace := f_grace c; f_rs := f_rs c; f_provider := f_provider c; f_pods := Some h; f_services := f_services c; f_nodes := f_nodes c; f_rsHandler := f_rsHandler c |}
  | OServices h => {| f_auth := f_auth c; f_dir := f_dir c; f_grace := f_grace c; f_rs := f_rs c; f_provider := f_provider c; f_pods := f_pods c; f_services := Some h; f_nodes := f_nodes c; f_rsHandler := f_rsHandler c |}
  | ONodes h => {| f_auth := f_auth c; f_dir := f_dir c; f_grace := f_grace c; f_rs := f_rs c; f_provider := f_provider c; f_pods := f_pods c; f_services := f_services c; f_nodes := Some h; f_rsHandler := f_rsHandler c |}
  | OReplicaSetHandler h => {| f_auth := f_auth c; f_dir := f_dir c; f_grace := f_grace c; f_rs := f_rs c; f_provider := f_provider c; f_pods := f_pods c; f_services := f_services c; f_nodes := f_nodes c; f_rsHandler := Some h |}
  end.

(** initk8s.go:34-38, 51-57 Validate *)
Definition validate (t : string) : bool := existsb (eqb t) ["none"; "serviceAccount"; "kubeConfig"].
(** initk8s.go:162-213 createRestConfig *)
Definition restConfig (v : outside) (t dir : string) : bool :=
  if negb (eqb t "kubeConfig") && (eqb (v_host v) "" || eqb (v_port v) "") then false
  else if eqb t "kubeConfig" then v_file v (if eqb dir "" then defaultPath else dir)
  else if eqb t "none" then true
  else v_account v.
(** initk8s.go:143-159 makeClient *)
Definition makeClient (v : outside) (t dir : string) : bool := if validate t then (if restConfig v t dir then v_client v else false) else false.

(** What is started *)
Inductive work : Type := WNodes (h : option nat) | WReplicaSets (h : option nat) | WServices (h : option nat) | WPods (grace : Z) (h : option nat) | WGrace (grace : Z) | WClient (client : nat).
Record kstate := { i_done : bool; i_success : bool; i_work : list work }.
Definition kstate0 : kstate := {| i_done := false; i_success := false; i_work := [] |}.
(** initk8s.go:89-106 initWatcherFromAPIServer *)
Definition fromServer (v : outside) (c : kconf) (s : kstate) : kstate * bool :=
  if makeClient v (f_auth c) (f_dir c) then
    ({| i_done := true; i_success := true;
        i_work := i_work s ++ [WNodes (f_nodes c)] ++ (if f_rs c then [WReplicaSets (f_rsHandler c)] else []) ++ [WServices (f_services c); WPods (f_grace c) (f_pods c)] |}, true)
  else ({| i_done := true; i_success := i_success s; i_work := i_work s |}, false).
(** initk8s.go:108-114 initWatcherFromMetadataProvider *)
Definition fromProvider (client : nat) (c : kconf) (s : kstate) : kstate * bool :=
  ({| i_done := true; i_success := i_success s; i_work := i_work s ++ [WGrace (f_grace c); WClient client] |}, true).
(** initk8s.go:66-87 InitK8sHandler: the state, and whether no error is returned *)
Definition initK8s (v : outside) (opts : list kopt) (s : kstate) : kstate * bool :=
  if i_done s then (s, true)
  else
    let c := fold_left applyOpt opts kconf0 in
    match f_provider c with
    | Some (true, client) => fromProvider client c s
    | _ => fromServer v c s
    end.
(** The calls of a process, each with what the environment answers then *)
Definition calls (l : list (outside * list kopt)) (s : kstate) : kstate := fold_left (fun s c => fst (initK8s (fst c) (snd c) s)) l s.

(** kubernetes_processor.go:47-57: the options made from the processor's configuration; [provider] is metadata_provider_config's enable, if the section is there *)
Definition processorOptions (auth dir : string) (grace : Z) (rs : bool) (provider : option bool) (client : nat) : list kopt :=
  [OAuth auth; ODir dir; OGrace grace; OReplicaSets rs] ++ (match provider with Some true => [OProvider true client] | _ => [] end).
(** service.go:90-124: those of the metadata provider, with its four handlers *)
Definition serviceOptions (auth dir : string) (rs : bool) (pods replicaSets nodes services : nat) : list kopt :=
  [OAuth auth; ODir dir; OGrace 0; OReplicaSets rs; OPods pods; OReplicaSetHandler replicaSets; ONodes nodes; OServices services].
(** cpu_analyzer.go:152-159: the metadata cache is asked only when IsInitSuccess *)
Definition javaMeta (s : kstate) (cache : bytes -> option (bytes * bytes * bytes)) (cid : bytes) : option (bytes * bytes * bytes) :=
  if i_success s then cache cid else None.
