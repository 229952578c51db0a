(** What a user expects of the configuration file. *)
From Verif Require Import Base LifeModel LifeSpec ConfModel.
Open Scope string_scope. Open Scope list_scope. Open Scope Z_scope.

(** A plain value that has the shape of its option, and what it says. *)
Inductive says : ty -> doc -> val -> Prop :=
| says_text s : says TStr (DStr s) (VStr s)
| says_number n : says TInt (DInt n) (VInt n)
| says_port n : 0 <= n < 2 ^ 32 -> says TUint (DInt n) (VInt n)
| says_switch b : says TBool (DBool b) (VBool b)
| says_ports l : Forall (fun n => 0 <= n < 2 ^ 32) l -> says (TList TUint) (DList (map DInt l)) (VList (map VInt l))
| says_texts l : says (TList TStr) (DList (map DStr l)) (VList (map VStr l))
| says_table l : says (TMap TStr) (DMap (map (fun p => (fst p, DStr (snd p))) l)) (VMap (map (fun p => (fst p, VStr (snd p))) l)).
(** "Not set": the empty text, 0, false, nothing. *)
Definition unset (t : ty) : val := match t with TStr => VStr "" | TInt | TUint => VInt 0 | TBool => VBool false | _ => VNil end.
Definition plain (t : ty) : Prop := match t with TStruct _ => False | _ => True end.

(** The options of a component, and the section of the file that is its own. *)
Definition options (k : component) : list (string * ty) := match k_ty k with TStruct fs => fs | _ => [] end.
Definition section (text_ : doc) (k : component) : doc := get (lowerKeys text_) [k_kind k; k_name k].

(** The defaults that the documented configuration, or the comments of the Config types, name:
    collector/docker/kindling-collector-config.yml, the config.go files *)
Definition documented : list (component * string * val) :=
  [(k8smetadataprocessor, "grace_delete_period", VInt 60); (k8smetadataprocessor, "enable_fetch_replicaset", VBool false);
   (k8smetadataprocessor, "enable", VBool true); (k8smetadataprocessor, "kube_auth_type", VStr "serviceAccount");
   (networkanalyzer, "ignore_dns_rcode3_error", VBool false); (networkanalyzer, "enabletimeoutcheck", VBool true); (networkanalyzer, "enable_conntrack", VBool true);
   (networkanalyzer, "no_response_threshold", VInt 120); (networkanalyzer, "response_slow_threshold", VInt 500); (networkanalyzer, "event_channel_size", VInt 10000);
   (networkanalyzer, "url_clustering_method", VStr "alphabet"); (networkanalyzer, "conntrack_max_state_size", VInt 131072); (networkanalyzer, "conntrack_rate_limit", VInt 500);
   (networkanalyzer, "proc_root", VStr "/proc"); (networkanalyzer, "connect_timeout", VInt 100); (networkanalyzer, "fd_reuse_timeout", VInt 15);
   (networkanalyzer, "protocol_parser", VList (map VStr ["http"; "mysql"; "dns"; "redis"; "kafka"; "dubbo"])); (cpuanalyzer, "java_trace_slow_time", VInt 500);
   (tcpconnectanalyzer, "channel_size", VInt 2000); (k8smetadataprocessor, "kube_config_dir", VStr "/root/.kube/config");
   (cameraexporter, "file_config", VPtr (VStruct [("storage_path", VStr "/tmp/kindling/"); ("max_file_count_each_process", VInt 50)]));
   (aggregateprocessor, "sampling_rate", VPtr (VStruct [("normal_data", VInt 0); ("slow_data", VInt 100); ("error_data", VInt 100)]));
   (cpuanalyzer, "open_java_trace_sampling", VBool false); (cpuanalyzer, "sampling_interval", VInt 5); (cpuanalyzer, "segment_size", VInt 40);
   (cpuanalyzer, "edge_events_window_size", VInt 2); (cpuanalyzer, "java_trace_delete_interval", VInt 20); (cpuanalyzer, "java_trace_expiration_time", VInt 120);
   (tcpconnectanalyzer, "wait_event_second", VInt 10); (tcpconnectanalyzer, "need_process_info", VBool false); (k8sinfoanalyzer, "send_datagroup_interval", VInt 15);
   (aggregateprocessor, "ticker_interval", VInt 5); (cameraexporter, "storage", VStr "file")].

(** The options that decide how the collector comes up, and the setting that each of them is. *)
Definition numbers : list (component * string * (conf -> Z)) :=
  [(networkanalyzer, "event_channel_size", c_netChan); (tcpconnectanalyzer, "channel_size", c_connChan); (tcpconnectanalyzer, "wait_event_second", c_connWait);
   (k8sinfoanalyzer, "send_datagroup_interval", c_infoInterval); (aggregateprocessor, "ticker_interval", c_aggInterval)].
Definition switches : list (component * string * (conf -> bool)) :=
  [(networkanalyzer, "enable_conntrack", c_conntrack); (k8smetadataprocessor, "enable", c_k8s)].
Definition names : list (component * string * (conf -> string)) :=
  [(otelexporter, "export_kind", c_kind); (cameraexporter, "storage", c_storage)].

(** The log and the collector's own metrics can be set up. *)
Definition logComplete (v : val) : Prop := text (field "file_level" v) = "none" \/ exists r, field "file_rotation" v = VPtr r.
Definition selfComplete (made : bool) (v : val) : Prop :=
  let kind := text (field "export_kind" v) in
  (kind = "prometheus" -> made = true -> exists s, field "prometheus" v = VPtr s) /\
  (forall p, (kind = "stdout" \/ kind = "otlp") -> p = field kind v -> exists s, p = VPtr s /\ (made = true -> 0 < int (field "collect_period" s))).
