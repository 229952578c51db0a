(** The configuration file: how its sections become the configurations that the components are made with, and what it takes to come up.
    collector/internal/application/application.go:91-106 and factory.go:108-154, pkg/component/telemetry.go:37-72, the Config types of the components.
    The libraries are modelled from their documented behaviour: viper v1.10.1 lower-cases the keys of the file and looks a section up
    by its dotted name; mapstructure v1.4.3 decodes it with ZeroFields and WeaklyTypedInput.
    Simplifications: the text of the file is already a tree; keys contain no dots; a value whose shape is not the one its option has
    (a number for a text, a text for a period, a list for a section) is left to [odd], which the theorems quantify over; a list or a map that is nil and one that
    is empty differ, as in Go. *)
From Verif Require Import Base LifeModel.
From Verif Require SampleModel.
Open Scope string_scope. Open Scope list_scope. Open Scope Z_scope.

(** A YAML tree. *)
Inductive doc := DNull | DBool (b : bool) | DInt (n : Z) | DStr (s : string) | DList (l : list doc) | DMap (m : list (string * doc)) | DOther (n : Z).
(** The Go types of options: string, int, uint32, bool, slices, maps from strings, pointers, structs.  time.Duration is [TInt]. *)
Inductive ty := TStr | TInt | TUint | TBool | TList (t : ty) | TMap (t : ty) | TPtr (t : ty) | TStruct (fs : list (string * ty)).
(** Their values; [VNil] is a nil slice, map or pointer. *)
Inductive val := VNil | VStr (s : string) | VInt (n : Z) | VBool (b : bool) | VList (l : list val) | VMap (m : list (string * val)) | VPtr (v : val) | VStruct (fs : list (string * val)).

(** The zero value of a type. *)
Fixpoint zero (t : ty) : val :=
  match t with
  | TStr => VStr ""
  | TInt | TUint => VInt 0
  | TBool => VBool false
  | TList _ | TMap _ | TPtr _ => VNil
  | TStruct fs => VStruct ((fix go fs := match fs with [] => [] | (n, t') :: fs' => (n, zero t') :: go fs' end) fs)
  end.

(** strings.ToLower on ASCII; other bytes are kept *)
Definition lowerChar (c : ascii) : ascii :=
  let n := Z.of_nat (nat_of_ascii c) in if (65 <=? n) && (n <=? 90) then ascii_of_nat (Z.to_nat (n + 32)) else c.
Fixpoint lower (s : string) : string := match s with EmptyString => EmptyString | String c s' => String (lowerChar c) (lower s') end.

(** viper's reading of the file (application.go:92-93): the keys of maps, and of maps in them, become lower case; those inside lists do not *)
Fixpoint lowerKeys (d : doc) : doc :=
  match d with
  | DMap m => DMap ((fix go m := match m with [] => [] | (k, x) :: m' => (lower k, lowerKeys x) :: go m' end) m)
  | _ => d
  end.
(** viper.Get: the tree under a dotted name; a missing one, or one below something that is not a map, is nil *)
Fixpoint get (d : doc) (path : list string) : doc :=
  match path with
  | [] => d
  | k :: path' => match d with DMap m => match aget m k with Some x => get x path' | None => DNull end | _ => DNull end
  end.
(** The key of an option in a map: mapstructure takes the key itself, or else one that differs in case only *)
Definition look (m : list (string * doc)) (n : string) : option doc :=
  match aget m n with
  | Some d => Some d
  | None => (fix go m := match m with [] => None | (k, d) :: m' => if eqb (lower k) n then Some d else go m' end) m
  end.

Section Decode.
(** What becomes of a value of another shape: the value kept or converted, and whether this is an error *)
Variable odd : ty -> val -> doc -> val * bool.

(** The options of a struct: each is decoded if its key is there, and kept if not *)
Definition fields (f : ty -> val -> doc -> val * bool) (m : list (string * doc)) : list (string * ty) -> list (string * val) -> list (string * (val * bool)) :=
  fix go fs cs :=
    match fs, cs with
    | (n, t) :: fs', (_, c) :: cs' => (n, match look m n with Some d => f t c d | None => (c, true) end) :: go fs' cs'
    | _, _ => []
    end.
(** mapstructure's Decoder.decode with ZeroFields: the new value, and whether there was no error.
    A nil sets the zero value.  A struct takes the options that are given, and keeps the others.  A pointer gets a new struct, made from zero.
    A slice and a map are made anew; a map leaves out the entries with errors; a pointer to something with errors stays as it was. *)
Fixpoint decode (t : ty) (cur : val) (d : doc) {struct t} : val * bool :=
  match d with
  | DNull => (zero t, true)
  | _ =>
      match t, d with
      | TStr, DStr s => (VStr s, true)
      | TInt, DInt n => (VInt n, true)
      | TUint, DInt n => (VInt (w32 n), true)
      | TBool, DBool b => (VBool b, true)
      | TList t', DList l => let rs : list (val * bool) := map (decode t' (zero t')) l in (VList (map fst rs), forallb snd rs)
      | TMap t', DMap m =>
          let rs : list (string * (val * bool)) := map (fun kd : string * doc => (fst kd, decode t' (zero t') (snd kd))) m in
          (VMap (flat_map (fun r : string * (val * bool) => if snd (snd r) then [(fst r, fst (snd r))] else []) rs), forallb (fun r => snd (snd r)) rs)
      | TPtr t', _ => let r := decode t' (zero t') d in if snd r then (VPtr (fst r), true) else (cur, false)
      | TStruct fs, DMap m =>
          match cur with
          | VStruct cs =>
              let rs := fields decode m fs cs in
              (VStruct (map (fun r => (fst r, fst (snd r))) rs), forallb (fun r => snd (snd r)) rs)
          | _ => odd t cur d
          end
      | _, _ => odd t cur d
      end
  end.

(** A component that is registered: application.go:78-89 registerFactory, with the type and the value of the configuration it is registered with *)
Record component := { k_kind : string; k_name : string; k_ty : ty; k_default : val }.
(** factory.go:115-154 ConstructConfig, for one component: UnmarshalKey of "kind.name" *)
Definition construct (file : doc) (k : component) : val * bool := decode (k_ty k) (k_default k) (get file [k_kind k; k_name k]).

(** Reading a value: a field, and what a pointer points to *)
Definition field (n : string) (v : val) : val := match v with VStruct fs => match aget fs n with Some x => x | None => VNil end | _ => VNil end.
Definition deref (v : val) : option val := match v with VPtr x => Some x | _ => None end.
Definition int (v : val) : Z := match v with VInt n => n | _ => 0 end.
Definition boolean (v : val) : bool := match v with VBool b => b | _ => false end.
Definition text (v : val) : string := match v with VStr s => s | _ => "" end.
Definition texts (v : val) : list string := match v with VList l => map text l | _ => [] end.

(** receiver/cgoreceiver/config.go:3-17, 19-101 *)
Definition SubEvent := TStruct [("category", TStr); ("name", TStr); ("params", TMap TStr)].
Definition sub (c n : string) : val := VStruct [("category", VStr c); ("name", VStr n); ("params", VNil)].
Definition cgoreceiver : component := {|
  k_kind := "receivers"; k_name := "cgoreceiver";
  k_ty := TStruct [("subscribe", TList SubEvent); ("process_filter", TStruct [("comms", TList TStr)])];
  k_default := VStruct [
    ("subscribe", VList (
       map (sub "net") ["syscall_exit-writev"; "syscall_exit-readv"; "syscall_exit-write"; "syscall_exit-read"; "syscall_exit-sendto"; "syscall_exit-recvfrom";
                        "syscall_exit-sendmsg"; "syscall_exit-recvmsg"; "syscall_exit-sendmmsg"]
       ++ map (sub "") ["kprobe-tcp_close"; "kprobe-tcp_rcv_established"; "kprobe-tcp_drop"; "kprobe-tcp_retransmit_skb"; "syscall_exit-connect";
                        "kretprobe-tcp_connect"; "kprobe-tcp_set_state"; "tracepoint-procexit"]));
    ("process_filter", VStruct [("comms", VList (map VStr ["kindling-collec"; "containerd"; "dockerd"; "containerd-shim"]))])] |}.

(** analyzer/network/config.go:10-33, 35-85, 87-93.  EnableTimeoutCheck has no tag: its key is its own name *)
Definition ProtocolConfig := TStruct [("key", TStr); ("ports", TList TUint); ("payload_length", TInt); ("disable_discern", TBool); ("slow_threshold", TInt)].
Definition proto (k : string) (ports : val) (len slow : Z) : val :=
  VStruct [("key", VStr k); ("ports", ports); ("payload_length", VInt len); ("disable_discern", VBool false); ("slow_threshold", VInt slow)].
Definition networkanalyzer : component := {|
  k_kind := "analyzers"; k_name := "networkanalyzer";
  k_ty := TStruct [("enabletimeoutcheck", TBool); ("event_channel_size", TInt); ("connect_timeout", TInt); ("fd_reuse_timeout", TInt); ("no_response_threshold", TInt);
                   ("response_slow_threshold", TInt); ("enable_conntrack", TBool); ("ignore_dns_rcode3_error", TBool); ("conntrack_max_state_size", TInt);
                   ("conntrack_rate_limit", TInt); ("proc_root", TStr); ("protocol_parser", TList TStr); ("protocol_config", TList ProtocolConfig);
                   ("url_clustering_method", TStr)];
  k_default := VStruct [("enabletimeoutcheck", VBool true); ("event_channel_size", VInt 10000); ("connect_timeout", VInt 100); ("fd_reuse_timeout", VInt 15);
                   ("no_response_threshold", VInt 120); ("response_slow_threshold", VInt 500); ("enable_conntrack", VBool true); ("ignore_dns_rcode3_error", VBool false);
                   ("conntrack_max_state_size", VInt 131072); ("conntrack_rate_limit", VInt 500); ("proc_root", VStr "/proc");
                   ("protocol_parser", VList (map VStr ["http"; "mysql"; "dns"; "redis"; "kafka"; "dubbo"]));
                   ("protocol_config", VList [proto "http" VNil 200 0; proto "dubbo" VNil 200 0; proto "mysql" (VList [VInt 3306]) 0 100; proto "kafka" (VList [VInt 9092]) 0 100;
                                              proto "dns" (VList [VInt 53]) 0 100; proto "cassandra" (VList [VInt 9042]) 0 100; proto "s3" (VList [VInt 9190]) 0 100]);
                   ("url_clustering_method", VStr "alphabet")] |}.
(** analyzer/cpuanalyzer/config.go:7-40 *)
Definition cpuanalyzer : component := {|
  k_kind := "analyzers"; k_name := "cpuanalyzer";
  k_ty := TStruct [("sampling_interval", TInt); ("open_java_trace_sampling", TBool); ("java_trace_slow_time", TInt); ("segment_size", TInt); ("edge_events_window_size", TInt);
                   ("java_trace_delete_interval", TInt); ("java_trace_expiration_time", TInt)];
  k_default := VStruct [("sampling_interval", VInt 5); ("open_java_trace_sampling", VBool false); ("java_trace_slow_time", VInt 500); ("segment_size", VInt 40);
                   ("edge_events_window_size", VInt 2); ("java_trace_delete_interval", VInt 20); ("java_trace_expiration_time", VInt 120)] |}.
(** tcpmetricanalyzer and noopanalyzer have empty configurations *)
Definition tcpmetricanalyzer : component := {| k_kind := "analyzers"; k_name := "tcpmetricanalyzer"; k_ty := TStruct []; k_default := VStruct [] |}.
Definition noopanalyzer : component := {| k_kind := "analyzers"; k_name := "noopanalyzer"; k_ty := TStruct []; k_default := VStruct [] |}.
(** analyzer/tcpconnectanalyzer/config.go:3-15 *)
Definition tcpconnectanalyzer : component := {|
  k_kind := "analyzers"; k_name := "tcpconnectanalyzer";
  k_ty := TStruct [("channel_size", TInt); ("wait_event_second", TInt); ("need_process_info", TBool)];
  k_default := VStruct [("channel_size", VInt 2000); ("wait_event_second", VInt 10); ("need_process_info", VBool false)] |}.
(** analyzer/k8sinfoanalyzer/config.go:3-13 *)
Definition k8sinfoanalyzer : component := {|
  k_kind := "analyzers"; k_name := "k8sinfoanalyzer"; k_ty := TStruct [("send_datagroup_interval", TInt)]; k_default := VStruct [("send_datagroup_interval", VInt 15)] |}.
(** processor/k8sprocessor/config.go:7-36, metadata/kubernetes/config.go:30-37 *)
Definition Provider := TStruct [("enable", TBool); ("enable_trace", TBool); ("endpoint", TStr)].
Definition k8smetadataprocessor : component := {|
  k_kind := "processors"; k_name := "k8smetadataprocessor";
  k_ty := TStruct [("kube_auth_type", TStr); ("kube_config_dir", TStr); ("grace_delete_period", TInt); ("enable_fetch_replicaset", TBool); ("enable", TBool);
                   ("metadata_provider_config", TPtr Provider)];
  k_default := VStruct [("kube_auth_type", VStr "serviceAccount"); ("kube_config_dir", VStr "/root/.kube/config"); ("grace_delete_period", VInt 60);
                   ("enable_fetch_replicaset", VBool false); ("enable", VBool true); ("metadata_provider_config", VPtr (zero Provider))] |}.
(** processor/aggregateprocessor/config.go:3-43 *)
Definition KindConfig := TStruct [("output_name", TStr); ("kind", TStr); ("explicit_boundaries", TList TInt)].
Definition kindOf (k out : string) : val := VStruct [("output_name", VStr out); ("kind", VStr k); ("explicit_boundaries", VNil)].
Definition SampleConfig := TStruct [("normal_data", TInt); ("slow_data", TInt); ("error_data", TInt)].
Definition aggregateprocessor : component := {|
  k_kind := "processors"; k_name := "aggregateprocessor";
  k_ty := TStruct [("ticker_interval", TInt); ("aggregate_kind_map", TMap (TList KindConfig)); ("sampling_rate", TPtr SampleConfig)];
  k_default := VStruct [("ticker_interval", VInt 5);
    ("aggregate_kind_map", VMap [("request_total_time", VList [kindOf "sum" ""; kindOf "avg" "request_total_time_avg"; kindOf "count" "request_count"]);
       ("request_io", VList [kindOf "sum" ""]); ("response_io", VList [kindOf "sum" ""]); ("kindling_tcp_srtt_microseconds", VList [kindOf "last" ""]);
       ("kindling_tcp_retransmit_total", VList [kindOf "sum" ""]); ("kindling_tcp_packet_loss_total", VList [kindOf "sum" ""])]);
    ("sampling_rate", VPtr (VStruct [("normal_data", VInt 0); ("slow_data", VInt 100); ("error_data", VInt 100)]))] |}.
(** exporter/otelexporter/config.go:7-45; registered with an empty configuration, application.go:83 *)
Definition otelTy := TStruct [("export_kind", TStr);
  ("prometheus", TPtr (TStruct [("port", TStr); ("with_memory", TBool); ("memcleanup", TPtr (TStruct [("enable", TBool); ("restart_period", TInt)]))]));
  ("otlp", TPtr (TStruct [("collect_period", TInt); ("endpoint", TStr)])); ("stdout", TPtr (TStruct [("collect_period", TInt)]));
  ("custom_labels", TMap TStr); ("metric_aggregation_map", TMap TStr);
  ("adapter_config", TPtr (TStruct [("need_trace_as_span", TBool); ("need_trace_as_metric", TBool); ("need_pod_detail", TBool); ("store_external_src_ip", TBool)]))].
Definition otelexporter : component := {| k_kind := "exporters"; k_name := "otelexporter"; k_ty := otelTy; k_default := zero otelTy |}.
Definition logexporter : component := {| k_kind := "exporters"; k_name := "logexporter"; k_ty := TStruct []; k_default := VStruct [] |}.
(** exporter/cameraexporter/config.go:8-34 *)
Definition cameraexporter : component := {|
  k_kind := "exporters"; k_name := "cameraexporter";
  k_ty := TStruct [("storage", TStr); ("es_config", TPtr (TStruct [("es_host", TStr); ("index_suffix", TStr)]));
                   ("file_config", TPtr (TStruct [("storage_path", TStr); ("max_file_count_each_process", TInt)]))];
  k_default := VStruct [("storage", VStr "file"); ("es_config", VNil);
                   ("file_config", VPtr (VStruct [("storage_path", VStr "/tmp/kindling/"); ("max_file_count_each_process", VInt 50)]))] |}.
(** application.go:78-89 registerFactory *)
Definition registered : list component :=
  [cgoreceiver; networkanalyzer; cpuanalyzer; k8smetadataprocessor; otelexporter; tcpmetricanalyzer; logexporter; noopanalyzer; k8sinfoanalyzer; aggregateprocessor;
   tcpconnectanalyzer; cameraexporter].

(** controller/controller.go:47-58, http_controller.go:22-25: read from its own zero value, and an error is only logged *)
Definition controllerTy := TStruct [("http", TPtr (TStruct [("enable", TBool); ("port", TStr)])); ("modules", TList TStr)].
Definition controllerOf (file : doc) : val := fst (decode controllerTy (zero controllerTy) (get file ["controller"])).

(** observability/logger/logger.go:12-17, 38-62 InitLogger and lumberjack.go:30-32 ToString: read from its zero value, an error is only logged; a file log without
    a file_rotation section dereferences a nil pointer.  The options of lumberjack.Logger by their names. *)
Definition loggerTy := TStruct [("console_level", TStr); ("file_level", TStr); ("debug_selector", TList TStr);
  ("file_rotation", TPtr (TStruct [("filename", TStr); ("maxsize", TInt); ("maxage", TInt); ("maxbackups", TInt); ("localtime", TBool); ("compress", TBool)]))].
Definition loggerOf (file : doc) : val := fst (decode loggerTy (zero loggerTy) (get file ["observability"; "logger"])).
Definition initLogger (v : val) : res unit :=
  if eqb (text (field "file_level" v)) "none" then Ok tt
  else match deref (field "file_rotation" v) with Some _ => Ok tt | None => Panic end.
(** observability/config.go:5-31, telemetry.go:55-72 initProvider and observability/telemetry.go:95-176 InitTelemetry: errors are only logged, and a kind that
    is not known is one; the section of the chosen kind is dereferenced.  [made]: the library made the exporter; cont.Start makes a ticker of the period. *)
Definition selfTy := TStruct [("export_kind", TStr); ("prometheus", TPtr (TStruct [("port", TStr); ("extra_metrics", TList TStr)]));
  ("otlp", TPtr (TStruct [("collect_period", TInt); ("endpoint", TStr)])); ("stdout", TPtr (TStruct [("collect_period", TInt)]))].
Definition selfDefault : val := VStruct [("export_kind", VStr "stdout"); ("prometheus", VNil); ("otlp", VNil); ("stdout", VPtr (VStruct [("collect_period", VInt 10000000000)]))].
Definition selfOf (file : doc) : val := fst (decode selfTy selfDefault (get file ["observability"; "opentelemetry"])).
Definition pushSelf (made : bool) (section : val) : res unit :=
  match deref section with
  | None => Panic
  | Some s => if made then newTicker (int (field "collect_period" s)) else Ok tt
  end.
Definition initSelf (made : bool) (v : val) : res unit :=
  let kind := text (field "export_kind" v) in
  if eqb kind "prometheus" then
    (if made then match deref (field "prometheus" v) with Some _ => Ok tt | None => Panic end else Ok tt)
  else if eqb kind "stdout" then pushSelf made (field "stdout" v)
  else if eqb kind "otlp" then pushSelf made (field "otlp" v)
  else Ok tt.

(** The part of the configuration that LifeModel.v keeps.  A file_config that is nil is dereferenced (filewriter.go:27), as a path that is
    not absolute is refused: both end in a panic *)
Definition confOf (file : doc) : conf :=
  let c k := fst (construct file k) in
  let otel := c otelexporter in let cam := c cameraexporter in let net := c networkanalyzer in let conn := c tcpconnectanalyzer in
  let ctl := controllerOf file in
  {| c_http := match deref (field "http" ctl) with Some h => Some (boolean (field "enable" h)) | None => None end;
     c_modules := texts (field "modules" ctl);
     c_kind := text (field "export_kind" otel);
     c_prom := match deref (field "prometheus" otel) with
               | Some p => Some (match deref (field "memcleanup" p) with Some m => Some (boolean (field "enable" m), int (field "restart_period" m)) | None => None end)
               | None => None end;
     c_stdout := match deref (field "stdout" otel) with Some s => Some (int (field "collect_period" s)) | None => None end;
     c_otlp := match deref (field "otlp" otel) with Some s => Some (int (field "collect_period" s)) | None => None end;
     c_adapter := match deref (field "adapter_config" otel) with Some _ => true | None => false end;
     c_storage := text (field "storage" cam);
     c_es := match deref (field "es_config" cam) with Some _ => true | None => false end;
     c_path := match deref (field "file_config" cam) with Some f => bs (text (field "storage_path" f)) | None => [] end;
     c_aggInterval := int (field "ticker_interval" (c aggregateprocessor));
     c_k8s := boolean (field "enable" (c k8smetadataprocessor));
     c_netChan := int (field "event_channel_size" net);
     c_conntrack := boolean (field "enable_conntrack" net);
     c_connChan := int (field "channel_size" conn);
     c_connWait := int (field "wait_event_second" conn);
     c_infoInterval := int (field "send_datagroup_interval" (c k8sinfoanalyzer)) |}.

(** processor/aggregateprocessor/processor.go:247-265: the rates that decide which traces are kept; a sampling_rate that is nil is dereferenced *)
Definition samplingOf (file : doc) : res SampleModel.sampling :=
  match deref (field "sampling_rate" (fst (construct file aggregateprocessor))) with
  | Some s => Ok {| SampleModel.normalRate := int (field "normal_data" s); SampleModel.slowRate := int (field "slow_data" s); SampleModel.errorRate := int (field "error_data" s) |}
  | None => Panic
  end.
(** application.go:38-59 New and 91-106 readInConfig: the telemetry first, then the components, whose error is returned after the controllers are made *)
Definition startFile (made : bool) (text_ : doc) (e : env) : res built :=
  let file := lowerKeys text_ in
  bind (initLogger (loggerOf file)) (fun _ =>
  bind (initSelf made (selfOf file)) (fun _ =>
  bind (controllerConfig (confOf file)) (fun _ =>
  if forallb (fun k => snd (construct file k)) registered then start (confOf file) e else Err))).
End Decode.
