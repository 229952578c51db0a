(** The life of the collector's process: reading its configuration, building the pipeline, starting, serving, and stopping on a signal.
    collector/cmd/kindling-collector/main.go, collector/internal/application/application.go and the constructors it calls.
    Simplifications: only the fields of the configuration that decide whether the process comes up are kept; what other systems answer
    (Prometheus registry, OTLP library, API server, Elasticsearch, file system, netlink, probe) is the environment [env]; a panic of zap's
    logger, of the run time or of a library are all [Panic]; the logs are left out. *)
From Verif Require Import Base.
Open Scope string_scope. Open Scope list_scope. Open Scope Z_scope.

(** The configuration.  A section that a user leaves out, and for which the code has no default, is [None]. *)
Record conf := {
  c_http : option bool;                 (* controller/controller.go:47-50, http_controller.go:22-25: the section, with its field Enable *)
  c_modules : list string;
  c_kind : string;                      (* otelexporter/config.go:7-15 *)
  c_prom : option (option (bool * Z));  (* otelexporter/config.go:17-21, 42-45: the section, with memcleanup: enabled, hours *)
  c_stdout : option Z;                  (* otelexporter/config.go:28-30: nanoseconds *)
  c_otlp : option Z;                    (* otelexporter/config.go:23-26 *)
  c_adapter : bool;                     (* otelexporter/config.go:35-40: the section is there *)
  c_storage : string;                   (* cameraexporter/config.go:8-12 *)
  c_es : bool;                          (* cameraexporter/config.go:14-17: the section is there *)
  c_path : bytes;                       (* cameraexporter/config.go:19-24 *)
  c_aggInterval : Z;                    (* aggregateprocessor/config.go:3-9: seconds *)
  c_k8s : bool;                         (* k8sprocessor: Enable *)
  c_netChan : Z;                        (* network: EventChannelSize *)
  c_conntrack : bool;                   (* network: EnableConntrack *)
  c_connChan : Z;                       (* tcpconnectanalyzer/config.go:3-7 *)
  c_connWait : Z;
  c_infoInterval : Z                    (* k8sinfoanalyzer/config.go:3-7: seconds *)
}.
(** What the others answer. *)
Record env := {
  e_prom : bool;        (* prometheus.New succeeds *)
  e_exporters : bool;   (* newExporters succeeds *)
  e_k8s : bool;         (* InitK8sHandler succeeds *)
  e_es : bool;          (* NewEsClient succeeds *)
  e_mkdir : bool;       (* MkdirAll succeeds *)
  e_netlink : bool;     (* the internal conntracker can be made *)
  e_probe : bool        (* runForGo does not return 1 *)
}.

(** time.NewTicker of a duration: panics unless it is positive *)
Definition newTicker (d : Z) : res unit := if 0 <? d then Ok tt else Panic.
(** time.Duration(n) times time.Second, or time.Hour: the product of two int64 wraps *)
Definition seconds (n : Z) : Z := s64 (n * 1000000000).
Definition hours (n : Z) : Z := s64 (n * 3600000000000).
(** make(chan, n) panics for a negative size *)
Definition makeChan (n : Z) : res unit := if n <? 0 then Panic else Ok tt.

(** controller/controller.go:52-74 ConstructConfig and http_controller.go:48-50 RegistController: an HTTP server is made when the section is
    there, whatever its field Enable says; net/http's HandleFunc panics for a path that was registered before.  The result is what
    cf.Controller holds: [None] is nil, [Some has] is an API with or without the profile module. *)
Fixpoint registerModules (has : bool) (ms : list string) : res bool :=
  match ms with
  | [] => Ok has
  | m :: ms' => if eqb m "profile" then (if has then Panic else registerModules true ms') else registerModules has ms'
  end.
Definition controllerConfig (c : conf) : res (option bool) :=
  match c_http c with None => Ok None | Some _ => bind (registerModules false (c_modules c)) (fun has => Ok (Some has)) end.

(** otelexporter/otelexporter.go:69-238 NewExporter and 355-367 registerResetSchedule.  A section that is not there is a nil pointer.
    cont.Start makes a ticker of the collect period (the library's controller); a failure of newExporters is a logged panic. *)
Definition resetSchedule (m : option (bool * Z)) : res unit :=
  match m with
  | Some (true, h) => if h =? 0 then Ok tt else newTicker (hours h)
  | _ => Ok tt
  end.
Definition push (c : conf) (e : env) (section : option Z) : res unit :=
  match section with
  | None => Panic
  | Some period => if e_exporters e then (if c_adapter c then newTicker period else Panic) else Panic
  end.
Definition newOtel (c : conf) (e : env) : res unit :=
  if eqb (c_kind c) "prometheus" then
    match c_prom c with
    | None => Panic
    | Some m => if e_prom e then (if c_adapter c then resetSchedule m else Panic) else Panic
    end
  else if eqb (c_kind c) "stdout" then push c e (c_stdout c)
  else if eqb (c_kind c) "otlp" then push c e (c_otlp c)
  else Panic.

(** cameraexporter/exporter.go:22-43 New, filewriter.go:25-40 newFileWriter, path.IsAbs: the first byte is a slash.  [None] is a nil writer. *)
Inductive writer := WEs | WFile.
Definition newCamera (c : conf) (e : env) : res (option writer) :=
  if eqb (c_storage c) "elasticsearch" then (if c_es c then (if e_es e then Ok (Some WEs) else Panic) else Panic)
  else if eqb (c_storage c) "file" then
    match c_path c with
    | 47 :: _ => if e_mkdir e then Ok (Some WFile) else Panic
    | _ => Panic
    end
  else Ok None.
(** exporter.go:45-51 Consume: a method called on a nil interface *)
Definition cameraConsume (w : option writer) : res writer := match w with None => Panic | Some x => Ok x end.

(** aggregateprocessor/processor.go:39-54 New *)
Definition newAggregate (c : conf) : res unit := newTicker (seconds (c_aggInterval c)).
(** k8sprocessor/kubernetes_processor.go:33-79 NewKubernetesProcessor *)
Definition newK8s (c : conf) (e : env) : res unit := if c_k8s c then (if e_k8s e then Ok tt else Panic) else Ok tt.

(** metadata/conntracker/conntracker_linux.go:21-50 NewConntracker: the first call decides ([sync.Once]); [asked] is the argument: the
    configuration is there and enabled. *)
Inductive tracker := TNoop | TNetlink.
Definition newConntracker (e : env) (once : option tracker) (asked : bool) : tracker :=
  match once with Some t => t | None => if asked then (if e_netlink e then TNetlink else TNoop) else TNoop end.

(** network/network_analyzer.go:65-92 NewNetworkAnalyzer: [None] is a nil tracker *)
Definition newNetwork (c : conf) (e : env) (once : option tracker) : res (option tracker * option tracker) :=
  bind (makeChan (c_netChan c)) (fun _ =>
    if c_conntrack c then let t := newConntracker e once true in Ok (Some t, Some t) else Ok (None, once)).
(** network_analyzer.go:460-470: the tracker is asked only if EnableConntrack; a method called on a nil interface panics *)
Definition networkAsks (c : conf) (t : option tracker) : res (option tracker) :=
  if c_conntrack c then match t with None => Panic | Some x => Ok (Some x) end else Ok None.
(** tcpmetricanalyzer/tcp_analyzer.go:29-40 NewTcpMetricAnalyzer *)
Definition newTcpMetric (e : env) (once : option tracker) : tracker * option tracker := let t := newConntracker e once false in (t, Some t).
(** tcpconnectanalyzer/analyzer.go:34-52 New *)
Definition newTcpConnect (c : conf) (e : env) (once : option tracker) : res (tracker * option tracker) :=
  bind (makeChan (c_connChan c)) (fun _ => let t := newConntracker e once false in Ok (t, Some t)).

(** What a collector that came up holds. *)
Record built := { b_writer : option writer; b_net : option tracker; b_tcp : tracker; b_conn : tracker; b_api : bool }.
(** application.go:109-156 buildPipeline; controller.go:76-78 RegistModule on a nil interface *)
Definition buildPipeline (c : conf) (e : env) (api : option bool) : res built :=
  bind (newOtel c e) (fun _ =>
  bind (newCamera c e) (fun w =>
  bind (newAggregate c) (fun _ =>
  bind (newK8s c e) (fun _ =>
  bind (newNetwork c e None) (fun n =>
  let m := newTcpMetric e (snd n) in
  bind (newTcpConnect c e (snd m)) (fun t =>
  match api with
  | None => Panic
  | Some has => Ok {| b_writer := w; b_net := fst n; b_tcp := fst m; b_conn := fst t; b_api := has |}
  end)))))).
(** application.go:38-59 New, 91-106 readInConfig (a configuration that cannot be read is left out) *)
Definition new (c : conf) (e : env) : res built := bind (controllerConfig c) (fun api => buildPipeline c e api).

(** The analyzers, in the order of application.go:140, with what their Start leaves behind: the first statement of the goroutine it starts
    (network_analyzer.go:118-163, tcp_analyzer.go:42-44, tcpconnectanalyzer/analyzer.go:67-86, cpu_analyzer.go:69-74 where time.After takes any
    period, k8sinfoanalyzer.go:59-63 and 36-37).  None of them returns an error. *)
Inductive analyzer := ANetwork | ATcp | AConnect | ACpu | AInfo.
Definition analyzers : list analyzer := [ANetwork; ATcp; AConnect; ACpu; AInfo].
Definition firstStep (c : conf) (a : analyzer) : res unit :=
  match a with
  | ANetwork => newTicker 1000000000
  | AConnect => newTicker (seconds (Z.quot (c_connWait c) 3))
  | AInfo => newTicker (seconds (c_infoInterval c))
  | ATcp | ACpu => Ok tt
  end.
(** A panic of any goroutine ends the process. *)
Fixpoint allRun (c : conf) (as_ : list analyzer) : res unit :=
  match as_ with [] => Ok tt | a :: r => bind (firstStep c a) (fun _ => allRun c r) end.
(** application.go:61-72 Run, manager.go:59-68 StartAll, cgoreceiver.go:65-82 Start: the goroutines begin while Run goes on (Start of the
    receiver sleeps four seconds); log.Fatalf ends the process when the probe cannot be loaded *)
Definition run (c : conf) (e : env) : res unit := bind (allRun c analyzers) (fun _ => if e_probe e then Ok tt else Err).
(** main.go:14-32: [Ok] when the process waits for a signal with everything running, [Err] when it ends with an error message, [Panic] when it
    ends with a stack trace. *)
Definition start (c : conf) (e : env) : res built := bind (new c e) (fun b => bind (run c e) (fun _ => Ok b)).

(** ** Stopping: main.go:31-44 and application.go:74-76, with the goroutines it meets.
    The signals SIGTERM and SIGINT have their default effect until signal.Notify; then they go to a channel of size one, and one that finds it full
    is dropped.  Shutdown of the receiver is one step here, which may or may not come (RecvModel.v models it); every Shutdown of an
    analyzer returns nil. *)
Inductive mpc :=
| MBoot                 (* New and Run, until signal.Notify *)
| MWait                 (* :35-36 *)
| MReceiver             (* in receiver.Shutdown *)
| MNet | MTcp | MConn   (* about to call Shutdown of the analyzer: manager.go:70-80, in the order of application.go:140 *)
| MCpu | MCpuStop       (* cpu_analyzer.go:76-81: the flag is read, then StopProfile is called *)
| MInfo
| MExit (code : Z)      (* main returns, or os.Exit(1) *)
| MKilled (sig : bool). (* the process ended: by the default action of a signal ([true]) or by a panic ([false]) *)
(** the channel that StartProfile makes and StopProfile closes, module_control.go:14-47 *)
Inductive pchan := PNil | POpen | PClosed.
Record life := {
  f_main : mpc;
  f_signals : bool;    (* a signal waits in sigCh *)
  f_conn : bool;       (* the goroutine of the connection analyzer is at its select; [false]: it works on an event or a scan *)
  f_connLive : bool;
  f_profile : bool;    (* enableProfile *)
  f_pchan : pchan;
  f_module : bool      (* the profiling module's status is Started, module.go:37 *)
}.
Definition life0 : life := {| f_main := MBoot; f_signals := false; f_conn := true; f_connLive := true; f_profile := false; f_pchan := PNil; f_module := false |}.
Definition setMain (s : life) (m : mpc) : life :=
  {| f_main := m; f_signals := f_signals s; f_conn := f_conn s; f_connLive := f_connLive s; f_profile := f_profile s; f_pchan := f_pchan s; f_module := f_module s |}.
(** module_control.go:31-47 StopProfile, under the analyzer's lock; closing a closed or a nil channel panics *)
Definition stopProfile (s : life) : res life :=
  match f_pchan s with
  | POpen => Ok {| f_main := f_main s; f_signals := f_signals s; f_conn := f_conn s; f_connLive := f_connLive s; f_profile := false; f_pchan := PClosed; f_module := f_module s |}
  | _ => Panic
  end.
Inductive label :=
| SNotify            (* main.go:31-33 is reached *)
| SSignal            (* the process gets SIGTERM or SIGINT *)
| SGo                (* one step of main *)
| SConnBusy | SConnFree   (* the connection analyzer's goroutine takes an event or a tick, and comes back *)
| SStart             (* a request starts the profiling, module.go:72-92 *)
| SStop (timer : bool).   (* a request, or the timer of the session, stops it, module.go:94-111 *)
(** [None]: the step cannot be taken now *)
Definition lifeStep (s : life) (l : label) : option life :=
  match f_main s with
  | MExit _ | MKilled _ => None
  | m =>
    match l with
    | SNotify => match m with MBoot => Some (setMain s MWait) | _ => None end
    | SSignal => match m with
        | MBoot => Some (setMain s (MKilled true))
        | _ => Some {| f_main := m; f_signals := true; f_conn := f_conn s; f_connLive := f_connLive s; f_profile := f_profile s; f_pchan := f_pchan s; f_module := f_module s |}
        end
    | SGo => match m with
        | MWait => if f_signals s
            then Some {| f_main := MReceiver; f_signals := false; f_conn := f_conn s; f_connLive := f_connLive s; f_profile := f_profile s; f_pchan := f_pchan s; f_module := f_module s |}
            else None
        | MReceiver => Some (setMain s MNet)
        | MNet => Some (setMain s MTcp)                      (* network_analyzer.go:165-170: closes its channel *)
        | MTcp => Some (setMain s MConn)
        | MConn =>                                           (* tcpconnectanalyzer/analyzer.go:238-241: a send without buffer *)
            if f_conn s && f_connLive s
            then Some {| f_main := MCpu; f_signals := f_signals s; f_conn := f_conn s; f_connLive := false; f_profile := f_profile s; f_pchan := f_pchan s; f_module := f_module s |}
            else None
        | MCpu => Some (setMain s (if f_profile s then MCpuStop else MInfo))
        | MCpuStop => match stopProfile s with Ok s' => Some (setMain s' MInfo) | _ => Some (setMain s (MKilled false)) end
        | MInfo => Some (setMain s (MExit 0))                (* k8sinfoanalyzer.go:69-72: closes its channel; main.go:38-42 *)
        | _ => None
        end
    | SConnBusy => if f_conn s && f_connLive s
        then Some {| f_main := m; f_signals := f_signals s; f_conn := false; f_connLive := true; f_profile := f_profile s; f_pchan := f_pchan s; f_module := f_module s |} else None
    | SConnFree => if f_conn s then None
        else Some {| f_main := m; f_signals := f_signals s; f_conn := true; f_connLive := f_connLive s; f_profile := f_profile s; f_pchan := f_pchan s; f_module := f_module s |}
    | SStart => if f_module s then None
        else Some {| f_main := m; f_signals := f_signals s; f_conn := f_conn s; f_connLive := f_connLive s; f_profile := true; f_pchan := POpen; f_module := true |}
    | SStop timer => if f_module s
        then match stopProfile s with
          | Ok s' => Some {| f_main := m; f_signals := f_signals s'; f_conn := f_conn s'; f_connLive := f_connLive s'; f_profile := f_profile s'; f_pchan := f_pchan s'; f_module := false |}
          | _ => if timer then Some (setMain s (MKilled false)) else Some s   (* net/http recovers the panic of a request *)
          end
        else None
    end
  end.
Fixpoint lives (s : life) (ls : list label) : option life :=
  match ls with [] => Some s | l :: ls' => match lifeStep s l with Some s' => lives s' ls' | None => None end end.
