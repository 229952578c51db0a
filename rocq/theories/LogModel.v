(** The collector's log: which messages reach the console and the log file.
    pkg/component/telemetry.go and pkg/observability/logger/logger.go, with the configuration of ConfModel.v.
    Simplifications: a message is an abstract number; time stamps, callers and colours are left out, and so is the rotation of the file; one call is one step
    (zap writes each message under a lock), so the list of calls is their order; zap's cores take a message when its level is not below theirs. *)
From Verif Require Import Base LifeModel ConfModel.
Open Scope string_scope. Open Scope list_scope. Open Scope Z_scope.

(** zapcore's levels *)
Definition Debug := -1. Definition Info := 0. Definition Warn := 1. Definition Error := 2. Definition DPanic := 3. Definition PanicLevel := 4.

(** logger.go:69-81 toLogLevel *)
Definition toLogLevel (s : string) : Z :=
  if eqb s "debug" then Debug else if eqb s "info" then Info else if eqb s "warn" then Warn else if eqb s "error" then Error else Info.
(** The cores of the logger: the console's level and the file's, where there is one *)
Record logger := { l_console : option Z; l_file : option Z }.
(** logger.go:19-62 InitLogger (its own first message is left out); the nil file_rotation as in ConfModel.v *)
Definition cores (console file : string) : logger :=
  if negb (eqb console "none") && negb (eqb file "none") then {| l_console := Some (toLogLevel console); l_file := Some (toLogLevel file) |}
  else if negb (eqb file "none") then {| l_console := None; l_file := Some (toLogLevel file) |}
  else if negb (eqb console "none") then {| l_console := Some (toLogLevel console); l_file := None |}
  else {| l_console := Some DPanic; l_file := None |}.

(** telemetry.go:23-27, 41-53: the manager *)
Record manager := { g_logger : logger; g_selector : list string }.
Definition managerOf (v : val) : res manager :=
  bind (initLogger v) (fun _ =>
    Ok {| g_logger := cores (text (field "console_level" v)) (text (field "file_level" v)); g_selector := texts (field "debug_selector" v) |}).
(** telemetry.go:74-99 GetGlobalTelemetryTools, GetTelemetryTools and SelectorOption: whether the tools of a component ([None]: the global ones) print
    debugging messages *)
Definition enableDebug (g : manager) (who : option string) : bool :=
  match who with
  | None => true
  | Some c => match g_selector g with [] => true | l => existsb (fun s => eqb s c) l end
  end.
(** application.go:109-147 buildPipeline: the names with which the components ask for their tools *)
Definition toolNames : list (component * string) :=
  [(otelexporter, "otelexporter"); (cameraexporter, "cameraexporter"); (aggregateprocessor, "aggregateprocessor"); (k8smetadataprocessor, "k8smetadataprocessor");
   (networkanalyzer, "networkanalyzer"); (tcpmetricanalyzer, "tcpmetricanalyzer"); (tcpconnectanalyzer, "tcpconnectanalyzer"); (cpuanalyzer, "cpuanalyzer");
   (k8sinfoanalyzer, "k8sinfoanalyzer"); (cgoreceiver, "cgoreceiver")].

(** A call of the logger: by whom, at which level, and whether the code asks Check first and is silent if it answers nil *)
Record call := { w_who : option string; w_level : Z; w_checked : bool; w_msg : Z }.
Definition takes (core : option Z) (level : Z) : bool := match core with Some l => l <=? level | None => false end.
(** telemetry.go:175-181 Check: not nil *)
Definition check (g : manager) (c : call) : bool :=
  enableDebug g (w_who c) && (takes (l_console (g_logger g)) (w_level c) || takes (l_file (g_logger g)) (w_level c)).
(** telemetry.go:131-173: Debug is dropped unless it is enabled; the others go to zap.  What is written on the console and in the file. *)
Definition write (g : manager) (c : call) : list Z * list Z :=
  if (w_checked c && negb (check g c)) || ((w_level c =? Debug) && negb (enableDebug g (w_who c))) then ([], [])
  else (if takes (l_console (g_logger g)) (w_level c) then [w_msg c] else [], if takes (l_file (g_logger g)) (w_level c) then [w_msg c] else []).
(** Calls one after the other; a Panic, checked or not, ends the process after it is written (zap panics whether or not a core takes the message), and
    a checked one only if it is made. *)
Fixpoint log (g : manager) (cs : list call) : (list Z * list Z) * bool :=
  match cs with
  | [] => (([], []), false)
  | c :: cs' =>
      let o := write g c in
      if (PanicLevel <=? w_level c) && negb (w_checked c && negb (check g c)) then (o, true)
      else let r := log g cs' in ((fst o ++ fst (fst r), snd o ++ snd (fst r)), snd r)
  end.
