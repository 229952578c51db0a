(** Model of the trace files: collector/pkg/component/consumer/exporter/cameraexporter (filewriter.go, datehelper.go) and
    collector/pkg/filepathhelper/filepath.go.
    Simplifications: a path is the name of the process directory and the name of the file in it (the storage path is fixed and names hold
    no slash); the JSON text of a group is a field of the group; the file system fails only where [creatable] says that a file of this name
    cannot be created; the modification time of a directory entry is read in one step; a removal started by a rotation happens as a step
    of its own, at any later moment and in any order. *)
From Verif Require Import Base Decimal AttrModel EnrichModel LabelNames CpuModel.
Open Scope string_scope. Open Scope list_scope. Open Scope Z_scope.

(** * Dates *)
(** The standard library's time.Time.Date (absDate): the day number of 1 January of the year 1 is 0. The library counts from the year
    -292277022399, which is a whole number of 400-year cycles earlier. *)
Definition isLeap (y : Z) : bool := (y mod 4 =? 0) && (negb (y mod 100 =? 0) || (y mod 400 =? 0)).
Definition daysBefore : list Z := [0; 31; 59; 90; 120; 151; 181; 212; 243; 273; 304; 334; 365].
Definition monthDay (leap : bool) (yday : Z) : Z * Z :=
  let day := if leap && (59 <? yday) then yday - 1 else yday in
  if leap && (yday =? 59) then (2, 29)
  else
    let m := day / 31 in
    let e := nth (Z.to_nat (m + 1)) daysBefore 0 in
    if e <=? day then (m + 2, day - e + 1) else (m + 1, day - nth (Z.to_nat m) daysBefore 0 + 1).
Definition absDate (d0 : Z) : Z * Z * Z :=
  let n400 := d0 / 146097 in
  let d1 := d0 - 146097 * n400 in
  let q100 := d1 / 36524 in let n100 := q100 - q100 / 4 in
  let d2 := d1 - 36524 * n100 in
  let n4 := d2 / 1461 in
  let d3 := d2 - 1461 * n4 in
  let q1 := d3 / 365 in let n1 := q1 - q1 / 4 in
  let yday := d3 - 365 * n1 in
  let year := 400 * n400 + 100 * n100 + 4 * n4 + n1 + 1 in
  let '(m, d) := monthDay (isLeap year) yday in (year, m, d).
(** datehelper.go:18-24 dateToString *)
Definition dateToString (d : Z) : bytes := if (0 <=? d) && (d <=? 9) then 48 :: formatInt d else formatInt d.
(** datehelper.go:8-16 getDateString of a 64-bit timestamp (filewriter.go:66); [zone] is the offset of local time at a second *)
Definition dayOffset : Z := 719162.
Definition getDateString (zone : Z -> Z) (ts : Z) : bytes :=
  let t := s64 ts in
  let sec := t / 1000000000 in
  let loc := sec + zone sec in
  let '(y, m, d) := absDate (loc / 86400 + dayOffset) in
  let r := loc mod 86400 in
  dateToString y ++ dateToString m ++ dateToString d ++ dateToString (r / 3600) ++ dateToString (r mod 3600 / 60) ++ dateToString (r mod 60) ++
  46 :: dateToString (Z.rem t 1000000000).

(** * Names *)
(** encoding/base64.URLEncoding *)
Definition b64c (v : Z) : Z :=
  if v <? 26 then 65 + v else if v <? 52 then 71 + v else if v <? 62 then v - 4 else if v =? 62 then 45 else 95.
Fixpoint b64 (l : bytes) : bytes :=
  match l with
  | a :: b :: c :: r => b64c (a / 4) :: b64c (a mod 4 * 16 + b / 16) :: b64c (b mod 16 * 4 + c / 64) :: b64c (c mod 64) :: b64 r
  | [a; b] => [b64c (a / 4); b64c (a mod 4 * 16 + b / 16); b64c (b mod 16 * 4); 61]
  | [a] => [b64c (a / 4); b64c (a mod 4 * 16); 61; 61]
  | [] => []
  end.
Definition US : Z := 95.
(** filewriter.go:53-56 pidFilePath *)
Definition pidFilePath (wl pod cont : bytes) (pid : Z) : bytes := wl ++ US :: pod ++ US :: cont ++ US :: formatInt pid.
(** :58-67 getFileName *)
Definition getFileName (zone : Z -> Z) (protocol contentKey : bytes) (ts : Z) (isServer : bool) : bytes :=
  getDateString zone ts ++ US :: protocol ++ US :: b64 contentKey ++ US :: formatBool isServer.

(** filepath.go:8-17 *)
Record elements := { f_wl : bytes; f_pod : bytes; f_cont : bytes; f_pid : Z; f_srv : bool; f_proto : bytes; f_ts : Z; f_ck : bytes }.
Definition LTimestamp := "timestamp".
Definition LbPid := "pid".
Definition orElse (d b : bytes) : bytes := match b with [] => d | _ => b end.
(** filepath.go:37-73 GetFilePathElements *)
Definition getElements (m : labels) (ts : Z) : elements :=
  let srv := boolOf m LIsServer in
  let pick d s := strOf m (if srv then d else s) in
  {| f_wl := orElse (bs "NoWorkloadName") (pick LbDstWorkloadName LbSrcWorkloadName);
     f_pod := orElse (bs "NoPodName") (pick LbDstPod LbSrcPod);
     f_cont := orElse (bs "NoContainerName") (pick LbDstContainer LbSrcContainer);
     f_pid := intOf m LbPid; f_srv := srv; f_proto := strOf m LProtocol; f_ts := ts; f_ck := strOf m LContentKey |}.
(** filepath.go:19-35 ToAttributes *)
Definition toAttributes (f : elements) : labels :=
  [(LIsServer, BV (f_srv f));
   (if f_srv f then LbDstWorkloadName else LbSrcWorkloadName, SV (f_wl f));
   (if f_srv f then LbDstPod else LbSrcPod, SV (f_pod f));
   (if f_srv f then LbDstContainer else LbSrcContainer, SV (f_cont f));
   (LProtocol, SV (f_proto f)); (LContentKey, SV (f_ck f)); (LTimestamp, IV (s64 (f_ts f)))].
(** attribute_map.go:49-56 Merge, on values (the values merged are not used again) *)
Definition mergeLabels (m other : labels) : labels := fold_left (fun m p => aset m (fst p) (snd p)) other m.
(** cpuanalyzer/model.go:88-117 toDataGroup: the labels of a segment; the five JSON texts are given, None where the encoding failed *)
Definition segLabels (x : sent) (texts : list (string * option bytes)) : labels :=
  fold_left (fun m p => match snd p with Some b => aset m (fst p) (SV b) | None => m end)
    texts
    [(LbPid, IV (x_pid x)); ("tid", IV (x_tid x)); ("isSent", IV (x_sent x)); ("threadName", SV (x_name x)); ("startTime", IV (s64 (x_start x))); ("endTime", IV (s64 (x_end x)))].
Definition segTexts (c f t s i : option bytes) : list (string * option bytes) := [("cpuEvents", c); ("javaFutexEvents", f); ("transactionIds", t); ("spans", s); ("innerCalls", i)].
(** send_trigger.go:130-131, 205-206: the labels of a segment sent for a trace with these labels and start *)
Definition cpuGroupLabels (traceLabels : labels) (start : Z) (x : sent) (texts : list (string * option bytes)) : labels :=
  mergeLabels (segLabels x texts) (toAttributes (getElements traceLabels start)).

(** * The files *)
(** A group to be written: its name, labels, timestamp and JSON text. *)
Record wgroup := { w_name : string; w_labels : labels; w_ts : Z; w_json : bytes }.
Notation path := (bytes * bytes)%type.
Definition pathOf (zone : Z -> Z) (f : elements) : path :=
  (pidFilePath (f_wl f) (f_pod f) (f_cont f) (f_pid f), getFileName zone (f_proto f) (f_ck f) (f_ts f) (f_srv f)).
(** filewriter.go:70-79 and 176-180 *)
Definition tracePath (zone : Z -> Z) (g : wgroup) : path := pathOf zone (getElements (w_labels g) (w_ts g)).
Definition cpuPath (zone : Z -> Z) (g : wgroup) : path := pathOf zone (getElements (w_labels g) (w64 (intOf (w_labels g) LTimestamp))).
(** Modification time and content of every file, and the removals the rotations have started. *)
Record fsys := { fs_files : list (path * (Z * bytes)); fs_pending : list path }.
Definition fs0 : fsys := {| fs_files := []; fs_pending := [] |}.
Definition entriesIn (dir : bytes) (s : fsys) : list (bytes * Z) :=
  flat_map (fun x => if eqb (fst (fst x)) dir then [(snd (fst x), fst (snd x))] else []) (fs_files s).
Definition dividingLine : bytes := 10 :: bs "------" ++ [10].

Fixpoint removeOne (p : path) (l : list path) : list path := match l with [] => [] | q :: r => if eqb q p then r else q :: removeOne p r end.

Inductive fop :=
| FWrite (g : wgroup) (now : Z)
| FRemove (p : path).

Section Files.
  (** [order]: sort.Slice of the entries by modification time *)
  Context (zone : Z -> Z) (order : list (bytes * Z) -> list (bytes * Z)) (creatable : path -> bool) (maxFiles : Z).

  (** filewriter.go:113-140 rotateFiles: the entries the started goroutine removes. A slice longer than the list, or its nil entry, panics. *)
  Definition rotate (entries : list (bytes * Z)) : res (list (bytes * Z)) :=
    if maxFiles <=? 0 then Ok []
    else
      let l := order entries in
      if zlen l <? maxFiles then Ok []
      else
        let n := zlen l - Z.quot maxFiles 2 + 1 in
        if (n <? 0) || (zlen l <? n) then Panic else Ok (firstn (Z.to_nat n) l).
  (** :87-111 writeFile and :69-85 writeTrace *)
  Definition writeTrace (g : wgroup) (now : Z) (s : fsys) : res fsys :=
    let p := tracePath zone g in
    bind (rotate (entriesIn (fst p) s)) (fun old =>
      let pend := fs_pending s ++ map (fun e => (fst p, fst e)) old in
      Ok {| fs_files := if creatable p then aset (fs_files s) p (now, w_json g) else fs_files s; fs_pending := pend |}).
  (** :175-205 writeCpuEvents *)
  Definition writeCpuEvents (g : wgroup) (now : Z) (s : fsys) : fsys :=
    let p := cpuPath zone g in
    match aget (fs_files s) p with
    | Some (_, c) => {| fs_files := aset (fs_files s) p (now, c ++ dividingLine ++ w_json g); fs_pending := fs_pending s |}
    | None => s
    end.
  (** :41-51 write; :133-138 the removals *)
  Definition fstep (s : fsys) (o : fop) : res fsys :=
    match o with
    | FWrite g now =>
        if eqb (w_name g) "single_net_request_metric_group" || eqb (w_name g) "apm_span_event" then writeTrace g now s
        else if eqb (w_name g) "camera_event_group" then Ok (writeCpuEvents g now s)
        else Ok s
    | FRemove p =>
        Ok (if existsb (eqb p) (fs_pending s) then {| fs_files := adel (fs_files s) p; fs_pending := removeOne p (fs_pending s) |} else s)
    end.
  Fixpoint frun (s : fsys) (h : list fop) : res fsys := match h with [] => Ok s | o :: r => bind (fstep s o) (fun s' => frun s' r) end.
End Files.
