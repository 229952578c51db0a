(** Model of collector/pkg/component/analyzer/tcpconnectanalyzer: the outcome of TCP connection attempts.
    Simplifications: the goroutine that reads the channel handles one event or one tick at a time, which is one step here; what a scan finds
    in /proc is a function [look] of the process and the connection (the file is read at most once per process and scan, ConnectSocket
    models its lines); an error of the state machine leaves the times of the stored attempt updated in Go and as they were here, which never happens (C33_pending); loggers and self metrics are left out; the order of Go's map iteration is the order of the association list;
    a slice of addresses that is nil is the empty list. *)
From Verif Require Import Base Decimal EventModel AttrModel PoolModel LabelNames RecordModel.
Open Scope string_scope. Open Scope list_scope. Open Scope Z_scope.

(** model/constlabels/const.go:59-60 *)
Definition LErrno := "errno".
Definition LSuccess := "success".
(** model/constnames/const.go:47; model/constnames/relabel_metric_const.go:39-40 *)
Definition TcpConnectGroup := "tcp_connect_metric_group".
Definition TcpConnectTotal := "kindling_tcp_connect_total".
Definition TcpConnectDuration := "kindling_tcp_connect_duration_nanoseconds_total".

(** internal/connection_stats.go:44-49 ConnKey *)
Notation ckey := (bytes * Z * bytes * Z)%type.
Definition kSip (k : ckey) : bytes := fst (fst (fst k)).
Definition kSport (k : ckey) : Z := snd (fst (fst k)).
Definition kDip (k : ckey) : bytes := snd (fst k).
Definition kDport (k : ckey) : Z := snd k.
(** :64-79 *)
Inductive cstate := Inprogress | Success | Failure.
Inductive cevent := TcpConnectError | TcpConnectNoError | ToEstablished | FromEstablished | ExitSuccess | ExitFailure | ExitNotConcern | Expired | SendRequest.
(** :29-38 *)
Record cstats := { c_pid : Z; c_comm : bytes; c_cid : bytes; c_state : cstate; c_init : Z; c_end : Z; c_code : Z }.
(** :81-116 createStatesResource *)
Definition eventsMap (s : cstate) (e : cevent) : option cstate :=
  match s with
  | Inprogress =>
      Some match e with
           | TcpConnectNoError => Inprogress
           | TcpConnectError => Failure
           | ToEstablished => Success
           | SendRequest => Success
           | FromEstablished => Success
           | ExitSuccess => Success
           | ExitFailure => Failure
           | ExitNotConcern => Inprogress
           | Expired => Failure
           end
  | _ => None
  end.
Definition hasCallback (s : cstate) : bool := match s with Inprogress => false | _ => true end.
Definition sameState (a b : cstate) : bool := match a, b with Inprogress, Inprogress => true | Success, Success => true | Failure, Failure => true | _, _ => false end.
Definition setState (c : cstats) (s : cstate) : cstats :=
  {| c_pid := c_pid c; c_comm := c_comm c; c_cid := c_cid c; c_state := s; c_init := c_init c; c_end := c_end c; c_code := c_code c |}.
Definition cmap := list (ckey * cstats).
(** internal/state_machine.go:33-56 ReceiveEvent of the stats [c] stored under [k] *)
Definition receive (k : ckey) (c : cstats) (e : cevent) (m : cmap) : res (option cstats) * cmap :=
  match eventsMap (c_state c) e with
  | None => (Err, m)
  | Some s' =>
      let c' := setState c s' in
      if negb (sameState s' (c_state c)) && hasCallback s' then (Ok (Some c'), adel m k) else (Ok None, aset m k c')
  end.

(** internal/connect_monitor.go:109-111; connection_stats.go:9-12 *)
Definition isNotErrorReturnCode (c : Z) : bool := (c =? -115) || (c =? -4) || (c =? -106) || (c =? -114).
Definition withProc (e : event) (code : Z) (c : cstats) : cstats :=
  {| c_pid := e_pid e; c_comm := bs (e_comm e); c_cid := bs (e_cid e); c_state := c_state c; c_init := c_init c; c_end := e_ts e; c_code := code |}.
Definition withEnd (e : event) (code : Z) (c : cstats) : cstats :=
  {| c_pid := c_pid c; c_comm := c_comm c; c_cid := c_cid c; c_state := c_state c; c_init := c_init c; c_end := e_ts e; c_code := code |}.
(** The key of a system call event: connect_monitor.go:47-52, 85-90 *)
Definition syscallKey (e : event) : res ckey := bind (getSip e) (fun s => bind (getDip e) (fun d => Ok (s, e_sport e, d, e_dport e))).
(** connect_monitor.go:40-81; [Err] is an error or a panic of an accessor *)
Definition readConnectExit (e : event) (m : cmap) : res (option (ckey * cstats) * cmap) :=
  match getUserAttribute e "res" with
  | None => Err
  | Some kv =>
      bind (getIntValue kv) (fun r => bind (syscallKey e) (fun k =>
        match aget m k with
        | None => Ok (None, m)
        | Some c =>
            let '(ev, code) := if r =? 0 then (ExitSuccess, c_code c) else if isNotErrorReturnCode r then (ExitNotConcern, c_code c) else (ExitFailure, r) in
            match receive k (withProc e code c) ev m with
            | (Ok o, m') => Ok (option_map (pair k) o, m')
            | _ => Err
            end
        end))
  end.
(** :83-107 *)
Definition readSend (e : event) (m : cmap) : res (option (ckey * cstats) * cmap) :=
  bind (syscallKey e) (fun k =>
    match aget m k with
    | None => Ok (None, m)
    | Some c => match receive k (withProc e (c_code c) c) SendRequest m with (Ok o, m') => Ok (option_map (pair k) o, m') | _ => Err end
    end).
(** :299-333 getConnKeyForTcpConnect *)
Definition attrKey (e : event) : res ckey :=
  let num k := match getUserAttribute e k with Some kv => bind (getUintValue kv) (fun v => Ok (Some v)) | None => Ok None end in
  bind (num "sip") (fun s => bind (num "sport") (fun sp => bind (num "dip") (fun d => bind (num "dport") (fun dp =>
    match s, sp, d, dp with
    | Some s, Some sp, Some d, Some dp => Ok (ipLong2String (w32 s), w32 sp, ipLong2String (w32 d), w32 dp)
    | _, _, _, _ => Err
    end)))).
(** :113-156 *)
Definition readTcpConnect (e : event) (m : cmap) : res (option (ckey * cstats) * cmap) :=
  bind (attrKey e) (fun k =>
    match getUserAttribute e "retval" with
    | None => Err
    | Some kv =>
        bind (getUintValue kv) (fun r =>
          let ev := if r =? 0 then TcpConnectNoError else TcpConnectError in
          let c := match aget m k with
                   | None => {| c_pid := 0; c_comm := []; c_cid := []; c_state := Inprogress; c_init := e_ts e; c_end := e_ts e; c_code := s64 r |}
                   | Some c => withEnd e (s64 r) c
                   end in
          match receive k c ev m with (Ok o, m') => Ok (option_map (pair k) o, m') | _ => Err end)
    end).
(** :162-216; an event without the established state is an error *)
Definition readSetState (e : event) (m : cmap) : res (option (ckey * cstats) * cmap) :=
  bind (attrKey e) (fun k =>
    match getUserAttribute e "old_state", getUserAttribute e "new_state" with
    | Some o, Some n =>
        bind (getIntValue o) (fun o => bind (getIntValue n) (fun n =>
          let go ev := match aget m k with
                       | None => Ok (None, m)
                       | Some c => match receive k (withEnd e (c_code c) c) ev m with (Ok r, m') => Ok (option_map (pair k) r, m') | _ => Err end
                       end in
          if o =? 1 then go FromEstablished else if n =? 1 then go ToEstablished else Err))
    | _, _ => Err
    end).

(** analyzer.go:179-225; [dnat] is the connection tracker *)
Definition connectGroup (dnat : bytes -> Z -> bytes -> Z -> option (bytes * Z)) (needProc : bool) (k : ckey) (c : cstats) : group :=
  let ok := match c_state c with Success => true | _ => false end in
  let '(nip, nport) := match dnat (kSip k) (kSport k) (kDip k) (kDport k) with Some x => x | None => ([], -1) end in
  {| gname := TcpConnectGroup;
     gmetrics := (TcpConnectTotal, MInt 1) :: (if ok then [(TcpConnectDuration, MInt (s64 (w64 (c_end c - c_init c))))] else []);
     glabels := [(LIsServer, BV false)] ++ (if needProc then [(LPid, IV (c_pid c)); (LComm, SV (c_comm c))] else []) ++
                [(LContainerId, SV (c_cid c)); (LErrno, IV (c_code c)); (LSuccess, BV ok); (LSrcIp, SV (kSip k)); (LDstIp, SV (kDip k));
                 (LSrcPort, IV (kSport k)); (LDstPort, IV (kDport k)); (LDnatIp, SV nip); (LDnatPort, IV nport)];
     gts := c_end c |}.
(** analyzer.go:135-156 *)
Definition filterRequestEvent (e : event) : bool :=
  negb (e_net e) || negb (isTcp e) || (match e_sip e with [] => true | _ => false end) || (match e_dip e with [] => true | _ => false end).
(** analyzer.go:93-133: the report, if any; [Panic] when an accessor panics; an error is logged and changes nothing that is reported *)
Definition consumeConnectEvent (e : event) (m : cmap) : res (option (ckey * cstats) * cmap) :=
  let r := if eqb (e_name e) "connect" then if isTcp e then readConnectExit e m else Ok (None, m)
           else if eqb (e_name e) "tcp_connect" then readTcpConnect e m
           else if eqb (e_name e) "tcp_set_state" then readSetState e m
           else if memS (e_name e) ["write"; "writev"; "sendto"; "sendmsg"] then if filterRequestEvent e then Ok (None, m) else readSend e m
           else Ok (None, m) in
  match r with
  | Ok (Some (k, c), m') => Ok (if kSport k =? 0 then None else Some (k, c), m')
  | Ok (None, m') => Ok (None, m')
  | Err => Ok (None, m)
  | Panic => Panic
  end.

(** What a scan finds for a connection of a process: connect_monitor.go:232-267 *)
Inductive found := NoProcess | NoSocket | SocketState (st : bytes).
(** :224-291: one entry *)
Definition scanEvent (now waitSec : Z) (look : Z -> ckey -> found) (k : ckey) (c : cstats) : option cevent :=
  if c_pid c =? 0 then None
  else if s64 (now - s64 (c_init c)) <? s64 (waitSec * 1000000000) then None
  else match look (c_pid c) k with
       | NoProcess => Some Expired
       | NoSocket => Some Expired
       | SocketState st => if eqb st (bs "01") then Some ToEstablished
                           else if eqb st (bs "02") || eqb st (bs "03") then None
                           else Some FromEstablished
       end.
(** :218-293 TrimConnectionsWithTcpStat over the entries [l] of the map *)
Fixpoint scan (now waitSec : Z) (look : Z -> ckey -> found) (l m : cmap) : list (ckey * cstats) * cmap :=
  match l with
  | [] => ([], m)
  | (k, c) :: l' =>
      match scanEvent now waitSec look k c with
      | None => scan now waitSec look l' m
      | Some ev =>
          let '(r, m1) := receive k c ev m in
          let '(rs, m2) := scan now waitSec look l' m1 in
          (match r with Ok (Some c') => (k, c') :: rs | _ => rs end, m2)
      end
  end.

(** The analyzer: an event, or a tick at time [now]. *)
Inductive kop := KEvent (e : event) | KScan (now : Z) (look : Z -> ckey -> found).
Definition kstep (waitSec : Z) (m : cmap) (o : kop) : res (list (ckey * cstats) * cmap) :=
  match o with
  | KEvent e => bind (consumeConnectEvent e m) (fun p => Ok (match fst p with Some x => [x] | None => [] end, snd p))
  | KScan now look => Ok (scan now waitSec look m m)
  end.
Fixpoint krun (waitSec : Z) (m : cmap) (h : list kop) : res (list (list (ckey * cstats)) * cmap) :=
  match h with
  | [] => Ok ([], m)
  | o :: r => bind (kstep waitSec m o) (fun p => bind (krun waitSec (snd p) r) (fun q => Ok (fst p :: fst q, snd q)))
  end.
