(** The goroutine of the TCP connection analyzer: collector/pkg/component/analyzer/tcpconnectanalyzer/analyzer.go.
    ConnectModel.v models what it does with one event or one scan; here is what feeds it and what it hands over.
    Simplifications: one step is one choice of the goroutine's select with all that follows from it; the consumers do not fail (their errors
    are only logged, :166-177); the channel has room for at least one event (channel_size, 2000 by default); [look] is what a scan finds
    (ConnectModel.v), [dnat] is the connection tracker of that moment. *)
From Verif Require Import Base Decimal EventModel AttrModel PoolModel LabelNames RecordModel ConnectModel.
Open Scope string_scope. Open Scope list_scope. Open Scope Z_scope.

(** config.go:3-7 *)
Record cconf := { cf_chan : Z; cf_wait : Z; cf_proc : bool }.
Definition natFn := bytes -> Z -> bytes -> Z -> option (bytes * Z).
(** analyzer.go:20-31: the channel, the monitor's map, and whether the goroutine still runs *)
Record lstate := { l_chan : list event; l_map : cmap; l_live : bool }.
Inductive lop :=
| LOffer (e : event)                                            (* ConsumeEvent is called and returns, :88-91 *)
| LTake (dnat : natFn)                                          (* :74-75 *)
| LTick (now : Z) (look : Z -> ckey -> found) (dnat : natFn)    (* :72-73 *)
| LStop (now : Z) (look : Z -> ckey -> found) (dnat : natFn).   (* Shutdown is called and returns, :76-80 and :238-241 *)

(** :67-71: time.NewTicker panics unless the period is positive *)
Definition lstart (cf : cconf) : res lstate :=
  if 0 <? s64 (Z.quot (cf_wait cf) 3 * 1000000000) then Ok {| l_chan := []; l_map := []; l_live := true |} else Panic.
(** :158-164 trimConnectionsWithTcpStat; :130-132 *)
Definition handOver (cf : cconf) (dnat : natFn) (out : list (ckey * cstats)) : list group := map (fun x => connectGroup dnat (cf_proc cf) (fst x) (snd x)) out.
(** One step, with the groups handed over; [None]: the step cannot be taken now (the call blocks). *)
Definition lstep (cf : cconf) (s : lstate) (o : lop) : option (res (list group * lstate)) :=
  match o with
  | LOffer e => if zlen (l_chan s) <? cf_chan cf then Some (Ok ([], {| l_chan := l_chan s ++ [e]; l_map := l_map s; l_live := l_live s |})) else None
  | LTake dnat =>
      match l_live s, l_chan s with
      | true, e :: q => Some (bind (kstep (cf_wait cf) (l_map s) (KEvent e)) (fun p => Ok (handOver cf dnat (fst p), {| l_chan := q; l_map := snd p; l_live := true |})))
      | _, _ => None
      end
  | LTick now look dnat =>
      if l_live s then Some (bind (kstep (cf_wait cf) (l_map s) (KScan now look)) (fun p => Ok (handOver cf dnat (fst p), {| l_chan := l_chan s; l_map := snd p; l_live := true |}))) else None
  | LStop now look dnat =>
      if l_live s then Some (bind (kstep (cf_wait cf) (l_map s) (KScan now look)) (fun p => Ok (handOver cf dnat (fst p), {| l_chan := l_chan s; l_map := snd p; l_live := false |}))) else None
  end.
(** A run: every step can be taken when its turn comes. *)
Fixpoint lrun (cf : cconf) (s : lstate) (os : list lop) : option (res (list (list group) * lstate)) :=
  match os with
  | [] => Some (Ok ([], s))
  | o :: os' =>
      match lstep cf s o with
      | None => None
      | Some Panic => Some Panic
      | Some Err => Some Err
      | Some (Ok (gs, s')) => match lrun cf s' os' with Some (Ok (r, s'')) => Some (Ok (gs :: r, s'')) | x => x end
      end
  end.
