(** collector/pkg/component/analyzer/cpuanalyzer: the goroutines of a profiling session that turn sampled traces into stored
    traces (module_control.go:14-44, send_trigger.go:80-110, 134-160), and the routine that sends the events around a
    trace (scheduled_task.go).
    Simplifications: StartProfile and StopProfile are one step each; a trace is a number; every trace has its duration and
    is slow (what sampleMap holds, C57); the trigger channel (3e5) does not fill up.  StartProfile and StopProfile alternate
    (C50), so the current stopProfileChan is closed exactly while profiling is off. *)
From Verif Require Import Base.
Open Scope string_scope. Open Scope list_scope. Open Scope Z_scope.

(** ** Sampling and storing *)
(** sampleSend (:134-160): before its select, parked in it, in Range with the entries left to visit (taken from the map of
    generation [g]), between the send and the Delete of an entry, returned *)
Inductive spc : Type := SHead | SWait | SRange (l : list (bytes * nat)) (g : nat) | SDel (k : bytes) (l : list (bytes * nat)) (g : nat) | SEnd.
(** ReadTriggerEventChan (:81-110): before its select, parked in it, with a trace, returned *)
Inductive rpc : Type := RHead | RWait | RWork (id : nat) | REnd.
(** enableProfile, sampleMap and how often it was replaced, triggerEventChan, the goroutines (newest first), and the
    traces given to the next consumers (:90-92) in order *)
Record pst := { p_on : bool; p_map : list (bytes * nat); p_gen : nat; p_queue : list nat; p_sam : list spc; p_rd : list rpc; p_out : list nat }.
Definition p0 : pst := {| p_on := false; p_map := []; p_gen := 0; p_queue := []; p_sam := []; p_rd := []; p_out := [] |}.

Inductive pop_ : Type :=
| PStart | PStop | PSignal (k : bytes) (id : nat)
| PSPark (i : nat) | PSTick (i : nat) | PSVisit (i : nat) | PSDel (i : nat) | PSQuit (i : nat)
| PRPark (i : nat) | PRTake (i : nat) | PRPut (i : nat) | PRQuit (i : nat).

Fixpoint upd {A} (l : list A) (i : nat) (x : A) : list A :=
  match l, i with [], _ => [] | _ :: l', O => x :: l' | y :: l', S i' => y :: upd l' i' x end.
Definition setSam (s : pst) (i : nat) (x : spc) : pst :=
  {| p_on := p_on s; p_map := p_map s; p_gen := p_gen s; p_queue := p_queue s; p_sam := upd (p_sam s) i x; p_rd := p_rd s; p_out := p_out s |}.
Definition setRd (s : pst) (i : nat) (x : rpc) : pst :=
  {| p_on := p_on s; p_map := p_map s; p_gen := p_gen s; p_queue := p_queue s; p_sam := p_sam s; p_rd := upd (p_rd s) i x; p_out := p_out s |}.
Definition setQueue (s : pst) (q : list nat) : pst :=
  {| p_on := p_on s; p_map := p_map s; p_gen := p_gen s; p_queue := q; p_sam := p_sam s; p_rd := p_rd s; p_out := p_out s |}.
Definition setMap (s : pst) (m : list (bytes * nat)) : pst :=
  {| p_on := p_on s; p_map := m; p_gen := p_gen s; p_queue := p_queue s; p_sam := p_sam s; p_rd := p_rd s; p_out := p_out s |}.
Definition store (s : pst) (id : nat) : pst :=
  {| p_on := p_on s; p_map := p_map s; p_gen := p_gen s; p_queue := p_queue s; p_sam := p_sam s; p_rd := p_rd s; p_out := p_out s ++ [id] |}.

(** closing the stop channel lets the goroutines that are parked on it return *)
Definition wakeS (x : spc) : spc := match x with SWait => SEnd | _ => x end.
Definition wakeR (x : rpc) : rpc := match x with RWait => REnd | _ => x end.
(** One step; None when it cannot be taken. *)
Definition pdo (o : pop_) (s : pst) : option pst :=
  match o with
  | PStart =>                                                                                       (* module_control.go:14-28 *)
      if p_on s then None else
      Some {| p_on := true; p_map := []; p_gen := S (p_gen s); p_queue := []; p_sam := SHead :: p_sam s; p_rd := RHead :: p_rd s; p_out := p_out s |}
  | PStop =>                                                                                        (* module_control.go:30-44 *)
      if p_on s then Some {| p_on := false; p_map := []; p_gen := S (p_gen s); p_queue := []; p_sam := map wakeS (p_sam s); p_rd := map wakeR (p_rd s); p_out := p_out s |}
      else None
  | PSignal k id =>                                                                                 (* send_trigger.go:25-59 *)
      Some (if p_on s then match aget (p_map s) k with Some _ => s | None => setMap s (p_map s ++ [(k, id)]) end else s)
  | PSPark i => match nth_error (p_sam s) i with Some SHead => if p_on s then Some (setSam s i SWait) else None | _ => None end
  | PSTick i => match nth_error (p_sam s) i with                                                    (* send_trigger.go:138-139 *)
      | Some SHead | Some SWait => Some (setSam s i (SRange (p_map s) (p_gen s))) | _ => None end
  | PSVisit i => match nth_error (p_sam s) i with                                                   (* send_trigger.go:139-155 *)
      | Some (SRange [] g) => Some (setSam s i SHead)
      | Some (SRange ((k, id) :: l) g) =>
          (* an entry that is gone from the map is skipped; a replaced map (sampleMap = sync.Map{}) does not show *)
          match (if Nat.eqb g (p_gen s) then aget (p_map s) k else Some id) with
          | None => Some (setSam s i (SRange l g))
          | Some v => Some (setQueue (setSam s i (SDel k l g)) (p_queue s ++ [v]))
          end
      | _ => None end
  | PSDel i => match nth_error (p_sam s) i with                                                     (* send_trigger.go:153 *)
      | Some (SDel k l g) => Some (setMap (setSam s i (SRange l g)) (adel (p_map s) k)) | _ => None end
  | PSQuit i => match nth_error (p_sam s) i with Some SHead => if p_on s then None else Some (setSam s i SEnd) | _ => None end   (* :156-157 *)
  | PRPark i => match nth_error (p_rd s) i with Some RHead => if p_on s then Some (setRd s i RWait) else None | _ => None end
  | PRTake i => match nth_error (p_rd s) i, p_queue s with                                          (* send_trigger.go:84 *)
      | Some RHead, id :: q | Some RWait, id :: q => Some (setQueue (setRd s i (RWork id)) q) | _, _ => None end
  | PRPut i => match nth_error (p_rd s) i with Some (RWork id) => Some (store (setRd s i RHead) id) | _ => None end              (* :90-92 *)
  | PRQuit i => match nth_error (p_rd s) i with Some RHead => if p_on s then None else Some (setRd s i REnd) | _ => None end     (* :106-107 *)
  end.
Fixpoint prun (h : list pop_) (s : pst) : option pst :=
  match h with [] => Some s | o :: h' => match pdo o s with Some s' => prun h' s' | None => None end end.

(** ** The routine of one trace (scheduled_task.go:46-73, send_trigger.go:104): a ticker of one second, whose channel holds
    one tick and drops the next while it is full, and a timer of [w] seconds and a nanosecond.  The clock fires the ticks
    1, 2, ..., w, then the timer, then further ticks until the ticker is stopped. *)
Record kst := { k_fired : nat; k_full : bool; k_timer : bool; k_ready : bool; k_runs : nat; k_done : bool }.
Definition k0 : kst := {| k_fired := 0; k_full := false; k_timer := false; k_ready := false; k_runs := 0; k_done := false |}.
Inductive kop : Type := KTick | KTimer | KRun | KExpire.
Definition kdo (w : nat) (o : kop) (s : kst) : option kst :=
  if k_done s then None else
  match o with
  | KTick => if Nat.ltb (k_fired s) w || k_timer s
             then Some {| k_fired := S (k_fired s); k_full := true; k_timer := k_timer s; k_ready := k_ready s; k_runs := k_runs s; k_done := false |} else None
  | KTimer => if Nat.eqb (k_fired s) w && negb (k_timer s)
              then Some {| k_fired := k_fired s; k_full := k_full s; k_timer := true; k_ready := true; k_runs := k_runs s; k_done := false |} else None
  | KRun => if k_full s                                                                             (* scheduled_task.go:57-59 *)
            then Some {| k_fired := k_fired s; k_full := false; k_timer := k_timer s; k_ready := k_ready s; k_runs := S (k_runs s); k_done := false |} else None
  | KExpire => if k_ready s                                                                         (* scheduled_task.go:60-64 *)
               then Some {| k_fired := k_fired s; k_full := k_full s; k_timer := k_timer s; k_ready := false; k_runs := k_runs s; k_done := true |} else None
  end.
Fixpoint krun (w : nat) (h : list kop) (s : kst) : option kst :=
  match h with [] => Some s | o :: h' => match kdo w o s with Some s' => krun w h' s' | None => None end end.
