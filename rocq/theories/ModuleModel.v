(** Models of collector/pkg/component/controller/module.go (the module that starts and stops sub-modules, and the
    goroutines that stop it automatically) and of profile_module.go (its control requests). *)
From Verif Require Import Base.
Open Scope string_scope. Open Scope list_scope. Open Scope Z_scope.

(** Where a goroutine made by WithStopInterval or WithStopSignal (module.go:121-147) is: not run yet, in its select
    having read the clear channel, chosen the timer and about to call Stop, finished.  A nil channel is [None]. *)
Inductive wpc := Fresh | Waiting (c : option nat) | Firing | Finished.
(** What happened to the sub-modules: all started, arming the goroutines [ws]; all stopped, by a request or by
    goroutine [by_]. *)
Inductive mev := Began (subs : list string) (ws : list nat) | Ended (subs : list string) (by_ : option nat).
(** module.go:33-45 DefaultModule: status, clearSignal (channels are numbered in the order they are made), which channels
    are closed, the goroutines, and the history. *)
Record mst := { m_running : bool; m_chan : option nat; m_chans : nat; m_closed : list nat; m_watch : list wpc; m_log : list mev }.
(** module.go:47-55 NewModule *)
Definition newModule (started : bool) : mst := {| m_running := started; m_chan := None; m_chans := 0; m_closed := []; m_watch := []; m_log := [] |}.

(** module.go:66-85 Start, under its mutex: [order] is the order the map of sub-modules is traversed in, [fails] which of them
    return an error, [n] the number of options.  Returns whether an error is returned. *)
Definition doStart (s : mst) (order : list string) (fails : string -> bool) (n : nat) : mst * bool :=
  if m_running s then (s, true)
  else ({| m_running := true; m_chan := Some (m_chans s); m_chans := S (m_chans s); m_closed := m_closed s;
           m_watch := m_watch s ++ repeat Fresh n; m_log := m_log s ++ [Began order (seq (List.length (m_watch s)) n)] |}, existsb fails order).
(** close: nil and already closed channels panic *)
Definition closeChan (closed : list nat) (c : option nat) : res (list nat) :=
  match c with None => Panic | Some k => if existsb (Nat.eqb k) closed then Panic else Ok (k :: closed) end.
(** module.go:87-104 Stop, under its mutex *)
Definition doStop (s : mst) (order : list string) (fails : string -> bool) (by_ : option nat) : res (mst * bool) :=
  if m_running s then
    bind (closeChan (m_closed s) (m_chan s)) (fun cl =>
    Ok ({| m_running := false; m_chan := m_chan s; m_chans := m_chans s; m_closed := cl; m_watch := m_watch s; m_log := m_log s ++ [Ended order by_] |}, existsb fails order))
  else Ok (s, true).

(** The Duration of a request's options as decoded by profile_module.go:66-90 (a number, a text with the result of
    time.ParseDuration, anything else), and whether there is a FileWatch object. *)
Inductive jdur := DNum (v : Z) | DText (parsed : option Z) | DOther.
Record jopts := { o_dur : jdur; o_fileWatch : bool }.
(** profile_module.go:66-90, 201-214: decoding errors are ignored and leave the duration zero; a file watch panics *)
Definition durationOf (d : jdur) : Z := match d with DNum v => v | DText (Some v) => v | DText None => 0 | DOther => 0 end.
Definition getOptions (o : option jopts) : res (list Z) :=
  match o with
  | None => Ok []
  | Some o => if o_fileWatch o then Panic else Ok (if 0 <? durationOf (o_dur o) then [durationOf (o_dur o)] else [])
  end.

(** profile_module.go:22-27 *)
Definition NoError := 1. Definition StartWithError := 2. Definition StopWithError := 3. Definition NoOperation := 4.
(** A control request; the operations on Java agents and on the native debugger are not modelled. *)
Inductive req :=
| RStart (o : option jopts) (order : list string) (fails : string -> bool)
| RStop (order : list string) (fails : string -> bool)
| RStatus
| ROther.
(** A response: its code, and for a status request whether it says "running". *)
Record resp := { r_code : Z; r_running : option bool }.
(** profile_module.go:122-199 HandRequest *)
Definition handRequest (s : mst) (r : req) : res (mst * resp) :=
  match r with
  | RStart o order fails =>
    bind (getOptions o) (fun ds => let '(s', e) := doStart s order fails (List.length ds) in
    Ok (s', {| r_code := if e then StartWithError else NoError; r_running := None |}))
  | RStop order fails =>
    bind (doStop s order fails None) (fun '(s', e) =>
    Ok (s', {| r_code := if e then StopWithError else NoError; r_running := None |}))
  | RStatus => Ok (s, {| r_code := NoError; r_running := Some (m_running s) |})
  | ROther => Ok (s, {| r_code := NoOperation; r_running := None |})
  end.

Definition setPc (s : mst) (i : nat) (p : wpc) : mst :=
  {| m_running := m_running s; m_chan := m_chan s; m_chans := m_chans s; m_closed := m_closed s;
     m_watch := firstn i (m_watch s) ++ p :: skipn (S i) (m_watch s); m_log := m_log s |}.
(** The steps of a history: requests, and the steps of goroutine [i] (module.go:124-131, 137-145): entering the select (which
    reads the clear channel once), the timer or signal chosen, the closed clear channel chosen, and the call of Stop.
    The timer or signal may come at any time. *)
Inductive mop :=
| MReq (r : req)
| MEnter (i : nat) | MFire (i : nat) | MClear (i : nat) | MAutoStop (i : nat) (order : list string) (fails : string -> bool).
Definition isClosed (s : mst) (c : option nat) : bool := match c with Some k => existsb (Nat.eqb k) (m_closed s) | None => false end.
Definition mstep (s : mst) (o : mop) : res (mst * option resp) :=
  match o with
  | MReq r => bind (handRequest s r) (fun '(s', a) => Ok (s', Some a))
  | MEnter i => Ok (match nth_error (m_watch s) i with Some Fresh => setPc s i (Waiting (m_chan s)) | _ => s end, None)
  | MFire i => Ok (match nth_error (m_watch s) i with Some (Waiting _) => setPc s i Firing | _ => s end, None)
  | MClear i => Ok (match nth_error (m_watch s) i with Some (Waiting c) => if isClosed s c then setPc s i Finished else s | _ => s end, None)
  | MAutoStop i order fails =>
    match nth_error (m_watch s) i with
    | Some Firing => bind (doStop s order fails (Some i)) (fun '(s', _) => Ok (setPc s' i Finished, None))
    | _ => Ok (s, None)
    end
  end.
Fixpoint mrun (s : mst) (ops : list mop) : res (mst * list resp) :=
  match ops with
  | [] => Ok (s, [])
  | o :: ops' => bind (mstep s o) (fun '(s', a) => bind (mrun s' ops') (fun '(s'', l) => Ok (s'', match a with Some r => r :: l | None => l end)))
  end.
