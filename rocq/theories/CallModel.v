(** collector/pkg/component/analyzer/cpuanalyzer: the way of the slow outgoing calls (client-side traces) of a profiling session
    from the goroutines that report them to the rings of the threads, through traceChan (send_trigger.go:25-50, 68-78,
    module_control.go:14-44, cpu_analyzer.go:200-215, 267-272).
    Simplifications: a call is the number of the goroutine that reports it and a number of its own (what its labels become is
    C59, what the ring does with it C30, which traces are sent this way C57).  StartProfile and StopProfile alternate (C50).
    Every call has its duration.  ca.lock is only modelled between StopProfile and PutEventToSegments: no put while
    StopProfile has it. *)
From Verif Require Import Base.
Open Scope list_scope.

Definition call : Type := (nat * nat)%type.

(** module_control.go:18, 40: the capacity of traceChan *)
Definition traceCap : nat := Z.to_nat 10000.

(** Where StartProfile and StopProfile are.  POpening: traceChan is assigned (:18); POpen: so is stopProfileChan (:21); POn:
    enableProfile is true (:22) and the goroutines are started; PClosing: enableProfile is false and the stop channel closed
    (:34-35), ca.lock is held; POff: traceChan is assigned again (:40).  The two statements of :34-35 are one step. *)
Inductive phase : Type := POff | POpening | POpen | POn | PClosing.

(** ReceiveDataGroupAsSignal in the goroutine that reports a call: not in it; enableProfile was true (:26); at the send on the
    channel of generation g (:48) *)
Inductive spos : Type := SIdle | SChecked (c : call) | SSending (c : call) (g : nat).
(** ReadTraceChan: before its select; in it, with the channel of generation g and the stop channel of session k as they were
    when it came there (:70-76); with a call (:73); returned *)
Inductive rpos : Type := RHead | RSel (g k : nat) | RGot (c : call) | REnd.

(** c_sess counts the stop channels made; c_chans are the channels that traceChan has been, the last is the present one, with
    what they hold (the first stands for the nil channel of the beginning, which nobody comes to use); c_ring are the calls put
    into the rings, in order *)
Record cst := { c_phase : phase; c_sess : nat; c_chans : list (list call); c_send : list spos; c_rd : list rpos; c_ring : list call }.
(** n goroutines may report calls *)
Definition c0 (n : nat) : cst := {| c_phase := POff; c_sess := 0; c_chans := [[]]; c_send := repeat SIdle n; c_rd := []; c_ring := [] |}.

Inductive cop : Type :=
| KStart | KStart2 | KStart3 | KStop | KStop2
| KRecv (i id : nat) | KEval (i : nat) | KPut (i : nat)
| KREval (j : nat) | KRTake (j : nat) | KRPut (j : nat) | KRQuit (j : nat).

Fixpoint put {A} (l : list A) (i : nat) (x : A) : list A :=
  match l, i with [], _ => [] | _ :: l', O => x :: l' | y :: l', S i' => y :: put l' i' x end.
Definition cur (s : cst) : nat := pred (List.length (c_chans s)).
Definition enabled (s : cst) : bool := match c_phase s with POn => true | _ => false end.
(** the stop channel of session k is closed *)
Definition closed (s : cst) (k : nat) : bool :=
  negb (Nat.eqb k (c_sess s) && match c_phase s with POpen | POn => true | _ => false end).

Definition setPhase (s : cst) (p : phase) : cst :=
  {| c_phase := p; c_sess := c_sess s; c_chans := c_chans s; c_send := c_send s; c_rd := c_rd s; c_ring := c_ring s |}.
Definition setChans (s : cst) (x : list (list call)) : cst :=
  {| c_phase := c_phase s; c_sess := c_sess s; c_chans := x; c_send := c_send s; c_rd := c_rd s; c_ring := c_ring s |}.
Definition setSend (s : cst) (i : nat) (x : spos) : cst :=
  {| c_phase := c_phase s; c_sess := c_sess s; c_chans := c_chans s; c_send := put (c_send s) i x; c_rd := c_rd s; c_ring := c_ring s |}.
Definition setRd (s : cst) (j : nat) (x : rpos) : cst :=
  {| c_phase := c_phase s; c_sess := c_sess s; c_chans := c_chans s; c_send := c_send s; c_rd := put (c_rd s) j x; c_ring := c_ring s |}.
Definition addRing (s : cst) (c : call) : cst :=
  {| c_phase := c_phase s; c_sess := c_sess s; c_chans := c_chans s; c_send := c_send s; c_rd := c_rd s; c_ring := c_ring s ++ [c] |}.

(** One step; None when it cannot be taken.  cap: the capacity of the channels. *)
Definition cdo (cap : nat) (o : cop) (s : cst) : option cst :=
  match o with
  | KStart => match c_phase s with POff => Some (setPhase (setChans s (c_chans s ++ [[]])) POpening) | _ => None end   (* module_control.go:18 *)
  | KStart2 => match c_phase s with                                                                                    (* module_control.go:21 *)
      | POpening => Some {| c_phase := POpen; c_sess := S (c_sess s); c_chans := c_chans s; c_send := c_send s; c_rd := c_rd s; c_ring := c_ring s |}
      | _ => None end
  | KStart3 => match c_phase s with                                                                                    (* module_control.go:22-25 *)
      | POpen => Some {| c_phase := POn; c_sess := c_sess s; c_chans := c_chans s; c_send := c_send s; c_rd := c_rd s ++ [RHead]; c_ring := c_ring s |}
      | _ => None end
  | KStop => match c_phase s with POn => Some (setPhase s PClosing) | _ => None end                                    (* module_control.go:32-35 *)
  | KStop2 => match c_phase s with PClosing => Some (setPhase (setChans s (c_chans s ++ [[]])) POff) | _ => None end   (* module_control.go:40-43 *)
  | KRecv i id => match nth_error (c_send s) i with                                                                    (* send_trigger.go:26-28 *)
      | Some SIdle => Some (if enabled s then setSend s i (SChecked (i, id)) else s) | _ => None end
  | KEval i => match nth_error (c_send s) i with Some (SChecked c) => Some (setSend s i (SSending c (cur s))) | _ => None end   (* send_trigger.go:48, its left side *)
  | KPut i => match nth_error (c_send s) i with                                                                        (* send_trigger.go:48 *)
      | Some (SSending c g) => match nth_error (c_chans s) g with
          | Some q => if Nat.ltb (List.length q) cap then Some (setChans (setSend s i SIdle) (put (c_chans s) g (q ++ [c]))) else None
          | None => None end
      | _ => None end
  | KREval j => match nth_error (c_rd s) j with Some RHead => Some (setRd s j (RSel (cur s) (c_sess s))) | _ => None end    (* send_trigger.go:71 *)
  | KRTake j => match nth_error (c_rd s) j with                                                                        (* send_trigger.go:72 *)
      | Some (RSel g k) => match nth_error (c_chans s) g with
          | Some (c :: q) => Some (setChans (setRd s j (RGot c)) (put (c_chans s) g q)) | _ => None end
      | _ => None end
  | KRPut j => match nth_error (c_rd s) j with                                                                         (* cpu_analyzer.go:267-272 *)
      | Some (RGot c) => match c_phase s with
          | PClosing => None
          | POn => Some (addRing (setRd s j RHead) c)
          | _ => Some (setRd s j RHead) end
      | _ => None end
  | KRQuit j => match nth_error (c_rd s) j with                                                                        (* send_trigger.go:74-75 *)
      | Some (RSel g k) => if closed s k then Some (setRd s j REnd) else None | _ => None end
  end.
Fixpoint crun (cap : nat) (h : list cop) (s : cst) : option cst :=
  match h with [] => Some s | o :: h' => match cdo cap o s with Some s' => crun cap h' s' | None => None end end.
