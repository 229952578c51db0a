(** Which slow traces trigger the sending of CPU events. Histories are read from the last operation to the first. *)
From Verif Require Import Base Decimal AttrModel PoolModel LabelNames EnrichModel TriggerModel.
Open Scope string_scope. Open Scope list_scope. Open Scope Z_scope.

Definition tSlow (g : group) : bool := boolOf (glabels g) LIsSlow.
Definition tServer (g : group) : bool := boolOf (glabels g) LIsServer.
Definition tApm (g : group) : bool := boolOf (glabels g) LIsInstallApm.
Definition tPid (g : group) : Z := intOf (glabels g) LPid.
Definition tUrl (g : group) : bytes := strOf (glabels g) LContentKey.

Fixpoint profiling (rh : list sop) : bool := match rh with [] => false | TStart :: _ => true | TStop :: _ => false | _ :: r => profiling r end.
(** An APM trace of the process was seen since the profiling started. *)
Fixpoint apmSeen (pid : Z) (rh : list sop) : bool :=
  match rh with
  | TSignal g :: r => (tApm g && (w64 (tPid g) =? w64 pid) && profiling r) || apmSeen pid r
  | TTick :: r => apmSeen pid r
  | _ => false
  end.
(** A slow trace, from an APM agent, or seen at the server side of a process without one. *)
Definition qualifies (rh : list sop) (g : group) : bool := profiling rh && tSlow g && (tApm g || (tServer g && negb (apmSeen (tPid g) rh))).
(** The first qualifying trace with this sampling key since the last tick. *)
Fixpoint firstSince (key : bytes) (rh : list sop) : option group :=
  match rh with
  | TSignal g :: r => match firstSince key r with Some x => Some x | None => if qualifies r g && eqb (sampleKey g) key then Some g else None end
  | _ => None
  end.

(** The trigger event of a trace. *)
Definition trigOf (g : group) (v : Z) : trig := {| tg_pid := w32 (tPid g); tg_start := gts g; tg_spend := w64 v; tg_data := g |}.

(** * Java traces *)
Fixpoint cleaning (rh : list jop) : bool := match rh with [] => true | JGone :: _ => false | _ :: r => cleaning r end.
(** An event with this key arrived [d] or more before [now], and no later check was late enough to act on it. *)
Fixpoint jdue (d : Z) (key : bytes) (now : Z) (checks : list Z) (rh : list jop) : bool :=
  match rh with
  | [] => false
  | JEv ev t :: r => (eqb (jkey ev) key && (t + d <=? now) && forallb (fun c => c <? t + d) checks) || jdue d key now checks r
  | JCheck c :: r => jdue d key now (if cleaning r then c :: checks else checks) r
  | JGone :: r => jdue d key now checks r
  end.
(** The entry event that an exit event with this key is paired with. *)
Fixpoint entryOf (d : Z) (key : bytes) (rh : list jop) : option jev :=
  match rh with
  | [] => None
  | JEv ev _ :: r => if eqb (jkey ev) key && (j_entry ev =? 1) then Some ev else entryOf d key r
  | JCheck now :: r => if cleaning r && jdue d key now [] r then None else entryOf d key r
  | JGone :: r => entryOf d key r
  end.
Fixpoint jtimes (h : list jop) : list Z := match h with [] => [] | JEv _ t :: r => t :: jtimes r | JCheck t :: r => t :: jtimes r | _ :: r => jtimes r end.

(** Text that ends in something other than a digit or a minus sign. *)
Definition endsPlain (s : bytes) : Prop := exists x c, s = x ++ [c] /\ isDigit c = false /\ c <> 45.
