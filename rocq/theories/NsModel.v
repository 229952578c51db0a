(** collector/pkg/metadata/conntracker/internal: in which network namespaces the collector reads the table of connections when it starts,
    and what it opens for that (utils.go, consumer.go, conntracker.go).
    Simplifications: a namespace is a number; a handle is a fresh file descriptor (a number that is not used again) of a namespace; two
    handles are equal (netns.NsHandle.Equal, UniqueId) when their namespaces are; any system call may fail, as [fails] says for the
    call of its kind made at that moment, except close; sockets are left out (each one opened is closed by the same function or by the next
    restart); the reading of a table ends (receive of StreamModel.v says when it does); a goroutine runs on any thread of the process, and stays on it only
    while it is locked to it (runtime.LockOSThread): [pick] gives the thread of the [k]-th switch. *)
From Verif Require Import Base.
Open Scope list_scope. Open Scope Z_scope.

Inductive kind := KDir | KOpen | KEnter | KReturn | KSocket | KSend | KDial | KPeer.
Record world := { thr : nat -> Z; fds : list (Z * Z); nxt : Z; tick : nat; tabs : list Z }.
Definition tock (w : world) : world := {| thr := thr w; fds := fds w; nxt := nxt w; tick := S (tick w); tabs := tabs w |}.
Definition setThr (t : nat) (x : Z) (w : world) : world :=
  {| thr := fun i => if (i =? t)%nat then x else thr w i; fds := fds w; nxt := nxt w; tick := tick w; tabs := tabs w |}.
Definition closeFd (h : Z) (w : world) : world := {| thr := thr w; fds := adel (fds w) h; nxt := nxt w; tick := tick w; tabs := tabs w |}.
Definition nsOf (w : world) (h : Z) : option Z := aget (fds w) h.
Definition sameNs (w : world) (a b : Z) : bool := match nsOf w a, nsOf w b with Some x, Some y => x =? y | _, _ => false end.
Definition readTable (t : nat) (w : world) : world := {| thr := thr w; fds := fds w; nxt := nxt w; tick := tick w; tabs := tabs w ++ [thr w t] |}.

Section Faults.
  Context (fails : kind -> nat -> bool) (peer : Z -> bool) (pick : nat -> nat).

  (** netns.Get and netns.GetFromPath: open a handle of namespace [x] *)
  Definition openNs (x : Z) (w : world) : option Z * world :=
    if fails KOpen (tick w) then (None, tock w)
    else (Some (nxt w), {| thr := thr w; fds := fds w ++ [(nxt w, x)]; nxt := nxt w + 1; tick := S (tick w); tabs := tabs w |}).

  (** utils.go:101-124 WithNS, on thread [t]: whether it succeeded *)
  Definition withNS (t : nat) (h : Z) (fn : nat -> world -> bool * world) (w : world) : bool * world :=
    match openNs (thr w t) w with
    | (None, w1) => (false, w1)
    | (Some p, w1) =>
        if sameNs w1 h p then fn t w1
        else if fails KEnter (tick w1) then (false, tock w1)
        else match nsOf w1 h with
             | None => (false, tock w1)
             | Some x =>
                 let '(ok, w3) := fn t (setThr t x (tock w1)) in
                 if fails KReturn (tick w3) then (false, tock w3)
                 else match nsOf w3 p with None => (false, tock w3) | Some y => (ok, setThr t y (tock w3)) end
             end
    end.
  (** utils.go:90-92, 129-136 WithRootNS *)
  Definition withRootNS (t : nat) (root : Z) (fn : nat -> world -> bool * world) (w : world) : bool * world :=
    match openNs root w with
    | (None, w1) => (false, w1)
    | (Some h, w1) => withNS t h fn w1
    end.

  (** utils.go:27-60 GetNetNamespaces with 65-87 WithAllProcs: [procs] are the namespaces of the directories of processes, in order *)
  Fixpoint collect (procs : list Z) (seen : list Z) (w : world) : list Z * world :=
    match procs with
    | [] => ([], w)
    | x :: r =>
        match openNs x w with
        | (None, w1) => collect r seen w1
        | (Some h, w1) =>
            if existsb (Z.eqb x) seen then collect r seen (closeFd h w1)
            else let '(hs, w2) := collect r (x :: seen) w1 in (h :: hs, w2)
        end
    end.
  Definition getNamespaces (procs : list Z) (w : world) : option (list Z) * world :=
    if fails KDir (tick w) then (None, tock w) else let '(hs, w1) := collect procs [] (tock w) in (Some hs, w1).

  (** consumer.go:283-317, the function run in the namespace: open a socket, ask for the table, read it *)
  Definition dumpBody (t : nat) (w : world) : bool * world :=
    if fails KSocket (tick w) then (false, tock w)
    else let w := tock w in if fails KSend (tick w) then (false, tock w) else (true, readTable t (tock w)).
  (** consumer.go:262-276; isPeerNS (166-218) fails or answers *)
  Fixpoint dumpRest (k : nat) (root : Z) (hs : list Z) (w : world) : world :=
    match hs with
    | [] => w
    | h :: r =>
        if sameNs w root h then dumpRest k root r w
        else if fails KPeer (tick w) || negb (match nsOf w h with Some x => peer x | None => false end) then dumpRest k root r (tock w)
        else dumpRest (S k) root r (snd (withNS (pick k) h dumpBody (tock w)))
    end.
  (** consumer.go:223-280 DumpTable and its goroutine, to the end; false when there is none *)
  Definition dumpTable (all : bool) (root : Z) (procs : list Z) (w : world) : bool * world :=
    match (if all then getNamespaces procs w else (Some [], w)) with
    | (None, w1) => (false, w1)
    | (Some hs, w1) =>
        match openNs root w1 with
        | (None, w2) => (false, w2)
        | (Some r, w2) =>
            if fails KDial (tick w2) then (false, closeFd r (tock w2))
            else
              let w3 := snd (withNS (pick 0%nat) r dumpBody (tock w2)) in
              (true, closeFd r (fold_left (fun w h => closeFd h w) hs (dumpRest 1%nat r hs w3)))
        end
    end.
  (** consumer.go:340-352, 466-476 initNetlinkSocket, at the start of the stream and whenever the throttle replaces the socket *)
  Definition openStream (t : nat) (root : Z) (w : world) : bool * world :=
    withRootNS t root (fun _ w => if fails KSocket (tick w) then (false, tock w) else (true, tock w)) w.
  Definition restarts (ts : list nat) (root : Z) (w : world) : world := fold_left (fun w t => snd (openStream t root w)) ts w.
End Faults.
(** conntracker.go:106-130 newConntrackerOnce: the tables of both families, then the stream; [procs4] and [procs6] are the processes then found *)
Definition startOnce (fails : kind -> nat -> bool) (peer : Z -> bool) (pick4 pick6 : nat -> nat) (t : nat) (all : bool) (root : Z) (procs4 procs6 : list Z) (w : world) : bool * world :=
  match dumpTable fails peer pick4 all root procs4 w with
  | (false, w1) => (false, w1)
  | (true, w1) =>
      match dumpTable fails peer pick6 all root procs6 w1 with
      | (false, w2) => (false, w2)
      | (true, w2) => openStream fails t root w2
      end
  end.

(** conntracker.go:85-104 NewConntracker: the caller, and the goroutine that sets up the tracker ([ok]: without error) and then reports
    on an unbuffered channel. Setting up has started the tracker's own goroutines when it succeeded (:254-278 run). *)
Inductive ccaller := CWaiting | CResult (ok : bool) | CTimedOut.
Inductive csetup := SWorking | SReporting | SReported.
Record cstate := { q_caller : ccaller; q_setup : csetup; q_running : bool }.
Definition cstart : cstate := {| q_caller := CWaiting; q_setup := SWorking; q_running := false |}.
Inductive cevent := ESetUp | EReport | ETimer.
Definition cnext (ok : bool) (s : cstate) (e : cevent) : option cstate :=
  match e, q_setup s, q_caller s with
  | ESetUp, SWorking, c => Some {| q_caller := c; q_setup := SReporting; q_running := ok |}
  | EReport, SReporting, CWaiting => Some {| q_caller := CResult ok; q_setup := SReported; q_running := q_running s |}
  | ETimer, u, CWaiting => Some {| q_caller := CTimedOut; q_setup := u; q_running := q_running s |}
  | _, _, _ => None
  end.
Fixpoint crunTo (ok : bool) (s : cstate) (es : list cevent) : option cstate :=
  match es with [] => Some s | e :: r => match cnext ok s e with Some s' => crunTo ok s' r | None => None end end.
