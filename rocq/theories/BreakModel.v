(** collector/pkg/metadata/conntracker/internal: the circuit breaker (circuit_breaker.go), the throttling of the conntrack
    stream (consumer.go:443-482) and the sampling filter (bpf_sampler.go).

    Two goroutines share the breaker: the reader of the socket and the breaker's own ticker.  Every atomic load, store and
    addition is one step.  Numbers Go keeps as float64 are exact here: rounding is left out, truncation is not.  The counter
    does not wrap. *)
From Verif Require Import Base.
Open Scope list_scope. Open Scope Z_scope.

Definition second : Z := 10 ^ 9.   (** time.Second.Nanoseconds() *)

(** circuit_breaker.go:117-135: nanoseconds since the last update, at least one second; the weighted average (ewmaWeight = 0.2),
    truncated by the conversion to int64 *)
Definition elapsed (now last : Z) : Z := if now - last <? second then second else now - last.
Definition newEventRate (prev count d : Z) : Z :=
  if prev =? 0 then count * second / d else (2 * count * second + 8 * prev * d) / (10 * d).

(** circuit_breaker.go:55-59: -1 switches the limit off *)
Definition maxEventsPerSec (limit : Z) : Z := if limit =? -1 then 2 ^ 63 - 1 else limit.

(** Where the reader is in throttle (consumer.go:443-482) and Reset (circuit_breaker.go:99-104) *)
Inductive rpc := RIdle | RTicked | ROpen | RReset1 | RReset2 | RReset3 | RReset4 | RJoin | REnded.
(** Where the ticker is in update (circuit_breaker.go:111-148), with its local variables *)
Inductive upc :=
| UIdle | ULast (now : Z) | USwap (now last : Z) | URate (now d count : Z) | UStoreLast (now new : Z) | UStoreRate (new : Z)
| UStatus (new : Z).

Record st := {
  eventCount : Z; eventRate : Z; lastUpdate : Z; isOpen : bool;     (** circuit_breaker.go:32-50 *)
  sampNum : Z; sampDen : Z;                                          (** consumer.go:79 samplingRate, as a fraction *)
  samplingPct : Z; throttles : Z;                                    (** consumer.go:85-86 *)
  reader : rpc; ticker : upc }.

(** consumer.go:160-161 and circuit_breaker.go:54-66: a new consumer whose socket was opened with sampling rate 1.0 *)
Definition start (t0 : Z) : st :=
  {| eventCount := 0; eventRate := 0; lastUpdate := t0; isOpen := false; sampNum := 1; sampDen := 1; samplingPct := 100;
     throttles := 0; reader := RIdle; ticker := UIdle |}.

(** What opening the new socket came to (consumer.go:322-370 initNetlinkSocket) *)
Inductive opened := Opened | NoSocket | NoFilter.

Inductive act :=
| ARead (n : Z)            (** the reader got a batch of [n] messages: Tick *)
| ACheck                   (** IsOpen *)
| AOpen (o : opened)       (** consumer.go:455-472: the new socket *)
| AReset (now : Z)         (** the next of the four stores of Reset *)
| AJoin (ok : bool)        (** consumer.go:481 JoinGroup *)
| ATick (now : Z)          (** the breaker's ticker fires *)
| AUpdate.                 (** the next step of update *)

(** What is seen from outside *)
Inductive obs :=
| ORead (n : Z) | OMeasure (count now : Z) | OVerdict (rate : Z) (trips : bool)
| OThrottle (rate num den : Z) | OIgnored | OClear | OReset (now : Z) | OPanic.

Definition upd (s : st) (c r l : Z) (o : bool) (rd : rpc) (tk : upc) : st :=
  {| eventCount := c; eventRate := r; lastUpdate := l; isOpen := o; sampNum := sampNum s; sampDen := sampDen s;
     samplingPct := samplingPct s; throttles := throttles s; reader := rd; ticker := tk |}.

Section Breaker.
  Variable limit : Z.      (** targetRateLimit *)
  Variable old : bool.     (** pre315Kernel *)

  (** consumer.go:352-366: the sampling rate of the new socket; below zero GenerateBPFSampler gives no program
      (bpf_sampler.go:23-25, the error is ignored) and SetBPF indexes it: a panic *)
  Definition openSocket (s : st) (o : opened) : st * list obs :=
    let num := limit * sampNum s * 95 in
    let den := eventRate s * sampDen s * 100 in
    let to (pct : Z) (rd : rpc) (n d : Z) :=
      {| eventCount := eventCount s; eventRate := eventRate s; lastUpdate := lastUpdate s; isOpen := isOpen s;
         sampNum := n; sampDen := d; samplingPct := pct; throttles := throttles s; reader := rd; ticker := ticker s |} in
    match o with
    | NoSocket => (to (samplingPct s) REnded (sampNum s) (sampDen s), [])
    | _ =>
        if den <=? num then (to (num * 100 / den) RReset1 num den, [OThrottle (eventRate s) num den])
        else if num <? 0 then (to (num * 100 / den) REnded num den, [OPanic])
        else match o with
             | NoFilter => (to 0 REnded num den, [])
             | _ => (to (num * 100 / den) RReset1 num den, [OThrottle (eventRate s) num den])
             end
    end.

  Definition step (s : st) (a : act) : option (st * list obs) :=
    let c := eventCount s in let r := eventRate s in let l := lastUpdate s in let o := isOpen s in
    match a, reader s with
    (* circuit_breaker.go:89-91 Tick *)
    | ARead n, RIdle => Some (upd s (c + n) r l o RTicked (ticker s), [ORead n])
    (* consumer.go:449-453 *)
    | ACheck, RTicked =>
        if o then Some ({| eventCount := c; eventRate := r; lastUpdate := l; isOpen := o; sampNum := sampNum s; sampDen := sampDen s;
                           samplingPct := samplingPct s; throttles := throttles s + 1; reader := ROpen; ticker := ticker s |}, [])
        else Some (upd s c r l o RIdle (ticker s), [])
    (* consumer.go:455-476 *)
    | AOpen x, ROpen =>
        if old then Some (upd s c r l o RReset1 (ticker s), [OIgnored])
        else Some (openSocket s x)
    (* circuit_breaker.go:100-103 *)
    | AReset _, RReset1 => Some (upd s 0 r l o RReset2 (ticker s), [OClear])
    | AReset _, RReset2 => Some (upd s c 0 l o RReset3 (ticker s), [])
    | AReset now, RReset3 => Some (upd s c r now o RReset4 (ticker s), [OReset now])
    | AReset _, RReset4 => Some (upd s c r l false (if old then RIdle else RJoin) (ticker s), [])
    (* consumer.go:481 *)
    | AJoin ok, RJoin => Some (upd s c r l o (if ok then RIdle else REnded) (ticker s), [])
    | ATick now, _ =>
        match ticker s with
        | UIdle => Some (upd s c r l o (reader s) (if o then UIdle else ULast now), [])     (* 112-114 *)
        | _ => None
        end
    | AUpdate, _ =>
        match ticker s with
        | UIdle => None
        | ULast now => Some (upd s c r l o (reader s) (USwap now l), [])                                    (* 116 *)
        | USwap now last => Some (upd s 0 r l o (reader s) (URate now (elapsed now last) c), [OMeasure c now])   (* 117-126 *)
        | URate now d count => Some (upd s c r l o (reader s) (UStoreLast now (newEventRate r count d)), [])     (* 127-134 *)
        | UStoreLast now new => Some (upd s c r now o (reader s) (UStoreRate new), [])                       (* 136 *)
        | UStoreRate new => Some (upd s c new l o (reader s) (UStatus new), [])                              (* 137 *)
        | UStatus new =>                                                                                     (* 140-147 *)
            let trips := maxEventsPerSec limit <? new in
            Some (upd s c r l (if trips then true else o) (reader s) UIdle, [OVerdict new trips])
        end
    | _, _ => None
    end.

  (** A run: actions that are not enabled do not happen *)
  Fixpoint run (s : st) (acts : list act) : st * list obs :=
    match acts with
    | [] => (s, [])
    | a :: rest =>
        match step s a with
        | None => run s rest
        | Some (s', os) => let '(s2, os2) := run s' rest in (s2, os ++ os2)
        end
    end.

  (** conntracker.go:210-212 IsSampling *)
  Definition isSampling (s : st) : bool := samplingPct s <? 100.
End Breaker.

(** bpf_sampler.go:20-39: the program, and the meaning of golang.org/x/net/bpf's instructions (a jump skips instructions) *)
Inductive instr := LoadRand | JumpIfLess (val skipTrue skipFalse : Z) | Ret (k : Z).
Definition GenerateBPFSampler (num den : Z) : option (list instr) :=
  if (num <? 0) || (den <? num) then None
  else Some [LoadRand; JumpIfLess (2 ^ 32 * num / den) 0 1; Ret 4096; Ret 0].
Fixpoint exec (fuel : nat) (prog : list instr) (rand a : Z) : option Z :=
  match fuel, prog with
  | O, _ => None
  | _, [] => None
  | S f, LoadRand :: p => exec f p rand rand
  | S f, JumpIfLess v st sf :: p => exec f (skipn (Z.to_nat (if a <? v then st else sf)) p) rand a
  | S _, Ret k :: _ => Some k
  end.
(** The bytes of a message the filter lets through, for the kernel's random number [rand] *)
Definition captured (prog : list instr) (rand : Z) : option Z := exec (List.length prog) prog rand 0.
