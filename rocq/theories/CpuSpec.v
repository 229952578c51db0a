(** What the CPU analyzer is expected to keep, send and forget, in terms of the history of what it was told. *)
From Verif Require Import Base CpuModel.
Open Scope string_scope. Open Scope list_scope. Open Scope Z_scope.

Definition sec (t : Z) : Z := t / 1000000000.

(** * One thread *)
(** What happens to the data of one thread: an event of it arrives, or a window of time of its process is sent. *)
Inductive titem := IPut (name : bytes) (e : tev) | ISend (a b : Z).
(** What an observer remembers about a thread: the first second still of interest, the thread's last name, the events received, each with
    the first second of interest after its arrival, and which seconds were sent since they last changed. *)
Record track := { k_base : Z; k_name : bytes; k_recs : list (tev * Z); k_sent : Z -> bool }.
(** When an event that starts at second [s] and ends at second [f] does not fit in [n] seconds from [b] on, the first half of the seconds is
    forgotten, or all if the event starts at least one and a half times [n] after [b]. *)
Definition nextBase (n b s f : Z) : Z :=
  if (b + n <=? s) || (b + n <? f) then if 3 * n <=? 2 * (s - b) then s else b + n / 2 else b.
(** The seconds of an event that are of interest. *)
Definition covers (n : Z) (b : Z) (e : tev) (s : Z) : bool := (sec (t_start e) <=? s) && (s <=? sec (t_end e)) && (s <? b + n).
Definition trackStep (n : Z) (k : option track) (it : titem) : option track :=
  match it, k with
  | IPut name e, None => Some {| k_base := sec (t_start e); k_name := name; k_recs := [(e, sec (t_start e))]; k_sent := fun _ => false |}
  | IPut name e, Some k =>
      if sec (t_end e) <? k_base k then Some k
      else
        let b := nextBase n (k_base k) (sec (t_start e)) (sec (t_end e)) in
        Some {| k_base := b; k_name := name; k_recs := k_recs k ++ [(e, b)]; k_sent := fun s => if covers n b e s then false else k_sent k s |}
  | ISend a b, Some k => Some {| k_base := k_base k; k_name := k_name k; k_recs := k_recs k; k_sent := fun s => if (sec a <=? s) && (s <=? sec b) then true else k_sent k s |}
  | ISend _ _, None => None
  end.
Definition tracked (n : Z) (l : list titem) : option track := fold_left (trackStep n) l None.

Definition kindb (a b : ekind) : bool := match a, b with KCpu, KCpu | KFutex, KFutex | KTransaction, KTransaction | KSpan, KSpan | KInner, KInner => true | _, _ => false end.
(** The events of one kind that belong to second [s]: those that cover it, in order of arrival. *)
Definition eventsOf (n : Z) (recs : list (tev * Z)) (kd : ekind) (s : Z) : list tev :=
  map fst (filter (fun p => kindb (t_kind (fst p)) kd && covers n (snd p) (fst p) s) recs).
Definition busy (n : Z) (k : track) (s : Z) : bool := existsb (fun p => covers n (snd p) (fst p) s) (k_recs k).

(** The events of a kind in a segment. *)
Definition kl (g : seg) (kd : ekind) : list tev :=
  match kd with KCpu => g_cpu g | KFutex => g_futex g | KTransaction => g_trans g | KSpan => g_spans g | KInner => g_inner g end.

(** The record expected for second [s] of a thread. *)
Definition secondRecord (n : Z) (pid tid : Z) (k : track) (s : Z) : sent :=
  {| x_pid := pid; x_tid := tid; x_sent := if k_sent k s then 1 else 0; x_name := k_name k; x_start := s * 1000000000; x_end := (s + 1) * 1000000000;
     x_cpu := eventsOf n (k_recs k) KCpu s; x_futex := eventsOf n (k_recs k) KFutex s; x_trans := eventsOf n (k_recs k) KTransaction s;
     x_spans := eventsOf n (k_recs k) KSpan s; x_inner := eventsOf n (k_recs k) KInner s |}.
(** The seconds of interest, and what sending the window from [a] to [b] must emit for a thread. *)
Definition secondsOf (n : Z) (k : track) : list Z := map (fun i => k_base k + Z.of_nat i) (seq 0 (Z.to_nat n)).
Definition expectedOf (n : Z) (pid tid a b : Z) (k : option track) : list sent :=
  match k with
  | None => []
  | Some k => map (secondRecord n pid tid k) (filter (fun s => (sec a <=? s) && (s <=? sec b) && busy n k s) (secondsOf n k))
  end.

(** Timestamps for which no uint64 arithmetic wraps, up to the year 2554 less the size of the ring. *)
Definition saneTime (n : Z) (t : Z) : Prop := 0 <= t /\ (sec t + n + 1) * 1000000000 < 2 ^ 64.
Definition saneItem (n : Z) (it : titem) : Prop :=
  match it with IPut _ e => saneTime n (t_start e) /\ saneTime n (t_end e) | ISend a b => 0 <= a < 2 ^ 64 /\ 0 <= b < 2 ^ 64 end.

(** The ring of a thread shows what the observer remembers: slot [i] is second base + [i]. *)
Definition shows (n : Z) (k : track) (r : ring) : Prop :=
  r_base r = k_base k /\ r_name r = k_name k /\ zlen (r_segs r) = n /\
  forall i g, nth_error (r_segs r) i = Some g ->
    let s := k_base k + Z.of_nat i in
    g_start g = s * 1000000000 /\ g_end g = (s + 1) * 1000000000 /\
    g_cpu g = eventsOf n (k_recs k) KCpu s /\ g_futex g = eventsOf n (k_recs k) KFutex s /\ g_trans g = eventsOf n (k_recs k) KTransaction s /\
    g_spans g = eventsOf n (k_recs k) KSpan s /\ g_inner g = eventsOf n (k_recs k) KInner s /\
    (busy n k s = true -> g_sent g = if k_sent k s then 1 else 0).

(** * All threads *)
(** Histories are read from the last operation to the first. *)
Fixpoint isOn (rh : list cop) : bool := match rh with [] => false | OStart :: _ => true | OStop :: _ => false | _ :: r => isOn r end.
(** An exit of the thread seen while profiling was on, [d] or more before [now], that no later check was late enough to act on. *)
Fixpoint due (d pid tid now : Z) (checks : list Z) (rh : list cop) : bool :=
  match rh with
  | [] => false
  | OExit p t tm :: r => ((p =? pid) && (t =? tid) && isOn r && (tm + d <=? now) && forallb (fun c => c <? tm + d) checks) || due d pid tid now checks r
  | OCheck c :: r => due d pid tid now (c :: checks) r
  | _ :: r => due d pid tid now checks r
  end.
(** What happened to a thread's data since it was last forgotten. *)
Fixpoint life (d pid tid : Z) (rh : list cop) : list titem :=
  match rh with
  | [] => []
  | OStop :: _ => []
  | OPut p t name e :: r => if (p =? pid) && (t =? tid) && isOn r then life d pid tid r ++ [IPut name e] else life d pid tid r
  | OSend p a b :: r => if (p =? pid) && isOn r then life d pid tid r ++ [ISend a b] else life d pid tid r
  | OCheck now :: r => if due d pid tid now [] r then [] else life d pid tid r
  | _ :: r => life d pid tid r
  end.
(** The clock does not go back. *)
Fixpoint times (h : list cop) : list Z := match h with [] => [] | OExit _ _ t :: r => t :: times r | OCheck t :: r => t :: times r | _ :: r => times r end.
Fixpoint nondecreasing (l : list Z) : Prop := match l with [] => True | a :: r => Forall (fun b => a <= b) r /\ nondecreasing r end.
Definition saneOp (n : Z) (o : cop) : Prop :=
  match o with OPut _ _ _ e => saneTime n (t_start e) /\ saneTime n (t_end e) | OSend _ a b => 0 <= a < 2 ^ 64 /\ 0 <= b < 2 ^ 64 | _ => True end.
