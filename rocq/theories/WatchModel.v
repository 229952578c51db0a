(** Model of the metadata provider (collector/pkg/metadata/metaprovider/service/service.go, handler.go) and of what its client
    does with the stream (client/client.go, client/unwrapper_handler.go).

    A handler goroutine per kind of object (client-go calls a handler sequentially) applies an event to the provider's cache as a
    series of updates, each under the lock of the map it changes, and then broadcasts the event to the watchers.  A client is
    registered under the read locks of those maps, so its registration is one step between two updates (service.go:210-231;
    initk8s.go:216-238).  The map of services has a lock of its own that registration does not take: nothing is
    claimed here about that map.  Objects are encoded and decoded without loss unless said otherwise. *)
From Verif Require Import Base.
Open Scope string_scope. Open Scope list_scope. Open Scope Z_scope.

(** The kinds of objects (service.go:96-123). *)
Inductive rtype := TPod | TRs | TNode | TSvc.
#[export] Instance Eqb_rtype : Eqb rtype.
Proof.
  refine {| eqb := fun a b => match a, b with TPod, TPod => true | TRs, TRs => true | TNode, TNode => true | TSvc, TSvc => true | _, _ => false end |}.
  intros [] []; split; intros; congruence.
Defined.
(** One change of a map under its lock. *)
Inductive upd (V : Type) := USet (k : bytes) (v : V) | UDel (k : bytes).
Arguments USet {V}. Arguments UDel {V}.
Definition app1 {V} (m : list (bytes * V)) (u : upd V) : list (bytes * V) := match u with USet k v => aset m k v | UDel k => adel m k end.
Definition runUpd {V} (us : list (upd V)) (m : list (bytes * V)) : list (bytes * V) := fold_left app1 us m.

(** service.go:259-277: where the loop of a watcher is: in its select, with an event in hand, after the loop (Close is next), closed
    (RemoveFlusher is next), done. *)
Inductive loop (E : Type) := Selecting | InHand (x : rtype * E) | Leaving | Removing | Done.
Arguments Selecting {E}. Arguments InHand {E}. Arguments Leaving {E}. Arguments Removing {E}. Arguments Done {E}.
(** service.go:233-257 Watcher: what was sent first, whether its WriteFlusher is open, whether it is in flushersMap, its channel, the
    events sent, its loop; and, for the proofs only, how many events of each kind had been broadcast (or were being broadcast) when it
    registered, the first event of each kind it was given, and which updates of a next event the snapshot already had. *)
Record watcher (E V : Type) := {
  w_snap : rtype -> list (bytes * V); w_open : bool; w_in : bool; w_chan : list (rtype * E); w_out : list (rtype * E); w_loop : loop E;
  w_reg : rtype -> nat; w_base : rtype -> nat; w_pre : rtype -> list (upd V) }.
Arguments w_snap {E V}. Arguments w_open {E V}. Arguments w_in {E V}. Arguments w_chan {E V}. Arguments w_out {E V}. Arguments w_loop {E V}.
Arguments w_reg {E V}. Arguments w_base {E V}. Arguments w_pre {E V}. Arguments Build_watcher {E V}.
(** A handler: idle; applying an event (updates done and to do); broadcasting (watchers visited, and those the range has to
    visit); about to close, then to remove, a watcher that timed out (service.go:127-156, handler.go:21-47). *)
Inductive hpc (E V : Type) :=
| Idle
| Applying (e : E) (done todo : list (upd V))
| Casting (e : E) (visited must : list nat)
| Closing (e : E) (w : nat) (visited must : list nat)
| Dropping (e : E) (w : nat) (visited must : list nat).
Arguments Idle {E V}. Arguments Applying {E V}. Arguments Casting {E V}. Arguments Closing {E V}. Arguments Dropping {E V}.
(** The provider: the cached maps, the handlers, the watchers, and the events whose broadcast has begun with their updates. *)
Record wst (E V : Type) := {
  s_cache : rtype -> list (bytes * V); s_pc : rtype -> hpc E V; s_ws : list (watcher E V); s_hist : rtype -> list (E * list (upd V)) }.
Arguments s_cache {E V}. Arguments s_pc {E V}. Arguments s_ws {E V}. Arguments s_hist {E V}. Arguments Build_wst {E V}.
Definition s0 {E V} : wst E V := {| s_cache := fun _ => []; s_pc := fun _ => Idle; s_ws := []; s_hist := fun _ => [] |}.

Definition setT {A} (f : rtype -> A) (t : rtype) (x : A) : rtype -> A := fun u => if eqb u t then x else f u.
Section Steps.
  Context {E V : Type}.
  Definition setPC (s : wst E V) t p := {| s_cache := s_cache s; s_pc := setT (s_pc s) t p; s_ws := s_ws s; s_hist := s_hist s |}.
  Definition setW (s : wst E V) (i : nat) (w : watcher E V) :=
    {| s_cache := s_cache s; s_pc := s_pc s; s_ws := firstn i (s_ws s) ++ w :: skipn (S i) (s_ws s); s_hist := s_hist s |}.
  Definition withLoop (w : watcher E V) l := {| w_snap := w_snap w; w_open := w_open w; w_in := w_in w; w_chan := w_chan w; w_out := w_out w; w_loop := l; w_reg := w_reg w; w_base := w_base w; w_pre := w_pre w |}.
  Definition withOpen (w : watcher E V) b := {| w_snap := w_snap w; w_open := b; w_in := w_in w; w_chan := w_chan w; w_out := w_out w; w_loop := w_loop w; w_reg := w_reg w; w_base := w_base w; w_pre := w_pre w |}.
  Definition withIn (w : watcher E V) b := {| w_snap := w_snap w; w_open := w_open w; w_in := b; w_chan := w_chan w; w_out := w_out w; w_loop := w_loop w; w_reg := w_reg w; w_base := w_base w; w_pre := w_pre w |}.
  Definition withChan (w : watcher E V) c := {| w_snap := w_snap w; w_open := w_open w; w_in := w_in w; w_chan := c; w_out := w_out w; w_loop := w_loop w; w_reg := w_reg w; w_base := w_base w; w_pre := w_pre w |}.
  Definition withOut (w : watcher E V) o := {| w_snap := w_snap w; w_open := w_open w; w_in := w_in w; w_chan := w_chan w; w_out := o; w_loop := w_loop w; w_reg := w_reg w; w_base := w_base w; w_pre := w_pre w |}.
  Definition withBase (w : watcher E V) b := {| w_snap := w_snap w; w_open := w_open w; w_in := w_in w; w_chan := w_chan w; w_out := w_out w; w_loop := w_loop w; w_reg := w_reg w; w_base := b; w_pre := w_pre w |}.

  Inductive wop :=
  | BeginEvent (t : rtype) (e : E) (us : list (upd V))   (* the informer calls the handler *)
  | ApplyNext (t : rtype)                                (* the next update of the cache *)
  | StartCast (t : rtype)                                (* broadcast: the range over the watchers begins *)
  | Give (t : rtype) (i : nat)                           (* the event is put in a watcher's channel *)
  | GiveUp (t : rtype) (i : nat)                         (* the timer is chosen instead *)
  | CloseIt (t : rtype) | RemoveIt (t : rtype)           (* ... then f.Close() and s.RemoveFlusher(f) *)
  | EndCast (t : rtype)                                  (* the range is over *)
  | Register                                             (* a client connects: ListWithSemaphore *)
  | Take (i : nat)                                       (* a watcher's loop takes an event from its channel *)
  | Send (i : nat) (ok : bool)                           (* and writes it *)
  | Leave (i : nat)                                      (* the client disconnected, or the provider stops *)
  | CloseSelf (i : nat) | RemoveSelf (i : nat).          (* after the loop *)

  (** service.go:222: the channel has room for ten events *)
  Definition room (w : watcher E V) : bool := zlen (w_chan w) <? 10.
  Definition pending (p : hpc E V) : list (upd V) := match p with Applying _ d _ => d | _ => [] end.
  Definition members (ws : list (watcher E V)) : list nat := filter (fun i => match nth_error ws i with Some w => w_in w | None => false end) (seq 0 (List.length ws)).
  (** service.go:216-231: snapshot and registration under the locks *)
  Definition register (s : wst E V) : watcher E V :=
    {| w_snap := s_cache s; w_open := true; w_in := true; w_chan := []; w_out := []; w_loop := Selecting;
       w_reg := fun t => List.length (s_hist s t); w_base := fun t => List.length (s_hist s t); w_pre := fun t => pending (s_pc s t) |}.

  (** A step that is not possible changes nothing. *)
  Definition wstep (s : wst E V) (o : wop) : wst E V :=
    match o with
    | BeginEvent t e us => match s_pc s t with Idle => setPC s t (Applying e [] us) | _ => s end
    | ApplyNext t => match s_pc s t with
        | Applying e d (u :: r) => {| s_cache := setT (s_cache s) t (app1 (s_cache s t) u); s_pc := setT (s_pc s) t (Applying e (d ++ [u]) r); s_ws := s_ws s; s_hist := s_hist s |}
        | _ => s end
    | StartCast t => match s_pc s t with
        | Applying e d [] => {| s_cache := s_cache s; s_pc := setT (s_pc s) t (Casting e [] (members (s_ws s))); s_ws := s_ws s; s_hist := setT (s_hist s) t (s_hist s t ++ [(e, d)]) |}
        | _ => s end
    | Give t i => match s_pc s t, nth_error (s_ws s) i with
        | Casting e v m, Some w =>
          if negb (existsb (Nat.eqb i) v) && (w_in w || existsb (Nat.eqb i) m) && room w
          then setPC (setW s i (withBase (withChan w (w_chan w ++ [(t, e)])) (setT (w_base w) t (Nat.min (w_base w t) (List.length (s_hist s t) - 1))))) t (Casting e (i :: v) m)
          else s
        | _, _ => s end
    | GiveUp t i => match s_pc s t, nth_error (s_ws s) i with
        | Casting e v m, Some w => if negb (existsb (Nat.eqb i) v) && (w_in w || existsb (Nat.eqb i) m) then setPC s t (Closing e i v m) else s
        | _, _ => s end
    | CloseIt t => match s_pc s t with
        | Closing e i v m => match nth_error (s_ws s) i with Some w => setPC (setW s i (withOpen w false)) t (Dropping e i v m) | None => s end
        | _ => s end
    | RemoveIt t => match s_pc s t with
        | Dropping e i v m => match nth_error (s_ws s) i with Some w => setPC (setW s i (withIn w false)) t (Casting e (i :: v) m) | None => s end
        | _ => s end
    | EndCast t => match s_pc s t with
        | Casting e v m => if forallb (fun i => existsb (Nat.eqb i) v || match nth_error (s_ws s) i with Some w => negb (w_in w) | None => true end) m then setPC s t Idle else s
        | _ => s end
    | Register => {| s_cache := s_cache s; s_pc := s_pc s; s_ws := s_ws s ++ [register s]; s_hist := s_hist s |}
    | Take i => match nth_error (s_ws s) i with
        | Some w => match w_loop w, w_chan w with Selecting, x :: c => setW s i (withLoop (withChan w c) (InHand x)) | _, _ => s end
        | None => s end
    | Send i ok => match nth_error (s_ws s) i with
        | Some w => match w_loop w with
            | InHand x => if w_open w && ok then setW s i (withLoop (withOut w (w_out w ++ [x])) Selecting) else setW s i (withLoop w Leaving)
            | _ => s end
        | None => s end
    | Leave i => match nth_error (s_ws s) i with
        | Some w => match w_loop w with Selecting => setW s i (withLoop w Leaving) | _ => s end
        | None => s end
    | CloseSelf i => match nth_error (s_ws s) i with
        | Some w => match w_loop w with Leaving => setW s i (withLoop (withOpen w false) Removing) | _ => s end
        | None => s end
    | RemoveSelf i => match nth_error (s_ws s) i with
        | Some w => match w_loop w with Removing => setW s i (withLoop (withIn w false) Done) | _ => s end
        | None => s end
    end.
  Definition wrun (s : wst E V) (ops : list wop) : wst E V := fold_left wstep ops s.

  (** The events of one kind in a stream. *)
  Definition ofType (t : rtype) (l : list (rtype * E)) : list E := map snd (filter (fun x => eqb (fst x) t) l).
  (** client.go:60-91, unwrapper_handler.go:84-129: what the client's map of a kind is: the snapshot, then the events sent, with the
      updates [cl] an event makes at the client. *)
  Definition clientMap (cl : E -> list (upd V)) (w : watcher E V) (t : rtype) : list (bytes * V) :=
    fold_left (fun m e => runUpd (cl e) m) (ofType t (w_out w)) (w_snap w t).
End Steps.
