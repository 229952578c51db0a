(** The event goroutine and the timeout goroutine on the DNS cache of one key (network_analyzer.go:229-255, 292-299 and
    321-342, udp_cache.go:20-40).  A step is one sync.Map operation or one update of the unguarded count; torn updates of
    the count (a data race in the Go memory model) are not modelled.  Caches live in a heap; the monitor holds the address
    of the key's cache. *)
From Verif Require Import Base EventModel PairModel UdpModel PairConcModel.
Open Scope list_scope. Open Scope Z_scope.

Inductive evpc : Type :=
| EIdle
| EStore (a : nat) (id : Z) (e : event)                (* LoadOrStore done: 294 *)
| ECount (a : nat)                                     (* addRequest: Store done: udp_cache.go:21 *)
| EMatch (a : nat) (id : Z) (e : event)                (* Load done: 236 *)
| EDec (a : nat) (r : event) (e : event)               (* LoadAndDelete hit: udp_cache.go:26 *)
| EClean (size : Z) (o : list uout).                   (* getMatchRequest returned: 239-253 *)
Inductive tmpc : Type :=
| TIdle
| TIn (a : nat)                                        (* inside the Range of cache [a] *)
| TDel (a : nat) (id : Z) (e : event)                  (* visiting (id, e), which is late: 328 *)
| TDec (a : nat) (e : event)                           (* deleteRequest: Delete done *)
| TEmit (a : nat) (e : event)                          (* 330-335 *)
| TCheck (a : nat).                                    (* 339 *)
Inductive work : Type := WReq (id : Z) (e : event) | WResp (id : Z) (e : event).
Record ust := {
  x_heap : list cache; x_mon : option nat; x_out : list uout; x_todo : list work; x_ev : evpc; x_tm : tmpc }.
Definition uderef (s : ust) (a : nat) : cache := nth a (x_heap s) newCache.
Definition uset (s : ust) (a : nat) (ch : cache) : ust :=
  {| x_heap := upd (x_heap s) a ch; x_mon := x_mon s; x_out := x_out s; x_todo := x_todo s; x_ev := x_ev s; x_tm := x_tm s |}.
Definition umon (s : ust) (m : option nat) : ust :=
  {| x_heap := x_heap s; x_mon := m; x_out := x_out s; x_todo := x_todo s; x_ev := x_ev s; x_tm := x_tm s |}.
Definition uemit (s : ust) (o : list uout) : ust :=
  {| x_heap := x_heap s; x_mon := x_mon s; x_out := x_out s ++ o; x_todo := x_todo s; x_ev := x_ev s; x_tm := x_tm s |}.
Definition ualloc (s : ust) : ust :=
  {| x_heap := x_heap s ++ [newCache]; x_mon := Some (List.length (x_heap s)); x_out := x_out s; x_todo := x_todo s; x_ev := x_ev s; x_tm := x_tm s |}.
Definition uev (s : ust) (p : evpc) (l : list work) : ust :=
  {| x_heap := x_heap s; x_mon := x_mon s; x_out := x_out s; x_todo := l; x_ev := p; x_tm := x_tm s |}.
Definition utm (s : ust) (p : tmpc) : ust :=
  {| x_heap := x_heap s; x_mon := x_mon s; x_out := x_out s; x_todo := x_todo s; x_ev := x_ev s; x_tm := p |}.

Definition ustepEv (s : ust) : ust :=
  match x_ev s with
  | EIdle =>
      match x_todo s with
      | [] => s
      | WReq id e :: l => match x_mon s with
                          | Some a => uev s (EStore a id e) l
                          | None => uev (ualloc s) (EStore (List.length (x_heap s)) id e) l
                          end
      | WResp id e :: l => match x_mon s with Some a => uev s (EMatch a id e) l | None => uev s EIdle l end
      end
  | EStore a id e => uev (uset s a {| u_count := u_count (uderef s a); u_reqs := aset (u_reqs (uderef s a)) id e |}) (ECount a) (x_todo s)
  | ECount a => uev (uset s a {| u_count := u_count (uderef s a) + 1; u_reqs := u_reqs (uderef s a) |}) EIdle (x_todo s)
  | EMatch a id e =>
      match aget (u_reqs (uderef s a)) id with
      | Some r => uev (uset s a {| u_count := u_count (uderef s a); u_reqs := adel (u_reqs (uderef s a)) id |}) (EDec a r e) (x_todo s)
      | None => uev s (EClean (u_count (uderef s a)) []) (x_todo s)
      end
  | EDec a r e => uev (uset s a {| u_count := u_count (uderef s a) - 1; u_reqs := u_reqs (uderef s a) |})
                      (EClean (u_count (uderef s a) - 1) [{| o_req := r; o_resp := Some e |}]) (x_todo s)
  | EClean size o => uev (uemit (if size <=? 0 then umon s None else s) o) EIdle (x_todo s)
  end.
(** [pick] is the id Range comes to next; None ends the Range of this cache *)
Definition ustepTm (c : config) (s : ust) (now : Z) (pick : option Z) : ust :=
  match x_tm s with
  | TIdle => match x_mon s with Some a => utm s (TIn a) | None => s end
  | TIn a => match pick with
             | None => utm s (TCheck a)
             | Some id => match aget (u_reqs (uderef s a)) id with
                          | Some e => if lateUdp c now e then utm s (TDel a id e) else s
                          | None => s
                          end
             end
  | TDel a id e => utm (uset s a {| u_count := u_count (uderef s a); u_reqs := adel (u_reqs (uderef s a)) id |}) (TDec a e)
  | TDec a e => utm (uset s a {| u_count := u_count (uderef s a) - 1; u_reqs := u_reqs (uderef s a) |}) (TEmit a e)
  | TEmit a e => utm (uemit s [{| o_req := e; o_resp := None |}]) (TIn a)
  | TCheck a => utm (if u_count (uderef s a) =? 0 then umon s None else s) TIdle
  end.
Inductive usched : Type := UE | UT (now : Z) (pick : option Z).
Definition uxstep (c : config) (s : ust) (x : usched) : ust :=
  match x with UE => ustepEv s | UT now pick => ustepTm c s now pick end.
Definition uxrun (c : config) (s : ust) (l : list usched) : ust := fold_left (uxstep c) l s.
Definition uinit (todo : list work) : ust :=
  {| x_heap := []; x_mon := None; x_out := []; x_todo := todo; x_ev := EIdle; x_tm := TIdle |}.
