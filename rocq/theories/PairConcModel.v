(** The event goroutine (ConsumeEventFromChannel, network_analyzer.go:181-193) and the timeout goroutine
    (consumerFdNoReusingTrace, 301-348) working on the same requestMonitor.  One step of the machine is one operation on
    shared memory: a sync.Map operation, an atomic add, one critical section of messagePairs.mutex, or one read of the
    fields of a pair.  Pairs live in a heap, the map holds their addresses. *)
From Verif Require Import Base EventModel PairModel PairSpec.
Open Scope list_scope. Open Scope Z_scope.

Definition addr := nat.
(** Where a goroutine is.  [old] and [new] are addresses. *)
Inductive pc : Type :=
| PIdle
| PConn (e : event) (old : addr) (new : pairs) (cont : bool)     (* analyseConnect: LoadOrStore found [old]; 362 reads its fields *)
| PReq (e : event) (old : addr) (new : pairs) (cont : bool)      (* analyseRequest: LoadOrStore found [old]; 397-410 reads its fields *)
| PResp (e : event) (old : addr)                   (* analyseResponse: Load found [old]; 427 reads requests *)
| PMergeConn (e : event) (old : addr)              (* 366 *)
| PMergeReq (e : event) (old : addr) (thenStore : bool)  (* 404 or 413 *)
| PMergeResp (e : event) (old : addr)              (* 432 *)
| PStore (old : addr)                              (* 405 or 433: Store(old.getKey(), old) *)
| PStoreNew (new : pairs)                          (* 400 *)
| PGauge                                           (* 373, 416: the gauge goes up *)
| PCheck (old : addr) (new : option pairs) (cont : bool)  (* distributeTraceMetric: 438-450 *)
| PPut (old : addr) (new : pairs) (cont : bool)           (* 453 *)
| PDown (old : addr) (cont : bool)                        (* 455 *)
| PDelete (old : addr) (cont : bool)                      (* 456 *)
| PEmit (old : addr) (cont : bool)                        (* 476-477: the pair is read, parsed and reported *)
| PBack (old : addr) (cur : addr).                        (* 682: putRequestBack into the pair found at 680 *)

Record cstate := {
  h_heap : list pairs; h_map : list (key * addr); h_gauge : Z;
  h_out : list (addr * pairs);        (* reported so far: whose pair, and its contents when it was parsed *)
  h_todo : list (bool * tok);         (* events still in the channel, with the parser's HttpContinue finding *)
  h_ev : pc; h_tm : pc }.

Definition nilPair : pairs := {| p_con := None; p_req := None; p_resp := None; p_send := 0; p_max := 0 |}.
Definition deref (s : cstate) (a : addr) : pairs := nth a (h_heap s) nilPair.
Fixpoint upd {A} (l : list A) (n : nat) (x : A) : list A :=
  match l, n with
  | [], _ => []
  | _ :: l', O => x :: l'
  | y :: l', S n' => y :: upd l' n' x
  end.
Definition write (s : cstate) (a : addr) (p : pairs) : cstate :=
  {| h_heap := upd (h_heap s) a p; h_map := h_map s; h_gauge := h_gauge s; h_out := h_out s; h_todo := h_todo s; h_ev := h_ev s; h_tm := h_tm s |}.
Definition setMap (s : cstate) (m : list (key * addr)) : cstate :=
  {| h_heap := h_heap s; h_map := m; h_gauge := h_gauge s; h_out := h_out s; h_todo := h_todo s; h_ev := h_ev s; h_tm := h_tm s |}.
(** allocate [p] and store it under [k] *)
Definition allocAt (s : cstate) (k : key) (p : pairs) : cstate :=
  {| h_heap := h_heap s ++ [p]; h_map := aset (h_map s) k (List.length (h_heap s)); h_gauge := h_gauge s; h_out := h_out s;
     h_todo := h_todo s; h_ev := h_ev s; h_tm := h_tm s |}.
Definition addGauge (s : cstate) (d : Z) : cstate :=
  {| h_heap := h_heap s; h_map := h_map s; h_gauge := h_gauge s + d; h_out := h_out s; h_todo := h_todo s; h_ev := h_ev s; h_tm := h_tm s |}.
Definition emit (s : cstate) (a : addr) : cstate :=
  {| h_heap := h_heap s; h_map := h_map s; h_gauge := h_gauge s; h_out := h_out s ++ [(a, deref s a)]; h_todo := h_todo s; h_ev := h_ev s; h_tm := h_tm s |}.

(** One step of a goroutine that is in the middle of something.  Same code as in PairModel.v, cut at the shared accesses. *)
Definition stepPc (c : config) (s : cstate) (p : pc) : cstate * pc :=
  match p with
  | PIdle => (s, PIdle)
  | PConn e old new cont =>
      let o := deref s old in
      match p_req o, p_con o with
      | None, Some v => if isTimeout v e (getConnectTimeout c) then (s, PCheck old (Some new) cont) else (s, PMergeConn e old)
      | _, _ => (s, PCheck old (Some new) cont)
      end
  | PReq e old new cont =>
      let o := deref s old in
      match p_req o with
      | None => match p_con o with
                | None => (s, PStoreNew new)
                | Some _ => (s, PMergeReq e old true)
                end
      | Some r => if (match p_resp o with Some _ => true | None => false end) || isSportChanged r e
                  then (s, PCheck old (Some new) cont) else (s, PMergeReq e old false)
      end
  | PResp e old => match p_req (deref s old) with None => (s, PIdle) | Some _ => (s, PMergeResp e old) end
  | PMergeConn e old => (write s old (mergeConnect (deref s old) e), PIdle)
  | PMergeReq e old st => (write s old (mergeRequest (deref s old) e), if st then PStore old else PIdle)
  | PMergeResp e old => (write s old (mergeResponse (deref s old) e), PStore old)
  | PStore old => (setMap s (aset (h_map s) (getKey (deref s old)) old), PIdle)
  | PStoreNew new => (allocAt s (getKey new) new, PIdle)
  | PGauge => (addGauge s 1, PIdle)
  | PCheck old new ct =>
      let o := deref s old in
      match p_con o, p_req o with
      | None, None => (s, PIdle)
      | _, _ => let s' := write s old (bumpSend o) in
                if checkSend o
                then (s', match new with Some n => PPut old n ct | None => PDown old ct end)
                else (s', PIdle)
      end
  | PPut old new ct => (allocAt s (getKey new) new, PEmit old ct)
  | PDown old ct => (addGauge s (-1), PDelete old ct)
  | PDelete old ct => (setMap s (adel (h_map s) (getKey (deref s old))), PEmit old ct)
  | PEmit old ct =>
      match p_req (deref s old) with
      | Some r => if ct
                  then match aget (h_map s) (evKey (v_first r)) with
                       | Some cur => (s, PBack old cur)
                       | None => (s, PIdle)
                       end
                  else (emit s old, PIdle)
      | None => (emit s old, PIdle)
      end
  | PBack old cur =>
      match p_req (deref s old) with
      | Some r => (write s cur (putRequestBack (deref s cur) r), PIdle)
      | None => (s, PIdle)
      end
  end.

(** The event goroutine takes the next event and does the LoadOrStore or Load. *)
Definition startEv (c : config) (s : cstate) (cont : bool) (t : tok) : cstate * pc :=
  match t with
  | KConn e => let new := connectPair c e in
      match aget (h_map s) (getKey new) with
      | Some old => (s, PConn e old new cont)
      | None => (allocAt s (getKey new) new, PGauge)
      end
  | KReq e => let new := requestPair c e in
      match aget (h_map s) (getKey new) with
      | Some old => (s, PReq e old new cont)
      | None => (allocAt s (getKey new) new, PGauge)
      end
  | KResp e => match aget (h_map s) (evKey e) with Some old => (s, PResp e old) | None => (s, PIdle) end
  end.
Definition withEv (s : cstate) (p : pc) (todo : list (bool * tok)) : cstate :=
  {| h_heap := h_heap s; h_map := h_map s; h_gauge := h_gauge s; h_out := h_out s; h_todo := todo; h_ev := p; h_tm := h_tm s |}.
Definition withTm (s : cstate) (p : pc) : cstate :=
  {| h_heap := h_heap s; h_map := h_map s; h_gauge := h_gauge s; h_out := h_out s; h_todo := h_todo s; h_ev := h_ev s; h_tm := p |}.
Definition stepEv (c : config) (s : cstate) : cstate :=
  match h_ev s, h_todo s with
  | PIdle, [] => s
  | PIdle, (cont, t) :: l => let '(s', p) := startEv c s cont t in withEv s' p l
  | p, l => let '(s', p') := stepPc c s p in withEv s' p' l
  end.
(** The timeout goroutine: Range comes across the entry of [k] (any entry, at any time), or it goes on. *)
Definition stepTm (c : config) (s : cstate) (k : key) (now : Z) (cont : bool) : cstate :=
  match h_tm s with
  | PIdle => match aget (h_map s) k with
             | Some a => if expired c now (deref s a) then withTm s (PCheck a None cont) else s
             | None => s
             end
  | p => let '(s', p') := stepPc c s p in withTm s' p'
  end.

(** A schedule decides which goroutine moves. *)
Inductive sched : Type := EvMoves | TmMoves (k : key) (now : Z) (cont : bool).
Definition cstep (c : config) (s : cstate) (x : sched) : cstate :=
  match x with EvMoves => stepEv c s | TmMoves k now cont => stepTm c s k now cont end.
Definition crun (c : config) (s : cstate) (l : list sched) : cstate := fold_left (cstep c) l s.
Definition cinit (todo : list (bool * tok)) : cstate :=
  {| h_heap := []; h_map := []; h_gauge := 0; h_out := []; h_todo := todo; h_ev := PIdle; h_tm := PIdle |}.
