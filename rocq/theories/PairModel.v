(** collector/pkg/component/analyzer/network: message_pair.go and the TCP half of network_analyzer.go (how connect,
    request and response events of one process and descriptor are grouped into message pairs, and when a pair is
    handed over for reporting).  The UDP DNS half is in UdpModel.v, the choice of the protocol parser in DetectModel.v,
    the record built from a pair in RecordModel.v.
    Mutexes are left out here: this file is the one-event-at-a-time machine, PairConcModel.v has the interleavings. *)
From Verif Require Import Base EventModel.
Open Scope string_scope. Open Scope list_scope. Open Scope Z_scope.

(** message_pair.go:12-19 mergableEvent *)
Record merged := { m_events : list event; m_lat : Z; m_res : Z; m_ts : Z; m_data : bytes }.
(** message_pair.go:21-32 events, newEvents *)
Record evs := { v_first : event; v_merg : option merged; v_max : Z }.
Definition newEvents (e : event) (max : Z) : evs := {| v_first := e; v_merg := None; v_max := max |}.

(** GetResVal (EventModel.getResVal) panics on a value shorter than eight bytes.  Events only get this far after
    processEvent (network_analyzer.go:267) called it, so the default is never used for requests and responses. *)
Definition resVal (e : event) : Z := match getResVal e with Ok v => v | _ => 0 end.

(** message_pair.go:34-49 size, getEvent *)
Definition size (v : evs) : Z := match v_merg v with None => 1 | Some m => zlen (m_events m) end.
Definition getEvent (v : evs) (i : Z) : option event :=
  if i =? 0 then Some (v_first v)
  else match v_merg v with
       | Some m => if (0 <? i) && (i <? zlen (m_events m)) then znth (m_events m) i else None
       | None => None
       end.

(** message_pair.go:90-102 getAppendLength *)
Definition getAppendLength (max have new : Z) : Z :=
  let remaining := max - have in
  if remaining <=? 0 then 0 else if remaining >? new then new else remaining.

(** message_pair.go:58-86 mergeEvent *)
Definition mergable (v : evs) : merged :=
  match v_merg v with
  | Some m => m
  | None => let f := v_first v in
            {| m_events := [f]; m_lat := e_lat f; m_res := resVal f; m_ts := e_ts f; m_data := getData f |}
  end.
Definition mergeEvent (v : evs) (e : event) : evs :=
  let m := mergable v in
  let n := getAppendLength (v_max v) (zlen (m_data m)) (zlen (getData e)) in
  {| v_first := v_first v; v_max := v_max v;
     v_merg := Some {| m_events := if zlen (m_events m) <? 10 then m_events m ++ [e] else m_events m;
                       m_lat := w64 (e_ts e - m_ts m + m_lat m);
                       m_res := s64 (m_res m + resVal e);
                       m_ts := e_ts e;
                       m_data := if n =? 0 then m_data m else m_data m ++ slice (getData e) 0 n |} |}.

(** message_pair.go:51-56 putEventBack *)
Definition putEventBack (cur origin : evs) : evs :=
  mergeEvent {| v_first := v_first origin; v_merg := v_merg origin; v_max := v_max cur |} (v_first cur).

(** message_pair.go:104-120 getData, getLastTimestamp; 140-150 getDuration *)
Definition evsData (v : evs) : bytes := match v_merg v with None => getData (v_first v) | Some m => m_data m end.
Definition lastTs (v : evs) : Z := match v_merg v with None => e_ts (v_first v) | Some m => m_ts m end.
Definition evsDuration (v : evs) : Z := match v_merg v with None => e_lat (v_first v) | Some m => m_lat m end.
(** message_pair.go:122-138 IsTimeout, IsSportChanged *)
Definition isTimeout (v : evs) (e : event) (timeout : Z) : bool :=
  let start := w64 (e_ts (v_first v) - e_lat (v_first v)) in
  if e_ts e <? start then false
  else (w64 (e_ts e - start) >? w64 (w64 timeout * 1000000000)) || negb (e_sport e =? e_sport (v_first v)).
Definition isSportChanged (v : evs) (e : event) : bool := negb (e_sport e =? e_sport (v_first v)).

(** message_pair.go:152-160 messagePairs; isSend is an int32 *)
Record pairs := { p_con : option evs; p_req : option evs; p_resp : option evs; p_send : Z; p_max : Z }.
Definition withCon p v := {| p_con := v; p_req := p_req p; p_resp := p_resp p; p_send := p_send p; p_max := p_max p |}.
Definition withReq p v := {| p_con := p_con p; p_req := v; p_resp := p_resp p; p_send := p_send p; p_max := p_max p |}.
Definition withResp p v := {| p_con := p_con p; p_req := p_req p; p_resp := v; p_send := p_send p; p_max := p_max p |}.
(** message_pair.go:162-165 checkSend: the counter after the atomic add, and the answer *)
Definition bumpSend p := {| p_con := p_con p; p_req := p_req p; p_resp := p_resp p; p_send := s32 (p_send p + 1); p_max := p_max p |}.
Definition checkSend (p : pairs) : bool := p_send (bumpSend p) =? 1.

(** message_pair.go:355-365 messagePairKey *)
Definition key : Type := (Z * Z)%type.
Definition evKey (e : event) : key := (e_pid e, e_fd e).
(** message_pair.go:167-176 getKey *)
Definition getKey (p : pairs) : key :=
  match p_con p, p_req p, p_resp p with
  | Some v, _, _ => evKey (v_first v)
  | None, Some v, _ => evKey (v_first v)
  | None, None, Some v => evKey (v_first v)
  | None, None, None => (0, 0)
  end.

(** message_pair.go:178-216 mergeConnect, putRequestBack, mergeRequest, mergeResponse *)
Definition mergeConnect (p : pairs) (e : event) : pairs :=
  match p_req p, p_con p with
  | None, _ => withCon p (Some (newEvents e (p_max p)))
  | Some _, Some c => withCon p (Some (mergeEvent c e))
  | Some _, None => p          (* nil dereference in the source; analyseConnect never gets here *)
  end.
Definition putRequestBack (p : pairs) (origin : evs) : pairs :=
  match p_req p with
  | None => withReq p (Some origin)
  | Some cur => withReq p (Some (putEventBack cur origin))
  end.
Definition mergeRequest (p : pairs) (e : event) : pairs :=
  match p_req p with
  | None => withReq p (Some (newEvents e (p_max p)))
  | Some r => withReq p (Some (mergeEvent r e))
  end.
Definition mergeResponse (p : pairs) (e : event) : pairs :=
  match p_resp p with
  | None => withResp p (Some (newEvents e (p_max p)))
  | Some r => withResp p (Some (mergeEvent r e))
  end.

(** message_pair.go:218-226 getPort, 228-239 getTimeoutTs *)
Definition getPort (p : pairs) : Z :=
  match p_req p, p_resp p with
  | Some r, _ => e_dport (v_first r)
  | None, Some r => e_dport (v_first r)
  | None, None => 0
  end.
Definition getTimeoutTs (p : pairs) : Z :=
  match p_resp p, p_req p, p_con p with
  | Some v, _, _ => lastTs v
  | None, Some v, _ => lastTs v
  | None, None, Some v => lastTs v
  | None, None, None => 0
  end.
(** message_pair.go:241-301 the timings and sizes of a pair.  A nil requests with a non-nil responses would be a nil
    dereference in getWaitingTime and getDuration; analyseResponse never builds such a pair. *)
Definition getConnectDuration (p : pairs) : Z := match p_con p with None => 0 | Some v => evsDuration v end.
Definition getSentTime (p : pairs) : Z := match p_req p with None => -1 | Some v => s64 (evsDuration v) end.
Definition getWaitingTime (p : pairs) : Z :=
  match p_resp p, p_req p with
  | Some r, Some q => s64 (e_ts (v_first r) - e_lat (v_first r) - lastTs q)
  | _, _ => -1
  end.
Definition getDownloadTime (p : pairs) : Z := match p_resp p with None => -1 | Some v => s64 (evsDuration v) end.
Definition getDuration (p : pairs) : Z :=
  match p_resp p, p_req p with
  | Some r, Some q => w64 (lastTs r - getStartTime (v_first q))
  | _, _ => 0
  end.
Definition evsSize (v : evs) : Z := match v_merg v with None => w64 (resVal (v_first v)) | Some m => w64 (m_res m) end.
Definition getRequestSize (p : pairs) : Z := match p_req p with None => 0 | Some v => evsSize v end.
Definition getResponseSize (p : pairs) : Z := match p_resp p with None => 0 | Some v => evsSize v end.
(** network_analyzer.go:738 what is reported as the total *)
Definition totalTime (p : pairs) : Z := s64 (w64 (getConnectDuration p + getDuration p)).

(** message_pair.go:303-353 messagePair: one request and perhaps its response *)
Record single := { sp_req : event; sp_resp : option event }.
Definition sSentTime (p : single) : Z := s64 (e_lat (sp_req p)).
Definition sWaitingTime (p : single) : Z :=
  match sp_resp p with None => -1 | Some r => s64 (e_ts r - e_lat r - e_ts (sp_req p)) end.
Definition sDownloadTime (p : single) : Z := match sp_resp p with None => -1 | Some r => s64 (e_lat r) end.
Definition sRequestSize (p : single) : Z := w64 (resVal (sp_req p)).
Definition sResponseSize (p : single) : Z := match sp_resp p with None => 0 | Some r => w64 (resVal r) end.
Definition sDuration (p : single) : Z :=
  match sp_resp p with None => 0 | Some r => w64 (e_ts r + e_lat (sp_req p) - e_ts (sp_req p)) end.

(** config.go:16-29, 91-121: the options read here, with their defaults for non-positive values *)
Record config := { c_snaplen : Z; c_connTimeout : Z; c_fdReuse : Z; c_noResp : Z; c_dnsPorts : list Z }.
Definition getConnectTimeout c := if c_connTimeout c >? 0 then c_connTimeout c else 1.
Definition getFdReuseTimeout c := if c_fdReuse c >? 0 then c_fdReuse c else 15.
Definition getNoResponseThreshold c := if c_noResp c >? 0 then c_noResp c else 120.

(** The analyzer's TCP state: requestMonitor and tcpMessagePairSize. *)
Record state := { st_map : list (key * pairs); st_gauge : Z }.
Definition init : state := {| st_map := []; st_gauge := 0 |}.

(** network_analyzer.go:437-478 distributeTraceMetric up to the parsing.  The result is the new state and the pair
    handed to parseProtocols (if any).  [cont] stands for what the protocol parser finds: true when the parsed
    attributes carry HttpContinue, in which case getRecords (676-685) puts the requests back into the pair that is now
    stored under the key and reports nothing.  The conntrack lookup (459-470) only adds a label and is left out. *)
Definition distribute (st : state) (old : pairs) (new : option pairs) (cont : bool) : state * list pairs :=
  match p_con old, p_req old with
  | None, None => (st, [])
  | _, _ =>
      if negb (checkSend old)
      then ({| st_map := aset (st_map st) (getKey old) (bumpSend old); st_gauge := st_gauge st |}, [])
      else
        let st1 := match new with
                   | Some n => {| st_map := aset (st_map st) (getKey n) n; st_gauge := st_gauge st |}
                   | None => {| st_map := adel (st_map st) (getKey old); st_gauge := st_gauge st - 1 |}
                   end in
        match p_req old with
        | Some r =>
            if cont
            then match aget (st_map st1) (evKey (v_first r)) with
                 | Some cur => ({| st_map := aset (st_map st1) (evKey (v_first r)) (putRequestBack cur r); st_gauge := st_gauge st1 |}, [])
                 | None => (st1, [])
                 end
            else (st1, [bumpSend old])
        | None => (st1, [bumpSend old])
        end
  end.

(** network_analyzer.go:350-376 analyseConnect *)
Definition connectPair (c : config) (e : event) : pairs :=
  {| p_con := Some (newEvents e (c_snaplen c)); p_req := None; p_resp := None; p_send := 0; p_max := c_snaplen c |}.
Definition requestPair (c : config) (e : event) : pairs :=
  {| p_con := None; p_req := Some (newEvents e (c_snaplen c)); p_resp := None; p_send := 0; p_max := c_snaplen c |}.
Definition analyseConnect (c : config) (st : state) (cont : bool) (e : event) : state * list pairs :=
  let mps := connectPair c e in
  match aget (st_map st) (getKey mps) with
  | Some old =>
      match p_req old, p_con old with
      | None, Some v =>
          if isTimeout v e (getConnectTimeout c) then distribute st old (Some mps) cont
          else ({| st_map := aset (st_map st) (getKey mps) (mergeConnect old e); st_gauge := st_gauge st |}, [])
      | _, _ => distribute st old (Some mps) cont
      end
  | None => ({| st_map := aset (st_map st) (getKey mps) mps; st_gauge := st_gauge st + 1 |}, [])
  end.

(** network_analyzer.go:386-419 analyseRequest *)
Definition analyseRequest (c : config) (st : state) (cont : bool) (e : event) : state * list pairs :=
  let mps := requestPair c e in
  match aget (st_map st) (getKey mps) with
  | Some old =>
      match p_req old with
      | None =>
          match p_con old with
          | None => ({| st_map := aset (st_map st) (getKey mps) mps; st_gauge := st_gauge st |}, [])
          | Some _ => let old' := mergeRequest old e in
                      ({| st_map := aset (st_map st) (getKey old') old'; st_gauge := st_gauge st |}, [])
          end
      | Some r =>
          if (match p_resp old with Some _ => true | None => false end) || isSportChanged r e
          then distribute st old (Some mps) cont
          else ({| st_map := aset (st_map st) (getKey mps) (mergeRequest old e); st_gauge := st_gauge st |}, [])
      end
  | None => ({| st_map := aset (st_map st) (getKey mps) mps; st_gauge := st_gauge st + 1 |}, [])
  end.

(** network_analyzer.go:421-435 analyseResponse *)
Definition analyseResponse (st : state) (e : event) : state :=
  match aget (st_map st) (evKey e) with
  | None => st
  | Some old =>
      match p_req old with
      | None => st
      | Some _ => let old' := mergeResponse old e in
                  {| st_map := aset (st_map st) (getKey old') old'; st_gauge := st_gauge st |}
      end
  end.

(** network_analyzer.go:306-320: one entry of the once-a-second scan; [now] is time.Now().UnixNano() *)
Definition expired (c : config) (now : Z) (p : pairs) : bool :=
  let ts := getTimeoutTs p in
  if ts =? 0 then false
  else
    let duration := s64 (Z.quot now 1000000000 - Z.quot (s64 ts) 1000000000) in
    ((match p_resp p with Some _ => true | None => false end) && (getFdReuseTimeout c <=? duration))
    || (getNoResponseThreshold c <=? duration).
Definition scanEntry (c : config) (now : Z) (conts : key -> bool) (acc : state * list pairs) (kp : key * pairs) : state * list pairs :=
  let '(k, p) := kp in
  if expired c now p
  then let '(st', out) := distribute (fst acc) p None (conts k) in (st', snd acc ++ out)
  else acc.
(** sync.Map.Range over the entries present; nothing else runs meanwhile in this machine *)
Definition scan (c : config) (st : state) (now : Z) (conts : key -> bool) : state * list pairs :=
  fold_left (scanEntry c now conts) (st_map st) (st, []).

(** network_analyzer.go:195-290 processEvent, TCP half: what an event is taken for.  An event without a thread or
    descriptor (201-207) is an [event] the collector never builds. *)
Inductive tok : Type := KConn (e : event) | KReq (e : event) | KResp (e : event).
Definition classify (e : event) : res (list tok) :=
  if negb (e_net e) then Ok []
  else match e_sip e with
       | [] => Ok []                                   (* Sip == nil *)
       | _ =>
           match e_proto e with
           | L4Udp => Ok []                            (* lines 214-260: UdpModel.v *)
           | _ =>
               if isConnect e then Ok [KConn e]
               else if getDataLen e <=? 0 then Ok []
               else match getResVal e with
                    | Panic => Panic
                    | Err => Err
                    | Ok r =>
                        if r <? 0 then Ok []
                        else match isRequest e with
                             | Err => Err
                             | Panic => Panic
                             | Ok true =>
                                 if eqb (e_name e) "sendmmsg"
                                 then match convertSendmmsg e with
                                      | Some (Ok l) => Ok (map KReq l)
                                      | Some Err => Err
                                      | Some Panic => Panic
                                      | None => Ok []  (* more fuel would be needed: never, C11_split_total *)
                                      end
                                 else Ok [KReq e]
                             | Ok false => Ok [KResp e]
                             end
                    end
           end
       end.
Definition analyse (c : config) (st : state) (cont : bool) (t : tok) : state * list pairs :=
  match t with
  | KConn e => analyseConnect c st cont e
  | KReq e => analyseRequest c st cont e
  | KResp e => (analyseResponse st e, [])
  end.

(** What can happen to the analyzer: the event channel delivers an event, or the timer fires.  [conts] are the parser's
    HttpContinue findings for the pairs distributed meanwhile (any values). *)
Inductive op : Type := Deliver (conts : nat -> bool) (e : event) | Tick (conts : key -> bool) (now : Z).
Fixpoint analyseAll (c : config) (st : state) (conts : nat -> bool) (n : nat) (l : list tok) : state * list pairs :=
  match l with
  | [] => (st, [])
  | t :: l' => let '(st1, o1) := analyse c st (conts n) t in
               let '(st2, o2) := analyseAll c st1 conts (S n) l' in (st2, o1 ++ o2)
  end.
Definition step (c : config) (st : state) (o : op) : state * list pairs :=
  match o with
  | Deliver conts e =>
      match classify e with
      | Ok l => analyseAll c st conts 0 l
      | _ => (st, [])          (* an error result is logged (185-188); a panic ends the program: see C14_no_panic *)
      end
  | Tick conts now => scan c st now conts
  end.
Fixpoint run (c : config) (st : state) (ops : list op) : state * list pairs :=
  match ops with
  | [] => (st, [])
  | o :: l => let '(st1, o1) := step c st o in
              let '(st2, o2) := run c st1 l in (st2, o1 ++ o2)
  end.
