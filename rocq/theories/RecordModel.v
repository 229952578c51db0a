(** What is reported for a message pair: collector/pkg/component/analyzer/network/network_analyzer.go:554-850.
    The choice of the parser is DetectModel.v; grouping events into pairs is PairModel.v; groups come from the pool of
    PoolModel.v ([g] below is the group the pool hands out).  The conntrack answer (459-470) is a parameter: the
    translated address as text and port, or nothing. *)
From Verif Require Import Base Decimal AttrModel PoolModel EventModel PairModel MsgModel TextModel LabelNames DetectModel.
Open Scope string_scope. Open Scope list_scope. Open Scope Z_scope.

(** model/constlabels/const.go:10-56 *)
Definition LComm := "comm".
Definition LPid := "pid".
Definition LRequestTid := "request_tid".
Definition LResponseTid := "response_tid".
Definition LContainerId := "container_id".
Definition LSrcIp := "src_ip".
Definition LSrcPort := "src_port".
Definition LDstIp := "dst_ip".
Definition LDstPort := "dst_port".
Definition LDnatIp := "dnat_ip".
Definition LDnatPort := "dnat_port".
Definition LEndTimestamp := "end_timestamp".
(** model/constvalues *)
Definition VConnectTime := "connect_time".
Definition VRequestSentTime := "request_sent_time".
Definition VWaitingTtfbTime := "waiting_ttfb_time".
Definition VContentDownloadTime := "content_download_time".
Definition VRequestTotalTime := "request_total_time".
Definition VRequestIo := "request_io".
Definition VResponseIo := "response_io".

Definition attrs : Type := list (string * aval).
Definition nat_tuple : Type := option (bytes * Z).

(** slowThresholdMap (Start, 133-138), response_slow_threshold, and the payload lengths *)
Record rconf := { rc_slow : list (string * Z); rc_default : Z; rc_payload : list (string * Z) }.
(** config.go:108-114 getResponseSlowThreshold; network_analyzer.go:844-850 *)
Definition slowThreshold (c : rconf) (proto : string) : Z :=
  let d := if 0 <? rc_default c then rc_default c else 500 in
  match aget (rc_slow c) proto with Some v => if 0 <? v then v else d | None => d end.
(** network_analyzer.go:840-842 isSlow: uint64 duration in ns, threshold in ms *)
Definition isSlow (c : rconf) (duration : Z) (proto : string) : bool :=
  s64 (slowThreshold c proto * 1000000) <=? s64 duration.

(** A run of UpdateAdd...Value calls. *)
Fixpoint updAll (g : group) (l : attrs) : res group :=
  match l with
  | [] => Ok g
  | (k, v) :: l' => bind (applyUse g (UUpd k v)) (fun g' => updAll g' l')
  end.
(** A run of UpdateAddIntMetric calls. *)
Fixpoint metAll (g : group) (l : list (string * Z)) : group :=
  match l with [] => g | (n, v) :: l' => metAll (updateAddIntMetric g n v) l' end.
Definition withTs (g : group) (t : Z) : group := {| gname := gname g; gmetrics := gmetrics g; glabels := glabels g; gts := t |}.
(** attribute_map.go:49-56 Merge; nil merges nothing *)
Definition mergeAttrs (g : group) (a : option attrs) : group :=
  match a with
  | Some l => withLabels g (fold_left (fun m p => aset m (fst p) (snd p)) l (glabels g))
  | None => g
  end.

(** network_analyzer.go:693-708, 757-771 and 656-671: the labels every record starts with *)
Definition baseLabels (e : event) (reqTid respTid : Z) (err : bool) (errType : Z) (slow : bool) : res attrs :=
  bind (getSip e) (fun sip => bind (getDip e) (fun dip =>
  Ok [(LPid, IV (e_pid e)); (LRequestTid, IV reqTid); (LResponseTid, IV respTid); (LComm, SV (bs (e_comm e)));
      (LSrcIp, SV sip); (LDstIp, SV dip); (LSrcPort, IV (e_sport e)); (LDstPort, IV (e_dport e));
      (LDnatIp, SV []); (LDnatPort, IV (-1)); (LContainerId, SV (bs (e_cid e)));
      (LIsError, BV err); (LErrorType, IV errType); (LIsSlow, BV slow); (LIsServer, BV (e_role e))])).

(** network_analyzer.go:831-838 addProtocolPayload *)
Definition payloadLabels (c : rconf) (proto : string) (request : bytes) (response : option bytes) : res attrs :=
  bind (getPayloadString (rc_payload c) request proto) (fun rq =>
  bind (match response with Some d => getPayloadString (rc_payload c) d proto | None => Ok [] end) (fun rs =>
  Ok [(LRequestPayload, SV rq); (LResponsePayload, SV rs)])).

(** The common part of getRecords (687-733) and getRecordWithSinglePair (753-791).
    [e]: the first request event; [resp]: the first response's tid, the last response's time and the response data. *)
Definition fillLabels (c : rconf) (g : group) (e : event) (proto : string) (slow : bool) (a : option attrs)
    (request : bytes) (resp : option (Z * Z * bytes)) (nt : nat_tuple) : res group :=
  bind (baseLabels e (e_tid e) (match resp with Some (t, _, _) => t | None => 0 end) false NoError slow) (fun base =>
  bind (updAll g (base ++ [(LProtocol, SV (bs proto))])) (fun g1 =>
  let g2 := mergeAttrs g1 a in
  bind (updAll g2 (match resp with Some (_, ts, _) => [(LEndTimestamp, IV (s64 ts))] | None => [] end)) (fun g3 =>
  bind (payloadLabels c proto request (match resp with Some (_, _, d) => Some d | None => None end)) (fun pl =>
  bind (updAll g3 pl) (fun g4 =>
  let g5 := if negb (asBool (aget (glabels g4) LIsError)) && (match resp with None => true | Some _ => false end)
            then withLabels g4 (aset (aset (glabels g4) LIsError (BV true)) LErrorType (IV NoResponse))
            else g4 in
  updAll g5 (match nt with Some (ip, port) => [(LDnatIp, SV ip); (LDnatPort, IV port)] | None => [] end)))))).

(** network_analyzer.go:676-745 getRecords.  [a]: the parser's attributes, None for nil.  The records, or the request
    goes back to the pair now stored (PairModel.distribute with [cont]). *)
Definition getRecords (c : rconf) (g : group) (m : pairs) (proto : string) (a : option attrs) (nt : nat_tuple) : res (list group) :=
  match p_req m with
  | None => Panic                                  (* mps.requests.event of nil *)
  | Some rq =>
      let e := v_first rq in
      if (match a with Some l => ahas l LHttpContinue | None => false end) then Ok []
      else
        let slow := match p_resp m with Some _ => isSlow c (getDuration m) proto | None => false end in
        bind (fillLabels c g e proto slow a (evsData rq)
                (match p_resp m with Some r => Some (e_tid (v_first r), lastTs r, evsData r) | None => None end) nt) (fun g1 =>
        Ok [withTs (metAll g1 [(VConnectTime, s64 (getConnectDuration m)); (VRequestSentTime, getSentTime m);
                               (VWaitingTtfbTime, getWaitingTime m); (VContentDownloadTime, getDownloadTime m);
                               (VRequestTotalTime, totalTime m); (VRequestIo, s64 (getRequestSize m)); (VResponseIo, s64 (getResponseSize m))])
                   (getStartTime e)])
  end.

(** network_analyzer.go:750-803 getRecordWithSinglePair *)
Definition getSingleRecord (c : rconf) (g : group) (m : single) (proto : string) (a : attrs) (nt : nat_tuple) : res group :=
  let e := sp_req m in
  bind (fillLabels c g e proto (isSlow c (sDuration m) proto) (Some a) (EventModel.getData e)
          (match sp_resp m with Some r => Some (e_tid r, e_ts r, EventModel.getData r) | None => None end) nt) (fun g1 =>
  Ok (withTs (metAll g1 [(VConnectTime, 0); (VRequestSentTime, sSentTime m); (VWaitingTtfbTime, sWaitingTime m);
                         (VContentDownloadTime, sDownloadTime m); (VRequestTotalTime, s64 (sDuration m));
                         (VRequestIo, s64 (sRequestSize m)); (VResponseIo, s64 (sResponseSize m))])
             (getStartTime e))).

(** network_analyzer.go:652-674 getConnectFailRecords *)
Definition getConnectFail (g : group) (m : pairs) : res (list group) :=
  match p_con m with
  | None => Panic
  | Some v =>
      let e := v_first v in
      let d := s64 (evsDuration v) in
      bind (baseLabels e 0 0 true ConnectFailError false) (fun base =>
      bind (updAll (metAll g [(VConnectTime, d); (VRequestTotalTime, d)]) base) (fun g1 =>
      Ok [withTs g1 (getStartTime e)]))
  end.

(** protocol_parser.go:397-440: what a parser offers *)
Record parser := {
  pr_name : string; pr_multi : bool;
  pr_request : bytes -> res (bool * msg);
  pr_response : bytes -> attrs -> res (bool * msg);
  pr_match : list msg -> msg -> Z }.

(** network_analyzer.go:586-597, the first loop; None: a request was refused *)
Fixpoint parseRequests (p : parser) (l : list event) : res (option (list msg)) :=
  match l with
  | [] => Ok (Some [])
  | e :: l' => bind (pr_request p (EventModel.getData e)) (fun r =>
      if fst r then bind (parseRequests p l') (fun o => Ok (match o with Some ms => Some (snd r :: ms) | None => None end))
      else Ok None)
  end.
(** 613-634, the loop over the responses: the answered requests and the records to make (request, response, attributes) *)
Fixpoint matchResponses (p : parser) (reqs : list event) (ms : list msg) (l : list event) : res (option (list (Z * (single * attrs)))) :=
  match l with
  | [] => Ok (Some [])
  | e :: l' => bind (pr_response p (EventModel.getData e) []) (fun r =>
      if fst r then
        let ix := pr_match p ms (snd r) in
        if ix =? -1 then Ok None
        else match znth reqs ix with
             | None => Panic                     (* getEvent(matchIdx) is nil and is dereferenced *)
             | Some q => bind (matchResponses p reqs ms l') (fun o =>
                 Ok (match o with Some rest => Some ((ix, ({| sp_req := q; sp_resp := Some e |}, m_attrs (snd r))) :: rest) | None => None end))
             end
      else Ok None)
  end.
(** 601-611 and 635-648: the requests that got no response *)
Fixpoint unanswered (i : Z) (answered : list Z) (reqs : list event) (ms : list msg) : list (single * attrs) :=
  match reqs, ms with
  | q :: reqs', m :: ms' =>
      (if existsb (Z.eqb i) answered then [] else [({| sp_req := q; sp_resp := None |}, m_attrs m)]) ++ unanswered (i + 1) answered reqs' ms'
  | _, _ => []
  end.
(** size() and getEvent(i) for i below it: the events kept *)
Definition kept (v : evs) : list event := match v_merg v with None => [v_first v] | Some m => m_events m end.
(** network_analyzer.go:584-650: which pairs get a record *)
Definition multiPairs (p : parser) (m : pairs) : res (option (list (single * attrs))) :=
  match p_req m with
  | None => Panic
  | Some rq =>
      bind (parseRequests p (kept rq)) (fun o =>
      match o with
      | None => Ok None
      | Some ms =>
          match p_resp m with
          | None => Ok (Some (unanswered 0 [] (kept rq) ms))
          | Some rs =>
              bind (matchResponses p (kept rq) ms (kept rs)) (fun o2 =>
              Ok (match o2 with
                  | None => None
                  | Some l => Some (map snd l ++ unanswered 0 (map fst l) (kept rq) ms)
                  end))
          end
      end)
  end.
(** one record for each of them; [pool n] is the n-th group the pool hands out *)
Fixpoint singleRecords (c : rconf) (pool : nat -> group) (proto : string) (nt : nat_tuple) (n : nat) (l : list (single * attrs)) : res (list group) :=
  match l with
  | [] => Ok []
  | (s, a) :: l' => bind (getSingleRecord c (pool n) s proto a nt) (fun r =>
                    bind (singleRecords c pool proto nt (S n) l') (fun rs => Ok (r :: rs)))
  end.

(** network_analyzer.go:554-580 parseProtocol; None for nil: this is not the parser's protocol *)
Definition parseProtocol (c : rconf) (pool : nat -> group) (p : parser) (m : pairs) (nt : nat_tuple) : res (option (list group)) :=
  if pr_multi p
  then bind (multiPairs p m) (fun o =>
       match o with
       | None => Ok None
       | Some l => bind (singleRecords c pool (pr_name p) nt 0 l) (fun rs => Ok (Some rs))
       end)
  else match p_req m with
       | None => Panic
       | Some rq =>
           bind (pr_request p (evsData rq)) (fun r =>
           if negb (fst r) then Ok None
           else match p_resp m with
                | None => if asBool (aget (m_attrs (snd r)) LOneway) then Ok (Some [])
                          else bind (getRecords c (pool 0%nat) m (pr_name p) (Some (m_attrs (snd r))) nt) (fun l => Ok (Some l))
                | Some rs => bind (pr_response p (evsData rs) (m_attrs (snd r))) (fun r2 =>
                    if negb (fst r2) then Ok None
                    else bind (getRecords c (pool 0%nat) m (pr_name p) (Some (m_attrs (snd r2))) nt) (fun l => Ok (Some l)))
                end)
       end.
