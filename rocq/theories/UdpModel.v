(** collector/pkg/component/analyzer/network: the UDP DNS half of processEvent, udp_cache.go and the DNS part of the
    timeout scan.  What the DNS parser finds is a parameter: [parseReq] and [parseResp] give the DNS id of a payload, or
    None when the parser leaves no id attribute (udp_cache.go:42-66).  DnsModel.v has the parser.
    One event or scan at a time here; UdpConcModel.v has the interleavings. *)
From Verif Require Import Base EventModel PairModel.
Open Scope string_scope. Open Scope list_scope. Open Scope Z_scope.

(** udp_cache.go:81-99 udpKey, getUdpKey *)
Definition ukey : Type := (Z * Z * (bytes * bytes) * (Z * Z))%type.
Definition getUdpKey (e : event) : res ukey :=
  bind (getSip e) (fun s => bind (getDip e) (fun d => Ok (e_pid e, e_fd e, (s, d), (e_sport e, e_dport e)))).

(** udp_cache.go:11-18 DnsUdpCache; requestCache maps DNS ids to requests *)
Record cache := { u_count : Z; u_reqs : list (Z * event) }.
Definition newCache : cache := {| u_count := 0; u_reqs := [] |}.
(** udp_cache.go:20-23 addRequest: the count goes up even when the id was there already *)
Definition addRequest (ch : cache) (id : Z) (e : event) : cache :=
  {| u_count := u_count ch + 1; u_reqs := aset (u_reqs ch) id e |}.
(** udp_cache.go:25-31 getMatchRequest *)
Definition getMatchRequest (ch : cache) (id : Z) : option event * cache :=
  match aget (u_reqs ch) id with
  | Some e => (Some e, {| u_count := u_count ch - 1; u_reqs := adel (u_reqs ch) id |})
  | None => (None, ch)
  end.
(** udp_cache.go:33-36 deleteRequest, 38-40 isEmpty *)
Definition deleteRequest (ch : cache) (id : Z) : cache :=
  {| u_count := u_count ch - 1; u_reqs := adel (u_reqs ch) id |}.
Definition isEmpty (ch : cache) : bool := u_count ch =? 0.

(** dnsRequestMonitor *)
Definition monitor : Type := list (ukey * cache).
(** What is reported: the request and its response, if any (getRecordWithSinglePair). *)
Record uout := { o_req : event; o_resp : option event }.

(** network_analyzer.go:213-233, 257: what the UDP branch takes an event for.  [Err] results are logged. *)
Inductive uact : Type := UNothing | URequests (k : ukey) (l : list event) | UResponse (k : ukey) (e : event).
Definition classifyUdp (c : config) (e : event) : res uact :=
  if negb (e_net e) then Ok UNothing
  else match e_sip e with
       | [] => Ok UNothing
       | _ =>
           match e_proto e with
           | L4Udp =>
               if negb (existsb (Z.eqb (e_dport e)) (c_dnsPorts c)) then Ok UNothing
               else bind (isRequest e) (fun r =>
                    bind (getUdpKey e) (fun k =>
                    if r
                    then if eqb (e_name e) "sendmmsg"
                         then match convertSendmmsg e with
                              | Some (Ok l) => Ok (URequests k l)
                              | Some Err => Err
                              | Some Panic => Panic
                              | None => Ok UNothing      (* never: C11_split_total *)
                              end
                         else Ok (URequests k [e])
                    else Ok (UResponse k e)))
           | _ => Ok UNothing                            (* PairModel.classify *)
           end
       end.

Section Parser.
  Context (parseReq parseResp : bytes -> option Z).

  (** network_analyzer.go:292-299 consumeUdpDnsRequest *)
  Definition consumeUdpDnsRequest (k : ukey) (m : monitor) (e : event) : monitor :=
    match parseReq (getData e) with
    | Some id => aset m k (addRequest (match aget m k with Some ch => ch | None => newCache end) id e)
    | None => m
    end.

  (** network_analyzer.go:235-253 *)
  Definition consumeUdpDnsResponse (k : ukey) (m : monitor) (e : event) : monitor * list uout :=
    match parseResp (getData e) with
    | None => (m, [])
    | Some id =>
        match aget m k with
        | None => (m, [])
        | Some ch =>
            let '(found, ch') := getMatchRequest ch id in
            let m' := if u_count ch' <=? 0 then adel m k else aset m k ch' in
            (m', match found with Some r => [{| o_req := r; o_resp := Some e |}] | None => [] end)
        end
    end.

  Definition deliverUdp (c : config) (m : monitor) (e : event) : res (monitor * list uout) :=
    match classifyUdp c e with
    | Ok UNothing | Err => Ok (m, [])
    | Ok (URequests k l) => Ok (fold_left (consumeUdpDnsRequest k) l m, [])
    | Ok (UResponse k e) => Ok (consumeUdpDnsResponse k m e)
    | Panic => Panic
    end.

  (** network_analyzer.go:324-336: the inner Range.  sync.Map.Range visits every entry once; deleting the visited one is allowed. *)
  Definition lateUdp (c : config) (now : Z) (e : event) : bool :=
    getNoResponseThreshold c <=? s64 (Z.quot now 1000000000 - Z.quot (s64 (e_ts e)) 1000000000).
  Fixpoint scanRequests (c : config) (now : Z) (l : list (Z * event)) (ch : cache) : cache * list uout :=
    match l with
    | [] => (ch, [])
    | (id, e) :: l' =>
        if lateUdp c now e
        then let '(ch', o) := scanRequests c now l' (deleteRequest ch id) in (ch', {| o_req := e; o_resp := None |} :: o)
        else scanRequests c now l' ch
    end.
  (** network_analyzer.go:321-341: the outer Range *)
  Fixpoint scanMonitor (c : config) (now : Z) (m : monitor) : monitor * list uout :=
    match m with
    | [] => ([], [])
    | (k, ch) :: m' =>
        let '(ch', o) := scanRequests c now (u_reqs ch) ch in
        let '(m'', o') := scanMonitor c now m' in
        ((if isEmpty ch' then m'' else (k, ch') :: m''), o ++ o')
    end.

  Inductive uop : Type := UDeliver (e : event) | UTick (now : Z).
  Definition ustep (c : config) (m : monitor) (o : uop) : res (monitor * list uout) :=
    match o with UDeliver e => deliverUdp c m e | UTick now => Ok (scanMonitor c now m) end.
  Fixpoint urun (c : config) (m : monitor) (l : list uop) : res (monitor * list uout) :=
    match l with
    | [] => Ok (m, [])
    | o :: l' => bind (ustep c m o) (fun r => bind (urun c (fst r) l') (fun r' => Ok (fst r', snd r ++ snd r')))
    end.
End Parser.
