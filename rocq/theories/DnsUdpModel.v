(** What is reported of DNS queries over UDP: network_analyzer.go:213-260, 292-299 and 321-341 with the parser of
    DnsModel.v in the place of the parameters of UdpModel.v, and the records of RecordModel.v.
    One event or scan at a time (UdpConcModel.v has the interleavings).  A parser that panics has no attributes here;
    C25_request_only and C25_response_total show that it does not panic. *)
From Verif Require Import Base Decimal AttrModel PoolModel EventModel PairModel LabelNames MsgModel DnsModel UdpModel RecordModel.
Open Scope string_scope. Open Scope list_scope. Open Scope Z_scope.

Section Dns.
  (** net.IP.String for answers that are not four bytes long, and the option ignore_dns_rcode3_error *)
  Context (ipOther : bytes -> bytes) (ignore3 : bool).

  (** udp_cache.go:42-53 parseDnsUdpRequest: the attributes, if the parser left an id *)
  Definition requestAttrs (d : bytes) : option attrs :=
    match udpDnsRequest d with
    | Ok (_, m) => if ahas (m_attrs m) LDnsId then Some (m_attrs m) else None
    | _ => None
    end.
  (** udp_cache.go:55-66 parseDnsUdpResponse: the attributes start empty, those of the query are not used *)
  Definition responseAttrs (d : bytes) : option attrs :=
    match udpDnsResponse ipOther ignore3 d [] with
    | Ok (_, m) => if ahas (m_attrs m) LDnsId then Some (m_attrs m) else None
    | _ => None
    end.
  (** udp_cache.go:26, 74-80: the id requests are stored and looked up under *)
  Definition attrId (a : option attrs) : option Z := match a with Some l => Some (asInt (aget l LDnsId)) | None => None end.
  Definition requestId (d : bytes) : option Z := attrId (requestAttrs d).
  Definition responseId (d : bytes) : option Z := attrId (responseAttrs d).

  (** network_analyzer.go:244-251 (the attributes of the response) and 330-335 (those of the request); [g] is the group
      from the pool.  The attributes are those found when the event was parsed: parsing is a function of the payload. *)
  Definition dnsRecord (c : rconf) (g : group) (o : uout) : res group :=
    let a := match o_resp o with Some e => responseAttrs (EventModel.getData e) | None => requestAttrs (EventModel.getData (o_req o)) end in
    match a with
    | Some l => getSingleRecord c g {| sp_req := o_req o; sp_resp := o_resp o |} "dns" l None
    | None => Panic                                   (* never: C80_total *)
    end.
  (** One record per report; the [i]-th one uses the [i]-th group from the pool.  Each record comes with the pair it was made for. *)
  Fixpoint dnsRecords (c : rconf) (pool : nat -> group) (i : nat) (l : list uout) : res (list (uout * group)) :=
    match l with
    | [] => Ok []
    | o :: l' => bind (dnsRecord c (pool i) o) (fun r => bind (dnsRecords c pool (S i) l') (fun rs => Ok ((o, r) :: rs)))
    end.
  (** A history of events and scans, from an empty monitor. *)
  Definition dnsRun (c : config) (rc : rconf) (pool : nat -> group) (ops : list uop) : res (monitor * list (uout * group)) :=
    bind (urun requestId responseId c [] ops) (fun '(m, out) => bind (dnsRecords rc pool 0 out) (fun l => Ok (m, l))).
End Dns.
