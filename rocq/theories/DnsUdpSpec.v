(** What a record of a DNS query over UDP should say. *)
From Verif Require Import Base AttrModel PoolModel EventModel PairModel UdpModel UdpSpec DnsSpec RecordSpec.
Open Scope string_scope. Open Scope list_scope. Open Scope Z_scope.

(** The payload is a DNS message with this id, these flags and this name in its first question. *)
Definition dnsMessage (d : bytes) (id flags : Z) (name : list bytes) : Prop :=
  12 < zlen d /\ field d 0 id /\ field d 2 flags /\
  exists more e, field d 4 (zlen (name :: more)) /\ questions d 12 (name :: more) e.
(** The response code is the low four bits of the flags; name errors may be configured not to count. *)
Definition rcode (flags : Z) : Z := flags mod 16.
Definition failure (ignore3 : bool) (flags : Z) : Prop := rcode flags <> 0 /\ ~ (rcode flags = 3 /\ ignore3 = true).

(** Time from the start of sending the query to the arrival of the answer. *)
Definition elapsed (q e : event) : Z := e_ts e - (e_ts q - e_lat q).
Definition clocks (o : uout) : Prop := match o_resp o with Some e => 0 <= elapsed (o_req o) e < 2 ^ 63 | None => True end.

(** The record [r] for a query and its answer, or for a query without one, with the slow threshold [t] (ms). *)
Definition reports (ignore3 : bool) (t : Z) (o : uout) (r : group) : Prop :=
  exists id flags name, dnsMessage (EventModel.getData (o_req o)) id flags name /\
  parties (o_req o) r /\ says r "protocol" (SV (bs "dns")) /\ says r "dns_id" (IV id) /\ says r "request_tid" (IV (e_tid (o_req o))) /\
  match o_resp o with
  | Some e => exists flags' name', dnsMessage (EventModel.getData e) id flags' name' /\ getUdpKey e = getUdpKey (o_req o) /\
      says r "dns_domain" (SV (dotted name')) /\ says r "dns_rcode" (IV (rcode flags')) /\ says r "response_tid" (IV (e_tid e)) /\
      (failure ignore3 flags' -> says r "is_error" (BV true) /\ says r "error_type" (IV 3)) /\
      (~ failure ignore3 flags' -> says r "is_error" (BV false) /\ says r "error_type" (IV 0)) /\
      measures r "request_total_time" (elapsed (o_req o) e) /\ says r "is_slow" (BV (t * 1000000 <=? elapsed (o_req o) e))
  | None => says r "dns_domain" (SV (dotted name)) /\ says r "response_tid" (IV 0) /\
      says r "is_error" (BV true) /\ says r "error_type" (IV 2) /\
      measures r "request_total_time" 0 /\ says r "is_slow" (BV false)
  end.

(** An event of a DNS socket: a query in one message, or an answer. *)
Definition dnsSocket (c : config) (e : event) : Prop :=
  e_net e = true /\ e_proto e = L4Udp /\ In (e_dport e) (c_dnsPorts c) /\ e_sip e <> [] /\ e_dip e <> [].
Definition sentQuery (c : config) (e : event) : Prop := dnsSocket c e /\ isRequest e = Ok true /\ e_name e <> "sendmmsg".
Definition receivedAnswer (c : config) (e : event) : Prop := dnsSocket c e /\ isRequest e = Ok false.
(** The event carries a message with the DNS id [id], alone or in a batch. *)
Definition carriesId (id : Z) (e : event) : Prop :=
  (exists f n, dnsMessage (EventModel.getData e) id f n) \/
  (exists l x f n, convertSendmmsg e = Some (Ok l) /\ In x l /\ dnsMessage (EventModel.getData x) id f n).
(** No event of the same process, descriptor, addresses and ports carries that id. *)
Definition apart (q : event) (id : Z) (ops : list uop) : Prop :=
  forall e, In (UDeliver e) ops -> getUdpKey e = getUdpKey q -> ~ carriesId id e.
(** The query is not older than the threshold at any scan. *)
Definition inTime (c : config) (q : event) (ops : list uop) : Prop :=
  forall now, In (UTick now) ops -> ageSeconds now q < getNoResponseThreshold c.
(** Payloads are bytes; an event with a source address has a destination address. *)
Definition sound (ops : list uop) : Prop :=
  forall e, In (UDeliver e) ops -> Forall is_byte (EventModel.getData e) /\ (e_sip e <> [] -> e_dip e <> []).
(** Among the records of [l], exactly one is about a query of the socket of [q] with the id [id]: the one made for [o]. *)
Definition onlyRecord (q : event) (id : Z) (o : uout) (l : list (uout * group)) (r : group) : Prop :=
  exists l1 l2, l = l1 ++ (o, r) :: l2 /\
  forall p, In p (l1 ++ l2) -> getUdpKey (o_req (fst p)) = getUdpKey q -> forall f n, ~ dnsMessage (EventModel.getData (o_req (fst p))) id f n.
