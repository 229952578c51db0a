(** Specification for the TCP metrics (C62, C63): what an event says, and what must be reported for it. *)
From Verif Require Import Base Decimal AttrModel PoolModel EventModel.
Open Scope string_scope. Open Scope list_scope. Open Scope Z_scope.

(** The event carries attribute [k] of type [ty] with bytes [v]: the first of its used slots with that key. *)
Definition carries (e : event) (k : string) (ty : vtype) (v : bytes) : Prop :=
  exists pre post, firstn (Z.to_nat (e_params e)) (e_attrs e) = pre ++ {| kv_key := k; kv_type := ty; kv_val := v |} :: post /\
    forall x, In x pre -> kv_key x <> k.
Definition lacks (e : event) (k : string) : Prop := forall x, In x (firstn (Z.to_nat (e_params e)) (e_attrs e)) -> kv_key x <> k.
Definition uwidth (ty : vtype) : option nat :=
  match ty with TUint8 => Some 1%nat | TUint16 => Some 2%nat | TUint32 => Some 4%nat | TUint64 => Some 8%nat | _ => None end.
(** [k] is an unsigned number [v], in little-endian order. *)
Definition unsignedAttr (e : event) (k : string) (v : Z) : Prop :=
  exists ty n rest, carries e k ty (leBytes n v ++ rest) /\ uwidth ty = Some n /\ 0 <= v < 256 ^ Z.of_nat n.
(** [k] is a 32-bit signed number. *)
Definition int32Attr (e : event) (k : string) (v : Z) : Prop :=
  exists rest, carries e k TInt32 (leBytes 4 (v mod 2 ^ 32) ++ rest) /\ - 2 ^ 31 <= v < 2 ^ 31.

(** The two ends of the connection: addresses are 32-bit numbers whose first byte in memory is the lowest. *)
Record tuple := { t_sip : Z; t_sport : Z; t_dip : Z; t_dport : Z }.
Definition ofTuple (e : event) (t : tuple) : Prop :=
  unsignedAttr e "sip" (t_sip t) /\ unsignedAttr e "sport" (t_sport t) /\ unsignedAttr e "dip" (t_dip t) /\ unsignedAttr e "dport" (t_dport t) /\
  t_sip t < 2 ^ 32 /\ t_dip t < 2 ^ 32 /\ t_sport t < 2 ^ 16 /\ t_dport t < 2 ^ 16.

Definition quad (a b c d : Z) : bytes := formatInt a ++ bs "." ++ formatInt b ++ bs "." ++ formatInt c ++ bs "." ++ formatInt d.
Definition addressText (i : Z) : bytes := quad (i mod 256) (i / 2 ^ 8 mod 256) (i / 2 ^ 16 mod 256) (i / 2 ^ 24 mod 256).
(** The labels of a TCP metric; [nat] is the translated destination, if any. *)
Definition tupleLabels (t : tuple) (nat : option (bytes * Z)) : list (string * aval) :=
  [("src_ip", SV (addressText (t_sip t))); ("src_port", IV (t_sport t)); ("dst_ip", SV (addressText (t_dip t))); ("dst_port", IV (t_dport t));
   ("dnat_ip", SV (match nat with Some (ip, _) => ip | None => [] end)); ("dnat_port", IV (match nat with Some (_, p) => p | None => -1 end))].
Definition oneMetric (name metric : string) (v : Z) (l : list (string * aval)) (ts : Z) : group :=
  {| gname := name; gmetrics := [(metric, MInt v)]; glabels := l; gts := ts |}.

(** What an event says: nothing, or a value of one metric of one group for one connection. *)
Record saying := { s_group : string; s_metric : string; s_value : Z; s_tuple : tuple }.
Inductive tcpSays (e : event) : option saying -> Prop :=
| Says_drop t : e_name e = "tcp_drop" -> ofTuple e t ->
    tcpSays e (Some {| s_group := "tcp_drop_metric_group"; s_metric := "kindling_tcp_packet_loss_total"; s_value := 1; s_tuple := t |})
| Says_retransmit t n : e_name e = "tcp_retransmit_skb" -> ofTuple e t ->
    int32Attr e "segs" n \/ ((lacks e "segs" \/ exists ty v, carries e "segs" ty v /\ ty <> TInt32) /\ n = 1) ->
    tcpSays e (Some {| s_group := "tcp_retransmit_metric_group"; s_metric := "kindling_tcp_retransmit_total"; s_value := n; s_tuple := t |})
| Says_rtt t v : e_name e = "tcp_close" \/ e_name e = "tcp_rcv_established" -> ofTuple e t -> unsignedAttr e "rtt" v -> 0 < v < 2 ^ 63 ->
    tcpSays e (Some {| s_group := "tcp_rtt_metric_group"; s_metric := "kindling_tcp_srtt_microseconds"; s_value := v; s_tuple := t |})
| Says_no_rtt t : e_name e = "tcp_close" \/ e_name e = "tcp_rcv_established" -> ofTuple e t -> unsignedAttr e "rtt" 0 \/ lacks e "rtt" -> tcpSays e None
| Says_incomplete k : In k ["sip"; "sport"; "dip"; "dport"] -> lacks e k -> tcpSays e None
| Says_other : ~ In (e_name e) ["tcp_close"; "tcp_rcv_established"; "tcp_drop"; "tcp_retransmit_skb"] -> tcpSays e None.
