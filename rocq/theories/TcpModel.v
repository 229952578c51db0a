(** Model of collector/pkg/component/analyzer/tcpmetricanalyzer/tcp_analyzer.go: round trip times, retransmissions and drops. *)
From Verif Require Import Base Decimal AttrModel PoolModel EventModel ConntrackModel.
Open Scope string_scope. Open Scope list_scope. Open Scope Z_scope.

Notation tcpLabels := (list (string * aval)) (only parsing).

(** tcp_analyzer.go:135-150: the four attributes; [None] when one of them is missing *)
Definition tuple4 (e : event) : res (option (Z * Z * Z * Z)) :=
  match getUserAttribute e "sip", getUserAttribute e "sport", getUserAttribute e "dip", getUserAttribute e "dport" with
  | Some sip, Some sport, Some dip, Some dport =>
      bind (getUintValue sip) (fun si => bind (getUintValue sport) (fun sp => bind (getUintValue dip) (fun di => bind (getUintValue dport) (fun dp =>
      Ok (Some (w32 si, sp, w32 di, dp))))))
  | _, _, _, _ => Ok None
  end.

Section Tcp.
  (** tcp_analyzer.go:164-172 findDNatTuple asks the connection tracker for source and destination addresses, the low 16 bits of the
      ports, and TCP; here [dnat si sp di dp] is its answer: the address as text and the port. *)
  Context (dnat : Z -> Z -> Z -> Z -> option (bytes * Z)).
  Definition findDNatTuple (si sp di dp : Z) : bytes * Z :=
    match dnat si (sp mod 2 ^ 16) di (dp mod 2 ^ 16) with None => ([], -1) | Some r => r end.
  (** tcp_analyzer.go:135-162 getTupleLabels *)
  Definition getTupleLabels (e : event) : res (option tcpLabels) :=
    bind (tuple4 e) (fun t =>
    match t with
    | None => Ok None
    | Some (si, sp, di, dp) =>
        let '(nip, nport) := findDNatTuple si sp di dp in
        Ok (Some (aset (aset (aset (aset (aset (aset [] "src_ip" (SV (ipLong2String si))) "src_port" (IV (s64 sp))) "dst_ip" (SV (ipLong2String di))) "dst_port" (IV (s64 dp)))
                       "dnat_ip" (SV nip)) "dnat_port" (IV nport)))
    end).
  Definition tcpGroup (name metric : string) (v : Z) (l : tcpLabels) (ts : Z) : group := {| gname := name; gmetrics := [(metric, MInt v)]; glabels := l; gts := ts |}.
  (** tcp_analyzer.go:94-108 *)
  Definition generateRtt (e : event) : res (option group) :=
    bind (getTupleLabels e) (fun o =>
    match o with
    | None => Ok None
    | Some l => bind (getUintUserAttribute e "rtt") (fun rtt =>
        if rtt =? 0 then Ok None else Ok (Some (tcpGroup "tcp_rtt_metric_group" "kindling_tcp_srtt_microseconds" (s64 rtt) l (e_ts e))))
    end).
  (** tcp_analyzer.go:110-124 *)
  Definition segs (e : event) : res Z :=
    match getUserAttribute e "segs" with
    | Some kv => match kv_type kv with TInt32 => getIntValue kv | _ => Ok 1 end
    | None => Ok 1
    end.
  Definition generateRetransmit (e : event) : res (option group) :=
    bind (getTupleLabels e) (fun o =>
    match o with
    | None => Ok None
    | Some l => bind (segs e) (fun n => Ok (Some (tcpGroup "tcp_retransmit_metric_group" "kindling_tcp_retransmit_total" n l (e_ts e))))
    end).
  (** tcp_analyzer.go:126-133 *)
  Definition generateDrop (e : event) : res (option group) :=
    bind (getTupleLabels e) (fun o =>
    match o with
    | None => Ok None
    | Some l => Ok (Some (tcpGroup "tcp_drop_metric_group" "kindling_tcp_packet_loss_total" 1 l (e_ts e)))
    end).
  (** tcp_analyzer.go:57-92 ConsumeEvent: the group passed on, if any (errors are logged only) *)
  Definition consumeTcp (e : event) : res (option group) :=
    if eqb (e_name e) "tcp_close" || eqb (e_name e) "tcp_rcv_established" then generateRtt e
    else if eqb (e_name e) "tcp_drop" then generateDrop e
    else if eqb (e_name e) "tcp_retransmit_skb" then generateRetransmit e
    else Ok None.
End Tcp.

(** The connection tracker's answer (conntracker_linux.go:56-95).  net.ParseIP of the text of an IPv4 address is its 16-byte form;
    net.IP.String of an IPv4 address is dotted; the text of other addresses is [v6text]. *)
Definition parseDotted (i : Z) : bytes := v4InV6Prefix ++ int32ToIp i.
Definition ipText (v6text : bytes -> bytes) (ip : bytes) : bytes :=
  match to4 ip with
  | Some [a; b; c; d] => digits a ++ [46] ++ digits b ++ [46] ++ digits c ++ [46] ++ digits d
  | _ => v6text ip
  end.
Definition trackerDnat (v6text : bytes -> bytes) (c : cache) (si sp di dp : Z) : option (bytes * Z) :=
  option_map (fun t => (ipText v6text (replSrcIP t), replSrcPort t))
    (snd (getDNATTuple c {| csource := parseDotted si; cdest := parseDotted di; csport := sp; cdport := dp; ctype := TCP |})).
