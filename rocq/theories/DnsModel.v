(** Model of the DNS parsers (collector/pkg/component/analyzer/network/protocol/dns). *)
From Verif Require Import Base Decimal AttrModel LabelNames MsgModel EventModel.
Open Scope string_scope. Open Scope list_scope. Open Scope Z_scope.

(** dns_helper.go:15-35 *)
Definition escapedByteSmall : bytes := bs
  ("\000\001\002\003\004\005\006\007\008\009" ++
   "\010\011\012\013\014\015\016\017\018\019" ++
   "\020\021\022\023\024\025\026\027\028\029" ++
   "\030\031")%string.
Definition escapedByteLarge : bytes := bs
  ("\127\128\129" ++
   "\130\131\132\133\134\135\136\137\138\139" ++
   "\140\141\142\143\144\145\146\147\148\149" ++
   "\150\151\152\153\154\155\156\157\158\159" ++
   "\160\161\162\163\164\165\166\167\168\169" ++
   "\170\171\172\173\174\175\176\177\178\179" ++
   "\180\181\182\183\184\185\186\187\188\189" ++
   "\190\191\192\193\194\195\196\197\198\199" ++
   "\200\201\202\203\204\205\206\207\208\209" ++
   "\210\211\212\213\214\215\216\217\218\219" ++
   "\220\221\222\223\224\225\226\227\228\229" ++
   "\230\231\232\233\234\235\236\237\238\239" ++
   "\240\241\242\243\244\245\246\247\248\249" ++
   "\250\251\252\253\254\255")%string.
(** dns_helper.go:39-47 escapeByte *)
Definition escapeByte (b : Z) : res bytes :=
  if b <? 32 then gslice escapedByteSmall (b * 4) (b * 4 + 4)
  else let b := b - 127 in gslice escapedByteLarge (b * 4) (b * 4 + 4).
(** dns_helper.go:52-58 isDomainNameLabelSpecial: . blank ' @ ; ( ) and the double quote and backslash *)
Definition isDomainNameLabelSpecial (b : Z) : bool := existsb (Z.eqb b) [46; 32; 39; 64; 59; 40; 41; 34; 92].
(** dns_helper.go:87-95: the text of a label *)
Fixpoint labelText (l : bytes) : res bytes :=
  match l with
  | [] => Ok []
  | b :: l' =>
      bind (if isDomainNameLabelSpecial b then Ok [92; b]
            else if (b <? 32) || (126 <? b) then escapeByte b else Ok [b]) (fun t =>
        bind (labelText l') (fun r => Ok (t ++ r)))
  end.

(** dns_parser.go:8-14 *)
Definition DNSHeaderSize := 12.
Definition maxDomainNameWireOctets := 255.
Definition maxCompressionPointers := (maxDomainNameWireOctets + 1) / 2 - 2.

(** dns_helper.go:66-123: the loop. [off1] is meaningful once a pointer was followed. Running out of [fuel] would be a loop that
    does not end; it is given as [Panic] and excluded by the proofs. *)
Fixpoint unpackLoop (fuel : nat) (d : bytes) (off budget ptr off1 : Z) (s : bytes) : res (bytes * Z) :=
  match fuel with
  | O => Panic
  | S f =>
      if zlen d <=? off then Err
      else bind (gindex d off) (fun c =>
        let off := off + 1 in
        if Z.land c 192 =? 0 then
          if c =? 0 then
            Ok (if zlen s =? 0 then bs "." else s, if ptr =? 0 then off else off1)
          else if zlen d <? off + c then Err
          else
            let budget := budget - (c + 1) in
            if budget <=? 0 then Err
            else bind (gslice d off (off + c)) (fun l => bind (labelText l) (fun t =>
                   unpackLoop f d (off + c) budget ptr off1 (s ++ t ++ bs ".")))
        else if Z.land c 192 =? 192 then
          if zlen d <=? off then Err
          else bind (gindex d off) (fun c1 =>
            let off := off + 1 in
            let off1 := if ptr =? 0 then off else off1 in
            let ptr := ptr + 1 in
            if maxCompressionPointers <? ptr then Err
            else unpackLoop f d (Z.lor (Z.shiftl (Z.lxor c 192) 8) c1) budget ptr off1 s)
        else Err)
  end.
(** dns_helper.go:60-131 unpackDomainName: name and offset behind it *)
Definition unpackDomainName (d : bytes) (off : Z) : res (bytes * Z) := unpackLoop 400 d off maxDomainNameWireOctets 0 0 [].

(** dns_parser.go:58-83: the loop of readQuery; [None] is an error *)
Fixpoint readQueryLoop (n : nat) (m : msg) (offset : Z) (domain : bytes) : res (option (bytes * Z)) :=
  match n with
  | O => Ok (Some (domain, offset))
  | S n' =>
      if isComplete m then Ok None
      else match unpackDomainName (m_data m) offset with
           | Ok (name, offset) =>
               if zlen (m_data m) <=? offset then Ok None
               else readQueryLoop n' m (offset + 4) (if zlen domain =? 0 then name else domain)
           | Err => Ok None
           | Panic => Panic
           end
  end.
(** dns_parser.go:58-83 readQuery *)
Definition readQuery (m : msg) (queryCount : Z) : res (option (bytes * msg)) :=
  bind (readQueryLoop (Z.to_nat queryCount) m (m_off m + 12) []) (fun r =>
    Ok (match r with Some (domain, offset) => Some (domain, setOff m offset) | None => None end)).

(** "v, _ := message.ReadUInt16(offset)": zero when the read fails *)
Definition u16or0 (m : msg) (off : Z) : res Z :=
  match readUInt16 (m_data m) off with Ok v => Ok v | Err => Ok 0 | Panic => Panic end.
(** dns_request.go:8-12 and dns_response.go:16-20 *)
Definition fastfailDns (m : msg) : res (bool * msg) := Ok (zlen (m_data m) <=? DNSHeaderSize, m).
(** dns_request.go:46-61 parseDnsRequest *)
Definition parseDnsRequest (m : msg) : res ((bool * bool) * msg) :=
  bind (u16or0 m (m_off m)) (fun id =>
  bind (u16or0 m (m_off m + 4)) (fun n =>
    if n =? 0 then Ok ((false, true), m)
    else bind (readQuery m n) (fun r =>
      match r with
      | None => Ok ((false, true), m)
      | Some (domain, m1) => Ok ((true, true), addAttr (addAttr m1 LDnsId (IV id)) LDnsDomain (SV domain))
      end))).

Section Dns.
  (** net.IP.String of other than four bytes (an A record that is not one) *)
  Context (ipOther : bytes -> bytes).
  (** net.IP.String; four bytes are dotted decimals *)
  Definition ipString (ip : bytes) : bytes :=
    match ip with
    | [a; b; c; d] => digits a ++ bs "." ++ digits b ++ bs "." ++ digits c ++ bs "." ++ digits d
    | _ => ipOther ip
    end.
  (** dns_response.go:97-127: the loop of readIpV4Answer; gives the addresses and the offset *)
  Fixpoint answerLoop (n : nat) (d : bytes) (offset : Z) (ips : list bytes) : res (list bytes * Z) :=
    match n with
    | O => Ok (ips, offset)
    | S n' =>
        let offset := offset + 2 in
        match readUInt16 d offset with
        | Panic => Panic
        | Err => Ok (ips, offset)
        | Ok aType =>
            let offset := offset + 8 in
            match readUInt16 d offset with
            | Panic => Panic
            | Err => Ok (ips, offset)
            | Ok length =>
                let offset := offset + 2 in
                if aType =? 1 then
                  match readBytes d offset length with
                  | Panic => Panic
                  | Err => Ok (ips, -1)
                  | Ok (ip, offset) => answerLoop n' d (offset + length) (ips ++ [ipString ip])
                  end
                else answerLoop n' d (offset + length) ips
            end
        end
    end.
  (** strings.Join *)
  Definition joinComma (l : list bytes) : bytes :=
    match l with [] => [] | x :: l' => x ++ List.concat (map (fun y => bs "," ++ y) l') end.
  (** dns_response.go:86-134 readIpV4Answer *)
  Definition readIpV4Answer (m : msg) (answerCount : Z) : res (bytes * msg) :=
    bind (answerLoop (Z.to_nat answerCount) (m_data m) (m_off m) []) (fun '(ips, offset) => Ok (joinComma ips, setOff m offset)).
  (** dns_response.go:53-84 parseDnsResponse *)
  Definition parseDnsResponse (ignoreDnsRcode3Error : bool) (m : msg) : res ((bool * bool) * msg) :=
    bind (u16or0 m (m_off m)) (fun id =>
    bind (u16or0 m (m_off m + 2)) (fun flags =>
    let rcode := Z.land flags 15 in
    bind (u16or0 m (m_off m + 4)) (fun n =>
    bind (u16or0 m (m_off m + 6)) (fun na =>
      if n =? 0 then Ok ((false, true), m)
      else bind (readQuery m n) (fun r =>
        match r with
        | None => Ok ((false, true), m)
        | Some (domain, m1) =>
            bind (readIpV4Answer m1 na) (fun '(ip, m2) =>
              let m3 := addAttr m2 LDnsDomain (SV domain) in
              let m4 := if 0 <? zlen ip then addAttr m3 LDnsIp (SV ip) else m3 in
              let m5 := addAttr (addAttr m4 LDnsId (IV id)) LDnsRcode (IV rcode) in
              Ok ((true, true),
                  if ((0 <? rcode) && negb (rcode =? 3)) || ((rcode =? 3) && negb ignoreDnsRcode3Error)
                  then addAttr (addAttr m5 LIsError (BV true)) LErrorType (IV ProtocolError) else m5))
        end))))).
  (** dns_request.go:14-20, dns_response.go:22-27: DNS over TCP has a length in front *)
  Definition parseTcp (f : msg -> res ((bool * bool) * msg)) (m : msg) : res ((bool * bool) * msg) := f (setOff m (m_off m + 2)).

  (** dns_parser.go:32-44 NewTcpDnsParser, NewUdpDnsParser (single frame) and protocol_parser.go:415-421 *)
  Definition udpDnsRequest (d : bytes) : res (bool * msg) := parsePayload false (Pkg fastfailDns parseDnsRequest []) (newRequest d).
  Definition tcpDnsRequest (d : bytes) : res (bool * msg) := parsePayload false (Pkg fastfailDns (parseTcp parseDnsRequest) []) (newRequest d).
  Definition udpDnsResponse (ignore3 : bool) (d : bytes) (attrs : list (string * aval)) : res (bool * msg) :=
    parsePayload false (Pkg fastfailDns (parseDnsResponse ignore3) []) (newResponse d attrs).
  Definition tcpDnsResponse (ignore3 : bool) (d : bytes) (attrs : list (string * aval)) : res (bool * msg) :=
    parsePayload false (Pkg fastfailDns (parseTcp (parseDnsResponse ignore3)) []) (newResponse d attrs).
End Dns.
(** dns_parser.go:46-56 dnsPair *)
Fixpoint dnsPairFrom (i : Z) (requests : list msg) (response : msg) : Z :=
  match requests with
  | [] => -1
  | r :: rs => if (attrInt r LDnsId =? attrInt response LDnsId) && eqb (attrStr r LDnsDomain) (attrStr response LDnsDomain) then i
               else dnsPairFrom (i + 1) rs response
  end.
Definition dnsPair (requests : list msg) (response : msg) : Z := dnsPairFrom 0 requests response.
