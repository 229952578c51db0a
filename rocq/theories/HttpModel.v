(** Model of the HTTP parser (collector/pkg/component/analyzer/network/protocol/http) and of the APM trace header parser
    (collector/pkg/component/analyzer/tools/traceid_parser.go).
    The base64 decoder of the standard library and the url clustering method are parameters. *)
From Verif Require Import Base Decimal AttrModel LabelNames MsgModel TextModel.
Open Scope string_scope. Open Scope list_scope. Open Scope Z_scope.

(** strings.Index(s, c) for a one-byte c *)
Fixpoint indexByte (c : Z) (l : bytes) : Z :=
  match l with
  | [] => -1
  | x :: l' => if x =? c then 0 else (let r := indexByte c l' in if r <? 0 then -1 else r + 1)
  end.
(** strings.ToLower, for ASCII letters. Simplification: letters outside ASCII are left alone (header names are ASCII). *)
Definition lowerByte (c : Z) : Z := if (65 <=? c) && (c <=? 90) then c + 32 else c.
Definition toLower (s : bytes) : bytes := map lowerByte s.

(** http_parser.go:33-43: the loop of parseHeaders. Each line consumes a byte, so the payload length bounds the iterations. *)
Fixpoint headersLoop (fuel : nat) (d : bytes) (from : Z) (acc : list (bytes * bytes)) : res (list (bytes * bytes)) :=
  match fuel with
  | O => Ok acc
  | S f =>
      bind (readUntilCRLF d from) (fun r =>
        match r with
        | None => Ok acc
        | Some (line, from') =>
            let pos := indexByte 58 line in
            if (0 <? pos) && (pos <? zlen line - 2) then
              bind (gslice line 0 pos) (fun k => bind (gslice line (pos + 2) (zlen line)) (fun v =>
                headersLoop f d from' (aset acc (toLower k) v)))
            else Ok acc
        end)
  end.
(** http_parser.go:26-44 parseHeaders: the first line is skipped *)
Definition parseHeaders (d : bytes) : res (list (bytes * bytes)) :=
  bind (readUntilCRLF d 0) (fun r =>
    match r with
    | None => Ok []
    | Some (_, from) => headersLoop (S (List.length d)) d from []
    end).

Section Http.
  (** encoding/base64 StdEncoding.DecodeString; [None] is an error *)
  Context (b64 : bytes -> option bytes).
  (** urlclustering.ClusteringMethod.Clustering *)
  Context (clustering : bytes -> bytes).

  (** traceid_parser.go:48-53: up to the next '-' *)
  Fixpoint beforeDash (l : bytes) : bytes :=
    match l with [] => [] | c :: l' => if c =? 45 then [] else c :: beforeDash l' end.
  (** traceid_parser.go:41-59 parseSkyWalkingTraceId *)
  Definition parseSkyWalkingTraceId (v : bytes) : bytes :=
    if zlen v <? 3 then [] else match b64 (beforeDash (skipn 2 v)) with Some id => id | None => [] end.
  (** traceid_parser.go:8-37 ParseTraceHeader *)
  Definition parseTraceHeader (hs : list (bytes * bytes)) : res (bytes * bytes) :=
    match aget hs (bs "sw8") with
    | Some v => Ok (bs "skywalking", parseSkyWalkingTraceId v)
    | None =>
    match aget hs (bs "apm-transactionid") with
    | Some v => Ok (bs "harmonycloud", v)
    | None =>
    match aget hs (bs "x-b3-traceid") with
    | Some v => Ok (bs "zipkin", v)
    | None =>
    match aget hs (bs "uber-trace-id") with
    | Some v =>
        let pos := indexByte 58 v in
        if 0 <? pos then bind (gslice v 0 pos) (fun id => Ok (bs "jaeger", id)) else Ok (bs "jaeger", v)
    | None =>
        let w3c := fun k (next : res (bytes * bytes)) =>
          match aget hs (bs k) with
          | Some v => if 35 <=? zlen v then bind (gslice v 3 35) (fun id => Ok (bs "w3c", id)) else next
          | None => next
          end in
        w3c "traceparent" (w3c "traceresponse" (Ok ([], [])))
    end end end end.

  (** http_request.go:50-55 and http_response.go:60-65 *)
  Definition addTrace (m : msg) : res msg :=
    bind (parseHeaders (m_data m)) (fun hs =>
      bind (parseTraceHeader hs) (fun '(ty, id) =>
        if (0 <? zlen ty) && (0 <? zlen id)
        then Ok (addAttr (addAttr m LHttpApmTraceType (SV ty)) LHttpApmTraceId (SV id))
        else Ok m)).

  (** http_request.go:80-93 *)
  Definition httpMethods : list bytes := map bs ["GET"; "POST"; "PUT"; "DELETE"; "HEAD"; "TRACE"; "OPTIONS"; "CONNECT"].
  Definition isMethod (s : bytes) : bool := existsb (eqb s) httpMethods.

  (** http_request.go:13-17 fastfailHttpRequest *)
  Definition fastfailHttpRequest (m : msg) : res (bool * msg) :=
    bind (gslice (m_data m) (m_off m) (zlen (m_data m))) (fun s => Ok (zlen s <? 14, m)).
  (** http_request.go:32-67 parseHttpRequest *)
  Definition parseHttpRequest (m : msg) : res ((bool * bool) * msg) :=
    bind (readUntilBlankWithLength (m_data m) (m_off m) 8) (fun '(method, offset) =>
      bind (if isMethod method then Ok (Some method)
            else bind (gindex (m_data m) (offset - 1)) (fun a =>
                   if negb (a =? 32) then Ok None
                   else bind (gindex (m_data m) offset) (fun b =>
                          if negb (b =? 47) then Ok None
                          else if eqb method (bs "ET") then Ok (Some (bs "GET")) else Ok None)))
        (fun om =>
          match om with
          | None => Ok ((false, true), m)
          | Some meth =>
              bind (readUntilBlank (m_data m) offset) (fun '(url, _) =>
                bind (addTrace m) (fun m1 =>
                  bind (formatUtf8 url) (fun u =>
                    let key0 := clustering url in
                    bind (formatUtf8 (if zlen key0 =? 0 then bs "*" else key0)) (fun key =>
                      Ok ((true, true),
                          addAttr (addAttr (addAttr m1 LHttpMethod (SV meth)) LHttpUrl (SV u)) LContentKey (SV key))))))
          end)).

  (** http_response.go:77-80 *)
  Definition isVersion (s : bytes) : bool := eqb s (bs "HTTP/1.0") || eqb s (bs "HTTP/1.1").
  (** http_response.go:26-39 fastfailHttpResponse *)
  Definition fastfailHttpResponse (m : msg) : res (bool * msg) :=
    bind (gslice (m_data m) (m_off m) (zlen (m_data m))) (fun s =>
      if zlen s <? 14 then Ok (true, m)
      else bind (readUntilBlankWithLength (m_data m) (m_off m) 9) (fun '(version, offset) =>
             if negb (isVersion version) then Ok (true, m)
             else bind (gindex (m_data m) (offset - 1)) (fun a =>
                    if negb (a =? 32) then Ok (true, m) else Ok (false, setOff m offset)))).
  (** http_response.go:41-75 parseHttpResponse *)
  Definition parseHttpResponse (m : msg) : res ((bool * bool) * msg) :=
    bind (readUntilBlankWithLength (m_data m) (m_off m) 6) (fun '(code, _) =>
      let '(n, ok) := parseInt 64 code in
      if negb ok then Ok ((false, true), m)
      else
        let n := if (999 <? n) || (n <? 99) then 0 else n in
        let m1 := if n =? 100 then addAttr m LHttpContinue (BV true) else m in
        bind (if hasAttr m1 LHttpApmTraceType then Ok m1 else addTrace m1) (fun m2 =>
          let m3 := addAttr m2 LHttpStatusCode (IV n) in
          Ok ((true, true), if 400 <=? n then addAttr (addAttr m3 LIsError (BV true)) LErrorType (IV ProtocolError) else m3))).

  (** http_parser.go:10-16 NewHttpParser (single frame) *)
  Definition httpRequestParser : pkg := Pkg fastfailHttpRequest parseHttpRequest [].
  Definition httpResponseParser : pkg := Pkg fastfailHttpResponse parseHttpResponse [].
  (** protocol_parser.go:415-421 ParseRequest and ParseResponse for HTTP *)
  Definition httpRequest (d : bytes) : res (bool * msg) := parsePayload false httpRequestParser (newRequest d).
  Definition httpResponse (d : bytes) (attrs : list (string * aval)) : res (bool * msg) :=
    parsePayload false httpResponseParser (newResponse d attrs).
End Http.
