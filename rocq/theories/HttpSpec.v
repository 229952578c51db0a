(** What an HTTP message looks like, and which APM header names its trace. *)
From Verif Require Import Base AttrModel.
Open Scope string_scope. Open Scope list_scope. Open Scope Z_scope.

Definition CRLF : bytes := [13; 10].
Definition methods : list string := ["GET"; "POST"; "PUT"; "DELETE"; "HEAD"; "TRACE"; "OPTIONS"; "CONNECT"].

(** A header line "Name: value". *)
Definition header := (bytes * bytes)%type.
Definition headerLine (h : header) : bytes := fst h ++ bs ": " ++ snd h ++ CRLF.
Definition headerBlock (hs : list header) : bytes := List.concat (map headerLine hs).
(** A name without colon or carriage return; a value that is not empty and has no carriage return. *)
Definition goodHeader (h : header) : Prop :=
  fst h <> [] /\ ~ In 58 (fst h) /\ ~ In 13 (fst h) /\ snd h <> [] /\ ~ In 13 (snd h).
(** A message: a first line, headers, an empty line and a body; or the payload may have been cut behind a header. *)
Definition message (first : bytes) (hs : list header) (rest : bytes) : bytes := first ++ CRLF ++ headerBlock hs ++ rest.
Definition endOfHeaders (rest : bytes) : Prop := rest = [] \/ exists body, rest = CRLF ++ body.

(** Header names are compared without regard to (ASCII) case; of equal names the last counts. *)
Definition lower (s : bytes) : bytes := map (fun c => if (65 <=? c) && (c <=? 90) then c + 32 else c) s.
Definition headerValue (hs : list header) (name : bytes) : option bytes :=
  match find (fun h => eqb (lower (fst h)) name) (rev hs) with Some h => Some (snd h) | None => None end.

(** The recognised headers in order of priority: header name, trace type, and the identifier held by the value
    ([None]: the value is not in the scheme's format and the next scheme is tried). *)
Section Trace.
  Context (b64 : bytes -> option bytes).
  (** the text before the first [c], or everything *)
  Fixpoint upTo (c : Z) (l : bytes) : bytes := match l with [] => [] | x :: l' => if x =? c then [] else x :: upTo c l' end.
  Definition skywalkingId (v : bytes) : bytes :=
    if zlen v <? 3 then [] else match b64 (upTo 45 (skipn 2 v)) with Some id => id | None => [] end.
  Definition jaegerId (v : bytes) : bytes := if starts_with [58] v then v else upTo 58 v.
  Definition w3cId (v : bytes) : option bytes := if zlen v <? 35 then None else Some (firstn 32 (skipn 3 v)).
  Definition schemes : list (string * string * (bytes -> option bytes)) :=
    [("sw8", "skywalking", fun v => Some (skywalkingId v));
     ("apm-transactionid", "harmonycloud", Some);
     ("x-b3-traceid", "zipkin", Some);
     ("uber-trace-id", "jaeger", fun v => Some (jaegerId v));
     ("traceparent", "w3c", w3cId);
     ("traceresponse", "w3c", w3cId)].
  (** the trace named by the headers: the first scheme that has its header; no trace when the identifier is empty *)
  Fixpoint firstScheme (ss : list (string * string * (bytes -> option bytes))) (value : bytes -> option bytes) : option (bytes * bytes) :=
    match ss with
    | [] => None
    | (name, ty, ex) :: ss' =>
        match value (bs name) with
        | Some v => match ex v with Some id => Some (bs ty, id) | None => firstScheme ss' value end
        | None => firstScheme ss' value
        end
    end.
  Definition traceOf (hs : list header) : option (bytes * bytes) :=
    match firstScheme schemes (headerValue hs) with
    | Some (ty, id) => match id with [] => None | _ => Some (ty, id) end
    | None => None
    end.
End Trace.

(** What a label map says. *)
Definition label (attrs : list (string * aval)) (k : string) : option aval := aget attrs k.

(** The first line of a request: METHOD SP URL, followed by a blank (and anything) or by the end of the payload. *)
Definition requestLine (d : bytes) (method : string) (url : bytes) : Prop :=
  ~ In 32 url /\ exists rest, d = bs method ++ 32 :: url ++ rest /\ (rest = [] \/ exists more, rest = 32 :: more).
(** The first line of a response: VERSION SP CODE SP. *)
Definition versions : list string := ["HTTP/1.0"; "HTTP/1.1"].
Definition statusLine (d : bytes) (version : string) (code : bytes) : Prop :=
  In version versions /\ ~ In 32 code /\ exists rest, d = bs version ++ 32 :: code ++ 32 :: rest.
(** Codes outside 99..999 are recorded as 0. *)
Definition recordedStatus (n : Z) : Z := if (99 <=? n) && (n <=? 999) then n else 0.
