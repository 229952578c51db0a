(** Protocol detection: the per-port parser cache (protocol/factory/factory.go:53-110), the per-port counters
    (protocol/protocol_parser.go:484-498) and the search of network_analyzer.go:494-552 parseProtocols.
    Parsers are compared by pointer in Go; the factory makes one parser per protocol name (factory.go:36-43), so a parser
    is its name here. *)
From Verif Require Import Base.
Open Scope string_scope. Open Scope list_scope. Open Scope Z_scope.

Definition pname : Type := string.
(** protocol.go:11; factory.go:57-59 GetGenericParser *)
Definition NOSUPPORT : pname := "NOSUPPORT".
(** network_analyzer.go:32-33 *)
Definition CACHE_ADD_THRESHOLD : Z := 50.
Definition CACHE_RESET_THRESHOLD : Z := 5000.

(** cachePortParsersMap *)
Definition pcache : Type := list (Z * list pname).
(** factory.go:61-67 GetCachedParsersByPort; a missing port and an empty list are tried alike *)
Definition cachedParsers (c : pcache) (port : Z) : list pname :=
  match aget c port with Some l => l | None => [] end.
(** factory.go:77-82 *)
Definition member (p : pname) (l : list pname) : bool := existsb (eqb p) l.
(** factory.go:86 *)
Definition lastIs (l : list pname) (p : pname) : bool :=
  match rev l with x :: _ => eqb x p | [] => false end.
(** factory.go:69-97 AddCachedParser *)
Definition addCached (c : pcache) (port : Z) (p : pname) : pcache :=
  match aget c port with
  | None => aset c port [p]
  | Some val =>
      if member p val then c
      else if lastIs val NOSUPPORT then aset c port (removelast val ++ [p] ++ [NOSUPPORT])
      else aset c port (val ++ [p])
  end.
(** factory.go:99-110 RemoveCachedParser.  The range keeps the slice header of its start while append moves the tail of
    the same array down: [arr] is that array, [len] the length of val, [i] the index of the range. *)
Fixpoint removeLoop (n : nat) (i : Z) (arr : list pname) (len : Z) (p : pname) : res (list pname * Z) :=
  match n with
  | O => Ok (arr, len)
  | S n' =>
      match znth arr i with
      | None => Panic
      | Some value =>
          if eqb value p
          then if len <? i + 1 then Panic                                     (* val[i+1:] *)
               else removeLoop n' (i + 1) (slice arr 0 i ++ slice arr (i + 1) len ++ slice arr (len - 1) (zlen arr)) (len - 1) p
          else removeLoop n' (i + 1) arr len p
      end
  end.
Definition removeCached (c : pcache) (port : Z) (p : pname) : res pcache :=
  match aget c port with
  | None => Ok c
  | Some val => bind (removeLoop (List.length val) 0 val (zlen val) p) (fun r => Ok (aset c port (slice (fst r) 0 (snd r))))
  end.

(** protocol_parser.go:484-498: counts by parser and port; uint32 *)
Definition counters : Type := list ((pname * Z) * Z).
Definition addPortCount (n : counters) (p : pname) (port : Z) : counters * Z :=
  match aget n (p, port) with
  | Some v => (aset n (p, port) (w32 (v + 1)), w32 (v + 1))
  | None => (aset n (p, port) 1, 1)
  end.
Definition resetPort (n : counters) (p : pname) (port : Z) : counters := adel n (p, port).

Record dstate := { d_cache : pcache; d_count : counters }.
(** config and what Start derives from it: staticPortMap, protocolMap's keys, parsers (network_analyzer.go:126-155) *)
Record dconf := { static : list (Z * pname); known : list pname; tried : list pname }.
(** network_analyzer.go:141-155.  [configured]: cfg.ProtocolParser; [have]: the factory's names; [hidden]: DisableDiscern *)
Definition startConf (ports : list (Z * pname)) (configured have hidden : list pname) : dconf :=
  let usable := filter (fun p => member p have) configured in
  {| static := ports; known := usable; tried := filter (fun p => negb (member p hidden)) usable ++ [NOSUPPORT] |}.

Section Detect.
  (** A message pair; its port (getPort); whether it has a request; and parseProtocol, None for Go's nil. *)
  Context {X R : Type} (port : X -> Z) (hasRequest : X -> bool) (parse : pname -> X -> option R).

  Inductive verdict : Type :=
  | ConnectFail                                    (* getConnectFailRecords *)
  | Parsed (p : pname) (r : R)                     (* the records of that parser *)
  | Unparsed (p : pname).                          (* getRecords(mps, p, nil) *)

  (** the two range loops: the first parser with records *)
  Fixpoint firstAccepting (l : list pname) (x : X) : option (pname * R) :=
    match l with
    | [] => None
    | p :: l' => match parse p x with Some r => Some (p, r) | None => firstAccepting l' x end
    end.

  (** network_analyzer.go:494-552 parseProtocols *)
  Definition parseProtocols (k : dconf) (s : dstate) (x : X) : res (verdict * dstate) :=
    match aget (static k) (port x) with
    | Some sp =>
        if negb (hasRequest x) then Ok (ConnectFail, s)
        else match (if member sp (known k) then parse sp x else None) with
             | Some r => Ok (Parsed sp r, s)
             | None => Ok (Unparsed sp, s)
             end
    | None =>
        if negb (hasRequest x) then Ok (ConnectFail, s)
        else
          match firstAccepting (cachedParsers (d_cache s) (port x)) x with
          | Some (p, r) =>
              if eqb NOSUPPORT p
              then let '(n, v) := addPortCount (d_count s) p (port x) in
                   if v =? CACHE_RESET_THRESHOLD
                   then bind (removeCached (d_cache s) (port x) p) (fun c =>
                        Ok (Parsed p r, {| d_cache := c; d_count := resetPort n p (port x) |}))
                   else Ok (Parsed p r, {| d_cache := d_cache s; d_count := n |})
              else Ok (Parsed p r, s)
          | None =>
              match firstAccepting (tried k) x with
              | Some (p, r) =>
                  let '(n, v) := addPortCount (d_count s) p (port x) in
                  Ok (Parsed p r, {| d_cache := if v =? CACHE_ADD_THRESHOLD then addCached (d_cache s) (port x) p else d_cache s;
                                     d_count := n |})
              | None => Ok (Unparsed NOSUPPORT, s)
              end
          end
    end.

  Fixpoint runDetect (k : dconf) (s : dstate) (l : list X) : res (list verdict * dstate) :=
    match l with
    | [] => Ok ([], s)
    | x :: l' => bind (parseProtocols k s x) (fun a => bind (runDetect k (snd a) l') (fun b => Ok (fst a :: fst b, snd b)))
    end.
End Detect.
Arguments ConnectFail {R}. Arguments Parsed {R} _ _. Arguments Unparsed {R} _.
Definition initDetect : dstate := {| d_cache := []; d_count := [] |}.
