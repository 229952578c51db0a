(** The JSON text in which traces and their CPU events are stored: collector/pkg/model/attribute_map.go:20-26, 207-265 and data_group.go:11-16 (the fields and their tags),
    metric.go:11-17, 84-101, cameraexporter/filewriter.go:105-109, 193-199.
    encoding/json of Go 1.20 (docker/Dockerfile) is modelled from its source: encode.go encodeState.string with escapeHTML, mapEncoder, structEncoder, sliceEncoder;
    decode.go for a value whose target is an interface with methods.
    Simplifications: [nilSlices] says whether the slices without elements are nil, all of them or none; a Metric always has its Data. *)
From Verif Require Import Base Decimal AttrModel PoolModel EvtTextModel.
Open Scope string_scope. Open Scope list_scope. Open Scope Z_scope.

(** What json.Marshal meets: the fields of structures and the entries of maps in the order in which they are written *)
Inductive json : Type := JNull | JBool (b : bool) | JInt (n : Z) | JStr (s : bytes) | JArr (l : list json) | JObj (m : list (bytes * json)).

(** encode.go encodeState.string; [hex] is "0123456789abcdef" *)
Definition hexDigit (n : Z) : Z := if n <? 10 then 48 + n else 87 + n.
(** tables.go htmlSafeSet *)
Definition htmlSafe (x : Z) : bool := (32 <=? x) && negb (existsb (Z.eqb x) [34; 38; 60; 62; 92]).
Definition ascii7 (x : Z) : bytes :=
  if htmlSafe x then [x]
  else if (x =? 92) || (x =? 34) then [92; x]
  else if x =? 10 then [92; 110] else if x =? 13 then [92; 114] else if x =? 9 then [92; 116]
  else 92 :: bs "u00" ++ [hexDigit (x / 16); hexDigit (x mod 16)].
(** one character or one byte that is none; [n] is what utf8.DecodeRuneInString says its size is *)
Definition piece (b : bytes) (n : nat) (x : Z) : bytes :=
  if x <? 128 then ascii7 x
  else if (n =? 1)%nat then 92 :: bs "ufffd"
  else if eqb (firstn n b) [226; 128; 168] then 92 :: bs "u2028"
  else if eqb (firstn n b) [226; 128; 169] then 92 :: bs "u2029"
  else firstn n b.
Fixpoint quoteF (fuel : nat) (b : bytes) : bytes :=
  match fuel, b with
  | S f, x :: _ => piece b (runeSize b) x ++ quoteF f (skipn (runeSize b) b)
  | _, _ => []
  end.
Definition quote (s : bytes) : bytes := 34 :: quoteF (List.length s) s ++ [34].

(** commas between the elements (structEncoder, mapEncoder, arrayEncoder) *)
Fixpoint commas (l : list bytes) : bytes := match l with [] => [] | [x] => x | x :: r => x ++ 44 :: commas r end.
(** json.Marshal *)
Fixpoint encode (j : json) : bytes :=
  match j with
  | JNull => bs "null"
  | JBool b => if b then bs "true" else bs "false"
  | JInt n => formatInt n
  | JStr s => quote s
  | JArr l => 91 :: commas (map encode l) ++ [93]
  | JObj m => 123 :: commas (map (fun p => quote (fst p) ++ 58 :: encode (snd p)) m) ++ [125]
  end.

(** The keys of a map in the order of their bytes (mapEncoder) *)
Fixpoint before (a b : bytes) : bool :=
  match a, b with
  | [], _ => true
  | _ :: _, [] => false
  | x :: a', y :: b' => if x <? y then true else if y <? x then false else before a' b'
  end.
Fixpoint insertKey (p : bytes * json) (l : list (bytes * json)) : list (bytes * json) :=
  match l with
  | [] => [p]
  | q :: r => if before (fst p) (fst q) then p :: l else q :: insertKey p r
  end.
Fixpoint sortKeys (l : list (bytes * json)) : list (bytes * json) := match l with [] => [] | p :: r => insertKey p (sortKeys r) end.

(** attribute_map.go:207-209, 235-237, 259-261 *)
Definition jsonValue (v : aval) : json := match v with SV s => JStr s | IV n => JInt n | BV b => JBool b end.
(** attribute_map.go:20-22 *)
Definition jsonLabels (m : list (string * aval)) : json := JObj (sortKeys (map (fun p => (bs (fst p), jsonValue (snd p))) m)).
Section Nil.
Variable nilSlices : bool.
Definition jsonSlice (l : list json) : json := match l with [] => if nilSlices then JNull else JArr [] | _ => JArr l end.
(** metric.go:11-17, 84-86, 96-101: no tags, so the names of the fields *)
Definition jsonData (d : mdata) : json :=
  match d with
  | MInt v => JObj [(bs "Value", JInt v)]
  | MHist sum count bounds buckets =>
      JObj [(bs "Sum", JInt sum); (bs "Count", JInt count); (bs "ExplicitBoundaries", jsonSlice (map JInt bounds)); (bs "BucketCounts", jsonSlice (map JInt buckets))]
  end.
Definition jsonMetric (p : string * mdata) : json := JObj [(bs "Name", JStr (bs (fst p))); (bs "Data", jsonData (snd p))].
(** data_group.go:11-16 *)
Definition jsonGroup (g : group) : json :=
  JObj [(bs "name", JStr (bs (gname g))); (bs "metrics", jsonSlice (map jsonMetric (gmetrics g))); (bs "labels", jsonLabels (glabels g)); (bs "timestamp", JInt (gts g))].
(** filewriter.go:105-110 writeFile, 173, 193-199 writeCpuEvents: the content of a trace file and what is appended to it *)
Definition line : bytes := 10 :: bs "------" ++ [10].
Definition storedTrace (trace : group) (events : list group) : bytes := encode (jsonGroup trace) ++ flat_map (fun e => line ++ encode (jsonGroup e)) events.
End Nil.

(** attribute_map.go:24-26 UnmarshalJSON: the elements of the map are of an interface type with methods: decode.go literalStore reports an
    UnmarshalTypeError for a text, a boolean and a number, array and object for lists and objects; a null is kept as nil; null itself leaves the map as it was *)
Definition unmarshalLabels (j : json) : res unit :=
  match j with
  | JNull => Ok tt
  | JObj m => if forallb (fun p => match snd p with JNull => true | _ => false end) m then Ok tt else Err
  | _ => Err
  end.
