(** collector/pkg/urlclustering: the three URL clustering methods. *)
From Verif Require Import Base.

Definition SLASH : Z := 47.
Definition QMARK : Z := 63.
Definition SPACE : Z := 32.
Definition STAR : Z := 42.

(** alphabet.go:116-118 isAlphabetical *)
Definition isAlphabetical (b : Z) : bool :=
  (b =? 45) || (b =? 95) || ((65 <=? b) && (b <=? 90)) || ((97 <=? b) && (b <=? 122)).

(** alphabet.go:68-71 local variables of Clustering: the result so far, whether the current
    segment is already a star, and the current segment. *)
Record scan := { sres : bytes; sstar : bool; sseg : bytes }.

(** alphabet.go:79-84 (the same choice is made at 108-112): what the current segment contributes *)
Definition flush (s : scan) : bytes :=
  if sstar s then sres s ++ [STAR] else sres s ++ sseg s.

(** alphabet.go:73-106 the loop over the bytes; [break] at 91 ends the recursion *)
Fixpoint clusterLoop (l : bytes) (s : scan) : scan :=
  match l with
  | [] => s
  | b :: l' =>
      if b =? SPACE then clusterLoop l' s
      else if (b =? SLASH) || (b =? QMARK) then
        let r := flush s in
        if b =? SLASH then
          clusterLoop l' {| sres := r ++ [SLASH]; sstar := false; sseg := [] |}
        else {| sres := r; sstar := false; sseg := [] |}
      else if sstar s then clusterLoop l' s
      else if isAlphabetical b then
        let seg := sseg s ++ [b] in
        clusterLoop l' {| sres := sres s; sstar := 25 <? zlen seg; sseg := seg |}
      else clusterLoop l' {| sres := sres s; sstar := true; sseg := sseg s |}
  end.

(** alphabet.go:62-114 Clustering *)
Definition Clustering (endpoint : bytes) : bytes :=
  match endpoint with
  | [] => []
  | _ => flush (clusterLoop endpoint {| sres := []; sstar := false; sseg := [] |})
  end.

(** Go strings.Index(s, "?") followed by s[:index] (alphabet.go:27-30, noparam.go:21-24) *)
Fixpoint beforeQ (l : bytes) : bytes :=
  match l with
  | [] => []
  | b :: l' => if b =? QMARK then [] else b :: beforeQ l'
  end.

(** Go strings.TrimSpace (alphabet.go:33, noparam.go:19).
    Simplified: only the ASCII white space is recognised; Go also trims the non-ASCII
    Unicode spaces.  Theorems about callers that depend on it ask for ASCII input. *)
Definition isSpace (b : Z) : bool := ((9 <=? b) && (b <=? 13)) || (b =? 32).
Fixpoint trimLeft (l : bytes) : bytes :=
  match l with
  | [] => []
  | b :: l' => if isSpace b then trimLeft l' else l
  end.
Definition trimSpace (l : bytes) : bytes := rev (trimLeft (rev (trimLeft l))).

(** Go strings.Split(s, "/") (alphabet.go:34) *)
Fixpoint splitSlash (l : bytes) (cur : bytes) : list bytes :=
  match l with
  | [] => [cur]
  | b :: l' => if b =? SLASH then cur :: splitSlash l' [] else splitSlash l' (cur ++ [b])
  end.

(** alphabet.go:37-49 one segment; the regular expression ^[A-Za-z_-]+$ (line 15) matches exactly the
    non-empty strings all of whose bytes are alphabetical *)
Definition matchAlphabet (seg : bytes) : bool :=
  match seg with [] => false | _ => forallb isAlphabetical seg end.
Definition baseSegment (seg : bytes) : bytes :=
  if 25 <? zlen seg then [STAR]
  else if (match seg with [] => true | _ => false end) || matchAlphabet seg then seg
  else [STAR].

(** alphabet.go:51-57 joining with slashes *)
Fixpoint joinSlash (l : list bytes) : bytes :=
  match l with
  | [] => []
  | [s] => s
  | s :: l' => s ++ SLASH :: joinSlash l'
  end.

(** alphabet.go:23-60 ClusteringBaseline *)
Definition ClusteringBaseline (endpoint : bytes) : bytes :=
  match endpoint with
  | [] => []
  | _ => joinSlash (map baseSegment (splitSlash (trimSpace (beforeQ endpoint)) []))
  end.

(** noparam.go:15-27 *)
Definition NoParamClustering (endpoint : bytes) : bytes :=
  match endpoint with
  | [] => []
  | _ => beforeQ (trimSpace endpoint)
  end.

(** blank.go:12-14 *)
Definition BlankClustering (_ : bytes) : bytes := [].

(** factory.go:3-14 NewMethod: the method by its configured name *)
Definition NewMethod (name : string) : bytes -> bytes :=
  if String.eqb name "alphabet" then Clustering
  else if String.eqb name "noparam" then NoParamClustering
  else if String.eqb name "blank" then BlankClustering
  else Clustering.
