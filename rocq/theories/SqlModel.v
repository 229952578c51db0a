(** Model of the SQL merger (collector/pkg/component/analyzer/network/protocol/mysql/tools/sql_merger.go).
    The regular expressions are replaced by what they match. Simplification: case folding is ASCII, that is, the two letters
    outside ASCII that fold to 's' and 'k' (U+017F, U+212A) are not taken for them. *)
From Verif Require Import Base AttrModel.
Open Scope string_scope. Open Scope list_scope. Open Scope Z_scope.

(** [\s] of Go's regexp: [\t\n\f\r ] *)
Definition isSpace (c : Z) : bool := (c =? 9) || (c =? 10) || (c =? 12) || (c =? 13) || (c =? 32).
Definition foldByte (c : Z) : Z := if (65 <=? c) && (c <=? 90) then c + 32 else c.
(** the pattern (lower case letters) under [(?i)] at the start of the text; gives the text behind it *)
Fixpoint matchFold (pat s : bytes) : option bytes :=
  match pat, s with
  | [], _ => Some s
  | p :: pat', c :: s' => if foldByte c =? p then matchFold pat' s' else None
  | _ :: _, [] => None
  end.
(** the longest prefix inside / behind a class *)
Fixpoint takeWhile (f : Z -> bool) (s : bytes) : bytes := match s with c :: s' => if f c then c :: takeWhile f s' else [] | [] => [] end.
Fixpoint dropWhile (f : Z -> bool) (s : bytes) : bytes := match s with c :: s' => if f c then dropWhile f s' else s | [] => [] end.

(** sql_merger.go:55-65, 105-112: [(?i)(^\s* )TYPE(.* )] (without the blanks behind the stars) and checkType. The match holds the type, so the test with Contains succeeds. *)
Definition checkType (sqlType : string) (s : bytes) : bool :=
  match matchFold (bs sqlType) (dropWhile isSpace s) with Some _ => true | None => false end.
(** one alternative of the key, followed by at least one white space: the text from the white space on *)
Fixpoint keyHere (ks : list string) (s : bytes) : option bytes :=
  match ks with
  | [] => None
  | k :: ks' => match matchFold (bs k) s with
                | Some (c :: r) => if isSpace c then Some (c :: r) else keyHere ks' s
                | _ => keyHere ks' s
                end
  end.
(** sql_merger.go:57: [(?i)(?m)(KEY)(\s+(\S* )\s* |\n)] (without the blanks behind the stars), leftmost match; '\n' is white space, so the first alternative always applies.
    Gives the text from the white space behind the key on. *)
Fixpoint findKey (ks : list string) (s : bytes) : option bytes :=
  match keyHere ks s with
  | Some r => Some r
  | None => match s with _ :: s' => findKey ks s' | [] => None end
  end.
(** sql_merger.go:67-83 getRegexMatchStr: the third group *)
Definition word (r : bytes) : bytes := takeWhile (fun c => negb (isSpace c)) (dropWhile isSpace r).
Definition getRegexMatchStr (ks : list string) (s : bytes) : bytes :=
  match findKey ks s with
  | None => bs "*"
  | Some r => match word r with [] => bs "*" | t => t end
  end.
(** sql_merger.go:9, 85-87: [^[A-Za-z_-]+$] *)
Definition isSqlAlphabet (t : bytes) : bool :=
  match t with [] => false | _ => forallb (fun c => ((65 <=? c) && (c <=? 90)) || ((97 <=? c) && (c <=? 122)) || (c =? 95) || (c =? 45)) t end.
(** sql_merger.go:89-103 parseStatement *)
Definition parseStatement (sqlType : string) (ks : list string) (s : bytes) : bytes :=
  if negb (checkType sqlType s) then []
  else let value := getRegexMatchStr ks s in
       bs sqlType ++ bs " " ++ (if isSqlAlphabet value then value ++ bs " *" else bs "*").
(** sql_merger.go:24-39 NewSqlMerger *)
Definition factory : list (string * list string) :=
  [("select", ["from"]); ("insert", ["into"]); ("update", ["update"]); ("delete", ["from"]); ("drop", ["index"; "table"; "database"]);
   ("create", ["index"; "table"; "database"]); ("alter", ["table"]); ("set", ["set"]); ("commit", ["commit"])].
(** sql_merger.go:41-53 ParseStatement *)
Fixpoint mergeWith (fs : list (string * list string)) (s : bytes) : bytes :=
  match fs with
  | [] => []
  | (ty, ks) :: fs' => if checkType ty s then match parseStatement ty ks s with [] => mergeWith fs' s | r => r end else mergeWith fs' s
  end.
Definition mergeSql (s : bytes) : bytes := mergeWith factory s.
