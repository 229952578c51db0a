(** How a program that is not Go reads JSON (RFC 8259), without white space between the tokens and with whole numbers only; and UTF-8 with what is not UTF-8 replaced. *)
From Verif Require Import Base Decimal JsonModel EvtTextModel EvtTextProps.
Open Scope string_scope. Open Scope list_scope. Open Scope Z_scope.

Definition hexValue (c : Z) : option Z :=
  if (48 <=? c) && (c <=? 57) then Some (c - 48) else if (97 <=? c) && (c <=? 102) then Some (c - 87) else if (65 <=? c) && (c <=? 70) then Some (c - 55) else None.
Definition hex4 (a b c d : Z) : option Z :=
  match hexValue a, hexValue b, hexValue c, hexValue d with Some a, Some b, Some c, Some d => Some (a * 4096 + b * 256 + c * 16 + d) | _, _, _, _ => None end.
(** The escapes of one letter: quotation mark, backslash, slash, b, f, n, r, t *)
Definition escape (c : Z) : option Z :=
  aget [(34, 34); (92, 92); (47, 47); (98, 8); (102, 12); (110, 10); (114, 13); (116, 9)] c.
(** What [s] becomes with more in front of it *)
Definition prepend (a : bytes) (r : option (bytes * bytes)) : option (bytes * bytes) := match r with Some (s, rest) => Some (a ++ s, rest) | None => None end.
(** A text, after its opening quotation mark: its bytes, and what follows.  (Pairs of surrogates are not read.) *)
Fixpoint readString (b : bytes) : option (bytes * bytes) :=
  match b with
  | [] => None
  | x :: r =>
      if x =? 34 then Some ([], r)
      else if x =? 92 then
        match r with
        | c :: r' =>
            match escape c with
            | Some e => prepend [e] (readString r')
            | None =>
                if c =? 117 then
                  match r' with
                  | h1 :: h2 :: h3 :: h4 :: r'' =>
                      match hex4 h1 h2 h3 h4 with
                      | Some u => if (55296 <=? u) && (u <? 57344) then None else prepend (utf8 u) (readString r'')
                      | None => None
                      end
                  | _ => None
                  end
                else None
            end
        | [] => None
        end
      else if x <? 32 then None
      else prepend [x] (readString r)
  end.
(** A whole number *)
Fixpoint spanDigits (b : bytes) : bytes * bytes :=
  match b with x :: r => if isDigit x then (x :: fst (spanDigits r), snd (spanDigits r)) else ([], b) | [] => ([], []) end.
Definition readNumber (b : bytes) : option (json * bytes) :=
  let '(neg, d) := match b with x :: r => if x =? 45 then (true, r) else (false, b) | [] => (false, b) end in
  match spanDigits d with
  | ([], _) => None
  | (ds, rest) => Some (JInt (if neg then - digitsValue ds else digitsValue ds), rest)
  end.
Fixpoint strip (p b : bytes) : option bytes :=
  match p, b with [], _ => Some b | x :: p', y :: b' => if x =? y then strip p' b' else None | _, [] => None end.
Fixpoint readValue (f : nat) (b : bytes) : option (json * bytes) :=
  match f with
  | O => None
  | S f' =>
      match strip (bs "null") b, strip (bs "true") b, strip (bs "false") b with
      | Some r, _, _ => Some (JNull, r)
      | _, Some r, _ => Some (JBool true, r)
      | _, _, Some r => Some (JBool false, r)
      | None, None, None =>
          match b with
          | [] => None
          | x :: r =>
              if x =? 34 then match readString r with Some (s, r') => Some (JStr s, r') | None => None end
              else if x =? 91 then
                match r with
                | y :: r' => if y =? 93 then Some (JArr [], r') else match readItems f' r with Some (l, r'') => Some (JArr l, r'') | None => None end
                | [] => None
                end
              else if x =? 123 then
                match r with
                | y :: r' => if y =? 125 then Some (JObj [], r') else match readMembers f' r with Some (m, r'') => Some (JObj m, r'') | None => None end
                | [] => None
                end
              else readNumber b
          end
      end
  end
with readItems (f : nat) (b : bytes) : option (list json * bytes) :=
  match f with
  | O => None
  | S f' =>
      match readValue f' b with
      | Some (v, x :: r) =>
          if x =? 44 then match readItems f' r with Some (l, r') => Some (v :: l, r') | None => None end
          else if x =? 93 then Some ([v], r) else None
      | _ => None
      end
  end
with readMembers (f : nat) (b : bytes) : option (list (bytes * json) * bytes) :=
  match f with
  | O => None
  | S f' =>
      match b with
      | q :: b' =>
          if q =? 34 then
            match readString b' with
            | Some (k, c :: b'') =>
                if c =? 58 then
                  match readValue f' b'' with
                  | Some (v, x :: r) =>
                      if x =? 44 then match readMembers f' r with Some (m, r') => Some ((k, v) :: m, r') | None => None end
                      else if x =? 125 then Some ([(k, v)], r) else None
                  | _ => None
                  end
                else None
            | _ => None
            end
          else None
      | [] => None
      end
  end.
(** A whole text *)
Definition read (b : bytes) : option json := match readValue (List.length b) b with Some (v, []) => Some v | _ => None end.

(** The member of an object *)
Definition member (k : string) (j : json) : option json := match j with JObj m => aget m (bs k) | _ => None end.

(** A text with the bytes that are not UTF-8 replaced by U+FFFD, each of them *)
Fixpoint repairF (fuel : nat) (b : bytes) : bytes :=
  match fuel, b with
  | S f, x :: _ =>
      (if (128 <=? x) && (runeSize b =? 1)%nat then utf8 65533 else firstn (runeSize b) b) ++ repairF f (skipn (runeSize b) b)
  | _, _ => []
  end.
Definition repair (b : bytes) : bytes := repairF (List.length b) b.
Definition isText (b : bytes) : Prop := exists cs, Forall scalar cs /\ b = flat_map utf8 cs.
Fixpoint repaired (j : json) : json :=
  match j with
  | JStr s => JStr (repair s)
  | JArr l => JArr (map repaired l)
  | JObj m => JObj (map (fun p => (repair (fst p), repaired (snd p))) m)
  | _ => j
  end.
(** The texts that a value is made of *)
Fixpoint textsOf (j : json) : list bytes :=
  match j with
  | JStr s => [s]
  | JArr l => flat_map textsOf l
  | JObj m => flat_map (fun p => fst p :: textsOf (snd p)) m
  | _ => []
  end.
(** A file cut at every line of dashes *)
Fixpoint cut (d : bytes) (fuel : nat) (b : bytes) : list bytes :=
  match fuel with
  | O => [b]
  | S f =>
      match strip d b with
      | Some r => [] :: cut d f r
      | None => match b with [] => [[]] | x :: b' => match cut d f b' with p :: ps => (x :: p) :: ps | [] => [[x]] end end
      end
  end.
Definition parts (b : bytes) : list bytes := cut (10 :: bs "------" ++ [10]) (S (List.length b)) b.

(** The texts of a data group, and what its JSON must show: its labels with their types, its metrics in order, with their numbers. *)
From Verif Require Import AttrModel PoolModel.
Definition groupTexts (g : group) : list bytes :=
  bs (gname g) :: map (fun p => bs (fst p)) (gmetrics g) ++ flat_map (fun p => bs (fst p) :: match snd p with SV s => [s] | _ => [] end) (glabels g).
Definition tells (v : aval) (j : json) : Prop := match v with SV s => j = JStr s | IV n => j = JInt n | BV b => j = JBool b end.
Definition items (j : option json) : option (list json) := match j with Some JNull => Some [] | Some (JArr l) => Some l | _ => None end.
Definition showsMetric (p : string * mdata) (j : json) : Prop :=
  member "Name" j = Some (JStr (bs (fst p))) /\
  exists d, member "Data" j = Some d /\
  match snd p with
  | MInt v => member "Value" d = Some (JInt v)
  | MHist sum count bounds buckets =>
      member "Sum" d = Some (JInt sum) /\ member "Count" d = Some (JInt count) /\
      items (member "ExplicitBoundaries" d) = Some (map JInt bounds) /\ items (member "BucketCounts" d) = Some (map JInt buckets)
  end.
Definition shows (g : group) (j : json) : Prop :=
  member "name" j = Some (JStr (bs (gname g))) /\ member "timestamp" j = Some (JInt (gts g)) /\
  (exists ms, items (member "metrics" j) = Some ms /\ Forall2 showsMetric (gmetrics g) ms) /\
  (exists ls, member "labels" j = Some ls /\
     (forall k v, aget (glabels g) k = Some v -> exists x, member k ls = Some x /\ tells v x) /\ (forall k, aget (glabels g) k = None -> member k ls = None)).
