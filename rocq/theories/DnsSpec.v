(** Domain names and DNS messages (RFC 1035), apart from the parser. *)
From Verif Require Import Base Decimal ReaderSpec.
Open Scope string_scope. Open Scope list_scope. Open Scope Z_scope.

Definition byteList (d : bytes) : Prop := Forall (fun c => 0 <= c < 256) d.
Definition label (l : bytes) : Prop := 1 <= zlen l <= 63 /\ byteList l.
(** the bytes of a name that uses no compression *)
Definition wire (ls : list bytes) : bytes := List.concat (map (fun l => zlen l :: l) ls) ++ [0].
(** The message [d] holds the name [ls] at [off]; [e] is the offset behind it, [p] the number of pointers followed. *)
Inductive nameAt (d : bytes) : Z -> list bytes -> Z -> nat -> Prop :=
| At_end pre s : d = pre ++ [0] ++ s -> nameAt d (zlen pre) [] (zlen pre + 1) 0
| At_label pre l s ls e p : d = pre ++ [zlen l] ++ l ++ s -> label l -> nameAt d (zlen pre + 1 + zlen l) ls e p -> nameAt d (zlen pre) (l :: ls) e p
| At_pointer pre hi lo s ls e p : d = pre ++ [192 + hi; lo] ++ s -> 0 <= hi < 64 -> 0 <= lo < 256 ->
    nameAt d (hi * 256 + lo) ls e p -> nameAt d (zlen pre) ls (zlen pre + 2) (S p).
(** octets of the labels with their lengths *)
Definition octets (ls : list bytes) : Z := fold_right (fun l n => zlen l + 1 + n) 0 ls.

(** dotted text: labels each closed by a dot, with backslash escapes *)
Definition threeDigits (b : Z) : bytes := [48 + b / 100; 48 + b / 10 mod 10; 48 + b mod 10].
Definition charText (b : Z) : bytes :=
  if existsb (Z.eqb b) (bs ". '@;()\" ++ [34]) then [92; b]
  else if (32 <=? b) && (b <=? 126) then [b] else 92 :: threeDigits b.
Definition dotted (ls : list bytes) : bytes :=
  match ls with [] => bs "." | _ => List.concat (map (fun l => List.concat (map charText l) ++ bs ".") ls) end.

(** questions that follow each other from [off] on: a name, then type and class *)
Inductive questions (d : bytes) : Z -> list (list bytes) -> Z -> Prop :=
| Q_nil off : questions d off [] off
| Q_cons off ls e p qs e' : nameAt d off ls e p -> octets ls < 255 -> (p <= 126)%nat -> e < zlen d ->
    questions d (e + 4) qs e' -> questions d off (ls :: qs) e'.
(** two bytes of the message in network order *)
Definition field (d : bytes) (off v : Z) : Prop := exists pre s, d = pre ++ be16 v ++ s /\ zlen pre = off /\ 0 <= v < 65536.

(** answers whose name is a two byte pointer *)
Record answer := { a_name : bytes; a_type : Z; a_class : bytes; a_ttl : bytes; a_data : bytes }.
Definition wellFormed (a : answer) : Prop :=
  zlen (a_name a) = 2 /\ 0 <= a_type a < 65536 /\ zlen (a_class a) = 2 /\ zlen (a_ttl a) = 4 /\ zlen (a_data a) < 65536.
Definition encodeAnswer (a : answer) : bytes := a_name a ++ be16 (a_type a) ++ a_class a ++ a_ttl a ++ be16 (zlen (a_data a)) ++ a_data a.
Definition dottedQuad (a b c d : Z) : bytes := digits a ++ bs "." ++ digits b ++ bs "." ++ digits c ++ bs "." ++ digits d.
