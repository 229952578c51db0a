(** What payload text should look like. *)
From Verif Require Import Base.
Open Scope string_scope. Open Scope list_scope. Open Scope Z_scope.

Definition printable (c : Z) : Prop := 32 <= c <= 126.
Definition asciiText (t : bytes) : Prop := Forall (fun c => 0 <= c < 128) t.
Definition cont (c : Z) : Prop := 128 <= c <= 191.

(** One well-formed UTF-8 character (RFC 3629: no overlong forms, no surrogates, at most U+10FFFF). *)
Inductive utf8Char : bytes -> Prop :=
| U1 a : 0 <= a < 128 -> utf8Char [a]
| U2 a b : 194 <= a <= 223 -> cont b -> utf8Char [a; b]
| U3 a b c : 224 <= a <= 239 -> cont b -> cont c -> (a = 224 -> 160 <= b) -> (a = 237 -> b <= 159) -> utf8Char [a; b; c]
| U4 a b c d : 240 <= a <= 244 -> cont b -> cont c -> cont d -> (a = 240 -> 144 <= b) -> (a = 244 -> b <= 143) -> utf8Char [a; b; c; d].
(** Well-formed text: a sequence of such characters. *)
Definition utf8Text (t : bytes) : Prop := exists cs, Forall utf8Char cs /\ t = List.concat cs.
(** Text of ASCII and three-byte characters only (which is where Chinese lives). *)
Definition asciiOrThree (cs : list bytes) : Prop := Forall (fun c => utf8Char c /\ (List.length c = 1 \/ List.length c = 3)%nat) cs.
