(** What the readers of the protocol layer should return, independently of how they read.
    The encoders below are the wire formats: big-endian integers, LEB128 (base-128, little end first, continuation
    bit) for unsigned variable-length integers, zig-zag for the signed ones, and length-prefixed strings and arrays. *)
From Verif Require Import Base.

(** big-endian two's complement on 2 and 4 bytes *)
Definition be16 (z : Z) : bytes := [z / 2 ^ 8 mod 2 ^ 8; z mod 2 ^ 8].
Definition be32 (z : Z) : bytes := [z / 2 ^ 24 mod 2 ^ 8; z / 2 ^ 16 mod 2 ^ 8; z / 2 ^ 8 mod 2 ^ 8; z mod 2 ^ 8].

(** LEB128; [fuel] is the number of bytes allowed *)
Fixpoint lebF (fuel : nat) (n : Z) : bytes :=
  match fuel with
  | O => []
  | S f => if n <? 128 then [n] else (128 + n mod 128) :: lebF f (n / 128)
  end.
(** five bytes carry 35 bits *)
Definition leb (n : Z) : bytes := lebF 5 n.
Definition zigzag (z : Z) : Z := if z <? 0 then -2 * z - 1 else 2 * z.

Definition encStr (s : bytes) : bytes := be16 (zlen s) ++ s.
Definition encNullStr (o : option bytes) : bytes := match o with None => be16 (-1) | Some s => be16 (zlen s) ++ s end.
Definition encCompactStr (s : bytes) : bytes := leb (zlen s + 1) ++ s.
Definition encNullCompactStr (o : option bytes) : bytes := match o with None => [0] | Some s => leb (zlen s + 1) ++ s end.

(** [v] is the part of the payload [d] between [a] and [b]. *)
Definition part (d : bytes) (a b : Z) (v : bytes) : Prop := 0 <= a /\ a <= b /\ b <= zlen d /\ v = slice d a b.
(** A value was read at [off] and the reader moved forward to [off'], still inside the payload. *)
Definition advanced (d : bytes) (off off' : Z) : Prop := 0 <= off /\ off < off' /\ off' <= zlen d.

(** The number a group of base-128 digits stands for, least significant first (the top bit of each byte is a flag). *)
Definition digits128 (l : bytes) : Z := fold_right (fun b acc => b mod 128 + 128 * acc) 0 l.
