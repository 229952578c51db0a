(** Specification vocabulary for C36. *)
From Verif Require Import Base ConntrackModel ConntrackSpec.

(** Somewhere in [b] four bytes look like the header of a protocol-number attribute (type 1) without data, or of a port
    attribute (type 2 or 3) with fewer than two bytes of data. *)
Definition short_proto_attr (b : bytes) : Prop :=
  exists p l0 l1 t0 t1 q, b = p ++ l0 :: l1 :: t0 :: t1 :: q /\
    let len := l0 + 256 * l1 in let typ := (t0 + 256 * t1) mod 16384 in
    (typ = 1 /\ (len = 0 \/ len = 4)) \/ ((typ = 2 \/ typ = 3) /\ (len = 0 \/ 4 <= len < 6)).


(** A decoded tuple denotes the tuple (src, dst, protocol number, ports). *)
Definition denotes (t : ipTuple) (src dst : bytes) (n sp dp : Z) : Prop :=
  exists s d, t = mkTuple s d n sp dp /\ validIP s /\ validIP d /\ sameIP s src /\ sameIP d dst.
