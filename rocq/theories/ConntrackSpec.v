(** Specification of the translation cache in terms of the history of operations (C34). *)
From Verif Require Import Base ConntrackModel.

(** [k] was last registered, with translation [t], at time [t0] (as an orphan when [orph]); [h2] is what happened
    since: neither registered again nor removed on request. *)
Definition registered_since (h : list op) (k : connKey) (t : translation) (orph : bool) (t0 : Z) (h2 : list op) : Prop :=
  exists h1, h = h1 ++ Reg k t orph t0 :: h2 /\
    (forall t' b now, ~ In (Reg k t' b now) h2) /\ ~ In (Rem k) h2.

(** Keys other than [k] that were registered or looked up in [h]. *)
Definition touched (k : connKey) (h : list op) : list connKey :=
  filter (fun k' => negb (eqb k' k))
    (flat_map (fun o => match o with Reg k' _ _ _ => [k'] | Get k' => [k'] | _ => [] end) h).

(** Never looked up, and a compaction ran after its expiry time. *)
Definition expired_unused (timeout : Z) (k : connKey) (t0 : Z) (h2 : list op) : Prop :=
  exists a now b, h2 = a ++ Compact now :: b /\ t0 + timeout < now /\ ~ In (Get k) a.

(** Clock readings never go back. *)
Definition op_time (o : op) : list Z :=
  match o with Reg _ _ _ now => [now] | Compact now => [now] | _ => [] end.
Fixpoint nondecreasing (l : list Z) : Prop :=
  match l with
  | [] => True
  | a :: r => (forall b, In b r -> a <= b) /\ nondecreasing r
  end.
Definition monotone (h : list op) : Prop := nondecreasing (flat_map op_time h).

(** *** Specification for C35 *)

(** A Go [net.IP] value that denotes an address. *)
Definition validIP (ip : bytes) : Prop := List.length ip = 4%nat \/ List.length ip = 16%nat.
(** The sixteen-byte form of an address: an IPv4 address [a.b.c.d] is [::ffff:a.b.c.d]. *)
Definition canonical (ip : bytes) : bytes :=
  if Nat.eqb (List.length ip) 4 then [0;0;0;0;0;0;0;0;0;0;255;255] ++ ip else ip.
Definition sameIP (a b : bytes) : Prop := canonical a = canonical b.

(** A fully decoded tuple. *)
Definition mkTuple (src dst : bytes) (proto sport dport : Z) : ipTuple :=
  {| tsrc := Some src; tdst := Some dst;
     tproto := Some {| pnum := Some proto; psport := Some sport; pdport := Some dport |} |}.
Definition mkCon (o r : ipTuple) : con := {| origin := Some o; reply := Some r |}.
