(** What should happen to the DNS queries of one process, descriptor, address pair and DNS id. *)
From Verif Require Import Base EventModel PairModel UdpModel.
Open Scope list_scope. Open Scope Z_scope.

Inductive uitem : Type := IReq (e : event) | IResp (e : event) | IScan (now : Z).
(** seconds since the query was sent *)
Definition ageSeconds (now : Z) (e : event) : Z := s64 (Z.quot now 1000000000 - Z.quot (s64 (e_ts e)) 1000000000).
(** [cur] is the query waiting for its answer. *)
Definition unext (c : config) (cur : option event) (i : uitem) : option event * list uout :=
  match i, cur with
  | IReq e, _ => (Some e, [])
  | IResp e, Some r => (None, [{| o_req := r; o_resp := Some e |}])
  | IResp e, None => (None, [])
  | IScan now, Some r => if getNoResponseThreshold c <=? ageSeconds now r then (None, [{| o_req := r; o_resp := None |}]) else (Some r, [])
  | IScan now, None => (None, [])
  end.
Fixpoint utalk (c : config) (cur : option event) (l : list uitem) : option event * list uout :=
  match l with
  | [] => (cur, [])
  | i :: l' => let '(g1, o1) := unext c cur i in let '(g2, o2) := utalk c g1 l' in (g2, o1 ++ o2)
  end.

Section Parser.
  Context (parseReq parseResp : bytes -> option Z).
  (** The part of the history that concerns key [k] and DNS id [id]. *)
  Definition uproject (c : config) (k : ukey) (id : Z) (o : uop) : list uitem :=
    match o with
    | UTick now => [IScan now]
    | UDeliver e =>
        match classifyUdp c e with
        | Ok (URequests k' l) => if eqb k k' then map IReq (filter (fun x => eqb (parseReq (getData x)) (Some id)) l) else []
        | Ok (UResponse k' e) => if eqb k k' && eqb (parseResp (getData e)) (Some id) then [IResp e] else []
        | _ => []
        end
    end.
  (** a report about a query of key [k] and id [id] *)
  Definition resEqb (a : res ukey) (k : ukey) : bool := match a with Ok k' => eqb k k' | _ => false end.
  Definition about (k : ukey) (id : Z) (o : uout) : bool :=
    resEqb (getUdpKey (o_req o)) k && eqb (parseReq (getData (o_req o))) (Some id).
  (** the query waiting under [k] and [id] *)
  Definition waiting (m : monitor) (k : ukey) (id : Z) : option event :=
    match aget m k with Some ch => aget (u_reqs ch) id | None => None end.
End Parser.
Definition queriesOf (l : list uitem) : list event := flat_map (fun i => match i with IReq e => [e] | _ => [] end) l.
