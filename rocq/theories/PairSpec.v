(** What the TCP half of the network analyzer is supposed to do with one connection, said with plain lists of events:
    a conversation is at most one connect, a list of requests and a list of responses. *)
From Verif Require Import Base EventModel PairModel.
Open Scope list_scope. Open Scope Z_scope.

Record conv := { g_con : option event; g_req : list event; g_resp : list event }.

(** The request and response events of a conversation, in order. *)
Definition flat (g : conv) : list event := g_req g ++ g_resp g.
Definition flatO (g : option conv) : list event := match g with Some g => flat g | None => [] end.
Definition reqO (g : option conv) : list event := match g with Some g => g_req g | None => [] end.

Definition isNil {A} (l : list A) : bool := match l with [] => true | _ => false end.

(** A conversation ends and [new] takes its place.  It is reported, unless the parser says it was an HTTP
    "100 Continue" exchange: then its requests are the beginning of the next conversation. *)
Definition hand (old : conv) (new : option conv) (cont : bool) : option conv * list conv :=
  if cont && negb (isNil (g_req old))
  then (option_map (fun n => {| g_con := g_con n; g_req := g_req old ++ g_req n; g_resp := g_resp n |}) new, [])
  else (new, [old]).

(** A second connect is a retry of the first one, unless more than [timeout] seconds passed since the first one
    started or the source port is another one. *)
Definition connectStale (first e : event) (timeout : Z) : bool :=
  let start := w64 (e_ts first - e_lat first) in
  (start <=? e_ts e)
  && ((w64 (e_ts e - start) >? w64 (w64 timeout * 1000000000)) || negb (e_sport e =? e_sport first)).

(** The time of the last event. *)
Definition lastEvTs (l : list event) (d : Z) : Z := last (map e_ts l) d.
Definition lastTime (g : conv) : Z :=
  match g_resp g, g_req g, g_con g with
  | (_ :: _) as l, _, _ => lastEvTs l 0
  | [], (_ :: _) as l, _ => lastEvTs l 0
  | [], [], Some e => e_ts e
  | [], [], None => 0
  end.
Definition seconds (x : Z) : Z := Z.quot x 1000000000.
Definition overdue (c : config) (now : Z) (g : conv) : bool :=
  if lastTime g =? 0 then false
  else let d := s64 (seconds now - seconds (s64 (lastTime g))) in
       (negb (isNil (g_resp g)) && (getFdReuseTimeout c <=? d)) || (getNoResponseThreshold c <=? d).

(** What can happen on a connection. *)
Inductive item : Type := IEv (cont : bool) (t : tok) | ITick (cont : bool) (now : Z).

Definition next (c : config) (cur : option conv) (i : item) : option conv * list conv :=
  match i with
  | IEv cont (KConn e) =>
      let fresh := {| g_con := Some e; g_req := []; g_resp := [] |} in
      match cur with
      | None => (Some fresh, [])
      | Some g =>
          match g_req g, g_con g with
          | [], Some f => if connectStale f e (getConnectTimeout c) then hand g (Some fresh) cont else (Some fresh, [])
          | _, _ => hand g (Some fresh) cont
          end
      end
  | IEv cont (KReq e) =>
      let fresh := {| g_con := None; g_req := [e]; g_resp := [] |} in
      match cur with
      | None => (Some fresh, [])
      | Some g =>
          match g_req g with
          | [] => (Some {| g_con := g_con g; g_req := [e]; g_resp := [] |}, [])
          | f :: _ =>
              if negb (isNil (g_resp g)) || negb (e_sport e =? e_sport f)
              then hand g (Some fresh) cont
              else (Some {| g_con := g_con g; g_req := g_req g ++ [e]; g_resp := [] |}, [])
          end
      end
  | IEv cont (KResp e) =>
      match cur with
      | None => (None, [])
      | Some g =>
          match g_req g with
          | [] => (Some g, [])
          | _ => (Some {| g_con := g_con g; g_req := g_req g; g_resp := g_resp g ++ [e] |}, [])
          end
      end
  | ITick cont now =>
      match cur with
      | None => (None, [])
      | Some g => if overdue c now g then hand g None cont else (Some g, [])
      end
  end.
Fixpoint talk (c : config) (cur : option conv) (l : list item) : option conv * list conv :=
  match l with
  | [] => (cur, [])
  | i :: l' => let '(g1, o1) := next c cur i in
               let '(g2, o2) := talk c g1 l' in (g2, o1 ++ o2)
  end.

(** The part of the history that concerns connection [k]. *)
Definition tokEv (t : tok) : event := match t with KConn e | KReq e | KResp e => e end.
Fixpoint numbered (k : key) (conts : nat -> bool) (n : nat) (l : list tok) : list item :=
  match l with
  | [] => []
  | t :: l' => (if eqb k (evKey (tokEv t)) then [IEv (conts n) t] else []) ++ numbered k conts (S n) l'
  end.
Definition project (k : key) (o : op) : list item :=
  match o with
  | Deliver conts e => match classify e with Ok l => numbered k conts 0 l | _ => [] end
  | Tick conts now => [ITick (conts k) now]
  end.

(** The pair the analyzer keeps for a conversation. *)
Definition buildEvs (max : Z) (l : list event) : option evs :=
  match l with [] => None | e :: l' => Some (fold_left mergeEvent l' (newEvents e max)) end.
Definition build (max send : Z) (g : conv) : pairs :=
  {| p_con := match g_con g with Some e => Some (newEvents e max) | None => None end;
     p_req := buildEvs max (g_req g); p_resp := buildEvs max (g_resp g); p_send := send; p_max := max |}.

(** Histories. *)
Inductive Subseq {A} : list A -> list A -> Prop :=
| sub_nil l : Subseq [] l
| sub_take x l m : Subseq l m -> Subseq (x :: l) (x :: m)
| sub_skip x l m : Subseq l m -> Subseq l (x :: m).
Definition requestsOf (l : list item) : list event :=
  flat_map (fun i => match i with IEv _ (KReq e) => [e] | _ => [] end) l.
Definition trafficOf (l : list item) : list event :=
  flat_map (fun i => match i with IEv _ (KReq e) | IEv _ (KResp e) => [e] | _ => [] end) l.
