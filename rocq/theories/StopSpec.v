(** When the network analyzer goes on, whatever the socket events: what is asked of the events, the parsers and the options. *)
From Verif Require Import Base Decimal AttrModel PoolModel EventModel PairModel PairSpec MsgModel DetectModel RecordModel RecordSpec NetModel NetSpec.
Open Scope string_scope. Open Scope list_scope. Open Scope Z_scope.

(** A parser that gives a verdict on every payload of at least [n] bytes; a parser of several messages pairs a response with one of the
    requests or none. *)
Definition verdictsFrom (n : Z) (p : parser) : Prop :=
  (forall d, Forall is_byte d -> n <= zlen d -> exists ok m, pr_request p d = Ok (ok, m)) /\
  (forall d a, Forall is_byte d -> n <= zlen d -> exists ok m, pr_response p d a = Ok (ok, m)) /\
  (forall ms m, pr_match p ms m = -1 \/ 0 <= pr_match p ms m < zlen ms).
(** The analyzer: parsers that set labels of their own and give verdicts; "dubbo", as a parser or as the name of a static port, only if the
    payloads have the 16 bytes of its header. *)
Definition steady (n : Z) (an : analyzer) : Prop :=
  (forall name p, an_parser an name = Some p -> goodParser p /\ verdictsFrom n p /\ (pr_name p = "dubbo" -> 16 <= n)) /\
  (forall port, aget (static (an_ports an)) port = Some "dubbo" -> 16 <= n).
(** Groups of the pool have labels of the right types (C55_pool_typed). *)
Definition typedPool (m : menv) : Prop := forall i, typed (glabels (me_pool m i)).
(** An event of the probe: Go's types, both addresses or none, the eight bytes of "res"; what is taken from it as a request or response has at
    least [n] bytes. *)
Definition message (t : tok) : option event := match t with KConn _ => None | KReq e => Some e | KResp e => Some e end.
Definition wholeEvent (n : Z) (e : event) : Prop :=
  goodEvent e /\ (e_sip e <> [] -> e_dip e <> []) /\ getResVal e <> Panic /\
  (forall l t m, classify e = Ok l -> In t l -> message t = Some m -> n <= zlen (EventModel.getData m)).
Definition wholeNop (n : Z) (o : nop) : Prop :=
  match o with
  | NEvent ms e => wholeEvent n e /\ forall i, typedPool (ms i)
  | NScan ms _ => forall k, typedPool (ms k)
  end.
