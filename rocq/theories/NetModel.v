(** The TCP half of the network analyzer as a whole: collector/pkg/component/analyzer/network/network_analyzer.go:437-552.
    PairModel.v groups the events into message pairs, and takes what the parser finds ("100 Continue") as an input; here the pair that is
    handed over goes through the choice of the parser (DetectModel.v) and the making of the records (RecordModel.v), and the finding is
    the parser's.  One event or scan at a time (PairConcModel.v has the interleavings).  UDP DNS is UdpModel.v. *)
From Verif Require Import Base Decimal AttrModel PoolModel EventModel PairModel MsgModel LabelNames DetectModel RecordModel.
Open Scope string_scope. Open Scope list_scope. Open Scope Z_scope.

(** An analyzer: its options (config.go), the options of the records, the static ports and parsers found by Start (126-155), and the
    factory's table of parsers. *)
Record analyzer := { an_conf : config; an_rconf : rconf; an_ports : dconf; an_parser : pname -> option parser }.
Record nstate := { n_pairs : state; n_detect : dstate }.
Definition n0 : nstate := {| n_pairs := init; n_detect := initDetect |}.

(** What the surroundings give while one pair is reported: the groups of the pool, and conntrack's answer (459-470). *)
Record menv := { me_pool : nat -> group; me_nat : nat_tuple }.

(** One pair handed over: the pair, its records, and whether its requests were put back instead (676-685). *)
Record entry := { en_pair : pairs; en_records : list group; en_back : bool }.

(** network_analyzer.go:676-685 through parseProtocol (554-580): the attributes handed to getRecords carry HttpContinue *)
Definition putsBack (p : parser) (x : pairs) : bool :=
  if pr_multi p then false
  else match p_req x with
       | None => false
       | Some rq =>
           match pr_request p (evsData rq) with
           | Ok (true, q) =>
               match p_resp x with
               | None => negb (asBool (aget (m_attrs q) LOneway)) && ahas (m_attrs q) LHttpContinue
               | Some rs => match pr_response p (evsData rs) (m_attrs q) with
                            | Ok (true, q2) => ahas (m_attrs q2) LHttpContinue
                            | _ => false
                            end
               end
           | _ => false
           end
       end.

Section Net.
  Context (an : analyzer).
  (** parseProtocol by name; a panic of a parser ends the search (and the collector).  Nil is None. *)
  Definition parseWith (m : menv) (p : pname) (x : pairs) : option (res (list group * bool)) :=
    match an_parser an p with
    | None => None
    | Some pr =>
        match parseProtocol (an_rconf an) (me_pool m) pr x (me_nat m) with
        | Ok None => None
        | Ok (Some l) => Some (Ok (l, putsBack pr x))
        | Err => Some Err
        | Panic => Some Panic
        end
    end.
  Definition hasRequest (x : pairs) : bool := match p_req x with Some _ => true | None => false end.
  (** network_analyzer.go:494-552 *)
  Definition report (m : menv) (d : dstate) (x : pairs) : res (entry * dstate) :=
    bind (parseProtocols getPort hasRequest (parseWith m) (an_ports an) d x) (fun r =>
    match fst r with
    | ConnectFail => bind (getConnectFail (me_pool m 0%nat) x) (fun l => Ok ({| en_pair := x; en_records := l; en_back := false |}, snd r))
    | Parsed _ q => bind q (fun l => Ok ({| en_pair := x; en_records := fst l; en_back := snd l |}, snd r))
    | Unparsed p => bind (getRecords (an_rconf an) (me_pool m 0%nat) x p None (me_nat m)) (fun l =>
                    Ok ({| en_pair := x; en_records := l; en_back := false |}, snd r))
    end).

  (** An analyse... call (350-435) with the distributeTraceMetric (437-478) it may make.  The pair handed to parseProtocols is the one the
      machine of PairModel.v reports when nothing is put back; what is put back goes to the state after the new pair was stored (453-458). *)
  Definition netTok (n : nstate) (m : menv) (t : tok) : res (list entry * nstate) :=
    match analyse (an_conf an) (n_pairs n) false t with
    | (st, []) => Ok ([], {| n_pairs := st; n_detect := n_detect n |})
    | (_, x :: _) =>
        bind (report m (n_detect n) x) (fun r =>
        Ok ([fst r], {| n_pairs := fst (analyse (an_conf an) (n_pairs n) (en_back (fst r)) t); n_detect := snd r |}))
    end.
  Fixpoint netToks (n : nstate) (ms : nat -> menv) (i : nat) (l : list tok) : res (list entry * nstate) :=
    match l with
    | [] => Ok ([], n)
    | t :: l' => bind (netTok n (ms i) t) (fun r => bind (netToks (snd r) ms (S i) l') (fun r' => Ok (fst r ++ fst r', snd r')))
    end.
  (** network_analyzer.go:306-320, entry by entry *)
  Fixpoint netScan (n : nstate) (ms : key -> menv) (now : Z) (l : list (key * pairs)) : res (list entry * nstate) :=
    match l with
    | [] => Ok ([], n)
    | (k, p) :: l' =>
        if expired (an_conf an) now p
        then match distribute (n_pairs n) p None false with
             | (st, []) => netScan {| n_pairs := st; n_detect := n_detect n |} ms now l'
             | (_, x :: _) =>
                 bind (report (ms k) (n_detect n) x) (fun r =>
                 bind (netScan {| n_pairs := fst (distribute (n_pairs n) p None (en_back (fst r))); n_detect := snd r |} ms now l') (fun r' =>
                 Ok (fst r :: fst r', snd r')))
             end
        else netScan n ms now l'
    end.

  Inductive nop : Type := NEvent (ms : nat -> menv) (e : event) | NScan (ms : key -> menv) (now : Z).
  (** network_analyzer.go:180-193 and 306: an error of processEvent is logged; a panic ends the collector *)
  Definition netStep (n : nstate) (o : nop) : res (list entry * nstate) :=
    match o with
    | NEvent ms e => match classify e with
                     | Ok l => netToks n ms 0 l
                     | Err => Ok ([], n)
                     | Panic => Panic
                     end
    | NScan ms now => netScan n ms now (st_map (n_pairs n))
    end.
  Fixpoint netRun (n : nstate) (os : list nop) : res (list entry * nstate) :=
    match os with
    | [] => Ok ([], n)
    | o :: os' => bind (netStep n o) (fun r => bind (netRun (snd r) os') (fun r' => Ok (fst r ++ fst r', snd r')))
    end.
End Net.

(** collector/docker/kindling-collector-config.yml: the parsers shipped; DetectModel.startConf is Start *)
Definition withParsers (l : list parser) (p : pname) : option parser := find (fun x : parser => eqb (pr_name x) p) l.
