(** The default aggregator under concurrency (defaultaggregator/default_aggregator.go, value_recorder.go).
    Aggregate holds the read lock for its whole duration (default_aggregator.go:33-34), so any number of calls may
    interleave; Dump and DumpSingle hold the write lock (:48-49, :61-62), so they run only when no Aggregate is in
    progress.  Inside Aggregate the atomic actions are:
    - finding or creating the recorder and the values of the series: sync.Map Load / LoadOrStore
      (:35-41, value_recorder.go:32-36; creation builds a fresh value that is discarded when another call stored first,
      so the pair acts as one atomic LoadOrStore);
    - one calculate/merge per aggregated value, each atomic or under its own mutex (agg_values.go:178-342).
    The timestamp stores are not modelled here.  A disabled action is [Err]. *)
From Verif Require Import Base Decimal AttrModel PoolModel KeyModel AggModel.

(** One Aggregate call in progress: its series and the values it still has to update
    (metric name, position in the slice of that metric, reading). *)
Record flight := { f_name : string; f_key : list lkey; f_todo : list (string * nat * mdata) }.

Definition conc_state : Type := agg_state * list (Z * flight).

Inductive cact : Type :=
| ABegin (id : Z) (g : group) (sels : list selector)
| AFeed (id : Z)
| AEnd (id : Z)
| ADump
| ADumpSingle (n : string).

(** agg_values.go:104-117: the loops over metrics and over the slice of each metric *)
Definition todoOf (m : vmap) (ms : list (string * mdata)) : list (string * nat * mdata) :=
  flat_map (fun p => match aget (vals m) (fst p) with
                     | Some sl => map (fun i => (fst p, i, snd p)) (seq 0 (List.length sl))
                     | None => []
                     end) ms.

(** agg_values.go:109-115: one value of one slice *)
Definition feedAt (sl : list aggv) (i : nat) (d : mdata) : res (list aggv) :=
  match nth_error sl i with
  | Some a => bind (feed a d) (fun a' => Ok (set_nth sl i a'))
  | None => Panic
  end.

Definition conc_step (km : kindMap) (st : conc_state) (a : cact) : res (list group * conc_state) :=
  let '(s, fl) := st in
  match a with
  | ABegin id g sels =>
      match aget fl id with
      | Some _ => Err
      | None =>
          let key := getLabelKeys sels (glabels g) in
          let r := recOf s (gname g) in
          let m := match aget r key with Some m => m | None => newValues (kindsDefault km) (gmetrics g) end in
          Ok ([], (aset s (gname g) (aset r key m),
                   aset fl id {| f_name := gname g; f_key := key; f_todo := todoOf m (gmetrics g) |}))
      end
  | AFeed id =>
      match aget fl id with
      | Some f =>
          match f_todo f with
          | (mn, i, d) :: rest =>
              match aget (recOf s (f_name f)) (f_key f) with
              | Some m =>
                  match aget (vals m) mn with
                  | Some sl => bind (feedAt sl i d) (fun sl' =>
                      let m' := {| vals := aset (vals m) mn sl'; vts := vts m; vupd := vupd m |} in
                      Ok ([], (aset s (f_name f) (aset (recOf s (f_name f)) (f_key f) m'),
                               aset fl id {| f_name := f_name f; f_key := f_key f; f_todo := rest |})))
                  | None => Panic
                  end
              | None => Panic
              end
          | [] => Err
          end
      | None => Err
      end
  | AEnd id =>
      match aget fl id with
      | Some f => match f_todo f with [] => Ok ([], (s, adel fl id)) | _ :: _ => Err end
      | None => Err
      end
  | ADump => match fl with [] => bind (dump s) (fun r => Ok (fst r, (snd r, []))) | _ :: _ => Err end
  | ADumpSingle n => match fl with [] => bind (dumpSingle s n) (fun r => Ok (fst r, (snd r, []))) | _ :: _ => Err end
  end.

Fixpoint conc_run (km : kindMap) (st : conc_state) (l : list cact) : res (list (list group) * conc_state) :=
  match l with
  | [] => Ok ([], st)
  | a :: l' => bind (conc_step km st a)
      (fun r => bind (conc_run km (snd r) l') (fun r' => Ok (fst r :: fst r', snd r')))
  end.
