(** Model of data groups (collector/pkg/model/data_group.go, metric.go) and of the pool the network
    analyzer takes them from (component/analyzer/network/datagroup_pool.go).
    Simplification: labels are values, not pointers.  AttrModel.v treats the pointers; the analyzer merges only
    attribute maps it drops afterwards, so no two groups share a label value. *)
From Verif Require Import Base Decimal AttrModel.

(** metric.go:84-86, 96-101: metric data *)
Inductive mdata : Type :=
| MInt (v : Z)
| MHist (sum count : Z) (bounds buckets : list Z).

(** metric.go:51-62 Metric.Clear *)
Definition clearData (d : mdata) : mdata :=
  match d with MInt _ => MInt 0 | MHist _ _ _ _ => MHist 0 0 [] [] end.

(** data_group.go:11-16 *)
Record group := { gname : string; gmetrics : list (string * mdata); glabels : list (string * aval); gts : Z }.

(** data_group.go:27-34 GetMetric: the first metric of that name *)
Definition getMetric (g : group) (n : string) : option mdata := aget (gmetrics g) n.

(** data_group.go:36-54: AddMetric appends, UpdateAddIntMetric overwrites the first of that name or appends *)
Definition addMetric (g : group) (n : string) (d : mdata) : group :=
  {| gname := gname g; gmetrics := gmetrics g ++ [(n, d)]; glabels := glabels g; gts := gts g |}.
Definition updateAddIntMetric (g : group) (n : string) (v : Z) : group :=
  {| gname := gname g; gmetrics := aset (gmetrics g) n (MInt v); glabels := glabels g; gts := gts g |}.

(** data_group.go:90-97 Reset, attribute_map.go:164-168 *)
Definition resetGroup (g : group) : group :=
  {| gname := ""; gmetrics := map (fun p => (fst p, clearData (snd p))) (gmetrics g);
     glabels := map (fun p => (fst p, zero_of (snd p))) (glabels g); gts := 0 |}.

(** model/constnames/const.go:35 *)
Definition netRequestGroup : string := "net_request_metric_group".
(** datagroup_pool.go:13-21 (names: model/constvalues) *)
Definition groupMetricNames : list string :=
  ["connect_time"; "request_sent_time"; "waiting_ttfb_time"; "content_download_time"; "request_total_time";
   "request_io"; "response_io"]%string.
(** datagroup_pool.go:12-24 createDataGroup at time [now] *)
Definition createDataGroup (now : Z) : group :=
  {| gname := netRequestGroup; gmetrics := map (fun n => (n, MInt 0)) groupMetricNames; glabels := []; gts := now |}.

(** What the holder of a group may do to it. *)
Inductive use : Type :=
| UName (n : string)                          (* g.Name = n *)
| UTime (t : Z)                               (* g.Timestamp = t *)
| UMetric (n : string) (v : Z)                (* UpdateAddIntMetric *)
| UAddMetric (n : string) (d : mdata)         (* AddMetric *)
| UUpd (k : string) (v : aval)                (* Labels.UpdateAdd...Value *)
| UAdd (k : string) (v : aval)                (* Labels.Add...Value *)
| UMerge (attrs : list (string * aval))       (* Labels.Merge(attributes) *)
| URemove (k : string).                       (* Labels.RemoveAttribute *)

Definition withLabels (g : group) (l : list (string * aval)) : group :=
  {| gname := gname g; gmetrics := gmetrics g; glabels := l; gts := gts g |}.

Definition applyUse (g : group) (u : use) : res group :=
  match u with
  | UName n => Ok {| gname := n; gmetrics := gmetrics g; glabels := glabels g; gts := gts g |}
  | UTime t => Ok {| gname := gname g; gmetrics := gmetrics g; glabels := glabels g; gts := t |}
  | UMetric n v => Ok (updateAddIntMetric g n v)
  | UAddMetric n d => Ok (addMetric g n d)
  | UUpd k v => match aget (glabels g) k with
                | Some old => if same_type old v then Ok (withLabels g (aset (glabels g) k v)) else Panic
                | None => Ok (withLabels g (aset (glabels g) k v))
                end
  | UAdd k v => Ok (withLabels g (aset (glabels g) k v))
  | UMerge l => Ok (withLabels g (fold_left (fun m p => aset m (fst p) (snd p)) l (glabels g)))
  | URemove k => Ok (withLabels g (adel (glabels g) k))
  end.

(** datagroup_pool.go:30-47.  sync.Pool hands out any group put back earlier, or a new one. *)
Record pool := { objs : list group; free : list nat; used : list nat }.

Inductive pop : Type :=
| PGet (choice : option nat) (now : Z)        (* Some n: the n-th free group; None: a new one *)
| PUse (id : nat) (u : use)
| PFree (id : nat).

Definition remove_nth {A} (l : list A) (n : nat) : list A := firstn n l ++ skipn (S n) l.

(** [PGet] also returns the id handed out. Using or freeing a group one does not hold is outside the contract ([Err]). *)
Definition pstep (p : pool) (o : pop) : res (pool * option nat) :=
  match o with
  | PGet None now =>
      let id := List.length (objs p) in
      Ok ({| objs := objs p ++ [createDataGroup now]; free := free p; used := id :: used p |}, Some id)
  | PGet (Some n) _ =>
      match nth_error (free p) n with
      | Some id => Ok ({| objs := objs p; free := remove_nth (free p) n; used := id :: used p |}, Some id)
      | None => Err
      end
  | PUse id u =>
      if existsb (Nat.eqb id) (used p) then
        match nth_error (objs p) id with
        | Some g => match applyUse g u with
                    | Ok g' => Ok ({| objs := set_nth (objs p) id g'; free := free p; used := used p |}, None)
                    | Err => Err
                    | Panic => Panic
                    end
        | None => Err
        end
      else Err
  | PFree id =>
      (* datagroup_pool.go:43-47 Free *)
      if existsb (Nat.eqb id) (used p) then
        match nth_error (objs p) id with
        | Some g =>
            let r := resetGroup g in
            Ok ({| objs := set_nth (objs p) id {| gname := netRequestGroup; gmetrics := gmetrics r; glabels := glabels r; gts := gts r |};
                   free := id :: free p;
                   used := filter (fun x => negb (Nat.eqb id x)) (used p) |}, None)
        | None => Err
        end
      else Err
  end.

Fixpoint prun (p : pool) (os : list pop) : res pool :=
  match os with
  | [] => Ok p
  | o :: os' => match pstep p o with Ok (p', _) => prun p' os' | Err => Err | Panic => Panic end
  end.

Definition pempty : pool := {| objs := []; free := []; used := [] |}.
