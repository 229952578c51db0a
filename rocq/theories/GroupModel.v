(** Data groups as the objects they are: a group holds pointers to metrics, a metric a pointer to its value, a histogram two slices.
    collector/pkg/model/data_group.go, metric.go.  (PoolModel.v treats groups as values; C86 says when that is right.)
    Simplifications: labels are left out (C07 treats them), so is the spare capacity of slices (no group's slice of metrics is handed to another
    one), and a metric always has a value. *)
From Verif Require Import Base PoolModel.
Open Scope string_scope. Open Scope list_scope. Open Scope Z_scope.

(** metric.go:84-86, 96-101: an Int, or a Histogram whose slices are nil or arrays of the heap *)
Inductive value : Type := RInt (v : Z) | RHist (sum count : Z) (bounds buckets : option nat).
(** data_group.go:11-16, without labels: the metrics are pointers *)
Record ggroup := { r_name : string; r_metrics : list nat; r_ts : Z }.
(** metric.go:11-17: a metric is a name and a pointer to its value; [w_nc], [w_nd], [w_na] are the first unused addresses *)
Record world := { w_cells : nat -> string * nat; w_data : nat -> value; w_arr : nat -> list Z; w_nc : nat; w_nd : nat; w_na : nat; w_groups : list ggroup }.
Definition upd {A} (f : nat -> A) (k : nat) (x : A) : nat -> A := fun i => if Nat.eqb i k then x else f i.
Fixpoint set_nth {A} (l : list A) (n : nat) (x : A) : list A :=
  match l, n with [], _ => [] | _ :: t, O => x :: t | a :: t, S n' => a :: set_nth t n' x end.
Definition withCells (w : world) c := {| w_cells := c; w_data := w_data w; w_arr := w_arr w; w_nc := w_nc w; w_nd := w_nd w; w_na := w_na w; w_groups := w_groups w |}.
Definition withData (w : world) d := {| w_cells := w_cells w; w_data := d; w_arr := w_arr w; w_nc := w_nc w; w_nd := w_nd w; w_na := w_na w; w_groups := w_groups w |}.
Definition withGroups (w : world) g := {| w_cells := w_cells w; w_data := w_data w; w_arr := w_arr w; w_nc := w_nc w; w_nd := w_nd w; w_na := w_na w; w_groups := g |}.
(** A new value and a new metric (metric.go:88-105 NewIntMetric, NewMetric, NewHistogramMetric) *)
Definition newData (w : world) (d : value) : world * nat :=
  ({| w_cells := w_cells w; w_data := upd (w_data w) (w_nd w) d; w_arr := w_arr w; w_nc := w_nc w; w_nd := S (w_nd w); w_na := w_na w; w_groups := w_groups w |}, w_nd w).
Definition newMetric (w : world) (n : string) (d : value) : world * nat :=
  let '(w1, p) := newData w d in
  ({| w_cells := upd (w_cells w1) (w_nc w1) (n, p); w_data := w_data w1; w_arr := w_arr w1; w_nc := S (w_nc w1); w_nd := w_nd w1; w_na := w_na w1; w_groups := w_groups w1 |}, w_nc w1).
Definition newArr (w : world) (l : list Z) : world * nat :=
  ({| w_cells := w_cells w; w_data := w_data w; w_arr := upd (w_arr w) (w_na w) l; w_nc := w_nc w; w_nd := w_nd w; w_na := S (w_na w); w_groups := w_groups w |}, w_na w).
(** data_group.go:27-34 GetMetric: the pointer to the first metric of that name *)
Definition getMetric (w : world) (g : ggroup) (n : string) : option nat := find (fun c => eqb (fst (w_cells w c)) n) (r_metrics g).
(** data_group.go:40-45 AddMetric *)
Definition addMetric (g : ggroup) (c : nat) : ggroup := {| r_name := r_name g; r_metrics := r_metrics g ++ [c]; r_ts := r_ts g |}.
(** metric.go:51-62 Clear: the value is written in place; the slices become nil *)
Definition clear (w : world) (c : nat) : world :=
  let p := snd (w_cells w c) in
  withData w (upd (w_data w) p (match w_data w p with RInt _ => RInt 0 | RHist _ _ _ _ => RHist 0 0 None None end)).
(** metric.go:64-82 Clone: a new metric with a new value; the slices are shared *)
Definition cloneMetric (w : world) (c : nat) : world * nat := newMetric w (fst (w_cells w c)) (w_data w (snd (w_cells w c))).
(** data_group.go:99-105 Clone, over the metrics *)
Fixpoint cloneAll (w : world) (cs : list nat) : world * list nat :=
  match cs with [] => (w, []) | c :: r => let '(w1, c') := cloneMetric w c in let '(w2, r') := cloneAll w1 r in (w2, c' :: r') end.

(** What a program can do with the groups it holds, by index. *)
Inductive gop : Type :=
| GNew (n : string) (ts : Z)                                          (* NewDataGroup(n, labels, ts), :18-25 *)
| GAddInt (i : nat) (n : string) (v : Z)                              (* AddIntMetricWithName, :36-38 *)
| GAddHist (i : nat) (n : string) (sum count : Z) (bounds buckets : list Z) (* AddMetric(NewHistogramMetric(n, ...)) *)
| GUpdate (i : nat) (n : string) (v : Z)                              (* UpdateAddIntMetric, :48-54 *)
| GRemove (i : nat) (n : string)                                      (* RemoveMetric, :56-65 *)
| GReset (i : nat)                                                    (* Reset, :90-97 *)
| GClone (i : nat)                                                    (* the clone becomes a new group *)
| GShare (i j : nat) (n : string)                                     (* groups[i].AddMetric of the metric GetMetric(n) of groups[j] *)
| GBucket (i : nat) (n : string) (k : nat) (v : Z).                   (* GetMetric(n).GetHistogram().BucketCounts[k] = v *)

Definition setGroup (w : world) (i : nat) (g : ggroup) : world := withGroups w (set_nth (w_groups w) i g).
Definition gstep (w : world) (o : gop) : option world :=
  match o with
  | GNew n ts => Some (withGroups w (w_groups w ++ [{| r_name := n; r_metrics := []; r_ts := ts |}]))
  | GAddInt i n v =>
      match nth_error (w_groups w) i with Some g => let '(w1, c) := newMetric w n (RInt v) in Some (setGroup w1 i (addMetric g c)) | None => None end
  | GAddHist i n s k bs cs =>
      match nth_error (w_groups w) i with
      | Some g => let '(w1, b) := newArr w bs in let '(w2, a) := newArr w1 cs in let '(w3, c) := newMetric w2 n (RHist s k (Some b) (Some a)) in Some (setGroup w3 i (addMetric g c))
      | None => None
      end
  | GUpdate i n v =>
      match nth_error (w_groups w) i with
      | Some g =>
          match getMetric w g n with
          | Some c => let '(w1, p) := newData w (RInt v) in Some (withCells w1 (upd (w_cells w1) c (fst (w_cells w1 c), p)))
          | None => let '(w1, c) := newMetric w n (RInt v) in Some (setGroup w1 i (addMetric g c))
          end
      | None => None
      end
  | GRemove i n =>
      match nth_error (w_groups w) i with
      | Some g => Some (setGroup w i {| r_name := r_name g; r_metrics := filter (fun c => negb (eqb (fst (w_cells w c)) n)) (r_metrics g); r_ts := r_ts g |})
      | None => None
      end
  | GReset i =>
      match nth_error (w_groups w) i with
      | Some g => Some (setGroup (fold_left clear (r_metrics g) w) i {| r_name := ""; r_metrics := r_metrics g; r_ts := 0 |})
      | None => None
      end
  | GClone i =>
      match nth_error (w_groups w) i with
      | Some g => let '(w1, cs) := cloneAll w (r_metrics g) in Some (withGroups w1 (w_groups w1 ++ [{| r_name := r_name g; r_metrics := cs; r_ts := r_ts g |}]))
      | None => None
      end
  | GShare i j n =>
      match nth_error (w_groups w) i, nth_error (w_groups w) j with
      | Some g, Some g' => match getMetric w g' n with Some c => Some (setGroup w i (addMetric g c)) | None => None end
      | _, _ => None
      end
  | GBucket i n k v =>
      match nth_error (w_groups w) i with
      | Some g =>
          match getMetric w g n with
          | Some c => match w_data w (snd (w_cells w c)) with
                      | RHist _ _ _ (Some a) =>
                          Some {| w_cells := w_cells w; w_data := w_data w; w_arr := upd (w_arr w) a (set_nth (w_arr w a) k v); w_nc := w_nc w; w_nd := w_nd w; w_na := w_na w; w_groups := w_groups w |}
                      | _ => None
                      end
          | None => None
          end
      | None => None
      end
  end.
Fixpoint grun (w : world) (os : list gop) : option world := match os with [] => Some w | o :: r => match gstep w o with Some w' => grun w' r | None => None end end.
Definition start : world := {| w_cells := fun _ => ("", O); w_data := fun _ => RInt 0; w_arr := fun _ => []; w_nc := O; w_nd := O; w_na := O; w_groups := [] |}.
(** What can be seen of a value, a metric, a group *)
Definition sliceOf (w : world) (a : option nat) : list Z := match a with Some k => w_arr w k | None => [] end.
Definition seen (w : world) (p : nat) : mdata := match w_data w p with RInt v => MInt v | RHist s k b a => MHist s k (sliceOf w b) (sliceOf w a) end.
Definition seenMetric (w : world) (c : nat) : string * mdata := (fst (w_cells w c), seen w (snd (w_cells w c))).
Definition seenGroup (w : world) (g : ggroup) : string * list (string * mdata) * Z := (r_name g, map (seenMetric w) (r_metrics g), r_ts g).
