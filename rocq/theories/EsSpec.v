(** What is expected to be found in Elasticsearch. *)
From Verif Require Import Base AttrModel PoolModel EnrichModel CpuModel.
Open Scope string_scope. Open Scope list_scope. Open Scope Z_scope.

(** The document is about this second of this thread (startTime is a uint64 shown as an int64). *)
Definition about (pid tid second : Z) (doc : string * group) : Prop :=
  let m := glabels (snd doc) in
  aget m "pid" = Some (IV pid) /\ aget m "tid" = Some (IV tid) /\ w64 (intOf m "startTime") = second * 1000000000.
(** The document has the time of the second and holds these texts of the events of each kind; where a text could not be made, the label is missing. *)
Definition holds (enc : list tev -> option bytes) (g : seg) (doc : string * group) : Prop :=
  let m := glabels (snd doc) in
  gts (snd doc) = g_start g /\ aget m "cpuEvents" = option_map SV (enc (g_cpu g)) /\ aget m "javaFutexEvents" = option_map SV (enc (g_futex g)) /\
  aget m "transactionIds" = option_map SV (enc (g_trans g)) /\ aget m "spans" = option_map SV (enc (g_spans g)) /\
  aget m "innerCalls" = option_map SV (enc (g_inner g)).
(** An event of the thread that covers the second arrives. *)
Definition touches (pid tid second : Z) (o : cop) : Prop :=
  exists name e, o = OPut pid tid name e /\ t_start e / 1000000000 <= second <= t_end e / 1000000000.
(** The last value given to a name. *)
Fixpoint lastOf {A} (l : list (string * A)) (k : string) : option A :=
  match l with [] => None | (k', v) :: r => match lastOf r k with Some w => Some w | None => if eqb k' k then Some v else None end end.
