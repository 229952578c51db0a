(** What a trace file is named after, what it holds, and which files a rotation may remove. *)
From Verif Require Import Base Decimal AttrModel FileModel.
Open Scope string_scope. Open Scope list_scope. Open Scope Z_scope.

(** * The Gregorian calendar *)
Definition leapYear (y : Z) : Prop := (y mod 4 = 0 /\ y mod 100 <> 0) \/ y mod 400 = 0.
Definition monthLength (leap : bool) (m : Z) : Z := if m =? 2 then if leap then 29 else 28 else if (m =? 4) || (m =? 6) || (m =? 9) || (m =? 11) then 30 else 31.
Definition daysBeforeMonth (leap : bool) (m : Z) : Z := fold_left (fun a i => a + monthLength leap (Z.of_nat i)) (seq 1 (Z.to_nat (m - 1))) 0.
(** Days from 1 January of the year 1. *)
Definition dayNumber (leap : bool) (y m d : Z) : Z := 365 * (y - 1) + (y - 1) / 4 - (y - 1) / 100 + (y - 1) / 400 + daysBeforeMonth leap m + (d - 1).

(** * Names *)
(** No underscore. *)
Definition plainName (b : bytes) : Prop := ~ In 95 b.
Definition wfElements (f : elements) : Prop :=
  plainName (f_wl f) /\ plainName (f_pod f) /\ plainName (f_cont f) /\ plainName (f_proto f) /\ (forall c, In c (f_ck f) -> 0 <= c < 256) /\ 0 <= f_ts f < 2 ^ 64.
(** Local time is a fixed offset from UTC of less than a day. *)
Definition fixedZone (zone : Z -> Z) : Prop := exists off, -86400 < off < 86400 /\ forall s, zone s = off.

(** * Content *)
(** The trace with the identity [i] as its labels give it. *)
Definition isTrace (g : wgroup) : bool := eqb (w_name g) "single_net_request_metric_group" || eqb (w_name g) "apm_span_event".
Definition isCpu (g : wgroup) : bool := eqb (w_name g) "camera_event_group".
Definition traceId (g : wgroup) : elements := getElements (w_labels g) (w_ts g).
Definition cpuId (g : wgroup) : elements := getElements (w_labels g) (w64 (EnrichModel.intOf (w_labels g) "timestamp")).
Definition elements_eqb (a b : elements) : bool :=
  eqb (f_wl a) (f_wl b) && eqb (f_pod a) (f_pod b) && eqb (f_cont a) (f_cont b) && (f_pid a =? f_pid b) && eqb (f_srv a) (f_srv b) && eqb (f_proto a) (f_proto b) && (f_ts a =? f_ts b) && eqb (f_ck a) (f_ck b).
(** What happens to the file of trace [i] by one operation: [canCreate] if its file can be created, [removed] if the operation removes it. *)
Definition history (i : elements) (canCreate : bool) (removed : bool) (c : option bytes) (o : fop) : option bytes :=
  match o with
  | FWrite g _ =>
      if isTrace g then if elements_eqb (traceId g) i && canCreate then Some (w_json g) else c
      else if isCpu g then if elements_eqb (cpuId g) i then option_map (fun x => x ++ 10 :: bs "------" ++ 10 :: w_json g) c else c
      else c
  | FRemove _ => if removed then None else c
  end.
