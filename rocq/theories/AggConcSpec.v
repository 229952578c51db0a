(** What a dump shows of readings that concurrent calls fed in no particular order. *)
From Verif Require Import Base AttrModel PoolModel KeyModel AggModel AggSpec.

(** The exported value [p] of configuration [c] describes all the readings [ds]: exactly what they come to, whatever the
    order in which they were taken, except that the "last" one can be any of them. *)
Definition shows (ds : list mdata) (c : kcfg) (p : string * mdata) : Prop :=
  fst p = c_out c /\
  match c_kind c with
  | LastKind => exists x, snd p = MInt x /\ (In x (ints ds) \/ ints ds = [] /\ x = 0)
  | _ => snd p = expected c ds
  end.

(** The metrics exported for a series that received the groups [ws]: for each metric of the first group that is
    configured, one value per configuration, that shows all the readings of that metric. *)
Definition shows_all (kf : string -> option (list kcfg)) (ws : list group) (ms : list (string * mdata)) : Prop :=
  exists g0 r names ls, ws = g0 :: r /\ NoDup names /\
    (forall m, In m names <-> In m (mnames g0) /\ kf m <> None) /\
    ms = List.concat ls /\
    Forall2 (fun m l => exists cs, kf m = Some cs /\ Forall2 (shows (readings ws m)) cs l) names ls.

(** The group exported for the series [p] = (group name, label key). *)
Definition portrays (kf : string -> option (list kcfg)) (win : string -> list lkey -> list group)
                    (p : string * list lkey) (e : group) : Prop :=
  gname e = fst p /\ glabels e = getLabels (snd p) /\ shows_all kf (win (fst p) (snd p)) (gmetrics e).
