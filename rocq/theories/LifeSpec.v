(** What the start and the stop of a collector mean to its user. *)
From Verif Require Import Base LifeModel.
Open Scope string_scope. Open Scope list_scope. Open Scope Z_scope.

Definition second := 1000000000.
Definition hour := 3600 * second.
(** Periods below about 292 years: their nanoseconds fit in a time.Duration.  Beyond, the product wraps and may come out positive by accident. *)
Definition fits (unit n : Z) : Prop := - 2 ^ 63 <= n * unit < 2 ^ 63.
Definition sane (c : conf) : Prop :=
  fits second (c_aggInterval c) /\ fits second (c_connWait c) /\ fits second (c_infoInterval c) /\
  (forall h, c_prom c = Some (Some (true, h)) -> fits hour h).

(** The exporter's sections are there, and the other side can be set up. *)
Definition exporterOk (c : conf) (e : env) : Prop :=
  c_adapter c = true /\
  ((c_kind c = "prometheus" /\ e_prom e = true /\ exists m, c_prom c = Some m /\ (forall h, m = Some (true, h) -> h = 0 \/ 0 < h)) \/
   (c_kind c = "stdout" /\ e_exporters e = true /\ exists p, c_stdout c = Some p /\ 0 < p) \/
   (c_kind c = "otlp" /\ e_exporters e = true /\ exists p, c_otlp c = Some p /\ 0 < p)).
(** A configuration with which, and a machine on which, a collector comes up. *)
Definition wellFormed (c : conf) (e : env) : Prop :=
  (exists on, c_http c = Some on) /\ (count_occ string_dec (c_modules c) "profile" <= 1)%nat /\
  exporterOk c e /\
  (c_storage c = "file" -> (exists p, c_path c = bs "/" ++ p) /\ e_mkdir e = true) /\
  (c_storage c = "elasticsearch" -> c_es c = true /\ e_es e = true) /\
  0 < c_aggInterval c /\ 0 < c_infoInterval c /\ 3 <= c_connWait c /\
  0 <= c_netChan c /\ 0 <= c_connChan c /\
  (c_k8s c = true -> e_k8s e = true) /\ e_probe e = true.

(** Main is stopping, and the receiver's Shutdown returned. *)
Definition pastReceiver (m : mpc) : Prop := In m [MNet; MTcp; MConn; MCpu; MCpuStop; MInfo].
Definition isStop (l : label) : bool := match l with SStop _ | SStart => true | _ => false end.
Definition mains (ls : list label) : nat := List.length (filter (fun l => match l with SGo => true | _ => false end) ls).
