(** What a reported record should say about the conversation it stands for. *)
From Verif Require Import Base Decimal AttrModel PoolModel EventModel PairModel.
Open Scope string_scope. Open Scope list_scope. Open Scope Z_scope.

(** The labels the analyzer writes itself, by the type of their values. *)
Definition textLabels : list string :=
  ["comm"; "src_ip"; "dst_ip"; "dnat_ip"; "container_id"; "protocol"; "request_payload"; "response_payload"].
Definition numberLabels : list string :=
  ["pid"; "request_tid"; "response_tid"; "src_port"; "dst_port"; "dnat_port"; "error_type"; "end_timestamp"].
Definition flagLabels : list string := ["is_error"; "is_slow"; "is_server"].
Definition typeOk (k : string) (v : aval) : Prop :=
  (In k textLabels -> exists s, v = SV s) /\ (In k numberLabels -> exists z, v = IV z) /\ (In k flagLabels -> exists b, v = BV b).
Definition typed (l : list (string * aval)) : Prop := forall k v, aget l k = Some v -> typeOk k v.

(** A protocol parser may set is_error and error_type, and any label that is not one of the above. *)
Definition ownLabels : list string :=
  ["comm"; "src_ip"; "dst_ip"; "dnat_ip"; "container_id"; "protocol"; "request_payload"; "response_payload";
   "pid"; "request_tid"; "response_tid"; "src_port"; "dst_port"; "dnat_port"; "end_timestamp"; "is_slow"; "is_server"].
Definition parserMaySet (a : list (string * aval)) : Prop :=
  NoDup (keys a) /\ (* it is a map *)
  (forall k, In k ownLabels -> aget a k = None) /\
  (forall v, aget a "is_error" = Some v -> exists b, v = BV b) /\
  (forall v, aget a "error_type" = Some v -> exists z, v = IV z).
Definition attributesOf (a : option (list (string * aval))) : list (string * aval) := match a with Some l => l | None => [] end.
(** The parser found an error. *)
Definition parserError (a : option (list (string * aval))) : Prop := aget (attributesOf a) "is_error" = Some (BV true).

(** The record has the label. *)
Definition says (r : group) (k : string) (v : aval) : Prop := aget (glabels r) k = Some v.
Definition measures (r : group) (n : string) (v : Z) : Prop := getMetric r n = Some (MInt v).

(** The parties, as the event [e] shows them. *)
Definition parties (e : event) (r : group) : Prop :=
  says r "pid" (IV (e_pid e)) /\ says r "comm" (SV (bs (e_comm e))) /\ says r "container_id" (SV (bs (e_cid e))) /\
  says r "is_server" (BV (e_role e)) /\
  (forall a l, e_sip e = a :: l -> says r "src_ip" (SV (ipLong2String a))) /\
  (forall a l, e_dip e = a :: l -> says r "dst_ip" (SV (ipLong2String a))) /\
  says r "src_port" (IV (e_sport e)) /\ says r "dst_port" (IV (e_dport e)).
(** The translated destination. *)
Definition translated (nt : option (bytes * Z)) (r : group) : Prop :=
  match nt with
  | Some (ip, port) => says r "dnat_ip" (SV ip) /\ says r "dnat_port" (IV port)
  | None => says r "dnat_ip" (SV []) /\ says r "dnat_port" (IV (-1))
  end.
(** The error, for a record whose conversation was [answered] or not. *)
Definition errorMarks (a : option (list (string * aval))) (answered : bool) (r : group) : Prop :=
  (says r "is_error" (BV true) <-> parserError a \/ answered = false) /\
  (says r "is_error" (BV false) <-> ~ parserError a /\ answered = true) /\
  (answered = false -> ~ parserError a -> says r "error_type" (IV 2)) /\
  (forall z, (answered = true \/ parserError a) -> aget (attributesOf a) "error_type" = Some (IV z) -> says r "error_type" (IV z)) /\
  ((answered = true \/ parserError a) -> aget (attributesOf a) "error_type" = None -> says r "error_type" (IV 0)).
(** The labels of the parser are all there. *)
Definition carries (a : option (list (string * aval))) (r : group) : Prop :=
  forall k v, k <> "is_error" -> k <> "error_type" -> aget (attributesOf a) k = Some v -> says r k v.
