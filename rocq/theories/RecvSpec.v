(** What the collector is to make of the events of the probe, in words of the C struct and of the Go event. *)
From Verif Require Import Base EventModel RouteModel RecvModel.
Open Scope string_scope. Open Scope list_scope. Open Scope Z_scope.

(** The C string [s] (without its NUL) is at [p]; NULL stands for the empty string. *)
Definition stringAt (p : cptr) (s : bytes) : Prop :=
  match p with None => s = [] | Some mem => exists rest, mem = s ++ 0 :: rest /\ ~ In 0 s end.
(** The [n] bytes [v] are at [p]. *)
Definition bytesAt (p : cptr) (n : Z) (v : bytes) : Prop :=
  zlen v = n /\ (n = 0 \/ exists rest, p = Some (v ++ rest)).
(** A C struct: unsigned 16 and 32 bit numbers, enumerations that are small, arrays of 16 and 4. *)
Definition enum (n : Z) : Prop := 0 <= n < 2 ^ 31.
Definition cstruct (c : cevent) : Prop :=
  0 <= c_params c < 2 ^ 16 /\ List.length (c_attrs c) = 16%nat /\ List.length (c_sip c) = 4%nat /\ List.length (c_dip c) = 4%nat /\
  enum (c_cat c) /\ enum (c_fdtype c) /\ enum (c_proto c) /\
  Forall (fun a => 0 <= ca_len a < 2 ^ 32 /\ enum (ca_type a)) (c_attrs c).

(** The Go event says the same as the C event: every number, every string, every parameter in its slot, no others. *)
Definition sameAttr (a : cattr) (k : kattr) : Prop :=
  stringAt (ca_key a) (ka_key k) /\ bytesAt (ca_val a) (ca_len a) (ka_val k) /\ ka_type k = ca_type a.
Definition sameAttrs (n : Z) (l : list cattr) (l' : list kattr) : Prop :=
  n <= 16 /\ List.length l' = 16%nat /\
  forall i a k, nth_error l i = Some a -> nth_error l' i = Some k ->
    (Z.of_nat i < n -> sameAttr a k) /\ (n <= Z.of_nat i -> k = {| ka_key := []; ka_val := []; ka_type := 0 |}).
Definition same (c : cevent) (k : kevent) : Prop :=
  k_ts k = c_ts c /\ k_lat k = c_lat c /\ stringAt (c_name c) (k_name k) /\ k_cat k = c_cat c /\
  k_params k = c_params c /\ sameAttrs (c_params c) (c_attrs c) (k_attrs k) /\
  k_pid k = c_pid c /\ k_tid k = c_tid c /\ k_uid k = c_uid c /\ k_gid k = c_gid c /\
  stringAt (c_comm c) (k_comm k) /\ stringAt (c_cid c) (k_cid k) /\
  k_fd k = c_fd c /\ k_fdtype k = c_fdtype c /\ stringAt (c_file c) (k_file k) /\ stringAt (c_dir c) (k_dir k) /\
  k_proto k = c_proto c /\ (k_role k = true <-> c_role c <> 0) /\ k_sip k = c_sip c /\ k_dip k = c_dip c /\
  k_sport k = c_sport c /\ k_dport k = c_dport c /\ k_src k = c_src c /\ k_dst k = c_dst c.

(** The numbers the probe and the collector agree on for value types and protocols (kindling_event.go:105-119, 221-227) *)
Definition typeNumber (t : vtype) : Z :=
  match t with
  | TNone => 0 | TInt8 => 1 | TInt16 => 2 | TInt32 => 3 | TInt64 => 4 | TUint8 => 5 | TUint16 => 6 | TUint32 => 7 | TUint64 => 8
  | TCharbuf => 9 | TBytebuf => 10 | TFloat => 11 | TDouble => 12 | TBool => 13
  end.
Definition protoNumber (p : l4proto) : Z := match p with L4Unknown => 0 | L4Tcp => 1 | L4Udp => 2 | L4Icmp => 3 | L4Raw => 4 end.

(** What the probe has to keep to: at most 16 parameters, lengths below 2^31, strings that end, values that are there. *)
Definition terminated (p : cptr) : Prop := match p with None => True | Some mem => In 0 mem end.
Definition present (p : cptr) (n : Z) : Prop := n = 0 \/ exists mem, p = Some mem /\ n <= zlen mem.
Definition readable (c : cevent) : Prop :=
  terminated (c_name c) /\ terminated (c_comm c) /\ terminated (c_cid c) /\ terminated (c_file c) /\ terminated (c_dir c) /\
  c_params c <= 16 /\
  forall i a, Z.of_nat i < c_params c -> nth_error (c_attrs c) i = Some a ->
    terminated (ca_key a) /\ ca_len a < 2 ^ 31 /\ present (ca_val a) (ca_len a).

(** The events the probe returned in a run, in order. *)
Fixpoint probed (ls : list rlabel) : list cevent :=
  match ls with [] => [] | LPoll batch :: ls' => batch ++ probed ls' | _ :: ls' => probed ls' end.
(** The event the consuming loop is working on, and those of its batch the reading loop has not put into the channel. *)
Definition inHand (s : rst) : list kevent := match r_cons s with CHand e => [e] | _ => [] end.
Definition unsent (s : rst) : list cevent := match r_prod s with PLoop rest | PCount _ rest => rest | _ => [] end.
(** Both loops are running. *)
Definition started (s : rst) : Prop := r_prod s <> PNew /\ r_cons s <> CNew.
(** No goroutine can go on. *)
Definition stuck (cap : Z) (s : rst) : Prop := forall l, rdo cap l s = None.
