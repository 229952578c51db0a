(** collector/pkg/component/receiver/cgoreceiver: the conversion of the probe's C events and the two loops that hand
    them to the analyzers (cgoreceiver.go:84-167, 176-192), with Start and Shutdown as far as they concern these loops.
    The probe itself (C.getEventsByInterval), the capture statistics and the profiling calls are not modelled. *)
From Verif Require Import Base EventModel RouteModel.
From Coq Require Import Ascii.
Open Scope string_scope. Open Scope list_scope. Open Scope Z_scope.

(** ** C events *)
(** A pointer in the C struct: NULL, or the bytes that can be read from it on. *)
Definition cptr := option bytes.
(** cgo_func.h:51-56 *)
Record cattr := { ca_key : cptr; ca_val : cptr; ca_len : Z; ca_type : Z }.
(** cgo_func.h:44-81 kindling_event_t_for_go; [c_attrs] are the 16 slots, [c_sip] and [c_dip] the 4 words. *)
Record cevent := {
  c_ts : Z; c_name : cptr; c_cat : Z; c_params : Z; c_lat : Z; c_attrs : list cattr;
  c_pid : Z; c_tid : Z; c_uid : Z; c_gid : Z; c_comm : cptr; c_cid : cptr;
  c_fd : Z; c_fdtype : Z; c_file : cptr; c_dir : cptr; c_proto : Z; c_role : Z;
  c_sip : list Z; c_dip : list Z; c_sport : Z; c_dport : Z; c_src : Z; c_dst : Z }.
(** kindling_event.go:250-265, 308-315, 338-372, 402-422: all the fields the conversion sets *)
Record kattr := { ka_key : bytes; ka_val : bytes; ka_type : Z }.
Record kevent := {
  k_ts : Z; k_name : bytes; k_cat : Z; k_params : Z; k_lat : Z; k_attrs : list kattr;
  k_pid : Z; k_tid : Z; k_uid : Z; k_gid : Z; k_comm : bytes; k_cid : bytes;
  k_fd : Z; k_fdtype : Z; k_file : bytes; k_dir : bytes; k_proto : Z; k_role : bool;
  k_sip : list Z; k_dip : list Z; k_sport : Z; k_dport : Z; k_src : Z; k_dst : Z }.

(** C.GoString: the bytes before the first NUL, nothing for a NULL pointer.  Reading past the memory is taken as a crash. *)
Fixpoint untilNul (mem : bytes) : res bytes :=
  match mem with
  | [] => Panic
  | x :: mem' => if x =? 0 then Ok [] else bind (untilNul mem') (fun s => Ok (x :: s))
  end.
Definition goString (p : cptr) : res bytes := match p with None => Ok [] | Some m => untilNul m end.
(** C.GoBytes of a length converted to C.int (:163): a negative length panics *)
Definition goBytes (p : cptr) (len : Z) : res bytes :=
  let n := s32 len in
  if n <? 0 then Panic else if n =? 0 then Ok [] else
  match p with None => Panic | Some m => if n <=? zlen m then Ok (firstn (Z.to_nat n) m) else Panic end.

Definition blank : kattr := {| ka_key := []; ka_val := []; ka_type := 0 |}.
(** :160-165: [n] parameters into the slots; an index of 16 or more is out of range *)
Fixpoint convertAttrs (n : nat) (l : list cattr) : res (list kattr) :=
  match n, l with
  | O, _ => Ok (map (fun _ => blank) l)
  | S _, [] => Panic
  | S n', a :: l' =>
      bind (goString (ca_key a)) (fun k => bind (goBytes (ca_val a) (ca_len a)) (fun v =>
      bind (convertAttrs n' l') (fun r => Ok ({| ka_key := k; ka_val := v; ka_type := s32 (ca_type a) |} :: r))))
  end.
(** :130-167 convertEvent.  The numbers of the C struct have the widths of the Go fields, except the enumerations
    (category, fdType, protocol, value type), which become int32. *)
Definition convertEvent (c : cevent) : res kevent :=
  bind (goString (c_name c)) (fun name => bind (goString (c_comm c)) (fun comm => bind (goString (c_cid c)) (fun cid =>
  bind (goString (c_file c)) (fun file => bind (goString (c_dir c)) (fun dir =>
  bind (convertAttrs (Z.to_nat (c_params c)) (c_attrs c)) (fun attrs =>
  Ok {| k_ts := c_ts c; k_name := name; k_cat := s32 (c_cat c); k_params := c_params c; k_lat := c_lat c; k_attrs := attrs;
        k_pid := c_pid c; k_tid := c_tid c; k_uid := c_uid c; k_gid := c_gid c; k_comm := comm; k_cid := cid;
        k_fd := c_fd c; k_fdtype := s32 (c_fdtype c); k_file := file; k_dir := dir; k_proto := s32 (c_proto c);
        k_role := negb (c_role c =? 0); k_sip := firstn 4 (c_sip c); k_dip := firstn 4 (c_dip c);
        k_sport := c_sport c; k_dport := c_dport c; k_src := c_src c; k_dst := c_dst c |})))))).

(** The event as the analyzers' models see it (EventModel.v). *)
Definition str (b : bytes) : string := string_of_list_ascii (map (fun z => ascii_of_nat (Z.to_nat z)) b).
(** kindling_event.go:103-120; a number without a constant is read like NONE by every accessor *)
Definition vtypeOf (n : Z) : vtype :=
  if n =? 1 then TInt8 else if n =? 2 then TInt16 else if n =? 3 then TInt32 else if n =? 4 then TInt64 else
  if n =? 5 then TUint8 else if n =? 6 then TUint16 else if n =? 7 then TUint32 else if n =? 8 then TUint64 else
  if n =? 9 then TCharbuf else if n =? 10 then TBytebuf else if n =? 11 then TFloat else if n =? 12 then TDouble else
  if n =? 13 then TBool else TNone.
(** kindling_event.go:221-227 *)
Definition protoOf (n : Z) : l4proto :=
  if n =? 1 then L4Tcp else if n =? 2 then L4Udp else if n =? 3 then L4Icmp else if n =? 4 then L4Raw else L4Unknown.
(** kindling_event.go:56 *)
Definition CAT_NET := 3.
Definition view (k : kevent) : event :=
  {| e_name := str (k_name k); e_ts := k_ts k; e_lat := k_lat k; e_net := k_cat k =? CAT_NET; e_params := k_params k;
     e_attrs := map (fun a => {| kv_key := str (ka_key a); kv_type := vtypeOf (ka_type a); kv_val := ka_val a |}) (k_attrs k);
     e_pid := k_pid k; e_tid := k_tid k; e_comm := str (k_comm k); e_cid := str (k_cid k);
     e_fd := k_fd k; e_proto := protoOf (k_proto k); e_role := k_role k;
     e_sip := k_sip k; e_dip := k_dip k; e_sport := k_sport k; e_dport := k_dport k |}.

(** ** The two loops *)
(** startGetEvents (:84-103): not running yet, at the select, in the call of the probe, with the rest of a batch, between
    the send and the count of an event, returned *)
Inductive ppc : Type := PNew | PTop | PPoll | PLoop (rest : list cevent) | PCount (e : kevent) (rest : list cevent) | PEnd.
(** consumeEvents (:106-120): not running yet, at the select, with an event, returned *)
Inductive cpc : Type := CNew | CTop | CHand (e : kevent) | CEnd.
(** Shutdown (:122-128): not called, waiting for the two loops, returned *)
Inductive spc : Type := SNo | SWait | SRet.
(** [r_chan] is eventChannel, [r_stop] says stopCh is closed, [r_wg] is shutdownWG, [r_out] the events given to
    sendToNextConsumer in order, [r_counted] the names stats.add was called with, [r_crash] that a conversion panicked. *)
Record rst := { r_prod : ppc; r_cons : cpc; r_shut : spc; r_chan : list kevent; r_stop : bool; r_wg : Z;
                r_out : list kevent; r_counted : list bytes; r_crash : bool }.
(** :47-63 NewCgoReceiver and :77-78: the goroutines are created, not yet running *)
Definition rinit : rst := {| r_prod := PNew; r_cons := CNew; r_shut := SNo; r_chan := []; r_stop := false; r_wg := 0; r_out := []; r_counted := []; r_crash := false |}.

Inductive rlabel : Type :=
| LProdStart | LProdTop | LPoll (batch : list cevent) | LSend | LCount
| LConsStart | LTake | LDeliver | LConsStop
| LShutdown | LReturn.

Definition setProd (s : rst) (p : ppc) : rst :=
  {| r_prod := p; r_cons := r_cons s; r_shut := r_shut s; r_chan := r_chan s; r_stop := r_stop s; r_wg := r_wg s; r_out := r_out s; r_counted := r_counted s; r_crash := r_crash s |}.
Definition setCons (s : rst) (c : cpc) : rst :=
  {| r_prod := r_prod s; r_cons := c; r_shut := r_shut s; r_chan := r_chan s; r_stop := r_stop s; r_wg := r_wg s; r_out := r_out s; r_counted := r_counted s; r_crash := r_crash s |}.
Definition setChan (s : rst) (c : list kevent) : rst :=
  {| r_prod := r_prod s; r_cons := r_cons s; r_shut := r_shut s; r_chan := c; r_stop := r_stop s; r_wg := r_wg s; r_out := r_out s; r_counted := r_counted s; r_crash := r_crash s |}.
Definition addWg (s : rst) (d : Z) : rst :=
  {| r_prod := r_prod s; r_cons := r_cons s; r_shut := r_shut s; r_chan := r_chan s; r_stop := r_stop s; r_wg := r_wg s + d; r_out := r_out s; r_counted := r_counted s; r_crash := r_crash s |}.
Definition setShut (s : rst) (x : spc) (stop : bool) : rst :=
  {| r_prod := r_prod s; r_cons := r_cons s; r_shut := x; r_chan := r_chan s; r_stop := stop; r_wg := r_wg s; r_out := r_out s; r_counted := r_counted s; r_crash := r_crash s |}.
Definition emit (s : rst) (e : kevent) : rst :=
  {| r_prod := r_prod s; r_cons := r_cons s; r_shut := r_shut s; r_chan := r_chan s; r_stop := r_stop s; r_wg := r_wg s; r_out := r_out s ++ [e]; r_counted := r_counted s; r_crash := r_crash s |}.
Definition count (s : rst) (n : bytes) : rst :=
  {| r_prod := r_prod s; r_cons := r_cons s; r_shut := r_shut s; r_chan := r_chan s; r_stop := r_stop s; r_wg := r_wg s; r_out := r_out s; r_counted := r_counted s ++ [n]; r_crash := r_crash s |}.
Definition crash (s : rst) : rst :=
  {| r_prod := r_prod s; r_cons := r_cons s; r_shut := r_shut s; r_chan := r_chan s; r_stop := r_stop s; r_wg := r_wg s; r_out := r_out s; r_counted := r_counted s; r_crash := true |}.

(** One step of one goroutine; None when it cannot be taken.  [cap] is the capacity of eventChannel (3e5, :56);
    a call of the probe returns at most 1000 events (:86). *)
Definition rdo (cap : Z) (l : rlabel) (s : rst) : option rst :=
  if r_crash s then None else
  match l with
  | LProdStart => match r_prod s with PNew => Some (addWg (setProd s PTop) 1) | _ => None end       (* :87 *)
  | LProdTop => match r_prod s with                                                                 (* :90-94 *)
      | PTop => Some (if r_stop s then addWg (setProd s PEnd) (-1) else setProd s PPoll)
      | _ => None end
  | LPoll batch => match r_prod s with                                                              (* :95 *)
      | PPoll => if zlen batch <=? 1000 then Some (setProd s (PLoop batch)) else None
      | _ => None end
  | LSend => match r_prod s with                                                                    (* :96-98 *)
      | PLoop [] => Some (setProd s PTop)
      | PLoop (c :: rest) => match convertEvent c with
          | Ok e => if zlen (r_chan s) <? cap then Some (setChan (setProd s (PCount e rest)) (r_chan s ++ [e])) else None
          | _ => Some (crash s) end
      | _ => None end
  | LCount => match r_prod s with PCount e rest => Some (count (setProd s (PLoop rest)) (k_name e)) | _ => None end   (* :99 *)
  | LConsStart => match r_cons s with CNew => Some (addWg (setCons s CTop) 1) | _ => None end       (* :107 *)
  | LTake => match r_cons s, r_chan s with CTop, e :: q => Some (setChan (setCons s (CHand e)) q) | _, _ => None end    (* :113 *)
  | LDeliver => match r_cons s with CHand e => Some (emit (setCons s CTop) e) | _ => None end       (* :114 *)
  | LConsStop => match r_cons s with CTop => if r_stop s then Some (addWg (setCons s CEnd) (-1)) else None | _ => None end  (* :110-112 *)
  | LShutdown => match r_shut s with SNo => Some (setShut s SWait true) | _ => None end             (* :125 *)
  | LReturn => match r_shut s with SWait => if r_wg s =? 0 then Some (setShut s SRet (r_stop s)) else None | _ => None end  (* :126 *)
  end.
Fixpoint rrun (cap : Z) (ls : list rlabel) (s : rst) : option rst :=
  match ls with
  | [] => Some s
  | l :: ls' => match rdo cap l s with Some s' => rrun cap ls' s' | None => None end
  end.

(** What the analyzers get (:114, :176-192) and what the counters show (:60, :99). *)
Definition deliveries (m : manager) (s : rst) : list (nat * (string * kevent)) := consumeEvents m (map (fun e => (str (k_name e), e)) (r_out s)).
Definition counters (subs : list bytes) (s : rst) : list (bytes * Z) := statsAfter subs (r_counted s).
