(** The metadata provider: whom it thinks it serves, and what it says about each change it sees.
    collector/pkg/metadata/metaprovider/service/service.go and handler.go.
    Simplifications: net.ParseIP of texts with colons and net.SplitHostPort are parameters; of a Kubernetes object only its name and, for pods, the three parts that are
    trimmed are kept; the informer calls its handlers one at a time per type, so a history is a list. *)
From Verif Require Import Base EventModel SocketModel AddrModel.
Open Scope string_scope. Open Scope list_scope. Open Scope Z_scope.

(** * Clients *)
(** What is read of a request: the values of the two headers ("" when missing) and the remote address *)
Record request := { q_header : string -> bytes; q_remote : bytes }.
Section Ip.
Variable v6 : bytes -> bytes.
(** net.SplitHostPort: the host *)
Variable host : bytes -> option bytes.
(** net.ParseIP(s) != nil *)
Definition isIP (s : bytes) : bool := match parseIP v6 s with [] => false | _ => true end.
(** service.go:168-191 GetIPFromRequest *)
Definition getIP (q : request) : option bytes :=
  let real := q_header q "X-Real-IP" in
  if isIP real then Some real
  else match find isIP (splitOn (Z.eqb 44) (q_header q "X-Forward-For")) with
       | Some ip => Some ip
       | None => match host (q_remote q) with Some ip => if isIP ip then Some ip else None | None => None end
       end.
(** service.go:193-199: the name a client has in the log *)
Definition clientName (q : request) : bytes := match getIP q with Some ip => ip | None => bs "unknow" end.
End Ip.

(** * Changes *)
(** A pod: its name and the parts that decreasePodInfo removes *)
Record pod := { p_name : Z; p_managed : bool; p_volumes : bool; p_conditions : bool }.
(** What an informer hands out: a pod (or a nil one), another object, or the last known state of something deleted *)
Inductive obj := OPod (p : option pod) | OOther (n : Z) | OUnknown (o : obj).
(** handler.go:95-113 decreasePodInfo; the pod is changed in place *)
Definition trim (p : pod) : pod := {| p_name := p_name p; p_managed := false; p_volumes := false; p_conditions := false |}.
Definition decreasePodInfo (o : obj) : obj :=
  match o with OPod (Some p) => OPod (Some (trim p)) | OUnknown (OPod (Some p)) => OUnknown (OPod (Some (trim p))) | _ => o end.
(** A call of the informer, and what comes of it: a call of the function that keeps the provider's own cache, and a message (handler.go:21-46) *)
Inductive change := CAdd (o : obj) | CUpdate (old new : obj) | CDelete (o : obj).
Record message := { m_type : string; m_op : string; m_old : option obj; m_new : option obj }.
Inductive out := ToCache (typ : string) (c : change) | Broadcast (m : message).
Definition handle (typ : string) (c : change) : list out :=
  match c with
  | CAdd o => [ToCache typ c; Broadcast {| m_type := typ; m_op := "add"; m_old := None; m_new := Some o |}]
  | CUpdate a b => [ToCache typ c; Broadcast {| m_type := typ; m_op := "update"; m_old := Some a; m_new := Some b |}]
  | CDelete o => [ToCache typ c; Broadcast {| m_type := typ; m_op := "delete"; m_old := Some o; m_new := None |}]
  end.
(** handler.go:69-93 NewHandler: for pods, AddObj and UpdateObj are the embedded handler's, and DeleteObj trims first (:64-67) *)
Definition registered (typ : string) (c : change) : list out :=
  if eqb typ "pod" then match c with CDelete o => handle typ (CDelete (decreasePodInfo o)) | _ => handle typ c end else handle typ c.

(** * Counters *)
(** service.go:38-53 EventCount and :125-135, the beginning of broadcast *)
Record counts := { n_add : Z; n_update : Z; n_delete : Z }.
Definition addEvent (c : counts) (o : string) : counts :=
  if eqb o "add" then {| n_add := n_add c + 1; n_update := n_update c; n_delete := n_delete c |}
  else if eqb o "update" then {| n_add := n_add c; n_update := n_update c + 1; n_delete := n_delete c |}
  else if eqb o "delete" then {| n_add := n_add c; n_update := n_update c; n_delete := n_delete c + 1 |}
  else c.
Record provider := { v_pods : counts; v_rs : counts; v_nodes : counts; v_services : counts }.
Definition count (v : provider) (m : message) : provider :=
  let o := m_op m in
  if eqb (m_type m) "pod" then {| v_pods := addEvent (v_pods v) o; v_rs := v_rs v; v_nodes := v_nodes v; v_services := v_services v |}
  else if eqb (m_type m) "rs" then {| v_pods := v_pods v; v_rs := addEvent (v_rs v) o; v_nodes := v_nodes v; v_services := v_services v |}
  else if eqb (m_type m) "node" then {| v_pods := v_pods v; v_rs := v_rs v; v_nodes := addEvent (v_nodes v) o; v_services := v_services v |}
  else if eqb (m_type m) "service" then {| v_pods := v_pods v; v_rs := v_rs v; v_nodes := v_nodes v; v_services := addEvent (v_services v) o |}
  else v.
Definition none : counts := {| n_add := 0; n_update := 0; n_delete := 0 |}.
(** The calls of the informers in some order, each for one of the types of service.go:95-122; what happens, in order, and the counters afterwards *)
Fixpoint serve (v : provider) (h : list (string * change)) : list out * provider :=
  match h with
  | [] => ([], v)
  | (typ, c) :: r =>
      let os := registered typ c in
      let v' := fold_left (fun v o => match o with Broadcast m => count v m | _ => v end) os v in
      let '(rest, v'') := serve v' r in (os ++ rest, v'')
  end.
Definition fresh : provider := {| v_pods := none; v_rs := none; v_nodes := none; v_services := none |}.
(** service.go:55-57 and 73-78: the counters in the log *)
Definition counter (v : provider) (typ op : string) : Z :=
  let c := if eqb typ "pod" then v_pods v else if eqb typ "rs" then v_rs v else if eqb typ "node" then v_nodes v else v_services v in
  if eqb op "add" then n_add c else if eqb op "update" then n_update c else n_delete c.
