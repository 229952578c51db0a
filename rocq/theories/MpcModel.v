(** The connection of a collector to the metadata provider: metaprovider/client/client.go:32-101 (ListAndWatch, apply),
    client/unwrapper_handler.go:84-129 (Apply), kubernetes/initk8s.go:116-133 (watchFromMPWithRetry), and what the provider writes
    (service/handler.go:21-47, service/service.go:127-156, 209-231).
    The text of JSON is not modelled: the encoders and decoders are parameters, and what is needed of them is said where it is needed
    (MpcSpec.v).  A response is what arrives of it until the connection ends; whether it ends with io.EOF or with another error makes no
    difference (client.go:63-71).  A listing has all its tables, as the provider writes it.  Debug output is left out. *)
From Verif Require Import Base K8sModel SnapModel.
Open Scope string_scope. Open Scope list_scope. Open Scope Z_scope.

(** api.go MetaDataVO: a field that is absent leaves its json.RawMessage nil; null does not *)
Record vo := { v_type : bytes; v_op : bytes; v_new : option bytes; v_old : option bytes }.
(** What the HTTP client gives: no response, or a status and the part of the body that arrives *)
Inductive response := NoResponse | Response (code : Z) (body : bytes).
(** What a connection does to the caches, and how it ends: with an error, without one, or with a panic (client.go:99) *)
Inductive cact := ASetup (s : snapshot) | AEvent (o : kop).
Inductive outcome := Failed | Ended | Stopped.

(** bufio.Reader.ReadBytes up to a line feed, which is dropped here (it is white space for JSON): the line, and what follows *)
Fixpoint readLine (acc s : bytes) : bytes * bytes :=
  match s with
  | [] => (rev acc, [])
  | c :: s' => if c =? 10 then (rev acc, s') else readLine (c :: acc) s'
  end.
(** client.go:61-71: the lines the loop gets: those that are ended by a line feed *)
Fixpoint lines (acc s : bytes) : list bytes :=
  match s with
  | [] => []
  | c :: s' => if c =? 10 then rev acc :: lines [] s' else lines (c :: acc) s'
  end.

Section Client.
  Context (decL : bytes -> option snapshot) (decVO : bytes -> option vo)
          (decPod : bytes -> option pod) (decSvc : bytes -> option service) (decRs : bytes -> option replicaset) (decNode : bytes -> option node).
  (** unwrapper_handler.go:84-129 Apply; [None]: an error *)
  Definition unwrap {O} (dec : bytes -> option O) (add : O -> kop) (update : O -> O -> kop) (del : O -> kop) (v : vo) : option kop :=
    if eqb (v_op v) (bs "add") then
      match v_new v with
      | None => None
      | Some b => option_map add (dec b)
      end
    else if eqb (v_op v) (bs "update") then
      match v_new v, v_old v with
      | Some b, Some a => match dec a with
                          | None => None
                          | Some old => match dec b with None => None | Some new => Some (update old new) end
                          end
      | _, _ => None
      end
    else if eqb (v_op v) (bs "delete") then
      match v_old v with
      | None => None
      | Some a => option_map del (dec a)
      end
    else None.
  (** client.go:83-101 apply; an error makes log.Panicf panic *)
  Definition applyVO (v : vo) : res (option kop) :=
    let f o := match o with None => Panic | Some k => Ok (Some k) end in
    if eqb (v_type v) (bs "pod") then f (unwrap decPod OAddPod OUpdatePod (fun p => ODeletePod (Some p)) v)
    else if eqb (v_type v) (bs "service") then f (unwrap decSvc OAddService OUpdateService (fun s => ODeleteService (Some s)) v)
    else if eqb (v_type v) (bs "rs") then f (unwrap decRs OAddRs OUpdateRs (fun r => ODeleteRs (Some r)) v)
    else if eqb (v_type v) (bs "node") then f (unwrap decNode OAddNode OUpdateNode (fun n => ODeleteNode (Some n)) v)
    else Ok None.
  (** client.go:61-79 the loop; a line that is no MetaDataVO is skipped *)
  Fixpoint watchLoop (ls : list bytes) : list cact * outcome :=
    match ls with
    | [] => ([], Ended)
    | l :: ls' =>
        match decVO l with
        | None => watchLoop ls'
        | Some v => match applyVO v with
                    | Ok None => watchLoop ls'
                    | Ok (Some o) => let r := watchLoop ls' in (AEvent o :: fst r, snd r)
                    | _ => ([], Stopped)
                    end
        end
    end.
  (** client.go:32-81 ListAndWatch; the error of reading the first line is ignored, as in the code *)
  Definition listAndWatch (r : response) : list cact * outcome :=
    match r with
    | NoResponse => ([], Failed)
    | Response code body =>
        if code =? 500 then ([], Failed)
        else let q := readLine [] body in
             match decL (fst q) with
             | None => ([], Failed)
             | Some s => let w := watchLoop (lines [] (snd q)) in (ASetup s :: fst w, snd w)
             end
    end.
End Client.

(** initk8s.go:116-133: an attempt to connect, the pause of a minute, the end of the process *)
Inductive ract := Try | Pause | Dead.
(** [i] is the variable of the inner loop; the list is how the attempts end.  After a connection that ended without an error i is set to 0,
    and continue increments it. *)
Fixpoint retry (i : Z) (os : list outcome) : list ract :=
  match os with
  | [] => []
  | o :: os' =>
      Try :: match o with
             | Stopped => [Dead]
             | Ended => let i := 0 in if i + 1 <? 3 then retry (i + 1) os' else Pause :: retry 0 os'
             | Failed => if i + 1 <? 3 then retry (i + 1) os' else Pause :: retry 0 os'
             end
  end.

(** The caches of the collector: loaded, changed by an event, or by a round of its own deletions (pod_delete.go:35-62); [n] numbers the
    range statements, [now] is the time. *)
Inductive cop := CAct (a : cact) | CRound.
Section Caches.
  Context (builtIn : bytes -> bool) (lower : bytes -> bytes) (myNode : bytes) (it : forall A : Type, nat -> list A -> list A) (grace : Z).
  Definition cacheStep (st : kstate) (x : nat * Z * cop) : kstate :=
    let '(n, now, o) := x in
    match o with
    | CAct (ASetup s) => load myNode it n s
    | CAct (AEvent e) => kstep builtIn lower myNode it grace n now e st
    | CRound => kstep builtIn lower myNode it grace n now ODeleteRound st
    end.
  Definition caches (st : kstate) (l : list (nat * Z * cop)) : kstate := fold_left cacheStep l st.
End Caches.

(** *** The provider *)
(** What happens to an object; the last: it is gone, and its last version was not seen (cache.DeletedFinalStateUnknown) *)
Inductive change (O : Type) := CAdd (o : O) | CUpdate (old new : O) | CDelete (o : O) | CLate (o : O).
Arguments CAdd {O}. Arguments CUpdate {O}. Arguments CDelete {O}. Arguments CLate {O}.
Inductive pevent := EPod (c : change pod) | ESvc (c : change service) | ERs (c : change replicaset) | ENode (c : change node).
Section Provider.
  Context (encL : snapshot -> bytes) (encVO : vo -> bytes)
          (encPod : pod -> bytes) (encSvc : service -> bytes) (encRs : replicaset -> bytes) (encNode : node -> bytes)
          (latePod : pod -> bytes) (lateSvc : service -> bytes) (lateRs : replicaset -> bytes) (lateNode : node -> bytes).
  (** handler.go:21-47; an object that is not set is written as null *)
  Definition voOf {O} (t : bytes) (enc late : O -> bytes) (c : change O) : vo :=
    match c with
    | CAdd o => {| v_type := t; v_op := bs "add"; v_new := Some (enc o); v_old := Some (bs "null") |}
    | CUpdate old new => {| v_type := t; v_op := bs "update"; v_new := Some (enc new); v_old := Some (enc old) |}
    | CDelete o => {| v_type := t; v_op := bs "delete"; v_new := Some (bs "null"); v_old := Some (enc o) |}
    | CLate o => {| v_type := t; v_op := bs "delete"; v_new := Some (bs "null"); v_old := Some (late o) |}
    end.
  (** service.go:96-123: the types *)
  Definition message (e : pevent) : vo :=
    match e with
    | EPod c => voOf (bs "pod") encPod latePod c
    | ERs c => voOf (bs "rs") encRs lateRs c
    | ENode c => voOf (bs "node") encNode lateNode c
    | ESvc c => voOf (bs "service") encSvc lateSvc c
    end.
  (** service.go:147, 219: a line each *)
  Definition stream (s : snapshot) (es : list pevent) : bytes := encL s ++ [10] ++ flat_map (fun e => encVO (message e) ++ [10]) es.
End Provider.
