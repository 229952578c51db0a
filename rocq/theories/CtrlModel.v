(** The control API: collector/pkg/component/controller/http_controller.go:35-85, controller.go:26-45 and profile_module.go:35-226, on top of the module of
    ModuleModel.v.  A request is its path and its body as a JSON value, [None] when it is no JSON; numbers in it are whole.
    Simplifications: encoding/json is described by what it does with a value (names in any case, the last of several, null leaves a field as it is, a value of
    another type is an error); float64 and time.ParseDuration are given functions; a panic in a handler ends that request only (net/http). *)
From Verif Require Import Base JsonModel ModuleModel.
Open Scope string_scope. Open Scope list_scope. Open Scope Z_scope.

(** encoding/json: names are compared without case; the long s and the Kelvin sign count as s and k *)
Fixpoint canon (b : bytes) : bytes :=
  match b with
  | 197 :: 191 :: r => 115 :: canon r
  | 226 :: 132 :: 170 :: r => 107 :: canon r
  | x :: r => (if (65 <=? x) && (x <=? 90) then x + 32 else x) :: canon r
  | [] => []
  end.
Definition named (field : string) (key : bytes) : bool := eqb (canon (bs field)) (canon key).
Definition int64 (n : Z) : bool := (- 2 ^ 63 <=? n) && (n <? 2 ^ 63).

(** controller.go:28-37 ControlRequest *)
Record creq := { q_op : bytes; q_pid : Z; q_tid : Z; q_opts : option json }.
Definition decodeMember (q : option creq) (p : bytes * json) : option creq :=
  match q with
  | None => None
  | Some q =>
      if named "Operation" (fst p) then
        match snd p with JStr s => Some {| q_op := s; q_pid := q_pid q; q_tid := q_tid q; q_opts := q_opts q |} | JNull => Some q | _ => None end
      else if named "Pid" (fst p) then
        match snd p with JInt n => if int64 n then Some {| q_op := q_op q; q_pid := n; q_tid := q_tid q; q_opts := q_opts q |} else None | JNull => Some q | _ => None end
      else if named "Tid" (fst p) then
        match snd p with JInt n => if int64 n then Some {| q_op := q_op q; q_pid := q_pid q; q_tid := n; q_opts := q_opts q |} else None | JNull => Some q | _ => None end
      else if named "Options" (fst p) then
        Some {| q_op := q_op q; q_pid := q_pid q; q_tid := q_tid q; q_opts := match snd p with JNull => None | v => Some v end |}
      else Some q
  end.
Definition creq0 : creq := {| q_op := []; q_pid := 0; q_tid := 0; q_opts := None |}.
(** http_controller.go:78-85 parseRequest *)
Definition parseRequest (body : option json) : option creq :=
  match body with Some (JObj m) => fold_left decodeMember m (Some creq0) | Some JNull => Some creq0 | _ => None end.

(** profile_module.go:43-46 FileWatchOption *)
Definition fileWatchOk (m : list (bytes * json)) : bool :=
  forallb (fun p =>
    if named "File" (fst p) then match snd p with JStr _ | JNull => true | _ => false end
    else if named "DataSize" (fst p) then match snd p with JInt n => int64 n | JNull => true | _ => false end
    else true) m.

(** http_controller.go:63-75: the status, the header Content-Type if it is sent, the body *)
Record answer := { a_status : Z; a_type : option string; a_body : bytes }.
(** http.ResponseWriter: a header set after WriteHeader is not sent *)
Record writer := { w_status : option Z; w_type : option string; w_body : bytes }.
Definition writeHeader (n : Z) (w : writer) : writer :=
  match w_status w with Some _ => w | None => {| w_status := Some n; w_type := w_type w; w_body := w_body w |} end.
Definition setType (t : string) (w : writer) : writer :=
  match w_status w with Some _ => w | None => {| w_status := None; w_type := Some t; w_body := w_body w |} end.
Definition write (b : bytes) (w : writer) : writer :=
  {| w_status := match w_status w with Some n => Some n | None => Some 200 end; w_type := w_type w; w_body := w_body w ++ b |}.
Definition sent (w : writer) : answer := {| a_status := match w_status w with Some n => n | None => 200 end; a_type := w_type w; a_body := w_body w |}.
Definition writer0 : writer := {| w_status := None; w_type := None; w_body := [] |}.

(** profile_module.go:92-120: C.int keeps the low 32 bits of a number *)
Definition cint (n : Z) : Z := (n + 2 ^ 31) mod 2 ^ 32 - 2 ^ 31.
(** The module, the automatic stops armed so far (nanoseconds), the calls of the native library *)
Inductive native := NAttach (pid : Z) | NDetach (pid : Z) | NDebug (pid tid : Z) | NNoDebug.
Record ctl := { k_mod : mst; k_timers : list Z; k_native : list native }.
Definition ctl0 : ctl := {| k_mod := newModule false; k_timers := []; k_native := [] |}.

(** What the outside answers: the order the sub-modules are ranged over, which of them fail, the text of their errors, the native library's message (empty: fine) *)
Record world93 := { e_order : list string; e_fails : string -> bool; e_text : bytes; e_attach : bytes }.

Section Http.
  Variable float64 : Z -> Z.                   (** int64(float64(n)) *)
  Variable parseDuration : bytes -> option Z.  (** time.ParseDuration *)

  (** profile_module.go:63-86 UnmarshalJSON: an error leaves the options empty, but one in the duration comes after the file watch is kept *)
  Definition optMember (o : option jopts) (p : bytes * json) : option jopts :=
    match o with
    | None => None
    | Some o =>
        if named "FileWatch" (fst p) then
          match snd p with
          | JObj m => if fileWatchOk m then Some {| o_dur := o_dur o; o_fileWatch := true |} else None
          | JNull => Some {| o_dur := o_dur o; o_fileWatch := false |}
          | _ => None
          end
        else if named "Duration" (fst p) then
          Some {| o_dur := match snd p with JInt n => DNum (float64 n) | JStr s => DText (parseDuration s) | _ => DOther end; o_fileWatch := o_fileWatch o |}
        else Some o
    end.
  Definition jopts0 : jopts := {| o_dur := DOther; o_fileWatch := false |}.
  Definition decodeOptions (j : json) : jopts :=
    match j with JObj m => match fold_left optMember m (Some jopts0) with Some o => o | None => jopts0 end | _ => jopts0 end.

  Definition reply (code : Z) (msg : bytes) : Z * bytes := (code, msg).
  Definition keepModule (k : ctl) (m : mst) (timers : list Z) : ctl := {| k_mod := m; k_timers := k_timers k ++ timers; k_native := k_native k |}.
  Definition callNative (k : ctl) (n : native) : ctl := {| k_mod := k_mod k; k_timers := k_timers k; k_native := k_native k ++ [n] |}.

  (** profile_module.go:122-205 HandRequest; module.go:68-106 for the messages *)
  Definition handle (e : world93) (k : ctl) (q : creq) : res (ctl * (Z * bytes)) :=
    if eqb (q_op q) (bs "start") then
      bind (getOptions (option_map decodeOptions (q_opts q))) (fun ds =>
      let '(m, err) := doStart (k_mod k) (e_order e) (e_fails e) (List.length ds) in
      Ok (keepModule k m (if m_running (k_mod k) then [] else ds),
          if err then reply StartWithError (if m_running (k_mod k) then bs "module is running now" else e_text e) else reply NoError (bs "start success")))
    else if eqb (q_op q) (bs "stop") then
      bind (doStop (k_mod k) (e_order e) (e_fails e) None) (fun '(m, err) =>
      Ok (keepModule k m [],
          if err then reply StopWithError (if m_running (k_mod k) then e_text e else bs "module is stopped now") else reply NoError (bs "stop success")))
    else if eqb (q_op q) (bs "start_attach_agent") then
      Ok (callNative k (NAttach (cint (q_pid q))), if eqb (e_attach e) [] then reply NoError (bs "start success") else reply StartWithError (e_attach e))
    else if eqb (q_op q) (bs "stop_attach_agent") then
      Ok (callNative k (NDetach (cint (q_pid q))), if eqb (e_attach e) [] then reply NoError (bs "stop success") else reply StopWithError (e_attach e))
    else if eqb (q_op q) (bs "status") then
      Ok (k, reply NoError (bs (if m_running (k_mod k) then "running" else "stopped")))
    else if eqb (q_op q) (bs "start_debug") then Ok (callNative k (NDebug (cint (q_pid q)) (cint (q_tid q))), reply NoError (bs "start debug success"))
    else if eqb (q_op q) (bs "stop_debug") then Ok (callNative k NNoDebug, reply NoError (bs "stop debug success"))
    else Ok (k, reply NoOperation (bs "unexpected operation:" ++ q_op q)).

  (** http_controller.go:35-38, 46-76: only the path of the registered module is served; [Panic]: no answer is sent *)
  Definition serve (e : world93) (k : ctl) (path : string) (body : option json) : res (ctl * answer) :=
    if negb (eqb path "/profile") then Ok (k, sent (write (bs "404 page not found" ++ [10]) (writeHeader 404 (setType "text/plain; charset=utf-8" writer0))))
    else match parseRequest body with
    | None => Ok (k, sent (write (bs "parse request failed") (writeHeader 500 writer0)))
    | Some q =>
        bind (handle e k q) (fun '(k', (code, msg)) =>
        Ok (k', sent (write (encode (JObj [(bs "Code", JInt code); (bs "Msg", JStr msg)])) (setType "application/json" (writeHeader 200 writer0)))))
    end.
End Http.
