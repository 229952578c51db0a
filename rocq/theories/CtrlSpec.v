(** What a user of the control API sees, in terms of the JSON they send and read. *)
From Verif Require Import Base JsonModel JsonSpec ModuleModel CtrlModel.
Open Scope string_scope. Open Scope list_scope. Open Scope Z_scope.

(** The value of the last member with this name, in any case, that is not null *)
Fixpoint lastGiven (field : string) (m : list (bytes * json)) : option json :=
  match m with
  | [] => None
  | (key, v) :: m =>
      match lastGiven field m with
      | Some w => Some w
      | None => if named field key then match v with JNull => None | _ => Some v end else None
      end
  end.
(** The value of the last member with this name, null or not *)
Fixpoint lastMember (field : string) (m : list (bytes * json)) : option json :=
  match m with
  | [] => None
  | (key, v) :: m => match lastMember field m with Some w => Some w | None => if named field key then Some v else None end
  end.
(** A request that can be understood: an object whose operation is a text and whose process and thread are numbers of 64 bits; other members are ignored *)
Definition understood (m : list (bytes * json)) : Prop :=
  forall key v, In (key, v) m ->
    (named "Operation" key = true -> v = JNull \/ exists s, v = JStr s) /\
    (named "Pid" key = true \/ named "Tid" key = true -> v = JNull \/ exists n, v = JInt n /\ - 2 ^ 63 <= n < 2 ^ 63).
Definition operation (m : list (bytes * json)) : bytes := match lastGiven "Operation" m with Some (JStr s) => s | _ => [] end.
Definition number (field : string) (m : list (bytes * json)) : Z := match lastGiven field m with Some (JInt n) => n | _ => 0 end.
Definition options (m : list (bytes * json)) : option json := match lastMember "Options" m with Some JNull => None | x => x end.
(** The number of 32 bits with the same low 32 bits; a number of 32 bits itself *)
Definition low32 (p n : Z) : Prop := - 2 ^ 31 <= p < 2 ^ 31 /\ (2 ^ 32 | n - p).
(** Names in ASCII are compared without case *)
Definition lower (b : bytes) : bytes := map (fun x => if (65 <=? x) && (x <=? 90) then x + 32 else x) b.

(** Options that ask for a file watch: each member of that name is null or an object whose file is a text and whose size a number of 64 bits, the last an object *)
Definition watchable (v : json) : Prop :=
  v = JNull \/ exists fw, v = JObj fw /\ forall key w, In (key, w) fw ->
    (named "File" key = true -> w = JNull \/ exists s, w = JStr s) /\
    (named "DataSize" key = true -> w = JNull \/ exists n, w = JInt n /\ - 2 ^ 63 <= n < 2 ^ 63).
Definition watches (o : list (bytes * json)) : Prop :=
  (forall key v, In (key, v) o -> named "FileWatch" key = true -> watchable v) /\ exists fw, lastMember "FileWatch" o = Some (JObj fw).
(** A name of a member, of any bytes, and the small ASCII letters it counts as: ASCII without case, the long s (C5 BF) as s, the Kelvin sign (E2 84 AA) as k *)
Inductive folds : bytes -> bytes -> Prop :=
| FNil : folds [] []
| FAscii x key n : 0 <= x < 128 -> folds key n -> folds (x :: key) ((if (65 <=? x) && (x <=? 90) then x + 32 else x) :: n)
| FLongS key n : folds key n -> folds (197 :: 191 :: key) (115 :: n)
| FKelvin key n : folds key n -> folds (226 :: 132 :: 170 :: key) (107 :: n).

(** What can happen: a request, or a step of the goroutines that stop the module *)
Inductive event := ERequest (e : world93) (path : string) (body : option json) | EGoroutine (o : mop).
Definition isRequest (o : mop) : bool := match o with MReq _ => true | _ => false end.
Section Run.
  Variable float64 : Z -> Z.
  Variable parseDuration : bytes -> option Z.
  (** a panic in a handler leaves everything as it was *)
  Definition happens (k : ctl) (x : event) : ctl :=
    match x with
    | ERequest e path body => match serve float64 parseDuration e k path body with Ok (k', _) => k' | _ => k end
    | EGoroutine o => match mstep (k_mod k) o with Ok (m, _) => {| k_mod := m; k_timers := k_timers k; k_native := k_native k |} | _ => k end
    end.
  Definition after (h : list event) : ctl := fold_left happens h ctl0.
End Run.
