(** collector/pkg/model: kernel events, their user attributes and addresses, and the splitting of sendmmsg events.
    The native byte order is taken to be little endian (kindling_event_helper.go:23-31 finds it out at start).
    Float attributes (GetFloatUserAttribute, GetDoubleUserAttribute) are not modelled. *)
From Verif Require Import Base Decimal.
Open Scope string_scope. Open Scope list_scope. Open Scope Z_scope.

(** kindling_event.go:103-120 *)
Inductive vtype : Type :=
| TNone | TInt8 | TInt16 | TInt32 | TInt64 | TUint8 | TUint16 | TUint32 | TUint64 | TCharbuf | TBytebuf | TFloat | TDouble | TBool.
(** kindling_event.go:308-315 *)
Record keyvalue := { kv_key : string; kv_type : vtype; kv_val : bytes }.
(** kindling_event.go:224-228 *)
Inductive l4proto : Type := L4Unknown | L4Tcp | L4Udp | L4Icmp | L4Raw.
(** kindling_event.go:253-276, 338-372 (Thread), 402-422 (Fd).  Only the fields the collector reads.
    [IPs] are slices of uint32; Num is an int32. *)
Record event := {
  e_name : string; e_ts : Z; e_lat : Z; e_net : bool;      (* category is CAT_NET *)
  e_params : Z; e_attrs : list keyvalue;                   (* ParamsNumber and the 16 slots *)
  e_pid : Z; e_tid : Z; e_comm : string; e_cid : string;
  e_fd : Z; e_proto : l4proto; e_role : bool;
  e_sip : list Z; e_dip : list Z; e_sport : Z; e_dport : Z }.

(** kindling_event_helper.go:105-118 GetUserAttribute; [n] slots are in use *)
Fixpoint findAttr (n : nat) (l : list keyvalue) (key : string) : option keyvalue :=
  match n, l with
  | S n', kv :: l' => if eqb (kv_key kv) key then Some kv else findAttr n' l' key
  | _, _ => None
  end.
Definition getUserAttribute (e : event) (key : string) : option keyvalue :=
  if e_params e =? 0 then None else findAttr (Z.to_nat (e_params e)) (e_attrs e) key.

(** kindling_event_helper.go:120-133 SetUserAttribute *)
Fixpoint setAttr (n : nat) (l : list keyvalue) (key : string) (v : bytes) : list keyvalue :=
  match n, l with
  | S n', kv :: l' => if eqb (kv_key kv) key
                      then {| kv_key := kv_key kv; kv_type := kv_type kv; kv_val := v |} :: l'
                      else kv :: setAttr n' l' key v
  | _, _ => l
  end.
Definition withAttrs (e : event) (l : list keyvalue) : event :=
  {| e_name := e_name e; e_ts := e_ts e; e_lat := e_lat e; e_net := e_net e; e_params := e_params e; e_attrs := l;
     e_pid := e_pid e; e_tid := e_tid e; e_comm := e_comm e; e_cid := e_cid e; e_fd := e_fd e; e_proto := e_proto e;
     e_role := e_role e; e_sip := e_sip e; e_dip := e_dip e; e_sport := e_sport e; e_dport := e_dport e |}.
Definition setUserAttribute (e : event) (key : string) (v : bytes) : event :=
  if e_params e =? 0 then e else withAttrs e (setAttr (Z.to_nat (e_params e)) (e_attrs e) key v).

(** encoding/binary LittleEndian.UintN: the first [n] bytes; panics when there are fewer *)
Fixpoint leValue (n : nat) (b : bytes) : res Z :=
  match n, b with
  | O, _ => Ok 0
  | S n', x :: b' => bind (leValue n' b') (fun v => Ok (x + 256 * v))
  | S _, [] => Panic
  end.
(** PutUint64 and friends *)
Fixpoint leBytes (n : nat) (v : Z) : bytes :=
  match n with O => [] | S n' => v mod 256 :: leBytes n' (v / 256) end.

Definition s8 (x : Z) : Z := (x + 2 ^ 7) mod 2 ^ 8 - 2 ^ 7.
(** kindling_event_helper.go:316-328 GetUintValue *)
Definition getUintValue (kv : keyvalue) : res Z :=
  match kv_type kv with
  | TUint8 => leValue 1 (kv_val kv)
  | TUint16 => leValue 2 (kv_val kv)
  | TUint32 => leValue 4 (kv_val kv)
  | TUint64 => leValue 8 (kv_val kv)
  | _ => Ok 0
  end.
(** kindling_event_helper.go:330-342 GetIntValue *)
Definition getIntValue (kv : keyvalue) : res Z :=
  match kv_type kv with
  | TInt8 => bind (leValue 1 (kv_val kv)) (fun v => Ok (s8 v))
  | TInt16 => bind (leValue 2 (kv_val kv)) (fun v => Ok (s16 v))
  | TInt32 => bind (leValue 4 (kv_val kv)) (fun v => Ok (s32 v))
  | TInt64 => bind (leValue 8 (kv_val kv)) (fun v => Ok (s64 v))
  | _ => Ok 0
  end.
(** kindling_event_helper.go:61-75 *)
Definition getUintUserAttribute (e : event) (k : string) : res Z :=
  match getUserAttribute e k with Some kv => getUintValue kv | None => Ok 0 end.
Definition getIntUserAttribute (e : event) (k : string) : res Z :=
  match getUserAttribute e k with Some kv => getIntValue kv | None => Ok 0 end.
(** kindling_event_helper.go:93-99 *)
Definition getStringUserAttribute (e : event) (k : string) : bytes :=
  match getUserAttribute e k with Some kv => kv_val kv | None => [] end.
(** kindling_event_helper.go:33-47 GetData, GetDataLen *)
Definition getData (e : event) : bytes := getStringUserAttribute e "data".
Definition getDataLen (e : event) : Z := zlen (getData e).
(** kindling_event_helper.go:49-55 GetResVal: eight bytes whatever the declared type *)
Definition getResVal (e : event) : res Z :=
  match getUserAttribute e "res" with
  | Some kv => bind (leValue 8 (kv_val kv)) (fun v => Ok (s64 v))
  | None => Ok (-1)
  end.
(** kindling_event_helper.go:101-103 GetStartTime, uint64 subtraction *)
Definition getStartTime (e : event) : Z := w64 (e_ts e - e_lat e).

(** kindling_event_helper.go:219-231 IPLong2String; net.IP.String of four bytes is dotted decimal *)
Definition DOT : Z := 46.
Definition ipLong2String (i : Z) : bytes :=
  digits (i mod 256) ++ DOT :: digits (i / 2 ^ 8 mod 256) ++ DOT :: digits (i / 2 ^ 16 mod 256) ++ DOT :: digits (i / 2 ^ 24 mod 256).
(** kindling_event_helper.go:193-217 GetSip, GetDip: index 0 of the slice *)
Definition getSip (e : event) : res bytes := bind (gindex (e_sip e) 0) (fun i => Ok (ipLong2String i)).
Definition getDip (e : event) : res bytes := bind (gindex (e_dip e) 0) (fun i => Ok (ipLong2String i)).

(** kindling_event_helper.go:257-262 IsUdp (a flag used as a map key), 264-274 IsTcp, 276-278 IsConnect *)
Definition isUdp (e : event) : Z := match e_proto e with L4Udp => 1 | _ => 0 end.
Definition isTcp (e : event) : bool := match e_proto e with L4Tcp => true | _ => false end.
Definition isConnect (e : event) : bool := eqb (e_name e) "connect".

(** kindling_event_helper.go:280-309 IsRequest; [Err] is ErrMessageNotSocket *)
Definition inEvents : list string := ["read"; "recvfrom"; "recvmsg"; "readv"; "pread"; "preadv"].
Definition outEvents : list string := ["write"; "sendto"; "sendmsg"; "writev"; "sendmmsg"; "pwrite"; "pwritev"].
Definition memS (x : string) (l : list string) : bool := existsb (eqb x) l.
Definition isRequest (e : event) : res bool :=
  if e_net e then
    if memS (e_name e) inEvents then Ok (Bool.eqb (e_role e) true)
    else if memS (e_name e) outEvents then Ok (Bool.eqb (e_role e) false)
    else Err
  else Err.

(** kindling_event_helper.go:311-313 GetSocketKey: uint64(int64(pid)<<32) | uint64(num) & 0xffffffff *)
Definition getSocketKey (e : event) : Z :=
  Z.lor (w64 (Z.shiftl (e_pid e) 32)) (Z.land (w64 (e_fd e)) (2 ^ 32 - 1)).

(** event_converter.go:30-53 splitDataBytes on the bytes from startIndex on (indices into the whole buffer are
    offsets into the remaining bytes).  [None]: more than [fuel] iterations. *)
Fixpoint splitLoop (fuel : nat) (d : bytes) : option (res (list bytes)) :=
  match d with
  | [] => Some (Ok [])
  | _ =>
      if zlen d <=? 4 then Some (Ok [])
      else
        match bind (gslice d 0 4) (leValue 4) with
        | Panic => Some Panic
        | Err => Some Err
        | Ok size =>
            let fragmentEnd := 4 + size in
            let child := if fragmentEnd <? zlen d then gslice d 4 fragmentEnd else gslice d 4 (zlen d) in
            match child with
            | Panic => Some Panic
            | Err => Some Err
            | Ok c =>
                match fuel with
                | O => None
                | S f => match splitLoop f (skipn (Z.to_nat fragmentEnd) d) with
                         | Some (Ok r) => Some (Ok (c :: r))
                         | x => x
                         end
                end
            end
        end
  end.
Definition splitDataBytes (d : bytes) : option (res (list bytes)) := splitLoop (List.length d) d.

(** event_converter.go:7-28 ConvertSendmmsg; the copies share no attribute slot (arrays are copied by value) *)
Definition convertSendmmsg (e : event) : option (res (list event)) :=
  if negb (eqb (e_name e) "sendmmsg") then Some (Ok [])
  else match splitDataBytes (getData e) with
       | Some (Ok l) => Some (Ok (map (fun b => setUserAttribute (setUserAttribute e "res" (leBytes 8 (zlen b))) "data" b) l))
       | Some Panic => Some Panic
       | Some Err => Some Err
       | None => None
       end.
