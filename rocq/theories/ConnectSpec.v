(** When a TCP connection attempt is under way, what decides it, and what is reported. *)
From Verif Require Import Base Decimal EventModel AttrModel PoolModel ConnectModel.
Open Scope string_scope. Open Scope list_scope. Open Scope Z_scope.

(** * What an event says about which connection *)
Inductive word :=
| Began (ret : Z)      (* the kernel starts to connect, with this return value *)
| Returned (ret : Z)   (* the connect system call returned *)
| Wrote                (* the process sent data *)
| Became | Left.       (* the socket became, or was, established *)
Definition uintAt (e : event) (n : string) : option Z := match getUserAttribute e n with Some kv => match getUintValue kv with Ok v => Some v | _ => None end | None => None end.
Definition intAt (e : event) (n : string) : option Z := match getUserAttribute e n with Some kv => match getIntValue kv with Ok v => Some v | _ => None end | None => None end.
Definition kernelKey (e : event) : option ckey :=
  match uintAt e "sip", uintAt e "sport", uintAt e "dip", uintAt e "dport" with
  | Some s, Some sp, Some d, Some dp => Some (ipLong2String (s mod 2 ^ 32), sp mod 2 ^ 32, ipLong2String (d mod 2 ^ 32), dp mod 2 ^ 32)
  | _, _, _, _ => None
  end.
Definition socketKey (e : event) : option ckey :=
  match e_sip e, e_dip e with s :: _, d :: _ => Some (ipLong2String s, e_sport e, ipLong2String d, e_dport e) | _, _ => None end.
Definition says (e : event) : option (ckey * word) :=
  if eqb (e_name e) "tcp_connect" then match kernelKey e, uintAt e "retval" with Some k, Some r => Some (k, Began r) | _, _ => None end
  else if eqb (e_name e) "tcp_set_state" then
    match kernelKey e, intAt e "old_state", intAt e "new_state" with
    | Some k, Some o, Some n => if o =? 1 then Some (k, Left) else if n =? 1 then Some (k, Became) else None
    | _, _, _ => None
    end
  else if eqb (e_name e) "connect" then
    if isTcp e then match socketKey e, intAt e "res" with Some k, Some r => Some (k, Returned r) | _, _ => None end else None
  else if memS (e_name e) ["write"; "writev"; "sendto"; "sendmsg"] then
    if e_net e && isTcp e then match socketKey e with Some k => Some (k, Wrote) | None => None end else None
  else None.

(** * The attempt under way *)
Record pend := { p_start : Z; p_last : Z; p_pid : Z; p_comm : bytes; p_cid : bytes }.
Definition hearing (p : option pend) (e : event) (w : word) : option pend :=
  match p, w with
  | None, Began _ => Some {| p_start := e_ts e; p_last := e_ts e; p_pid := 0; p_comm := []; p_cid := [] |}
  | None, _ => None
  | Some p, Returned _ | Some p, Wrote => Some {| p_start := p_start p; p_last := e_ts e; p_pid := e_pid e; p_comm := bs (e_comm e); p_cid := bs (e_cid e) |}
  | Some p, _ => Some {| p_start := p_start p; p_last := e_ts e; p_pid := p_pid p; p_comm := p_comm p; p_cid := p_cid p |}
  end.
Definition hear (k : ckey) (p : option pend) (o : kop) : option pend :=
  match o with
  | KScan _ _ => p
  | KEvent e => match says e with Some (k', w) => if eqb k' k then hearing p e w else p | None => p end
  end.
Definition underway (k : ckey) (ops : list kop) : option pend := fold_left (hear k) ops None.
(** What an operation decides about an attempt: success or not, and the error number. *)
Definition inProgressCodes : list Z := [-115; -114; -106; -4].
Definition decided (p : option pend) (w : word) : option (bool * Z) :=
  match w, p with
  | Began r, _ => if r =? 0 then None else Some (false, s64 r)
  | _, None => None
  | Returned r, Some _ => if r =? 0 then Some (true, 0) else if existsb (Z.eqb r) inProgressCodes then None else Some (false, r)
  | _, Some _ => Some (true, 0)
  end.
Definition decision (waitSec : Z) (k : ckey) (p : option pend) (o : kop) : option (bool * Z) :=
  match o with
  | KEvent e => match says e with Some (k', w) => if eqb k' k then decided p w else None | None => None end
  | KScan now look =>
      match p with
      | None => None
      | Some p =>
          if (p_pid p =? 0) || (now - p_start p <? waitSec * 1000000000) then None
          else match look (p_pid p) k with
               | NoProcess | NoSocket => Some (false, 0)
               | SocketState st => if eqb st (bs "02") || eqb st (bs "03") then None else Some (true, 0)
               end
      end
  end.
Definition statsOf (p : pend) (ok : bool) (code : Z) : cstats :=
  {| c_pid := p_pid p; c_comm := p_comm p; c_cid := p_cid p; c_state := if ok then Success else Failure; c_init := p_start p; c_end := p_last p; c_code := code |}.

(** * Histories with their reports *)
Notation trace := (list (kop * list (ckey * cstats))).
Definition reportedIn (k : ckey) (out : list (ckey * cstats)) : bool := existsb (fun x => eqb (fst x) k) out.
(** The operations since the last report about [k], oldest first; the trace is given latest first. *)
Fixpoint since (k : ckey) (rt : trace) : list kop := match rt with [] => [] | (o, out) :: r => if reportedIn k out then [] else since k r ++ [o] end.
Definition saneOp (o : kop) : Prop := match o with KEvent e => 0 <= e_ts e < 2 ^ 63 | KScan now _ => 0 <= now < 2 ^ 63 end.
