(** The text of an event that the receiver writes in its log when its debugging messages are on:
    collector/pkg/model/kindling_event.go:541-614, collector/pkg/component/receiver/cgoreceiver/cgoreceiver.go:176-192.
    Simplifications: the texts of the context (Go's own %+v of a structure) and of a 32-bit floating point number are parameters. *)
From Verif Require Import Base Decimal EventModel RouteModel RecvModel LogModel.
Open Scope string_scope. Open Scope list_scope. Open Scope Z_scope.

(** unicode/utf8: the number of bytes of the first character, 1 when the bytes are not the encoding of one *)
Definition inRange (lo hi x : Z) : bool := (lo <=? x) && (x <=? hi).
Definition runeSize (b : bytes) : nat :=
  match b with
  | [] => 0%nat
  | x :: r =>
      if inRange 194 223 x then match r with y :: _ => if inRange 128 191 y then 2%nat else 1%nat | _ => 1%nat end
      else if inRange 224 239 x then
        match r with
        | y :: z :: _ => if inRange (if x =? 224 then 160 else 128) (if x =? 237 then 159 else 191) y && inRange 128 191 z then 3%nat else 1%nat
        | _ => 1%nat
        end
      else if inRange 240 244 x then
        match r with
        | y :: z :: w :: _ => if inRange (if x =? 240 then 144 else 128) (if x =? 244 then 143 else 191) y && inRange 128 191 z && inRange 128 191 w then 4%nat else 1%nat
        | _ => 1%nat
        end
      else 1%nat
  end.
(** kindling_event.go:606-608 nonASCII.ReplaceAllString: every character outside space to tilde becomes a dot; [fuel] bounds the number of characters *)
Fixpoint cleanF (fuel : nat) (b : bytes) : bytes :=
  match fuel, b with
  | S f, x :: _ => (if inRange 32 126 x then x else 46) :: cleanF f (skipn (runeSize b) b)
  | _, _ => []
  end.
Definition clean (b : bytes) : bytes := cleanF (List.length b) b.
(** kindling_event.go:608-614 bytesReader *)
Definition bytesReader (data : bytes) (maxLength : Z) : bytes :=
  if maxLength <? zlen data then clean (firstn (Z.to_nat maxLength) data) ++ bs "(" ++ formatInt (zlen data - maxLength) ++ bs " bytes more)"
  else clean data.
Definition valueOf (a : kattr) : keyvalue := {| kv_key := str (ka_key a); kv_type := vtypeOf (ka_type a); kv_val := ka_val a |}.
Section Texts.
Variable float : Z -> bytes.
Variable context : kevent -> bytes.
(** kindling_event.go:575-604 textUserAttribute *)
Definition textAttribute (a : kattr) : res bytes :=
  let t := ka_type a in
  if inRange 9 10 t then Ok (ka_key a ++ bs ":<" ++ bytesReader (ka_val a) 200 ++ bs ">")
  else if inRange 1 4 t then bind (getIntValue (valueOf a)) (fun v => Ok (ka_key a ++ bs ":" ++ formatInt v))
  else if inRange 5 8 t then bind (getUintValue (valueOf a)) (fun v => Ok (ka_key a ++ bs ":" ++ formatInt v))
  else if t =? 11 then bind (leValue 4 (ka_val a)) (fun v => Ok (ka_key a ++ bs ":" ++ float v))
  else if t =? 0 then Ok (bs "none")
  else Ok (ka_key a ++ bs ":" ++ ka_val a).
(** kindling_event.go:557-573 textUserAttributes *)
Fixpoint textLoop (block : bool) (l : list kattr) : res bytes :=
  match l with
  | [] => Ok []
  | a :: r =>
      if ka_type a =? 0 then textLoop block r
      else bind (textAttribute a) (fun s => bind (textLoop true r) (fun q => Ok ((if block then bs " " else []) ++ s ++ q)))
  end.
Definition textAttributes (l : list kattr) : res bytes := bind (textLoop false l) (fun s => Ok (bs "[" ++ s ++ bs "]")).
(** kindling_event.go:541-555 TextKindlingEvent *)
Definition textEvent (e : kevent) : res bytes :=
  bind (textAttributes (k_attrs e)) (fun s =>
    Ok (bs "{Name:" ++ k_name e ++ bs " Category:" ++ formatInt (k_cat e) ++ bs " ParamsNumber:" ++ formatInt (k_params e) ++ bs " UserAttributes:" ++ s ++
        bs " Ctx:" ++ context e ++ bs " Latency:" ++ formatInt (k_lat e) ++ bs " Timestamp:" ++ formatInt (k_ts e) ++ bs "}")).
(** cgoreceiver.go:176-180: the question whether to write, by the receiver's tools *)
Definition debugOf (g : LogModel.manager) : bool := check g {| w_who := Some "cgoreceiver"; w_level := Debug; w_checked := true; w_msg := 0 |}.
(** cgoreceiver.go:176-192 sendToNextConsumer: the text written, if any, and the deliveries *)
Definition sendLogged (g : LogModel.manager) (m : RouteModel.manager) (e : kevent) : res (list bytes * list (nat * (string * kevent))) :=
  let d := sendToNext m (str (k_name e), e) in
  if debugOf g then bind (textEvent e) (fun t => Ok ([bs "Event Output: " ++ t], d)) else Ok ([], d).
Fixpoint sendAll (g : LogModel.manager) (m : RouteModel.manager) (es : list kevent) : res (list bytes * list (nat * (string * kevent))) :=
  match es with
  | [] => Ok ([], [])
  | e :: r => bind (sendLogged g m e) (fun a => bind (sendAll g m r) (fun b => Ok (fst a ++ fst b, snd a ++ snd b)))
  end.
End Texts.
