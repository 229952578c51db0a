(** Model of the payload message, its readers and the parser tree of the protocol layer.
    All of it is collector/pkg/component/analyzer/network/protocol/protocol_parser.go.
    Offsets are Go int and are modelled as unbounded integers: every offset the code computes is the
    sum of a payload offset and a decoded length below 2^35, far inside int64.
    A reader writes its result through a pointer; here it returns the value.  The offset -1 that
    accompanies an error is not modelled: [Err] carries no offset (no caller modelled here uses it,
    DnsModel says where it treats it specially). *)
From Verif Require Import Base AttrModel.
Open Scope string_scope. Open Scope list_scope. Open Scope Z_scope.

(** protocol_parser.go:31-36 PayloadMessage. [Protocol] is only read to choose the parser list. The attribute
    map is a Go map from names to typed values; parsers only ever add fresh values to it. *)
Record msg := { m_data : bytes; m_off : Z; m_attrs : list (string * aval) }.

(** protocol_parser.go:38-44 NewRequestMessage *)
Definition newRequest (d : bytes) : msg := {| m_data := d; m_off := 0; m_attrs := [] |}.
(** protocol_parser.go:46-52 NewResponseMessage: shares the attributes of the request *)
Definition newResponse (d : bytes) (attrs : list (string * aval)) : msg := {| m_data := d; m_off := 0; m_attrs := attrs |}.
(** protocol_parser.go:54-56 IsComplete *)
Definition isComplete (m : msg) : bool := zlen (m_data m) <=? m_off m.
(** protocol_parser.go:58-60 HasMoreLength *)
Definition hasMoreLength (m : msg) (n : Z) : bool := m_off m + n <=? zlen (m_data m).
(** protocol_parser.go:62-67 GetData *)
Definition getData (d : bytes) (off len : Z) : res bytes :=
  if zlen d <? off + len then gslice d off (zlen d) else gslice d off (off + len).

(** protocol_parser.go:74-92 Add…Attribute *)
Definition addAttr (m : msg) (k : string) (v : aval) : msg :=
  {| m_data := m_data m; m_off := m_off m; m_attrs := aset (m_attrs m) k v |}.
(** assignment to message.Offset *)
Definition setOff (m : msg) (o : Z) : msg := {| m_data := m_data m; m_off := o; m_attrs := m_attrs m |}.
(** protocol_parser.go:94-108 Get…Attribute, HasAttribute *)
Definition attrInt (m : msg) (k : string) : Z := asInt (aget (m_attrs m) k).
Definition attrStr (m : msg) (k : string) : bytes := asString (aget (m_attrs m) k).
Definition attrBool (m : msg) (k : string) : bool := asBool (aget (m_attrs m) k).
Definition hasAttr (m : msg) (k : string) : bool := ahas (m_attrs m) k.

(** protocol_parser.go:111-119 ReadUInt16 *)
Definition readUInt16 (d : bytes) (off : Z) : res Z :=
  if off <? 0 then Err else if zlen d <? off + 2 then Err
  else bind (gindex d off) (fun a => bind (gindex d (off + 1)) (fun b => Ok (Z.lor (Z.shiftl a 8) b))).
(** protocol_parser.go:121-130 ReadInt16 *)
Definition readInt16 (d : bytes) (off : Z) : res (Z * Z) :=
  if off <? 0 then Err else if zlen d <? off + 2 then Err
  else bind (gindex d off) (fun a => bind (gindex d (off + 1)) (fun b => Ok (s16 (Z.lor (Z.shiftl a 8) b), off + 2))).
(** protocol_parser.go:132-141 ReadInt32 *)
Definition readInt32 (d : bytes) (off : Z) : res (Z * Z) :=
  if off <? 0 then Err else if zlen d <? off + 4 then Err
  else bind (gindex d off) (fun a => bind (gindex d (off + 1)) (fun b =>
       bind (gindex d (off + 2)) (fun c => bind (gindex d (off + 3)) (fun e =>
         Ok (s32 (Z.lor (Z.lor (Z.lor (Z.shiftl a 24) (Z.shiftl b 16)) (Z.shiftl c 8)) e), off + 4))))).
(** protocol_parser.go:143-152 ReadBytes *)
Definition readBytes (d : bytes) (off len : Z) : res (bytes * Z) :=
  if (off <? 0) || (len <? 0) then Err
  else if zlen d <? off + len then Err
  else bind (gslice d off (off + len)) (fun v => Ok (v, off + len)).

(** protocol_parser.go:154-175 readUnsignedVarIntCore: the loop body for iterations i, i+1, … *)
Fixpoint uvarLoop (times : nat) (d : bytes) (off : Z) (i : Z) (x s : Z) : res (Z * Z) :=
  match times with
  | O => Err
  | S t =>
      if zlen d <=? off + i then Err
      else bind (gindex d (off + i)) (fun b =>
             if b <? 128 then Ok (w64 (Z.lor x (Z.shiftl b s)), off + i + 1)
             else uvarLoop t d off (i + 1) (w64 (Z.lor x (Z.shiftl (Z.land b 127) s))) (s + 7))
  end.
Definition readUnsignedVarIntCore (d : bytes) (off : Z) (times : nat) : res (Z * Z) :=
  if off <? 0 then Err else uvarLoop times d off 0 0 0.
(** protocol_parser.go:177-179 ReadUnsignedVarInt *)
Definition readUnsignedVarInt (d : bytes) (off : Z) : res (Z * Z) := readUnsignedVarIntCore d off 5.
(** protocol_parser.go:181-183 ReadVarInt: int64(value>>1) ^ -(int64(value) & 1) *)
Definition unzigzag (v : Z) : Z := Z.lxor (s64 (Z.shiftr v 1)) (- (Z.land (s64 v) 1)).
Definition readVarInt (d : bytes) (off : Z) : res (Z * Z) :=
  bind (readUnsignedVarIntCore d off 5) (fun '(v, o) => Ok (unzigzag v, o)).

(** protocol_parser.go:192-209 readNullableString; [None]: the caller's string is left alone *)
Definition readNullableStr (d : bytes) (off : Z) : res (option bytes * Z) :=
  bind (readInt16 d off) (fun '(len, to) =>
    if len <? -1 then Err
    else if len =? -1 then Ok (None, to)
    else if zlen d <=? to + len then bind (gslice d to (zlen d)) (fun v => Ok (Some v, zlen d))
    else bind (gslice d to (to + len)) (fun v => Ok (Some v, to + len))).
(** protocol_parser.go:211-230 readCompactNullableString *)
Definition readCompactNullableStr (d : bytes) (off : Z) : res (option bytes * Z) :=
  bind (readUnsignedVarInt d off) (fun '(len, to) =>
    let intLen := s64 len - 1 in
    if intLen <? -1 then Err
    else if intLen =? -1 then Ok (None, to)
    else if zlen d <=? to + s64 len then bind (gslice d to (zlen d)) (fun v => Ok (Some v, zlen d))
    else bind (gslice d to (to + intLen)) (fun v => Ok (Some v, to + intLen))).
(** protocol_parser.go:185-190 ReadNullableString *)
Definition readNullableString (d : bytes) (off : Z) (compact : bool) : res (option bytes * Z) :=
  if compact then readCompactNullableStr d off else readNullableStr d off.

(** protocol_parser.go:239-255 readCompactArraySize *)
Definition readCompactArraySize (d : bytes) (off : Z) : res (Z * Z) :=
  bind (readUnsignedVarInt d off) (fun '(len, to) =>
    let n := s32 len in
    if n <? 0 then Err else if n =? 0 then Ok (0, to) else Ok (n - 1, to)).
(** protocol_parser.go:257-271 readArraySize *)
Definition readPlainArraySize (d : bytes) (off : Z) : res (Z * Z) :=
  bind (readInt32 d off) (fun '(len, to) =>
    if len <? -1 then Err else if len =? -1 then Ok (0, to) else Ok (len, to)).
(** protocol_parser.go:232-237 ReadArraySize *)
Definition readArraySize (d : bytes) (off : Z) (compact : bool) : res (Z * Z) :=
  if compact then readCompactArraySize d off else readPlainArraySize d off.

(** protocol_parser.go:280-297 readCompactString *)
Definition readCompactStr (d : bytes) (off : Z) : res (bytes * Z) :=
  bind (readUnsignedVarInt d off) (fun '(len, to) =>
    let intLen := s64 len - 1 in
    if intLen <? 0 then Err
    else if zlen d <=? to + s64 len then bind (gslice d to (zlen d)) (fun v => Ok (v, zlen d))
    else bind (gslice d to (to + intLen)) (fun v => Ok (v, to + intLen))).
(** protocol_parser.go:299-314 readString *)
Definition readStr (d : bytes) (off : Z) : res (bytes * Z) :=
  bind (readInt16 d off) (fun '(len, to) =>
    if len <? 0 then Err
    else if zlen d <=? to + len then bind (gslice d to (zlen d)) (fun v => Ok (v, zlen d))
    else bind (gslice d to (to + len)) (fun v => Ok (v, to + len))).
(** protocol_parser.go:273-278 ReadString *)
Definition readString (d : bytes) (off : Z) (compact : bool) : res (bytes * Z) :=
  if compact then readCompactStr d off else readStr d off.

(** The loops "for i := from; i < length; i++ { if Data[i] == c …": the first such index. *)
Fixpoint scan (n : nat) (d : bytes) (i c : Z) : res (option Z) :=
  match n with
  | O => Ok None
  | S n' => bind (gindex d i) (fun b => if b =? c then Ok (Some i) else scan n' d (i + 1) c)
  end.
(** protocol_parser.go:316-325 ReadUntilBlank *)
Definition readUntilBlank (d : bytes) (from : Z) : res (bytes * Z) :=
  bind (scan (Z.to_nat (zlen d - from)) d from 32) (fun r =>
    match r with
    | Some i => bind (gslice d from i) (fun v => Ok (v, i + 1))
    | None => bind (gslice d from (zlen d)) (fun v => Ok (v, zlen d))
    end).
(** protocol_parser.go:327-339 ReadUntilBlankWithLength *)
Definition readUntilBlankWithLength (d : bytes) (from fixed : Z) : res (bytes * Z) :=
  let length := if fixed + from <? zlen d then from + fixed else zlen d in
  bind (scan (Z.to_nat (length - from)) d from 32) (fun r =>
    match r with
    | Some i => bind (gslice d from i) (fun v => Ok (v, i + 1))
    | None => bind (gslice d from length) (fun v => Ok (v, length))
    end).
(** protocol_parser.go:342-371 ReadUntilCRLF; [None] is (EOF, nil) *)
Definition readUntilCRLF (d : bytes) (from : Z) : res (option (bytes * Z)) :=
  if zlen d <=? from then Ok None
  else bind (scan (Z.to_nat (zlen d - from)) d from 13) (fun r =>
    match r with
    | Some i =>
        if i =? zlen d - 1 then bind (gslice d from (zlen d - 1)) (fun v => Ok (Some (v, zlen d)))
        else bind (gindex d (i + 1)) (fun b =>
               if b =? 10 then bind (gslice d from i) (fun v => Ok (Some (v, i + 2)))
               else Ok None)
    | None => bind (gslice d from (zlen d)) (fun v => Ok (Some (v, zlen d)))
    end).

(** protocol_parser.go:423-427 PkgParser. [pk_ff] is fastFail, [pk_parse] the parser returning (success, complete);
    both may change the message, and a change made before a failure stays. *)
Inductive pkg := Pkg (pk_ff : msg -> res (bool * msg)) (pk_parse : msg -> res ((bool * bool) * msg)) (pk_children : list pkg).

(** protocol_parser.go:14-17 *)
Inductive status := PFail | POk | PComplete.
#[export] Instance Eqb_status : Eqb status.
Proof.
  exists (fun a b => match a, b with PFail, PFail => true | POk, POk => true | PComplete, PComplete => true | _, _ => false end).
  intros [] []; split; congruence.
Defined.

(** protocol_parser.go:458-482 parseOneFrame. Go's children slice is nil exactly when nothing was added. *)
Fixpoint parseOneFrame (p : pkg) (m : msg) {struct p} : res (status * msg) :=
  match p with
  | Pkg ff ps ch =>
      bind (ff m) (fun '(bad, m0) =>
        if (bad : bool) then Ok (PFail, m0)
        else bind (ps m0) (fun '((ok, complete), m1) =>
          if negb ok then Ok (PFail, m1)
          else if (complete : bool) then Ok (PComplete, m1)
          else match ch with
               | [] => Ok (POk, m1)
               | _ =>
                   (fix each (cs : list pkg) (m : msg) : res (status * msg) :=
                      match cs with
                      | [] => Ok (PFail, m)
                      | c :: cs' =>
                          bind (parseOneFrame c m) (fun '(s, m2) =>
                            match s with PFail => each cs' m2 | _ => Ok (s, m2) end)
                      end) ch m1
               end))
  end.

(** protocol_parser.go:447-454: the multi-frame loop. Running out of [fuel] (excluded by the proofs: every frame
    that parses consumes a byte) would be a loop that never ends; it is reported as [Err]. *)
Fixpoint framesLoop (fuel : nat) (p : pkg) (m : msg) : res (bool * msg) :=
  match fuel with
  | O => Err
  | S f => bind (parseOneFrame p m) (fun '(s, m1) =>
             match s with POk => framesLoop f p m1 | PComplete => Ok (true, m1) | PFail => Ok (false, m1) end)
  end.
(** protocol_parser.go:446-456 parsePayload *)
Definition parsePayload (multi : bool) (p : pkg) (m : msg) : res (bool * msg) :=
  if multi then framesLoop (S (S (List.length (m_data m)))) p m
  else bind (parseOneFrame p m) (fun '(s, m1) => Ok (negb (eqb s PFail), m1)).
