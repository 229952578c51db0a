(** Model of the payload text: collector/pkg/component/analyzer/tools/ascii.go and utf8.go, and
    GetPayloadString of collector/pkg/component/analyzer/network/protocol/protocol_parser.go. *)
From Verif Require Import Base.
Open Scope string_scope. Open Scope list_scope. Open Scope Z_scope.

(** tools/ascii.go:3-27 GetAsciiString *)
Definition asciiByte (c : Z) : Z := if (126 <? c) || (c <? 32) then 46 else c.
Definition getAsciiString (d : bytes) : bytes := map asciiByte d.

(** tools/utf8.go:29-64: the tables [first] and [acceptRanges] for a byte of 0x80 and above:
    the length of the sequence the byte starts and the accepted range of the second byte; [None] is the entry xx. *)
Definition firstInfo (c : Z) : option (Z * Z * Z) :=
  if c <? 194 then None
  else if c <? 224 then Some (2, 128, 191)
  else if c =? 224 then Some (3, 160, 191)
  else if c =? 237 then Some (3, 128, 159)
  else if c <? 240 then Some (3, 128, 191)
  else if c =? 240 then Some (4, 144, 191)
  else if c <? 244 then Some (4, 128, 191)
  else if c =? 244 then Some (4, 128, 143)
  else None.
Definition outside (c lo hi : Z) : bool := (c <? lo) || (hi <? c).

(** tools/utf8.go:66-105 runeIndex (:118-157 runeIndexInString is the same code on a string).
    [fuel] counts iterations; each one advances i, so the length of the text suffices. *)
Fixpoint runeLoop (fuel : nat) (p : bytes) (i n : Z) : res Z :=
  match fuel with
  | O => Ok (zlen p)
  | S f =>
      if zlen p <=? i then Ok (zlen p)
      else bind (gindex p i) (fun c =>
        if c <? 128 then
          if (0 <? n) && (n <? 3) then Ok (i - n) else runeLoop f p (i + 1) 0
        else match firstInfo c with
             | None => Ok (i - n)
             | Some (size, lo, hi) =>
                 if zlen p <? i + size then
                   if (0 <? n) && (n <? 3) then Ok (i - n) else Ok i
                 else bind (gindex p (i + 1)) (fun c1 =>
                        bind (if outside c1 lo hi then Ok 1
                              else if size =? 2 then Ok size
                              else bind (gindex p (i + 2)) (fun c2 =>
                                     if outside c2 128 191 then Ok 1
                                     else if size =? 3 then Ok size
                                     else bind (gindex p (i + 3)) (fun c3 => if outside c3 128 191 then Ok 1 else Ok size)))
                             (fun sz => runeLoop f p (i + sz) sz))
             end)
  end.
Definition runeIndex (p : bytes) : res Z := runeLoop (List.length p) p 0 0.
(** tools/utf8.go:107-116 FormatByteArrayToUtf8 and :159-168 FormatStringToUtf8 *)
Definition formatUtf8 (p : bytes) : res bytes :=
  bind (runeIndex p) (fun ix => if ix =? zlen p then Ok p else if ix <? 0 then Ok [] else gslice p 0 ix).

(** protocol.go:14-29: configured payload lengths; a configured length that is not positive means 200, as does none. *)
Definition payloadLength (conf : list (string * Z)) (proto : string) : Z :=
  match aget conf proto with Some n => if 0 <? n then n else 200 | None => 200 end.
(** protocol_parser.go:511-520 getSubstrBytes *)
Definition getSubstrBytes (conf : list (string * Z)) (d : bytes) (proto : string) (off : Z) : res bytes :=
  let len := payloadLength conf proto in
  if len <=? off then gslice d 0 0
  else if zlen d <? off + len then gslice d off (zlen d)
  else gslice d off (off + len).
(** protocol_parser.go:500-509 GetPayloadString *)
Definition getPayloadString (conf : list (string * Z)) (d : bytes) (proto : string) : res bytes :=
  if eqb proto "http" || eqb proto "redis" then bind (getSubstrBytes conf d proto 0) formatUtf8
  else if eqb proto "dubbo" then bind (getSubstrBytes conf d proto 16) (fun s => Ok (getAsciiString s))
  else bind (getSubstrBytes conf d proto 0) (fun s => Ok (getAsciiString s)).
