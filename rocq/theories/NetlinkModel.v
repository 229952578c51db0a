(** collector/pkg/metadata/conntracker/internal: encoding and decoding of conntrack netlink messages (C36).
    The native byte order is taken to be little endian (x86-64, arm64). *)
From Verif Require Import Base ConntrackModel.

(** nlenc.Uint16: panics unless given exactly two bytes *)
Definition leUint16 (b : bytes) : res Z :=
  match b with [x; y] => Ok (x + 256 * y) | _ => Panic end.
(** encoding/binary BigEndian.Uint16: panics on fewer than two bytes *)
Definition beUint16 (b : bytes) : res Z :=
  match b with x :: y :: _ => Ok (256 * x + y) | _ => Panic end.

(** align.go:44-46 nlaAlign, 53 nlaHeaderLen *)
Definition nlaAlign (n : Z) : Z := Z.land (n + 3) (Z.lnot 3).
Definition nlaHeaderLen : Z := 4.

(** attribute_scanner.go:179-206 unmarshal: attribute length, type and data at the front of [b] *)
Definition unmarshal (b : bytes) : res (Z * Z * bytes) :=
  if zlen b <? nlaHeaderLen then Err
  else
    bind (gslice b 0 2) (fun l2 => bind (leUint16 l2) (fun len =>
    bind (gslice b 2 4) (fun t2 => bind (leUint16 t2) (fun typ =>
      if zlen b <? len then Err
      else if len =? 0 then Ok (len, typ, [])
      else if len <? nlaHeaderLen then Err
      else bind (gslice b nlaHeaderLen len) (fun d => Ok (len, typ, d)))))).

(** attribute_scanner.go:68-94 Next and 98-101 Type, on the bytes not yet scanned: [Ok None] no more attributes;
    otherwise masked type, data and the bytes left for the following call (none once the index is past the end). *)
Definition next (b : bytes) : res (option (Z * bytes * bytes)) :=
  match b with
  | [] => Ok None
  | _ =>
      bind (unmarshal b) (fun '(len, typ, d) =>
        let adv := if len <? nlaHeaderLen then nlaHeaderLen else nlaAlign len in
        Ok (Some (typ mod 16384, d, skipn (Z.to_nat adv) b)))
  end.

(** decoding.go: the loop [for toDecode := n; toDecode > 0 && scanner.Next();] shared by the four functions.
    The handler returns [None] for a type it ignores.  An error found inside a nested frame is stored in the
    enclosing frame (attribute_scanner.go:114-124) and ends its loop.  [None]: more than [fuel] iterations. *)
Fixpoint scan {S} (h : Z -> bytes -> S -> option (option (res S))) (fuel : nat) (toDecode : nat) (b : bytes) (st : S)
  : option (res S) :=
  match toDecode with
  | O => Some (Ok st)
  | S toDecode' =>
      match next b with
      | Err => Some Err
      | Panic => Some Panic
      | Ok None => Some (Ok st)
      | Ok (Some (typ, d, rest)) =>
          match fuel with
          | O => None
          | S fuel' =>
              match h typ d st with
              | None => scan h fuel' toDecode rest st
              | Some None => None
              | Some (Some (Ok st')) => scan h fuel' toDecode' rest st'
              | Some (Some Err) => Some Err
              | Some (Some Panic) => Some Panic
              end
          end
      end
  end.
(** one iteration consumes at least four bytes, so the number of bytes is enough fuel (proved, not assumed) *)
Definition scanAll {S} (h : Z -> bytes -> S -> option (option (res S))) (toDecode : nat) (b : bytes) (st : S) :=
  scan h (List.length b) toDecode b st.

Definition setSrc (t : ipTuple) (ip : bytes) : ipTuple := {| tsrc := Some ip; tdst := tdst t; tproto := tproto t |}.
Definition setDst (t : ipTuple) (ip : bytes) : ipTuple := {| tsrc := tsrc t; tdst := Some ip; tproto := tproto t |}.
Definition setProto (t : ipTuple) (p : protoTuple) : ipTuple := {| tsrc := tsrc t; tdst := tdst t; tproto := Some p |}.

(** decoding.go:134-151 unmarshalTupleIP *)
Definition hIP (typ : Z) (d : bytes) (t : ipTuple) : option (option (res ipTuple)) :=
  if (typ =? 1) || (typ =? 3) then Some (Some (Ok (setSrc t d)))
  else if (typ =? 2) || (typ =? 4) then Some (Some (Ok (setDst t d)))
  else None.
Definition unmarshalTupleIP (b : bytes) (t : ipTuple) := scanAll hIP 2 b t.

(** decoding.go:153-174 unmarshalProto *)
Definition hProto (typ : Z) (d : bytes) (p : protoTuple) : option (option (res protoTuple)) :=
  if typ =? 1 then
    Some (Some (bind (gindex d 0) (fun n => Ok {| pnum := Some n; psport := psport p; pdport := pdport p |})))
  else if typ =? 2 then
    Some (Some (bind (beUint16 d) (fun n => Ok {| pnum := pnum p; psport := Some n; pdport := pdport p |})))
  else if typ =? 3 then
    Some (Some (bind (beUint16 d) (fun n => Ok {| pnum := pnum p; psport := psport p; pdport := Some n |})))
  else None.
Definition noProto : protoTuple := {| pnum := None; psport := None; pdport := None |}.
Definition unmarshalProto (b : bytes) (t : ipTuple) : option (res ipTuple) :=
  match scanAll hProto 3 b noProto with
  | None => None
  | Some r => Some (bind r (fun p => Ok (setProto t p)))
  end.

(** decoding.go:115-131 unmarshalTuple *)
Definition hTuple (typ : Z) (d : bytes) (t : ipTuple) : option (option (res ipTuple)) :=
  if typ =? 1 then Some (unmarshalTupleIP d t)
  else if typ =? 2 then Some (unmarshalProto d t)
  else None.
Definition unmarshalTuple (b : bytes) (t : ipTuple) := scanAll hTuple 2 b t.

(** decoding.go:93-113 unmarshalCon *)
Definition noTuple : ipTuple := {| tsrc := None; tdst := None; tproto := None |}.
Definition hCon (typ : Z) (d : bytes) (c : ipTuple * ipTuple) : option (option (res (ipTuple * ipTuple))) :=
  if typ =? 1 then
    Some (match unmarshalTuple d (fst c) with
          | None => None | Some r => Some (bind r (fun t => Ok (t, snd c))) end)
  else if typ =? 2 then
    Some (match unmarshalTuple d (snd c) with
          | None => None | Some r => Some (bind r (fun t => Ok (fst c, t))) end)
  else None.
Definition unmarshalCon (b : bytes) := scanAll hCon 2 b (noTuple, noTuple).

(** attribute_scanner.go:208-213 messageOffset *)
Definition messageOffset (d : bytes) : res Z :=
  bind (gindex d 0) (fun b0 => bind (gindex d 1) (fun b1 =>
    Ok (if ((b0 =? 2) || (b0 =? 10)) && (b1 =? 0) then 4 else 0))).

(** attribute_scanner.go:127-148 ResetTo followed by decoding.go:71-91: one message of an event *)
Definition decodeMessage (data : bytes) : option (res con) :=
  if zlen data <? 2 then Some Err
  else
    match bind (gslice data 0 2) messageOffset with
    | Err => Some Err
    | Panic => Some Panic
    | Ok off =>
        if zlen data <=? off then Some Err
        else
          match gslice data off (zlen data) with
          | Err => Some Err
          | Panic => Some Panic
          | Ok b =>
              match unmarshalCon b with
              | None => None
              | Some r => Some (bind r (fun '(o, p) => Ok {| origin := Some o; reply := Some p |}))
              end
          end
    end.

(** decoding.go:71-91 DecodeAndReleaseEvent: messages that do not decode are skipped; a panic is not recovered *)
Fixpoint decodeEvent (msgs : list bytes) : option (res (list con)) :=
  match msgs with
  | [] => Some (Ok [])
  | m :: r =>
      match decodeMessage m, decodeEvent r with
      | Some (Ok c), Some (Ok cs) => Some (Ok (c :: cs))
      | Some Err, x => x
      | Some Panic, _ => Some Panic
      | Some (Ok _), x => x
      | None, _ => None
      end
  end.

(** *** Encoding: mdlayher/netlink AttributeEncoder (an attribute is padded to four bytes; Nested sets bit 15) *)
Definition le16 (n : Z) : bytes := [n mod 256; n / 256].
Definition be16 (n : Z) : bytes := [n / 256; n mod 256].
Definition attr (typ : Z) (d : bytes) : bytes :=
  le16 (4 + zlen d) ++ le16 typ ++ d ++ repeat 0 (Z.to_nat (nlaAlign (4 + zlen d) - (4 + zlen d))).
Definition nested (typ : Z) (d : bytes) : bytes := attr (32768 + typ) d.

(** encoding.go:79-86 marshalProto *)
Definition marshalProto (n sp dp : Z) : bytes := attr 1 [n] ++ attr 2 (be16 sp) ++ attr 3 (be16 dp).
(** encoding.go:43-67: addresses *)
Definition marshalSrc (ip : bytes) : bytes :=
  match to4 ip with Some i4 => attr 1 i4 | None => attr 3 ip end.
Definition marshalDst (ip : bytes) : bytes :=
  match to4 ip with Some i4 => attr 2 i4 | None => attr 4 ip end.
(** encoding.go:41-77 marshalIPTuple, for a tuple with all fields present *)
Definition marshalIPTuple (src dst : bytes) (n sp dp : Z) : bytes :=
  nested 1 (marshalSrc src ++ marshalDst dst) ++ nested 2 (marshalProto n sp dp).
(** encoding.go:20-39 EncodeConn, both tuples present *)
Definition EncodeConn (os od : bytes) (on osp odp : Z) (rs rd : bytes) (rn rsp rdp : Z) : bytes :=
  nested 1 (marshalIPTuple os od on osp odp) ++ nested 2 (marshalIPTuple rs rd rn rsp rdp).
