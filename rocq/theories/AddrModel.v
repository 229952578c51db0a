(** The forms of an address: the text in labels, the text given to a lookup, the pair of words (collector/pkg/metadata/conntracker/utils.go,
    internal/address.go) and Go's net.ParseIP, which conntracker_linux.go:57-66 uses.
    Simplification: net.ParseIP of a text whose first dot or colon is a colon is a parameter [v6]; nil is the empty slice. *)
From Verif Require Import Base Decimal EventModel ConntrackModel SocketModel.
Open Scope list_scope. Open Scope Z_scope.

(** utils.go:26-37 StringToUint32: strings.Split, then ParseUint with the errors ignored; the conversions keep 32 bits *)
Definition stringToUint32 (s : bytes) : Z :=
  match splitOn (Z.eqb DOT) s with
  | b0 :: b1 :: b2 :: b3 :: _ =>
      let v b := fst (parseUint 32 b) in
      Z.lor (Z.lor (Z.lor (v b0) (w32 (Z.shiftl (v b1) 8))) (w32 (Z.shiftl (v b2) 16))) (w32 (Z.shiftl (v b3) 24))
  | _ => 0
  end.

(** net.dtoi (Go 1.17 on): the number at the front, how many bytes it has, and the rest; None without a digit or from 0xFFFFFF on *)
Fixpoint dtoi (acc : Z) (k : nat) (s : bytes) : option (Z * nat * bytes) :=
  match s with
  | c :: r => if isDigit c then let n := acc * 10 + (c - 48) in if 16777215 <=? n then None else dtoi n (S k) r
              else match k with O => None | _ => Some (acc, k, s) end
  | [] => match k with O => None | _ => Some (acc, k, []) end
  end.
(** one number of net.parseIPv4: at most 255 and without a leading zero *)
Definition octet (s : bytes) : option (Z * bytes) :=
  match dtoi 0 0 s with
  | Some (n, k, r) => if 255 <? n then None else if Nat.ltb 1 k && (match s with 48 :: _ => true | _ => false end) then None else Some (n, r)
  | None => None
  end.
Definition dotOctet (s : bytes) : option (Z * bytes) := match s with 46 :: r => octet r | _ => None end.
(** net.parseIPv4 *)
Definition parseIPv4 (s : bytes) : option bytes :=
  match octet s with
  | Some (a, s1) =>
      match dotOctet s1 with
      | Some (b, s2) =>
          match dotOctet s2 with
          | Some (c, s3) => match dotOctet s3 with Some (d, []) => Some (v4InV6Prefix ++ [a; b; c; d]) | _ => None end
          | None => None
          end
      | None => None
      end
  | None => None
  end.
(** net.ParseIP: the first dot or colon decides *)
Definition parseIP (v6 : bytes -> bytes) (s : bytes) : bytes :=
  match find (fun c => (c =? DOT) || (c =? 58)) s with
  | Some c => if c =? DOT then match parseIPv4 s with Some ip => ip | None => [] end else v6 s
  | None => []
  end.

(** binary.LittleEndian.Uint32, Uint64, PutUint64 *)
Definition leNum (b : bytes) : Z := fold_right (fun x acc => x + 256 * acc) 0 b.
Fixpoint leBytes (n : nat) (v : Z) : bytes := match n with O => [] | S n => v mod 256 :: leBytes n (v / 256) end.
(** internal/address.go:73-80 V4Address *)
Definition v4Address (ip : Z) : address := V4 [ip mod 256; (ip / 2 ^ 8) mod 256; (ip / 2 ^ 16) mod 256; (ip / 2 ^ 24) mod 256].
(** internal/address.go:117-122 V6Address *)
Definition v6Address (low high : Z) : address := V6 (leBytes 8 high ++ leBytes 8 low).
(** internal/address.go:90-92, 132-134 Bytes *)
Definition addrBytes (a : address) : bytes := match a with V4 b => b | V6 b => b end.
(** internal/address.go:55-68 ToLowHigh *)
Definition toLowHigh (a : address) : Z * Z :=
  let b := addrBytes a in
  if zlen b =? 4 then (leNum (firstn 4 b), 0)
  else if zlen b =? 16 then (leNum (skipn 8 b), leNum (firstn 8 b))
  else (0, 0).
(** internal/address.go:44-52 NetIPFromAddress, when the buffer is large enough or allocated: the bytes written *)
Definition netIPFromAddress (a : address) : bytes := addrBytes a.
(** conntracker_linux.go:57-66 GetDNATTupleWithString: the connection asked for *)
Definition connOfText (v6 : bytes -> bytes) (s d : bytes) (sp dp ty : Z) : connStats :=
  {| csource := parseIP v6 s; cdest := parseIP v6 d; csport := sp; cdport := dp; ctype := ty |}.
(** conntracker_linux.go:67-76 GetDNATTuple *)
Definition connOfInt (s d : Z) (sp dp ty : Z) : connStats := {| csource := int32ToIp s; cdest := int32ToIp d; csport := sp; cdport := dp; ctype := ty |}.
