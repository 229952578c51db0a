(** Model of collector/pkg/component/analyzer/tcpconnectanalyzer/internal/net_ip_socket.go: the socket table of a process in /proc.
    Simplifications: the file is a list of bytes; lines are shorter than 64 KiB and the file than 4 GiB; white space is ASCII; the text of a
    16-byte address is a parameter [ip6]. *)
From Verif Require Import Base Decimal EventModel ConnectModel.
Open Scope string_scope. Open Scope list_scope. Open Scope Z_scope.

(** strings.Split at the bytes satisfying [p] *)
Fixpoint splitOn (p : Z -> bool) (l : bytes) : list bytes :=
  match l with
  | [] => [[]]
  | c :: r => if p c then [] :: splitOn p r else match splitOn p r with h :: t => (c :: h) :: t | [] => [[c]] end
  end.
Definition isSpaceB (c : Z) : bool := ((9 <=? c) && (c <=? 13)) || (c =? 32).
Definition nonEmptyB (b : bytes) : bool := match b with [] => false | _ => true end.
(** strings.Fields *)
Definition fields (l : bytes) : list bytes := filter nonEmptyB (splitOn isSpaceB l).
(** bufio.ScanLines: the lines, without a last empty one and without a carriage return at the end *)
Definition dropCR (l : bytes) : bytes := match rev l with 13 :: r => rev r | _ => l end.
Fixpoint dropLastEmpty (l : list bytes) : list bytes := match l with [] => [] | [x] => if nonEmptyB x then [x] else [] | x :: r => x :: dropLastEmpty r end.
Definition scanLines (f : bytes) : list bytes := map dropCR (dropLastEmpty (splitOn (Z.eqb 10) f)).

Definition hexVal (c : Z) : option Z :=
  if (48 <=? c) && (c <=? 57) then Some (c - 48) else if (65 <=? c) && (c <=? 70) then Some (c - 55) else if (97 <=? c) && (c <=? 102) then Some (c - 87) else None.
(** encoding/hex.DecodeString *)
Fixpoint hexDecode (l : bytes) : res bytes :=
  match l with
  | [] => Ok []
  | [_] => Err
  | a :: b :: r => match hexVal a, hexVal b with Some x, Some y => bind (hexDecode r) (fun t => Ok (x * 16 + y :: t)) | _, _ => Err end
  end.
(** strconv.ParseUint(s, 16, 64) *)
Fixpoint hexNum (acc : Z) (l : bytes) : res Z := match l with [] => Ok acc | c :: r => match hexVal c with Some v => hexNum (acc * 16 + v) r | None => Err end end.
Definition parseHex (l : bytes) : res Z := match l with [] => Err | _ => bind (hexNum 0 l) (fun v => if v <? 2 ^ 64 then Ok v else Err) end.
(** net_ip_socket.go:102-122 parseIP and the String of the address (:86, 88) *)
Definition parseIP (ip6 : bytes -> bytes) (h : bytes) : res bytes :=
  bind (hexDecode h) (fun b =>
    match b with
    | [b0; b1; b2; b3] => Ok (digits b3 ++ DOT :: digits b2 ++ DOT :: digits b1 ++ DOT :: digits b0)
    | [b0; b1; b2; b3; b4; b5; b6; b7; b8; b9; b10; b11; b12; b13; b14; b15] => Ok (ip6 [b3; b2; b1; b0; b7; b6; b5; b4; b11; b10; b9; b8; b15; b14; b13; b12])
    | _ => Err
    end).
(** :125-163 parseNetIPSocketLine *)
Definition parseAddr (ip6 : bytes -> bytes) (f : bytes) : res (bytes * Z) :=
  match splitOn (Z.eqb 58) f with
  | [a; p] => bind (parseIP ip6 a) (fun ip => bind (parseHex p) (fun port => Ok (ip, port)))
  | _ => Err
  end.
Definition parseLine (ip6 : bytes -> bytes) (fs : list bytes) : res (ckey * bytes) :=
  match fs with
  | _ :: l :: r :: st :: _ =>
      if zlen fs <? 10 then Err
      else bind (parseAddr ip6 l) (fun a => bind (parseAddr ip6 r) (fun b => Ok ((fst a, snd a, fst b, snd b), st)))
  | _ => Err
  end.
(** :65-97 newNetIPSocket on the content of the file *)
Fixpoint parseLines (ip6 : bytes -> bytes) (ls : list bytes) (m : list (ckey * bytes)) : res (list (ckey * bytes)) :=
  match ls with
  | [] => Ok m
  | l :: r => bind (parseLine ip6 (fields l)) (fun p => parseLines ip6 r (aset m (fst p) (snd p)))
  end.
Definition parseTable (ip6 : bytes -> bytes) (f : bytes) : res (list (ckey * bytes)) := parseLines ip6 (skipn 1 (scanLines f)) [].
(** connect_monitor.go:232-252: what a scan finds, given the file of the process, if it can be opened *)
Definition lookIn (ip6 : bytes -> bytes) (proc : Z -> option bytes) (pid : Z) (k : ckey) : found :=
  match proc pid with
  | None => NoProcess
  | Some f => match parseTable ip6 f with Ok m => match aget m k with Some st => SocketState st | None => NoSocket end | _ => NoProcess end
  end.
