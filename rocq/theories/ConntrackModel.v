(** collector/pkg/metadata/conntracker: the NAT translation cache. *)
From Verif Require Import Base.

(** *** IP addresses: Go net.IP is a byte slice of length 4 or 16 (or nil). *)
Definition v4InV6Prefix : bytes := [0;0;0;0;0;0;0;0;0;0;255;255].

(** Go net.IP.To4 *)
Definition to4 (ip : bytes) : option bytes :=
  if zlen ip =? 4 then Some ip
  else if (zlen ip =? 16) && starts_with v4InV6Prefix ip then Some (skipn 12 ip)
  else None.

(** Go net.IP.Equal *)
Definition ipEqual (a b : bytes) : bool :=
  if zlen a =? zlen b then eqb a b
  else if (zlen a =? 4) && (zlen b =? 16) then starts_with v4InV6Prefix b && eqb a (skipn 12 b)
  else if (zlen a =? 16) && (zlen b =? 4) then starts_with v4InV6Prefix a && eqb (skipn 12 a) b
  else false.

(** internal/address.go:14-34, 70, 114: an address is a 4- or a 16-byte array *)
Inductive address := V4 (b : bytes) | V6 (b : bytes).
Definition address_eqb (x y : address) : bool :=
  match x, y with
  | V4 a, V4 b => eqb a b
  | V6 a, V6 b => eqb a b
  | _, _ => false
  end.
Lemma address_eqb_eq x y : address_eqb x y = true <-> x = y.
Proof.
  destruct x as [a|a], y as [b|b]; cbn [address_eqb]; try (split; discriminate).
  - rewrite (eqb_eq a b). split; [intros ->|intros E; inversion E]; reflexivity.
  - rewrite (eqb_eq a b). split; [intros ->|intros E; inversion E]; reflexivity.
Qed.
#[export] Instance Eqb_address : Eqb address := {| eqb := address_eqb; eqb_eq := address_eqb_eq |}.

(** internal/address.go:24-34 AddressFromNetIP; [copy] into a zeroed 16-byte array *)
Definition AddressFromNetIP (ip : bytes) : address :=
  match to4 ip with
  | Some v4 => V4 v4
  | None => V6 (firstn 16 (ip ++ repeat 0 16))
  end.

(** internal/conntracker.go connKey: source, source port, destination, destination port, transport *)
Definition connKey : Type := (address * Z) * (address * Z) * Z.
Definition TCP : Z := 0.   (** internal/model.go:12 *)
Definition UDP : Z := 1.   (** internal/model.go:15 *)

(** go-conntrack ct.ProtoTuple and ct.IPTuple: pointers may be nil *)
Record protoTuple := { pnum : option Z; psport : option Z; pdport : option Z }.
Record ipTuple := { tsrc : option bytes; tdst : option bytes; tproto : option protoTuple }.
(** internal/decoding.go:47-50 Con; the network namespace id is not used by the cache *)
Record con := { origin : option ipTuple; reply : option ipTuple }.

(** internal/model.go:25-30 IPTranslation *)
Record translation := { replSrcIP : bytes; replDstIP : bytes; replSrcPort : Z; replDstPort : Z }.

(** internal/conntracker.go:407-420 formatIPTranslation; [None] is a nil dereference *)
Definition formatIPTranslation (t : ipTuple) : option translation :=
  match tsrc t, tdst t, tproto t with
  | Some s, Some d, Some p =>
      match psport p, pdport p with
      | Some sp, Some dp => Some {| replSrcIP := s; replDstIP := d; replSrcPort := sp; replDstPort := dp |}
      | _, _ => None
      end
  | _, _, _ => None
  end.

(** internal/conntracker.go:422-440 formatKey: [None] a nil dereference, [Some None] not ok (neither TCP nor UDP) *)
Definition formatKey (t : ipTuple) : option (option connKey) :=
  match tsrc t, tdst t, tproto t with
  | Some s, Some d, Some p =>
      match psport p, pdport p, pnum p with
      | Some sp, Some dp, Some n =>
          if n =? 6 then Some (Some (AddressFromNetIP s, sp, (AddressFromNetIP d, dp), TCP))
          else if n =? 17 then Some (Some (AddressFromNetIP s, sp, (AddressFromNetIP d, dp), UDP))
          else Some None
      | _, _, _ => None
      end
  | _, _, _ => None
  end.

(** internal/conntracker.go:389-405 IsNAT; [None] is a nil dereference at 401-402 (the sources and destinations
    are not checked for nil) *)
Definition IsNAT (c : con) : option bool :=
  match origin c, reply c with
  | Some o, Some r =>
      match tproto o, tproto r with
      | Some po, Some pr =>
          match psport po, pdport po, psport pr, pdport pr with
          | Some osp, Some odp, Some rsp, Some rdp =>
              match tsrc o, tdst r with
              | Some os, Some rd =>
                  if negb (ipEqual os rd) then Some true
                  else match tdst o, tsrc r with
                       | Some od, Some rs =>
                           Some (negb (ipEqual od rs) || negb (osp =? rdp) || negb (odp =? rsp))
                       | _, _ => None
                       end
              | _, _ => None
              end
          | _, _, _, _ => Some false
          end
      | _, _ => Some false
      end
  | _, _ => Some false
  end.

(** *** The cache *)

(** internal/conntracker.go translationEntry: the translation and a pointer into the orphan list
    (a list element is named by a fresh number) *)
Record entry := { etrans : translation; eorphan : option nat }.
(** internal/conntracker.go orphanEntry: element name, key, expiry time *)
Definition orphan : Type := nat * connKey * Z.
Definition oid (o : orphan) : nat := fst (fst o).
Definition okey (o : orphan) : connKey := snd (fst o).
Definition oexp (o : orphan) : Z := snd o.

(** internal/conntracker.go:292-296 conntrackCache.  [lru]: most recently used first; [orphans]: front first. *)
Record cache := { lru : list (connKey * entry); orphans : list orphan; nextId : nat }.
Definition emptyCache : cache := {| lru := []; orphans := []; nextId := O |}.

Section Cache.
  Variable maxSize : nat.        (** newConntrackCache's maxSize *)
  Variable orphanTimeout : Z.    (** newConntrackCache's orphanTimeout *)

  (** container/list Remove of an element *)
  Definition removeOrphan (os : list orphan) (i : option nat) : list orphan :=
    match i with
    | None => os
    | Some i => filter (fun o => negb (Nat.eqb (oid o) i)) os
    end.

  (** internal/conntracker.go:314-327 Get; simplelru's Get moves the element to the front *)
  Definition cGet (c : cache) (k : connKey) : cache * option translation :=
    match aget (lru c) k with
    | None => (c, None)
    | Some e =>
        ({| lru := (k, {| etrans := etrans e; eorphan := None |}) :: adel (lru c) k;
            orphans := removeOrphan (orphans c) (eorphan e);
            nextId := nextId c |}, Some (etrans e))
    end.

  (** internal/conntracker.go:329-331 Remove; simplelru's Remove calls the eviction callback (304-309) *)
  Definition cRemove (c : cache) (k : connKey) : cache * bool :=
    match aget (lru c) k with
    | None => (c, false)
    | Some e =>
        ({| lru := adel (lru c) k; orphans := removeOrphan (orphans c) (eorphan e); nextId := nextId c |}, true)
    end.

  (** simplelru Add of an existing key: replaces the value and moves to the front, no callback.
      Of a new key: inserts in front and, when the size is exceeded, removes the oldest
      element with the callback (304-309) *)
  Definition lruAdd (c : cache) (k : connKey) (e : entry) : cache * bool :=
    if ahas (lru c) k then
      ({| lru := (k, e) :: adel (lru c) k; orphans := orphans c; nextId := nextId c |}, false)
    else
      let l := (k, e) :: lru c in
      if (maxSize <? List.length l)%nat then
        match rev l with
        | [] => (c, false)
        | (_, old) :: rest =>
            ({| lru := rev rest; orphans := removeOrphan (orphans c) (eorphan old); nextId := nextId c |}, true)
        end
      else ({| lru := l; orphans := orphans c; nextId := nextId c |}, false).

  (** internal/conntracker.go:340-362: registering one direction, at time [now]; the flag says whether an
      entry was evicted *)
  Definition cRegister (c : cache) (k : connKey) (t : translation) (orph : bool) (now : Z) : cache * bool :=
    let os := match aget (lru c) k with
              | Some e => removeOrphan (orphans c) (eorphan e)
              | None => orphans c
              end in
    if orph then
      lruAdd {| lru := lru c; orphans := (nextId c, k, now + orphanTimeout) :: os; nextId := S (nextId c) |}
             k {| etrans := t; eorphan := Some (nextId c) |}
    else
      lruAdd {| lru := lru c; orphans := os; nextId := nextId c |} k {| etrans := t; eorphan := None |}.

  (** internal/conntracker.go:374-386 removeOrphans: the loop is bounded by [fuel]; running out of fuel
      (the Go loop not terminating) is [None] *)
  Fixpoint removeOrphansLoop (fuel : nat) (c : cache) (now : Z) (removed : Z) : option (cache * Z) :=
    match rev (orphans c) with
    | [] => Some (c, removed)
    | o :: _ =>
        if negb (oexp o <? now) then Some (c, removed)
        else match fuel with
             | O => None
             | S fuel' => removeOrphansLoop fuel' (fst (cRemove c (okey o))) now (removed + 1)
             end
    end.
  Definition removeOrphans (c : cache) (now : Z) : option (cache * Z) :=
    removeOrphansLoop (List.length (orphans c)) c now 0.

  (** internal/conntracker.go:333-368 Add: both directions, each at its own clock reading;
      the count is the number of evictions *)
  Definition cAdd (c : cache) (x : con) (orph : bool) (now1 now2 : Z) : option (cache * Z) :=
    let reg (c : cache) (kt tr : option ipTuple) (now : Z) : option (cache * Z) :=
      match kt, tr with
      | Some kt, Some tr =>
          match formatKey kt with
          | None => None
          | Some None => Some (c, 0)
          | Some (Some k) =>
              match formatIPTranslation tr with
              | None => None
              | Some t => let '(c', ev) := cRegister c k t orph now in Some (c', if ev then 1 else 0)
              end
          end
      | _, _ => None
      end in
    match reg c (origin x) (reply x) now1 with
    | None => None
    | Some (c1, n1) =>
        match reg c1 (reply x) (origin x) now2 with
        | None => None
        | Some (c2, n2) => Some (c2, n1 + n2)
        end
    end.

  (** internal/conntracker.go:236-252 register: only NAT connections are stored *)
  Definition register (c : cache) (x : con) (now1 now2 : Z) : option cache :=
    match IsNAT x with
    | None => None
    | Some false => Some c
    | Some true => match cAdd c x true now1 now2 with Some (c', _) => Some c' | None => None end
    end.

  (** internal/conntracker.go:132-154 GetTranslationForConn, with ConnectionStats (internal/model.go:33-40) *)
  Record connStats := { csource : bytes; cdest : bytes; csport : Z; cdport : Z; ctype : Z }.
  Definition keyOfStats (s : connStats) : connKey :=
    (AddressFromNetIP (csource s), csport s, (AddressFromNetIP (cdest s), cdport s), ctype s).
  Definition GetTranslationForConn (c : cache) (s : connStats) : cache * option translation :=
    cGet c (keyOfStats s).
  (** internal/conntracker.go:193-208 DeleteTranslation *)
  Definition DeleteTranslation (c : cache) (s : connStats) : cache := fst (cRemove c (keyOfStats s)).

  (** conntracker_linux.go:79-95 getDNATTuple *)
  Definition getDNATTuple (c : cache) (s : connStats) : cache * option translation :=
    let '(c', r) := GetTranslationForConn c s in
    match r with
    | None => (c', None)
    | Some t => if ipEqual (cdest s) (replSrcIP t) && (replSrcPort t =? cdport s) then (c', None) else (c', Some t)
    end.

  (** *** Histories of cache operations, in the order the tracker's lock serialises them *)
  Inductive op :=
  | Reg (k : connKey) (t : translation) (orph : bool) (now : Z)
  | Get (k : connKey)
  | Rem (k : connKey)
  | Compact (now : Z).

  Definition stepOp (c : cache) (o : op) : cache :=
    match o with
    | Reg k t b now => fst (cRegister c k t b now)
    | Get k => fst (cGet c k)
    | Rem k => fst (cRemove c k)
    | Compact now => match removeOrphans c now with Some (c', _) => c' | None => c end
    end.
  Definition runOps (h : list op) : cache := fold_left stepOp h emptyCache.
End Cache.

(** utils.go:9-16 int32ToIp *)
Definition int32ToIp (i : Z) : bytes := [i mod 256; (i / 2 ^ 8) mod 256; (i / 2 ^ 16) mod 256; (i / 2 ^ 24) mod 256].
(** utils.go:18-24 IPToUInt32 *)
Definition IPToUInt32 (ip : bytes) : Z :=
  match to4 ip with
  | Some [b0; b1; b2; b3] => Z.lor (Z.lor (Z.lor b0 (Z.shiftl b1 8)) (Z.shiftl b2 16)) (Z.shiftl b3 24)
  | _ => 0
  end.
