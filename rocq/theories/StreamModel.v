(** collector/pkg/metadata/conntracker/internal: reading conntrack messages off the netlink socket (consumer.go,
    message.go) and handing them to the translation cache (conntracker.go). *)
From Verif Require Import Base EventModel ConntrackModel NetlinkModel.
Open Scope list_scope. Open Scope Z_scope.

(** mdlayher/netlink Message: the type of its header and its data; flags, sequence and port are not used *)
Record nlmsg := { mtype : Z; mdata : bytes }.
Definition nlError : Z := 2.   (** netlink.Error *)
Definition nlDone : Z := 3.    (** netlink.Done *)

(** message.go:21-49 checkMessage: true when there is no error (nlenc.Int32 is native order: little endian) *)
Definition checkMessage (m : nlmsg) : bool :=
  if negb (mtype m =? nlError) then true
  else match leValue 4 (mdata m) with Ok c => s32 c =? 0 | _ => false end.

(** socket.go:118-158 ReceiveInto as seen by its caller, with consumer.go:513-524 socketError: the socket was closed,
    another error (for lack of buffer space or not), or a batch of messages.  The namespace of the batch is left out:
    the cache does not use it. *)
Inductive read := REof | RErr (enobuf : bool) | RMsgs (ms : list nlmsg).

(** What the loop has done: batches sent to the channel and the three counters of consumer.go:84-88 *)
Record rstate := { sent : list (list nlmsg); enobufs : Z; readErrors : Z; msgErrors : Z }.
Definition rinit : rstate := {| sent := []; enobufs := 0; readErrors := 0; msgErrors := 0 |}.

(** consumer.go:415-421: without its final "done" message *)
Definition endsDone (ms : list nlmsg) : bool :=
  match rev ms with [] => false | m :: _ => mtype m =? nlDone end.
Definition withoutDone (ms : list nlmsg) : list nlmsg := if endsDone ms then removelast ms else ms.

(** consumer.go:378-430 receive.  Each read comes with the answer of the throttle that follows it (consumer.go:443-482,
    see BreakModel): true when it fails.  The flag of the result says that the loop has ended; with the reads
    used up the loop waits. *)
Fixpoint receive (streaming : bool) (reads : list (read * bool)) (st : rstate) : rstate * bool :=
  match reads with
  | [] => (st, false)
  | (REof, _) :: _ => (st, true)
  | (r, thr) :: rest =>
      let ms := match r with RMsgs ms => ms | _ => [] end in
      let st1 := {| sent := sent st;
                    enobufs := enobufs st + (match r with RErr true => 1 | _ => 0 end);
                    readErrors := readErrors st + (match r with RErr false => 1 | _ => 0 end);
                    msgErrors := msgErrors st |} in
      if streaming && thr then (st1, true)
      else if negb (forallb checkMessage ms) then
        receive streaming rest {| sent := sent st1; enobufs := enobufs st1; readErrors := readErrors st1;
                                  msgErrors := msgErrors st1 + 1 |}
      else
        let st2 := {| sent := sent st1 ++ [withoutDone ms]; enobufs := enobufs st1; readErrors := readErrors st1;
                      msgErrors := msgErrors st1 |} in
        if endsDone ms && negb streaming then (st2, true) else receive streaming rest st2
  end.

Section Tracker.
  Variable maxSize : nat.        (** newConntrackCache's maxSize *)
  Variable orphanTimeout : Z.    (** conntracker.go: defaultOrphanTimeout *)

  (** What the tracker does, in the order its lock serialises it: a batch of the initial table (conntracker.go:219-232
      loadInitialState), a batch of the stream (236-275 run and register), a lookup (120-146), a deletion (193-208)
      and a compaction (277-288).  [clock i] are the two clock readings for the [i]-th connection of the batch. *)
  Inductive tstep :=
  | TLoad (ms : list nlmsg) (clock : nat -> Z * Z)
  | TEvent (ms : list nlmsg) (clock : nat -> Z * Z)
  | TLookup (s : connStats)
  | TDelete (s : connStats)
  | TCompact (now : Z).

  (** conntracker.go:219-232: as [register], but the entry does not wait to be used *)
  Definition load (c : cache) (x : con) (n1 n2 : Z) : option cache :=
    match IsNAT x with
    | None => None
    | Some false => Some c
    | Some true => match cAdd maxSize orphanTimeout c x false n1 n2 with Some (c', _) => Some c' | None => None end
    end.

  Fixpoint each (f : cache -> con -> Z -> Z -> option cache) (c : cache) (xs : list con) (clock : nat -> Z * Z)
    (i : nat) : option cache :=
    match xs with
    | [] => Some c
    | x :: r => match f c x (fst (clock i)) (snd (clock i)) with
                | None => None
                | Some c' => each f c' r clock (S i)
                end
    end.

  (** decoding.go:71-91 on the data of the messages; [None] is a panic (or a decoder that does not end) *)
  Definition decodeBatch (ms : list nlmsg) : option (list con) :=
    match decodeEvent (map mdata ms) with Some (Ok xs) => Some xs | _ => None end.

  Definition stepT (c : cache) (s : tstep) : option cache :=
    match s with
    | TLoad ms clock => match decodeBatch ms with Some xs => each load c xs clock O | None => None end
    | TEvent ms clock =>
        match decodeBatch ms with Some xs => each (register maxSize orphanTimeout) c xs clock O | None => None end
    | TLookup s => Some (fst (GetTranslationForConn c s))
    | TDelete s => Some (DeleteTranslation c s)
    | TCompact now => match removeOrphans c now with Some (c', _) => Some c' | None => None end
    end.
  Fixpoint runT (c : cache) (h : list tstep) : option cache :=
    match h with
    | [] => Some c
    | s :: r => match stepT c s with Some c' => runT c' r | None => None end
    end.
End Tracker.
